(** ModelSwitches.v -- dvbcsa_algo.c and dvbcsa_bs_algo.c of /repo/src compiled with the macros
    DVBCSA_DISABLE_STREAM and DVBCSA_DISABLE_BLOCK, which leave out one layer of the cipher.
    Neither is defined by the build system; with both undefined these functions are the ones of
    ModelClassical.v and ModelBsAlgo.v (Switches.v, [sw_off]). *)
From Verif Require Import Base ModelClassical ModelBsWord ModelBsTranspose ModelBsStream ModelBsBlock ModelBsAlgo.
Local Open Scope N_scope.

Record switches := mk_switches { disable_stream : bool; disable_block : bool }.

(* dvbcsa_algo.c:27-48 dvbcsa_decrypt, #ifndef at lines 35 and 39 *)
Definition sw_decrypt (s : switches) (be : bool) (m : mem) (key data len : N) : res mem :=
  let alen := N.land len 0xfffffff8 in
  if len <? 8 then Ok m
  else
    m <- (if disable_stream s then Ok m
          else dvbcsa_stream_xor be m (key + 8) data (data + 8) (len - 8)) ;;
    if disable_block s then Ok m
    else
      m <- dvbcsa_block_decrypt m (key + 16) data data ;;
      '(_, m) <- while_ (N.to_nat len) (fun '(i, _) => i <? alen) (fun '(i, m) =>
          m <- dvbcsa_xor_64 be m (data + i - 8) (data + i) ;;
          m <- dvbcsa_block_decrypt m (key + 16) (data + i) (data + i) ;;
          Ok (u32 (i + 8), m)) (8, m) ;;
      Ok m.

(* dvbcsa_algo.c:50-71 dvbcsa_encrypt, #ifndef at lines 58 and 68 *)
Definition sw_encrypt (s : switches) (be : bool) (m : mem) (key data len : N) : res mem :=
  let alen := N.land len 0xfffffff8 in
  if len <? 8 then Ok m
  else
    m <- (if disable_block s then Ok m
          else
            m <- dvbcsa_block_encrypt m (key + 16) (data + alen - 8) (data + alen - 8) ;;
            '(_, m) <- while_ (N.to_nat len) (fun '(i, _) => (0 <=? i)%Z) (fun '(i, m) =>
                m <- dvbcsa_xor_64 be m (padd data i) (padd data (i + 8)) ;;
                m <- dvbcsa_block_encrypt m (key + 16) (padd data i) (padd data i) ;;
                i <- int_ok (i - 8) ;;
                Ok (i, m)) (to_int (u32 (alen + 2 ^ 32 - 16)), m) ;;
            Ok m) ;;
    if disable_stream s then Ok m
    else dvbcsa_stream_xor be m (key + 8) data (data + 8) (len - 8).

(* dvbcsa_bs_algo.c:68-91 dvbcsa_bs_decrypt, #ifndef at lines 81 and 84 *)
Definition sw_bs_decrypt (s : switches) (c : build) (jk : junk) (m : mem) (key pcks maxlen : N) : res mem :=
  if have_assert c && negb (maxlen_ok maxlen) then Abort
  else
    pb <- dvbcsa_pkt_buf_load c m pcks (mk_pb 0 (jk_len8 jk) (jk_data jk)) ;;
    pb <- (if disable_stream s then Ok pb
           else dvbcsa_bs_stream_cipher_batch c (jk_regs jk) m key pb maxlen) ;;
    pb <- (if disable_block s then Ok pb
           else dvbcsa_bs_block_decrypt_batch c (jk_block jk) m key pb maxlen) ;;
    dvbcsa_pkt_buf_store c m pcks pb.

(* dvbcsa_bs_algo.c:93-116 dvbcsa_bs_encrypt, #ifndef at lines 106 and 109 *)
Definition sw_bs_encrypt (s : switches) (c : build) (jk : junk) (m : mem) (key pcks maxlen : N) : res mem :=
  if have_assert c && negb (maxlen_ok maxlen) then Abort
  else
    pb <- dvbcsa_pkt_buf_load c m pcks (mk_pb 0 (jk_len8 jk) (jk_data jk)) ;;
    pb <- (if disable_block s then Ok pb
           else dvbcsa_bs_block_encrypt_batch c (jk_block jk) m key pb maxlen) ;;
    pb <- (if disable_stream s then Ok pb
           else dvbcsa_bs_stream_cipher_batch c (jk_regs jk) m key pb maxlen) ;;
    dvbcsa_pkt_buf_store c m pcks pb.
