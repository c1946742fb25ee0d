(** ModelBsAlgo.v -- dvbcsa_bs_key.c and dvbcsa_bs_algo.c of /repo/src. *)
From Verif Require Import Base Mem ModelClassical ModelBsWord ModelBsTranspose ModelBsStream ModelBsBlock.
Local Open Scope N_scope.

(** ** dvbcsa_bs_key.c *)

(* A local array of n bytes with indeterminate contents: the memory seen by the callee is the
   caller's, moved up by n, with the new object at 0 .. n-1.  (A device to give the local array
   addresses of its own; every other object keeps its content at the shifted address.) *)
Definition with_local (n : N) (junk : N -> N) (m : mem) : mem :=
  fun a => if a <? n then Some (junk a) else m (a - n).

(* bs_key.c:47-64: the word stored in key->block[i]; for 32-bit words kk[i] * 0x01010101 is an
   int multiplication, for the others the constant is unsigned long long *)
Definition block_key_word (c : build) (k : N) : res word :=
  match tgt c with
  | UINT32 =>
      v <- (if wrapv c then Ok (u32 (k * 0x01010101))
            else z <- int_ok (Z.of_N k * 0x01010101)%Z ;; Ok (Z.to_N z)) ;;
      Ok (native_bytes (big_endian c) 4 v)
  | _ =>
      let v := u64 (k * 0x0101010101010101) in
      Ok (concat (repeat (native_bytes (big_endian c) 8 v) (word_bytes c / 8)))
  end.

(* bs_key.c:29-65 dvbcsa_bs_key_set; [kj] is the indeterminate content of the local kk[56] *)
Definition dvbcsa_bs_key_set (c : build) (kj : N -> N) (m : mem) (cw key : N) : res mem :=
  ck <- dvbcsa_load_le64 (big_endian c) m cw ;;
  m <- for_ 64 0 (fun i m =>
         store_word c m (key + N.of_nat ((56 + i) * word_bytes c))
           (if N.testbit ck (N.lxor (N.of_nat i) 4) then BS_VAL c 1 255 else BS_VAL c 1 0)) m ;;
  ml <- dvbcsa_key_schedule_block (big_endian c) (with_local 56 kj m) (cw + 56) 0 ;;
  kk <- load_bytes ml 0 56 ;;
  for_ 56 0 (fun i m =>
    k <- aget kk i ;;
    w <- block_key_word c k ;;
    store_word c m (key + N.of_nat (i * word_bytes c)) w) m.

(** ** dvbcsa_bs_algo.c *)

(* dvbcsa/dvbcsa.h:75-79 struct dvbcsa_bs_batch_s: pointer, unsigned int, padding *)
Definition ptr_bytes (c : build) : nat := if ptr64 c then 8 else 4.
Definition entry_bytes (c : build) : nat := (2 * ptr_bytes c)%nat.
Definition batch_data (c : build) (m : mem) (pcks : N) (i : nat) : res N :=
  b <- load_bytes m (pcks + N.of_nat (i * entry_bytes c)) (ptr_bytes c) ;;
  Ok (native_val (big_endian c) b).
Definition batch_len (c : build) (m : mem) (pcks : N) (i : nat) : res N :=
  b <- load_bytes m (pcks + N.of_nat (i * entry_bytes c + ptr_bytes c)) 4 ;;
  Ok (native_val (big_endian c) b).

(* bs_algo.c:41-56 dvbcsa_pkt_buf_load; the fuel is one more than the number of slots, which is
   enough because len8[i] is out of bounds from i = BS_BATCH_SIZE on *)
Fixpoint pkt_buf_load_from (fuel : nat) (c : build) (m : mem) (pcks : N) (i : nat)
  (l8 : list N) (data : list N) : res pkt_buf :=
  match fuel with
  | O => Fuel
  | S fuel =>
      p <- batch_data c m pcks i ;;
      if p =? 0 then Ok (mk_pb i l8 data)
      else
        len <- batch_len c m pcks i ;;
        l8 <- aset l8 i (N.land len 0xfffffff8) ;;
        len <- batch_len c m pcks i ;;
        bs <- load_bytes m p (N.to_nat len) ;;
        data <- bset data (i * slot) bs ;;
        pkt_buf_load_from fuel c m pcks (S i) l8 data
  end.
Definition dvbcsa_pkt_buf_load (c : build) (m : mem) (pcks : N) (pb : pkt_buf) : res pkt_buf :=
  pkt_buf_load_from (S (batch_size c)) c m pcks 0 (len8 pb) (pdata pb).

(* bs_algo.c:58-66 dvbcsa_pkt_buf_store *)
Fixpoint pkt_buf_store_from (fuel : nat) (c : build) (m : mem) (pcks : N) (i : nat)
  (data : list N) : res mem :=
  match fuel with
  | O => Fuel
  | S fuel =>
      p <- batch_data c m pcks i ;;
      if p =? 0 then Ok m
      else
        len <- batch_len c m pcks i ;;
        bs <- bget data (i * slot) (N.to_nat len) ;;
        m <- store_bytes m p bs ;;
        pkt_buf_store_from fuel c m pcks (S i) data
  end.
Definition dvbcsa_pkt_buf_store (c : build) (m : mem) (pcks : N) (pb : pkt_buf) : res mem :=
  pkt_buf_store_from (S (batch_size c)) c m pcks 0 (pdata pb).

(* everything a bitslice call finds uninitialised on its stack *)
Record junk := mk_junk {
  jk_len8 : list N; jk_data : list N;  (* pbuf *)
  jk_regs : regs word;                 (* regs of dvbcsa_bs_stream_cipher_batch *)
  jk_block : N -> block_junk           (* locals of the block functions, per call *)
}.

(* bs_algo.c:75-76, 100-101: assert(maxlen % 8 == 0); assert(maxlen <= 184) *)
Definition maxlen_ok (maxlen : N) : bool := (maxlen mod 8 =? 0) && (maxlen <=? 184).

(* bs_algo.c:68-91 dvbcsa_bs_decrypt; BS_EMPTY leaves no trace in memory *)
Definition dvbcsa_bs_decrypt (c : build) (jk : junk) (m : mem) (key pcks maxlen : N) : res mem :=
  if have_assert c && negb (maxlen_ok maxlen) then Abort
  else
    pb <- dvbcsa_pkt_buf_load c m pcks (mk_pb 0 (jk_len8 jk) (jk_data jk)) ;;
    pb <- dvbcsa_bs_stream_cipher_batch c (jk_regs jk) m key pb maxlen ;;
    pb <- dvbcsa_bs_block_decrypt_batch c (jk_block jk) m key pb maxlen ;;
    dvbcsa_pkt_buf_store c m pcks pb.

(* bs_algo.c:93-116 dvbcsa_bs_encrypt *)
Definition dvbcsa_bs_encrypt (c : build) (jk : junk) (m : mem) (key pcks maxlen : N) : res mem :=
  if have_assert c && negb (maxlen_ok maxlen) then Abort
  else
    pb <- dvbcsa_pkt_buf_load c m pcks (mk_pb 0 (jk_len8 jk) (jk_data jk)) ;;
    pb <- dvbcsa_bs_block_encrypt_batch c (jk_block jk) m key pb maxlen ;;
    pb <- dvbcsa_bs_stream_cipher_batch c (jk_regs jk) m key pb maxlen ;;
    dvbcsa_pkt_buf_store c m pcks pb.

(* bs_algo.c:150-153 dvbcsa_bs_batch_size *)
Definition dvbcsa_bs_batch_size (c : build) : N := N.of_nat (batch_size c).
