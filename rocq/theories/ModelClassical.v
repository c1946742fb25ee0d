(** ModelClassical.v -- model of the classical (one packet at a time) part of /repo/src:
    dvbcsa_pv.h, dvbcsa_block.c, dvbcsa_key.c, dvbcsa_stream.c, dvbcsa_algo.c.

    Conventions.  Memory is a partial map from addresses to bytes ([Base.mem]); every load and
    store of the C code through a pointer goes through it and is undefined outside live objects.
    Local arrays and constant tables are lists with checked indices.  [be] selects the
    big-endian variant of the source (DVBCSA_ENDIAN_LITTLE not defined).  The address space is
    unbounded (pointer arithmetic does not wrap).  DVBCSA_DISABLE_BLOCK and
    DVBCSA_DISABLE_STREAM (debugging aids, never defined by the build system) are undefined. *)
From Verif Require Import Base Tables.
Local Open Scope N_scope.

(** ** dvbcsa_pv.h *)

(* dvbcsa_pv.h:99-107 dvbcsa_xor_64: both words are copied to 64-bit locals in native byte
   order, XORed, and copied back. *)
Definition dvbcsa_xor_64 (be : bool) (m : mem) (b a : N) : res mem :=
  ia <- load_bytes m a 8 ;;
  ib <- load_bytes m b 8 ;;
  let r := N.lxor (native_val be ib) (native_val be ia) in
  store_bytes m b (native_bytes be 8 r).

(* dvbcsa_pv.h:109-122 dvbcsa_load_le32: memcpy on little-endian targets, shifts otherwise *)
Definition dvbcsa_load_le32 (be : bool) (m : mem) (p : N) : res N :=
  if be then
    p3 <- load m (p + 3) ;; p2 <- load m (p + 2) ;; p1 <- load m (p + 1) ;; p0 <- load m p ;;
    Ok (N.lor (N.lor (N.lor (u32 (N.shiftl p3 24)) (u32 (N.shiftl p2 16)))
                     (u32 (N.shiftl p1 8))) p0)
  else
    i <- load_bytes m p 4 ;; Ok (native_val false i).

(* dvbcsa_pv.h:124-142 dvbcsa_load_le64 *)
Definition dvbcsa_load_le64 (be : bool) (m : mem) (p : N) : res N :=
  if be then
    p7 <- load m (p + 7) ;; p6 <- load m (p + 6) ;; p5 <- load m (p + 5) ;; p4 <- load m (p + 4) ;;
    p3 <- load m (p + 3) ;; p2 <- load m (p + 2) ;; p1 <- load m (p + 1) ;; p0 <- load m p ;;
    Ok (N.lor (N.lor (N.lor (N.lor (N.lor (N.lor (N.lor
          (u64 (N.shiftl p7 56)) (u64 (N.shiftl p6 48))) (u64 (N.shiftl p5 40)))
          (u64 (N.shiftl p4 32))) (u64 (N.shiftl p3 24))) (u64 (N.shiftl p2 16)))
          (u64 (N.shiftl p1 8))) p0)
  else
    i <- load_bytes m p 8 ;; Ok (native_val false i).

(* dvbcsa_pv.h:144-159 dvbcsa_store_le64 *)
Definition dvbcsa_store_le64 (be : bool) (m : mem) (p w : N) : res mem :=
  if be then
    m <- store m (p + 7) (u8 (N.shiftr w 56)) ;;
    m <- store m (p + 6) (u8 (N.shiftr w 48)) ;;
    m <- store m (p + 5) (u8 (N.shiftr w 40)) ;;
    m <- store m (p + 4) (u8 (N.shiftr w 32)) ;;
    m <- store m (p + 3) (u8 (N.shiftr w 24)) ;;
    m <- store m (p + 2) (u8 (N.shiftr w 16)) ;;
    m <- store m (p + 1) (u8 (N.shiftr w 8)) ;;
    store m p (u8 w)
  else
    store_bytes m p (native_bytes false 8 w).

(** ** dvbcsa_block.c *)

(* dvbcsa_block.c:84-102: body of the round loop of dvbcsa_block_decrypt; [k] is key[i] *)
Definition block_decrypt_round (k : N) (W : list N) : res (list N) :=
  w6 <- aget W 6 ;;
  S  <- tget dvbcsa_block_sbox (N.lxor k w6) ;;
  w7 <- aget W 7 ;;
  let L := N.lxor w7 S in
  x <- aget W 6 ;;                                   W <- aset W 7 x ;;
  x <- aget W 5 ;; t <- tget csa_block_perm S ;;     W <- aset W 6 (N.lxor x t) ;;
  x <- aget W 4 ;;                                   W <- aset W 5 x ;;
  x <- aget W 3 ;;                                   W <- aset W 4 (N.lxor x L) ;;
  x <- aget W 2 ;;                                   W <- aset W 3 (N.lxor x L) ;;
  x <- aget W 1 ;;                                   W <- aset W 2 (N.lxor x L) ;;
  x <- aget W 0 ;;                                   W <- aset W 1 x ;;
  aset W 0 L.

(* dvbcsa_block.c:77-105 dvbcsa_block_decrypt: while (i--) from i = 56 *)
Definition dvbcsa_block_decrypt (m : mem) (key inp out : N) : res mem :=
  W <- load_bytes m inp 8 ;;
  W <- for_down 56 (fun i W =>
         k <- load m (key + N.of_nat i) ;; block_decrypt_round k W) W ;;
  store_bytes m out W.

(* dvbcsa_block.c:114-134: body of the round loop of dvbcsa_block_encrypt *)
Definition block_encrypt_round (k : N) (W : list N) : res (list N) :=
  w7 <- aget W 7 ;;
  S  <- tget dvbcsa_block_sbox (N.lxor k w7) ;;
  L  <- aget W 1 ;;
  x <- aget W 2 ;; y <- aget W 0 ;;                  W <- aset W 1 (N.lxor x y) ;;
  x <- aget W 3 ;; y <- aget W 0 ;;                  W <- aset W 2 (N.lxor x y) ;;
  x <- aget W 4 ;; y <- aget W 0 ;;                  W <- aset W 3 (N.lxor x y) ;;
  x <- aget W 5 ;;                                   W <- aset W 4 x ;;
  x <- aget W 6 ;; t <- tget csa_block_perm S ;;     W <- aset W 5 (N.lxor x t) ;;
  x <- aget W 7 ;;                                   W <- aset W 6 x ;;
  x <- aget W 0 ;;                                   W <- aset W 7 (N.lxor x S) ;;
  aset W 0 L.

(* dvbcsa_block.c:107-137 dvbcsa_block_encrypt *)
Definition dvbcsa_block_encrypt (m : mem) (key inp out : N) : res mem :=
  W <- load_bytes m inp 8 ;;
  W <- for_ 56 0 (fun i W =>
         k <- load m (key + N.of_nat i) ;; block_encrypt_round k W) W ;;
  store_bytes m out W.

(** ** dvbcsa_key.c *)

(* dvbcsa_key.c:559-571 dvbcsa_key_permute_block *)
Definition dvbcsa_key_permute_block (k : N) : res N :=
  '(n, _) <- for_ 8 0 (fun i '(n, k) =>
      row <- aget kperm i ;;
      e <- tget row (N.land k 0xff) ;;
      Ok (N.lor n e, N.shiftr k 8)) (0, k) ;;
  Ok n.

(* dvbcsa_key.c:573-586 dvbcsa_key_schedule_block.  First loop: i counts from 6 down to 1;
   [j] below is i - 1.  k[0..5] start uninitialised. *)
Definition dvbcsa_key_schedule_block (be : bool) (m : mem) (cw kk : N) : res mem :=
  a <- dvbcsa_load_le64 be m cw ;;
  k <- aset (repeat None 7) 6 (Some a) ;;
  k <- for_down 6 (fun j k =>
         x <- oget k (S j) ;; y <- dvbcsa_key_permute_block x ;; aset k j (Some y)) k ;;
  for_ 7 0 (fun i m =>
    for_ 8 0 (fun j m =>
      x <- oget k i ;;
      store m (kk + N.of_nat (i * 8 + j))
              (u8 (N.lxor (N.shiftr x (N.of_nat (j * 8))) (N.of_nat i)))) m) m.

(* dvbcsa_block.c:27-35 dvbcsa_key_set; struct dvbcsa_key_s (dvbcsa_pv.h:82-87) is
   cw at offset 0, cws at offset 8, sch at offset 16, 72 bytes in all *)
Definition dvbcsa_key_set (be : bool) (m : mem) (cw key : N) : res mem :=
  a <- dvbcsa_load_le64 be m cw ;;
  m <- dvbcsa_store_le64 be m key a ;;
  m <- dvbcsa_store_le64 be m (key + 8)
         (N.lor (N.shiftr (N.land a 0xf0f0f0f0f0f0f0f0) 4)
                (u64 (N.shiftl (N.land a 0x0f0f0f0f0f0f0f0f) 4))) ;;
  dvbcsa_key_schedule_block be m cw (key + 16).

(** ** dvbcsa_stream.c *)

(* dvbcsa_stream.c:57-61 swap_nbl *)
Definition swap_nbl (byte : N) : N := u8 (N.lor (N.shiftr byte 4) (N.shiftl byte 4)).

(* dvbcsa_stream.c:44,68-73 csa_stream_rotate *)
Definition csa_stream_rotate (pqzyx x : N) : N :=
  if negb (N.land pqzyx 0x1000 =? 0)
  then u8 (N.land (N.lor (u32 (N.shiftl x 1)) (N.land (N.shiftr x 3) 1)) 0xf)
  else u8 x.

(* one lookup of csa_stream_sboxes: t = A & mask; sbox[n][((t>>a)^(t>>b)^(t>>c)^(t>>d)^(t>>e)) & 0x1f] *)
Definition csa_stream_sbox_lookup (A mask : N) (n : nat) (a b c d e : N) : res N :=
  let t := N.land A mask in
  row <- aget csa_stream_sbox n ;;
  tget row (N.land (N.lxor (N.lxor (N.lxor (N.lxor (N.shiftr t a) (N.shiftr t b)) (N.shiftr t c))
                                   (N.shiftr t d)) (N.shiftr t e)) 0x1f).

(* dvbcsa_stream.c:81-142 csa_stream_sboxes *)
Definition csa_stream_sboxes (A : N) : res N :=
  r1 <- csa_stream_sbox_lookup A 0x2018004200 1 37 27 25 11  5 ;; let r := r1 in
  r4 <- csa_stream_sbox_lookup A 0x4201480000 4 38 32 22 16 18 ;; let r := N.lor r r4 in
  r5 <- csa_stream_sbox_lookup A 0x8040122000 5 39 29 18 14  9 ;; let r := N.lor r r5 in
  r0 <- csa_stream_sbox_lookup A 0x1082010040 0 36 30 23  3 12 ;; let r := N.lor r r0 in
  r2 <- csa_stream_sbox_lookup A 0x0004a00180 2 26 22 19  5  3 ;; let r := N.lor r r2 in
  r3 <- csa_stream_sbox_lookup A 0x0100048820 3 32 17  9  2 11 ;; let r := N.lor r r3 in
  r6 <- csa_stream_sbox_lookup A 0x0c20001400 6 35 33 27  9  6 ;; let r := N.lor r r6 in
  Ok r.

(* dvbcsa_stream.c:150-168 csa_stream_B_sel *)
Definition csa_stream_B_sel (B : N) : N :=
  let t := u32 (N.shiftr B 9) in
  let sh n := N.shiftr t n in
  N.lxor (N.lxor (N.lxor (N.lxor (N.lxor (N.lxor
    (N.land (N.lxor t (sh 27)) 0x8)
    (N.land (sh 18) 0x9))
    (N.land (N.lxor (sh 22) (sh 7)) 0x4))
    (N.land (sh 4) 0x5))
    (N.land (N.lxor (N.lxor (sh 24) (sh 6)) (sh 11)) 0x2))
    (N.land (N.lxor (sh 29) (sh 23)) 0x1))
    (N.land (sh 13) 0xe).

(* dvbcsa_stream.c:176-248 csa_stream_cfed *)
Definition csa_stream_cfed (pqzyx cfed : N) : res N :=
  c <- tget csa_stream_cdef (N.shiftr (N.lor (N.land cfed 0x10ff) (N.land pqzyx 0x2f00)) 4) ;;
  Ok (N.lor (N.shiftr (N.land cfed 0x0f00) 4) c).

(* the local variables A, B, pqzyx, cfed of dvbcsa_stream_xor (dvbcsa_stream.c:310-312) *)
Record cs_state := mk_cs { csA : N; csB : N; cs_pqzyx : N; cs_cfed : N }.

(* dvbcsa_stream.c:255-273 csa_stream_init_round (NBGET: line 31; GETX.. lines 41-49) *)
Definition csa_stream_init_round (iv : N) (s : cs_state) : res cs_state :=
  let A := csA s in let B := csB s in let pqzyx := cs_pqzyx s in let cfed := cs_cfed s in
  let A := u64 (N.shiftl A 4) in
  let A := N.lor A (N.land (N.lxor (N.lxor (N.lxor (N.shiftr A 40) pqzyx) cfed)
                                   (N.shiftr iv 4)) 0x0f) in
  let tmp := u32 (N.land (N.lxor (N.lxor (N.lxor (N.shiftr B 24) (N.shiftr B 36))
                                         (N.shiftr pqzyx 4)) iv) 0x0f) in
  let tmp := csa_stream_rotate pqzyx tmp in
  let B := u64 (N.shiftl B 4) in
  let B := N.lor B tmp in
  c <- csa_stream_cfed pqzyx cfed ;;
  let cfed := N.lxor c (csa_stream_B_sel B) in
  pqzyx <- csa_stream_sboxes A ;;
  Ok (mk_cs A B pqzyx cfed).

(* dvbcsa_stream.c:282-299 csa_stream_round *)
Definition csa_stream_round (s : cs_state) : res cs_state :=
  let A := csA s in let B := csB s in let pqzyx := cs_pqzyx s in let cfed := cs_cfed s in
  let A := u64 (N.shiftl A 4) in
  let A := N.lor A (N.land (N.lxor (N.shiftr A 40) pqzyx) 0xf) in
  let tmp := u32 (N.land (N.lxor (N.lxor (N.shiftr B 24) (N.shiftr B 36))
                                 (N.shiftr pqzyx 4)) 0xf) in
  let B := u64 (N.shiftl B 4) in
  let B := N.lor B (csa_stream_rotate pqzyx tmp) in
  c <- csa_stream_cfed pqzyx cfed ;;
  let cfed := N.lxor c (csa_stream_B_sel B) in
  pqzyx <- csa_stream_sboxes A ;;
  Ok (mk_cs A B pqzyx cfed).

(* dvbcsa_stream.c:333-334 (and 336-337, 339-340, 342-343): one round, then
   data[i] ^= csa_stream_out[GETD(cfed) & 0xf] & mask; [p] is data + i *)
Definition csa_stream_out_round (p mask : N) (sm : cs_state * mem) : res (cs_state * mem) :=
  let '(s, m) := sm in
  s <- csa_stream_round s ;;
  o <- tget csa_stream_out (N.land (cs_cfed s) 0xf) ;;
  d <- load m p ;;
  m <- store m p (N.lxor d (N.land o mask)) ;;
  Ok (s, m).

(* dvbcsa_stream.c:305-345 dvbcsa_stream_xor *)
Definition dvbcsa_stream_xor (be : bool) (m : mem) (cw iv data len : N) : res mem :=
  A <- dvbcsa_load_le32 be m cw ;;
  B <- dvbcsa_load_le32 be m (cw + 4) ;;
  s <- for_ 8 0 (fun i s =>
         b <- load m (iv + N.of_nat i) ;;
         s <- csa_stream_init_round b s ;;
         s <- csa_stream_init_round (swap_nbl b) s ;;
         s <- csa_stream_init_round b s ;;
         csa_stream_init_round (swap_nbl b) s) (mk_cs A B 0 0) ;;
  '(_, (_, m)) <- while_ (N.to_nat len) (fun '(i, _) => i <? len) (fun '(i, sm) =>
         sm <- csa_stream_out_round (data + i) 0xc0 sm ;;
         sm <- csa_stream_out_round (data + i) 0x30 sm ;;
         sm <- csa_stream_out_round (data + i) 0x0c sm ;;
         sm <- csa_stream_out_round (data + i) 0x03 sm ;;
         Ok (u32 (i + 1), sm)) (0, (s, m)) ;;
  Ok m.

(** ** dvbcsa_algo.c *)

(* dvbcsa_algo.c:27-48 dvbcsa_decrypt; [len] is an unsigned int (below 2^32) *)
Definition dvbcsa_decrypt (be : bool) (m : mem) (key data len : N) : res mem :=
  let alen := N.land len 0xfffffff8 in
  if len <? 8 then Ok m
  else
    m <- dvbcsa_stream_xor be m (key + 8) data (data + 8) (len - 8) ;;
    m <- dvbcsa_block_decrypt m (key + 16) data data ;;
    '(_, m) <- while_ (N.to_nat len) (fun '(i, _) => i <? alen) (fun '(i, m) =>
        m <- dvbcsa_xor_64 be m (data + i - 8) (data + i) ;;
        m <- dvbcsa_block_decrypt m (key + 16) (data + i) (data + i) ;;
        Ok (u32 (i + 8), m)) (8, m) ;;
    Ok m.

(* pointer plus signed offset *)
Definition padd (p : N) (i : Z) : N := Z.to_N (Z.of_N p + i).

(* dvbcsa_algo.c:50-71 dvbcsa_encrypt; the loop variable is a signed int initialised with the
   unsigned value alen - 16 (modulo 2^32, then converted to int) *)
Definition dvbcsa_encrypt (be : bool) (m : mem) (key data len : N) : res mem :=
  let alen := N.land len 0xfffffff8 in
  if len <? 8 then Ok m
  else
    m <- dvbcsa_block_encrypt m (key + 16) (data + alen - 8) (data + alen - 8) ;;
    '(_, m) <- while_ (N.to_nat len) (fun '(i, _) => (0 <=? i)%Z) (fun '(i, m) =>
        m <- dvbcsa_xor_64 be m (padd data i) (padd data (i + 8)) ;;
        m <- dvbcsa_block_encrypt m (key + 16) (padd data i) (padd data i) ;;
        i <- int_ok (i - 8) ;;
        Ok (i, m)) (to_int (u32 (alen + 2 ^ 32 - 16)), m) ;;
    dvbcsa_stream_xor be m (key + 8) data (data + 8) (len - 8).
