(** ModelBsBlock.v -- dvbcsa_bs_block.c of /repo/src, with BLOCK_SBOX_PERMUTE of
    dvbcsa_bs_avx2.h and BS_LOAD_DEINTERLEAVE_8 of dvbcsa_bs_sse.h, avx2.h, neon.h. *)
From Verif Require Import Base Mem Tables ModelBsWord ModelBsTranspose ModelBsStream.
Local Open Scope nat_scope.

(* BS_LOAD_DEINTERLEAVE_8 is defined: sse.h:59-71 (SSSE3), avx2.h:54-59, neon.h:84-90 *)
Definition deinterleave (c : build) : bool :=
  match tgt c with SSSE3 | AVX2 | NEON => true | _ => false end.

(** ** S-box lookups *)

(* dst[j] = dvbcsa_block_sbox[x], dst viewed as uint8_t *)
Definition put_sbox (c : build) (dst : list word) (j : nat) (x : N) : res (list word) :=
  v <- tget dvbcsa_block_sbox x ;; view_set c 1 dst j [v].
(* dst[j] = dvbcsa_block_sbox_perm[x], dst viewed as uint16_t *)
Definition put_sbox_perm (c : build) (dst : list word) (j : nat) (x : N) : res (list word) :=
  v <- tget dvbcsa_block_sbox_perm x ;; view_set c 2 dst j (native_bytes (big_endian c) 2 v).

(* one byte of a view as uint8_t *)
Definition byte_get (c : build) (a : list word) (i : nat) : res N :=
  b <- view_get c 1 a i ;; aget b 0.

(* bs_block.c:124-141 and 179-196: plain loop, four bytes per iteration *)
Definition sbox_loop (c : build) (put : list word -> nat -> N -> res (list word))
  (src dst : list word) : res (list word) :=
  for_ (word_bytes c * 8 / 4) 0 (fun k dst =>
    a <- byte_get c src (4 * k + 0) ;; b <- byte_get c src (4 * k + 1) ;;
    e <- byte_get c src (4 * k + 2) ;; d <- byte_get c src (4 * k + 3) ;;
    dst <- put dst (4 * k + 0) a ;; dst <- put dst (4 * k + 1) b ;;
    dst <- put dst (4 * k + 2) e ;; put dst (4 * k + 3) d) dst.

(* bs_block.c:31-43 BLOCK_ALT_SBOX_LOAD: the four bytes of a uint32_t in memory order *)
Definition alt_sbox_load (c : build) (s : N) : N * N * N * N :=
  let byte n := N.land (N.shiftr s n) 0xff in
  if big_endian c then (byte 24, byte 16, byte 8, N.land s 0xff)%N
  else (N.land s 0xff, byte 8, byte 16, byte 24)%N.

(* bs_block.c:94-118 and 151-175: --enable-alt-sbox loop; dst advances by 4 elements per turn *)
Definition alt_sbox_put (c : build) (put : list word -> nat -> N -> res (list word))
  (s : N) (j : nat) (dst : list word) : res (list word) :=
  let '(a, b, e, d) := alt_sbox_load c s in
  dst <- put dst (4 * j + 0) a ;; dst <- put dst (4 * j + 1) b ;;
  dst <- put dst (4 * j + 2) e ;; put dst (4 * j + 3) d.
Definition u32_get (c : build) (a : list word) (i : nat) : res N :=
  b <- view_get c 4 a i ;; Ok (native_val (big_endian c) b).
Definition alt_sbox_loop (c : build) (put : list word -> nat -> N -> res (list word))
  (src dst : list word) : res (list word) :=
  let n := word_bytes c / 4 * 8 - 1 in
  s <- u32_get c src 0 ;;
  '(s, dst) <- for_ n 0 (fun j '(s, dst) =>
      s' <- u32_get c src (j + 1) ;;
      dst <- alt_sbox_put c put s j dst ;;
      Ok (s', dst)) (s, dst) ;;
  alt_sbox_put c put s n dst.

(** ** AVX2 (dvbcsa_bs_avx2.h:63-112) *)

(* the eight 32-bit lanes of a 32-byte word and back *)
Definition lanes32 (w : word) : list N := map (fun k => le_val (firstn 4 (skipn (4 * k) w))) (seq 0 8).
Definition of_lanes32 (l : list N) : word := concat (map (le_bytes 4) l).

(* the table as bytes, with what follows it *)
Definition table_bytes (c : build) : list N :=
  concat (map (le_bytes 2) dvbcsa_block_sbox_perm) ++
  match past_table c with Some (a, b) => [a; b] | None => [] end.

(* _mm256_i32gather_epi32(table, idx, 2): for each lane the 4 bytes at table + 2 * idx *)
Fixpoint gather (tbl : list N) (idx : list N) : res (list N) :=
  match idx with
  | [] => Ok []
  | x :: r => b <- bget tbl (2 * N.to_nat x) 4 ;; r <- gather tbl r ;; Ok (le_val b :: r)
  end.

Definition half_lo (w : word) : list N := firstn 16 w.
Definition half_hi (w : word) : list N := firstn 16 (skipn 16 w).
Definition shuffle_mask : list nat := [0;2;4;6;8;10;12;14;1;3;5;7;9;11;13;15].
(* pshufb on 16 bytes; all mask entries are below 128 *)
Definition shuffle16 (a : list N) : list N := map (fun k => nth k a 0%N) shuffle_mask.
(* _mm256_shuffle_epi8 works on each 128-bit half *)
Definition mm256_shuffle (w : word) : word := shuffle16 (half_lo w) ++ shuffle16 (half_hi w).
(* interleave 16-bit elements *)
Fixpoint interleave2 (n : nat) (a b : list N) : list N :=
  match n with
  | O => []
  | S n => firstn 2 a ++ firstn 2 b ++ interleave2 n (skipn 2 a) (skipn 2 b)
  end.
(* _mm256_unpacklo_epi16, _mm256_unpackhi_epi16: per 128-bit half *)
Definition mm256_unpacklo16 (a b : word) : word :=
  interleave2 4 (half_lo a) (half_lo b) ++ interleave2 4 (half_hi a) (half_hi b).
Definition mm256_unpackhi16 (a b : word) : word :=
  interleave2 4 (skipn 8 (half_lo a)) (skipn 8 (half_lo b)) ++
  interleave2 4 (skipn 8 (half_hi a)) (skipn 8 (half_hi b)).

(* avx2.h:78-107: one source word to two result words; the two unpack*_epi32 of lines 101-102
   compute values that are overwritten before use and are left out *)
Definition avx2_sbox_word (c : build) (w : word) : res (word * word) :=
  let lsb l := map (fun x => N.land x 0xff) l in
  let lsw l := map (fun x => N.land x 0xffff) l in
  let srli8 l := map (fun x => N.shiftr x 8) l in
  let slli16 l := map (fun x => u32 (N.shiftl x 16)) l in
  let i := lanes32 w in
  b <- gather (table_bytes c) (lsb i) ;;
  let res1 := lsw b in
  let i := srli8 i in
  b <- gather (table_bytes c) (lsb i) ;;
  let res1 := map2 N.lor res1 (slli16 b) in
  let i := srli8 i in
  b <- gather (table_bytes c) (lsb i) ;;
  let res2 := lsw b in
  let i := srli8 i in
  b <- gather (table_bytes c) (lsb i) ;;
  let res2 := map2 N.lor res2 (slli16 b) in
  let a := mm256_shuffle (of_lanes32 res1) in
  let b := mm256_shuffle (of_lanes32 res2) in
  Ok (mm256_unpacklo16 a b, mm256_unpackhi16 a b).

(* avx2.h:63-112 avx2_block_sbox_permute *)
Definition avx2_block_sbox_permute (c : build) (src dst : list word) : res (list word) :=
  for_ 8 0 (fun j dst =>
    w <- aget src j ;;
    '(r1, r2) <- avx2_sbox_word c w ;;
    dst <- aset dst (2 * j) r1 ;; aset dst (2 * j + 1) r2) dst.

(** ** The two preprocessor-selected macros *)

(* BLOCK_SBOX_PERMUTE: bs_block.c:92-145.  With DVBCSA_USE_ALT_SBOX the generic macro replaces
   the one of avx2.h:114 (the compiler only warns about the redefinition). *)
Definition BLOCK_SBOX_PERMUTE (c : build) (src dst : list word) : res (list word) :=
  if use_alt_sbox c then alt_sbox_loop c (put_sbox_perm c) src dst
  else match tgt c with
       | AVX2 => avx2_block_sbox_permute c src dst
       | _ => sbox_loop c (put_sbox_perm c) src dst
       end.
(* BLOCK_SBOX: bs_block.c:149-198 *)
Definition BLOCK_SBOX (c : build) (src dst : list word) : res (list word) :=
  if use_alt_sbox c then alt_sbox_loop c (put_sbox c) src dst
  else sbox_loop c (put_sbox c) src dst.

(* BS_LOAD_DEINTERLEAVE_8(scratch2 + 2 * g, lo, hi): sse.h:61-70 (two pshufb and two
   punpck*qdq), avx2.h:55-59 (two plain loads), neon.h:85-90 (vld2q_u8) *)
Fixpoint evens (l : list N) : list N := match l with a :: b :: r => a :: evens r | _ => [] end.
Fixpoint odds (l : list N) : list N := match l with a :: b :: r => b :: odds r | _ => [] end.
Definition BS_LOAD_DEINTERLEAVE_8 (c : build) (s2 : list word) (g : nat) : res (word * word) :=
  a <- aget s2 (2 * g) ;; b <- aget s2 (2 * g + 1) ;;
  match tgt c with
  | AVX2 => Ok (a, b)
  | NEON => Ok (evens (a ++ b), odds (a ++ b))
  | _ => let a := shuffle16 a in let b := shuffle16 b in
         Ok (firstn 8 a ++ firstn 8 b, firstn 8 (skipn 8 a) ++ firstn 8 (skipn 8 b))
  end.

(* bs_block.c:200-210 BLOCK_PERMUTE_LOGIC *)
Definition BLOCK_PERMUTE_LOGIC (c : build) (x : word) : word :=
  let V v := BS_VAL c 1 v in
  BS_OR
    (BS_OR
       (BS_OR (BS_SHL c (BS_AND x (V 0x29%N)) 1) (BS_SHL c (BS_AND x (V 0x02%N)) 6))
       (BS_OR (BS_SHL c (BS_AND x (V 0x04%N)) 3) (BS_SHR c (BS_AND x (V 0x10%N)) 2)))
    (BS_OR (BS_SHR c (BS_AND x (V 0x40%N)) 6) (BS_SHR c (BS_AND x (V 0x80%N)) 4)).

(* bs_block.c:237-243, 326-332 *)
Definition block_sbox_stage (c : build) (s1 s2 : list word) : res (list word) :=
  if deinterleave c then BLOCK_SBOX_PERMUTE c s1 s2 else BLOCK_SBOX c s1 s2.
(* bs_block.c:249-254, 338-343: (sbox_out, perm_out) *)
Definition block_perm_stage (c : build) (s2 : list word) (g : nat) : res (word * word) :=
  if deinterleave c then BS_LOAD_DEINTERLEAVE_8 c s2 g
  else x <- aget s2 g ;; Ok (x, BLOCK_PERMUTE_LOGIC c x).

(** ** Register rounds *)

(* bs_block.c:234-235, 323-324: scratch1[g] = block[i] ^ r[base + g] *)
Definition key_xor (c : build) (k : nat -> res word) (i : nat) (r : list word) (base : nat)
  (s1 : list word) : res (list word) :=
  for_ 8 0 (fun g s1 =>
    kw <- k i ;; x <- aget r (base + g) ;; aset s1 g (BS_XOR kw x)) s1.

(* bs_block.c:214-281 dvbcsa_bs_block_decrypt_register; [p] is the moving pointer r *)
Definition decrypt_register (c : build) (k : nat -> res word) (r s1 s2 : list word)
  : res (list word) :=
  '(_, r, _, _) <- for_down 56 (fun i '(p, r, s1, s2) =>
    let r6 := p + 8 * 6 in
    p <- psub p 8 ;;
    s1 <- key_xor c k i r r6 s1 ;;
    s2 <- block_sbox_stage c s1 s2 ;;
    r <- for_ 8 0 (fun g r =>
      '(sbox_out, perm_out) <- block_perm_stage c s2 g ;;
      w <- aget r (p + 8 * 8 + g) ;;
      tmp1 <- aget r (p + 8 * 2 + g) ;;
      tmp2 <- aget r (p + 8 * 3 + g) ;;
      tmp3 <- aget r (p + 8 * 4 + g) ;;
      let w := BS_XOR w sbox_out in
      tmp4 <- aget r (p + 8 * 6 + g) ;;
      let tmp1 := BS_XOR tmp1 w in
      let tmp2 := BS_XOR tmp2 w in
      let tmp3 := BS_XOR tmp3 w in
      r <- aset r (p + 8 * 0 + g) w ;;
      r <- aset r (p + 8 * 2 + g) tmp1 ;;
      let tmp4 := BS_XOR tmp4 perm_out in
      r <- aset r (p + 8 * 3 + g) tmp2 ;;
      r <- aset r (p + 8 * 4 + g) tmp3 ;;
      aset r (p + 8 * 6 + g) tmp4) r ;;
    Ok (p, r, s1, s2)) (8 * 56, r, s1, s2) ;;
  Ok r.

(* bs_block.c:305-370 dvbcsa_bs_block_encrypt_register *)
Definition encrypt_register (c : build) (k : nat -> res word) (r s1 s2 : list word)
  : res (list word) :=
  '(_, r, _, _) <- for_ 56 0 (fun i '(p, r, s1, s2) =>
    let r7 := p + 8 * 7 in
    let p := p + 8 in
    s1 <- key_xor c k i r r7 s1 ;;
    s2 <- block_sbox_stage c s1 s2 ;;
    r <- for_ 8 0 (fun g r =>
      '(sbox_out, perm_out) <- block_perm_stage c s2 g ;;
      pm <- psub (p + g) 8 ;;
      w <- aget r pm ;;
      tmp1 <- aget r (p + 8 * 1 + g) ;;
      tmp2 <- aget r (p + 8 * 2 + g) ;;
      tmp3 <- aget r (p + 8 * 3 + g) ;;
      let sbox_out := BS_XOR sbox_out w in
      tmp4 <- aget r (p + 8 * 5 + g) ;;
      let tmp1 := BS_XOR tmp1 w in
      let tmp2 := BS_XOR tmp2 w in
      let tmp3 := BS_XOR tmp3 w in
      r <- aset r (p + 8 * 7 + g) sbox_out ;;
      r <- aset r (p + 8 * 1 + g) tmp1 ;;
      let tmp4 := BS_XOR tmp4 perm_out in
      r <- aset r (p + 8 * 2 + g) tmp2 ;;
      r <- aset r (p + 8 * 3 + g) tmp3 ;;
      aset r (p + 8 * 5 + g) tmp4) r ;;
    Ok (p, r, s1, s2)) (0, r, s1, s2) ;;
  Ok r.

(** ** Blocks and batches *)

(* the uninitialised locals of one call: r[512], scratch1[8], scratch2[8] or scratch2[16] *)
Record block_junk := mk_bj { bj_r : list word; bj_s1 : list word; bj_s2 : list word }.

(* a function that works on the 64 words starting at r + base *)
Definition in_window (base : nat) (r : list word) (f : list word -> res (list word)) : res (list word) :=
  if base + 64 <=? length r then
    w <- f (firstn 64 (skipn base r)) ;;
    Ok (firstn base r ++ w ++ skipn (base + 64) r)
  else UB OutOfBounds.

(* bs_block.c:283-293 dvbcsa_bs_block_decrypt_block *)
Definition decrypt_block (c : build) (bj : block_junk) (m : mem) (key : N) (pb : pkt_buf) (offset : N)
  : res pkt_buf :=
  r <- in_window (8 * 56) (bj_r bj) (fun w => dvbcsa_bs_block_transpose_in c w pb offset) ;;
  r <- decrypt_register c (key_block_word c m key) r (bj_s1 bj) (bj_s2 bj) ;;
  dvbcsa_bs_block_transpose_out_and_xor c (firstn 64 r) pb offset false.

(* bs_block.c:372-382 dvbcsa_bs_block_encrypt_block *)
Definition encrypt_block (c : build) (bj : block_junk) (m : mem) (key : N) (pb : pkt_buf) (offset : N)
  : res pkt_buf :=
  r <- in_window 0 (bj_r bj) (fun w => dvbcsa_bs_block_transpose_in c w pb offset) ;;
  r <- encrypt_register c (key_block_word c m key) r (bj_s1 bj) (bj_s2 bj) ;;
  dvbcsa_bs_block_transpose_out_and_xor c (firstn 64 (skipn (8 * 56) r)) pb offset true.

(* bs_block.c:295-303 dvbcsa_bs_block_decrypt_batch; each call has its own uninitialised locals *)
Definition dvbcsa_bs_block_decrypt_batch (c : build) (bj : N -> block_junk) (m : mem) (key : N)
  (pb : pkt_buf) (maxlen : N) : res pkt_buf :=
  '(_, pb) <- while_ (N.to_nat maxlen) (fun '(i, _) => (i <? maxlen)%N) (fun '(i, pb) =>
      pb <- decrypt_block c (bj i) m key pb i ;;
      Ok (u32 (i + 8), pb)) (0%N, pb) ;;
  Ok pb.

(* bs_block.c:384-392 dvbcsa_bs_block_encrypt_batch: int i = maxlen - 8 *)
Definition dvbcsa_bs_block_encrypt_batch (c : build) (bj : N -> block_junk) (m : mem) (key : N)
  (pb : pkt_buf) (maxlen : N) : res pkt_buf :=
  '(_, pb) <- while_ (N.to_nat maxlen) (fun '(i, _) => (0 <=? i)%Z) (fun '(i, pb) =>
      pb <- encrypt_block c (bj (Z.to_N i)) m key pb (Z.to_N i) ;;
      i <- int_ok (i - 8) ;;
      Ok (i, pb)) (to_int (u32 (maxlen + 2 ^ 32 - 8)), pb) ;;
  Ok pb.
