(** ModelBsWord.v -- build configurations and the bitslice word of /repo/src:
    dvbcsa_bs.h, dvbcsa_bs_uint32.h, dvbcsa_bs_uint64.h, dvbcsa_bs_mmx.h, dvbcsa_bs_sse.h,
    dvbcsa_bs_avx2.h, dvbcsa_bs_neon.h, dvbcsa_bs_transpose.h.

    A dvbcsa_bs_word_t is the list of its bytes in memory order; an array of words is a list of
    such lists.  Casting a word pointer to a pointer to uint8_t/16/32/64 (the may_alias types of
    dvbcsa_pv.h:60-71) is then a change of view on the same bytes ([view_get], [view_set]).
    dvbcsa_bs_altivec.h is not modelled. *)
From Verif Require Import Base Mem.
Local Open Scope N_scope.

(* configure.ac:18-25,51-95 and dvbcsa_bs.h:32-58: the word types (Altivec not modelled) *)
Inductive target : Set := UINT32 | UINT64 | MMX | SSE2 | SSSE3 | AVX2 | NEON.

Record build := mk_build {
  tgt : target;
  big_endian : bool;   (* DVBCSA_ENDIAN_LITTLE not defined (configure.ac:44-49) *)
  use_alt_sbox : bool; (* DVBCSA_USE_ALT_SBOX (configure.ac:26,97-99) *)
  i386 : bool;         (* __i386__ (dvbcsa_bs_transpose_stream.c:38) *)
  ptr64 : bool;        (* 8-byte pointers *)
  have_assert : bool;  (* HAVE_ASSERT_H and not NDEBUG *)
  wrapv : bool;        (* the compiler lets signed overflow wrap instead of treating it as undefined *)
  past_table : option (N * N)
    (* the two bytes that follow dvbcsa_block_sbox_perm in the loaded program, if reading them
       is tolerated; None: reading past the table is undefined behaviour (ISO C) *)
}.

(* the SIMD headers exist for little-endian machines only *)
Definition sane (c : build) : Prop :=
  (big_endian c = true -> tgt c = UINT32 \/ tgt c = UINT64) /\
  (forall a b, past_table c = Some (a, b) -> is_byte a /\ is_byte b).

(* BS_BATCH_BYTES: dvbcsa_bs_uint32.h:32, uint64.h:32, mmx.h:34, sse.h:39, avx2.h:34, neon.h:34 *)
Definition word_bytes (c : build) : nat :=
  match tgt c with UINT32 => 4 | UINT64 | MMX => 8 | SSE2 | SSSE3 | NEON => 16 | AVX2 => 32 end%nat.
(* BS_BATCH_SIZE: the line before each of these *)
Definition batch_size (c : build) : nat :=
  match tgt c with UINT32 => 32 | UINT64 | MMX => 64 | SSE2 | SSSE3 | NEON => 128 | AVX2 => 256 end%nat.
(* width in bytes of the elements that BS_SHL and BS_SHR shift *)
Definition lane_bytes (c : build) : nat := match tgt c with UINT32 => 4 | _ => 8 end%nat.
Definition n_lanes (c : build) : nat := (word_bytes c / lane_bytes c)%nat.

Definition word := list N.

Fixpoint map2 {A B C} (f : A -> B -> C) (l : list A) (r : list B) : list C :=
  match l, r with a :: l, b :: r => f a b :: map2 f l r | _, _ => [] end.

(* BS_AND, BS_OR, BS_XOR: & | ^ on integers, pand/por/pxor, _mm*_and/or/xor, vand/vorr/veor:
   on every target these act on each bit of the word, here byte by byte
   (uint32.h:39-41, uint64.h:45-47, mmx.h:42-44, sse.h:47-49, avx2.h:42-44, neon.h:42-44) *)
Definition BS_AND (a b : word) : word := map2 N.land a b.
Definition BS_OR (a b : word) : word := map2 N.lor a b.
Definition BS_XOR (a b : word) : word := map2 N.lxor a b.

(* BS_VAL8(n)..BS_VAL64(n): an n-bit constant repeated over the word, in native byte order *)
Definition BS_VAL (c : build) (bytes : nat) (v : N) : word :=
  concat (repeat (native_bytes (big_endian c) bytes v) (word_bytes c / bytes)).

(* BS_NOT: ~a (uint32.h:42, uint64.h:48), vmvn (neon.h:45), pxor with ff (mmx.h:45),
   andnot with ff (sse.h:50, avx2.h:45) *)
Definition BS_NOT (c : build) (a : word) : word :=
  match tgt c with
  | UINT32 | UINT64 | NEON => map (fun x => N.lxor x 255) a
  | MMX => BS_XOR a (BS_VAL c 1 255)
  | SSE2 | SSSE3 | AVX2 => BS_AND (map (fun x => N.lxor x 255) a) (BS_VAL c 1 255)
  end.

(* apply f to each of the n lanes of lb bytes of a word *)
Fixpoint map_lanes (n lb : nat) (f : list N -> list N) (w : word) : word :=
  match n with O => [] | S n => f (firstn lb w) ++ map_lanes n lb f (skipn lb w) end.

(* BS_SHL, BS_SHR: << >> on the integer, or on each 64-bit lane
   (uint32.h:44-45, uint64.h:50-51, mmx.h:47-48, sse.h:52-53, avx2.h:47-48, neon.h:47-48) *)
Definition BS_SHL (c : build) (a : word) (n : N) : word :=
  map_lanes (n_lanes c) (lane_bytes c) (fun l =>
    native_bytes (big_endian c) (lane_bytes c) (N.shiftl (native_val (big_endian c) l) n)) a.
Definition BS_SHR (c : build) (a : word) (n : N) : word :=
  map_lanes (n_lanes c) (lane_bytes c) (fun l =>
    native_bytes (big_endian c) (lane_bytes c) (N.shiftr (native_val (big_endian c) l) n)) a.

(** ** dvbcsa_bs_transpose.h *)

(* transpose.h:20-26 BS_SWAP_BITS_LE; returns the new (t, b) *)
Definition BS_SWAP_BITS_LE (c : build) (t b : word) (shift : N) (mask : word) : word * word :=
  let tmp := BS_AND (BS_XOR (BS_SHR c t shift) b) mask in
  (BS_XOR t (BS_SHL c tmp shift), BS_XOR b tmp).

(* 2x2 transposition of elements of n cells: (t0 t1 t2 t3 ..), (b0 b1 b2 b3 ..) become
   (t0 b0 t2 b2 ..), (t1 b1 t3 b3 ..); k pairs.  This is ARM's VTRN. *)
Fixpoint trn {A} (k n : nat) (t b : list A) : list A * list A :=
  match k with
  | O => ([], [])
  | S k =>
      let '(x, y) := trn k n (skipn (2 * n) t) (skipn (2 * n) b) in
      (firstn n t ++ firstn n b ++ x,
       firstn n (skipn n t) ++ firstn n (skipn n b) ++ y)
  end.

(* neon.h:57-82 vtrnq_u8, vtrnq_u16, vtrnq_u32 on 16-byte words; e = element bytes *)
Definition vtrnq (e : nat) (t b : word) : word * word := trn (16 / (2 * e))%nat e t b.

(* transpose.h:28-50: BS_SWAP1_LE .. BS_SWAP32_LE, with the NEON overrides (neon.h:54-82) *)
Definition BS_SWAP_LE (c : build) (n : nat) (t b : word) : word * word :=
  let bits (shift : N) mask := BS_SWAP_BITS_LE c t b shift mask in
  match n with
  | 1  => bits 1%N (BS_VAL c 1 0x55%N)
  | 2  => bits 2%N (BS_VAL c 1 0x33%N)
  | 4  => bits 4%N (BS_VAL c 1 0x0f%N)
  | 8  => match tgt c with NEON => vtrnq 1 t b | _ => bits 8%N (BS_VAL c 2 0x00ff%N) end
  | 16 => match tgt c with NEON => vtrnq 2 t b | _ => bits 16%N (BS_VAL c 4 0x0000ffff%N) end
  | 32 => match tgt c with NEON => vtrnq 4 t b | _ => bits 32%N (BS_VAL c 8 0x00000000ffffffff%N) end
  | _ => (t, b)
  end%nat.

(* transpose.h:52-68: BS_SWAP1 .. BS_SWAP32; big-endian builds exchange the arguments for n >= 8 *)
Definition BS_SWAP (c : build) (n : nat) (t b : word) : word * word :=
  if big_endian c && (8 <=? n)%nat
  then let '(b', t') := BS_SWAP_LE c n b t in (t', b')
  else BS_SWAP_LE c n t b.

(** ** Type punning: element number i of the view of an array of words as elements of sz bytes *)
Definition view_get (c : build) (sz : nat) (a : list word) (i : nat) : res (list N) :=
  w <- aget a (sz * i / word_bytes c) ;;
  Ok (firstn sz (skipn (sz * i mod word_bytes c) w)).
Definition view_set (c : build) (sz : nat) (a : list word) (i : nat) (v : list N) : res (list word) :=
  w <- aget a (sz * i / word_bytes c) ;;
  aset a (sz * i / word_bytes c) (splice w (sz * i mod word_bytes c) v).

(* byte buffers (the union data[] of struct dvbcsa_bs_pkt_buf seen as bytes) *)
Definition bget (l : list N) (off n : nat) : res (list N) :=
  if (off + n <=? length l)%nat then Ok (firstn n (skipn off l)) else UB OutOfBounds.
Definition bset (l : list N) (off : nat) (v : list N) : res (list N) :=
  if (off + length v <=? length l)%nat then Ok (splice l off v) else UB OutOfBounds.

(* pointer minus offset inside an array: leaving the array at the low end is undefined *)
Definition psub (p n : nat) : res nat := if (p <? n)%nat then UB OutOfBounds else Ok (p - n)%nat.

(** ** Words in memory (key contexts): word pointers must be aligned *)
Definition word_aligned (c : build) (a : N) : bool := (a mod N.of_nat (word_bytes c) =? 0).
Definition load_word (c : build) (m : mem) (a : N) : res word :=
  if word_aligned c a then load_bytes m a (word_bytes c) else UB Misaligned.
Definition store_word (c : build) (m : mem) (a : N) (w : word) : res mem :=
  if word_aligned c a then store_bytes m a w else UB Misaligned.
