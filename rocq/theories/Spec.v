(** Spec.v -- the DVB Common Scrambling Algorithm, as published (Weinmann & Wirt,
    "Analysis of the DVB Common Scrambling Algorithm", 2004, and the reference
    software descramblers).  Nothing here refers to /repo: registers are lists of
    nibbles, the key schedule is a bit permutation, packets are lists of bytes.
    The two packet functions at the end, [csa_encrypt] and [csa_decrypt], are what the
    property theorems talk about. *)
From Coq Require Import List Arith NArith Bool.
Import ListNotations.
Local Open Scope N_scope.

(** ** 1. Block cipher *)

(* 8-bit S-box of the block cipher (256 constants of the standard). *)
Definition sbox_table : list N :=
[
  0x3a; 0xea; 0x68; 0xfe; 0x33; 0xe9; 0x88; 0x1a; 0x83; 0xcf; 0xe1; 0x7f; 0xba; 0xe2; 0x38; 0x12;
  0xe8; 0x27; 0x61; 0x95; 0x0c; 0x36; 0xe5; 0x70; 0xa2; 0x06; 0x82; 0x7c; 0x17; 0xa3; 0x26; 0x49;
  0xbe; 0x7a; 0x6d; 0x47; 0xc1; 0x51; 0x8f; 0xf3; 0xcc; 0x5b; 0x67; 0xbd; 0xcd; 0x18; 0x08; 0xc9;
  0xff; 0x69; 0xef; 0x03; 0x4e; 0x48; 0x4a; 0x84; 0x3f; 0xb4; 0x10; 0x04; 0xdc; 0xf5; 0x5c; 0xc6;
  0x16; 0xab; 0xac; 0x4c; 0xf1; 0x6a; 0x2f; 0x3c; 0x3b; 0xd4; 0xd5; 0x94; 0xd0; 0xc4; 0x63; 0x62;
  0x71; 0xa1; 0xf9; 0x4f; 0x2e; 0xaa; 0xc5; 0x56; 0xe3; 0x39; 0x93; 0xce; 0x65; 0x64; 0xe4; 0x58;
  0x6c; 0x19; 0x42; 0x79; 0xdd; 0xee; 0x96; 0xf6; 0x8a; 0xec; 0x1e; 0x85; 0x53; 0x45; 0xde; 0xbb;
  0x7e; 0x0a; 0x9a; 0x13; 0x2a; 0x9d; 0xc2; 0x5e; 0x5a; 0x1f; 0x32; 0x35; 0x9c; 0xa8; 0x73; 0x30;
  0x29; 0x3d; 0xe7; 0x92; 0x87; 0x1b; 0x2b; 0x4b; 0xa5; 0x57; 0x97; 0x40; 0x15; 0xe6; 0xbc; 0x0e;
  0xeb; 0xc3; 0x34; 0x2d; 0xb8; 0x44; 0x25; 0xa4; 0x1c; 0xc7; 0x23; 0xed; 0x90; 0x6e; 0x50; 0x00;
  0x99; 0x9e; 0x4d; 0xd9; 0xda; 0x8d; 0x6f; 0x5f; 0x3e; 0xd7; 0x21; 0x74; 0x86; 0xdf; 0x6b; 0x05;
  0x8e; 0x5d; 0x37; 0x11; 0xd2; 0x28; 0x75; 0xd6; 0xa7; 0x77; 0x24; 0xbf; 0xf0; 0xb0; 0x02; 0xb7;
  0xf8; 0xfc; 0x81; 0x09; 0xb1; 0x01; 0x76; 0x91; 0x7d; 0x0f; 0xc8; 0xa0; 0xf2; 0xcb; 0x78; 0x60;
  0xd1; 0xf7; 0xe0; 0xb5; 0x98; 0x22; 0xb3; 0x20; 0x1d; 0xa6; 0xdb; 0x7b; 0x59; 0x9f; 0xae; 0x31;
  0xfb; 0xd3; 0xb6; 0xca; 0x43; 0x72; 0x07; 0xf4; 0xd8; 0x41; 0x14; 0x55; 0x0d; 0x54; 0x8b; 0xb9;
  0xad; 0x46; 0x0b; 0xaf; 0x80; 0x52; 0x2c; 0xfa; 0x8c; 0x89; 0x66; 0xfd; 0xb2; 0xa9; 0x9b; 0xc0
].
Definition sbox (x : N) : N := nth (N.to_nat x) sbox_table 0.

(* bit permutation of the block cipher: input bit i goes to output bit (nth i perm_map) *)
Definition perm_map : list N := [1; 7; 5; 4; 2; 6; 0; 3].
Definition perm (x : N) : N :=
  fold_left (fun acc i => acc + (if N.testbit x (N.of_nat i) then 2 ^ nth i perm_map 0 else 0))
            (seq 0 8) 0.

(* a block: registers R1..R8 *)
Definition block := (N * N * N * N * N * N * N * N)%type.

(* one round of block encryption with round key byte k *)
Definition enc_step (k : N) (R : block) : block :=
  let '(r1, r2, r3, r4, r5, r6, r7, r8) := R in
  let s := sbox (N.lxor k r8) in
  (r2, N.lxor r3 r1, N.lxor r4 r1, N.lxor r5 r1, r6, N.lxor r7 (perm s), r8, N.lxor r1 s).

(* one round of block decryption with round key byte k *)
Definition dec_step (k : N) (R : block) : block :=
  let '(r1, r2, r3, r4, r5, r6, r7, r8) := R in
  let s := sbox (N.lxor k r7) in
  let l := N.lxor r8 s in
  (l, r1, N.lxor r2 l, N.lxor r3 l, N.lxor r4 l, r5, N.lxor r6 (perm s), r7).

(* 56 rounds: encryption uses the key bytes in order, decryption in reverse order *)
Definition block_enc (kk : list N) (R : block) : block := fold_left (fun R k => enc_step k R) kk R.
Definition block_dec (kk : list N) (R : block) : block := fold_left (fun R k => dec_step k R) (rev kk) R.

(** ** 2. Key schedule *)

(* the 64-bit key permutation: bit number i (from 1, most significant bit of the first
   byte first) moves to bit number (nth (i-1) key_perm) *)
Definition key_perm : list nat := map N.to_nat [
 0x12;0x24;0x09;0x07;0x2A;0x31;0x1D;0x15; 0x1C;0x36;0x3E;0x32;0x13;0x21;0x3B;0x40;
 0x18;0x14;0x25;0x27;0x02;0x35;0x1B;0x01; 0x22;0x04;0x0D;0x0E;0x39;0x28;0x1A;0x29;
 0x33;0x23;0x34;0x0C;0x16;0x30;0x1E;0x3A; 0x2D;0x1F;0x08;0x19;0x17;0x2F;0x3D;0x11;
 0x3C;0x05;0x38;0x2B;0x0B;0x06;0x0A;0x2C; 0x20;0x3F;0x2E;0x0F;0x03;0x26;0x10;0x37 ].

Fixpoint index_of (x : nat) (l : list nat) : nat :=
  match l with [] => 0 | y :: r => if Nat.eqb x y then 0 else S (index_of x r) end%nat.

(* bits of a byte string, most significant bit of each byte first *)
Definition byte_bits (b : N) : list bool := map (fun k => N.testbit b k) [7;6;5;4;3;2;1;0].
Definition to_bits (bs : list N) : list bool := concat (map byte_bits bs).
Definition bits_byte (l : list bool) : N := fold_left (fun acc (b : bool) => 2 * acc + (if b then 1 else 0)) l 0.
Fixpoint from_bits (n : nat) (l : list bool) : list N :=
  match n with O => [] | S n => bits_byte (firstn 8 l) :: from_bits n (skipn 8 l) end.

Definition permute_bits (l : list bool) : list bool :=
  map (fun y => nth (index_of y key_perm) l false) (seq 1 64).
Definition permute_key (k : list N) : list N := from_bits 8 (permute_bits (to_bits k)).

(* 56 key bytes: seven groups of 8; the last group is the control word, each earlier group
   is the permuted following one; group number i is XORed with i *)
Definition key_groups (cw : list N) : list (list N) :=
  let p := permute_key in
  [p (p (p (p (p (p cw))))); p (p (p (p (p cw)))); p (p (p (p cw))); p (p (p cw)); p (p cw); p cw; cw].
Definition key_schedule (cw : list N) : list N :=
  concat (map (fun ig => map (fun b => N.lxor b (fst ig)) (snd ig))
              (combine [0;1;2;3;4;5;6] (key_groups cw))).

(** ** 3. Stream cipher *)

Definition s1 : list N := [2;0;1;1;2;3;3;0; 3;2;2;0;1;1;0;3; 0;3;3;0;2;2;1;1; 2;2;0;3;1;1;3;0].
Definition s2 : list N := [3;1;0;2;2;3;3;0; 1;3;2;1;0;0;1;2; 3;1;0;3;3;2;0;2; 0;0;1;2;2;1;3;1].
Definition s3 : list N := [2;0;1;2;2;3;3;1; 1;1;0;3;3;0;2;0; 1;3;0;1;3;0;2;2; 2;0;1;2;0;3;3;1].
Definition s4 : list N := [3;1;2;3;0;2;1;2; 1;2;0;1;3;0;0;3; 1;0;3;1;2;3;0;3; 0;3;2;0;1;2;2;1].
Definition s5 : list N := [2;0;0;1;3;2;3;2; 0;1;3;3;1;0;2;1; 2;3;2;0;0;3;1;1; 1;0;3;2;3;1;0;2].
Definition s6 : list N := [0;1;2;3;1;2;2;0; 0;1;3;0;2;3;1;3; 2;3;0;2;3;0;1;1; 2;1;1;2;0;3;3;0].
Definition s7 : list N := [0;3;2;2;3;0;0;1; 3;0;1;3;1;2;2;1; 1;0;3;3;0;1;1;2; 2;3;1;0;2;3;0;2].

Record stream := mk_stream {
  rA : list N;  (* A1..A10, 4 bits each *)
  rB : list N;  (* B1..B10, 4 bits each *)
  rX : N; rY : N; rZ : N; rD : N; rE : N; rF : N;  (* 4 bits each *)
  rp : N; rq : N; rc : N                            (* 1 bit each *)
}.

Definition reg (L : list N) (k : nat) : N := nth (k - 1) L 0.
Definition bit (x : N) (k : N) : N := if N.testbit x k then 1 else 0.
(* S-box input: five bits, most significant first *)
Definition idx5 (a b c d e : N) : nat := N.to_nat (16 * a + 8 * b + 4 * c + 2 * d + e).
Definition look (s : list N) (i : nat) : N := nth i s 0.
Definition nibble (b3 b2 b1 b0 : N) : N := 8 * b3 + 4 * b2 + 2 * b1 + b0.
Definition hi (s : N) : N := bit s 1.
Definition lo (s : N) : N := bit s 0.

(* rotate a nibble left by one *)
Definition rotl4 (x : N) : N := nibble (bit x 2) (bit x 1) (bit x 0) (bit x 3).

(* 4x4 XOR of bits of register B *)
Definition xor4 (a b c d : N) : N := N.lxor (N.lxor (N.lxor a b) c) d.
Definition b_out (B : list N) : N :=
  let B k := reg B k in
  nibble (xor4 (bit (B 3%nat) 0) (bit (B 6%nat) 1) (bit (B 7%nat) 2) (bit (B 9%nat) 3))
         (xor4 (bit (B 6%nat) 0) (bit (B 8%nat) 1) (bit (B 3%nat) 3) (bit (B 4%nat) 2))
         (xor4 (bit (B 5%nat) 3) (bit (B 8%nat) 2) (bit (B 4%nat) 0) (bit (B 5%nat) 1))
         (xor4 (bit (B 9%nat) 2) (bit (B 6%nat) 3) (bit (B 3%nat) 1) (bit (B 8%nat) 0)).

(* one clock; [inp] is the pair of input nibbles (IA, IB) during initialisation *)
Definition clock (inp : option (N * N)) (s : stream) : stream :=
  let A k := reg (rA s) k in
  let B k := reg (rB s) k in
  let o1 := look s1 (idx5 (bit (A 4%nat) 0) (bit (A 1%nat) 2) (bit (A 6%nat) 1) (bit (A 7%nat) 3) (bit (A 9%nat) 0)) in
  let o2 := look s2 (idx5 (bit (A 2%nat) 1) (bit (A 3%nat) 2) (bit (A 6%nat) 3) (bit (A 7%nat) 0) (bit (A 9%nat) 1)) in
  let o3 := look s3 (idx5 (bit (A 1%nat) 3) (bit (A 2%nat) 0) (bit (A 5%nat) 1) (bit (A 5%nat) 3) (bit (A 6%nat) 2)) in
  let o4 := look s4 (idx5 (bit (A 3%nat) 3) (bit (A 1%nat) 1) (bit (A 2%nat) 3) (bit (A 4%nat) 2) (bit (A 8%nat) 0)) in
  let o5 := look s5 (idx5 (bit (A 5%nat) 2) (bit (A 4%nat) 3) (bit (A 6%nat) 0) (bit (A 8%nat) 1) (bit (A 9%nat) 2)) in
  let o6 := look s6 (idx5 (bit (A 3%nat) 1) (bit (A 4%nat) 1) (bit (A 5%nat) 0) (bit (A 7%nat) 2) (bit (A 9%nat) 3)) in
  let o7 := look s7 (idx5 (bit (A 2%nat) 2) (bit (A 3%nat) 0) (bit (A 7%nat) 1) (bit (A 8%nat) 2) (bit (A 8%nat) 3)) in
  let fa := N.lxor (A 10%nat) (rX s) in
  let fa := match inp with Some (ia, _) => N.lxor (N.lxor fa (rD s)) ia | None => fa end in
  let fb := N.lxor (N.lxor (B 7%nat) (B 10%nat)) (rY s) in
  let fb := match inp with Some (_, ib) => N.lxor fb ib | None => fb end in
  let fb := if rp s =? 1 then rotl4 fb else fb in
  let sum := rE s + rZ s + rc s in
  {| rA := fa :: firstn 9 (rA s);
     rB := fb :: firstn 9 (rB s);
     rX := nibble (lo o4) (lo o3) (hi o2) (hi o1);
     rY := nibble (lo o6) (lo o5) (hi o4) (hi o3);
     rZ := nibble (lo o2) (lo o1) (hi o6) (hi o5);
     rD := N.lxor (N.lxor (rE s) (rZ s)) (b_out (rB s));
     rE := rF s;
     rF := if rq s =? 1 then sum mod 16 else rE s;
     rp := hi o7;
     rq := lo o7;
     rc := if rq s =? 1 then sum / 16 else rc s |}.

(* the two keystream bits after a clock: D3 xor D2, D1 xor D0 *)
Definition out2 (s : stream) : N :=
  2 * N.lxor (bit (rD s) 3) (bit (rD s) 2) + N.lxor (bit (rD s) 1) (bit (rD s) 0).

Definition hi4 (b : N) : N := b / 16.
Definition lo4 (b : N) : N := b mod 16.

(* A1..A8 <- first 32 key bits, B1..B8 <- last 32 key bits, most significant nibble first *)
Definition stream_load (cw : list N) : stream :=
  let nibbles := concat (map (fun b => [hi4 b; lo4 b]) cw) in
  mk_stream (firstn 8 nibbles ++ [0; 0]) (skipn 8 nibbles ++ [0; 0]) 0 0 0 0 0 0 0 0 0.

(* four clocks for each byte of the initialisation vector *)
Definition init_byte (s : stream) (b : N) : stream :=
  let a := Some (hi4 b, lo4 b) in
  let b := Some (lo4 b, hi4 b) in
  clock b (clock a (clock b (clock a s))).
Definition stream_init (cw iv : list N) : stream := fold_left init_byte iv (stream_load cw).

(* four clocks give one keystream byte, most significant bits first *)
Definition gen_byte (s : stream) : N * stream :=
  let t1 := clock None s in
  let t2 := clock None t1 in
  let t3 := clock None t2 in
  let t4 := clock None t3 in
  (64 * out2 t1 + 16 * out2 t2 + 4 * out2 t3 + out2 t4, t4).
Fixpoint gen_bytes (n : nat) (s : stream) : list N :=
  match n with
  | O => []
  | S n => let '(b, s') := gen_byte s in b :: gen_bytes n s'
  end.
Definition keystream (cw iv : list N) (n : nat) : list N := gen_bytes n (stream_init cw iv).

(** ** 4. Packets *)

Definition block_bytes (R : block) : list N :=
  let '(r1, r2, r3, r4, r5, r6, r7, r8) := R in [r1; r2; r3; r4; r5; r6; r7; r8].
Definition xor_block (a b : block) : block :=
  let '(a1, a2, a3, a4, a5, a6, a7, a8) := a in
  let '(b1, b2, b3, b4, b5, b6, b7, b8) := b in
  (N.lxor a1 b1, N.lxor a2 b2, N.lxor a3 b3, N.lxor a4 b4,
   N.lxor a5 b5, N.lxor a6 b6, N.lxor a7 b7, N.lxor a8 b8).
Definition zero_block : block := (0, 0, 0, 0, 0, 0, 0, 0).

(* whole 8-byte blocks of a byte string, and what is left *)
Fixpoint blocks (l : list N) : list block :=
  match l with
  | a :: b :: c :: d :: e :: f :: g :: h :: r => (a, b, c, d, e, f, g, h) :: blocks r
  | _ => []
  end.
Definition residue (l : list N) : list N := skipn (8 * (length l / 8))%nat l.
Definition unblocks (bs : list block) : list N := concat (map block_bytes bs).

(* reverse cipher-block chaining: the last block is enciphered first *)
Fixpoint rcbc_enc (E : block -> block) (ps : list block) : list block :=
  match ps with
  | [] => []
  | p :: r => let cs := rcbc_enc E r in E (xor_block p (hd zero_block cs)) :: cs
  end.
Fixpoint rcbc_dec (D : block -> block) (cs : list block) : list block :=
  match cs with
  | [] => []
  | c :: r => xor_block (D c) (hd zero_block r) :: rcbc_dec D r
  end.

Fixpoint xor_bytes (a b : list N) : list N :=
  match a, b with x :: a, y :: b => N.lxor x y :: xor_bytes a b | _, _ => [] end.

(* XOR everything but the first 8 bytes with the keystream seeded by these 8 bytes *)
Definition stream_cipher (cw data : list N) : list N :=
  let iv := firstn 8 data in
  let body := skipn 8 data in
  iv ++ xor_bytes body (keystream cw iv (length body)).

Definition block_layer (f : list block -> list block) (data : list N) : list N :=
  unblocks (f (blocks data)) ++ residue data.

Definition csa_encrypt (cw data : list N) : list N :=
  if Nat.ltb (length data) 8 then data
  else stream_cipher cw (block_layer (rcbc_enc (block_enc (key_schedule cw))) data).

Definition csa_decrypt (cw data : list N) : list N :=
  if Nat.ltb (length data) 8 then data
  else block_layer (rcbc_dec (block_dec (key_schedule cw))) (stream_cipher cw data).
