(** ClassicalStream.v -- the packed-register stream cipher of dvbcsa_stream.c refines Spec. *)
From Coq Require Import Btauto.
From Verif Require Import Base Tables Spec Mem ModelClassical ClassicalBlock ClassicalKey.
Local Open Scope N_scope.

Definition nib (x : N) (k : nat) : N := N.land (N.shiftr x (4 * N.of_nat k)) 15.
Definition b2n (b : bool) : N := if b then 1 else 0.

(* the abstract cipher state represented by the packed registers *)
Definition abs (s : cs_state) : stream :=
  mk_stream (map (nib (csA s)) (seq 0 10)) (map (nib (csB s)) (seq 0 10))
            (nib (cs_pqzyx s) 0) (nib (cs_pqzyx s) 1) (nib (cs_pqzyx s) 2)
            (nib (cs_cfed s) 0) (nib (cs_cfed s) 1) (nib (cs_cfed s) 2)
            (bit (cs_pqzyx s) 12) (bit (cs_pqzyx s) 13) (bit (cs_cfed s) 12).

Lemma nib_lt x k : nib x k < 16.
Proof. unfold nib. change 15 with (N.ones 4). rewrite N.land_ones. apply N.mod_lt. discriminate. Qed.

Lemma nib_bit x k j : j < 4 -> N.testbit (nib x k) j = N.testbit x (j + 4 * N.of_nat k).
Proof.
  intros H. unfold nib. rewrite N.land_spec, N.shiftr_spec'.
  change 15 with (N.ones 4). rewrite N.ones_spec_low by exact H. apply andb_true_r.
Qed.
Lemma nib_bit_hi x k j : 4 <= j -> N.testbit (nib x k) j = false.
Proof.
  intros H. unfold nib. rewrite N.land_spec. change 15 with (N.ones 4). rewrite N.ones_spec_high by exact H. apply andb_false_r.
Qed.

Lemma nib_ext x y : x < 16 -> y < 16 ->
  N.testbit x 0 = N.testbit y 0 -> N.testbit x 1 = N.testbit y 1 ->
  N.testbit x 2 = N.testbit y 2 -> N.testbit x 3 = N.testbit y 3 -> x = y.
Proof.
  intros Hx Hy H0 H1 H2 H3. apply N.bits_inj. intros k.
  destruct (N.lt_ge_cases k 4) as [L|L].
  - assert (C : k = 0 \/ k = 1 \/ k = 2 \/ k = 3) by lia. destruct C as [->|[->|[->| ->]]]; assumption.
  - rewrite !(bits_of_bound _ 4) by assumption. reflexivity.
Qed.

Lemma nibble_bits b3 b2 b1 b0 :
  nibble (b2n b3) (b2n b2) (b2n b1) (b2n b0) < 16 /\
  N.testbit (nibble (b2n b3) (b2n b2) (b2n b1) (b2n b0)) 0 = b0 /\
  N.testbit (nibble (b2n b3) (b2n b2) (b2n b1) (b2n b0)) 1 = b1 /\
  N.testbit (nibble (b2n b3) (b2n b2) (b2n b1) (b2n b0)) 2 = b2 /\
  N.testbit (nibble (b2n b3) (b2n b2) (b2n b1) (b2n b0)) 3 = b3.
Proof. destruct b3, b2, b1, b0; vm_compute; auto. Qed.

(* compare a nibble with an assembled one, bit by bit *)
Lemma nib_nibble x b3 b2 b1 b0 : x < 16 ->
  N.testbit x 0 = b0 -> N.testbit x 1 = b1 -> N.testbit x 2 = b2 -> N.testbit x 3 = b3 ->
  x = nibble (b2n b3) (b2n b2) (b2n b1) (b2n b0).
Proof.
  intros Hx H0 H1 H2 H3. destruct (nibble_bits b3 b2 b1 b0) as (L & E0 & E1 & E2 & E3).
  apply nib_ext; congruence || assumption.
Qed.

Lemma bit_b2n x k : bit x k = b2n (N.testbit x k).
Proof. reflexivity. Qed.
Lemma b2n_xor4 a b c d : xor4 (b2n a) (b2n b) (b2n c) (b2n d) = b2n (xorb (xorb (xorb a b) c) d).
Proof. destruct a, b, c, d; reflexivity. Qed.

Lemma lxor_lt16 x y : x < 16 -> y < 16 -> N.lxor x y < 16.
Proof.
  intros Hx Hy. change 16 with (2 ^ 4). apply bound_of_bits. intros k Hk.
  rewrite N.lxor_spec, !(bits_of_bound _ 4) by assumption. reflexivity.
Qed.

Lemma u64_bit x k : N.testbit (u64 x) k = (k <? 64) && N.testbit x k.
Proof.
  unfold u64. rewrite <- N.land_ones, N.land_spec. destruct (N.ltb_spec k 64).
  - rewrite N.ones_spec_low by assumption. apply andb_true_r.
  - rewrite N.ones_spec_high by assumption. apply andb_false_r.
Qed.
Lemma u32_bit x k : N.testbit (u32 x) k = (k <? 32) && N.testbit x k.
Proof.
  unfold u32. rewrite <- N.land_ones, N.land_spec. destruct (N.ltb_spec k 32).
  - rewrite N.ones_spec_low by assumption. apply andb_true_r.
  - rewrite N.ones_spec_high by assumption. apply andb_false_r.
Qed.
Lemma u8_bit x k : N.testbit (u8 x) k = (k <? 8) && N.testbit x k.
Proof.
  unfold u8. rewrite <- N.land_ones, N.land_spec. destruct (N.ltb_spec k 8).
  - rewrite N.ones_spec_low by assumption. apply andb_true_r.
  - rewrite N.ones_spec_high by assumption. apply andb_false_r.
Qed.

Lemma shiftl_bit x n k : N.testbit (N.shiftl x n) k = (n <=? k) && N.testbit x (k - n).
Proof.
  destruct (N.leb_spec n k).
  - rewrite N.shiftl_spec_high' by assumption. reflexivity.
  - rewrite N.shiftl_spec_low by assumption. reflexivity.
Qed.

(* evaluate testbit of an expression at literal positions *)
Ltac closedN t := match t with
  | N0 => idtac | Npos ?p => closedP p end
with closedP p := match p with xH => idtac | xO ?q => closedP q | xI ?q => closedP q end.
Ltac tb_const := repeat match goal with
  | |- context [N.testbit ?c ?k] => closedN c; closedN k;
      let v := eval vm_compute in (N.testbit c k) in change (N.testbit c k) with v
  | |- context [N.add ?a ?b] => closedN a; closedN b;
      let v := eval vm_compute in (N.add a b) in change (N.add a b) with v
  | |- context [N.sub ?a ?b] => closedN a; closedN b;
      let v := eval vm_compute in (N.sub a b) in change (N.sub a b) with v
  | |- context [N.ltb ?a ?b] => closedN a; closedN b;
      let v := eval vm_compute in (N.ltb a b) in change (N.ltb a b) with v
  | |- context [N.leb ?a ?b] => closedN a; closedN b;
      let v := eval vm_compute in (N.leb a b) in change (N.leb a b) with v
  | |- context [N.mul ?a (N.of_nat ?b)] =>
      let v := eval vm_compute in (N.mul a (N.of_nat b)) in closedN v; change (N.mul a (N.of_nat b)) with v
  end.
Ltac tb := repeat (progress (rewrite ?N.land_spec, ?N.lxor_spec, ?N.lor_spec, ?N.shiftr_spec',
   ?shiftl_bit, ?u64_bit, ?u32_bit, ?u8_bit, ?nib_bit by reflexivity; tb_const)).
Ltac tbs := tb; rewrite ?andb_true_r, ?andb_false_r, ?andb_true_l, ?andb_false_l, ?orb_false_r, ?orb_false_l,
   ?xorb_false_r, ?xorb_false_l.

(** ** S-boxes *)
Definition of5 (b4 b3 b2 b1 b0 : bool) : N := 16 * b2n b4 + 8 * b2n b3 + 4 * b2n b2 + 2 * b2n b1 + b2n b0.
Lemma of5_ok x : x < 32 ->
  x = of5 (N.testbit x 4) (N.testbit x 3) (N.testbit x 2) (N.testbit x 1) (N.testbit x 0).
Proof.
  intros H. apply N.eqb_eq.
  assert (B : is_byte x) by (unfold is_byte; lia).
  pose proof (byte_sweep (fun x => if x <? 32 then x =? of5 (N.testbit x 4) (N.testbit x 3) (N.testbit x 2) (N.testbit x 1) (N.testbit x 0) else true)
     ltac:(vm_compute; reflexivity) x B) as T. cbv beta in T.
  destruct (N.ltb_spec x 32); [exact T|lia].
Qed.

Lemma land31_lt x : N.land x 31 < 32.
Proof. change 31 with (N.ones 5). rewrite N.land_ones. apply N.mod_lt. discriminate. Qed.

(* table row n of the code, indexed by the five selected bits, holds the two output bits of
   S-box n+1 at positions ph (high bit) and pl (low bit) of pqzyx *)
Definition spread (ph pl : N) (o : N) : N :=
  N.lor (if N.testbit o 1 then 2 ^ ph else 0) (if N.testbit o 0 then 2 ^ pl else 0).

Lemma spread_bit ph pl o k :
  N.testbit (spread ph pl o) k = ((ph =? k) && N.testbit o 1) || ((pl =? k) && N.testbit o 0).
Proof.
  unfold spread. rewrite N.lor_spec. f_equal.
  - destruct (N.testbit o 1); [rewrite N.pow2_bits_eqb, andb_true_r; reflexivity|rewrite N.bits_0, andb_false_r; reflexivity].
  - destruct (N.testbit o 0); [rewrite N.pow2_bits_eqb, andb_true_r; reflexivity|rewrite N.bits_0, andb_false_r; reflexivity].
Qed.

Definition row (n : nat) : list N := nth n csa_stream_sbox [].
Lemma aget_row n : (n < 7)%nat -> aget csa_stream_sbox n = Ok (row n).
Proof. intros H. apply aget_ok. exact H. Qed.
Lemma tget_row n x : (n < 7)%nat -> tget (row n) (N.land x 31) = Ok (nth (N.to_nat (N.land x 31)) (row n) 0).
Proof.
  intros H. apply aget_ok. assert (L : length (row n) = 32%nat) by (do 7 (destruct n as [|n]; [reflexivity|]); lia).
  rewrite L. pose proof (land31_lt x). lia.
Qed.

Lemma lookup_bits A mask n a b c d e :
  (n < 7)%nat ->
  let x := N.land (N.lxor (N.lxor (N.lxor (N.lxor (N.shiftr (N.land A mask) a) (N.shiftr (N.land A mask) b))
             (N.shiftr (N.land A mask) c)) (N.shiftr (N.land A mask) d)) (N.shiftr (N.land A mask) e)) 31 in
  csa_stream_sbox_lookup A mask n a b c d e =
  Ok (nth (N.to_nat (of5 (N.testbit x 4) (N.testbit x 3) (N.testbit x 2) (N.testbit x 1) (N.testbit x 0))) (row n) 0).
Proof.
  intros H x. unfold csa_stream_sbox_lookup. rewrite aget_row by exact H. cbn [bind].
  rewrite tget_row by exact H. fold x. rewrite <- of5_ok; [reflexivity|apply land31_lt].
Qed.

Definition i5 (a b c d e : bool) : nat := idx5 (b2n a) (b2n b) (b2n c) (b2n d) (b2n e).
Definition T (A k : N) := N.testbit A k.

Ltac lk := rewrite lookup_bits by lia; tbs; unfold row; 
  repeat match goal with |- context [N.testbit ?A ?k] => is_var A; generalize (N.testbit A k); intros [|] end; reflexivity.

Lemma lookup1 A : csa_stream_sbox_lookup A 0x2018004200 1 37 27 25 11  5
  = Ok (spread 1 11 (look s2 (i5 (T A 9) (T A 14) (T A 27) (T A 28) (T A 37)))).
Proof. unfold T. lk. Qed.
Lemma lookup4 A : csa_stream_sbox_lookup A 0x4201480000 4 38 32 22 16 18
  = Ok (spread 8 6 (look s5 (i5 (T A 22) (T A 19) (T A 24) (T A 33) (T A 38)))).
Proof. unfold T. lk. Qed.
Lemma lookup5 A : csa_stream_sbox_lookup A 0x8040122000 5 39 29 18 14  9
  = Ok (spread 9 7 (look s6 (i5 (T A 13) (T A 17) (T A 20) (T A 30) (T A 39)))).
Proof. unfold T. lk. Qed.
Lemma lookup0 A : csa_stream_sbox_lookup A 0x1082010040 0 36 30 23  3 12
  = Ok (spread 0 10 (look s1 (i5 (T A 16) (T A 6) (T A 25) (T A 31) (T A 36)))).
Proof. unfold T. lk. Qed.
Lemma lookup2 A : csa_stream_sbox_lookup A 0x0004a00180 2 26 22 19  5  3
  = Ok (spread 4 2 (look s3 (i5 (T A 7) (T A 8) (T A 21) (T A 23) (T A 26)))).
Proof. unfold T. lk. Qed.
Lemma lookup3 A : csa_stream_sbox_lookup A 0x0100048820 3 32 17  9  2 11
  = Ok (spread 5 3 (look s4 (i5 (T A 15) (T A 5) (T A 11) (T A 18) (T A 32)))).
Proof. unfold T. lk. Qed.
Lemma lookup6 A : csa_stream_sbox_lookup A 0x0c20001400 6 35 33 27  9  6
  = Ok (spread 12 13 (look s7 (i5 (T A 10) (T A 12) (T A 29) (T A 34) (T A 35)))).
Proof. unfold T. lk. Qed.

(** ** csa_stream_sboxes: A' is register A after the shift, so nibble k of A' is A_k *)
Definition pq_of (A : N) : N :=
  N.lor (N.lor (N.lor (N.lor (N.lor (N.lor
    (spread 1 11 (look s2 (i5 (T A 9) (T A 14) (T A 27) (T A 28) (T A 37))))
    (spread 8 6 (look s5 (i5 (T A 22) (T A 19) (T A 24) (T A 33) (T A 38)))))
    (spread 9 7 (look s6 (i5 (T A 13) (T A 17) (T A 20) (T A 30) (T A 39)))))
    (spread 0 10 (look s1 (i5 (T A 16) (T A 6) (T A 25) (T A 31) (T A 36)))))
    (spread 4 2 (look s3 (i5 (T A 7) (T A 8) (T A 21) (T A 23) (T A 26)))))
    (spread 5 3 (look s4 (i5 (T A 15) (T A 5) (T A 11) (T A 18) (T A 32)))))
    (spread 12 13 (look s7 (i5 (T A 10) (T A 12) (T A 29) (T A 34) (T A 35)))).

Lemma sboxes_ok A : csa_stream_sboxes A = Ok (pq_of A).
Proof.
  unfold csa_stream_sboxes.
  rewrite lookup1, lookup4, lookup5, lookup0, lookup2, lookup3, lookup6. reflexivity.
Qed.

(** ** csa_stream_cfed *)
Definition cdef_ok (x : nat) : bool :=
  let v := nth x csa_stream_cdef 0 in
  let E := nib (N.of_nat x) 0 in let Z := nib (N.of_nat x) 1 in
  let c := bit (N.of_nat x) 8 in let q := N.testbit (N.of_nat x) 9 in
  let sum := E + Z + c in
  (nib v 0 =? N.lxor E Z) && (nib v 1 =? 0) && (nib v 2 =? if q then sum mod 16 else E)
  && (bit v 12 =? if q then sum / 16 else c).
Lemma cdef_sweep : forallb cdef_ok (seq 0 1024) = true.
Proof. vm_compute. reflexivity. Qed.

Lemma lt1024 x : (forall k, 10 <= k -> N.testbit x k = false) -> x < 1024.
Proof. apply (bound_of_bits x 10). Qed.

Lemma cfed_ok pqzyx cfed :
  exists c', csa_stream_cfed pqzyx cfed = Ok c' /\
    nib c' 0 = N.lxor (nib cfed 1) (nib pqzyx 2) /\
    nib c' 1 = nib cfed 2 /\
    nib c' 2 = (if bit pqzyx 13 =? 1 then (nib cfed 1 + nib pqzyx 2 + bit cfed 12) mod 16 else nib cfed 1) /\
    bit c' 12 = (if bit pqzyx 13 =? 1 then (nib cfed 1 + nib pqzyx 2 + bit cfed 12) / 16 else bit cfed 12).
Proof.
  unfold csa_stream_cfed.
  set (x := N.shiftr (N.lor (N.land cfed 0x10ff) (N.land pqzyx 0x2f00)) 4).
  assert (Hx : x < 1024).
  { apply lt1024. intros k Hk. unfold x. rewrite N.shiftr_spec', N.lor_spec, !N.land_spec.
    rewrite (bits_of_bound 0x10ff 13), (bits_of_bound 0x2f00 14) by (try reflexivity; lia).
    rewrite !andb_false_r. reflexivity. }
  unfold tget. rewrite (aget_ok _ _ 0) by (change (length csa_stream_cdef) with 1024%nat; lia). cbn [bind].
  eexists; split; [reflexivity|].
  pose proof cdef_sweep as S. rewrite forallb_forall in S.
  specialize (S (N.to_nat x) ltac:(apply in_seq; lia)). unfold cdef_ok in S. rewrite N2Nat.id in S.
  set (v := nth (N.to_nat x) csa_stream_cdef 0) in *.
  rewrite !andb_true_iff in S. destruct S as [[[S0 S1] S2] S3].
  apply N.eqb_eq in S0, S1, S2, S3.
  assert (XE : nib x 0 = nib cfed 1).
  { apply nib_ext; try apply nib_lt; unfold x; tbs; reflexivity. }
  assert (XZ : nib x 1 = nib pqzyx 2).
  { apply nib_ext; try apply nib_lt; unfold x; tbs; reflexivity. }
  assert (Xc : bit x 8 = bit cfed 12).
  { unfold bit, x; tbs; reflexivity. }
  assert (Xq : N.testbit x 9 = (bit pqzyx 13 =? 1)).
  { unfold bit, x; tbs. destruct (N.testbit pqzyx 13); reflexivity. }
  rewrite XE, XZ, Xc in *. rewrite Xq in *.
  assert (V1 : forall j, j < 4 -> N.testbit v (j + 4) = false).
  { intros j Hj. change (j + 4) with (j + 4 * N.of_nat 1). rewrite <- nib_bit by exact Hj. rewrite S1. apply N.bits_0. }
  repeat split.
  - rewrite <- S0. apply nib_ext; try apply nib_lt; tbs; reflexivity.
  - pose proof (V1 0 eq_refl). pose proof (V1 1 eq_refl). pose proof (V1 2 eq_refl). pose proof (V1 3 eq_refl).
    cbn [N.add Pos.add Pos.succ] in *.
    apply nib_ext; try apply nib_lt; tbs;
     repeat match goal with H : N.testbit v _ = false |- _ => rewrite H; clear H end; rewrite ?orb_false_r; reflexivity.
  - rewrite <- S2. apply nib_ext; try apply nib_lt; tbs; reflexivity.
  - rewrite <- S3. unfold bit. tbs. reflexivity.
Qed.

(** ** csa_stream_B_sel *)
Lemma B_sel_lt B : csa_stream_B_sel B < 16.
Proof.
  unfold csa_stream_B_sel. change 16 with (2 ^ 4). apply bound_of_bits. intros k Hk.
  rewrite !N.lxor_spec, !N.land_spec. rewrite (bits_of_bound 8 4 k), (bits_of_bound 9 4 k), (bits_of_bound 4 4 k), (bits_of_bound 5 4 k), (bits_of_bound 2 4 k), (bits_of_bound 1 4 k), (bits_of_bound 14 4 k) by (reflexivity || exact Hk).
  rewrite !andb_false_r. reflexivity.
Qed.

Definition shifted (R R' : N) : Prop := forall k : nat, (k < 9)%nat -> nib R' (S k) = nib R k.

Lemma reg_nib R k : (k < 10)%nat -> reg (map (nib R) (seq 0 10)) (S k) = nib R k.
Proof. intros H. do 10 (destruct k as [|k]; [reflexivity|]). lia. Qed.

Lemma shifted_bit R R' k : shifted R R' -> 4 <= k < 40 -> N.testbit R' k = N.testbit R (k - 4).
Proof.
  intros H Hk. specialize (H (N.to_nat ((k - 4) / 4))).
  pose proof (N.div_mod (k - 4) 4 ltac:(lia)) as D. pose proof (N.mod_lt (k - 4) 4 ltac:(lia)).
  set (q := (k - 4) / 4) in *. set (r := (k - 4) mod 4) in *.
  assert (Hq : (N.to_nat q < 9)%nat) by lia. specialize (H Hq).
  replace k with (r + 4 * N.of_nat (S (N.to_nat q))) at 1 by lia.
  rewrite <- nib_bit by assumption. rewrite H, nib_bit by assumption. f_equal. lia.
Qed.

Lemma B_sel_ok B B' : shifted B B' -> csa_stream_B_sel B' = b_out (map (nib B) (seq 0 10)).
Proof.
  intros H. unfold b_out. rewrite !reg_nib by lia. rewrite !bit_b2n, !b2n_xor4.
  apply nib_nibble; [apply B_sel_lt|..]; unfold csa_stream_B_sel; tbs;
    rewrite !(shifted_bit _ _ _ H) by lia; tb_const; btauto.
Qed.

(** ** the round functions *)
Lemma bit_nib x k j : j < 4 -> bit (nib x k) j = b2n (N.testbit x (j + 4 * N.of_nat k)).
Proof. intros H. unfold bit. rewrite nib_bit by exact H. reflexivity. Qed.

Lemma land_pow2_eqb x n : negb (N.land x (2 ^ n) =? 0) = N.testbit x n.
Proof.
  destruct (N.testbit x n) eqn:E.
  - apply negb_true_iff, N.eqb_neq. intros H. assert (N.testbit (N.land x (2 ^ n)) n = true).
    { rewrite N.land_spec, E, N.pow2_bits_true. reflexivity. }
    rewrite H, N.bits_0 in H0. discriminate.
  - apply negb_false_iff, N.eqb_eq. apply N.bits_inj. intros k. rewrite N.land_spec, N.pow2_bits_eqb, N.bits_0.
    destruct (N.eqb_spec n k) as [->|]; [rewrite E; reflexivity|apply andb_false_r].
Qed.

Lemma rotate_ok pq x : x < 16 ->
  csa_stream_rotate pq x = if bit pq 12 =? 1 then rotl4 x else x.
Proof.
  intros H. unfold csa_stream_rotate. change 0x1000 with (2 ^ 12). rewrite land_pow2_eqb. unfold bit.
  destruct (N.testbit pq 12); cbn [N.eqb Pos.eqb].
  - assert (B : is_byte x) by (unfold is_byte; lia). apply N.eqb_eq.
    pose proof (byte_sweep (fun x => if x <? 16 then u8 (N.land (N.lor (u32 (N.shiftl x 1)) (N.land (N.shiftr x 3) 1)) 15) =? rotl4 x else true)
       ltac:(vm_compute; reflexivity) x B) as T0. cbv beta in T0. destruct (N.ltb_spec x 16); [exact T0|lia].
  - apply u8_id. unfold is_byte; lia.
Qed.

Lemma rotl4_lt x : rotl4 x < 16.
Proof. unfold rotl4. rewrite !bit_b2n. apply nibble_bits. Qed.

Definition shift_in (R n : N) : N := N.lor (u64 (N.shiftl R 4)) n.
Lemma shift_in_shifted R n : n < 16 -> shifted R (shift_in R n).
Proof.
  intros H k Hk. unfold shift_in. apply nib_ext; try apply nib_lt;
   rewrite !nib_bit by reflexivity; rewrite N.lor_spec, u64_bit, shiftl_bit, (bits_of_bound n 4) by (try exact H; lia);
   rewrite orb_false_r;
   match goal with |- (?a <? ?b) && ((?c <=? ?d) && N.testbit R ?e) = N.testbit R ?f =>
     replace (a <? b) with true by (symmetry; apply N.ltb_lt; lia);
     replace (c <=? d) with true by (symmetry; apply N.leb_le; lia);
     replace e with f by lia end; reflexivity.
Qed.
Lemma shift_in_0 R n : n < 16 -> nib (shift_in R n) 0 = n.
Proof.
  intros H. unfold shift_in. apply nib_ext; try apply nib_lt; try exact H; tbs; reflexivity.
Qed.

Lemma map_nib_shift R R' n : nib R' 0 = n -> shifted R R' ->
  map (nib R') (seq 0 10) = n :: firstn 9 (map (nib R) (seq 0 10)).
Proof.
  intros H0 H. cbn [seq map firstn]. rewrite H0.
  rewrite !H by lia. reflexivity.
Qed.

Definition state_of (s : cs_state) (fa fb : N) (c' : N) : cs_state :=
  let A := shift_in (csA s) fa in let B := shift_in (csB s) fb in
  mk_cs A B (pq_of A) (N.lxor c' (csa_stream_B_sel B)).

Lemma pq_hi a b c d e f g k : k < 14 ->
  N.testbit (N.lor (N.lor (N.lor (N.lor (N.lor (N.lor (spread 1 11 a) (spread 8 6 b)) (spread 9 7 c))
     (spread 0 10 d)) (spread 4 2 e)) (spread 5 3 f)) (spread 12 13 g)) k
  = nth (N.to_nat k) [N.testbit d 1; N.testbit a 1; N.testbit e 0; N.testbit f 0;
                      N.testbit e 1; N.testbit f 1; N.testbit b 0; N.testbit c 0;
                      N.testbit b 1; N.testbit c 1; N.testbit d 0; N.testbit a 0;
                      N.testbit g 1; N.testbit g 0] false.
Proof.
  intros H.
  assert (C : k = 0 \/ k = 1 \/ k = 2 \/ k = 3 \/ k = 4 \/ k = 5 \/ k = 6 \/ k = 7 \/ k = 8 \/ k = 9 \/ k = 10 \/ k = 11 \/ k = 12 \/ k = 13) by lia.
  rewrite !N.lor_spec, !spread_bit.
  repeat destruct C as [->|C]; try subst k; cbn -[N.testbit]; rewrite ?orb_false_r; reflexivity.
Qed.

Lemma abs_state_of s fa fb c' inp :
  fa < 16 -> fb < 16 ->
  (let fa' := N.lxor (nib (csA s) 9) (nib (cs_pqzyx s) 0) in
   fa = match inp with Some (ia, _) => N.lxor (N.lxor fa' (nib (cs_cfed s) 0)) ia | None => fa' end) ->
  (let fb' := N.lxor (N.lxor (nib (csB s) 6) (nib (csB s) 9)) (nib (cs_pqzyx s) 1) in
   let fb' := match inp with Some (_, ib) => N.lxor fb' ib | None => fb' end in
   fb = if bit (cs_pqzyx s) 12 =? 1 then rotl4 fb' else fb') ->
  nib c' 0 = N.lxor (nib (cs_cfed s) 1) (nib (cs_pqzyx s) 2) ->
  nib c' 1 = nib (cs_cfed s) 2 ->
  nib c' 2 = (if bit (cs_pqzyx s) 13 =? 1
              then (nib (cs_cfed s) 1 + nib (cs_pqzyx s) 2 + bit (cs_cfed s) 12) mod 16 else nib (cs_cfed s) 1) ->
  bit c' 12 = (if bit (cs_pqzyx s) 13 =? 1
               then (nib (cs_cfed s) 1 + nib (cs_pqzyx s) 2 + bit (cs_cfed s) 12) / 16 else bit (cs_cfed s) 12) ->
  abs (state_of s fa fb c') = clock inp (abs s).
Proof.
  intros La Lb Ha Hb C0 C1 C2 C3.
  pose proof (shift_in_shifted (csA s) fa La) as SA. pose proof (shift_in_shifted (csB s) fb Lb) as SB.
  pose proof (B_sel_lt (shift_in (csB s) fb)) as LB.
  unfold abs, clock, state_of. cbn [csA csB cs_pqzyx cs_cfed rA rB rX rY rZ rD rE rF rp rq rc].
  rewrite !reg_nib by lia. rewrite !bit_nib by reflexivity. cbn [N.add N.mul N.of_nat Pos.of_succ_nat Pos.succ Pos.add Pos.mul].
  unfold pq_of, T, i5 in *. rewrite !(shifted_bit _ _ _ SA) by lia.
  cbn [N.sub Pos.sub Pos.sub_mask Pos.succ_double_mask Pos.double_mask Pos.double_pred_mask Pos.pred_double Pos.sub_mask_carry N.succ_double N.double].
  f_equal.
  - rewrite <- Ha. apply map_nib_shift; [apply shift_in_0; exact La|exact SA].
  - cbv zeta in Hb. rewrite <- Hb. apply map_nib_shift; [apply shift_in_0; exact Lb|exact SB].
  - unfold hi, lo. rewrite !bit_b2n. apply nib_nibble; [apply nib_lt|..];
    rewrite nib_bit by reflexivity; rewrite pq_hi by reflexivity; reflexivity.
  - unfold hi, lo. rewrite !bit_b2n. apply nib_nibble; [apply nib_lt|..];
    rewrite nib_bit by reflexivity; rewrite pq_hi by reflexivity; reflexivity.
  - unfold hi, lo. rewrite !bit_b2n. apply nib_nibble; [apply nib_lt|..];
    rewrite nib_bit by reflexivity; rewrite pq_hi by reflexivity; reflexivity.
  - rewrite <- C0. rewrite <- (B_sel_ok _ _ SB).
    apply nib_ext; [apply nib_lt|apply lxor_lt16; [apply nib_lt|exact LB]|..]; tbs; reflexivity.
  - rewrite <- C1. apply nib_ext; try apply nib_lt; tbs; rewrite (bits_of_bound _ 4 _ LB) by lia; apply xorb_false_r.
  - rewrite <- C2. apply nib_ext; try apply nib_lt; tbs; rewrite (bits_of_bound _ 4 _ LB) by lia; apply xorb_false_r.
  - unfold hi, bit at 1. rewrite pq_hi by reflexivity. reflexivity.
  - unfold lo, bit at 1. rewrite pq_hi by reflexivity. reflexivity.
  - rewrite <- C3. unfold bit. rewrite N.lxor_spec, (bits_of_bound _ 4 _ LB) by lia. rewrite xorb_false_r. reflexivity.
Qed.

Lemma u32_small x : x < 2 ^ 32 -> u32 x = x.
Proof. apply N.mod_small. Qed.
Lemma land15_lt x : N.land x 15 < 16.
Proof. change 15 with (N.ones 4). rewrite N.land_ones. apply N.mod_lt. discriminate. Qed.

Lemma stream_round_ok s : exists s', csa_stream_round s = Ok s' /\ abs s' = clock None (abs s).
Proof.
  unfold csa_stream_round. cbv zeta.
  destruct (cfed_ok (cs_pqzyx s) (cs_cfed s)) as (c' & Ec & C0 & C1 & C2 & C3).
  rewrite Ec. cbn [bind]. rewrite sboxes_ok. cbn [bind].
  eexists; split; [reflexivity|].
  set (fa := N.land (N.lxor (N.shiftr (u64 (N.shiftl (csA s) 4)) 40) (cs_pqzyx s)) 15).
  set (x := N.land (N.lxor (N.lxor (N.shiftr (csB s) 24) (N.shiftr (csB s) 36)) (N.shiftr (cs_pqzyx s) 4)) 15).
  assert (Lx : x < 16) by apply land15_lt.
  rewrite (u32_small x) by lia. rewrite (rotate_ok _ _ Lx).
  set (fb := if bit (cs_pqzyx s) 12 =? 1 then rotl4 x else x).
  change (abs (state_of s fa fb c') = clock None (abs s)).
  apply abs_state_of; try assumption.
  - apply land15_lt.
  - unfold fb. destruct (bit (cs_pqzyx s) 12 =? 1); [apply rotl4_lt|exact Lx].
  - cbv zeta. apply nib_ext; [apply land15_lt|apply lxor_lt16; apply nib_lt|..]; unfold fa; tbs; reflexivity.
  - cbv zeta. unfold fb.
    replace x with (N.lxor (N.lxor (nib (csB s) 6) (nib (csB s) 9)) (nib (cs_pqzyx s) 1)); [reflexivity|].
    apply nib_ext; [repeat apply lxor_lt16; apply nib_lt|exact Lx|..]; unfold x; tbs; reflexivity.
Qed.

Lemma init_round_ok iv ia ib s : is_byte iv -> ia = hi4 iv -> ib = lo4 iv ->
  exists s', csa_stream_init_round iv s = Ok s' /\ abs s' = clock (Some (ia, ib)) (abs s).
Proof.
  intros Hiv Ea Eb. unfold csa_stream_init_round. cbv zeta.
  destruct (cfed_ok (cs_pqzyx s) (cs_cfed s)) as (c' & Ec & C0 & C1 & C2 & C3).
  rewrite Ec. cbn [bind]. rewrite sboxes_ok. cbn [bind].
  eexists; split; [reflexivity|].
  assert (Ia : ia = nib iv 1).
  { subst ia. apply N.eqb_eq. apply (byte_sweep (fun iv => hi4 iv =? nib iv 1)); [vm_compute; reflexivity|exact Hiv]. }
  assert (Ib : ib = nib iv 0).
  { subst ib. apply N.eqb_eq. apply (byte_sweep (fun iv => lo4 iv =? nib iv 0)); [vm_compute; reflexivity|exact Hiv]. }
  clear Ea Eb.
  set (fa := N.land (N.lxor (N.lxor (N.lxor (N.shiftr (u64 (N.shiftl (csA s) 4)) 40) (cs_pqzyx s)) (cs_cfed s)) (N.shiftr iv 4)) 15).
  set (x := N.land (N.lxor (N.lxor (N.lxor (N.shiftr (csB s) 24) (N.shiftr (csB s) 36)) (N.shiftr (cs_pqzyx s) 4)) iv) 15).
  assert (Lx : x < 16) by apply land15_lt.
  rewrite (u32_small x) by lia. rewrite (rotate_ok _ _ Lx).
  set (fb := if bit (cs_pqzyx s) 12 =? 1 then rotl4 x else x).
  change (abs (state_of s fa fb c') = clock (Some (ia, ib)) (abs s)).
  apply abs_state_of; try assumption.
  - apply land15_lt.
  - unfold fb. destruct (bit (cs_pqzyx s) 12 =? 1); [apply rotl4_lt|exact Lx].
  - cbv zeta. rewrite Ia. apply nib_ext; [apply land15_lt|repeat apply lxor_lt16; apply nib_lt|..]; unfold fa; tbs; reflexivity.
  - cbv zeta. unfold fb. rewrite Ib.
    replace x with (N.lxor (N.lxor (N.lxor (nib (csB s) 6) (nib (csB s) 9)) (nib (cs_pqzyx s) 1)) (nib iv 0)); [reflexivity|].
    apply nib_ext; [repeat apply lxor_lt16; apply nib_lt|exact Lx|..]; unfold x; tbs; reflexivity.
Qed.

(** ** initialisation *)
Lemma swap_nbl_ok b : is_byte b -> is_byte (swap_nbl b) /\ hi4 (swap_nbl b) = lo4 b /\ lo4 (swap_nbl b) = hi4 b.
Proof.
  intros H.
  pose proof (byte_sweep (fun b => (swap_nbl b <? 256) && (hi4 (swap_nbl b) =? lo4 b) && (lo4 (swap_nbl b) =? hi4 b))
     ltac:(vm_compute; reflexivity) b H) as S. cbv beta in S.
  apply andb_true_iff in S as [S S3]. apply andb_true_iff in S as [S1 S2].
  apply N.ltb_lt in S1. apply N.eqb_eq in S2, S3. auto.
Qed.

Lemma init_byte_ok b s : is_byte b ->
  exists s', (s <- csa_stream_init_round b s ;;
              s <- csa_stream_init_round (swap_nbl b) s ;;
              s <- csa_stream_init_round b s ;;
              csa_stream_init_round (swap_nbl b) s) = Ok s' /\
             abs s' = init_byte (abs s) b.
Proof.
  intros H. destruct (swap_nbl_ok b H) as (Hs & E1 & E2).
  destruct (init_round_ok b _ _ s H eq_refl eq_refl) as (t1 & R1 & A1). rewrite R1; cbn [bind].
  destruct (init_round_ok (swap_nbl b) _ _ t1 Hs eq_refl eq_refl) as (t2 & R2 & A2). rewrite R2; cbn [bind].
  destruct (init_round_ok b _ _ t2 H eq_refl eq_refl) as (t3 & R3 & A3). rewrite R3; cbn [bind].
  destruct (init_round_ok (swap_nbl b) _ _ t3 Hs eq_refl eq_refl) as (t4 & R4 & A4). rewrite R4.
  exists t4; split; [reflexivity|]. unfold init_byte. rewrite <- E1, <- E2 at 1.
  rewrite A4, A3, A2, A1. rewrite E1, E2. reflexivity.
Qed.

Lemma nib_le_val l k : Forall is_byte l -> (k < 2 * length l)%nat ->
  nib (le_val l) k = nib (nth (k / 2) l 0) (k mod 2).
Proof.
  intros F H.
  pose proof (Nat.div_mod k 2 ltac:(lia)) as D. pose proof (Nat.mod_upper_bound k 2 ltac:(lia)) as U.
  set (q := (k / 2)%nat) in *. set (r := (k mod 2)%nat) in *.
  assert (X : forall j, j < 4 -> N.testbit (nib (le_val l) k) j = N.testbit (nib (nth q l 0) r) j).
  { intros j Hj. rewrite !nib_bit by exact Hj. rewrite testbit_le_val by exact F.
    replace (j + 4 * N.of_nat k) with (j + 4 * N.of_nat r + N.of_nat q * 8) by lia.
    rewrite N.div_add, N.mod_add by lia. rewrite N.div_small, N.mod_small by lia. rewrite N.add_0_l, Nat2N.id. reflexivity. }
  apply nib_ext; try apply nib_lt; apply X; reflexivity.
Qed.

Lemma nib_swap b : is_byte b -> nib (swap_nibbles b) 0 = hi4 b /\ nib (swap_nibbles b) 1 = lo4 b.
Proof.
  intros H.
  pose proof (byte_sweep (fun b => (nib (swap_nibbles b) 0 =? hi4 b) && (nib (swap_nibbles b) 1 =? lo4 b))
     ltac:(vm_compute; reflexivity) b H) as S. cbv beta in S.
  apply andb_true_iff in S as [S1 S2]. apply N.eqb_eq in S1, S2. auto.
Qed.

Lemma nib_le_val_hi l k : Forall is_byte l -> (2 * length l <= k)%nat -> nib (le_val l) k = 0.
Proof.
  intros F H. unfold nib. rewrite N.shiftr_div_pow2.
  rewrite N.div_small; [reflexivity|]. eapply N.lt_le_trans; [apply le_val_bound; exact F|].
  apply N.pow_le_mono_r; lia.
Qed.

Lemma stream_load_ok cw : length cw = 8%nat -> Forall is_byte cw ->
  abs (mk_cs (le_val (map swap_nibbles (firstn 4 cw))) (le_val (map swap_nibbles (skipn 4 cw))) 0 0)
  = stream_load cw.
Proof.
  intros L F. unfold abs, stream_load. cbn [csA csB cs_pqzyx cs_cfed].
  list8 cw L. inv_forall. cbn [firstn skipn map concat app].
  assert (B : forall b, is_byte b -> is_byte (swap_nibbles b)) by apply swap_nibbles_byte.
  assert (X : forall c0 c1 c2 c3, is_byte c0 -> is_byte c1 -> is_byte c2 -> is_byte c3 ->
    map (nib (le_val [swap_nibbles c0; swap_nibbles c1; swap_nibbles c2; swap_nibbles c3])) (seq 0 10)
    = [hi4 c0; lo4 c0; hi4 c1; lo4 c1; hi4 c2; lo4 c2; hi4 c3; lo4 c3; 0; 0]).
  { intros. set (l := [swap_nibbles c0; swap_nibbles c1; swap_nibbles c2; swap_nibbles c3]).
    assert (Fl : Forall is_byte l) by (unfold l; auto 10). cbn [map seq].
    rewrite (nib_le_val_hi l 8), (nib_le_val_hi l 9) by (auto; cbn; lia).
    rewrite !(nib_le_val l) by (auto; cbn [length l]; unfold l; cbn [length]; lia).
    unfold l. cbn [Nat.div Nat.modulo Nat.divmod fst snd Nat.sub nth].
    repeat match goal with H : is_byte ?b |- _ => destruct (nib_swap b H) as [?E0 ?E1]; clear H end.
    congruence. }
  rewrite !X by assumption. reflexivity.
Qed.

(** ** keystream generation *)
Definition gen_after (n : nat) (s : stream) : stream := Nat.iter n (fun s => snd (gen_byte s)) s.

Lemma gen_bytes_length n s : length (gen_bytes n s) = n.
Proof. revert s; induction n; intros; cbn [gen_bytes]; [reflexivity|]. destruct (gen_byte s). simpl. rewrite IHn; reflexivity. Qed.

Lemma gen_after_S n s : gen_after (S n) s = gen_after n (snd (gen_byte s)).
Proof. unfold gen_after. induction n; simpl in *; congruence. Qed.

Lemma gen_bytes_nth n : forall s i, (i < n)%nat -> nth i (gen_bytes n s) 0 = fst (gen_byte (gen_after i s)).
Proof.
  induction n as [|n IH]; intros s i H; [lia|]. cbn [gen_bytes]. destruct (gen_byte s) as [b s'] eqn:E.
  destruct i as [|i].
  - cbn [nth gen_after Nat.iter nat_rect]. rewrite E. reflexivity.
  - cbn [nth]. rewrite IH by lia. rewrite gen_after_S, E. reflexivity.
Qed.

Definition out_part (sh : N) (s : stream) : N := sh * out2 s.
Definition D_lt (s : stream) : Prop := rD s < 16.

Lemma out_sweep D : D < 16 ->
  tget csa_stream_out D = Ok (nth (N.to_nat D) csa_stream_out 0) /\
  let o := nth (N.to_nat D) csa_stream_out 0 in
  let v := 2 * N.lxor (bit D 3) (bit D 2) + N.lxor (bit D 1) (bit D 0) in
  N.land o 0xc0 = 64 * v /\ N.land o 0x30 = 16 * v /\ N.land o 0x0c = 4 * v /\ N.land o 0x03 = v /\ v < 4.
Proof.
  intros H. split.
  - apply aget_ok. change (length csa_stream_out) with 16%nat. lia.
  - assert (B : is_byte D) by (unfold is_byte; lia).
    pose proof (byte_sweep (fun D => if D <? 16 then
       let o := nth (N.to_nat D) csa_stream_out 0 in
       let v := 2 * N.lxor (bit D 3) (bit D 2) + N.lxor (bit D 1) (bit D 0) in
       (N.land o 0xc0 =? 64 * v) && (N.land o 0x30 =? 16 * v) && (N.land o 0x0c =? 4 * v) && (N.land o 0x03 =? v) && (v <? 4)
       else true) ltac:(vm_compute; reflexivity) D B) as S. cbv beta in S.
    destruct (N.ltb_spec D 16); [|lia]. cbv zeta in *.
    rewrite !andb_true_iff in S. destruct S as [[[[S1 S2] S3] S4] S5].
    apply N.eqb_eq in S1, S2, S3, S4. apply N.ltb_lt in S5. auto.
Qed.

Lemma abs_D s : rD (abs s) = N.land (cs_cfed s) 0xf.
Proof. unfold abs, nib; cbn [rD]. rewrite N.shiftr_0_r. reflexivity. Qed.

Lemma put_upd m a l i v : (i < length l)%nat ->
  meq (put (put m a l) (a + N.of_nat i) [v]) (put m a (upd l i v)).
Proof.
  intros H x. unfold put. rewrite upd_length. cbn [length]. nb; try lia; try reflexivity.
  - rewrite nth_upd. replace (N.to_nat (x - a)) with i by lia. rewrite Nat.eqb_refl.
    replace (i <? length l)%nat with true by (symmetry; apply Nat.ltb_lt; lia).
    replace (N.to_nat (x - (a + N.of_nat i))) with 0%nat by lia. reflexivity.
  - rewrite nth_upd_other by lia. reflexivity.
  - rewrite nth_upd_other by lia. reflexivity.
Qed.

Lemma upd_upd {A} (l : list A) i a b : upd (upd l i a) i b = upd l i b.
Proof. revert i; induction l; intros [|i]; simpl; congruence. Qed.

(* one output round at byte i of a payload [cur] *)
Lemma out_round_ok m m1 data cur i mask s :
  meq m1 (put m data cur) -> (i < length cur)%nat ->
  exists s' m2, csa_stream_out_round (data + N.of_nat i) mask (s, m1) = Ok (s', m2) /\
    abs s' = clock None (abs s) /\
    meq m2 (put m data (upd cur i (N.lxor (nth i cur 0)
             (N.land (nth (N.to_nat (rD (abs s'))) csa_stream_out 0) mask)))).
Proof.
  intros E H. unfold csa_stream_out_round.
  destruct (stream_round_ok s) as (s' & R & A). rewrite R. cbn [bind].
  rewrite <- abs_D. pose proof (nib_lt (cs_cfed s') 0) as LD. change (nib (cs_cfed s') 0) with (rD (abs s')) in LD.
  rewrite (proj1 (out_sweep _ LD)). cbn [bind].
  unfold load. rewrite E, put_in by lia. replace (N.to_nat (data + N.of_nat i - data)) with i by lia. cbn [bind].
  match goal with |- context [store m1 ?p ?v] => pose proof (store_ok m1 p v) as W; destruct (store m1 p v) as [m2| | |] end;
    try (exfalso; apply W; intros x Hx; rewrite E, put_in by lia; eauto).
  cbn [bind]. exists s', m2. split; [reflexivity|]. split; [exact A|].
  cbn [wp] in W. eapply meq_trans; [apply W; intros x Hx; rewrite E, put_in by lia; eauto|].
  eapply meq_trans; [apply put_meq; exact E|]. apply put_upd. exact H.
Qed.

Lemma gen_byte_fst s : fst (gen_byte s) =
  64 * out2 (clock None s) + 16 * out2 (clock None (clock None s))
  + 4 * out2 (clock None (clock None (clock None s)))
  + out2 (clock None (clock None (clock None (clock None s)))).
Proof. reflexivity. Qed.

Lemma out_combine d v1 v2 v3 v4 : v1 < 4 -> v2 < 4 -> v3 < 4 -> v4 < 4 ->
  N.lxor (N.lxor (N.lxor (N.lxor d (64 * v1)) (16 * v2)) (4 * v3)) v4 = N.lxor d (64 * v1 + 16 * v2 + 4 * v3 + v4).
Proof.
  intros H1 H2 H3 H4.
  assert (C : forall v, v < 4 -> v = 0 \/ v = 1 \/ v = 2 \/ v = 3) by (intros; lia).
  assert (X : N.lxor (N.lxor (N.lxor (64 * v1) (16 * v2)) (4 * v3)) v4 = 64 * v1 + 16 * v2 + 4 * v3 + v4).
  { destruct (C _ H1) as [->|[->|[->| ->]]]; destruct (C _ H2) as [->|[->|[->| ->]]];
    destruct (C _ H3) as [->|[->|[->| ->]]]; destruct (C _ H4) as [->|[->|[->| ->]]]; reflexivity. }
  rewrite <- X. rewrite !N.lxor_assoc. reflexivity.
Qed.

Lemma out2_val s : rD s < 16 -> out2 s = 2 * N.lxor (bit (rD s) 3) (bit (rD s) 2) + N.lxor (bit (rD s) 1) (bit (rD s) 0).
Proof. reflexivity. Qed.

Lemma gen_step_ok m m1 data cur i s :
  meq m1 (put m data cur) -> (i < length cur)%nat ->
  exists s' m2,
   (sm <- csa_stream_out_round (data + N.of_nat i) 0xc0 (s, m1) ;;
    sm <- csa_stream_out_round (data + N.of_nat i) 0x30 sm ;;
    sm <- csa_stream_out_round (data + N.of_nat i) 0x0c sm ;;
    csa_stream_out_round (data + N.of_nat i) 0x03 sm) = Ok (s', m2) /\
   abs s' = snd (gen_byte (abs s)) /\
   meq m2 (put m data (upd cur i (N.lxor (nth i cur 0) (fst (gen_byte (abs s)))))).
Proof.
  intros E H.
  assert (LD : forall t, rD (abs t) < 16) by (intros; apply nib_lt).
  destruct (out_round_ok m m1 data cur i 0xc0 s E H) as (t1 & n1 & R1 & A1 & E1). rewrite R1; cbn [bind].
  destruct (out_round_ok m n1 data _ i 0x30 t1 E1 ltac:(rewrite ?upd_length; exact H)) as (t2 & n2 & R2 & A2 & E2). rewrite R2; cbn [bind].
  rewrite upd_upd, nth_upd_same in E2 by exact H.
  destruct (out_round_ok m n2 data _ i 0x0c t2 E2 ltac:(rewrite ?upd_length; exact H)) as (t3 & n3 & R3 & A3 & E3). rewrite R3; cbn [bind].
  rewrite upd_upd, nth_upd_same in E3 by exact H.
  destruct (out_round_ok m n3 data _ i 0x03 t3 E3 ltac:(rewrite ?upd_length; exact H)) as (t4 & n4 & R4 & A4 & E4). rewrite R4.
  rewrite upd_upd, nth_upd_same in E4 by exact H.
  exists t4, n4. split; [reflexivity|]. split.
  - rewrite A4, A3, A2, A1. reflexivity.
  - rewrite gen_byte_fst. rewrite <- A1, <- A2, <- A3, <- A4. rewrite !out2_val by apply LD.
    destruct (out_sweep _ (LD t1)) as [_ (P1 & _ & _ & _ & Q1)].
    destruct (out_sweep _ (LD t2)) as [_ (_ & P2 & _ & _ & Q2)].
    destruct (out_sweep _ (LD t3)) as [_ (_ & _ & P3 & _ & Q3)].
    destruct (out_sweep _ (LD t4)) as [_ (_ & _ & _ & P4 & Q4)].
    rewrite P1, P2, P3, P4 in E4. rewrite out_combine in E4 by assumption. exact E4.
Qed.

Lemma clock_D_lt inp s : D_lt s -> rE s < 16 -> rZ s < 16 -> D_lt (clock inp s).
Proof.
  intros. unfold D_lt, clock; cbn [rD]. apply lxor_lt16; [apply lxor_lt16; assumption|].
  unfold b_out. rewrite !bit_b2n, !b2n_xor4. apply nibble_bits.
Qed.

(** ** dvbcsa_stream_xor *)
Lemma stream_xor_ok be m cwsp ivp data len cw iv body :
  length cw = 8%nat -> Forall is_byte cw ->
  holds m cwsp (map swap_nibbles cw) -> holds m ivp iv -> length iv = 8%nat ->
  holds m data body -> len = N.of_nat (length body) -> len < 2 ^ 32 ->
  wp (dvbcsa_stream_xor be m cwsp ivp data len)
     (fun m' => meq m' (put m data (xor_bytes body (keystream cw iv (length body))))).
Proof.
  intros Lc Fc Hc Hi Li Hb Elen Hlen. unfold dvbcsa_stream_xor.
  rewrite <- (firstn_skipn 4 cw), map_app in Hc. apply holds_app in Hc as [Hc1 Hc2].
  rewrite map_length, firstn_length, Lc in Hc2. cbn [Nat.min N.of_nat Pos.of_succ_nat Pos.succ] in Hc2.
  rewrite (load_le32_ok _ _ _ _ Hc1) by (rewrite map_length, firstn_length, Lc; reflexivity). cbn [bind].
  rewrite (load_le32_ok _ _ _ _ Hc2) by (rewrite map_length, skipn_length, Lc; reflexivity). cbn [bind].
  apply wp_bind. eapply wp_mono.
  { apply (wp_for (fun i s => abs s = fold_left init_byte (firstn i iv) (stream_load cw)) 8 0).
    - rewrite stream_load_ok by assumption. reflexivity.
    - intros i s Hi8 Es. rewrite (holds_nth _ _ _ _ Hi) by lia. cbn [bind].
      assert (B : is_byte (nth i iv 0)) by (destruct Hi as [F _]; rewrite Forall_forall in F; apply F, nth_In; lia).
      destruct (init_byte_ok _ s B) as (s' & R & A). rewrite R. cbn [wp].
      rewrite (firstn_S_nth iv i 0) by lia. rewrite fold_left_app, <- Es. exact A. }
  intros s0 Es0. cbn [Nat.add] in Es0. rewrite firstn_all2 in Es0 by lia.
  change (fold_left init_byte iv (stream_load cw)) with (stream_init cw iv) in Es0.
  set (n := length body) in *. set (ks := keystream cw iv n).
  assert (Lk : length ks = n) by apply gen_bytes_length.
  apply wp_bind.
  pose (Inv := fun st : N * (cs_state * mem) => let '(i, (s, m1)) := st in
     i <= len /\ abs s = gen_after (N.to_nat i) (stream_init cw iv) /\
     exists cur, length cur = n /\ meq m1 (put m data cur) /\
       forall j, (j < n)%nat -> nth j cur 0 = if (j <? N.to_nat i)%nat then N.lxor (nth j body 0) (nth j ks 0) else nth j body 0).
  eapply wp_mono.
  { apply (wp_while Inv (fun st => N.to_nat (len - fst st))).
    - cbn [fst]. lia.
    - unfold Inv. split; [lia|]. split; [exact Es0|]. exists body. split; [reflexivity|]. split.
      + apply meq_sym, put_holds, Hb.
      + intros j Hj. reflexivity.
    - intros [i [s m1]] (Hi1 & Ha & cur & Lcur & Em & Hn) Hc. apply N.ltb_lt in Hc. cbn [fst].
      split; [lia|].
      destruct (gen_step_ok m m1 data cur (N.to_nat i) s Em ltac:(lia)) as (s' & m2 & R & A & E2).
      rewrite N2Nat.id in R.
      assert (R' : (sm <- csa_stream_out_round (data + i) 192 (s, m1);;
        sm <- csa_stream_out_round (data + i) 48 sm;;
        sm <- csa_stream_out_round (data + i) 12 sm;;
        sm <- csa_stream_out_round (data + i) 3 sm;; Ok (u32 (i + 1), sm)) = Ok (u32 (i + 1), (s', m2))).
      { destruct (csa_stream_out_round (data + i) 192 (s, m1)) as [x1| | |]; cbn [bind] in *; try discriminate R.
        destruct (csa_stream_out_round (data + i) 48 x1) as [x2| | |]; cbn [bind] in *; try discriminate R.
        destruct (csa_stream_out_round (data + i) 12 x2) as [x3| | |]; cbn [bind] in *; try discriminate R.
        rewrite R. reflexivity. }
      rewrite R'. cbn [wp fst]. rewrite u32_small by lia.
      split; [|lia]. unfold Inv. split; [lia|].
      replace (N.to_nat (i + 1)) with (S (N.to_nat i)) by lia. split.
      + rewrite A, Ha. reflexivity.
      + eexists. split; [|split; [exact E2|]].
        * rewrite upd_length. exact Lcur.
        * intros j Hj. rewrite nth_upd, Lcur.
          replace (N.to_nat i <? n)%nat with true by (symmetry; apply Nat.ltb_lt; lia). rewrite andb_true_r.
          destruct (Nat.eqb_spec j (N.to_nat i)) as [->|Hne].
          -- replace (N.to_nat i <? S (N.to_nat i))%nat with true by (symmetry; apply Nat.ltb_lt; lia).
             rewrite Hn by lia. rewrite Nat.ltb_irrefl. f_equal. rewrite Ha. symmetry. apply gen_bytes_nth. lia.
          -- rewrite Hn by exact Hj.
             destruct (Nat.ltb_spec j (N.to_nat i)); destruct (Nat.ltb_spec j (S (N.to_nat i))); try lia; reflexivity. }
  intros [i [s m1]] [(Hi1 & Ha & cur & Lcur & Em & Hn) Hc]. apply N.ltb_ge in Hc. cbn [wp].
  assert (Ec : cur = xor_bytes body ks).
  { apply (nth_ext _ _ 0 0).
    - rewrite xor_bytes_length, Lk. unfold n in *. lia.
    - intros j Hj. rewrite Hn by lia. rewrite nth_xor_bytes by (symmetry; exact Lk).
      destruct (Nat.ltb_spec j (N.to_nat i)); [reflexivity|lia]. }
  rewrite <- Ec. exact Em.
Qed.
