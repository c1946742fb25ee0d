(** BsKernel.v -- the stream kernel on single bits computes the clocks of Spec. *)
From Verif Require Import Base Mem Spec ModelBsWord ModelBsTranspose ModelBsStream ClassicalStream.
Local Open Scope nat_scope.

Definition bool_ops : bsops bool := mk_ops bool andb orb xorb negb false true.

(* a nibble as bits 0, 1, 2, 3 *)
Definition nb := (bool * bool * bool * bool)%type.
Definition bits (x : nb) : list bool := let '(b0, b1, b2, b3) := x in [b0; b1; b2; b3].
Definition nv (x : nb) : N := let '(b0, b1, b2, b3) := x in nibble (b2n b3) (b2n b2) (b2n b1) (b2n b0).

Record bst := mk_bst { bA : list nb; bB : list nb; bX : nb; bY : nb; bZ : nb; bD : nb; bE : nb; bF : nb;
                       bp : bool; bq : bool; bc : bool }.
Definition babs (s : bst) : stream :=
  mk_stream (map nv (bA s)) (map nv (bB s)) (nv (bX s)) (nv (bY s)) (nv (bZ s)) (nv (bD s)) (nv (bE s)) (nv (bF s))
            (b2n (bp s)) (b2n (bq s)) (b2n (bc s)).

Definition bx (x y : nb) : nb :=
  let '(a0, a1, a2, a3) := x in let '(b0, b1, b2, b3) := y in (xorb a0 b0, xorb a1 b1, xorb a2 b2, xorb a3 b3).
Definition nbit (k : nat) (x : nb) : bool := nth k (bits x) false.
Definition nz : nb := (false, false, false, false).
Definition ab (s : bst) (k b : nat) : bool := nbit b (nth k (bA s) nz).
Definition bb (s : bst) (k b : nat) : bool := nbit b (nth k (bB s) nz).

(* one clock, written as the kernel computes it *)
Definition bfeedA (inp : option (nb * nb)) (s : bst) : nb :=
  let fa := bx (nth 9 (bA s) nz) (bX s) in
  match inp with Some (ia, _) => bx (bx fa (bD s)) ia | None => fa end.
Definition bfeedB (inp : option (nb * nb)) (s : bst) : nb :=
  let fb := bx (bx (nth 6 (bB s) nz) (nth 9 (bB s) nz)) (bY s) in
  match inp with Some (_, ib) => bx fb ib | None => fb end.
Definition bstep (fa fb : nb) (s : bst) : bst :=
  let A k b := ab s k b in let B k b := bb s k b in
  let ex3 := xorb (xorb (xorb (B 2 0) (B 5 1)) (B 6 2)) (B 8 3) in
  let ex2 := xorb (xorb (xorb (B 5 0) (B 7 1)) (B 2 3)) (B 3 2) in
  let ex1 := xorb (xorb (xorb (B 4 3) (B 7 2)) (B 3 0)) (B 4 1) in
  let ex0 := xorb (xorb (xorb (B 8 2) (B 5 3)) (B 2 1)) (B 7 0) in
  let fb := let '(t0, t1, t2, t3) := fb in let r := bp s in
            (xorb t0 (xorb t0 t3 && r), xorb t1 (xorb t1 t0 && r), xorb t2 (xorb t2 t1 && r), xorb t3 (xorb t3 t2 && r)) in
  let '(z0, z1, z2, z3) := bZ s in let '(e0, e1, e2, e3) := bE s in
  let c0 := bc s in
  let c1 := (z0 && e0) || (xorb z0 e0 && c0) in
  let c2 := (z1 && e1) || (xorb z1 e1 && c1) in
  let c3 := (z2 && e2) || (xorb z2 e2 && c2) in
  let c4 := (z3 && e3) || (xorb z3 e3 && c3) in
  let q := bq s in
  let F := (xorb e0 (q && xorb z0 c0), xorb e1 (q && xorb z1 c1), xorb e2 (q && xorb z2 c2), xorb e3 (q && xorb z3 c3)) in
  let D := (xorb ex0 (xorb z0 e0), xorb ex1 (xorb z1 e1), xorb ex2 (xorb z2 e2), xorb ex3 (xorb z3 e3)) in
  let '(x0, w2) := bs_sbox1 bool_ops (A 0 2) (A 5 1) (A 6 3) (A 8 0) (A 3 0) in
  let '(x1, w3) := bs_sbox2 bool_ops (A 2 2) (A 5 3) (A 6 0) (A 8 1) (A 1 1) in
  let '(y0, x2) := bs_sbox3 bool_ops (A 1 0) (A 4 1) (A 4 3) (A 5 2) (A 0 3) in
  let '(y1, x3) := bs_sbox4 bool_ops (A 0 1) (A 1 3) (A 3 2) (A 7 0) (A 2 3) in
  let '(w0, y2) := bs_sbox5 bool_ops (A 3 3) (A 5 0) (A 7 1) (A 8 2) (A 4 2) in
  let '(w1, y3) := bs_sbox6 bool_ops (A 3 1) (A 4 0) (A 6 2) (A 8 3) (A 2 1) in
  let '(np, nq) := bs_sbox7 bool_ops (A 2 0) (A 6 1) (A 7 2) (A 7 3) (A 1 2) in
  mk_bst (fa :: firstn 9 (bA s)) (fb :: firstn 9 (bB s)) (x0, x1, x2, x3) (y0, y1, y2, y3) (w0, w1, w2, w3)
         D (bF s) F np nq (xorb c0 (q && xorb c4 c0)).
Definition bclock (inp : option (nb * nb)) (s : bst) : bst := bstep (bfeedA inp s) (bfeedB inp s) s.

(** ** bclock is clock *)
Lemma bit_nv x k : bit (nv x) (N.of_nat k) = b2n (nbit k x).
Proof.
  destruct x as [[[b0 b1] b2] b3]. destruct k as [|[|[|[|k]]]];
    try (destruct b0, b1, b2, b3; reflexivity).
  replace (nbit (S (S (S (S k)))) (b0, b1, b2, b3)) with false by (unfold nbit; simpl; destruct k; reflexivity).
  unfold bit. replace (N.testbit _ _) with false; [reflexivity|]. symmetry.
  apply bits_of_bound with (n := 4%N); [|lia]. destruct b0, b1, b2, b3; reflexivity.
Qed.
Lemma nv_bx x y : nv (bx x y) = N.lxor (nv x) (nv y).
Proof. destruct x as [[[[] []] []] []], y as [[[[] []] []] []]; reflexivity. Qed.
Lemma nv_rot t0 t1 t2 t3 r :
  nv (xorb t0 (xorb t0 t3 && r), xorb t1 (xorb t1 t0 && r), xorb t2 (xorb t2 t1 && r), xorb t3 (xorb t3 t2 && r)) =
  if (b2n r =? 1)%N then rotl4 (nv (t0, t1, t2, t3)) else nv (t0, t1, t2, t3).
Proof. destruct t0, t1, t2, t3, r; reflexivity. Qed.

Ltac sb5 := intros a b c d e; destruct a, b, c, d, e; reflexivity.
Definition sb_is (f : bool -> bool -> bool -> bool -> bool -> bool * bool) (g : bool -> bool -> bool -> bool -> bool -> N) : Prop :=
  forall a b c d e, hi (g a b c d e) = b2n (fst (f a b c d e)) /\ lo (g a b c d e) = b2n (snd (f a b c d e)).
Ltac sbx := intros a b c d e; destruct a, b, c, d, e; split; reflexivity.
Lemma sb1_ok : sb_is (bs_sbox1 bool_ops) (fun a b c d e => look s1 (idx5 (b2n e) (b2n a) (b2n b) (b2n c) (b2n d))).
Proof. sbx. Qed.
Lemma sb2_ok : sb_is (bs_sbox2 bool_ops) (fun a b c d e => look s2 (idx5 (b2n e) (b2n a) (b2n b) (b2n c) (b2n d))).
Proof. sbx. Qed.
Lemma sb3_ok : sb_is (bs_sbox3 bool_ops) (fun a b c d e => look s3 (idx5 (b2n e) (b2n a) (b2n b) (b2n c) (b2n d))).
Proof. sbx. Qed.
Lemma sb4_ok : sb_is (bs_sbox4 bool_ops) (fun a b c d e => look s4 (idx5 (b2n e) (b2n a) (b2n b) (b2n c) (b2n d))).
Proof. sbx. Qed.
Lemma sb5_ok : sb_is (bs_sbox5 bool_ops) (fun a b c d e => look s5 (idx5 (b2n e) (b2n a) (b2n b) (b2n c) (b2n d))).
Proof. sbx. Qed.
Lemma sb6_ok : sb_is (bs_sbox6 bool_ops) (fun a b c d e => look s6 (idx5 (b2n e) (b2n a) (b2n b) (b2n c) (b2n d))).
Proof. sbx. Qed.
Lemma sb7_ok : sb_is (bs_sbox7 bool_ops) (fun a b c d e => look s7 (idx5 (b2n e) (b2n a) (b2n b) (b2n c) (b2n d))).
Proof. sbx. Qed.

(* adder *)
Lemma adder_ok z0 z1 z2 z3 e0 e1 e2 e3 c0 q :
  let c1 := (z0 && e0) || (xorb z0 e0 && c0) in
  let c2 := (z1 && e1) || (xorb z1 e1 && c1) in
  let c3 := (z2 && e2) || (xorb z2 e2 && c2) in
  let c4 := (z3 && e3) || (xorb z3 e3 && c3) in
  let sum := (nv (e0, e1, e2, e3) + nv (z0, z1, z2, z3) + b2n c0)%N in
  nv (xorb e0 (q && xorb z0 c0), xorb e1 (q && xorb z1 c1), xorb e2 (q && xorb z2 c2), xorb e3 (q && xorb z3 c3)) =
    (if (b2n q =? 1)%N then (sum mod 16)%N else nv (e0, e1, e2, e3)) /\
  b2n (xorb c0 (q && xorb c4 c0)) = (if (b2n q =? 1)%N then (sum / 16)%N else b2n c0).
Proof. destruct z0, z1, z2, z3, e0, e1, e2, e3, c0, q; split; reflexivity. Qed.

Lemma reg_nv l k : reg (map nv l) (S k) = nv (nth k l nz).
Proof. unfold reg. rewrite Nat.sub_succ, Nat.sub_0_r. exact (map_nth nv l nz k). Qed.

Lemma b_out_nv B : b_out (map nv B) =
  let b k j := nbit j (nth k B nz) in
  nv (xorb (xorb (xorb (b 8 2) (b 5 3)) (b 2 1)) (b 7 0), xorb (xorb (xorb (b 4 3) (b 7 2)) (b 3 0)) (b 4 1),
      xorb (xorb (xorb (b 5 0) (b 7 1)) (b 2 3)) (b 3 2), xorb (xorb (xorb (b 2 0) (b 5 1)) (b 6 2)) (b 8 3)).
Proof.
  unfold b_out. rewrite !reg_nv.
  change 0%N with (N.of_nat 0). change 1%N with (N.of_nat 1). change 2%N with (N.of_nat 2). change 3%N with (N.of_nat 3).
  rewrite !bit_nv. cbv zeta. unfold nv. rewrite !b2n_xor4. reflexivity.
Qed.

Lemma bclock_ok inp s : 
  babs (bclock inp s) = clock (match inp with Some (a, b) => Some (nv a, nv b) | None => None end) (babs s).
Proof.
  destruct s as [A B X Y Z D E F p q cc]. unfold clock, babs.
  cbn [rA rB rX rY rZ rD rE rF rp rq rc bA bB bX bY bZ bD bE bF bp bq bc].
  rewrite b_out_nv, !reg_nv.
  change 0%N with (N.of_nat 0). change 1%N with (N.of_nat 1). change 2%N with (N.of_nat 2). change 3%N with (N.of_nat 3).
  rewrite !bit_nv. cbv zeta.
  unfold bclock, bstep, bfeedA, bfeedB, ab, bb. cbn [bA bB bX bY bZ bD bE bF bp bq bc].
  destruct Z as [[[z0 z1] z2] z3], E as [[[e0 e1] e2] e3].
  pose proof (sb1_ok (nbit 2 (nth 0 A nz)) (nbit 1 (nth 5 A nz)) (nbit 3 (nth 6 A nz)) (nbit 0 (nth 8 A nz)) (nbit 0 (nth 3 A nz))) as [H1 L1].
  pose proof (sb2_ok (nbit 2 (nth 2 A nz)) (nbit 3 (nth 5 A nz)) (nbit 0 (nth 6 A nz)) (nbit 1 (nth 8 A nz)) (nbit 1 (nth 1 A nz))) as [H2 L2].
  pose proof (sb3_ok (nbit 0 (nth 1 A nz)) (nbit 1 (nth 4 A nz)) (nbit 3 (nth 4 A nz)) (nbit 2 (nth 5 A nz)) (nbit 3 (nth 0 A nz))) as [H3 L3].
  pose proof (sb4_ok (nbit 1 (nth 0 A nz)) (nbit 3 (nth 1 A nz)) (nbit 2 (nth 3 A nz)) (nbit 0 (nth 7 A nz)) (nbit 3 (nth 2 A nz))) as [H4 L4].
  pose proof (sb5_ok (nbit 3 (nth 3 A nz)) (nbit 0 (nth 5 A nz)) (nbit 1 (nth 7 A nz)) (nbit 2 (nth 8 A nz)) (nbit 2 (nth 4 A nz))) as [H5 L5].
  pose proof (sb6_ok (nbit 1 (nth 3 A nz)) (nbit 0 (nth 4 A nz)) (nbit 2 (nth 6 A nz)) (nbit 3 (nth 8 A nz)) (nbit 1 (nth 2 A nz))) as [H6 L6].
  pose proof (sb7_ok (nbit 0 (nth 2 A nz)) (nbit 1 (nth 6 A nz)) (nbit 2 (nth 7 A nz)) (nbit 3 (nth 7 A nz)) (nbit 2 (nth 1 A nz))) as [H7 L7].
  destruct (bs_sbox1 bool_ops _ _ _ _ _) as [u1 v1]. destruct (bs_sbox2 bool_ops _ _ _ _ _) as [u2 v2].
  destruct (bs_sbox3 bool_ops _ _ _ _ _) as [u3 v3]. destruct (bs_sbox4 bool_ops _ _ _ _ _) as [u4 v4].
  destruct (bs_sbox5 bool_ops _ _ _ _ _) as [u5 v5]. destruct (bs_sbox6 bool_ops _ _ _ _ _) as [u6 v6].
  destruct (bs_sbox7 bool_ops _ _ _ _ _) as [u7 v7].
  cbn [fst snd] in *. cbn [rA rB rX rY rZ rD rE rF rp rq rc bA bB bX bY bZ bD bE bF bp bq bc].
  rewrite H1, L1, H2, L2, H3, L3, H4, L4, H5, L5, H6, L6, H7, L7.
  destruct (adder_ok z0 z1 z2 z3 e0 e1 e2 e3 cc q) as [A1 A2]. cbv zeta in A1, A2.
  change (N.of_nat 1) with 1%N.
  f_equal; try reflexivity.
  - cbn [map]. f_equal; [|symmetry; apply firstn_map].
    destruct inp as [[ia ib]|]; rewrite ?nv_bx; reflexivity.
  - cbn [map]. f_equal; [|symmetry; apply firstn_map].
    destruct inp as [[ia ib]|]; rewrite <- ?nv_bx.
    + destruct (bx (bx (bx _ _) _) ib) as [[[t0 t1] t2] t3]. apply nv_rot.
    + destruct (bx (bx _ _) _) as [[[t0 t1] t2] t3]. apply nv_rot.
  - rewrite <- nv_bx, <- nv_bx. f_equal. cbn [bx]. f_equal; [f_equal; [f_equal|]|]; rewrite xorb_comm; f_equal; apply xorb_comm.
  - exact A1.
  - exact A2.
Qed.
