(** BsKernelRun.v -- runs of the kernel on single bits: 32 clocks, register windows, rewinding. *)
From Verif Require Import Base Mem Spec ModelBsWord ModelBsTranspose ModelBsStream ClassicalStream SpecLemmas BsKernel.
Local Open Scope nat_scope.

Definition flat (l : list nb) : list bool := concat (map bits l).
Definition kstate (pa qa pb qb sb : list bool) (s : bst) : regs bool :=
  mk_regs (pa ++ flat (bA s) ++ qa) (pb ++ flat (bB s) ++ qb)
          (bits (bX s)) (bits (bY s)) (bits (bZ s)) (bits (bD s)) (bits (bE s)) (bits (bF s))
          sb (bp s) (bq s) (bc s).
(* four consecutive bits of the input block *)
Definition sbn (sb : list bool) (k : nat) : nb :=
  (nth (k + 0) sb false, nth (k + 1) sb false, nth (k + 2) sb false, nth (k + 3) sb false).
Definition kinp (init : bool) (sb : list bool) (i j : nat) : option (nb * nb) :=
  if init then Some (if Nat.odd j then (sbn sb (8 * i), sbn sb (8 * i + 4)) else (sbn sb (8 * i + 4), sbn sb (8 * i)))
  else None.
Definition kout (init : bool) (sb : list bool) (i j : nat) (s : bst) : list bool :=
  if init then sb else
  upd (upd sb (i * 8 + 7 - 2 * j) (xorb (nbit 2 (bD s)) (nbit 3 (bD s)))) (i * 8 + 6 - 2 * j) (xorb (nbit 0 (bD s)) (nbit 1 (bD s))).

Lemma row_get_app {T} (pre l : list T) p k b : length pre = 4 * p ->
  row_get (pre ++ l) (S p) k b = aget l (4 + (4 * k + b)).
Proof.
  intros H. unfold row_get, aget. rewrite nth_error_app2 by lia.
  replace (4 * (S p + k) + b - length pre) with (4 + (4 * k + b)) by lia. reflexivity.
Qed.
Lemma aget_app_p {T} (pre l : list T) p b : length pre = 4 * p -> aget (pre ++ l) (4 * p + b) = aget l b.
Proof. intros H. unfold aget. rewrite nth_error_app2 by lia.
  replace (4 * p + b - length pre) with b by lia. reflexivity. Qed.
Lemma upd_app_r {T} (pre l : list T) k v : upd (pre ++ l) (length pre + k) v = pre ++ upd l k v.
Proof. induction pre; simpl; congruence. Qed.
Lemma aset_app_p {T} (pre l : list T) p b v : length pre = 4 * p -> b < length l ->
  aset (pre ++ l) (4 * p + b) v = Ok (pre ++ upd l b v).
Proof. intros H Hb. rewrite aset_ok by (rewrite app_length; lia). rewrite <- H, upd_app_r. reflexivity. Qed.

Lemma four {T} (l : list T) : length l = 4 -> exists a b c d, l = [a; b; c; d].
Proof. destruct l as [|a [|b [|c [|d [|]]]]]; simpl; intros; try lia. eauto 6. Qed.
Lemma ten {T} (l : list T) : length l = 10 ->
  exists a b c d e f g h i j, l = [a; b; c; d; e; f; g; h; i; j].
Proof. destruct l as [|a [|b [|c [|d [|e [|f [|g [|h [|i [|j [|]]]]]]]]]]]; simpl; intros; try lia. eauto 12. Qed.

Section Step.
  Context (i j p : nat) (sb : list bool).
  Hypothesis (Hi : i < 8) (Hj : j < 4) (Hsb : length sb = 64).
  Lemma sb_get k : k < 64 -> aget sb k = Ok (nth k sb false).
  Proof. intros; apply aget_ok; lia. Qed.

  Definition a_in (init : bool) : nb := match kinp init sb i j with Some (a, _) => a | None => nz end.
  Definition b_in (init : bool) : nb := match kinp init sb i j with Some (_, b) => b | None => nz end.

  Lemma feed_A_run init pa ca n qa X D : length pa = 4 * p -> length ca = 4 -> length n = 10 ->
    feed_A bool_ops init i j (S p) p (bits X) (bits D) sb (pa ++ ca ++ flat n ++ qa) =
    Ok (pa ++ bits (let fa := bx (nth 9 n nz) X in
                    match kinp init sb i j with Some (ia, _) => bx (bx fa D) ia | None => fa end) ++ flat n ++ qa).
  Proof.
    intros Hp Hc Hn. destruct (four ca Hc) as (c0 & c1 & c2 & c3 & ->).
    destruct (ten n Hn) as (n0 & n1 & n2 & n3 & n4 & n5 & n6 & n7 & n8 & n9 & ->).
    destruct X as [[[x0 x1] x2] x3], D as [[[d0 d1] d2] d3].
    destruct n0 as [[[? ?] ?] ?], n1 as [[[? ?] ?] ?], n2 as [[[? ?] ?] ?], n3 as [[[? ?] ?] ?], n4 as [[[? ?] ?] ?],
             n5 as [[[? ?] ?] ?], n6 as [[[? ?] ?] ?], n7 as [[[? ?] ?] ?], n8 as [[[? ?] ?] ?], n9 as [[[y0 y1] y2] y3].
    unfold feed_A. cbn [flat map bits concat app for_].
    Local Ltac stepA Hp := 
      rewrite (row_get_app _ _ p) by exact Hp; cbn [aget nth_error Nat.add Nat.mul bind];
      rewrite (aset_app_p _ _ p) by (exact Hp || (simpl; lia)); cbn [upd bind app].
    destruct init; unfold kinp; cbn [bx].
    - destruct (Nat.odd j); unfold sbn;
      repeat (stepA Hp; rewrite (aget_app_p _ _ p) by exact Hp; cbn [aget nth_error bind];
              rewrite sb_get by lia; cbn [bind];
              rewrite (aset_app_p _ _ p) by (exact Hp || (simpl; lia)); cbn [upd bind app]);
      cbn [op_xor bool_ops]; rewrite ?Nat.add_0_r; reflexivity.
    - repeat stepA Hp. cbn [op_xor bool_ops]. reflexivity.
  Qed.

  Lemma feed_B_run init pa ca n qa Y : length pa = 4 * p -> length ca = 4 -> length n = 10 ->
    feed_B bool_ops init i j (S p) p (bits Y) sb (pa ++ ca ++ flat n ++ qa) =
    Ok (pa ++ bits (let fb := bx (bx (nth 6 n nz) (nth 9 n nz)) Y in
                    match kinp init sb i j with Some (_, ib) => bx fb ib | None => fb end) ++ flat n ++ qa).
  Proof.
    intros Hp Hc Hn. destruct (four ca Hc) as (c0 & c1 & c2 & c3 & ->).
    destruct (ten n Hn) as (n0 & n1 & n2 & n3 & n4 & n5 & n6 & n7 & n8 & n9 & ->).
    destruct Y as [[[x0 x1] x2] x3].
    destruct n0 as [[[? ?] ?] ?], n1 as [[[? ?] ?] ?], n2 as [[[? ?] ?] ?], n3 as [[[? ?] ?] ?], n4 as [[[? ?] ?] ?],
             n5 as [[[? ?] ?] ?], n6 as [[[? ?] ?] ?], n7 as [[[? ?] ?] ?], n8 as [[[? ?] ?] ?], n9 as [[[y0 y1] y2] y3].
    unfold feed_B. cbn [flat map bits concat app for_].
    Local Ltac stepB Hp := 
      do 2 (rewrite (row_get_app _ _ p) by exact Hp; cbn [aget nth_error Nat.add Nat.mul bind]);
      rewrite (aset_app_p _ _ p) by (exact Hp || (simpl; lia)); cbn [upd bind app].
    destruct init; unfold kinp; cbn [bx].
    - destruct (Nat.odd j); unfold sbn;
      repeat (stepB Hp; rewrite (aget_app_p _ _ p) by exact Hp; cbn [aget nth_error bind];
              rewrite sb_get by lia; cbn [bind];
              rewrite (aset_app_p _ _ p) by (exact Hp || (simpl; lia)); cbn [upd bind app]);
      cbn [op_xor bool_ops]; rewrite ?Nat.add_0_r; reflexivity.
    - repeat stepB Hp. cbn [op_xor bool_ops]. reflexivity.
  Qed.
End Step.

Lemma rotate_B_run p pa t0 t1 t2 t3 q r : length pa = 4 * p ->
  rotate_B bool_ops p r (pa ++ [t0; t1; t2; t3] ++ q) =
  Ok (pa ++ [xorb t0 (xorb t0 t3 && r); xorb t1 (xorb t1 t0 && r); xorb t2 (xorb t2 t1 && r); xorb t3 (xorb t3 t2 && r)] ++ q).
Proof.
  intros Hp. unfold rotate_B. cbn [app].
  do 4 (rewrite (aget_app_p _ _ p) by exact Hp; cbn [aget nth_error bind]).
  repeat (rewrite (aset_app_p _ _ p) by (exact Hp || (simpl; lia)); cbn [upd bind app]).
  reflexivity.
Qed.

Lemma kernel_step_run init i j p pa ca qa pb cb qb sb s :
  i < 8 -> j < 4 -> length sb = 64 ->
  length pa = 4 * p -> length ca = 4 -> length pb = 4 * p -> length cb = 4 ->
  length (bA s) = 10 -> length (bB s) = 10 ->
  kernel_step bool_ops init i j (S p) (kstate (pa ++ ca) qa (pb ++ cb) qb sb s) =
  Ok (kstate pa (bits (nth 9 (bA s) nz) ++ qa) pb (bits (nth 9 (bB s) nz) ++ qb)
        (kout init sb i j (bclock (kinp init sb i j) s)) (bclock (kinp init sb i j) s)).
Proof.
  intros Hi Hj Hsb Hpa Hca Hpb Hcb HA HB.
  destruct s as [A B X Y Z D E F sp sq sc]. cbn [bA bB] in HA, HB.
  unfold kstate at 1. unfold kernel_step. cbn [rgA rgB rgX rgY rgZ rgD rgE rgF rgsb rgp rgq rgr bA bB bX bY bZ bD bE bF bp bq bc].
  replace (psub (S p) 1) with (Ok p) by (unfold psub; simpl; f_equal; lia).
  rewrite <- !app_assoc.
  cbn [bind].
  rewrite feed_A_run by assumption.
  rewrite feed_B_run by assumption.
  unfold bclock. unfold bfeedA, bfeedB. cbn [bA bB bX bY bZ bD bE bF bp bq bc].
  cbv beta zeta.
  set (fa := match kinp init sb i j with Some (ia, _) => bx (bx (bx (nth 9 A nz) X) D) ia | None => bx (nth 9 A nz) X end).
  set (fb0 := match kinp init sb i j with Some (_, ib) => bx (bx (bx (nth 6 B nz) (nth 9 B nz)) Y) ib
              | None => bx (bx (nth 6 B nz) (nth 9 B nz)) Y end).
  clearbody fa fb0.
  destruct (four ca Hca) as (ca0 & ca1 & ca2 & ca3 & ->). destruct (four cb Hcb) as (cb0 & cb1 & cb2 & cb3 & ->).
  destruct fa as [[[fa0 fa1] fa2] fa3], fb0 as [[[fb0 fb1] fb2] fb3].
  destruct (ten A HA) as (n0 & n1 & n2 & n3 & n4 & n5 & n6 & n7 & n8 & n9 & ->).
  destruct n0 as [[[? ?] ?] ?], n1 as [[[? ?] ?] ?], n2 as [[[? ?] ?] ?], n3 as [[[? ?] ?] ?], n4 as [[[? ?] ?] ?],
           n5 as [[[? ?] ?] ?], n6 as [[[? ?] ?] ?], n7 as [[[? ?] ?] ?], n8 as [[[? ?] ?] ?], n9 as [[[? ?] ?] ?].
  destruct (ten B HB) as (n0 & n1 & n2 & n3 & n4 & n5 & n6 & n7 & n8 & n9 & ->).
  destruct n0 as [[[? ?] ?] ?], n1 as [[[? ?] ?] ?], n2 as [[[? ?] ?] ?], n3 as [[[? ?] ?] ?], n4 as [[[? ?] ?] ?],
           n5 as [[[? ?] ?] ?], n6 as [[[? ?] ?] ?], n7 as [[[? ?] ?] ?], n8 as [[[? ?] ?] ?], n9 as [[[? ?] ?] ?].
  unfold xor4_get. cbn [bits].
  cbn [flat map bits concat app].
  do 16 (rewrite (row_get_app _ _ p) by exact Hpb; cbn [aget nth_error Nat.add Nat.mul bind]).
  pose proof (rotate_B_run p pb fb0 fb1 fb2 fb3) as RB. cbn [app] in RB. rewrite RB by exact Hpb. clear RB. cbn [bind].
  destruct Z as [[[z0 z1] z2] z3], E as [[[e0 e1] e2] e3], F as [[[f0 f1] f2] f3], D as [[[d0 d1] d2] d3],
    X as [[[x0 x1] x2] x3], Y as [[[y0 y1] y2] y3].
  cbn [bits]. unfold adder_bit. cbn [aget nth_error bind aset upd length Nat.ltb Nat.leb].
  unfold sbox_get.
  do 35 (rewrite (row_get_app _ _ p) by exact Hpa; cbn [aget nth_error Nat.add Nat.mul bind]).
  unfold kstate.
  unfold bstep, ab, bb.
  cbn [bA bB bX bY bZ bD bE bF bp bq bc].
  cbn [nbit bits nth].
  destruct (bs_sbox1 bool_ops _ _ _ _ _) as [u1 v1]. destruct (bs_sbox2 bool_ops _ _ _ _ _) as [u2 v2].
  destruct (bs_sbox3 bool_ops _ _ _ _ _) as [u3 v3]. destruct (bs_sbox4 bool_ops _ _ _ _ _) as [u4 v4].
  destruct (bs_sbox5 bool_ops _ _ _ _ _) as [u5 v5]. destruct (bs_sbox6 bool_ops _ _ _ _ _) as [u6 v6].
  destruct (bs_sbox7 bool_ops _ _ _ _ _) as [u7 v7].
  cbn [bind aset upd length Nat.ltb Nat.leb].
  unfold kout. cbn [bD].
  cbn [bA bB bX bY bZ bD bE bF bp bq bc firstn flat map bits concat app nth].
  destruct init.
  - reflexivity.
  - cbn [aget nth_error bind].
    rewrite aset_ok by lia. cbn [bind]. rewrite aset_ok by (rewrite upd_length; lia). cbn [bind].
    reflexivity.
Qed.

(** ** Whole kernel calls *)
Lemma bclock_A inp s : length (bA s) = 10 -> length (bA (bclock inp s)) = 10.
Proof.
  intros H. unfold bclock, bstep. destruct (bZ s) as [[[? ?] ?] ?], (bE s) as [[[? ?] ?] ?].
  repeat match goal with |- context [match ?f bool_ops ?a ?b ?c ?d ?e with pair _ _ => _ end] => destruct (f bool_ops a b c d e) end.
  cbn [bA length]. rewrite firstn_length, H. reflexivity.
Qed.
Lemma bclock_B inp s : length (bB s) = 10 -> length (bB (bclock inp s)) = 10.
Proof.
  intros H. unfold bclock, bstep. destruct (bZ s) as [[[? ?] ?] ?], (bE s) as [[[? ?] ?] ?].
  repeat match goal with |- context [match ?f bool_ops ?a ?b ?c ?d ?e with pair _ _ => _ end] => destruct (f bool_ops a b c d e) end.
  cbn [bB length]. rewrite firstn_length, H. reflexivity.
Qed.
Lemma kout_length init sb i j s : length (kout init sb i j s) = length sb.
Proof. unfold kout; destruct init; rewrite ?upd_length; reflexivity. Qed.

Lemma split_last4 {T} (l : list T) n : length l = 4 * S n -> exists a b, l = a ++ b /\ length a = 4 * n /\ length b = 4.
Proof.
  intros H. exists (firstn (4 * n) l), (skipn (4 * n) l). split; [symmetry; apply firstn_skipn|]. rewrite firstn_length, skipn_length. lia.
Qed.

(* one pass of the inner loop on a well-formed state *)
Definition live (a : nat) (r : nat * regs bool) (sb : list bool) (s : bst) : Prop :=
  exists pa qa pb qb, r = (a, kstate pa qa pb qb sb s) /\ length pa = 4 * a /\ length pb = 4 * a /\
    length (pa ++ qa) = 128 /\ length (pb ++ qb) = 128 /\
    length (bA s) = 10 /\ length (bB s) = 10 /\ length sb = 64.

Lemma step_live init i j a r sb s : i < 8 -> j < 4 -> live (S a) r sb s ->
  wp (let '(a, s) := r in s <- kernel_step bool_ops init i j a s ;; a <- psub a 1 ;; Ok (a, s))
     (fun r' => live a r' (kout init sb i j (bclock (kinp init sb i j) s)) (bclock (kinp init sb i j) s)).
Proof.
  intros Hi Hj (pa & qa & pb & qb & -> & La & Lb & Ta & Tb & HA & HB & Hsb).
  destruct (split_last4 pa a La) as (pa' & ca & -> & La' & Ca).
  destruct (split_last4 pb a Lb) as (pb' & cb & -> & Lb' & Cb).
  rewrite kernel_step_run by assumption. cbn [bind].
  replace (psub (S a) 1) with (Ok a) by (unfold psub; simpl; f_equal; lia). cbn [bind wp].
  exists pa', (bits (nth 9 (bA s) nz) ++ qa), pb', (bits (nth 9 (bB s) nz) ++ qb).
  split; [reflexivity|]. split; [exact La'|]. split; [exact Lb'|].
  assert (L4 : forall x, length (bits x) = 4) by (intros [[[? ?] ?] ?]; reflexivity).
  rewrite !app_length in *. rewrite !L4. rewrite kout_length.
  repeat split; try lia; auto using bclock_A, bclock_B.
Qed.

(* bits of an 8-byte block *)
Definition sb_of (sb : list bool) (l : list N) : Prop :=
  length sb = 64 /\ length l = 8 /\ Forall is_byte l /\
  forall i k, i < 8 -> k < 8 -> nth (8 * i + k) sb false = N.testbit (nth i l 0%N) (N.of_nat k).

Lemma sbn_lo sb l i : sb_of sb l -> i < 8 -> nv (sbn sb (8 * i)) = lo4 (nth i l 0%N).
Proof.
  intros (_ & Ll & F & H) Hi. unfold sbn. rewrite !H by lia.
  assert (B : is_byte (nth i l 0%N)) by (rewrite Forall_forall in F; apply F, nth_In; lia).
  revert B. generalize (nth i l 0%N). clear.
  intros x B. change (N.of_nat 0) with 0%N. change (N.of_nat 1) with 1%N. change (N.of_nat 2) with 2%N. change (N.of_nat 3) with 3%N.
  apply N.eqb_eq. revert x B. apply (ClassicalBlock.byte_sweep (fun x => (nv (N.testbit x 0, N.testbit x 1, N.testbit x 2, N.testbit x 3) =? lo4 x)%N)).
  vm_compute; reflexivity.
Qed.
Lemma sbn_hi sb l i : sb_of sb l -> i < 8 -> nv (sbn sb (8 * i + 4)) = hi4 (nth i l 0%N).
Proof.
  intros (_ & Ll & F & H) Hi. unfold sbn. rewrite <- !Nat.add_assoc. rewrite !H by lia.
  assert (B : is_byte (nth i l 0%N)) by (rewrite Forall_forall in F; apply F, nth_In; lia).
  revert B. generalize (nth i l 0%N). clear.
  intros x B. change (N.of_nat (4 + 0)) with 4%N. change (N.of_nat (4 + 1)) with 5%N. change (N.of_nat (4 + 2)) with 6%N. change (N.of_nat (4 + 3)) with 7%N.
  apply N.eqb_eq. revert x B. apply (ClassicalBlock.byte_sweep (fun x => (nv (N.testbit x 4, N.testbit x 5, N.testbit x 6, N.testbit x 7) =? hi4 x)%N)).
  vm_compute; reflexivity.
Qed.

Lemma init_byte_run i a r sb s iv : i < 8 -> sb_of sb iv -> live (4 + a) r sb s ->
  wp (for_ 4 0 (fun j '(a, s) => s <- kernel_step bool_ops true i j a s ;; a <- psub a 1 ;; Ok (a, s)) r)
     (fun r' => exists s', live a r' sb s' /\ babs s' = init_byte (babs s) (nth i iv 0%N)).
Proof.
  intros Hi Hsb H. cbn [for_].
  apply wp_bind. eapply wp_mono; [apply (step_live true i 0 (3 + a) r sb s Hi ltac:(lia) H)|]. cbn [kout]. clear r H. intros r H.
  apply wp_bind. eapply wp_mono; [apply (step_live true i 1 (2 + a) r sb _ Hi ltac:(lia) H)|]. cbn [kout]. clear r H. intros r H.
  apply wp_bind. eapply wp_mono; [apply (step_live true i 2 (1 + a) r sb _ Hi ltac:(lia) H)|]. cbn [kout]. clear r H. intros r H.
  apply wp_bind. eapply wp_mono; [apply (step_live true i 3 a r sb _ Hi ltac:(lia) H)|]. cbn [kout]. clear r H. intros r H.
  cbn [wp]. eexists; split; [exact H|]. rewrite !bclock_ok. cbn [kinp Nat.odd Nat.even negb].
  rewrite (sbn_lo sb iv i Hsb Hi), (sbn_hi sb iv i Hsb Hi). reflexivity.
Qed.

Lemma out_bits t1 t2 t3 t4 k :
  let v := (64 * out2 t1 + 16 * out2 t2 + 4 * out2 t3 + out2 t4)%N in
  k < 8 ->
  N.testbit v (N.of_nat k) =
  match k with
  | 7 => xorb (N.testbit (rD t1) 3) (N.testbit (rD t1) 2) | 6 => xorb (N.testbit (rD t1) 1) (N.testbit (rD t1) 0)
  | 5 => xorb (N.testbit (rD t2) 3) (N.testbit (rD t2) 2) | 4 => xorb (N.testbit (rD t2) 1) (N.testbit (rD t2) 0)
  | 3 => xorb (N.testbit (rD t3) 3) (N.testbit (rD t3) 2) | 2 => xorb (N.testbit (rD t3) 1) (N.testbit (rD t3) 0)
  | 1 => xorb (N.testbit (rD t4) 3) (N.testbit (rD t4) 2) | _ => xorb (N.testbit (rD t4) 1) (N.testbit (rD t4) 0)
  end.
Proof.
  cbv zeta. intros Hk. unfold out2. rewrite !bit_b2n.
  generalize (N.testbit (rD t1) 3), (N.testbit (rD t1) 2), (N.testbit (rD t1) 1), (N.testbit (rD t1) 0).
  generalize (N.testbit (rD t2) 3), (N.testbit (rD t2) 2), (N.testbit (rD t2) 1), (N.testbit (rD t2) 0).
  generalize (N.testbit (rD t3) 3), (N.testbit (rD t3) 2), (N.testbit (rD t3) 1), (N.testbit (rD t3) 0).
  generalize (N.testbit (rD t4) 3), (N.testbit (rD t4) 2), (N.testbit (rD t4) 1), (N.testbit (rD t4) 0).
  assert (X : forall a b, N.lxor (b2n a) (b2n b) = b2n (xorb a b)) by (intros [] []; reflexivity).
  intros. rewrite !X.
  repeat match goal with |- context [xorb ?a ?b] => generalize (xorb a b) end.
  clear -Hk. intros b0 b1 b2 b3 b4 b5 b6 b7.
  destruct k as [|[|[|[|[|[|[|[|k]]]]]]]]; try lia; destruct b0, b1, b2, b3, b4, b5, b6, b7; reflexivity.
Qed.

Lemma testbit_nv x k : k < 4 -> N.testbit (nv x) (N.of_nat k) = nbit k x.
Proof.
  intros Hk. pose proof (bit_nv x k) as H. rewrite bit_b2n in H.
  destruct (N.testbit (nv x) (N.of_nat k)), (nbit k x); try reflexivity; discriminate.
Qed.

Definition sb_upto (n : nat) (sb : list bool) (s : stream) : Prop :=
  forall i k, i < n -> k < 8 -> nth (8 * i + k) sb false = N.testbit (fst (gen_byte (gen_after i s))) (N.of_nat k).

Lemma gen_byte_run i a r sb s s0 : i < 8 -> live (4 + a) r sb s -> sb_upto i sb s0 -> babs s = gen_after i s0 ->
  wp (for_ 4 0 (fun j '(a, s) => s <- kernel_step bool_ops false i j a s ;; a <- psub a 1 ;; Ok (a, s)) r)
     (fun r' => exists sb' s', live a r' sb' s' /\ sb_upto (S i) sb' s0 /\ babs s' = gen_after (S i) s0).
Proof.
  intros Hi H Hup Hs. cbn [for_].
  apply wp_bind. eapply wp_mono; [apply (step_live false i 0 (3 + a) r sb s Hi ltac:(lia) H)|]. cbn [kinp]. 
  assert (L0 : length sb = 64) by (destruct H as (? & ? & ? & ? & ? & ? & ? & ? & ? & ? & ? & ?); assumption).
  clear r H. intros r H.
  apply wp_bind. eapply wp_mono; [apply (step_live false i 1 (2 + a) r _ _ Hi ltac:(lia) H)|]. cbn [kinp]. clear r H. intros r H.
  apply wp_bind. eapply wp_mono; [apply (step_live false i 2 (1 + a) r _ _ Hi ltac:(lia) H)|]. cbn [kinp]. clear r H. intros r H.
  apply wp_bind. eapply wp_mono; [apply (step_live false i 3 a r _ _ Hi ltac:(lia) H)|]. cbn [kinp]. clear r H. intros r H.
  cbn [wp]. set (b1 := bclock None s) in *. set (b2 := bclock None b1) in *. set (b3 := bclock None b2) in *. set (b4 := bclock None b3) in *.
  eexists _, _. split; [exact H|]. clear H.
  assert (E1 : babs b1 = clock None (babs s)) by apply bclock_ok.
  assert (E2 : babs b2 = clock None (babs b1)) by apply bclock_ok.
  assert (E3 : babs b3 = clock None (babs b2)) by apply bclock_ok.
  assert (E4 : babs b4 = clock None (babs b3)) by apply bclock_ok.
  assert (Eg : gen_byte (babs s) = (64 * out2 (babs b1) + 16 * out2 (babs b2) + 4 * out2 (babs b3) + out2 (babs b4), babs b4)%N).
  { unfold gen_byte. rewrite E4, E3, E2, E1. reflexivity. }
  split.
  - intros i' k Hi' Hk. unfold kout.
    destruct (Nat.eq_dec i' i) as [->|Ne].
    + rewrite <- Hs, Eg. cbn [fst]. rewrite out_bits by exact Hk.
      assert (T : forall b x, x < 4 -> N.testbit (rD (babs b)) (N.of_nat x) = nbit x (bD b)) by (intros; apply testbit_nv; assumption).
      pose proof (fun b => T b 0 ltac:(lia)) as T0. pose proof (fun b => T b 1 ltac:(lia)) as T1.
      pose proof (fun b => T b 2 ltac:(lia)) as T2. pose proof (fun b => T b 3 ltac:(lia)) as T3.
      change (N.of_nat 0) with 0%N in T0. change (N.of_nat 1) with 1%N in T1. change (N.of_nat 2) with 2%N in T2. change (N.of_nat 3) with 3%N in T3.
      repeat (rewrite nth_upd, ?upd_length, ?L0).
      assert (Q : forall x, x < 8 -> (i * 8 + x <? 64) = true) by (intros; apply Nat.ltb_lt; lia).
      replace (i * 8 + 7 - 2 * 0) with (i * 8 + 7) by lia. replace (i * 8 + 6 - 2 * 0) with (i * 8 + 6) by lia.
      replace (i * 8 + 7 - 2 * 1) with (i * 8 + 5) by lia. replace (i * 8 + 6 - 2 * 1) with (i * 8 + 4) by lia.
      replace (i * 8 + 7 - 2 * 2) with (i * 8 + 3) by lia. replace (i * 8 + 6 - 2 * 2) with (i * 8 + 2) by lia.
      replace (i * 8 + 7 - 2 * 3) with (i * 8 + 1) by lia. replace (i * 8 + 6 - 2 * 3) with (i * 8 + 0) by lia.
      rewrite !Q by lia. rewrite !andb_true_r.
      assert (V : forall x, (8 * i + k =? i * 8 + x) = (k =? x)).
      { intros x. destruct (Nat.eqb_spec k x); [apply Nat.eqb_eq|apply Nat.eqb_neq]; lia. }
      rewrite !V.
      destruct k as [|[|[|[|[|[|[|[|k]]]]]]]]; try lia; cbn [Nat.eqb]; rewrite ?T0, ?T1, ?T2, ?T3; apply xorb_comm.
    + repeat (rewrite nth_upd_other by lia). apply Hup; lia.
  - change (gen_after (S i) s0) with (snd (gen_byte (gen_after i s0))). rewrite <- Hs, Eg. reflexivity.
Qed.

Lemma rewind_run (A : list bool) : length A = 168 ->
  rewind A = Ok (firstn 128 A ++ firstn 40 A).
Proof.
  intros HA.
  assert (W : wp (rewind A) (fun A' => length A' = 168 /\
     forall k, nth k A' false = if (128 <=? k) && (k <? 128 + 4 * (0 + 10)) then nth (k - 128) A false else nth k A false)).
  { unfold rewind.
    apply (wp_for (fun i A' => length A' = 168 /\
     forall k, nth k A' false = if (128 <=? k) && (k <? 128 + 4 * i) then nth (k - 128) A false else nth k A false)).
    - split; [exact HA|]. intros k. destruct (Nat.leb_spec 128 k); [|reflexivity]. cbn [andb].
      destruct (Nat.ltb_spec k (128 + 4 * 0)); [lia|reflexivity].
    - intros i A1 Hi [L1 H1].
      assert (W : wp (for_ 4 0 (fun b A => x <- aget A (4 * i + b);; aset A (4 * (32 + i) + b) x) A1)
        (fun A' => length A' = 168 /\
     forall k, nth k A' false = if (128 <=? k) && (k <? 128 + 4 * i + (0 + 4)) then nth (k - 128) A false else nth k A false)).
      { apply (wp_for (fun b A' => length A' = 168 /\
     forall k, nth k A' false = if (128 <=? k) && (k <? 128 + 4 * i + b) then nth (k - 128) A false else nth k A false)).
        - split; [exact L1|]. intros k. rewrite Nat.add_0_r. apply H1.
        - intros b A2 Hb [L2 H2].
          rewrite (aget_ok _ _ false) by lia. cbn [bind]. rewrite aset_ok by lia. cbn [wp].
          rewrite upd_length. split; [exact L2|]. intros k. rewrite nth_upd, L2, !H2.
          destruct (Nat.eqb_spec k (4 * (32 + i) + b)) as [->|Hk].
          + destruct (Nat.ltb_spec (4 * (32 + i) + b) 168); [|lia]. cbn [andb].
            destruct (Nat.leb_spec 128 (4 * i + b)); [lia|]. cbn [andb].
            destruct (Nat.leb_spec 128 (4 * (32 + i) + b)); [|lia]. cbn [andb].
            destruct (Nat.ltb_spec (4 * (32 + i) + b) (128 + 4 * i + S b)); [|lia]. f_equal. lia.
          + cbn [andb]. destruct (Nat.leb_spec 128 k); cbn [andb]; [|reflexivity].
            destruct (Nat.ltb_spec k (128 + 4 * i + b)), (Nat.ltb_spec k (128 + 4 * i + S b)); try lia; reflexivity. }
      eapply wp_mono; [exact W|]. intros A2 [L2 H2]. split; [exact L2|]. intros k. rewrite H2.
      replace (128 + 4 * i + (0 + 4)) with (128 + 4 * S i) by lia. reflexivity. }
  apply wp_ok in W as (A' & E & L' & H'). rewrite E. f_equal.
  apply (nth_ext _ _ false false).
  - rewrite L', app_length, !firstn_length, HA. reflexivity.
  - intros k Hk. rewrite H'. rewrite L' in Hk.
    destruct (Nat.leb_spec 128 k); cbn [andb].
    + destruct (Nat.ltb_spec k (128 + 4 * (0 + 10))); [|lia].
      rewrite app_nth2; rewrite firstn_length, HA; [|lia]. rewrite nth_firstn_lt by (simpl; lia). reflexivity.
    + rewrite app_nth1 by (rewrite firstn_length, HA; simpl; lia). rewrite nth_firstn_lt by lia. reflexivity.
Qed.

Lemma flat_length l : length (flat l) = 4 * length l.
Proof. induction l as [|x l IH]; [reflexivity|]. unfold flat in *. cbn [map concat]. rewrite app_length, IH. destruct x as [[[? ?] ?] ?]; simpl. lia. Qed.

(* a state between two kernel calls *)
Definition ready (r : regs bool) (sb : list bool) (s : bst) : Prop :=
  exists pa pb, r = kstate pa [] pb [] sb s /\ length pa = 128 /\ length pb = 128 /\
    length (bA s) = 10 /\ length (bB s) = 10 /\ length sb = 64.

Lemma ready_live r sb s : ready r sb s -> live 32 (32, r) sb s.
Proof. intros (pa & pb & -> & La & Lb & HA & HB & Hs). exists pa, [], pb, []. rewrite !app_nil_r. auto 10. Qed.

Lemma rewind_ready a r sb s : live 0 (a, r) sb s ->
  exists r', (A <- rewind (rgA r) ;; B <- rewind (rgB r) ;;
    Ok (mk_regs A B (rgX r) (rgY r) (rgZ r) (rgD r) (rgE r) (rgF r) (rgsb r) (rgp r) (rgq r) (rgr r))) = Ok r' /\ ready r' sb s.
Proof.
  intros (pa & qa & pb & qb & E & La & Lb & Ta & Tb & HA & HB & Hs). injection E as -> ->.
  destruct pa; [|simpl in La; lia]. destruct pb; [|simpl in Lb; lia]. cbn [app] in Ta, Tb.
  unfold kstate. cbn [rgA rgB rgX rgY rgZ rgD rgE rgF rgsb rgp rgq rgr app].
  pose proof (flat_length (bA s)) as FA. pose proof (flat_length (bB s)) as FB. rewrite HA in FA. rewrite HB in FB.
  rewrite (rewind_run (flat (bA s) ++ qa)) by (rewrite app_length, FA, Ta; reflexivity). cbn [bind].
  rewrite (rewind_run (flat (bB s) ++ qb)) by (rewrite app_length, FB, Tb; reflexivity). cbn [bind].
  eexists; split; [reflexivity|].
  exists (firstn 128 (flat (bA s) ++ qa)), (firstn 128 (flat (bB s) ++ qb)). unfold kstate. rewrite !app_nil_r.
  rewrite !firstn_length, !app_length, FA, FB, Ta, Tb.
  split; [|auto 10].
  assert (H40 : forall x q : list bool, length x = 4 * 10 -> firstn 40 (x ++ q) = x).
  { intros x q Hx. change 40 with (4 * 10). rewrite <- Hx, firstn_app, Nat.sub_diag, firstn_all. apply app_nil_r. }
  rewrite !H40 by assumption. reflexivity.
Qed.

Lemma kernel_init_run r sb s iv : ready r sb s -> sb_of sb iv ->
  wp (stream_cipher_kernel bool_ops true r) (fun r' => exists s', ready r' sb s' /\
     babs s' = fold_left init_byte iv (babs s)).
Proof.
  intros Hr Hsb. unfold stream_cipher_kernel. apply wp_bind.
  eapply wp_mono; [apply (wp_for (fun i st => exists s', live (4 * (8 - i)) st sb s' /\ babs s' = fold_left init_byte (firstn i iv) (babs s)))|].
  - exists s. split; [apply ready_live, Hr|reflexivity].
  - intros i st Hi (s' & Hl & Hs').
    replace (4 * (8 - i)) with (4 + 4 * (8 - S i)) in Hl by lia.
    eapply wp_mono; [apply (init_byte_run i (4 * (8 - S i)) st sb s' iv); [lia|exact Hsb|exact Hl]|].
    intros st' (s2 & Hl2 & Hs2). exists s2. split; [exact Hl2|].
    destruct Hsb as (_ & Ll & _). rewrite (firstn_S_nth iv i 0%N) by lia. rewrite fold_left_app, Hs2, Hs'. reflexivity.
  - intros [a r1] (s' & Hl & Hs'). cbn [Nat.add Nat.sub Nat.mul] in Hl.
    destruct (rewind_ready a r1 sb s' Hl) as (r' & E & Hr'). rewrite E. cbn [wp].
    exists s'. split; [exact Hr'|]. rewrite Hs'. f_equal. destruct Hsb as (_ & Ll & _). rewrite <- Ll. apply firstn_all2. simpl; lia.
Qed.

Lemma kernel_gen_run r sb s : ready r sb s ->
  wp (stream_cipher_kernel bool_ops false r) (fun r' => exists sb' s', ready r' sb' s' /\
     sb_of sb' (gen_bytes 8 (babs s)) /\ babs s' = gen_after 8 (babs s)).
Proof.
  intros Hr. unfold stream_cipher_kernel. apply wp_bind.
  eapply wp_mono; [apply (wp_for (fun i st => exists sb' s', live (4 * (8 - i)) st sb' s' /\ sb_upto i sb' (babs s) /\ babs s' = gen_after i (babs s)))|].
  - exists sb, s. split; [apply ready_live, Hr|]. split; [intros i k Hi; lia|reflexivity].
  - intros i st Hi (sb' & s' & Hl & Hu & Hs').
    replace (4 * (8 - i)) with (4 + 4 * (8 - S i)) in Hl by lia.
    apply (gen_byte_run i (4 * (8 - S i)) st sb' s' (babs s)); [lia|exact Hl|exact Hu|exact Hs'].
  - intros [a r1] (sb' & s' & Hl & Hu & Hs'). cbn [Nat.add Nat.sub Nat.mul] in Hl.
    destruct (rewind_ready a r1 sb' s' Hl) as (r' & E & Hr'). rewrite E. cbn [wp].
    exists sb', s'. split; [exact Hr'|]. split; [|exact Hs'].
    split; [destruct Hr' as (? & ? & _ & _ & _ & _ & _ & L); exact L|].
    split; [apply gen_bytes_length|]. split; [apply gen_bytes_bytes|].
    intros i k Hi Hk. rewrite gen_bytes_nth by exact Hi. apply Hu; assumption.
Qed.
