(** BsRel.v -- two runs of the same generic code on related data have related results. *)
From Verif Require Import Base Mem ModelBsWord ModelBsTranspose ModelBsStream.
Local Open Scope nat_scope.

Definition res_rel {A B} (R : A -> B -> Prop) (x : res A) (y : res B) : Prop :=
  match x, y with
  | Ok a, Ok b => R a b
  | UB k, UB k' => k = k'
  | Abort, Abort => True
  | Fuel, Fuel => True
  | _, _ => False
  end.

Lemma rel_ret {A B} (R : A -> B -> Prop) a b : R a b -> res_rel R (Ok a) (Ok b).
Proof. exact (fun H => H). Qed.

Lemma rel_bind {A B C D} (R : A -> B -> Prop) (S : C -> D -> Prop) x y f g :
  res_rel R x y -> (forall a b, R a b -> res_rel S (f a) (g b)) ->
  res_rel S (bind x f) (bind y g).
Proof. destruct x, y; simpl; intros H K; try contradiction; auto. Qed.

Lemma rel_mono {A B} (R S : A -> B -> Prop) x y :
  res_rel R x y -> (forall a b, R a b -> S a b) -> res_rel S x y.
Proof. destruct x, y; simpl; auto. Qed.

Lemma rel_aget {A B} (R : A -> B -> Prop) l l' i :
  Forall2 R l l' -> res_rel R (aget l i) (aget l' i).
Proof.
  intros H; revert i; induction H as [|x y l l' Hx H IH]; intros [|i]; unfold aget in *; simpl; auto.
Qed.

Lemma Forall2_upd {A B} (R : A -> B -> Prop) l l' i v v' :
  Forall2 R l l' -> R v v' -> Forall2 R (upd l i v) (upd l' i v').
Proof. intros H Hv; revert i; induction H; intros [|i]; simpl; constructor; auto. Qed.

Lemma Forall2_len {A B} (R : A -> B -> Prop) l l' : Forall2 R l l' -> length l = length l'.
Proof. induction 1; simpl; auto. Qed.

Lemma rel_aset {A B} (R : A -> B -> Prop) l l' i v v' :
  Forall2 R l l' -> R v v' -> res_rel (Forall2 R) (aset l i v) (aset l' i v').
Proof.
  intros H Hv. unfold aset. rewrite (Forall2_len _ _ _ H).
  destruct (i <? length l'); simpl; auto using Forall2_upd.
Qed.

Lemma rel_for {A B} (R : A -> B -> Prop) n : forall i f g s t,
  R s t -> (forall j s t, R s t -> res_rel R (f j s) (g j t)) ->
  res_rel R (for_ n i f s) (for_ n i g t).
Proof.
  induction n as [|n IH]; intros i f g s t H K; simpl; [exact H|].
  eapply rel_bind; [apply K, H|]. intros a b Hab; apply IH; auto.
Qed.

Lemma rel_psub p n : res_rel eq (psub p n) (psub p n).
Proof. unfold psub; destruct (p <? n); simpl; auto. Qed.

Lemma rel_if {A B} (R : A -> B -> Prop) (b : bool) x x' y y' :
  res_rel R x x' -> res_rel R y y' -> res_rel R (if b then x else y) (if b then x' else y').
Proof. destruct b; auto. Qed.

(** ** Transpositions *)
Section TransposeRel.
  Context {T U : Type} (R : T -> U -> Prop) (sw : nat -> T -> T -> T * T) (sw' : nat -> U -> U -> U * U).
  Definition pair_rel {A B C D} (R : A -> B -> Prop) (S : C -> D -> Prop) (x : A * C) (y : B * D) : Prop :=
    R (fst x) (fst y) /\ S (snd x) (snd y).
  Definition sw_rel (ns : list nat) : Prop :=
    forall n, In n ns -> forall t b t' b', R t t' -> R b b' -> pair_rel R R (sw n t b) (sw' n t' b').

  Ltac sw_step H :=
    match goal with
    | |- context [match sw ?n ?a ?b with pair _ _ => _ end] =>
        match goal with
        | |- context [match sw' n ?a' ?b' with pair _ _ => _ end] =>
            let K := fresh "K" in
            assert (K : pair_rel R R (sw n a b) (sw' n a' b')) by (apply H; [simpl; tauto|assumption..]);
            destruct (sw n a b), (sw' n a' b'); destruct K as [? ?]; cbn [fst snd] in *
        end
    end.

  Definition quad_rel {A B} (R : A -> B -> Prop) (x : A * A * A * A) (y : B * B * B * B) : Prop :=
    let '(a, b, c, d) := x in let '(a', b', c', d') := y in R a a' /\ R b b' /\ R c c' /\ R d d'.

  Lemma swaps4_rel p q : sw_rel [p; q] ->
    forall a b c d a' b' c' d', R a a' -> R b b' -> R c c' -> R d d' ->
    quad_rel R (swaps4 sw p q a b c d) (swaps4 sw' p q a' b' c' d').
  Proof. intros H **. unfold swaps4. repeat sw_step H. simpl; auto. Qed.

  Lemma rows4_rel i0 i1 i2 i3 f f' row row' :
    (forall a b c d a' b' c' d', R a a' -> R b b' -> R c c' -> R d d' ->
       quad_rel R (f a b c d) (f' a' b' c' d')) ->
    Forall2 R row row' ->
    res_rel (Forall2 R) (rows4 i0 i1 i2 i3 f row) (rows4 i0 i1 i2 i3 f' row').
  Proof.
    intros Hf H. unfold rows4.
    do 4 (eapply rel_bind; [apply rel_aget; exact H|]; intros).
    match goal with
    | K0 : R ?a ?a', K1 : R ?b ?b', K2 : R ?c ?c', K3 : R ?d ?d' |- context [f ?a ?b ?c ?d] =>
        specialize (Hf a b c d a' b' c' d' K0 K1 K2 K3);
        destruct (f a b c d) as [[[? ?] ?] ?], (f' a' b' c' d') as [[[? ?] ?] ?]
    end.
    destruct Hf as (? & ? & ? & ?).
    do 3 (eapply rel_bind; [apply (rel_aset R); assumption|]; intros).
    apply (rel_aset R); assumption.
  Qed.

  Lemma rows8_rel i p q s row row' : sw_rel [p; q; s] -> Forall2 R row row' ->
    res_rel (Forall2 R) (rows8 sw i p q s row) (rows8 sw' i p q s row').
  Proof.
    intros Hsw H. unfold rows8.
    do 8 (eapply rel_bind; [apply rel_aget; exact H|]; intros).
    repeat sw_step Hsw.
    do 7 (eapply rel_bind; [apply (rel_aset R); assumption|]; intros).
    apply (rel_aset R); assumption.
  Qed.

  Lemma sw_rel_sub ns ms : sw_rel ns -> incl ms ns -> sw_rel ms.
  Proof. intros H I n Hn; apply H, I, Hn. Qed.

  Lemma transpose_block_rel row row' : sw_rel [8; 16] -> Forall2 R row row' ->
    res_rel (Forall2 R) (matrix_transpose_block sw row) (matrix_transpose_block sw' row').
  Proof.
    intros H Hr. unfold matrix_transpose_block.
    apply rel_for; auto. intros. apply rel_for; auto. intros.
    apply rows4_rel; auto. intros; apply swaps4_rel; auto.
  Qed.

  Lemma transpose_64x_i386_rel row row' : sw_rel [1; 2; 4; 8; 16; 32] -> Forall2 R row row' ->
    res_rel (Forall2 R) (matrix_transpose_64x_i386 sw row) (matrix_transpose_64x_i386 sw' row').
  Proof.
    intros H Hr. unfold matrix_transpose_64x_i386.
    eapply rel_bind; [apply rel_for; [exact Hr|]|intros; eapply rel_bind; [apply rel_for; [eassumption|]|intros; apply rel_for; [eassumption|]]];
      intros; try (apply rel_for; [assumption|]; intros); (apply rows4_rel; [|assumption]); intros; apply swaps4_rel; auto;
      apply (sw_rel_sub _ _ H); intros x Hx; simpl in *; intuition.
  Qed.

  Lemma transpose_64x_gen_rel row row' : sw_rel [1; 2; 4; 8; 16; 32] -> Forall2 R row row' ->
    res_rel (Forall2 R) (matrix_transpose_64x_gen sw row) (matrix_transpose_64x_gen sw' row').
  Proof.
    intros H Hr. unfold matrix_transpose_64x_gen.
    eapply rel_bind; [apply rel_for; [exact Hr|]|intros; apply rel_for; [eassumption|]]; intros; (apply rows8_rel; [|assumption]);
      apply (sw_rel_sub _ _ H); intros x Hx; simpl in *; intuition.
  Qed.

  Lemma transpose_64x32_rel row row' : sw_rel [1; 2; 4; 8; 16] -> Forall2 R row row' ->
    res_rel (Forall2 R) (matrix_transpose_64x32 sw row) (matrix_transpose_64x32 sw' row').
  Proof.
    intros H Hr. unfold matrix_transpose_64x32.
    eapply rel_bind; [apply rel_for; [exact Hr|]|intros; eapply rel_bind; [apply rel_for; [eassumption|]|intros; apply rel_for; [eassumption|]]];
      intros; try (apply rel_for; [assumption|]; intros).
    - apply rows4_rel; auto. intros. repeat sw_step H. simpl; auto.
    - apply rows4_rel; auto. intros; apply swaps4_rel; auto;
      apply (sw_rel_sub _ _ H); intros x Hx; simpl in *; intuition.
    - apply rows4_rel; auto. intros; apply swaps4_rel; auto;
      apply (sw_rel_sub _ _ H); intros x Hx; simpl in *; intuition.
  Qed.
End TransposeRel.

(** ** Stream kernel *)
Section KernelRel.
  Context {T U : Type} (R : T -> U -> Prop) (o : bsops T) (o' : bsops U).

  Record ops_rel : Prop := {
    or_and : forall a b a' b', R a a' -> R b b' -> R (op_and o a b) (op_and o' a' b');
    or_or : forall a b a' b', R a a' -> R b b' -> R (op_or o a b) (op_or o' a' b');
    or_xor : forall a b a' b', R a a' -> R b b' -> R (op_xor o a b) (op_xor o' a' b');
    or_not : forall a a', R a a' -> R (op_not o a) (op_not o' a');
    or_00 : R (op_00 o) (op_00 o');
    or_ff : R (op_ff o) (op_ff o') }.

  Record regs_rel (s : regs T) (t : regs U) : Prop := {
    rr_A : Forall2 R (rgA s) (rgA t); rr_B : Forall2 R (rgB s) (rgB t);
    rr_X : Forall2 R (rgX s) (rgX t); rr_Y : Forall2 R (rgY s) (rgY t);
    rr_Z : Forall2 R (rgZ s) (rgZ t); rr_D : Forall2 R (rgD s) (rgD t);
    rr_E : Forall2 R (rgE s) (rgE t); rr_F : Forall2 R (rgF s) (rgF t);
    rr_sb : Forall2 R (rgsb s) (rgsb t);
    rr_p : R (rgp s) (rgp t); rr_q : R (rgq s) (rgq t); rr_r : R (rgr s) (rgr t) }.

  Hypothesis H : ops_rel.
  Local Hint Resolve or_and or_or or_xor or_not or_00 or_ff rel_aget rel_aset rel_ret
    rr_A rr_B rr_X rr_Y rr_Z rr_D rr_E rr_F rr_sb rr_p rr_q rr_r : rel.

  Ltac nxt := eapply rel_bind; [solve [eauto 4 with rel]|cbn beta; intros].

  Lemma row_get_rel A A' a k b : Forall2 R A A' -> res_rel R (row_get A a k b) (row_get A' a k b).
  Proof. intros; unfold row_get; auto with rel. Qed.
  Local Hint Resolve row_get_rel : rel.

  Lemma xor4_get_rel B B' a k0 b0 k1 b1 k2 b2 k3 b3 : Forall2 R B B' ->
    res_rel R (xor4_get o B a k0 b0 k1 b1 k2 b2 k3 b3) (xor4_get o' B' a k0 b0 k1 b1 k2 b2 k3 b3).
  Proof. intros; unfold xor4_get. do 4 nxt. simpl. auto 10 with rel. Qed.

  Definition sbox_rel (f : T -> T -> T -> T -> T -> T * T) (f' : U -> U -> U -> U -> U -> U * U) : Prop :=
    forall a b c d e a' b' c' d' e', R a a' -> R b b' -> R c c' -> R d d' -> R e e' ->
      pair_rel R R (f a b c d e) (f' a' b' c' d' e').

  Lemma sbox1_rel : sbox_rel (bs_sbox1 o) (bs_sbox1 o').
  Proof. unfold sbox_rel, bs_sbox1, pair_rel; intros; cbn [fst snd]; auto 12 with rel. Qed.
  Lemma sbox2_rel : sbox_rel (bs_sbox2 o) (bs_sbox2 o').
  Proof. unfold sbox_rel, bs_sbox2, pair_rel; intros; cbn [fst snd]; auto 12 with rel. Qed.
  Lemma sbox3_rel : sbox_rel (bs_sbox3 o) (bs_sbox3 o').
  Proof. unfold sbox_rel, bs_sbox3, pair_rel; intros; cbn [fst snd]; auto 12 with rel. Qed.
  Lemma sbox4_rel : sbox_rel (bs_sbox4 o) (bs_sbox4 o').
  Proof. unfold sbox_rel, bs_sbox4, pair_rel; intros; cbn [fst snd]; auto 14 with rel. Qed.
  Lemma sbox5_rel : sbox_rel (bs_sbox5 o) (bs_sbox5 o').
  Proof. unfold sbox_rel, bs_sbox5, pair_rel; intros; cbn [fst snd]; auto 12 with rel. Qed.
  Lemma sbox6_rel : sbox_rel (bs_sbox6 o) (bs_sbox6 o').
  Proof. unfold sbox_rel, bs_sbox6, pair_rel; intros; cbn [fst snd]; auto 12 with rel. Qed.
  Lemma sbox7_rel : sbox_rel (bs_sbox7 o) (bs_sbox7 o').
  Proof. unfold sbox_rel, bs_sbox7, pair_rel; intros; cbn [fst snd]; auto 12 with rel. Qed.

  Lemma sbox_get_rel f f' A A' a k0 b0 k1 b1 k2 b2 k3 b3 k4 b4 : sbox_rel f f' -> Forall2 R A A' ->
    res_rel (pair_rel R R) (sbox_get f A a k0 b0 k1 b1 k2 b2 k3 b3 k4 b4)
                           (sbox_get f' A' a k0 b0 k1 b1 k2 b2 k3 b3 k4 b4).
  Proof. intros Hf HA; unfold sbox_get. do 5 nxt. simpl. apply Hf; assumption. Qed.
  Local Hint Resolve xor4_get_rel sbox1_rel sbox2_rel sbox3_rel sbox4_rel sbox5_rel sbox6_rel sbox7_rel
    sbox_get_rel : rel.

  Lemma feed_A_rel init i j a p X D sb A X' D' sb' A' :
    Forall2 R X X' -> Forall2 R D D' -> Forall2 R sb sb' -> Forall2 R A A' ->
    res_rel (Forall2 R) (feed_A o init i j a p X D sb A) (feed_A o' init i j a p X' D' sb' A').
  Proof.
    intros. unfold feed_A. apply rel_for; [assumption|]. intros b A1 A1' HA1.
    do 3 nxt. destruct init; [|simpl; assumption].
    do 2 nxt. eapply rel_bind; [apply rel_if; eauto with rel|intros]. eauto with rel.
  Qed.

  Lemma feed_B_rel init i j a p Y sb B Y' sb' B' :
    Forall2 R Y Y' -> Forall2 R sb sb' -> Forall2 R B B' ->
    res_rel (Forall2 R) (feed_B o init i j a p Y sb B) (feed_B o' init i j a p Y' sb' B').
  Proof.
    intros. unfold feed_B. apply rel_for; [assumption|]. intros b A1 A1' HA1.
    do 4 nxt. destruct init; [|simpl; assumption].
    nxt. eapply rel_bind; [apply rel_if; eauto with rel|intros]. eauto with rel.
  Qed.

  Lemma rotate_B_rel p r r' B B' : R r r' -> Forall2 R B B' ->
    res_rel (Forall2 R) (rotate_B o p r B) (rotate_B o' p r' B').
  Proof. intros. unfold rotate_B. do 4 nxt. do 3 (eapply rel_bind; [apply (rel_aset R); auto 6 with rel|intros]). apply (rel_aset R); auto 6 with rel. Qed.

  Definition def_rel (x : list T * list T * list T * T) (y : list U * list U * list U * U) : Prop :=
    let '(D, E, F, c) := x in let '(D', E', F', c') := y in
    Forall2 R D D' /\ Forall2 R E E' /\ Forall2 R F F' /\ R c c'.

  Lemma adder_bit_rel b Z q ex t D E F Z' q' ex' t' D' E' F' :
    Forall2 R Z Z' -> R q q' -> R ex ex' -> R t t' ->
    Forall2 R D D' -> Forall2 R E E' -> Forall2 R F F' ->
    res_rel def_rel (adder_bit o b Z q ex t (D, E, F)) (adder_bit o' b Z' q' ex' t' (D', E', F')).
  Proof.
    intros. unfold adder_bit. do 3 nxt.
    do 3 (eapply rel_bind; [apply (rel_aset R); auto 6 with rel|intros]). simpl. auto 10 with rel.
  Qed.

  Ltac sbx := eapply rel_bind; [solve [eauto 4 with rel]|
     let x := fresh in let y := fresh in intros [? ?] [? ?] [x y]; cbn [fst snd] in x, y; cbn beta iota].
  Ltac addb := eapply rel_bind; [apply adder_bit_rel; eauto 3 with rel|
      let K := fresh in intros [[[? ?] ?] ?] [[[? ?] ?] ?] K; destruct K as (? & ? & ? & ?); cbn beta iota].

  Lemma kernel_step_rel init i j a s t : regs_rel s t ->
    res_rel regs_rel (kernel_step o init i j a s) (kernel_step o' init i j a t).
  Proof.
    intros Hs. unfold kernel_step.
    eapply rel_bind; [apply rel_psub|intros p p' <-].
    do 4 nxt.
    eapply rel_bind; [apply feed_A_rel; eauto with rel|intros].
    eapply rel_bind; [apply feed_B_rel; eauto with rel|intros].
    eapply rel_bind; [apply rotate_B_rel; eauto with rel|intros].
    do 4 addb.
    do 6 (sbx; do 2 (eapply rel_bind; [solve [eauto 4 with rel]|intros])).
    sbx.
    apply rel_bind with (R := Forall2 R).
    - destruct init; [simpl; eauto with rel|].
      do 4 nxt. eapply rel_bind; [apply (rel_aset R); eauto with rel|intros]. apply (rel_aset R); eauto with rel.
    - intros. simpl. constructor; simpl; eauto 8 with rel.
  Qed.

  Lemma rewind_rel A A' : Forall2 R A A' -> res_rel (Forall2 R) (rewind A) (rewind A').
  Proof.
    intros. unfold rewind. apply rel_for; [assumption|]. intros. apply rel_for; [assumption|]. intros.
    nxt. auto with rel.
  Qed.

  Lemma kernel_rel init s t : regs_rel s t ->
    res_rel regs_rel (stream_cipher_kernel o init s) (stream_cipher_kernel o' init t).
  Proof.
    intros Hs. unfold stream_cipher_kernel.
    apply rel_bind with (R := pair_rel eq regs_rel).
    - apply rel_for; [split; [reflexivity|exact Hs]|]. intros i st st' Hst.
      apply rel_for; [exact Hst|]. intros j [a1 s1] [a2 s2] [E Hs1]; cbn [fst snd] in E, Hs1; subst a2.
      eapply rel_bind; [apply kernel_step_rel, Hs1|intros].
      eapply rel_bind; [apply rel_psub|intros ? ? <-]. simpl. split; auto.
    - intros [a1 s1] [a2 s2] [_ Hs1]; cbn [fst snd] in Hs1.
      eapply rel_bind; [apply rewind_rel; eauto with rel|intros].
      eapply rel_bind; [apply rewind_rel; eauto with rel|intros].
      simpl. constructor; simpl; eauto with rel.
  Qed.

  Lemma load_regs_rel k k' s t : (forall i, res_rel R (k i) (k' i)) -> regs_rel s t ->
    res_rel regs_rel (stream_load_regs o k s) (stream_load_regs o' k' t).
  Proof.
    intros Hk Hs. unfold stream_load_regs.
    pose (tri := pair_rel (pair_rel (Forall2 R) (Forall2 R)) (Forall2 R)).
    apply rel_bind with (R := pair_rel (pair_rel (pair_rel (Forall2 R) (Forall2 R)) tri) tri).
    - apply rel_for; [unfold tri, pair_rel; simpl; auto 12 with rel|].
      intros b [[[A B] [[X Y] Z]] [[D E] F]] [[[A' B'] [[X' Y'] Z']] [[D' E'] F']] K.
      unfold tri, pair_rel in K; simpl in K. destruct K as [[[? ?] [[? ?] ?]] [[? ?] ?]].
      apply rel_bind with (R := pair_rel (Forall2 R) (Forall2 R)).
      + apply rel_for; [split; assumption|]. intros i [A1 B1] [A2 B2] [K1 K2]; cbn [fst snd] in K1, K2.
        eapply rel_bind; [apply Hk|intros]. nxt.
        eapply rel_bind; [apply Hk|intros]. nxt. simpl. split; assumption.
      + intros [A1 B1] [A2 B2] [K1 K2]; cbn [fst snd] in K1, K2.
        do 10 nxt. unfold tri, pair_rel; simpl. auto 12.
    - intros [[[A B] [[X Y] Z]] [[D E] F]] [[[A' B'] [[X' Y'] Z']] [[D' E'] F']] K.
      unfold tri, pair_rel in K; simpl in K. destruct K as [[[? ?] [[? ?] ?]] [[? ?] ?]].
      simpl. constructor; simpl; auto with rel.
  Qed.
End KernelRel.
