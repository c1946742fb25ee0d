(** HeapProg.v -- the abstract machine is deterministic; programs checked call by call (C47). *)
From Verif Require Import Base Mem Spec ModelClassical ModelBsWord ModelBsAlgo ApiSpec BsApiSpec BsAlgo BsFacts BsApiFacts BsMoreFacts ModelAlloc HistorySpec History ThreadSpec Threads
  ModelSteps StepsFacts StepsSpec StepsMachine Steps HeapSpec.
Local Open Scope N_scope.

Lemma native_inj be n v w : v < 2 ^ N.of_nat (8 * n) -> w < 2 ^ N.of_nat (8 * n) -> native_bytes be n v = native_bytes be n w -> v = w.
Proof. intros Hv Hw E. rewrite <- (native_val_bytes be n v Hv), <- (native_val_bytes be n w Hw), E. reflexivity. Qed.
Lemma holds_native_inj m a be n v w : v < 2 ^ N.of_nat (8 * n) -> w < 2 ^ N.of_nat (8 * n) ->
  holds m a (native_bytes be n v) -> holds m a (native_bytes be n w) -> v = w.
Proof. intros Hv Hw H H'. apply (native_inj be n v w Hv Hw). apply (holds_inj m a); [exact H|exact H'|]. rewrite !native_bytes_length. reflexivity. Qed.

(* an array describes one list of packets only *)
Lemma array_end c m pcks ps qs : batch_array c m pcks ps -> batch_array c m pcks qs -> (length ps <= length qs)%nat -> length ps = length qs.
Proof.
  intros B B' L. destruct (Nat.eq_dec (length ps) (length qs)) as [E|N]; [exact E|]. exfalso.
  destruct (nth_error qs (length ps)) as [[q b]|] eqn:Eq; [|apply nth_error_None in Eq; lia].
  destruct (ba_entry _ _ _ _ B' _ q b Eq) as ((Q1 & Q2) & _ & _ & H & _). pose proof (ba_end _ _ _ _ B) as H0.
  assert (q = 0); [|lia]. apply (holds_native_inj _ _ _ _ _ _ Q2) with (2 := H) (3 := H0). apply N.neq_0_lt_0, N.pow_nonzero. discriminate.
Qed.
Lemma array_unique c m pcks ps qs : batch_array c m pcks ps -> batch_array c m pcks qs -> ps = qs.
Proof.
  intros B B'. assert (L : length ps = length qs).
  { destruct (Nat.le_ge_cases (length ps) (length qs)) as [H|H]; [eapply array_end; eassumption|symmetry; eapply array_end; eassumption]. }
  apply nth_error_ext. intros i. destruct (nth_error ps i) as [[p b]|] eqn:E.
  - assert (Hi : (i < length qs)%nat) by (rewrite <- L; apply nth_error_Some; congruence).
    destruct (nth_error qs i) as [[q b']|] eqn:E'; [|apply nth_error_None in E'; lia].
    destruct (ba_entry _ _ _ _ B i p b E) as ((P1 & P2) & P3 & P4 & P5 & P6 & _). destruct (ba_entry _ _ _ _ B' i q b' E') as ((Q1 & Q2) & Q3 & Q4 & Q5 & Q6 & _).
    assert (p = q) as <- by (eapply holds_native_inj with (3 := P5) (4 := Q5); assumption).
    assert (El : N.of_nat (length b) = N.of_nat (length b')) by (eapply holds_native_inj with (3 := P6) (4 := Q6); assumption).
    rewrite (holds_inj m p b b' P4 Q4) by lia. reflexivity.
  - apply nth_error_None in E. symmetry. apply nth_error_None. lia.
Qed.

(* the result of a call is determined by the call and the state *)
Theorem astep_det c o s s1 s2 : astep c o s s1 -> astep c o s s2 -> s1 = s2.
Proof.
  intros A B. destruct A; inversion B; subst; try reflexivity; try congruence.
  - do 4 f_equal. eapply holds_inj; [eassumption|eassumption|congruence].
  - do 4 f_equal. eapply holds_inj; [eassumption|eassumption|congruence].
  - f_equal. match goal with H1 : actx s k = Some (_, Some ?x), H2 : actx s k = Some (_, Some ?y) |- _ => assert (x = y) as -> by congruence end.
    do 2 f_equal. eapply holds_inj; [eassumption|eassumption|lia].
  - f_equal. match goal with H1 : actx s k = Some (_, Some ?x), H2 : actx s k = Some (_, Some ?y) |- _ => assert (x = y) as -> by congruence end.
    do 2 f_equal. eapply array_unique; eassumption.
Qed.
Theorem asteps_det c os : forall s s1 s2, asteps c os s s1 -> asteps c os s s2 -> s1 = s2.
Proof.
  induction os as [|o os IH]; intros s s1 s2 A B; inversion A as [|? ? ? t1 ? A1 A2]; inversion B as [|? ? ? t2 ? B1 B2]; subst; [congruence|].
  rewrite (astep_det _ _ _ _ _ A1 B1) in *. eapply IH; eassumption.
Qed.

(* a program that is fine and ends in [Q] after less than n actions, wherever new memory is placed *)
Fixpoint checks (n : nat) (c : build) (sh : N -> bool) (Q : lstate -> Prop) (k : code) (l : lstate) : Prop :=
  match n with O => False | S n =>
  match k with
  | Done => Q l
  | Do o k => allowed c sh l o /\ exists s', astep c o (seen l) s' /\ checks n c sh Q k (mk_lstate s' (writable l))
  | Look a k => exists b, user (seen l) a = Some b /\ checks n c sh Q (k b) l
  | New x k => checks n c sh Q (k 0) l /\ forall p, 0 < p -> unused c (seen l) p (api_size c x) -> (x = Bitslice -> p mod word_size c = 0) ->
      checks n c sh Q (k p) (mk_lstate (set_ctx (seen l) p (Some (x, None))) (writable l))
  | Buf n' k => checks n c sh Q (k 0) l /\ forall p bs, 0 < p -> N.of_nat (length bs) = n' -> Forall is_byte bs -> unused c (seen l) p n' ->
      checks n c sh Q (k p) (mk_lstate (set_user (seen l) (put (user (seen l)) p bs)) (with_writable (writable l) p n'))
  | Drop p n' k => (forall a, p <= a < p + n' -> user (seen l) a <> None /\ writable l a = true) /\
      checks n c sh Q k (mk_lstate (set_user (seen l) (erase (user (seen l)) p n')) (writable l))
  end end.
(* one step of it; unfolding [checks 12] in place would unfold all twelve *)
Lemma checks_S n c sh Q k l : checks (S n) c sh Q k l =
  match k with
  | Done => Q l
  | Do o k => allowed c sh l o /\ exists s', astep c o (seen l) s' /\ checks n c sh Q k (mk_lstate s' (writable l))
  | Look a k => exists b, user (seen l) a = Some b /\ checks n c sh Q (k b) l
  | New x k => checks n c sh Q (k 0) l /\ forall p, 0 < p -> unused c (seen l) p (api_size c x) -> (x = Bitslice -> p mod word_size c = 0) ->
      checks n c sh Q (k p) (mk_lstate (set_ctx (seen l) p (Some (x, None))) (writable l))
  | Buf n' k => checks n c sh Q (k 0) l /\ forall p bs, 0 < p -> N.of_nat (length bs) = n' -> Forall is_byte bs -> unused c (seen l) p n' ->
      checks n c sh Q (k p) (mk_lstate (set_user (seen l) (put (user (seen l)) p bs)) (with_writable (writable l) p n'))
  | Drop p n' k => (forall a, p <= a < p + n' -> user (seen l) a <> None /\ writable l a = true) /\
      checks n c sh Q k (mk_lstate (set_user (seen l) (erase (user (seen l)) p n')) (writable l))
  end.
Proof. reflexivity. Qed.
Lemma checks_step n c sh Q x y : lstep c sh x y -> checks (S n) c sh Q (fst x) (snd x) -> checks n c sh Q (fst y) (snd y).
Proof.
  intros H C. destruct H; cbn [fst snd checks] in *.
  - destruct C as (_ & s2 & A & C). rewrite (astep_det _ _ _ _ _ H0 A). exact C.
  - destruct C as (b' & E & C). assert (b' = b) by congruence. subst. exact C.
  - apply C.
  - apply C; assumption.
  - apply C.
  - apply C; assumption.
  - apply C.
Qed.
Lemma checks_more n : forall c sh Q k l, checks n c sh Q k l -> checks (S n) c sh Q k l.
Proof.
  induction n as [|n IH]; intros c sh Q k l C; [destruct C|]. cbn [checks] in C. remember (S n) as n' eqn:En. cbn [checks]. rewrite En in *. destruct k.
  - exact C.
  - destruct C as (A & s' & B & C). eauto 6.
  - destruct C as (b & E & C). eauto.
  - destruct C as [C1 C2]. split; [apply IH, C1|]. intros. apply IH, C2; assumption.
  - destruct C as [C1 C2]. split; [apply IH, C1|]. intros. apply IH, C2; assumption.
  - destruct C as [C1 C2]. split; [exact C1|]. apply IH, C2.
Qed.
Lemma checks_steps n c sh Q x y : lsteps c sh x y -> checks n c sh Q (fst x) (snd x) -> checks n c sh Q (fst y) (snd y).
Proof.
  induction 1; auto. intros C. specialize (IHlsteps C). destruct n; [destruct IHlsteps|]. apply checks_more. eapply checks_step; eauto.
Qed.
Lemma checks_fine n c sh Q k l : checks n c sh Q k l -> fine c sh (k, l) /\ ends c sh (k, l) /\ forall l', lsteps c sh (k, l) (Done, l') -> Q l'.
Proof.
  intros C. split; [|split].
  - intros k' l' H. pose proof (checks_steps n c sh Q _ _ H C) as C'. cbn [fst snd] in C'. destruct n; [destruct C'|].
    destruct k' as [|o k'|a k'|x k'|n' k'|p n' k']; cbn [checks] in C'; auto; right.
    + destruct C' as (A & s' & B & _). eexists. eapply l_do; eassumption.
    + destruct C' as (b & E & _). eexists. eapply l_look, E.
    + eexists. apply l_new_null.
    + eexists. apply l_buf_none.
    + eexists. apply l_drop, C'.
  - change (checks n c sh Q (fst (k, l)) (snd (k, l))) in C. revert C. generalize (k, l). clear k l. unfold ends.
    induction n as [|n IH]; intros x C; [destruct C|]. constructor. intros y H. apply IH. eapply checks_step; eassumption.
  - intros l' H. pose proof (checks_steps n c sh Q _ _ H C) as C'. destruct n; [destruct C'|exact C'].
Qed.
