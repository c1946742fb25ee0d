(** StepsMachine.v -- threads that own disjoint addresses do not interfere, access by access. *)
From Verif Require Import Base Mem ModelSteps StepsFacts HistorySpec StepsSpec.
Local Open Scope N_scope.

(** ** Where a program writes *)
Fixpoint inside {A} (F : N -> Prop) (t : prog A) (m : mem) : Prop :=
  match t with
  | Ret _ | Stop _ => True
  | Rd p k => forall v, m p = Some v -> inside F (k v) m
  | Wr p v t => F p /\ forall m', store m p v = Ok m' -> inside F t m'
  end.
Lemma inside_bind {A B} F (t : prog A) (f : A -> prog B) : forall m,
  inside F t m -> (forall a m', run t m = Ok (a, m') -> inside F (f a) m') -> inside F (pbind t f) m.
Proof.
  induction t as [a|p k IH|p v t IH|e]; intros m H K; cbn [pbind inside] in *.
  - apply K. reflexivity.
  - intros v E. apply IH; [apply H, E|]. intros a m' E'. apply K. cbn [run]. unfold load. rewrite E. exact E'.
  - destruct H as [H1 H2]. split; [exact H1|]. intros m' E. apply IH; [apply H2, E|]. intros a m2 E'. apply K. cbn [run]. rewrite E. exact E'.
  - exact I.
Qed.
Lemma inside_mono {A} (F G : N -> Prop) (t : prog A) : (forall a, F a -> G a) -> forall m, inside F t m -> inside G t m.
Proof.
  intros S. induction t as [a|p k IH|p v t IH|e]; intros m H; cbn [inside] in *; auto. destruct H as [H1 H2]. split; auto.
Qed.

(* whatever is read, the program writes in [F] only, and its result satisfies [Q] *)
Fixpoint only {A} (F : N -> Prop) (t : prog A) (Q : A -> Prop) : Prop :=
  match t with
  | Ret a => Q a | Stop _ => True
  | Rd p k => forall v, only F (k v) Q
  | Wr p v t => F p /\ only F t Q
  end.
Lemma only_inside {A} F (t : prog A) Q : only F t Q -> forall m, inside F t m.
Proof.
  induction t as [a|p k IH|p v t IH|e]; intros H m; cbn [inside only] in *; auto. destruct H as [H1 H2]. split; auto.
Qed.
Lemma only_bind {A B} F (t : prog A) (f : A -> prog B) Q :
  only F t (fun a => only F (f a) Q) -> only F (pbind t f) Q.
Proof. induction t as [a|p k IH|p v t IH|e]; cbn [pbind only]; intros H; auto. destruct H; split; auto. Qed.
Lemma only_mono {A} (F : N -> Prop) (t : prog A) (P Q : A -> Prop) : only F t P -> (forall a, P a -> Q a) -> only F t Q.
Proof. intros H K. induction t as [a|p k IH|p v t IH|e]; cbn [only] in *; auto. destruct H; split; auto. Qed.
Definition any {A} : A -> Prop := fun _ => True.
Lemma only_any {A} (F : N -> Prop) (t : prog A) Q : only F t Q -> only F t any.
Proof. intros H. eapply only_mono; [exact H|]. intros. exact I. Qed.
Lemma only_seq {A B} F (t : prog A) (f : A -> prog B) Q : only F t any -> (forall a, only F (f a) Q) -> only F (pbind t f) Q.
Proof. intros H K. apply only_bind. eapply only_mono; [exact H|]. intros a _. apply K. Qed.
Lemma only_lift {A} F (r : res A) : only F (lift r) any.
Proof. destruct r; exact I. Qed.
Lemma only_lift_q {A} F (r : res A) (Q : A -> Prop) : (forall a, r = Ok a -> Q a) -> only F (lift r) Q.
Proof. destruct r; cbn; auto. Qed.
Lemma only_rd F a : only F (rd a) any. Proof. intros v. exact I. Qed.
Lemma only_wr (F : N -> Prop) a v : F a -> only F (wr a v) any. Proof. intros H. split; [exact H|exact I]. Qed.
Lemma only_rd_bytes F n : forall a, only F (rd_bytes a n) (fun l => length l = n).
Proof.
  induction n as [|n IH]; intros a; cbn [rd_bytes]; [reflexivity|]. apply only_seq; [apply only_rd|]. intros b.
  apply only_bind. eapply only_mono; [apply IH|]. intros l L. cbn. congruence.
Qed.
Lemma only_wr_bytes (F : N -> Prop) l : forall a, (forall x, a <= x < a + N.of_nat (length l) -> F x) -> only F (wr_bytes a l) any.
Proof.
  induction l as [|b l IH]; intros a H; cbn [wr_bytes]; [exact I|]. cbn [length] in H.
  apply only_seq; [apply only_wr, H; lia|]. intros _. apply IH. intros x Hx. apply H. lia.
Qed.
Lemma only_for {St} F n : forall i (b : nat -> St -> prog St) s (I : St -> Prop), I s ->
  (forall j s, (i <= j < i + n)%nat -> I s -> only F (b j s) I) -> only F (pfor n i b s) I.
Proof.
  induction n as [|n IH]; intros i b s I Hs H; cbn [pfor]; [exact Hs|]. apply only_bind.
  eapply only_mono; [apply H; [lia|exact Hs]|]. intros s' Hs'. apply IH; [exact Hs'|]. intros j t Hj. apply H. lia.
Qed.
Lemma only_for_down {St} F n : forall (b : nat -> St -> prog St) s (I : St -> Prop), I s ->
  (forall j s, (j < n)%nat -> I s -> only F (b j s) I) -> only F (pfor_down n b s) I.
Proof.
  induction n as [|n IH]; intros b s I Hs H; cbn [pfor_down]; [exact Hs|]. apply only_bind.
  eapply only_mono; [apply H; [lia|exact Hs]|]. intros s' Hs'. apply IH; [exact Hs'|]. intros j t Hj. apply H. lia.
Qed.
Lemma only_while {St} F n : forall cond (b : St -> prog St) s (I : St -> Prop), I s ->
  (forall s, I s -> cond s = true -> only F (b s) I) -> only F (pwhile n cond b s) I.
Proof.
  induction n as [|n IH]; intros cond b s I Hs H; cbn [pwhile]; destruct (cond s) eqn:E; try exact Hs; [exact Logic.I|].
  apply only_bind. eapply only_mono; [apply H; assumption|]. intros s' Hs'. apply IH; assumption.
Qed.

(** ** The machine *)
(* number of accesses when the program runs alone *)
Fixpoint cost {A} (t : prog A) (m : mem) : nat :=
  match t with
  | Ret _ | Stop _ => 0
  | Rd p k => match m p with Some v => S (cost (k v) m) | None => 0 end
  | Wr p v t => match store m p v with Ok m' => S (cost t m') | _ => 0 end
  end%nat.

(* thread [t] with addresses [F] is [n] accesses away from an end that satisfies [fin], as far as
   it can see; what it sees of [m] avoids the addresses [oth] of the others *)
Definition alive (F oth : N -> Prop) (fin : mem -> Prop) (m : mem) (t : prog unit) (n : nat) : Prop :=
  exists mi mf, run t mi = Ok (tt, mf) /\ inside F t mi /\ cost t mi = n /\ fin mf /\
    (forall a b, mi a = Some b -> m a = Some b) /\ (forall a, mi a <> None -> ~ oth a).

Lemma alive_step F oth fin m t n : alive F oth fin m t n -> t <> Ret tt ->
  exists t' m' n', tstep t m t' m' /\ n = S n'.
Proof.
  intros (mi & mf & R & I & C & Fi & Sub & Av) Nr. destruct t as [[]|p k|p v t|e].
  - contradiction.
  - cbn [run] in R. unfold load in R. destruct (mi p) as [v|] eqn:E; [|discriminate R]. cbn [cost] in C. rewrite E in C.
    eexists _, _, _. split; [apply ts_rd, Sub, E|symmetry; exact C].
  - cbn [run] in R. unfold store in R. cbn [cost] in C. unfold store in C. destruct (mi p) as [w|] eqn:E; [|discriminate R].
    eexists _, _, _. split; [apply (ts_wr _ _ _ _ w), Sub, E|symmetry; exact C].
  - destruct e; discriminate R.
Qed.
Lemma alive_after F oth fin m t n t' m' : alive F oth fin m t n -> tstep t m t' m' ->
  exists n', n = S n' /\ alive F oth fin m' t' n' /\
    (forall a, ~ F a -> m' a = m a).
Proof.
  intros (mi & mf & R & I & C & Fi & Sub & Av) St. destruct St as [p k m v E|p v t m w E].
  - cbn [run] in R. unfold load in R. cbn [cost] in C. destruct (mi p) as [v'|] eqn:E'; [|discriminate R].
    pose proof (Sub p v' E') as E2. assert (v' = v) by congruence. subst v'.
    eexists. split; [symmetry; exact C|]. split; [|reflexivity]. exists mi, mf. repeat split; auto.
  - cbn [run] in R. cbn [cost] in C. cbn [inside] in I. destruct I as [Fp I]. unfold store in *. destruct (mi p) as [w'|] eqn:E'; [|discriminate R].
    eexists. split; [symmetry; exact C|]. split.
    + exists (fun x => if x =? p then Some v else mi x), mf. split; [exact R|]. split; [apply I; reflexivity|]. split; [reflexivity|]. split; [exact Fi|]. split.
      * intros a b. destruct (a =? p); [exact (fun H => H)|apply Sub].
      * intros a. destruct (N.eqb_spec a p) as [->|]; [intros _; apply Av; congruence|apply Av].
    + intros a Ha. destruct (N.eqb_spec a p) as [->|]; [contradiction|reflexivity].
Qed.
Lemma alive_other F oth fin m m' t n : alive F oth fin m t n -> (forall a, ~ oth a -> m' a = m a) -> alive F oth fin m' t n.
Proof.
  intros (mi & mf & R & I & C & Fi & Sub & Av) H. exists mi, mf. repeat split; auto.
  intros a b E. rewrite H; [apply Sub, E|]. apply Av. congruence.
Qed.
Lemma alive_access F oth fin m t n p w : alive F oth fin m t n -> access t = Some (p, w) -> ~ oth p /\ (w = true -> F p).
Proof.
  intros (mi & mf & R & I & C & Fi & Sub & Av) E. destruct t as [[]|q k|q v t|e]; cbn [access] in E; try discriminate E; injection E as <- <-.
  - split; [|discriminate]. apply Av. cbn [run] in R. unfold load in R. destruct (mi q); [discriminate|discriminate R].
  - split; [|intros _; apply I]. apply Av. cbn [run] in R. unfold store in R. destruct (mi q); [discriminate|discriminate R].
Qed.

Section Machine.
  Context (F : nat -> N -> Prop) (fin : nat -> mem -> Prop).
  Definition others (i : nat) (a : N) : Prop := exists j, j <> i /\ F j a.

  Definition inv (ts : list (prog unit)) (m : mem) (ns : list nat) : Prop :=
    length ns = length ts /\
    forall i t, nth_error ts i = Some t -> exists n, nth_error ns i = Some n /\ alive (F i) (others i) (fin i) m t n.

  Definition total (ns : list nat) : nat := fold_right Nat.add 0%nat ns.
  Lemma total_upd ns : forall i n, nth_error ns i = Some (S n) -> total ns = S (total (upd ns i n)).
  Proof.
    induction ns as [|x ns IH]; intros [|i] n E; cbn in *; try discriminate.
    - injection E as ->. reflexivity.
    - pose proof (IH i n E) as X. unfold total in X. lia.
  Qed.

  Lemma inv_step ts m ns i t t' m' : inv ts m ns -> nth_error ts i = Some t -> tstep t m t' m' ->
    exists ns', inv (upd ts i t') m' ns' /\ total ns = S (total ns') /\ (forall a, ~ F i a -> m' a = m a).
  Proof.
    intros [L A] E St. destruct (A i t E) as (n & En & Al). destruct (alive_after _ _ _ _ _ _ _ _ Al St) as (n' & -> & Al' & Fr).
    exists (upd ns i n'). split; [|split; [apply total_upd, En|exact Fr]]. split; [rewrite !upd_length; exact L|].
    intros j u. rewrite !nth_error_upd. assert (Li : (i < length ts)%nat) by (apply nth_error_Some; congruence).
    destruct (Nat.eqb_spec j i) as [->|Nj]; cbn [andb].
    - rewrite L. destruct (Nat.ltb_spec i (length ts)); [|lia]. intros Eu. injection Eu as <-. eauto.
    - intros Eu. destruct (A j u Eu) as (k & Ek & Ak). exists k. split; [exact Ek|]. eapply alive_other; [exact Ak|].
      intros a Ha. apply Fr. intros X. apply Ha. exists i. split; [congruence|exact X].
  Qed.
  Lemma inv_steps k ts m ts' m' : msteps k ts m ts' m' -> forall ns, inv ts m ns ->
    exists ns', inv ts' m' ns' /\ total ns = (k + total ns')%nat /\ length ts' = length ts /\ (forall a, (forall i, ~ F i a) -> m' a = m a).
  Proof.
    induction 1 as [ts m|k ts m i t t' m' ts2 m2 E St Ms IH]; intros ns Iv.
    - exists ns. auto.
    - destruct (inv_step _ _ _ _ _ _ _ Iv E St) as (ns1 & Iv1 & T & Fr). destruct (IH ns1 Iv1) as (ns2 & Iv2 & T2 & L2 & Fr2).
      exists ns2. split; [exact Iv2|]. split; [lia|]. split; [rewrite L2; apply upd_length|]. intros a Ha. rewrite Fr2 by exact Ha. apply Fr, Ha.
  Qed.
  Lemma inv_no_race ts m ns : inv ts m ns -> ~ race ts.
  Proof.
    intros [_ A] (i & j & t & u & p & w & w' & Nij & Ei & Ej & At & Au & W).
    destruct (A i t Ei) as (n & _ & Ai). destruct (A j u Ej) as (n' & _ & Aj).
    destruct (alive_access _ _ _ _ _ _ _ _ Ai At) as [X1 X2]. destruct (alive_access _ _ _ _ _ _ _ _ Aj Au) as [Y1 Y2].
    destruct w; [apply Y1; exists i; split; [exact Nij|auto]|]. destruct w'; [|discriminate W].
    apply X1. exists j. split; [congruence|auto].
  Qed.
  Lemma inv_progress ts m ns i t : inv ts m ns -> nth_error ts i = Some t -> t = Ret tt \/ exists t' m', tstep t m t' m'.
  Proof.
    intros [_ A] E. destruct (A i t E) as (n & _ & Al).
    assert (D : t = Ret tt \/ t <> Ret tt) by (destruct t as [[]| | |]; [left; reflexivity|right; discriminate..]).
    destruct D as [D|D]; [left; exact D|]. destruct (alive_step _ _ _ _ _ _ Al D) as (t' & m' & n' & St & _). right. eauto.
  Qed.
  Lemma inv_final ts m ns i : inv ts m ns -> nth_error ts i = Some (Ret tt) ->
    exists mf, fin i mf /\ forall a b, mf a = Some b -> m a = Some b.
  Proof.
    intros [_ A] E. destruct (A i _ E) as (n & _ & mi & mf & R & _ & _ & Fi & Sub & _). injection R as ->. eauto.
  Qed.
  (* a run can always be completed *)
  Lemma inv_complete N0 : forall ts m ns, inv ts m ns -> (total ns <= N0)%nat ->
    exists k ts' m', msteps k ts m ts' m' /\ Forall finished ts'.
  Proof.
    induction N0 as [|N0 IH]; intros ts m ns Iv T.
    - exists 0%nat, ts, m. split; [constructor|]. apply Forall_forall. intros t Ht. destruct (In_nth_error _ _ Ht) as [i E].
      destruct (inv_progress _ _ _ _ _ Iv E) as [D|(t' & m' & St)]; [exact D|].
      destruct (inv_step _ _ _ _ _ _ _ Iv E St) as (ns' & _ & X & _). lia.
    - assert (D : Forall finished ts \/ exists i t, nth_error ts i = Some t /\ t <> Ret tt).
      { clear. induction ts as [|t ts IH]; [left; constructor|]. destruct IH as [IH|(i & u & E & Nu)].
        - assert (Dt : t = Ret tt \/ t <> Ret tt) by (destruct t as [[]| | |]; [left; reflexivity|right; discriminate..]).
          destruct Dt as [Dt|Dt]; [left; constructor; assumption|right; exists 0%nat, t; auto].
        - right. exists (S i), u. auto. }
      destruct D as [D|(i & t & E & Nt)]; [exists 0%nat, ts, m; split; [constructor|exact D]|].
      destruct (inv_progress _ _ _ _ _ Iv E) as [D|(t' & m' & St)]; [contradiction|].
      destruct (inv_step _ _ _ _ _ _ _ Iv E St) as (ns' & Iv' & X & _). destruct (IH _ _ _ Iv' ltac:(lia)) as (k & ts' & m2 & Ms & Fi).
      exists (S k), ts', m2. split; [econstructor; eassumption|exact Fi].
  Qed.
End Machine.
