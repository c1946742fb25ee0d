(** Threads.v -- proof of C34. *)
From Verif Require Import Base Mem Spec ModelBsWord ModelBsAlgo ApiSpec BsApiSpec BsFacts BsApiFacts BsMoreFacts ModelAlloc HistorySpec History ThreadSpec.
Local Open Scope N_scope.

(* pointwise equality of abstract states *)
Definition aeq (s t : astate) : Prop := (forall a, user s a = user t a) /\ (forall k, actx s k = actx t k).
Lemma aeq_sym s t : aeq s t -> aeq t s. Proof. intros [H K]. split; intros; symmetry; auto. Qed.
Lemma aeq_trans s t u : aeq s t -> aeq t u -> aeq s u.
Proof. intros [H K] [H' K']. split; intros; [rewrite H; apply H'|rewrite K; apply K']. Qed.

Lemma refines_aeq c pl s t st : aeq s t -> refines c pl s st -> refines c pl t st.
Proof.
  intros [U K] R. constructor.
  - intros k x v E. rewrite <- K in E. destruct (rf_ctx _ _ _ _ R k x v E) as [C1 C2 C3 C4 C5 C6]. constructor; try assumption.
    intros y Hy. rewrite <- U. apply C2, Hy.
  - intros k x v k' x' v' E E' N. rewrite <- K in E. rewrite <- K in E'. eapply (rf_sep _ _ _ _ R); eassumption.
  - intros a Ha. rewrite <- U. apply (rf_user _ _ _ _ R). intros k x v E. apply (Ha k x v). rewrite <- K. exact E.
Qed.

(* the part of the state of one thread: s1 with addresses F, the rest of the state is s2 and rest *)
Record apart (c : build) (F sh : N -> bool) (s o : astate) : Prop := {
  (* s: user bytes and private contexts inside F *)
  ap_user : forall a b, user s a = Some b -> F a = true;
  ap_ctx : forall k x v a, actx s k = Some (x, v) -> sh k = false -> k <= a < k + api_size c x -> F a = true;
  (* o: outside F, except that shared contexts agree *)
  ap_user' : forall a b, user o a = Some b -> F a = false;
  ap_ctx' : forall k x v a, actx o k = Some (x, v) -> k <= a < k + api_size c x -> F a = false;
  ap_shared : forall k v, sh k = true -> actx s k = Some v -> actx o k = Some v }.

Definition over (s o : astate) : astate :=
  mk_astate (fun a => match user s a with Some b => Some b | None => user o a end)
            (fun k => match actx s k with Some v => Some v | None => actx o k end).

Lemma over_holds s o a l : holds (user s) a l -> holds (user (over s o)) a l.
Proof. intros [F H]. split; [exact F|]. intros i Hi. cbn. rewrite H by exact Hi. reflexivity. Qed.
Lemma over_mapped s o a n : mapped (user s) a n -> mapped (user (over s o)) a n.
Proof. intros H x Hx. destruct (H x Hx) as [b E]. exists b. cbn. rewrite E. reflexivity. Qed.
Lemma over_ctx s o k v : actx s k = Some v -> actx (over s o) k = Some v.
Proof. intros E. cbn. rewrite E. reflexivity. Qed.

Lemma over_put s o a l : aeq (set_user (over s o) (put (user (over s o)) a l)) (over (set_user s (put (user s) a l)) o).
Proof.
  split; [|reflexivity]. intros y. cbn [over set_user user]. unfold put.
  destruct ((a <=? y) && (y <? a + N.of_nat (length l))); reflexivity.
Qed.
Lemma over_write_all s o ps : aeq (set_user (over s o) (write_all (user (over s o)) ps)) (over (set_user s (write_all (user s) ps)) o).
Proof.
  split; [|reflexivity]. intros y. cbn [over set_user user].
  assert (G : forall ps (m u : mem), (forall y, m y = match u y with Some b => Some b | None => user o y end) ->
     write_all m ps y = match write_all u ps y with Some b => Some b | None => user o y end).
  { clear ps. induction ps as [|[p buf] ps IH]; intros m u H; cbn [write_all]; [apply H|]. apply IH. intros z. unfold put.
    destruct ((p <=? z) && (z <? p + N.of_nat (length buf))); [reflexivity|apply H]. }
  apply G. reflexivity.
Qed.
Lemma over_set s o k v : (v = None -> actx o k = None) -> aeq (set_ctx (over s o) k v) (over (set_ctx s k v) o).
Proof.
  intros H. split; [reflexivity|]. intros j. cbn. destruct (N.eqb_spec j k) as [->|]; [|reflexivity].
  destruct v; [reflexivity|]. symmetry. apply H. reflexivity.
Qed.

Lemma region_nonempty c k x : k <= k < k + api_size c x.
Proof. pose proof (api_size_pos c x). lia. Qed.

Section Frame.
  Context (c : build) (F sh : N -> bool).

  Lemma private_not_other s o k v : apart c F sh s o -> sh k = false -> actx s k = Some v -> actx o k = None.
  Proof.
    intros A N E. destruct v as [x v]. destruct (actx o k) as [[x' v']|] eqn:E'; [|reflexivity]. exfalso.
    pose proof (ap_ctx _ _ _ _ _ A k x v k E N (region_nonempty c k x)) as H.
    rewrite (ap_ctx' _ _ _ _ _ A k x' v' k E' (region_nonempty c k x')) in H. discriminate H.
  Qed.

  Lemma unused_over s o p n : apart c F sh s o -> unused c s p n -> (forall a, p <= a < p + n -> F a = true) -> unused c (over s o) p n.
  Proof.
    intros A [U K] I. split.
    - intros a Ha. cbn. rewrite (U a Ha). destruct (user o a) eqn:E; [|reflexivity]. exfalso.
      pose proof (ap_user' _ _ _ _ _ A a _ E) as X. rewrite (I a Ha) in X. discriminate X.
    - intros k x v E. cbn in E. destruct (actx s k) as [v'|] eqn:Es.
      + injection E as ->. apply (K k x v Es).
      + intros a [H1 H2]. pose proof (ap_ctx' _ _ _ _ _ A k x v a E H1) as X. rewrite (I a H2) in X. discriminate X.
  Qed.

  (* a step of the thread alone is a step in the whole state, and keeps the separation *)
  Lemma step_over o s s' t : polite c F sh o -> apart c F sh s t -> astep c o s s' ->
    (exists w, astep c o (over s t) w /\ aeq w (over s' t)) /\ apart c F sh s' t.
  Proof.
    intros P A St.
    assert (Keep : forall u, (forall a b, u a = Some b -> F a = true) -> apart c F sh (set_user s u) t).
    { intros u H. destruct A. constructor; assumption. }
    assert (Put : forall a l, mapped (user s) a (N.of_nat (length l)) -> forall y b, put (user s) a l y = Some b -> F y = true).
    { intros a l M y b. unfold put. destruct (N.leb_spec a y); destruct (N.ltb_spec y (a + N.of_nat (length l))); cbn [andb]; try apply (ap_user _ _ _ _ _ A).
      intros _. destruct (M y ltac:(lia)) as [b' Eb]. apply (ap_user _ _ _ _ _ A y b' Eb). }
    assert (Set_ : forall k v, sh k = false -> (forall x w, v = Some (x, w) -> forall a, k <= a < k + api_size c x -> F a = true) -> apart c F sh (set_ctx s k v) t).
    { intros k v N H. destruct A as [A1 A2 A3 A4 A5]. constructor; try assumption.
      - intros j x w a E Nj Ha. cbn in E. destruct (N.eqb_spec j k) as [->|]; [apply (H x w E a Ha)|apply (A2 j x w a E Nj Ha)].
      - intros j w Sj E. cbn in E. destruct (N.eqb_spec j k) as [->|]; [congruence|]. apply (A5 j w Sj E). }
    destruct St; cbn [polite] in P.
    - split; [|apply Keep, Put, H]. eexists. split; [apply a_write; [apply over_mapped, H|exact H0]|apply over_put].
    - split; [|exact A]. exists (over s t). split; [constructor|split; reflexivity].
    - destruct P as [P1 P2]. split; [|apply Set_; [exact P1|intros x w E; injection E as <- <-; exact P2]].
      eexists. split; [apply a_alloc; try assumption; eapply unused_over; eauto|]. apply over_set. discriminate.
    - split; [|exact A]. exists (over s t). split; [constructor|split; reflexivity].
    - destruct P as [P1 P2]. split; [|apply Set_; [exact P1|intros x w E; injection E as <- <-; exact P2]].
      eexists. split; [apply a_bs_alloc; try assumption; eapply unused_over; eauto|]. apply over_set. discriminate.
    - split; [|exact A]. exists (over s t). split; [constructor|split; reflexivity].
    - split; [|apply Set_; [exact P|discriminate]]. eexists. split; [eapply a_free; [assumption|apply over_ctx; eassumption]|]. apply over_set.
      intros _. eapply private_not_other; eauto.
    - split; [|exact A]. exists (over s t). split; [constructor|split; reflexivity].
    - split; [|apply Set_; [exact P|discriminate]]. eexists. split; [eapply a_bs_free; [assumption|apply over_ctx; eassumption]|]. apply over_set.
      intros _. eapply private_not_other; eauto.
    - split; [|apply Set_; [exact P|intros x w E; injection E as <- <-; intros a Ha; apply (ap_ctx _ _ _ _ _ A k _ v a H P Ha)]].
      eexists. split; [eapply a_key_set; [apply over_ctx; eassumption|eassumption|apply over_holds; eassumption]|]. apply over_set. discriminate.
    - split; [|apply Set_; [exact P|intros x w E; injection E as <- <-; intros a Ha; apply (ap_ctx _ _ _ _ _ A k _ v a H P Ha)]].
      eexists. split; [eapply a_bs_key_set; [apply over_ctx; eassumption|eassumption|apply over_holds; eassumption]|]. apply over_set. discriminate.
    - split; [|apply Keep, Put]. 2: { rewrite csa_length. apply (holds_mapped _ _ _ H0). }
      eexists. split; [eapply a_crypt; try eassumption; [apply over_ctx; eassumption|apply over_holds; eassumption]|apply over_put].
    - split.
      + eexists. split; [eapply a_bs_crypt; try eassumption; [apply over_ctx; eassumption|]|apply over_write_all].
        destruct H0 as [B1 B2]. constructor.
        * intros i p buf Ei. destruct (B1 i p buf Ei) as (X1 & X2 & X3 & X4 & X5 & X6).
          split; [exact X1|]. split; [exact X2|]. split; [apply over_holds, X3|]. split; [apply over_holds, X4|]. split; [apply over_holds, X5|exact X6].
        * apply over_holds, B2.
      + apply Keep.
        assert (G : forall ps u, (forall p buf, In (p, buf) ps -> mapped (user s) p (N.of_nat (length buf))) ->
          (forall a b, u a = Some b -> F a = true) -> forall a b, write_all u ps a = Some b -> F a = true).
        { clear H0 H1. clear ps. induction ps as [|[p buf] ps IH]; intros u M Hu; cbn [write_all]; [exact Hu|]. apply IH.
          - intros q b I. apply M. right. exact I.
          - intros a b. unfold put. destruct (N.leb_spec p a); destruct (N.ltb_spec a (p + N.of_nat (length buf))); cbn [andb]; try apply Hu.
            intros _. destruct (M p buf (or_introl eq_refl) a ltac:(lia)) as [b' Eb]. apply (ap_user _ _ _ _ _ A a b' Eb). }
        apply G; [|apply (ap_user _ _ _ _ _ A)]. intros p buf I. apply in_map_packets in I as (b & I & ->). rewrite on_prefix_length by (intros; apply csa_length).
        apply In_nth_error in I as [i Ei]. destruct (ba_entry _ _ _ _ H0 i p b Ei) as (_ & _ & X & _). apply (holds_mapped _ _ _ X).
  Qed.

  (* untouched: shared contexts of the thread never change *)
  Lemma step_shared o s s' k : polite c F sh o -> astep c o s s' -> sh k = true -> actx s' k = actx s k.
  Proof.
    intros P St Hk. destruct St; cbn [polite] in P; cbn [set_user set_ctx actx]; try reflexivity;
      try (apply proj1 in P); match goal with |- context [k =? ?j] => destruct (N.eqb_spec k j) as [->|]; [congruence|reflexivity] end.
  Qed.
End Frame.

Section Two.
  Context (c : build) (pl : platform) (F1 F2 sh : N -> bool).
  Hypothesis (Sp : supported c) (Ni : no_int_product c).
  Hypothesis (FD : forall a, ~ (F1 a = true /\ F2 a = true)).

  (* the whole state: thread 1, thread 2, the rest *)
  Record split3 (s1 s2 r : astate) : Prop := {
    s_1 : apart c F1 sh s1 (over s2 r);
    s_2 : apart c F2 sh s2 (over s1 r) }.

  Lemma over_swap s1 s2 r : split3 s1 s2 r -> aeq (over s1 (over s2 r)) (over s2 (over s1 r)).
  Proof.
    intros [A1 A2]. split.
    - intros a. cbn. destruct (user s1 a) eqn:E1; destruct (user s2 a) eqn:E2; try reflexivity. exfalso.
      apply (FD a). split; [apply (ap_user _ _ _ _ _ A1 a _ E1)|apply (ap_user _ _ _ _ _ A2 a _ E2)].
    - intros k. cbn. destruct (actx s1 k) as [v1|] eqn:E1; destruct (actx s2 k) as [v2|] eqn:E2; try reflexivity.
      destruct (sh k) eqn:Sk.
      + pose proof (ap_shared _ _ _ _ _ A1 k v1 Sk E1) as X. cbn in X. rewrite E2 in X. symmetry. exact X.
      + exfalso. destruct v1 as [x1 v1], v2 as [x2 v2]. apply (FD k). split.
        * exact (ap_ctx _ _ _ _ _ A1 k x1 v1 k E1 Sk (region_nonempty c k x1)).
        * exact (ap_ctx _ _ _ _ _ A2 k x2 v2 k E2 Sk (region_nonempty c k x2)).
  Qed.

  Lemma split_step o s1 s1' s2 r : polite c F1 sh o -> split3 s1 s2 r -> astep c o s1 s1' -> split3 s1' s2 r.
  Proof.
    intros P [A1 A2] St. pose proof (step_over c F1 sh o s1 s1' _ P A1 St) as [_ A1']. constructor; [exact A1'|].
    destruct A2 as [B1 B2 B3 B4 B5]. constructor; try assumption.
    - intros a b E. cbn in E. destruct (user s1' a) eqn:Ea.
      + pose proof (ap_user _ _ _ _ _ A1' a _ Ea) as X. destruct (F2 a) eqn:Y; [|reflexivity]. exfalso. exact (FD a (conj X Y)).
      + pose proof (ap_user' _ _ _ _ _ A1 a) as X1. cbn in X1.
        destruct (user s1 a) eqn:Es.
        * pose proof (ap_user _ _ _ _ _ A1 a _ Es) as X. destruct (F2 a) eqn:Y; [|reflexivity]. exfalso. exact (FD a (conj X Y)).
        * apply (B3 a b). cbn. rewrite Es. exact E.
    - intros k x v a E Ha. cbn in E. destruct (sh k) eqn:Sk.
      + rewrite (step_shared c F1 sh o s1 s1' k P St Sk) in E. apply (B4 k x v a); [exact E|exact Ha].
      + destruct (actx s1' k) as [v'|] eqn:Ek.
        * injection E as ->. pose proof (ap_ctx _ _ _ _ _ A1' k x v a Ek Sk Ha) as X. destruct (F2 a) eqn:Y; [|reflexivity]. exfalso. exact (FD a (conj X Y)).
        * destruct (actx s1 k) as [v''|] eqn:Ek1.
          -- exfalso. pose proof (private_not_other c F1 sh s1 (over s2 r) k v'' A1 Sk Ek1) as X. cbn in X.
             destruct (actx s2 k); congruence.
          -- apply (B4 k x v a); [cbn; rewrite Ek1; exact E|exact Ha].
    - intros k v Sk E. specialize (B5 k v Sk E). cbn in B5 |- *. rewrite (step_shared c F1 sh o s1 s1' k P St Sk). exact B5.
  Qed.

  Lemma step_in_all o s1 s1' s2 r st : polite c F1 sh o -> split3 s1 s2 r -> astep c o s1 s1' ->
    refines c pl (over s1 (over s2 r)) st -> exists st', step c pl o st = Ok st' /\ refines c pl (over s1' (over s2 r)) st'.
  Proof.
    intros P S St R. destruct (step_over c F1 sh o s1 s1' _ P (s_1 _ _ _ S) St) as [(w & Sw & Ew) _].
    destruct (step_refines c pl Sp Ni _ _ _ _ R Sw) as (st' & E & R'). exists st'. split; [exact E|]. eapply refines_aeq; eauto.
  Qed.
End Two.

Section Interleave.
  Context (c : build) (pl : platform) (F1 F2 sh : N -> bool).
  Hypothesis (Sp : supported c) (Ni : no_int_product c).
  Hypothesis (FD : forall a, ~ (F1 a = true /\ F2 a = true)).
  Lemma FD' : forall a, ~ (F2 a = true /\ F1 a = true). Proof. intros a [H1 H2]. exact (FD a (conj H2 H1)). Qed.

  Lemma split_swap s1 s2 r : split3 c F1 F2 sh s1 s2 r -> split3 c F2 F1 sh s2 s1 r.
  Proof. intros [A B]. constructor; assumption. Qed.
  Lemma split_swap' s1 s2 r : split3 c F2 F1 sh s2 s1 r -> split3 c F1 F2 sh s1 s2 r.
  Proof. intros [A B]. constructor; assumption. Qed.

  Theorem interleave os1 os2 os : interleaving os1 os2 os -> forall s1 s2 r s1' s2' st,
    Forall (polite c F1 sh) os1 -> Forall (polite c F2 sh) os2 -> split3 c F1 F2 sh s1 s2 r ->
    asteps c os1 s1 s1' -> asteps c os2 s2 s2' -> refines c pl (over s1 (over s2 r)) st ->
    exists st', run_ops c pl os st = Ok st' /\ refines c pl (over s1' (over s2' r)) st' /\ split3 c F1 F2 sh s1' s2' r.
  Proof.
    intros I. induction I as [|o os1 os2 os I IH|o os1 os2 os I IH]; intros s1 s2 r s1' s2' st P1 P2 S A1 A2 R.
    - inversion A1; inversion A2; subst. exists st. cbn. auto.
    - inversion A1 as [|? ? ? t ? B1 B2]; subst. inversion P1; subst.
      destruct (step_in_all c pl F1 F2 sh Sp Ni o s1 t s2 r st) as (st1 & E & R1); try assumption.
      pose proof (split_step c F1 F2 sh FD o s1 t s2 r ltac:(assumption) S B1) as S1.
      cbn [run_ops]. rewrite E. cbn [bind]. eapply IH; eauto.
    - inversion A2 as [|? ? ? t ? B1 B2]; subst. inversion P2; subst.
      apply (refines_aeq _ _ _ _ _ (over_swap c F1 F2 sh FD s1 s2 r S)) in R.
      destruct (step_in_all c pl F2 F1 sh Sp Ni o s2 t s1 r st) as (st1 & E & R1); try assumption; try (apply split_swap; assumption).
      pose proof (split_step c F2 F1 sh FD' o s2 t s1 r ltac:(assumption) (split_swap _ _ _ S) B1) as S1.
      apply (refines_aeq _ _ _ _ _ (over_swap c F2 F1 sh FD' t s1 r S1)) in R1.
      cbn [run_ops]. rewrite E. cbn [bind]. apply split_swap' in S1. eapply IH; eauto.
  Qed.
End Interleave.

(** ** From a partitioned state *)
Definition leftover (s : astate) (F1 F2 sh : N -> bool) : astate :=
  mk_astate (fun a => if F1 a || F2 a then None else user s a) (fun k => if sh k || F1 k || F2 k then None else actx s k).

Lemma view_split c s F1 F2 sh : partition c s F1 F2 sh -> split3 c F1 F2 sh (view s F1 sh) (view s F2 sh) (leftover s F1 F2 sh).
Proof.
  assert (G : forall F1 F2, partition c s F1 F2 sh -> apart c F1 sh (view s F1 sh) (over (view s F2 sh) (leftover s F1 F2 sh))).
  { clear F1 F2. intros F1 F2 [D S O1 O2]. constructor.
    - intros a b E. cbn in E. destruct (F1 a); [reflexivity|discriminate].
    - intros k x v a E N Ha. cbn in E. rewrite N in E. cbn in E. destruct (F1 k) eqn:Fk; [|discriminate]. rewrite (O1 k x v a E N Ha). exact Fk.
    - intros a b E. cbn in E. destruct (F1 a) eqn:Fa; [|reflexivity]. exfalso. destruct (F2 a) eqn:F2a; [exact (D a (conj Fa F2a))|].
      cbn in E. discriminate E.
    - intros k x v a E Ha. cbn in E. destruct (sh k) eqn:Sk; cbn in E.
      + destruct (actx s k) as [v'|] eqn:Ek; [|discriminate]. injection E as ->. apply (S k x v a Ek Sk Ha).
      + destruct (F1 a) eqn:Fa; [|reflexivity]. exfalso. destruct (actx s k) as [v'|] eqn:Ek.
        * destruct v' as [x' v']. assert (x' = x).
          { destruct (F2 k); [injection E; auto|]. destruct (F1 k); [discriminate|]. injection E; auto. }
          subst x'. rewrite (O1 k x v' a Ek Sk Ha) in Fa. destruct (F2 k) eqn:F2k; [exact (D k (conj Fa F2k))|]. rewrite Fa in E. discriminate E.
        * destruct (F1 k), (F2 k); discriminate E.
    - intros k v Sk E. cbn in E |- *. rewrite Sk in *. cbn in *. rewrite E. reflexivity. }
  intros P. constructor; [apply G, P|].
  assert (P' : partition c s F2 F1 sh).
  { destruct P as [D S O1 O2]. constructor; try assumption.
    - intros a [H1 H2]. exact (D a (conj H2 H1)).
    - intros k x v a E Sk Ha. destruct (S k x v a E Sk Ha). split; assumption. }
  pose proof (G F2 F1 P') as A. destruct A as [B1 B2 B3 B4 B5].
  assert (L : forall a, user (leftover s F2 F1 sh) a = user (leftover s F1 F2 sh) a) by (intros a; cbn; rewrite orb_comm; reflexivity).
  assert (L' : forall k, actx (leftover s F2 F1 sh) k = actx (leftover s F1 F2 sh) k)
    by (intros k; cbn; destruct (sh k), (F1 k), (F2 k); reflexivity).
  constructor; try assumption.
  - intros a b E. apply (B3 a b). rewrite <- E. cbn [over user]. rewrite L. reflexivity.
  - intros k x v a E. apply (B4 k x v a). rewrite <- E. cbn [over actx]. rewrite L'. reflexivity.
  - intros k v Sk E. rewrite <- (B5 k v Sk E). cbn [over actx]. rewrite L'. reflexivity.
Qed.

Lemma view_over s F1 F2 sh : aeq s (over (view s F1 sh) (over (view s F2 sh) (leftover s F1 F2 sh))).
Proof.
  split.
  - intros a. cbn. destruct (F1 a), (F2 a); cbn; destruct (user s a); reflexivity.
  - intros k. cbn. destruct (sh k), (F1 k), (F2 k); cbn; destruct (actx s k); reflexivity.
Qed.

Lemma interleaving_left {A} (xs : list A) : interleaving xs [] xs.
Proof. induction xs; constructor; assumption. Qed.
Lemma interleaving_right {A} (xs : list A) : interleaving [] xs xs.
Proof. induction xs; constructor; assumption. Qed.

Lemma run_app c pl os os' : forall st, run_ops c pl (os ++ os') st = (s <- run_ops c pl os st ;; run_ops c pl os' s).
Proof. induction os as [|o os IH]; intros st; cbn; [reflexivity|]. destruct (step c pl o st); cbn; auto. Qed.

Theorem threads c pl m os0 s0 F1 F2 sh os1 os2 os s1 s2 :
  supported c -> no_int_product c ->
  asteps c os0 (no_ctx m) s0 -> partition c s0 F1 F2 sh ->
  asteps c os1 (view s0 F1 sh) s1 -> Forall (polite c F1 sh) os1 ->
  asteps c os2 (view s0 F2 sh) s2 -> Forall (polite c F2 sh) os2 ->
  interleaving os1 os2 os ->
  exists st st1 st2,
    run_ops c pl (os0 ++ os) (no_heap m) = Ok st /\
    run_ops c pl (os0 ++ os1) (no_heap m) = Ok st1 /\
    run_ops c pl (os0 ++ os2) (no_heap m) = Ok st2 /\
    (forall a b, user s1 a = Some b -> smem st1 a = Some b /\ smem st a = Some b) /\
    (forall a b, user s2 a = Some b -> smem st2 a = Some b /\ smem st a = Some b) /\
    (forall a b, user s0 a = Some b -> F1 a = false -> F2 a = false -> smem st a = Some b).
Proof.
  intros Sp Ni A0 P A1 P1 A2 P2 I. pose proof (pt_disj _ _ _ _ _ P) as FD.
  destruct (run_refines c pl Sp Ni os0 _ _ _ (refines_start c pl m) A0) as (st0 & E0 & R0).
  apply (refines_aeq _ _ _ _ _ (view_over s0 F1 F2 sh)) in R0. pose proof (view_split c s0 F1 F2 sh P) as S.
  destruct (interleave c pl F1 F2 sh Sp Ni FD _ _ _ I _ _ _ _ _ _ P1 P2 S A1 A2 R0) as (st & E & R & Sx).
  destruct (interleave c pl F1 F2 sh Sp Ni FD _ _ _ (interleaving_left os1) _ _ _ _ _ _ P1 (Forall_nil _) S A1 (a_nil c _) R0) as (st1 & E1 & R1 & S1).
  destruct (interleave c pl F1 F2 sh Sp Ni FD _ _ _ (interleaving_right os2) _ _ _ _ _ _ (Forall_nil _) P2 S (a_nil c _) A2 R0) as (st2 & E2 & R2 & S2).
  exists st, st1, st2. rewrite !run_app, E0. cbn [bind]. split; [exact E|]. split; [exact E1|]. split; [exact E2|].
  split; [|split].
  - intros a b Ea. split; (eapply user_mem; [eassumption|]); cbn; rewrite Ea; reflexivity.
  - intros a b Ea. pose proof (ap_user _ _ _ _ _ (s_2 _ _ _ _ _ _ _ Sx) a b Ea) as X.
    assert (N1 : F1 a = false) by (destruct (F1 a) eqn:Y; [exfalso; exact (FD a (conj Y X))|reflexivity]).
    split; (eapply user_mem; [eassumption|]); cbn.
    + rewrite N1, Ea. reflexivity.
    + destruct (user s1 a) eqn:E1a; [|rewrite Ea; reflexivity]. pose proof (ap_user _ _ _ _ _ (s_1 _ _ _ _ _ _ _ Sx) a _ E1a). congruence.
  - intros a b Ea N1 N2. eapply user_mem; [eassumption|]. cbn.
    destruct (user s1 a) eqn:E1a; [pose proof (ap_user _ _ _ _ _ (s_1 _ _ _ _ _ _ _ Sx) a _ E1a); congruence|].
    destruct (user s2 a) eqn:E2a; [pose proof (ap_user _ _ _ _ _ (s_2 _ _ _ _ _ _ _ Sx) a _ E2a); congruence|].
    rewrite N1, N2. exact Ea.
Qed.
