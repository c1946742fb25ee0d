(** HeapMachine.v -- proof of C47: all threads together. *)
From Verif Require Import Base Mem Spec ModelClassical ModelBsWord ModelBsAlgo ApiSpec BsApiSpec BsFacts BsApiFacts BsMoreFacts ModelAlloc HistorySpec History ThreadSpec Threads
  ModelSteps StepsFacts StepsSpec StepsMachine Steps HeapSpec Heap.
Local Open Scope N_scope.

(** ** Lists in which one element gets smaller *)
Section Lists.
  Context {A : Type} (R : A -> A -> Prop).
  Definition one (l' l : list A) : Prop := exists i x y, nth_error l i = Some x /\ R y x /\ l' = upd l i y.
  Lemma one_wf l : Forall (Acc R) l -> Acc one l.
  Proof.
    induction 1 as [|x l wf _ IH]; [constructor; intros l' (i & x & y & E & _); destruct i; discriminate E|].
    revert x wf. induction IH as [l Hl IHl]. intros x wf. induction wf as [x Hx IHx].
    constructor. intros l' ([|i] & z & y & E & Ry & ->); cbn [nth_error upd] in *.
    - injection E as <-. apply IHx, Ry.
    - apply IHl; [exists i, z, y; auto|]. constructor. exact Hx.
  Qed.
End Lists.

Section All.
  Context (c : build) (pl : platform) (ma : N) (sh : N -> bool).
  Hypothesis (Sp : supported c) (Ni : no_int_product c).
  Hypothesis (Al : have_mm_malloc pl = true \/ have_posix_memalign pl = true \/ ma mod word_size c = 0).
  Context (X : nat -> code * lstate) (rm : mem).
  Notation local := (local c pl sh). Notation owned_by := (owned_by c sh).

  (** ** One thread: it can go on, without fault, and touches only what is its own *)
  Lemma local_next x0 t g : fine c sh x0 -> local x0 t g -> idle t -> todo t <> Done -> exists y, lstep c sh (todo t, gl g) y.
  Proof. intros Fi L _ N. destruct (Fi _ _ (lc_path _ _ _ _ _ _ L)) as [D|D]; [contradiction|exact D]. Qed.
  Lemma free_block x0 t g st o k s' : local x0 t g -> sub g st -> astep c o (seen (gl g)) s' -> allowed c sh (gl g) o -> o = KeyFree k \/ o = BsFree k ->
    k = 0 \/ exists x v, actx (seen (gl g)) k = Some (x, v) /\ blocks st k = Some (api_family pl x, api_size c x) /\ sh k = false /\ 0 < k /\
      (o = KeyFree k /\ x = Classical \/ o = BsFree k /\ x = Bitslice).
  Proof.
    intros L S A [P _] Ho.
    assert (G : forall x v, actx (seen (gl g)) k = Some (x, v) -> blocks st k = Some (api_family pl x, api_size c x) /\ 0 < k).
    { intros x v E. destruct (rf_ctx _ _ _ _ (lc_ref _ _ _ _ _ _ L) k x v E) as [C1 _ _ C4 _ _]. split; [apply (sb_blk _ _ S), C4|exact C1]. }
    destruct Ho as [-> | ->]; inversion A; subst; try (left; reflexivity); right.
    - exists Classical, v. destruct (G _ _ H1). auto 8.
    - exists Bitslice, v. destruct (G _ _ H1). auto 8.
  Qed.
  Lemma local_safe x0 t g st : fine c sh x0 -> local x0 t g -> sub g st -> ~ faulty c pl ma t st /\ (ended t \/ exists t' st', hstep c pl ma t st t' st').
  Proof.
    intros Fi L S. pose proof (lc_run _ _ _ _ _ _ L) as Er. destruct t as [d k]. cbn [doing] in Er. unfold faulty, ended. cbn [doing todo].
    destruct d as [[]|p r|p v d|e]; cbn [run] in Er.
    - injection Er as Em.
      assert (Nx : k <> Done -> exists y, lstep c sh (k, gl g) y) by (apply (local_next x0 (mk_tstate (Ret tt) k) g Fi L eq_refl)).
      destruct k as [|o k|a k|x k|n k|p n k].
      + split; [exact (fun H => H)|left; auto].
      + destruct (Nx ltac:(discriminate)) as [y Hy]. inversion Hy as [o' k' l' s' Aw As| | | | | |]; subst.
        assert (Call : no_alloc o -> ~ match o with KeyAlloc _ | BsAlloc _ => True | _ => is_free o /\ (forall st', step c pl o st <> Ok st') end /\
          (Ret tt = Ret tt /\ Do o k = Done \/ exists t' st', hstep c pl ma (mk_tstate (Ret tt) (Do o k)) st t' st')).
        { intros Na. split; [destruct o; cbn in *; tauto|right; do 2 eexists; apply h_start, Na]. }
        assert (Fre : is_free o -> (exists st', step c pl o st = Ok st') -> ~ match o with KeyAlloc _ | BsAlloc _ => True | _ => is_free o /\ (forall st', step c pl o st <> Ok st') end /\
          (Ret tt = Ret tt /\ Do o k = Done \/ exists t' st', hstep c pl ma (mk_tstate (Ret tt) (Do o k)) st t' st')).
        { intros If [st' E]. split; [destruct o; cbn in If; try contradiction; intros [_ F]; exact (F st' E)|].
          right. do 2 eexists. eapply h_free; [exact If|exact E]. }
        destruct o as [a bs|o|j|cwp j|enc j data len|o|j|kj cwp j|enc jk j pcks maxlen]; try (apply Call; exact I); try (destruct (proj1 Aw)); apply Fre; try exact I.
        * cbn [step]. unfold dvbcsa_key_free. destruct (free_block _ _ _ _ _ j _ L S As Aw (or_introl eq_refl)) as [->|(x & v & _ & B & _ & _ & [[_ ->]|[Q _]])]; [exists st; reflexivity| |discriminate Q].
          apply (release_ok Free st j _ B).
        * cbn [step]. unfold dvbcsa_bs_key_free. destruct (free_block _ _ _ _ _ j _ L S As Aw (or_intror eq_refl)) as [->|(x & v & _ & B & _ & _ & [[Q _]|[_ ->]])]; [exists st; reflexivity|discriminate Q|].
          apply (release_ok (bs_family pl) st j _ B).
      + destruct (Nx ltac:(discriminate)) as [y Hy]. inversion Hy as [|a' k' l' b Eu| | | | |]; subst.
        apply (user_mem _ _ _ _ _ _ (lc_ref _ _ _ _ _ _ L)) in Eu. cbn [smem] in Eu. rewrite <- Em in Eu. apply (sb_mem _ _ S) in Eu.
        split; [congruence|]. right. do 2 eexists. apply h_look, Eu.
      + split.
        * intros (l & G & F). destruct (new_ok c pl ma sh Al x l st G) as [r E]. exact (F r E).
        * right. assert (G : good_libc c ma st (fun _ => None)) by (intros r _; exact I).
          destruct (new_ok c pl ma sh Al x _ st G) as [[st' p] E]. do 2 eexists. eapply h_new; eassumption.
      + split; [exact (fun H => H)|]. right. do 2 eexists. apply h_buf_none.
      + destruct (Nx ltac:(discriminate)) as [y Hy]. inversion Hy as [| | | | | |p' n' k' l' Wr']; subst.
        assert (M : mapped (smem st) p n).
        { intros a Ha. destruct (Wr' a Ha) as [U _]. destruct (user (seen (gl g)) a) as [b|] eqn:Eu; [|contradiction].
          apply (user_mem _ _ _ _ _ _ (lc_ref _ _ _ _ _ _ L)) in Eu. cbn [smem] in Eu. rewrite <- Em in Eu. apply (sb_mem _ _ S) in Eu. eauto. }
        split; [tauto|]. right. destruct st as [m b]. do 2 eexists. apply h_drop, M.
    - unfold load in Er. destruct (gm g p) as [v|] eqn:E; [|discriminate Er]. apply (sb_mem _ _ S) in E. split; [congruence|]. right. destruct st as [m b].
      do 2 eexists. apply h_access, ts_rd, E.
    - unfold store in Er. destruct (gm g p) as [w|] eqn:E; [|discriminate Er]. apply (sb_mem _ _ S) in E. split; [congruence|]. right. destruct st as [m b].
      do 2 eexists. apply h_access. eapply ts_wr, E.
    - destruct e; discriminate Er.
  Qed.
  Lemma local_touch x0 t g st a w : fine c sh x0 -> local x0 t g -> sub g st -> next_touch st t a w -> gm g a <> None /\ (w = true -> owned_by (gl g) a).
  Proof.
    intros Fi L S H. pose proof (lc_run _ _ _ _ _ _ L) as Er. pose proof (lc_in _ _ _ _ _ _ L) as Hi.
    assert (Own : owned_by (gl g) a -> gm g a <> None /\ (w = true -> owned_by (gl g) a)) by (intros O; split; [eapply local_owned; eassumption|auto]).
    destruct t as [d k]. unfold next_touch in H. cbn [doing todo] in *.
    destruct d as [[]|p r|p v d|e]; cbn [run inside] in *.
    - injection Er as Em.
      assert (Nx : k <> Done -> exists y, lstep c sh (k, gl g) y) by (apply (local_next x0 (mk_tstate (Ret tt) k) g Fi L eq_refl)).
      destruct k as [|o k|p k|x k|n k|p n k]; try contradiction; destruct (Nx ltac:(discriminate)) as [y Hy].
      + inversion Hy as [o' k' l' s' Aw As| | | | | |]; subst.
        assert (G : forall j, (o = KeyFree j \/ o = BsFree j) -> w = true /\ j <> 0 /\ (exists f n, blocks st j = Some (f, n) /\ j <= a < j + n) ->
          gm g a <> None /\ (w = true -> owned_by (gl g) a)).
        { intros j Ho (_ & Nj & f & n & B & Hr). destruct (free_block _ _ _ _ _ j _ L S As Aw Ho) as [->|(x & v & Ej & B' & Sj & _)]; [contradiction|].
          apply Own. right. exists j, x, v. split; [exact Ej|]. split; [exact Sj|]. rewrite B in B'. injection B' as _ <-. exact Hr. }
        destruct o; try contradiction; (eapply G; [|exact H]; auto).
      + inversion Hy as [|a' k' l' b Eu| | | | |]; subst. destruct H as [-> ->]. split; [|discriminate].
        apply (user_mem _ _ _ _ _ _ (lc_ref _ _ _ _ _ _ L)) in Eu. cbn [smem] in Eu. congruence.
      + inversion Hy as [| | | | | |p' n' k' l' Wr']; subst. apply Own. left. apply Wr', H.
    - destruct H as [-> ->]. split; [|discriminate]. unfold load in Er. destruct (gm g p); [discriminate|discriminate Er].
    - destruct H as [-> ->]. apply Own, Hi.
    - contradiction.
  Qed.

  (** ** All threads *)
  Record hinv (x : config) (g : nat -> ghost) : Prop := {
    hi_fine : forall i t, nth_error (fst x) i = Some t -> fine c sh (X i);
    hi_loc : forall i t, nth_error (fst x) i = Some t -> local (X i) t (g i);
    hi_sub : forall i t, nth_error (fst x) i = Some t -> sub (g i) (snd x);
    hi_sep : forall i j t u a, i <> j -> nth_error (fst x) i = Some t -> nth_error (fst x) j = Some u -> owned_by (gl (g i)) a -> gm (g j) a = None;
    hi_rest : forall a b, rm a = Some b -> smem (snd x) a = Some b;
    hi_rest' : forall i t a, nth_error (fst x) i = Some t -> owned_by (gl (g i)) a -> rm a = None }.
  Lemma hinv_step x y g i : hinv x g -> goes_by c pl ma i x y -> exists g' t t', hinv y g' /\ (forall j, j <> i -> g' j = g j) /\
    nth_error (fst x) i = Some t /\ fst y = upd (fst x) i t' /\ less c sh (measure t' (g' i)) (measure t (g i)) /\
    (~ idle t -> (snd (measure t' (g' i)) < snd (measure t (g i)))%nat).
  Proof.
    intros I G. destruct G as [ts st t t' st' Ei H]. cbn [fst snd] in *.
    destruct (thread_step c pl ma sh Sp Ni Al (X i) t (g i) st t' st' (hi_fine _ _ I i t Ei) (hi_loc _ _ I i t Ei) (hi_sub _ _ I i t Ei) H) as (gi & L & S & F & Le & Le').
    assert (Li : (i < length ts)%nat) by (apply nth_error_Some; congruence).
    set (g' := fun j => if (j =? i)%nat then gi else g j).
    assert (Gi : g' i = gi) by (unfold g'; rewrite Nat.eqb_refl; reflexivity).
    assert (Gj : forall j, j <> i -> g' j = g j) by (intros j Nj; unfold g'; destruct (Nat.eqb_spec j i); [contradiction|reflexivity]).
    assert (At_i : nth_error (upd ts i t') i = Some t') by (rewrite nth_error_upd, Nat.eqb_refl; destruct (Nat.ltb_spec i (length ts)); [reflexivity|lia]).
    assert (At_j : forall j, j <> i -> nth_error (upd ts i t') j = nth_error ts j) by (intros j Nj; rewrite nth_error_upd; destruct (Nat.eqb_spec j i); [contradiction|reflexivity]).
    assert (Keep : forall j u, j <> i -> nth_error ts j = Some u -> forall a b, gm (g j) a = Some b -> smem st' a = Some b).
    { intros j u Nj Ej a b E. pose proof (sb_mem _ _ (hi_sub _ _ I j u Ej) a b E) as Q. cbn [snd] in Q. destruct (fr_mem _ _ _ _ _ _ F a) as [Z|[Z|Z]].
      - rewrite Z. exact Q.
      - rewrite (hi_sep _ _ I i j t u a (not_eq_sym Nj) Ei Ej Z) in E. discriminate E.
      - congruence. }
    exists g', t, t'. split; [|split; [exact Gj|split; [exact Ei|split; [reflexivity|rewrite Gi; split; assumption]]]].
    - constructor; cbn [fst snd].
      + intros j u Ej. destruct (Nat.eq_dec j i) as [->|Nj]; [eapply hi_fine; eassumption|rewrite At_j in Ej by exact Nj; eapply hi_fine; eassumption].
      + intros j u Ej. destruct (Nat.eq_dec j i) as [->|Nj]; [rewrite At_i in Ej; injection Ej as <-; rewrite Gi; exact L|].
        rewrite At_j in Ej by exact Nj. rewrite Gj by exact Nj. apply (hi_loc _ _ I j u Ej).
      + intros j u Ej. destruct (Nat.eq_dec j i) as [->|Nj]; [rewrite Gi; exact S|].
        rewrite At_j in Ej by exact Nj. rewrite Gj by exact Nj. constructor; [apply (Keep j u Nj Ej)|].
        intros k v E. pose proof (sb_blk _ _ (hi_sub _ _ I j u Ej) k v E) as Q. cbn [snd] in Q. destruct (fr_blk _ _ _ _ _ _ F k) as [Z|[Z|Z]].
        * rewrite Z. exact Q.
        * exfalso. apply (local_block c pl sh _ _ _ k v (hi_loc _ _ I j u Ej) E). exact (hi_sep _ _ I i j t u k (not_eq_sym Nj) Ei Ej Z).
        * congruence.
      + intros j k u w a Njk Ej Ek O. destruct (Nat.eq_dec j i) as [->|Nj].
        * rewrite Gi in O. rewrite At_j in Ek by congruence. rewrite Gj by congruence. destruct (fr_own _ _ _ _ _ _ F a O) as [Z|Z].
          -- exact (hi_sep _ _ I i k t w a Njk Ei Ek Z).
          -- destruct (gm (g k) a) as [b|] eqn:E; [|reflexivity]. apply (sb_mem _ _ (hi_sub _ _ I k w Ek)) in E. cbn [snd] in E. congruence.
        * rewrite Gj in O by exact Nj. rewrite At_j in Ej by exact Nj. destruct (Nat.eq_dec k i) as [->|Nk].
          -- rewrite Gi. destruct (gm gi a) as [b|] eqn:E; [|reflexivity]. exfalso.
             destruct (fr_dom _ _ _ _ _ _ F a ltac:(congruence)) as [Z|Z]; [apply Z, (hi_sep _ _ I j i u t a Nj Ej Ei O)|].
             pose proof (local_owned c pl sh _ _ _ a (hi_loc _ _ I j u Ej) O) as W. destruct (gm (g j) a) as [b'|] eqn:E'; [|contradiction].
             apply (sb_mem _ _ (hi_sub _ _ I j u Ej)) in E'. cbn [snd] in E'. congruence.
          -- rewrite Gj by exact Nk. rewrite At_j in Ek by exact Nk. exact (hi_sep _ _ I j k u w a Njk Ej Ek O).
      + intros a b E. pose proof (hi_rest _ _ I a b E) as Q. cbn [snd] in Q. destruct (fr_mem _ _ _ _ _ _ F a) as [Z|[Z|Z]]; [rewrite Z; exact Q| |congruence].
        rewrite (hi_rest' _ _ I i t a Ei Z) in E. discriminate E.
      + intros j u a Ej O. destruct (Nat.eq_dec j i) as [->|Nj].
        * rewrite Gi in O. destruct (fr_own _ _ _ _ _ _ F a O) as [Z|Z]; [exact (hi_rest' _ _ I i t a Ei Z)|].
          destruct (rm a) as [b|] eqn:E; [|reflexivity]. apply (hi_rest _ _ I) in E. cbn [snd] in E. congruence.
        * rewrite Gj in O by exact Nj. rewrite At_j in Ej by exact Nj. exact (hi_rest' _ _ I j u a Ej O).
  Qed.
  Definition measures (ts : list tstate) (g : nat -> ghost) (ns : list ((code * lstate) * nat)) : Prop :=
    length ns = length ts /\ forall i t, nth_error ts i = Some t -> nth_error ns i = Some (measure t (g i)).
  Lemma measures_exist ts : forall g, exists ns, measures ts g ns.
  Proof.
    induction ts as [|t ts IH]; intros g; [exists []; split; [reflexivity|intros [|i] t E; discriminate E]|].
    destruct (IH (fun i => g (S i))) as (ns & L & M). exists (measure t (g 0%nat) :: ns). split; [cbn; congruence|].
    intros [|i] u E; cbn [nth_error] in *; [congruence|apply M, E].
  Qed.
  Lemma hinv_acc ns : Acc (one (less c sh)) ns -> forall x g, hinv x g -> measures (fst x) g ns -> Acc (fun y x => goes c pl ma x y) x.
  Proof.
    induction 1 as [ns _ IH]. intros x g I [Ln Ms]. constructor. intros y [i G].
    destruct (hinv_step x y g i I G) as (g' & t & t' & I' & Gj & Et & Ey & Le & _).
    apply (IH (upd ns i (measure t' (g' i)))) with (g := g'); [|exact I'|].
    - exists i, (measure t (g i)), (measure t' (g' i)). split; [apply Ms, Et|]. split; [exact Le|reflexivity].
    - rewrite Ey. split; [rewrite !upd_length; exact Ln|]. intros j u Ej. rewrite nth_error_upd in Ej. rewrite nth_error_upd, Ln. destruct (Nat.eqb_spec j i) as [->|Nj]; cbn [andb] in *.
      + destruct (Nat.ltb_spec i (length (fst x))); [assert (t' = u) by congruence; subst u; reflexivity|]. assert (Q : nth_error (fst x) i <> None) by congruence. apply nth_error_Some in Q. lia.
      + rewrite Gj by exact Nj. apply Ms, Ej.
  Qed.
  Lemma hinv_ends x g : hinv x g -> (forall i t, nth_error (fst x) i = Some t -> ends c sh (X i)) -> Acc (fun y x => goes c pl ma x y) x.
  Proof.
    intros I En. destruct (measures_exist (fst x) g) as [ns M]. eapply hinv_acc; [apply one_wf|exact I|exact M].
    apply Forall_forall. intros z Iz. apply In_nth_error in Iz as [i Ei]. destruct M as [Ln Ms].
    destruct (nth_error (fst x) i) as [t|] eqn:Et; [|apply nth_error_None in Et; assert (Q : nth_error ns i <> None) by congruence; apply nth_error_Some in Q; lia].
    rewrite (Ms i t Et) in Ei. injection Ei as <-. apply less_wf.
    pose proof (lc_path _ _ _ _ _ _ (hi_loc _ _ I i t Et)) as P. specialize (En i t Et). clear - P En. unfold ends in *.
    induction P as [x|x y z P IH S]; [exact En|]. apply (Acc_inv (IH En) S).
  Qed.
  Lemma hinv_reaches x y : reaches c pl ma x y -> forall g, hinv x g -> exists g', hinv y g'.
  Proof.
    induction 1 as [x|x y z R IH [i G]]; intros g I; [eauto|]. destruct (IH g I) as [g' I'].
    destruct (hinv_step y z g' i I' G) as (g2 & _ & _ & I2 & _). eauto.
  Qed.
  Lemma hinv_busy i n x y : busy c pl ma i n x y -> forall g, hinv x g -> forall t, nth_error (fst x) i = Some t ->
    exists g' t', hinv y g' /\ nth_error (fst y) i = Some t' /\ (n + snd (measure t' (g' i)) <= snd (measure t (g i)))%nat.
  Proof.
    induction 1 as [x|n x y z j B IH Nj G|n x y z u B IH Eu Nu G]; intros g I t Et.
    - exists g, t. split; [exact I|]. split; [exact Et|]. lia.
    - destruct (IH g I t Et) as (g' & t' & I' & Et' & Le). destruct (hinv_step y z g' j I' G) as (g2 & w & w' & I2 & Gj & Ew & Ey & _).
      exists g2, t'. split; [exact I2|]. rewrite Ey, nth_error_upd, Gj by congruence. destruct (Nat.eqb_spec i j); [congruence|]. cbn [andb]. auto.
    - destruct (IH g I t Et) as (g' & t' & I' & Et' & Le). assert (t' = u) by congruence. subst t'.
      destruct (hinv_step y z g' i I' G) as (g2 & w & w' & I2 & Gj & Ew & Ey & Ls & Eq). assert (w = u) by congruence. subst w.
      specialize (Eq Nu). exists g2, w'. split; [exact I2|]. split.
      + rewrite Ey, nth_error_upd, Nat.eqb_refl. assert (Q : (i < length (fst y))%nat) by (apply nth_error_Some; congruence).
        destruct (Nat.ltb_spec i (length (fst y))); [reflexivity|lia].
      + lia.
  Qed.
  Lemma hinv_no_conflict x g : hinv x g -> ~ conflict x.
  Proof.
    intros I (i & j & t & u & a & w & w' & Nij & Ei & Ej & Ti & Tj & W).
    destruct (local_touch _ _ _ _ a w (hi_fine _ _ I i t Ei) (hi_loc _ _ I i t Ei) (hi_sub _ _ I i t Ei) Ti) as [Di Oi].
    destruct (local_touch _ _ _ _ a w' (hi_fine _ _ I j u Ej) (hi_loc _ _ I j u Ej) (hi_sub _ _ I j u Ej) Tj) as [Dj Oj].
    destruct w; [apply Dj, (hi_sep _ _ I i j t u a Nij Ei Ej), Oi; reflexivity|]. destruct w'; [|discriminate W].
    apply Di, (hi_sep _ _ I j i u t a (not_eq_sym Nij) Ej Ei), Oj. reflexivity.
  Qed.
  Lemma hinv_complete x : Acc (fun y x => goes c pl ma x y) x -> forall g, hinv x g -> exists y, reaches c pl ma x y /\ Forall ended (fst y).
  Proof.
    induction 1 as [x _ IH]. intros g I.
    assert (D : Forall ended (fst x) \/ exists i t, nth_error (fst x) i = Some t /\ ~ ended t).
    { clear. destruct x as [ts st]. cbn [fst]. induction ts as [|t ts IH]; [left; constructor|].
      assert (Dt : ended t \/ ~ ended t).
      { destruct t as [d k]. unfold ended. cbn. destruct d as [[]| | |]; try (right; intros [Q _]; discriminate Q).
        destruct k; try (right; intros [_ Q]; discriminate Q). left. auto. }
      destruct Dt as [Dt|Dt]; [|right; exists 0%nat, t; auto]. destruct IH as [IH|(i & u & E & Nu)]; [left; constructor; assumption|right; exists (S i), u; auto]. }
    destruct D as [D|(i & t & E & Nt)]; [exists x; split; [constructor|exact D]|].
    destruct (local_safe _ _ _ _ (hi_fine _ _ I i t E) (hi_loc _ _ I i t E) (hi_sub _ _ I i t E)) as [_ [Z|(t' & st' & H)]]; [contradiction|].
    assert (G : goes c pl ma x (upd (fst x) i t', st')) by (destruct x as [ts st]; cbn [fst] in *; exists i; econstructor; eassumption).
    destruct G as [i' G']. destruct (hinv_step _ _ g i' I G') as (g' & _ & _ & I' & _). assert (G : goes c pl ma x (upd (fst x) i t', st')) by (exists i'; exact G'). clear i' G'.
    destruct (IH _ G g' I') as (y & R & Fy). exists y. split; [|exact Fy].
    clear - R G. induction R as [y|x1 y z R IH G']; [econstructor; [constructor|exact G]|econstructor; [apply IH, G|exact G']].
  Qed.
End All.

Local Opaque covered.
(** ** From a common state *)
Section Begin.
  Context (c : build) (pl : platform) (s0 : astate) (st0 : state) (sh : N -> bool) (ths : list worker).
  Hypothesis (R0 : refines c pl s0 st0) (Sep : separated s0 sh ths).
  Notation view w := (own_view s0 sh w).
  Notation cov w := (covered c (seen (view w)) (fun _ => true)).

  Definition gm0 (w : worker) : mem := fun a => match user (seen (view w)) a with Some b => Some b | None => if cov w a then smem st0 a else None end.
  Definition gb0 (w : worker) : N -> option (family * N) := fun k => match actx (seen (view w)) k with Some _ => blocks st0 k | None => None end.

  Lemma view_user w a b : user (seen (view w)) a = Some b -> user s0 a = Some b /\ (may_read w a = true \/ may_write w a = true).
  Proof. cbn. destruct (may_read w a), (may_write w a); cbn; intros E; try discriminate E; auto. Qed.
  Lemma view_ctx w k v : actx (seen (view w)) k = Some v -> actx s0 k = Some v /\ (sh k = true \/ its_ctx w k = true).
  Proof. cbn. destruct (sh k), (its_ctx w k); cbn; intros E; try discriminate E; auto. Qed.
  Lemma view_fresh w k x v a : actx s0 k = Some (x, v) -> k <= a < k + api_size c x -> user (seen (view w)) a = None.
  Proof.
    intros E Hr. destruct (user (seen (view w)) a) as [b|] eqn:Eu; [|reflexivity]. apply view_user in Eu as [Eu _].
    rewrite (co_user _ _ _ _ _ _ _ (rf_ctx _ _ _ _ R0 k x v E) a Hr) in Eu. discriminate Eu.
  Qed.
  Lemma gm0_ctx w k x v : actx (seen (view w)) k = Some (x, v) -> same_inside k (api_size c x) (smem st0) (gm0 w).
  Proof.
    intros E a Ha. destruct (view_ctx _ _ _ E) as [E0 _]. unfold gm0. rewrite (view_fresh w k x v a E0 Ha).
    replace (cov w a) with true; [reflexivity|]. symmetry. apply covered_spec. exists k, x, v. auto.
  Qed.
  Lemma gm0_sub w a b : gm0 w a = Some b -> smem st0 a = Some b.
  Proof.
    unfold gm0. destruct (user (seen (view w)) a) as [b'|] eqn:E; [intros Q; injection Q as <-; apply view_user in E as [E _]; eapply user_mem; eassumption|].
    destruct (cov w a); [auto|discriminate].
  Qed.
  Lemma refines_view w : refines c pl (seen (view w)) (mk_state (gm0 w) (gb0 w)).
  Proof.
    constructor.
    - intros k x v E. destruct (view_ctx _ _ _ E) as [E0 _]. destruct (rf_ctx _ _ _ _ R0 k x v E0) as [C1 C2 C3 C4 C5 C6].
      pose proof (gm0_ctx w k x v E) as Si. constructor; cbn [smem blocks]; try assumption.
      + intros a Ha. apply (view_fresh w k x v a E0 Ha).
      + intros a Ha. rewrite (Si a Ha). apply C3, Ha.
      + unfold gb0. rewrite E. exact C4.
      + intros cw Ev. destruct (C6 cw Ev) as [L K]. split; [exact L|]. eapply keyed_frame; [exact K|exact Si].
    - intros k x v k' x' v' E E'. destruct (view_ctx _ _ _ E) as [E0 _]. destruct (view_ctx _ _ _ E') as [E0' _]. apply (rf_sep _ _ _ _ R0 _ _ _ _ _ _ E0 E0').
    - intros a Ha. cbn [smem]. unfold gm0. destruct (user (seen (view w)) a) as [b|] eqn:Eu; [reflexivity|].
      destruct (cov w a) eqn:Ca; [|reflexivity]. apply covered_spec in Ca as (k & x & v & _ & E & Hr). exfalso. exact (Ha k x v E Hr).
  Qed.
  Lemma local_start w : In w ths -> local c pl sh (its_code w, view w) (start w) (mk_ghost (gm0 w) (gb0 w) (view w) (gm0 w)).
  Proof.
    intros I. constructor; cbn [start doing todo gm gb gl gf run inside]; auto.
    - apply refines_view.
    - intros k E. unfold gb0. rewrite E. reflexivity.
    - intros k Sk. cbn. rewrite Sk. cbn. apply (sp_shared _ _ _ Sep k Sk).
    - constructor.
  Qed.
  Lemma sub_start w : sub (mk_ghost (gm0 w) (gb0 w) (view w) (gm0 w)) st0.
  Proof.
    constructor; cbn [gm gb]; [apply gm0_sub|]. intros k v. unfold gb0. destruct (actx (seen (view w)) k); [auto|discriminate].
  Qed.
  Lemma sep_start i j w u a : i <> j -> nth_error ths i = Some w -> nth_error ths j = Some u -> owned_by c sh (view w) a -> gm0 u a = None.
  Proof.
    intros Nij Ei Ej O. unfold gm0. destruct O as [[Us W]|(k & x & v & E & Sk & Hr)].
    - cbn [own_view writable] in W. destruct (sp_bytes _ _ _ Sep i j w u a Nij Ei Ej W) as [Z1 Z2].
      replace (user (seen (view u)) a) with (@None N) by (cbn; rewrite Z1, Z2; reflexivity).
      destruct (cov u a) eqn:Ca; [|reflexivity]. apply covered_spec in Ca as (k & x & v & _ & E & Hr). destruct (view_ctx _ _ _ E) as [E0 _].
      exfalso. apply Us. eapply view_fresh; eassumption.
    - destruct (view_ctx _ _ _ E) as [E0 V]. rewrite (view_fresh u k x v a E0 Hr).
      destruct (cov u a) eqn:Ca; [|reflexivity]. apply covered_spec in Ca as (k' & x' & v' & _ & E' & Hr'). destruct (view_ctx _ _ _ E') as [E0' V'].
      exfalso. destruct (N.eq_dec k k') as [<-|Nk].
      + destruct V as [V|V]; [congruence|]. destruct V' as [V'|V']; [congruence|]. rewrite (sp_ctx _ _ _ Sep i j w u k Nij Ei Ej V) in V'. discriminate V'.
      + exact (rf_sep _ _ _ _ R0 k x v k' x' v' E0 E0' Nk a (conj Hr Hr')).
  Qed.

  Definition taken (a : N) : bool :=
    existsb (fun w => may_write w a && (match user s0 a with Some _ => true | None => false end) || covered c s0 (fun k => its_ctx w k && negb (sh k)) a) ths.
  Lemma taken_owned w a : In w ths -> owned_by c sh (view w) a -> taken a = true.
  Proof.
    intros I O. apply existsb_exists. exists w. split; [exact I|]. destruct O as [[Us W]|(k & x & v & E & Sk & Hr)].
    - destruct (user (seen (view w)) a) as [b|] eqn:Eu; [|contradiction]. apply view_user in Eu as [Eu _]. cbn [own_view writable] in W. rewrite W, Eu. reflexivity.
    - apply orb_true_iff. right. destruct (view_ctx _ _ _ E) as [E0 [V|V]]; [congruence|]. apply covered_spec. exists k, x, v. rewrite V, Sk. auto.
  Qed.
  Definition rm0 : mem := fun a => if taken a then None else smem st0 a.
  Lemma rest_user a : user s0 a <> None -> (forall w, In w ths -> may_write w a = false) -> rm0 a = smem st0 a.
  Proof.
    intros U W. unfold rm0. destruct (taken a) eqn:T; [|reflexivity]. exfalso. apply existsb_exists in T as (w & I & T).
    rewrite (W w I) in T. cbn [andb orb] in T. apply covered_spec in T as (k & x & v & _ & E & Hr). apply U. apply (co_user _ _ _ _ _ _ _ (rf_ctx _ _ _ _ R0 k x v E) a Hr).
  Qed.
  Lemma rest_ctx k x v a : actx s0 k = Some (x, v) -> (forall w, In w ths -> its_ctx w k = false) -> k <= a < k + api_size c x -> rm0 a = smem st0 a.
  Proof.
    intros E W Hr. unfold rm0. destruct (taken a) eqn:T; [|reflexivity]. exfalso. apply existsb_exists in T as (w & I & T).
    rewrite (co_user _ _ _ _ _ _ _ (rf_ctx _ _ _ _ R0 k x v E) a Hr), andb_false_r in T. cbn [orb] in T.
    apply covered_spec in T as (k' & x' & v' & S' & E' & Hr'). apply andb_true_iff in S' as [S' _].
    destruct (N.eq_dec k k') as [<-|Nk]; [rewrite (W w I) in S'; discriminate S'|].
    exact (rf_sep _ _ _ _ R0 k x v k' x' v' E E' Nk a (conj Hr Hr')).
  Qed.
End Begin.

Theorem programs c pl ma m os0 s0 ths sh :
  supported c -> no_int_product c ->
  have_mm_malloc pl = true \/ have_posix_memalign pl = true \/ ma mod word_size c = 0 ->
  asteps c os0 (no_ctx m) s0 -> separated s0 sh ths ->
  (forall w, In w ths -> fine c sh (its_code w, own_view s0 sh w)) ->
  exists st0, run_ops c pl os0 (no_heap m) = Ok st0 /\
    ((forall w, In w ths -> ends c sh (its_code w, own_view s0 sh w)) -> Acc (fun y x => goes c pl ma x y) (map start ths, st0)) /\
    forall ts st, reaches c pl ma (map start ths, st0) (ts, st) ->
      ~ conflict (ts, st) /\
      (forall i t, nth_error ts i = Some t -> ~ faulty c pl ma t st /\ (ended t \/ exists t' st', hstep c pl ma t st t' st')) /\
      (forall i w t, nth_error ths i = Some w -> nth_error ts i = Some t -> idle t ->
         exists l, lsteps c sh (its_code w, own_view s0 sh w) (todo t, l) /\
           forall a b, user (seen l) a = Some b -> smem st a = Some b) /\
      (forall a b, user s0 a = Some b -> (forall w, In w ths -> may_write w a = false) -> smem st a = Some b) /\
      (forall k x v, actx s0 k = Some (x, v) -> (forall w, In w ths -> its_ctx w k = false) -> same_inside k (api_size c x) (smem st0) (smem st)) /\
      (forall i t, nth_error ts i = Some t -> exists n, forall k y, busy c pl ma i k (ts, st) y -> (k <= n)%nat) /\
      ((forall w, In w ths -> ends c sh (its_code w, own_view s0 sh w)) -> exists y, reaches c pl ma (ts, st) y /\ Forall ended (fst y)).
Proof.
  intros Sp Ni Al A0 Sep Fi. destruct (run_refines c pl Sp Ni os0 _ _ _ (refines_start c pl m) A0) as (st0 & E0 & R0).
  exists st0. split; [exact E0|].
  set (dw := mk_worker (fun _ => false) (fun _ => false) (fun _ => false) Done).
  set (W := fun i => nth i ths dw). set (X := fun i => (its_code (W i), own_view s0 sh (W i))).
  set (g0 := fun i => mk_ghost (gm0 c s0 st0 sh (W i)) (gb0 s0 st0 sh (W i)) (own_view s0 sh (W i)) (gm0 c s0 st0 sh (W i))).
  assert (At : forall i t, nth_error (map start ths) i = Some t -> exists w, nth_error ths i = Some w /\ t = start w /\ W i = w).
  { intros i t E. rewrite nth_error_map in E. destruct (nth_error ths i) as [w|] eqn:Ei; [|discriminate E]. injection E as <-.
    exists w. split; [reflexivity|]. split; [reflexivity|]. unfold W. apply nth_error_nth, Ei. }
  assert (I0 : hinv c pl sh X (rm0 c s0 st0 sh ths) (map start ths, st0) g0).
  { constructor; cbn [fst snd].
    - intros i t E. destruct (At i t E) as (w & Ew & _ & Wi). unfold X. rewrite Wi. apply Fi. eapply nth_error_In, Ew.
    - intros i t E. destruct (At i t E) as (w & Ew & -> & Wi). unfold X, g0. rewrite Wi. eapply local_start; eauto. eapply nth_error_In, Ew.
    - intros i t E. apply (sub_start c pl); assumption.
    - intros i j t u a Nij Ei Ej O. destruct (At i t Ei) as (w & Ew & _ & Wi). destruct (At j u Ej) as (w' & Ew' & _ & Wj).
      unfold g0 in *. cbn [gl gm] in *. rewrite Wi in O. rewrite Wj. eapply (sep_start c pl); eassumption.
    - intros a b. unfold rm0. destruct (taken c s0 sh ths a); [discriminate|auto].
    - intros i t a E O. destruct (At i t E) as (w & Ew & _ & Wi). unfold g0 in O. cbn [gl] in O. rewrite Wi in O. unfold rm0.
      rewrite (taken_owned c s0 sh ths w a (nth_error_In _ _ Ew) O). reflexivity. }
  assert (Len : forall x, reaches c pl ma (map start ths, st0) x -> length (fst x) = length ths).
  { intros x Re. clear - Re. remember (map start ths, st0) as x0 eqn:Ex. induction Re as [|x y z R IH [i G]]; [subst; apply map_length|].
    destruct G. cbn [fst] in *. rewrite upd_length. apply IH, Ex. }
  assert (Le : (forall w, In w ths -> ends c sh (its_code w, own_view s0 sh w)) -> forall x, reaches c pl ma (map start ths, st0) x ->
    forall i t, nth_error (fst x) i = Some t -> ends c sh (X i)).
  { intros En x Re i t E. unfold X. apply En. apply nth_In. rewrite <- (Len x Re). apply nth_error_Some. congruence. }
  split; [intros En; eapply hinv_ends; try eassumption; apply (Le En _ (r_refl _ _ _ _))|]. intros ts st Re.
  destruct (hinv_reaches c pl ma sh Sp Ni Al X _ _ _ Re g0 I0) as [g I].
  split; [eapply hinv_no_conflict; eassumption|]. split; [|split; [|split; [|split; [|split]]]].
  - intros i t E. eapply (local_safe c pl ma sh Al); [eapply (hi_fine _ _ _ _ _ _ _ I i t E)|apply (hi_loc _ _ _ _ _ _ _ I i t E)|apply (hi_sub _ _ _ _ _ _ _ I i t E)].
  - intros i w t Ew E Id. pose proof (hi_loc _ _ _ _ _ _ _ I i t E) as L. exists (gl (g i)). split.
    + pose proof (lc_path _ _ _ _ _ _ L) as P. unfold X in P. replace (W i) with w in P; [exact P|]. unfold W. symmetry. apply nth_error_nth, Ew.
    + intros a b Eu. apply (sb_mem _ _ (hi_sub _ _ _ _ _ _ _ I i t E)). pose proof (lc_run _ _ _ _ _ _ L) as Er. rewrite Id in Er. cbn [run] in Er. injection Er as ->.
      exact (user_mem _ _ _ _ _ _ (lc_ref _ _ _ _ _ _ L) Eu).
  - intros a b Eu Wr. apply (hi_rest _ _ _ _ _ _ _ I). rewrite (rest_user c pl s0 st0 sh ths R0 a ltac:(congruence) Wr). eapply user_mem; eassumption.
  - intros k x v E Wc a Ha. pose proof (rest_ctx c pl s0 st0 sh ths R0 k x v a E Wc Ha) as Q.
    destruct (co_map _ _ _ _ _ _ _ (rf_ctx _ _ _ _ R0 k x v E) a Ha) as [b Eb]. rewrite Eb. apply (hi_rest _ _ _ _ _ _ _ I). congruence.
  - intros i t E. exists (snd (measure t (g i))). intros k y B. destruct (hinv_busy c pl ma sh Sp Ni Al X _ i k _ y B g I t E) as (g' & t' & _ & _ & Q). lia.
  - intros En. eapply hinv_complete; [| | | |exact I]; eauto. eapply hinv_ends; try eassumption. apply (Le En _ Re).
Qed.
