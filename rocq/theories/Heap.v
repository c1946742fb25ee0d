(** Heap.v -- proof of C47. *)
From Verif Require Import Base Mem Spec ModelClassical ModelBsWord ModelBsAlgo ApiSpec BsApiSpec BsFacts BsApiFacts BsMoreFacts ModelAlloc HistorySpec History ThreadSpec Threads
  ModelSteps StepsFacts StepsSpec StepsMachine Steps HeapSpec.
Local Open Scope N_scope.

(** ** Facts about programs of byte accesses *)
Lemma run_dom {A} (t : prog A) : forall m a m', run t m = Ok (a, m') -> forall x, m' x = None <-> m x = None.
Proof.
  induction t as [a|p k IH|p v t IH|e]; intros m r m' E x; cbn [run] in E.
  - injection E as <- <-. reflexivity.
  - unfold load in E. destruct (m p); [|discriminate E]. eapply IH, E.
  - unfold store in E. destruct (m p) as [w|] eqn:Ep; [|discriminate E]. rewrite (IH _ _ _ E x). cbn beta.
    destruct (N.eqb_spec x p) as [->|]; [|reflexivity]. rewrite Ep. split; discriminate.
  - destruct e; discriminate E.
Qed.

(** ** What a thread owns *)
Section Own.
  Context (c : build) (pl : platform) (ma : N) (sh : N -> bool).
  Hypothesis (Sp : supported c) (Ni : no_int_product c).
  Hypothesis (Al : have_mm_malloc pl = true \/ have_posix_memalign pl = true \/ ma mod word_size c = 0).

  Definition owned_by (l : lstate) (a : N) : Prop :=
    user (seen l) a <> None /\ writable l a = true \/
    exists k x v, actx (seen l) k = Some (x, v) /\ sh k = false /\ k <= a < k + api_size c x.

  Lemma call_owned l o s' st : refines c pl (seen l) st -> astep c o (seen l) s' -> no_alloc o -> allowed c sh l o ->
    inside (owned_by l) (call_prog c o) (smem st).
  Proof.
    intros R A Na [P W]. remember (seen l) as s eqn:Es. destruct A; cbn [no_alloc] in Na; try contradiction; cbn [call_prog].
    - eapply only_inside. apply only_wr_bytes. intros x Hx. left. rewrite <- Es. split; [destruct (H x Hx) as [b ->]; discriminate|apply W; exact Hx].
    - eapply only_inside, only_sub; [|apply key_set_only]. intros x Hx. right. exists k, Classical, v. rewrite <- Es. auto.
    - eapply only_inside, only_sub; [|apply bs_key_set_only]. intros x Hx. right. exists k, Bitslice, v. rewrite <- Es. auto.
    - assert (S : forall x, range data len x -> owned_by l x).
      { intros x Hx. left. rewrite <- Es. split; [|apply W; exact Hx]. apply holds_mapped in H0. subst len. destruct (H0 x Hx) as [b ->]. discriminate. }
      destruct enc; (eapply only_inside, only_sub; [exact S|]); [apply encrypt_only; assumption|apply decrypt_only; assumption].
    - apply bs_crypt_inside with (ps := ps).
      + destruct H0 as [B1 B2]. constructor.
        * intros i p buf Ei. destruct (B1 i p buf Ei) as (X1 & X2 & X3 & X4 & X5 & X6).
          split; [exact X1|]. split; [exact X2|]. split; [eapply user_holds; eauto|]. split; [eapply user_holds; eauto|]. split; [eapply user_holds; eauto|exact X6].
        * eapply user_holds; eauto.
      + intros p buf x I Hx. left. rewrite <- Es. split.
        * apply In_nth_error in I as [i Ei]. destruct (ba_entry _ _ _ _ H0 i p buf Ei) as (_ & _ & X & _).
          apply holds_mapped in X. destruct (X x Hx) as [b ->]. discriminate.
        * apply W. exists ps, p, buf. auto.
  Qed.

  (* a call changes neither which bytes are there nor which contexts *)
  Lemma put_dom m a l x : mapped m a (N.of_nat (length l)) -> put m a l x = None <-> m x = None.
  Proof.
    intros M. destruct (N.leb_spec a x); [destruct (N.ltb_spec x (a + N.of_nat (length l)))|].
    - rewrite put_in by lia. destruct (M x ltac:(lia)) as [b ->]. split; discriminate.
    - rewrite put_out by lia. reflexivity.
    - rewrite put_out by lia. reflexivity.
  Qed.
  Lemma write_all_dom ps : forall m u x, (forall p buf, In (p, buf) ps -> mapped m p (N.of_nat (length buf))) ->
    (forall y, u y = None <-> m y = None) -> write_all u ps x = None <-> m x = None.
  Proof.
    induction ps as [|[p buf] ps IH]; intros m u x M U; cbn [write_all]; [apply U|]. apply (IH m).
    - intros q b I. apply M. right. exact I.
    - intros y. rewrite put_dom; [apply U|]. intros z Hz. destruct (M p buf (or_introl eq_refl) z Hz) as [b Eb].
      destruct (u z) eqn:E; [eauto|]. apply U in E. congruence.
  Qed.
  Lemma call_dom o s s' : astep c o s s' -> no_alloc o ->
    (forall a, user s' a = None <-> user s a = None) /\
    (forall k, match actx s k, actx s' k with Some (x, _), Some (x', _) => x = x' | None, None => True | _, _ => False end).
  Proof.
    assert (Same : forall s k, match actx s k, actx s k with Some (x, _), Some (x', _) => x = x' | None, None => True | _, _ => False end).
    { intros s0 k. destruct (actx s0 k) as [[x v]|]; auto. }
    intros A Na. destruct A; cbn [no_alloc] in Na; try contradiction; (split; [|try (exact (Same s))]); cbn [user set_user set_ctx]; try reflexivity.
    - intros x. apply put_dom, H.
    - intros j. cbn [actx set_ctx]. destruct (N.eqb_spec j k) as [->|]; [rewrite H; reflexivity|apply Same].
    - intros j. cbn [actx set_ctx]. destruct (N.eqb_spec j k) as [->|]; [rewrite H; reflexivity|apply Same].
    - intros x. apply put_dom. rewrite csa_length. apply holds_mapped, H0.
    - intros x. apply (write_all_dom _ (user s)); [|reflexivity]. intros p buf I. apply in_map_packets in I as (b & I & ->).
      rewrite on_prefix_length by (intros; apply csa_length). apply In_nth_error in I as [i Ei].
      destruct (ba_entry _ _ _ _ H0 i p b Ei) as (_ & _ & X & _). apply (holds_mapped _ _ _ X).
  Qed.
  Lemma owned_call l o s' a : astep c o (seen l) s' -> no_alloc o -> owned_by (mk_lstate s' (writable l)) a <-> owned_by l a.
  Proof.
    intros A Na. destruct (call_dom _ _ _ A Na) as [U K]. unfold owned_by. cbn [seen writable]. rewrite U. split; (intros [H|(k & x & v & E & S & Hr)]; [left; exact H|right]).
    - specialize (K k). rewrite E in K. destruct (actx (seen l) k) as [[x' v']|] eqn:E'; [|contradiction]. subst x'. eauto 7.
    - specialize (K k). rewrite E in K. destruct (actx s' k) as [[x' v']|] eqn:E'; [|contradiction]. subst x'. eauto 7.
  Qed.

  (** ** A thread in the middle of things *)
  Record ghost := mk_ghost { gm : mem; gb : N -> option (family * N); gl : lstate; gf : mem }.
  Record local (x0 : code * lstate) (t : tstate) (g : ghost) : Prop := {
    lc_run : run (doing t) (gm g) = Ok (tt, gf g);
    lc_in : inside (owned_by (gl g)) (doing t) (gm g);
    lc_ref : refines c pl (seen (gl g)) (mk_state (gf g) (gb g));
    lc_blocks : forall k, actx (seen (gl g)) k = None -> gb g k = None;
    lc_sh : forall k, sh k = true -> actx (seen (gl g)) k <> None;
    lc_path : lsteps c sh x0 (todo t, gl g) }.
  Record sub (g : ghost) (st : state) : Prop := {
    sb_mem : forall a b, gm g a = Some b -> smem st a = Some b;
    sb_blk : forall k v, gb g k = Some v -> blocks st k = Some v }.
  (* what a step of the thread may do to the rest of the world *)
  Record frame (g : ghost) (st : state) (g' : ghost) (st' : state) : Prop := {
    fr_mem : forall a, smem st' a = smem st a \/ owned_by (gl g) a \/ smem st a = None;
    fr_blk : forall k, blocks st' k = blocks st k \/ owned_by (gl g) k \/ blocks st k = None;
    fr_own : forall a, owned_by (gl g') a -> owned_by (gl g) a \/ smem st a = None;
    fr_dom : forall a, gm g' a <> None -> gm g a <> None \/ smem st a = None }.

  Lemma local_dom x0 t g : local x0 t g -> forall a, gf g a = None <-> gm g a = None.
  Proof. intros L. eapply run_dom, (lc_run _ _ _ L). Qed.
  Lemma local_owned x0 t g a : local x0 t g -> owned_by (gl g) a -> gm g a <> None.
  Proof.
    intros L O E. apply (local_dom _ _ _ L) in E. pose proof (lc_ref _ _ _ L) as R. destruct O as [[U _]|(k & x & v & Ek & _ & Hr)].
    - destruct (user (seen (gl g)) a) as [b|] eqn:Eu; [|contradiction]. apply (user_mem _ _ _ _ _ _ R) in Eu. cbn [smem] in Eu. congruence.
    - destruct (co_map _ _ _ _ _ _ _ (rf_ctx _ _ _ _ R k x v Ek) a Hr) as [b Eb]. cbn [smem] in Eb. congruence.
  Qed.
  Lemma local_block x0 t g k v : local x0 t g -> gb g k = Some v -> gm g k <> None.
  Proof.
    intros L E N. apply (local_dom _ _ _ L) in N. destruct (actx (seen (gl g)) k) as [[x w]|] eqn:Ek.
    - destruct (co_map _ _ _ _ _ _ _ (rf_ctx _ _ _ _ (lc_ref _ _ _ L) k x w Ek) k (region_nonempty c k x)) as [b Eb]. cbn [smem] in Eb. congruence.
    - rewrite (lc_blocks _ _ _ L k Ek) in E. discriminate E.
  Qed.

  Lemma release_form f s k s' : k <> 0 -> release f s k = Ok s' -> exists n, blocks s k = Some (f, n) /\
    s' = mk_state (erase (smem s) k n) (fun x => if x =? k then None else blocks s x).
  Proof.
    intros N E. unfold release in E. destruct (N.eqb_spec k 0); [contradiction|].
    destruct (blocks s k) as [[[] n']|] eqn:Eb; try discriminate E; destruct f; try discriminate E; exists n'; split; auto; injection E as <-; reflexivity.
  Qed.
  Lemma release_ok f s k n : blocks s k = Some (f, n) -> exists s', release f s k = Ok s'.
  Proof. intros E. unfold release. destruct (k =? 0); [eauto|]. rewrite E. destruct f; eauto. Qed.

  (* allocation *)
  Lemma new_cases x l st st' p : good_libc c ma st l -> new_context c pl x l st = Ok (st', p) ->
    p = 0 /\ st' = st \/
    exists r content, st' = fst (allocate st r (Some (p, content))) /\ 0 < p /\ N.of_nat (length content) = api_size c x /\ fresh (smem st) p (api_size c x) /\
      blocks st p = None /\ (x = Bitslice -> p mod word_size c = 0) /\ req_family r = api_family pl x /\ req_size r = api_size c x.
  Proof.
    intros G E.
    assert (H : forall r, legal c r -> req_family r = api_family pl x -> req_size r = api_size c x -> allocate st r (l r) = (st', p) ->
      (x = Bitslice -> p mod req_align ma r = 0 -> p mod word_size c = 0) ->
      p = 0 /\ st' = st \/ exists r content, st' = fst (allocate st r (Some (p, content))) /\ 0 < p /\ N.of_nat (length content) = api_size c x /\ fresh (smem st) p (api_size c x) /\
        blocks st p = None /\ (x = Bitslice -> p mod word_size c = 0) /\ req_family r = api_family pl x /\ req_size r = api_size c x).
    { intros r Lg Ef Es Ea Aw. specialize (G r Lg). destruct (l r) as [[q content]|]; cbn [fulfils] in G.
      - right. exists r, content. pose proof Ea as Ea'. cbn [allocate] in Ea'. injection Ea' as _ <-. rewrite Ea. destruct G as (G1 & G2 & G3 & G4 & G5 & G6).
        rewrite Es in *. repeat (split; [try assumption; try reflexivity; auto|]); auto.
      - left. cbn [allocate] in Ea. injection Ea as <- <-. auto. }
    destruct x; cbn [new_context] in E.
    - unfold dvbcsa_key_alloc in E. injection E as E. apply (H (Malloc ctx_size)); try reflexivity; [exact E|discriminate].
    - unfold dvbcsa_bs_key_alloc in E. destruct (have_mm_malloc pl) eqn:Emm; [|destruct (have_posix_memalign pl) eqn:Epm].
      + injection E as E. apply (H _ (mm_legal c)); cbn [api_family]; unfold bs_family; rewrite ?Emm; try reflexivity; [exact E|auto].
      + injection E as E. apply (H _ (memalign_legal c)); cbn [api_family]; unfold bs_family; rewrite ?Emm; try reflexivity; [exact E|]. intros _. apply memalign_word.
      + destruct Al as [A|[A|A]]; try discriminate A.
        destruct (allocate st (Malloc (bs_ctx_size c)) (l (Malloc (bs_ctx_size c)))) as [s1 q] eqn:Ea.
        destruct (have_assert c && negb (q mod word_size c =? 0)); [discriminate E|]. injection E as -> ->.
        apply (H (Malloc (bs_ctx_size c))); cbn [api_family]; unfold bs_family; rewrite ?Emm; try reflexivity; [apply bs_ctx_pos|exact Ea|].
        intros _. cbn [req_align]. intros Ep. assert (Hw : word_size c <> 0) by (destruct (word_size_pow c) as [k ->]; apply N.pow_nonzero; discriminate).
        destruct (N.eq_dec ma 0) as [->|Z0]; [destruct p; [apply N.mod_0_l, Hw|discriminate Ep]|].
        apply N.mod_divide; [exact Hw|]. eapply N.divide_trans; [apply N.mod_divide; [exact Hw|exact A]|apply N.mod_divide; assumption].
  Qed.
  Lemma new_ok x l st : good_libc c ma st l -> exists r, new_context c pl x l st = Ok r.
  Proof.
    intros G. destruct x; cbn [new_context]; [unfold dvbcsa_key_alloc; eauto|].
    destruct (bs_alloc_ok c pl l st ma G) as [(s' & p & E & _)|(_ & E1 & E2 & _ & E3)]; [tauto|eauto|].
    exfalso. destruct Al as [A|[A|A]]; congruence.
  Qed.

  Lemma erase_in m p n a : p <= a < p + n -> erase m p n a = None.
  Proof. intros H. unfold erase. destruct (N.leb_spec p a); destruct (N.ltb_spec a (p + n)); cbn [andb]; try lia. reflexivity. Qed.
  Lemma erase_out m p n a : ~ (p <= a < p + n) -> erase m p n a = m a.
  Proof. intros H. unfold erase. destruct (N.leb_spec p a); destruct (N.ltb_spec a (p + n)); cbn [andb]; try lia; reflexivity. Qed.
  Lemma in_dec (p n a : N) : p <= a < p + n \/ ~ (p <= a < p + n).
  Proof. lia. Qed.

  (* order on what is left to do *)
  Definition less (y x : (code * lstate) * nat) : Prop := lstep c sh (fst x) (fst y) \/ fst y = fst x /\ (snd y < snd x)%nat.
  Lemma less_wf x : ends c sh x -> forall n, Acc less (x, n).
  Proof.
    intros H. induction H as [x _ IHx]. induction n as [n IHn] using (well_founded_induction Wf_nat.lt_wf).
    constructor. intros [y n'] [S|[E L]]; cbn [fst snd] in *; [apply IHx, S|]. subst y. apply IHn, L.
  Qed.
  Definition measure (t : tstate) (g : ghost) : (code * lstate) * nat := ((todo t, gl g), cost (doing t) (gm g)).

  Lemma lsteps_next x0 y l : lsteps c sh x0 y -> lstep c sh y l -> lsteps c sh x0 l.
  Proof. intros. econstructor; eassumption. Qed.

  (* one step of one thread *)
  Lemma thread_step x0 t g st t' st' : fine c sh x0 -> local x0 t g -> sub g st -> hstep c pl ma t st t' st' ->
    exists g', local x0 t' g' /\ sub g' st' /\ frame g st g' st' /\ less (measure t' g') (measure t g) /\
      (~ idle t -> (snd (measure t' g') < snd (measure t g))%nat).
  Proof.
    intros Fi L S H.
    assert (Keep : forall g', gm g' = gm g -> gl g' = gl g -> frame g st g' st).
    { intros g' E1 E2. constructor; intros; rewrite ?E1, ?E2 in *; auto. }
    destruct L as [L1 L2 L3 L4 L5 L6]. destruct S as [S1 S2].
    destruct H as [t m t' m' k b T|o k st Na|o k st st' If E|a k st b E|x k st l st' p G E|n k st|n k m b p bs Hp Hn Hb Fr|p n k m b M]; cbn [doing todo] in *.
    - (* access *)
      destruct T as [p r m v E|p v t m w E]; cbn [run inside smem blocks] in *.
      + unfold load in L1. destruct (gm g p) as [v'|] eqn:Ev; [|discriminate L1]. pose proof (S1 p v' Ev) as Q. assert (v' = v) by congruence. subst v'.
        exists g. split; [constructor; cbn [doing todo]; auto|]. split; [constructor; assumption|]. split; [apply Keep; reflexivity|].
        unfold less, measure; cbn [fst snd doing todo cost]. rewrite Ev. split; [right; cbn [fst snd]; split; [reflexivity|lia]|intros _; lia].
      + unfold store in *. destruct L2 as [O L2]. destruct (gm g p) as [w'|] eqn:Ev; [|discriminate L1].
        exists (mk_ghost (fun x => if x =? p then Some v else gm g x) (gb g) (gl g) (gf g)).
        split; [constructor; cbn [gm gb gl gf doing todo]; auto|]. split; [|split].
        * constructor; cbn [gm gb smem blocks]; [|exact S2]. intros a b'. destruct (a =? p); [auto|apply S1].
        * constructor; cbn [gm gb gl smem blocks]; auto.
          -- intros a. destruct (N.eqb_spec a p) as [->|]; auto.
          -- intros a. destruct (N.eqb_spec a p) as [->|]; auto. intros _. left. congruence.
        * unfold less, measure; cbn [fst snd doing todo cost gm]. unfold store. rewrite Ev. split; [right; cbn [fst snd]; split; [reflexivity|lia]|intros _; lia].
    - (* a call begins *)
      destruct (Fi _ _ L6) as [D|[y Hy]]; [discriminate D|]. pose proof (lsteps_next _ _ _ L6 Hy) as L6'. inversion Hy as [o' k' l' s' Aw As| | | | | | ]; subst.
      cbn [run] in L1. injection L1 as L1. destruct (step_refines c pl Sp Ni _ _ _ _ L3 As) as (st1 & E & R1).
      rewrite (call_steps c pl o _ Na) in E. cbn [smem blocks] in E. destruct (run (call_prog c o) (gf g)) as [[[] m1]| | |] eqn:E1; try discriminate E.
      cbn [bind] in E. injection E as <-.
      exists (mk_ghost (gm g) (gb g) (mk_lstate s' (writable (gl g))) m1). destruct (call_dom _ _ _ As Na) as [U K].
      split; [constructor; cbn [gm gb gl gf doing todo seen]|split; [constructor; cbn [gm gb]; auto|split]].
      + rewrite L1. exact E1.
      + rewrite L1. eapply inside_mono; [|eapply (call_owned (gl g) o s' (mk_state (gf g) (gb g))); eassumption].
        intros a. apply (owned_call _ _ _ _ As Na).
      + exact R1.
      + intros j Ej. apply L4. specialize (K j). rewrite Ej in K. destruct (actx (seen (gl g)) j) as [[]|]; [contradiction|reflexivity].
      + intros j Sj Ej. apply (L5 j Sj). specialize (K j). rewrite Ej in K. destruct (actx (seen (gl g)) j) as [[]|]; [contradiction|reflexivity].
      + exact L6'.
      + constructor; cbn [gm gb gl]; auto. intros a O. left. apply (owned_call _ _ _ _ As Na), O.
      + split; [left; exact Hy|intros N; contradiction N; reflexivity].
    - (* release *)
      destruct (Fi _ _ L6) as [D|[y Hy]]; [discriminate D|]. pose proof (lsteps_next _ _ _ L6 Hy) as L6'. inversion Hy as [o' k' l' s' Aw As| | | | | | ]; subst.
      cbn [run] in L1. injection L1 as L1. clear L2.
      assert (Null : seen (gl g) = s' -> st' = st -> exists g', local x0 (mk_tstate (Ret tt) k) g' /\ sub g' st' /\ frame g st g' st' /\ less (measure (mk_tstate (Ret tt) k) g') (measure (mk_tstate (Ret tt) (Do o k)) g) /\ (~ idle (mk_tstate (Ret tt) (Do o k)) -> (snd (measure (mk_tstate (Ret tt) k) g') < snd (measure (mk_tstate (Ret tt) (Do o k)) g))%nat)).
      { intros <- ->. exists (mk_ghost (gm g) (gb g) (gl g) (gf g)). split; [constructor; cbn [gm gb gl gf doing todo seen run inside]; auto; [rewrite L1; reflexivity|]|].
        - destruct (gl g). exact L6'.
        - split; [constructor; auto|]. split; [apply Keep; reflexivity|]. split; [left; cbn [measure fst todo gl]; destruct (gl g); exact Hy|intros N; contradiction N; reflexivity]. }
      assert (Go : forall f j x v, sh j = false -> actx (seen (gl g)) j = Some (x, v) -> s' = set_ctx (seen (gl g)) j None -> f = api_family pl x -> release f st j = Ok st' ->
        exists g', local x0 (mk_tstate (Ret tt) k) g' /\ sub g' st' /\ frame g st g' st' /\ less (measure (mk_tstate (Ret tt) k) g') (measure (mk_tstate (Ret tt) (Do o k)) g) /\ (~ idle (mk_tstate (Ret tt) (Do o k)) -> (snd (measure (mk_tstate (Ret tt) k) g') < snd (measure (mk_tstate (Ret tt) (Do o k)) g))%nat)).
      { clear Null E If. intros f j x v Sj Ej -> -> E. pose proof (rf_ctx _ _ _ _ L3 j x v Ej) as [C1 C2 C3 C4 C5 C6]. cbn [smem blocks] in *.
        destruct (refines_free c pl _ _ _ _ _ _ L3 Ej eq_refl) as (s1 & E1 & R1).
        assert (Nj : j <> 0) by lia. destruct (release_form _ _ _ _ Nj E) as (n & B & ->). destruct (release_form _ _ _ _ Nj E1) as (n' & B' & ->). cbn [smem blocks] in *.
        pose proof (S2 _ _ B') as Q. assert (n' = n) by congruence. subst n'. assert (n = api_size c x) by congruence. subst n.
        assert (Own : forall a, j <= a < j + api_size c x -> owned_by (gl g) a) by (intros a Ha; right; exists j, x, v; auto).
        exists (mk_ghost (erase (gm g) j (api_size c x)) (fun y => if y =? j then None else gb g y) (mk_lstate (set_ctx (seen (gl g)) j None) (writable (gl g))) (erase (gf g) j (api_size c x))).
        split; [constructor; cbn [gm gb gl gf doing todo seen run inside]|split; [|split]]; auto.
        - rewrite L1. reflexivity.
        - intros i. cbn [actx set_ctx]. destruct (i =? j); auto.
        - intros i Si. cbn [actx set_ctx]. destruct (N.eqb_spec i j) as [->|]; [congruence|auto].
        - constructor; cbn [gm gb smem blocks].
          + intros a b. destruct (in_dec j (api_size c x) a) as [I|I]; [rewrite !erase_in by exact I; discriminate|rewrite !erase_out by exact I; apply S1].
          + intros i w. destruct (i =? j); [discriminate|apply S2].
        - constructor; cbn [gm gb gl smem blocks].
          + intros a. destruct (in_dec j (api_size c x) a) as [I|I]; [auto|rewrite erase_out by exact I; auto].
          + intros i. destruct (N.eqb_spec i j) as [->|]; [right; left; apply Own, region_nonempty|auto].
          + intros a [O|(i & y & w & Ei & Si & Hr)]; left; [left; exact O|]. right. cbn [seen actx set_ctx] in Ei.
            destruct (i =? j); [discriminate|]. eauto 7.
          + intros a. destruct (in_dec j (api_size c x) a) as [I|I]; [rewrite erase_in by exact I; contradiction|rewrite erase_out by exact I; auto].
        - split; [left; exact Hy|intros N; contradiction N; reflexivity]. }
      destruct Aw as [P _]. inversion As; subst; cbn [is_free step] in *; try contradiction.
      + apply Null; [reflexivity|]. injection E as <-. reflexivity.
      + eapply (Go Free); try eassumption; reflexivity.
      + apply Null; [reflexivity|]. injection E as <-. reflexivity.
      + unfold dvbcsa_bs_key_free in E. eapply (Go (bs_family pl)); try eassumption; reflexivity.
    - (* look *)
      destruct (Fi _ _ L6) as [D|[y Hy]]; [discriminate D|]. pose proof (lsteps_next _ _ _ L6 Hy) as L6'. inversion Hy as [|a' k' l' b' Eu| | | | |]; subst.
      cbn [run] in L1. injection L1 as L1. pose proof (user_mem _ _ _ _ _ _ L3 Eu) as Em. cbn [smem] in Em. rewrite <- L1 in Em. pose proof (S1 _ _ Em) as Q.
      assert (b' = b) by congruence. subst b'. exists g. split; [constructor; cbn [doing todo run inside]; auto; rewrite L1; reflexivity|].
      split; [constructor; auto|]. split; [apply Keep; reflexivity|]. split; [left; exact Hy|intros N; contradiction N; reflexivity].
    - (* new context *)
      cbn [run] in L1. injection L1 as L1. destruct (new_cases x l st st' p G E) as [[-> ->]|(r & content & -> & P1 & P2 & P3 & P4 & P5 & P6 & P7)].
      + pose proof (lsteps_next _ _ _ L6 (l_new_null c sh x k (gl g))) as L6'. exists g. split; [constructor; cbn [doing todo run inside]; auto; rewrite L1; reflexivity|].
        split; [constructor; auto|]. split; [apply Keep; reflexivity|]. split; [left; apply l_new_null|intros N; contradiction N; reflexivity].
      + assert (Fm : forall a, p <= a < p + api_size c x -> gm g a = None).
        { intros a Ha. destruct (gm g a) as [b|] eqn:Ea; [|reflexivity]. apply S1 in Ea. rewrite (P3 a Ha) in Ea. discriminate Ea. }
        assert (Un : unused c (seen (gl g)) p (api_size c x)).
        { split.
          - intros a Ha. destruct (user (seen (gl g)) a) as [b|] eqn:Ea; [|reflexivity]. apply (user_mem _ _ _ _ _ _ L3) in Ea. cbn [smem] in Ea. rewrite <- L1, (Fm a Ha) in Ea. discriminate Ea.
          - intros j y v Ej a [H1 H2]. destruct (co_map _ _ _ _ _ _ _ (rf_ctx _ _ _ _ L3 j y v Ej) a H1) as [b Eb]. cbn [smem] in Eb. rewrite <- L1, (Fm a H2) in Eb. discriminate Eb. }
        pose proof (lsteps_next _ _ _ L6 (l_new c sh x k (gl g) p P1 Un P5)) as L6'.
        assert (Np : actx (seen (gl g)) p = None).
        { destruct (actx (seen (gl g)) p) as [[y v]|] eqn:Ep; [|reflexivity]. exfalso. apply (proj2 Un p y v Ep p). split; apply region_nonempty. }
        assert (Shp : sh p = false) by (destruct (sh p) eqn:Es; [exfalso; exact (L5 p Es Np)|reflexivity]).
        assert (Wa : x = Bitslice -> word_aligned c p = true) by (intros Ex; apply N.eqb_eq, P5, Ex).
        pose proof (refines_alloc c pl _ _ p content r x L3 P1 P2 Un Wa P6 P7) as R1. cbn [allocate fst smem blocks] in *.
        exists (mk_ghost (put (gm g) p content) (fun y => if y =? p then Some (req_family r, req_size r) else gb g y)
          (mk_lstate (set_ctx (seen (gl g)) p (Some (x, None))) (writable (gl g))) (put (gf g) p content)).
        split; [constructor; cbn [gm gb gl gf doing todo seen run inside]|split; [|split]]; auto.
        * rewrite L1. reflexivity.
        * intros i. cbn [actx set_ctx]. destruct (i =? p); [discriminate|apply L4].
        * intros i Si. cbn [actx set_ctx]. destruct (N.eqb_spec i p) as [->|]; [congruence|apply L5, Si].
        * constructor; cbn [gm gb smem blocks].
          -- intros a b. destruct (in_dec p (N.of_nat (length content)) a) as [I|I]; [rewrite !put_in by exact I; auto|rewrite !put_out by exact I; apply S1].
          -- intros i w. destruct (i =? p); [auto|apply S2].
        * constructor; cbn [gm gb gl smem blocks].
          -- intros a. destruct (in_dec p (N.of_nat (length content)) a) as [I|I]; [right; right; apply P3; lia|rewrite put_out by exact I; auto].
          -- intros i. destruct (N.eqb_spec i p) as [->|]; auto.
          -- intros a [O|(i & y & w & Ei & Si & Hr)]; [left; left; exact O|]. cbn [seen actx set_ctx] in Ei.
             destruct (N.eqb_spec i p) as [->|]; [injection Ei as <- <-; right; apply P3, Hr|left; right; eauto 7].
          -- intros a. destruct (in_dec p (N.of_nat (length content)) a) as [I|I]; [intros _; right; apply P3; lia|rewrite put_out by exact I; auto].
        * split; [left; apply (l_new c sh x k (gl g) p P1 Un P5)|intros N; contradiction N; reflexivity].
    - (* no memory *)
      pose proof (lsteps_next _ _ _ L6 (l_buf_none c sh n k (gl g))) as L6'. exists g. split; [constructor; cbn [doing todo run inside]; auto|].
      split; [constructor; auto|]. split; [apply Keep; reflexivity|]. split; [left; apply l_buf_none|intros N; contradiction N; reflexivity].
    - (* new memory *)
      cbn [run] in L1. injection L1 as L1. cbn [smem blocks] in *.
      assert (Fm : forall a, p <= a < p + n -> gm g a = None).
      { intros a Ha. destruct (gm g a) as [b'|] eqn:Ea; [|reflexivity]. apply S1 in Ea. rewrite (Fr a Ha) in Ea. discriminate Ea. }
      assert (Un : unused c (seen (gl g)) p n).
      { split.
        - intros a Ha. destruct (user (seen (gl g)) a) as [b'|] eqn:Ea; [|reflexivity]. apply (user_mem _ _ _ _ _ _ L3) in Ea. cbn [smem] in Ea. rewrite <- L1, (Fm a Ha) in Ea. discriminate Ea.
        - intros j y v Ej a [H1 H2]. destruct (co_map _ _ _ _ _ _ _ (rf_ctx _ _ _ _ L3 j y v Ej) a H1) as [b' Eb]. cbn [smem] in Eb. rewrite <- L1, (Fm a H2) in Eb. discriminate Eb. }
      pose proof (lsteps_next _ _ _ L6 (l_buf c sh n k (gl g) p bs Hp Hn Hb Un)) as L6'.
      exists (mk_ghost (put (gm g) p bs) (gb g) (mk_lstate (set_user (seen (gl g)) (put (user (seen (gl g))) p bs)) (with_writable (writable (gl g)) p n)) (put (gf g) p bs)).
      split; [constructor; cbn [gm gb gl gf doing todo seen run inside]|split; [|split]]; auto.
      + rewrite L1. reflexivity.
      + apply (refines_user c pl (seen (gl g)) (mk_state (gf g) (gb g))); [exact L3| |].
        * intros a Ha. destruct (in_dec p (N.of_nat (length bs)) a) as [I|I]; [rewrite !put_in by exact I; reflexivity|rewrite !put_out by exact I; apply (rf_user _ _ _ _ L3 a Ha)].
        * intros j y v Ej. assert (D : forall a, j <= a < j + api_size c y -> ~ (p <= a < p + N.of_nat (length bs))).
          { intros a Ha Hb'. apply (proj2 Un j y v Ej a). split; [exact Ha|lia]. }
          split; intros a Ha; rewrite put_out by (apply D, Ha); [apply (co_user _ _ _ _ _ _ _ (rf_ctx _ _ _ _ L3 j y v Ej) a Ha)|reflexivity].
      + constructor; cbn [gm gb smem blocks]; [|exact S2].
        intros a b'. destruct (in_dec p (N.of_nat (length bs)) a) as [I|I]; [rewrite !put_in by exact I; auto|rewrite !put_out by exact I; apply S1].
      + constructor; cbn [gm gb gl smem blocks]; auto.
        * intros a. destruct (in_dec p (N.of_nat (length bs)) a) as [I|I]; [right; right; apply Fr; lia|rewrite put_out by exact I; auto].
        * intros a [[O W]|O]; [|left; right; exact O]. cbn [seen user set_user writable] in O, W.
          destruct (in_dec p (N.of_nat (length bs)) a) as [I|I]; [right; apply Fr; lia|]. rewrite put_out in O by exact I. left. left. split; [exact O|].
          unfold with_writable in W. apply orb_true_iff in W as [W|W]; [exact W|lia].
        * intros a. destruct (in_dec p (N.of_nat (length bs)) a) as [I|I]; [intros _; right; apply Fr; lia|rewrite put_out by exact I; auto].
      + split; [left; apply (l_buf c sh n k (gl g) p bs Hp Hn Hb Un)|intros N; contradiction N; reflexivity].
    - (* memory goes away *)
      destruct (Fi _ _ L6) as [D|[y Hy]]; [discriminate D|]. pose proof (lsteps_next _ _ _ L6 Hy) as L6'. inversion Hy as [| | | | | |p' n' k' l' Wr']; subst.
      cbn [run] in L1. injection L1 as L1. cbn [smem blocks] in *.
      assert (Own : forall a, p <= a < p + n -> owned_by (gl g) a) by (intros a Ha; left; apply Wr', Ha).
      exists (mk_ghost (erase (gm g) p n) (gb g) (mk_lstate (set_user (seen (gl g)) (erase (user (seen (gl g))) p n)) (writable (gl g))) (erase (gf g) p n)).
      split; [constructor; cbn [gm gb gl gf doing todo seen run inside]|split; [|split]]; auto.
      + rewrite L1. reflexivity.
      + apply (refines_user c pl (seen (gl g)) (mk_state (gf g) (gb g))); [exact L3| |].
        * intros a Ha. destruct (in_dec p n a) as [I|I]; [rewrite !erase_in by exact I; reflexivity|rewrite !erase_out by exact I; apply (rf_user _ _ _ _ L3 a Ha)].
        * intros j y v Ej. assert (D : forall a, j <= a < j + api_size c y -> ~ (p <= a < p + n)).
          { intros a Ha Hb'. apply (proj1 (Wr' a Hb')), (co_user _ _ _ _ _ _ _ (rf_ctx _ _ _ _ L3 j y v Ej) a Ha). }
          split; intros a Ha; rewrite erase_out by (apply D, Ha); [apply (co_user _ _ _ _ _ _ _ (rf_ctx _ _ _ _ L3 j y v Ej) a Ha)|reflexivity].
      + constructor; cbn [gm gb smem blocks]; [|exact S2].
        intros a b'. destruct (in_dec p n a) as [I|I]; [rewrite !erase_in by exact I; auto|rewrite !erase_out by exact I; apply S1].
      + constructor; cbn [gm gb gl smem blocks]; auto.
        * intros a. destruct (in_dec p n a) as [I|I]; [auto|rewrite erase_out by exact I; auto].
        * intros a [[O W]|O]; [|left; right; exact O]. cbn [seen user set_user writable] in O, W.
          destruct (in_dec p n a) as [I|I]; [rewrite erase_in in O by exact I; contradiction|rewrite erase_out in O by exact I; left; left; auto].
        * intros a. destruct (in_dec p n a) as [I|I]; [rewrite erase_in by exact I; contradiction|rewrite erase_out by exact I; auto].
      + split; [left; exact Hy|intros N; contradiction N; reflexivity].
  Qed.
End Own.
