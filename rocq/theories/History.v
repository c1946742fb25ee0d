(** History.v -- allocation contract (C35) and refinement of call histories (C33). *)
From Verif Require Import Base Mem Spec ModelClassical ClassicalKey ModelBsWord ModelBsAlgo ApiSpec ClassicalFacts BsApiSpec BsRel BsAlgo BsKey BsFacts BsApiFacts BsMoreFacts ModelAlloc HistorySpec.
Local Open Scope N_scope.

(** ** C35 *)
Lemma word_size_pow c : power_of_two (word_size c).
Proof.
  unfold power_of_two, word_size, word_bytes.
  destruct (tgt c); [exists 2|exists 3|exists 3|exists 4|exists 4|exists 5|exists 4]; reflexivity.
Qed.
Lemma bs_ctx_pos c : 0 < bs_ctx_size c.
Proof. unfold bs_ctx_size, word_bytes. destruct (tgt c); reflexivity. Qed.

Lemma mm_legal c : legal c (MmMalloc (bs_ctx_size c) (word_size c)).
Proof. split; [apply bs_ctx_pos|apply word_size_pow]. Qed.
Definition memalign_arg (c : build) : N :=
  if N.of_nat (ptr_bytes c) <? word_size c then word_size c else N.of_nat (ptr_bytes c).
Lemma memalign_legal c : legal c (Memalign (memalign_arg c) (bs_ctx_size c)).
Proof.
  split; [apply bs_ctx_pos|]. unfold memalign_arg, power_of_two, word_size, word_bytes, ptr_bytes. destruct (tgt c), (ptr64 c);
    (split; [|reflexivity]); first [exists 2; reflexivity|exists 3; reflexivity|exists 4; reflexivity|exists 5; reflexivity].
Qed.
Lemma memalign_word c p : p mod memalign_arg c = 0 -> p mod word_size c = 0.
Proof.
  assert (D : N.divide (word_size c) (memalign_arg c)).
  { unfold memalign_arg, word_size, word_bytes, ptr_bytes. destruct (tgt c), (ptr64 c); try apply N.divide_refl; exists 2; reflexivity. }
  intros H. apply N.mod_divide; [destruct (word_size_pow c) as [k ->]; apply N.pow_nonzero; discriminate|].
  eapply N.divide_trans; [exact D|]. apply N.mod_divide; [|exact H].
  unfold memalign_arg, word_size, word_bytes, ptr_bytes. destruct (tgt c), (ptr64 c); discriminate.
Qed.

(* what every allocation that succeeds gives *)
Lemma allocate_ok ma s r p content f : fulfils ma s r (Some (p, content)) -> f = req_family r ->
  let '(s', q) := allocate s r (Some (p, content)) in
  q = p /\ mapped (smem s') p (req_size r) /\ same_outside p (req_size r) (smem s) (smem s') /\
  exists s'', release f s' p = Ok s'' /\ same_mem (smem s'') (smem s) /\ forall x, blocks s'' x = blocks s x.
Proof.
  intros (Hp & Hl & Fb & Fr & Nb & _) ->. cbn [allocate smem]. split; [reflexivity|]. rewrite <- Hl in *. split; [|split].
  - intros x Hx. rewrite put_in by exact Hx. eauto.
  - intros x Hx. apply put_out, Hx.
  - unfold release. destruct (N.eqb_spec p 0); [lia|]. cbn [blocks smem]. rewrite N.eqb_refl.
    assert (G : forall n, n = N.of_nat (length content) ->
      same_mem (fun x => if (p <=? x) && (x <? p + n) then None else put (smem s) p content x) (smem s)).
    { intros n' -> x. destruct (N.leb_spec p x); destruct (N.ltb_spec x (p + N.of_nat (length content))); cbn [andb];
        try (apply put_out; lia). symmetry. apply Fr. lia. }
    destruct (req_family r); (eexists; split; [reflexivity|]; split; [apply G; rewrite ?Hl; reflexivity|]);
      intros x; cbn [blocks]; destruct (N.eqb_spec x p); subst; auto.
Qed.

Definition bs_alloc_good (c : build) (pl : platform) (s s' : state) (p : N) : Prop :=
  0 < p /\ p mod word_size c = 0 /\ fresh (smem s) p (bs_ctx_size c) /\ mapped (smem s') p (bs_ctx_size c) /\
  same_outside p (bs_ctx_size c) (smem s) (smem s') /\
  exists s'', dvbcsa_bs_key_free pl s' p = Ok s'' /\ same_mem (smem s'') (smem s) /\ forall x, blocks s'' x = blocks s x.

Theorem bs_alloc_ok c pl l s ma : good_libc c ma s l ->
  have_mm_malloc pl = true \/ have_posix_memalign pl = true \/ have_assert c = true \/ ma mod word_size c = 0 ->
  (exists s' p, dvbcsa_bs_key_alloc c pl l s = Ok (s', p) /\ (p = 0 /\ s' = s \/ bs_alloc_good c pl s s' p)) \/
  (dvbcsa_bs_key_alloc c pl l s = Abort /\ have_mm_malloc pl = false /\ have_posix_memalign pl = false /\ have_assert c = true /\ ma mod word_size c <> 0).
Proof.
  intros G A. unfold dvbcsa_bs_key_alloc, dvbcsa_bs_key_free, bs_alloc_good. unfold dvbcsa_bs_key_free.
  destruct (have_mm_malloc pl) eqn:Emm; [|destruct (have_posix_memalign pl) eqn:Epm].
  - left. set (r := MmMalloc _ _). pose proof (G r (mm_legal c)) as F. destruct (l r) as [[p content]|].
    + pose proof (allocate_ok ma s r p content MmFree F eq_refl) as K. destruct (allocate s r (Some (p, content))) as [s' q] eqn:Ea.
      destruct K as (-> & K1 & K2 & K3). exists s', p. split; [reflexivity|]. right. destruct F as (Hp & _ & _ & Fr & _ & Al).
      split; [exact Hp|]. split; [exact Al|]. split; [exact Fr|]. split; [exact K1|]. split; [exact K2|exact K3].
    + exists s, 0. split; [reflexivity|]. left. split; reflexivity.
  - left. set (r := Memalign _ _). pose proof (G r (memalign_legal c)) as F. destruct (l r) as [[p content]|].
    + pose proof (allocate_ok ma s r p content Free F eq_refl) as K. destruct (allocate s r (Some (p, content))) as [s' q] eqn:Ea.
      destruct K as (-> & K1 & K2 & K3). exists s', p. split; [reflexivity|]. right. destruct F as (Hp & _ & _ & Fr & _ & Al).
      split; [exact Hp|]. split; [apply memalign_word, Al|]. split; [exact Fr|]. split; [exact K1|]. split; [exact K2|exact K3].
    + exists s, 0. split; [reflexivity|]. left. split; reflexivity.
  - set (r := Malloc _). pose proof (G r (bs_ctx_pos c)) as F. destruct (l r) as [[p content]|].
    + pose proof (allocate_ok ma s r p content Free F eq_refl) as K. destruct (allocate s r (Some (p, content))) as [s' q] eqn:Ea.
      destruct K as (-> & K1 & K2 & K3). destruct F as (Hp & _ & _ & Fr & _ & Al).
      assert (Z : p mod word_size c = 0 -> bs_alloc_good c pl s s' p).
      { intros Ew. split; [exact Hp|]. split; [exact Ew|]. split; [exact Fr|]. split; [exact K1|]. split; [exact K2|].
        unfold dvbcsa_bs_key_free. rewrite Emm. exact K3. }
      assert (Hw : word_size c <> 0) by (destruct (word_size_pow c) as [k ->]; apply N.pow_nonzero; discriminate).
      destruct (N.eqb_spec (p mod word_size c) 0) as [Ew|Nw]; cbn [negb].
      * left. exists s', p. rewrite andb_false_r. split; [reflexivity|]. right.
        specialize (Z Ew). unfold bs_alloc_good, dvbcsa_bs_key_free in Z. rewrite Emm in Z. exact Z.
      * assert (Nm : ma mod word_size c <> 0).
        { intros E. apply Nw. cbn [req_align] in Al. apply N.mod_divide; [exact Hw|].
          destruct (N.eq_dec ma 0) as [->|Z0].
          - (* alignment 0 never happens; a mod 0 = a *) exfalso. destruct p; [lia|]. discriminate Al.
          - eapply N.divide_trans; [apply N.mod_divide; [exact Hw|exact E]|apply N.mod_divide; assumption]. }
        destruct (have_assert c) eqn:Ea'; cbn [andb].
        -- right. repeat split; assumption.
        -- exfalso. destruct A as [A|[A|[A|A]]]; try discriminate A. exact (Nm A).
    + left. exists s, 0. cbn [allocate]. rewrite N.mod_0_l by (destruct (word_size_pow c) as [k ->]; apply N.pow_nonzero; discriminate).
      cbn. rewrite andb_false_r. split; [reflexivity|]. left. split; reflexivity.
Qed.

Theorem classical_alloc_ok c l s ma : good_libc c ma s l ->
  exists s' p, dvbcsa_key_alloc l s = Ok (s', p) /\
    (p = 0 /\ s' = s \/
     0 < p /\ fresh (smem s) p ctx_size /\ mapped (smem s') p ctx_size /\ same_outside p ctx_size (smem s) (smem s') /\
     exists s'', dvbcsa_key_free s' p = Ok s'' /\ same_mem (smem s'') (smem s) /\ forall x, blocks s'' x = blocks s x).
Proof.
  intros G. unfold dvbcsa_key_alloc, dvbcsa_key_free. set (r := Malloc ctx_size). pose proof (G r) as F. specialize (F eq_refl).
  destruct (l r) as [[p content]|].
  - pose proof (allocate_ok ma s r p content Free F eq_refl) as K. destruct (allocate s r (Some (p, content))) as [s' q] eqn:Ea.
    destruct K as (-> & K1 & K2 & K3). exists s', p. split; [reflexivity|]. right. destruct F as (Hp & _ & _ & Fr & _ & Al).
    split; [exact Hp|]. split; [exact Fr|]. split; [exact K1|]. split; [exact K2|exact K3].
  - exists s, 0. split; [reflexivity|]. left. split; reflexivity.
Qed.

(* free of the wrong family is undefined: the pairing matters *)
Lemma release_wrong s p n : p <> 0 -> blocks s p = Some (MmFree, n) -> release Free s p = UB InvalidFree.
Proof. intros H E. unfold release. destruct (N.eqb_spec p 0); [contradiction|]. rewrite E. reflexivity. Qed.

(** ** C33 *)
Definition bs_family (pl : platform) : family := if have_mm_malloc pl then MmFree else Free.
Definition api_family (pl : platform) (x : api) : family := match x with Classical => Free | Bitslice => bs_family pl end.
Definition api_keyed (c : build) (x : api) : mem -> N -> list N -> Prop :=
  match x with Classical => keyed (big_endian c) | Bitslice => bs_keyed c end.

Record ctx_ok (c : build) (pl : platform) (s : astate) (st : state) (k : N) (x : api) (v : option (list N)) : Prop := {
  co_pos : 0 < k;
  co_user : fresh (user s) k (api_size c x);
  co_map : mapped (smem st) k (api_size c x);
  co_block : blocks st k = Some (api_family pl x, api_size c x);
  co_align : x = Bitslice -> word_aligned c k = true;
  co_key : forall cw, v = Some cw -> length cw = 8%nat /\ api_keyed c x (smem st) k cw }.
Record refines (c : build) (pl : platform) (s : astate) (st : state) : Prop := {
  rf_ctx : forall k x v, actx s k = Some (x, v) -> ctx_ok c pl s st k x v;
  rf_sep : forall k x v k' x' v', actx s k = Some (x, v) -> actx s k' = Some (x', v') -> k <> k' ->
    disjoint k (api_size c x) k' (api_size c x');
  rf_user : forall a, (forall k x v, actx s k = Some (x, v) -> ~ (k <= a < k + api_size c x)) -> smem st a = user s a }.

Lemma api_size_pos c x : 0 < api_size c x.
Proof. destruct x; [reflexivity|apply bs_ctx_pos]. Qed.

Section Refine.
  Context (c : build) (pl : platform).
  Hypothesis (Sp : supported c) (Ni : no_int_product c).

  Lemma user_mem s st a b : refines c pl s st -> user s a = Some b -> smem st a = Some b.
  Proof.
    intros R E. rewrite (rf_user _ _ _ _ R); [exact E|]. intros k x v Ek H.
    rewrite (co_user _ _ _ _ _ _ _ (rf_ctx _ _ _ _ R k x v Ek) a H) in E. discriminate E.
  Qed.
  Lemma user_holds s st a l : refines c pl s st -> holds (user s) a l -> holds (smem st) a l.
  Proof. intros R [F H]. split; [exact F|]. intros i Hi. eapply user_mem; [exact R|]. apply H, Hi. Qed.
  Lemma user_clear s st a n k x v : refines c pl s st -> mapped (user s) a n -> actx s k = Some (x, v) -> disjoint k (api_size c x) a n.
  Proof.
    intros R M E y [H1 H2]. destruct (M y H2) as [b Eb]. rewrite (co_user _ _ _ _ _ _ _ (rf_ctx _ _ _ _ R k x v E) y H1) in Eb. discriminate Eb.
  Qed.
  Lemma keyed_frame x m m' k cw : api_keyed c x m k cw -> same_inside k (api_size c x) m m' -> api_keyed c x m' k cw.
  Proof.
    destruct x; cbn [api_keyed api_size]; intros K S.
    - destruct K as (m0 & cwp & m1 & H1 & H2 & H3 & H4 & H5). exists m0, cwp, m1. repeat (split; [assumption|]).
      intros y Hy. rewrite S by exact Hy. apply H5, Hy.
    - eapply keyed_again; eauto.
  Qed.

  (* a step that only changes user bytes *)
  Lemma refines_user s st u m' : refines c pl s st ->
    (forall a, (forall k x v, actx s k = Some (x, v) -> ~ (k <= a < k + api_size c x)) -> m' a = u a) ->
    (forall k x v, actx s k = Some (x, v) -> fresh u k (api_size c x) /\ same_inside k (api_size c x) (smem st) m') ->
    refines c pl (set_user s u) (mk_state m' (blocks st)).
  Proof.
    intros R U K. constructor.
    - intros k x v E. cbn [actx set_user] in E. destruct (K k x v E) as [Fr Si]. destruct (rf_ctx _ _ _ _ R k x v E) as [C1 C2 C3 C4 C5 C6].
      constructor; try assumption.
      + intros y Hy. destruct (C3 y Hy) as [b Hb]. exists b. cbn [smem]. rewrite Si by exact Hy. exact Hb.
      + intros cw Ev. destruct (C6 cw Ev) as [L Kc]. split; [exact L|]. eapply keyed_frame; [exact Kc|exact Si].
    - apply (rf_sep _ _ _ _ R).
    - exact U.
  Qed.

  Lemma put_clear m k n a l : disjoint k n a (N.of_nat (length l)) -> same_inside k n m (put m a l).
  Proof. intros D x Hx. apply put_out. intros H. exact (D x (conj Hx H)). Qed.

  Lemma refines_put s st a l m' : refines c pl s st -> mapped (user s) a (N.of_nat (length l)) ->
    same_mem m' (put (smem st) a l) -> refines c pl (set_user s (put (user s) a l)) (mk_state m' (blocks st)).
  Proof.
    intros R M E. apply refines_user; [exact R| |].
    - intros y Hy. rewrite E. unfold put. destruct ((a <=? y) && (y <? a + N.of_nat (length l))); [reflexivity|]. apply (rf_user _ _ _ _ R), Hy.
    - intros k x v Ek. pose proof (user_clear _ _ _ _ _ _ _ R M Ek) as D. split.
      + intros y Hy. rewrite put_out; [apply (co_user _ _ _ _ _ _ _ (rf_ctx _ _ _ _ R k x v Ek) y Hy)|]. intros H. exact (D y (conj Hy H)).
      + intros y Hy. rewrite E. exact (put_clear _ _ _ _ _ D y Hy).
  Qed.

  Lemma refines_write_all s st ps m' : refines c pl s st -> (forall p buf, In (p, buf) ps -> mapped (user s) p (N.of_nat (length buf))) ->
    same_mem m' (write_all (smem st) ps) -> refines c pl (set_user s (write_all (user s) ps)) (mk_state m' (blocks st)).
  Proof.
    intros R M E.
    assert (G : forall ps m u, (forall p buf, In (p, buf) ps -> mapped (user s) p (N.of_nat (length buf))) ->
       (forall a, (forall k x v, actx s k = Some (x, v) -> ~ (k <= a < k + api_size c x)) -> m a = u a) ->
       (forall k x v, actx s k = Some (x, v) -> fresh u k (api_size c x) /\ same_inside k (api_size c x) (smem st) m) ->
       (forall a, (forall k x v, actx s k = Some (x, v) -> ~ (k <= a < k + api_size c x)) -> write_all m ps a = write_all u ps a) /\
       (forall k x v, actx s k = Some (x, v) -> fresh (write_all u ps) k (api_size c x) /\ same_inside k (api_size c x) (smem st) (write_all m ps))).
    { clear M E ps. induction ps as [|[p buf] ps IH]; intros m u M U K; [split; assumption|]. cbn [write_all]. apply IH.
      - intros q b I. apply M. right. exact I.
      - intros y Hy. unfold put. destruct ((p <=? y) && (y <? p + N.of_nat (length buf))); [reflexivity|]. apply U, Hy.
      - intros k x v Ek. destruct (K k x v Ek) as [K1 K2]. pose proof (user_clear _ _ _ _ _ _ _ R (M p buf (or_introl eq_refl)) Ek) as D. split.
        + intros y Hy. rewrite put_out; [apply K1, Hy|]. intros H. exact (D y (conj Hy H)).
        + intros y Hy. rewrite put_out; [apply K2, Hy|]. intros H. exact (D y (conj Hy H)). }
    destruct (G ps (smem st) (user s) M (rf_user _ _ _ _ R)) as [G1 G2].
    { intros k x v Ek. split; [apply (rf_ctx _ _ _ _ R k x v Ek)|intros y _; reflexivity]. }
    apply refines_user; [exact R| |].
    - intros y Hy. rewrite E. apply G1, Hy.
    - intros k x v Ek. destruct (G2 k x v Ek) as [A B]. split; [exact A|]. intros y Hy. rewrite E. apply B, Hy.
  Qed.

  (* a new context *)
  Lemma refines_alloc s st p content r x : refines c pl s st -> 0 < p -> N.of_nat (length content) = api_size c x -> unused c s p (api_size c x) ->
    (x = Bitslice -> word_aligned c p = true) -> req_family r = api_family pl x -> req_size r = api_size c x ->
    refines c pl (set_ctx s p (Some (x, None))) (fst (allocate st r (Some (p, content)))).
  Proof.
    intros R Hp Hl [Fu Nk] Al Ef Es. cbn [allocate fst].
    assert (Np : actx s p = None).
    { destruct (actx s p) as [[x' v']|] eqn:E; [|reflexivity]. exfalso. apply (Nk p x' v' E p).
      pose proof (api_size_pos c x'). pose proof (api_size_pos c x). lia. }
    constructor.
    - intros k y v E. cbn [actx set_ctx] in E. destruct (N.eqb_spec k p) as [->|N].
      + injection E as <- <-. constructor; cbn [smem blocks user set_ctx]; try assumption.
        * intros z Hz. rewrite put_in by lia. eauto.
        * rewrite N.eqb_refl, Ef, Es. reflexivity.
        * discriminate.
      + destruct (rf_ctx _ _ _ _ R k y v E) as [C1 C2 C3 C4 C5 C6].
        assert (Si : same_inside k (api_size c y) (smem st) (put (smem st) p content)) by (apply put_clear; rewrite Hl; apply (Nk k y v E)).
        constructor; cbn [smem blocks user set_ctx]; try assumption.
        * intros z Hz. rewrite Si by exact Hz. apply C3, Hz.
        * destruct (N.eqb_spec k p); [contradiction|exact C4].
        * intros cw Ev. destruct (C6 cw Ev) as [L K]. split; [exact L|]. eapply keyed_frame; [exact K|exact Si].
    - intros k y v k' y' v' E E' N. cbn [actx set_ctx] in E, E'.
      destruct (N.eqb_spec k p) as [->|N1]; destruct (N.eqb_spec k' p) as [->|N2].
      + contradiction.
      + injection E as <- <-. intros z [H1 H2]. exact (Nk k' y' v' E' z (conj H2 H1)).
      + injection E' as <- <-. apply (Nk k y v E).
      + eapply (rf_sep _ _ _ _ R); eassumption.
    - intros a Ha. cbn [smem user set_ctx actx] in *. rewrite put_out.
      + apply (rf_user _ _ _ _ R). intros k y v E. apply (Ha k y v). destruct (N.eqb_spec k p) as [->|]; [congruence|exact E].
      + rewrite Hl. apply (Ha p x None). rewrite N.eqb_refl. reflexivity.
  Qed.

  (* a context goes away *)
  Lemma refines_free s st k x v f : refines c pl s st -> actx s k = Some (x, v) -> f = api_family pl x ->
    exists st', release f st k = Ok st' /\ refines c pl (set_ctx s k None) st'.
  Proof.
    intros R E ->. destruct (rf_ctx _ _ _ _ R k x v E) as [C1 C2 C3 C4 C5 C6]. unfold release.
    destruct (N.eqb_spec k 0); [lia|]. rewrite C4.
    set (st' := mk_state (fun y => if (k <=? y) && (y <? k + api_size c x) then None else smem st y) (fun y => if y =? k then None else blocks st y)).
    exists st'. split; [destruct (api_family pl x); reflexivity|].
    assert (Out : forall y, ~ (k <= y < k + api_size c x) -> smem st' y = smem st y).
    { intros y Hy. unfold st'. cbn [smem]. destruct (N.leb_spec k y); destruct (N.ltb_spec y (k + api_size c x)); cbn [andb]; try reflexivity. lia. }
    constructor.
    - intros j y w Ej. cbn [actx set_ctx] in Ej. destruct (N.eqb_spec j k) as [->|N]; [discriminate|].
      assert (Si : same_inside j (api_size c y) (smem st) (smem st')).
      { intros z Hz. apply Out. intros H. exact (rf_sep _ _ _ _ R j y w k x v Ej E N z (conj Hz H)). }
      destruct (rf_ctx _ _ _ _ R j y w Ej) as [D1 D2 D3 D4 D5 D6]. constructor; try assumption.
      + intros z Hz. rewrite Si by exact Hz. apply D3, Hz.
      + unfold st'. cbn [blocks]. destruct (N.eqb_spec j k); [contradiction|exact D4].
      + intros cw Ew. destruct (D6 cw Ew) as [L K]. split; [exact L|]. eapply keyed_frame; [exact K|exact Si].
    - intros j y w j' y' w' Ej Ej' N. cbn [actx set_ctx] in Ej, Ej'.
      destruct (N.eqb_spec j k); [discriminate|]. destruct (N.eqb_spec j' k); [discriminate|]. eapply (rf_sep _ _ _ _ R); eassumption.
    - intros a Ha. cbn [user set_ctx actx] in *. unfold st'. cbn [smem].
      destruct (N.leb_spec k a); destruct (N.ltb_spec a (k + api_size c x)); cbn [andb];
        try (apply (rf_user _ _ _ _ R); intros j y w Ej H1; destruct (N.eqb_spec j k) as [->|N];
          [rewrite E in Ej; injection Ej as <- <-; lia|apply (Ha j y w); [destruct (N.eqb_spec j k); [contradiction|exact Ej]|exact H1]]).
      symmetry. apply C2. lia.
  Qed.

  (* a context gets a control word *)
  Lemma refines_key s st k x v cw m' : refines c pl s st -> actx s k = Some (x, v) -> length cw = 8%nat ->
    same_outside k (api_size c x) (smem st) m' -> api_keyed c x m' k cw -> mapped m' k (api_size c x) ->
    refines c pl (set_ctx s k (Some (x, Some cw))) (mk_state m' (blocks st)).
  Proof.
    intros R E L So K M. constructor.
    - intros j y w Ej. cbn [actx set_ctx] in Ej. destruct (N.eqb_spec j k) as [->|N].
      + injection Ej as <- <-. destruct (rf_ctx _ _ _ _ R k x v E) as [C1 C2 C3 C4 C5 C6]. constructor; try assumption.
        intros cw' Ec. injection Ec as <-. split; assumption.
      + assert (Si : same_inside j (api_size c y) (smem st) m').
        { intros z Hz. apply So. intros H. exact (rf_sep _ _ _ _ R j y w k x v Ej E N z (conj Hz H)). }
        destruct (rf_ctx _ _ _ _ R j y w Ej) as [D1 D2 D3 D4 D5 D6]. constructor; try assumption.
        * intros z Hz. cbn [smem]. rewrite Si by exact Hz. apply D3, Hz.
        * intros cw' Ew. destruct (D6 cw' Ew) as [L' K']. split; [exact L'|]. eapply keyed_frame; [exact K'|exact Si].
    - intros j y w j' y' w' Ej Ej' N. cbn [actx set_ctx] in Ej, Ej'.
      destruct (N.eqb_spec j k) as [->|N1]; destruct (N.eqb_spec j' k) as [->|N2].
      + contradiction.
      + injection Ej as <- <-. eapply (rf_sep _ _ _ _ R); eauto.
      + injection Ej' as <- <-. eapply (rf_sep _ _ _ _ R); eauto.
      + eapply (rf_sep _ _ _ _ R); eassumption.
    - intros a Ha. cbn [smem user set_ctx actx] in *.
      assert (Na : ~ (k <= a < k + api_size c x)) by (apply (Ha k x (Some cw)); rewrite N.eqb_refl; reflexivity).
      rewrite So by exact Na. apply (rf_user _ _ _ _ R). intros j y w Ej H1.
      destruct (N.eq_dec j k) as [->|N]; [rewrite E in Ej; injection Ej as <- <-; exact (Na H1)|].
      apply (Ha j y w); [destruct (N.eqb_spec j k); [contradiction|exact Ej]|exact H1].
  Qed.

  Lemma mapped_same_outside m m' k n : mapped m k n -> (forall y, k <= y < k + n -> exists b, m' y = Some b) -> mapped m' k n.
  Proof. intros _ H y Hy. apply H, Hy. Qed.

  Lemma keyed_mapped x m k cw : length cw = 8%nat -> api_keyed c x m k cw -> mapped m k (api_size c x).
  Proof.
    destruct x; cbn [api_keyed api_size]; intros L K.
    - pose proof (holds_mapped _ _ _ (keyed_ctx _ _ _ _ L K)) as M.
      replace (N.of_nat (length (ctx_bytes cw))) with ctx_size in M; [exact M|]. symmetry.
      apply (f_equal N.of_nat (ctx_bytes_length cw L)).
    - destruct (bs_keyed_facts c m k cw L K) as (_ & _ & H). pose proof (holds_mapped _ _ _ H) as M. 
      rewrite (proj1 (bs_ctx_bytes_ok c cw L ltac:(apply (bs_keyed_facts c m k cw L K)))) in M. exact M.
  Qed.

  Theorem step_refines o s s' st : refines c pl s st -> astep c o s s' -> exists st', step c pl o st = Ok st' /\ refines c pl s' st'.
  Proof.
    intros R A. destruct A; cbn [step].
    - (* write *)
      assert (M : mapped (smem st) a (N.of_nat (length bs))).
      { intros y Hy. destruct (H y Hy) as [b Hb]. exists b. eapply user_mem; eauto. }
      destruct (proj1 (wp_ok _ _) (store_bytes_ok bs (smem st) a M)) as (m' & E & Q). rewrite E. cbn [on_mem bind].
      eexists. split; [reflexivity|]. eapply refines_put; eauto.
    - (* dvbcsa_key_alloc *) cbn. eexists. split; [reflexivity|]. destruct st. exact R.
    - unfold dvbcsa_key_alloc. destruct (allocate st (Malloc ctx_size) (Some (p, content))) as [st' q] eqn:Ea. cbn [bind].
      exists st'. split; [reflexivity|]. replace st' with (fst (allocate st (Malloc ctx_size) (Some (p, content)))) by (rewrite Ea; reflexivity).
      apply (refines_alloc _ _ _ _ _ Classical); try assumption; try reflexivity. discriminate.
    - (* dvbcsa_bs_key_alloc *)
      assert (Hw : word_size c <> 0) by (destruct (word_size_pow c) as [k ->]; apply N.pow_nonzero; discriminate).
      unfold dvbcsa_bs_key_alloc. destruct (have_mm_malloc pl), (have_posix_memalign pl); cbn [allocate bind];
        try (exists st; split; [reflexivity|exact R]);
        rewrite N.mod_0_l by exact Hw; cbn [N.eqb negb]; rewrite andb_false_r; cbn [bind]; exists st; (split; [reflexivity|exact R]).
    - assert (G : forall r, req_family r = bs_family pl -> req_size r = bs_ctx_size c ->
        refines c pl (set_ctx s p (Some (Bitslice, None))) (fst (allocate st r (Some (p, content))))).
      { intros r Ef Es. apply (refines_alloc _ _ _ _ _ Bitslice); try assumption.
        intros _. unfold word_aligned. apply N.eqb_eq. exact H2. }
      unfold dvbcsa_bs_key_alloc, bs_family in *. destruct (have_mm_malloc pl); [|destruct (have_posix_memalign pl)].
      + eexists. split; [|apply (G (MmMalloc (bs_ctx_size c) (word_size c))); reflexivity]. reflexivity.
      + eexists. split; [|apply (G (Memalign (memalign_arg c) (bs_ctx_size c))); reflexivity]. reflexivity.
      + eexists. split; [|apply (G (Malloc (bs_ctx_size c))); reflexivity]. cbn [allocate].
        rewrite H2. cbn [N.eqb negb]. rewrite andb_false_r. reflexivity.
    - (* dvbcsa_key_free *) exists st. split; [reflexivity|exact R].
    - apply (refines_free s st k Classical v); auto.
    - exists st. split; [reflexivity|exact R].
    - apply (refines_free s st k Bitslice v); auto.
    - (* dvbcsa_key_set *)
      pose proof (rf_ctx _ _ _ _ R k _ _ H) as [C1 C2 C3 C4 C5 C6]. cbn [api_size] in *.
      pose proof (user_holds _ _ _ _ R H1) as Hc.
      assert (Src : cw_source cwp k).
      { right. intros y [Y1 Y2]. pose proof (holds_mapped _ _ _ H1) as Mu. rewrite H0 in Mu.
        apply (user_clear _ _ _ _ _ _ _ R Mu H y). cbn [api_size]. unfold ctx_size. split; [lia|exact Y1]. }
      destruct (key_set_total (big_endian c) (smem st) cwp k cw H0 Hc C3 Src) as (m' & E & So & K & _).
      rewrite E. cbn [on_mem bind]. eexists. split; [reflexivity|].
      apply (refines_key s st k Classical v cw m'); try assumption. apply (keyed_mapped Classical m' k cw H0 K).
    - (* dvbcsa_bs_key_set *)
      pose proof (rf_ctx _ _ _ _ R k _ _ H) as [C1 C2 C3 C4 C5 C6]. cbn [api_size] in *.
      pose proof (user_holds _ _ _ _ R H1) as Hc.
      assert (Src : bs_cw_source c cwp k).
      { intros y [Y1 Y2]. pose proof (holds_mapped _ _ _ H1) as Mu. rewrite H0 in Mu.
        apply (user_clear _ _ _ _ _ _ _ R Mu H y). cbn [api_size]. unfold bs_ctx_size, word_size in *. split; [lia|exact Y1]. }
      destruct (key_set_runs c kj (smem st) cwp k cw) as (m' & E & So & K & _); try assumption.
      { intros z _ T W. rewrite (Ni T) in W. discriminate W. }
      { apply C5. reflexivity. }
      rewrite E. cbn [on_mem bind]. eexists. split; [reflexivity|].
      apply (refines_key s st k Bitslice v cw m'); try assumption. apply (keyed_mapped Bitslice m' k cw H0 K).
    - (* dvbcsa_encrypt, dvbcsa_decrypt *)
      pose proof (rf_ctx _ _ _ _ R k _ _ H) as [C1 C2 C3 C4 C5 C6]. destruct (C6 cw eq_refl) as [L K]. cbn [api_keyed api_size] in *.
      pose proof (user_holds _ _ _ _ R H0) as Hb. pose proof (holds_mapped _ _ _ H0) as Mu.
      assert (P : packet (smem st) k data len buf).
      { split; [exact Hb|]. split; [exact H1|]. split; [exact H2|]. rewrite H1.
        apply (user_clear _ _ _ _ _ _ _ R Mu H). }
      destruct (classical_is_csa enc (big_endian c) (smem st) k cw data len buf L K P H3) as (m' & E & Ho & Lo & So).
      unfold classical_call in E. rewrite E. cbn [on_mem bind]. eexists. split; [reflexivity|].
      apply refines_put; [exact R| |].
      + rewrite Lo, H1. exact Mu.
      + intros y. destruct (N.leb_spec data y); [destruct (N.ltb_spec y (data + N.of_nat (length (csa enc cw buf))))|].
        * rewrite put_in by lia. destruct Ho as [_ Ho]. rewrite <- Ho by lia. f_equal. lia.
        * rewrite put_out by lia. apply So. lia.
        * rewrite put_out by lia. apply So. lia.
    - (* dvbcsa_bs_encrypt, dvbcsa_bs_decrypt *)
      pose proof (rf_ctx _ _ _ _ R k _ _ H) as [C1 C2 C3 C4 C5 C6]. destruct (C6 cw eq_refl) as [L K]. cbn [api_keyed api_size] in *.
      assert (B : batch_array c (smem st) pcks ps).
      { destruct H0 as [B1 B2]. constructor.
        - intros i p buf Ei. destruct (B1 i p buf Ei) as (X1 & X2 & X3 & X4 & X5 & X6).
          split; [exact X1|]. split; [exact X2|]. split; [eapply user_holds; eauto|]. split; [eapply user_holds; eauto|]. split; [eapply user_holds; eauto|exact X6].
        - eapply user_holds; eauto. }
      destruct (bs_is_csa enc c jk (smem st) k pcks cw ps maxlen Sp L K H3 B H1 H2) as (m' & E & Q).
      rewrite E. cbn [on_mem bind]. eexists. split; [reflexivity|]. apply refines_write_all; [exact R| |exact Q].
      intros p buf I. apply in_map_packets in I as (b & I & ->). rewrite on_prefix_length by (intros; apply csa_length).
      apply In_nth_error in I as [i Ei]. destruct (ba_entry _ _ _ _ H0 i p b Ei) as (_ & _ & X & _). apply (holds_mapped _ _ _ X).
  Qed.

  Theorem run_refines os : forall s s' st, refines c pl s st -> asteps c os s s' -> exists st', run_ops c pl os st = Ok st' /\ refines c pl s' st'.
  Proof.
    induction os as [|o os IH]; intros s s' st R A; inversion A as [|o' os' s0 s1 s2 A1 A2]; subst; cbn [run_ops].
    - eauto.
    - destruct (step_refines _ _ _ _ R A1) as (st1 & E & R1). rewrite E. cbn [bind]. eapply IH; eauto.
  Qed.

  Lemma refines_start m : refines c pl (no_ctx m) (no_heap m).
  Proof. constructor; cbn; intros; try discriminate. reflexivity. Qed.

  (* the bytes of the program are those of the abstract machine; everything else live belongs to contexts *)
  Theorem history os m s' : asteps c os (no_ctx m) s' -> exists st', run_ops c pl os (no_heap m) = Ok st' /\
    (forall a b, user s' a = Some b -> smem st' a = Some b) /\
    (forall a, (forall k x v, actx s' k = Some (x, v) -> ~ (k <= a < k + api_size c x)) -> smem st' a = user s' a).
  Proof.
    intros A. destruct (run_refines os _ _ _ (refines_start m) A) as (st' & E & R). exists st'. split; [exact E|]. split.
    - intros a b. apply user_mem, R.
    - apply (rf_user _ _ _ _ R).
  Qed.
End Refine.
