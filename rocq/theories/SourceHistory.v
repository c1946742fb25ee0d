(** SourceHistory.v -- histories of source-level calls refine the abstract machine (C51). *)
From Verif Require Import Base Mem Spec ModelClassical ClassicalKey ModelBsWord ModelBsAlgo ApiSpec ClassicalFacts BsApiSpec BsRel BsAlgo BsKey BsFacts BsApiFacts BsMoreFacts BsReady BsAnyKey
  ModelAlloc HistorySpec History SourceSpec SourceFacts SourceBsSpec BsCKeySet SourceBsFacts SourceHistorySpec.
Local Open Scope N_scope.

Lemma refines_same c pl s st st' : refines c pl s st -> same_mem (smem st') (smem st) -> blocks st' = blocks st -> refines c pl s st'.
Proof.
  intros R M B. constructor.
  - intros k x v E. destruct (rf_ctx _ _ _ _ R k x v E) as [C1 C2 C3 C4 C5 C6]. constructor; try assumption.
    + intros y Hy. rewrite M. apply C3, Hy.
    + rewrite B. exact C4.
    + intros cw Ev. destruct (C6 cw Ev) as [L K]. split; [exact L|]. eapply keyed_frame; [exact K|]. intros y _. apply M.
  - apply (rf_sep _ _ _ _ R).
  - intros a Ha. rewrite M. apply (rf_user _ _ _ _ R), Ha.
Qed.

Lemma bytes_put m a l : bytes_mem m -> Forall is_byte l -> bytes_mem (put m a l).
Proof.
  intros B F x b. unfold put. destruct ((a <=? x) && (x <? a + N.of_nat (length l)))%bool eqn:Q; [|apply B]. intros E. injection E as <-.
  apply andb_prop in Q as [Q1 Q2]. apply N.leb_le in Q1. apply N.ltb_lt in Q2. rewrite Forall_forall in F. apply F, nth_In. lia.
Qed.
Lemma bytes_same m m' : bytes_mem m -> same_mem m' m -> bytes_mem m'.
Proof. intros B S x b E. apply (B x). rewrite <- S. exact E. Qed.
Lemma bytes_write_all ps : forall m, bytes_mem m -> Forall (fun x => Forall is_byte (snd x)) ps -> bytes_mem (write_all m ps).
Proof.
  induction ps as [|[p buf] ps IH]; intros m B F; [exact B|]. inversion F; subst. cbn [write_all]. apply IH; [|assumption]. apply bytes_put; assumption.
Qed.
(* a region that got new bytes, the rest as before *)
Lemma bytes_region m m' a n l : bytes_mem m -> same_outside a n m m' -> holds m' a l -> N.of_nat (length l) = n -> bytes_mem m'.
Proof.
  intros B S [F H] E x b Eb. destruct (N.le_gt_cases a x) as [H1|H1]; [destruct (N.lt_ge_cases x (a + n)) as [H2|H2]|].
  - specialize (H (N.to_nat (x - a)) ltac:(lia)). replace (a + N.of_nat (N.to_nat (x - a))) with x in H by lia. rewrite Eb in H. injection H as ->.
    rewrite Forall_forall in F. apply F, nth_In. lia.
  - apply (B x). rewrite <- S by lia. exact Eb.
  - apply (B x). rewrite <- S by lia. exact Eb.
Qed.

Section Src.
  Context (c : build) (pl : platform) (fuel : nat).
  Hypothesis (Sp : supported c) (Ni : no_int_product c) (Hf : (256 < fuel)%nat).

  (* the operations that are not calls of parsed functions *)
  Lemma release_bytes f s k s' : release f s k = Ok s' -> bytes_mem (smem s) -> bytes_mem (smem s').
  Proof.
    unfold release. destruct (k =? 0); [intros E; injection E as <-; auto|]. destruct (blocks s k) as [[g n]|]; [|discriminate].
    intros E B. assert (Q : smem s' = fun x => if (k <=? x) && (x <? k + n) then None else smem s x) by (destruct f, g; try discriminate E; injection E as <-; reflexivity).
    rewrite Q. intros x b. destruct (_ && _)%bool; [discriminate|apply B].
  Qed.
  Lemma allocate_bytes s r a s' q : allocate s r a = (s', q) -> bytes_mem (smem s) -> (forall p content, a = Some (p, content) -> Forall is_byte content) -> bytes_mem (smem s').
  Proof.
    destruct a as [[p content]|]; cbn [allocate]; intros E B F; injection E as <- <-; [|exact B]. cbn [smem]. apply bytes_put; [exact B|]. eapply F. reflexivity.
  Qed.
  Lemma classical_source enc m key data len m' : bytes_mem m -> len < 2 ^ 32 -> enough fuel len -> classical_call enc (big_endian c) m key data len = Ok m' ->
    (if enc then src_encrypt else src_decrypt) (big_endian c) fuel m key data len = Ok m'.
  Proof. destruct enc; intros B L E H; [eapply encrypt_source|eapply decrypt_source]; eassumption. Qed.

  Theorem src_step_refines rnd o s s' st : refines c pl s st -> bytes_mem (smem st) -> astep c o s s' -> src_op_ok c fuel o ->
    exists st', src_step c pl rnd fuel o st = Ok st' /\ refines c pl s' st' /\ bytes_mem (smem st').
  Proof.
    intros R By A Ok0. pose proof (step_refines c pl Sp Ni o s s' st R A) as (st1 & E1 & R1).
    destruct A; cbn [src_step].
    - exists st1. split; [exact E1|]. split; [exact R1|]. cbn [step] in E1. unfold on_mem in E1.
      destruct (store_bytes (smem st) a bs) as [m1| | |] eqn:Es; try discriminate E1. cbn [bind] in E1. injection E1 as <-. cbn [smem].
      assert (M : mapped (smem st) a (N.of_nat (length bs))).
      { intros y Hy. destruct (H y Hy) as [b Hb]. exists b. eapply user_mem; eauto. }
      destruct (proj1 (wp_ok _ _) (store_bytes_ok bs (smem st) a M)) as (m' & E & Q). rewrite Es in E. injection E as <-.
      eapply bytes_same; [|exact Q]. apply bytes_put; assumption.
    - exists st1. split; [exact E1|]. split; [exact R1|]. cbn in E1. injection E1 as <-. exact By.
    - exists st1. split; [exact E1|]. split; [exact R1|]. cbn [step] in E1. unfold dvbcsa_key_alloc in E1. 
      destruct (allocate st (Malloc ctx_size) (Some (p, content))) as [s1 q] eqn:Ea. cbn [bind] in E1. injection E1 as <-.
      eapply allocate_bytes; [exact Ea|exact By|]. intros p0 c0 Q. injection Q as <- <-. exact Ok0.
    - exists st1. split; [exact E1|]. split; [exact R1|]. cbn [step] in E1. unfold dvbcsa_bs_key_alloc in E1.
      destruct (have_mm_malloc pl), (have_posix_memalign pl); cbn [allocate bind] in E1; try (injection E1 as <-; exact By);
        destruct (have_assert c && _)%bool; try discriminate E1; injection E1 as <-; exact By.
    - exists st1. split; [exact E1|]. split; [exact R1|]. cbn [step] in E1. unfold dvbcsa_bs_key_alloc in E1. cbn [src_op_ok] in Ok0.
      assert (Q : bytes_mem (put (smem st) p content)) by (apply bytes_put; assumption).
      destruct (have_mm_malloc pl), (have_posix_memalign pl); cbn [allocate bind] in E1; try (injection E1 as <-; exact Q);
        destruct (have_assert c && _)%bool; try discriminate E1; injection E1 as <-; exact Q.
    - exists st1. split; [exact E1|]. split; [exact R1|]. injection E1 as <-. exact By.
    - exists st1. split; [exact E1|]. split; [exact R1|]. eapply release_bytes; [exact E1|exact By].
    - exists st1. split; [exact E1|]. split; [exact R1|]. cbn in E1. unfold dvbcsa_bs_key_free in E1. destruct (have_mm_malloc pl); injection E1 as <-; exact By.
    - exists st1. split; [exact E1|]. split; [exact R1|]. cbn [step] in E1. unfold dvbcsa_bs_key_free in E1.
      destruct (have_mm_malloc pl); eapply release_bytes; [exact E1|exact By|exact E1|exact By].
    - (* dvbcsa_key_set *)
      cbn [step] in E1. unfold on_mem in E1. destruct (dvbcsa_key_set (big_endian c) (smem st) cwp k) as [m1| | |] eqn:Es; try discriminate E1.
      cbn [bind] in E1. injection E1 as <-.
      rewrite (SourceFacts.key_set_source _ fuel _ _ _ _ Es By ltac:(lia)). cbn [on_mem bind]. eexists. split; [reflexivity|]. split; [exact R1|]. cbn [smem].
      pose proof (rf_ctx _ _ _ _ R k _ _ H) as [C1 C2 C3 C4 C5 C6]. cbn [api_size] in *.
      destruct (key_set_total (big_endian c) (smem st) cwp k cw H0 (user_holds _ _ _ _ _ _ R H1) C3) as (m' & E & So & K & _).
      { right. intros y [Y1 Y2]. pose proof (holds_mapped _ _ _ H1) as Mu. rewrite H0 in Mu.
        apply (user_clear _ _ _ _ _ _ _ _ _ R Mu H y). cbn [api_size]. unfold ctx_size. split; [lia|exact Y1]. }
      rewrite Es in E. injection E as <-. eapply bytes_region; [exact By|exact So|exact (keyed_ctx _ _ _ _ H0 K)|].
      apply (f_equal N.of_nat (ctx_bytes_length cw H0)).
    - (* dvbcsa_bs_key_set *)
      pose proof (rf_ctx _ _ _ _ R k _ _ H) as [C1 C2 C3 C4 C5 C6]. cbn [api_size] in *.
      pose proof (user_holds _ _ _ _ _ _ R H1) as Hc.
      assert (Src : bs_cw_source c cwp k).
      { intros y [Y1 Y2]. pose proof (holds_mapped _ _ _ H1) as Mu. rewrite H0 in Mu.
        apply (user_clear _ _ _ _ _ _ _ _ _ R Mu H y). cbn [api_size]. unfold bs_ctx_size, word_size in *. split; [lia|exact Y1]. }
      destruct (key_set_runs c (fun _ => 0) (smem st) cwp k cw) as (m' & E & So & K & Hk); try assumption.
      { intros z _ T W. rewrite (Ni T) in W. discriminate W. }
      { apply C5. reflexivity. }
      destruct (BsCKeySet.key_set_source c rnd fuel (fun _ => 0) (smem st) cwp k m' Hf ltac:(reflexivity) By E) as (m1 & Em & S1).
      rewrite Em. cbn [on_mem bind]. eexists. split; [reflexivity|].
      assert (So1 : same_outside k (bs_ctx_size c) (smem st) m1) by (intros y Hy; rewrite (S1 y); apply So, Hy).
      assert (Hk1 : holds m1 k (bs_ctx_bytes c cw)) by (apply (holds_ext _ _ _ _ Hk); intros y _; apply S1).
      split.
      + apply (refines_key c pl s st k Bitslice v cw m1); try assumption.
        * eapply keyed_frame; [exact K|]. intros y _. apply S1.
        * eapply (keyed_mapped c Bitslice m1 k cw H0). eapply keyed_frame; [exact K|]. intros y _. apply S1.
      + cbn [smem]. eapply bytes_region; [exact By|exact So1|exact Hk1|].
        rewrite (proj1 (bs_ctx_bytes_ok c cw H0 (proj1 H1))). unfold bs_ctx_size. lia.
    - (* dvbcsa_encrypt, dvbcsa_decrypt *)
      cbn [src_op_ok] in Ok0. cbn [step] in E1. unfold on_mem in E1.
      destruct ((if enc then dvbcsa_encrypt else dvbcsa_decrypt) (big_endian c) (smem st) k data len) as [m1| | |] eqn:Es; try discriminate E1.
      cbn [bind] in E1. injection E1 as <-.
      rewrite (classical_source enc _ _ _ _ _ By H2 Ok0 Es). cbn [on_mem bind]. eexists. split; [reflexivity|]. split; [exact R1|]. cbn [smem].
      pose proof (rf_ctx _ _ _ _ R k _ _ H) as [C1 C2 C3 C4 C5 C6]. destruct (C6 cw eq_refl) as [L K]. cbn [api_keyed api_size] in *.
      assert (P : packet (smem st) k data len buf).
      { split; [exact (user_holds _ _ _ _ _ _ R H0)|]. split; [exact H1|]. split; [exact H2|]. rewrite H1.
        apply (user_clear _ _ _ _ _ _ _ _ _ R (holds_mapped _ _ _ H0) H). }
      destruct (classical_is_csa enc (big_endian c) (smem st) k cw data len buf L K P H3) as (m' & E & Ho & Lo & So).
      unfold classical_call in E. rewrite Es in E. injection E as <-. eapply bytes_region; eassumption.
    - (* dvbcsa_bs_encrypt, dvbcsa_bs_decrypt *)
      cbn [src_op_ok] in Ok0. cbn [step] in E1. unfold on_mem in E1.
      destruct (bs_call enc c jk (smem st) k pcks maxlen) as [m1| | |] eqn:Es; try discriminate E1. cbn [bind] in E1. injection E1 as <-.
      pose proof (rf_ctx _ _ _ _ R k _ _ H) as [C1 C2 C3 C4 C5 C6]. destruct (C6 cw eq_refl) as [L K]. cbn [api_keyed api_size] in *.
      assert (B : batch_array c (smem st) pcks ps).
      { destruct H0 as [B1 B2]. constructor.
        - intros i p buf Ei. destruct (B1 i p buf Ei) as (X1 & X2 & X3 & X4 & X5 & X6).
          split; [exact X1|]. split; [exact X2|]. split; [eapply user_holds; eauto|]. split; [eapply user_holds; eauto|]. split; [eapply user_holds; eauto|exact X6].
        - eapply user_holds; eauto. }
      assert (Rd : call_ready c jk (smem st) k pcks cw ps maxlen) by (constructor; assumption).
      destruct (possible_of_ready _ _ _ _ _ _ _ _ Rd) as (ctx & P & _).
      destruct (source_every enc c rnd fuel jk (smem st) k pcks ctx ps maxlen m1 P Ok0 Hf Es) as (m2 & E2 & S2).
      rewrite E2. cbn [on_mem bind]. eexists. split; [reflexivity|]. split; [eapply refines_same; [exact R1|exact S2|reflexivity]|]. cbn [smem].
      destruct (bs_is_csa enc c jk (smem st) k pcks cw ps maxlen Sp L K H3 B H1 H2) as (m' & E & Q). rewrite Es in E. injection E as <-.
      eapply bytes_same; [|exact S2]. eapply bytes_same; [|exact Q]. apply bytes_write_all; [exact By|]. rewrite Forall_forall. intros [p o] I.
      apply in_map_packets in I as (b & I & ->). cbn [snd]. destruct (bs_keyed_facts c _ k cw L K) as (Fc & _).
      apply on_prefix_bytes; [intros l Fl; apply csa_bytes; assumption|]. apply In_nth_error in I as [i Ei].
      destruct (ba_entry _ _ _ _ H0 i p b Ei) as (_ & _ & X & _). apply X.
  Qed.

  Theorem src_run_refines rnd os : forall s s' st, refines c pl s st -> bytes_mem (smem st) -> asteps c os s s' -> Forall (src_op_ok c fuel) os ->
    exists st', src_run_ops c pl rnd fuel os st = Ok st' /\ refines c pl s' st' /\ bytes_mem (smem st').
  Proof.
    induction os as [|o os IH]; intros s s' st R B A F; inversion A as [|o' os' s0 s1 s2 A1 A2]; subst; cbn [src_run_ops].
    - eauto.
    - inversion F; subst. destruct (src_step_refines (rnd (length os)) _ _ _ _ R B A1 H1) as (st1 & E & R1 & B1). rewrite E. cbn [bind]. eapply IH; eauto.
  Qed.

  Theorem src_history rnd os m s' : bytes_mem m -> asteps c os (no_ctx m) s' -> Forall (src_op_ok c fuel) os ->
    exists st', src_run_ops c pl rnd fuel os (no_heap m) = Ok st' /\
    (forall a b, user s' a = Some b -> smem st' a = Some b) /\
    (forall a, (forall k x v, actx s' k = Some (x, v) -> ~ (k <= a < k + api_size c x)) -> smem st' a = user s' a).
  Proof.
    intros B A F. destruct (src_run_refines rnd os _ _ _ (refines_start c pl m) B A F) as (st' & E & R & _). exists st'. split; [exact E|]. split.
    - intros a b. eapply user_mem, R.
    - apply (rf_user _ _ _ _ R).
  Qed.

  (** ** a batch call is a loop of classical calls *)
  Lemma write_all_ext ps : forall m m', same_mem m m' -> same_mem (write_all m ps) (write_all m' ps).
  Proof.
    induction ps as [|[p buf] ps IH]; intros m m' E; [exact E|]. cbn [write_all]. apply IH. intros x. unfold put. destruct (_ && _)%bool; [reflexivity|apply E].
  Qed.

  Theorem one_by_one enc cw key maxlen ps : length cw = 8%nat -> maxlen <= 184 -> forall m, bytes_mem m -> keyed (big_endian c) m key cw ->
    (forall p buf, In (p, buf) ps -> holds m p buf /\ disjoint key ctx_size p (N.of_nat (length buf))) -> separate ps ->
    exists m', src_one_by_one enc (big_endian c) fuel m key maxlen ps = Ok m' /\ same_mem m' (write_all m (map_packets (on_prefix (csa enc cw) maxlen) ps)).
  Proof.
    intros L Hm. induction ps as [|[p buf] ps IH]; intros m By K P Se; cbn [src_one_by_one]; [exists m; split; [reflexivity|intros x; reflexivity]|].
    destruct (P p buf (or_introl eq_refl)) as [Hb Db].
    set (pre := firstn (N.to_nat maxlen) buf).
    assert (Lp : N.of_nat (length pre) = N.min (N.of_nat (length buf)) maxlen) by (unfold pre; rewrite firstn_length; lia).
    pose proof Hb as Hb'. rewrite <- (firstn_skipn (N.to_nat maxlen) buf) in Hb'. apply holds_app in Hb' as [H1 H2]. fold pre in H1, H2.
    assert (Pk : packet m key p (N.min (N.of_nat (length buf)) maxlen) pre).
    { split; [exact H1|]. split; [symmetry; exact Lp|]. split; [lia|]. intros x [X1 X2]. apply (Db x). split; [exact X1|lia]. }
    assert (Ful : enough fuel (N.min (N.of_nat (length buf)) maxlen)) by (split; lia).
    destruct (classical_is_csa enc (big_endian c) m key cw p _ pre L K Pk ltac:(lia)) as (m1 & E1 & Ho & Lo & So).
    assert (L32 : N.min (N.of_nat (length buf)) maxlen < 2 ^ 32) by lia.
    rewrite (classical_source enc _ _ _ _ _ By L32 Ful E1). cbn [bind].
    set (out := on_prefix (csa enc cw) maxlen buf).
    assert (M1 : same_mem m1 (put m p out)).
    { intros x. assert (Lout : length out = length buf) by (apply on_prefix_length; intros; apply csa_length).
      destruct (N.le_gt_cases p x) as [X1|X1]; [destruct (N.lt_ge_cases x (p + N.of_nat (length buf))) as [X2|X2]|].
      - rewrite put_in by lia. unfold out, on_prefix. fold pre.
        destruct (N.lt_ge_cases x (p + N.of_nat (length pre))) as [X3|X3].
        + rewrite app_nth1 by (rewrite csa_length; lia). destruct Ho as [_ Ho]. rewrite <- Ho by (rewrite csa_length; lia). f_equal. lia.
        + rewrite So by lia. rewrite app_nth2 by (rewrite csa_length; lia). rewrite csa_length. destruct H2 as [_ H2].
          assert (Ll : (length pre + length (skipn (N.to_nat maxlen) buf))%nat = length buf) by (unfold pre; rewrite <- app_length, firstn_skipn; reflexivity).
          rewrite <- H2 by (clear - Ll X2 X3 X1; lia). f_equal. clear - Ll X2 X3 X1. lia.
      - rewrite put_out by lia. apply So. lia.
      - rewrite put_out by lia. apply So. lia. }
    assert (By1 : bytes_mem m1) by (eapply bytes_region; eassumption).
    assert (Out1 : forall a n, disjoint a n p (N.of_nat (length buf)) -> same_inside a n m m1).
    { intros a n D x Hx. apply So. intros Hx2. apply (D x). split; [exact Hx|]. clear - Hx2 Lp. lia. }
    destruct (IH m1 By1) as (m' & E' & S').
    - destruct K as (m0 & cwp & m9 & K1 & K2 & K3 & K4 & K5). exists m0, cwp, m9. repeat (split; [assumption|]). intros x Hx. rewrite (Out1 _ _ Db x Hx). apply K5, Hx.
    - intros q b I. destruct (P q b (or_intror I)) as [Hq Dq]. split; [|exact Dq]. apply (holds_ext _ _ _ _ Hq). apply Out1.
      apply In_nth_error in I as [i Ei]. apply (Se (S i) 0%nat q b p buf); [exact Ei|reflexivity|discriminate].
    - intros i j q b q' b' Ei Ej N. apply (Se (S i) (S j)); [exact Ei|exact Ej|congruence].
    - exists m'. split; [exact E'|]. intros x. rewrite (S' x). cbn [map_packets map write_all fst snd]. apply write_all_ext, M1.
  Qed.
End Src.
