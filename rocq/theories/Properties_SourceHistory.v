(** Properties_SourceHistory.v -- C51: whole histories of calls of the source text, classical and
    bitslice together.  Vocabulary: SourceHistorySpec.v (src_step, src_run_ops, src_one_by_one),
    HistorySpec.v (operations, the abstract machine: astep), SourceSpec.v, SourceBsSpec.v. *)
From Verif Require Import Base Mem Spec ModelClassical ModelBsWord ModelBsAlgo ApiSpec ClassicalFacts ClassicalExamples KnownAnswers BsApiSpec BsApiFacts BsFacts BsMoreFacts BsReady
  ModelAlloc HistorySpec History SourceSpec SourceBsSpec SourceHistorySpec SourceHistory Properties_Bitslice Properties_History Properties_SourceBs.
Local Open Scope N_scope.

(* C51: every history that the abstract machine (CSA on the program's bytes, contexts as control words)
   can make, made with the source text of the library, goes through without undefined behaviour, and
   leaves in the program's bytes what the abstract machine says; whatever the locals contain *)
Theorem C51_history : forall c pl rnd fuel os m s', supported c -> no_int_product c -> bytes_mem m -> (256 < fuel)%nat ->
  asteps c os (no_ctx m) s' -> Forall (src_op_ok c fuel) os ->
  exists st', src_run_ops c pl rnd fuel os (no_heap m) = Ok st' /\
    (forall a b, user s' a = Some b -> smem st' a = Some b) /\
    (forall a, (forall k x v, actx s' k = Some (x, v) -> ~ (k <= a < k + api_size c x)) -> smem st' a = user s' a).
Proof. intros c pl rnd fuel os m s' Sp Ni B Hf A F. exact (src_history c pl fuel Sp Ni Hf rnd os m s' B A F). Qed.
Print Assumptions C51_history.

(* C51: one call of dvbcsa_bs_encrypt or dvbcsa_bs_decrypt leaves the same memory as a loop of
   dvbcsa_encrypt or dvbcsa_decrypt over the packets with the same control word (source text on both sides) *)
Theorem C51_batch_is_a_loop : forall enc c rnd fuel m key pcks keyc cw ps maxlen,
  supported c -> length cw = 8%nat -> bs_keyed c m key cw -> keyed (big_endian c) m keyc cw -> bytes_mem m ->
  batch_array c m pcks ps -> batch_aligned c pcks -> in_limits c ps -> good_maxlen maxlen -> (256 < fuel)%nat ->
  separate ps -> clear_of ps keyc ctx_size ->
  exists m1 m2, src_bs_call enc c rnd fuel m key pcks maxlen = Ok m1 /\ src_one_by_one enc (big_endian c) fuel m keyc maxlen ps = Ok m2 /\ same_mem m1 m2.
Proof.
  intros enc c rnd fuel m key pcks keyc cw ps maxlen Sp L K Kc By B Ap Li G Hf Se Cl.
  destruct (C50_batch_is_csa enc c rnd fuel m key pcks cw ps maxlen Sp L K B Ap Li G Hf) as (m1 & E1 & S1).
  assert (Hm : maxlen <= 184) by (destruct G as (mb & H & E); lia).
  destruct (one_by_one c fuel Hf enc cw keyc maxlen ps L Hm m By Kc) as (m2 & E2 & S2).
  - intros p buf I. split; [|exact (Cl p buf I)]. apply In_nth_error in I as [i Ei]. destruct (ba_entry _ _ _ _ B i p buf Ei) as (_ & _ & X & _). exact X.
  - exact Se.
  - exists m1, m2. split; [exact E1|]. split; [exact E2|]. intros x. rewrite (S1 x), (S2 x). reflexivity.
Qed.
Print Assumptions C51_batch_is_a_loop.

(* a concrete history (that of Properties_History.v: allocate and key both kinds of contexts, scramble
   with the classical functions, descramble with the batch function, release), run on the source *)
Lemma zero_bytes n : bytes_mem (zero_mem n).
Proof. intros x b. unfold zero_mem. destruct (x <? n); [|discriminate]. intros E. injection E as <-. reflexivity. Qed.
Example C51_case : forall t pl rnd cw pt, length cw = 8%nat -> Forall is_byte cw -> length pt = 184%nat -> Forall is_byte pt ->
  supported (ex_build t) /\ no_int_product (ex_build t) /\ bytes_mem (ex_mem1 t cw pt) /\
  Forall (src_op_ok (ex_build t) 300) (ex_setup t ++ ex_calls t ++ ex_release) /\
  exists s' st', asteps (ex_build t) (ex_setup t ++ ex_calls t ++ ex_release) (no_ctx (ex_mem1 t cw pt)) s' /\
    src_run_ops (ex_build t) pl rnd 300 (ex_setup t ++ ex_calls t ++ ex_release) (no_heap (ex_mem1 t cw pt)) = Ok st' /\ holds (smem st') 0x400 pt.
Proof.
  intros t pl rnd cw pt Lcw Fcw Lpt Fpt.
  assert (Sp : supported (ex_build t)) by (apply ex_supported).
  assert (Ni : no_int_product (ex_build t)) by (intros _; reflexivity).
  assert (By : bytes_mem (ex_mem1 t cw pt)) by (unfold ex_mem1; repeat apply bytes_put; try assumption; [apply zero_bytes|apply array_image_bytes]).
  assert (Fo : Forall (src_op_ok (ex_build t) 300) (ex_setup t ++ ex_calls t ++ ex_release)).
  { assert (Rb : forall n, Forall is_byte (repeat 0xa5 n)).
    { intros n. apply Forall_forall. intros x Hx. apply repeat_spec in Hx. subst x. reflexivity. }
    unfold ex_setup, ex_calls, ex_release. cbn [app].
    repeat (apply Forall_cons; [first [exact I|apply Rb|destruct t; reflexivity|split; [apply Nat.leb_le; reflexivity|apply Nat.ltb_lt; vm_compute; reflexivity]]|]).
    apply Forall_nil. }
  repeat (split; [assumption|]).
  destruct (ex_runs t cw pt Lcw Fcw Lpt Fpt) as (s' & A & H).
  destruct (C51_history (ex_build t) pl rnd 300 _ _ s' Sp Ni By ltac:(apply Nat.ltb_lt; reflexivity) A Fo) as (st' & E & U & _).
  exists s', st'. split; [exact A|]. split; [exact E|]. destruct H as [F H]. split; [exact F|]. intros i Hi. apply U, H, Hi.
Qed.
(* the hypotheses of C51_batch_is_a_loop: both contexts in one memory, a packet of 184 bytes *)
Example C51_loop_case : forall t cw pt, length cw = 8%nat -> Forall is_byte cw -> length pt = 184%nat -> Forall is_byte pt -> exists m,
  bs_keyed (ex_build t) m 0x4000 cw /\ keyed (big_endian (ex_build t)) m 0x2001 cw /\ bytes_mem m /\ batch_array (ex_build t) m 0x100 (ex_ps pt) /\
  batch_aligned (ex_build t) 0x100 /\ in_limits (ex_build t) (ex_ps pt) /\ good_maxlen 184 /\ separate (ex_ps pt) /\ clear_of (ex_ps pt) 0x2001 ctx_size.
Proof.
  intros t cw pt Lcw Fcw Lpt Fpt. set (c := ex_build t). set (pl := mk_platform true true).
  assert (Sp : supported c) by (apply ex_supported).
  assert (Ni : no_int_product c) by (intros _; reflexivity).
  assert (By : bytes_mem (ex_mem1 t cw pt)) by (unfold ex_mem1; repeat apply bytes_put; try assumption; [apply zero_bytes|apply array_image_bytes]).
  destruct (ex_setup_runs t cw pt Lcw Fcw Lpt) as (s & A & U & K).
  assert (Rb : forall n, Forall is_byte (repeat 0xa5 n)).
  { intros n. apply Forall_forall. intros x Hx. apply repeat_spec in Hx. subst x. reflexivity. }
  assert (Fo : Forall (src_op_ok c 300) (ex_setup t)).
  { unfold ex_setup. repeat (apply Forall_cons; [first [exact I|apply Rb]|]). apply Forall_nil. }
  destruct (src_run_refines c pl 300 Sp Ni ltac:(apply Nat.ltb_lt; reflexivity) (fun _ _ _ => 0) _ _ _ _ (refines_start c pl _) By A Fo) as (st & _ & R & B).
  pose proof (rf_ctx _ _ _ _ R 0x4000 Bitslice (Some cw) ltac:(rewrite K; reflexivity)) as C1.
  pose proof (rf_ctx _ _ _ _ R 0x2001 Classical (Some cw) ltac:(rewrite K; reflexivity)) as C2.
  exists (smem st). split; [apply (co_key _ _ _ _ _ _ _ C1 cw eq_refl)|]. split; [apply (co_key _ _ _ _ _ _ _ C2 cw eq_refl)|]. split; [exact B|].
  assert (Hp : holds (smem st) 0x400 pt) by (eapply user_holds; [exact R|]; rewrite U; apply holds_put, Fpt).
  split.
  - apply (ex_array t cw pt Lcw Lpt); [exact Lpt|exact Hp|]. eapply user_holds; [exact R|]. rewrite U.
    unfold ex_mem1. apply holds_put_disj; [apply holds_put, array_image_bytes|]. intros x. rewrite (proj1 (ex_sizes t pt)), Lpt. lia.
  - split; [destruct t; reflexivity|]. split; [split; [pose proof (ex_size t); unfold c, ex_ps; cbn [length]; lia|constructor; [cbn [snd]; lia|constructor]]|].
    split; [exists 23%nat; split; [lia|reflexivity]|]. split.
    + intros [|[|i]] [|[|j]] p b p' b' Ei Ej N; try discriminate Ei; try discriminate Ej. contradiction.
    + intros p b [I|[]]. apply pair_equal_spec in I as [<- <-]. intros x. rewrite Lpt. unfold ctx_size. lia.
Qed.
