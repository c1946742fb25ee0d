(** Properties_SourceOverflow.v -- C31 of the C source text: dvbcsa_bs_key_set in a build with 32-bit words,
    where ISO C's rule for signed overflow applies (no -fwrapv), is defined exactly for the control words
    all of whose round keys are below 0x80.  Vocabulary: SourceBsSpec.v (src_bs_key_set). *)
From Verif Require BsCRun BsCBlock.
From Verif Require Import Base Mem Spec ModelClassical ModelBsWord ModelBsAlgo ApiSpec KnownAnswers BsApiSpec BsApiFacts BsFacts BsMoreFacts BsReady ClassicalExamples
  ClassicalFacts BsKey BsCKeySet SourceBsSpec Properties_Bitslice.
Local Open Scope N_scope.

Lemma words_meq_ub c key kk n : forall i m m1, for_ n i (block_body c key kk) m = UB SignedOverflow -> meq m m1 -> for_ n i (block_body c key kk) m1 = UB SignedOverflow.
Proof.
  induction n as [|n IH]; intros i m m1 E Q; cbn [for_] in *; [discriminate|].
  destruct (block_body c key kk i m) as [x|u| |] eqn:B; cbn [bind] in E; try discriminate.
  - destruct (words_meq c (fun j => k <- aget kk j ;; block_key_word c k) (fun j => key + N.of_nat (j * word_bytes c)) 1 i m m1 x) as (x1 & E1 & Q1).
    + cbn [for_]. unfold block_body in B. destruct (aget kk i); cbn [bind] in *; try discriminate. destruct (block_key_word c a); cbn [bind] in *; try discriminate. rewrite B. reflexivity.
    + exact Q.
    + cbn [for_] in E1. assert (B1 : block_body c key kk i m1 = Ok x1).
      { unfold block_body. destruct (aget kk i); cbn [bind] in *; try discriminate. destruct (block_key_word c a); cbn [bind] in *; try discriminate.
        destruct (store_word c m1 _ _); cbn [bind] in *; try discriminate; exact E1. }
      rewrite B1. cbn [bind]. eapply IH; [exact E|exact Q1].
  - assert (u = SignedOverflow) by congruence. subst u. assert (B1 : block_body c key kk i m1 = UB SignedOverflow); [|rewrite B1; reflexivity].
    unfold block_body in *. destruct (aget kk i); cbn [bind] in *; try exact B. destruct (block_key_word c a); cbn [bind] in *; try exact B.
    exfalso. unfold store_word in B. destruct (word_aligned c _); [|discriminate]. exact (store_no_overflow _ _ _ B).
Qed.

Theorem C31_source_overflow : forall c rnd fuel m cwp key cw,
  tgt c = UINT32 -> wrapv c = false -> word_aligned c key = true -> mapped m key (bs_ctx_size c) ->
  length cw = 8%nat -> holds m cwp cw -> bs_cw_source c cwp key -> bytes_mem m -> (256 < fuel)%nat ->
  (exists k, In k (key_schedule cw) /\ 128 <= k) ->
  src_bs_key_set c rnd fuel m cwp key = UB SignedOverflow.
Proof.
  intros c rnd fuel m cwp key cw T W Al M L H S B Hf X.
  set (kj := fun a => nth (N.to_nat a) (kj0 rnd) 0).
  pose proof (C31_uint32_overflow c kj m cwp key cw T W Al M L H S X) as U.
  destruct c as [t be alt i3 p64 ha wr pt]. cbn [tgt wrapv] in T, W. subst t wr.
  set (c := mk_build UINT32 be alt i3 p64 ha false pt) in *. set (c' := mk_build UINT32 be alt i3 p64 ha true pt).
  destruct (key_set_runs c' kj m cwp key cw) as (m' & E & _); try assumption; [intros k _ _ Q; discriminate Q|].
  unfold dvbcsa_bs_key_set in E, U. apply BsCRun.bind_ok in E as (ck & E1 & E). apply BsCRun.bind_ok in E as (m1 & E2 & E). apply BsCRun.bind_ok in E as (ml & E3 & E). apply BsCRun.bind_ok in E as (kk & E4 & E).
  change (dvbcsa_load_le64 (big_endian c) m cwp = Ok ck) in E1.
  assert (E2' : for_ 64 0 (fun i m => store_word c m (key + N.of_nat ((56 + i) * word_bytes c)) (if N.testbit ck (N.lxor (N.of_nat i) 4) then BS_VAL c 1 255 else BS_VAL c 1 0)) m = Ok m1) by exact E2.
  change (dvbcsa_key_schedule_block (big_endian c) (with_local 56 kj m1) (cwp + 56) 0 = Ok ml) in E3.
  rewrite E1 in U. cbn [bind] in U. rewrite E2' in U. cbn [bind] in U. rewrite E3 in U. cbn [bind] in U. rewrite E4 in U. cbn [bind] in U.
  assert (B1 : bytes_mem m1).
  { eapply (words_keep c (fun i => if N.testbit ck (N.lxor (N.of_nat i) 4) then BS_VAL c 1 255 else BS_VAL c 1 0)); [|exact E2'|exact B].
    intros i. destruct (N.testbit ck (N.lxor (N.of_nat i) 4)); apply (BsWordFacts.wf_val c 1); auto. }
  destruct (kj0_ok rnd) as (L0 & F0).
  assert (Bl : bytes_mem (with_local 56 kj m1)).
  { intros a b. unfold with_local. destruct (a <? 56) eqn:Q; [|apply B1]. intros Y. injection Y as <-. unfold kj.
    destruct (nth_in_or_default (N.to_nat a) (kj0 rnd) 0) as [I|D]; [rewrite Forall_forall in F0; apply F0, I|rewrite D; reflexivity]. }
  assert (Y : exists l, length l = 8%nat /\ holds (with_local 56 kj m1) (cwp + 56) l).
  { unfold dvbcsa_key_schedule_block in E3. apply BsCRun.bind_ok in E3 as (x & E3 & _). exact (load64_holds _ _ _ _ E3 Bl). }
  destruct Y as (l & Ll & Hl).
  destruct (BsCBlock.wp_get _ _ (ClassicalKey.key_schedule_block_ok (big_endian c) _ _ 0 l Hl Ll (BsKey.with_local_mapped 56 kj m1))) as (mx & Ex & Mx).
  assert (mx = ml) by congruence. subst mx. pose proof (ClassicalKey.key_schedule_length l Ll) as Lk.
  assert (Fk : Forall is_byte (key_schedule l)) by (apply ClassicalKey.key_schedule_bytes; [exact Ll|apply Hl]).
  assert (kk = key_schedule l).
  { assert (Q : load_bytes ml 0 56 = Ok (key_schedule l)); [|congruence]. apply load_bytes_ok'; [|exact Lk].
    assert (Hh : holds (put (with_local 56 kj m1) 0 (key_schedule l)) 0 (key_schedule l)) by (apply holds_put, Fk). eapply holds_ext; [exact Hh|]. intros x _. apply Mx. }
  subst kk.
  assert (Mm : meq m1 (fun a => ml (a + 56))).
  { intros a. rewrite Mx. unfold put. rewrite Lk. change (0 + N.of_nat 56) with 56. rewrite (proj2 (N.ltb_ge (a + 56) 56)) by lia. rewrite Bool.andb_false_r. unfold with_local. destruct (N.ltb_spec (a + 56) 56); [lia|]. f_equal. lia. }
  eapply body_ub; [exact Hf|reflexivity|exact E1|exact B|exact B1|exact E2'| |exact E4|exact Fk|].
  - unfold lent. rewrite L0. exact E3.
  - eapply words_meq_ub; [exact U|exact Mm].
Qed.
Print Assumptions C31_source_overflow.

(* so it is defined exactly if all round keys are below 0x80 *)
Theorem C31_source_exact : forall c rnd fuel m cwp key cw,
  tgt c = UINT32 -> wrapv c = false -> word_aligned c key = true -> mapped m key (bs_ctx_size c) ->
  length cw = 8%nat -> holds m cwp cw -> bs_cw_source c cwp key -> bytes_mem m -> (256 < fuel)%nat ->
  ((exists m', src_bs_key_set c rnd fuel m cwp key = Ok m') <-> (forall k, In k (key_schedule cw) -> k < 128)).
Proof.
  intros c rnd fuel m cwp key cw T W Al M L H S B Hf. split.
  - intros (m' & E) k I. destruct (N.lt_ge_cases k 128) as [Q|Q]; [exact Q|].
    rewrite (C31_source_overflow c rnd fuel m cwp key cw T W Al M L H S B Hf (ex_intro _ k (conj I Q))) in E. discriminate E.
  - intros F. destruct (key_set_runs c (fun _ => 0) m cwp key cw) as (m' & E & _); try assumption.
    + intros k I _ _. apply F, I.
    + destruct (key_set_source c rnd fuel (fun _ => 0) m cwp key m' Hf ltac:(intros; reflexivity) B E) as (m1 & E1 & _). eauto.
Qed.
Print Assumptions C31_source_exact.

(* a concrete case: control word 1 of the repository's test (cw1) on an ordinary memory *)
Example C31_source_case : let c := mk_build UINT32 false false false true true false None in let m := put (zero_mem 0x20000) 0x10 cw1 in
  forall rnd, src_bs_key_set c rnd 300 m 0x10 0x2000 = UB SignedOverflow.
Proof.
  intros c m rnd.
  assert (H : holds m 0x10 cw1) by (apply holds_put, bytes_of; reflexivity).
  assert (S : bs_cw_source c 0x10 0x2000) by (intros x; unfold word_size; cbn; lia).
  assert (M : mapped m 0x2000 (bs_ctx_size c)).
  { intros x Hx. unfold m. change (bs_ctx_size c) with 480 in Hx. rewrite put_out by (change (N.of_nat (length cw1)) with 8; lia).
    exists 0. unfold zero_mem. destruct (N.ltb_spec x 0x20000); [reflexivity|lia]. }
  apply (C31_source_overflow c rnd 300 m 0x10 0x2000 cw1); try reflexivity; try assumption.
  - intros x b. assert (V : forall v, v < 256 -> Some v = Some b -> b < 256) by (intros v Hv Y; congruence).
    assert (G : forall k, nth k cw1 0 < 256).
    { intros k. assert (F : Forall is_byte cw1) by (apply bytes_of; reflexivity). rewrite Forall_forall in F.
      destruct (nth_in_or_default k cw1 0) as [I|D]; [apply F, I|rewrite D; reflexivity]. }
    unfold m, put, zero_mem. match goal with |- (if ?t then _ else _) = _ -> _ => destruct t end; [apply V, G|].
    match goal with |- (if ?t then _ else _) = _ -> _ => destruct t end; [apply V; reflexivity|discriminate].
  - apply Nat.ltb_lt. reflexivity.
  - assert (Y : existsb (fun k => 128 <=? k) (key_schedule cw1) = true) by (vm_compute; reflexivity).
    apply existsb_exists in Y. destruct Y as [k [I Q]]. apply N.leb_le in Q. eauto.
Qed.
