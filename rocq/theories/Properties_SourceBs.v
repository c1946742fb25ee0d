(** Properties_SourceBs.v -- C50: the source text of dvbcsa_bs_encrypt and dvbcsa_bs_decrypt (all 27
    functions of the bitslice files that they reach), as parsed by tools/gen_source_bs.py and run
    under the C semantics of BsC.v, is the Common Scrambling Algorithm and has no undefined behaviour.
    Vocabulary: SourceBsSpec.v (src_bs_call, batch_aligned), Spec.v (the cipher), BsApiSpec.v
    (supported, bs_keyed, batch_array, in_limits, good_maxlen, on_prefix, write_all), Mem.v. *)
From Coq Require Import String.
From Verif Require Import Base Mem Spec ModelClassical ModelBsWord ModelBsAlgo ApiSpec KnownAnswers BsApiSpec BsApiFacts BsFacts BsMoreFacts BsReady BsAnyKey
  BsC SourceBitslice SourceBsSpec SourceBsFacts Properties_Bitslice Properties_AnyKey.
From Verif Require Import BsCKeySet BsKey.
Local Open Scope N_scope.

(* C50: on a context that dvbcsa_bs_key_set (of the model) has filled the call ends, every payload is replaced by its CSA (de)scrambling up to
   maxlen, and nothing else changes, whatever automatic objects contain when they come into existence *)
Theorem C50_batch_is_csa : forall enc c rnd fuel m key pcks cw ps maxlen,
  supported c -> length cw = 8%nat -> bs_keyed c m key cw -> batch_array c m pcks ps -> batch_aligned c pcks ->
  in_limits c ps -> good_maxlen maxlen -> (256 < fuel)%nat ->
  exists m', src_bs_call enc c rnd fuel m key pcks maxlen = Ok m' /\
    same_mem m' (write_all m (map_packets (on_prefix (csa enc cw) maxlen) ps)).
Proof.
  intros enc c rnd fuel m key pcks cw ps maxlen Sp L K B Ap Li G Hf.
  assert (R : call_ready c (zero_stack c) m key pcks cw ps maxlen) by (constructor; try assumption; apply zero_stack_ok).
  destruct (possible_of_ready _ _ _ _ _ _ _ _ R) as (ctx & P & _).
  destruct (source_model enc c rnd fuel _ m key pcks ctx ps maxlen P Ap Hf) as (jk & m' & J & E & S).
  exists m'. split; [exact S|]. destruct (bs_is_csa enc c jk m key pcks cw ps maxlen Sp L K J B Li G) as (m1 & E1 & M).
  assert (m1 = m') by congruence. subst m1. exact M.
Qed.
Print Assumptions C50_batch_is_csa.

(* C50: dvbcsa_bs_key_set with any control word fills a context, and writes nothing else; with that
   context, in every later memory that still has it, the batch functions are CSA with this control word *)
Theorem C50_source_is_csa : forall c rnd fuel m cwp key cw,
  length cw = 8%nat -> holds m cwp cw -> mapped m key (bs_ctx_size c) -> key mod word_size c = 0 -> bs_cw_source c cwp key ->
  (* in a uint32 build without -fwrapv: no round key beyond 0x7f (C31) *)
  (tgt c = UINT32 -> wrapv c = false -> Forall (fun k => k < 128) (key_schedule cw)) ->
  bytes_mem m -> (256 < fuel)%nat ->
  exists m1, src_bs_key_set c rnd fuel m cwp key = Ok m1 /\ same_outside key (bs_ctx_size c) m m1 /\
    forall enc rnd fuel m2 pcks ps maxlen,
      supported c -> same_inside key (bs_ctx_size c) m1 m2 -> batch_array c m2 pcks ps -> batch_aligned c pcks ->
      in_limits c ps -> good_maxlen maxlen -> (256 < fuel)%nat ->
      exists m', src_bs_call enc c rnd fuel m2 key pcks maxlen = Ok m' /\
        same_mem m' (write_all m2 (map_packets (on_prefix (csa enc cw) maxlen) ps)).
Proof.
  intros c rnd fuel m cwp key cw L H Mp Al Cs Mf Bm Hf.
  assert (A : word_aligned c key = true) by (unfold word_aligned; apply N.eqb_eq; exact Al).
  assert (Q : forall k, In k (key_schedule cw) -> mul_fits c k).
  { intros k I T W. specialize (Mf T W). rewrite Forall_forall in Mf. exact (Mf k I). }
  pose proof (bs_key_set_ok c (fun _ => 0) m cwp key cw A Mp L H) as W.
  destruct (BsCBlock.wp_get _ _ (W ltac:(unfold bs_cw_source, word_size in Cs; rewrite !Nat2N.inj_mul; exact Cs) Q)) as (m0 & E & M0).
  destruct (key_set_source c rnd fuel (fun _ => 0) m cwp key m0 Hf ltac:(reflexivity) Bm E) as (m1 & E1 & S1).
  pose proof (bs_ctx_bytes_ok c cw L ltac:(apply H)) as (Lb & _).
  exists m1. split; [exact E1|]. split.
  - intros x Hx. rewrite S1, M0. unfold put. rewrite Lb. destruct (N.leb_spec key x); [|reflexivity]. destruct (N.ltb_spec x (key + N.of_nat (120 * word_bytes c))); [|reflexivity].
    exfalso. apply Hx. unfold bs_ctx_size. lia.
  - intros enc rnd' fuel' m2 pcks ps maxlen Sp Si B Ap Li G Hf'. apply C50_batch_is_csa; try assumption.
    exists (fun _ => 0), m, cwp, m0. repeat (split; [assumption|]). intros x Hx. rewrite <- (S1 x). exact (Si x Hx).
Qed.
Print Assumptions C50_source_is_csa.

(* C50: no undefined behaviour, no abort, termination, and no write outside the payloads, whatever
   the context and the packets contain *)
Theorem C50_source_no_undefined_behaviour : forall enc c rnd fuel m key pcks ctx ps maxlen,
  supported c -> key mod word_size c = 0 -> N.of_nat (length ctx) = bs_ctx_size c -> holds m key ctx ->
  batch_array c m pcks ps -> batch_aligned c pcks -> in_limits c ps -> good_maxlen maxlen -> (256 < fuel)%nat ->
  exists m', src_bs_call enc c rnd fuel m key pcks maxlen = Ok m' /\
    forall x, (forall p buf, In (p, buf) ps -> ~ (p <= x < p + N.of_nat (length buf))) -> m' x = m x.
Proof.
  intros enc c rnd fuel m key pcks ctx ps maxlen Sp Al L H B Ap Li G Hf.
  assert (R : call_possible c (zero_stack c) m key pcks ctx ps maxlen) by (constructor; try assumption; apply zero_stack_ok).
  destruct (source_model enc c rnd fuel _ m key pcks ctx ps maxlen R Ap Hf) as (jk & m' & J & E & S).
  exists m'. split; [exact S|]. assert (R' : call_possible c jk m key pcks ctx ps maxlen) by (constructor; assumption).
  exact (C25_any_context enc c jk m key pcks ctx ps maxlen m' R' E).
Qed.
Print Assumptions C50_source_no_undefined_behaviour.

(* C50: the model that the other theorems (C17-C48) are about is refined by the source text, whatever
   the model assumes about the content of its locals *)
Theorem C50_model_is_source : forall enc c rnd fuel jk m key pcks ctx ps maxlen m',
  call_possible c jk m key pcks ctx ps maxlen -> batch_aligned c pcks -> (256 < fuel)%nat ->
  bs_call enc c jk m key pcks maxlen = Ok m' -> exists m1, src_bs_call enc c rnd fuel m key pcks maxlen = Ok m1 /\ same_mem m1 m'.
Proof. exact source_every. Qed.
Print Assumptions C50_model_is_source.

Theorem C50_key_set_model_is_source : forall c rnd fuel kj m cw key m', (256 < fuel)%nat -> (forall a, a < 56 -> kj a < 256) -> bytes_mem m ->
  dvbcsa_bs_key_set c kj m cw key = Ok m' -> exists m1, src_bs_key_set c rnd fuel m cw key = Ok m1 /\ same_mem m1 m'.
Proof. exact key_set_source. Qed.
Print Assumptions C50_key_set_model_is_source.

(* C50: the result depends neither on uninitialised locals nor on the bound on loops *)
Theorem C50_source_deterministic : forall enc c rnd fuel rnd' fuel' m key pcks ctx ps maxlen,
  supported c -> key mod word_size c = 0 -> N.of_nat (length ctx) = bs_ctx_size c -> holds m key ctx ->
  batch_array c m pcks ps -> batch_aligned c pcks -> in_limits c ps -> good_maxlen maxlen -> (256 < fuel)%nat -> (256 < fuel')%nat ->
  exists m1 m2, src_bs_call enc c rnd fuel m key pcks maxlen = Ok m1 /\ src_bs_call enc c rnd' fuel' m key pcks maxlen = Ok m2 /\ same_mem m1 m2.
Proof.
  intros enc c rnd fuel rnd' fuel' m key pcks ctx ps maxlen Sp Al L H B Ap Li G Hf Hf'.
  assert (R : call_possible c (zero_stack c) m key pcks ctx ps maxlen) by (constructor; try assumption; apply zero_stack_ok).
  destruct (C26_any_context enc _ _ _ _ _ _ _ _ R) as (m' & E).
  destruct (source_every enc c rnd fuel _ _ _ _ _ _ _ _ R Ap Hf E) as (m1 & E1 & S1).
  destruct (source_every enc c rnd' fuel' _ _ _ _ _ _ _ _ R Ap Hf' E) as (m2 & E2 & S2).
  exists m1, m2. split; [exact E1|]. split; [exact E2|]. intros x. rewrite (S1 x), (S2 x). reflexivity.
Qed.
Print Assumptions C50_source_deterministic.

(* C50: round trip of the source text, either way, on any context *)
Theorem C50_source_round_trip : forall enc c rnd fuel m key pcks ctx ps maxlen,
  supported c -> key mod word_size c = 0 -> N.of_nat (length ctx) = bs_ctx_size c -> holds m key ctx ->
  batch_array c m pcks ps -> batch_aligned c pcks -> in_limits c ps -> good_maxlen maxlen -> (256 < fuel)%nat ->
  separate ps -> clear_of ps key (bs_ctx_size c) ->
  exists m1 m2, src_bs_call enc c rnd fuel m key pcks maxlen = Ok m1 /\ src_bs_call (negb enc) c rnd fuel m1 key pcks maxlen = Ok m2 /\ same_mem m2 m.
Proof.
  intros enc c rnd fuel m key pcks ctx ps maxlen Sp Al L H B Ap Li G Hf S Cl.
  assert (R : call_possible c (zero_stack c) m key pcks ctx ps maxlen) by (constructor; try assumption; apply zero_stack_ok).
  destruct (source_model enc c rnd fuel _ m key pcks ctx ps maxlen R Ap Hf) as (jk & m1 & J & E1 & S1).
  assert (R' : call_possible c jk m key pcks ctx ps maxlen) by (constructor; assumption).
  destruct (any_round_trip enc c jk jk m key pcks ctx ps maxlen R' J S Cl) as (m1' & m2 & E1' & E2 & S2).
  assert (m1' = m1) by congruence. subst m1'.
  destruct (possible_again enc c jk jk m key pcks ctx ps maxlen m1 R' J S Cl E1) as (outs & R2).
  destruct (source_every (negb enc) c rnd fuel jk m1 key pcks ctx outs maxlen m2 R2 Ap Hf E2) as (m3 & E3 & S3).
  exists m1, m3. split; [exact S1|]. split; [exact E3|]. intros x. rewrite (S3 x). apply S2.
Qed.
Print Assumptions C50_source_round_trip.

(* C50: in a build with assert every other maxlen aborts the program before anything is read or written *)
Theorem C50_source_asserts : forall enc c rnd fuel m key pcks maxlen,
  have_assert c = true -> maxlen < 2 ^ 32 -> ~ good_maxlen maxlen -> src_bs_call enc c rnd fuel m key pcks maxlen = Abort.
Proof.
  intros enc c rnd fuel m key pcks maxlen A H G. apply source_abort; [exact H|exact A|].
  destruct (maxlen_ok maxlen) eqn:E; [|reflexivity]. exfalso. apply G. unfold maxlen_ok in E. apply andb_prop in E as [E1 E2].
  apply N.eqb_eq in E1. apply N.leb_le in E2. exists (N.to_nat (maxlen / 8)).
  pose proof (N.div_mod maxlen 8 ltac:(discriminate)) as D. split; lia.
Qed.
Print Assumptions C50_source_asserts.

(* a concrete case of the hypotheses for each target, and what they give: three packets *)
Example C50_case : forall t enc rnd, exists m m', 
  bs_keyed (ex_build t) m 0x2000 cw1 /\ batch_array (ex_build t) m 0x100 (place 0 ex_bufs) /\ batch_aligned (ex_build t) 0x100 /\
  in_limits (ex_build t) (place 0 ex_bufs) /\ separate (place 0 ex_bufs) /\ clear_of (place 0 ex_bufs) 0x2000 (bs_ctx_size (ex_build t)) /\
  src_bs_call enc (ex_build t) rnd 300 m 0x2000 0x100 96 = Ok m' /\
  same_mem m' (write_all m (map_packets (on_prefix (csa enc cw1) 96) (place 0 ex_bufs))).
Proof.
  intros t enc rnd. destruct (ex_call t 96 good96) as (m & [Sp L K J B Li G] & S & C & E).
  assert (Ap : batch_aligned (ex_build t) 0x100) by (destruct t; reflexivity).
  destruct (C50_batch_is_csa enc _ rnd 300 m 0x2000 0x100 cw1 _ 96 Sp L K B Ap Li G ltac:(lia)) as (m' & R & M).
  exists m, m'. repeat (split; [assumption|]). exact M.
Qed.
Example C50_assert_case : forall t, have_assert (ex_build t) = true /\ ~ good_maxlen 100 /\ ~ good_maxlen 192.
Proof. intros t. split; [destruct t; reflexivity|]. split; intros (mb & H & E); lia. Qed.
Lemma put_bytes m a l : bytes_mem m -> Forall is_byte l -> bytes_mem (put m a l).
Proof.
  intros B F x b. unfold put. destruct ((a <=? x) && (x <? a + N.of_nat (length l)))%bool eqn:Q; [|apply B]. intros E. injection E as <-.
  apply andb_prop in Q as [Q1 Q2]. apply N.leb_le in Q1. apply N.ltb_lt in Q2. rewrite Forall_forall in F. apply F, nth_In. lia.
Qed.
Definition ex_mem50 : mem := put (fun _ => Some 0x5a) 0x10 cw1.
Example C50_key_case : forall t, length cw1 = 8%nat /\ holds ex_mem50 0x10 cw1 /\ mapped ex_mem50 0x2000 (bs_ctx_size (ex_build t)) /\ 0x2000 mod word_size (ex_build t) = 0 /\
  bs_cw_source (ex_build t) 0x10 0x2000 /\ (tgt (ex_build t) = UINT32 -> wrapv (ex_build t) = false -> Forall (fun k => k < 128) (key_schedule cw1)) /\ bytes_mem ex_mem50.
Proof.
  intros t. assert (F : Forall is_byte cw1) by (apply ClassicalExamples.bytes_of; reflexivity).
  split; [reflexivity|]. split; [apply holds_put, F|]. split.
  - intros x _. unfold ex_mem50, put. destruct (_ && _)%bool; eauto.
  - split; [destruct t; reflexivity|]. split; [intros x [Q1 Q2]; lia|]. split; [destruct t; discriminate|].
    apply put_bytes; [intros x b E; injection E as <-; reflexivity|exact F].
Qed.
