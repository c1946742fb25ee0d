(** BsAnyKey.v -- the batch functions on contexts with arbitrary content. *)
From Verif Require Import Base Mem Spec ModelClassical ClassicalBlock ClassicalKey SpecLemmas SpecFacts ApiSpec ClassicalFacts
  ModelBsWord ModelBsTranspose ModelBsStream ModelBsBlock ModelBsAlgo BsApiSpec BsWordFacts BsView BsTransposeFacts BsStream BsSbox BsRegister BsBlock BsBatch BsKey BsSlot BsAlgo BsFacts BsApiFacts BsMoreFacts BsReady.
Local Open Scope nat_scope.

Lemma byte_of_bits_ok f b : b < 8 -> N.testbit (byte_of_bits f) (N.of_nat b) = f b.
Proof.
  intros H. unfold byte_of_bits. cbn [seq fold_right].
  do 8 (destruct b as [|b]; [destruct (f 0), (f 1), (f 2), (f 3), (f 4), (f 5), (f 6), (f 7); reflexivity|]). lia.
Qed.
Lemma byte_of_bits_byte f : is_byte (byte_of_bits f).
Proof. unfold byte_of_bits. cbn [seq fold_right]. destruct (f 0), (f 1), (f 2), (f 3), (f 4), (f 5), (f 6), (f 7); reflexivity. Qed.

Lemma lane_cw_ok c ctx p : length (lane_cw c ctx p) = 8 /\ Forall is_byte (lane_cw c ctx p).
Proof.
  split; [reflexivity|]. apply Forall_forall. intros x Hx. apply in_map_iff in Hx as (k & <- & _). apply byte_of_bits_byte.
Qed.

Lemma lane_cw_bit c ctx p i : i < 64 ->
  cw_bit (lane_cw c ctx p) i = N.testbit (nth ((56 + i) * word_bytes c + p / 8) ctx 0%N) (N.of_nat (p mod 8)).
Proof.
  intros H. destruct (lane_cw_ok c ctx p) as [L F]. unfold cw_bit.
  assert (E : N.lxor (N.of_nat i) 4 = N.of_nat (8 * (i / 8) + Nat.lxor (i mod 8) 4)).
  { clear - H. do 64 (destruct i as [|i]; [reflexivity|]). lia. }
  assert (B : i mod 8 < 8) by (apply Nat.mod_upper_bound; lia).
  assert (D : i / 8 < 8) by (apply Nat.div_lt_upper_bound; lia).
  assert (X : Nat.lxor (i mod 8) 4 < 8 /\ Nat.lxor (Nat.lxor (i mod 8) 4) 4 = i mod 8).
  { revert B. generalize (i mod 8). intros r Hr. do 8 (destruct r as [|r]; [split; [cbn; lia|reflexivity]|]). lia. }
  destruct X as [X1 X2]. rewrite E, testbit_le_val by assumption.
  set (b := Nat.lxor (i mod 8) 4) in *.
  replace (N.to_nat (N.of_nat (8 * (i / 8) + b) / 8)) with (i / 8).
  2:{ replace (N.of_nat (8 * (i / 8) + b) / 8)%N with (N.of_nat ((8 * (i / 8) + b) / 8)) by (rewrite Nat2N.inj_div; reflexivity).
      rewrite Nat2N.id, Nat.mul_comm, Nat.div_add_l by lia. rewrite (Nat.div_small b) by exact X1. lia. }
  replace (N.of_nat (8 * (i / 8) + b) mod 8)%N with (N.of_nat b).
  2:{ replace (N.of_nat (8 * (i / 8) + b) mod 8)%N with (N.of_nat ((8 * (i / 8) + b) mod 8)) by (rewrite Nat2N.inj_mod; reflexivity).
      f_equal. rewrite Nat.add_comm, Nat.mul_comm, Nat.mod_add by lia. symmetry. apply Nat.mod_small, X1. }
  unfold lane_cw.
  match goal with |- context [map ?f (seq 0 8)] => rewrite (nth_indep _ _ (f 0)) by (rewrite map_length, seq_length; exact D); rewrite (map_nth f) end.
  rewrite seq_nth by exact D. cbn [Nat.add]. rewrite byte_of_bits_ok by exact X1. cbv zeta. rewrite X2.
  rewrite <- (Nat.div_mod i 8) by lia. reflexivity.
Qed.

Section Ctx.
  Context (c : build) (m : mem) (key : N) (ctx : list N).
  Hypothesis (Al : word_aligned c key = true) (H : holds m key ctx) (L : length ctx = 120 * word_bytes c).

  Lemma ctx_word i : i < 120 -> exists w, load_word c m (key + N.of_nat (i * word_bytes c)) = Ok w /\ wf c w /\
    forall b, b < word_bytes c -> nth b w 0%N = nth (i * word_bytes c + b) ctx 0%N.
  Proof.
    intros Hi. assert (Hb : i * word_bytes c + word_bytes c <= length ctx) by (rewrite L; nia).
    exists (firstn (word_bytes c) (skipn (i * word_bytes c) ctx)).
    pose proof (holds_sub _ _ _ (i * word_bytes c) (word_bytes c) H Hb) as S.
    assert (Ls : length (firstn (word_bytes c) (skipn (i * word_bytes c) ctx)) = word_bytes c) by (rewrite firstn_length, skipn_length; lia).
    split.
    - unfold load_word. rewrite aligned_step by exact Al. apply load_bytes_ok'; assumption.
    - split; [split; [exact Ls|apply S]|]. intros b Hbb. rewrite nth_firstn_lt, nth_skipn by exact Hbb. reflexivity.
  Qed.

  Lemma ctx_stream_lanes : key_stream_lanes c m key (fun p => lane_cw c ctx (spos c p)).
  Proof.
    split; [intros; apply lane_cw_ok|]. intros i Hi. destruct (ctx_word (56 + i) ltac:(lia)) as (w & E & W & N).
    exists w. split; [exact E|]. split; [exact W|]. intros p Hp. rewrite lane_cw_bit by exact Hi. unfold mbit.
    rewrite N; [reflexivity|]. apply Nat.div_lt_upper_bound; [lia|]. pose proof (spos_bound c p Hp). lia.
  Qed.

  Lemma ctx_block_lanes : key_lanes c (key_block_word c m key) (lane_round_keys c ctx).
  Proof.
    split; [intros; unfold lane_round_keys; rewrite map_length, seq_length; reflexivity|].
    intros i Hi. destruct (ctx_word i ltac:(lia)) as (w & E & W & N). exists w. split; [exact E|]. split; [exact W|].
    intros b Hb. rewrite N by exact Hb. unfold lane_round_keys.
    match goal with |- context [map ?f (seq 0 56)] => rewrite (nth_indep (map f (seq 0 56)) _ (f 0)) by (rewrite map_length, seq_length; exact Hi); rewrite (map_nth f) end.
    rewrite seq_nth by exact Hi. reflexivity.
  Qed.
End Ctx.


(** ** The mixed cipher *)
Lemma mixed_length enc cw kk d : length (mixed_csa enc cw kk d) = length d.
Proof.
  unfold mixed_csa. destruct (length d <? 8); [reflexivity|]. destruct enc.
  - rewrite stream_cipher_length, block_layer_length; [reflexivity|apply rcbc_enc_length].
  - rewrite block_layer_length by apply rcbc_dec_length. apply stream_cipher_length.
Qed.
Lemma mixed_inv enc cw kk d : mixed_csa (negb enc) cw kk (mixed_csa enc cw kk d) = d.
Proof.
  unfold mixed_csa at 1. rewrite mixed_length. unfold mixed_csa.
  destruct (Nat.ltb_spec (length d) 8) as [|H]; [reflexivity|]. destruct enc; cbn [negb].
  - rewrite stream_cipher_involutive by (rewrite block_layer_length; [exact H|apply rcbc_enc_length]).
    apply block_layer_inv. intros. apply rcbc_dec_enc. apply block_dec_enc.
  - rewrite block_layer_inv by (intros; apply rcbc_enc_dec, block_enc_dec).
    apply stream_cipher_involutive. exact H.
Qed.
Lemma mixed_bytes enc cw kk d : Forall is_byte kk -> Forall is_byte d -> Forall is_byte (mixed_csa enc cw kk d).
Proof.
  intros Fk F. unfold mixed_csa. destruct (length d <? 8); [exact F|]. destruct enc.
  - apply stream_cipher_bytes, block_layer_bytes; [|exact F]. intros; apply rcbc_enc_wf; [|assumption]. intros; apply block_enc_wf; auto.
  - apply block_layer_bytes; [|apply stream_cipher_bytes, F]. intros; apply rcbc_dec_wf; [|assumption]. intros; apply block_dec_wf; auto.
Qed.

Lemma lane_round_keys_bytes c ctx b : length ctx = 120 * word_bytes c -> Forall is_byte ctx -> b < word_bytes c -> Forall is_byte (lane_round_keys c ctx b).
Proof.
  intros L F Hb. apply Forall_forall. intros x Hx. apply in_map_iff in Hx as (r & <- & Hr). apply in_seq in Hr.
  rewrite Forall_forall in F. apply F, nth_In. rewrite L. nia.
Qed.

(** ** The calls *)
Definition at_lanes (enc : bool) (c : build) (ctx : list N) (bit byte : nat -> nat) (i : nat) : list N -> list N :=
  mixed_csa enc (lane_cw c ctx (bit i)) (lane_round_keys c ctx (byte i)).

Theorem any_context enc c jk m key pcks ctx ps maxlen :
  supported c -> word_aligned c key = true -> holds m key ctx -> length ctx = 120 * word_bytes c ->
  stack_ok c jk -> batch_array c m pcks ps -> in_limits c ps -> good_maxlen maxlen ->
  exists m' outs, bs_call enc c jk m key pcks maxlen = Ok m' /\ same_mem m' (write_all m outs) /\ length outs = length ps /\
    forall i p buf, nth_error ps i = Some (p, buf) ->
      nth_error outs i = Some (p, on_prefix (at_lanes enc c ctx (spos c) (bcol c) i) maxlen buf).
Proof.
  intros Sp Al H L J B Li (mb & Hm & ->). pose proof Li as [Hn F184].
  destruct (general_run_f enc c jk m key pcks (at_lanes enc c ctx (spos c) (bcol c)) ps mb) as (m' & outs & E & M & Lo & G);
    try assumption; try (apply fits_of_limits; exact Li).
  - apply mixed_call_run; try assumption; try (apply fits_of_limits; exact Li).
    + apply ctx_stream_lanes; assumption.
    + apply ctx_block_lanes; assumption.
  - exists m', outs. repeat (split; [assumption|]). intros i p buf Ei.
    destruct (G i p buf Ei) as (out & Eo & Lout & H1 & _). rewrite Eo. do 2 f_equal.
    assert (Hb : length buf <= 184) by (rewrite Forall_forall in F184; apply (F184 (p, buf)), (nth_error_In _ _ Ei)).
    rewrite !firstn_all2 in H1 by lia. exact H1.
Qed.

Lemma at_lanes_length enc c ctx bit byte i d : length (at_lanes enc c ctx bit byte i d) = length d.
Proof. apply mixed_length. Qed.

(* the result seen packet by packet *)
Theorem any_each enc c jk m key pcks ctx ps maxlen :
  supported c -> word_aligned c key = true -> holds m key ctx -> length ctx = 120 * word_bytes c ->
  stack_ok c jk -> batch_array c m pcks ps -> in_limits c ps -> good_maxlen maxlen ->
  exists m', bs_call enc c jk m key pcks maxlen = Ok m' /\
    (forall x, (forall p buf, In (p, buf) ps -> ~ (p <= x < p + N.of_nat (length buf))%N) -> m' x = m x) /\
    (forall i p buf, nth_error ps i = Some (p, buf) ->
       (forall j q b, i < j -> nth_error ps j = Some (q, b) -> disjoint p (N.of_nat (length buf)) q (N.of_nat (length b))) ->
       holds m' p (on_prefix (at_lanes enc c ctx (spos c) (bcol c) i) maxlen buf)).
Proof.
  intros Sp Al H L J B Li G. destruct (any_context enc c jk m key pcks ctx ps maxlen Sp Al H L J B Li G) as (m' & outs & E & M & Lo & O).
  exists m'. split; [exact E|].
  assert (Lf : forall i b, length (on_prefix (at_lanes enc c ctx (spos c) (bcol c) i) maxlen b) = length b)
    by (intros; apply on_prefix_length; intros; apply at_lanes_length).
  assert (Back : forall j q b, nth_error outs j = Some (q, b) -> exists b0, nth_error ps j = Some (q, b0) /\ length b = length b0).
  { intros j q b Ej. assert (Hj : j < length ps) by (rewrite <- Lo; apply nth_error_Some; congruence).
    destruct (nth_error ps j) as [[q0 b0]|] eqn:Ep; [|apply nth_error_None in Ep; lia].
    rewrite (O j q0 b0 Ep) in Ej. inversion Ej; subst. exists b0. split; [reflexivity|apply Lf]. }
  split.
  - intros x Hx. rewrite M. apply write_all_out. intros p buf I. apply In_nth_error in I as [j Ej].
    destruct (Back j p buf Ej) as (b0 & Ep & ->). apply Hx, (nth_error_In _ _ Ep).
  - intros i p buf Ei D. apply (holds_meq (write_all m outs)); [intros x; symmetry; apply M|].
    apply (write_all_holds _ _ i); [apply (O i p buf Ei)| |].
    + apply on_prefix_bytes.
      * intros l Fl. apply mixed_bytes; [|exact Fl]. apply lane_round_keys_bytes; [exact L|apply H|].
        apply bpos_bounds. destruct Li as [Hn _]. assert (i < length ps) by (apply nth_error_Some; congruence). lia.
      * apply (entry_bytes_ok c m pcks ps B p buf), (nth_error_In _ _ Ei).
    + intros j q b Hj Ej. destruct (Back j q b Ej) as (b0 & Ep & ->). rewrite Lf. apply (D j); assumption.
Qed.

(** ** In the vocabulary of BsApiSpec.v *)
Lemma possible_each enc c jk m key pcks ctx ps maxlen : call_possible c jk m key pcks ctx ps maxlen ->
  exists m', bs_call enc c jk m key pcks maxlen = Ok m' /\
    (forall x, (forall p buf, In (p, buf) ps -> ~ (p <= x < p + N.of_nat (length buf))%N) -> m' x = m x) /\
    (forall i p buf, nth_error ps i = Some (p, buf) ->
       (forall j q b, i < j -> nth_error ps j = Some (q, b) -> disjoint p (N.of_nat (length buf)) q (N.of_nat (length b))) ->
       holds m' p (on_prefix (at_lanes enc c ctx (spos c) (bcol c) i) maxlen buf)).
Proof.
  intros [Sp Al L H J B Li G]. apply any_each; try assumption.
  - unfold word_aligned. apply N.eqb_eq. exact Al.
  - unfold bs_ctx_size in L. lia.
Qed.

Lemma ctx_lanes c cw : length cw = 8 -> Forall is_byte cw ->
  (forall p, p < 8 * word_bytes c -> lane_cw c (bs_ctx_bytes c cw) p = cw) /\
  (forall b, b < word_bytes c -> lane_round_keys c (bs_ctx_bytes c cw) b = key_schedule cw).
Proof.
  intros Lc Fc. destruct (area_lengths c cw Lc) as [L1 L2]. split.
  - intros p Hp. apply (nth_ext _ _ 0%N 0%N); [rewrite Lc; reflexivity|]. intros k Hk'. change (length (lane_cw c (bs_ctx_bytes c cw) p)) with 8 in Hk'.
    unfold lane_cw. match goal with |- context [map ?f (seq 0 8)] => rewrite (nth_indep (map f (seq 0 8)) _ (f 0)) by (rewrite map_length, seq_length; exact Hk'); rewrite (map_nth f) end.
    rewrite seq_nth by exact Hk'. change (0 + k) with k. cbv zeta.
    assert (Bk : is_byte (nth k cw 0%N)) by (rewrite Forall_forall in Fc; apply Fc, nth_In; lia).
    apply N.bits_inj. intros t. destruct (N.lt_ge_cases t 8) as [C|C].
    + rewrite <- (N2Nat.id t). set (b := N.to_nat t). assert (Hb : b < 8) by (unfold b; lia).
      rewrite byte_of_bits_ok by exact Hb.
      assert (X : Nat.lxor b 4 < 8 /\ N.lxor (N.of_nat (8 * k + Nat.lxor b 4)) 4 = N.of_nat (8 * k + b)).
      { clear - Hk' Hb. do 8 (destruct b as [|b]; [split; [cbn; lia|do 8 (destruct k as [|k]; [reflexivity|]); lia]|]). lia. }
      destruct X as [X1 X2].
      unfold bs_ctx_bytes. rewrite app_nth2 by (rewrite L1; nia). rewrite L1.
      replace ((56 + (8 * k + Nat.lxor b 4)) * word_bytes c + p / 8 - 56 * word_bytes c) with ((8 * k + Nat.lxor b 4) * word_bytes c + p / 8) by nia.
      assert (Hp8 : p / 8 < word_bytes c) by (apply Nat.div_lt_upper_bound; lia).
      assert (Q : nth ((8 * k + Nat.lxor b 4) * word_bytes c + p / 8) (stream_area c cw) 0%N =
                  if cw_bit cw (8 * k + Nat.lxor b 4) then 255%N else 0%N).
      { rewrite <- (nth_skipn (stream_area c cw)). rewrite <- (nth_firstn_lt _ (word_bytes c)) by exact Hp8.
        unfold stream_area. rewrite (concat_words_sub _ _ _ _ 0) by (try (rewrite seq_length; lia); intros x; destruct (cw_bit cw x); apply repeat_length).
        rewrite seq_nth by lia. cbn [Nat.add].
        destruct (cw_bit cw _); [rewrite (nth_indep _ _ 255%N) by (rewrite repeat_length; exact Hp8)|]; apply nth_repeat. }
      rewrite Q. unfold cw_bit. rewrite X2.
      rewrite testbit_le_val by assumption.
      replace (N.to_nat (N.of_nat (8 * k + b) / 8)) with k.
      2:{ replace (N.of_nat (8 * k + b) / 8)%N with (N.of_nat ((8 * k + b) / 8)) by (rewrite Nat2N.inj_div; reflexivity).
          rewrite Nat2N.id, Nat.mul_comm, Nat.div_add_l by lia. rewrite (Nat.div_small b) by exact Hb. lia. }
      replace (N.of_nat (8 * k + b) mod 8)%N with (N.of_nat b).
      2:{ replace (N.of_nat (8 * k + b) mod 8)%N with (N.of_nat ((8 * k + b) mod 8)) by (rewrite Nat2N.inj_mod; reflexivity).
          f_equal. rewrite Nat.add_comm, Nat.mul_comm, Nat.mod_add by lia. symmetry. apply Nat.mod_small, Hb. }
      assert (Hm8 : p mod 8 < 8) by (apply Nat.mod_upper_bound; lia).
      destruct (N.testbit (nth k cw 0%N) (N.of_nat b)); [|apply N.bits_0].
      clear - Hm8. revert Hm8. generalize (p mod 8). intros r Hr. do 8 (destruct r as [|r]; [reflexivity|]). lia.
    + rewrite !(fun x => bits_of_bound x 8); try exact C; try reflexivity; [exact Bk|apply byte_of_bits_byte].
  - intros b Hb. pose proof (key_schedule_length cw Lc) as Lk.
    apply (nth_ext _ _ 0%N 0%N); [rewrite Lk; unfold lane_round_keys; rewrite map_length, seq_length; reflexivity|].
    intros r Hr. unfold lane_round_keys in *. rewrite map_length, seq_length in Hr.
    match goal with |- context [map ?f (seq 0 56)] => rewrite (nth_indep (map f (seq 0 56)) _ (f 0)) by (rewrite map_length, seq_length; exact Hr); rewrite (map_nth f) end.
    rewrite seq_nth by exact Hr. cbn [Nat.add]. unfold bs_ctx_bytes. rewrite app_nth1 by (rewrite L1; nia).
    rewrite <- (nth_skipn (block_area c cw)). rewrite <- (nth_firstn_lt _ (word_bytes c)) by exact Hb.
    unfold block_area. rewrite (concat_words_sub _ _ _ _ 0%N) by (rewrite ?Lk; try lia; intros; apply repeat_length).
    rewrite (nth_indep _ _ (nth r (key_schedule cw) 0%N)) by (rewrite repeat_length; exact Hb). apply nth_repeat.
Qed.

Lemma possible_of_ready c jk m key pcks cw ps maxlen : call_ready c jk m key pcks cw ps maxlen ->
  exists ctx, call_possible c jk m key pcks ctx ps maxlen /\
    (forall p, p < 8 * word_bytes c -> lane_cw c ctx p = cw) /\ (forall b, b < word_bytes c -> lane_round_keys c ctx b = key_schedule cw).
Proof.
  intros [Sp Lc K J B Li G]. destruct (bs_keyed_facts c m key cw Lc K) as (Fc & Al & Hk). exists (bs_ctx_bytes c cw).
  destruct (bs_ctx_bytes_ok c cw Lc Fc) as [Lb Fb].
  split; [|apply ctx_lanes; assumption].
  constructor; try assumption.
  - unfold word_aligned in Al. apply N.eqb_eq in Al. exact Al.
  - unfold bs_ctx_size. rewrite Lb. reflexivity.
Qed.

Lemma covered (ps : packets) x :
  (exists i p buf, nth_error ps i = Some (p, buf) /\ (p <= x < p + N.of_nat (length buf))%N) \/
  (forall p buf, In (p, buf) ps -> ~ (p <= x < p + N.of_nat (length buf))%N).
Proof.
  induction ps as [|[p b] ps IH]; [right; intros p buf []|].
  destruct (N.le_gt_cases p x) as [A|A]; [destruct (N.lt_ge_cases x (p + N.of_nat (length b))) as [A'|A']|].
  - left. exists 0, p, b. split; [reflexivity|lia].
  - destruct IH as [(i & q & bq & E & Q)|IH]; [left; exists (S i), q, bq; auto|right]. intros q bq [I|I]; [inversion I; subst; lia|apply IH, I].
  - destruct IH as [(i & q & bq & E & Q)|IH]; [left; exists (S i), q, bq; auto|right]. intros q bq [I|I]; [inversion I; subst; lia|apply IH, I].
Qed.

(* the packets with other contents at the same places *)
Definition refilled (ps outs : packets) : Prop :=
  length outs = length ps /\ forall i p buf, nth_error ps i = Some (p, buf) -> exists o, nth_error outs i = Some (p, o) /\ length o = length buf.

Lemma refilled_back ps outs i p o : refilled ps outs -> nth_error outs i = Some (p, o) -> exists buf, nth_error ps i = Some (p, buf) /\ length o = length buf.
Proof.
  intros [Lo O] Ei. assert (Hi : i < length ps) by (rewrite <- Lo; apply nth_error_Some; congruence).
  destruct (nth_error ps i) as [[q0 b0]|] eqn:Ep; [|apply nth_error_None in Ep; lia].
  destruct (O i q0 b0 Ep) as (o' & E' & L'). rewrite E' in Ei. inversion Ei; subst. eauto.
Qed.

Lemma batch_refilled c m m' pcks ps outs : batch_array c m pcks ps -> refilled ps outs ->
  (forall i p o, nth_error outs i = Some (p, o) -> holds m' p o) ->
  (forall x, (forall p buf, In (p, buf) ps -> ~ (p <= x < p + N.of_nat (length buf))%N) -> m' x = m x) ->
  batch_array c m' pcks outs.
Proof.
  intros B R H Fr. pose proof R as [Lo O].
  assert (Out : forall x, (pcks <= x < pcks + N.of_nat (length ps * entry_bytes c + ptr_bytes c))%N -> m' x = m x).
  { intros x Hx. apply Fr. intros p buf I Q. apply In_nth_error in I as [i E]. destruct (ba_entry _ _ _ _ B i p buf E) as (_ & _ & _ & _ & _ & D).
    apply (D x). split; assumption. }
  constructor.
  - intros i p o Ei. destruct (refilled_back _ _ _ _ _ R Ei) as (buf & Ep & El). cbv zeta.
    destruct (ba_entry _ _ _ _ B i p buf Ep) as (Hp & Hl & _ & H1 & H2 & D).
    assert (Hi : i < length ps) by (apply nth_error_Some; congruence).
    assert (Ee : entry_bytes c = 2 * ptr_bytes c) by reflexivity.
    assert (E4 : 4 <= ptr_bytes c) by (unfold ptr_bytes; destruct (ptr64 c); lia).
    assert (Hs : i * entry_bytes c + entry_bytes c <= length ps * entry_bytes c) by nia.
    rewrite El, Lo. split; [exact Hp|]. split; [exact Hl|]. split; [apply (H i), Ei|]. split; [|split; [|exact D]].
    + eapply holds_ext; [exact H1|]. rewrite native_bytes_length. intros x Hx. apply Out. lia.
    + eapply holds_ext; [exact H2|]. rewrite native_bytes_length. intros x Hx. apply Out. lia.
  - rewrite Lo. eapply holds_ext; [apply (ba_end _ _ _ _ B)|]. rewrite native_bytes_length. intros x Hx. apply Out. lia.
Qed.

Lemma refill (f : nat -> list N -> list N) ps : (forall i l, length (f i l) = length l) -> exists outs, refilled ps outs /\
  forall i p o, nth_error outs i = Some (p, o) -> exists buf, nth_error ps i = Some (p, buf) /\ o = f i buf.
Proof.
  intros Lf.
  assert (G : forall (ps : packets) a, exists outs : packets, length outs = length ps /\ forall i, nth_error outs i = option_map (fun x => (fst x, f (a + i) (snd x))) (nth_error ps i)).
  { clear ps. induction ps as [|[p b] ps IH]; intros a; [exists []; split; [reflexivity|intros [|]; reflexivity]|].
    destruct (IH (S a)) as (outs & L & H). exists ((p, f a b) :: outs). split; [cbn; lia|]. intros [|i]; cbn [nth_error option_map fst snd].
    - rewrite Nat.add_0_r. reflexivity.
    - rewrite H. replace (S a + i) with (a + S i) by lia. reflexivity. }
  destruct (G ps 0) as (outs & L & H). exists outs. split.
  - split; [exact L|]. intros i p buf E. rewrite H, E. eexists. split; [reflexivity|]. apply Lf.
  - intros i p o E. rewrite H in E. destruct (nth_error ps i) as [[q b]|]; [|discriminate]. cbn [option_map fst snd Nat.add] in E. inversion E; subst. eauto.
Qed.

Theorem any_round_trip enc c jk jk' m key pcks ctx ps maxlen :
  call_possible c jk m key pcks ctx ps maxlen -> stack_ok c jk' -> separate ps -> clear_of ps key (bs_ctx_size c) ->
  exists m1 m2, bs_call enc c jk m key pcks maxlen = Ok m1 /\ bs_call (negb enc) c jk' m1 key pcks maxlen = Ok m2 /\ same_mem m2 m.
Proof.
  intros R J S Cl. destruct (possible_each enc _ _ _ _ _ _ _ _ R) as (m1 & E1 & Fr1 & H1). exists m1.
  pose (f := fun i => on_prefix (at_lanes enc c ctx (spos c) (bcol c) i) maxlen).
  assert (Lf : forall i l, length (f i l) = length l) by (intros; apply on_prefix_length; intros; apply at_lanes_length).
  destruct (refill f ps Lf) as (outs & Rf & Ho).
  assert (H1' : forall i p o, nth_error outs i = Some (p, o) -> holds m1 p o).
  { intros i p o Eo. destruct (Ho i p o Eo) as (buf & Ep & ->). unfold f.
    refine (H1 i p buf Ep _). intros j q b Hj Ej. apply (S i j p buf q b Ep Ej). lia. }
  pose proof R as [Sp Al L Hk _ B Li G].
  assert (R1 : call_possible c jk' m1 key pcks ctx outs maxlen).
  { constructor; try assumption.
    - eapply holds_ext; [exact Hk|]. intros x Hx. apply Fr1. intros p buf I Q. apply (Cl p buf I x). split; [unfold bs_ctx_size in *; lia|exact Q].
    - apply (batch_refilled c m m1 pcks ps outs); assumption.
    - destruct Li as [Hn F]. pose proof Rf as [Lo _]. split; [lia|]. apply Forall_forall. intros [p o] I. apply In_nth_error in I as [i Ei].
      destruct (refilled_back _ _ _ _ _ Rf Ei) as (buf & Ep & El). cbn [snd]. rewrite El. rewrite Forall_forall in F. apply (F (p, buf)), (nth_error_In _ _ Ep). }
  destruct (possible_each (negb enc) _ _ _ _ _ _ _ _ R1) as (m2 & E2 & Fr2 & H2). exists m2. split; [exact E1|]. split; [exact E2|].
  intros x. destruct (covered ps x) as [(i & p & buf & Ep & Q)|D].
  - destruct Rf as [_ Rf']. destruct (Rf' i p buf Ep) as (o & Eo & El). destruct (Ho i p o Eo) as (buf' & Ep' & Eo').
    assert (buf' = buf) by congruence. subst buf' o.
    specialize (H2 i p _ Eo). rewrite El in H2.
    assert (D : forall j q b, i < j -> nth_error outs j = Some (q, b) -> disjoint p (N.of_nat (length buf)) q (N.of_nat (length b))).
    { intros j q b Hj Ej. destruct (Ho j q b Ej) as (b0 & Ep0 & ->). rewrite Lf. apply (S i j p buf q b0 Ep Ep0). lia. }
    specialize (H2 D).
    assert (I : on_prefix (at_lanes (negb enc) c ctx (spos c) (bcol c) i) maxlen (f i buf) = buf)
      by (apply on_prefix_inv; [intros; apply at_lanes_length|intros; apply mixed_inv]).
    rewrite I in H2. destruct (ba_entry _ _ _ _ B i p buf Ep) as (_ & _ & [_ Hm] & _). destruct H2 as [_ H2].
    replace x with (p + N.of_nat (N.to_nat (x - p)))%N by lia. rewrite Hm, H2 by lia. reflexivity.
  - rewrite Fr2, Fr1; [reflexivity|exact D|]. intros p o I. apply In_nth_error in I as [i Ei].
    destruct (refilled_back _ _ _ _ _ Rf Ei) as (buf & Ep & ->). apply D, (nth_error_In _ _ Ep).
Qed.
