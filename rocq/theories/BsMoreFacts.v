(** BsMoreFacts.v -- further properties of the bitslice API. *)
From Verif Require Import Base Mem Spec ModelClassical ClassicalBlock ClassicalKey SpecLemmas SpecFacts ApiSpec ClassicalFacts
  ModelBsWord ModelBsTranspose ModelBsStream ModelBsBlock ModelBsAlgo BsApiSpec BsWordFacts BsView BsTransposeFacts BsStream BsSbox BsRegister BsBlock BsBatch BsKey BsSlot BsAlgo BsFacts BsApiFacts.
Local Open Scope nat_scope.

(** ** Key contexts (C13, C30, C31) *)

(* no int multiplication can overflow *)
Definition no_int_product (c : build) : Prop := tgt c = UINT32 -> wrapv c = true.

Lemma key_set_runs c kj m cwp key cw : (forall k, In k (key_schedule cw) -> mul_fits c k) ->
  word_aligned c key = true -> mapped m key (bs_ctx_size c) -> length cw = 8 -> holds m cwp cw -> bs_cw_source c cwp key ->
  exists m', dvbcsa_bs_key_set c kj m cwp key = Ok m' /\ same_outside key (bs_ctx_size c) m m' /\ bs_keyed c m' key cw /\
    holds m' key (bs_ctx_bytes c cw).
Proof.
  intros F Al Mp L H D. pose proof H as [Fc _].
  assert (D' : disjoint cwp 8 (key + N.of_nat (56 * word_bytes c)) (N.of_nat (64 * word_bytes c))).
  { unfold bs_cw_source, word_size in D. rewrite !Nat2N.inj_mul. exact D. }
  pose proof (bs_key_set_ok c kj m cwp key cw Al Mp L H D' F) as W.
  destruct (dvbcsa_bs_key_set c kj m cwp key) as [m'| | |] eqn:E; cbn [wp] in W; try contradiction.
  destruct (bs_ctx_bytes_ok c cw L Fc) as [Lb Fb].
  exists m'. split; [reflexivity|]. split; [|split].
  - intros x Hx. rewrite W. apply put_out. rewrite Lb. unfold bs_ctx_size in Hx. exact Hx.
  - exists kj, m, cwp, m'. repeat (split; [assumption|]). intros x _. reflexivity.
  - apply (holds_meq (put m key (bs_ctx_bytes c cw))); [intros x; symmetry; apply W|]. apply holds_put, Fb.
Qed.

Lemma keyed_same c m1 key1 m2 key2 cw : length cw = 8 -> bs_keyed c m1 key1 cw -> bs_keyed c m2 key2 cw ->
  forall i, (i < bs_ctx_size c)%N -> m1 (key1 + i)%N = m2 (key2 + i)%N.
Proof.
  intros L K1 K2 i Hi. destruct (bs_keyed_facts c m1 key1 cw L K1) as (F & _ & H1). destruct (bs_keyed_facts c m2 key2 cw L K2) as (_ & _ & H2).
  destruct (bs_ctx_bytes_ok c cw L F) as [Lb _]. unfold bs_ctx_size in Hi.
  destruct H1 as [_ H1]. destruct H2 as [_ H2]. specialize (H1 (N.to_nat i) ltac:(lia)). specialize (H2 (N.to_nat i) ltac:(lia)).
  rewrite N2Nat.id in H1, H2. congruence.
Qed.

Lemma nth_block_area c cw i b : length cw = 8 -> i < 56 -> b < word_bytes c ->
  nth (i * word_bytes c + b) (bs_ctx_bytes c cw) 0%N = nth i (key_schedule cw) 0%N.
Proof.
  intros L Hi Hb. destruct (area_lengths c cw L) as [L1 _]. unfold bs_ctx_bytes. rewrite app_nth1 by nia.
  pose proof (concat_words_sub (fun k => repeat k (word_bytes c)) (word_bytes c) (key_schedule cw) i 0%N) as Q.
  rewrite key_schedule_length in Q by exact L. specialize (Q ltac:(intros; apply repeat_length) Hi).
  fold (block_area c cw) in Q.
  rewrite <- nth_skipn. rewrite <- (nth_firstn_lt _ (word_bytes c)) by exact Hb. rewrite Q.
  rewrite (nth_indep _ _ (nth i (key_schedule cw) 0%N)) by (rewrite repeat_length; exact Hb). apply nth_repeat.
Qed.

Lemma nth_stream_area c cw i b : length cw = 8 -> i < 64 -> b < word_bytes c ->
  nth ((56 + i) * word_bytes c + b) (bs_ctx_bytes c cw) 0%N = if cw_bit cw i then 255%N else 0%N.
Proof.
  intros L Hi Hb. destruct (area_lengths c cw L) as [L1 _]. unfold bs_ctx_bytes. rewrite app_nth2 by nia. rewrite L1.
  replace ((56 + i) * word_bytes c + b - 56 * word_bytes c) with (i * word_bytes c + b) by nia.
  pose proof (concat_words_sub (fun i => if cw_bit cw i then repeat 255%N (word_bytes c) else repeat 0%N (word_bytes c)) (word_bytes c) (seq 0 64) i 0) as Q.
  specialize (Q ltac:(intros x; cbv beta; destruct (cw_bit cw x); apply repeat_length)). rewrite seq_length in Q. specialize (Q Hi).
  fold (stream_area c cw) in Q. rewrite seq_nth in Q by exact Hi. cbn [Nat.add] in Q.
  rewrite <- nth_skipn. rewrite <- (nth_firstn_lt _ (word_bytes c)) by exact Hb. rewrite Q.
  destruct (cw_bit cw i).
  - rewrite (nth_indep _ _ 255%N) by (rewrite repeat_length; exact Hb). apply nth_repeat.
  - apply nth_repeat.
Qed.

Lemma bs_key_bytes c m key cw : length cw = 8 -> bs_keyed c m key cw ->
  (forall i b, i < 56 -> b < word_bytes c -> m (key + N.of_nat (i * word_bytes c + b))%N = Some (nth i (key_schedule cw) 0%N)) /\
  (forall i b, i < 64 -> b < word_bytes c -> m (key + N.of_nat ((56 + i) * word_bytes c + b))%N = Some (if cw_bit cw i then 255%N else 0%N)).
Proof.
  intros L K. destruct (bs_keyed_facts c m key cw L K) as (F & _ & [_ H]). destruct (bs_ctx_bytes_ok c cw L F) as [Lb _]. split; intros i b Hi Hb.
  - rewrite H by (rewrite Lb; nia). f_equal. apply nth_block_area; assumption.
  - rewrite H by (rewrite Lb; nia). f_equal. apply nth_stream_area; assumption.
Qed.

(** ** C28 *)
Lemma bs_bad_maxlen enc c jk m key pcks maxlen : have_assert c = true -> ~ good_maxlen maxlen -> bs_call enc c jk m key pcks maxlen = Abort.
Proof.
  intros Ha Hm. assert (E : maxlen_ok maxlen = false).
  { destruct (maxlen_ok maxlen) eqn:E; [|reflexivity]. exfalso. apply Hm, good_maxlen_ok, E. }
  destruct enc; cbn [bs_call]; unfold dvbcsa_bs_encrypt, dvbcsa_bs_decrypt; rewrite Ha, E; reflexivity.
Qed.

(** ** C29: what lies beyond the terminator does not matter *)
Definition array_size (c : build) (ps : packets) : N := N.of_nat (length ps * entry_bytes c + ptr_bytes c).

Lemma ready_elsewhere c jk m key pcks cw ps maxlen m2 : call_ready c jk m key pcks cw ps maxlen ->
  same_inside key (bs_ctx_size c) m m2 -> same_inside pcks (array_size c ps) m m2 ->
  (forall p buf, In (p, buf) ps -> same_inside p (N.of_nat (length buf)) m m2) -> call_ready c jk m2 key pcks cw ps maxlen.
Proof.
  intros R Sk Sa Sp. destruct R as [Su L K J B Li G]. constructor; try assumption.
  - apply (keyed_again c m); assumption.
  - assert (Ee : entry_bytes c = 2 * ptr_bytes c) by reflexivity.
    assert (Ep : 4 <= ptr_bytes c) by (unfold ptr_bytes; destruct (ptr64 c); lia).
    unfold array_size in Sa. constructor.
    + intros i p buf E. destruct (ba_entry _ _ _ _ B i p buf E) as (Hp & HL & Hb & H1 & H2 & D).
      assert (Hi : i < length ps) by (apply nth_error_Some; congruence).
      assert (Hs : (i * entry_bytes c + entry_bytes c <= length ps * entry_bytes c)) by nia.
      split; [exact Hp|]. split; [exact HL|]. split; [|split; [|split; [|exact D]]].
      * eapply holds_ext; [exact Hb|]. intros x Hx. apply (Sp p buf (nth_error_In _ _ E)). exact Hx.
      * eapply holds_ext; [exact H1|]. rewrite native_bytes_length. intros x Hx. apply Sa. lia.
      * eapply holds_ext; [exact H2|]. rewrite native_bytes_length. intros x Hx. apply Sa. lia.
    + eapply holds_ext; [apply (ba_end _ _ _ _ B)|]. rewrite native_bytes_length. intros x Hx. apply Sa. lia.
Qed.

Lemma bs_local enc c jk m key pcks cw ps maxlen m2 : call_ready c jk m key pcks cw ps maxlen ->
  same_inside key (bs_ctx_size c) m m2 -> same_inside pcks (array_size c ps) m m2 ->
  (forall p buf, In (p, buf) ps -> same_inside p (N.of_nat (length buf)) m m2) ->
  exists m' m2', bs_call enc c jk m key pcks maxlen = Ok m' /\ bs_call enc c jk m2 key pcks maxlen = Ok m2' /\
    (forall p buf, In (p, buf) ps -> same_inside p (N.of_nat (length buf)) m' m2') /\
    (forall x, (forall p buf, In (p, buf) ps -> ~ (p <= x < p + N.of_nat (length buf))%N) -> m' x = m x /\ m2' x = m2 x).
Proof.
  intros R Sk Sa Sp. pose proof (ready_elsewhere _ _ _ _ _ _ _ _ m2 R Sk Sa Sp) as R2.
  destruct (ready_csa enc _ _ _ _ _ _ _ _ R) as (m' & E & M). destruct (ready_csa enc _ _ _ _ _ _ _ _ R2) as (m2' & E2 & M2).
  exists m', m2'. split; [exact E|]. split; [exact E2|].
  assert (Lf : forall l, length (on_prefix (csa enc cw) maxlen l) = length l) by (intros; apply on_prefix_length, csa_length).
  split.
  - intros p buf I x Hx. rewrite M, M2.
    assert (G : forall qs ma mb, ((exists q b, In (q, b) qs /\ (q <= x < q + N.of_nat (length b))%N) \/ ma x = mb x) -> write_all mb qs x = write_all ma qs x).
    { induction qs as [|[q b] qs IH]; intros ma mb H; cbn [write_all].
      - destruct H as [(? & ? & [] & _)|H]; symmetry; exact H.
      - apply IH. destruct H as [(q' & b' & [I'|I'] & Hq)|H].
        + inversion I'; subst. right. rewrite !put_in by exact Hq. reflexivity.
        + left. eauto.
        + right. unfold put. rewrite H. reflexivity. }
    apply G. left. exists p, (on_prefix (csa enc cw) maxlen buf). split; [|rewrite Lf; exact Hx].
    unfold map_packets. apply in_map_iff. exists (p, buf). split; [reflexivity|exact I].
  - intros x Hx. rewrite M, M2. split; apply write_all_out; intros p buf I; apply in_map_packets in I as (b & I & ->); rewrite Lf; apply Hx, I.
Qed.

Lemma bs_after_end enc c jk m key pcks cw ps maxlen a bs : call_ready c jk m key pcks cw ps maxlen ->
  (* the changed bytes lie after the terminating NULL pointer, outside the packets and the context *)
  (pcks + array_size c ps <= a)%N -> disjoint key (bs_ctx_size c) a (N.of_nat (length bs)) -> clear_of ps a (N.of_nat (length bs)) ->
  exists m' m2', bs_call enc c jk m key pcks maxlen = Ok m' /\ bs_call enc c jk (put m a bs) key pcks maxlen = Ok m2' /\ same_mem m2' (put m' a bs).
Proof.
  intros R Ha Dk Cl.
  assert (S : forall p n, disjoint p n a (N.of_nat (length bs)) -> same_inside p n m (put m a bs)).
  { intros p n D x Hx. rewrite put_out; [reflexivity|]. intros Q. apply (D x). split; assumption. }
  destruct (bs_local enc c jk m key pcks cw ps maxlen (put m a bs) R) as (m' & m2' & E & E2 & I1 & O1).
  - apply S, Dk.
  - apply S. intros x. unfold array_size in *. lia.
  - intros p buf I. apply S. intros x Hx. apply (Cl p buf I x). tauto.
  - exists m', m2'. split; [exact E|]. split; [exact E2|]. intros x.
    assert (D : (exists p buf, In (p, buf) ps /\ (p <= x < p + N.of_nat (length buf))%N) \/
                (forall p buf, In (p, buf) ps -> ~ (p <= x < p + N.of_nat (length buf))%N)).
    { clear. induction ps as [|[p b] ps IH]; [right; intros p buf []|].
      destruct (N.le_gt_cases p x) as [A|A]; [destruct (N.lt_ge_cases x (p + N.of_nat (length b))) as [A'|A']|].
      - left. exists p, b. split; [left; reflexivity|lia].
      - destruct IH as [(q & bq & E & Q)|IH]; [left; exists q, bq; split; [right|]; assumption|right]. intros q bq [I|I]; [inversion I; subst; lia|apply IH, I].
      - destruct IH as [(q & bq & E & Q)|IH]; [left; exists q, bq; split; [right|]; assumption|right]. intros q bq [I|I]; [inversion I; subst; lia|apply IH, I]. }
    destruct D as [(p & buf & I & Q)|D].
    + rewrite put_out; [apply (I1 p buf I x Q)|]. intros Q'. apply (Cl p buf I x). split; assumption.
    + destruct (O1 x D) as [X1 X2]. rewrite X2. unfold put. rewrite X1. reflexivity.
Qed.

Lemma bs_empty enc c jk m key pcks cw maxlen : call_ready c jk m key pcks cw [] maxlen ->
  exists m', bs_call enc c jk m key pcks maxlen = Ok m' /\ same_mem m' m.
Proof. intros R. destruct (ready_csa enc _ _ _ _ _ _ _ _ R) as (m' & E & M). exists m'. split; [exact E|exact M]. Qed.

(** ** C36: overlapping packets *)
Lemma bs_last_wins enc c jk m key pcks cw ps maxlen : call_ready c jk m key pcks cw ps maxlen ->
  exists m', bs_call enc c jk m key pcks maxlen = Ok m' /\
    forall i p buf x, nth_error ps i = Some (p, buf) -> (p <= x < p + N.of_nat (length buf))%N ->
      (forall j q b, i < j -> nth_error ps j = Some (q, b) -> ~ (q <= x < q + N.of_nat (length b))%N) ->
      m' x = Some (nth (N.to_nat (x - p)) (on_prefix (csa enc cw) maxlen buf) 0%N).
Proof.
  intros R. destruct (ready_csa enc _ _ _ _ _ _ _ _ R) as (m' & E & M). exists m'. split; [exact E|].
  assert (Lf : forall l, length (on_prefix (csa enc cw) maxlen l) = length l) by (intros; apply on_prefix_length, csa_length).
  intros i p buf x Ei Hx Hl. rewrite M. apply (write_all_last _ m i); [rewrite nth_error_map_packets, Ei; reflexivity|rewrite Lf; exact Hx|].
  intros j q b Hj Ej. rewrite nth_error_map_packets in Ej. destruct (nth_error ps j) as [[q0 b0]|] eqn:Ej0; [|discriminate].
  cbn [option_map fst snd] in Ej. inversion Ej; subst. rewrite Lf. apply (Hl j q b0); assumption.
Qed.

Lemma bs_twice enc c jk m key pcks cw ps maxlen i j p buf : call_ready c jk m key pcks cw ps maxlen -> i <> j ->
  nth_error ps i = Some (p, buf) -> nth_error ps j = Some (p, buf) ->
  (forall k q b, k <> i -> k <> j -> nth_error ps k = Some (q, b) -> disjoint p (N.of_nat (length buf)) q (N.of_nat (length b))) ->
  exists m', bs_call enc c jk m key pcks maxlen = Ok m' /\ holds m' p (on_prefix (csa enc cw) maxlen buf).
Proof.
  intros R Hij Ei Ej D. destruct (ready_each enc _ _ _ _ _ _ _ _ R) as (m' & E & _ & H). exists m'. split; [exact E|].
  destruct (Nat.lt_ge_cases i j) as [C|C].
  - apply (H j p buf Ej). intros k q b Hk Ek. apply (D k q b); [lia|lia|exact Ek].
  - apply (H i p buf Ei). intros k q b Hk Ek. apply (D k q b); [lia|lia|exact Ek].
Qed.

(** ** C37: lanes *)
Lemma digits_inj p x y x' y' : y < p -> y' < p -> p * x + y = p * x' + y' -> x = x' /\ y = y'.
Proof. intros Hy Hy' E. assert (x = x') by nia. subst. lia. Qed.

(* stream cipher: packet i occupies bit spos i of every word *)
Lemma spos_inj c i j : i < batch_size c -> j < batch_size c -> spos c i = spos c j -> i = j.
Proof.
  intros Hi Hj E.
  assert (Hn : 0 < n_lanes c) by (unfold n_lanes, lane_bytes, word_bytes; destruct (tgt c); cbv; lia).
  assert (Eb : batch_size c = P c * n_lanes c) by (unfold P, n_lanes, lane_bytes, batch_size, word_bytes; destruct (tgt c); reflexivity).
  unfold spos in E. apply digits_inj in E as [E1 E2]; try (apply div_lt; lia).
  rewrite (Nat.div_mod i (n_lanes c)), (Nat.div_mod j (n_lanes c)) by lia. congruence.
Qed.

(* block cipher: packet i occupies byte bcol i of the words of group bgrp i *)
Lemma bpos_inj c i j : i < batch_size c -> j < batch_size c -> bgrp c i = bgrp c j -> bcol c i = bcol c j -> i = j.
Proof.
  intros Hi Hj Eg Ec. set (e := word_bytes c / 4). 
  assert (He : 0 < e) by (unfold e, word_bytes; destruct (tgt c); cbv; lia).
  assert (Eb : batch_size c = e * 32) by (unfold e, batch_size, word_bytes; destruct (tgt c); reflexivity).
  unfold bgrp, bcol in *. fold e in Eg, Ec.
  assert (forall k, k < batch_size c -> k / e / 8 < 4).
  { intros k Hk. apply div_lt; [lia|]. apply div_lt; nia. }
  apply digits_inj in Ec as [E1 E2]; auto.
  rewrite (Nat.div_mod i e), (Nat.div_mod j e) by lia. rewrite E1. f_equal. f_equal.
  rewrite (Nat.div_mod (i / e) 8), (Nat.div_mod (j / e) 8) by lia. congruence.
Qed.
