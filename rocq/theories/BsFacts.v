(** BsFacts.v -- consequences of BsAlgo.v in the vocabulary of BsApiSpec.v. *)
From Verif Require Import Base Mem Spec ModelClassical ClassicalBlock ClassicalKey SpecLemmas SpecFacts ApiSpec ClassicalFacts
  ModelBsWord ModelBsTranspose ModelBsStream ModelBsBlock ModelBsAlgo BsApiSpec BsWordFacts BsView BsTransposeFacts BsStream BsSbox BsRegister BsBlock BsBatch BsKey BsSlot BsAlgo.
Local Open Scope nat_scope.

Lemma csa_length enc cw d : length (csa enc cw d) = length d.
Proof. destruct enc; [apply csa_encrypt_length|apply csa_decrypt_length]. Qed.
Lemma csa_bytes enc cw d : length cw = 8 -> Forall is_byte cw -> Forall is_byte d -> Forall is_byte (csa enc cw d).
Proof. destruct enc; [apply csa_encrypt_bytes|apply csa_decrypt_bytes]. Qed.
Lemma csa_short enc cw d : length d < 8 -> csa enc cw d = d.
Proof. intros H. destruct enc; unfold csa, csa_encrypt, csa_decrypt; rewrite (proj2 (Nat.ltb_lt _ _)) by exact H; reflexivity. Qed.
Lemma csa_inv enc cw d : csa (negb enc) cw (csa enc cw d) = d.
Proof. destruct enc; [apply csa_dec_enc|apply csa_enc_dec]. Qed.

Lemma on_prefix_length f n buf : (forall l, length (f l) = length l) -> length (on_prefix f n buf) = length buf.
Proof. intros H. unfold on_prefix. rewrite app_length, H, <- app_length, firstn_skipn. reflexivity. Qed.
Lemma on_prefix_bytes f n buf : (forall l, Forall is_byte l -> Forall is_byte (f l)) -> Forall is_byte buf -> Forall is_byte (on_prefix f n buf).
Proof. intros H F. unfold on_prefix. apply Forall_app. split; [apply H, Forall_firstn, F|apply Forall_skipn, F]. Qed.
Lemma on_prefix_inv f g n buf : (forall l, length (f l) = length l) -> (forall l, g (f l) = l) -> on_prefix g n (on_prefix f n buf) = buf.
Proof.
  intros L I. unfold on_prefix. destruct (Nat.le_gt_cases (N.to_nat n) (length buf)) as [C|C].
  - assert (E : length (f (firstn (N.to_nat n) buf)) = N.to_nat n) by (rewrite L, firstn_length; lia).
    rewrite firstn_app_exact, skipn_app_exact by exact E. rewrite I. apply firstn_skipn.
  - rewrite (skipn_all2 buf) by lia. rewrite app_nil_r. rewrite (firstn_all2 buf) by lia.
    rewrite firstn_all2, skipn_all2 by (rewrite L; lia). rewrite I, app_nil_r. reflexivity.
Qed.
Lemma on_prefix_all f n buf : length buf <= N.to_nat n -> on_prefix f n buf = f buf.
Proof. intros H. unfold on_prefix. rewrite firstn_all2, skipn_all2 by exact H. apply app_nil_r. Qed.

Lemma prefix_on f mb buf : prefix_csa f (Nat.min (length buf) (8 * mb)) buf = on_prefix f (N.of_nat (8 * mb)) buf.
Proof.
  unfold prefix_csa, on_prefix. rewrite Nat2N.id. destruct (Nat.le_gt_cases (length buf) (8 * mb)) as [C|C].
  - rewrite Nat.min_l by exact C. rewrite !firstn_all2, !skipn_all2 by lia. reflexivity.
  - rewrite Nat.min_r by lia. reflexivity.
Qed.

(** ** write_all *)
Lemma write_all_app ps qs : forall m, write_all m (ps ++ qs) = write_all (write_all m ps) qs.
Proof. induction ps as [|[p b] ps IH]; intros m; [reflexivity|]. cbn [app write_all]. apply IH. Qed.

Lemma write_all_out ps : forall m x, (forall p buf, In (p, buf) ps -> ~ (p <= x < p + N.of_nat (length buf))%N) -> write_all m ps x = m x.
Proof.
  induction ps as [|[p b] ps IH]; intros m x H; [reflexivity|]. cbn [write_all].
  rewrite IH by (intros q b' I; apply H; right; exact I). apply put_out. apply H. left; reflexivity.
Qed.

(* the last packet in the list that covers an address decides *)
Lemma write_all_last ps : forall m i p buf x, nth_error ps i = Some (p, buf) -> (p <= x < p + N.of_nat (length buf))%N ->
  (forall j q b, i < j -> nth_error ps j = Some (q, b) -> ~ (q <= x < q + N.of_nat (length b))%N) ->
  write_all m ps x = Some (nth (N.to_nat (x - p)) buf 0%N).
Proof.
  induction ps as [|[p0 b0] ps IH]; intros m i p buf x E Hx H; [destruct i; discriminate|]. cbn [write_all].
  destruct i as [|i].
  - cbn [nth_error] in E. inversion E; subst. rewrite write_all_out; [apply put_in; exact Hx|].
    intros q b I. apply In_nth_error in I as [j Ej]. apply (H (S j)); [lia|exact Ej].
  - apply (IH _ i p buf x); [exact E|exact Hx|]. intros j q b Hj Ej. apply (H (S j)); [lia|exact Ej].
Qed.

Lemma write_all_holds ps m i p buf : nth_error ps i = Some (p, buf) -> Forall is_byte buf ->
  (forall j q b, i < j -> nth_error ps j = Some (q, b) -> disjoint p (N.of_nat (length buf)) q (N.of_nat (length b))) ->
  holds (write_all m ps) p buf.
Proof.
  intros E F H. split; [exact F|]. intros k Hk.
  rewrite (write_all_last ps m i p buf); [do 2 f_equal; lia|exact E|lia|].
  intros j q b Hj Ej Q. apply (H j q b Hj Ej (p + N.of_nat k)%N). split; [lia|exact Q].
Qed.

Lemma write_all_mapped ps : forall m x, m x <> None -> write_all m ps x <> None.
Proof. induction ps as [|[p b] ps IH]; intros m x H; [exact H|]. cbn [write_all]. apply IH. unfold put. nb; try discriminate; exact H. Qed.

Lemma nth_error_map_packets f ps i : nth_error (map_packets f ps) i = option_map (fun x => (fst x, f (snd x))) (nth_error ps i).
Proof. unfold map_packets. apply nth_error_map. Qed.
Lemma in_map_packets f ps p buf : In (p, buf) (map_packets f ps) -> exists b, In (p, b) ps /\ buf = f b.
Proof. intros I. apply in_map_iff in I as ([q b] & E & I). cbn [fst snd] in E. inversion E; subst. eauto. Qed.

(** ** The general case: any batch that fits the packet buffer *)
Lemma fits_of_limits c ps : in_limits c ps -> fits c 0 ps.
Proof.
  intros [Hn F].
  assert (G : forall r i, i + length r <= batch_size c -> Forall (fun x => length (snd x) <= 184) r -> fits c i r).
  { induction r as [|[p b] r IH]; intros i Hi Fr; [exact I|]. cbn [fits length] in *. inversion Fr; subst. cbn [snd] in *.
    split; [unfold slot; nia|]. apply IH; [lia|assumption]. }
  apply G; [cbn; lia|exact F].
Qed.

Lemma taken_nth d ps : forall i j, nth_error (taken d i ps) j = option_map (fun x => (fst x, firstn (length (snd x)) (skipn ((i + j) * slot) d))) (nth_error ps j).
Proof.
  induction ps as [|[p b] ps IH]; intros i j; [destruct j; reflexivity|]. rewrite taken_cons. destruct j as [|j].
  - cbn [nth_error option_map fst snd]. rewrite Nat.add_0_r. reflexivity.
  - cbn [nth_error]. rewrite IH. replace (S i + j) with (i + S j) by lia. reflexivity.
Qed.
Lemma nth_error_ext {A} (l : list A) : forall l', (forall i, nth_error l i = nth_error l' i) -> l = l'.
Proof.
  induction l as [|a l IH]; intros l' H.
  - specialize (H 0). destruct l'; [reflexivity|discriminate].
  - pose proof (H 0) as H0. destruct l' as [|b l']; [discriminate|]. cbn in H0. inversion H0; subst. f_equal. apply IH. intros i. apply (H (S i)).
Qed.

Lemma last_split {A} (l : list A) : forall i x, nth_error l i = Some x -> S i = length l -> l = firstn i l ++ [x].
Proof.
  induction l as [|a l IH]; intros i x E L; [destruct i; discriminate|]. cbn [length] in L. destruct i as [|i].
  - destruct l; [|discriminate]. cbn in *. congruence.
  - cbn [firstn app]. f_equal. apply IH; [exact E|lia].
Qed.

Lemma mixed_same enc cw d : mixed_csa enc cw (key_schedule cw) d = csa enc cw d.
Proof. destruct enc; reflexivity. Qed.

Section Run.
  Context (enc : bool) (c : build) (jk : junk) (m : mem) (key pcks : N) (ps : packets) (mb : nat).
  Hypothesis (Sp : supported c) (J : stack_ok c jk).
  Hypothesis (B : batch_array c m pcks ps) (Hn : length ps <= batch_size c) (Hf : fits c 0 ps) (Hm : mb <= 23).

  Lemma mixed_call_run cw kk : key_stream_lanes c m key cw -> key_lanes c (key_block_word c m key) kk ->
    wp (bs_call enc c jk m key pcks (N.of_nat (8 * mb)))
    (fun m' => exists d2, slots_done (fun i => mixed_csa enc (cw i) (kk (bcol c i))) mb ps (layout 0 ps (jk_data jk)) d2 /\
       meq m' (write_all m (taken d2 0 ps))).
  Proof. intros KS KB. destruct enc; [apply encrypt_run|apply decrypt_run]; assumption. Qed.

  Lemma call_run cw : length cw = 8 -> bs_keyed c m key cw -> wp (bs_call enc c jk m key pcks (N.of_nat (8 * mb)))
    (fun m' => exists d2, slots_done (fun _ => csa enc cw) mb ps (layout 0 ps (jk_data jk)) d2 /\ meq m' (write_all m (taken d2 0 ps))).
  Proof.
    intros Lc K. destruct (bs_keyed_facts c m key cw Lc K) as (Fc & Al & Hk).
    eapply wp_mono; [apply (mixed_call_run (fun _ => cw) (fun _ => key_schedule cw))|].
    - apply key_stream_lanes_const; try assumption. apply ctx_stream; assumption.
    - apply key_words_lanes. apply ctx_block; assumption.
    - intros m' (d2 & S & E). exists d2. split; [|exact E]. destruct S as (S1 & S2 & S3). split; [exact S1|]. split; [|exact S3].
      intros i p buf Ei. rewrite (S2 i p buf Ei). unfold prefix_csa. rewrite mixed_same. reflexivity.
  Qed.
End Run.

Section General.
  Context (result : res mem) (c : build) (jk : junk) (m : mem) (pcks : N) (f : nat -> list N -> list N) (ps : packets) (mb : nat).
  Hypothesis (CR : wp result
    (fun m' => exists d2, slots_done f mb ps (layout 0 ps (jk_data jk)) d2 /\ meq m' (write_all m (taken d2 0 ps)))).
  Hypothesis (J : stack_ok c jk).
  Hypothesis (B : batch_array c m pcks ps) (Hn : length ps <= batch_size c) (Hf : fits c 0 ps) (Hm : mb <= 23).

  Lemma d0_len : length (layout 0 ps (jk_data jk)) = batch_size c * slot.
  Proof. destruct (so_data _ _ J) as [L _]. rewrite (layout_length c); [exact L|exact Hf|exact L]. Qed.

  Lemma d0_sub i p buf L : nth_error ps i = Some (p, buf) -> L <= length buf -> L <= slot ->
    sub (layout 0 ps (jk_data jk)) i L = firstn L buf.
  Proof.
    intros E HL Hs. assert (Hi : i < length ps) by (apply nth_error_Some; congruence).
    assert (Ls : length (sub (layout 0 ps (jk_data jk)) i L) = L) by (apply sub_length; rewrite d0_len; unfold slot in *; nia).
    apply (nth_ext _ _ 0%N 0%N); rewrite Ls; [rewrite firstn_length; lia|]. intros k Hk.
    rewrite sub_nth, nth_firstn_lt by exact Hk.
    apply (layout_at c ps 0 (jk_data jk) i p buf k Hf); try lia; try exact E. destruct (so_data _ _ J) as [Ld _]. exact Ld.
  Qed.

  (* what is written back for each packet *)
  Theorem general_run_res : exists m' outs, result = Ok m' /\ same_mem m' (write_all m outs) /\
    length outs = length ps /\
    forall i p buf, nth_error ps i = Some (p, buf) -> exists out, nth_error outs i = Some (p, out) /\ length out = length buf /\
      (* the first 184 bytes are processed *)
      firstn 184 out = on_prefix (f i) (N.of_nat (8 * mb)) (firstn 184 buf) /\
      (* further bytes come from the next packet's slot *)
      (forall q buf' out', nth_error ps (S i) = Some (q, buf') -> nth_error outs (S i) = Some (q, out') ->
         forall k, k < 184 -> k < length buf' -> 184 + k < length buf -> nth (184 + k) out 0%N = nth k out' 0%N) /\
      (* and are unchanged if there is no next packet *)
      (S i = length ps -> skipn 184 out = skipn 184 buf).
  Proof.
    pose proof CR as W. destruct result as [m'| | |]; cbn [wp] in W; try contradiction.
    destruct W as (d2 & (L2 & S2 & T2) & E). exists m', (taken d2 0 ps). split; [reflexivity|]. split; [exact E|].
    rewrite d0_len in L2.
    split; [unfold taken; rewrite map_length, combine_length, seq_length; lia|].
    intros i p buf Ei. assert (Hi : i < length ps) by (apply nth_error_Some; congruence).
    assert (Hfit : i * slot + length buf <= batch_size c * slot).
    { assert (G : forall r a j, fits c a r -> nth_error r j = Some (p, buf) -> (a + j) * slot + length buf <= batch_size c * slot).
      { induction r as [|[p0 b0] r IH]; intros a j Hfr Ej; [destruct j; discriminate|]. cbn [fits] in Hfr. destruct Hfr as [H1 H2]. destruct j as [|j].
        - cbn [nth_error] in Ej. inversion Ej; subst. rewrite Nat.add_0_r. exact H1.
        - replace (a + S j) with (S a + j) by lia. apply IH; assumption. }
      apply (G ps 0 i Hf Ei). }
    exists (firstn (length buf) (skipn (i * slot) d2)).
    assert (Lo : length (firstn (length buf) (skipn (i * slot) d2)) = length buf) by (rewrite firstn_length, skipn_length; lia).
    split; [rewrite taken_nth, Ei; reflexivity|]. split; [exact Lo|]. split; [|split].
    - rewrite firstn_firstn. specialize (S2 i p buf Ei). unfold sub in S2 at 1. rewrite Nat.min_comm in S2. unfold slot in S2 at 1.
      rewrite S2. fold (sub (layout 0 ps (jk_data jk)) i (Nat.min slot (length buf))).
      rewrite (d0_sub i p buf) by (try exact Ei; lia).
      replace (firstn (Nat.min slot (length buf)) buf) with (firstn 184 buf).
      2:{ destruct (Nat.le_gt_cases (length buf) 184).
          - rewrite !firstn_all2; try reflexivity; unfold slot; lia.
          - f_equal. unfold slot. lia. }
      rewrite <- prefix_on. f_equal. rewrite firstn_length. reflexivity.
    - intros q buf' out' Ei' Eo k Hk Hkb Hkl.
      rewrite taken_nth, Ei' in Eo. unfold option_map, fst, snd in Eo. assert (Eo' : out' = firstn (length buf') (skipn ((0 + S i) * slot) d2)) by congruence.
      rewrite Eo'. rewrite !nth_firstn_lt by lia. rewrite !nth_skipn. f_equal. unfold slot. lia.
    - intros Hl. apply (nth_ext _ _ 0%N 0%N); rewrite !skipn_length, Lo; [reflexivity|]. intros k Hk.
      rewrite !nth_skipn, nth_firstn_lt by lia. rewrite nth_skipn.
      rewrite T2 by (unfold slot; nia).
      assert (Ep : ps = firstn i ps ++ [(p, buf)]).
      { apply last_split; assumption. }
      assert (G : forall r a d, layout a (r ++ [(p, buf)]) d = splice (layout a r d) ((a + length r) * slot) buf).
      { induction r as [|[p0 b0] r IH]; intros a d; cbn [app layout length].
        - rewrite Nat.add_0_r. reflexivity.
        - rewrite IH. do 2 f_equal. lia. }
      rewrite Ep at 1. rewrite G. rewrite firstn_length, Nat.min_l by lia. cbn [Nat.add].
      assert (Lf : length (layout 0 (firstn i ps) (jk_data jk)) = batch_size c * slot).
      { destruct (so_data _ _ J) as [Ld _]. rewrite (layout_length c); [exact Ld| |exact Ld].
        clear - Hf. revert Hf. generalize 0. intros a. revert a i. induction ps as [|[p0 b0] l IH]; intros a [|i] Hf; cbn [firstn fits] in *; auto. destruct Hf; split; auto. }
      rewrite nth_splice by lia. rewrite (proj2 (Nat.leb_le _ _)) by lia. rewrite (proj2 (Nat.ltb_lt _ _)) by lia. cbn [andb]. f_equal. lia.
  Qed.
End General.

Definition general_run_f enc c jk m key pcks f ps mb := general_run_res (bs_call enc c jk m key pcks (N.of_nat (8 * mb))) c jk m pcks f ps mb.

Theorem general_run enc c jk m key pcks cw ps mb : supported c -> length cw = 8 -> bs_keyed c m key cw -> stack_ok c jk ->
  batch_array c m pcks ps -> length ps <= batch_size c -> fits c 0 ps -> mb <= 23 ->
  exists m' outs, bs_call enc c jk m key pcks (N.of_nat (8 * mb)) = Ok m' /\ same_mem m' (write_all m outs) /\
    length outs = length ps /\
    forall i p buf, nth_error ps i = Some (p, buf) -> exists out, nth_error outs i = Some (p, out) /\ length out = length buf /\
      firstn 184 out = on_prefix (csa enc cw) (N.of_nat (8 * mb)) (firstn 184 buf) /\
      (forall q buf' out', nth_error ps (S i) = Some (q, buf') -> nth_error outs (S i) = Some (q, out') ->
         forall k, k < 184 -> k < length buf' -> 184 + k < length buf -> nth (184 + k) out 0%N = nth k out' 0%N) /\
      (S i = length ps -> skipn 184 out = skipn 184 buf).
Proof.
  intros Sp Lc K J B Hn Hf Hm. apply (general_run_f enc c jk m key pcks (fun _ => csa enc cw)); try assumption.
  apply call_run; assumption.
Qed.

(** ** Batches within the documented limits *)
Theorem bs_is_csa enc c jk m key pcks cw ps maxlen :
  supported c -> length cw = 8 -> bs_keyed c m key cw -> stack_ok c jk -> batch_array c m pcks ps -> in_limits c ps -> good_maxlen maxlen ->
  exists m', bs_call enc c jk m key pcks maxlen = Ok m' /\
    same_mem m' (write_all m (map_packets (on_prefix (csa enc cw) maxlen) ps)).
Proof.
  intros Sp Lc K J B Li (mb & Hm & ->). pose proof Li as [Hn F184].
  destruct (general_run enc c jk m key pcks cw ps mb Sp Lc K J B Hn (fits_of_limits c ps Li) Hm) as (m' & outs & E & M & Lo & H).
  exists m'. split; [exact E|]. replace (map_packets _ ps) with outs; [exact M|].
  apply nth_error_ext. intros i. rewrite nth_error_map_packets. destruct (nth_error ps i) as [[p buf]|] eqn:Ei.
  - destruct (H i p buf Ei) as (out & Eo & Lout & H1 & _). rewrite Eo. cbn [option_map fst snd]. do 2 f_equal.
    assert (Hb : length buf <= 184) by (rewrite Forall_forall in F184; apply (F184 (p, buf)), (nth_error_In _ _ Ei)).
    rewrite !firstn_all2 in H1 by lia. exact H1.
  - cbn [option_map]. apply nth_error_None. apply nth_error_None in Ei. lia.
Qed.

Lemma entry_bytes_ok c m pcks ps : batch_array c m pcks ps -> forall p buf, In (p, buf) ps -> Forall is_byte buf /\ holds m p buf.
Proof. intros B p buf I. apply In_nth_error in I as [i E]. destruct (ba_entry _ _ _ _ B i p buf E) as (_ & _ & H & _). split; [apply H|exact H]. Qed.

(* the result seen packet by packet *)
Theorem bs_each enc c jk m key pcks cw ps maxlen :
  supported c -> length cw = 8 -> bs_keyed c m key cw -> stack_ok c jk -> batch_array c m pcks ps -> in_limits c ps -> good_maxlen maxlen ->
  exists m', bs_call enc c jk m key pcks maxlen = Ok m' /\
    (forall x, (forall p buf, In (p, buf) ps -> ~ (p <= x < p + N.of_nat (length buf))%N) -> m' x = m x) /\
    (forall i p buf, nth_error ps i = Some (p, buf) ->
       (forall j q b, i < j -> nth_error ps j = Some (q, b) -> disjoint p (N.of_nat (length buf)) q (N.of_nat (length b))) ->
       holds m' p (on_prefix (csa enc cw) maxlen buf)).
Proof.
  intros Sp Lc K J B Li G. destruct (bs_is_csa enc c jk m key pcks cw ps maxlen Sp Lc K J B Li G) as (m' & E & M).
  exists m'. split; [exact E|]. destruct (bs_keyed_facts c m key cw Lc K) as (Fc & _).
  assert (Lf : forall b, length (on_prefix (csa enc cw) maxlen b) = length b) by (intros; apply on_prefix_length, csa_length).
  split.
  - intros x Hx. rewrite M. apply write_all_out. intros p buf I. apply in_map_packets in I as (b & I & ->). rewrite Lf. apply Hx, I.
  - intros i p buf Ei D. apply (holds_meq (write_all m (map_packets (on_prefix (csa enc cw) maxlen) ps))); [intros x; symmetry; apply M|].
    apply (write_all_holds _ _ i).
    + rewrite nth_error_map_packets, Ei. reflexivity.
    + apply on_prefix_bytes; [intros l Fl; apply csa_bytes; assumption|]. apply (entry_bytes_ok c m pcks ps B p buf), (nth_error_In _ _ Ei).
    + intros j q b Hj Ej. rewrite nth_error_map_packets in Ej. destruct (nth_error ps j) as [[q0 b0]|] eqn:Ej0; [|discriminate].
      cbn [option_map fst snd] in Ej. inversion Ej; subst. rewrite !Lf. apply (D j); assumption.
Qed.
