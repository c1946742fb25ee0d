(** BsReady.v -- ready states exist: for every supported build, control word and packets within the
    limits there is a memory and a stack in which the batch functions can be called. *)
From Verif Require Import Base Mem Spec ModelClassical ClassicalBlock ClassicalKey SpecLemmas SpecFacts ApiSpec ClassicalFacts
  ModelBsWord ModelBsTranspose ModelBsStream ModelBsBlock ModelBsAlgo BsApiSpec BsWordFacts BsView BsTransposeFacts BsStream BsSbox BsRegister BsBlock BsBatch BsKey BsSlot BsAlgo BsFacts BsApiFacts BsMoreFacts.
Local Open Scope nat_scope.

(** ** The bytes of a batch array *)
Definition entry_image (c : build) (x : N * list N) : list N :=
  native_bytes (big_endian c) (ptr_bytes c) (fst x) ++ native_bytes (big_endian c) 4 (N.of_nat (length (snd x))) ++ repeat 0%N (ptr_bytes c - 4).
Definition array_image (c : build) (ps : packets) : list N :=
  concat (map (entry_image c) ps) ++ native_bytes (big_endian c) (ptr_bytes c) 0.

Lemma ptr_bytes4 c : 4 <= ptr_bytes c.
Proof. unfold ptr_bytes; destruct (ptr64 c); lia. Qed.
Lemma entry_image_length c x : length (entry_image c x) = entry_bytes c.
Proof. unfold entry_image, entry_bytes. rewrite !app_length, !native_bytes_length, repeat_length. pose proof (ptr_bytes4 c). lia. Qed.
Lemma array_image_length c ps : N.of_nat (length (array_image c ps)) = array_size c ps.
Proof. unfold array_image, array_size. rewrite app_length, native_bytes_length, (concat_words_length _ (entry_bytes c)) by apply entry_image_length. reflexivity. Qed.
Lemma entry_image_bytes c x : Forall is_byte (entry_image c x).
Proof. unfold entry_image. apply Forall_app; split; [apply native_bytes_is_byte|]. apply Forall_app; split; [apply native_bytes_is_byte|]. apply Forall_rep. reflexivity. Qed.
Lemma array_image_bytes c ps : Forall is_byte (array_image c ps).
Proof. unfold array_image. apply Forall_app; split; [|apply native_bytes_is_byte]. apply Forall_concat_words. intros; apply entry_image_bytes. Qed.

Definition placed (c : build) (m : mem) (pcks : N) (ps : packets) : Prop :=
  forall p buf, In (p, buf) ps -> (0 < p < 2 ^ N.of_nat (8 * ptr_bytes c))%N /\ (N.of_nat (length buf) < 2 ^ 32)%N /\
    holds m p buf /\ disjoint p (N.of_nat (length buf)) pcks (array_size c ps).

Lemma array_of_image c m pcks ps : holds m pcks (array_image c ps) -> placed c m pcks ps -> batch_array c m pcks ps.
Proof.
  intros H P. pose proof (ptr_bytes4 c) as P4.
  assert (Ll : length (array_image c ps) = length ps * entry_bytes c + ptr_bytes c).
  { pose proof (array_image_length c ps) as Q. unfold array_size in Q. lia. }
  constructor.
  - intros i p buf E e. destruct (P p buf (nth_error_In _ _ E)) as (Hp & HL & Hb & D).
    assert (Hi : i < length ps) by (apply nth_error_Some; congruence).
    split; [exact Hp|]. split; [exact HL|]. split; [exact Hb|].
    assert (S : holds m e (entry_image c (p, buf))).
    { pose proof (holds_sub m pcks _ (i * entry_bytes c) (entry_bytes c) H ltac:(rewrite Ll; nia)) as Q. fold e in Q.
      replace (firstn (entry_bytes c) (skipn (i * entry_bytes c) (array_image c ps))) with (entry_image c (p, buf)) in Q; [exact Q|].
      unfold array_image. rewrite skipn_app, firstn_app.
      assert (Lc : length (concat (map (entry_image c) ps)) = length ps * entry_bytes c) by (apply concat_words_length, entry_image_length).
      rewrite skipn_length, Lc.
      replace (entry_bytes c - (length ps * entry_bytes c - i * entry_bytes c)) with 0 by nia. cbn [firstn]. rewrite app_nil_r.
      rewrite (concat_words_sub (entry_image c) (entry_bytes c) ps i (p, buf)) by (try exact Hi; apply entry_image_length).
      rewrite (nth_error_nth _ _ _ E). reflexivity. }
    unfold entry_image in S. cbn [fst snd] in S. apply holds_app in S as [S1 S2]. apply holds_app in S2 as [S2 _].
    rewrite native_bytes_length in S2. split; [exact S1|]. split; [exact S2|exact D].
  - unfold array_image in H. apply holds_app in H as [_ H]. rewrite (concat_words_length _ (entry_bytes c)) in H by apply entry_image_length. exact H.
Qed.

(** ** A stack *)
Definition zero_word (c : build) : word := repeat 0%N (word_bytes c).
Definition zero_stack (c : build) : junk :=
  let w n := repeat (zero_word c) n in
  mk_junk (repeat 0%N (batch_size c)) (repeat 0%N (batch_size c * 184))
    (mk_regs (w 168) (w 168) (w 4) (w 4) (w 4) (w 4) (w 4) (w 4) (w 64) (zero_word c) (zero_word c) (zero_word c))
    (fun _ => mk_bj (w 512) (w 8) (w (if deinterleave c then 16 else 8))).

Lemma zero_words_ok c n : words_ok c n (repeat (zero_word c) n).
Proof.
  split; [apply repeat_length|]. apply Forall_forall. intros x Hx. apply repeat_spec in Hx. subst x.
  split; [apply repeat_length|apply Forall_rep; reflexivity].
Qed.
Lemma zero_stack_ok c : stack_ok c (zero_stack c).
Proof.
  constructor; cbn [zero_stack jk_len8 jk_data jk_regs jk_block rgA rgB rgX rgY rgZ rgD rgE rgF rgsb rgp rgq rgr bj_r bj_s1 bj_s2]; try (split; [apply zero_words_ok|]);
    try (split; [apply zero_words_ok|]); try apply zero_words_ok; try apply repeat_length.
  split; [apply repeat_length|apply Forall_rep; reflexivity].
Qed.

(** ** A memory *)
Fixpoint place (i : nat) (bufs : list (list N)) : packets :=
  match bufs with [] => [] | b :: r => (0x4000 + N.of_nat (256 * i), b)%N :: place (S i) r end.

Lemma place_nth bufs : forall i j, nth_error (place i bufs) j = option_map (fun b => (0x4000 + N.of_nat (256 * (i + j)), b)%N) (nth_error bufs j).
Proof.
  induction bufs as [|b r IH]; intros i [|j]; cbn [place nth_error option_map]; try reflexivity; [rewrite Nat.add_0_r; reflexivity|].
  rewrite IH. replace (S i + j) with (i + S j) by lia. reflexivity.
Qed.
Lemma place_length bufs : forall i, length (place i bufs) = length bufs.
Proof. induction bufs; intros i; cbn [place length]; auto. Qed.
Lemma place_snd bufs : forall i, map snd (place i bufs) = bufs.
Proof. induction bufs; intros i; cbn [place map snd]; f_equal; auto. Qed.

Lemma place_in bufs i p buf : nth_error (place 0 bufs) i = Some (p, buf) -> i < length bufs /\ nth_error bufs i = Some buf /\ p = (0x4000 + N.of_nat (256 * i))%N.
Proof.
  rewrite place_nth. destruct (nth_error bufs i) eqn:E; [|discriminate]. cbn [option_map]. intros Q. apply (f_equal (fun o => match o with Some x => x | None => (0%N, []) end)) in Q.
  pose proof (f_equal fst Q) as Q1. pose proof (f_equal snd Q) as Q2. cbn [fst snd] in Q1, Q2. subst buf. rewrite Nat.add_0_l in Q1.
  split; [apply nth_error_Some; rewrite E; discriminate|]. split; [reflexivity|symmetry; exact Q1].
Qed.

Lemma place_separate bufs : Forall (fun b => length b <= 256) bufs -> separate (place 0 bufs).
Proof.
  intros F i j p buf q buf' Ei Ej Ne x Hx. apply place_in in Ei as (_ & Ei & ->). apply place_in in Ej as (_ & Ej & ->).
  rewrite Forall_forall in F. pose proof (F buf (nth_error_In _ _ Ei)). pose proof (F buf' (nth_error_In _ _ Ej)). lia.
Qed.

Lemma bs_key_at c kj cw : length cw = 8 -> Forall is_byte cw -> (forall k, In k (key_schedule cw) -> mul_fits c k) ->
  exists m, dvbcsa_bs_key_set c kj (put (zero_mem 0x20000) 0x10 cw) 0x10 0x2000 = Ok m /\
    same_outside 0x2000 (bs_ctx_size c) (put (zero_mem 0x20000) 0x10 cw) m /\ bs_keyed c m 0x2000 cw.
Proof.
  intros L F Fit. assert (W : word_bytes c <= 32) by (unfold word_bytes; destruct (tgt c); lia).
  destruct (key_set_runs c kj (put (zero_mem 0x20000) 0x10 cw) 0x10 0x2000 cw) as (m & E & S & K & _); try assumption.
  - unfold word_aligned, word_bytes; destruct (tgt c); reflexivity.
  - intros x Hx. unfold bs_ctx_size in Hx. rewrite put_out by (rewrite L; lia). exists 0%N. unfold zero_mem.
    destruct (N.ltb_spec x 0x20000); [reflexivity|lia].
  - apply holds_put, F.
  - unfold bs_cw_source, word_size. intros x. lia.
  - eauto.
Qed.

Definition ready_mem (c : build) (cw : list N) (m : mem) (bufs : list (list N)) : mem :=
  put (write_all m (place 0 bufs)) 0x100 (array_image c (place 0 bufs)).

Lemma place_holds m bufs i p buf : Forall (fun b => length b <= 256 /\ Forall is_byte b) bufs -> nth_error (place 0 bufs) i = Some (p, buf) ->
  holds (write_all m (place 0 bufs)) p buf.
Proof.
  intros F E. apply (write_all_holds _ _ i); [exact E| |].
  - apply place_in in E as (_ & E & _). rewrite Forall_forall in F. apply (F buf), (nth_error_In _ _ E).
  - intros j q b Hj Ej. apply (place_separate bufs) with (i := i) (j := j); try assumption; try lia.
    eapply Forall_impl; [|exact F]. intros x H. apply H.
Qed.

Theorem state_exists c cw bufs : length cw = 8 -> Forall is_byte cw ->
  (forall k, In k (key_schedule cw) -> mul_fits c k) ->
  length bufs <= batch_size c -> Forall (fun b => length b <= 256 /\ Forall is_byte b) bufs ->
  exists m, bs_keyed c m 0x2000 cw /\ batch_array c m 0x100 (place 0 bufs) /\ separate (place 0 bufs) /\
    clear_of (place 0 bufs) 0x2000 (bs_ctx_size c) /\ map snd (place 0 bufs) = bufs.
Proof.
  intros L Fc Fit Hn F2. destruct (bs_key_at c (fun _ => 0%N) cw L Fc Fit) as (m1 & _ & _ & K).
  assert (W : word_bytes c <= 32) by (unfold word_bytes; destruct (tgt c); lia).
  assert (Bs : batch_size c <= 256) by (unfold batch_size; destruct (tgt c); lia).
  assert (Pb : ptr_bytes c = 4 \/ ptr_bytes c = 8) by (unfold ptr_bytes; destruct (ptr64 c); auto).
  assert (As : (array_size c (place 0 bufs) <= 0x1008)%N).
  { unfold array_size, entry_bytes. rewrite place_length. destruct Pb as [->| ->]; lia. }
  assert (Hb : forall i p buf, nth_error (place 0 bufs) i = Some (p, buf) -> (0x4000 <= p /\ p + N.of_nat (length buf) <= 0x14000)%N).
  { intros i p buf E. apply place_in in E as (Hi & E & ->). rewrite Forall_forall in F2. pose proof (proj1 (F2 buf (nth_error_In _ _ E))). lia. }
  exists (ready_mem c cw m1 bufs). split; [|split; [|split; [|split]]].
  - apply (keyed_again c m1); [exact K|]. intros x Hx. unfold ready_mem, bs_ctx_size in *.
    rewrite put_out by (rewrite array_image_length; lia). apply write_all_out. intros p buf I Q.
    apply In_nth_error in I as [i E]. specialize (Hb i p buf E). lia.
  - apply array_of_image; [apply holds_put, array_image_bytes|]. intros p buf I. apply In_nth_error in I as [i E]. pose proof (Hb i p buf E) as B.
    assert (D : disjoint p (N.of_nat (length buf)) 0x100 (array_size c (place 0 bufs))) by (intros x; lia).
    split; [|split; [|split]].
    + destruct Pb as [->| ->]; [change (2 ^ N.of_nat (8 * 4))%N with 4294967296%N|change (2 ^ N.of_nat (8 * 8))%N with 18446744073709551616%N]; lia.
    + change (2 ^ 32)%N with 4294967296%N. lia.
    + apply holds_put_disj; [apply (place_holds m1 bufs i); assumption|]. rewrite array_image_length. exact D.
    + exact D.
  - apply place_separate. eapply Forall_impl; [|exact F2]. intros x H. apply H.
  - intros p buf I x Hx. apply In_nth_error in I as [i E]. specialize (Hb i p buf E). unfold bs_ctx_size in Hx. lia.
  - apply place_snd.
Qed.

Theorem ready_exists c cw bufs maxlen : supported c -> length cw = 8 -> Forall is_byte cw ->
  (forall k, In k (key_schedule cw) -> mul_fits c k) ->
  length bufs <= batch_size c -> Forall (fun b => length b <= 184 /\ Forall is_byte b) bufs -> good_maxlen maxlen ->
  exists m, call_ready c (zero_stack c) m 0x2000 0x100 cw (place 0 bufs) maxlen /\ separate (place 0 bufs) /\
    clear_of (place 0 bufs) 0x2000 (bs_ctx_size c) /\ map snd (place 0 bufs) = bufs.
Proof.
  intros Sp L Fc Fit Hn F G.
  assert (F2 : Forall (fun b => length b <= 256 /\ Forall is_byte b) bufs) by (eapply Forall_impl; [|exact F]; cbv beta; intros b [H1 H2]; split; [lia|exact H2]).
  destruct (state_exists c cw bufs L Fc Fit Hn F2) as (m & K & B & S & C & E).
  exists m. split; [|auto]. constructor; try assumption; [apply zero_stack_ok|].
  split; [rewrite place_length; exact Hn|]. rewrite <- (place_snd bufs 0), Forall_map in F. eapply Forall_impl; [|exact F]. intros x H. apply H.
Qed.
