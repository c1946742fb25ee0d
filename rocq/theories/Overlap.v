(** Overlap.v -- proofs behind Properties_Overlap.v: what the key set functions do when the control
    word shares memory with the context. *)
From Coq Require Import ZifyBool ZifyNat ZifyN.
From Verif Require Import Base Mem Tables Spec ModelClassical ClassicalBlock ClassicalKey ClassicalStream SpecLemmas ClassicalAlgo SpecFacts ApiSpec ClassicalFacts
  ModelBsWord ModelBsTranspose ModelBsStream ModelBsBlock ModelBsAlgo BsApiSpec BsWordFacts BsView BsTransposeFacts BsStream BsRegister BsKey BsSlot BsAlgo BsFacts BsApiFacts BsMoreFacts BsAnyKey OverlapSpec.
Local Open Scope N_scope.

(** ** Classical *)
Lemma nth_map_seq8 {A} (f : nat -> A) d i : (i < 8)%nat -> nth i (map f (seq 0 8)) d = f i.
Proof. intros H. rewrite (nth_indep _ _ (f 0%nat)) by (rewrite map_length, seq_length; exact H). rewrite map_nth, seq_nth by exact H. reflexivity. Qed.

Lemma second_reading_length cw cwp key : length (second_reading cw cwp key) = 8%nat.
Proof. reflexivity. Qed.

Lemma nth_byte l i : Forall is_byte l -> is_byte (nth i l 0).
Proof.
  intros F. destruct (Nat.lt_ge_cases i (length l)) as [C|C].
  - rewrite Forall_forall in F. apply F, nth_In, C.
  - rewrite nth_overflow by exact C. reflexivity.
Qed.

Lemma second_reading_bytes cw cwp key : Forall is_byte cw -> Forall is_byte (second_reading cw cwp key).
Proof.
  intros F. unfold second_reading. apply Forall_forall. intros x Hx. apply in_map_iff in Hx as (i & <- & _). cbv zeta.
  destruct (_ && _); [apply nth_byte, F|]. destruct (_ && _); [|apply nth_byte, F].
  apply (swap_nibbles_byte (nth _ cw 0)), nth_byte, F.
Qed.

Lemma second_reading_there m cwp key cw : length cw = 8%nat -> holds m cwp cw ->
  holds (put (put m key cw) (key + 8) (map swap_nibbles cw)) cwp (second_reading cw cwp key).
Proof.
  intros L [F H]. split; [apply second_reading_bytes, F|]. intros i Hi. rewrite second_reading_length in Hi.
  unfold second_reading. rewrite nth_map_seq8 by exact Hi. cbv zeta.
  destruct ((key <=? cwp + N.of_nat i) && (cwp + N.of_nat i <? key + 8)) eqn:C1.
  - rewrite put_out by (rewrite map_length; lia). rewrite put_in by lia. reflexivity.
  - destruct ((key + 8 <=? cwp + N.of_nat i) && (cwp + N.of_nat i <? key + 16)) eqn:C2.
    + rewrite put_in by (rewrite map_length; lia). f_equal.
      rewrite (nth_indep _ 0 (swap_nibbles 0)) by (rewrite map_length; lia). rewrite map_nth. reflexivity.
    + rewrite put_out by (rewrite map_length; lia). rewrite put_out by lia. apply H. lia.
Qed.

Definition mixed_ctx (cw cw2 : list N) : list N := cw ++ map swap_nibbles cw ++ key_schedule cw2.

Lemma key_set_anywhere be m cwp key cw : length cw = 8%nat -> holds m cwp cw -> mapped m key ctx_size ->
  wp (dvbcsa_key_set be m cwp key) (fun m' => meq m' (put m key (mixed_ctx cw (second_reading cw cwp key)))).
Proof.
  intros L H M. pose proof H as [F _]. unfold ctx_size in M. unfold dvbcsa_key_set.
  rewrite (load_le64_ok _ _ _ _ H L). cbn [bind].
  apply wp_bind. eapply wp_mono; [apply store_le64_ok; eapply mapped_sub; [exact M|lia|lia]|].
  intros m1 E1.
  replace (le_bytes 8 (le_val cw)) with cw in E1 by (rewrite <- L at 1; rewrite le_bytes_val by exact F; reflexivity).
  assert (M1 : mapped m1 key 72) by (eapply mapped_meq; [apply meq_sym; exact E1|]; apply mapped_put; exact M).
  apply wp_bind. eapply wp_mono; [apply store_le64_ok; eapply mapped_sub; [exact M1|lia|lia]|].
  intros m2 E2. rewrite swap_le_val in E2 by assumption.
  assert (M2 : mapped m2 key 72) by (eapply mapped_meq; [apply meq_sym; exact E2|]; apply mapped_put; exact M1).
  assert (E : meq m2 (put (put m key cw) (key + 8) (map swap_nibbles cw)))
    by (eapply meq_trans; [exact E2|]; apply put_meq; exact E1).
  assert (H2 : holds m2 cwp (second_reading cw cwp key))
    by (eapply holds_meq; [apply meq_sym; exact E|]; apply second_reading_there; assumption).
  eapply wp_mono; [apply (key_schedule_block_ok _ _ _ _ _ H2 (second_reading_length _ _ _)); eapply mapped_sub; [exact M2|lia|lia]|].
  intros m3 E3. eapply meq_trans; [exact E3|]. eapply meq_trans; [apply put_meq; exact E|].
  unfold mixed_ctx. rewrite app_assoc.
  eapply meq_trans; [apply put_meq, put_app; rewrite L; reflexivity|].
  apply put_app. rewrite app_length, map_length, L. reflexivity.
Qed.

Lemma mixed_ctx_ok cw cw2 : length cw = 8%nat -> length cw2 = 8%nat -> Forall is_byte cw -> Forall is_byte cw2 ->
  length (mixed_ctx cw cw2) = 72%nat /\ Forall is_byte (mixed_ctx cw cw2).
Proof.
  intros L L2 F F2. unfold mixed_ctx. split; [rewrite !app_length, map_length, key_schedule_length, L by exact L2; reflexivity|].
  apply Forall_app. split; [exact F|]. apply Forall_app. split; [|apply key_schedule_bytes; assumption].
  rewrite Forall_map. eapply Forall_impl; [|exact F]. apply swap_nibbles_byte.
Qed.

Lemma mixed_calls enc be m key data len cw kk buf :
  length cw = 8%nat -> Forall is_byte cw -> holds m (key + 8) (map swap_nibbles cw) ->
  length kk = 56%nat -> holds m (key + 16) kk -> packet m key data len buf -> (enc = true -> len < 2 ^ 31 + 16) ->
  rewrites m (classical_call enc be m key data len) data len (mixed_csa enc cw kk buf).
Proof.
  intros L F H1 Lk H2 (Hb & El & Hl & D) E. apply rewrites_of_wp.
  - destruct enc; unfold classical_call.
    + eapply wp_mono; [apply (encrypt_ctx_ok be m key data len cw kk buf); assumption|].
      intros m' Q. cbv beta in Q. unfold mixed_csa, enc_block_part in *. rewrite <- El in Q.
      destruct (N.ltb_spec len (2 ^ 31 + 16)); [|specialize (E eq_refl); lia].
      destruct (N.ltb_spec len 8); destruct (Nat.ltb_spec (length buf) 8); try lia; exact Q.
    + eapply wp_mono; [apply (decrypt_ctx_ok be m key data len cw kk buf); assumption|]. intros m' Q. exact Q.
  - apply mixed_bytes; [exact (proj1 H2)|exact (proj1 Hb)].
  - rewrite mixed_length. auto.
Qed.

Lemma mixed_ctx_parts m key cw cw2 : length cw = 8%nat -> holds m key (mixed_ctx cw cw2) ->
  holds m (key + 8) (map swap_nibbles cw) /\ holds m (key + 16) (key_schedule cw2).
Proof.
  intros L H. unfold mixed_ctx in H. apply holds_app in H as [_ H]. rewrite L in H. apply holds_app in H as [H1 H2].
  rewrite map_length, L in H2. split; [exact H1|]. replace (key + 16) with (key + N.of_nat 8 + N.of_nat 8) by lia. exact H2.
Qed.

Lemma key_set_any_address be m cwp key cw : length cw = 8%nat -> holds m cwp cw -> mapped m key ctx_size ->
  exists m', dvbcsa_key_set be m cwp key = Ok m' /\ same_outside key ctx_size m m' /\ holds m' key (mixed_ctx cw (second_reading cw cwp key)).
Proof.
  intros L H M. destruct (proj1 (wp_ok _ _) (key_set_anywhere be m cwp key cw L H M)) as (m' & E & Q).
  destruct (mixed_ctx_ok cw (second_reading cw cwp key) L (second_reading_length _ _ _) (proj1 H) (second_reading_bytes _ _ _ (proj1 H))) as [Lm Fm].
  exists m'. split; [exact E|]. split.
  - intros x Hx. rewrite Q. apply put_out. rewrite Lm. exact Hx.
  - eapply holds_meq; [apply meq_sym; exact Q|]. apply holds_put, Fm.
Qed.

Lemma calls_after_any be m m' cwp key cw :
  length cw = 8%nat -> holds m cwp cw -> mapped m key ctx_size -> dvbcsa_key_set be m cwp key = Ok m' ->
  forall enc m2 data len buf, same_inside key ctx_size m' m2 -> packet m2 key data len buf -> (enc = true -> len < 2 ^ 31 + 16) ->
    rewrites m2 (classical_call enc be m2 key data len) data len (mixed_csa enc cw (key_schedule (second_reading cw cwp key)) buf).
Proof.
  intros L H M E enc m2 data len buf S P G.
  destruct (key_set_any_address be m cwp key cw L H M) as (m1 & E1 & _ & Hc). assert (m1 = m') by congruence. subst m1.
  destruct (mixed_ctx_ok cw (second_reading cw cwp key) L (second_reading_length _ _ _) (proj1 H) (second_reading_bytes _ _ _ (proj1 H))) as [Lm Fm].
  assert (Hc2 : holds m2 key (mixed_ctx cw (second_reading cw cwp key))).
  { eapply holds_ext; [exact Hc|]. rewrite Lm. intros x Hx. apply S. exact Hx. }
  destruct (mixed_ctx_parts _ _ _ _ L Hc2) as [P1 P2].
  apply mixed_calls; try assumption; [exact (proj1 H)|]. apply key_schedule_length, second_reading_length.
Qed.

Lemma second_reading_same cw cwp key : length cw = 8%nat -> cw_source cwp key -> second_reading cw cwp key = cw.
Proof.
  intros L S. apply (nth_ext _ _ 0 0); [rewrite L; reflexivity|]. intros i Hi. rewrite second_reading_length in Hi.
  unfold second_reading. rewrite nth_map_seq8 by exact Hi. cbv zeta.
  destruct S as [->|D].
  - destruct (_ && _) eqn:C1; [f_equal; lia|lia].
  - specialize (D (cwp + N.of_nat i)).
    destruct ((key <=? cwp + N.of_nat i) && (cwp + N.of_nat i <? key + 8)) eqn:C1; [exfalso; apply D; lia|].
    destruct ((key + 8 <=? cwp + N.of_nat i) && (cwp + N.of_nat i <? key + 16)) eqn:C2; [exfalso; apply D; lia|]. reflexivity.
Qed.

(** ** Bitslice *)
Lemma bs_second_length c cw cwp key : length (bs_second_reading c cw cwp key) = 8%nat.
Proof. reflexivity. Qed.
Lemma bs_second_bytes c cw cwp key : Forall is_byte cw -> Forall is_byte (bs_second_reading c cw cwp key).
Proof.
  intros F. unfold bs_second_reading. apply Forall_forall. intros x Hx. apply in_map_iff in Hx as (i & <- & _). cbv zeta.
  destruct (_ && _); [|apply nth_byte, F]. destruct (N.testbit _ _); reflexivity.
Qed.

Lemma nth_stream_area c cw j b : (j < 64)%nat -> (b < word_bytes c)%nat ->
  nth (j * word_bytes c + b) (stream_area c cw) 0 = if cw_bit cw j then 255 else 0.
Proof.
  intros Hj Hb. rewrite <- (nth_skipn (stream_area c cw)). rewrite <- (nth_firstn_lt _ (word_bytes c)) by exact Hb.
  unfold stream_area. rewrite (concat_words_sub _ _ _ _ 0%nat) by (try (rewrite seq_length; lia); intros x; destruct (cw_bit cw x); apply repeat_length).
  rewrite seq_nth by lia. cbn [Nat.add].
  destruct (cw_bit cw _); [rewrite (nth_indep _ _ 255) by (rewrite repeat_length; exact Hb)|]; apply nth_repeat.
Qed.

Lemma bs_second_there c m cwp key cw : length cw = 8%nat -> holds m cwp cw ->
  holds (put m (key + N.of_nat (56 * word_bytes c)) (stream_area c cw)) cwp (bs_second_reading c cw cwp key).
Proof.
  intros L [F H]. split; [apply bs_second_bytes, F|]. intros i Hi. rewrite bs_second_length in Hi.
  unfold bs_second_reading. rewrite nth_map_seq8 by exact Hi. cbv zeta.
  destruct (area_lengths c cw L) as [_ L2]. pose proof (word_bytes_pos c) as Wp.
  assert (W56 : N.of_nat (56 * word_bytes c) = 56 * word_size c) by (unfold word_size; lia).
  assert (W64 : N.of_nat (64 * word_bytes c) = 64 * word_size c) by (unfold word_size; lia).
  rewrite W56.
  set (x := cwp + N.of_nat i) in *. set (start := key + 56 * word_size c) in *.
  destruct ((start <=? x) && (x <? start + 64 * word_size c)) eqn:C.
  - rewrite put_in by (rewrite L2, W64; lia). f_equal.
    set (o := x - start). assert (Ho : o < 64 * word_size c) by lia.
    assert (Ws : word_size c <> 0) by (unfold word_size; lia).
    pose proof (N.div_mod o (word_size c) Ws) as DM. pose proof (N.mod_lt o (word_size c) Ws) as ML.
    assert (Hj : o / word_size c < 64) by (apply N.div_lt_upper_bound; lia).
    replace (N.to_nat o) with (N.to_nat (o / word_size c) * word_bytes c + N.to_nat (o mod word_size c))%nat
      by (unfold word_size in *; nia).
    rewrite nth_stream_area by (unfold word_size in *; lia).
    unfold cw_bit. rewrite N2Nat.id, testbit_le_val by exact F. reflexivity.
  - rewrite put_out by (rewrite L2, W64; lia). apply H. lia.
Qed.

Definition bs_mixed_ctx (c : build) (cw cw2 : list N) : list N := block_area c cw2 ++ stream_area c cw.

Lemma bs_mixed_ok c cw cw2 : length cw = 8%nat -> length cw2 = 8%nat -> Forall is_byte cw -> Forall is_byte cw2 ->
  length (bs_mixed_ctx c cw cw2) = (120 * word_bytes c)%nat /\ Forall is_byte (bs_mixed_ctx c cw cw2).
Proof.
  intros L L' F F'. destruct (area_lengths c cw L) as [_ L2]. destruct (area_lengths c cw2 L') as [L1 _].
  destruct (bs_ctx_bytes_ok c cw L F) as [_ B]. destruct (bs_ctx_bytes_ok c cw2 L' F') as [_ B'].
  unfold bs_mixed_ctx, bs_ctx_bytes in *. apply Forall_app in B as [_ B]. apply Forall_app in B' as [B' _].
  split; [rewrite app_length, L1, L2; lia|]. apply Forall_app. split; assumption.
Qed.

Lemma bs_key_set_anywhere c kj m cwp key cw :
  word_aligned c key = true -> mapped m key (bs_ctx_size c) -> length cw = 8%nat -> holds m cwp cw ->
  (forall k, In k (key_schedule (bs_second_reading c cw cwp key)) -> mul_fits c k) ->
  wp (dvbcsa_bs_key_set c kj m cwp key) (fun m' => meq m' (put m key (bs_mixed_ctx c cw (bs_second_reading c cw cwp key)))).
Proof.
  intros Al M L H MF. pose proof H as [F _]. unfold bs_ctx_size in M. unfold dvbcsa_bs_key_set.
  rewrite (load_le64_ok _ _ _ _ H L). cbn [bind]. apply wp_bind.
  pose proof (bs_second_there c m cwp key cw L H) as Hs.
  set (cw2 := bs_second_reading c cw cwp key) in *. assert (L' : length cw2 = 8%nat) by reflexivity.
  assert (F' : Forall is_byte cw2) by (apply bs_second_bytes, F).
  destruct (area_lengths c cw L) as [_ L2]. destruct (area_lengths c cw2 L') as [L1 _].
  eapply wp_mono; [apply (store_words_ok c key (fun i => if cw_bit cw i then repeat 255%N (word_bytes c) else repeat 0%N (word_bytes c)) _ 56 64 m Al)|].
  - intros i. destruct (cw_bit cw i); apply repeat_length.
  - eapply mapped_sub; [exact M|lia|lia].
  - intros i m1 Hi. f_equal. unfold cw_bit. rewrite !val8_repeat by reflexivity. reflexivity.
  - intros m1 E1. change (meq m1 (put m (key + N.of_nat (56 * word_bytes c)) (stream_area c cw))) in E1.
    assert (H1 : holds m1 cwp cw2) by (eapply holds_meq; [apply meq_sym; exact E1|exact Hs]).
    apply wp_bind. eapply wp_mono; [apply (key_schedule_block_ok _ _ _ _ cw2)|].
    + apply with_local_holds. exact H1.
    + exact L'.
    + apply (with_local_mapped 56).
    + intros ml El.
      assert (Hk : holds ml 0 (key_schedule cw2)).
      { eapply holds_meq; [apply meq_sym; exact El|]. apply holds_put. apply key_schedule_bytes; assumption. }
      rewrite (load_bytes_ok' _ _ _ 56 Hk) by (apply key_schedule_length; exact L'). cbn [bind].
      pose proof (key_schedule_length cw2 L') as Lk. pose proof (key_schedule_bytes cw2 L' F') as Fk. rewrite Forall_forall in Fk.
      eapply wp_mono; [apply (store_words_ok c key (fun i => repeat (nth i (key_schedule cw2) 0%N) (word_bytes c)) _ 0 56 m1 Al)|].
      * intros i. apply repeat_length.
      * eapply mapped_meq; [apply meq_sym; exact E1|]. apply mapped_put. eapply mapped_sub; [exact M|lia|lia].
      * intros i m2 Hi. rewrite (aget_ok _ _ 0%N) by lia. cbn [bind].
        rewrite block_key_word_ok; [reflexivity| |apply MF]; [apply Fk|]; apply nth_In; lia.
      * intros m2 E2.
        assert (EB : concat (map (fun i => repeat (nth i (key_schedule cw2) 0%N) (word_bytes c)) (seq 0 56)) = block_area c cw2).
        { unfold block_area. rewrite (map_nth_seq _ (key_schedule cw2) 0%N), Lk. reflexivity. }
        cbv beta in E2. unfold word in E2. rewrite EB in E2. cbn [Nat.mul] in E2. rewrite N.add_0_r in E2.
        eapply meq_trans; [exact E2|]. eapply meq_trans; [apply put_meq; exact E1|].
        apply put_before. rewrite L1. reflexivity.
Qed.

Lemma bs_mixed_lanes c cw cw2 : length cw = 8%nat -> length cw2 = 8%nat -> Forall is_byte cw -> Forall is_byte cw2 ->
  (forall p, (p < 8 * word_bytes c)%nat -> lane_cw c (bs_mixed_ctx c cw cw2) p = cw) /\
  (forall b, (b < word_bytes c)%nat -> lane_round_keys c (bs_mixed_ctx c cw cw2) b = key_schedule cw2).
Proof.
  intros L L' F F'. destruct (ctx_lanes c cw L F) as [A _]. destruct (ctx_lanes c cw2 L' F') as [_ B].
  destruct (area_lengths c cw L) as [L1 _]. destruct (area_lengths c cw2 L') as [L1' _].
  split.
  - intros p Hp. transitivity (lane_cw c (bs_ctx_bytes c cw) p); [|exact (A p Hp)]. unfold lane_cw. apply map_ext_in. intros k Hk. apply in_seq in Hk.
    unfold byte_of_bits. cbv zeta. cbn [seq fold_right]. unfold bs_mixed_ctx, bs_ctx_bytes.
    assert (X : forall w, (56 <= w)%nat -> nth (w * word_bytes c + p / 8) (block_area c cw2 ++ stream_area c cw) 0 =
                                        nth (w * word_bytes c + p / 8) (block_area c cw ++ stream_area c cw) 0).
    { intros w Hw. rewrite !app_nth2 by (rewrite ?L1, ?L1'; nia). rewrite L1, L1'. reflexivity. }
    rewrite !X by lia. reflexivity.
  - intros b Hb. transitivity (lane_round_keys c (bs_ctx_bytes c cw2) b); [|exact (B b Hb)]. unfold lane_round_keys. apply map_ext_in. intros r Hr. apply in_seq in Hr.
    unfold bs_mixed_ctx, bs_ctx_bytes. rewrite !app_nth1 by (rewrite L1'; nia). reflexivity.
Qed.

Lemma bs_key_set_any_address c kj m cwp key cw :
  key mod word_size c = 0 -> mapped m key (bs_ctx_size c) -> length cw = 8%nat -> holds m cwp cw ->
  (forall k, In k (key_schedule (bs_second_reading c cw cwp key)) -> mul_fits c k) ->
  exists m', dvbcsa_bs_key_set c kj m cwp key = Ok m' /\ same_outside key (bs_ctx_size c) m m' /\
    holds m' key (bs_mixed_ctx c cw (bs_second_reading c cw cwp key)).
Proof.
  intros Al M L H MF.
  assert (Al' : word_aligned c key = true) by (unfold word_aligned; apply N.eqb_eq; exact Al).
  destruct (proj1 (wp_ok _ _) (bs_key_set_anywhere c kj m cwp key cw Al' M L H MF)) as (m' & E & Q).
  destruct (bs_mixed_ok c cw (bs_second_reading c cw cwp key) L eq_refl (proj1 H) (bs_second_bytes _ _ _ _ (proj1 H))) as [Lm Fm].
  exists m'. split; [exact E|]. split.
  - intros x Hx. rewrite Q. apply put_out. rewrite Lm. exact Hx.
  - eapply holds_meq; [apply meq_sym; exact Q|]. apply holds_put, Fm.
Qed.

Lemma bs_second_same c cw cwp key : length cw = 8%nat -> bs_cw_source c cwp key -> bs_second_reading c cw cwp key = cw.
Proof.
  intros L D. apply (nth_ext _ _ 0 0); [rewrite L; reflexivity|]. intros i Hi. rewrite bs_second_length in Hi.
  unfold bs_second_reading. rewrite nth_map_seq8 by exact Hi. cbv zeta.
  specialize (D (cwp + N.of_nat i)).
  destruct (_ && _) eqn:C1; [exfalso; apply D; lia|]. reflexivity.
Qed.

(** ** One keystream (C11) *)
Lemma stream_xored cw iv d : (8 <= length d)%nat -> firstn 8 d = iv ->
  xored_with (fun k => nth k (keystream cw iv (S k)) 0) d (stream_cipher cw d).
Proof.
  intros L <-. split; [apply stream_cipher_length|]. intros i Hi. destruct (Nat.ltb_spec i 8).
  - apply nth_stream_cipher_iv; assumption.
  - apply nth_stream_cipher; lia.
Qed.

Lemma classical_call_is enc be m key cw data len buf : length cw = 8%nat -> keyed be m key cw -> packet m key data len buf ->
  (enc = true -> len < 2 ^ 31 + 16) -> rewrites m (classical_call enc be m key data len) data len (csa enc cw buf).
Proof. destruct enc; intros L K P G; [apply encrypt_is_csa; auto|apply decrypt_is_csa; assumption]. Qed.

Definition the_keystream (cw iv : list N) (k : nat) : N := nth k (keystream cw iv (S k)) 0.

Lemma csa_layered enc cw buf : (8 <= length buf)%nat ->
  layered_with (the_keystream cw (scrambled_start enc buf (csa enc cw buf))) enc cw buf (csa enc cw buf).
Proof.
  intros L. unfold layered_with, scrambled_start, csa, csa_encrypt, csa_decrypt. assert (E : (length buf <? 8)%nat = false) by (apply Nat.ltb_ge; exact L).
  destruct enc; rewrite E.
  - apply stream_xored; [rewrite block_layer_length by apply rcbc_enc_length; exact L|]. symmetry. apply stream_cipher_iv.
  - exists (stream_cipher cw buf). split; [|reflexivity]. apply stream_xored; [exact L|reflexivity].
Qed.

Theorem one_keystream cw : length cw = 8%nat -> exists ks : list N -> nat -> N,
  (forall enc be m key data len inp out, keyed be m key cw -> packet m key data len inp ->
     8 <= len -> (enc = true -> len < 2 ^ 31 + 16) ->
     rewrites m (classical_call enc be m key data len) data len out ->
     layered_with (ks (scrambled_start enc inp out)) enc cw inp out) /\
  (forall enc c jk m key pcks ps maxlen m' i p inp rest out,
     call_ready c jk m key pcks cw ps maxlen -> separate ps -> bs_call enc c jk m key pcks maxlen = Ok m' ->
     nth_error ps i = Some (p, inp ++ rest) -> length inp = Nat.min (N.to_nat maxlen) (length (inp ++ rest)) ->
     (8 <= length inp)%nat -> holds m' p out -> length out = length inp ->
     layered_with (ks (scrambled_start enc inp out)) enc cw inp out).
Proof.
  intros L. exists (the_keystream cw). split.
  - intros enc be m key data len inp out K P L8 G R.
    assert (out = csa enc cw inp) by (eapply rewrites_inj; [exact R|apply classical_call_is; assumption]).
    subst out. apply csa_layered. destruct P as (_ & -> & _). lia.
  - intros enc c jk m key pcks ps maxlen m' i p inp rest out [Sp _ K J B Li G] S E Ei El L8 Ho Lo.
    destruct (bs_each enc c jk m key pcks cw ps maxlen Sp L K J B Li G) as (m1 & E1 & _ & H). assert (m1 = m') by congruence. subst m1.
    specialize (H i p (inp ++ rest) Ei). assert (D : forall j q b, (i < j)%nat -> nth_error ps j = Some (q, b) -> disjoint p (N.of_nat (length (inp ++ rest))) q (N.of_nat (length b))).
    { intros j q b Hj Ej. apply (S i j p (inp ++ rest) q b Ei Ej). lia. }
    specialize (H D). unfold on_prefix in H. apply holds_app in H as [H _].
    assert (F : firstn (N.to_nat maxlen) (inp ++ rest) = inp).
    { rewrite app_length in El. destruct (Nat.le_gt_cases (N.to_nat maxlen) (length inp + length rest)).
      - rewrite <- (Nat.min_l (N.to_nat maxlen) (length inp + length rest)) by assumption. rewrite <- El.
        rewrite firstn_app, Nat.sub_diag, firstn_all. cbn [firstn]. apply app_nil_r.
      - assert (rest = []) by (destruct rest; [reflexivity|cbn [length] in *; lia]). subst rest. rewrite app_nil_r in *.
        apply firstn_all2. cbn [length] in *. lia. }
    rewrite F in H.
    assert (out = csa enc cw inp) by (eapply holds_inj; [exact Ho|exact H|rewrite csa_length; exact Lo]).
    subst out. apply csa_layered, L8.
Qed.
