(** BsRegister.v -- the 56 rounds of the bitslice block cipher, seen from one byte lane. *)
From Verif Require Import Base Mem Tables Spec ModelBsWord ModelBsTranspose ModelBsStream ModelBsBlock ClassicalBlock
  BsApiSpec BsWordFacts BsView BsTransposeFacts BsStream BsSbox.
Local Open Scope nat_scope.

(* byte b of word 8*q+g *)
Definition rbyte (r : list word) (g b q : nat) : N := nth b (nth (8 * q + g) r []) 0%N.
(* the block held in byte b of the words of group g, window position q *)
Definition lane_block (r : list word) (g b q : nat) : block :=
  (rbyte r g b q, rbyte r g b (q + 1), rbyte r g b (q + 2), rbyte r g b (q + 3),
   rbyte r g b (q + 4), rbyte r g b (q + 5), rbyte r g b (q + 6), rbyte r g b (q + 7)).

(* key words: one byte repeated *)
Definition key_words (c : build) (k : nat -> res word) (kk : list N) : Prop :=
  length kk = 56 /\ Forall is_byte kk /\ forall i, i < 56 -> k i = Ok (repeat (nth i kk 0%N) (word_bytes c)).

(* key words of any context: byte lane b sees the round keys kk b *)
Definition key_lanes (c : build) (k : nat -> res word) (kk : nat -> list N) : Prop :=
  (forall b, b < word_bytes c -> length (kk b) = 56) /\
  forall i, i < 56 -> exists w, k i = Ok w /\ wf c w /\ forall b, b < word_bytes c -> nth b w 0%N = nth i (kk b) 0%N.

Lemma wf_repeat c x : is_byte x -> wf c (repeat x (word_bytes c)).
Proof. intros H. split; [apply repeat_length|]. induction (word_bytes c); simpl; constructor; auto. Qed.

Lemma key_words_lanes c k kk : key_words c k kk -> key_lanes c k (fun _ => kk).
Proof.
  intros (L & F & H). split; [auto|]. intros i Hi. rewrite (H i Hi). eexists. split; [reflexivity|].
  split; [apply wf_repeat; rewrite Forall_forall in F; apply F, nth_In; lia|].
  intros b Hb. rewrite (nth_indep _ _ (nth i kk 0%N)) by (rewrite repeat_length; exact Hb). apply nth_repeat.
Qed.

Lemma key_xor_ok c k kk i r base s1 : key_lanes c k kk -> i < 56 -> wrows c 512 r -> base + 8 <= 512 -> wrows c 8 s1 ->
  wp (key_xor c k i r base s1) (fun s1' => wrows c 8 s1' /\
    forall g b, g < 8 -> b < word_bytes c -> nth b (nth g s1' []) 0%N = N.lxor (nth i (kk b) 0%N) (nth b (nth (base + g) r []) 0%N)).
Proof.
  intros (Lk & Hk) Hi Wr Hb W1. unfold key_xor. destruct (Hk i Hi) as (kw & Ek & Wk & Hkw).
  eapply wp_mono; [apply (wp_for (fun n s => wrows c 8 s /\ forall g b, g < n -> b < word_bytes c ->
     nth b (nth g s []) 0%N = N.lxor (nth i (kk b) 0%N) (nth b (nth (base + g) r []) 0%N)))|].
  - split; [exact W1|]. intros; lia.
  - intros n s Hn [W H]. rewrite Ek. cbn [bind].
    rewrite (aget_ok (A:=word) _ _ []) by (destruct Wr; lia). cbn [bind].
    rewrite aset_ok by (destruct W; lia). cbn [wp].
    pose proof (wrows_nth c 512 r (base + n) Wr ltac:(lia)) as Wn.
    split; [apply wrows_upd; [exact W|apply wf_xor; assumption]|].
    intros g b Hg Hbb. destruct W as [L _]. destruct (Nat.eq_dec g n) as [->|Ne].
    + rewrite nth_upd_same by lia. rewrite (nth_xor c) by assumption. rewrite Hkw by exact Hbb. reflexivity.
    + rewrite nth_upd_other by exact Ne. apply H; lia.
  - intros s [W H]. split; [exact W|]. intros; apply H; lia.
Qed.

Ltac updn c :=
  repeat first
    [ rewrite upd_length
    | rewrite nth_upd_same by (rewrite ?upd_length; lia)
    | rewrite nth_upd_other by lia ].

(** one round of decryption: window q+1 becomes window q *)
Lemma dec_round c k kk i q r s1 s2 : supported c -> key_lanes c k kk -> i < 56 -> q + 8 < 64 ->
  wrows c 512 r -> wrows c 8 s1 -> wrows c (s2_words c) s2 ->
  wp ((s1 <- key_xor c k i r (8 * (q + 1) + 8 * 6) s1 ;;
       s2 <- block_sbox_stage c s1 s2 ;;
       r <- for_ 8 0 (fun g r =>
         '(sbox_out, perm_out) <- block_perm_stage c s2 g ;;
         w <- aget r (8 * q + 8 * 8 + g) ;;
         tmp1 <- aget r (8 * q + 8 * 2 + g) ;;
         tmp2 <- aget r (8 * q + 8 * 3 + g) ;;
         tmp3 <- aget r (8 * q + 8 * 4 + g) ;;
         let w := BS_XOR w sbox_out in
         tmp4 <- aget r (8 * q + 8 * 6 + g) ;;
         let tmp1 := BS_XOR tmp1 w in
         let tmp2 := BS_XOR tmp2 w in
         let tmp3 := BS_XOR tmp3 w in
         r <- aset r (8 * q + 8 * 0 + g) w ;;
         r <- aset r (8 * q + 8 * 2 + g) tmp1 ;;
         let tmp4 := BS_XOR tmp4 perm_out in
         r <- aset r (8 * q + 8 * 3 + g) tmp2 ;;
         r <- aset r (8 * q + 8 * 4 + g) tmp3 ;;
         aset r (8 * q + 8 * 6 + g) tmp4) r ;;
       Ok (8 * q, r, s1, s2)))
     (fun st => let '(p', r', s1', s2') := st in
        p' = 8 * q /\ wrows c 512 r' /\ wrows c 8 s1' /\ wrows c (s2_words c) s2' /\
        forall g b, g < 8 -> b < word_bytes c -> lane_block r' g b q = dec_step (nth i (kk b) 0%N) (lane_block r g b (q + 1))).
Proof.
  intros Sp HK Hi Hq Wr W1 W2.
  apply wp_bind. eapply wp_mono; [apply (key_xor_ok c k kk); try assumption; lia|]. intros t1 [Wt1 Ht1].
  apply wp_bind. eapply wp_mono; [apply stage_correct; eassumption|]. intros t2 [Wt2 Ht2].
  apply wp_bind.
  eapply wp_mono; [apply (wp_for (fun n r' => wrows c 512 r' /\ forall g b, g < 8 -> b < word_bytes c ->
     if g <? n then lane_block r' g b q = dec_step (nth i (kk b) 0%N) (lane_block r g b (q + 1))
     else forall t, nth (8 * t + g) r' [] = nth (8 * t + g) r []))|].
  - split; [exact Wr|]. intros g b Hg Hb. destruct (Nat.ltb_spec g 0); [lia|]. reflexivity.
  - intros n r1 Hn [Wr1 H]. specialize (Ht2 n ltac:(lia)).
    apply wp_bind. eapply wp_mono; [exact Ht2|]. intros [so po] (Wso & Wpo & Hsp). cbn [fst snd] in *.
    pose proof Wr1 as [L1 _].
    do 4 (rewrite (aget_ok (A:=word) _ _ []) by lia; cbn [bind]).
    cbv zeta. rewrite (aget_ok (A:=word) _ _ []) by lia; cbn [bind].
    do 5 (rewrite aset_ok by (rewrite ?upd_length; lia); cbn [bind wp]).
    pose proof (fun j Hj => wrows_nth c 512 r1 j Wr1 Hj) as Wn.
    split; [repeat (apply wrows_upd; [|repeat apply wf_xor; auto; apply Wn; lia]); exact Wr1|].
    intros g b Hg Hb. destruct (Nat.eq_dec g n) as [->|Ne].
    + destruct (Nat.ltb_spec n (S n)); [|lia].
      specialize (H n b ltac:(lia) Hb). destruct (Nat.ltb_spec n n); [lia|].
      destruct (Hsp b Hb) as [E1 E2]. rewrite Ht1 in E1, E2 by lia.
      unfold lane_block, rbyte.
      replace (8 * q + 8 * 0 + n) with (8 * q + n) by lia.
      replace (8 * q + 8 * 2 + n) with (8 * (q + 2) + n) by lia.
      replace (8 * q + 8 * 3 + n) with (8 * (q + 3) + n) by lia.
      replace (8 * q + 8 * 4 + n) with (8 * (q + 4) + n) by lia.
      replace (8 * q + 8 * 6 + n) with (8 * (q + 6) + n) by lia.
      replace (8 * q + 8 * 8 + n) with (8 * (q + 8) + n) by lia.
      updn c. rewrite !H.
      pose proof (fun j Hj => wrows_nth c 512 r j Wr Hj) as Wn0.
      repeat (rewrite (nth_xor c) by (repeat apply wf_xor; auto; try apply Wn0; lia)).
      rewrite E1, E2.
      replace (8 * (q + 1) + 8 * 6 + n) with (8 * (q + 7) + n) by lia.
      replace (q + 1 + 1) with (q + 2) by lia. replace (q + 1 + 2) with (q + 3) by lia.
      replace (q + 1 + 3) with (q + 4) by lia. replace (q + 1 + 4) with (q + 5) by lia.
      replace (q + 1 + 5) with (q + 6) by lia. replace (q + 1 + 6) with (q + 7) by lia.
      replace (q + 1 + 7) with (q + 8) by lia.
      unfold dec_step. reflexivity.
    + specialize (H g b Hg Hb).
      assert (U : forall t, nth (8 * t + g)
        (upd (upd (upd (upd (upd r1 (8 * q + 8 * 0 + n) (BS_XOR (nth (8 * q + 8 * 8 + n) r1 []) so))
          (8 * q + 8 * 2 + n) (BS_XOR (nth (8 * q + 8 * 2 + n) r1 []) (BS_XOR (nth (8 * q + 8 * 8 + n) r1 []) so)))
          (8 * q + 8 * 3 + n) (BS_XOR (nth (8 * q + 8 * 3 + n) r1 []) (BS_XOR (nth (8 * q + 8 * 8 + n) r1 []) so)))
          (8 * q + 8 * 4 + n) (BS_XOR (nth (8 * q + 8 * 4 + n) r1 []) (BS_XOR (nth (8 * q + 8 * 8 + n) r1 []) so)))
          (8 * q + 8 * 6 + n) (BS_XOR (nth (8 * q + 8 * 6 + n) r1 []) po)) [] = nth (8 * t + g) r1 []).
      { intros t. rewrite !nth_upd_other by lia. reflexivity. }
      destruct (Nat.ltb_spec g (S n)), (Nat.ltb_spec g n); try lia.
      * unfold lane_block, rbyte in *. rewrite !U. exact H.
      * intros t. rewrite U. apply H.
  - intros r' [Wr' H]. cbn [wp]. split; [reflexivity|]. split; [exact Wr'|]. split; [exact Wt1|]. split; [exact Wt2|].
    intros g b Hg Hb. specialize (H g b Hg Hb). destruct (Nat.ltb_spec g (0 + 8)); [exact H|lia].
Qed.

(** one round of encryption: window q becomes window q+1 *)
Lemma enc_round c k kk i q r s1 s2 : supported c -> key_lanes c k kk -> i < 56 -> q + 8 < 64 ->
  wrows c 512 r -> wrows c 8 s1 -> wrows c (s2_words c) s2 ->
  wp (s1 <- key_xor c k i r (8 * q + 8 * 7) s1 ;;
      s2 <- block_sbox_stage c s1 s2 ;;
      r <- for_ 8 0 (fun g r =>
        '(sbox_out, perm_out) <- block_perm_stage c s2 g ;;
        pm <- psub (8 * q + 8 + g) 8 ;;
        w <- aget r pm ;;
        tmp1 <- aget r (8 * q + 8 + 8 * 1 + g) ;;
        tmp2 <- aget r (8 * q + 8 + 8 * 2 + g) ;;
        tmp3 <- aget r (8 * q + 8 + 8 * 3 + g) ;;
        let sbox_out := BS_XOR sbox_out w in
        tmp4 <- aget r (8 * q + 8 + 8 * 5 + g) ;;
        let tmp1 := BS_XOR tmp1 w in
        let tmp2 := BS_XOR tmp2 w in
        let tmp3 := BS_XOR tmp3 w in
        r <- aset r (8 * q + 8 + 8 * 7 + g) sbox_out ;;
        r <- aset r (8 * q + 8 + 8 * 1 + g) tmp1 ;;
        let tmp4 := BS_XOR tmp4 perm_out in
        r <- aset r (8 * q + 8 + 8 * 2 + g) tmp2 ;;
        r <- aset r (8 * q + 8 + 8 * 3 + g) tmp3 ;;
        aset r (8 * q + 8 + 8 * 5 + g) tmp4) r ;;
      Ok (8 * q + 8, r, s1, s2))
     (fun st => let '(p', r', s1', s2') := st in
        p' = 8 * q + 8 /\ wrows c 512 r' /\ wrows c 8 s1' /\ wrows c (s2_words c) s2' /\
        forall g b, g < 8 -> b < word_bytes c -> lane_block r' g b (q + 1) = enc_step (nth i (kk b) 0%N) (lane_block r g b q)).
Proof.
  intros Sp HK Hi Hq Wr W1 W2.
  apply wp_bind. eapply wp_mono; [apply (key_xor_ok c k kk); try assumption; lia|]. intros t1 [Wt1 Ht1].
  apply wp_bind. eapply wp_mono; [apply stage_correct; eassumption|]. intros t2 [Wt2 Ht2].
  apply wp_bind.
  eapply wp_mono; [apply (wp_for (fun n r' => wrows c 512 r' /\ forall g b, g < 8 -> b < word_bytes c ->
     if g <? n then lane_block r' g b (q + 1) = enc_step (nth i (kk b) 0%N) (lane_block r g b q)
     else forall t, nth (8 * t + g) r' [] = nth (8 * t + g) r []))|].
  - split; [exact Wr|]. intros g b Hg Hb. destruct (Nat.ltb_spec g 0); [lia|]. reflexivity.
  - intros n r1 Hn [Wr1 H]. specialize (Ht2 n ltac:(lia)).
    apply wp_bind. eapply wp_mono; [exact Ht2|]. intros [so po] (Wso & Wpo & Hsp). cbn [fst snd] in *.
    pose proof Wr1 as [L1 _].
    assert (Eps : psub (8 * q + 8 + n) 8 = Ok (8 * q + n)).
    { unfold psub. destruct (Nat.ltb_spec (8 * q + 8 + n) 8); [lia|]. f_equal. lia. }
    rewrite Eps. cbn [bind].
    do 4 (rewrite (aget_ok (A:=word) _ _ []) by lia; cbn [bind]).
    cbv zeta. rewrite (aget_ok (A:=word) _ _ []) by lia; cbn [bind].
    do 5 (rewrite aset_ok by (rewrite ?upd_length; lia); cbn [bind wp]).
    pose proof (fun j Hj => wrows_nth c 512 r1 j Wr1 Hj) as Wn.
    split; [repeat (apply wrows_upd; [|repeat apply wf_xor; auto; apply Wn; lia]); exact Wr1|].
    replace (8 * q + 8 + 8 * 1 + n) with (8 * (q + 2) + n) by lia.
    replace (8 * q + 8 + 8 * 2 + n) with (8 * (q + 3) + n) by lia.
    replace (8 * q + 8 + 8 * 3 + n) with (8 * (q + 4) + n) by lia.
    replace (8 * q + 8 + 8 * 5 + n) with (8 * (q + 6) + n) by lia.
    replace (8 * q + 8 + 8 * 7 + n) with (8 * (q + 8) + n) by lia.
    intros g b Hg Hb. destruct (Nat.eq_dec g n) as [->|Ne].
    + destruct (Nat.ltb_spec n (S n)); [|lia].
      specialize (H n b ltac:(lia) Hb). destruct (Nat.ltb_spec n n); [lia|].
      destruct (Hsp b Hb) as [E1 E2]. rewrite Ht1 in E1, E2 by lia.
      unfold lane_block, rbyte.
      replace (q + 1 + 1) with (q + 2) by lia. replace (q + 1 + 2) with (q + 3) by lia.
      replace (q + 1 + 3) with (q + 4) by lia. replace (q + 1 + 4) with (q + 5) by lia.
      replace (q + 1 + 5) with (q + 6) by lia. replace (q + 1 + 6) with (q + 7) by lia.
      replace (q + 1 + 7) with (q + 8) by lia.
      updn c. rewrite !H.
      pose proof (fun j Hj => wrows_nth c 512 r j Wr Hj) as Wn0.
      repeat (rewrite (nth_xor c) by (repeat apply wf_xor; auto; try apply Wn0; lia)).
      rewrite E1, E2.
      replace (8 * q + 8 * 7 + n) with (8 * (q + 7) + n) by lia.
      unfold enc_step. rewrite (N.lxor_comm (sbox _)). reflexivity.
    + specialize (H g b Hg Hb).
      match goal with |- context [lane_block ?X g b (q + 1)] =>
        assert (U : forall t, nth (8 * t + g) X [] = nth (8 * t + g) r1 []) by (intros t; rewrite !nth_upd_other by lia; reflexivity) end.
      destruct (Nat.ltb_spec g (S n)), (Nat.ltb_spec g n); try lia.
      * unfold lane_block, rbyte in *. rewrite !U. exact H.
      * intros t. rewrite U. apply H.
  - intros r' [Wr' H]. cbn [wp]. split; [reflexivity|]. split; [exact Wr'|]. split; [exact Wt1|]. split; [exact Wt2|].
    intros g b Hg Hb. specialize (H g b Hg Hb). destruct (Nat.ltb_spec g (0 + 8)); [exact H|lia].
Qed.

(** ** All rounds *)
Lemma skipn_nth_cons {A} n (l : list A) d : n < length l -> skipn n l = nth n l d :: skipn (S n) l.
Proof.
  revert l; induction n as [|n IH]; intros [|a l] H; simpl in H; try lia; [reflexivity|].
  cbn [skipn nth]. rewrite (IH l) by lia. reflexivity.
Qed.

Theorem decrypt_register_ok c k kk r s1 s2 : supported c -> key_lanes c k kk ->
  wrows c 512 r -> wrows c 8 s1 -> wrows c (s2_words c) s2 ->
  wp (decrypt_register c k r s1 s2) (fun r' => wrows c 512 r' /\
    forall g b, g < 8 -> b < word_bytes c -> lane_block r' g b 0 = block_dec (kk b) (lane_block r g b 56)).
Proof.
  intros Sp HK Wr W1 W2. pose proof HK as (Lk & _). unfold decrypt_register. apply wp_bind.
  eapply wp_mono; [apply (wp_for_down (fun n st => let '(p', r', s1', s2') := st in
        p' = 8 * n /\ wrows c 512 r' /\ wrows c 8 s1' /\ wrows c (s2_words c) s2' /\
        forall g b, g < 8 -> b < word_bytes c ->
          lane_block r' g b n = fold_left (fun R k => dec_step k R) (rev (skipn n (kk b))) (lane_block r g b 56)))|].
  - split; [reflexivity|]. do 3 (split; [assumption|]). intros g b _ Hb. rewrite skipn_all2 by (rewrite Lk by exact Hb; lia). reflexivity.
  - intros n [[[p' r'] s1'] s2'] Hn (-> & Wr' & W1' & W2' & H).
    cbv zeta. unfold psub. destruct (Nat.ltb_spec (8 * S n) 8); [lia|]. cbn [bind].
    replace (8 * S n - 8) with (8 * n) by lia. replace (8 * S n + 8 * 6) with (8 * (n + 1) + 8 * 6) by lia.
    eapply wp_mono; [apply (dec_round c k kk n n r' s1' s2'); try assumption; lia|].
    intros [[[p'' r''] s1''] s2''] (Ep & Wr'' & W1'' & W2'' & H'').
    split; [exact Ep|]. do 3 (split; [assumption|]). intros g b Hg Hb. rewrite H'' by assumption.
    replace (n + 1) with (S n) by lia. rewrite H by assumption.
    rewrite (skipn_nth_cons n (kk b) 0%N) by (rewrite Lk by exact Hb; lia). cbn [rev]. rewrite fold_left_app. reflexivity.
  - intros [[[p' r'] s1'] s2'] (_ & Wr' & _ & _ & H). cbn [wp]. split; [exact Wr'|]. exact H.
Qed.

Theorem encrypt_register_ok c k kk r s1 s2 : supported c -> key_lanes c k kk ->
  wrows c 512 r -> wrows c 8 s1 -> wrows c (s2_words c) s2 ->
  wp (encrypt_register c k r s1 s2) (fun r' => wrows c 512 r' /\
    forall g b, g < 8 -> b < word_bytes c -> lane_block r' g b 56 = block_enc (kk b) (lane_block r g b 0)).
Proof.
  intros Sp HK Wr W1 W2. pose proof HK as (Lk & _). unfold encrypt_register. apply wp_bind.
  eapply wp_mono; [apply (wp_for (fun n st => let '(p', r', s1', s2') := st in
        p' = 8 * n /\ wrows c 512 r' /\ wrows c 8 s1' /\ wrows c (s2_words c) s2' /\
        forall g b, g < 8 -> b < word_bytes c ->
          lane_block r' g b n = fold_left (fun R k => enc_step k R) (firstn n (kk b)) (lane_block r g b 0)))|].
  - split; [reflexivity|]. do 3 (split; [assumption|]). intros g b _ _. reflexivity.
  - intros n [[[p' r'] s1'] s2'] Hn (-> & Wr' & W1' & W2' & H).
    cbv zeta.
    eapply wp_mono; [apply (enc_round c k kk n n r' s1' s2'); try assumption; lia|].
    intros [[[p'' r''] s1''] s2''] (Ep & Wr'' & W1'' & W2'' & H'').
    split; [lia|]. do 3 (split; [assumption|]). intros g b Hg Hb.
    replace (S n) with (n + 1) at 1 by lia. rewrite H'' by assumption.
    rewrite H by assumption.
    rewrite (firstn_S_nth (kk b) n 0%N) by (rewrite Lk by exact Hb; lia). rewrite fold_left_app. reflexivity.
  - intros [[[p' r'] s1'] s2'] (_ & Wr' & _ & _ & H). cbn [wp]. split; [exact Wr'|].
    intros g b Hg Hb. specialize (H g b Hg Hb). change (0 + 56) with 56 in H. rewrite firstn_all2 in H by (rewrite Lk by exact Hb; lia). exact H.
Qed.
