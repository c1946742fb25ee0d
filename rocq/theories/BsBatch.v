(** BsBatch.v -- one block of every packet, then all blocks: reverse CBC in every slot. *)
From Verif Require Import Base Mem Tables Spec ClassicalBlock SpecLemmas ModelBsWord ModelBsTranspose ModelBsStream ModelBsBlock
  BsApiSpec BsWordFacts BsView BsTransposeFacts BsStream BsSbox BsRegister BsBlock.
Local Open Scope nat_scope.

Definition bj_ok (c : build) (bj : block_junk) : Prop :=
  wrows c 512 (bj_r bj) /\ wrows c 8 (bj_s1 bj) /\ wrows c (s2_words c) (bj_s2 bj).

Lemma wrows_firstn c n k r : wrows c n r -> k <= n -> wrows c k (firstn k r).
Proof. intros [L F] H. split; [rewrite firstn_length; lia|apply Forall_firstn, F]. Qed.
Lemma wrows_skipn c n k r : wrows c n r -> wrows c (n - k) (skipn k r).
Proof. intros [L F]. split; [rewrite skipn_length; lia|apply Forall_skipn, F]. Qed.
Lemma wrows_app c n k a b : wrows c n a -> wrows c k b -> wrows c (n + k) (a ++ b).
Proof. intros [L F] [L' F']. split; [rewrite app_length; lia|apply Forall_app; auto]. Qed.

Lemma in_window_ok c base r f (Q : list word -> Prop) : wrows c 512 r -> base + 64 <= 512 ->
  (forall w, wrows c 64 w -> wp (f w) (fun w' => wrows c 64 w' /\ Q w')) ->
  wp (in_window base r f) (fun r' => wrows c 512 r' /\ exists w', wrows c 64 w' /\ Q w' /\
    forall j, j < 64 -> nth (base + j) r' [] = nth j w' []).
Proof.
  intros W Hb H. unfold in_window. pose proof W as [L _]. rewrite L. rewrite (proj2 (Nat.leb_le _ _)) by lia.
  assert (Ww : wrows c 64 (firstn 64 (skipn base r))).
  { apply (wrows_firstn c (512 - base)); [apply wrows_skipn, W|lia]. }
  apply wp_bind. eapply wp_mono; [apply H, Ww|]. intros w' [Ww' Hq]. cbn [wp].
  split.
  - replace 512 with (base + (64 + (512 - (base + 64)))) by lia.
    apply wrows_app; [apply (wrows_firstn c 512); [exact W|lia]|]. apply wrows_app; [exact Ww'|apply wrows_skipn, W].
  - exists w'. split; [exact Ww'|]. split; [exact Hq|]. intros j Hj. pose proof Ww' as [Lw _].
    assert (Lf : length (firstn base r) = base) by (rewrite firstn_length; lia).
    rewrite app_nth2 by lia. rewrite Lf. replace (base + j - base) with j by lia. rewrite app_nth1 by lia. reflexivity.
Qed.

Lemma lane_block_shift r r' q q' g b : g < 8 -> (forall j, j < 64 -> nth (8 * q + j) r [] = nth (8 * q' + j) r' []) ->
  lane_block r g b q = lane_block r' g b q'.
Proof.
  intros Hg H. unfold lane_block, rbyte.
  replace (8 * (q + 1) + g) with (8 * q + (8 + g)) by lia. replace (8 * (q' + 1) + g) with (8 * q' + (8 + g)) by lia.
  replace (8 * (q + 2) + g) with (8 * q + (16 + g)) by lia. replace (8 * (q' + 2) + g) with (8 * q' + (16 + g)) by lia.
  replace (8 * (q + 3) + g) with (8 * q + (24 + g)) by lia. replace (8 * (q' + 3) + g) with (8 * q' + (24 + g)) by lia.
  replace (8 * (q + 4) + g) with (8 * q + (32 + g)) by lia. replace (8 * (q' + 4) + g) with (8 * q' + (32 + g)) by lia.
  replace (8 * (q + 5) + g) with (8 * q + (40 + g)) by lia. replace (8 * (q' + 5) + g) with (8 * q' + (40 + g)) by lia.
  replace (8 * (q + 6) + g) with (8 * q + (48 + g)) by lia. replace (8 * (q' + 6) + g) with (8 * q' + (48 + g)) by lia.
  replace (8 * (q + 7) + g) with (8 * q + (56 + g)) by lia. replace (8 * (q' + 7) + g) with (8 * q' + (56 + g)) by lia.
  rewrite !H by lia. reflexivity.
Qed.

Lemma emitted_ext enc l8 t f f' d n d1 : (forall i, i < n -> f i = f' i) ->
  emitted enc l8 t f d n d1 -> emitted enc l8 t f' d n d1.
Proof.
  intros E (L & F & H). split; [exact L|]. split; [exact F|]. intros i' t' Ht. rewrite H by exact Ht.
  destruct (Nat.ltb_spec i' n); cbn [andb]; [|reflexivity]. rewrite E by assumption. reflexivity.
Qed.

Section Blocks.
  Context (c : build) (m : mem) (key : N) (kk : nat -> list N) (pb : pkt_buf).
  Hypothesis (Sp : supported c) (HK : key_lanes c (key_block_word c m key) kk).
  Hypothesis (Hn : n_packets pb <= batch_size c) (Hl : len8_ok (n_packets pb) (len8 pb)).

  Lemma decrypt_block_ok bj d t : bj_ok c bj -> pbuf (batch_size c) d -> t < 23 ->
    wp (decrypt_block c bj m key (set_pdata pb d) (N.of_nat (8 * t))) (fun pb' => exists d1, pb' = set_pdata pb d1 /\
      emitted false (len8 pb) t (fun i => block_dec (kk (bcol c i)) (dbl d (23 * i + t))) d (n_packets pb) d1).
  Proof.
    intros (Wr & W1 & W2) Pd Ht. unfold decrypt_block. pose proof Sp as [Sc _].
    apply wp_bind. eapply wp_mono; [apply (in_window_ok c (8 * 56) (bj_r bj) _
       (fun w => forall i, i < n_packets pb -> lane_block w (bgrp c i) (bcol c i) 0 = dbl d (23 * i + t))); [exact Wr|lia|]|].
    { intros w Ww. apply (block_in_ok c (set_pdata pb d) t Sc Hn Pd Ht w Ww). }
    intros r1 [Wr1 (w' & Ww' & Hw & Ew)].
    apply wp_bind. eapply wp_mono; [apply (decrypt_register_ok c _ kk); assumption|]. intros r2 [Wr2 Hr2].
    eapply wp_mono; [apply (block_out_ok c (firstn 64 r2) (set_pdata pb d) t false); try assumption; apply (wrows_firstn c 512); [exact Wr2|lia]|].
    intros pb' (d1 & -> & E). exists d1. split; [reflexivity|]. eapply emitted_ext; [|exact E].
    intros i Hi. destruct (bpos_bounds c i ltac:(cbn [n_packets set_pdata] in *; lia)) as [Bg Bc].
    rewrite (lane_block_shift (firstn 64 r2) r2 0 0) by (try exact Bg; intros j Hj; cbn [Nat.mul Nat.add]; apply nth_firstn_lt, Hj).
    rewrite Hr2 by assumption. f_equal.
    rewrite (lane_block_shift r1 w' 56 0) by (try exact Bg; intros j Hj; rewrite Ew by exact Hj; reflexivity).
    apply Hw, Hi.
  Qed.

  Lemma encrypt_block_ok bj d t : bj_ok c bj -> pbuf (batch_size c) d -> t < 23 ->
    wp (encrypt_block c bj m key (set_pdata pb d) (N.of_nat (8 * t))) (fun pb' => exists d1, pb' = set_pdata pb d1 /\
      emitted true (len8 pb) t (fun i => block_enc (kk (bcol c i)) (dbl d (23 * i + t))) d (n_packets pb) d1).
  Proof.
    intros (Wr & W1 & W2) Pd Ht. unfold encrypt_block. pose proof Sp as [Sc _].
    apply wp_bind. eapply wp_mono; [apply (in_window_ok c 0 (bj_r bj) _
       (fun w => forall i, i < n_packets pb -> lane_block w (bgrp c i) (bcol c i) 0 = dbl d (23 * i + t))); [exact Wr|lia|]|].
    { intros w Ww. apply (block_in_ok c (set_pdata pb d) t Sc Hn Pd Ht w Ww). }
    intros r1 [Wr1 (w' & Ww' & Hw & Ew)].
    apply wp_bind. eapply wp_mono; [apply (encrypt_register_ok c _ kk); assumption|]. intros r2 [Wr2 Hr2].
    eapply wp_mono; [apply (block_out_ok c (firstn 64 (skipn (8 * 56) r2)) (set_pdata pb d) t true); try assumption; apply (wrows_firstn c (512 - 8 * 56)); [apply wrows_skipn, Wr2|lia]|].
    intros pb' (d1 & -> & E). exists d1. split; [reflexivity|]. eapply emitted_ext; [|exact E].
    intros i Hi. destruct (bpos_bounds c i ltac:(cbn [n_packets set_pdata] in *; lia)) as [Bg Bc].
    rewrite (lane_block_shift (firstn 64 (skipn (8 * 56) r2)) r2 0 56)
      by (try exact Bg; intros j Hj; rewrite nth_firstn_lt by exact Hj; rewrite nth_skipn; reflexivity).
    rewrite Hr2 by assumption. f_equal.
    rewrite (lane_block_shift r1 w' 0 0) by (try exact Bg; intros j Hj; rewrite <- Ew by exact Hj; reflexivity).
    apply Hw, Hi.
  Qed.
End Blocks.

(** ** All blocks of every packet *)

(* the whole blocks of slot i that the block layer works on: at most mb *)
Definition nbk (l8 : list N) (mb i : nat) : nat := Nat.min (nblk l8 i) mb.
Definition slot_blocks (d : list N) (i k : nat) : list block := map (fun t => dbl d (23 * i + t)) (seq 0 k).

Lemma slot_blocks_length d i k : length (slot_blocks d i k) = k.
Proof. unfold slot_blocks. rewrite map_length, seq_length. reflexivity. Qed.
Lemma slot_blocks_nth d i k t : t < k -> nth t (slot_blocks d i k) zero_block = dbl d (23 * i + t).
Proof.
  intros H. unfold slot_blocks. rewrite (nth_indep _ _ (dbl d (23 * i + 0))) by (rewrite map_length, seq_length; exact H).
  rewrite (map_nth (fun t => dbl d (23 * i + t))). rewrite seq_nth by exact H. reflexivity.
Qed.

(* result of the block layer: the first nbk blocks of each slot become F of them *)
Definition layered (F : nat -> list block -> list block) (l8 : list N) (n mb : nat) (d d1 : list N) : Prop :=
  length d1 = length d /\ Forall is_byte d1 /\
  forall i t, t < 23 -> dbl d1 (23 * i + t) =
    if (i <? n) && (t <? nbk l8 mb i) then nth t (F i (slot_blocks d i (nbk l8 mb i))) zero_block else dbl d (23 * i + t).

Definition dec_inv (kk : nat -> list N) (l8 : list N) (n : nat) (d : list N) (t : nat) (d1 : list N) : Prop :=
  length d1 = length d /\ Forall is_byte d1 /\
  forall i t', t' < 23 -> dbl d1 (23 * i + t') =
    if (i <? n) && (t' <? nbk l8 t i) then
      if S t' <? nbk l8 t i then xor_block (block_dec (kk i) (dbl d (23 * i + t'))) (dbl d (23 * i + S t'))
      else block_dec (kk i) (dbl d (23 * i + t'))
    else dbl d (23 * i + t').

Lemma dec_inv_step kk l8 n d t d1 d2 : t < 23 -> dec_inv kk l8 n d t d1 ->
  emitted false l8 t (fun i => block_dec (kk i) (dbl d1 (23 * i + t))) d1 n d2 -> dec_inv kk l8 n d (S t) d2.
Proof.
  intros Ht (L1 & F1 & H1) (L2 & F2 & H2). split; [lia|]. split; [exact F2|]. intros i t' Ht'.
  rewrite H2 by exact Ht'. rewrite (H1 i t' Ht'), (H1 i t Ht). unfold nbk.
  destruct (Nat.ltb_spec i n) as [Hi|Hi]; cbn [andb]; [|reflexivity].
  destruct (Nat.ltb_spec t (nblk l8 i)) as [C|C].
  - (* block t is processed *)
    rewrite Nat.min_r by lia. rewrite Nat.min_r by lia.
    destruct (Nat.ltb_spec t t); [lia|].
    destruct (Nat.eqb_spec t' t) as [->|Ne].
    + destruct (Nat.ltb_spec t (S t)); [|lia]. destruct (Nat.ltb_spec (S t) (S t)); [lia|]. reflexivity.
    + destruct (Nat.eqb_spec (S t') t) as [E|Ne2].
      * destruct (Nat.ltb_spec t' t); [|lia]. destruct (Nat.ltb_spec (S t') t); [lia|].
        destruct (Nat.ltb_spec t' (S t)); [|lia]. destruct (Nat.ltb_spec (S t') (S t)); [|lia]. rewrite <- E. reflexivity.
      * destruct (Nat.ltb_spec t' t), (Nat.ltb_spec (S t') t), (Nat.ltb_spec t' (S t)), (Nat.ltb_spec (S t') (S t)); try lia; reflexivity.
  - rewrite !(Nat.min_l (nblk l8 i)) by lia. reflexivity.
Qed.

Lemma dec_inv_layered kk l8 n d mb d1 : dec_inv kk l8 n d mb d1 -> layered (fun i => rcbc_dec (block_dec (kk i))) l8 n mb d d1.
Proof.
  intros (L & F & H). split; [exact L|]. split; [exact F|]. intros i t Ht. rewrite H by exact Ht.
  destruct (Nat.ltb_spec i n); cbn [andb]; [|reflexivity].
  destruct (Nat.ltb_spec t (nbk l8 mb i)) as [C|C]; [|reflexivity].
  rewrite rcbc_dec_nth by (rewrite slot_blocks_length; exact C).
  rewrite slot_blocks_nth by exact C.
  destruct (Nat.ltb_spec (S t) (nbk l8 mb i)) as [C2|C2].
  - rewrite slot_blocks_nth by exact C2. reflexivity.
  - rewrite (nth_overflow _ zero_block) by (rewrite slot_blocks_length; lia). rewrite xor_block_zero. reflexivity.
Qed.

(* encryption goes backwards *)
Definition enc_inv (kk : nat -> list N) (l8 : list N) (n mb : nat) (d : list N) (t : nat) (d1 : list N) : Prop :=
  length d1 = length d /\ Forall is_byte d1 /\
  forall i t', t' < 23 -> dbl d1 (23 * i + t') =
    if (i <? n) && (t' <? nbk l8 mb i) then
      let cs := rcbc_enc (block_enc (kk i)) (slot_blocks d i (nbk l8 mb i)) in
      if t <=? t' then nth t' cs zero_block
      else if S t' =? t then xor_block (dbl d (23 * i + t')) (nth t cs zero_block)
      else dbl d (23 * i + t')
    else dbl d (23 * i + t').

Lemma rcbc_enc_nth E ps j : j < length ps ->
  nth j (rcbc_enc E ps) zero_block = E (xor_block (nth j ps zero_block) (nth (S j) (rcbc_enc E ps) zero_block)).
Proof.
  revert j; induction ps as [|p ps IH]; intros j H; [simpl in H; lia|].
  cbn [rcbc_enc]. destruct j as [|j].
  - cbn [nth]. f_equal. f_equal. destruct (rcbc_enc E ps); reflexivity.
  - cbn [nth]. apply IH. simpl in H. lia.
Qed.

Lemma enc_inv_start kk l8 n mb d : Forall is_byte d -> enc_inv kk l8 n mb d mb d.
Proof.
  intros F. split; [reflexivity|]. split; [exact F|]. intros i t' Ht'.
  destruct (Nat.ltb_spec i n); cbn [andb]; [|reflexivity].
  destruct (Nat.ltb_spec t' (nbk l8 mb i)) as [C|C]; [|reflexivity]. cbv zeta. unfold nbk in *.
  destruct (Nat.leb_spec mb t'); [lia|]. destruct (Nat.eqb_spec (S t') mb); [|reflexivity].
  rewrite (nth_overflow _ zero_block) by (rewrite rcbc_enc_length, slot_blocks_length; lia). rewrite xor_block_zero. reflexivity.
Qed.

Lemma enc_inv_step kk l8 n mb d t d1 d2 : t < mb -> mb <= 23 -> enc_inv kk l8 n mb d (S t) d1 ->
  emitted true l8 t (fun i => block_enc (kk i) (dbl d1 (23 * i + t))) d1 n d2 -> enc_inv kk l8 n mb d t d2.
Proof.
  intros Ht Hm (L1 & F1 & H1) (L2 & F2 & H2). split; [lia|]. split; [exact F2|]. intros i t' Ht'.
  rewrite H2 by exact Ht'. rewrite (H1 i t' Ht'), (H1 i t ltac:(lia)).
  destruct (Nat.ltb_spec i n) as [Hi|Hi]; cbn [andb]; [|reflexivity].
  set (k := nbk l8 mb i). cbv zeta.
  destruct (Nat.ltb_spec t (nblk l8 i)) as [C|C].
  - assert (Hk : t < k) by (unfold k, nbk; lia).
    destruct (Nat.ltb_spec t k); [|lia]. destruct (Nat.leb_spec (S t) t); [lia|].
    rewrite Nat.eqb_refl. set (cs := rcbc_enc (block_enc (kk i)) (slot_blocks d i k)).
    assert (E : block_enc (kk i) (xor_block (dbl d (23 * i + t)) (nth (S t) cs zero_block)) = nth t cs zero_block).
    { unfold cs. rewrite (rcbc_enc_nth _ _ t) by (rewrite slot_blocks_length; exact Hk).
      rewrite slot_blocks_nth by exact Hk. reflexivity. }
    rewrite E.
    destruct (Nat.eqb_spec t' t) as [->|Ne].
    + destruct (Nat.ltb_spec t k); [|lia]. destruct (Nat.leb_spec t t); [reflexivity|lia].
    + destruct (Nat.eqb_spec (S t') t) as [Es|Ne2].
      * destruct (Nat.ltb_spec t' k); [|lia]. destruct (Nat.leb_spec (S t) t'); [lia|]. destruct (Nat.eqb_spec (S t') (S t)); [lia|].
        destruct (Nat.leb_spec t t'); [lia|]. reflexivity.
      * destruct (Nat.ltb_spec t' k); [|reflexivity].
        destruct (Nat.leb_spec (S t) t'), (Nat.leb_spec t t'), (Nat.eqb_spec (S t') (S t)); try lia; reflexivity.
  - destruct (Nat.ltb_spec t' k) as [C2|C2]; [|reflexivity].
    assert (t' < t) by (unfold k, nbk in C2; lia).
    destruct (Nat.leb_spec (S t) t'), (Nat.leb_spec t t'), (Nat.eqb_spec (S t') (S t)); try lia.
    destruct (Nat.eqb_spec (S t') t); [|reflexivity].
    rewrite (nth_overflow _ zero_block) by (rewrite rcbc_enc_length, slot_blocks_length; unfold k, nbk; lia).
    rewrite xor_block_zero. reflexivity.
Qed.

Lemma enc_inv_layered kk l8 n mb d d1 : enc_inv kk l8 n mb d 0 d1 -> layered (fun i => rcbc_enc (block_enc (kk i))) l8 n mb d d1.
Proof. intros (L & F & H). split; [exact L|]. split; [exact F|]. exact H. Qed.

Lemma inv_pbuf {n d d1} : pbuf n d -> length d1 = length d -> Forall is_byte d1 -> pbuf n d1.
Proof. intros [L F] L1 F1. split; [lia|exact F1]. Qed.

Theorem block_decrypt_batch_ok c bj m key kk pb mb : supported c -> key_lanes c (key_block_word c m key) kk ->
  n_packets pb <= batch_size c -> len8_ok (n_packets pb) (len8 pb) -> pbuf (batch_size c) (pdata pb) -> mb <= 23 ->
  (forall i, bj_ok c (bj i)) ->
  wp (dvbcsa_bs_block_decrypt_batch c bj m key pb (N.of_nat (8 * mb))) (fun pb' => exists d1, pb' = set_pdata pb d1 /\
    layered (fun i => rcbc_dec (block_dec (kk (bcol c i)))) (len8 pb) (n_packets pb) mb (pdata pb) d1).
Proof.
  intros Sp HK Hn Hl Pb Hm Hj. unfold dvbcsa_bs_block_decrypt_batch. apply wp_bind.
  eapply wp_mono; [apply (wp_while (fun st => exists t d1, st = (N.of_nat (8 * t), set_pdata pb d1) /\ t <= mb /\
      dec_inv (fun i => kk (bcol c i)) (len8 pb) (n_packets pb) (pdata pb) t d1) (fun st => 8 * mb - N.to_nat (fst st)))|].
  - cbn [fst]. lia.
  - exists 0, (pdata pb). split; [rewrite set_pdata_same; reflexivity|]. split; [lia|].
    split; [reflexivity|]. split; [apply Pb|]. intros i t' Ht'. unfold nbk. rewrite Nat.min_0_r.
    destruct (Nat.ltb_spec t' 0); [lia|]. rewrite andb_false_r. reflexivity.
  - intros st (t & d1 & -> & Ht & I). cbn [fst]. intros C. apply N.ltb_lt in C. split; [lia|].
    pose proof I as (L1 & F1 & _). apply wp_bind.
    eapply wp_mono; [apply (decrypt_block_ok c m key kk pb Sp HK Hn Hl); [apply Hj|apply (inv_pbuf Pb L1 F1)|lia]|].
    intros pb' (d2 & -> & E). cbn [wp]. split.
    + exists (S t), d2. split; [|split; [lia|apply (dec_inv_step _ _ _ _ t d1); [lia|exact I|exact E]]].
      f_equal. unfold u32. rewrite N.mod_small by (change (2 ^ 32)%N with 4294967296%N; lia). lia.
    + cbn [fst]. unfold u32. rewrite N.mod_small by (change (2 ^ 32)%N with 4294967296%N; lia). lia.
  - intros [i pb'] [(t & d1 & E & Ht & I) C]. inversion E; subst. apply N.ltb_ge in C.
    assert (t = mb) by lia. subst t. cbn [wp]. exists d1. split; [reflexivity|]. apply dec_inv_layered, I.
Qed.

Theorem block_encrypt_batch_ok c bj m key kk pb mb : supported c -> key_lanes c (key_block_word c m key) kk ->
  n_packets pb <= batch_size c -> len8_ok (n_packets pb) (len8 pb) -> pbuf (batch_size c) (pdata pb) -> mb <= 23 ->
  (forall i, bj_ok c (bj i)) ->
  wp (dvbcsa_bs_block_encrypt_batch c bj m key pb (N.of_nat (8 * mb))) (fun pb' => exists d1, pb' = set_pdata pb d1 /\
    layered (fun i => rcbc_enc (block_enc (kk (bcol c i)))) (len8 pb) (n_packets pb) mb (pdata pb) d1).
Proof.
  intros Sp HK Hn Hl Pb Hm Hj. unfold dvbcsa_bs_block_encrypt_batch. apply wp_bind.
  assert (Ei : to_int (u32 (N.of_nat (8 * mb) + 2 ^ 32 - 8)) = (8 * Z.of_nat mb - 8)%Z).
  { destruct mb as [|mb]; [reflexivity|].
    replace (N.of_nat (8 * S mb) + 2 ^ 32 - 8)%N with (N.of_nat (8 * mb) + 1 * 2 ^ 32)%N by lia.
    unfold u32. rewrite N.mod_add by discriminate. rewrite N.mod_small by (change (2 ^ 32)%N with 4294967296%N; lia).
    unfold to_int. destruct (N.ltb_spec (N.of_nat (8 * mb)) (2 ^ 31)) as [C|C]; [lia|].
    change (2 ^ 31)%N with 2147483648%N in C. lia. }
  rewrite Ei.
  eapply wp_mono; [apply (wp_while (fun st => exists t d1, st = (8 * Z.of_nat t - 8, set_pdata pb d1)%Z /\ t <= mb /\
      enc_inv (fun i => kk (bcol c i)) (len8 pb) (n_packets pb) mb (pdata pb) t d1) (fun st => Z.to_nat (fst st + 8)))|].
  - cbn [fst]. lia.
  - exists mb, (pdata pb). split; [rewrite set_pdata_same; reflexivity|]. split; [lia|]. apply enc_inv_start, Pb.
  - intros st (t & d1 & -> & Ht & I). cbn [fst]. intros C. apply Z.leb_le in C. split; [lia|].
    destruct t as [|t]; [lia|].
    pose proof I as (L1 & F1 & _). apply wp_bind.
    replace (Z.to_N (8 * Z.of_nat (S t) - 8)) with (N.of_nat (8 * t)) by lia.
    eapply wp_mono; [apply (encrypt_block_ok c m key kk pb Sp HK Hn Hl); [apply Hj|apply (inv_pbuf Pb L1 F1)|lia]|].
    intros pb' (d2 & -> & E). unfold int_ok.
    match goal with |- context [if ?b then _ else _] => assert (Eb : b = true) end.
    { apply andb_true_intro. split; [apply Z.leb_le|apply Z.ltb_lt]; change (2 ^ 31)%Z with 2147483648%Z; lia. }
    rewrite Eb. cbn [bind wp]. split.
    + exists t, d2. split; [f_equal; lia|]. split; [lia|]. apply (enc_inv_step _ _ _ _ _ t d1); try assumption; lia.
    + cbn [fst]. lia.
  - intros [i pb'] [(t & d1 & E & Ht & I) C]. pose proof (f_equal fst E) as E1. pose proof (f_equal snd E) as E2. cbn [fst snd] in E1, E2. rewrite E1 in C. subst pb'. cbv beta iota in C. apply Z.leb_gt in C.
    assert (t = 0) by lia. subst t. cbn [wp]. exists d1. split; [reflexivity|]. apply enc_inv_layered, I.
Qed.
