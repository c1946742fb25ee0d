(** BsSlot.v -- the two layers of a batch, seen on one packet, are the CSA of that packet. *)
From Verif Require Import Base Mem Spec ClassicalBlock SpecLemmas SpecFacts ModelBsWord ModelBsTranspose ModelBsStream ModelBsBlock
  BsApiSpec BsWordFacts BsView BsStream BsBlock BsBatch.
Local Open Scope nat_scope.

Definition sub (d : list N) (i L : nat) : list N := firstn L (skipn (i * slot) d).

Lemma sub_length d i L : i * slot + L <= length d -> length (sub d i L) = L.
Proof. intros H. unfold sub. rewrite firstn_length, skipn_length. lia. Qed.
Lemma sub_nth d i L k : k < L -> nth k (sub d i L) 0%N = nth (i * slot + k) d 0%N.
Proof. intros H. unfold sub. rewrite nth_firstn_lt, nth_skipn by exact H. reflexivity. Qed.

Lemma nth_blocks l : forall t, t < length l / 8 -> nth t (blocks l) zero_block = dbl l t.
Proof.
  induction l as [l H|a b c d e f g h l IH] using list_ind8; intros t Ht.
  - rewrite div8_short in Ht by exact H. lia.
  - cbn [length] in Ht. rewrite div8_plus in Ht. cbn [blocks]. destruct t as [|t]; [reflexivity|]. cbn [nth].
    rewrite IH by lia. apply dbl_ext. intros j Hj. replace (8 * S t + j) with (8 + (8 * t + j)) by lia. reflexivity.
Qed.

Lemma nth_block_layer F d k : (forall bs, length (F bs) = length bs) -> k < length d ->
  nth k (block_layer F d) 0%N = if k / 8 <? length d / 8
    then nth (k mod 8) (block_bytes (nth (k / 8) (F (blocks d)) zero_block)) 0%N else nth k d 0%N.
Proof.
  intros HF Hk. unfold block_layer. pose proof (Nat.div_mod k 8 ltac:(lia)). pose proof (Nat.mod_upper_bound k 8 ltac:(lia)).
  pose proof (Nat.div_mod (length d) 8 ltac:(lia)). pose proof (Nat.mod_upper_bound (length d) 8 ltac:(lia)).
  destruct (Nat.ltb_spec (k / 8) (length d / 8)) as [C|C].
  - rewrite app_nth1 by (rewrite unblocks_length, HF, blocks_length; lia).
    apply nth_unblocks. rewrite HF, blocks_length. lia.
  - rewrite app_nth2 by (rewrite unblocks_length, HF, blocks_length; nia). rewrite unblocks_length, HF, blocks_length.
    unfold residue. rewrite nth_skipn. f_equal. nia.
Qed.

Lemma slot_nth d i k : nth (i * slot + k) d 0%N = nth (k mod 8) (block_bytes (dbl d (23 * i + k / 8))) 0%N.
Proof.
  pose proof (Nat.div_mod k 8 ltac:(lia)). pose proof (Nat.mod_upper_bound k 8 ltac:(lia)).
  rewrite dbl_nth by assumption. f_equal. unfold slot. lia.
Qed.

Lemma min_div8 L mb : Nat.min L (8 * mb) / 8 = Nat.min (L / 8) mb.
Proof.
  destruct (Nat.le_gt_cases L (8 * mb)).
  - rewrite Nat.min_l by lia. rewrite Nat.min_l; [reflexivity|]. apply Nat.div_le_upper_bound; lia.
  - rewrite (Nat.min_r L) by lia. rewrite (Nat.mul_comm 8 mb), Nat.div_mul by lia. rewrite Nat.min_r; [reflexivity|].
    apply Nat.div_le_lower_bound; lia.
Qed.

Lemma layered_sub F l8 n mb d d1 i L : layered F l8 n mb d d1 -> (forall bs, length (F i bs) = length bs) ->
  i < n -> L <= 184 -> mb <= 23 -> i * slot + L <= length d -> nbk l8 mb i = Nat.min (L / 8) mb ->
  sub d1 i L = block_layer (F i) (firstn (Nat.min L (8 * mb)) (sub d i L)) ++ skipn (Nat.min L (8 * mb)) (sub d i L).
Proof.
  intros (L1 & _ & H) HF Hi HL Hm Hd Hn. set (M := Nat.min L (8 * mb)).
  assert (Ls : length (sub d i L) = L) by (apply sub_length; exact Hd).
  assert (LM : length (firstn M (sub d i L)) = M) by (rewrite firstn_length, Ls; unfold M; lia).
  assert (EM : M / 8 = Nat.min (L / 8) mb) by apply min_div8.
  assert (Eb : blocks (firstn M (sub d i L)) = slot_blocks d i (nbk l8 mb i)).
  { apply (nth_ext _ _ zero_block zero_block); rewrite blocks_length, LM.
    - rewrite slot_blocks_length, Hn. exact EM.
    - intros t Ht. rewrite nth_blocks by (rewrite LM; exact Ht). rewrite slot_blocks_nth by (rewrite Hn; lia).
      apply dbl_ext. intros j Hj. assert (8 * t + j < M) by (pose proof (Nat.div_mod M 8 ltac:(lia)); nia).
      rewrite nth_firstn_lt by assumption. rewrite sub_nth by (unfold M in *; lia). f_equal. unfold slot. lia. }
  apply (nth_ext _ _ 0%N 0%N).
  - rewrite app_length, block_layer_length, LM, skipn_length, Ls by exact HF. rewrite sub_length by lia. unfold M. lia.
  - rewrite sub_length by lia. intros k Hk. rewrite sub_nth by exact Hk. rewrite slot_nth.
    assert (k / 8 < 23) by (apply Nat.div_lt_upper_bound; lia). rewrite H by assumption.
    destruct (Nat.ltb_spec i n); [|lia]. cbn [andb].
    destruct (Nat.lt_ge_cases k M) as [C|C].
    + rewrite app_nth1 by (rewrite block_layer_length, LM; assumption).
      rewrite nth_block_layer by (try exact HF; rewrite LM; exact C). rewrite LM, EM. rewrite Hn in *. rewrite Eb.
      destruct (k / 8 <? Nat.min (L / 8) mb); [reflexivity|].
      rewrite nth_firstn_lt, sub_nth by assumption. rewrite slot_nth. reflexivity.
    + rewrite app_nth2 by (rewrite block_layer_length, LM; assumption). rewrite block_layer_length, LM by exact HF.
      rewrite nth_skipn. replace (M + (k - M)) with k by lia. rewrite sub_nth, slot_nth by exact Hk.
      assert (~ k / 8 < nbk l8 mb i).
      { rewrite Hn, <- EM. intros Q. pose proof (Nat.div_mod k 8 ltac:(lia)). pose proof (Nat.div_mod M 8 ltac:(lia)).
        pose proof (Nat.mod_upper_bound k 8 ltac:(lia)). nia. }
      destruct (Nat.ltb_spec (k / 8) (nbk l8 mb i)); [lia|]. reflexivity.
Qed.

Definition stream_part (cw l : list N) : list N := if length l <? 8 then l else stream_cipher cw l.
Lemma stream_part_length cw l : length (stream_part cw l) = length l.
Proof. unfold stream_part. destruct (length l <? 8); [reflexivity|apply stream_cipher_length]. Qed.

Lemma slot_div i k : k < slot -> (i * slot + k) / slot = i.
Proof. intros H. rewrite Nat.add_comm, Nat.div_add by (unfold slot; lia). rewrite Nat.div_small by exact H. reflexivity. Qed.
Lemma slot_mod i k : k < slot -> (i * slot + k) mod slot = k.
Proof. intros H. rewrite Nat.add_comm, Nat.mod_add by (unfold slot; lia). apply Nat.mod_small. exact H. Qed.

Lemma streamed_sub cw n mb d d1 i L : streamed cw n mb d d1 -> i < n -> L <= 184 -> mb <= 23 -> i * slot + L <= length d ->
  sub d1 i L = stream_part (cw i) (firstn (Nat.min L (8 * mb)) (sub d i L)) ++ skipn (Nat.min L (8 * mb)) (sub d i L).
Proof.
  intros (L1 & _ & H) Hi HL Hm Hd. set (M := Nat.min L (8 * mb)).
  assert (Ls : length (sub d i L) = L) by (apply sub_length; exact Hd).
  assert (LM : length (firstn M (sub d i L)) = M) by (rewrite firstn_length, Ls; unfold M; lia).
  apply (nth_ext _ _ 0%N 0%N).
  - rewrite app_length, stream_part_length, LM, skipn_length, Ls. rewrite sub_length by lia. unfold M. lia.
  - rewrite sub_length by lia. intros k Hk. rewrite sub_nth by exact Hk. rewrite H, slot_div, slot_mod by (unfold slot; lia).
    destruct (Nat.ltb_spec i n); [|lia]. cbn [andb].
    destruct (Nat.lt_ge_cases k M) as [C|C].
    + rewrite app_nth1 by (rewrite stream_part_length, LM; assumption). unfold stream_part. rewrite LM.
      assert (E0 : nth k (firstn M (sub d i L)) 0%N = nth (i * slot + k) d 0%N) by (rewrite nth_firstn_lt, sub_nth by assumption; reflexivity).
      destruct (Nat.ltb_spec M 8) as [S|S].
      * destruct (Nat.leb_spec 8 k); [lia|]. cbn [andb]. congruence.
      * destruct (Nat.leb_spec 8 k) as [K|K]; cbn [andb].
        -- destruct (Nat.ltb_spec k (8 * mb)); [|unfold M in C; lia].
           rewrite nth_stream_cipher by lia. rewrite E0. f_equal.
           replace (slot_iv d i) with (firstn 8 (firstn M (sub d i L))).
           2:{ unfold slot_iv, sub. rewrite !firstn_firstn. f_equal. unfold M in *; lia. }
           apply keystream_nth; lia.
        -- rewrite nth_stream_cipher_iv by lia. congruence.
    + rewrite app_nth2 by (rewrite stream_part_length, LM; assumption). rewrite stream_part_length, LM, nth_skipn.
      replace (M + (k - M)) with k by lia. rewrite sub_nth by exact Hk.
      destruct (Nat.leb_spec 8 k); cbn [andb]; [|reflexivity]. destruct (Nat.ltb_spec k (8 * mb)); [unfold M in C; lia|]. reflexivity.
Qed.

(* what a batch call makes of one packet: the cipher on the first mb blocks' worth of bytes *)
Definition prefix_csa (f : list N -> list N) (M : nat) (buf : list N) : list N := f (firstn M buf) ++ skipn M buf.

Lemma firstn_app_exact {A} (a b : list A) n : length a = n -> firstn n (a ++ b) = a.
Proof. intros <-. rewrite firstn_app, firstn_all, Nat.sub_diag. cbn [firstn]. apply app_nil_r. Qed.
Lemma skipn_app_exact {A} (a b : list A) n : length a = n -> skipn n (a ++ b) = b.
Proof. intros <-. rewrite skipn_app, skipn_all, Nat.sub_diag. reflexivity. Qed.

Lemma block_layer_short F d : (forall bs, length (F bs) = length bs) -> length d < 8 -> block_layer F d = d.
Proof.
  intros HF H. unfold block_layer. rewrite blocks_short, residue_short by exact H.
  assert (E : F [] = []) by (apply length_zero_iff_nil; rewrite HF; reflexivity). rewrite E. reflexivity.
Qed.

Lemma decrypt_sub cw kk l8 n mb d d1 d2 i L :
  streamed cw n mb d d1 -> layered (fun i => rcbc_dec (block_dec (kk i))) l8 n mb d1 d2 ->
  i < n -> L <= 184 -> mb <= 23 -> i * slot + L <= length d -> nbk l8 mb i = Nat.min (L / 8) mb ->
  sub d2 i L = prefix_csa (mixed_csa false (cw i) (kk i)) (Nat.min L (8 * mb)) (sub d i L).
Proof.
  intros S Y Hi HL Hm Hd Hn. pose proof S as (L1 & _).
  set (M := Nat.min L (8 * mb)).
  rewrite (layered_sub _ _ _ _ _ _ _ _ Y (rcbc_dec_length _) Hi HL Hm) by (try exact Hn; lia). fold M.
  rewrite (streamed_sub _ _ _ _ _ _ _ S Hi HL Hm Hd). fold M.
  assert (Ls : length (sub d i L) = L) by (apply sub_length; exact Hd).
  assert (LM : length (firstn M (sub d i L)) = M) by (rewrite firstn_length, Ls; unfold M; lia).
  rewrite firstn_app_exact, skipn_app_exact by (rewrite stream_part_length; exact LM).
  unfold prefix_csa. f_equal. unfold mixed_csa, stream_part. rewrite LM.
  destruct (Nat.ltb_spec M 8); [|reflexivity].
  apply block_layer_short; [apply rcbc_dec_length|lia].
Qed.

Lemma encrypt_sub cw kk l8 n mb d d1 d2 i L :
  layered (fun i => rcbc_enc (block_enc (kk i))) l8 n mb d d1 -> streamed cw n mb d1 d2 ->
  i < n -> L <= 184 -> mb <= 23 -> i * slot + L <= length d -> nbk l8 mb i = Nat.min (L / 8) mb ->
  sub d2 i L = prefix_csa (mixed_csa true (cw i) (kk i)) (Nat.min L (8 * mb)) (sub d i L).
Proof.
  intros Y S Hi HL Hm Hd Hn. pose proof Y as (L1 & _).
  set (M := Nat.min L (8 * mb)).
  rewrite (streamed_sub _ _ _ _ _ _ _ S Hi HL Hm) by lia. fold M.
  rewrite (layered_sub _ _ _ _ _ _ _ _ Y (rcbc_enc_length _) Hi HL Hm Hd Hn). fold M.
  assert (Ls : length (sub d i L) = L) by (apply sub_length; exact Hd).
  assert (LM : length (firstn M (sub d i L)) = M) by (rewrite firstn_length, Ls; unfold M; lia).
  assert (LB : length (block_layer (rcbc_enc (block_enc (kk i))) (firstn M (sub d i L))) = M)
    by (rewrite block_layer_length by apply rcbc_enc_length; exact LM).
  rewrite firstn_app_exact, skipn_app_exact by exact LB.
  unfold prefix_csa. f_equal. unfold mixed_csa, stream_part. rewrite LB, LM.
  destruct (Nat.ltb_spec M 8); [|reflexivity].
  apply block_layer_short; [apply rcbc_enc_length|lia].
Qed.
