(** SpecLemmas.v -- facts about Spec: shapes, lengths, inverse laws. *)
From Verif Require Import Base Spec Mem ClassicalBlock ClassicalKey ClassicalStream.
Local Open Scope N_scope.

(** ** cutting into blocks *)
Lemma list_ind8 (P : list N -> Prop) :
  (forall l, (length l < 8)%nat -> P l) ->
  (forall a b c d e f g h l, P l -> P (a :: b :: c :: d :: e :: f :: g :: h :: l)) ->
  forall l, P l.
Proof.
  intros H0 H8.
  assert (X : forall n l, (length l <= n)%nat -> P l).
  { induction n as [|n IH]; intros l L; [apply H0; lia|].
    destruct l as [|a [|b [|c [|d [|e [|f [|g [|h l]]]]]]]]; try (apply H0; simpl; lia).
    apply H8, IH. simpl in L. lia. }
  intros l; apply (X (length l)); lia.
Qed.

Lemma blocks_short l : (length l < 8)%nat -> blocks l = [].
Proof. do 8 (destruct l as [|? l]; [reflexivity|]). simpl; lia. Qed.

Lemma div8_short n : (n < 8)%nat -> (n / 8 = 0)%nat.
Proof. apply Nat.div_small. Qed.
Lemma div8_plus n : (S (S (S (S (S (S (S (S n))))))) / 8 = S (n / 8))%nat.
Proof. replace (S (S (S (S (S (S (S (S n)))))))) with (n + 1 * 8)%nat by lia. rewrite Nat.div_add by lia. lia. Qed.

Lemma blocks_length l : length (blocks l) = (length l / 8)%nat.
Proof.
  induction l as [l H|a b c d e f g h l IH] using list_ind8.
  - rewrite blocks_short, div8_short by exact H. reflexivity.
  - cbn [blocks length]. rewrite div8_plus, IH. reflexivity.
Qed.

Lemma unblocks_cons b bs : unblocks (b :: bs) = block_bytes b ++ unblocks bs.
Proof. reflexivity. Qed.
Lemma unblocks_app b bs : unblocks (b ++ bs) = unblocks b ++ unblocks bs.
Proof. unfold unblocks. rewrite map_app, concat_app. reflexivity. Qed.
Lemma unblocks_length bs : length (unblocks bs) = (8 * length bs)%nat.
Proof. induction bs as [|b bs IH]; [reflexivity|]. rewrite unblocks_cons, app_length, block_bytes_length, IH. simpl length. lia. Qed.

Lemma blocks_unblocks_app bs r : (length r < 8)%nat -> blocks (unblocks bs ++ r) = bs.
Proof.
  intros H. induction bs as [|b bs IH]; [apply blocks_short; exact H|].
  rewrite unblocks_cons, <- app_assoc. blk b. cbn [block_bytes app blocks]. rewrite IH. reflexivity.
Qed.

Lemma residue_length l : length (residue l) = (length l mod 8)%nat.
Proof. unfold residue. rewrite skipn_length. pose proof (Nat.div_mod (length l) 8 ltac:(lia)). lia. Qed.

Lemma residue_short l : (length l < 8)%nat -> residue l = l.
Proof. intros H. unfold residue. rewrite div8_short by exact H. reflexivity. Qed.
Lemma residue_cons a b c d e f g h l : residue (a :: b :: c :: d :: e :: f :: g :: h :: l) = residue l.
Proof.
  unfold residue. cbn [length]. rewrite div8_plus.
  replace (8 * S (length l / 8))%nat with (8 + 8 * (length l / 8))%nat by lia. reflexivity.
Qed.

Lemma unblocks_blocks l : unblocks (blocks l) ++ residue l = l.
Proof.
  induction l as [l H|a b c d e f g h l IH] using list_ind8.
  - rewrite blocks_short, residue_short by exact H. reflexivity.
  - rewrite residue_cons. cbn [blocks]. rewrite unblocks_cons, <- app_assoc, IH. reflexivity.
Qed.

Lemma residue_unblocks_app bs r : (length r < 8)%nat -> residue (unblocks bs ++ r) = r.
Proof.
  intros H. induction bs as [|b bs IH]; [apply residue_short; exact H|].
  rewrite unblocks_cons, <- app_assoc. blk b. cbn [block_bytes app]. rewrite residue_cons. exact IH.
Qed.

Lemma unblocks_is_firstn l : unblocks (blocks l) = firstn (8 * (length l / 8)) l.
Proof.
  pose proof (f_equal (firstn (8 * (length l / 8))) (unblocks_blocks l)) as H.
  rewrite firstn_app in H. rewrite unblocks_length, blocks_length in H.
  rewrite Nat.sub_diag in H. cbn [firstn] in H. rewrite app_nil_r, firstn_all2 in H by (rewrite unblocks_length, blocks_length; lia).
  exact H.
Qed.

Lemma wf_blocks l : Forall is_byte l -> Forall wf_block (blocks l).
Proof.
  induction l as [l H|a b c d e f g h l IH] using list_ind8; intros F.
  - rewrite blocks_short by exact H. constructor.
  - cbn [blocks]. inv_forall. constructor; [repeat constructor; assumption|]. auto.
Qed.
Lemma unblocks_bytes bs : Forall wf_block bs -> Forall is_byte (unblocks bs).
Proof. induction 1; [constructor|]. rewrite unblocks_cons, Forall_app. split; assumption. Qed.

(** ** XOR of blocks *)
Lemma xor_block_bytes a b : xor_bytes (block_bytes a) (block_bytes b) = block_bytes (xor_block a b).
Proof. blk a. blk b. reflexivity. Qed.
Lemma xor_block_zero a : xor_block a zero_block = a.
Proof. blk a. cbn. rewrite !N.lxor_0_r. reflexivity. Qed.
Lemma lxor_cancel a b : N.lxor (N.lxor a b) b = a.
Proof. rewrite N.lxor_assoc, N.lxor_nilpotent, N.lxor_0_r. reflexivity. Qed.
Lemma xor_block_cancel a b : xor_block (xor_block a b) b = a.
Proof. blk a. blk b. cbn. rewrite !lxor_cancel. reflexivity. Qed.
Lemma wf_xor_block a b : wf_block a -> wf_block b -> wf_block (xor_block a b).
Proof. unfold wf_block. rewrite <- xor_block_bytes. apply xor_bytes_is_byte. Qed.
Lemma wf_zero : wf_block zero_block.
Proof. repeat constructor. Qed.

(** ** rounds are mutually inverse *)
Lemma dec_enc_step k R : dec_step k (enc_step k R) = R.
Proof.
  blk R. unfold dec_step, enc_step.
  rewrite !lxor_cancel.
  repeat f_equal; rewrite lxor_cancel; reflexivity.
Qed.
Lemma enc_dec_step k R : enc_step k (dec_step k R) = R.
Proof. blk R. unfold dec_step, enc_step. rewrite !lxor_cancel. reflexivity. Qed.

Lemma block_dec_enc kk R : block_dec kk (block_enc kk R) = R.
Proof.
  unfold block_dec, block_enc. revert R. induction kk as [|k kk IH]; intros R; [reflexivity|].
  cbn [rev fold_left]. rewrite fold_left_app, IH. cbn [fold_left]. apply dec_enc_step.
Qed.
Lemma block_enc_dec kk R : block_enc kk (block_dec kk R) = R.
Proof.
  unfold block_dec, block_enc. revert R. induction kk as [|k kk IH] using rev_ind; intros R; [reflexivity|].
  rewrite rev_app_distr, fold_left_app. cbn [rev app fold_left]. rewrite IH. apply enc_dec_step.
Qed.

(** ** reverse CBC *)
Lemma rcbc_enc_length E ps : length (rcbc_enc E ps) = length ps.
Proof. induction ps; simpl; auto. Qed.
Lemma rcbc_dec_length D cs : length (rcbc_dec D cs) = length cs.
Proof. induction cs; simpl; auto. Qed.

Lemma rcbc_dec_enc E D ps : (forall b, D (E b) = b) -> rcbc_dec D (rcbc_enc E ps) = ps.
Proof.
  intros H. induction ps as [|p ps IH]; [reflexivity|]. cbn [rcbc_enc rcbc_dec].
  rewrite H, xor_block_cancel, IH. reflexivity.
Qed.
Lemma rcbc_enc_dec E D cs : (forall b, E (D b) = b) -> rcbc_enc E (rcbc_dec D cs) = cs.
Proof.
  intros H. induction cs as [|c cs IH]; [reflexivity|]. cbn [rcbc_dec rcbc_enc].
  rewrite IH, xor_block_cancel, H. reflexivity.
Qed.
Lemma wf_hd cs : Forall wf_block cs -> wf_block (hd zero_block cs).
Proof. destruct 1; [apply wf_zero|assumption]. Qed.
Lemma rcbc_dec_wf D cs : (forall b, wf_block b -> wf_block (D b)) -> Forall wf_block cs -> Forall wf_block (rcbc_dec D cs).
Proof.
  intros H F. induction F as [|c cs Hc F IH]; cbn [rcbc_dec]; constructor; auto.
  apply wf_xor_block; auto using wf_hd.
Qed.
Lemma rcbc_enc_wf E cs : (forall b, wf_block b -> wf_block (E b)) -> Forall wf_block cs -> Forall wf_block (rcbc_enc E cs).
Proof.
  intros H F. induction F as [|c cs Hc F IH]; cbn [rcbc_enc]; constructor; auto.
  apply H, wf_xor_block; auto using wf_hd.
Qed.
Lemma rcbc_dec_nth D cs j : (j < length cs)%nat ->
  nth j (rcbc_dec D cs) zero_block = xor_block (D (nth j cs zero_block)) (nth (S j) cs zero_block).
Proof.
  revert j; induction cs as [|c cs IH]; intros j H; [simpl in H; lia|].
  destruct j as [|j]; cbn [rcbc_dec nth].
  - destruct cs; reflexivity.
  - rewrite IH by (simpl in H; lia). reflexivity.
Qed.

(** ** stream layer *)
Lemma xor_bytes_cancel a k : length a = length k -> xor_bytes (xor_bytes a k) k = a.
Proof. revert k; induction a as [|x a IH]; intros [|y k]; simpl; intros; try discriminate; auto. rewrite lxor_cancel, IH by lia. reflexivity. Qed.

Lemma keystream_length cw iv n : length (keystream cw iv n) = n.
Proof. apply gen_bytes_length. Qed.

Lemma stream_cipher_length cw d : length (stream_cipher cw d) = length d.
Proof.
  unfold stream_cipher. rewrite app_length, xor_bytes_length, keystream_length, Nat.min_id.
  rewrite <- app_length, firstn_skipn. reflexivity.
Qed.
Lemma firstn_app_le {A} n (a b : list A) : (n <= length a)%nat -> firstn n (a ++ b) = firstn n a.
Proof. intros H. rewrite firstn_app. replace (n - length a)%nat with 0%nat by lia. cbn [firstn]. apply app_nil_r. Qed.

Lemma stream_cipher_iv cw d : firstn 8 (stream_cipher cw d) = firstn 8 d.
Proof.
  unfold stream_cipher.
  destruct (Nat.le_gt_cases 8 (length d)) as [H|H].
  - rewrite firstn_app_le by (rewrite firstn_length; lia). rewrite firstn_firstn. reflexivity.
  - rewrite (skipn_all2 d) by lia. cbn [xor_bytes length]. rewrite app_nil_r, firstn_firstn. reflexivity.
Qed.
Lemma stream_cipher_body cw d : (8 <= length d)%nat ->
  skipn 8 (stream_cipher cw d) = xor_bytes (skipn 8 d) (keystream cw (firstn 8 d) (length (skipn 8 d))).
Proof.
  intros H. unfold stream_cipher. rewrite skipn_app, skipn_all2 by (rewrite firstn_length; lia).
  rewrite firstn_length. replace (8 - Nat.min 8 (length d))%nat with 0%nat by lia. reflexivity.
Qed.

Lemma stream_cipher_involutive cw d : (8 <= length d)%nat -> stream_cipher cw (stream_cipher cw d) = d.
Proof.
  intros H. unfold stream_cipher at 1. rewrite stream_cipher_iv, stream_cipher_body by exact H.
  rewrite xor_bytes_length, keystream_length, Nat.min_id.
  rewrite xor_bytes_cancel by (rewrite keystream_length; reflexivity). apply firstn_skipn.
Qed.

Lemma out2_lt s : out2 s < 4.
Proof.
  unfold out2, bit. destruct (N.testbit (rD s) 3), (N.testbit (rD s) 2), (N.testbit (rD s) 1), (N.testbit (rD s) 0); reflexivity.
Qed.
Lemma gen_byte_is_byte s : is_byte (fst (gen_byte s)).
Proof.
  rewrite gen_byte_fst. unfold is_byte.
  pose proof (out2_lt (clock None s)). pose proof (out2_lt (clock None (clock None s))).
  pose proof (out2_lt (clock None (clock None (clock None s)))).
  pose proof (out2_lt (clock None (clock None (clock None (clock None s))))). lia.
Qed.
Lemma gen_bytes_bytes n : forall s, Forall is_byte (gen_bytes n s).
Proof.
  induction n as [|n IH]; intros s; cbn [gen_bytes]; [constructor|].
  pose proof (gen_byte_is_byte s). destruct (gen_byte s) as [b s']. constructor; auto.
Qed.
Lemma stream_cipher_bytes cw d : Forall is_byte d -> Forall is_byte (stream_cipher cw d).
Proof.
  intros F. unfold stream_cipher. rewrite Forall_app. split; [apply Forall_firstn, F|].
  apply xor_bytes_is_byte; [apply Forall_skipn, F|apply gen_bytes_bytes].
Qed.

(** ** packets *)
Lemma block_layer_length f d : (forall bs, length (f bs) = length bs) -> length (block_layer f d) = length d.
Proof.
  intros H. unfold block_layer. rewrite app_length, unblocks_length, H, blocks_length, residue_length.
  pose proof (Nat.div_mod (length d) 8 ltac:(lia)). lia.
Qed.
Lemma block_layer_bytes f d : (forall bs, Forall wf_block bs -> Forall wf_block (f bs)) ->
  Forall is_byte d -> Forall is_byte (block_layer f d).
Proof.
  intros H F. unfold block_layer. rewrite Forall_app. split.
  - apply unblocks_bytes, H, wf_blocks, F.
  - apply Forall_skipn, F.
Qed.
Lemma block_layer_inv f g d : (forall bs, f (g bs) = bs) -> block_layer f (block_layer g d) = d.
Proof.
  intros H. unfold block_layer at 1.
  assert (R : (length (residue d) < 8)%nat) by (rewrite residue_length; apply Nat.mod_upper_bound; lia).
  unfold block_layer. rewrite blocks_unblocks_app, residue_unblocks_app by exact R.
  rewrite H. apply unblocks_blocks.
Qed.

Theorem csa_encrypt_length cw d : length (csa_encrypt cw d) = length d.
Proof.
  unfold csa_encrypt. destruct (Nat.ltb (length d) 8); [reflexivity|].
  rewrite stream_cipher_length. apply block_layer_length. apply rcbc_enc_length.
Qed.
Theorem csa_decrypt_length cw d : length (csa_decrypt cw d) = length d.
Proof.
  unfold csa_decrypt. destruct (Nat.ltb (length d) 8); [reflexivity|].
  rewrite block_layer_length by apply rcbc_dec_length. apply stream_cipher_length.
Qed.

Theorem csa_dec_enc cw d : csa_decrypt cw (csa_encrypt cw d) = d.
Proof.
  unfold csa_decrypt. rewrite csa_encrypt_length. unfold csa_encrypt.
  destruct (Nat.ltb_spec (length d) 8) as [|H]; [reflexivity|].
  rewrite stream_cipher_involutive by (rewrite block_layer_length; [exact H|apply rcbc_enc_length]).
  apply block_layer_inv. intros. apply rcbc_dec_enc. apply block_dec_enc.
Qed.
Theorem csa_enc_dec cw d : csa_encrypt cw (csa_decrypt cw d) = d.
Proof.
  unfold csa_encrypt. rewrite csa_decrypt_length. unfold csa_decrypt.
  destruct (Nat.ltb_spec (length d) 8) as [|H]; [reflexivity|].
  rewrite block_layer_inv by (intros; apply rcbc_enc_dec, block_enc_dec).
  apply stream_cipher_involutive. exact H.
Qed.

Lemma csa_encrypt_bytes cw d : length cw = 8%nat -> Forall is_byte cw -> Forall is_byte d -> Forall is_byte (csa_encrypt cw d).
Proof.
  intros L Fc F. unfold csa_encrypt. destruct (Nat.ltb (length d) 8); [exact F|].
  apply stream_cipher_bytes, block_layer_bytes; [|exact F]. intros; apply rcbc_enc_wf; [|assumption].
  intros; apply block_enc_wf; auto using key_schedule_bytes.
Qed.
Lemma csa_decrypt_bytes cw d : length cw = 8%nat -> Forall is_byte cw -> Forall is_byte d -> Forall is_byte (csa_decrypt cw d).
Proof.
  intros L Fc F. unfold csa_decrypt. destruct (Nat.ltb (length d) 8); [exact F|].
  apply block_layer_bytes; [|apply stream_cipher_bytes, F]. intros; apply rcbc_dec_wf; [|assumption].
  intros; apply block_dec_wf; auto using key_schedule_bytes.
Qed.
