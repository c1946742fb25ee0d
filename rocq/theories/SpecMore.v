(** SpecMore.v -- further facts about the cipher of Spec.v (C10, C43). *)
From Verif Require Import Base Mem Spec ClassicalBlock SpecLemmas ClassicalAlgo SpecFacts.
Local Open Scope N_scope.

Lemma nth_xor_block a b i : (i < 8)%nat -> nth i (block_bytes (xor_block a b)) 0 = N.lxor (nth i (block_bytes a) 0) (nth i (block_bytes b) 0).
Proof. intros H. rewrite <- xor_block_bytes. apply nth_xor_bytes; rewrite block_bytes_length; exact H. Qed.

Lemma xor3_cancel a b c : N.lxor (N.lxor a b) (N.lxor a c) = N.lxor b c.
Proof.
  rewrite (N.lxor_comm a b), N.lxor_assoc, <- (N.lxor_assoc a a c), N.lxor_nilpotent, N.lxor_0_l. reflexivity.
Qed.

Lemma nth_blocks d k i : (k < length d / 8)%nat -> (i < 8)%nat -> nth i (block_bytes (nth k (blocks d) zero_block)) 0 = nth (8 * k + i) d 0.
Proof.
  intros Hk Hi. assert (B : (8 * (length d / 8) <= length d)%nat) by (apply Nat.mul_div_le; lia).
  rewrite <- (unblocks_blocks d) at 2. rewrite app_nth1 by (rewrite unblocks_length, blocks_length; lia).
  rewrite nth_unblocks by (rewrite blocks_length; lia).
  replace ((8 * k + i) mod 8)%nat with i.
  2:{ rewrite (Nat.mul_comm 8 k), Nat.add_comm, Nat.mod_add by lia. rewrite Nat.mod_small; lia. }
  replace ((8 * k + i) / 8)%nat with k; [reflexivity|].
  rewrite (Nat.mul_comm 8 k), Nat.add_comm, Nat.div_add by lia. rewrite Nat.div_small; lia.
Qed.

(* C10: the bits that differ in whole ciphertext block k flip the same bits of plaintext block k-1 *)
Lemma error_bits cw c c' k i : length c = length c' -> (1 <= k)%nat -> (8 * k + 8 <= length c)%nat ->
  (forall n, (n / 8 <> k)%nat -> nth n c 0 = nth n c' 0) -> (i / 8 = k - 1)%nat ->
  N.lxor (nth i (csa_decrypt cw c) 0) (nth i (csa_decrypt cw c') 0) = N.lxor (nth (i + 8) c 0) (nth (i + 8) c' 0).
Proof.
  intros L Hk Hl H Ei.
  assert (B : (8 * (length c / 8) <= length c)%nat) by (apply Nat.mul_div_le; lia).
  assert (Hd : (k < length c / 8)%nat) by (apply Nat.div_le_lower_bound; lia).
  assert (Em : (i = 8 * (k - 1) + i mod 8)%nat) by (rewrite <- Ei; apply Nat.div_mod; lia).
  assert (Hm : (i mod 8 < 8)%nat) by (apply Nat.mod_upper_bound; lia).
  set (r := (i mod 8)%nat) in *.
  assert (Hiv : firstn 8 c = firstn 8 c').
  { apply (firstn_nth_ext 8 _ _ 0); try lia. intros n Hn. apply H. rewrite Nat.div_small by lia. lia. }
  unfold csa_decrypt. rewrite !ltb8 by lia.
  rewrite !nth_block_dec by (rewrite stream_cipher_length, <- ?L; lia). rewrite Ei. fold r. rewrite !nth_xor_block by exact Hm.
  replace (S (k - 1)) with k by lia.
  replace (nth (k - 1) (blocks (stream_cipher cw c')) zero_block) with (nth (k - 1) (blocks (stream_cipher cw c)) zero_block).
  2:{ apply block_of_nth; rewrite ?stream_cipher_length, <- ?L; try lia. intros n Hn.
      apply stream_cipher_local; try assumption; try lia. apply H. intros E.
      assert (n / 8 = k - 1)%nat by (symmetry; apply (Nat.div_unique n 8 (k - 1) (n - 8 * (k - 1))); lia). lia. }
  rewrite xor3_cancel. rewrite !nth_blocks by (rewrite ?stream_cipher_length, <- ?L; lia).
  rewrite !nth_stream_cipher by lia. rewrite Hiv. replace (8 * k + r)%nat with (i + 8)%nat by lia.
  set (s := nth _ (keystream _ _ _) 0).
  rewrite (N.lxor_comm (nth (i + 8) c 0) s), (N.lxor_comm (nth (i + 8) c' 0) s). apply xor3_cancel.
Qed.

Lemma block_bytes_inj a b : block_bytes a = block_bytes b -> a = b.
Proof. blk a. blk b. cbn. intros E. injection E as -> -> -> -> -> -> -> ->. reflexivity. Qed.
Lemma block_nth_inj a b : (forall i, (i < 8)%nat -> nth i (block_bytes a) 0 = nth i (block_bytes b) 0) -> a = b.
Proof.
  intros H. apply block_bytes_inj. apply (nth_ext _ _ 0 0); [rewrite !block_bytes_length; reflexivity|].
  rewrite block_bytes_length. exact H.
Qed.
Lemma xor_block_inj a b x : xor_block a x = xor_block b x -> a = b.
Proof. intros E. rewrite <- (xor_block_cancel a x), <- (xor_block_cancel b x), E. reflexivity. Qed.
Lemma xor_block_comm a b : xor_block a b = xor_block b a.
Proof.
  apply block_nth_inj. intros i Hi. rewrite !nth_xor_block by exact Hi. apply N.lxor_comm.
Qed.

(* C43: with blocks that differ in exactly one place the first ciphertext block differs *)
Lemma rcbc_hd_differs E D : (forall b, D (E b) = b) -> forall ps ps' k, length ps = length ps' -> (k < length ps)%nat ->
  (forall j, j <> k -> nth j ps zero_block = nth j ps' zero_block) -> nth k ps zero_block <> nth k ps' zero_block ->
  hd zero_block (rcbc_enc E ps) <> hd zero_block (rcbc_enc E ps').
Proof.
  intros DE. induction ps as [|p ps IH]; intros [|p' ps'] k L Hk H Ne; cbn [length] in *; try lia.
  cbn [rcbc_enc hd]. intros Q. apply (f_equal D) in Q. rewrite !DE in Q. destruct k as [|k]; cbn [nth] in *.
  - assert (ps = ps'). { apply (nth_ext _ _ zero_block zero_block); [lia|]. intros n _. apply (H (S n)). lia. }
    subst ps'. exact (Ne (xor_block_inj _ _ _ Q)).
  - pose proof (H 0%nat ltac:(lia)) as E0. cbn [nth] in E0. subst p'.
    rewrite (xor_block_comm p), (xor_block_comm p) in Q. apply xor_block_inj in Q. revert Q.
    apply (IH ps' k); [lia|lia| |exact Ne]. intros j Hj. apply (H (S j)). lia.
Qed.

Lemma firstn8_block_layer f d : (8 <= length d)%nat -> (forall bs, length (f bs) = length bs) ->
  firstn 8 (block_layer f d) = block_bytes (hd zero_block (f (blocks d))).
Proof.
  intros L Lf. unfold block_layer. assert (Hd : (1 <= length d / 8)%nat) by (apply Nat.div_le_lower_bound; lia).
  pose proof (Lf (blocks d)) as Q. rewrite blocks_length in Q. destruct (f (blocks d)) as [|b bs]; [change (@length block []) with 0%nat in Q; lia|].
  rewrite unblocks_cons, <- app_assoc. rewrite firstn_app_le by (rewrite block_bytes_length; lia). cbn [hd].
  apply firstn_all2. rewrite block_bytes_length. lia.
Qed.

Lemma first_block_differs cw p p' k : length p = length p' -> (8 * k + 8 <= length p)%nat -> p <> p' ->
  (forall n, (n / 8 <> k)%nat -> nth n p 0 = nth n p' 0) ->
  firstn 8 (csa_encrypt cw p) <> firstn 8 (csa_encrypt cw p').
Proof.
  intros L Hl Ne H. unfold csa_encrypt. rewrite !ltb8 by lia. rewrite !stream_cipher_iv.
  rewrite !firstn8_block_layer by (lia || apply rcbc_enc_length). intros E. apply block_bytes_inj in E. revert E.
  assert (Hd : (k < length p / 8)%nat) by (apply Nat.div_le_lower_bound; lia).
  apply (rcbc_hd_differs _ _ (block_dec_enc (key_schedule cw)) _ _ k); rewrite ?blocks_length, <- ?L; try lia; try reflexivity.
  - intros j Hj. destruct (Nat.lt_ge_cases j (length p / 8)) as [Q|Q].
    + apply block_of_nth; rewrite <- ?L; try lia. intros i Hi. apply H.
      assert (i / 8 = j)%nat by (symmetry; apply (Nat.div_unique i 8 j (i - 8 * j)); lia). lia.
    + rewrite !nth_overflow; [reflexivity| |]; rewrite blocks_length, <- ?L; lia.
  - intros E. apply Ne. apply (nth_ext _ _ 0 0 L). intros n Hn. destruct (Nat.eq_dec (n / 8) k) as [Q|Q]; [|apply H, Q].
    pose proof (Nat.div_mod n 8 ltac:(lia)) as Em. pose proof (Nat.mod_upper_bound n 8 ltac:(lia)) as Hm.
    replace n with (8 * k + n mod 8)%nat by lia. rewrite <- !nth_blocks by (rewrite <- ?L; lia). rewrite E. reflexivity.
Qed.
