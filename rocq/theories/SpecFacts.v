(** SpecFacts.v -- consequences of the cipher definition: residue, error propagation, keystream
    prefixes, structure of the key schedule.  Used by Properties_Classical.v. *)
From Verif Require Import Base Mem Spec ClassicalBlock ClassicalKey ClassicalStream SpecLemmas ClassicalAlgo.
Local Open Scope N_scope.

(** ** keystream *)
Lemma gen_bytes_prefix a b : forall s, firstn a (gen_bytes (a + b) s) = gen_bytes a s.
Proof.
  induction a as [|a IH]; intros s; [reflexivity|]. cbn [Nat.add gen_bytes].
  destruct (gen_byte s) as [k s']. cbn [firstn]. rewrite IH. reflexivity.
Qed.
Lemma keystream_prefix cw iv a b : firstn a (keystream cw iv (a + b)) = keystream cw iv a.
Proof. apply gen_bytes_prefix. Qed.
Lemma keystream_nth cw iv n n' k : (k < n)%nat -> (k < n')%nat ->
  nth k (keystream cw iv n) 0 = nth k (keystream cw iv n') 0.
Proof.
  intros H H'.
  assert (X : forall p, (k < p)%nat -> nth k (keystream cw iv p) 0 = nth k (keystream cw iv (S k)) 0).
  { intros p Hp. rewrite <- (keystream_prefix cw iv (S k) (p - S k)).
    replace (S k + (p - S k))%nat with p by lia. symmetry. apply nth_firstn_lt. lia. }
  rewrite (X n H), (X n' H'). reflexivity.
Qed.

Lemma nth_xor_bytes a b i : (i < length a)%nat -> (i < length b)%nat ->
  nth i (xor_bytes a b) 0 = N.lxor (nth i a 0) (nth i b 0).
Proof.
  revert b i; induction a as [|x a IH]; intros [|y b] [|i]; simpl; intros; try lia; auto. apply IH; lia.
Qed.

Lemma xor_bytes_app a b k : xor_bytes (a ++ b) k = xor_bytes a (firstn (length a) k) ++ xor_bytes b (skipn (length a) k).
Proof.
  revert k; induction a as [|x a IH]; intros k; [reflexivity|].
  destruct k as [|y k]; simpl; [destruct b; reflexivity|]. rewrite IH. reflexivity.
Qed.

Lemma nth_stream_cipher cw d i : (8 <= length d)%nat -> (8 <= i < length d)%nat ->
  nth i (stream_cipher cw d) 0 = N.lxor (nth i d 0) (nth (i - 8) (keystream cw (firstn 8 d) (S (i - 8))) 0).
Proof.
  intros L Hi. unfold stream_cipher. rewrite app_nth2 by (rewrite firstn_length; lia).
  rewrite firstn_length, Nat.min_l by lia.
  rewrite nth_xor_bytes by (rewrite ?keystream_length, skipn_length; lia).
  rewrite nth_skipn. replace (8 + (i - 8))%nat with i by lia. f_equal.
  apply keystream_nth; [rewrite skipn_length|]; lia.
Qed.
Lemma nth_stream_cipher_iv cw d i : (8 <= length d)%nat -> (i < 8)%nat ->
  nth i (stream_cipher cw d) 0 = nth i d 0.
Proof.
  intros L Hi. unfold stream_cipher. rewrite app_nth1 by (rewrite firstn_length; lia). apply nth_firstn_lt, Hi.
Qed.

(** ** residue *)
Lemma stream_cipher_app cw x r : (8 <= length x)%nat ->
  stream_cipher cw (x ++ r) = stream_cipher cw x
     ++ xor_bytes r (skipn (length x - 8) (keystream cw (firstn 8 x) (length x - 8 + length r))).
Proof.
  intros L. unfold stream_cipher. rewrite firstn_app_le by exact L.
  rewrite skipn_app. replace (8 - length x)%nat with 0%nat by lia. rewrite skipn_O.
  rewrite xor_bytes_app, <- app_assoc. rewrite app_length, skipn_length.
  rewrite keystream_prefix. reflexivity.
Qed.

Lemma whole_unblocks x k : length x = (8 * k)%nat -> exists bs, x = unblocks bs /\ length bs = k.
Proof.
  intros L. exists (blocks x). split.
  - rewrite <- (unblocks_blocks x) at 1. assert (R : length (residue x) = 0%nat).
    { rewrite residue_length, L, Nat.mul_comm. apply Nat.mod_mul. lia. }
    destruct (residue x); [apply app_nil_r|discriminate].
  - rewrite blocks_length, L, Nat.mul_comm. apply Nat.div_mul. lia.
Qed.

Lemma block_layer_app f x r k : length x = (8 * k)%nat -> (length r < 8)%nat ->
  block_layer f (x ++ r) = block_layer f x ++ r.
Proof.
  intros L Lr. destruct (whole_unblocks x k L) as (bs & -> & _). unfold block_layer.
  rewrite blocks_unblocks_app, residue_unblocks_app by exact Lr.
  assert (E := blocks_unblocks_app bs [] ltac:(simpl; lia)). assert (E' := residue_unblocks_app bs [] ltac:(simpl; lia)).
  rewrite app_nil_r in E, E'. rewrite E, E', app_nil_r. reflexivity.
Qed.

Lemma ltb8 {A} (l : list A) : (8 <= length l)%nat -> Nat.ltb (length l) 8 = false.
Proof. intros; apply Nat.ltb_ge; assumption. Qed.

Lemma csa_encrypt_residue cw whole res k : length whole = (8 * S k)%nat -> (length res < 8)%nat ->
  csa_encrypt cw (whole ++ res) =
  csa_encrypt cw whole ++
  xor_bytes res (skipn (8 * k) (keystream cw (firstn 8 (csa_encrypt cw whole)) (8 * k + length res))).
Proof.
  intros L Lr. unfold csa_encrypt. rewrite ltb8 by (rewrite app_length; lia). rewrite ltb8 by lia.
  rewrite (block_layer_app _ whole res (S k)) by assumption.
  set (y := block_layer _ whole). assert (Ly : length y = length whole) by (apply block_layer_length, rcbc_enc_length).
  rewrite stream_cipher_app by lia. rewrite stream_cipher_iv. rewrite Ly, L. replace (8 * S k - 8)%nat with (8 * k)%nat by lia. reflexivity.
Qed.

Lemma csa_decrypt_residue cw whole res k : length whole = (8 * S k)%nat -> (length res < 8)%nat ->
  csa_decrypt cw (whole ++ res) =
  csa_decrypt cw whole ++
  xor_bytes res (skipn (8 * k) (keystream cw (firstn 8 whole) (8 * k + length res))).
Proof.
  intros L Lr. unfold csa_decrypt. rewrite ltb8 by (rewrite app_length; lia). rewrite ltb8 by lia.
  rewrite stream_cipher_app by lia. rewrite (block_layer_app _ _ _ (S k)).
  - rewrite L. replace (8 * S k - 8)%nat with (8 * k)%nat by lia. reflexivity.
  - rewrite stream_cipher_length. exact L.
  - rewrite xor_bytes_length, skipn_length, keystream_length. lia.
Qed.

(** ** locality of decryption *)
Lemma nth_unblocks bs i : (i < 8 * length bs)%nat ->
  nth i (unblocks bs) 0 = nth (i mod 8) (block_bytes (nth (i / 8) bs zero_block)) 0.
Proof.
  revert i; induction bs as [|b bs IH]; intros i H; [simpl in H; lia|].
  rewrite unblocks_cons. destruct (Nat.lt_ge_cases i 8) as [L|L].
  - rewrite app_nth1 by (rewrite block_bytes_length; lia). rewrite Nat.mod_small, Nat.div_small by lia. reflexivity.
  - rewrite app_nth2 by (rewrite block_bytes_length; lia). rewrite block_bytes_length.
    rewrite IH by (simpl in H; lia). replace i with (i - 8 + 1 * 8)%nat at 3 4 by lia.
    rewrite Nat.mod_add, Nat.div_add by lia. rewrite Nat.add_1_r. reflexivity.
Qed.

Lemma nth_block_dec D d i : (i < 8 * (length d / 8))%nat ->
  nth i (block_layer (rcbc_dec D) d) 0 =
  nth (i mod 8) (block_bytes (xor_block (D (nth (i / 8) (blocks d) zero_block)) (nth (S (i / 8)) (blocks d) zero_block))) 0.
Proof.
  intros H. unfold block_layer. rewrite app_nth1 by (rewrite unblocks_length, rcbc_dec_length, blocks_length; exact H).
  rewrite nth_unblocks by (rewrite rcbc_dec_length, blocks_length; exact H).
  rewrite rcbc_dec_nth; [reflexivity|]. rewrite blocks_length. apply Nat.div_lt_upper_bound; lia.
Qed.
Lemma nth_block_dec_res D d i : (8 * (length d / 8) <= i)%nat ->
  nth i (block_layer (rcbc_dec D) d) 0 = nth i d 0.
Proof.
  intros H. unfold block_layer. rewrite app_nth2 by (rewrite unblocks_length, rcbc_dec_length, blocks_length; exact H).
  rewrite unblocks_length, rcbc_dec_length, blocks_length. unfold residue. rewrite nth_skipn. f_equal. lia.
Qed.

Lemma firstn_nth_ext {A} n (l l' : list A) d : (n <= length l)%nat -> (n <= length l')%nat ->
  (forall i, (i < n)%nat -> nth i l d = nth i l' d) -> firstn n l = firstn n l'.
Proof.
  intros L L' H. apply (nth_ext _ _ d d).
  - rewrite !firstn_length. lia.
  - intros i Hi. rewrite firstn_length in Hi. rewrite !nth_firstn_lt by lia. apply H. lia.
Qed.

Lemma block_of_nth d d' k : (k < length d / 8)%nat -> (k < length d' / 8)%nat ->
  (forall i, (8 * k <= i < 8 * k + 8)%nat -> nth i d 0 = nth i d' 0) ->
  nth k (blocks d) zero_block = nth k (blocks d') zero_block.
Proof.
  intros L L' H. rewrite <- !block_at_nth by assumption. f_equal.
  assert (B : (8 * (length d / 8) <= length d)%nat) by (apply Nat.mul_div_le; lia).
  assert (B' : (8 * (length d' / 8) <= length d')%nat) by (apply Nat.mul_div_le; lia).
  apply (firstn_nth_ext 8 _ _ 0); rewrite ?skipn_length; try lia.
  intros i Hi. rewrite !nth_skipn. apply H. lia.
Qed.

Lemma stream_cipher_local cw d d' i : (8 <= length d)%nat -> (8 <= length d')%nat ->
  (i < length d)%nat -> (i < length d')%nat -> firstn 8 d = firstn 8 d' -> nth i d 0 = nth i d' 0 ->
  nth i (stream_cipher cw d) 0 = nth i (stream_cipher cw d') 0.
Proof.
  intros L L' Hi Hi' E H. destruct (Nat.lt_ge_cases i 8) as [C|C].
  - rewrite !nth_stream_cipher_iv by assumption. exact H.
  - rewrite !nth_stream_cipher by lia. rewrite E, H. reflexivity.
Qed.

(* a decrypted byte of block j depends on the first 8 ciphertext bytes and on blocks j, j+1 only *)
Lemma csa_decrypt_local cw c c' i :
  (i < 8 * (length c / 8))%nat -> (i < 8 * (length c' / 8))%nat ->
  firstn 8 c = firstn 8 c' ->
  (forall n, (n / 8 = i / 8)%nat -> nth n c 0 = nth n c' 0) ->
  ((S (i / 8) < length c / 8)%nat /\ (S (i / 8) < length c' / 8)%nat /\ (forall n, (n / 8 = S (i / 8))%nat -> nth n c 0 = nth n c' 0)
   \/ (S (i / 8) = length c / 8)%nat /\ (S (i / 8) = length c' / 8)%nat) ->
  nth i (csa_decrypt cw c) 0 = nth i (csa_decrypt cw c') 0.
Proof.
  intros L L' Hiv H0 H1.
  assert (B : (8 * (length c / 8) <= length c)%nat) by (apply Nat.mul_div_le; lia).
  assert (B' : (8 * (length c' / 8) <= length c')%nat) by (apply Nat.mul_div_le; lia).
  assert (8 <= length c)%nat by lia. assert (8 <= length c')%nat by lia.
  unfold csa_decrypt. rewrite !ltb8 by assumption.
  rewrite !nth_block_dec by (rewrite stream_cipher_length; assumption).
  assert (DL : (i / 8 < length c / 8)%nat) by (apply Nat.div_lt_upper_bound; lia).
  assert (DL' : (i / 8 < length c' / 8)%nat) by (apply Nat.div_lt_upper_bound; lia).
  assert (Q : forall j n, (8 * j <= n < 8 * j + 8)%nat -> (n / 8 = j)%nat).
  { intros j n Hn. symmetry. apply (Nat.div_unique n 8 j (n - 8 * j)); lia. }
  f_equal. f_equal. f_equal; [f_equal|].
  - apply block_of_nth; rewrite ?stream_cipher_length; try assumption.
    intros n Hn. assert (n / 8 = i / 8)%nat by (apply Q; exact Hn).
    apply stream_cipher_local; try assumption; try lia. auto.
  - destruct H1 as [(A & A' & H1)|(A & A')].
    + apply block_of_nth; rewrite ?stream_cipher_length; try assumption.
      intros n Hn. assert (n / 8 = S (i / 8))%nat by (apply Q; exact Hn).
      apply stream_cipher_local; try assumption; try lia. auto.
    + rewrite !nth_overflow; [reflexivity| |]; rewrite blocks_length, stream_cipher_length; lia.
Qed.

Lemma csa_decrypt_local_res cw c c' i :
  (8 <= length c)%nat -> (8 <= length c')%nat -> (8 * (length c / 8) <= i < length c)%nat -> (8 * (length c' / 8) <= i < length c')%nat ->
  firstn 8 c = firstn 8 c' -> nth i c 0 = nth i c' 0 ->
  nth i (csa_decrypt cw c) 0 = nth i (csa_decrypt cw c') 0.
Proof.
  intros L L' Hi Hi' E H. unfold csa_decrypt. rewrite !ltb8 by assumption.
  rewrite !nth_block_dec_res by (rewrite stream_cipher_length; lia). apply stream_cipher_local; lia || assumption.
Qed.

(* C10 *)
Lemma error_propagation cw c c' k i :
  length c = length c' -> (1 <= k)%nat ->
  (forall n, (n / 8 <> k)%nat -> nth n c 0 = nth n c' 0) ->
  (i < length c)%nat -> (i / 8 <> k)%nat -> (i / 8 <> k - 1)%nat ->
  nth i (csa_decrypt cw c) 0 = nth i (csa_decrypt cw c') 0.
Proof.
  intros L Hk H Hi N0 N1.
  destruct (Nat.lt_ge_cases (length c) 8) as [C|C].
  - unfold csa_decrypt. rewrite <- L. replace (length c <? 8)%nat with true by (symmetry; apply Nat.ltb_lt; exact C). auto.
  - assert (Hiv : firstn 8 c = firstn 8 c').
    { apply (firstn_nth_ext 8 _ _ 0); try lia. intros n Hn. apply H. rewrite Nat.div_small by lia. lia. }
    destruct (Nat.lt_ge_cases i (8 * (length c / 8))) as [B|B].
    + apply csa_decrypt_local; try assumption; rewrite <- ?L; try assumption.
      * intros n Hn. apply H. lia.
      * assert (i / 8 < length c / 8)%nat by (apply Nat.div_lt_upper_bound; lia).
        destruct (Nat.eq_dec (S (i / 8)) (length c / 8)) as [Q|Q]; [right; auto|left].
        repeat split; try lia. intros n Hn. apply H. lia.
    + apply csa_decrypt_local_res; rewrite <- ?L; try assumption; try lia. apply H. exact N0.
Qed.

(* C11: decrypting a prefix *)
Lemma decrypt_prefix cw c n i : (n <= length c)%nat -> (i + 8 < 8 * (n / 8))%nat \/ (i < 8 * (n / 8) /\ n / 8 = length c / 8)%nat ->
  nth i (csa_decrypt cw (firstn n c)) 0 = nth i (csa_decrypt cw c) 0.
Proof.
  intros Hn Hi. assert (B : (8 * (n / 8) <= n)%nat) by (apply Nat.mul_div_le; lia).
  assert (B' : (n / 8 <= length c / 8)%nat) by (apply Nat.div_le_mono; lia).
  assert (Lf : length (firstn n c) = n) by (rewrite firstn_length; lia).
  assert (8 <= n)%nat by lia.
  assert (P : forall k, (k / 8 < n / 8)%nat -> nth k (firstn n c) 0 = nth k c 0).
  { intros k Hk. apply nth_firstn_lt. pose proof (Nat.div_mod k 8 ltac:(lia)). pose proof (Nat.mod_upper_bound k 8 ltac:(lia)). lia. }
  assert (DL : (i / 8 < n / 8)%nat) by (apply Nat.div_lt_upper_bound; lia).
  apply csa_decrypt_local; rewrite ?Lf; try lia.
  - rewrite firstn_firstn. f_equal. lia.
  - intros k Hk. apply P. lia.
  - assert (DM := Nat.div_mod i 8 ltac:(lia)). destruct Hi as [Hi|[Hi E]].
    + left. repeat split; try lia. intros k Hk. apply P. lia.
    + destruct (Nat.eq_dec (S (i / 8)) (n / 8)); [right; lia|left]. repeat split; try lia.
      intros k Hk. apply P. lia.
Qed.

Lemma same_keystream cw c c' : length c = length c' -> (8 <= length c)%nat -> firstn 8 c = firstn 8 c' ->
  xor_bytes (residue (csa_decrypt cw c)) (residue c) = xor_bytes (residue (csa_decrypt cw c')) (residue c').
Proof.
  intros L L8 E.
  assert (X : forall d, (8 <= length d)%nat -> xor_bytes (residue (csa_decrypt cw d)) (residue d)
     = firstn (length d mod 8) (skipn (8 * (length d / 8) - 8) (keystream cw (firstn 8 d) (length d)))).
  { intros d Ld. unfold residue at 1 2. rewrite csa_decrypt_length.
    assert (B : (8 * (length d / 8) <= length d)%nat) by (apply Nat.mul_div_le; lia).
    assert (DM := Nat.div_mod (length d) 8 ltac:(lia)).
    assert (1 <= length d / 8)%nat by (apply Nat.div_le_lower_bound; lia).
    apply (nth_ext _ _ 0 0).
    - rewrite xor_bytes_length, firstn_length, !skipn_length, csa_decrypt_length, keystream_length. lia.
    - intros i Hi. rewrite xor_bytes_length, !skipn_length, csa_decrypt_length in Hi.
      rewrite nth_xor_bytes by (rewrite skipn_length, ?csa_decrypt_length; lia).
      rewrite nth_firstn_lt by lia. rewrite !nth_skipn.
      unfold csa_decrypt. rewrite ltb8 by exact Ld.
      rewrite nth_block_dec_res by (rewrite stream_cipher_length; lia).
      rewrite nth_stream_cipher by lia.
      rewrite N.lxor_comm, <- N.lxor_assoc, N.lxor_nilpotent, N.lxor_0_l.
      replace (8 * (length d / 8) + i - 8)%nat with (8 * (length d / 8) - 8 + i)%nat by lia.
      apply keystream_nth; lia. }
  rewrite !X by lia. rewrite E, L. reflexivity.
Qed.

(** ** key schedule *)
(* bit j of a byte string, least significant bit of each byte first *)
Definition key_bit (k : list N) (j : nat) : bool := N.testbit (nth (j / 8) k 0) (N.of_nat (j mod 8)).

Lemma permute_key_bit k j : length k = 8%nat -> (j < 64)%nat -> key_bit (permute_key k) j = key_bit k (kp_src j).
Proof.
  intros L Hj. list8 k L. unfold key_bit.
  assert (P : permute_key [b0; b1; b2; b3; b4; b5; b6; b7] =
      ltac:(let t := eval cbv -[N.testbit bits_byte] in (permute_key [b0; b1; b2; b3; b4; b5; b6; b7]) in exact t)) by reflexivity.
  rewrite P; clear P.
  do 64 (destruct j as [|j]; [match goal with |- context [N.of_nat (?j mod 8)] =>
      let q := eval vm_compute in (j / 8)%nat in
      let r := eval vm_compute in (N.of_nat (j mod 8)) in
      change (j / 8)%nat with q; change (N.of_nat (j mod 8)) with r;
      let s := eval vm_compute in (kp_src j / 8)%nat in
      let t := eval vm_compute in (N.of_nat (kp_src j mod 8)) in
      replace (kp_src j / 8)%nat with s by (vm_compute; reflexivity);
      replace (N.of_nat (kp_src j mod 8)) with t by (vm_compute; reflexivity);
      cbn [nth]; rewrite bits_byte_bit by lia; reflexivity
      end|]). lia.
Qed.

Fixpoint iter_src (n j : nat) : nat := match n with O => j | S n => kp_src (iter_src n j) end.
Definition group_src (g j : nat) : nat := iter_src (6 - g) j.

Lemma kp_src_sweep : forallb (fun j => Nat.ltb (kp_src j) 64) (seq 0 64) = true /\
  forallb (fun i => forallb (fun j => implb (Nat.eqb (kp_src i) (kp_src j)) (Nat.eqb i j)) (seq 0 64)) (seq 0 64) = true.
Proof. split; vm_compute; reflexivity. Qed.
Lemma kp_src_lt j : (j < 64)%nat -> (kp_src j < 64)%nat.
Proof.
  intros H. pose proof (proj1 kp_src_sweep) as X. rewrite forallb_forall in X.
  specialize (X j ltac:(apply in_seq; lia)). apply Nat.ltb_lt in X. exact X.
Qed.
Lemma kp_src_inj i j : (i < 64)%nat -> (j < 64)%nat -> kp_src i = kp_src j -> i = j.
Proof.
  intros Hi Hj E. pose proof (proj2 kp_src_sweep) as X. rewrite forallb_forall in X.
  specialize (X i ltac:(apply in_seq; lia)). rewrite forallb_forall in X.
  specialize (X j ltac:(apply in_seq; lia)). rewrite E, Nat.eqb_refl in X. simpl in X. apply Nat.eqb_eq, X.
Qed.
Lemma iter_src_lt n j : (j < 64)%nat -> (iter_src n j < 64)%nat.
Proof. intros H. induction n; simpl; auto using kp_src_lt. Qed.
Lemma iter_src_inj n i j : (i < 64)%nat -> (j < 64)%nat -> iter_src n i = iter_src n j -> i = j.
Proof. intros Hi Hj. induction n as [|n IH]; simpl; auto. intros E. apply IH. apply kp_src_inj; auto using iter_src_lt. Qed.

Lemma iter_src_swap n j : iter_src n (kp_src j) = kp_src (iter_src n j).
Proof. induction n; simpl; congruence. Qed.

Lemma key_group_bit cw g j : length cw = 8%nat -> (g < 7)%nat -> (j < 64)%nat ->
  key_bit (nth g (key_groups cw) []) j = key_bit cw (group_src g j).
Proof.
  intros L Hg Hj. unfold key_groups, group_src.
  assert (P : forall k, length (permute_key k) = 8%nat) by reflexivity.
  pose proof kp_src_lt as KL.
  do 7 (destruct g as [|g]; [cbn [nth Nat.sub iter_src];
     rewrite ?permute_key_bit by first [exact L|apply P|exact Hj|auto 10]; reflexivity|]). lia.
Qed.

Lemma schedule_bit cw g j : length cw = 8%nat -> (g < 7)%nat -> (j < 64)%nat ->
  N.testbit (nth (8 * g + j / 8) (key_schedule cw) 0) (N.of_nat (j mod 8)) =
  xorb (key_bit cw (group_src g j)) (N.testbit (N.of_nat g) (N.of_nat (j mod 8))).
Proof.
  intros L Hg Hj. assert (j / 8 < 8)%nat by (apply Nat.div_lt_upper_bound; lia).
  rewrite (Nat.mul_comm 8 g), key_schedule_nth by assumption. rewrite N.lxor_spec.
  rewrite <- key_group_bit by assumption. reflexivity.
Qed.

Lemma key_bit_ext a b : length a = 8%nat -> length b = 8%nat -> Forall is_byte a -> Forall is_byte b ->
  (forall j, (j < 64)%nat -> key_bit a j = key_bit b j) -> a = b.
Proof.
  intros La Lb Fa Fb H. apply (nth_ext _ _ 0 0); [lia|]. intros i Hi. rewrite La in Hi.
  apply N.bits_inj. intros k.
  assert (Ba : is_byte (nth i a 0)) by (rewrite Forall_forall in Fa; apply Fa, nth_In; lia).
  assert (Bb : is_byte (nth i b 0)) by (rewrite Forall_forall in Fb; apply Fb, nth_In; lia).
  destruct (N.lt_ge_cases k 8) as [K|K].
  - specialize (H (i * 8 + N.to_nat k)%nat ltac:(lia)). unfold key_bit in H.
    rewrite Nat.div_add_l, Nat.div_small, Nat.add_0_r in H by lia.
    rewrite Nat.add_comm, Nat.mod_add, Nat.mod_small, N2Nat.id in H by lia. exact H.
  - rewrite !(bits_of_bound _ 8 k) by assumption. reflexivity.
Qed.

(* any one group of 8 round-key bytes determines the control word *)
Lemma group_injective cw cw' g : length cw = 8%nat -> length cw' = 8%nat -> Forall is_byte cw -> Forall is_byte cw' ->
  (g < 7)%nat ->
  firstn 8 (skipn (8 * g) (key_schedule cw)) = firstn 8 (skipn (8 * g) (key_schedule cw')) -> cw = cw'.
Proof.
  intros L L' F F' Hg E. apply key_bit_ext; try assumption. intros t Ht.
  assert (S : exists j, (j < 64)%nat /\ group_src g j = t).
  { assert (X : forallb (fun g => forallb (fun t => existsb (fun j => Nat.eqb (group_src g j) t) (seq 0 64)) (seq 0 64)) (seq 0 7) = true)
      by (vm_compute; reflexivity).
    rewrite forallb_forall in X. specialize (X g ltac:(apply in_seq; lia)). rewrite forallb_forall in X.
    specialize (X t ltac:(apply in_seq; lia)). apply existsb_exists in X as (j & Hj & Ej).
    apply in_seq in Hj. apply Nat.eqb_eq in Ej. exists j. split; [lia|exact Ej]. }
  destruct S as (j & Hj & <-).
  assert (N1 : nth (j / 8) (firstn 8 (skipn (8 * g) (key_schedule cw))) 0 = nth (j / 8) (firstn 8 (skipn (8 * g) (key_schedule cw'))) 0) by congruence.
  assert (j / 8 < 8)%nat by (apply Nat.div_lt_upper_bound; lia).
  rewrite !nth_firstn_lt, !nth_skipn in N1 by lia.
  pose proof (schedule_bit cw g j L Hg Hj) as S1. pose proof (schedule_bit cw' g j L' Hg Hj) as S2.
  rewrite N1, S2 in S1.
  destruct (key_bit cw (group_src g j)), (key_bit cw' (group_src g j)), (N.testbit (N.of_nat g) (N.of_nat (j mod 8))); simpl in S1; congruence.
Qed.
