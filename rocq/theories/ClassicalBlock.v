(** ClassicalBlock.v -- dvbcsa_xor_64 and dvbcsa_block_{en,de}crypt compute what Spec says. *)
From Verif Require Import Base Tables Spec Mem ModelClassical.
Local Open Scope N_scope.

(** ** finite sweeps over bytes *)
Lemma byte_sweep (P : N -> bool) :
  forallb P (map N.of_nat (seq 0 256)) = true -> forall x, is_byte x -> P x = true.
Proof.
  intros H x Hx. rewrite forallb_forall in H. apply H. apply in_map_iff.
  exists (N.to_nat x). split; [apply N2Nat.id|]. apply in_seq. unfold is_byte in Hx. lia.
Qed.

Lemma sbox_is_byte x : is_byte (sbox x).
Proof.
  assert (F : Forall is_byte sbox_table) by (repeat (constructor; [reflexivity|]); constructor).
  unfold sbox. destruct (Nat.lt_ge_cases (N.to_nat x) (length sbox_table)) as [L|L].
  - rewrite Forall_forall in F. apply F, nth_In, L.
  - rewrite nth_overflow by exact L. reflexivity.
Qed.

Lemma tget_sbox x : is_byte x -> tget dvbcsa_block_sbox x = Ok (sbox x).
Proof.
  intros H. unfold tget. rewrite (aget_ok _ _ 0) by (change (length dvbcsa_block_sbox) with 256%nat; unfold is_byte in H; lia).
  reflexivity.
Qed.

Lemma perm_is_byte x : is_byte x -> is_byte (perm x).
Proof.
  intros H. apply N.ltb_lt. apply (byte_sweep (fun x => perm x <? 256)); [vm_compute; reflexivity|exact H].
Qed.

Lemma tget_perm x : is_byte x -> tget csa_block_perm x = Ok (perm x).
Proof.
  intros H. unfold tget. rewrite (aget_ok _ _ 0) by (change (length csa_block_perm) with 256%nat; unfold is_byte in H; lia).
  f_equal. apply N.eqb_eq.
  apply (byte_sweep (fun x => nth (N.to_nat x) csa_block_perm 0 =? perm x)); [vm_compute; reflexivity|exact H].
Qed.

(** ** blocks as lists *)
Definition wf_block (R : block) : Prop := Forall is_byte (block_bytes R).

Definition list_block (l : list N) : block :=
  match l with
  | [a; b; c; d; e; f; g; h] => (a, b, c, d, e, f, g, h)
  | _ => zero_block
  end.
Lemma list_block_bytes R : list_block (block_bytes R) = R.
Proof. destruct R as [[[[[[[? ?] ?] ?] ?] ?] ?] ?]; reflexivity. Qed.
Lemma block_bytes_list l : length l = 8%nat -> block_bytes (list_block l) = l.
Proof. do 8 (destruct l as [|? l]; [discriminate|]). destruct l; [reflexivity|discriminate]. Qed.
Lemma block_bytes_length R : length (block_bytes R) = 8%nat.
Proof. destruct R as [[[[[[[? ?] ?] ?] ?] ?] ?] ?]; reflexivity. Qed.
Lemma wf_list_block l : length l = 8%nat -> Forall is_byte l -> wf_block (list_block l).
Proof. intros L F. unfold wf_block. rewrite block_bytes_list by exact L. exact F. Qed.

Ltac blk R := destruct R as [[[[[[[?r0 ?r1] ?r2] ?r3] ?r4] ?r5] ?r6] ?r7].
Ltac inv_forall := repeat match goal with
  | H : Forall _ (_ :: _) |- _ => inversion H; clear H; subst
  | H : Forall _ [] |- _ => clear H
  end.

Lemma dec_step_wf k R : is_byte k -> wf_block R -> wf_block (dec_step k R).
Proof.
  intros Hk H. blk R. unfold wf_block in *. simpl in *. inv_forall.
  repeat constructor; auto using lxor_byte, sbox_is_byte, perm_is_byte.
Qed.
Lemma enc_step_wf k R : is_byte k -> wf_block R -> wf_block (enc_step k R).
Proof.
  intros Hk H. blk R. unfold wf_block in *. simpl in *. inv_forall.
  repeat constructor; auto using lxor_byte, sbox_is_byte, perm_is_byte.
Qed.

Lemma block_decrypt_round_ok k R : is_byte k -> wf_block R ->
  block_decrypt_round k (block_bytes R) = Ok (block_bytes (dec_step k R)).
Proof.
  intros Hk H. blk R. unfold wf_block in H. simpl in H. inv_forall.
  unfold block_decrypt_round. cbn -[tget sbox perm].
  rewrite tget_sbox by auto using lxor_byte. cbn -[tget sbox perm].
  rewrite tget_perm by apply sbox_is_byte. reflexivity.
Qed.

Lemma block_encrypt_round_ok k R : is_byte k -> wf_block R ->
  block_encrypt_round k (block_bytes R) = Ok (block_bytes (enc_step k R)).
Proof.
  intros Hk H. blk R. unfold wf_block in H. simpl in H. inv_forall.
  unfold block_encrypt_round. cbn -[tget sbox perm].
  rewrite tget_sbox by auto using lxor_byte. cbn -[tget sbox perm].
  rewrite tget_perm by apply sbox_is_byte. reflexivity.
Qed.

Lemma block_enc_wf kk : forall R, Forall is_byte kk -> wf_block R -> wf_block (block_enc kk R).
Proof.
  unfold block_enc. induction kk as [|k kk IH]; intros R F H; simpl; auto.
  inv_forall. apply IH; auto using enc_step_wf.
Qed.
Lemma block_dec_wf kk R : Forall is_byte kk -> wf_block R -> wf_block (block_dec kk R).
Proof.
  intros F. unfold block_dec. assert (F' : Forall is_byte (rev kk)) by (apply Forall_rev; exact F).
  revert R. induction F' as [|k l Hk F' IH]; intros R H; simpl; auto using dec_step_wf.
Qed.

(* the two round loops, with round keys taken from a list *)
Lemma for_down_dec m key kk : holds m key kk -> forall n R, (n <= length kk)%nat -> wf_block R ->
  for_down n (fun i W => k <- load m (key + N.of_nat i) ;; block_decrypt_round k W) (block_bytes R)
  = Ok (block_bytes (block_dec (firstn n kk) R)).
Proof.
  intros H. induction n as [|n IH]; intros R L W; cbn [for_down]; [reflexivity|].
  rewrite (holds_nth _ _ _ _ H) by lia. cbn [bind].
  assert (B : is_byte (nth n kk 0)).
  { destruct H as [F _]. rewrite Forall_forall in F. apply F, nth_In. lia. }
  rewrite block_decrypt_round_ok by auto. cbn [bind]. rewrite IH by (auto using dec_step_wf; lia).
  do 2 f_equal. unfold block_dec.
  replace (firstn (S n) kk) with (firstn n kk ++ [nth n kk 0]).
  - rewrite rev_app_distr. reflexivity.
  - symmetry. apply firstn_S_nth. lia.
Qed.

Lemma for_enc m key kk : holds m key kk -> forall n i R, (i + n = length kk)%nat -> wf_block R ->
  for_ n i (fun i W => k <- load m (key + N.of_nat i) ;; block_encrypt_round k W) (block_bytes R)
  = Ok (block_bytes (block_enc (skipn i kk) R)).
Proof.
  intros H. induction n as [|n IH]; intros i R L W; cbn [for_].
  - rewrite skipn_all2 by lia. reflexivity.
  - rewrite (holds_nth _ _ _ _ H) by lia. cbn [bind].
    assert (B : is_byte (nth i kk 0)).
    { destruct H as [F _]. rewrite Forall_forall in F. apply F, nth_In. lia. }
    rewrite block_encrypt_round_ok by auto. cbn [bind]. rewrite IH by (auto using enc_step_wf; lia).
    do 2 f_equal. unfold block_enc.
    replace (skipn i kk) with (nth i kk 0 :: skipn (S i) kk); [reflexivity|].
    symmetry; apply skipn_nth; lia.
Qed.

(** block functions working on a payload [cur] stored at [data], key schedule at [key] *)
Section InPlace.
  Variables (m : mem) (key data : N) (kk cur : list N) (m1 : mem).
  Hypothesis Hk : holds m key kk.
  Hypothesis Lk : length kk = 56%nat.
  Hypothesis D : disjoint key 56 data (N.of_nat (length cur)).
  Hypothesis E : meq m1 (put m data cur).
  Hypothesis F : Forall is_byte cur.

  Lemma key_in_place : holds m1 key kk.
  Proof.
    eapply holds_meq; [apply meq_sym; exact E|]. apply holds_put_disj; [exact Hk|].
    rewrite Lk. exact D.
  Qed.

  Definition block_at (i : nat) : block := list_block (firstn 8 (skipn i cur)).

  Lemma block_at_wf i : (i + 8 <= length cur)%nat -> wf_block (block_at i).
  Proof.
    intros H. apply wf_list_block.
    - rewrite firstn_length, skipn_length; lia.
    - apply Forall_firstn, Forall_skipn, F.
  Qed.

  Lemma block_decrypt_at i : (i + 8 <= length cur)%nat ->
    wp (dvbcsa_block_decrypt m1 key (data + N.of_nat i) (data + N.of_nat i))
       (fun m2 => meq m2 (put m data (splice cur i (block_bytes (block_dec kk (block_at i)))))).
  Proof.
    intros H. unfold dvbcsa_block_decrypt. rewrite (load_at _ _ _ _ _ _ E F) by exact H. cbn [bind].
    replace (firstn 8 (skipn i cur)) with (block_bytes (block_at i))
      by (apply block_bytes_list; rewrite firstn_length, skipn_length; lia).
    rewrite (for_down_dec _ _ kk) by (auto using key_in_place, block_at_wf; lia). cbn [bind].
    rewrite firstn_all2 by lia. apply store_at; [exact E|]. rewrite block_bytes_length; exact H.
  Qed.

  Lemma block_encrypt_at i : (i + 8 <= length cur)%nat ->
    wp (dvbcsa_block_encrypt m1 key (data + N.of_nat i) (data + N.of_nat i))
       (fun m2 => meq m2 (put m data (splice cur i (block_bytes (block_enc kk (block_at i)))))).
  Proof.
    intros H. unfold dvbcsa_block_encrypt. rewrite (load_at _ _ _ _ _ _ E F) by exact H. cbn [bind].
    replace (firstn 8 (skipn i cur)) with (block_bytes (block_at i))
      by (apply block_bytes_list; rewrite firstn_length, skipn_length; lia).
    rewrite (for_enc _ _ kk) by (auto using key_in_place, block_at_wf; lia). cbn [bind].
    change (skipn 0 kk) with kk. apply store_at; [exact E|]. rewrite block_bytes_length; exact H.
  Qed.
End InPlace.

(** ** dvbcsa_xor_64 *)
Lemma xor_bytes_length a b : length (xor_bytes a b) = Nat.min (length a) (length b).
Proof. revert b; induction a; intros [|]; simpl; auto. Qed.

Lemma xor_bytes_is_byte a b : Forall is_byte a -> Forall is_byte b -> Forall is_byte (xor_bytes a b).
Proof. intros H; revert b; induction H; intros ? [|]; simpl; constructor; auto using lxor_byte. Qed.

Lemma nth_xor_bytes a b i : length a = length b -> nth i (xor_bytes a b) 0 = N.lxor (nth i a 0) (nth i b 0).
Proof.
  revert b i; induction a as [|x a IH]; intros [|y b] [|i]; simpl; intros; try discriminate; auto.
Qed.

Lemma le_val_xor a b : length a = length b -> Forall is_byte a -> Forall is_byte b ->
  N.lxor (le_val a) (le_val b) = le_val (xor_bytes a b).
Proof.
  intros L Fa Fb. apply N.bits_inj. intros k.
  rewrite N.lxor_spec, !testbit_le_val by auto using xor_bytes_is_byte.
  rewrite nth_xor_bytes by exact L. rewrite N.lxor_spec. reflexivity.
Qed.

Lemma xor_bytes_app a b c d : length a = length c -> xor_bytes (a ++ b) (c ++ d) = xor_bytes a c ++ xor_bytes b d.
Proof. revert c; induction a; intros [|]; simpl; intros; try discriminate; [reflexivity|]. f_equal; auto. Qed.

Lemma xor_bytes_rev a b : length a = length b -> xor_bytes (rev a) (rev b) = rev (xor_bytes a b).
Proof.
  revert b; induction a as [|x a IH]; intros [|y b]; simpl; intros L; try discriminate; [reflexivity|].
  rewrite xor_bytes_app by (rewrite !rev_length; lia). rewrite IH by lia. reflexivity.
Qed.

Lemma native_xor be n a b : length a = n -> length b = n -> Forall is_byte a -> Forall is_byte b ->
  native_bytes be n (N.lxor (native_val be a) (native_val be b)) = xor_bytes a b.
Proof.
  intros La Lb Fa Fb. assert (L : length (xor_bytes a b) = n) by (rewrite xor_bytes_length; lia).
  destruct be; unfold native_bytes, native_val.
  - rewrite le_val_xor by (rewrite ?rev_length; auto using Forall_rev; lia).
    rewrite xor_bytes_rev by lia. rewrite <- L, <- rev_length.
    rewrite le_bytes_val by auto using Forall_rev, xor_bytes_is_byte. apply rev_involutive.
  - rewrite le_val_xor by (auto; lia). rewrite <- L. apply le_bytes_val; auto using xor_bytes_is_byte.
Qed.

Lemma xor_64_at be m m1 data cur i j : meq m1 (put m data cur) -> Forall is_byte cur ->
  (i + 8 <= length cur)%nat -> (j + 8 <= length cur)%nat ->
  wp (dvbcsa_xor_64 be m1 (data + N.of_nat i) (data + N.of_nat j))
     (fun m2 => meq m2 (put m data (splice cur i
                  (xor_bytes (firstn 8 (skipn i cur)) (firstn 8 (skipn j cur)))))).
Proof.
  intros E F Hi Hj. unfold dvbcsa_xor_64.
  rewrite (load_at _ _ _ _ _ _ E F Hj). cbn [bind]. rewrite (load_at _ _ _ _ _ _ E F Hi). cbn [bind].
  assert (La : length (firstn 8 (skipn i cur)) = 8%nat) by (rewrite firstn_length, skipn_length; lia).
  assert (Lb : length (firstn 8 (skipn j cur)) = 8%nat) by (rewrite firstn_length, skipn_length; lia).
  rewrite native_xor by auto using Forall_firstn, Forall_skipn.
  apply store_at; [exact E|]. rewrite xor_bytes_length. lia.
Qed.
