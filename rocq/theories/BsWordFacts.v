(** BsWordFacts.v -- bit-level meaning of the word operations and of BS_SWAPn. *)
From Verif Require Import Base Mem ModelBsWord.
Local Open Scope nat_scope.

Definition wf (c : build) (w : word) : Prop := length w = word_bytes c /\ Forall is_byte w.
(* bit number m of a word, counting from bit 0 of the first byte in memory *)
Definition mbit (w : word) (m : nat) : bool := N.testbit (nth (m / 8) w 0%N) (N.of_nat (m mod 8)).

(** ** General list facts *)
Lemma map2_length {A B C} (f : A -> B -> C) l : forall r, length (map2 f l r) = Nat.min (length l) (length r).
Proof. induction l as [|a l IH]; intros [|b r]; simpl; auto. Qed.
Lemma nth_map2 {A B C} (f : A -> B -> C) d d' e l : forall r i, length l = length r -> i < length l ->
  nth i (map2 f l r) e = f (nth i l d) (nth i r d').
Proof.
  induction l as [|a l IH]; intros [|b r] i H Hi; simpl in *; try lia.
  destruct i; [reflexivity|]. apply IH; lia.
Qed.
Lemma Forall_map2 {A B C} (P : A -> Prop) (Q : B -> Prop) (S : C -> Prop) (f : A -> B -> C) l : forall r,
  (forall a b, P a -> Q b -> S (f a b)) -> Forall P l -> Forall Q r -> Forall S (map2 f l r).
Proof.
  induction l as [|a l IH]; intros [|b r] H Hl Hr; simpl; constructor.
  - inversion Hl; inversion Hr; auto.
  - inversion Hl; inversion Hr; apply IH; auto.
Qed.

Lemma nth_concat_repeat {A} (l : list A) n i d : 0 < length l -> i < n * length l ->
  nth i (concat (repeat l n)) d = nth (i mod length l) l d.
Proof.
  intros Hl. revert i; induction n as [|n IH]; intros i Hi; [lia|]. simpl.
  destruct (Nat.ltb_spec i (length l)).
  - rewrite app_nth1 by lia. rewrite Nat.mod_small by lia. reflexivity.
  - rewrite app_nth2 by lia. rewrite IH by nia.
    replace i with (i - length l + 1 * length l) at 2 by lia. rewrite Nat.mod_add by lia. reflexivity.
Qed.
Lemma concat_repeat_length {A} (l : list A) n : length (concat (repeat l n)) = n * length l.
Proof. induction n; simpl; rewrite ?app_length; lia. Qed.
Lemma Forall_concat_repeat {A} (P : A -> Prop) l n : Forall P l -> Forall P (concat (repeat l n)).
Proof. induction n; simpl; intros; auto. apply Forall_app; auto. Qed.

Lemma div8 k m : (8 * k + m) / 8 = k + m / 8.
Proof. rewrite Nat.add_comm, Nat.mul_comm, Nat.div_add by lia. lia. Qed.
Lemma mod8 k m : (8 * k + m) mod 8 = m mod 8.
Proof. rewrite Nat.add_comm, Nat.mul_comm, Nat.mod_add by lia. reflexivity. Qed.

(** ** Well-formed words *)
Lemma batch_bytes c : batch_size c = 8 * word_bytes c.
Proof. unfold batch_size, word_bytes; destruct (tgt c); reflexivity. Qed.
Lemma word_lanes c : word_bytes c = n_lanes c * lane_bytes c.
Proof. unfold n_lanes, word_bytes, lane_bytes; destruct (tgt c); reflexivity. Qed.

Lemma wf_val c k v : (k = 1 \/ k = 2 \/ k = 4 \/ (k = 8 /\ tgt c <> UINT32)) -> wf c (BS_VAL c k v).
Proof.
  intros H. unfold wf, BS_VAL. rewrite concat_repeat_length, native_bytes_length. split.
  - unfold word_bytes; destruct (tgt c); destruct H as [->|[->|[->|[-> H]]]]; try reflexivity; congruence.
  - apply Forall_concat_repeat, native_bytes_is_byte.
Qed.
Lemma wf_xor c a b : wf c a -> wf c b -> wf c (BS_XOR a b).
Proof.
  intros [La Fa] [Lb Fb]; split; [unfold BS_XOR; rewrite map2_length; lia|].
  apply (Forall_map2 is_byte is_byte); auto using lxor_byte.
Qed.
Lemma wf_and c a b : wf c a -> wf c b -> wf c (BS_AND a b).
Proof.
  intros [La Fa] [Lb Fb]; split; [unfold BS_AND; rewrite map2_length; lia|].
  apply (Forall_map2 is_byte is_byte); auto using land_byte.
Qed.
Lemma wf_or c a b : wf c a -> wf c b -> wf c (BS_OR a b).
Proof.
  intros [La Fa] [Lb Fb]; split; [unfold BS_OR; rewrite map2_length; lia|].
  apply (Forall_map2 is_byte is_byte); auto using lor_byte.
Qed.
Lemma wf_compl c a : wf c a -> wf c (map (fun x => N.lxor x 255) a).
Proof.
  intros [La Fa]; split; [rewrite map_length; exact La|].
  apply Forall_map. eapply Forall_impl; [|exact Fa]. intros x Hx; apply lxor_byte; [exact Hx|]. reflexivity.
Qed.
Lemma wf_not c a : wf c a -> wf c (BS_NOT c a).
Proof.
  intros H; unfold BS_NOT; destruct (tgt c); auto using wf_compl;
    try apply wf_and; try apply wf_xor; auto using wf_compl; apply wf_val; auto.
Qed.

(** ** Bits of the bitwise operations *)
Lemma mbit_map2 f g c a b m : (forall x y k, N.testbit (f x y) k = g (N.testbit x k) (N.testbit y k)) ->
  wf c a -> wf c b -> m < 8 * word_bytes c -> mbit (map2 f a b) m = g (mbit a m) (mbit b m).
Proof.
  intros Hf [La _] [Lb _] Hm. unfold mbit.
  rewrite (nth_map2 f 0%N 0%N 0%N).
  - apply Hf.
  - lia.
  - rewrite La. apply Nat.div_lt_upper_bound; lia.
Qed.
Lemma mbit_xor c a b m : wf c a -> wf c b -> m < 8 * word_bytes c ->
  mbit (BS_XOR a b) m = xorb (mbit a m) (mbit b m).
Proof. apply mbit_map2. intros; apply N.lxor_spec. Qed.
Lemma mbit_and c a b m : wf c a -> wf c b -> m < 8 * word_bytes c ->
  mbit (BS_AND a b) m = mbit a m && mbit b m.
Proof. apply mbit_map2. intros; apply N.land_spec. Qed.
Lemma mbit_or c a b m : wf c a -> wf c b -> m < 8 * word_bytes c ->
  mbit (BS_OR a b) m = mbit a m || mbit b m.
Proof. apply mbit_map2. intros; apply N.lor_spec. Qed.

Lemma testbit_255 k : (k < 8)%N -> N.testbit 255 k = true.
Proof.
  intros H. assert (E : (k = 0 \/ k = 1 \/ k = 2 \/ k = 3 \/ k = 4 \/ k = 5 \/ k = 6 \/ k = 7)%N) by lia.
  repeat destruct E as [->|E]; try reflexivity. subst; reflexivity.
Qed.

Lemma mbit_val8 c v m : (v < 256)%N -> m < 8 * word_bytes c ->
  mbit (BS_VAL c 1 v) m = N.testbit v (N.of_nat (m mod 8)).
Proof.
  intros Hv Hm. unfold mbit, BS_VAL.
  rewrite nth_concat_repeat; rewrite ?native_bytes_length, ?Nat.div_1_r; try lia.
  - rewrite Nat.mod_1_r. f_equal. unfold native_bytes.
    destruct (big_endian c); simpl; apply N.mod_small; exact Hv.
  - rewrite Nat.mul_1_r. apply Nat.div_lt_upper_bound; lia.
Qed.
Lemma mbit_ff c m : m < 8 * word_bytes c -> mbit (BS_VAL c 1 255) m = true.
Proof.
  intros Hm. rewrite mbit_val8 by (try lia; exact Hm). apply testbit_255.
  pose proof (Nat.mod_upper_bound m 8). lia.
Qed.
Lemma mbit_00 c m : m < 8 * word_bytes c -> mbit (BS_VAL c 1 0) m = false.
Proof. intros Hm. rewrite mbit_val8 by (try lia; exact Hm). apply N.bits_0. Qed.

Lemma mbit_compl c a m : wf c a -> m < 8 * word_bytes c ->
  mbit (map (fun x => N.lxor x 255) a) m = negb (mbit a m).
Proof.
  intros [La _] Hm. unfold mbit.
  rewrite (nth_indep _ 0%N (N.lxor 0 255)) by (rewrite map_length, La; apply Nat.div_lt_upper_bound; lia).
  rewrite (map_nth (fun x => N.lxor x 255)). rewrite N.lxor_spec, testbit_255.
  - apply xorb_true_r.
  - pose proof (Nat.mod_upper_bound m 8). lia.
Qed.
Lemma mbit_not c a m : wf c a -> m < 8 * word_bytes c -> mbit (BS_NOT c a) m = negb (mbit a m).
Proof.
  intros Ha Hm. unfold BS_NOT.
  assert (Hf : wf c (BS_VAL c 1 255)) by (apply wf_val; auto).
  destruct (tgt c) eqn:E; try (apply (mbit_compl c); assumption).
  - rewrite (mbit_xor c) by assumption. rewrite mbit_ff by assumption. apply xorb_true_r.
  - rewrite (mbit_and c); auto using wf_compl. rewrite (mbit_compl c), mbit_ff by assumption. apply andb_true_r.
  - rewrite (mbit_and c); auto using wf_compl. rewrite (mbit_compl c), mbit_ff by assumption. apply andb_true_r.
  - rewrite (mbit_and c); auto using wf_compl. rewrite (mbit_compl c), mbit_ff by assumption. apply andb_true_r.
Qed.

(** ** Lanes and shifts *)
Definition lane (c : build) (L : nat) (w : word) : list N :=
  firstn (lane_bytes c) (skipn (lane_bytes c * L) w).
Definition P (c : build) : nat := 8 * lane_bytes c.
(* weight of memory bit m of a lane in the integer the lane holds *)
Definition vpos (be : bool) (p m : nat) : nat := if be then p - 8 - 8 * (m / 8) + m mod 8 else m.

Lemma map_lanes_length n lb f w : (forall l, length l = lb -> length (f l) = lb) -> length w = n * lb ->
  length (map_lanes n lb f w) = n * lb.
Proof.
  intros Hf; revert w; induction n as [|n IH]; intros w H; simpl; [reflexivity|].
  rewrite app_length, Hf, IH.
  - reflexivity.
  - rewrite skipn_length; lia.
  - rewrite firstn_length; lia.
Qed.
Lemma map_lanes_Forall Q n lb f w : (forall l, Forall Q (f l)) -> Forall Q (map_lanes n lb f w).
Proof. intros Hf; revert w; induction n as [|n IH]; intros w; simpl; auto. apply Forall_app; auto. Qed.

Lemma skipn_add {A} a b (l : list A) : skipn a (skipn b l) = skipn (b + a) l.
Proof. revert l; induction b as [|b IH]; intros l; simpl; [reflexivity|]. destruct l; [apply skipn_nil|apply IH]. Qed.

Lemma lane_map_lanes n lb f w L : (forall l, length l = lb -> length (f l) = lb) -> length w = n * lb -> L < n ->
  firstn lb (skipn (lb * L) (map_lanes n lb f w)) = f (firstn lb (skipn (lb * L) w)).
Proof.
  intros Hf; revert w L; induction n as [|n IH]; intros w L H HL; [lia|].
  assert (Hl : length (f (firstn lb w)) = lb) by (apply Hf; rewrite firstn_length; lia).
  cbn [map_lanes]. destruct L as [|L].
  - rewrite Nat.mul_0_r. simpl. rewrite firstn_app, Hl, Nat.sub_diag. simpl. rewrite app_nil_r.
    rewrite firstn_all2 by lia. reflexivity.
  - replace (lb * S L) with (length (f (firstn lb w)) + lb * L) by lia.
    rewrite <- skipn_add, skipn_app, skipn_all, Nat.sub_diag. cbn [app skipn].
    rewrite IH by (try (rewrite skipn_length); lia). rewrite skipn_add. do 3 f_equal. lia.
Qed.

Lemma lane_is_byte c L w : wf c w -> Forall is_byte (lane c L w).
Proof. intros [_ F]; apply Forall_firstn, Forall_skipn, F. Qed.
Lemma lane_length c L w : wf c w -> L < n_lanes c -> length (lane c L w) = lane_bytes c.
Proof.
  intros [H _] HL. unfold lane. rewrite firstn_length, skipn_length, H, word_lanes. nia.
Qed.
Lemma lane_bytes_cases c : lane_bytes c = 4 \/ lane_bytes c = 8.
Proof. unfold lane_bytes; destruct (tgt c); auto. Qed.

Lemma testbit_native_val be l m : Forall is_byte l -> m < 8 * length l ->
  N.testbit (nth (m / 8) l 0%N) (N.of_nat (m mod 8)) =
  N.testbit (native_val be l) (N.of_nat (vpos be (8 * length l) m)).
Proof.
  intros F Hm. assert (Hd : m / 8 < length l) by (apply Nat.div_lt_upper_bound; lia).
  unfold native_val, vpos. destruct be.
  - rewrite testbit_le_val by (apply Forall_rev, F).
    replace (N.of_nat (8 * length l - 8 - 8 * (m / 8) + m mod 8)) with
      (N.of_nat (8 * (length l - S (m / 8)) + m mod 8)) by (f_equal; lia).
    pose proof (Nat.mod_upper_bound m 8).
    replace (N.of_nat (8 * (length l - S (m / 8)) + m mod 8) / 8)%N with (N.of_nat (length l - S (m / 8))).
    2:{ apply N.div_unique with (r := N.of_nat (m mod 8)); lia. }
    replace (N.of_nat (8 * (length l - S (m / 8)) + m mod 8) mod 8)%N with (N.of_nat (m mod 8)).
    2:{ apply N.mod_unique with (q := N.of_nat (length l - S (m / 8))); lia. }
    rewrite Nat2N.id, rev_nth by lia. f_equal. f_equal. lia.
  - rewrite testbit_le_val by exact F. change 8%N with (N.of_nat 8).
    rewrite <- Nat2N.inj_div, <- Nat2N.inj_mod, Nat2N.id. reflexivity.
Qed.

Lemma vpos_bound be p m : 8 <= p -> m < p -> p mod 8 = 0 -> vpos be p m < p.
Proof.
  intros. unfold vpos. destruct be; [|lia]. pose proof (Nat.mod_upper_bound m 8).
  pose proof (Nat.div_mod m 8). pose proof (Nat.div_mod p 8). lia.
Qed.

Lemma testbit_native_bytes be n v m : m < 8 * n ->
  N.testbit (nth (m / 8) (native_bytes be n v) 0%N) (N.of_nat (m mod 8)) =
  N.testbit v (N.of_nat (vpos be (8 * n) m)).
Proof.
  intros Hm.
  rewrite (testbit_native_val be) by (rewrite ?native_bytes_length; auto using native_bytes_is_byte).
  rewrite native_bytes_length.
  assert (Hv : vpos be (8 * n) m < 8 * n).
  { apply vpos_bound; try lia. rewrite Nat.mul_comm; apply Nat.mod_mul; lia. }
  generalize dependent (vpos be (8 * n) m). intros k Hk.
  assert (E : N.testbit (native_val be (native_bytes be n v)) (N.of_nat k) = N.testbit (le_val (le_bytes n v)) (N.of_nat k)).
  { unfold native_val, native_bytes. destruct be; rewrite ?rev_involutive; reflexivity. }
  rewrite E. clear - Hk. revert v k Hk. induction n as [|n IH]; intros v k Hk; [lia|].
  cbn [le_bytes le_val]. rewrite testbit_add_256 by (apply N.mod_lt; lia).
  destruct (N.ltb_spec (N.of_nat k) 8).
  - change 256%N with (2 ^ 8)%N. apply N.mod_pow2_bits_low. lia.
  - replace (N.of_nat k - 8)%N with (N.of_nat (k - 8)) by lia. rewrite IH by lia.
    change 256%N with (2 ^ 8)%N. rewrite N.div_pow2_bits. f_equal. lia.
Qed.

Lemma mbit_lane c L w m : wf c w -> L < n_lanes c -> m < P c ->
  mbit w (P c * L + m) = N.testbit (native_val (big_endian c) (lane c L w)) (N.of_nat (vpos (big_endian c) (P c) m)).
Proof.
  intros Hw HL Hm. unfold P in *.
  pose proof (testbit_native_val (big_endian c) (lane c L w) m (lane_is_byte c L w Hw)) as T.
  rewrite (lane_length c L w Hw HL) in T. rewrite <- T by exact Hm.
  unfold mbit. replace (8 * lane_bytes c * L + m) with (8 * (lane_bytes c * L) + m) by lia.
  rewrite div8, mod8. unfold lane. rewrite nth_firstn_lt by (apply Nat.div_lt_upper_bound; lia).
  rewrite nth_skipn. reflexivity.
Qed.

Section Shift.
  Context (c : build) (f : N -> N).
  Definition lanewise (w : word) : word :=
    map_lanes (n_lanes c) (lane_bytes c) (fun l =>
      native_bytes (big_endian c) (lane_bytes c) (f (native_val (big_endian c) l))) w.
  Lemma lanewise_wf w : wf c w -> wf c (lanewise w).
  Proof.
    intros [H _]; split.
    - unfold lanewise. rewrite map_lanes_length; [symmetry; apply word_lanes| |].
      + intros; apply native_bytes_length.
      + rewrite H; apply word_lanes.
    - apply map_lanes_Forall. intros; apply native_bytes_is_byte.
  Qed.
  Lemma mbit_lanewise w L m : wf c w -> L < n_lanes c -> m < P c ->
    mbit (lanewise w) (P c * L + m) =
    N.testbit (f (native_val (big_endian c) (lane c L w))) (N.of_nat (vpos (big_endian c) (P c) m)).
  Proof.
    intros Hw HL Hm. unfold mbit, P in *.
    replace (8 * lane_bytes c * L + m) with (8 * (lane_bytes c * L) + m) by lia.
    rewrite div8, mod8. rewrite <- nth_skipn, <- (nth_firstn_lt _ (lane_bytes c)) by (apply Nat.div_lt_upper_bound; lia).
    unfold lanewise. rewrite lane_map_lanes.
    - rewrite testbit_native_bytes by lia. reflexivity.
    - intros; apply native_bytes_length.
    - destruct Hw as [H _]. rewrite H; apply word_lanes.
    - exact HL.
  Qed.
End Shift.

Lemma wf_shl c w n : wf c w -> wf c (BS_SHL c w n).
Proof. apply (lanewise_wf c (fun v => N.shiftl v n)). Qed.
Lemma wf_shr c w n : wf c w -> wf c (BS_SHR c w n).
Proof. apply (lanewise_wf c (fun v => N.shiftr v n)). Qed.

(* value-level bit v of lane L *)
Definition vbit (c : build) (L : nat) (w : word) (v : nat) : bool :=
  N.testbit (native_val (big_endian c) (lane c L w)) (N.of_nat v).

Lemma vpos_cases c : sane c -> P c = 32 \/ P c = 64.
Proof. intros _; unfold P; destruct (lane_bytes_cases c) as [-> | ->]; auto. Qed.

Lemma vpos_inv be p m : p = 32 \/ p = 64 -> m < p -> vpos be p (vpos be p m) = m.
Proof.
  intros Hp Hm. unfold vpos. destruct be; [|reflexivity].
  pose proof (Nat.mod_upper_bound m 8). pose proof (Nat.div_mod m 8).
  assert (E : p - 8 - 8 * (m / 8) + m mod 8 = 8 * (p / 8 - 1 - m / 8) + m mod 8).
  { destruct Hp as [-> | ->]; [change (32 / 8) with 4|change (64 / 8) with 8]; lia. }
  rewrite E, div8, mod8, (Nat.div_small (m mod 8)), (Nat.mod_small (m mod 8)) by lia.
  destruct Hp as [-> | ->]; [change (32 / 8) with 4|change (64 / 8) with 8]; lia.
Qed.

Lemma mbit_vbit c L w m : wf c w -> L < n_lanes c -> m < P c ->
  mbit w (P c * L + m) = vbit c L w (vpos (big_endian c) (P c) m).
Proof. apply mbit_lane. Qed.
Lemma P_cases c : P c = 32 \/ P c = 64.
Proof. unfold P; destruct (lane_bytes_cases c) as [-> | ->]; auto. Qed.
Lemma vpos_lt c m : m < P c -> vpos (big_endian c) (P c) m < P c.
Proof. intros; destruct (P_cases c) as [E|E]; rewrite E in *; apply vpos_bound; auto; lia. Qed.
Lemma lane_bit_bound c L m : L < n_lanes c -> m < P c -> P c * L + m < 8 * word_bytes c.
Proof. intros. rewrite word_lanes. unfold P in *. nia. Qed.
Lemma vbit_mbit c L w v : wf c w -> L < n_lanes c -> v < P c ->
  vbit c L w v = mbit w (P c * L + vpos (big_endian c) (P c) v).
Proof.
  intros. rewrite mbit_vbit by auto using vpos_lt. rewrite vpos_inv; auto using P_cases.
Qed.

Lemma vbit_high c L w v : wf c w -> L < n_lanes c -> P c <= v -> vbit c L w v = false.
Proof.
  intros Hw HL Hv. unfold vbit. apply bits_of_bound with (n := N.of_nat (P c)); [|lia].
  assert (K : forall l, Forall is_byte l -> length l = lane_bytes c -> (le_val l < 2 ^ N.of_nat (P c))%N).
  { intros l Fl El. pose proof (le_val_bound l Fl). rewrite El in H. unfold P.
    replace (N.of_nat (8 * lane_bytes c)) with (8 * N.of_nat (lane_bytes c))%N by lia. exact H. }
  unfold native_val. destruct (big_endian c).
  - apply K; [apply Forall_rev, lane_is_byte, Hw|rewrite rev_length; apply lane_length; auto].
  - apply K; [apply lane_is_byte, Hw|apply lane_length; auto].
Qed.

Lemma vbit_shr c L w n v : wf c w -> L < n_lanes c -> v < P c ->
  vbit c L (BS_SHR c w (N.of_nat n)) v = vbit c L w (v + n).
Proof.
  intros Hw HL Hv. rewrite vbit_mbit by auto using wf_shr.
  change (BS_SHR c w (N.of_nat n)) with (lanewise c (fun x => N.shiftr x (N.of_nat n)) w).
  rewrite mbit_lanewise by auto using vpos_lt.
  rewrite vpos_inv by auto using P_cases. rewrite N.shiftr_spec by lia. unfold vbit. f_equal. lia.
Qed.
Lemma vbit_shl c L w n v : wf c w -> L < n_lanes c -> v < P c ->
  vbit c L (BS_SHL c w (N.of_nat n)) v = if v <? n then false else vbit c L w (v - n).
Proof.
  intros Hw HL Hv. rewrite vbit_mbit by auto using wf_shl.
  change (BS_SHL c w (N.of_nat n)) with (lanewise c (fun x => N.shiftl x (N.of_nat n)) w).
  rewrite mbit_lanewise by auto using vpos_lt.
  rewrite vpos_inv by auto using P_cases. destruct (Nat.ltb_spec v n).
  - apply N.shiftl_spec_low. lia.
  - rewrite N.shiftl_spec_high by lia. unfold vbit. f_equal. lia.
Qed.
Lemma vbit_xor c L a b v : wf c a -> wf c b -> L < n_lanes c -> v < P c ->
  vbit c L (BS_XOR a b) v = xorb (vbit c L a v) (vbit c L b v).
Proof.
  intros. rewrite !vbit_mbit by auto using wf_xor.
  apply (mbit_xor c); auto. apply lane_bit_bound; auto using vpos_lt.
Qed.
Lemma vbit_and c L a b v : wf c a -> wf c b -> L < n_lanes c -> v < P c ->
  vbit c L (BS_AND a b) v = vbit c L a v && vbit c L b v.
Proof.
  intros. rewrite !vbit_mbit by auto using wf_and.
  apply (mbit_and c); auto. apply lane_bit_bound; auto using vpos_lt.
Qed.

(** ** Swaps on integers *)
Lemma vbit_val c L k v x : (k = 1 \/ k = 2 \/ k = 4 \/ (k = 8 /\ tgt c <> UINT32)) ->
  L < n_lanes c -> x < P c -> vbit c L (BS_VAL c k v) x = N.testbit v (N.of_nat (x mod (8 * k))).
Proof.
  intros Hk HL Hx. assert (Hk0 : 0 < k) by lia.
  rewrite vbit_mbit by auto using wf_val.
  unfold mbit, BS_VAL. unfold P.
  replace (8 * lane_bytes c * L) with (8 * (lane_bytes c * L)) by lia.
  rewrite div8, mod8. fold (P c).
  set (y := vpos (big_endian c) (P c) x).
  assert (Hy : y < P c) by (apply vpos_lt; exact Hx).
  rewrite nth_concat_repeat; rewrite ?native_bytes_length; [|lia|].
  2:{ replace (word_bytes c / k * k) with (word_bytes c).
      - rewrite word_lanes. assert (y / 8 < lane_bytes c) by (apply Nat.div_lt_upper_bound; [lia|exact Hy]). nia.
      - unfold word_bytes; destruct (tgt c); destruct Hk as [->|[->|[->|[-> Hk]]]]; try reflexivity; congruence. }
  assert (Ek : (lane_bytes c * L + y / 8) mod k = (y / 8) mod k).
  { rewrite Nat.add_comm. assert (E : exists q, lane_bytes c = q * k).
    { unfold lane_bytes. destruct Hk as [->|[->|[->|[-> Hk]]]].
      - exists (lane_bytes c). unfold lane_bytes. lia.
      - destruct (tgt c); [exists 2|exists 4..]; reflexivity.
      - destruct (tgt c); [exists 1|exists 2..]; reflexivity.
      - destruct (tgt c); [congruence|exists 1..]; reflexivity. }
    destruct E as [q ->]. replace (q * k * L) with (q * L * k) by lia. apply Nat.mod_add. lia. }
  rewrite Ek. clear Ek.
  assert (Em : y mod (8 * k) = y mod 8 + 8 * ((y / 8) mod k)) by (apply Nat.mod_mul_r; lia).
  pose proof (Nat.mod_upper_bound y 8) as Hy8.
  assert (Ed : (y / 8) mod k = (y mod (8 * k)) / 8).
  { rewrite Em, Nat.add_comm, div8, (Nat.div_small (y mod 8)) by lia. lia. }
  rewrite Ed. replace (y mod 8) with ((y mod (8 * k)) mod 8).
  2:{ rewrite Em, Nat.add_comm, mod8. apply Nat.mod_mod. lia. }
  rewrite testbit_native_bytes by (apply Nat.mod_upper_bound; lia).
  f_equal. f_equal. subst y. unfold vpos. destruct (big_endian c); [|reflexivity].
  destruct (P_cases c) as [E|E]; rewrite E in Hx |- *;
    destruct Hk as [->|[->|[->|[-> Hk]]]];
    try (exfalso; clear - E Hk; unfold P, lane_bytes in E; destruct (tgt c); first [congruence|simpl in E; lia]);
    clear - Hx; revert x Hx;
    match goal with |- forall x, x < ?p -> @?f x = @?g x =>
      assert (K : forallb (fun x => f x =? g x) (seq 0 p) = true) by (vm_compute; reflexivity);
      intros x Hx; rewrite forallb_forall in K; apply Nat.eqb_eq, K, in_seq; lia end.
Qed.

Lemma testbit_mask n mask k : In (n, mask, k)
    [(1, 0x55%N, 1); (2, 0x33%N, 1); (4, 0x0f%N, 1); (8, 0x00ff%N, 2); (16, 0x0000ffff%N, 4); (32, 0x00000000ffffffff%N, 8)] ->
  forall x, x < 64 -> N.testbit mask (N.of_nat (x mod (8 * k))) = Nat.even (x / n).
Proof.
  intros H x Hx.
  repeat destruct H as [H|H]; try contradiction; injection H as <- <- <-; revert x Hx;
    match goal with |- forall x, x < 64 -> @?f x = @?g x =>
      assert (K : forallb (fun x => Bool.eqb (f x) (g x)) (seq 0 64) = true) by (vm_compute; reflexivity);
      intros x Hx; rewrite forallb_forall in K; apply Bool.eqb_prop, K, in_seq; lia end.
Qed.

Lemma even_div_sub n v : 0 < n -> n <= v -> Nat.even ((v - n) / n) = negb (Nat.even (v / n)).
Proof.
  intros Hn Hv. replace v with ((v - n) + 1 * n) at 2 by lia. rewrite Nat.div_add by lia.
  rewrite Nat.add_1_r, Nat.even_succ, <- Nat.negb_even. rewrite negb_involutive. reflexivity.
Qed.
Lemma odd_div_ge n v : 0 < n -> Nat.even (v / n) = false -> n <= v.
Proof.
  intros Hn H. destruct (Nat.lt_ge_cases v n); [|assumption].
  rewrite Nat.div_small in H by lia. discriminate.
Qed.

(* value-level meaning of BS_SWAP_BITS_LE *)
Lemma swap_bits_vbit c L n mask k t b : wf c t -> wf c b -> L < n_lanes c ->
  In (n, mask, k) [(1, 0x55%N, 1); (2, 0x33%N, 1); (4, 0x0f%N, 1); (8, 0x00ff%N, 2); (16, 0x0000ffff%N, 4); (32, 0x00000000ffffffff%N, 8)] ->
  (n = 32 -> tgt c <> UINT32) ->
  let r := BS_SWAP_BITS_LE c t b (N.of_nat n) (BS_VAL c k mask) in
  wf c (fst r) /\ wf c (snd r) /\
  forall v, v < P c ->
    vbit c L (fst r) v = (if Nat.even (v / n) then vbit c L t v else vbit c L b (v - n)) /\
    vbit c L (snd r) v = (if Nat.even (v / n) then vbit c L t (v + n) else vbit c L b v).
Proof.
  intros Ht Hb HL Hin H32. cbn zeta. unfold BS_SWAP_BITS_LE. cbn [fst snd].
  assert (Hk : k = 1 \/ k = 2 \/ k = 4 \/ (k = 8 /\ tgt c <> UINT32)).
  { repeat destruct Hin as [Hin|Hin]; try contradiction; injection Hin as <- <- <-; auto 6. }
  assert (Hn : 0 < n) by (repeat destruct Hin as [Hin|Hin]; try contradiction; injection Hin as <- <- <-; lia).
  assert (Hm : wf c (BS_VAL c k mask)) by (apply wf_val; exact Hk).
  assert (HP : P c <= 64) by (destruct (P_cases c); lia).
  assert (Hbit : forall v, v < P c -> vbit c L (BS_VAL c k mask) v = Nat.even (v / n)).
  { intros v Hv. rewrite vbit_val by auto. eapply testbit_mask; [exact Hin|lia]. }
  assert (Hsr := wf_shr c t (N.of_nat n) Ht).
  assert (Hx := wf_xor c _ _ Hsr Hb).
  assert (Htmp := wf_and c _ _ Hx Hm).
  assert (Hsl := wf_shl c _ (N.of_nat n) Htmp).
  split; [apply wf_xor; assumption|]. split; [apply wf_xor; assumption|].
  assert (Hv0 : forall v, v < P c ->
     vbit c L (BS_AND (BS_XOR (BS_SHR c t (N.of_nat n)) b) (BS_VAL c k mask)) v =
     (Nat.even (v / n) && xorb (vbit c L t (v + n)) (vbit c L b v))%bool).
  { intros v Hv. rewrite vbit_and, vbit_xor, vbit_shr, Hbit by auto. apply andb_comm. }
  intros v Hv. split.
  - rewrite vbit_xor, vbit_shl by auto. destruct (Nat.ltb_spec v n).
    + rewrite xorb_false_r. rewrite (Nat.div_small v n) by lia. reflexivity.
    + rewrite Hv0 by lia. rewrite even_div_sub by lia.
      replace (v - n + n) with v by lia.
      destruct (Nat.even (v / n)); cbn [negb andb]; [apply xorb_false_r|].
      destruct (vbit c L t v), (vbit c L b (v - n)); reflexivity.
  - rewrite vbit_xor, Hv0 by auto.
    destruct (Nat.even (v / n)); cbn [andb]; [|apply xorb_false_r].
    destruct (vbit c L t (v + n)), (vbit c L b v); reflexivity.
Qed.

(** ** Swaps on memory bits *)
Definition swap_sizes (c : build) : list nat := match tgt c with UINT32 => [1;2;4;8;16] | _ => [1;2;4;8;16;32] end.

(* memory-level meaning of a swap: exchange the odd chunks of t with the even chunks of b *)
Definition is_swap (c : build) (L n : nat) (t b t' b' : word) : Prop :=
  wf c t' /\ wf c b' /\
  forall m, m < P c ->
    mbit t' (P c * L + m) = (if Nat.even (m / n) then mbit t (P c * L + m) else mbit b (P c * L + (m - n))) /\
    mbit b' (P c * L + m) = (if Nat.even (m / n) then mbit t (P c * L + (m + n)) else mbit b (P c * L + m)).

Lemma vpos_idx p n m : p = 32 \/ p = 64 -> In n [1;2;4;8;16;32] -> n < p -> m < p ->
  forall be,
  let v := vpos be p m in
  if be && (8 <=? n)
  then Nat.even (v / n) = negb (Nat.even (m / n)) /\
       (Nat.even (m / n) = true -> n <= v /\ vpos be p (v - n) = m + n) /\
       (Nat.even (m / n) = false -> v + n < p /\ vpos be p (v + n) = m - n)
  else Nat.even (v / n) = Nat.even (m / n) /\
       (Nat.even (m / n) = true -> v + n < p /\ vpos be p (v + n) = m + n) /\
       (Nat.even (m / n) = false -> n <= v /\ vpos be p (v - n) = m - n).
Proof.
  intros Hp Hn Hnp Hm be. cbv zeta.
  pose (chk := fun p n be m =>
    let v := vpos be p m in
    if be && (8 <=? n)
    then Bool.eqb (Nat.even (v / n)) (negb (Nat.even (m / n))) &&
         (if Nat.even (m / n) then (n <=? v) && (vpos be p (v - n) =? m + n)
          else (v + n <? p) && (vpos be p (v + n) =? m - n))
    else Bool.eqb (Nat.even (v / n)) (Nat.even (m / n)) &&
         (if Nat.even (m / n) then (v + n <? p) && (vpos be p (v + n) =? m + n)
          else (n <=? v) && (vpos be p (v - n) =? m - n))).
  assert (K : chk p n be m = true).
  { assert (A : forallb (fun be => forallb (fun p => forallb (fun n => (p <=? n) || forallb (chk p n be) (seq 0 p)) [1;2;4;8;16;32]) [32;64]) [true;false] = true)
      by (vm_compute; reflexivity).
    rewrite forallb_forall in A. specialize (A be ltac:(destruct be; simpl; auto)).
    rewrite forallb_forall in A. specialize (A p ltac:(destruct Hp; subst; simpl; auto)).
    rewrite forallb_forall in A. specialize (A n Hn). apply orb_prop in A as [A|A].
    - apply Nat.leb_le in A. lia.
    - rewrite forallb_forall in A. apply A, in_seq. lia. }
  unfold chk in K. destruct (be && (8 <=? n)); apply andb_prop in K as [K1 K2]; apply Bool.eqb_prop in K1;
    (split; [exact K1|]); destruct (Nat.even (m / n)); apply andb_prop in K2 as [K2 K3];
    apply Nat.eqb_eq in K3; (split; [intros A|intros A]); try discriminate; split; try assumption;
    try (apply Nat.leb_le; assumption); apply Nat.ltb_lt; assumption.
Qed.

Lemma trn_length {A} k n : forall (t b : list A), length t = 2 * n * k -> length b = 2 * n * k ->
  length (fst (trn k n t b)) = 2 * n * k /\ length (snd (trn k n t b)) = 2 * n * k.
Proof.
  induction k as [|k IH]; intros t b Ht Hb; cbn [trn].
  - cbn [fst snd length]. lia.
  - specialize (IH (skipn (2 * n) t) (skipn (2 * n) b)).
    destruct (trn k n (skipn (2 * n) t) (skipn (2 * n) b)) as [x y]. cbn [fst snd] in *.
    rewrite !skipn_length in IH. destruct IH as [Ex Ey]; try nia.
    rewrite !app_length, !firstn_length, ?skipn_length, Ex, Ey. nia.
Qed.

Lemma nth_trn {A} (d : A) n k : 0 < n -> forall t b m,
  length t = 2 * n * k -> length b = 2 * n * k -> m < 2 * n * k ->
  nth m (fst (trn k n t b)) d = (if Nat.even (m / n) then nth m t d else nth (m - n) b d) /\
  nth m (snd (trn k n t b)) d = (if Nat.even (m / n) then nth (m + n) t d else nth m b d).
Proof.
  intros Hn. induction k as [|k IH]; intros t b m Ht Hb Hm; [lia|]. cbn [trn].
  specialize (IH (skipn (2 * n) t) (skipn (2 * n) b)).
  pose proof (trn_length k n (skipn (2 * n) t) (skipn (2 * n) b)) as Len.
  rewrite !skipn_length in Len. destruct Len as [Lx Ly]; try nia.
  destruct (trn k n (skipn (2 * n) t) (skipn (2 * n) b)) as [x y]. cbn [fst snd] in *.
  assert (L0 : length (firstn n t) = n) by (rewrite firstn_length; nia).
  assert (L1 : length (firstn n b) = n) by (rewrite firstn_length; nia).
  assert (L2 : length (firstn n (skipn n t)) = n) by (rewrite firstn_length, skipn_length; nia).
  assert (L3 : length (firstn n (skipn n b)) = n) by (rewrite firstn_length, skipn_length; nia).
  destruct (Nat.lt_ge_cases m n) as [C1|C1].
  { rewrite (Nat.div_small m n) by lia. cbn [Nat.even]. rewrite !app_nth1 by lia.
    rewrite !nth_firstn_lt, nth_skipn by lia. rewrite Nat.add_comm. auto. }
  destruct (Nat.lt_ge_cases m (2 * n)) as [C2|C2].
  { assert (E : m / n = 1) by (symmetry; apply Nat.div_unique with (r := m - n); lia).
    rewrite E. cbn [Nat.even].
    rewrite (app_nth2 (firstn n t)), (app_nth2 (firstn n (skipn n t))) by lia. rewrite L0, L2. rewrite !app_nth1 by lia.
    rewrite !nth_firstn_lt, nth_skipn by lia. split; f_equal; lia. }
  destruct (IH (m - 2 * n)) as [I1 I2]; try (rewrite skipn_length; nia); try nia.
  assert (E : Nat.even (m / n) = Nat.even ((m - 2 * n) / n)).
  { replace m with ((m - 2 * n) + 2 * n) at 1 by lia. rewrite Nat.div_add by lia.
    rewrite Nat.even_add. cbn [Nat.even]. generalize (Nat.even ((m - 2 * n) / n)). intros []; reflexivity. }
  rewrite E.
  rewrite (app_nth2 (firstn n t)), (app_nth2 (firstn n (skipn n t))) by lia. rewrite L0, L2.
  rewrite (app_nth2 (firstn n b)), (app_nth2 (firstn n (skipn n b))) by lia. rewrite L1, L3.
  replace (m - n - n) with (m - 2 * n) by lia. rewrite I1, I2, !nth_skipn.
  destruct (Nat.even ((m - 2 * n) / n)) eqn:Ev; split; f_equal; try lia.
  assert (n <= m - 2 * n) by (apply odd_div_ge; auto). lia.
Qed.

Lemma trn_Forall {A} (Q : A -> Prop) k n : forall t b, Forall Q t -> Forall Q b ->
  Forall Q (fst (trn k n t b)) /\ Forall Q (snd (trn k n t b)).
Proof.
  induction k as [|k IH]; intros t b Ht Hb; cbn [trn]; [cbn [fst snd]; auto|].
  specialize (IH (skipn (2 * n) t) (skipn (2 * n) b)).
  destruct (trn k n (skipn (2 * n) t) (skipn (2 * n) b)) as [x y]. cbn [fst snd] in *.
  destruct IH; auto using Forall_skipn.
  split; repeat (apply Forall_app; split); auto using Forall_firstn, Forall_skipn.
Qed.

Lemma vtrnq_swap c L e t b : tgt c = NEON -> In e [1;2;4] -> wf c t -> wf c b -> L < n_lanes c ->
  is_swap c L (8 * e) t b (fst (vtrnq e t b)) (snd (vtrnq e t b)).
Proof.
  intros Hn He [Lt Ft] [Lb Fb] HL.
  assert (HW : word_bytes c = 16) by (unfold word_bytes; rewrite Hn; reflexivity).
  assert (HP : P c = 64) by (unfold P, lane_bytes; rewrite Hn; reflexivity).
  assert (HnL : n_lanes c = 2) by (unfold n_lanes, word_bytes, lane_bytes; rewrite Hn; reflexivity).
  assert (Hk : 16 = 2 * e * (16 / (2 * e))) by (repeat destruct He as [<-|He]; try reflexivity; contradiction).
  rewrite HW in Lt, Lb. unfold vtrnq.
  set (k := 16 / (2 * e)) in *.
  destruct (trn_length k e t b) as [L1 L2]; try congruence.
  destruct (trn_Forall is_byte k e t b Ft Fb) as [F1 F2].
  assert (He0 : 0 < e) by (repeat destruct He as [<-|He]; try lia; contradiction).
  clearbody k.
  split; [split; [transitivity (2 * e * k); [exact L1|congruence]|assumption]|].
  split; [split; [transitivity (2 * e * k); [exact L2|congruence]|assumption]|].
  rewrite HP. intros m Hm.
  assert (Hb1 : (64 * L + m) / 8 < 2 * e * k).
  { rewrite <- Hk. apply Nat.div_lt_upper_bound; lia. }
  destruct (nth_trn 0%N e k He0 t b _ (eq_trans Lt Hk) (eq_trans Lb Hk) Hb1) as [N1 N2].
  assert (Ev : Nat.even ((64 * L + m) / 8 / e) = Nat.even (m / (8 * e))).
  { replace (64 * L + m) with (8 * (8 * L) + m) by lia. rewrite div8.
    rewrite <- Nat.div_div by lia.
    assert (E : exists q, 8 * L = 2 * q * e) by (repeat destruct He as [<-|He]; try contradiction; [exists (4*L)|exists (2*L)|exists L]; lia).
    destruct E as [q ->]. rewrite Nat.add_comm, Nat.div_add by lia.
    rewrite Nat.even_add, Nat.even_mul. cbn [Nat.even orb]. destruct (Nat.even (m / 8 / e)); reflexivity. }
  unfold mbit. change (list N) with word in *. rewrite N1, N2, Ev. clear N1 N2.
  destruct (Nat.even (m / (8 * e))) eqn:Eq.
  - split; [reflexivity|].
    replace (64 * L + (m + 8 * e)) with (8 * e + (64 * L + m)) by lia. rewrite div8, mod8. do 2 f_equal. lia.
  - assert (8 * e <= m) by (apply odd_div_ge; [lia|exact Eq]). split; [|reflexivity].
    assert (E : 64 * L + m = 8 * e + (64 * L + (m - 8 * e))) by lia. rewrite E, div8, mod8.
    do 2 f_equal. lia.
Qed.

Lemma swap_is_swap c n L t b : sane c -> In n (swap_sizes c) -> wf c t -> wf c b -> L < n_lanes c ->
  is_swap c L n t b (fst (BS_SWAP c n t b)) (snd (BS_SWAP c n t b)).
Proof.
  intros [Hs _] Hn Ht Hb HL.
  assert (Hn' : In n [1;2;4;8;16;32]) by (unfold swap_sizes in Hn; destruct (tgt c); simpl in *; intuition).
  assert (HnP : n < P c).
  { unfold swap_sizes in Hn. unfold P, lane_bytes. destruct (tgt c); simpl in Hn; intuition lia. }
  assert (Hgen : forall mask k,
     In (n, mask, k) [(1, 0x55%N, 1); (2, 0x33%N, 1); (4, 0x0f%N, 1); (8, 0x00ff%N, 2); (16, 0x0000ffff%N, 4); (32, 0x00000000ffffffff%N, 8)] ->
     (forall t b, BS_SWAP_LE c n t b = BS_SWAP_BITS_LE c t b (N.of_nat n) (BS_VAL c k mask)) ->
     is_swap c L n t b (fst (BS_SWAP c n t b)) (snd (BS_SWAP c n t b))).
  { intros mask k Hin Hle.
    assert (H32 : n = 32 -> tgt c <> UINT32).
    { intros -> E. unfold swap_sizes in Hn. rewrite E in Hn. simpl in Hn. intuition lia. }
    unfold BS_SWAP. destruct (big_endian c && (8 <=? n)) eqn:Eb.
    - rewrite Hle.
      destruct (swap_bits_vbit c L n mask k b t Hb Ht HL Hin H32) as (W1 & W2 & V).
      destruct (BS_SWAP_BITS_LE c b t (N.of_nat n) (BS_VAL c k mask)) as [b' t']. cbn [fst snd] in *.
      split; [exact W2|]. split; [exact W1|]. intros m Hm.
      pose proof (vpos_idx (P c) n m (P_cases c) Hn' HnP Hm (big_endian c)) as I. cbv zeta in I. rewrite Eb in I.
      destruct I as (I1 & I2 & I3).
      destruct (V (vpos (big_endian c) (P c) m) (vpos_lt c m Hm)) as [V1 V2]. rewrite I1 in V1, V2.
      rewrite (mbit_vbit c L t' m), (mbit_vbit c L b' m), (mbit_vbit c L t m), (mbit_vbit c L b m) by assumption.
      rewrite V1, V2.
      destruct (Nat.even (m / n)) eqn:Ev; cbn [negb].
      + destruct (I2 eq_refl) as [I4 I5]. split; [reflexivity|].
        rewrite <- I5. pose proof (vpos_lt c m Hm). rewrite mbit_vbit by (auto using vpos_lt; apply vpos_lt; lia).
        rewrite vpos_inv by (auto using P_cases; lia). reflexivity.
      + destruct (I3 eq_refl) as [I4 I5]. split; [|reflexivity].
        rewrite <- I5. rewrite mbit_vbit by (auto using vpos_lt).
        rewrite vpos_inv by (auto using P_cases). reflexivity.
    - rewrite Hle.
      destruct (swap_bits_vbit c L n mask k t b Ht Hb HL Hin H32) as (W1 & W2 & V).
      destruct (BS_SWAP_BITS_LE c t b (N.of_nat n) (BS_VAL c k mask)) as [t' b']. cbn [fst snd] in *.
      split; [exact W1|]. split; [exact W2|]. intros m Hm.
      pose proof (vpos_idx (P c) n m (P_cases c) Hn' HnP Hm (big_endian c)) as I. cbv zeta in I. rewrite Eb in I.
      destruct I as (I1 & I2 & I3).
      destruct (V (vpos (big_endian c) (P c) m) (vpos_lt c m Hm)) as [V1 V2]. rewrite I1 in V1, V2.
      rewrite (mbit_vbit c L t' m), (mbit_vbit c L b' m), (mbit_vbit c L t m), (mbit_vbit c L b m) by assumption.
      rewrite V1, V2.
      destruct (Nat.even (m / n)) eqn:Ev.
      + destruct (I2 eq_refl) as [I4 I5]. split; [reflexivity|].
        rewrite <- I5. rewrite mbit_vbit by (auto using vpos_lt).
        rewrite vpos_inv by (auto using P_cases). reflexivity.
      + destruct (I3 eq_refl) as [I4 I5]. split; [|reflexivity].
        rewrite <- I5. pose proof (vpos_lt c m Hm). rewrite mbit_vbit by (auto using vpos_lt; apply vpos_lt; lia).
        rewrite vpos_inv by (auto using P_cases; lia). reflexivity. }
  destruct (tgt c) eqn:Et;
    try (simpl in Hn'; repeat destruct Hn' as [<-|Hn']; try contradiction;
      [apply (Hgen 0x55%N 1)|apply (Hgen 0x33%N 1)|apply (Hgen 0x0f%N 1)|apply (Hgen 0x00ff%N 2)
      |apply (Hgen 0x0000ffff%N 4)|apply (Hgen 0x00000000ffffffff%N 8)];
      [simpl; tauto|intros; unfold BS_SWAP_LE; rewrite ?Et; reflexivity|..]; fail).
  all: try (simpl in Hn'; repeat destruct Hn' as [<-|Hn']; try contradiction;
      [apply (Hgen 0x55%N 1)|apply (Hgen 0x33%N 1)|apply (Hgen 0x0f%N 1)|apply (Hgen 0x00ff%N 2)
      |apply (Hgen 0x0000ffff%N 4)|apply (Hgen 0x00000000ffffffff%N 8)];
      solve [simpl; tauto|intros; unfold BS_SWAP_LE; rewrite ?Et; reflexivity]).
  assert (Hbe : big_endian c = false).
  { destruct (big_endian c); [|reflexivity]. destruct (Hs eq_refl); congruence. }
  simpl in Hn'; repeat destruct Hn' as [<-|Hn']; try contradiction;
    [apply (Hgen 0x55%N 1)|apply (Hgen 0x33%N 1)|apply (Hgen 0x0f%N 1)|..];
    try solve [simpl; tauto|intros; unfold BS_SWAP_LE; rewrite ?Et; reflexivity];
    unfold BS_SWAP; rewrite Hbe; cbn [andb]; unfold BS_SWAP_LE; rewrite Et.
  - apply (vtrnq_swap c L 1); auto; simpl; auto.
  - apply (vtrnq_swap c L 2); auto; simpl; auto.
  - apply (vtrnq_swap c L 4); auto; simpl; auto.
Qed.
