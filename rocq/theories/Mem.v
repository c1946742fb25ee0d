(** Mem.v -- memory predicates used in statements ([holds], [mapped], [disjoint], [same_outside])
    and the lemmas about loads and stores. *)
From Verif Require Import Base.
Local Open Scope N_scope.

(** ** Predicates used in property statements *)

(* the bytes [l] are stored at address [a] *)
Definition holds (m : mem) (a : N) (l : list N) : Prop :=
  Forall is_byte l /\ forall i, (i < length l)%nat -> m (a + N.of_nat i) = Some (nth i l 0).

(* [a, a + n) is a live object *)
Definition mapped (m : mem) (a n : N) : Prop := forall x, a <= x < a + n -> exists b, m x = Some b.

(* [a, a + n) and [b, b + k) do not overlap *)
Definition disjoint (a n b k : N) : Prop := forall x, ~ (a <= x < a + n /\ b <= x < b + k).

(* nothing outside [a, a + n) differs *)
Definition same_outside (a n : N) (m m' : mem) : Prop := forall x, ~ (a <= x < a + n) -> m' x = m x.
Definition same_inside (a n : N) (m m' : mem) : Prop := forall x, a <= x < a + n -> m' x = m x.

(** ** Pointwise equality and bulk update *)
Definition meq (m m' : mem) : Prop := forall x, m x = m' x.
Definition put (m : mem) (a : N) (l : list N) : mem :=
  fun x => if (a <=? x) && (x <? a + N.of_nat (length l))
           then Some (nth (N.to_nat (x - a)) l 0) else m x.

Ltac nb := repeat
  match goal with
  | |- context [N.leb ?a ?b] => destruct (N.leb_spec a b)
  | |- context [N.ltb ?a ?b] => destruct (N.ltb_spec a b)
  | |- context [N.eqb ?a ?b] => destruct (N.eqb_spec a b)
  end; simpl.

Lemma meq_refl m : meq m m. Proof. intros x; reflexivity. Qed.
Lemma meq_sym m m' : meq m m' -> meq m' m. Proof. intros H x; symmetry; apply H. Qed.
Lemma meq_trans a b c : meq a b -> meq b c -> meq a c.
Proof. intros H K x; rewrite (H x); apply K. Qed.

Lemma put_in m a l x : a <= x < a + N.of_nat (length l) ->
  put m a l x = Some (nth (N.to_nat (x - a)) l 0).
Proof. intros H; unfold put; nb; try lia; reflexivity. Qed.
Lemma put_out m a l x : ~ (a <= x < a + N.of_nat (length l)) -> put m a l x = m x.
Proof. intros H; unfold put; nb; try lia; reflexivity. Qed.

Lemma put_meq m m' a l : meq m m' -> meq (put m a l) (put m' a l).
Proof. intros H x; unfold put; nb; auto. Qed.

Lemma holds_put m a l : Forall is_byte l -> holds (put m a l) a l.
Proof.
  intros H; split; [exact H|]. intros i Hi. rewrite put_in by lia. do 2 f_equal. lia.
Qed.

Lemma put_holds m a l : holds m a l -> meq (put m a l) m.
Proof.
  intros [_ H] x. unfold put; nb; try reflexivity.
  specialize (H (N.to_nat (x - a))). rewrite <- H by lia. f_equal. lia.
Qed.

Lemma holds_meq m m' a l : meq m m' -> holds m a l -> holds m' a l.
Proof. intros E [H1 H2]; split; [exact H1|]. intros i Hi; rewrite <- E; auto. Qed.

Lemma holds_mapped m a l : holds m a l -> mapped m a (N.of_nat (length l)).
Proof.
  intros [_ H] x Hx. specialize (H (N.to_nat (x - a))).
  replace (a + N.of_nat (N.to_nat (x - a))) with x in H by lia.
  rewrite H by lia; eauto.
Qed.

Lemma mapped_sub m a n b k : mapped m a n -> a <= b -> b + k <= a + n -> mapped m b k.
Proof. intros H H1 H2 x Hx; apply H; lia. Qed.

Lemma mapped_meq m m' a n : meq m m' -> mapped m a n -> mapped m' a n.
Proof. intros E H x Hx; rewrite <- E; auto. Qed.

Lemma mapped_put m a n b l : mapped m a n -> mapped (put m b l) a n.
Proof. intros H x Hx; unfold put; nb; eauto. Qed.

Lemma holds_app m a l1 l2 :
  holds m a (l1 ++ l2) <-> holds m a l1 /\ holds m (a + N.of_nat (length l1)) l2.
Proof.
  unfold holds. rewrite Forall_app, app_length. split.
  - intros [[F1 F2] H]. repeat split; auto.
    + intros i Hi. rewrite H by lia. rewrite app_nth1 by lia. reflexivity.
    + intros i Hi. specialize (H (length l1 + i)%nat). rewrite app_nth2 in H by lia.
      replace (length l1 + i - length l1)%nat with i in H by lia.
      rewrite <- H by lia. f_equal; lia.
  - intros [[F1 H1] [F2 H2]]; split; [auto|]. intros i Hi.
    destruct (Nat.lt_ge_cases i (length l1)) as [L|L].
    + rewrite app_nth1 by lia; auto.
    + rewrite app_nth2 by lia. rewrite <- H2 by lia. f_equal; lia.
Qed.

Lemma holds_ext m m' a l :
  holds m a l -> (forall x, a <= x < a + N.of_nat (length l) -> m' x = m x) -> holds m' a l.
Proof. intros [F H] E; split; auto. intros i Hi; rewrite E by lia; auto. Qed.

Lemma holds_put_disj m a l b l' :
  holds m a l -> disjoint a (N.of_nat (length l)) b (N.of_nat (length l')) -> holds (put m b l') a l.
Proof. intros H D. eapply holds_ext; [exact H|]. intros x Hx. apply put_out. intros K; apply (D x); lia. Qed.

Lemma holds_inj m a l l' : holds m a l -> holds m a l' -> length l = length l' -> l = l'.
Proof.
  intros [_ H] [_ H'] E. apply (nth_ext _ _ 0 0 E). intros i Hi.
  specialize (H i Hi). specialize (H' i ltac:(lia)). congruence.
Qed.

Lemma holds_of_mapped m a n :
  (forall x b, m x = Some b -> is_byte b) -> mapped m a (N.of_nat n) ->
  exists l, length l = n /\ holds m a l.
Proof.
  intros W. revert a; induction n as [|n IH]; intros a H.
  - exists []; repeat split; auto; simpl; intros; lia.
  - destruct (IH (a + 1)) as (l & L & Hl).
    { intros x Hx; apply H; lia. }
    destruct (H a ltac:(lia)) as [b Hb]. exists (b :: l); split; [simpl; lia|].
    change (b :: l) with ([b] ++ l). rewrite holds_app; split.
    + split; [constructor; eauto|]. intros [|i] Hi; simpl in Hi; [|lia]. simpl.
      rewrite N.add_0_r; exact Hb.
    + exact Hl.
Qed.

Lemma holds_nth m a l i : holds m a l -> (i < length l)%nat -> load m (a + N.of_nat i) = Ok (nth i l 0).
Proof. intros [_ H] Hi; unfold load; rewrite H; auto. Qed.

Lemma holds_cons m a b l : holds m a (b :: l) <-> (m a = Some b /\ is_byte b) /\ holds m (a + 1) l.
Proof.
  change (b :: l) with ([b] ++ l). rewrite holds_app. split.
  - intros [[F H] H2]; split; [|exact H2]. inversion F; subst.
    specialize (H 0%nat); simpl in H. rewrite N.add_0_r in H. split; auto.
  - intros [[H F] H2]; split; [|exact H2]. split; [auto|]. intros [|i] Hi; simpl in Hi; [|lia].
    simpl. rewrite N.add_0_r; exact H.
Qed.

Lemma holds_nil m a : holds m a [].
Proof. split; auto. simpl; intros; lia. Qed.

Lemma load_bytes_ok m l : forall a, holds m a l -> load_bytes m a (length l) = Ok l.
Proof.
  induction l as [|b l IH]; intros a H; simpl; [reflexivity|].
  apply holds_cons in H as [[H _] H2]. unfold load; rewrite H; simpl. rewrite IH by exact H2. reflexivity.
Qed.

Lemma load_bytes_ok' m l a n : holds m a l -> length l = n -> load_bytes m a n = Ok l.
Proof. intros H <-; apply load_bytes_ok; exact H. Qed.

Lemma store_ok m a v : mapped m a 1 -> wp (store m a v) (fun m' => meq m' (put m a [v])).
Proof.
  intros H. unfold store. destruct (H a ltac:(lia)) as [b ->]. simpl. intros x.
  unfold put; simpl. nb; try lia; try reflexivity.
  replace (x - a) with 0 by lia. reflexivity.
Qed.

Lemma store_bytes_ok l : forall m a, mapped m a (N.of_nat (length l)) ->
  wp (store_bytes m a l) (fun m' => meq m' (put m a l)).
Proof.
  induction l as [|v l IH]; intros m a H; cbn [store_bytes].
  - simpl. intros x. unfold put; simpl. nb; try lia; reflexivity.
  - apply wp_bind. eapply wp_mono; [apply store_ok; eapply mapped_sub; [exact H|lia|simpl length; lia]|].
    intros m1 E1. eapply wp_mono.
    + apply IH. eapply mapped_meq; [apply meq_sym; exact E1|]. apply mapped_put.
      eapply mapped_sub; [exact H|lia|simpl length; lia].
    + intros m2 E2 x. rewrite E2. unfold put at 1.
      destruct (N.leb_spec (a + 1) x); destruct (N.ltb_spec x (a + 1 + N.of_nat (length l))); simpl;
        try rewrite E1.
      * rewrite put_in by (simpl length; lia).
        replace (N.to_nat (x - a)) with (S (N.to_nat (x - (a + 1)))) by lia. reflexivity.
      * unfold put; simpl length; nb; try lia; reflexivity.
      * unfold put; simpl length; nb; try lia; try reflexivity.
        replace (x - a) with 0 by lia; reflexivity.
      * unfold put; simpl length; nb; try lia; reflexivity.
Qed.

(** ** splice *)
Definition splice (l : list N) (i : nat) (b : list N) : list N :=
  firstn i l ++ b ++ skipn (i + length b) l.

Lemma splice_length l i b : (i + length b <= length l)%nat -> length (splice l i b) = length l.
Proof. intros H; unfold splice. rewrite !app_length, firstn_length, skipn_length. lia. Qed.

Lemma nth_firstn_lt {A} (l : list A) i j d : (j < i)%nat -> nth j (firstn i l) d = nth j l d.
Proof. revert i j; induction l as [|x l IH]; intros [|i] [|j] H; simpl; auto; try lia. apply IH; lia. Qed.
Lemma nth_skipn {A} (l : list A) i j d : nth j (skipn i l) d = nth (i + j) l d.
Proof. revert l; induction i as [|i IH]; intros [|x l]; simpl; auto. destruct j; reflexivity. Qed.

Lemma firstn_S_nth {A} (l : list A) i d : (i < length l)%nat -> firstn (S i) l = firstn i l ++ [nth i l d].
Proof.
  revert i; induction l as [|x l IH]; intros [|i] H; simpl in H; try lia; [reflexivity|].
  cbn [nth]. change (firstn (S (S i)) (x :: l)) with (x :: firstn (S i) l). rewrite IH by lia. reflexivity.
Qed.
Lemma skipn_nth {A} (l : list A) i d : (i < length l)%nat -> skipn i l = nth i l d :: skipn (S i) l.
Proof.
  revert i; induction l as [|x l IH]; intros [|i] H; simpl in H; try lia; [reflexivity|].
  cbn [nth]. change (skipn (S i) (x :: l)) with (skipn i l). rewrite IH by lia. reflexivity.
Qed.

Lemma nth_splice l i b j : (i + length b <= length l)%nat ->
  nth j (splice l i b) 0 =
  if (i <=? j)%nat && (j <? i + length b)%nat then nth (j - i) b 0 else nth j l 0.
Proof.
  intros H. unfold splice.
  destruct (Nat.leb_spec i j); simpl.
  - rewrite app_nth2 by (rewrite firstn_length; lia). rewrite firstn_length, Nat.min_l by lia.
    destruct (Nat.ltb_spec j (i + length b)).
    + apply app_nth1; lia.
    + rewrite app_nth2 by lia. rewrite nth_skipn. f_equal. lia.
  - rewrite app_nth1 by (rewrite firstn_length; lia). apply nth_firstn_lt; lia.
Qed.

Lemma put_splice m a l i b : (i + length b <= length l)%nat ->
  meq (put (put m a l) (a + N.of_nat i) b) (put m a (splice l i b)).
Proof.
  intros H x. unfold put. rewrite splice_length by exact H. nb; try lia; try reflexivity.
  - rewrite nth_splice by exact H. f_equal.
    destruct (Nat.leb_spec i (N.to_nat (x - a))); [|lia].
    destruct (Nat.ltb_spec (N.to_nat (x - a)) (i + length b)); [|lia]. simpl. f_equal; lia.
  - rewrite nth_splice by exact H. f_equal.
    destruct (Nat.leb_spec i (N.to_nat (x - a))); [|lia].
    destruct (Nat.ltb_spec (N.to_nat (x - a)) (i + length b)); [lia|]. reflexivity.
  - rewrite nth_splice by exact H. f_equal.
    destruct (Nat.leb_spec i (N.to_nat (x - a))); [lia|]. reflexivity.
Qed.

Lemma holds_sub m a l i n : holds m a l -> (i + n <= length l)%nat ->
  holds m (a + N.of_nat i) (firstn n (skipn i l)).
Proof.
  intros H L. rewrite <- (firstn_skipn i l) in H. apply holds_app in H as [_ H].
  rewrite firstn_length, Nat.min_l in H by lia.
  rewrite <- (firstn_skipn n (skipn i l)) in H. apply holds_app in H as [H _]. exact H.
Qed.

(* write of [b] at offset i of a payload [cur] stored at [a] *)
Lemma store_at m m1 a cur i b :
  meq m1 (put m a cur) -> (i + length b <= length cur)%nat ->
  wp (store_bytes m1 (a + N.of_nat i) b) (fun m2 => meq m2 (put m a (splice cur i b))).
Proof.
  intros E H. eapply wp_mono.
  - apply store_bytes_ok. eapply mapped_meq; [apply meq_sym; exact E|].
    intros x Hx. rewrite put_in by lia. eauto.
  - intros m2 E2. eapply meq_trans; [exact E2|]. eapply meq_trans; [apply put_meq; exact E|].
    apply put_splice; exact H.
Qed.

Lemma load_at m m1 a cur i n :
  meq m1 (put m a cur) -> Forall is_byte cur -> (i + n <= length cur)%nat ->
  load_bytes m1 (a + N.of_nat i) n = Ok (firstn n (skipn i cur)).
Proof.
  intros E F H. apply load_bytes_ok'.
  - apply holds_sub; [|exact H]. eapply holds_meq; [apply meq_sym; exact E|]. apply holds_put; exact F.
  - rewrite firstn_length, skipn_length; lia.
Qed.

Lemma Forall_firstn {A} (P : A -> Prop) n l : Forall P l -> Forall P (firstn n l).
Proof. intros H; rewrite <- (firstn_skipn n l) in H; apply Forall_app in H; tauto. Qed.
Lemma Forall_skipn {A} (P : A -> Prop) n l : Forall P l -> Forall P (skipn n l).
Proof. intros H; rewrite <- (firstn_skipn n l) in H; apply Forall_app in H; tauto. Qed.
Lemma Forall_splice P l i b : Forall P l -> Forall P b -> Forall P (splice l i b).
Proof.
  intros; unfold splice; rewrite !Forall_app; auto using Forall_firstn, Forall_skipn.
Qed.

(** ** Integers and byte strings *)
Lemma le_bytes_length n v : length (le_bytes n v) = n.
Proof. revert v; induction n; intros; simpl; auto. Qed.
Lemma native_bytes_length be n v : length (native_bytes be n v) = n.
Proof. destruct be; simpl; rewrite ?rev_length; apply le_bytes_length. Qed.

Lemma le_bytes_is_byte n v : Forall is_byte (le_bytes n v).
Proof.
  revert v; induction n; intros; cbn [le_bytes]; constructor; auto. unfold is_byte. apply N.mod_lt; lia.
Qed.
Lemma native_bytes_is_byte be n v : Forall is_byte (native_bytes be n v).
Proof. destruct be; simpl; [apply Forall_rev|]; apply le_bytes_is_byte. Qed.

Lemma le_bytes_val l : Forall is_byte l -> le_bytes (length l) (le_val l) = l.
Proof.
  induction 1 as [|b l Hb H IH]; cbn [length le_bytes le_val]; [reflexivity|].
  unfold is_byte in Hb. f_equal.
  - replace (b + 256 * le_val l) with (b + le_val l * 256) by lia. rewrite N.mod_add by lia. apply N.mod_small; lia.
  - rewrite N.mul_comm, N.div_add by lia. rewrite N.div_small by lia. exact IH.
Qed.

Lemma le_val_bytes n : forall v, v < 2 ^ (8 * N.of_nat n) -> le_val (le_bytes n v) = v.
Proof.
  induction n as [|n IH]; intros v H; cbn [le_bytes le_val].
  - simpl in H. lia.
  - rewrite IH.
    + pose proof (N.div_mod v 256). lia.
    + apply N.div_lt_upper_bound; [lia|].
      replace (8 * N.of_nat (S n)) with (8 + 8 * N.of_nat n) in H by lia. rewrite N.pow_add_r in H. exact H.
Qed.

Lemma le_val_bound l : Forall is_byte l -> le_val l < 2 ^ (8 * N.of_nat (length l)).
Proof.
  induction 1 as [|b l Hb H IH]; cbn [length le_val]; [simpl; lia|].
  replace (8 * N.of_nat (S (length l))) with (8 + 8 * N.of_nat (length l)) by lia.
  rewrite N.pow_add_r. change (2 ^ 8) with 256. unfold is_byte in Hb. nia.
Qed.

Lemma land_byte_testbit b k : is_byte b -> 8 <= k -> N.testbit b k = false.
Proof.
  intros H K. destruct (N.eq_dec b 0) as [->|E]; [apply N.bits_0|].
  apply N.bits_above_log2. eapply N.lt_le_trans; [|exact K].
  apply N.log2_lt_pow2; [lia|]. exact H.
Qed.

Lemma bound_of_bits x n : (forall k, n <= k -> N.testbit x k = false) -> x < 2 ^ n.
Proof.
  intros H. destruct (N.eq_dec x 0) as [->|E].
  - pose proof (N.pow_nonzero 2 n). lia.
  - apply N.log2_lt_pow2; [lia|]. destruct (N.lt_ge_cases (N.log2 x) n) as [L|L]; [exact L|].
    specialize (H _ L). rewrite N.bit_log2 in H by exact E. discriminate.
Qed.

Lemma bits_of_bound x n k : x < 2 ^ n -> n <= k -> N.testbit x k = false.
Proof.
  intros H K. destruct (N.eq_dec x 0) as [->|E]; [apply N.bits_0|].
  apply N.bits_above_log2. eapply N.lt_le_trans; [|exact K].
  apply N.log2_lt_pow2; [lia|exact H].
Qed.

Lemma testbit_add_256 b v k : is_byte b ->
  N.testbit (b + 256 * v) k = if k <? 8 then N.testbit b k else N.testbit v (k - 8).
Proof.
  intros H. replace (256 * v) with (N.shiftl v 8) by (rewrite N.shiftl_mul_pow2; change (2 ^ 8) with 256; lia).
  rewrite N.add_nocarry_lxor, N.lxor_spec.
  - destruct (N.ltb_spec k 8).
    + rewrite N.shiftl_spec_low by lia. apply xorb_false_r.
    + rewrite N.shiftl_spec_high' by lia. rewrite land_byte_testbit by auto. apply xorb_false_l.
  - apply N.bits_inj. intros j. rewrite N.land_spec, N.bits_0.
    destruct (N.lt_ge_cases j 8).
    + rewrite N.shiftl_spec_low by lia. apply andb_false_r.
    + rewrite land_byte_testbit by auto. reflexivity.
Qed.

Lemma testbit_le_val l : Forall is_byte l -> forall k,
  N.testbit (le_val l) k = N.testbit (nth (N.to_nat (k / 8)) l 0) (k mod 8).
Proof.
  induction 1 as [|b l Hb H IH]; intros k; cbn [le_val].
  - rewrite N.bits_0. destruct (N.to_nat (k / 8)); cbn [nth]; rewrite N.bits_0; reflexivity.
  - rewrite testbit_add_256 by exact Hb. destruct (N.ltb_spec k 8).
    + rewrite N.div_small, N.mod_small by lia. reflexivity.
    + rewrite IH. replace k with ((k - 8) + 1 * 8) at 3 4 by lia.
      rewrite N.div_add, N.mod_add by lia.
      replace (N.to_nat ((k - 8) / 8 + 1)) with (S (N.to_nat ((k - 8) / 8))) by lia. reflexivity.
Qed.

Lemma lxor_byte a b : is_byte a -> is_byte b -> is_byte (N.lxor a b).
Proof.
  unfold is_byte; intros. change 256 with (2 ^ 8). apply bound_of_bits. intros k Hk.
  rewrite N.lxor_spec, !land_byte_testbit by auto. reflexivity.
Qed.
Lemma land_byte a b : is_byte a -> is_byte (N.land a b).
Proof.
  unfold is_byte; intros. change 256 with (2 ^ 8). apply bound_of_bits. intros k Hk.
  rewrite N.land_spec, land_byte_testbit by auto. reflexivity.
Qed.
Lemma lor_byte a b : is_byte a -> is_byte b -> is_byte (N.lor a b).
Proof.
  unfold is_byte; intros. change 256 with (2 ^ 8). apply bound_of_bits. intros k Hk.
  rewrite N.lor_spec, !land_byte_testbit by auto. reflexivity.
Qed.
Lemma u8_byte x : is_byte (u8 x).
Proof. unfold is_byte, u8. apply N.mod_lt; lia. Qed.
Lemma u8_id x : is_byte x -> u8 x = x.
Proof. intros; apply N.mod_small; exact H. Qed.
