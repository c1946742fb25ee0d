(** BsView.v -- arrays of words seen as arrays of bytes; byte buffers. *)
From Verif Require Import Base Mem ModelBsWord BsWordFacts.
Local Open Scope nat_scope.

Definition wrows (c : build) (n : nat) (rows : list word) : Prop := length rows = n /\ Forall (wf c) rows.
(* byte number k of an array of words in memory *)
Definition fbyte (c : build) (rows : list word) (k : nat) : N :=
  nth (k mod word_bytes c) (nth (k / word_bytes c) rows []) 0%N.

Lemma word_bytes_pos c : 0 < word_bytes c.
Proof. unfold word_bytes; destruct (tgt c); lia. Qed.

Lemma wrows_nth c n rows i : wrows c n rows -> i < n -> wf c (nth i rows []).
Proof. intros [L F] Hi. rewrite Forall_forall in F. apply F, nth_In. lia. Qed.

Lemma wrows_upd c n rows i w : wrows c n rows -> wf c w -> wrows c n (upd rows i w).
Proof. intros [L F] Hw; split; [rewrite upd_length; exact L|apply Forall_upd; assumption]. Qed.

Lemma div_lt a b n : 0 < b -> (a / b < n <-> a < n * b).
Proof.
  intros Hb. split; intros H.
  - pose proof (Nat.div_mod a b). pose proof (Nat.mod_upper_bound a b). nia.
  - apply Nat.div_lt_upper_bound; lia.
Qed.

(* the element number i of sz bytes lies inside one word *)
Lemma view_row w sz i j : 0 < sz -> (exists q, w = q * sz) -> 0 < w -> j < sz ->
  (sz * i + j) / w = sz * i / w /\ (sz * i + j) mod w = sz * i mod w + j /\ sz * i mod w + sz <= w.
Proof.
  intros Hs [q ->] Hw Hj.
  assert (Hq : 0 < q) by nia.
  pose proof (Nat.div_mod i q ltac:(lia)) as E. pose proof (Nat.mod_upper_bound i q ltac:(lia)) as B.
  assert (E1 : sz * i / (q * sz) = i / q) by (rewrite (Nat.mul_comm sz i); apply Nat.div_mul_cancel_r; lia).
  assert (E2 : sz * i mod (q * sz) = sz * (i mod q)).
  { rewrite (Nat.mul_comm q sz). apply Nat.mul_mod_distr_l; lia. }
  rewrite E1, E2. split; [|split; [|nia]].
  - symmetry. apply Nat.div_unique with (r := sz * (i mod q) + j); nia.
  - symmetry. apply Nat.mod_unique with (q := i / q); nia.
Qed.

Lemma view_index c n sz i : 0 < sz -> (exists q, word_bytes c = q * sz) -> sz * i + sz <= n * word_bytes c ->
  sz * i / word_bytes c < n.
Proof. intros Hs Hq H. apply div_lt; [apply word_bytes_pos|]. lia. Qed.

Lemma wp_view_get c n sz rows i : wrows c n rows -> 0 < sz -> (exists q, word_bytes c = q * sz) ->
  sz * i + sz <= n * word_bytes c ->
  wp (view_get c sz rows i) (fun v => length v = sz /\ Forall is_byte v /\
     forall j, j < sz -> nth j v 0%N = fbyte c rows (sz * i + j)).
Proof.
  intros W Hs Hq Hb. pose proof (view_index c n sz i Hs Hq Hb) as Hi.
  unfold view_get. rewrite (aget_ok _ _ ([] : word)) by (destruct W; lia). simpl.
  destruct (wrows_nth _ _ _ _ W Hi) as [Lw Fw].
  destruct (view_row (word_bytes c) sz i 0 Hs Hq (word_bytes_pos c) Hs) as (_ & _ & Hm).
  split; [rewrite firstn_length, skipn_length, Lw; lia|].
  split; [apply Forall_firstn, Forall_skipn, Fw|].
  intros j Hj. destruct (view_row (word_bytes c) sz i j Hs Hq (word_bytes_pos c) Hj) as (E1 & E2 & _).
  unfold fbyte. rewrite E1, E2, nth_firstn_lt by lia. rewrite nth_skipn. reflexivity.
Qed.

Lemma fbyte_upd c n rows i w k : wrows c n rows -> i < n ->
  fbyte c (upd rows i w) k = if k / word_bytes c =? i then nth (k mod word_bytes c) w 0%N else fbyte c rows k.
Proof.
  intros [L _] Hi. unfold fbyte. rewrite nth_upd, L.
  destruct (Nat.ltb_spec i n); [|lia]. destruct (Nat.eqb_spec (k / word_bytes c) i); reflexivity.
Qed.

Lemma wp_view_set c n sz rows i v : wrows c n rows -> 0 < sz -> (exists q, word_bytes c = q * sz) ->
  sz * i + sz <= n * word_bytes c -> length v = sz -> Forall is_byte v ->
  wp (view_set c sz rows i v) (fun rows' => wrows c n rows' /\
     forall k, fbyte c rows' k = if (sz * i <=? k) && (k <? sz * i + sz) then nth (k - sz * i) v 0%N else fbyte c rows k).
Proof.
  intros W Hs Hq Hb Lv Fv. pose proof (view_index c n sz i Hs Hq Hb) as Hi.
  unfold view_set. rewrite (aget_ok _ _ ([] : word)) by (destruct W; lia). simpl.
  rewrite aset_ok by (destruct W; lia). simpl.
  destruct (wrows_nth _ _ _ _ W Hi) as [Lw Fw].
  destruct (view_row (word_bytes c) sz i 0 Hs Hq (word_bytes_pos c) Hs) as (_ & _ & Hm).
  split.
  { apply wrows_upd; [exact W|]. split; [rewrite splice_length; lia|apply Forall_splice; assumption]. }
  intros k. rewrite (fbyte_upd c n) by assumption.
  pose proof (Nat.div_mod k (word_bytes c) ltac:(pose proof (word_bytes_pos c); lia)) as Ek.
  pose proof (Nat.mod_upper_bound k (word_bytes c) ltac:(pose proof (word_bytes_pos c); lia)) as Bk.
  pose proof (Nat.div_mod (sz * i) (word_bytes c) ltac:(pose proof (word_bytes_pos c); lia)) as Ei.
  destruct (Nat.eqb_spec (k / word_bytes c) (sz * i / word_bytes c)) as [E|E].
  - rewrite nth_splice by lia. rewrite Lv.
    assert (D : k - sz * i = k mod word_bytes c - sz * i mod word_bytes c) by nia.
    destruct (Nat.leb_spec (sz * i mod word_bytes c) (k mod word_bytes c)); destruct (Nat.leb_spec (sz * i) k); try nia;
      cbn [andb]; try (unfold fbyte; rewrite E; reflexivity).
    destruct (Nat.ltb_spec (k mod word_bytes c) (sz * i mod word_bytes c + sz)); destruct (Nat.ltb_spec k (sz * i + sz)); try nia.
    + rewrite D; reflexivity.
    + unfold fbyte; rewrite E; reflexivity.
  - destruct (Nat.leb_spec (sz * i) k); cbn [andb]; [|reflexivity].
    destruct (Nat.ltb_spec k (sz * i + sz)); [|reflexivity]. exfalso. apply E.
    destruct (view_row (word_bytes c) sz i (k - sz * i) Hs Hq (word_bytes_pos c) ltac:(lia)) as (E1 & _).
    rewrite <- E1. f_equal. lia.
Qed.

Lemma fbyte_is_byte c n rows k : wrows c n rows -> is_byte (fbyte c rows k).
Proof.
  intros [L F]. unfold fbyte.
  destruct (Nat.lt_ge_cases (k / word_bytes c) (length rows)) as [H|H].
  - rewrite Forall_forall in F. destruct (F _ (nth_In rows [] H)) as [Lw Fw].
    rewrite Forall_forall in Fw. apply Fw, nth_In. rewrite Lw. apply Nat.mod_upper_bound.
    pose proof (word_bytes_pos c); lia.
  - rewrite (nth_overflow rows) by lia. destruct (k mod word_bytes c); reflexivity.
Qed.

(* bytes of one word *)
Lemma fbyte_row c rows r b : b < word_bytes c -> fbyte c rows (r * word_bytes c + b) = nth b (nth r rows []) 0%N.
Proof.
  intros Hb. unfold fbyte. rewrite Nat.add_comm.
  rewrite Nat.div_add, Nat.mod_add, Nat.div_small, Nat.mod_small by lia. reflexivity.
Qed.

Lemma mbit_fbyte c rows r m : m < 8 * word_bytes c ->
  mbit (nth r rows []) m = N.testbit (fbyte c rows (r * word_bytes c + m / 8)) (N.of_nat (m mod 8)).
Proof. intros Hm. rewrite fbyte_row by (apply Nat.div_lt_upper_bound; lia). reflexivity. Qed.

(** ** Byte buffers *)
Lemma wp_bget l off n : off + n <= length l -> Forall is_byte l ->
  wp (bget l off n) (fun v => length v = n /\ Forall is_byte v /\ forall j, j < n -> nth j v 0%N = nth (off + j) l 0%N).
Proof.
  intros H F. unfold bget. destruct (Nat.leb_spec (off + n) (length l)); [|lia]. simpl.
  split; [rewrite firstn_length, skipn_length; lia|]. split; [apply Forall_firstn, Forall_skipn, F|].
  intros j Hj. rewrite nth_firstn_lt by lia. apply nth_skipn.
Qed.

Lemma wp_bset l off v : off + length v <= length l -> Forall is_byte l -> Forall is_byte v ->
  wp (bset l off v) (fun l' => length l' = length l /\ Forall is_byte l' /\
    forall k, nth k l' 0%N = if (off <=? k) && (k <? off + length v) then nth (k - off) v 0%N else nth k l 0%N).
Proof.
  intros H F Fv. unfold bset. destruct (Nat.leb_spec (off + length v) (length l)); [|lia]. simpl.
  split; [apply splice_length; lia|]. split; [apply Forall_splice; assumption|].
  intros k. apply nth_splice. lia.
Qed.
