(** BsTransposeFacts.v -- the three matrix transpositions move bits where they should.
    Each is run once on symbolic labels; [BsRel] carries the result over to words. *)
From Verif Require Import Base Mem ModelBsWord ModelBsTranspose BsRel BsWordFacts BsView.
Local Open Scope nat_scope.

Section Labels.
  Context (c : build) (rows0 : list word) (L : nat).
  Hypothesis (Hs : sane c) (HL : L < n_lanes c).

  Definition lval (x : nat * nat) : bool := mbit (nth (fst x) rows0 []) (P c * L + snd x).
  Definition lrel (w : word) (ls : list (nat * nat)) : Prop :=
    wf c w /\ length ls = P c /\ forall m, m < P c -> mbit w (P c * L + m) = lval (nth m ls (0, 0)).
  Definition lsw (p n : nat) : list (nat * nat) -> list (nat * nat) -> list (nat * nat) * list (nat * nat) :=
    trn (p / (2 * n)) n.

  Lemma lsw_rel : sw_rel lrel (BS_SWAP c) (lsw (P c)) (swap_sizes c).
  Proof.
    intros n Hn t b t' b' (Wt & Lt & Ht) (Wb & Lb & Hb).
    destruct (swap_is_swap c n L t b Hs Hn Wt Wb HL) as (W1 & W2 & S).
    assert (Hn0 : 0 < n /\ P c = 2 * n * (P c / (2 * n))).
    { unfold swap_sizes in Hn. unfold P, lane_bytes. destruct (tgt c); simpl in Hn;
        repeat destruct Hn as [<-|Hn]; try contradiction; split; try lia; reflexivity. }
    destruct Hn0 as [Hn0 Hp]. unfold lsw. set (k := P c / (2 * n)) in *. clearbody k.
    destruct (trn_length k n t' b' (eq_trans Lt Hp) (eq_trans Lb Hp)) as [L1 L2].
    assert (T := fun m (Hm : m < P c) => nth_trn (0, 0) n k Hn0 t' b' m (eq_trans Lt Hp) (eq_trans Lb Hp) ltac:(lia)).
    unfold pair_rel. split; (split; [assumption|split; [lia|]]); intros m Hm;
      destruct (S m Hm) as [S1 S2]; destruct (T m Hm) as [T1 T2].
    - rewrite S1, T1. destruct (Nat.even (m / n)) eqn:E; [apply Ht, Hm|].
      apply Hb. lia.
    - rewrite S2, T2. destruct (Nat.even (m / n)) eqn:E; [|apply Hb, Hm].
      apply Ht. assert (m / n < 2 * k) by (apply div_lt; lia).
      assert (m / n < 2 * k - 1).
      { destruct (Nat.eq_dec (m / n) (2 * k - 1)) as [E2|E2]; [|lia].
        rewrite E2 in E. exfalso. clear - E H. destruct k; [lia|].
        replace (2 * S k - 1) with (S (2 * k)) in E by lia. rewrite Nat.even_succ, Nat.odd_mul in E. discriminate. }
      apply div_lt in H0; [|lia]. nia.
  Qed.

  Definition labels (n p : nat) : list (list (nat * nat)) := map (fun r => map (pair r) (seq 0 p)) (seq 0 n).

  Lemma labels_rel : wrows c 64 rows0 -> Forall2 lrel rows0 (labels 64 (P c)).
  Proof.
    intros W. pose proof W as [Lr Fr].
    assert (G : forall n, n <= 64 -> Forall2 lrel (firstn n rows0) (labels n (P c))).
    { induction n as [|n IH]; intros Hn; [constructor|].
      rewrite (firstn_S_nth rows0 n []) by lia. unfold labels. rewrite seq_S, map_app. simpl.
      apply Forall2_app; [apply IH; lia|]. constructor; [|constructor].
      split; [apply (wrows_nth c 64); [exact W|lia]|]. split; [rewrite map_length, seq_length; reflexivity|].
      intros m Hm. rewrite (nth_indep _ _ (n, 0)) by (rewrite map_length, seq_length; lia).
      rewrite map_nth, seq_nth by lia. reflexivity. }
    specialize (G 64 (le_n _)). rewrite <- Lr in G at 1. rewrite firstn_all in G. exact G.
  Qed.

  (* generic transfer: the run on labels gives the bits of the run on words *)
  Lemma transfer (f : list word -> res (list word)) (ls : list (list (nat * nat))) :
    res_rel (Forall2 lrel) (f rows0) (Ok ls) -> length ls = 64 ->
    wp (f rows0) (fun rows => wrows c 64 rows /\
      forall r m, r < 64 -> m < P c ->
        mbit (nth r rows []) (P c * L + m) = lval (nth m (nth r ls []) (0, 0))).
  Proof.
    intros H Hl. destruct (f rows0) as [rows| | |]; simpl in *; try contradiction.
    assert (Lr : length rows = 64) by (rewrite (Forall2_len _ _ _ H); exact Hl).
    assert (N : forall r, r < 64 -> lrel (nth r rows []) (nth r ls [])).
    { clear Hl. revert Lr. generalize 64. induction H as [|x y l l' Hx H IH]; intros n Lr r Hr; simpl in Lr; [lia|].
      destruct r; simpl; [exact Hx|]. apply (IH (n - 1)); lia. }
    split.
    - split; [exact Lr|]. apply Forall_nth. intros i d Hi. rewrite (nth_indep _ d []) by exact Hi.
      apply N. lia.
    - intros r m Hr Hm. destruct (N r Hr) as (_ & _ & K). apply K, Hm.
  Qed.
End Labels.

(* label tables, and their checks *)
Definition table_ok (n p : nat) (f : nat -> nat -> nat * nat) (r : res (list (list (nat * nat)))) : bool :=
  match r with
  | Ok ls => (length ls =? n) &&
      forallb (fun r => forallb (fun m =>
        let '(a, b) := nth m (nth r ls []) (0, 0) in let '(a', b') := f r m in (a =? a') && (b =? b')) (seq 0 p)) (seq 0 n)
  | _ => false
  end.

Lemma table_ok_spec n p f r : table_ok n p f r = true ->
  exists ls, r = Ok ls /\ length ls = n /\ forall i m, i < n -> m < p -> nth m (nth i ls []) (0, 0) = f i m.
Proof.
  unfold table_ok. destruct r as [ls| | |]; try discriminate. intros H. apply andb_prop in H as [H1 H2].
  exists ls. split; [reflexivity|]. split; [apply Nat.eqb_eq, H1|]. intros i m Hi Hm.
  rewrite forallb_forall in H2. specialize (H2 i ltac:(apply in_seq; lia)).
  rewrite forallb_forall in H2. specialize (H2 m ltac:(apply in_seq; lia)).
  destruct (nth m (nth i ls []) (0, 0)) as [a b], (f i m) as [a' b'].
  apply andb_prop in H2 as [H2 H3]. apply Nat.eqb_eq in H2, H3. congruence.
Qed.

Definition fst64 (r m : nat) : nat * nat := (m, r).
Definition fst32 (r m : nat) : nat * nat := (32 * (r / 32) + m, r mod 32).
Definition fblk (r m : nat) : nat * nat :=
  let q := r / 8 in let g := r mod 8 in let b := m / 8 in
  (8 * (q - q mod 4 + b mod 4) + g, 8 * (b - b mod 4 + q mod 4) + m mod 8).

Lemma run_gen : table_ok 64 64 fst64 (matrix_transpose_64x_gen (lsw 64) (labels 64 64)) = true.
Proof. vm_compute; reflexivity. Qed.
Lemma run_i386 : table_ok 64 64 fst64 (matrix_transpose_64x_i386 (lsw 64) (labels 64 64)) = true.
Proof. vm_compute; reflexivity. Qed.
Lemma run_32 : table_ok 64 32 fst32 (matrix_transpose_64x32 (lsw 32) (labels 64 32)) = true.
Proof. vm_compute; reflexivity. Qed.
Lemma run_block64 : table_ok 64 64 fblk (matrix_transpose_block (lsw 64) (labels 64 64)) = true.
Proof. vm_compute; reflexivity. Qed.
Lemma run_block32 : table_ok 64 32 fblk (matrix_transpose_block (lsw 32) (labels 64 32)) = true.
Proof. vm_compute; reflexivity. Qed.

(* collect the statement over all lanes *)
Lemma all_lanes c rows0 (f : list word -> res (list word)) (g : nat -> nat -> nat * nat) :
  (forall L, L < n_lanes c -> wp (f rows0) (fun rows => wrows c 64 rows /\
     forall r m, r < 64 -> m < P c -> mbit (nth r rows []) (P c * L + m) = lval c rows0 L (g r m))) ->
  wp (f rows0) (fun rows => wrows c 64 rows /\
     forall L r m, L < n_lanes c -> r < 64 -> m < P c ->
       mbit (nth r rows []) (P c * L + m) = mbit (nth (fst (g r m)) rows0 []) (P c * L + snd (g r m))).
Proof.
  intros H. assert (H0 : 0 < n_lanes c) by (unfold n_lanes, word_bytes, lane_bytes; destruct (tgt c); apply Nat.lt_0_succ || (vm_compute; lia)).
  pose proof (H 0 H0) as H1. destruct (f rows0) as [rows| | |]; simpl in *; try contradiction.
  split; [apply H1|]. intros L r m HL Hr Hm. apply (H L HL); assumption.
Qed.

Lemma P_of_tgt c : (tgt c = UINT32 /\ P c = 32 /\ n_lanes c = 1 /\ swap_sizes c = [1;2;4;8;16]) \/
                   (tgt c <> UINT32 /\ P c = 64 /\ swap_sizes c = [1;2;4;8;16;32]).
Proof.
  unfold P, lane_bytes, n_lanes, word_bytes, swap_sizes, lane_bytes.
  destruct (tgt c); auto; right; repeat split; discriminate.
Qed.

(** Block transposition, all targets *)
Lemma block_matrix c rows : sane c -> wrows c 64 rows ->
  wp (matrix_transpose_block (BS_SWAP c) rows) (fun rows' => wrows c 64 rows' /\
    forall L r m, L < n_lanes c -> r < 64 -> m < P c ->
      mbit (nth r rows' []) (P c * L + m) = mbit (nth (fst (fblk r m)) rows []) (P c * L + snd (fblk r m))).
Proof.
  intros Hs W. apply (all_lanes c rows). intros L HL.
  assert (T : table_ok 64 (P c) fblk (matrix_transpose_block (lsw (P c)) (labels 64 (P c))) = true).
  { destruct (P_cases c) as [-> | ->]; [apply run_block32|apply run_block64]. }
  destruct (table_ok_spec _ _ _ _ T) as (ls & E & Ll & Hls).
  eapply wp_mono; [apply (transfer c rows L HL _ ls); [|exact Ll]|].
  - rewrite <- E. apply transpose_block_rel.
    + eapply sw_rel_sub; [apply lsw_rel; assumption|].
      intros x Hx. unfold swap_sizes. destruct (tgt c); simpl in *; intuition.
    + apply (labels_rel c rows L); try assumption.
  - intros rows' [W' H]. split; [exact W'|]. intros r m Hr Hm. rewrite H, Hls by assumption. reflexivity.
Qed.

(** Stream transposition *)
Definition fstream (c : build) : nat -> nat -> nat * nat := match tgt c with UINT32 => fst32 | _ => fst64 end.

Lemma stream_matrix c rows : sane c -> wrows c 64 rows ->
  wp (matrix_transpose_stream c rows) (fun rows' => wrows c 64 rows' /\
    forall L r m, L < n_lanes c -> r < 64 -> m < P c ->
      mbit (nth r rows' []) (P c * L + m) = mbit (nth (fst (fstream c r m)) rows []) (P c * L + snd (fstream c r m))).
Proof.
  intros Hs W. apply (all_lanes c rows). intros L HL.
  assert (T : exists ls, length ls = 64 /\ (forall i m, i < 64 -> m < P c -> nth m (nth i ls []) (0, 0) = fstream c i m) /\
    res_rel (Forall2 (lrel c rows L)) (matrix_transpose_stream c rows) (Ok ls)).
  { pose proof (labels_rel c rows L HL W) as HLab. pose proof (lsw_rel c rows L Hs HL) as HSw.
    unfold matrix_transpose_stream, fstream.
    destruct (P_of_tgt c) as [(Et & Ep & _ & Es)|(Et & Ep & Es)]; rewrite Es, Ep in HSw; rewrite Ep in HLab |- *.
    - rewrite Et. destruct (table_ok_spec _ _ _ _ run_32) as (ls & E & Ll & Hls). exists ls.
      split; [exact Ll|]. split; [exact Hls|]. rewrite <- E. apply transpose_64x32_rel; assumption.
    - destruct (i386 c).
      + destruct (table_ok_spec _ _ _ _ run_i386) as (ls & E & Ll & Hls). exists ls.
        split; [exact Ll|]. destruct (tgt c); try congruence; (split; [exact Hls|]; rewrite <- E; apply transpose_64x_i386_rel; assumption).
      + destruct (table_ok_spec _ _ _ _ run_gen) as (ls & E & Ll & Hls). exists ls.
        split; [exact Ll|]. destruct (tgt c); try congruence; (split; [exact Hls|]; rewrite <- E; apply transpose_64x_gen_rel; assumption). }
  destruct T as (ls & Ll & Hls & E).
  eapply wp_mono; [apply (transfer c rows L HL _ ls E Ll)|].
  intros rows' [W' H]. split; [exact W'|]. intros r m Hr Hm. rewrite H, Hls by assumption. reflexivity.
Qed.

(** ** Where the bits of a packet's block live *)

(* word bit that carries packet i during the stream cipher *)
Definition spos (c : build) (i : nat) : nat := P c * (i mod n_lanes c) + i / n_lanes c.
(* byte j of packet i in the packed arrays *)
Definition sflat (c : build) (i j : nat) : nat :=
  match tgt c with UINT32 => 4 * i + (if j <? 4 then j else 128 + (j - 4)) | _ => 8 * i + j end.

Lemma n_lanes_pos c : 0 < n_lanes c.
Proof. unfold n_lanes, word_bytes, lane_bytes; destruct (tgt c); vm_compute; lia. Qed.
Lemma batch_lanes c : batch_size c = P c * n_lanes c.
Proof. rewrite batch_bytes, word_lanes. unfold P. lia. Qed.
Lemma pos_bounds c i : i < batch_size c -> i mod n_lanes c < n_lanes c /\ i / n_lanes c < P c.
Proof.
  intros H. pose proof (n_lanes_pos c). rewrite batch_lanes in H. split; [apply Nat.mod_upper_bound; lia|].
  apply Nat.div_lt_upper_bound; lia.
Qed.
Lemma spos_bound c i : i < batch_size c -> spos c i < 8 * word_bytes c.
Proof.
  intros H. destruct (pos_bounds c i H). apply lane_bit_bound; assumption.
Qed.

(* row and bit of bit r of packet i in the packed arrays *)
Lemma sflat_bit c rows i r : i < batch_size c -> r < 64 ->
  N.testbit (fbyte c rows (sflat c i (r / 8))) (N.of_nat (r mod 8)) =
  mbit (nth (i / n_lanes c + P c * (r / P c)) rows []) (P c * (i mod n_lanes c) + r mod P c).
Proof.
  intros Hi Hr. pose proof (pos_bounds c i Hi) as [B1 B2]. pose proof (n_lanes_pos c) as Hnl.
  assert (Hr8 : r / 8 < 8) by (apply Nat.div_lt_upper_bound; lia).
  rewrite (mbit_fbyte c) by (apply lane_bit_bound; [assumption|apply Nat.mod_upper_bound; destruct (P_cases c); lia]).
  destruct (P_of_tgt c) as [(Et & Ep & En & _)|(Et & Ep & _)].
  - assert (Ew : word_bytes c = 4) by (unfold word_bytes; rewrite Et; reflexivity).
    unfold sflat. rewrite Et, Ep, En, Ew, Nat.div_1_r, Nat.mod_1_r, Nat.mul_0_r, Nat.add_0_l.
    pose proof (Nat.div_mod r 8 ltac:(lia)) as E8. pose proof (Nat.mod_upper_bound r 8 ltac:(lia)).
    destruct (Nat.lt_ge_cases r 32) as [C|C].
    + rewrite (Nat.div_small r 32), (Nat.mod_small r 32) by lia.
      destruct (Nat.ltb_spec (r / 8) 4); [|lia]. do 3 f_equal; lia.
    + assert (E1 : r / 32 = 1) by (symmetry; apply Nat.div_unique with (r := r - 32); lia).
      assert (E2 : r mod 32 = r - 32) by (symmetry; apply Nat.mod_unique with (q := 1); lia).
      rewrite E1, E2. destruct (Nat.ltb_spec (r / 8) 4); [lia|].
      assert (E3 : r - 32 = 8 * (r / 8 - 4) + r mod 8) by lia.
      rewrite E3, div8, mod8, (Nat.div_small (r mod 8)), (Nat.mod_small (r mod 8)) by lia.
      do 2 f_equal; lia.
  - unfold sflat. assert (Ew : word_bytes c = 8 * n_lanes c).
    { rewrite word_lanes. unfold lane_bytes. destruct (tgt c); try congruence; lia. }
    rewrite Ep, (Nat.div_small r 64), (Nat.mod_small r 64) by lia.
    replace (64 * (i mod n_lanes c) + r) with (8 * (8 * (i mod n_lanes c)) + r) by lia. rewrite div8, mod8.
    replace (match tgt c with UINT32 => _ | _ => 8 * i + r / 8 end) with (8 * i + r / 8) by (destruct (tgt c); congruence).
    do 2 f_equal. rewrite Ew. pose proof (Nat.div_mod i (n_lanes c) ltac:(lia)). nia.
Qed.

(* after the transposition, bit r of packet i is at word r, bit spos i; and conversely *)
Lemma stream_transpose_bits c rows : sane c -> wrows c 64 rows ->
  wp (matrix_transpose_stream c rows) (fun rows' => wrows c 64 rows' /\
    forall i r, i < batch_size c -> r < 64 ->
      mbit (nth r rows' []) (spos c i) = N.testbit (fbyte c rows (sflat c i (r / 8))) (N.of_nat (r mod 8)) /\
      N.testbit (fbyte c rows' (sflat c i (r / 8))) (N.of_nat (r mod 8)) = mbit (nth r rows []) (spos c i)).
Proof.
  intros Hs W. eapply wp_mono; [apply (stream_matrix c rows Hs W)|]. intros rows' [W' H].
  split; [exact W'|]. intros i r Hi Hr. rewrite !sflat_bit by assumption.
  destruct (pos_bounds c i Hi) as [B1 B2].
  destruct (P_of_tgt c) as [(Et & Ep & En & _)|(Et & Ep & _)]; unfold spos.
  - assert (F : fstream c = fst32) by (unfold fstream; rewrite Et; reflexivity). rewrite F in H.
    rewrite Ep, En in *. rewrite Nat.div_1_r, Nat.mod_1_r in *.
    assert (R : r / 32 = 0 \/ r / 32 = 1).
    { assert (r / 32 < 2) by (apply Nat.div_lt_upper_bound; lia). lia. }
    pose proof (Nat.div_mod r 32 ltac:(lia)). pose proof (Nat.mod_upper_bound r 32 ltac:(lia)).
    rewrite (H 0 r i) by lia. rewrite (H 0 (i + 32 * (r / 32)) (r mod 32)) by lia.
    unfold fst32. cbn [fst snd]. split; [do 2 f_equal; lia|].
    replace ((i + 32 * (r / 32)) / 32) with (r / 32).
    2:{ rewrite (Nat.mul_comm 32), Nat.div_add by lia. rewrite (Nat.div_small i) by lia. reflexivity. }
    replace ((i + 32 * (r / 32)) mod 32) with i.
    2:{ rewrite (Nat.mul_comm 32), Nat.mod_add by lia. rewrite Nat.mod_small by lia. reflexivity. }
    do 2 f_equal. lia.
  - assert (F : fstream c = fst64) by (unfold fstream; destruct (tgt c); congruence). rewrite F in H.
    rewrite Ep in *. rewrite (Nat.div_small r 64), (Nat.mod_small r 64), Nat.mul_0_r, Nat.add_0_r by lia.
    rewrite !H by lia. unfold fst64. cbn [fst snd]. auto.
Qed.

(** Blocks: byte j of packet i is byte [bcol i] of word 8*j + [bgrp i] *)
Definition bgrp (c : build) (i : nat) : nat := (i / (word_bytes c / 4)) mod 8.
Definition bcol (c : build) (i : nat) : nat := 4 * (i mod (word_bytes c / 4)) + i / (word_bytes c / 4) / 8.
(* byte j of packet i in the packed arrays *)
Definition bflat (c : build) (i j : nat) : nat :=
  4 * i + (if j <? 4 then j else 4 * batch_size c + (j - 4)).

Lemma word_bytes4 c : exists e, 0 < e /\ word_bytes c = 4 * e /\ word_bytes c / 4 = e /\ (P c = 32 -> e = 1) /\ (P c = 64 -> exists f, e = 2 * f).
Proof.
  unfold word_bytes, P, lane_bytes. destruct (tgt c);
    [exists 1|exists 2|exists 2|exists 4|exists 4|exists 8|exists 4]; repeat split; intros; try discriminate; try lia; try reflexivity;
    [exists 1|exists 1|exists 2|exists 2|exists 4|exists 2]; reflexivity.
Qed.

Lemma bpos_bounds c i : i < batch_size c -> bgrp c i < 8 /\ bcol c i < word_bytes c.
Proof.
  intros H. destruct (word_bytes4 c) as (e & He & Ew & Ed & _). unfold bgrp, bcol. rewrite Ed, Ew.
  rewrite batch_bytes, Ew in H.
  split; [apply Nat.mod_upper_bound; lia|].
  assert (i / e < 32) by (apply Nat.div_lt_upper_bound; lia).
  assert (i / e / 8 < 4) by (apply Nat.div_lt_upper_bound; lia).
  pose proof (Nat.mod_upper_bound i e). lia.
Qed.

(* byte form of the block transposition *)
Lemma block_matrix_bytes c rows : sane c -> wrows c 64 rows ->
  wp (matrix_transpose_block (BS_SWAP c) rows) (fun rows' => wrows c 64 rows' /\
    forall q g b, q < 8 -> g < 8 -> b < word_bytes c ->
      nth b (nth (8 * q + g) rows' []) 0%N =
      nth (b - b mod 4 + q mod 4) (nth (8 * (q - q mod 4 + b mod 4) + g) rows []) 0%N).
Proof.
  intros Hs W. eapply wp_mono; [apply (block_matrix c rows Hs W)|]. intros rows' [W' H].
  split; [exact W'|]. intros q g b Hq Hg Hb.
  assert (Hr : 8 * q + g < 64) by lia.
  pose proof (Nat.mod_upper_bound b 4 ltac:(lia)) as Hb4. pose proof (Nat.mod_upper_bound q 4 ltac:(lia)) as Hq4.
  pose proof (Nat.div_mod b 4 ltac:(lia)) as Eb4. pose proof (Nat.div_mod q 4 ltac:(lia)) as Eq4.
  assert (Hq1 : q / 4 < 2) by (apply Nat.div_lt_upper_bound; lia).
  assert (Hb' : b - b mod 4 + q mod 4 < word_bytes c).
  { destruct (word_bytes4 c) as (e & He & Ew & _). rewrite Ew in *.
    assert (b / 4 < e) by (apply Nat.div_lt_upper_bound; lia). lia. }
  apply N.bits_inj. intros k.
  destruct (N.lt_ge_cases k 8) as [Hk|Hk].
  2:{ rewrite !land_byte_testbit; try exact Hk; try reflexivity.
      - destruct (wrows_nth c 64 rows (8 * (q - q mod 4 + b mod 4) + g) W ltac:(lia)) as [Lw Fw].
        rewrite Forall_forall in Fw. apply Fw, nth_In. lia.
      - destruct (wrows_nth c 64 rows' (8 * q + g) W' ltac:(lia)) as [Lw Fw].
        rewrite Forall_forall in Fw. apply Fw, nth_In. lia. }
  set (L := b / lane_bytes c). set (m := 8 * (b mod lane_bytes c) + N.to_nat k).
  assert (Hlb := lane_bytes_cases c).
  assert (Hlb0 : lane_bytes c <> 0) by lia.
  pose proof (Nat.div_mod b (lane_bytes c) Hlb0) as El. pose proof (Nat.mod_upper_bound b (lane_bytes c) Hlb0) as Bl.
  assert (HL : L < n_lanes c). { apply Nat.div_lt_upper_bound; [lia|]. rewrite word_lanes in Hb. lia. }
  assert (Hm : m < P c) by (unfold m, P; lia).
  specialize (H L (8 * q + g) m HL Hr Hm).
  assert (Em : P c * L + m = 8 * b + N.to_nat k).
  { unfold P, m, L. rewrite El at 3. lia. }
  assert (Ef : fblk (8 * q + g) m = (8 * (q - q mod 4 + b mod 4) + g, 8 * (b mod lane_bytes c - b mod 4 + q mod 4) + N.to_nat k)).
  { unfold fblk. rewrite div8, mod8, (Nat.div_small g), (Nat.mod_small g), Nat.add_0_r by lia.
    unfold m. rewrite div8, mod8, (Nat.div_small (N.to_nat k)), (Nat.mod_small (N.to_nat k)), Nat.add_0_r by lia.
    assert (E : (b mod lane_bytes c) mod 4 = b mod 4).
    { destruct Hlb as [-> | ->]; [apply Nat.mod_mod; lia|]. change 8 with (4 * 2). rewrite Nat.mod_mul_r by lia.
      rewrite Nat.add_comm, (Nat.mul_comm 4), Nat.add_comm, Nat.mod_add by lia. apply Nat.mod_mod; lia. }
    rewrite E. reflexivity. }
  rewrite Ef in H. cbn [fst snd] in H. rewrite Em in H.
  assert (Hle : b mod 4 <= b mod lane_bytes c).
  { destruct Hlb as [-> | ->]; [lia|]. change 8 with (4 * 2). rewrite Nat.mod_mul_r by lia. lia. }
  replace (P c * L + (8 * (b mod lane_bytes c - b mod 4 + q mod 4) + N.to_nat k)) with (8 * (b - b mod 4 + q mod 4) + N.to_nat k) in H.
  2:{ unfold P, L. rewrite El at 1. lia. }
  unfold mbit in H. rewrite !div8, !mod8, (Nat.div_small (N.to_nat k)), (Nat.mod_small (N.to_nat k)), !Nat.add_0_r, N2Nat.id in H by lia.
  exact H.
Qed.

Lemma block_transpose_bytes c rows : sane c -> wrows c 64 rows ->
  wp (matrix_transpose_block (BS_SWAP c) rows) (fun rows' => wrows c 64 rows' /\
    forall i j, i < batch_size c -> j < 8 ->
      nth (bcol c i) (nth (8 * j + bgrp c i) rows' []) 0%N = fbyte c rows (bflat c i j) /\
      fbyte c rows' (bflat c i j) = nth (bcol c i) (nth (8 * j + bgrp c i) rows []) 0%N).
Proof.
  intros Hs W. eapply wp_mono; [apply (block_matrix_bytes c rows Hs W)|]. intros rows' [W' H].
  split; [exact W'|]. intros i j Hi Hj.
  destruct (bpos_bounds c i Hi) as [Bg Bc].
  destruct (word_bytes4 c) as (e & He & Ew & Ed & _).
  assert (Hi' : i < 32 * e) by (rewrite batch_bytes, Ew in Hi; lia).
  assert (Ewb : batch_size c = 32 * e) by (rewrite batch_bytes, Ew; lia).
  set (p := i / e). set (q0 := p / 8). set (g := p mod 8). set (r := i mod e).
  assert (Ei : i = e * p + r) by (apply Nat.div_mod; lia).
  assert (Ep : p = 8 * q0 + g) by (apply Nat.div_mod; lia).
  assert (Hr : r < e) by (apply Nat.mod_upper_bound; lia).
  assert (Hg : g < 8) by (apply Nat.mod_upper_bound; lia).
  assert (Hp : p < 32) by (apply Nat.div_lt_upper_bound; lia).
  assert (Hq0 : q0 < 4) by lia.
  assert (Eg : bgrp c i = g) by (unfold bgrp; rewrite Ed; reflexivity).
  assert (Ec : bcol c i = 4 * r + q0) by (unfold bcol; rewrite Ed; reflexivity).
  rewrite Eg, Ec. rewrite Ec in Bc.
  (* address of byte j: row 8*(4*(j/4) + q0) + g, byte 4*r + j mod 4 *)
  assert (Fl : bflat c i j = (8 * (4 * (j / 4) + q0) + g) * word_bytes c + (4 * r + j mod 4)).
  { unfold bflat. rewrite Ewb, Ew.
    destruct (Nat.ltb_spec j 4).
    - rewrite (Nat.div_small j), (Nat.mod_small j) by lia. rewrite Ei, Ep. nia.
    - assert (E1 : j / 4 = 1) by (symmetry; apply Nat.div_unique with (r := j - 4); lia).
      assert (E2 : j mod 4 = j - 4) by (symmetry; apply Nat.mod_unique with (q := 1); lia).
      rewrite E1, E2, Ei, Ep. nia. }
  pose proof (Nat.div_mod j 4 ltac:(lia)) as Ej. pose proof (Nat.mod_upper_bound j 4 ltac:(lia)) as Bj.
  assert (Hj2 : j / 4 < 2) by (apply Nat.div_lt_upper_bound; lia).
  rewrite Fl, !fbyte_row by lia.
  assert (M1 : forall x y, y < 4 -> (4 * x + y) mod 4 = y).
  { intros x y Hy. rewrite Nat.add_comm, (Nat.mul_comm 4), Nat.mod_add by lia. apply Nat.mod_small, Hy. }
  split.
  - rewrite H by lia. rewrite M1 by lia. f_equal; [lia|]. f_equal. lia.
  - rewrite H by lia. rewrite !M1 by lia. f_equal; [lia|]. f_equal. lia.
Qed.
