(** BsBlock.v -- bitslice block functions on the packet buffer. *)
From Verif Require Import Base Mem Tables Spec ClassicalBlock SpecLemmas ModelBsWord ModelBsTranspose ModelBsStream ModelBsBlock
  BsApiSpec BsWordFacts BsView BsTransposeFacts BsStream BsSbox BsRegister.
Local Open Scope nat_scope.

(* block number u of a buffer *)
Definition dbl (d : list N) (u : nat) : block :=
  (nth (8 * u) d 0, nth (8 * u + 1) d 0, nth (8 * u + 2) d 0, nth (8 * u + 3) d 0,
   nth (8 * u + 4) d 0, nth (8 * u + 5) d 0, nth (8 * u + 6) d 0, nth (8 * u + 7) d 0)%N.

Lemma dbl_block_bytes R : dbl (block_bytes R) 0 = R.
Proof. blk R. reflexivity. Qed.

Lemma dbl_ext d d' u u' : (forall j, j < 8 -> nth (8 * u + j) d 0%N = nth (8 * u' + j) d' 0%N) -> dbl d u = dbl d' u'.
Proof.
  intros H. unfold dbl. pose proof (H 0 ltac:(lia)) as H0. rewrite !Nat.add_0_r in H0.
  rewrite H0, !H by lia. reflexivity.
Qed.
Lemma dbl_nth d u j : j < 8 -> nth j (block_bytes (dbl d u)) 0%N = nth (8 * u + j) d 0%N.
Proof.
  intros H. unfold dbl, block_bytes. destruct j as [|j]; [rewrite Nat.add_0_r; reflexivity|].
  do 7 (destruct j as [|j]; [reflexivity|]). lia.
Qed.

Lemma dbl_list v : length v = 8 -> block_bytes (dbl v 0) = v.
Proof. intros L. do 8 (destruct v as [|? v]; [discriminate L|]). destruct v; [reflexivity|discriminate L]. Qed.

Lemma dbl_xor x y : length x = 8 -> length y = 8 -> dbl (map2 N.lxor x y) 0 = xor_block (dbl x 0) (dbl y 0).
Proof.
  intros Lx Ly. do 8 (destruct x as [|? x]; [discriminate Lx|]). destruct x; [|discriminate Lx].
  do 8 (destruct y as [|? y]; [discriminate Ly|]). destruct y; [|discriminate Ly]. reflexivity.
Qed.

Lemma wf_dbl d u : Forall is_byte d -> wf_block (dbl d u).
Proof.
  intros F. assert (B : forall k, is_byte (nth k d 0%N)).
  { intros k. destruct (Nat.lt_ge_cases k (length d)).
    - rewrite Forall_forall in F. apply F, nth_In. assumption.
    - rewrite nth_overflow by lia. reflexivity. }
  unfold wf_block, dbl, block_bytes. repeat constructor; apply B.
Qed.

Lemma wp_bget_dbl d u : 8 * u + 8 <= length d -> Forall is_byte d ->
  wp (bget d (8 * u) 8) (fun v => length v = 8 /\ Forall is_byte v /\ dbl v 0 = dbl d u).
Proof.
  intros H F. eapply wp_mono; [apply wp_bget; assumption|]. intros v (L & Fv & Hv).
  split; [exact L|]. split; [exact Fv|]. apply dbl_ext. intros j Hj. rewrite <- Hv by exact Hj. reflexivity.
Qed.

Lemma wp_bset_dbl d u v : 8 * u + 8 <= length d -> Forall is_byte d -> length v = 8 -> Forall is_byte v ->
  wp (bset d (8 * u) v) (fun d' => length d' = length d /\ Forall is_byte d' /\
    forall u', dbl d' u' = if u' =? u then dbl v 0 else dbl d u').
Proof.
  intros H F Lv Fv. eapply wp_mono; [apply wp_bset; try assumption; lia|]. intros d' (L & F' & H').
  split; [exact L|]. split; [exact F'|]. intros u'. destruct (Nat.eqb_spec u' u) as [->|Ne]; apply dbl_ext; intros j Hj; rewrite H', Lv.
  - replace (8 * u <=? 8 * u + j) with true by (symmetry; apply Nat.leb_le; lia).
    replace (8 * u + j <? 8 * u + 8) with true by (symmetry; apply Nat.ltb_lt; lia). cbn [andb]. f_equal. lia.
  - replace ((8 * u <=? 8 * u' + j) && (8 * u' + j <? 8 * u + 8)) with false; [reflexivity|].
    symmetry. apply andb_false_iff. destruct (Nat.lt_ge_cases u' u); [left; apply Nat.leb_gt; lia|right; apply Nat.ltb_ge; lia].
Qed.

Lemma block_at_dbl t i : block_at (N.of_nat (8 * t)) i = 8 * (23 * i + t).
Proof. rewrite block_at_eq. unfold slot. lia. Qed.

Lemma pbuf_dbl n d i t : pbuf n d -> i < n -> t < 23 -> 8 * (23 * i + t) + 8 <= length d.
Proof. intros [L _] Hi Ht. rewrite L. unfold slot. nia. Qed.

(** ** Transposing in *)
Section In.
  Context (c : build) (pb : pkt_buf) (t : nat).
  Hypothesis (Sc : sane c) (Hn : n_packets pb <= batch_size c) (Pb : pbuf (batch_size c) (pdata pb)) (Ht : t < 23).

  Definition packed (i : nat) (out : list word) : Prop :=
    wrows c 64 out /\ forall i' j, i' < i -> j < 8 -> fbyte c out (bflat c i' j) = nth (8 * (23 * i' + t) + j) (pdata pb) 0%N.
  Definition half_packed (i : nat) (out : list word) : Prop :=
    packed i out /\ forall j, j < 4 -> fbyte c out (4 * i + j) = nth (8 * (23 * i + t) + j) (pdata pb) 0%N.
  Definition lo4 (i : nat) : list N := firstn 4 (skipn (8 * (23 * i + t)) (pdata pb)).
  Definition hi4 (i : nat) : list N := firstn 4 (skipn (8 * (23 * i + t) + 4) (pdata pb)).

  Lemma u32_0_ok i : i < batch_size c -> u32_0 (pdata pb) (block_at (N.of_nat (8 * t)) i) = Ok (lo4 i).
  Proof.
    intros Hi. unfold u32_0, bget. rewrite block_at_dbl. pose proof (pbuf_dbl _ _ i t Pb Hi Ht).
    rewrite (proj2 (Nat.leb_le _ _)) by lia. reflexivity.
  Qed.
  Lemma u32_1_ok i : i < batch_size c -> u32_1 (pdata pb) (block_at (N.of_nat (8 * t)) i) = Ok (hi4 i).
  Proof.
    intros Hi. unfold u32_1, bget. rewrite block_at_dbl. pose proof (pbuf_dbl _ _ i t Pb Hi Ht).
    rewrite (proj2 (Nat.leb_le _ _)) by lia. reflexivity.
  Qed.
  Lemma four_ok p : p + 4 <= length (pdata pb) ->
    length (firstn 4 (skipn p (pdata pb))) = 4 /\ Forall is_byte (firstn 4 (skipn p (pdata pb))) /\
    forall j, j < 4 -> nth j (firstn 4 (skipn p (pdata pb))) 0%N = nth (p + j) (pdata pb) 0%N.
  Proof.
    intros H. split; [rewrite firstn_length, skipn_length; lia|]. split; [apply Forall_firstn, Forall_skipn, Pb|].
    intros j Hj. rewrite nth_firstn_lt, nth_skipn by lia. reflexivity.
  Qed.

  Lemma set_lo i out : i < batch_size c -> packed i out -> wp (view_set c 4 out i (lo4 i)) (half_packed i).
  Proof.
    intros Hi [W H]. pose proof (batch_bytes c) as Eb. pose proof (pbuf_dbl _ _ i t Pb Hi Ht) as Bd.
    destruct (four_ok (8 * (23 * i + t)) ltac:(lia)) as (L4 & F4 & N4).
    eapply wp_mono; [apply (wp_view_set c 64 4); auto; try lia; apply div_4_words|].
    intros out' [W' H']. split; [split; [exact W'|]|].
    - intros i' j Hi' Hj. rewrite H'. rewrite <- H by assumption.
      replace ((4 * i <=? bflat c i' j) && (bflat c i' j <? 4 * i + 4)) with false; [reflexivity|].
      symmetry. apply andb_false_iff. unfold bflat. destruct (Nat.ltb_spec j 4); [left; apply Nat.leb_gt; lia|right; apply Nat.ltb_ge; lia].
    - intros j Hj. rewrite H'. replace (4 * i <=? 4 * i + j) with true by (symmetry; apply Nat.leb_le; lia).
      replace (4 * i + j <? 4 * i + 4) with true by (symmetry; apply Nat.ltb_lt; lia). cbn [andb].
      replace (4 * i + j - 4 * i) with j by lia. apply N4, Hj.
  Qed.

  Lemma set_hi i out : i < batch_size c -> half_packed i out -> wp (view_set c 4 out (i + batch_size c) (hi4 i)) (packed (S i)).
  Proof.
    intros Hi [[W H] Hl]. pose proof (batch_bytes c) as Eb. pose proof (pbuf_dbl _ _ i t Pb Hi Ht) as Bd.
    destruct (four_ok (8 * (23 * i + t) + 4) ltac:(lia)) as (L4 & F4 & N4).
    eapply wp_mono; [apply (wp_view_set c 64 4); auto; try lia; apply div_4_words|].
    intros out' [W' H']. split; [exact W'|]. intros i' j Hi' Hj. rewrite H'.
    unfold bflat. destruct (Nat.ltb_spec j 4) as [C|C].
    - replace (4 * (i + batch_size c) <=? 4 * i' + j) with false by (symmetry; apply Nat.leb_gt; lia). cbn [andb].
      destruct (Nat.eq_dec i' i) as [->|Ne]; [apply Hl, C|]. specialize (H i' j ltac:(lia) Hj). unfold bflat in H.
      destruct (Nat.ltb_spec j 4); [exact H|lia].
    - destruct (Nat.eq_dec i' i) as [->|Ne].
      + replace (4 * (i + batch_size c) <=? 4 * i + (4 * batch_size c + (j - 4))) with true by (symmetry; apply Nat.leb_le; lia).
        replace (4 * i + (4 * batch_size c + (j - 4)) <? 4 * (i + batch_size c) + 4) with true by (symmetry; apply Nat.ltb_lt; lia).
        cbn [andb]. replace (4 * i + (4 * batch_size c + (j - 4)) - 4 * (i + batch_size c)) with (j - 4) by lia.
        unfold hi4. rewrite N4 by lia. f_equal. lia.
      + replace ((4 * (i + batch_size c) <=? 4 * i' + (4 * batch_size c + (j - 4))) && (4 * i' + (4 * batch_size c + (j - 4)) <? 4 * (i + batch_size c) + 4)) with false.
        * specialize (H i' j ltac:(lia) Hj). unfold bflat in H. destruct (Nat.ltb_spec j 4); [lia|exact H].
        * symmetry. apply andb_false_iff. left. apply Nat.leb_gt. lia.
  Qed.

  Lemma pair_in i out : S i < batch_size c -> packed i out -> wp (block_in_pair c pb (N.of_nat (8 * t)) i out) (packed (S (S i))).
  Proof.
    intros Hi Pk. unfold block_in_pair. replace (i + 1) with (S i) by lia.
    rewrite u32_0_ok, u32_1_ok by lia. cbn [bind]. rewrite u32_0_ok, u32_1_ok by lia. cbn [bind].
    apply wp_bind. eapply wp_mono; [apply set_lo; [lia|exact Pk]|]. intros o1 H1.
    apply wp_bind. eapply wp_mono; [apply set_hi; [lia|exact H1]|]. intros o2 H2.
    apply wp_bind. eapply wp_mono; [apply set_lo; [lia|exact H2]|]. intros o3 H3.
    apply set_hi; [lia|exact H3].
  Qed.

  Lemma block_in_ok out : wrows c 64 out ->
    wp (dvbcsa_bs_block_transpose_in c out pb (N.of_nat (8 * t))) (fun out' => wrows c 64 out' /\
      forall i, i < n_packets pb -> lane_block out' (bgrp c i) (bcol c i) 0 = dbl (pdata pb) (23 * i + t)).
  Proof.
    intros W. unfold dvbcsa_bs_block_transpose_in. set (n := n_packets pb) in *.
    pose proof (Nat.div_mod n 4 ltac:(lia)) as En. pose proof (Nat.mod_upper_bound n 4 ltac:(lia)) as Bn.
    apply wp_bind. eapply wp_mono; [apply (wp_for (fun k o => packed (4 * k) o))|].
    - split; [exact W|]. intros; lia.
    - intros k o Hk Po. apply wp_bind. eapply wp_mono; [apply pair_in; [lia|exact Po]|]. intros o2 H2.
      eapply wp_mono; [apply pair_in; [|replace (4 * k + 2) with (S (S (4 * k))) by lia; exact H2]; lia|].
      intros o3 H3. replace (4 * S k) with (S (S (4 * k + 2))) by lia. exact H3.
    - intros o Po. rewrite Nat.add_0_l in Po. apply wp_bind. eapply wp_mono; [apply (wp_for (fun k o => packed k o))|].
      + exact Po.
      + intros i o1 Hi P1. rewrite u32_0_ok by lia. cbn [bind].
        apply wp_bind. eapply wp_mono; [apply set_lo; [lia|exact P1]|]. intros o2 H2.
        rewrite u32_1_ok by lia. cbn [bind]. apply set_hi; [lia|exact H2].
      + intros o1 P1. replace (4 * (n / 4) + (n - 4 * (n / 4))) with n in P1 by lia. destruct P1 as [W1 H1].
        eapply wp_mono; [apply block_transpose_bytes; assumption|]. intros o2 [W2 H2].
        split; [exact W2|]. intros i Hi. unfold lane_block, rbyte, dbl.
        pose proof (fun j Hj => proj1 (H2 i j ltac:(lia) Hj)) as T.
        pose proof (fun j Hj => H1 i j Hi Hj) as T1.
        rewrite !T, !T1 by lia. rewrite Nat.add_0_r. reflexivity.
  Qed.
End In.

(** ** Transposing out *)
Definition nblk (l8 : list N) (i : nat) : nat := N.to_nat (nth i l8 0%N) / 8.
Definition len8_ok (n : nat) (l8 : list N) : Prop :=
  n <= length l8 /\ forall i, i < n -> nth i l8 0%N = (8 * N.of_nat (nblk l8 i))%N.

(* after the packets below i: block t replaced, block t-1 XORed *)
Definition emitted (enc : bool) (l8 : list N) (t : nat) (f : nat -> block) (d : list N) (i : nat) (d1 : list N) : Prop :=
  length d1 = length d /\ Forall is_byte d1 /\
  forall i' t', t' < 23 -> dbl d1 (23 * i' + t') =
    if (i' <? i) && (t <? nblk l8 i') then
      if t' =? t then f i'
      else if S t' =? t then xor_block (dbl d (23 * i' + t')) (if enc then f i' else dbl d (23 * i' + t))
      else dbl d (23 * i' + t')
    else dbl d (23 * i' + t').

Section Out.
  Context (c : build) (inp : list word) (ri : list word) (pb : pkt_buf) (t : nat) (enc : bool).
  Hypothesis (Hn : n_packets pb <= batch_size c) (Pb : pbuf (batch_size c) (pdata pb)) (Ht : t < 23).
  Hypothesis (Hl : len8_ok (n_packets pb) (len8 pb)).
  Let f (i : nat) : block := lane_block inp (bgrp c i) (bcol c i) 0.
  Hypothesis (Wri : wrows c 64 ri).
  Hypothesis (Hri : forall i j, i < batch_size c -> j < 8 -> fbyte c ri (bflat c i j) = nth j (block_bytes (f i)) 0%N).
  Let em := emitted enc (len8 pb) t f (pdata pb).
  Let d0 := pdata pb.

  Lemma row_lo i : i < batch_size c -> wp (view_get c 4 ri i) (fun v => v = firstn 4 (block_bytes (f i)) /\ length v = 4 /\ Forall is_byte v).
  Proof.
    intros Hi. pose proof (batch_bytes c) as Eb.
    eapply wp_mono; [apply (wp_view_get c 64 4 ri i Wri); [lia|apply div_4_words|lia]|].
    intros v (Lv & Fv & Hv). split; [|auto]. apply (nth_ext _ _ 0%N 0%N).
    - rewrite firstn_length, block_bytes_length. lia.
    - intros j Hj. rewrite Hv by lia. rewrite nth_firstn_lt by lia.
      rewrite <- Hri by lia. f_equal. unfold bflat. destruct (Nat.ltb_spec j 4); lia.
  Qed.
  Lemma row_hi i : i < batch_size c -> wp (view_get c 4 ri (i + batch_size c)) (fun v => v = skipn 4 (block_bytes (f i)) /\ length v = 4 /\ Forall is_byte v).
  Proof.
    intros Hi. pose proof (batch_bytes c) as Eb.
    eapply wp_mono; [apply (wp_view_get c 64 4 ri (i + batch_size c) Wri); [lia|apply div_4_words|lia]|].
    intros v (Lv & Fv & Hv). split; [|auto]. apply (nth_ext _ _ 0%N 0%N).
    - rewrite skipn_length, block_bytes_length. lia.
    - intros j Hj. rewrite Hv by lia. rewrite nth_skipn.
      rewrite <- Hri by lia. f_equal. unfold bflat. destruct (Nat.ltb_spec (4 + j) 4); lia.
  Qed.

  Lemma em_pbuf i d1 : em i d1 -> pbuf (batch_size c) d1.
  Proof. intros (L & F & _). split; [rewrite L; apply Pb|exact F]. Qed.

  Lemma em_skip i d1 : em i d1 -> nblk (len8 pb) i <= t -> em (S i) d1.
  Proof.
    intros (L & F & H) Hs. split; [exact L|]. split; [exact F|]. intros i' t' Ht'. rewrite H by exact Ht'.
    destruct (Nat.eq_dec i' i) as [->|Ne].
    - replace (t <? nblk (len8 pb) i) with false by (symmetry; apply Nat.ltb_ge; exact Hs). rewrite !andb_false_r. reflexivity.
    - replace (i' <? S i) with (i' <? i); [reflexivity|].
      destruct (Nat.ltb_spec i' i), (Nat.ltb_spec i' (S i)); try reflexivity; lia.
  Qed.

  Lemma em_step i d1 d2 : em i d1 -> t < nblk (len8 pb) i -> length d2 = length d1 -> Forall is_byte d2 ->
    (forall u, dbl d2 u = if u =? 23 * i + t then f i
       else if (S u =? 23 * i + t) && (0 <? t) then xor_block (dbl d1 u) (if enc then f i else dbl d1 (23 * i + t))
       else dbl d1 u) -> em (S i) d2.
  Proof.
    intros (L & F & H) Hs L2 F2 H2. split; [lia|]. split; [exact F2|]. intros i' t' Ht'. rewrite H2.
    rewrite (H i' t') by exact Ht'. rewrite (H i t) by exact Ht.
    destruct (Nat.ltb_spec i i); [lia|]. cbn [andb].
    destruct (Nat.eq_dec i' i) as [->|Ne].
    - destruct (Nat.ltb_spec i i); [lia|]. destruct (Nat.ltb_spec i (S i)); [|lia]. cbn [andb].
      replace (t <? nblk (len8 pb) i) with true by (symmetry; apply Nat.ltb_lt; exact Hs).
      destruct (Nat.eqb_spec (23 * i + t') (23 * i + t)), (Nat.eqb_spec t' t); try lia; try reflexivity.
      destruct (Nat.eqb_spec (S (23 * i + t')) (23 * i + t)), (Nat.eqb_spec (S t') t); try lia; cbn [andb]; try reflexivity.
      destruct (Nat.ltb_spec 0 t); [reflexivity|lia].
    - replace (i' <? S i) with (i' <? i) by (destruct (Nat.ltb_spec i' i), (Nat.ltb_spec i' (S i)); try reflexivity; lia).
      destruct (Nat.eqb_spec (23 * i' + t') (23 * i + t)); [exfalso; nia|].
      destruct (Nat.eqb_spec (S (23 * i' + t')) (23 * i + t)); cbn [andb]; [|reflexivity].
      destruct (Nat.ltb_spec 0 t); [exfalso; nia|]. reflexivity.
  Qed.

  Lemma len8_get i : i < n_packets pb -> aget (len8 pb) i = Ok (8 * N.of_nat (nblk (len8 pb) i))%N.
  Proof. intros Hi. destruct Hl as [Ll Hv]. rewrite (aget_ok _ _ 0%N) by lia. rewrite <- Hv by exact Hi. reflexivity. Qed.

  Lemma first_ok i d1 : t = 0 -> i < n_packets pb -> em i d1 ->
    wp (l <- aget (len8 pb) i ;;
        if (l =? 0)%N then Ok (set_pdata pb d1)
        else
          b0 <- view_get c 4 ri i ;;
          d <- bset d1 (block_at (N.of_nat (8 * t)) i) b0 ;;
          b1 <- view_get c 4 ri (i + batch_size c) ;;
          d <- bset d (block_at (N.of_nat (8 * t)) i + 4) b1 ;;
          Ok (set_pdata pb d)) (fun pb' => exists d2, pb' = set_pdata pb d2 /\ em (S i) d2).
  Proof.
    intros T0 Hi E. rewrite len8_get by exact Hi. cbn [bind].
    destruct (N.eqb_spec (8 * N.of_nat (nblk (len8 pb) i)) 0) as [Z|Z].
    - cbn [wp]. exists d1. split; [reflexivity|]. apply em_skip; [exact E|lia].
    - pose proof (em_pbuf i d1 E) as P1. pose proof (pbuf_dbl _ _ i t P1 ltac:(lia) Ht) as B1. pose proof P1 as [_ F1].
      rewrite block_at_dbl.
      apply wp_bind. eapply wp_mono; [apply row_lo; lia|]. intros b0 (E0 & L0 & F0).
      apply wp_bind. eapply wp_mono; [apply wp_bset; try assumption; lia|]. intros d2 (L2 & F2 & H2).
      apply wp_bind. eapply wp_mono; [apply row_hi; lia|]. intros b1 (E1 & L1 & Fb1).
      apply wp_bind. eapply wp_mono; [apply wp_bset; try assumption; lia|]. intros d3 (L3 & F3 & H3).
      cbn [wp]. exists d3. split; [reflexivity|].
      apply (em_step i d1 d3 E); [lia|lia|exact F3|].
      intros u. rewrite (proj2 (Nat.ltb_ge 0 t)) by lia. rewrite andb_false_r.
      destruct (Nat.eqb_spec u (23 * i + t)) as [->|Ne].
      + rewrite <- (dbl_block_bytes (f i)). apply dbl_ext. intros j Hj. rewrite H3, H2, L0, L1, E0, E1.
        destruct (Nat.lt_ge_cases j 4) as [C|C].
        * replace (8 * (23 * i + t) + 4 <=? 8 * (23 * i + t) + j) with false by (symmetry; apply Nat.leb_gt; lia). cbn [andb].
          replace (8 * (23 * i + t) <=? 8 * (23 * i + t) + j) with true by (symmetry; apply Nat.leb_le; lia).
          replace (8 * (23 * i + t) + j <? 8 * (23 * i + t) + 4) with true by (symmetry; apply Nat.ltb_lt; lia). cbn [andb].
          rewrite nth_firstn_lt by lia. f_equal. lia.
        * replace (8 * (23 * i + t) + 4 <=? 8 * (23 * i + t) + j) with true by (symmetry; apply Nat.leb_le; lia).
          replace (8 * (23 * i + t) + j <? 8 * (23 * i + t) + 4 + 4) with true by (symmetry; apply Nat.ltb_lt; lia). cbn [andb].
          rewrite nth_skipn. f_equal. lia.
      + apply dbl_ext. intros j Hj. rewrite H3, H2, L0, L1.
        destruct (Nat.lt_ge_cases u (23 * i + t)) as [C|C].
        * replace (8 * (23 * i + t) + 4 <=? 8 * u + j) with false by (symmetry; apply Nat.leb_gt; lia).
          replace (8 * (23 * i + t) <=? 8 * u + j) with false by (symmetry; apply Nat.leb_gt; lia). reflexivity.
        * replace (8 * u + j <? 8 * (23 * i + t) + 4 + 4) with false by (symmetry; apply Nat.ltb_ge; lia).
          replace (8 * u + j <? 8 * (23 * i + t) + 4) with false by (symmetry; apply Nat.ltb_ge; lia). rewrite !andb_false_r. reflexivity.
  Qed.

  Lemma packet_ok i d1 : 0 < t -> i < n_packets pb -> em i d1 ->
    wp (block_out_packet c enc ri (N.of_nat (8 * t)) i (set_pdata pb d1)) (fun pb' => exists d2, pb' = set_pdata pb d2 /\ em (S i) d2).
  Proof.
    intros T0 Hi E. unfold block_out_packet. cbn [len8 pdata set_pdata]. rewrite len8_get by exact Hi. cbn [bind].
    destruct (N.ltb_spec (N.of_nat (8 * t)) (8 * N.of_nat (nblk (len8 pb) i))) as [Z|Z].
    2:{ cbn [wp]. exists d1. split; [reflexivity|]. apply em_skip; [exact E|lia]. }
    pose proof (em_pbuf i d1 E) as P1. pose proof (pbuf_dbl _ _ i t P1 ltac:(lia) Ht) as B1. pose proof P1 as [_ F1].
    apply wp_bind. eapply wp_mono; [apply row_lo; lia|]. intros b0 (E0 & L0 & F0).
    apply wp_bind. eapply wp_mono; [apply row_hi; lia|]. intros b1 (E1 & L1 & Fb1). cbv zeta.
    assert (Eb : b0 ++ b1 = block_bytes (f i)) by (rewrite E0, E1; apply firstn_skipn).
    assert (Fb : Forall is_byte (block_bytes (f i))) by (rewrite <- Eb; apply Forall_app; auto).
    rewrite Eb, block_at_dbl. clear b0 b1 E0 L0 F0 E1 L1 Fb1 Eb.
    unfold psub. destruct (Nat.ltb_spec (8 * (23 * i + t)) 8); [lia|]. cbn [bind].
    replace (8 * (23 * i + t) - 8) with (8 * (23 * i + t - 1)) by lia.
    apply wp_bind.
    apply (wp_mono _ (fun x => length x = 8 /\ Forall is_byte x /\ dbl x 0 = if enc then f i else dbl d1 (23 * i + t))).
    { destruct enc; [cbn [wp]; split; [apply block_bytes_length|split; [exact Fb|apply dbl_block_bytes]]|].
      apply wp_bget_dbl; [lia|exact F1]. }
    intros x (Lx & Fx & Hx). unfold xor_u64.
    apply wp_bind. apply wp_bind. eapply wp_mono; [apply wp_bget_dbl; [lia|exact F1]|]. intros y (Ly & Fy & Hy).
    assert (Lm : length (map2 N.lxor y x) = 8) by (rewrite map2_length; lia).
    assert (Fm : Forall is_byte (map2 N.lxor y x)) by (apply (Forall_map2 is_byte is_byte); auto using lxor_byte).
    eapply wp_mono; [apply (wp_bset_dbl d1 (23 * i + t - 1) (map2 N.lxor y x)); try assumption; lia|]. intros d2 (L2 & F2 & H2).
    apply wp_bind. eapply wp_mono; [apply (wp_bset_dbl d2 (23 * i + t) (block_bytes (f i))); try assumption; try lia; apply block_bytes_length|].
    intros d3 (L3 & F3 & H3). cbn [wp]. exists d3. split; [reflexivity|].
    apply (em_step i d1 d3 E); [lia|lia|exact F3|].
    intros u. rewrite H3, H2. rewrite (proj2 (Nat.ltb_lt 0 t)) by lia. rewrite andb_true_r.
    destruct (Nat.eqb_spec u (23 * i + t)); [apply dbl_block_bytes|].
    destruct (Nat.eqb_spec u (23 * i + t - 1)), (Nat.eqb_spec (S u) (23 * i + t)); try lia; try reflexivity.
    subst u. rewrite dbl_xor by assumption. rewrite Hx, Hy. reflexivity.
  Qed.

  Lemma em_init : em 0 (pdata pb).
  Proof. split; [reflexivity|]. split; [apply Pb|]. intros. reflexivity. Qed.
End Out.

Lemma set_pdata_same pb : set_pdata pb (pdata pb) = pb.
Proof. destruct pb; reflexivity. Qed.

Lemma block_out_ok c inp pb t enc : sane c -> wrows c 64 inp -> n_packets pb <= batch_size c -> pbuf (batch_size c) (pdata pb) -> t < 23 ->
  len8_ok (n_packets pb) (len8 pb) ->
  wp (dvbcsa_bs_block_transpose_out_and_xor c inp pb (N.of_nat (8 * t)) enc) (fun pb' => exists d,
     pb' = set_pdata pb d /\ emitted enc (len8 pb) t (fun i => lane_block inp (bgrp c i) (bcol c i) 0) (pdata pb) (n_packets pb) d).
Proof.
  intros Sc W Hn Pb Ht Hl. unfold dvbcsa_bs_block_transpose_out_and_xor.
  apply wp_bind. eapply wp_mono; [apply block_transpose_bytes; assumption|]. intros ri [Wri Hri].
  assert (Hri' : forall i j, i < batch_size c -> j < 8 ->
     fbyte c ri (bflat c i j) = nth j (block_bytes (lane_block inp (bgrp c i) (bcol c i) 0)) 0%N).
  { intros i j Hi Hj. rewrite (proj2 (Hri i j Hi Hj)). unfold lane_block, rbyte, block_bytes.
    do 8 (destruct j as [|j]; [reflexivity|]). lia. }
  set (f := fun i => lane_block inp (bgrp c i) (bcol c i) 0) in *.
  set (n := n_packets pb) in *. cbv zeta.
  destruct (N.eqb_spec (N.of_nat (8 * t)) 0) as [Z|Z].
  - assert (T0 : t = 0) by lia. fold n.
    eapply wp_mono; [apply (wp_for (fun i pb' => exists d, pb' = set_pdata pb d /\ emitted enc (len8 pb) t f (pdata pb) i d))|].
    + exists (pdata pb). split; [symmetry; apply set_pdata_same|apply (em_init c inp); assumption].
    + intros i pb' Hi (d & -> & E). cbn [len8 pdata set_pdata].
      apply (first_ok c inp ri pb t enc Hn Pb Ht Hl Wri Hri' i d T0); [lia|exact E].
    + intros pb' (d & -> & E). exists d. split; [reflexivity|exact E].
  - assert (T0 : 0 < t) by lia.
    pose proof (Nat.div_mod n 4 ltac:(lia)) as En. pose proof (Nat.mod_upper_bound n 4 ltac:(lia)) as Bn.
    assert (PK := fun i d Hi E => packet_ok c inp ri pb t enc Hn Pb Ht Hl Wri Hri' i d T0 Hi E).
    apply wp_bind.
    eapply wp_mono; [apply (wp_for (fun k pb' => exists d, pb' = set_pdata pb d /\ emitted enc (len8 pb) t f (pdata pb) (4 * k) d))|].
    + exists (pdata pb). split; [symmetry; apply set_pdata_same|apply (em_init c inp); assumption].
    + intros k pb' Hk (d & -> & E).
      apply wp_bind. eapply wp_mono; [apply PK; [lia|exact E]|]. intros pb1 (d1 & -> & E1).
      replace (4 * k + 1) with (S (4 * k)) by lia.
      apply wp_bind. eapply wp_mono; [apply PK; [lia|exact E1]|]. intros pb2 (d2 & -> & E2).
      replace (4 * k + 2) with (S (S (4 * k))) by lia.
      apply wp_bind. eapply wp_mono; [apply PK; [lia|exact E2]|]. intros pb3 (d3 & -> & E3).
      replace (4 * k + 3) with (S (S (S (4 * k)))) by lia.
      eapply wp_mono; [apply PK; [lia|exact E3]|]. intros pb4 (d4 & -> & E4).
      exists d4. split; [reflexivity|]. replace (4 * S k) with (S (S (S (S (4 * k))))) by lia. exact E4.
    + intros pb' (d & -> & E). rewrite Nat.add_0_l in E. fold n.
      eapply wp_mono; [apply (wp_for (fun i pb' => exists d, pb' = set_pdata pb d /\ emitted enc (len8 pb) t f (pdata pb) i d))|].
      * exists d. split; [reflexivity|exact E].
      * intros i pb' Hi (d1 & -> & E1). apply PK; [lia|exact E1].
      * intros pb' (d1 & -> & E1). replace (4 * (n / 4) + (n - 4 * (n / 4))) with n in E1 by lia.
        exists d1. split; [reflexivity|exact E1].
Qed.
