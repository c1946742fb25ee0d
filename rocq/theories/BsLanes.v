(** BsLanes.v -- each packet of a batch has its own bit lane in the stream cipher's words and its
    own byte lane in the block cipher's registers (C37). *)
From Verif Require Import Base Mem Spec ModelBsWord ModelBsTranspose BsApiSpec BsWordFacts BsView BsTransposeFacts BsKernelRun BsStream BsRegister BsBlock BsAlgo BsMoreFacts.
Local Open Scope nat_scope.

Theorem own_lanes : forall c, sane c -> exists bit grp byte : nat -> nat,
  (forall i, i < batch_size c -> bit i < 8 * word_bytes c /\ grp i < 8 /\ byte i < word_bytes c) /\
  (forall i j, i < batch_size c -> j < batch_size c -> i <> j -> bit i <> bit j /\ (grp i, byte i) <> (grp j, byte j)) /\
  (forall pb, n_packets pb <= batch_size c -> length (pdata pb) = batch_size c * 184 -> Forall is_byte (pdata pb) ->
    (forall row, words_ok c 64 row -> exists row', dvbcsa_bs_stream_transpose_in c pb row = Ok row' /\
       forall i r, i < n_packets pb -> r < 64 ->
         N.testbit (nth (bit i / 8) (nth r row' []) 0%N) (N.of_nat (bit i mod 8)) =
         N.testbit (nth (184 * i + r / 8) (pdata pb) 0%N) (N.of_nat (r mod 8))) /\
    (forall out t, words_ok c 64 out -> t < 23 -> exists out', dvbcsa_bs_block_transpose_in c out pb (N.of_nat (8 * t)) = Ok out' /\
       forall i j, i < n_packets pb -> j < 8 ->
         nth (byte i) (nth (8 * j + grp i) out' []) 0%N = nth (184 * i + 8 * t + j) (pdata pb) 0%N)).
Proof.
  intros c Hs. exists (spos c), (bgrp c), (bcol c). split; [|split].
  - intros i Hi. split; [apply spos_bound, Hi|apply bpos_bounds, Hi].
  - intros i j Hi Hj N. split.
    + intros E. exact (N (spos_inj c i j Hi Hj E)).
    + intros E. apply pair_equal_spec in E as [E1 E2]. exact (N (bpos_inj c i j Hi Hj E1 E2)).
  - intros pb Hn Ld Fd. assert (Pb : pbuf (batch_size c) (pdata pb)) by (split; assumption). split.
    + intros row W. destruct (proj1 (wp_ok _ _) (stream_in_ok c pb row Hs (words_wrows _ _ _ W) Hn Pb)) as (row' & E & [L' W'] & iv & H1 & H2).
      exists row'. split; [exact E|]. intros i r Hi Hr. destruct (H1 i ltac:(lia)) as (_ & _ & _ & H3).
      change (N.testbit (nth (spos c i / 8) (nth r row' []) 0%N) (N.of_nat (spos c i mod 8))) with (mbit (nth r row' []) (spos c i)).
      rewrite <- nth_col by lia. pose proof (Nat.div_mod r 8 ltac:(lia)) as Er.
      assert (B8 : r / 8 < 8) by (apply Nat.div_lt_upper_bound; lia). pose proof (Nat.mod_upper_bound r 8 ltac:(lia)) as Bm.
      rewrite Er at 1. rewrite H3 by assumption. rewrite H2 by exact Hi. rewrite nth_firstn_lt, nth_skipn by exact B8.
      do 2 f_equal. unfold slot. lia.
    + intros out t W Ht.
      destruct (proj1 (wp_ok _ _) (block_in_ok c pb t Hs Hn Pb Ht out (words_wrows _ _ _ W))) as (out' & E & W' & H).
      exists out'. split; [exact E|]. intros i j Hi Hj. specialize (H i Hi). unfold lane_block, dbl, rbyte in H.
      injection H as X0 X1 X2 X3 X4 X5 X6 X7.
      replace (184 * i + 8 * t + j) with (8 * (23 * i + t) + j) by lia.
      destruct j as [|[|[|[|[|[|[|[|j]]]]]]]]; try lia; cbn [Nat.mul Nat.add] in *;
        rewrite ?Nat.add_0_r in *; cbn [Nat.add] in *; assumption.
Qed.
