(** ClassicalKey.v -- endian helpers, key schedule and dvbcsa_key_set. *)
From Coq Require Import Btauto.
From Verif Require Import Base Tables Spec Mem ModelClassical ClassicalBlock.
Local Open Scope N_scope.

(** ** load/store helpers *)
Lemma byte_cons_lor b v : is_byte b -> b + 256 * v = N.lor b (N.shiftl v 8).
Proof.
  intros H. apply N.bits_inj. intros k. rewrite testbit_add_256 by exact H. rewrite N.lor_spec.
  destruct (N.ltb_spec k 8).
  - rewrite N.shiftl_spec_low by lia. rewrite orb_false_r. reflexivity.
  - rewrite N.shiftl_spec_high' by lia. rewrite (land_byte_testbit b k) by auto. reflexivity.
Qed.

Lemma shiftl_byte_bound b n w : is_byte b -> n + 8 <= w -> N.shiftl b n < 2 ^ w.
Proof.
  intros H L. apply bound_of_bits. intros k K. rewrite N.shiftl_spec_high' by lia.
  apply land_byte_testbit; [exact H|lia].
Qed.

Lemma u32_shiftl b n : is_byte b -> n + 8 <= 32 -> u32 (N.shiftl b n) = N.shiftl b n.
Proof. intros; apply N.mod_small, shiftl_byte_bound; auto. Qed.
Lemma u64_shiftl b n : is_byte b -> n + 8 <= 64 -> u64 (N.shiftl b n) = N.shiftl b n.
Proof. intros; apply N.mod_small, shiftl_byte_bound; auto. Qed.

Lemma load_holds m a b l : holds m a (b :: l) -> load m a = Ok b.
Proof. intros H. apply holds_cons in H as [[H _] _]. unfold load; rewrite H; reflexivity. Qed.

Ltac list8 l L :=
  destruct l as [|?b0 [|?b1 [|?b2 [|?b3 [|?b4 [|?b5 [|?b6 [|?b7 [|? ?]]]]]]]]]; try discriminate L; clear L.

Lemma load_le64_ok be m a l : holds m a l -> length l = 8%nat ->
  dvbcsa_load_le64 be m a = Ok (le_val l).
Proof.
  intros H L. destruct be; unfold dvbcsa_load_le64.
  - pose proof H as [F _]. list8 l L. inv_forall.
    pose proof (holds_nth _ _ _ 0 H ltac:(simpl; lia)) as E0.
    pose proof (holds_nth _ _ _ 1 H ltac:(simpl; lia)) as E1.
    pose proof (holds_nth _ _ _ 2 H ltac:(simpl; lia)) as E2.
    pose proof (holds_nth _ _ _ 3 H ltac:(simpl; lia)) as E3.
    pose proof (holds_nth _ _ _ 4 H ltac:(simpl; lia)) as E4.
    pose proof (holds_nth _ _ _ 5 H ltac:(simpl; lia)) as E5.
    pose proof (holds_nth _ _ _ 6 H ltac:(simpl; lia)) as E6.
    pose proof (holds_nth _ _ _ 7 H ltac:(simpl; lia)) as E7.
    cbn [nth N.of_nat Pos.of_succ_nat Pos.succ] in *. rewrite N.add_0_r in E0.
    rewrite E7, E6, E5, E4, E3, E2, E1, E0. cbn [bind]. f_equal.
    rewrite !u64_shiftl by (auto; lia).
    cbn [le_val]. rewrite !byte_cons_lor by assumption.
    rewrite N.shiftl_0_l, N.lor_0_r. rewrite !N.shiftl_lor, !N.shiftl_shiftl. cbn [N.add Pos.add Pos.succ].
    apply N.bits_inj. intros k. rewrite !N.lor_spec. btauto.
  - rewrite (load_bytes_ok' _ _ _ _ H L). reflexivity.
Qed.

Lemma load_le32_ok be m a l : holds m a l -> length l = 4%nat ->
  dvbcsa_load_le32 be m a = Ok (le_val l).
Proof.
  intros H L. destruct be; unfold dvbcsa_load_le32.
  - pose proof H as [F _].
    destruct l as [|b0 [|b1 [|b2 [|b3 [|? ?]]]]]; try discriminate L. inv_forall.
    pose proof (holds_nth _ _ _ 0 H ltac:(simpl; lia)) as E0.
    pose proof (holds_nth _ _ _ 1 H ltac:(simpl; lia)) as E1.
    pose proof (holds_nth _ _ _ 2 H ltac:(simpl; lia)) as E2.
    pose proof (holds_nth _ _ _ 3 H ltac:(simpl; lia)) as E3.
    cbn [nth N.of_nat Pos.of_succ_nat Pos.succ] in *. rewrite N.add_0_r in E0.
    rewrite E3, E2, E1, E0. cbn [bind]. f_equal.
    rewrite !u32_shiftl by (auto; lia).
    cbn [le_val]. rewrite !byte_cons_lor by assumption.
    rewrite N.shiftl_0_l, N.lor_0_r. rewrite !N.shiftl_lor, !N.shiftl_shiftl. cbn [N.add Pos.add Pos.succ].
    apply N.bits_inj. intros k. rewrite !N.lor_spec. btauto.
  - rewrite (load_bytes_ok' _ _ _ _ H L). reflexivity.
Qed.

Lemma le_bytes_nth n : forall v i, (i < n)%nat -> nth i (le_bytes n v) 0 = u8 (N.shiftr v (N.of_nat (i * 8))).
Proof.
  induction n as [|n IH]; intros v i H; [lia|]. cbn [le_bytes]. destruct i as [|i].
  - reflexivity.
  - cbn [nth]. rewrite IH by lia. f_equal. rewrite !N.shiftr_div_pow2.
    replace (N.of_nat (S i * 8)) with (8 + N.of_nat (i * 8)) by lia.
    rewrite N.pow_add_r. change (2 ^ 8) with 256. rewrite N.div_div; [reflexivity|lia|].
    apply N.pow_nonzero; lia.
Qed.

Ltac ndec :=
  repeat match goal with |- context [N.leb ?p ?q && N.ltb ?p' ?q'] =>
    first [ replace (N.leb p q && N.ltb p' q') with true by (symmetry; apply andb_true_intro; split; [apply N.leb_le|apply N.ltb_lt]; lia)
          | replace (N.leb p q && N.ltb p' q') with false by (symmetry; apply andb_false_iff; first [left; apply N.leb_gt; lia | right; apply N.ltb_ge; lia]) ]; cbn iota end.

Lemma store_le64_ok be m a w : mapped m a 8 ->
  wp (dvbcsa_store_le64 be m a w) (fun m' => meq m' (put m a (le_bytes 8 w))).
Proof.
  intros H. destruct be; unfold dvbcsa_store_le64.
  - assert (Hm : forall (m0 : mem) b, mapped m0 a 8 -> a <= b < a + 8 -> mapped m0 b 1).
    { intros m0 b M K. eapply mapped_sub; [exact M|lia|lia]. }
    assert (Hs : forall (m0 : mem) b v (Q : mem -> Prop), mapped m0 a 8 -> a <= b < a + 8 ->
              (forall m1, meq m1 (put m0 b [v]) -> mapped m1 a 8 -> Q m1) -> wp (store m0 b v) Q).
    { intros m0 b v Q M K HQ. eapply wp_mono; [apply store_ok, Hm; eauto|]. intros m1 E.
      apply HQ; [exact E|]. eapply mapped_meq; [apply meq_sym; exact E|]. apply mapped_put; exact M. }
    do 7 (apply wp_bind; apply Hs; [assumption|lia|intros ? ? ?]).
    apply Hs; [assumption|lia|]. intros m8 E8 _ x.
    rewrite E8. unfold put at 1; cbn [length].
    repeat match goal with E : meq ?m' (put _ _ [_]) |- context [?m' x] => rewrite E; clear E; unfold put at 1; cbn [length] end.
    destruct (N.lt_ge_cases x a) as [L|L]; [|destruct (N.lt_ge_cases x (a + 8)) as [L2|L2]].
    + rewrite put_out by lia. ndec. reflexivity.
    + rewrite put_in by (rewrite le_bytes_length; lia).
      rewrite le_bytes_nth by lia.
      assert (C : x = a \/ x = a + 1 \/ x = a + 2 \/ x = a + 3 \/ x = a + 4 \/ x = a + 5 \/ x = a + 6 \/ x = a + 7) by lia.
      destruct C as [->|[->|[->|[->|[->|[->|[->| ->]]]]]]];
      ndec;
      rewrite !N.sub_diag; cbn [N.to_nat nth];
      try match goal with |- context [N.to_nat (a + ?c - a)] => replace (a + c - a) with c by lia end;
      reflexivity.
    + rewrite put_out by (rewrite le_bytes_length; lia). ndec. reflexivity.
  - apply store_bytes_ok. unfold native_bytes. rewrite le_bytes_length. exact H.
Qed.

(** ** the key permutation *)

(* bit j of the permuted 64-bit little-endian key is bit (kp_src j) of the key *)
Definition kp_src (j : nat) : nat :=
  let x := index_of (8 * (j / 8) + (7 - j mod 8) + 1)%nat key_perm in (8 * (x / 8) + (7 - x mod 8))%nat.

Lemma bits_byte_lt b7 b6 b5 b4 b3 b2 b1 b0 : is_byte (bits_byte [b7; b6; b5; b4; b3; b2; b1; b0]).
Proof. destruct b7, b6, b5, b4, b3, b2, b1, b0; reflexivity. Qed.
Lemma bits_byte_bit b7 b6 b5 b4 b3 b2 b1 b0 k : k < 8 ->
  N.testbit (bits_byte [b7; b6; b5; b4; b3; b2; b1; b0]) k
  = nth (N.to_nat k) [b0; b1; b2; b3; b4; b5; b6; b7] false.
Proof.
  intros H.
  assert (C : k = 0 \/ k = 1 \/ k = 2 \/ k = 3 \/ k = 4 \/ k = 5 \/ k = 6 \/ k = 7) by lia.
  destruct C as [->|[->|[->|[->|[->|[->|[->| ->]]]]]]];
    destruct b7, b6, b5, b4, b3, b2, b1, b0; reflexivity.
Qed.

Lemma permute_key_length k : length (permute_key k) = 8%nat.
Proof. reflexivity. Qed.
Lemma permute_key_bytes k : Forall is_byte (permute_key k).
Proof.
  unfold permute_key. remember (permute_bits (to_bits k)) as l eqn:E.
  assert (L : length l = 64%nat) by (subst; reflexivity). clear E.
  do 64 (destruct l as [|? l]; [discriminate L|]). cbn [from_bits firstn skipn].
  repeat constructor; apply bits_byte_lt.
Qed.

Lemma forall_64 (P : N -> Prop) : (forall j, (j < 64)%nat -> P (N.of_nat j)) -> forall k, k < 64 -> P k.
Proof. intros H k L. rewrite <- (N2Nat.id k). apply H. lia. Qed.

Definition kperm_entry_ok (i b j : nat) : bool :=
  Bool.eqb (N.testbit (nth b (nth i kperm []) 0) (N.of_nat j))
           (if Nat.eqb (kp_src j / 8) i then N.testbit (N.of_nat b) (N.of_nat (kp_src j mod 8)) else false).

Lemma kperm_sweep :
  forallb (fun i => forallb (fun b => (nth b (nth i kperm []) 0 <? 2 ^ 64) &&
     forallb (kperm_entry_ok i b) (seq 0 64)) (seq 0 256)) (seq 0 8) = true.
Proof. vm_compute. reflexivity. Qed.

Lemma kperm_bit i b : (i < 8)%nat -> is_byte b ->
  nth (N.to_nat b) (nth i kperm []) 0 < 2 ^ 64 /\
  forall j, (j < 64)%nat ->
  N.testbit (nth (N.to_nat b) (nth i kperm []) 0) (N.of_nat j)
  = if Nat.eqb (kp_src j / 8) i then N.testbit b (N.of_nat (kp_src j mod 8)) else false.
Proof.
  intros Hi Hb. pose proof kperm_sweep as H. rewrite forallb_forall in H.
  specialize (H i ltac:(apply in_seq; lia)). rewrite forallb_forall in H.
  specialize (H (N.to_nat b) ltac:(apply in_seq; unfold is_byte in Hb; lia)).
  apply andb_true_iff in H as [H1 H2]. apply N.ltb_lt in H1. split; [exact H1|].
  rewrite forallb_forall in H2. intros j Hj. specialize (H2 j ltac:(apply in_seq; lia)).
  unfold kperm_entry_ok in H2. apply eqb_prop in H2. rewrite N2Nat.id in H2. exact H2.
Qed.

Lemma aget_kperm i : (i < 8)%nat -> aget kperm i = Ok (nth i kperm []).
Proof. intros; apply aget_ok. exact H. Qed.
Lemma tget_kperm i b : (i < 8)%nat -> is_byte b -> tget (nth i kperm []) b = Ok (nth (N.to_nat b) (nth i kperm []) 0).
Proof.
  intros H Hb. unfold tget. apply aget_ok.
  assert (L : length (nth i kperm []) = 256%nat).
  { do 8 (destruct i as [|i]; [reflexivity|]). lia. }
  rewrite L. unfold is_byte in Hb. lia.
Qed.

Lemma land_cons b v : is_byte b -> N.land (b + 256 * v) 255 = b.
Proof.
  intros H. change 255 with (N.ones 8). rewrite N.land_ones. change (2 ^ 8) with 256.
  rewrite N.mul_comm, N.mod_add by lia. apply N.mod_small. exact H.
Qed.
Lemma shiftr_cons b v : is_byte b -> N.shiftr (b + 256 * v) 8 = v.
Proof.
  intros H. rewrite N.shiftr_div_pow2. change (2 ^ 8) with 256.
  rewrite N.mul_comm, N.div_add by lia. rewrite N.div_small by exact H. reflexivity.
Qed.

Lemma permute_block_ok k : length k = 8%nat -> Forall is_byte k ->
  dvbcsa_key_permute_block (le_val k) = Ok (le_val (permute_key k)).
Proof.
  intros L F. list8 k L. inv_forall.
  unfold dvbcsa_key_permute_block. cbn [for_ le_val].
  rewrite !aget_kperm by lia.
  repeat (cbn [bind]; rewrite land_cons, tget_kperm, shiftr_cons by (auto; lia)). cbn [bind]. f_equal.
  apply N.bits_inj. intros j. destruct (N.lt_ge_cases j 64) as [Hj|Hj].
  - rewrite testbit_le_val by apply permute_key_bytes.
    revert j Hj. apply forall_64. intros j Hj. rewrite !N.lor_spec, N.bits_0.
    repeat match goal with |- context [N.testbit (nth (N.to_nat ?b) (nth ?i kperm []) 0) _] =>
       rewrite (proj2 (kperm_bit i b ltac:(lia) ltac:(assumption)) j Hj) end.
    assert (P : permute_key [b0; b1; b2; b3; b4; b5; b6; b7] =
      ltac:(let t := eval cbv -[N.testbit bits_byte] in (permute_key [b0; b1; b2; b3; b4; b5; b6; b7]) in exact t)) by reflexivity.
    rewrite P; clear P.
    do 64 (destruct j as [|j]; [match goal with |- context [(N.of_nat ?j) / 8] =>
      let q := eval vm_compute in (N.to_nat ((N.of_nat j) / 8)) in
      let r := eval vm_compute in ((N.of_nat j) mod 8) in
      change (N.to_nat ((N.of_nat j) / 8)) with q; change ((N.of_nat j) mod 8) with r;
      let s := eval vm_compute in (kp_src j / 8)%nat in
      let t := eval vm_compute in (N.of_nat (kp_src j mod 8)) in
      replace (kp_src j / 8)%nat with s by (vm_compute; reflexivity);
      replace (N.of_nat (kp_src j mod 8)) with t by (vm_compute; reflexivity);
      cbn [nth]; rewrite bits_byte_bit by lia; cbn -[N.testbit bits_byte];
      rewrite ?orb_false_r; reflexivity
      end|]). lia.
  - assert (B : forall x, x < 2 ^ 64 -> N.testbit x j = false) by (intros; eapply bits_of_bound; eauto).
    rewrite !N.lor_spec, N.bits_0.
    repeat match goal with |- context [N.testbit (nth (N.to_nat ?b) (nth ?i kperm []) 0) _] =>
       rewrite (B _ (proj1 (kperm_bit i b ltac:(lia) ltac:(assumption)))) end.
    symmetry. apply B. apply (le_val_bound _ (permute_key_bytes _)).
Qed.

(** ** dvbcsa_key_schedule_block *)
Lemma nth_concat8 (ls : list (list N)) : (forall l, In l ls -> length l = 8%nat) ->
  forall i j, (i < length ls)%nat -> (j < 8)%nat ->
  nth (i * 8 + j) (concat ls) 0 = nth j (nth i ls []) 0.
Proof.
  induction ls as [|l ls IH]; intros H i j Hi Hj; [simpl in Hi; lia|].
  assert (L : length l = 8%nat) by (apply H; left; reflexivity). cbn [concat].
  destruct i as [|i].
  - simpl. apply app_nth1. lia.
  - rewrite app_nth2 by lia. replace (S i * 8 + j - length l)%nat with (i * 8 + j)%nat by lia.
    cbn [nth]. apply IH; [|simpl in Hi; lia|exact Hj]. intros; apply H; right; assumption.
Qed.

Lemma key_groups_bytes cw : length cw = 8%nat -> Forall is_byte cw ->
  Forall (fun g => length g = 8%nat /\ Forall is_byte g) (key_groups cw).
Proof.
  intros L F. unfold key_groups.
  repeat (constructor; [split; [first [exact L|reflexivity]|first [exact F|apply permute_key_bytes]]|]). constructor.
Qed.

Lemma key_schedule_length cw : length cw = 8%nat -> length (key_schedule cw) = 56%nat.
Proof. intros L. unfold key_schedule, key_groups. cbn [combine map concat fst snd].
  rewrite !app_length, !map_length, L, !permute_key_length. reflexivity. Qed.

Lemma key_schedule_nth cw i j : length cw = 8%nat -> (i < 7)%nat -> (j < 8)%nat ->
  nth (i * 8 + j) (key_schedule cw) 0 = N.lxor (nth j (nth i (key_groups cw) []) 0) (N.of_nat i).
Proof.
  intros L Hi Hj. unfold key_schedule. rewrite nth_concat8; [| |cbn; lia|exact Hj].
  - pose (f := fun i : N => fun b => N.lxor b i).
    unfold key_groups. cbn [combine map fst snd].
    assert (M : forall g c, length g = 8%nat -> nth j (map (fun b => N.lxor b c) g) 0 = N.lxor (nth j g 0) c).
    { intros g c Lg. rewrite (nth_indep _ _ (N.lxor 0 c)) by (rewrite map_length; lia).
      apply (map_nth (fun b => N.lxor b c)). }
    destruct i as [|[|[|[|[|[|[|i]]]]]]]; cbn [nth]; try lia;
      rewrite M by first [exact L|reflexivity]; reflexivity.
  - unfold key_groups. cbn [combine map fst snd In]. intros l H.
    repeat destruct H as [<-|H]; try (rewrite map_length; first [exact L|reflexivity]). contradiction.
Qed.

Lemma key_schedule_bytes cw : length cw = 8%nat -> Forall is_byte cw -> Forall is_byte (key_schedule cw).
Proof.
  intros L F. pose proof (key_groups_bytes cw L F) as G. unfold key_schedule, key_groups in *.
  cbn [combine map concat fst snd]. inv_forall.
  repeat match goal with H : _ /\ _ |- _ => destruct H end.
  assert (X : forall g c, Forall is_byte g -> is_byte c -> Forall is_byte (map (fun b => N.lxor b c) g)).
  { intros g c Fg Hc. rewrite Forall_map. eapply Forall_impl; [|exact Fg]. intros b Hb. apply lxor_byte; auto. }
  rewrite !Forall_app. repeat split; try (apply X; [assumption|reflexivity]). constructor.
Qed.

Lemma put_snoc m a l v n : n = N.of_nat (length l) -> meq (put (put m a l) (a + n) [v]) (put m a (l ++ [v])).
Proof.
  intros -> x. unfold put. rewrite app_length. cbn [length]. nb; try lia; try reflexivity.
  - rewrite app_nth2 by lia. replace (N.to_nat (x - (a + N.of_nat (length l)))) with 0%nat by lia.
    replace (N.to_nat (x - a) - length l)%nat with 0%nat by lia. reflexivity.
  - rewrite app_nth1 by lia. reflexivity.
Qed.

Lemma schedule_byte g i j : length g = 8%nat -> Forall is_byte g -> (i < 7)%nat -> (j < 8)%nat ->
  u8 (N.lxor (N.shiftr (le_val g) (N.of_nat (j * 8))) (N.of_nat i)) = N.lxor (nth j g 0) (N.of_nat i).
Proof.
  intros L F Hi Hj.
  assert (E : nth j g 0 = u8 (N.shiftr (le_val g) (N.of_nat (j * 8)))).
  { rewrite <- (le_bytes_nth 8) by lia. rewrite <- L, le_bytes_val by exact F. reflexivity. }
  rewrite E. unfold u8. rewrite <- !N.land_ones. apply N.bits_inj. intros k.
  rewrite !N.land_spec, !N.lxor_spec, !N.land_spec.
  destruct (N.lt_ge_cases k 8) as [H|H].
  - rewrite N.ones_spec_low by lia. rewrite !andb_true_r. reflexivity.
  - rewrite N.ones_spec_high by lia. rewrite !andb_false_r. rewrite xorb_false_l. symmetry.
    apply land_byte_testbit; [unfold is_byte; lia|exact H].
Qed.

Lemma key_schedule_block_ok be m cwp kk cw : holds m cwp cw -> length cw = 8%nat ->
  mapped m kk 56 ->
  wp (dvbcsa_key_schedule_block be m cwp kk) (fun m' => meq m' (put m kk (key_schedule cw))).
Proof.
  intros H L M. pose proof H as [F _]. unfold dvbcsa_key_schedule_block.
  rewrite (load_le64_ok _ _ _ _ H L). cbn [bind].
  assert (K : forall (ks : list (option N)) j x y, nth_error ks (S j) = Some (Some (le_val x)) ->
     length x = 8%nat -> Forall is_byte x -> y = permute_key x ->
     (x' <- oget ks (S j) ;; y' <- dvbcsa_key_permute_block x' ;; aset ks j (Some y')) = aset ks j (Some (le_val y))).
  { intros ks j x y E Lx Fx ->. unfold oget, aget. rewrite E. cbn [bind].
    rewrite permute_block_ok by assumption. reflexivity. }
  cbn [aset repeat length Nat.ltb Nat.leb upd bind for_down].
  do 6 (erewrite K; [|reflexivity|first [exact L|apply permute_key_length]|first [exact F|apply permute_key_bytes]|reflexivity];
        cbn [aset length Nat.ltb Nat.leb upd bind]).
  match goal with |- context [oget ?k _] => set (ks := k) end.
  assert (G : forall i, (i < 7)%nat -> oget ks i = Ok (le_val (nth i (key_groups cw) []))).
  { intros i Hi. destruct i as [|[|[|[|[|[|[|i]]]]]]]; try lia; reflexivity. }
  clearbody ks.
  assert (LS := key_schedule_length cw L).
  set (sched := key_schedule cw) in *.
  eapply wp_mono; [apply (wp_for (fun i m' => meq m' (put m kk (firstn (i * 8) sched))))|].
  - intros x. unfold put; simpl. nb; try lia; reflexivity.
  - intros i m1 Hi E1. replace (S i * 8)%nat with (i * 8 + (0 + 8))%nat by lia.
    apply (wp_for (fun j m' => meq m' (put m kk (firstn (i * 8 + j) sched)))).
    + rewrite Nat.add_0_r. exact E1.
    + intros j m2 Hj E2. rewrite G by lia. cbn [bind].
      eapply wp_mono; [apply store_ok|].
      * eapply mapped_meq; [apply meq_sym; exact E2|]. apply mapped_put.
        eapply mapped_sub; [exact M|lia|lia].
      * intros m3 E3. eapply meq_trans; [exact E3|]. eapply meq_trans; [apply put_meq; exact E2|].
        replace (i * 8 + S j)%nat with (S (i * 8 + j)) by lia.
        rewrite (firstn_S_nth sched (i * 8 + j) 0) by lia.
        unfold sched at 3. rewrite key_schedule_nth by (try exact L; lia).
        pose proof (key_groups_bytes cw L F) as GB. rewrite Forall_forall in GB.
        destruct (GB (nth i (key_groups cw) [])) as [GL GF]; [apply nth_In; cbn; lia|].
        rewrite schedule_byte by (try assumption; lia).
        apply put_snoc. rewrite firstn_length. lia.
  - intros m' E. rewrite firstn_all2 in E by lia. exact E.
Qed.

(** ** dvbcsa_key_set *)

(* contents of a classical key context *)
Definition swap_nibbles (b : N) : N := 16 * (b mod 16) + b / 16.
Definition ctx_bytes (cw : list N) : list N := cw ++ map swap_nibbles cw ++ key_schedule cw.

Lemma ctx_bytes_length cw : length cw = 8%nat -> length (ctx_bytes cw) = 72%nat.
Proof. intros L. unfold ctx_bytes. rewrite !app_length, map_length, key_schedule_length, L by exact L. reflexivity. Qed.

Lemma swap_nibbles_byte b : is_byte b -> is_byte (swap_nibbles b).
Proof.
  unfold is_byte, swap_nibbles; intros H.
  assert (b mod 16 < 16) by (apply N.mod_lt; lia).
  assert (b / 16 < 16) by (apply N.div_lt_upper_bound; lia). lia.
Qed.

Lemma ctx_bytes_byte cw : length cw = 8%nat -> Forall is_byte cw -> Forall is_byte (ctx_bytes cw).
Proof.
  intros L F. unfold ctx_bytes. rewrite !Forall_app. repeat split; auto using key_schedule_bytes.
  rewrite Forall_map. eapply Forall_impl; [|exact F]. apply swap_nibbles_byte.
Qed.

Lemma swap_le_val l : length l = 8%nat -> Forall is_byte l ->
  le_bytes 8 (N.lor (N.shiftr (N.land (le_val l) 0xf0f0f0f0f0f0f0f0) 4)
                    (u64 (N.shiftl (N.land (le_val l) 0x0f0f0f0f0f0f0f0f) 4)))
  = map swap_nibbles l.
Proof.
  intros L F.
  assert (S1 : forall b v M, is_byte b ->
     N.land (b + 256 * v) (0xf0 + 256 * M) = N.land b 0xf0 + 256 * N.land v M).
  { intros b v M Hb. apply N.bits_inj. intros k. rewrite N.land_spec.
    rewrite !testbit_add_256 by (auto using land_byte; reflexivity). rewrite !N.land_spec.
    destruct (k <? 8); reflexivity. }
  assert (S2 : forall b v M, is_byte b ->
     N.land (b + 256 * v) (0x0f + 256 * M) = N.land b 0x0f + 256 * N.land v M).
  { intros b v M Hb. apply N.bits_inj. intros k. rewrite N.land_spec.
    rewrite !testbit_add_256 by (auto using land_byte; reflexivity). rewrite !N.land_spec.
    destruct (k <? 8); reflexivity. }
  (* both halves, as numbers: even and odd nibbles *)
  assert (B : forall b, is_byte b -> N.land b 0xf0 = 16 * (b / 16) /\ N.land b 0x0f = b mod 16).
  { intros b Hb. assert (T := byte_sweep (fun b => (N.land b 0xf0 =? 16 * (b / 16)) && (N.land b 0x0f =? b mod 16))
        ltac:(vm_compute; reflexivity) b Hb). cbv beta in T. apply andb_true_iff in T as [T1 T2].
    apply N.eqb_eq in T1, T2. auto. }
  assert (Hhi : forall l M, Forall is_byte l -> M = le_val (repeat 0xf0 (length l)) ->
     N.shiftr (N.land (le_val l) M) 4 = le_val (map (fun b => b / 16) l)).
  { clear - S1 B. induction l as [|b l IH]; intros M F ->; [reflexivity|]. inv_forall.
    specialize (IH _ ltac:(assumption) eq_refl). rewrite N.shiftr_div_pow2 in *. change (2 ^ 4) with 16 in *.
    cbn [le_val length repeat map]. rewrite S1 by assumption. rewrite (proj1 (B b ltac:(assumption))).
    replace (16 * (b / 16) + 256 * N.land (le_val l) (le_val (repeat 240 (length l))))
      with ((b / 16 + 16 * N.land (le_val l) (le_val (repeat 240 (length l)))) * 16) by lia.
    rewrite N.div_mul by lia. rewrite <- IH. f_equal.
    assert (X : forall l, Forall is_byte l -> exists t, N.land (le_val l) (le_val (repeat 240 (length l))) = 16 * t).
    { clear - S1 B. induction l as [|b l IH]; intros F; [exists 0; reflexivity|]. inv_forall.
      destruct (IH ltac:(assumption)) as [t Ht]. cbn [le_val length repeat]. rewrite S1, (proj1 (B b ltac:(assumption))), Ht by assumption.
      exists (b / 16 + 256 * t). lia. }
    destruct (X l ltac:(assumption)) as [t ->]. replace (16 * t) with (t * 16) by lia. rewrite N.div_mul by lia. lia. }
  assert (Hlo : forall l M, Forall is_byte l -> M = le_val (repeat 0x0f (length l)) ->
     N.shiftl (N.land (le_val l) M) 4 = le_val (map (fun b => 16 * (b mod 16)) l)).
  { clear - S2 B. induction l as [|b l IH]; intros M F ->; [reflexivity|]. inv_forall.
    specialize (IH _ ltac:(assumption) eq_refl). rewrite N.shiftl_mul_pow2 in *. change (2 ^ 4) with 16 in *.
    cbn [le_val length repeat map]. rewrite S2 by assumption. rewrite (proj2 (B b ltac:(assumption))). lia. }
  rewrite (Hhi l) by (try assumption; rewrite L; reflexivity).
  rewrite (Hlo l) by (try assumption; rewrite L; reflexivity).
  assert (F1 : Forall is_byte (map (fun b => b / 16) l)).
  { rewrite Forall_map. eapply Forall_impl; [|exact F]. unfold is_byte; intros b Hb.
    assert (b / 16 < 16) by (apply N.div_lt_upper_bound; lia). lia. }
  assert (F2 : Forall is_byte (map (fun b => 16 * (b mod 16)) l)).
  { rewrite Forall_map. eapply Forall_impl; [|exact F]. unfold is_byte; intros b Hb.
    assert (b mod 16 < 16) by (apply N.mod_lt; lia). lia. }
  unfold u64. rewrite (N.mod_small (le_val (map (fun b => 16 * (b mod 16)) l))).
  2:{ pose proof (le_val_bound _ F2) as X. rewrite map_length, L in X. exact X. }
  assert (E : N.lor (le_val (map (fun b => b / 16) l)) (le_val (map (fun b => 16 * (b mod 16)) l))
              = le_val (map swap_nibbles l)).
  { assert (FS : Forall is_byte (map swap_nibbles l)).
    { rewrite Forall_map. eapply Forall_impl; [|exact F]. apply swap_nibbles_byte. }
    clear - F F1 F2 FS.
    apply N.bits_inj. intros k. rewrite N.lor_spec, !testbit_le_val by assumption.
    destruct (Nat.lt_ge_cases (N.to_nat (k / 8)) (length l)) as [H|H].
    - set (j := N.to_nat (k / 8)) in *.
      change 0 with (0 / 16) at 1. rewrite (map_nth (fun b => b / 16)).
      change 0 with (16 * (0 mod 16)) at 2. rewrite (map_nth (fun b => 16 * (b mod 16))).
      change 0 with (swap_nibbles 0) at 3. rewrite map_nth.
      assert (Hb : is_byte (nth j l 0)) by (rewrite Forall_forall in F; apply F, nth_In; exact H).
      rewrite <- N.lor_spec. f_equal. apply N.eqb_eq.
      apply (byte_sweep (fun b => N.lor (b / 16) (16 * (b mod 16)) =? swap_nibbles b)); [vm_compute; reflexivity|exact Hb].
    - rewrite !nth_overflow by (rewrite map_length; exact H). rewrite N.bits_0. reflexivity. }
  rewrite E. rewrite <- L, <- (map_length swap_nibbles). apply le_bytes_val.
  rewrite Forall_map. eapply Forall_impl; [|exact F]. apply swap_nibbles_byte.
Qed.

Lemma put_app m a l1 l2 n : n = N.of_nat (length l1) ->
  meq (put (put m a l1) (a + n) l2) (put m a (l1 ++ l2)).
Proof.
  intros -> x. unfold put. rewrite app_length. nb; try lia; try reflexivity.
  - rewrite app_nth2 by lia. do 2 f_equal. lia.
  - rewrite app_nth1 by lia. reflexivity.
Qed.

Lemma key_set_ok be m cwp key cw :
  holds m cwp cw -> length cw = 8%nat -> mapped m key 72 ->
  (cwp = key \/ disjoint cwp 8 key 16) ->
  wp (dvbcsa_key_set be m cwp key) (fun m' => meq m' (put m key (ctx_bytes cw))).
Proof.
  intros H L M A. pose proof H as [F _]. unfold dvbcsa_key_set.
  rewrite (load_le64_ok _ _ _ _ H L). cbn [bind].
  apply wp_bind. eapply wp_mono; [apply store_le64_ok; eapply mapped_sub; [exact M|lia|lia]|].
  intros m1 E1.
  replace (le_bytes 8 (le_val cw)) with cw in E1 by (rewrite <- L at 1; rewrite le_bytes_val by exact F; reflexivity).
  assert (M1 : mapped m1 key 72) by (eapply mapped_meq; [apply meq_sym; exact E1|]; apply mapped_put; exact M).
  apply wp_bind. eapply wp_mono; [apply store_le64_ok; eapply mapped_sub; [exact M1|lia|lia]|].
  intros m2 E2. rewrite swap_le_val in E2 by assumption.
  assert (M2 : mapped m2 key 72) by (eapply mapped_meq; [apply meq_sym; exact E2|]; apply mapped_put; exact M1).
  assert (H2 : holds m2 cwp cw).
  { destruct A as [->|A].
    - eapply holds_meq; [apply meq_sym; exact E2|]. apply holds_put_disj.
      + eapply holds_meq; [apply meq_sym; exact E1|]. apply holds_put; exact F.
      + rewrite map_length, L. intros x; lia.
    - eapply holds_ext; [exact H|]. rewrite L. intros x Hx.
      rewrite E2, put_out by (rewrite map_length, L; intros K; apply (A x); lia).
      rewrite E1, put_out by (rewrite L; intros K; apply (A x); lia). reflexivity. }
  eapply wp_mono; [apply (key_schedule_block_ok _ _ _ _ cw H2 L); eapply mapped_sub; [exact M2|lia|lia]|].
  intros m3 E3. eapply meq_trans; [exact E3|]. eapply meq_trans; [apply put_meq; exact E2|].
  eapply meq_trans; [apply put_meq, put_meq; exact E1|].
  unfold ctx_bytes. rewrite app_assoc.
  eapply meq_trans; [apply put_meq, put_app; rewrite L; reflexivity|].
  apply put_app. rewrite app_length, map_length, L. reflexivity.
Qed.
