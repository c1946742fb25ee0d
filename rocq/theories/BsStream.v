(** BsStream.v -- dvbcsa_bs_stream_cipher_batch computes the stream cipher of Spec in every slot. *)
From Verif Require Import Base Mem Spec ModelBsWord ModelBsTranspose ModelBsStream ClassicalStream SpecLemmas
  BsRel BsWordFacts BsView BsTransposeFacts BsKernel BsKernelRun.
Local Open Scope nat_scope.

(** ** One bit position of all words *)
Definition R_lane (c : build) (p : nat) (w : word) (b : bool) : Prop := wf c w /\ mbit w p = b.

Lemma lane_ops c p : p < 8 * word_bytes c -> ops_rel (R_lane c p) (word_ops c) bool_ops.
Proof.
  intros Hp. constructor; unfold R_lane; cbn [word_ops bool_ops op_and op_or op_xor op_not op_00 op_ff].
  - intros a b a' b' [Wa Ha] [Wb Hb]. split; [apply wf_and; assumption|]. rewrite (mbit_and c) by assumption. congruence.
  - intros a b a' b' [Wa Ha] [Wb Hb]. split; [apply wf_or; assumption|]. rewrite (mbit_or c) by assumption. congruence.
  - intros a b a' b' [Wa Ha] [Wb Hb]. split; [apply wf_xor; assumption|]. rewrite (mbit_xor c) by assumption. congruence.
  - intros a a' [Wa Ha]. split; [apply wf_not; assumption|]. rewrite (mbit_not c) by assumption. congruence.
  - split; [apply wf_val; auto|apply mbit_00; exact Hp].
  - split; [apply wf_val; auto|apply mbit_ff; exact Hp].
Qed.

Definition pr (p : nat) (s : regs word) : regs bool :=
  let f := map (fun w => mbit w p) in
  mk_regs (f (rgA s)) (f (rgB s)) (f (rgX s)) (f (rgY s)) (f (rgZ s)) (f (rgD s)) (f (rgE s)) (f (rgF s)) (f (rgsb s))
          (mbit (rgp s) p) (mbit (rgq s) p) (mbit (rgr s) p).
Record wfregs (c : build) (s : regs word) : Prop := {
  wr_A : Forall (wf c) (rgA s); wr_B : Forall (wf c) (rgB s); wr_X : Forall (wf c) (rgX s); wr_Y : Forall (wf c) (rgY s);
  wr_Z : Forall (wf c) (rgZ s); wr_D : Forall (wf c) (rgD s); wr_E : Forall (wf c) (rgE s); wr_F : Forall (wf c) (rgF s);
  wr_sb : Forall (wf c) (rgsb s); wr_p : wf c (rgp s); wr_q : wf c (rgq s); wr_r : wf c (rgr s) }.

Lemma lane_map c p l : Forall (wf c) l -> Forall2 (R_lane c p) l (map (fun w => mbit w p) l).
Proof. induction 1; constructor; [split; auto|assumption]. Qed.
Lemma lane_unmap c p l l' : Forall2 (R_lane c p) l l' -> Forall (wf c) l /\ l' = map (fun w => mbit w p) l.
Proof. induction 1 as [|w b l l' [Hw <-] H [IH ->]]; [auto|]. split; [constructor; assumption|reflexivity]. Qed.
Lemma pr_rel c p s : wfregs c s -> regs_rel (R_lane c p) s (pr p s).
Proof. intros []; constructor; cbn [pr rgA rgB rgX rgY rgZ rgD rgE rgF rgsb rgp rgq rgr]; try (apply lane_map; assumption); split; auto. Qed.
Lemma rel_pr c p s t : regs_rel (R_lane c p) s t -> wfregs c s /\ t = pr p s.
Proof.
  intros []. destruct t as [tA tB tX tY tZ tD tE tF tsb tp tq tr]. cbn [rgA rgB rgX rgY rgZ rgD rgE rgF rgsb rgp rgq rgr] in *.
  repeat match goal with H : Forall2 (R_lane c p) _ _ |- _ => apply lane_unmap in H; destruct H end.
  repeat match goal with H : R_lane c p _ _ |- _ => destruct H end.
  subst. split; [constructor; assumption|reflexivity].
Qed.

Lemma wp_rel {A B} (R : A -> B -> Prop) x y Q : res_rel R x y -> wp y Q -> wp x (fun a => exists b, R a b /\ Q b).
Proof. destruct x, y; simpl; intros; try contradiction; eauto. Qed.

Lemma batch_pos c : 0 < batch_size c.
Proof. rewrite batch_bytes. pose proof (word_bytes_pos c). lia. Qed.

(* what holds of every packet's bit position holds of the words *)
Lemma kernel_lanes c init s (Q : nat -> regs bool -> Prop) : wfregs c s ->
  (forall i, i < batch_size c -> wp (stream_cipher_kernel bool_ops init (pr (spos c i) s)) (Q i)) ->
  wp (stream_cipher_kernel (word_ops c) init s) (fun s' => wfregs c s' /\
    forall i, i < batch_size c -> Q i (pr (spos c i) s')).
Proof.
  intros W H.
  assert (K : forall i, i < batch_size c -> wp (stream_cipher_kernel (word_ops c) init s)
     (fun s' => wfregs c s' /\ Q i (pr (spos c i) s'))).
  { intros i Hi. eapply wp_mono.
    - eapply wp_rel; [|apply H, Hi].
      apply kernel_rel; [apply lane_ops, spos_bound, Hi|apply pr_rel, W].
    - intros s' (t & Hr & Hq). apply rel_pr in Hr as [Ws ->]. auto. }
  pose proof (K 0 (batch_pos c)) as K0.
  destruct (stream_cipher_kernel (word_ops c) init s) as [s'| | |]; simpl in *; try contradiction.
  split; [apply K0|]. intros i Hi. apply (K i Hi).
Qed.

(** ** Loading the key: junk is None *)
Definition o2 (f : bool -> bool -> bool) (x y : option bool) : option bool :=
  match x, y with Some a, Some b => Some (f a b) | _, _ => None end.
Definition opt_ops : bsops (option bool) :=
  mk_ops (option bool) (o2 andb) (o2 orb) (o2 xorb) (option_map negb) (Some false) (Some true).
Definition R_opt (c : build) (p : nat) (w : word) (o : option bool) : Prop := wf c w /\ forall b, o = Some b -> mbit w p = b.

Lemma opt_ops_rel c p : p < 8 * word_bytes c -> ops_rel (R_opt c p) (word_ops c) opt_ops.
Proof.
  intros Hp. constructor; unfold R_opt; cbn [word_ops opt_ops op_and op_or op_xor op_not op_00 op_ff].
  - intros a b [a'|] [b'|] [Wa Ha] [Wb Hb]; (split; [apply wf_and; assumption|]); cbn [o2]; try discriminate.
    intros x [= <-]. rewrite (mbit_and c) by assumption. rewrite (Ha a'), (Hb b'); auto.
  - intros a b [a'|] [b'|] [Wa Ha] [Wb Hb]; (split; [apply wf_or; assumption|]); cbn [o2]; try discriminate.
    intros x [= <-]. rewrite (mbit_or c) by assumption. rewrite (Ha a'), (Hb b'); auto.
  - intros a b [a'|] [b'|] [Wa Ha] [Wb Hb]; (split; [apply wf_xor; assumption|]); cbn [o2]; try discriminate.
    intros x [= <-]. rewrite (mbit_xor c) by assumption. rewrite (Ha a'), (Hb b'); auto.
  - intros a [a'|] [Wa Ha]; (split; [apply wf_not; assumption|]); cbn [option_map]; try discriminate.
    intros x [= <-]. rewrite (mbit_not c) by assumption. rewrite (Ha a'); auto.
  - split; [apply wf_val; auto|]. intros b [= <-]. apply mbit_00; exact Hp.
  - split; [apply wf_val; auto|]. intros b [= <-]. apply mbit_ff; exact Hp.
Qed.

Definition none_regs : regs (option bool) :=
  let r n := repeat None n in mk_regs (r 168) (r 168) (r 4) (r 4) (r 4) (r 4) (r 4) (r 4) (r 64) None None None.

(* uninitialised registers: any well-formed words *)
Record junk_regs (c : build) (s : regs word) : Prop := {
  jr_wf : wfregs c s;
  jr_A : length (rgA s) = 168; jr_B : length (rgB s) = 168; jr_X : length (rgX s) = 4; jr_Y : length (rgY s) = 4;
  jr_Z : length (rgZ s) = 4; jr_D : length (rgD s) = 4; jr_E : length (rgE s) = 4; jr_F : length (rgF s) = 4;
  jr_sb : length (rgsb s) = 64 }.

Lemma none_list c p l n : Forall (wf c) l -> length l = n -> Forall2 (R_opt c p) l (repeat None n).
Proof. intros F <-. induction F; simpl; constructor; [split; [assumption|discriminate]|assumption]. Qed.
Lemma none_rel c p s : junk_regs c s -> regs_rel (R_opt c p) s none_regs.
Proof.
  intros [[]]. unfold none_regs. cbv zeta.
  constructor; cbn [rgA rgB rgX rgY rgZ rgD rgE rgF rgsb rgp rgq rgr]; try (apply none_list; assumption);
    (split; [assumption|discriminate]).
Qed.

Definition key_nb (kb : nat -> bool) (i : nat) : nb := (kb (4 * i), kb (4 * i + 1), kb (4 * i + 2), kb (4 * i + 3)).
Definition key_bst (kb : nat -> bool) : bst :=
  mk_bst (map (key_nb kb) (seq 0 8) ++ [nz; nz]) (map (fun i => key_nb kb (8 + i)) (seq 0 8) ++ [nz; nz])
         nz nz nz nz nz nz false false false.

Lemma load_labels kb (rest : nat -> res (option bool)) :
  stream_load_regs opt_ops (fun i => if i <? 64 then Ok (Some (kb i)) else rest i) none_regs =
  Ok (let z := map Some (bits nz) in
      mk_regs (repeat None 128 ++ map Some (flat (bA (key_bst kb)))) (repeat None 128 ++ map Some (flat (bB (key_bst kb))))
        z z z z z z (repeat None 64) (Some false) (Some false) (Some false)).
Proof. vm_compute. reflexivity. Qed.

Lemma load_sb {T} (o : bsops T) k s s' : stream_load_regs o k s = Ok s' -> rgsb s' = rgsb s.
Proof.
  unfold stream_load_regs. match goal with |- bind ?x _ = _ -> _ => destruct x as [[[[A B] [[X Y] Z]] [[D E] F]]| | |] end;
    simpl; intros H; try discriminate. injection H as <-. reflexivity.
Qed.

Lemma opt_some c p l l' : Forall2 (R_opt c p) l (map Some l') -> map (fun w => mbit w p) l = l'.
Proof.
  revert l'; induction l as [|w l IH]; intros [|b l'] H; inversion H as [|? ? ? ? [_ Hb] Hl]; subst; [reflexivity|].
  simpl. rewrite (Hb b eq_refl), (IH l' Hl). reflexivity.
Qed.
Lemma opt_wf c p l l' : Forall2 (R_opt c p) l l' -> Forall (wf c) l.
Proof. induction 1 as [|? ? ? ? [? _]]; constructor; assumption. Qed.
Lemma Forall2_app_r {A B} (R : A -> B -> Prop) l a b : Forall2 R l (a ++ b) ->
  exists l1 l2, l = l1 ++ l2 /\ Forall2 R l1 a /\ Forall2 R l2 b.
Proof. intros H. apply Forall2_app_inv_r in H as (l1 & l2 & H1 & H2 & ->). eauto. Qed.

Lemma load_key64 {T} (o : bsops T) k s :
  stream_load_regs o k s = stream_load_regs o (fun i => if i <? 64 then k i else UB OutOfBounds) s.
Proof. reflexivity. Qed.

Lemma load_run c (k : nat -> res word) (kb : nat -> bool) s p : p < 8 * word_bytes c -> junk_regs c s ->
  (forall i, i < 64 -> exists w, k i = Ok w /\ wf c w /\ mbit w p = kb i) ->
  wp (stream_load_regs (word_ops c) k s) (fun s' => wfregs c s' /\ rgsb s' = rgsb s /\
     ready (pr p s') (map (fun w => mbit w p) (rgsb s)) (key_bst kb)).
Proof.
  intros Hp J Hk. rewrite load_key64. set (k' := fun i => if i <? 64 then k i else UB OutOfBounds).
  pose (rest := fun i : nat => @UB (option bool) OutOfBounds).
  pose proof (load_regs_rel (R_opt c p) _ _ (opt_ops_rel c p Hp) k'
     (fun i => if i <? 64 then Ok (Some (kb i)) else rest i) s none_regs) as L.
  rewrite load_labels in L. cbv zeta in L.
  assert (L1 : forall i, res_rel (R_opt c p) (k' i) (if i <? 64 then Ok (Some (kb i)) else rest i)).
  { intros i. unfold k'. destruct (Nat.ltb_spec i 64).
    - destruct (Hk i H) as (w & -> & Ww & Hb). simpl. split; [exact Ww|]. intros b [= <-]. exact Hb.
    - reflexivity. }
  specialize (L L1 (none_rel c p s J)). clear L1 rest Hk.
  pose proof (@load_sb word (word_ops c) k' s) as LS.
  destruct (stream_load_regs (word_ops c) k' s) as [s'| | |]; cbn [res_rel] in L; try contradiction.
  specialize (LS s' eq_refl). cbn [wp].
  destruct L as [LA LB LX LY LZ LD LE LF Lsb [Lp1 Lp2] [Lq1 Lq2] [Lr1 Lr2]].
  cbn [rgA rgB rgX rgY rgZ rgD rgE rgF rgsb rgp rgq rgr] in *.
  split. { constructor; eauto using opt_wf. }
  split; [exact LS|].
  apply Forall2_app_r in LA as (pa & qa & EA & LA1 & LA2). apply Forall2_app_r in LB as (pb & qb & EB & LB1 & LB2).
  exists (map (fun w => mbit w p) pa), (map (fun w => mbit w p) pb).
  rewrite !map_length. apply Forall2_len in LA1, LB1. rewrite repeat_length in LA1, LB1.
  split; [|split; [exact LA1|split; [exact LB1|split; [reflexivity|split; [reflexivity|apply (jr_sb _ _ J)]]]]].
  unfold pr, kstate. rewrite !app_nil_r. rewrite EA, EB, !map_app, LS.
  rewrite (opt_some _ _ _ _ LA2), (opt_some _ _ _ _ LB2).
  rewrite (Lp2 false), (Lq2 false), (Lr2 false) by reflexivity.
  change (bits (bX (key_bst kb))) with (bits nz). change (bits (bY (key_bst kb))) with (bits nz).
  change (bits (bZ (key_bst kb))) with (bits nz). change (bits (bD (key_bst kb))) with (bits nz).
  change (bits (bE (key_bst kb))) with (bits nz). change (bits (bF (key_bst kb))) with (bits nz).
  rewrite (opt_some c p _ (bits nz) LX), (opt_some c p _ (bits nz) LY), (opt_some c p _ (bits nz) LZ),
    (opt_some c p _ (bits nz) LD), (opt_some c p _ (bits nz) LE), (opt_some c p _ (bits nz) LF).
  reflexivity.
Qed.

(* key->stream[i] holds bit (i xor 4) of the control word *)
Definition cw_bit (cw : list N) (i : nat) : bool := N.testbit (le_val cw) (N.lxor (N.of_nat i) 4).

Lemma key_bst_load cw : length cw = 8 -> Forall is_byte cw -> babs (key_bst (cw_bit cw)) = stream_load cw.
Proof.
  intros L F.
  assert (T : forall i k, i < 8 -> (k < 8)%N -> N.testbit (le_val cw) (8 * N.of_nat i + k) = N.testbit (nth i cw 0%N) k).
  { intros i k Hi Hk. rewrite testbit_le_val by assumption.
    replace (N.to_nat ((8 * N.of_nat i + k) / 8)) with i.
    - replace ((8 * N.of_nat i + k) mod 8)%N with k; [reflexivity|].
      rewrite N.add_comm, N.mul_comm, N.mod_add by lia. symmetry; apply N.mod_small; lia.
    - rewrite N.add_comm, N.mul_comm, N.div_add by lia. rewrite N.div_small by lia. lia. }
  assert (H1 : forall i, i < 8 -> nv (key_nb (cw_bit cw) (2 * i)) = hi4 (nth i cw 0%N) /\ nv (key_nb (cw_bit cw) (2 * i + 1)) = lo4 (nth i cw 0%N)).
  { intros i Hi. assert (B : is_byte (nth i cw 0%N)) by (rewrite Forall_forall in F; apply F, nth_In; lia).
    pose proof (fun k => T i k Hi) as Ti. unfold key_nb, cw_bit.
    assert (S8 : forall k, k < 8 -> N.lxor (N.of_nat (8 * i + k)) 4 = (8 * N.of_nat i + N.lxor (N.of_nat k) 4)%N).
    { intros k Hk. clear - Hi Hk. do 8 (destruct i as [|i]; [do 8 (destruct k as [|k]; [reflexivity|]); lia|]). lia. }
    replace (4 * (2 * i)) with (8 * i + 0) by lia. replace (4 * (2 * i + 1)) with (8 * i + 4) by lia.
    rewrite <- !Nat.add_assoc. rewrite !S8 by lia.
    cbn [Nat.add N.of_nat Pos.of_succ_nat Pos.succ N.lxor Pos.lxor Pos.Nsucc_double Pos.Ndouble N.succ_double N.double].
    rewrite !Ti by lia. revert B. generalize (nth i cw 0%N). clear. intros x B.
    split; apply N.eqb_eq; revert x B.
    - apply (ClassicalBlock.byte_sweep (fun x => (nv (N.testbit x 4, N.testbit x 5, N.testbit x 6, N.testbit x 7) =? hi4 x)%N)). vm_compute; reflexivity.
    - apply (ClassicalBlock.byte_sweep (fun x => (nv (N.testbit x 0, N.testbit x 1, N.testbit x 2, N.testbit x 3) =? lo4 x)%N)). vm_compute; reflexivity. }
  clear T F. destruct cw as [|b0 [|b1 [|b2 [|b3 [|b4 [|b5 [|b6 [|b7 [|]]]]]]]]]; simpl in L; try lia.
  set (kb := cw_bit _) in *. clearbody kb.
  unfold babs, key_bst, stream_load. cbn [bA bB bX bY bZ bD bE bF bp bq bc map concat app firstn skipn seq].
  pose proof (H1 0 ltac:(lia)) as [E0 F0]. pose proof (H1 1 ltac:(lia)) as [E1 F1]. pose proof (H1 2 ltac:(lia)) as [E2 F2].
  pose proof (H1 3 ltac:(lia)) as [E3 F3]. pose proof (H1 4 ltac:(lia)) as [E4 F4]. pose proof (H1 5 ltac:(lia)) as [E5 F5].
  pose proof (H1 6 ltac:(lia)) as [E6 F6]. pose proof (H1 7 ltac:(lia)) as [E7 F7]. clear H1.
  cbn [nth Nat.mul Nat.add] in *.
  rewrite E0, E1, E2, E3, E4, E5, E6, E7, F0, F1, F2, F3, F4, F5, F6, F7. reflexivity.
Qed.

(** ** Positions in the packet buffer *)
Lemma slot_pos i b k : b < 23 ->
  (block_at (N.of_nat (8 * b)) i <= k < block_at (N.of_nat (8 * b)) i + 8 <->
   k / slot = i /\ 8 * b <= k mod slot < 8 * b + 8).
Proof.
  intros Hb. assert (E : block_at (N.of_nat (8 * b)) i = 8 * b + i * slot).
  { unfold block_at. rewrite Nat2N.inj_mul. change (N.of_nat 8) with 8%N. rewrite (N.mul_comm 8), N.div_mul by lia. rewrite Nat2N.id. reflexivity. }
  rewrite E. unfold slot. pose proof (Nat.div_mod k 184 ltac:(lia)). pose proof (Nat.mod_upper_bound k 184 ltac:(lia)).
  split; intros H1; [|destruct H1; lia].
  assert (k / 184 = i) by (symmetry; apply Nat.div_unique with (r := k - i * 184); lia). lia.
Qed.
Lemma block_at_eq i b : block_at (N.of_nat (8 * b)) i = 8 * b + i * slot.
Proof. unfold block_at. rewrite Nat2N.inj_mul. change (N.of_nat 8) with 8%N. rewrite (N.mul_comm 8), N.div_mul by lia. rewrite Nat2N.id. reflexivity. Qed.

(* a buffer of n slots *)
Definition pbuf (n : nat) (d : list N) : Prop := length d = n * slot /\ Forall is_byte d.

Lemma pbuf_block n d i b : pbuf n d -> i < n -> b < 23 -> block_at (N.of_nat (8 * b)) i + 8 <= length d.
Proof. intros [L _] Hi Hb. rewrite L, block_at_eq. unfold slot. nia. Qed.

Lemma wp_xor_at d p n v : p + n <= length d -> Forall is_byte d -> length v = n -> Forall is_byte v ->
  wp (x <- bget d p n ;; bset d p (map2 N.lxor x v)) (fun d' => length d' = length d /\ Forall is_byte d' /\
    forall k, nth k d' 0%N = if (p <=? k) && (k <? p + n) then N.lxor (nth k d 0%N) (nth (k - p) v 0%N) else nth k d 0%N).
Proof.
  intros H F Lv Fv. apply wp_bind. eapply wp_mono; [apply (wp_bget d p n H F)|]. intros x (Lx & Fx & Hx).
  assert (Lm : length (map2 N.lxor x v) = n) by (rewrite map2_length; lia).
  eapply wp_mono; [apply wp_bset; [lia|exact F|apply (Forall_map2 is_byte is_byte); auto using lxor_byte]|].
  intros d' (L' & F' & H'). split; [exact L'|]. split; [exact F'|]. intros k. rewrite H', Lm.
  destruct (Nat.leb_spec p k); cbn [andb]; [|reflexivity]. destruct (Nat.ltb_spec k (p + n)); [|reflexivity].
  rewrite (nth_map2 N.lxor 0%N 0%N) by lia. rewrite Hx by lia. do 2 f_equal. lia.
Qed.

Definition xor8_at (d : list N) (p : nat) (v : list N) (d' : list N) : Prop :=
  length d' = length d /\ Forall is_byte d' /\
  forall k, nth k d' 0%N = if (p <=? k) && (k <? p + 8) then N.lxor (nth k d 0%N) (nth (k - p) v 0%N) else nth k d 0%N.

(** ** Transposing in and out *)
Lemma div_4_words c : exists q, word_bytes c = q * 4.
Proof. unfold word_bytes; destruct (tgt c); [exists 1|exists 2|exists 2|exists 4|exists 4|exists 8|exists 4]; reflexivity. Qed.
Lemma div_8_words c : tgt c <> UINT32 -> exists q, word_bytes c = q * 8.
Proof. unfold word_bytes; destruct (tgt c); intros; try congruence; [exists 1|exists 1|exists 2|exists 2|exists 4|exists 2]; reflexivity. Qed.

Definition packed (c : build) (n : nat) (rows : list word) (d : list N) : Prop :=
  forall i j, i < n -> j < 8 -> fbyte c rows (sflat c i j) = nth (i * slot + j) d 0%N.

Ltac leb_cases := repeat match goal with
  | |- context [?a <=? ?b] => destruct (Nat.leb_spec a b)
  | |- context [?a <? ?b] => destruct (Nat.ltb_spec a b)
  end; cbn [andb].

Lemma stream_pack c pb row : wrows c 64 row -> n_packets pb <= batch_size c -> pbuf (batch_size c) (pdata pb) ->
  wp (for_ (n_packets pb) 0 (fun i row =>
    match tgt c with
    | UINT32 =>
        a <- u32_0 (pdata pb) (block_at 0 i) ;;
        row <- view_set c 4 row i a ;;
        b <- u32_1 (pdata pb) (block_at 0 i) ;;
        view_set c 4 row (i + 32) b
    | _ =>
        a <- bget (pdata pb) (block_at 0 i) 8 ;;
        view_set c 8 row i a
    end) row) (fun row => wrows c 64 row /\ packed c (n_packets pb) row (pdata pb)).
Proof.
  intros W Hn Pb. pose proof (batch_bytes c) as Eb.
  apply (wp_for (fun i row => wrows c 64 row /\ packed c i row (pdata pb))).
  - split; [exact W|]. intros i j Hi; lia.
  - intros i r1 Hi [W1 K1]. assert (Hi' : i < batch_size c) by lia.
    pose proof (pbuf_block _ _ i 0 Pb Hi' ltac:(lia)) as Bl. destruct Pb as [Ld Fd].
    change (N.of_nat (8 * 0)) with 0%N in Bl.
    assert (Eat : block_at 0 i = i * slot) by reflexivity. rewrite Eat in *.
    assert (C : tgt c = UINT32 \/ tgt c <> UINT32) by (destruct (tgt c); auto; right; discriminate).
    destruct C as [Et|Et].
    + rewrite Et. unfold u32_0, u32_1.
      assert (Ew : word_bytes c = 4) by (unfold word_bytes; rewrite Et; reflexivity).
      apply wp_bind. eapply wp_mono; [apply wp_bget; [lia|exact Fd]|]. intros a (La & Fa & Ha).
      apply wp_bind. eapply wp_mono; [apply (wp_view_set c 64); [exact W1|lia|exists 1; lia|lia|exact La|exact Fa]|].
      intros r2 [W2 K2].
      apply wp_bind. eapply wp_mono; [apply wp_bget; [lia|exact Fd]|]. intros b (Lb & Fb & Hb).
      eapply wp_mono; [apply (wp_view_set c 64); [exact W2|lia|exists 1; lia|lia|exact Lb|exact Fb]|].
      intros r3 [W3 K3]. split; [exact W3|].
      intros i' j Hi2 Hj. rewrite K3, K2.
      destruct (Nat.eq_dec i' i) as [->|Ne].
      * unfold sflat. rewrite Et. destruct (Nat.ltb_spec j 4).
        -- replace (4 * (i + 32) <=? 4 * i + j) with false by (symmetry; apply Nat.leb_gt; lia). cbn [andb].
           replace (4 * i <=? 4 * i + j) with true by (symmetry; apply Nat.leb_le; lia).
           replace (4 * i + j <? 4 * i + 4) with true by (symmetry; apply Nat.ltb_lt; lia). cbn [andb].
           replace (4 * i + j - 4 * i) with j by lia. apply Ha; lia.
        -- replace (4 * (i + 32) <=? 4 * i + (128 + (j - 4))) with true by (symmetry; apply Nat.leb_le; lia).
           replace (4 * i + (128 + (j - 4)) <? 4 * (i + 32) + 4) with true by (symmetry; apply Nat.ltb_lt; lia). cbn [andb].
           replace (4 * i + (128 + (j - 4)) - 4 * (i + 32)) with (j - 4) by lia. rewrite Hb by lia. f_equal. lia.
      * specialize (K1 i' j ltac:(lia) Hj). rewrite <- K1.
        assert (sflat c i' j < 4 * i \/ 4 * i + 4 <= sflat c i' j < 4 * (i + 32)).
        { unfold sflat. rewrite Et. destruct (Nat.ltb_spec j 4); lia. }
        leb_cases; try reflexivity; lia.
    + assert (Em : forall (x y : res (list word)), match tgt c with UINT32 => x | _ => y end = y) by (intros; destruct (tgt c); congruence).
      rewrite Em. clear Em.
      assert (Es : forall i j, sflat c i j = 8 * i + j) by (intros; unfold sflat; destruct (tgt c); congruence).
      apply wp_bind. eapply wp_mono; [apply wp_bget; [lia|exact Fd]|]. intros a (La & Fa & Ha).
      eapply wp_mono; [apply (wp_view_set c 64); [exact W1|lia|apply div_8_words, Et|lia|exact La|exact Fa]|].
      intros r2 [W2 K2]. split; [exact W2|]. intros i' j Hi2 Hj. rewrite K2, Es.
      destruct (Nat.eq_dec i' i) as [->|Ne].
      * replace (8 * i <=? 8 * i + j) with true by (symmetry; apply Nat.leb_le; lia).
        replace (8 * i + j <? 8 * i + 8) with true by (symmetry; apply Nat.ltb_lt; lia). cbn [andb].
        replace (8 * i + j - 8 * i) with j by lia. apply Ha; lia.
      * specialize (K1 i' j ltac:(lia) Hj). rewrite <- K1, Es.
        leb_cases; try reflexivity; lia.
Qed.

(* bits of position p of all rows *)
Definition col (p : nat) (rows : list word) : list bool := map (fun w => mbit w p) rows.
Lemma nth_col p rows r : r < length rows -> nth r (col p rows) false = mbit (nth r rows []) p.
Proof.
  intros H. unfold col. rewrite (nth_indep _ false (mbit [] p)) by (rewrite map_length; exact H).
  apply (map_nth (fun w => mbit w p)).
Qed.

Lemma stream_in_ok c pb row : sane c -> wrows c 64 row -> n_packets pb <= batch_size c -> pbuf (batch_size c) (pdata pb) ->
  wp (dvbcsa_bs_stream_transpose_in c pb row) (fun row' => wrows c 64 row' /\
    exists iv, (forall i, i < batch_size c -> sb_of (col (spos c i) row') (iv i)) /\
               (forall i, i < n_packets pb -> iv i = firstn 8 (skipn (i * slot) (pdata pb)))).
Proof.
  intros Hs W Hn Pb. unfold dvbcsa_bs_stream_transpose_in. apply wp_bind.
  eapply wp_mono; [apply (stream_pack c pb row W Hn Pb)|]. intros r1 [W1 K1].
  eapply wp_mono; [apply (stream_transpose_bits c r1 Hs W1)|]. intros r2 [W2 K2]. split; [exact W2|].
  exists (fun i => map (fun j => fbyte c r1 (sflat c i j)) (seq 0 8)). split.
  - intros i Hi. split; [unfold col; rewrite map_length; apply W2|]. split; [rewrite map_length; reflexivity|].
    split. { apply Forall_map, Forall_forall. intros; apply (fbyte_is_byte c 64), W1. }
    intros a k Ha Hk. rewrite nth_col by (destruct W2; lia).
    destruct (K2 i (8 * a + k) Hi ltac:(lia)) as [-> _].
    rewrite div8, mod8, Nat.div_small, Nat.mod_small, Nat.add_0_r by lia. f_equal.
    rewrite (nth_indep _ 0%N (fbyte c r1 (sflat c i 0))) by (rewrite map_length, seq_length; exact Ha).
    rewrite (map_nth (fun j => fbyte c r1 (sflat c i j))), seq_nth by exact Ha. reflexivity.
  - intros i Hi. destruct Pb as [Ld Fd]. assert (i * slot + 8 <= length (pdata pb)) by (rewrite Ld; unfold slot in *; nia).
    apply (nth_ext _ _ 0%N 0%N).
    + rewrite map_length, seq_length, firstn_length, skipn_length. lia.
    + rewrite map_length, seq_length. intros j Hj.
      rewrite (nth_indep _ 0%N (fbyte c r1 (sflat c i 0))) by (rewrite map_length, seq_length; exact Hj).
      rewrite (map_nth (fun j => fbyte c r1 (sflat c i j))), seq_nth by exact Hj.
      rewrite (K1 i (0 + j) Hi Hj). rewrite nth_firstn_lt by exact Hj. rewrite nth_skipn. reflexivity.
Qed.

(* the buffer after the first i packets of a pass over block b *)
Definition xored (b i : nat) (ks : nat -> list N) (d d1 : list N) : Prop :=
  length d1 = length d /\ Forall is_byte d1 /\
  forall k, nth k d1 0%N = if (k / slot <? i) && ((8 * b <=? k mod slot) && (k mod slot <? 8 * b + 8))
                           then N.lxor (nth k d 0%N) (nth (k mod slot - 8 * b) (ks (k / slot)) 0%N) else nth k d 0%N.

Lemma xored_step b i ks d d1 d2 : b < 23 -> xored b i ks d d1 ->
  xor8_at d1 (block_at (N.of_nat (8 * b)) i) (ks i) d2 -> xored b (S i) ks d d2.
Proof.
  intros Hb (L1 & F1 & H1) (L2 & F2 & H2). split; [congruence|]. split; [exact F2|].
  intros k. rewrite H2, H1. pose proof (slot_pos i b k Hb) as SP. rewrite block_at_eq in *.
  destruct (Nat.leb_spec (8 * b + i * slot) k); destruct (Nat.ltb_spec k (8 * b + i * slot + 8)); cbn [andb].
  - destruct SP as [SP _]. destruct (SP ltac:(lia)) as [Ek Rk].
    rewrite Ek. destruct (Nat.ltb_spec i i); [lia|]. destruct (Nat.ltb_spec i (S i)); [|lia]. cbn [andb].
    destruct (Nat.leb_spec (8 * b) (k mod slot)); [|lia]. destruct (Nat.ltb_spec (k mod slot) (8 * b + 8)); [|lia]. cbn [andb].
    do 2 f_equal. pose proof (Nat.div_mod k slot ltac:(unfold slot; lia)). rewrite Ek in *. lia.
  - destruct ((8 * b <=? k mod slot) && (k mod slot <? 8 * b + 8)) eqn:E; [|rewrite !andb_false_r; reflexivity].
    apply andb_prop in E as [E1 E2]. apply Nat.leb_le in E1. apply Nat.ltb_lt in E2. rewrite !andb_true_r.
    destruct (Nat.ltb_spec (k / slot) i), (Nat.ltb_spec (k / slot) (S i)); try lia; try reflexivity.
  - destruct ((8 * b <=? k mod slot) && (k mod slot <? 8 * b + 8)) eqn:E; [|rewrite !andb_false_r; reflexivity].
    apply andb_prop in E as [E1 E2]. apply Nat.leb_le in E1. apply Nat.ltb_lt in E2. rewrite !andb_true_r.
    destruct (Nat.ltb_spec (k / slot) i), (Nat.ltb_spec (k / slot) (S i)); try lia; try reflexivity.
  - destruct ((8 * b <=? k mod slot) && (k mod slot <? 8 * b + 8)) eqn:E; [|rewrite !andb_false_r; reflexivity].
    apply andb_prop in E as [E1 E2]. apply Nat.leb_le in E1. apply Nat.ltb_lt in E2. rewrite !andb_true_r.
    destruct (Nat.ltb_spec (k / slot) i), (Nat.ltb_spec (k / slot) (S i)); try lia; try reflexivity.
Qed.

(* rows after transposition hold the keystream blocks *)
Definition unpacked (c : build) (row : list word) (ks : nat -> list N) : Prop :=
  forall i j, i < batch_size c -> j < 8 -> fbyte c row (sflat c i j) = nth j (ks i) 0%N.

Section Out.
  Context (c : build) (row : list word) (ks : nat -> list N) (b : nat) (d : list N).
  Hypothesis (W : wrows c 64 row) (K : unpacked c row ks) (Hb : b < 23) (Pd : pbuf (batch_size c) d).
  Let idx := N.of_nat (8 * b).

  Lemma xored_pbuf i d1 : xored b i ks d d1 -> pbuf (batch_size c) d1.
  Proof. intros (L & F & _). destruct Pd. split; [congruence|exact F]. Qed.

  Lemma out_packet i d1 : tgt c <> UINT32 -> i < batch_size c -> xored b i ks d d1 ->
    wp (stream_out_packet c row idx i d1) (fun d2 => xored b (S i) ks d d2).
  Proof.
    intros Ht Hi X. pose proof (batch_bytes c) as Eb. pose proof (xored_pbuf i d1 X) as P1.
    assert (Es : forall i j, sflat c i j = 8 * i + j) by (intros; unfold sflat; destruct (tgt c); congruence).
    unfold stream_out_packet, xor_u64, idx.
    apply wp_bind. eapply wp_mono; [apply (wp_view_get c 64 8 row i W); [lia|apply div_8_words, Ht|lia]|].
    intros v (Lv & Fv & Hv).
    eapply wp_mono; [apply wp_xor_at; [apply (pbuf_block _ _ _ _ P1 Hi Hb)|apply P1|exact Lv|exact Fv]|].
    intros d2 (L2 & F2 & H2). apply (xored_step b i ks d d1 d2 Hb X).
    split; [exact L2|]. split; [exact F2|]. intros k. rewrite H2.
    leb_cases; try reflexivity. rewrite Hv, <- (Es i), K by lia. reflexivity.
  Qed.

  Lemma out_pair i d1 : tgt c <> UINT32 -> i + 1 < batch_size c -> xored b i ks d d1 ->
    wp (stream_out_pair c row idx i d1) (fun d2 => xored b (S (S i)) ks d d2).
  Proof.
    intros Ht Hi X. pose proof (batch_bytes c) as Eb. pose proof (xored_pbuf i d1 X) as P1.
    assert (Es : forall i j, sflat c i j = 8 * i + j) by (intros; unfold sflat; destruct (tgt c); congruence).
    pose proof (pbuf_block _ _ i b P1 ltac:(lia) Hb) as B1. pose proof (pbuf_block _ _ (i + 1) b P1 ltac:(lia) Hb) as B2.
    destruct P1 as [L1 F1].
    unfold stream_out_pair.
    apply wp_bind. eapply wp_mono; [apply wp_bget; [exact B1|exact F1]|]. intros x (Lx & Fx & Hx).
    apply wp_bind. eapply wp_mono; [apply (wp_view_get c 64 8 row i W); [lia|apply div_8_words, Ht|lia]|].
    intros v (Lv & Fv & Hv).
    apply wp_bind. eapply wp_mono; [apply wp_bget; [exact B2|exact F1]|]. intros y (Ly & Fy & Hy).
    apply wp_bind. eapply wp_mono; [apply (wp_view_get c 64 8 row (i + 1) W); [lia|apply div_8_words, Ht|lia]|].
    intros u (Lu & Fu & Hu).
    assert (Lm : length (map2 N.lxor x v) = 8) by (rewrite map2_length; lia).
    assert (Lm2 : length (map2 N.lxor y u) = 8) by (rewrite map2_length; lia).
    assert (Fm : Forall is_byte (map2 N.lxor x v)) by (apply (Forall_map2 is_byte is_byte); auto using lxor_byte).
    assert (Fm2 : Forall is_byte (map2 N.lxor y u)) by (apply (Forall_map2 is_byte is_byte); auto using lxor_byte).
    unfold idx in *. rewrite !block_at_eq in *.
    apply wp_bind. eapply wp_mono; [apply wp_bset; [rewrite Lm; exact B1|exact F1|exact Fm]|]. intros d2 (L2 & F2 & H2).
    eapply wp_mono; [apply wp_bset; [rewrite Lm2, L2; exact B2|exact F2|exact Fm2]|]. intros d3 (L3 & F3 & H3).
    apply (xored_step b (S i) ks d d2 d3 Hb).
    - apply (xored_step b i ks d d1 d2 Hb X). split; [exact L2|]. split; [exact F2|]. intros k. rewrite H2, Lm, block_at_eq.
      leb_cases; try reflexivity. rewrite (nth_map2 N.lxor 0%N 0%N) by lia. rewrite Hx, Hv, <- (Es i), K by lia. do 2 f_equal. lia.
    - split; [exact L3|]. split; [exact F3|]. intros k. rewrite H3, Lm2, block_at_eq. replace (S i) with (i + 1) by lia.
      leb_cases; try reflexivity. rewrite (nth_map2 N.lxor 0%N 0%N) by lia. rewrite Hy, Hu, <- (Es (i + 1)), K by lia.
      rewrite H2, Lm. unfold slot in *. replace (8 * b + i * 184 <=? k) with true by (symmetry; apply Nat.leb_le; lia). replace (k <? 8 * b + i * 184 + 8) with false by (symmetry; apply Nat.ltb_ge; lia). cbn [andb]. replace (8 * b + (i + 1) * 184 + (k - (8 * b + (i + 1) * 184))) with k by lia. reflexivity.
  Qed.

  Lemma out_packet32 i d1 : tgt c = UINT32 -> i < batch_size c -> xored b i ks d d1 ->
    wp (x <- u32_0 d1 (block_at idx i) ;;
        p <- view_get c 4 row i ;;
        d <- bset d1 (block_at idx i) (map2 N.lxor x p) ;;
        y <- u32_1 d (block_at idx i) ;;
        q <- view_get c 4 row (i + 32) ;;
        bset d (block_at idx i + 4) (map2 N.lxor y q)) (fun d2 => xored b (S i) ks d d2).
  Proof.
    intros Ht Hi X. pose proof (batch_bytes c) as Eb. pose proof (xored_pbuf i d1 X) as P1.
    assert (Ew : word_bytes c = 4) by (unfold word_bytes; rewrite Ht; reflexivity).
    pose proof (pbuf_block _ _ i b P1 Hi Hb) as B1. destruct P1 as [L1 F1]. unfold idx in *.
    unfold u32_0, u32_1.
    apply wp_bind. eapply wp_mono; [apply wp_bget; [lia|exact F1]|]. intros x (Lx & Fx & Hx).
    apply wp_bind. eapply wp_mono; [apply (wp_view_get c 64 4 row i W); [lia|exists 1; lia|lia]|]. intros v (Lv & Fv & Hv).
    assert (Lm : length (map2 N.lxor x v) = 4) by (rewrite map2_length; lia).
    assert (Fm : Forall is_byte (map2 N.lxor x v)) by (apply (Forall_map2 is_byte is_byte); auto using lxor_byte).
    apply wp_bind. eapply wp_mono; [apply wp_bset; [rewrite Lm; lia|exact F1|exact Fm]|]. intros d2 (L2 & F2 & H2).
    apply wp_bind. eapply wp_mono; [apply wp_bget; [lia|exact F2]|]. intros y (Ly & Fy & Hy).
    apply wp_bind. eapply wp_mono; [apply (wp_view_get c 64 4 row (i + 32) W); [lia|exists 1; lia|lia]|]. intros u (Lu & Fu & Hu).
    assert (Lm2 : length (map2 N.lxor y u) = 4) by (rewrite map2_length; lia).
    assert (Fm2 : Forall is_byte (map2 N.lxor y u)) by (apply (Forall_map2 is_byte is_byte); auto using lxor_byte).
    eapply wp_mono; [apply wp_bset; [rewrite Lm2, L2; lia|exact F2|exact Fm2]|]. intros d3 (L3 & F3 & H3).
    apply (xored_step b i ks d d1 d3 Hb X). split; [congruence|]. split; [exact F3|].
    intros k. rewrite H3, H2, Lm, Lm2. set (p := block_at (N.of_nat (8 * b)) i) in *.
    destruct (Nat.leb_spec p k); destruct (Nat.ltb_spec k (p + 8)); cbn [andb].
    - pose proof (K i (k - p) ltac:(lia) ltac:(lia)) as Kk. unfold sflat in Kk. rewrite Ht in Kk. rewrite <- Kk.
      destruct (Nat.leb_spec (p + 4) k); destruct (Nat.ltb_spec k (p + 4 + 4)); try lia; cbn [andb].
      + rewrite (nth_map2 N.lxor 0%N 0%N) by lia. rewrite Hy, Hu, H2, Lm by lia.
        destruct (Nat.ltb_spec (k - p) 4); [lia|].
        destruct (Nat.ltb_spec (p + 4 + (k - (p + 4))) (p + 4)); [lia|]. rewrite andb_false_r. f_equal; f_equal; lia.
      + destruct (Nat.ltb_spec k (p + 4)); [|lia]. destruct (Nat.leb_spec p k); [|lia]. cbn [andb].
        rewrite (nth_map2 N.lxor 0%N 0%N) by lia. rewrite Hx, Hv by lia. destruct (Nat.ltb_spec (k - p) 4); [|lia]. f_equal; f_equal; lia.
    - leb_cases; try reflexivity; lia.
    - leb_cases; try reflexivity; lia.
    - leb_cases; try reflexivity; lia.
  Qed.
End Out.

Lemma stream_out_ok c pb row ks b : sane c -> wrows c 64 row -> n_packets pb <= batch_size c -> pbuf (batch_size c) (pdata pb) ->
  b < 23 -> (forall i, i < batch_size c -> sb_of (col (spos c i) row) (ks i)) ->
  wp (dvbcsa_bs_stream_transpose_out c pb (N.of_nat (8 * b)) row) (fun r => wrows c 64 (snd r) /\
     exists d', fst r = set_pdata pb d' /\ xored b (n_packets pb) ks (pdata pb) d').
Proof.
  intros Hs W Hn Pb Hb Hks. unfold dvbcsa_bs_stream_transpose_out.
  apply wp_bind. eapply wp_mono; [apply (stream_transpose_bits c row Hs W)|]. intros r1 [W1 K1].
  assert (U : unpacked c r1 ks).
  { intros i j Hi Hj. destruct (Hks i Hi) as (_ & Lk & Fk & Hk).
    apply N.bits_inj. intros k. destruct (N.lt_ge_cases k 8) as [C|C].
    - destruct (K1 i (8 * j + N.to_nat k) Hi ltac:(lia)) as [_ Kb].
      rewrite div8, mod8, Nat.div_small, Nat.mod_small, Nat.add_0_r, N2Nat.id in Kb by lia. rewrite Kb.
      rewrite <- nth_col by (destruct W; lia). rewrite (Hk j (N.to_nat k)) by lia. rewrite N2Nat.id. reflexivity.
    - rewrite !(fun x => bits_of_bound x 8); try lia; try reflexivity.
      + rewrite Forall_forall in Fk. apply Fk, nth_In. lia.
      + apply (fbyte_is_byte c 64), W1. }
  assert (X0 : xored b 0 ks (pdata pb) (pdata pb)).
  { split; [reflexivity|]. split; [apply Pb|]. intros k. reflexivity. }
  apply wp_bind. apply wp_mono with (P := fun d => xored b (n_packets pb) ks (pdata pb) d).
  2:{ intros d Hd. cbn [wp fst snd]. split; [exact W1|]. eauto. }
  assert (C : tgt c = UINT32 \/ tgt c <> UINT32) by (destruct (tgt c); auto; right; discriminate).
  destruct C as [Et|Et].
  - rewrite Et. apply (wp_for (fun i d => xored b i ks (pdata pb) d)); [exact X0|].
    intros i d1 Hi X. apply (out_packet32 c r1 ks b (pdata pb) W1 U Hb Pb); auto; lia.
  - assert (Em : forall (x y : res (list N)), match tgt c with UINT32 => x | _ => y end = y) by (intros; destruct (tgt c); congruence).
    rewrite Em. clear Em.
    pose proof (Nat.div_mod (n_packets pb) 2 ltac:(lia)) as E2. pose proof (Nat.mod_upper_bound (n_packets pb) 2 ltac:(lia)).
    apply wp_bind. eapply wp_mono; [apply (wp_for (fun i d => xored b (2 * i) ks (pdata pb) d)); [exact X0|]|].
    + intros i d1 Hi X. replace (2 * S i) with (S (S (2 * i))) by lia.
      apply (out_pair c r1 ks b (pdata pb) W1 U Hb Pb); auto; lia.
    + intros d1 X1. cbn [Nat.add] in X1.
      eapply wp_mono; [apply (wp_for (fun i d => xored b i ks (pdata pb) d)); [exact X1|]|].
      * intros i d2 Hi X. apply (out_packet c r1 ks b (pdata pb) W1 U Hb Pb); auto; lia.
      * intros d2. cbv beta. replace (2 * (n_packets pb / 2) + (n_packets pb - 2 * (n_packets pb / 2))) with (n_packets pb) by lia. auto.
Qed.

(** ** The whole batch *)
(* key->stream of a context that holds the control word *)
Definition key_stream_ok (c : build) (m : mem) (key : N) (cw : list N) : Prop :=
  forall i, i < 64 -> key_stream_word c m key i = Ok (if cw_bit cw i then BS_VAL c 1 255 else BS_VAL c 1 0).
(* key->stream of any context: packet p sees the control word cw p in its bit lane *)
Definition key_stream_lanes (c : build) (m : mem) (key : N) (cw : nat -> list N) : Prop :=
  (forall p, p < batch_size c -> length (cw p) = 8 /\ Forall is_byte (cw p)) /\
  forall i, i < 64 -> exists w, key_stream_word c m key i = Ok w /\ wf c w /\
    forall p, p < batch_size c -> mbit w (spos c p) = cw_bit (cw p) i.
Lemma key_stream_lanes_const c m key cw : length cw = 8 -> Forall is_byte cw -> key_stream_ok c m key cw ->
  key_stream_lanes c m key (fun _ => cw).
Proof.
  intros L F K. split; [auto|]. intros a Ha. rewrite (K a Ha). eexists; split; [reflexivity|].
  destruct (cw_bit cw a); (split; [apply wf_val; auto|]); intros p Hp; [apply mbit_ff|apply mbit_00]; apply spos_bound, Hp.
Qed.

Definition slot_iv (d : list N) (i : nat) : list N := firstn 8 (skipn (i * slot) d).
(* packets 0 .. n-1, bytes 8 .. 8*b-1, are XORed with their keystream *)
Definition streamed (cw : nat -> list N) (n b : nat) (d d' : list N) : Prop :=
  length d' = length d /\ Forall is_byte d' /\
  forall k, nth k d' 0%N = if (k / slot <? n) && ((8 <=? k mod slot) && (k mod slot <? 8 * b))
                           then N.lxor (nth k d 0%N) (nth (k mod slot - 8) (keystream (cw (k / slot)) (slot_iv d (k / slot)) 176) 0%N)
                           else nth k d 0%N.

Lemma ready_set_sb p s sb st row : ready (pr p s) sb st -> length row = 64 -> ready (pr p (set_sb s row)) (col p row) st.
Proof.
  intros (pa & pb & E & H) L. exists pa, pb.
  split; [|unfold col; rewrite map_length; tauto].
  unfold pr, kstate, set_sb, col in *. cbn [rgA rgB rgX rgY rgZ rgD rgE rgF rgsb rgp rgq rgr].
  injection E as -> -> -> -> -> -> -> -> _ -> -> ->. reflexivity.
Qed.
Lemma ready_sb p s sb st : ready (pr p s) sb st -> sb = col p (rgsb s) /\ length (rgsb s) = 64.
Proof.
  intros (pa & pb & E & H). unfold pr, kstate in E. injection E as _ _ _ _ _ _ _ _ E _ _ _.
  unfold col. split; [symmetry; exact E|]. rewrite <- (map_length (fun w => mbit w p)), E. tauto.
Qed.
Lemma gen_after_add a b s : gen_after a (gen_after b s) = gen_after (a + b) s.
Proof. induction a as [|a IH]; [reflexivity|]. change (gen_after (S a) (gen_after b s)) with (snd (gen_byte (gen_after a (gen_after b s)))). rewrite IH. reflexivity. Qed.

Lemma junk_set_sb c s row : junk_regs c s -> wrows c 64 row -> junk_regs c (set_sb s row).
Proof. intros [[]] [Lr Fr]. unfold set_sb. constructor; [constructor|..]; cbn [rgA rgB rgX rgY rgZ rgD rgE rgF rgsb rgp rgq rgr]; assumption. Qed.


Lemma load_lanes c m key cw s : junk_regs c s -> key_stream_lanes c m key cw ->
  wp (stream_load_regs (word_ops c) (key_stream_word c m key) s) (fun s' => wfregs c s' /\
    forall i, i < batch_size c -> exists st, ready (pr (spos c i) s') (col (spos c i) (rgsb s)) st /\ babs st = stream_load (cw i)).
Proof.
  intros J [K0 K].
  assert (H : forall i, i < batch_size c ->
    wp (stream_load_regs (word_ops c) (key_stream_word c m key) s) (fun s' => wfregs c s' /\
      exists st, ready (pr (spos c i) s') (col (spos c i) (rgsb s)) st /\ babs st = stream_load (cw i))).
  { intros i Hi. pose proof (spos_bound c i Hi) as B.
    eapply wp_mono; [apply (load_run c _ (cw_bit (cw i)) s (spos c i) B J)|].
    - intros a Ha. destruct (K a Ha) as (w & E & Ww & Hw). exists w. auto.
    - intros s' (W' & _ & R'). split; [exact W'|]. exists (key_bst (cw_bit (cw i))). split; [exact R'|]. destruct (K0 i Hi). apply key_bst_load; assumption. }
  pose proof (H 0 (batch_pos c)) as H0.
  destruct (stream_load_regs (word_ops c) (key_stream_word c m key) s); cbn [wp] in *; try contradiction.
  split; [apply H0|]. intros i Hi. apply (H i Hi).
Qed.

Theorem stream_batch_ok c s0 m key cw pb mb :
  sane c -> junk_regs c s0 -> key_stream_lanes c m key cw ->
  n_packets pb <= batch_size c -> pbuf (batch_size c) (pdata pb) -> mb <= 23 ->
  wp (dvbcsa_bs_stream_cipher_batch c s0 m key pb (N.of_nat (8 * mb))) (fun pb' =>
    exists d', pb' = set_pdata pb d' /\ streamed cw (n_packets pb) mb (pdata pb) d').
Proof.
  intros Hs J K Hn Pb Hm. unfold dvbcsa_bs_stream_cipher_batch.
  assert (W0 : wrows c 64 (rgsb s0)) by (split; [apply J|apply (wr_sb _ _ (jr_wf _ _ J))]).
  apply wp_bind. eapply wp_mono; [apply (stream_in_ok c pb (rgsb s0) Hs W0 Hn Pb)|]. intros sb [Wsb (iv & Hiv & Hiv2)].
  apply wp_bind. eapply wp_mono; [apply (load_lanes c m key cw); [apply junk_set_sb; eassumption|exact K]|].
  intros s1 [W1 R1]. cbn [set_sb rgsb] in R1.
  apply wp_bind. eapply wp_mono; [apply (kernel_lanes c true s1 (fun i r => exists st, ready r (col (spos c i) sb) st /\
      babs st = stream_init (cw i) (iv i)) W1)|].
  { intros i Hi. destruct (R1 i Hi) as (st & Hr & Est).
    eapply wp_mono; [apply (kernel_init_run _ _ _ (iv i) Hr (Hiv i Hi))|].
    intros r' (s' & Hr' & E'). exists s'. split; [exact Hr'|]. rewrite E', Est. reflexivity. }
  intros s2 [W2 R2]. cbv beta in R2.
  apply wp_bind.
  pose (I := fun st : N * (regs word * pkt_buf) => let '(h, (s, p)) := st in exists b, 1 <= b <= Nat.max 1 mb /\ h = N.of_nat (8 * b) /\
     wfregs c s /\ (forall i, i < batch_size c -> exists sb' st', ready (pr (spos c i) s) sb' st' /\
        babs st' = gen_after (8 * (b - 1)) (stream_init (cw i) (iv i))) /\
     exists d1, p = set_pdata pb d1 /\ streamed cw (n_packets pb) b (pdata pb) d1).
  eapply wp_mono.
  - apply (wp_while I (fun st => mb - N.to_nat (fst st) / 8)).
    + cbn [fst]. change (N.to_nat 8 / 8) with 1. lia.
    + exists 1. split; [lia|]. split; [reflexivity|]. split; [exact W2|]. split.
      * intros i Hi. destruct (R2 i Hi) as (st & Hr & E). exists (col (spos c i) sb), st. split; [exact Hr|]. exact E.
      * exists (pdata pb). split; [destruct pb; reflexivity|]. split; [reflexivity|]. split; [apply Pb|].
        intros k. destruct (Nat.leb_spec 8 (k mod slot)); destruct (Nat.ltb_spec (k mod slot) (8 * 1)); try lia; rewrite ?andb_false_r; reflexivity.
    + intros [h [s p]] (b & Hb & -> & W & R & d1 & -> & L1 & F1 & H1) Hc.
      apply N.ltb_lt in Hc. assert (Hbm : b < mb) by lia.
      cbn [fst]. rewrite Nat2N.id, (Nat.mul_comm 8 b), Nat.div_mul by lia.
      split; [lia|].
      apply wp_bind. eapply wp_mono; [apply (kernel_lanes c false s (fun i r => exists sb' st, ready r sb' st /\
        sb_of sb' (gen_bytes 8 (gen_after (8 * (b - 1)) (stream_init (cw i) (iv i)))) /\
        babs st = gen_after (8 * (S b - 1)) (stream_init (cw i) (iv i))) W)|].
      { intros i Hi. destruct (R i Hi) as (sb' & st & Hr & E).
        eapply wp_mono; [apply (kernel_gen_run _ _ _ Hr)|]. intros r' (sb2 & s' & Hr' & Hsb & E').
        exists sb2, s'. split; [exact Hr'|]. rewrite <- E. split; [exact Hsb|]. rewrite E', E, gen_after_add. f_equal. lia. }
      intros s3 [W3 R3]. cbv beta in R3.
      assert (L3 : length (rgsb s3) = 64).
      { destruct (R3 0 (batch_pos c)) as (sb' & st & Hr & _). apply (ready_sb _ _ _ _ Hr). }
      apply wp_bind. rewrite (Nat.mul_comm b 8). eapply wp_mono; [apply (stream_out_ok c (set_pdata pb d1) (rgsb s3)
        (fun i => gen_bytes 8 (gen_after (8 * (b - 1)) (stream_init (cw i) (iv i)))) b Hs)|].
      * split; [exact L3|apply (wr_sb _ _ W3)].
      * exact Hn.
      * destruct Pb as [Ld Fd]. split; [cbn [set_pdata pdata]; congruence|exact F1].
      * lia.
      * intros i Hi. destruct (R3 i Hi) as (sb' & st & Hr & Hsb & _). destruct (ready_sb _ _ _ _ Hr) as [<- _]. exact Hsb.
      * intros [p' row'] [Wr (d' & Ep & Lx & Fx & Hx)]. cbn [fst snd] in Wr, Ep. subst p'. cbn [set_pdata pdata n_packets len8] in *.
        cbn [wp]. assert (E8 : u32 (N.of_nat (8 * b) + 8) = N.of_nat (8 * S b)).
        { unfold u32. rewrite N.mod_small by lia. lia. }
        rewrite E8. split.
        -- exists (S b). split; [lia|]. split; [reflexivity|]. split.
           { destruct W3. unfold set_sb. constructor; cbn [rgA rgB rgX rgY rgZ rgD rgE rgF rgsb rgp rgq rgr]; auto. apply Wr. }
           split.
           { intros i Hi. destruct (R3 i Hi) as (sb' & st & Hr & _ & E'). exists (col (spos c i) row'), st.
             split; [eapply ready_set_sb; [exact Hr|apply Wr]|exact E']. }
           exists d'. split; [reflexivity|]. split; [congruence|]. split; [exact Fx|].
           intros k. rewrite Hx, H1.
           destruct (Nat.ltb_spec (k / slot) (n_packets pb)) as [Hk|]; cbn [andb]; [|reflexivity].
           destruct (Nat.leb_spec (8 * b) (k mod slot)); destruct (Nat.ltb_spec (k mod slot) (8 * b + 8)); cbn [andb].
           ++ destruct (Nat.leb_spec 8 (k mod slot)); [|lia]. destruct (Nat.ltb_spec (k mod slot) (8 * b)); [lia|].
              destruct (Nat.ltb_spec (k mod slot) (8 * S b)); [|lia]. cbn [andb]. f_equal.
              unfold keystream. rewrite !gen_bytes_nth by lia. rewrite gen_after_add, (Hiv2 _ Hk). unfold slot_iv. do 3 f_equal. lia.
           ++ destruct (Nat.ltb_spec (k mod slot) (8 * b)); [lia|]. destruct (Nat.ltb_spec (k mod slot) (8 * S b)); [lia|]. reflexivity.
           ++ destruct (Nat.leb_spec 8 (k mod slot)); cbn [andb]; [|reflexivity].
              destruct (Nat.ltb_spec (k mod slot) (8 * b)); [|lia]. destruct (Nat.ltb_spec (k mod slot) (8 * S b)); [|lia]. reflexivity.
           ++ destruct (Nat.ltb_spec (k mod slot) (8 * b)); [lia|]. destruct (Nat.ltb_spec (k mod slot) (8 * S b)); [lia|]. reflexivity.
        -- cbn [fst]. rewrite Nat2N.id, (Nat.mul_comm 8 (S b)), Nat.div_mul by lia. lia.
  - intros [h [s p]] [(b & Hb & -> & _ & _ & d1 & -> & H1) Hc]. apply N.ltb_ge in Hc. cbn [wp].
    exists d1. split; [reflexivity|]. destruct H1 as (L1 & F1 & H1). split; [exact L1|]. split; [exact F1|].
    intros k. rewrite H1. assert (E : b = mb \/ (b = 1 /\ mb = 0)) by lia. destruct E as [-> |[-> ->]]; [reflexivity|].
    destruct (Nat.leb_spec 8 (k mod slot)); cbn [andb]; [|reflexivity].
    destruct (Nat.ltb_spec (k mod slot) (8 * 1)); [lia|]. destruct (Nat.ltb_spec (k mod slot) (8 * 0)); [lia|]. reflexivity.
Qed.
