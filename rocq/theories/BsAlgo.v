(** BsAlgo.v -- dvbcsa_bs_decrypt and dvbcsa_bs_encrypt on every batch that fits the packet buffer. *)
From Verif Require Import Base Mem Spec ModelClassical ClassicalBlock ClassicalKey SpecLemmas SpecFacts ModelBsWord ModelBsTranspose ModelBsStream
  ModelBsBlock ModelBsAlgo BsApiSpec BsWordFacts BsView BsTransposeFacts BsStream BsSbox BsRegister BsBlock BsBatch BsKey BsSlot.
Local Open Scope nat_scope.

(** ** Reading the batch array *)
Lemma native_val_bytes be n v : (v < 2 ^ N.of_nat (8 * n))%N -> native_val be (native_bytes be n v) = v.
Proof.
  intros H. unfold native_val, native_bytes. replace (N.of_nat (8 * n)) with (8 * N.of_nat n)%N in H by lia.
  destruct be; rewrite ?rev_involutive; apply le_val_bytes; exact H.
Qed.

Lemma land_len8 x : (x < 2 ^ 32)%N -> N.land x 0xfffffff8 = (8 * (x / 8))%N.
Proof.
  intros H. apply N.bits_inj. intros k.
  replace (8 * (x / 8))%N with (N.shiftl (N.shiftr x 3) 3) by (rewrite N.shiftl_mul_pow2, N.shiftr_div_pow2; change (2 ^ 3)%N with 8%N; lia).
  rewrite N.land_spec. destruct (N.lt_ge_cases k 3) as [C|C].
  - rewrite N.shiftl_spec_low by exact C. assert (E : (k = 0 \/ k = 1 \/ k = 2)%N) by lia.
    destruct E as [-> | [-> | ->] ]; apply andb_false_r.
  - rewrite N.shiftl_spec_high' by exact C. rewrite N.shiftr_spec'. replace (k - 3 + 3)%N with k by lia.
    destruct (N.lt_ge_cases k 32) as [D|D].
    + assert (E : N.testbit 0xfffffff8 k = true).
      { clear H. assert (Q : forall j, j < 32 -> 3 <= j -> N.testbit 0xfffffff8 (N.of_nat j) = true).
        { intros j Hj Hj3. do 32 (destruct j as [|j]; [try reflexivity; lia|]). lia. }
        rewrite <- (N2Nat.id k). apply Q; lia. }
      rewrite E. apply andb_true_r.
    + rewrite (bits_of_bound x 32) by assumption. reflexivity.
Qed.

Section Entries.
  Context (c : build) (m : mem) (pcks : N) (ps : packets).
  Hypothesis (B : batch_array c m pcks ps).

  Lemma entry_data i p buf m' : nth_error ps i = Some (p, buf) ->
    same_inside pcks (N.of_nat (length ps * entry_bytes c + ptr_bytes c)) m m' ->
    batch_data c m' pcks i = Ok p /\ batch_len c m' pcks i = Ok (N.of_nat (length buf)) /\ (0 < p)%N.
  Proof.
    intros E S. destruct (ba_entry _ _ _ _ B i p buf E) as (Hp & HL & _ & H1 & H2 & _).
    assert (Hi : i < length ps) by (apply nth_error_Some; congruence).
    assert (Ee : entry_bytes c = 2 * ptr_bytes c) by reflexivity.
    assert (Ep : 4 <= ptr_bytes c) by (unfold ptr_bytes; destruct (ptr64 c); lia).
    assert (Hs : (i * entry_bytes c + entry_bytes c <= length ps * entry_bytes c)) by nia.
    split; [|split; [|lia]].
    - unfold batch_data.
      rewrite (load_bytes_ok' _ (native_bytes (big_endian c) (ptr_bytes c) p)).
      + cbn [bind]. rewrite native_val_bytes by apply Hp. reflexivity.
      + eapply holds_ext; [exact H1|]. rewrite native_bytes_length. intros x Hx. apply S. lia.
      + apply native_bytes_length.
    - unfold batch_len.
      rewrite (load_bytes_ok' _ (native_bytes (big_endian c) 4 (N.of_nat (length buf)))).
      + cbn [bind]. rewrite native_val_bytes by exact HL. reflexivity.
      + replace (pcks + N.of_nat (i * entry_bytes c + ptr_bytes c))%N with (pcks + N.of_nat (i * entry_bytes c) + N.of_nat (ptr_bytes c))%N by lia.
        eapply holds_ext; [exact H2|]. rewrite native_bytes_length. intros x Hx. apply S. lia.
      + apply native_bytes_length.
  Qed.

  Lemma end_data m' : same_inside pcks (N.of_nat (length ps * entry_bytes c + ptr_bytes c)) m m' ->
    batch_data c m' pcks (length ps) = Ok 0%N.
  Proof.
    intros S. pose proof (ba_end _ _ _ _ B) as H. unfold batch_data.
    rewrite (load_bytes_ok' _ (native_bytes (big_endian c) (ptr_bytes c) 0)).
    - cbn [bind]. rewrite native_val_bytes; [reflexivity|]. apply N.neq_0_lt_0, N.pow_nonzero. discriminate.
    - eapply holds_ext; [exact H|]. rewrite native_bytes_length. intros x Hx. apply S. lia.
    - apply native_bytes_length.
  Qed.

  (** *** dvbcsa_pkt_buf_load *)

  (* the packet buffer after loading packets i, i+1, ..: each is copied to its own slot *)
  Fixpoint layout (i : nat) (r : packets) (d : list N) : list N :=
    match r with [] => d | (_, buf) :: r => layout (S i) r (splice d (i * slot) buf) end.
  Fixpoint lens (i : nat) (r : packets) (l8 : list N) : list N :=
    match r with [] => l8 | (_, buf) :: r => lens (S i) r (upd l8 i (8 * (N.of_nat (length buf) / 8))%N) end.
  (* every packet ends inside the buffer *)
  Fixpoint fits (i : nat) (r : packets) : Prop :=
    match r with [] => True | (_, buf) :: r => i * slot + length buf <= batch_size c * slot /\ fits (S i) r end.

  Lemma load_run r : forall i l8 d fuel, (forall k x, nth_error r k = Some x -> nth_error ps (i + k) = Some x) ->
    i + length r = length ps -> length ps <= batch_size c -> fits i r -> length l8 = batch_size c -> length d = batch_size c * slot ->
    length r < fuel ->
    pkt_buf_load_from fuel c m pcks i l8 d = Ok (mk_pb (length ps) (lens i r l8) (layout i r d)).
  Proof.
    induction r as [|[p buf] r IH]; intros i l8 d fuel Hr Hn Hb Hf L8 Ld Hfu; cbn [length] in *; (destruct fuel as [|fuel]; [lia|]).
    - cbn [pkt_buf_load_from]. replace i with (length ps) by lia. rewrite end_data by (intros x _; reflexivity). cbn [bind]. reflexivity.
    - cbn [pkt_buf_load_from]. assert (E : nth_error ps i = Some (p, buf)) by (rewrite <- (Nat.add_0_r i); apply Hr; reflexivity).
      destruct (entry_data i p buf m E) as (E1 & E2 & Hp); [intros x _; reflexivity|].
      destruct (ba_entry _ _ _ _ B i p buf E) as (_ & HL & Hbuf & _).
      rewrite E1. cbn [bind]. destruct (N.eqb_spec p 0); [lia|]. rewrite E2. cbn [bind].
      rewrite aset_ok by lia. cbn [bind]. rewrite Nat2N.id. rewrite (load_bytes_ok _ _ _ Hbuf). cbn [bind].
      destruct Hf as [Hf1 Hf]. unfold bset. rewrite (proj2 (Nat.leb_le _ _)) by lia. cbn [bind].
      rewrite IH; [|intros k x Hk; rewrite <- (Hr (S k) x Hk); f_equal; lia|lia|lia|exact Hf|rewrite upd_length; exact L8|rewrite splice_length; lia|lia].
      cbn [lens layout]. rewrite land_len8 by exact HL. reflexivity.
  Qed.

  (* C27: no terminator within the first batch_size entries *)
  Lemma load_overflow r : forall i l8 d fuel, (forall k x, nth_error r k = Some x -> nth_error ps (i + k) = Some x) ->
    i + length r = length ps -> i <= batch_size c < length ps -> fits i (firstn (batch_size c - i) r) ->
    length l8 = batch_size c -> length d = batch_size c * slot -> batch_size c - i < fuel ->
    pkt_buf_load_from fuel c m pcks i l8 d = UB OutOfBounds.
  Proof.
    induction r as [|[p buf] r IH]; intros i l8 d fuel Hr Hn Hb Hf L8 Ld Hfu; cbn [length] in *; (destruct fuel as [|fuel]; [lia|]); [lia|].
    cbn [pkt_buf_load_from]. assert (E : nth_error ps i = Some (p, buf)) by (rewrite <- (Nat.add_0_r i); apply Hr; reflexivity).
    destruct (entry_data i p buf m E) as (E1 & E2 & Hp); [intros x _; reflexivity|].
    destruct (ba_entry _ _ _ _ B i p buf E) as (_ & HL & Hbuf & _).
    rewrite E1. cbn [bind]. destruct (N.eqb_spec p 0); [lia|]. rewrite E2. cbn [bind].
    destruct (Nat.eq_dec i (batch_size c)) as [Ei|Ei].
    - unfold aset. rewrite (proj2 (Nat.ltb_ge _ _)) by lia. reflexivity.
    - rewrite aset_ok by lia. cbn [bind]. rewrite Nat2N.id. rewrite (load_bytes_ok _ _ _ Hbuf). cbn [bind].
      replace (batch_size c - i) with (S (batch_size c - S i)) in Hf by lia. cbn [firstn fits] in Hf. destruct Hf as [Hf1 Hf].
      unfold bset. rewrite (proj2 (Nat.leb_le _ _)) by lia. cbn [bind].
      apply IH; [intros k x Hk; rewrite <- (Hr (S k) x Hk); f_equal; lia|lia|lia|exact Hf|rewrite upd_length; exact L8|rewrite splice_length; lia|lia].
  Qed.

  (* C20: the buffer is overrun by a packet that does not fit *)
  Lemma load_overrun r : forall i l8 d fuel, (forall k x, nth_error r k = Some x -> nth_error ps (i + k) = Some x) ->
    i + length r = length ps -> length ps <= batch_size c -> ~ fits i r -> length l8 = batch_size c -> length d = batch_size c * slot ->
    length r < fuel ->
    pkt_buf_load_from fuel c m pcks i l8 d = UB OutOfBounds.
  Proof.
    induction r as [|[p buf] r IH]; intros i l8 d fuel Hr Hn Hb Hf L8 Ld Hfu; cbn [length] in *; (destruct fuel as [|fuel]; [lia|]);
      [exfalso; apply Hf; exact I|].
    cbn [pkt_buf_load_from]. assert (E : nth_error ps i = Some (p, buf)) by (rewrite <- (Nat.add_0_r i); apply Hr; reflexivity).
    destruct (entry_data i p buf m E) as (E1 & E2 & Hp); [intros x _; reflexivity|].
    destruct (ba_entry _ _ _ _ B i p buf E) as (_ & HL & Hbuf & _).
    rewrite E1. cbn [bind]. destruct (N.eqb_spec p 0); [lia|]. rewrite E2. cbn [bind].
    rewrite aset_ok by lia. cbn [bind]. rewrite Nat2N.id. rewrite (load_bytes_ok _ _ _ Hbuf). cbn [bind].
    unfold bset. rewrite Ld. destruct (Nat.leb_spec (i * slot + length buf) (batch_size c * slot)) as [C|C]; [|reflexivity]. cbn [bind].
    apply IH; [intros k x Hk; rewrite <- (Hr (S k) x Hk); f_equal; lia|lia|lia| |rewrite upd_length; exact L8|rewrite splice_length; lia|lia].
    intros Q. apply Hf. split; assumption.
  Qed.

  (** *** dvbcsa_pkt_buf_store *)
  Definition taken (d : list N) (i : nat) (r : packets) : packets :=
    map (fun x => (fst (fst x), firstn (length (snd (fst x))) (skipn (snd x * slot) d))) (combine r (seq i (length r))).

  Lemma taken_cons d i p buf r : taken d i ((p, buf) :: r) = (p, firstn (length buf) (skipn (i * slot) d)) :: taken d (S i) r.
  Proof. reflexivity. Qed.

  Lemma store_run r : forall i d fuel m1, (forall k x, nth_error r k = Some x -> nth_error ps (i + k) = Some x) ->
    i + length r = length ps -> fits i r -> length d = batch_size c * slot -> length r < fuel ->
    (forall x, m x <> None -> m1 x <> None) ->
    same_inside pcks (N.of_nat (length ps * entry_bytes c + ptr_bytes c)) m m1 ->
    wp (pkt_buf_store_from fuel c m1 pcks i d) (fun m' => meq m' (write_all m1 (taken d i r))).
  Proof.
    induction r as [|[p buf] r IH]; intros i d fuel m1 Hr Hn Hf Ld Hfu Hm Hs; cbn [length] in *; (destruct fuel as [|fuel]; [lia|]).
    - cbn [pkt_buf_store_from]. replace i with (length ps) by lia. rewrite (end_data m1 Hs). cbn [bind wp]. intros x; reflexivity.
    - cbn [pkt_buf_store_from]. assert (E : nth_error ps i = Some (p, buf)) by (rewrite <- (Nat.add_0_r i); apply Hr; reflexivity).
      destruct (entry_data i p buf m1 E Hs) as (E1 & E2 & Hp).
      destruct (ba_entry _ _ _ _ B i p buf E) as (_ & HL & Hbuf & _ & _ & Hd).
      rewrite E1. cbn [bind]. destruct (N.eqb_spec p 0); [lia|]. rewrite E2. cbn [bind]. rewrite Nat2N.id.
      destruct Hf as [Hf1 Hf]. unfold bget. rewrite (proj2 (Nat.leb_le _ _)) by lia. cbn [bind].
      assert (Lo : length (firstn (length buf) (skipn (i * slot) d)) = length buf) by (rewrite firstn_length, skipn_length; lia).
      apply wp_bind. eapply wp_mono; [apply store_bytes_ok|].
      + rewrite Lo. intros x Hx. destruct (m1 x) eqn:Em; [eauto|]. exfalso. apply (Hm x); [|exact Em].
        destruct (holds_mapped _ _ _ Hbuf x Hx) as [b Eb]. congruence.
      + intros m2 E2'. rewrite taken_cons. cbn [write_all].
        eapply wp_mono; [apply IH; try assumption|].
        * intros k x Hk. rewrite <- (Hr (S k) x Hk). f_equal. lia.
        * lia.
        * lia.
        * intros x Hx. rewrite E2'. unfold put. nb; try discriminate; apply Hm; exact Hx.
        * intros x Hx. rewrite E2'. rewrite put_out; [apply Hs; exact Hx|]. rewrite Lo. intros Q. apply (Hd x). split; [exact Q|exact Hx].
        * intros m3 E3. eapply meq_trans; [exact E3|]. clear -E2'. generalize (taken d (S i) r).
          intros l. revert m2 m1 E2'. generalize (firstn (length buf) (skipn (i * slot) d)). intros o.
          intros m2 m1 E. assert (G : forall l a b, meq a b -> meq (write_all a l) (write_all b l)).
          { clear. induction l as [|[p buf] l IH]; intros a b H; [exact H|]. cbn [write_all]. apply IH, put_meq, H. }
          apply G, E.
  Qed.
End Entries.

Lemma write_all_meq l : forall a b, meq a b -> meq (write_all a l) (write_all b l).
Proof. induction l as [|[p buf] l IH]; intros a b H; [exact H|]. cbn [write_all]. apply IH, put_meq, H. Qed.

(** ** The packet buffer after loading *)
Lemma layout_length c r : forall i d, fits c i r -> length d = batch_size c * slot -> length (layout i r d) = length d.
Proof.
  induction r as [|[p buf] r IH]; intros i d Hf L; [reflexivity|]. cbn [layout fits] in *. destruct Hf as [H1 H2].
  rewrite IH; rewrite ?splice_length by lia; auto.
Qed.
Lemma layout_bytes r : forall i d, Forall (fun x => Forall is_byte (snd x)) r -> Forall is_byte d -> Forall is_byte (layout i r d).
Proof.
  induction r as [|[p buf] r IH]; intros i d Hr Hd; [exact Hd|]. cbn [layout]. inversion Hr; subst. apply IH; [assumption|].
  apply Forall_splice; assumption.
Qed.
Lemma layout_before c r : forall i d k, fits c i r -> length d = batch_size c * slot -> k < i * slot -> nth k (layout i r d) 0%N = nth k d 0%N.
Proof.
  induction r as [|[p buf] r IH]; intros i d k Hf L Hk; [reflexivity|]. cbn [layout fits] in *. destruct Hf as [H1 H2].
  rewrite IH by (try assumption; rewrite ?splice_length by lia; unfold slot in *; lia).
  rewrite nth_splice by lia. destruct (Nat.leb_spec (i * slot) k); [lia|]. reflexivity.
Qed.
(* slot j holds packet j, as far as it goes within the slot *)
Lemma layout_at c r : forall i d j p buf k, fits c i r -> length d = batch_size c * slot -> nth_error r j = Some (p, buf) ->
  k < slot -> k < length buf -> nth ((i + j) * slot + k) (layout i r d) 0%N = nth k buf 0%N.
Proof.
  induction r as [|[p0 buf0] r IH]; intros i d j p buf k Hf L Hj Hk Hkb; [destruct j; discriminate|]. cbn [layout fits] in *. destruct Hf as [H1 H2].
  destruct j as [|j].
  - cbn [nth_error] in Hj. inversion Hj; subst. rewrite (layout_before c) by (try assumption; rewrite ?splice_length by lia; unfold slot in *; lia).
    rewrite nth_splice by lia. rewrite Nat.add_0_r. rewrite (proj2 (Nat.leb_le _ _)) by lia. rewrite (proj2 (Nat.ltb_lt _ _)) by lia. cbn [andb].
    f_equal. lia.
  - cbn [nth_error] in Hj. replace (i + S j) with (S i + j) by lia. apply (IH _ _ _ p); try assumption. rewrite splice_length by lia. exact L.
Qed.
Lemma lens_length r : forall i l8, length (lens i r l8) = length l8.
Proof. induction r as [|[p buf] r IH]; intros i l8; [reflexivity|]. cbn [lens]. rewrite IH, upd_length. reflexivity. Qed.
Lemma lens_before r : forall i l8 k, k < i -> nth k (lens i r l8) 0%N = nth k l8 0%N.
Proof.
  induction r as [|[p buf] r IH]; intros i l8 k Hk; [reflexivity|]. cbn [lens]. rewrite IH by lia. rewrite nth_upd.
  destruct (Nat.eqb_spec k i); [lia|reflexivity].
Qed.
Lemma lens_at r : forall i l8 j p buf, i + length r <= length l8 -> nth_error r j = Some (p, buf) ->
  nth (i + j) (lens i r l8) 0%N = (8 * (N.of_nat (length buf) / 8))%N.
Proof.
  induction r as [|[p0 buf0] r IH]; intros i l8 j p buf L Hj; [destruct j; discriminate|]. cbn [lens length] in *. destruct j as [|j].
  - cbn [nth_error] in Hj. inversion Hj; subst. rewrite Nat.add_0_r, lens_before by lia. apply nth_upd_same. lia.
  - cbn [nth_error] in Hj. replace (i + S j) with (S i + j) by lia. apply (IH _ _ _ p); [rewrite upd_length; lia|exact Hj].
Qed.

Lemma lens_ok r l8 : length r <= length l8 -> len8_ok (length r) (lens 0 r l8) /\
  forall i p buf, nth_error r i = Some (p, buf) -> nblk (lens 0 r l8) i = length buf / 8.
Proof.
  intros L.
  assert (A : forall i p buf, nth_error r i = Some (p, buf) -> nth i (lens 0 r l8) 0%N = (8 * (N.of_nat (length buf) / 8))%N).
  { intros i p buf E. apply (lens_at r 0 l8 i p buf); [lia|exact E]. }
  assert (Nb : forall i p buf, nth_error r i = Some (p, buf) -> nblk (lens 0 r l8) i = length buf / 8).
  { intros i p buf E. unfold nblk. rewrite (A i p buf E).
    replace (8 * (N.of_nat (length buf) / 8))%N with (N.of_nat (8 * (length buf / 8))) by (rewrite Nat2N.inj_mul, Nat2N.inj_div; reflexivity).
    rewrite Nat2N.id, (Nat.mul_comm 8), Nat.div_mul by lia. reflexivity. }
  split; [|exact Nb]. split; [rewrite lens_length; exact L|].
  intros i Hi. destruct (nth_error r i) as [[p buf]|] eqn:E; [|apply nth_error_None in E; lia].
  rewrite (A i p buf E), (Nb i p buf E), Nat2N.inj_div. reflexivity.
Qed.

(** ** Stack contents *)
Lemma words_wrows c n l : words_ok c n l -> wrows c n l.
Proof. intros H. exact H. Qed.
Lemma stack_regs c jk : stack_ok c jk -> junk_regs c (jk_regs jk).
Proof.
  intros [_ _ [[]  []] ([] & [] & []) ([] & [] & []) [] [_ F] _].
  inversion F as [|? ? Hp F1]; subst. inversion F1 as [|? ? Hq F2]; subst. inversion F2 as [|? ? Hr _]; subst.
  constructor; [constructor|..]; assumption.
Qed.
Lemma stack_block c jk : stack_ok c jk -> forall i, bj_ok c (jk_block jk i).
Proof. intros H i. apply (so_block _ _ H i). Qed.

(** ** A keyed context *)
Lemma bs_keyed_facts c m key cw : length cw = 8 -> bs_keyed c m key cw ->
  Forall is_byte cw /\ word_aligned c key = true /\ holds m key (bs_ctx_bytes c cw).
Proof.
  intros L (kj & m0 & cwp & m1 & H & M & D & E & S).
  pose proof H as [F _]. split; [exact F|].
  assert (Al : word_aligned c key = true).
  { destruct (word_aligned c key) eqn:Al; [reflexivity|exfalso].
    unfold dvbcsa_bs_key_set in E. rewrite (load_le64_ok _ _ _ _ H L) in E. cbn [bind for_] in E.
    unfold store_word in E at 1.
    replace (word_aligned c (key + N.of_nat ((56 + 0) * word_bytes c))) with false in E; [discriminate E|].
    symmetry. unfold word_aligned in *. rewrite Nat2N.inj_mul, N.mod_add; [exact Al|]. pose proof (word_bytes_pos c). lia. }
  split; [exact Al|].
  assert (D' : disjoint cwp 8 (key + N.of_nat (56 * word_bytes c)) (N.of_nat (64 * word_bytes c))).
  { unfold bs_cw_source, word_size in D. intros x Hx. apply (D x). lia. }
  assert (MF : forall k, In k (key_schedule cw) -> mul_fits c k).
  { intros k Ik Et Ew. destruct (N.lt_ge_cases k 128) as [C|C]; [exact C|exfalso].
    rewrite (bs_key_set_ub c kj m0 cwp key cw Al M L H D' Et Ew) in E; [discriminate E|]. exists k. split; assumption. }
  pose proof (bs_key_set_ok c kj m0 cwp key cw Al M L H D' MF) as W. rewrite E in W. cbn [wp] in W.
  destruct (bs_ctx_bytes_ok c cw L F) as [Lb Fb].
  apply (holds_ext m1); [apply (holds_meq (put m0 key (bs_ctx_bytes c cw))); [apply meq_sym; exact W|apply holds_put; exact Fb]|].
  rewrite Lb. intros x Hx. apply S. exact Hx.
Qed.

(** ** The calls *)
Definition slots_done (f : nat -> list N -> list N) (mb : nat) (ps : packets) (d d2 : list N) : Prop :=
  length d2 = length d /\
  (forall i p buf, nth_error ps i = Some (p, buf) ->
     sub d2 i (Nat.min (length buf) slot) = prefix_csa (f i) (Nat.min (Nat.min (length buf) slot) (8 * mb)) (sub d i (Nat.min (length buf) slot))) /\
  (forall k, length ps * slot <= k -> nth k d2 0%N = nth k d 0%N).

Lemma nbk_min ps l8 mb i p buf : length ps <= length l8 -> nth_error ps i = Some (p, buf) -> mb <= 23 ->
  nbk (lens 0 ps l8) mb i = Nat.min (Nat.min (length buf) slot / 8) mb.
Proof.
  intros L E Hm. destruct (lens_ok ps l8 L) as [_ Nb]. unfold nbk. rewrite (Nb i p buf E).
  destruct (Nat.le_gt_cases (length buf) slot) as [C|C]; [rewrite (Nat.min_l (length buf) slot) by exact C; reflexivity|].
  rewrite (Nat.min_r (length buf) slot) by lia. change (slot / 8) with 23.
  assert (23 <= length buf / 8) by (apply Nat.div_le_lower_bound; unfold slot in C; lia). lia.
Qed.

Lemma beyond_slots n k : n * slot <= k -> n <= k / slot.
Proof. intros H. apply Nat.div_le_lower_bound; [unfold slot; lia|]. rewrite Nat.mul_comm. exact H. Qed.

Lemma layered_beyond F l8 n mb d d1 k : layered F l8 n mb d d1 -> n * slot <= k -> nth k d1 0%N = nth k d 0%N.
Proof.
  intros (_ & _ & H) Hk. pose proof (Nat.div_mod k slot ltac:(unfold slot; lia)) as E.
  pose proof (Nat.mod_upper_bound k slot ltac:(unfold slot; lia)) as Hm.
  rewrite E, (Nat.mul_comm slot). rewrite !slot_nth. rewrite H by (apply Nat.div_lt_upper_bound; unfold slot in *; lia).
  destruct (Nat.ltb_spec (k / slot) n) as [C|C]; [|reflexivity]. pose proof (beyond_slots _ _ Hk). lia.
Qed.

Lemma streamed_beyond cw n mb d d1 k : streamed cw n mb d d1 -> n * slot <= k -> nth k d1 0%N = nth k d 0%N.
Proof.
  intros (_ & _ & H) Hk. rewrite H. destruct (Nat.ltb_spec (k / slot) n) as [C|C]; [|reflexivity]. pose proof (beyond_slots _ _ Hk). lia.
Qed.

Section Calls.
  Context (c : build) (jk : junk) (m : mem) (key pcks : N) (cw kk : nat -> list N) (ps : packets) (mb : nat).
  Hypothesis (Sp : supported c) (KS : key_stream_lanes c m key cw) (KB : key_lanes c (key_block_word c m key) kk) (J : stack_ok c jk).
  Hypothesis (B : batch_array c m pcks ps) (Hn : length ps <= batch_size c) (Hf : fits c 0 ps) (Hm : mb <= 23).

  Let d0 := layout 0 ps (jk_data jk).
  Let l8 := lens 0 ps (jk_len8 jk).

  Lemma d0_ok : pbuf (batch_size c) d0.
  Proof.
    destruct (so_data _ _ J) as [L F]. split.
    - unfold d0. rewrite (layout_length c); [exact L|exact Hf|exact L].
    - apply layout_bytes; [|exact F]. apply Forall_forall. intros [p buf] I. apply In_nth_error in I as [i E].
      destruct (ba_entry _ _ _ _ B i p buf E) as (_ & _ & [Fb _] & _). exact Fb.
  Qed.

  Lemma maxlen_is_ok : maxlen_ok (N.of_nat (8 * mb)) = true.
  Proof.
    unfold maxlen_ok. apply andb_true_intro. split; [|apply N.leb_le; lia].
    apply N.eqb_eq. rewrite Nat2N.inj_mul, N.mul_comm. apply N.mod_mul. discriminate.
  Qed.

  Lemma run_load : dvbcsa_pkt_buf_load c m pcks (mk_pb 0 (jk_len8 jk) (jk_data jk)) = Ok (mk_pb (length ps) l8 d0).
  Proof.
    unfold dvbcsa_pkt_buf_load. apply (load_run c m pcks ps B); try lia; try exact Hf.
    - intros k x E. exact E.
    - apply (so_len8 _ _ J).
    - apply (so_data _ _ J).
  Qed.

  Lemma run_store d : length d = batch_size c * slot -> wp (dvbcsa_pkt_buf_store c m pcks (mk_pb (length ps) l8 d)) (fun m' => meq m' (write_all m (taken d 0 ps))).
  Proof.
    intros L. unfold dvbcsa_pkt_buf_store. apply (store_run c m pcks ps B); try lia; try exact Hf; try exact L.
    - intros k x E. exact E.
    - intros x H. exact H.
    - intros x _. reflexivity.
  Qed.

  Theorem decrypt_run : wp (dvbcsa_bs_decrypt c jk m key pcks (N.of_nat (8 * mb)))
    (fun m' => exists d2, slots_done (fun i => mixed_csa false (cw i) (kk (bcol c i))) mb ps d0 d2 /\ meq m' (write_all m (taken d2 0 ps))).
  Proof.
    unfold dvbcsa_bs_decrypt. rewrite maxlen_is_ok, andb_false_r, run_load. cbn [bind].
    pose proof d0_ok as Pb. destruct Pb as [Ld Fd] eqn:EPb. clear EPb.
    assert (L8 : length (jk_len8 jk) = batch_size c) by apply (so_len8 _ _ J).
    destruct (lens_ok ps (jk_len8 jk) ltac:(lia)) as [Ok8 _].
    apply wp_bind. eapply wp_mono; [apply (stream_batch_ok c (jk_regs jk) m key cw (mk_pb (length ps) l8 d0) mb); try assumption|].
    - apply Sp.
    - apply stack_regs, J.
    - intros pb1 (d1 & -> & S1). cbn [set_pdata n_packets pdata len8] in *. pose proof S1 as (L1 & F1 & _).
      apply wp_bind. eapply wp_mono; [apply (block_decrypt_batch_ok c (jk_block jk) m key kk (mk_pb (length ps) l8 d1) mb); try assumption|].
      + split; [cbn [pdata]; congruence|exact F1].
      + apply stack_block, J.
      + intros pb2 (d2 & -> & S2). cbn [set_pdata n_packets pdata len8] in *. pose proof S2 as (L2 & F2 & _).
        eapply wp_mono; [apply run_store; congruence|]. intros m' E. exists d2. split; [|exact E].
        split; [congruence|]. split.
        * intros i p buf Ei. assert (Hi : i < length ps) by (apply nth_error_Some; congruence).
          apply (decrypt_sub cw (fun i => kk (bcol c i)) l8 (length ps) mb d0 d1 d2); try assumption; try (unfold slot; lia).
          -- rewrite Ld. unfold slot in *. nia.
          -- apply (nbk_min ps _ mb i p buf); try assumption. lia.
        * intros k Hk'. rewrite (layered_beyond _ _ _ _ _ _ _ S2 Hk'). apply (streamed_beyond _ _ _ _ _ _ S1 Hk').
  Qed.

  Theorem encrypt_run : wp (dvbcsa_bs_encrypt c jk m key pcks (N.of_nat (8 * mb)))
    (fun m' => exists d2, slots_done (fun i => mixed_csa true (cw i) (kk (bcol c i))) mb ps d0 d2 /\ meq m' (write_all m (taken d2 0 ps))).
  Proof.
    unfold dvbcsa_bs_encrypt. rewrite maxlen_is_ok, andb_false_r, run_load. cbn [bind].
    pose proof d0_ok as [Ld Fd].
    assert (L8 : length (jk_len8 jk) = batch_size c) by apply (so_len8 _ _ J).
    destruct (lens_ok ps (jk_len8 jk) ltac:(lia)) as [Ok8 _].
    apply wp_bind. eapply wp_mono; [apply (block_encrypt_batch_ok c (jk_block jk) m key kk (mk_pb (length ps) l8 d0) mb); try assumption|].
    - split; assumption.
    - apply stack_block, J.
    - intros pb1 (d1 & -> & S1). cbn [set_pdata n_packets pdata len8] in *. pose proof S1 as (L1 & F1 & _).
      apply wp_bind. eapply wp_mono; [apply (stream_batch_ok c (jk_regs jk) m key cw (mk_pb (length ps) l8 d1) mb); try assumption|].
      + apply Sp.
      + apply stack_regs, J.
      + split; [cbn [pdata]; congruence|exact F1].
      + intros pb2 (d2 & -> & S2). cbn [set_pdata n_packets pdata len8] in *. pose proof S2 as (L2 & F2 & _).
        eapply wp_mono; [apply run_store; congruence|]. intros m' E. exists d2. split; [|exact E].
        split; [congruence|]. split.
        * intros i p buf Ei. assert (Hi : i < length ps) by (apply nth_error_Some; congruence).
          apply (encrypt_sub cw (fun i => kk (bcol c i)) l8 (length ps) mb d0 d1 d2); try assumption; try (unfold slot; lia).
          -- rewrite Ld. unfold slot in *. nia.
          -- apply (nbk_min ps _ mb i p buf); try assumption. lia.
        * intros k Hk'. rewrite (streamed_beyond _ _ _ _ _ _ S2 Hk'). apply (layered_beyond _ _ _ _ _ _ _ S1 Hk').
  Qed.
End Calls.
