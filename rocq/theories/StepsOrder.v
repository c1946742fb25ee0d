(** StepsOrder.v -- the order in which the bitslice calls write their packets (C40). *)
From Verif Require Import Base Mem Spec ModelClassical ModelBsWord ModelBsTranspose ModelBsAlgo ApiSpec BsApiSpec BsKey BsAlgo BsFacts ModelAlloc HistorySpec ModelSteps StepsFacts StepsSpec StepsMachine Steps.
Local Open Scope N_scope.

(** ** The sequence of writes of a program *)
Definition upd1 (m : mem) (w : N * N) : mem := fun x => if x =? fst w then Some (snd w) else m x.
Fixpoint writes {A} (t : prog A) (m : mem) : list (N * N) :=
  match t with
  | Ret _ | Stop _ => []
  | Rd p k => match m p with Some v => writes (k v) m | None => [] end
  | Wr p v t => match m p with Some _ => (p, v) :: writes t (upd1 m (p, v)) | None => [] end
  end.
Definition apply_writes (m : mem) (l : list (N * N)) : mem := fold_left upd1 l m.

Lemma msteps_writes n : forall t m ts m', msteps n [t] m ts m' -> exists k, m' = apply_writes m (firstn k (writes t m)).
Proof.
  induction n as [|n IH]; intros t m ts m' S; inversion S as [|n0 ts0 m0 i u t' m1 ts2 m2 Ei T S2]; subst; [exists 0%nat; reflexivity|].
  assert (Hi : i = 0%nat) by (destruct i as [|[|i]]; [reflexivity|discriminate Ei|discriminate Ei]). subst i.
  cbn in Ei. injection Ei as <-. cbn [upd] in S2. inversion T as [p k m0 v E|p v t1 m0 w E]; subst.
  - cbn [writes]. rewrite E. eapply IH, S2.
  - destruct (IH _ _ _ _ S2) as [k ->]. exists (Datatypes.S k). cbn [writes]. rewrite E. reflexivity.
Qed.

Lemma writes_bind {A B} (t : prog A) (f : A -> prog B) : forall m a m1, run t m = Ok (a, m1) -> writes (pbind t f) m = writes t m ++ writes (f a) m1.
Proof.
  induction t as [x|p k IH|p v t IH|e]; intros m a m1 E; cbn [run pbind writes] in *.
  - injection E as <- <-. reflexivity.
  - unfold load in E. destruct (m p) as [v|]; [|discriminate E]. apply (IH v m a m1 E).
  - unfold store in E. destruct (m p) as [w|]; [|discriminate E]. cbn [app]. f_equal. apply (IH _ a m1 E).
  - destruct e; discriminate E.
Qed.
Lemma writes_quiet {A} (t : prog A) : quiet t -> forall m, writes t m = [].
Proof.
  induction t as [x|p k IH|p v t IH|e]; intros Q m; cbn [writes]; try reflexivity.
  - destruct (m p); [|reflexivity]. apply IH, Q.
  - destruct Q as [[] _].
Qed.
Lemma writes_reads {A B} (t : prog A) (f : A -> prog B) m a : quiet t -> reads t m (Ok a) -> writes (pbind t f) m = writes (f a) m.
Proof. intros Q R. rewrite (writes_bind t f m a m); [rewrite (writes_quiet t Q); reflexivity|]. rewrite R. reflexivity. Qed.
Lemma run_reads {A B} (t : prog A) (f : A -> prog B) m a : reads t m (Ok a) -> run (pbind t f) m = run (f a) m.
Proof. intros R. rewrite run_bind, R. reflexivity. Qed.
Lemma run_reads_ok {A B} (t : prog A) (f : A -> prog B) m r b : reads t m r -> run (pbind t f) m = Ok b -> exists a, r = Ok a /\ run (f a) m = Ok b.
Proof. intros R E. rewrite run_bind, R in E. destruct r as [a| | |]; try discriminate E. exists a. auto. Qed.

(* the writes of consecutive bytes *)
Fixpoint bytes_at (p : N) (l : list N) : list (N * N) := match l with [] => [] | b :: l => (p, b) :: bytes_at (p + 1) l end.
Lemma bytes_at_length l : forall p, length (bytes_at p l) = length l.
Proof. induction l; intros; cbn [bytes_at length]; congruence. Qed.
Lemma writes_bytes l : forall p m m', store_bytes m p l = Ok m' -> writes (wr_bytes p l) m = bytes_at p l.
Proof.
  induction l as [|b l IH]; intros p m m' E; [reflexivity|]. cbn [store_bytes wr_bytes bytes_at] in *. unfold store in E.
  destruct (m p) as [w|] eqn:Ep; [|discriminate E]. cbn [bind] in E. unfold wr. cbn [pbind writes]. rewrite Ep. f_equal. apply (IH _ _ m' E).
Qed.
Lemma firstn_bytes_at l : forall k p, firstn k (bytes_at p l) = bytes_at p (firstn k l).
Proof. induction l as [|b l IH]; intros [|k] p; cbn [bytes_at firstn]; try reflexivity. f_equal. apply IH. Qed.
Lemma apply_ext l : forall a b, same_mem a b -> same_mem (apply_writes a l) (apply_writes b l).
Proof.
  induction l as [|w l IH]; intros a b E; [exact E|]. cbn [apply_writes fold_left]. apply IH. intros x. unfold upd1. destruct (x =? fst w); [reflexivity|apply E].
Qed.
Lemma apply_bytes l : forall p m, same_mem (apply_writes m (bytes_at p l)) (put m p l).
Proof.
  induction l as [|b l IH]; intros p m x; cbn [bytes_at apply_writes fold_left].
  - unfold put. cbn [length]. destruct (N.leb_spec p x), (N.ltb_spec x (p + N.of_nat 0)); cbn; try reflexivity; lia.
  - change (fold_left upd1 ?l ?a x) with (apply_writes a l x). rewrite (IH (p + 1) _ x). unfold put, upd1. cbn [length fst snd].
    destruct (N.leb_spec (p + 1) x), (N.ltb_spec x (p + 1 + N.of_nat (length l))), (N.leb_spec p x), (N.ltb_spec x (p + N.of_nat (S (length l)))), (N.eqb_spec x p); cbn [andb]; try reflexivity; try lia.
    + replace (N.to_nat (x - p)) with (S (N.to_nat (x - (p + 1)))) by lia. reflexivity.
    + subst x. rewrite N.sub_diag. reflexivity.
Qed.

Definition in_order (l : packets) : list (N * N) := flat_map (fun x => bytes_at (fst x) (snd x)) l.
Lemma write_some_ext l : forall k a b, same_mem a b -> same_mem (write_some k a l) (write_some k b l).
Proof. induction l as [|[p d] l IH]; intros k a b E; [exact E|]. cbn [write_some]. apply IH. intros x. unfold put. destruct (_ && _); [reflexivity|apply E]. Qed.
Lemma apply_order l : forall k m, same_mem (apply_writes m (firstn k (in_order l))) (write_some k m l).
Proof.
  induction l as [|[p b] l IH]; intros k m x; cbn [in_order flat_map write_some fst snd]; [destruct k; reflexivity|].
  rewrite firstn_app, bytes_at_length, firstn_bytes_at. unfold apply_writes. rewrite fold_left_app. fold (apply_writes m (bytes_at p (firstn k b))).
  change (fold_left upd1 ?l ?a x) with (apply_writes a l x). fold (in_order l). rewrite IH. apply write_some_ext, apply_bytes.
Qed.

(** ** The bitslice calls *)
Definition extent (x : N * list N) : N * nat := (fst x, length (snd x)).
Section Store.
  Context (c : build) (m : mem) (pcks : N) (ps : packets) (B : batch_array c m pcks ps).
  Notation arr := (N.of_nat (length ps * entry_bytes c + ptr_bytes c)).
  Lemma store_writes fuel : forall i d m1 mf, (i <= length ps)%nat -> same_inside pcks arr m m1 ->
    run (p_pkt_buf_store_from fuel c pcks i d) m1 = Ok (tt, mf) ->
    writes (p_pkt_buf_store_from fuel c pcks i d) m1 = in_order (taken d i (skipn i ps)) /\ same_mem mf (write_all m1 (taken d i (skipn i ps))) /\
    map extent (taken d i (skipn i ps)) = map extent (skipn i ps).
  Proof.
    induction fuel as [|fuel IH]; intros i d m1 mf Hi S R; cbn [p_pkt_buf_store_from] in *; [discriminate R|].
    pose proof (batch_data_quiet c pcks i) as Qd. pose proof (batch_data_steps c pcks i m1) as Rd.
    destruct (Nat.eq_dec i (length ps)) as [->|Ni].
    - rewrite (end_data _ _ _ _ B m1 S) in Rd. rewrite (writes_reads _ _ _ _ Qd Rd). rewrite (run_reads _ _ _ _ Rd) in R.
      cbn in R. injection R as <-. rewrite skipn_all. split; [reflexivity|]. split; [intros x; reflexivity|reflexivity].
    - destruct (nth_error ps i) as [[q buf]|] eqn:Ei; [|apply nth_error_None in Ei; lia].
      destruct (entry_data _ _ _ _ B i q buf m1 Ei S) as (D1 & D2 & D3). rewrite D1 in Rd.
      rewrite (writes_reads _ _ _ _ Qd Rd). rewrite (run_reads _ _ _ _ Rd) in R. destruct (N.eqb_spec q 0); [lia|].
      pose proof (batch_len_steps c pcks i m1) as Rl. rewrite D2 in Rl.
      rewrite (writes_reads _ _ _ _ (batch_len_quiet c pcks i) Rl). rewrite (run_reads _ _ _ _ Rl) in R.
      apply (run_reads_ok _ _ _ _ _ (reads_lift _ _)) in R as (bs & Eb & R).
      rewrite (writes_reads _ _ m1 bs (quiet_lift _)) by (rewrite <- Eb; apply reads_lift).
      rewrite Nat2N.id in Eb. unfold bget in Eb. destruct (Nat.leb_spec (i * slot + length buf) (length d)) as [Hd|]; [|discriminate Eb].
      injection Eb as Eb. assert (Lb : length bs = length buf) by (rewrite <- Eb, firstn_length, skipn_length; lia).
      rewrite run_bind in R. pose proof (acts_bytes bs q m1) as Ab. rewrite Ab in R.
      destruct (store_bytes m1 q bs) as [m2| | |] eqn:E2; try discriminate R. cbn [bind] in R.
      rewrite (writes_bind _ _ m1 tt m2) by (rewrite Ab; reflexivity). rewrite (writes_bytes _ _ _ _ E2).
      assert (Mp : mapped m1 q (N.of_nat (length bs))).
      { clear -E2. revert q m1 E2. induction bs as [|b bs IH]; intros q m1 E x Hx; cbn [length] in *; [lia|]. cbn [store_bytes] in E.
        unfold store in E. destruct (m1 q) as [w|] eqn:Eq; [|discriminate E]. cbn [bind] in E.
        destruct (N.eq_dec x q) as [->|Nx]; [eauto|]. destruct (IH _ _ E x ltac:(lia)) as [y Ey].
        cbn beta in Ey. destruct (N.eqb_spec x q); [contradiction|eauto]. }
      pose proof (store_bytes_ok bs m1 q Mp) as P. rewrite E2 in P. cbn in P.
      destruct (ba_entry _ _ _ _ B i q buf Ei) as (_ & _ & _ & _ & _ & Dj).
      destruct (IH (Datatypes.S i) d m2 mf) as (W & M & X); [lia| |exact R|].
      + intros x Hx. rewrite <- (S x Hx), P. apply put_out. intros Hq. rewrite Lb in Hq. exact (Dj x (conj Hq Hx)).
      + assert (Sk : skipn i ps = (q, buf) :: skipn (Datatypes.S i) ps).
        { clear -Ei. revert i Ei. induction ps as [|a l IH]; intros [|i] Ei; try discriminate Ei; [cbn in Ei; injection Ei as ->; reflexivity|]. cbn [skipn]. apply IH, Ei. }
        rewrite Sk, taken_cons, Eb. rewrite W. split; [reflexivity|]. split; [|cbn [map]; rewrite X; unfold extent at 1 3; cbn [fst snd]; congruence]. cbn [write_all]. intros x. rewrite (M x).
        assert (G : forall l a b, same_mem a b -> same_mem (write_all a l) (write_all b l)).
        { clear. induction l as [|[p buf] l IH]; intros a b H; [exact H|]. cbn [write_all]. apply IH. intros x. unfold put. destruct (_ && _); [reflexivity|apply H]. }
        apply G. exact P.
  Qed.
End Store.

Lemma bs_crypt_writes (enc : bool) c jk key pcks maxlen m ps m' : batch_array c m pcks ps ->
  run ((if enc then p_bs_encrypt else p_bs_decrypt) c jk key pcks maxlen) m = Ok (tt, m') ->
  exists d, writes ((if enc then p_bs_encrypt else p_bs_decrypt) c jk key pcks maxlen) m = in_order (taken d 0 ps) /\ same_mem m' (write_all m (taken d 0 ps)) /\
    map extent (taken d 0 ps) = map extent ps.
Proof.
  intros B R.
  assert (St : forall pb, run (p_pkt_buf_store c pcks pb) m = Ok (tt, m') ->
    writes (p_pkt_buf_store c pcks pb) m = in_order (taken (pdata pb) 0 ps) /\ same_mem m' (write_all m (taken (pdata pb) 0 ps)) /\
    map extent (taken (pdata pb) 0 ps) = map extent ps).
  { intros pb E. apply (store_writes c m pcks ps B (S (batch_size c)) 0 (pdata pb) m m'); [lia|intros x _; reflexivity|exact E]. }
  destruct enc; [unfold p_bs_encrypt in *|unfold p_bs_decrypt in *]; destruct (have_assert c && negb (maxlen_ok maxlen)); try discriminate R.
  - apply (run_reads_ok _ _ _ _ _ (pkt_buf_load_steps _ _ _ _)) in R as (pb1 & E1 & R).
    apply (run_reads_ok _ _ _ _ _ (block_encrypt_batch_steps _ _ _ _ _ _)) in R as (pb2 & E2 & R).
    apply (run_reads_ok _ _ _ _ _ (stream_batch_steps _ _ _ _ _ _)) in R as (pb3 & E3 & R).
    exists (pdata pb3). rewrite <- (proj1 (St pb3 R)). split; [|apply (St pb3 R)].
    rewrite (writes_reads _ _ m pb1 (pkt_buf_load_quiet _ _ _)) by (rewrite <- E1; apply pkt_buf_load_steps).
    rewrite (writes_reads _ _ m pb2 (encrypt_batch_quiet _ _ _ _ _)) by (rewrite <- E2; apply block_encrypt_batch_steps).
    apply (writes_reads _ _ m pb3 (stream_batch_quiet _ _ _ _ _)). rewrite <- E3. apply stream_batch_steps.
  - apply (run_reads_ok _ _ _ _ _ (pkt_buf_load_steps _ _ _ _)) in R as (pb1 & E1 & R).
    apply (run_reads_ok _ _ _ _ _ (stream_batch_steps _ _ _ _ _ _)) in R as (pb2 & E2 & R).
    apply (run_reads_ok _ _ _ _ _ (block_decrypt_batch_steps _ _ _ _ _ _)) in R as (pb3 & E3 & R).
    exists (pdata pb3). rewrite <- (proj1 (St pb3 R)). split; [|apply (St pb3 R)].
    rewrite (writes_reads _ _ m pb1 (pkt_buf_load_quiet _ _ _)) by (rewrite <- E1; apply pkt_buf_load_steps).
    rewrite (writes_reads _ _ m pb2 (stream_batch_quiet _ _ _ _ _)) by (rewrite <- E2; apply stream_batch_steps).
    apply (writes_reads _ _ m pb3 (decrypt_batch_quiet _ _ _ _ _)). rewrite <- E3. apply block_decrypt_batch_steps.
Qed.

(* packets that do not overlap: what is there in the end determines what was written *)
Lemma write_all_inj l : forall l' m, map extent l = map extent l' -> separate l ->
  same_mem (write_all m l) (write_all m l') -> l = l'.
Proof.
  intros l' m E S H. apply (nth_error_ext l). intros i.
  assert (Ei : forall i, option_map extent (nth_error l i) = option_map extent (nth_error l' i))
    by (intros k; rewrite <- !nth_error_map, E; reflexivity).
  pose proof (Ei i) as Q. destruct (nth_error l i) as [[p b]|] eqn:E1, (nth_error l' i) as [[p' b']|] eqn:E2; cbn in Q; try discriminate Q; [|reflexivity].
  injection Q as <- Lb. do 2 f_equal. apply (nth_ext _ _ 0 0); [exact Lb|]. intros k Hk.
  assert (L1 : forall j q d, (i < j)%nat -> nth_error l j = Some (q, d) -> ~ (q <= p + N.of_nat k < q + N.of_nat (length d))).
  { intros j q d Hj Ej Hr. apply (S i j p b q d E1 Ej ltac:(lia) (p + N.of_nat k)). split; [lia|exact Hr]. }
  pose proof (write_all_last l m i p b (p + N.of_nat k) E1 ltac:(lia) L1) as W1.
  assert (L2 : forall j q d, (i < j)%nat -> nth_error l' j = Some (q, d) -> ~ (q <= p + N.of_nat k < q + N.of_nat (length d))).
  { intros j q d Hj Ej. pose proof (Ei j) as Qj. rewrite Ej in Qj. destruct (nth_error l j) as [[q0 d0]|] eqn:Ej0; [|discriminate Qj]. cbn in Qj. injection Qj as -> Ld.
    rewrite <- Ld. apply (L1 j q d0 Hj Ej0). }
  pose proof (write_all_last l' m i p b' (p + N.of_nat k) E2 ltac:(lia) L2) as W2.
  rewrite <- H, W1 in W2. injection W2 as W2. replace (N.to_nat (p + N.of_nat k - p)) with k in W2 by lia. exact W2.
Qed.

Theorem bs_in_order (enc : bool) c jk m key pcks cw ps maxlen n t m' : call_ready c jk m key pcks cw ps maxlen -> separate ps ->
  msteps n [(if enc then p_bs_encrypt else p_bs_decrypt) c jk key pcks maxlen] m [t] m' ->
  exists k, same_mem m' (write_some k m (map_packets (on_prefix (csa enc cw) maxlen) ps)).
Proof.
  intros [Sp Lc K J B Li G] Sep S. destruct (bs_is_csa enc c jk m key pcks cw ps maxlen Sp Lc K J B Li G) as (mf & E & M).
  assert (R : run ((if enc then p_bs_encrypt else p_bs_decrypt) c jk key pcks maxlen) m = Ok (tt, mf)).
  { destruct enc; [rewrite bs_encrypt_steps|rewrite bs_decrypt_steps]; unfold bs_call in E; rewrite E; reflexivity. }
  destruct (bs_crypt_writes enc c jk key pcks maxlen m ps mf B R) as (d & W & Mf & X).
  destruct (msteps_writes _ _ _ _ _ S) as [k ->]. exists k. rewrite W.
  replace (map_packets (on_prefix (csa enc cw) maxlen) ps) with (taken d 0 ps); [apply apply_order|].
  assert (Xp : map extent (map_packets (on_prefix (csa enc cw) maxlen) ps) = map extent ps).
  { unfold map_packets. rewrite map_map. apply map_ext. intros [p b]. unfold extent. cbn [fst snd]. f_equal. apply on_prefix_length, csa_length. }
  symmetry. apply (write_all_inj _ _ m).
  - congruence.
  - intros i j p b p' b' Ei Ej Nij. rewrite nth_error_map_packets in Ei, Ej.
    destruct (nth_error ps i) as [[q d1]|] eqn:Ei0; [|discriminate Ei]. destruct (nth_error ps j) as [[q' d2]|] eqn:Ej0; [|discriminate Ej].
    cbn [option_map fst snd] in Ei, Ej. injection Ei as <- <-. injection Ej as <- <-. rewrite !on_prefix_length by apply csa_length.
    apply (Sep i j q d1 q' d2 Ei0 Ej0 Nij).
  - intros x. rewrite <- (M x). apply Mf.
Qed.

Lemma write_some_cases l : forall k m x, write_some k m l x = m x \/
  exists i p b j, nth_error l i = Some (p, b) /\ x = p + N.of_nat j /\ (j < length b)%nat /\ write_some k m l x = Some (nth j b 0).
Proof.
  induction l as [|[p b] l IH]; intros k m x; cbn [write_some]; [left; reflexivity|].
  destruct (IH (k - length b)%nat (put m p (firstn k b)) x) as [E|(i & q & d & j & Ei & Ex & Hj & E)].
  - rewrite E. unfold put. destruct (N.leb_spec p x); cbn [andb]; [|left; reflexivity].
    destruct (N.ltb_spec x (p + N.of_nat (length (firstn k b)))) as [Hx|]; [|left; reflexivity]. right.
    rewrite firstn_length in Hx. exists 0%nat, p, b, (N.to_nat (x - p)). split; [reflexivity|]. split; [lia|]. split; [lia|].
    f_equal. rewrite nth_firstn_lt by lia. reflexivity.
  - right. exists (S i), q, d, j. auto.
Qed.
Theorem bs_old_or_new (enc : bool) c jk m key pcks cw ps maxlen n t m' : call_ready c jk m key pcks cw ps maxlen -> separate ps ->
  msteps n [(if enc then p_bs_encrypt else p_bs_decrypt) c jk key pcks maxlen] m [t] m' ->
  forall i p buf j, nth_error ps i = Some (p, buf) -> (j < length buf)%nat ->
    m' (p + N.of_nat j) = Some (nth j buf 0) \/ m' (p + N.of_nat j) = Some (nth j (on_prefix (csa enc cw) maxlen buf) 0).
Proof.
  intros R Sep S i p buf j Ei Hj. destruct (bs_in_order enc c jk m key pcks cw ps maxlen n t m' R Sep S) as [k M]. rewrite (M (p + N.of_nat j)).
  destruct (write_some_cases (map_packets (on_prefix (csa enc cw) maxlen) ps) k m (p + N.of_nat j)) as [E|(i2 & q & d & j2 & Ei2 & Ex & Hj2 & E)]; rewrite E.
  - left. destruct (ba_entry _ _ _ _ (rd_batch _ _ _ _ _ _ _ _ R) i p buf Ei) as (_ & _ & [_ H] & _). apply H, Hj.
  - right. rewrite nth_error_map_packets in Ei2. destruct (nth_error ps i2) as [[q0 d0]|] eqn:E2; [|discriminate Ei2]. cbn [option_map fst snd] in Ei2. injection Ei2 as <- <-.
    rewrite on_prefix_length in Hj2 by apply csa_length.
    destruct (Nat.eq_dec i i2) as [<-|Ni].
    + rewrite Ei in E2. injection E2 as <- <-. replace j2 with j by lia. reflexivity.
    + exfalso. apply (Sep i i2 p buf q0 d0 Ei E2 Ni (p + N.of_nat j)). lia.
Qed.
