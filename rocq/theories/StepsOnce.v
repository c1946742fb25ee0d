(** StepsOnce.v -- the key functions write every byte of the context once: interrupted, they leave
    a mixture of old and new bytes (C40). *)
From Verif Require Import Base Mem ModelClassical ModelBsWord ModelBsTranspose ModelBsAlgo ApiSpec BsApiSpec BsKey BsAlgo BsFacts BsApiFacts BsMoreFacts
  ModelSteps StepsFacts StepsSpec StepsMachine Steps StepsOrder TraceSpec StepsTrace.
Local Open Scope N_scope.

Lemma run_writes {A} (t : prog A) : forall m a mf, run t m = Ok (a, mf) -> mf = apply_writes m (writes t m).
Proof.
  induction t as [x|p k IH|p v t IH|e]; intros m a mf R; cbn [run writes] in *.
  - injection R as _ <-. reflexivity.
  - unfold load in R. destruct (m p) as [v|]; [|discriminate R]. cbn [bind] in R. apply (IH v m a mf R).
  - unfold store in R. destruct (m p) as [w|]; [|discriminate R]. cbn [bind] in R. apply (IH _ a mf R).
  - destruct e; discriminate R.
Qed.
Lemma writes_accesses {A} (t : prog A) : forall m, map fst (writes t m) = map fst (filter snd (accesses t m)).
Proof.
  induction t as [x|p k IH|p v t IH|e]; intros m; cbn [writes accesses]; try reflexivity.
  - destruct (m p) as [v|]; [|reflexivity]. cbn [filter snd]. apply IH.
  - destruct (m p) as [w|]; [|reflexivity]. cbn [filter snd map fst]. f_equal. apply IH.
Qed.
Lemma apply_not_in l : forall m x, ~ In x (map fst l) -> apply_writes m l x = m x.
Proof.
  induction l as [|[p v] l IH]; intros m x H; [reflexivity|]. cbn [apply_writes fold_left map fst In] in *.
  change (fold_left upd1 l ?a x) with (apply_writes a l x). rewrite IH by tauto. unfold upd1. cbn [fst].
  destruct (N.eqb_spec x p) as [->|]; [tauto|reflexivity].
Qed.
Lemma once {A} (t : prog A) m a mf n t' m' (u : prog unit) : NoDup (map fst (writes t m)) -> run t m = Ok (a, mf) ->
  writes u m = writes t m -> msteps n [u] m [t'] m' -> forall x, m' x = m x \/ m' x = mf x.
Proof.
  intros D R W S x. rewrite (run_writes t m a mf R). destruct (msteps_writes _ _ _ _ _ S) as [k ->]. rewrite W.
  set (l := writes t m) in *. destruct (in_dec N.eq_dec x (map fst (firstn k l))) as [I|I]; [right|left; apply apply_not_in, I].
  rewrite <- (firstn_skipn k l) at 2. unfold apply_writes. rewrite fold_left_app.
  change (fold_left upd1 (skipn k l) ?b x) with (apply_writes b (skipn k l) x). rewrite apply_not_in; [reflexivity|].
  rewrite <- (firstn_skipn k l), map_app in D. revert D I. generalize (map fst (firstn k l)), (map fst (skipn k l)). clear.
  induction l as [|b l IH]; intros l2 D I; [destruct I|]. cbn [app] in D. inversion D as [|? ? N1 N2]; subst. destruct I as [<-|I].
  - intros I2. apply N1, in_or_app. right. exact I2.
  - apply IH; assumption.
Qed.
Lemma once_shape (t : prog unit) l m mf n t' m' : shape t l any -> NoDup (map fst (filter snd l)) -> run t m = Ok (tt, mf) ->
  msteps n [t] m [t'] m' -> forall x, m' x = m x \/ m' x = mf x.
Proof.
  intros S D R M. apply (once t m tt mf n t' m' t); [|exact R|reflexivity|exact M].
  rewrite writes_accesses, (proj1 (shape_run t l any m tt mf S R)). exact D.
Qed.

Lemma nodup_map {A B} (f : A -> B) l : (forall x y, f x = f y -> x = y) -> NoDup l -> NoDup (map f l).
Proof.
  intros Inj. induction 1 as [|x l H D IH]; cbn; constructor; [|exact IH]. intros I. apply in_map_iff in I as (y & E & I).
  apply Inj in E. subst y. exact (H I).
Qed.
Fixpoint nodupb (l : list N) : bool := match l with [] => true | x :: r => negb (existsb (N.eqb x) r) && nodupb r end.
Lemma nodupb_ok l : nodupb l = true -> NoDup l.
Proof.
  induction l as [|x l IH]; cbn; intros H; constructor; apply andb_prop in H as [H1 H2]; [|apply IH, H2].
  intros I. apply negb_true_iff in H1. assert (E : existsb (N.eqb x) l = true) by (apply existsb_exists; exists x; split; [exact I|apply N.eqb_refl]). congruence.
Qed.

Lemma key_set_writes be cwp key : exists L, map fst (filter snd (key_set_accs be cwp key)) = map (N.add key) L /\ NoDup L.
Proof.
  unfold key_set_accs, schedule_accs. rewrite !filter_app, !map_app.
  assert (R : forall p, filter snd (rd_le be p 8) = []) by (intros p; unfold rd_le; destruct be; reflexivity).
  rewrite !R. cbn [map app]. eexists (map N.of_nat ((if be then rev (seq 0 8) else seq 0 8) ++ (if be then rev (seq 8 8) else seq 8 8) ++ seq 16 56)). split.
  - unfold wr_le. destruct be; cbn -[N.add]; rewrite <- !N.add_assoc; reflexivity.
  - apply nodupb_ok. destruct be; vm_compute; reflexivity.
Qed.
Theorem key_set_old_or_new be m cwp key mf n t m' : dvbcsa_key_set be m cwp key = Ok mf ->
  msteps n [p_key_set be cwp key] m [t] m' -> forall x, m' x = m x \/ m' x = mf x.
Proof.
  intros E. apply (once_shape _ (key_set_accs be cwp key)).
  - apply key_set_shape.
  - destruct (key_set_writes be cwp key) as (L & -> & D). apply nodup_map; [intros; lia|exact D].
  - rewrite key_set_steps, E. reflexivity.
Qed.

Lemma flat_seq w : forall n a, flat_map (fun i => seq (i * w) w) (seq a n) = seq (a * w) (n * w).
Proof.
  induction n as [|n IH]; intros a; [reflexivity|]. cbn [seq flat_map]. rewrite IH. cbn [Nat.mul]. rewrite seq_app. f_equal. f_equal. lia.
Qed.
Lemma word_writes c key i : map fst (filter snd (word_accs true c key i)) = map (fun n => key + N.of_nat n) (seq (i * word_bytes c) (word_bytes c)).
Proof.
  unfold word_accs, at_. generalize (i * word_bytes c)%nat as o. generalize (word_bytes c) as n. intros n o.
  replace (filter snd _) with (map (fun i0 => (key + N.of_nat o + N.of_nat i0, true)) (seq 0 n)).
  - rewrite map_map. cbn [fst].
    assert (G : forall n a, map (fun x => key + N.of_nat o + N.of_nat x) (seq a n) = map (fun n => key + N.of_nat n) (seq (o + a) n)).
    { clear n. induction n as [|n IH]; intros a; cbn [seq map]; [reflexivity|]. f_equal; [lia|]. rewrite IH. do 2 f_equal. lia. }
    rewrite G, Nat.add_0_r. reflexivity.
  - induction (seq 0 n) as [|a l IH]; cbn; congruence.
Qed.
Lemma words_writes c key n : forall a, map fst (filter snd (flat_map (fun i => word_accs true c key i) (seq a n))) =
  map (fun n => key + N.of_nat n) (seq (a * word_bytes c) (n * word_bytes c)).
Proof.
  intros a. rewrite <- flat_seq. induction (seq a n) as [|i l IH]; [reflexivity|]. cbn [flat_map]. rewrite filter_app, !map_app, IH, word_writes. reflexivity.
Qed.
Lemma flat_map_shift {B} (f : nat -> list B) k n : flat_map (fun i => f (k + i)%nat) (seq 0 n) = flat_map f (seq k n).
Proof.
  assert (G : forall n a, flat_map (fun i => f (k + i)%nat) (seq a n) = flat_map f (seq (k + a) n)).
  { clear n. induction n as [|n IH]; intros a; cbn [seq flat_map]; [reflexivity|]. rewrite IH. do 3 f_equal. lia. }
  rewrite G, Nat.add_0_r. reflexivity.
Qed.
Lemma bs_key_set_writes c cwp key : NoDup (map fst (filter snd (bs_key_set_accs c cwp key))).
Proof.
  unfold bs_key_set_accs. rewrite !filter_app, !map_app.
  assert (R : filter snd (rd_le (big_endian c) cwp 8) = []) by (unfold rd_le; destruct (big_endian c); reflexivity).
  rewrite R. cbn [map app]. rewrite flat_map_shift, !words_writes, <- map_app. apply nodup_map; [intros; lia|].
  set (w := word_bytes c). apply (NoDup_incl_NoDup (l := seq 0 (120 * w))).
  - apply seq_NoDup.
  - rewrite app_length, !seq_length. lia.
  - intros i I. apply in_seq in I. apply in_or_app. rewrite !in_seq. lia.
Qed.
Theorem bs_key_set_old_or_new c kj m cwp key mf n t m' : dvbcsa_bs_key_set c kj m cwp key = Ok mf ->
  msteps n [p_bs_key_set c cwp key] m [t] m' -> forall x, m' x = m x \/ m' x = mf x.
Proof.
  intros E. apply (once_shape _ (bs_key_set_accs c cwp key)).
  - apply bs_key_set_shape.
  - apply bs_key_set_writes.
  - rewrite (bs_key_set_steps c kj cwp key m), E. reflexivity.
Qed.

Lemma batch_elsewhere c m pcks ps m2 : batch_array c m pcks ps -> same_inside pcks (array_size c ps) m m2 ->
  (forall p buf, In (p, buf) ps -> same_inside p (N.of_nat (length buf)) m m2) -> batch_array c m2 pcks ps.
Proof.
  intros B Sa Sp. assert (Ee : entry_bytes c = (2 * ptr_bytes c)%nat) by reflexivity.
  assert (Ep : (4 <= ptr_bytes c)%nat) by (unfold ptr_bytes; destruct (ptr64 c); lia).
  unfold array_size in Sa. constructor.
  - intros i p buf E. destruct (ba_entry _ _ _ _ B i p buf E) as (Hp & HL & Hb & H1 & H2 & D).
    assert (Hi : (i < length ps)%nat) by (apply nth_error_Some; congruence).
    split; [exact Hp|]. split; [exact HL|]. split; [|split; [|split; [|exact D]]].
    + apply (holds_ext _ _ _ _ Hb). intros x Hx. apply (Sp p buf (nth_error_In _ _ E) x Hx).
    + apply (holds_ext _ _ _ _ H1). intros x. rewrite native_bytes_length. intros Hx. apply Sa. nia.
    + apply (holds_ext _ _ _ _ H2). intros x. rewrite native_bytes_length. intros Hx. apply Sa. nia.
  - apply (holds_ext _ _ _ _ (ba_end _ _ _ _ B)). intros x. rewrite native_bytes_length. intros Hx. apply Sa. nia.
Qed.

(* a context whose dvbcsa_bs_key_set was interrupted can be used: with what key is another question *)
Theorem interrupted_possible c jk kj m cwp key cw mf ctx pcks ps maxlen n t m' :
  call_possible c jk m key pcks ctx ps maxlen -> length cw = 8%nat -> holds m cwp cw -> bs_cw_source c cwp key ->
  dvbcsa_bs_key_set c kj m cwp key = Ok mf ->
  disjoint key (bs_ctx_size c) pcks (array_size c ps) ->
  (forall p buf, In (p, buf) ps -> disjoint key (bs_ctx_size c) p (N.of_nat (length buf))) ->
  msteps n [p_bs_key_set c cwp key] m [t] m' ->
  exists ctx', call_possible c jk m' key pcks ctx' ps maxlen.
Proof.
  intros [Su Al Sz Hk St Ba Li Ml] L H Src E Da Dp S.
  assert (Mp : mapped m key (bs_ctx_size c)) by (rewrite <- Sz; apply holds_mapped, Hk).
  assert (K : bs_keyed c mf key cw) by (exists kj, m, cwp, mf; repeat (split; [assumption|]); intros x _; reflexivity).
  destruct (bs_keyed_facts c mf key cw L K) as (Fc & _ & [Ff Hf]). destruct (bs_ctx_bytes_ok c cw L Fc) as [Lb _].
  assert (Ln : length (bs_ctx_bytes c cw) = length ctx) by (unfold bs_ctx_size in Sz; lia).
  pose proof (bs_key_set_old_or_new c kj m cwp key mf n t m' E S) as O.
  assert (So : same_outside key (bs_ctx_size c) m m').
  { intros x Hx. apply (inside_msteps (range key (bs_ctx_size c)) _ _ _ _ _) with (2 := S); [|exact Hx]. eapply only_inside, bs_key_set_only. }
  set (f := fun i => match m' (key + N.of_nat i) with Some b => b | None => 0 end).
  assert (B : forall i, (i < length ctx)%nat -> is_byte (f i) /\ m' (key + N.of_nat i) = Some (f i)).
  { intros i Hi. unfold f. destruct Hk as [Fk Hk].
    assert (G : forall l, Forall is_byte l -> (i < length l)%nat -> is_byte (nth i l 0)) by (intros l F' Hl; rewrite Forall_forall in F'; apply F', nth_In, Hl).
    destruct (O (key + N.of_nat i)) as [->| ->]; [rewrite Hk by exact Hi|rewrite Hf by lia]; (split; [|reflexivity]); apply G; try assumption; lia. }
  exists (map f (seq 0 (length ctx))). constructor; try assumption.
  - rewrite map_length, seq_length. exact Sz.
  - split.
    + apply Forall_forall. intros b I. apply in_map_iff in I as (i & <- & I). apply in_seq in I. apply B. lia.
    + rewrite map_length, seq_length. intros i Hi. rewrite (nth_indep _ 0 (f 0%nat)) by (rewrite map_length, seq_length; exact Hi).
      rewrite map_nth, seq_nth by exact Hi. apply B, Hi.
  - apply (batch_elsewhere c m); [exact Ba| |].
    + intros x Hx. apply So. intros Hx'. exact (Da x (conj Hx' Hx)).
    + intros p buf I x Hx. apply So. intros Hx'. exact (Dp p buf I x (conj Hx' Hx)).
Qed.
