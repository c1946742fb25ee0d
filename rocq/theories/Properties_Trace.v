(** Properties_Trace.v -- C44 (the accesses of a call are determined by addresses and lengths) and
    the part of C40 about interrupted key functions.
    Vocabulary: TraceSpec.v, StepsSpec.v, ModelSteps.v (a call as a sequence of byte accesses;
    C39_accesses_are_the_call says that these are the calls of the other models). *)
From Verif Require Import Base Mem Spec KnownAnswers ModelClassical ApiSpec ClassicalFacts ClassicalExamples ModelBsWord ModelBsAlgo BsApiSpec BsKey BsFacts BsMoreFacts BsReady BsAnyKey
  ModelSteps StepsFacts StepsSpec StepsMachine TraceSpec StepsTrace StepsOnce Properties_Bitslice Properties_Steps.
Local Open Scope N_scope.

(** ** C44 *)
(* dvbcsa_encrypt and dvbcsa_decrypt: one sequence of accesses [l] for given addresses and length,
   whatever the context and the packet contain; its length is linear in [len] *)
Theorem C44_classical : forall (enc : bool) be key data len, len < 2 ^ 31 + 16 ->
  exists l, length l = N.to_nat (if len <? 8 then 0 else 8 * len + 96 * (len / 8) - 72) /\
    forall m m', (if enc then dvbcsa_encrypt else dvbcsa_decrypt) be m key data len = Ok m' ->
      accesses ((if enc then p_encrypt else p_decrypt) be key data len) m = l.
Proof.
  intros enc be key data len B. assert (B' : len < 2 ^ 32) by (change (2 ^ 32) with 4294967296; change (2 ^ 31) with 2147483648 in B; lia).
  destruct enc.
  - destruct (encrypt_shape be key data len B) as (l & S & L). exists l. split; [exact L|]. intros m m' E.
    apply (shape_run _ l any m tt m' S). rewrite encrypt_steps, E. reflexivity.
  - destruct (decrypt_shape be key data len B') as (l & S & L). exists l. split; [exact L|]. intros m m' E.
    apply (shape_run _ l any m tt m' S). rewrite decrypt_steps, E. reflexivity.
Qed.
Print Assumptions C44_classical.

(* the key functions: the same accesses for every control word *)
Theorem C44_key_set : forall be cwp key, exists l, length l = 88%nat /\
  forall m m', dvbcsa_key_set be m cwp key = Ok m' -> accesses (p_key_set be cwp key) m = l.
Proof.
  intros be cwp key. exists (key_set_accs be cwp key). split; [apply key_set_accs_length|]. intros m m' E.
  apply (shape_run _ _ any m tt m' (key_set_shape be cwp key)). rewrite key_set_steps, E. reflexivity.
Qed.
Print Assumptions C44_key_set.
Theorem C44_bs_key_set : forall c cwp key, exists l, length l = (16 + 120 * word_bytes c)%nat /\
  forall kj m m', dvbcsa_bs_key_set c kj m cwp key = Ok m' -> accesses (p_bs_key_set c cwp key) m = l.
Proof.
  intros c cwp key. exists (bs_key_set_accs c cwp key). split; [apply bs_key_set_accs_length|]. intros kj m m' E.
  apply (shape_run _ _ any m tt m' (bs_key_set_shape c cwp key)). rewrite (bs_key_set_steps c kj cwp key m), E. reflexivity.
Qed.
Print Assumptions C44_bs_key_set.

(* the batch functions: given the context, the array, maxlen and where the packets lie ([es]), the
   accesses do not depend on the context, the contents of the packets or the stack *)
Theorem C44_bitslice : forall (enc : bool) c key pcks maxlen es, good_maxlen maxlen ->
  exists l, length l = (2 * ptr_bytes c + length es * (2 * ptr_bytes c + 12) + 2 * total_length es + word_bytes c * (64 + 56 * N.to_nat maxlen))%nat /\
    forall jk m ps m', batch_array c m pcks ps -> extents ps = es -> bs_call enc c jk m key pcks maxlen = Ok m' ->
      accesses ((if enc then p_bs_encrypt else p_bs_decrypt) c jk key pcks maxlen) m = l.
Proof.
  intros enc c key pcks maxlen es (k & Hk & ->). exists (bs_accs enc c key pcks k es). split.
  - rewrite bs_accs_length, Nat2N.id. lia.
  - intros jk m ps m' B <- E. apply (bs_accesses enc c jk key pcks k m ps m' B); [change (2 ^ 24) with 16777216; lia|].
    destruct enc; [rewrite bs_encrypt_steps|rewrite bs_decrypt_steps]; unfold bs_call in E; rewrite E; reflexivity.
Qed.
Print Assumptions C44_bitslice.
Lemma two_results (r1 r2 : res mem) p :
  match r1, r2 with Ok a, Ok b => match a p, b p with Some x, Some y => negb (x =? y) | _, _ => false end | _, _ => false end = true ->
  exists a b, r1 = Ok a /\ r2 = Ok b /\ a p <> b p.
Proof.
  destruct r1 as [a| | |]; try discriminate. destruct r2 as [b| | |]; try discriminate. intros Q. exists a, b. repeat split. intros X. rewrite X in Q.
  destruct (b p); [|discriminate Q]. rewrite N.eqb_refl in Q. discriminate Q.
Qed.
(* two packets of 17 bytes with the same accesses and different results *)
Example C44_case : exists m1 m2 m1' m2',
  dvbcsa_encrypt false m1 0x100 0x200 17 = Ok m1' /\ dvbcsa_encrypt false m2 0x100 0x200 17 = Ok m2' /\
  accesses (p_encrypt false 0x100 0x200 17) m1 = accesses (p_encrypt false 0x100 0x200 17) m2 /\
  length (accesses (p_encrypt false 0x100 0x200 17) m1) = 256%nat /\ m1' 0x200 <> m2' 0x200.
Proof.
  set (a := zero_mem 0x1000). set (b := put a 0x112 [77; 99]).
  destruct (two_results (dvbcsa_encrypt false a 0x100 0x200 17) (dvbcsa_encrypt false b 0x100 0x200 17) 0x200) as (a' & b' & E1 & E2 & X); [vm_compute; reflexivity|].
  destruct (C44_classical true false 0x100 0x200 17 eq_refl) as (l & L & H). exists a, b, a', b'.
  split; [exact E1|]. split; [exact E2|]. rewrite (H a a' E1), (H b b' E2). split; [reflexivity|]. split; [exact L|exact X].
Qed.
Example C44_bitslice_case : forall t, exists m m',
  batch_array (ex_build t) m 0x100 (place 0 ex_bufs) /\ good_maxlen 96 /\
  bs_call true (ex_build t) (zero_stack (ex_build t)) m 0x2000 0x100 96 = Ok m'.
Proof.
  intros t. destruct (C17_case t) as (m & R & S). exists m.
  destruct (C18_bs_encrypt_is_csa _ _ _ _ _ _ _ _ R S) as (m' & E & _). exists m'.
  split; [exact (rd_batch _ _ _ _ _ _ _ _ R)|]. split; [exact good96|exact E].
Qed.

(** ** C40: interrupted key functions *)
(* every byte of the context has its old value or the one the complete call would have left *)
Theorem C40_key_set_old_or_new : forall be m cwp key mf n t m', dvbcsa_key_set be m cwp key = Ok mf ->
  msteps n [p_key_set be cwp key] m [t] m' -> forall x, m' x = m x \/ m' x = mf x.
Proof. exact key_set_old_or_new. Qed.
Print Assumptions C40_key_set_old_or_new.
Theorem C40_bs_key_set_old_or_new : forall c kj m cwp key mf n t m', dvbcsa_bs_key_set c kj m cwp key = Ok mf ->
  msteps n [p_bs_key_set c cwp key] m [t] m' -> forall x, m' x = m x \/ m' x = mf x.
Proof. exact bs_key_set_old_or_new. Qed.
Print Assumptions C40_bs_key_set_old_or_new.
(* a context that an interrupted dvbcsa_bs_key_set left behind may be used: batch calls on it are
   as possible as before (so C25, C26 and C41 for arbitrary contexts apply) *)
Theorem C40_half_keyed_context_usable : forall enc c jk kj m cwp key cw mf ctx pcks ps maxlen n t m',
  call_possible c jk m key pcks ctx ps maxlen -> length cw = 8%nat -> holds m cwp cw -> bs_cw_source c cwp key ->
  dvbcsa_bs_key_set c kj m cwp key = Ok mf ->
  disjoint key (bs_ctx_size c) pcks (array_size c ps) ->
  (forall p buf, In (p, buf) ps -> disjoint key (bs_ctx_size c) p (N.of_nat (length buf))) ->
  msteps n [p_bs_key_set c cwp key] m [t] m' ->
  (exists ctx', call_possible c jk m' key pcks ctx' ps maxlen) /\ (exists m2, bs_call enc c jk m' key pcks maxlen = Ok m2).
Proof.
  intros enc c jk kj m cwp key cw mf ctx pcks ps maxlen n t m' P L H Src E Da Dp S.
  destruct (interrupted_possible c jk kj m cwp key cw mf ctx pcks ps maxlen n t m' P L H Src E Da Dp S) as [ctx' P'].
  split; [exists ctx'; exact P'|]. destruct (possible_each enc _ _ _ _ _ _ _ _ P') as (m2 & E2 & _). exists m2. exact E2.
Qed.
Print Assumptions C40_half_keyed_context_usable.
(* dvbcsa_key_set stopped after 30 accesses: the copy of the control word is there, most of the
   schedule is not *)
Example C40_key_set_case : exists mf n t m', dvbcsa_key_set false ex_mem0 0x10 0x100 = Ok mf /\
  msteps n [p_key_set false 0x10 0x100] ex_mem0 [t] m' /\ t <> Ret tt /\
  ex_mem0 0x100 <> Some 7 /\ m' 0x100 = Some 7 /\ mf 0x100 = Some 7 /\ m' 0x147 = Some 0 /\ mf 0x147 = Some 232.
Proof.
  destruct (advance_msteps 30 (p_key_set false 0x10 0x100) ex_mem0) as [n S].
  assert (Q : match dvbcsa_key_set false ex_mem0 0x10 0x100 with Ok mf => let a := advance 30 (p_key_set false 0x10 0x100) ex_mem0 in
    (match fst a with Ret _ => true | _ => false end, snd a 0x100, mf 0x100, snd a 0x147, mf 0x147) = (false, Some 7, Some 7, Some 0, Some 232) | _ => False end)
    by (vm_compute; reflexivity).
  destruct (dvbcsa_key_set false ex_mem0 0x10 0x100) as [mf| | |]; try contradiction.
  destruct (advance 30 (p_key_set false 0x10 0x100) ex_mem0) as [t m']. cbn [fst snd] in *. cbv zeta in Q.
  injection Q as Q1 Q2 Q3 Q4 Q5. exists mf, n, t, m'. split; [reflexivity|]. split; [exact S|]. repeat split; try assumption.
  - intros ->. discriminate Q1.
  - vm_compute. discriminate.
Qed.
(* the hypotheses of C40_half_keyed_context_usable: the calls of C17, the context re-keyed with a
   control word stored at 0x10 *)
Example C40_half_keyed_case : forall t, exists m mf ctx,
  let c := ex_build t in
  call_possible c (zero_stack c) m 0x2000 0x100 ctx (place 0 ex_bufs) 96 /\ holds m 0x10 (repeat 7 8) /\ bs_cw_source c 0x10 0x2000 /\
  dvbcsa_bs_key_set c (fun _ => 0) m 0x10 0x2000 = Ok mf /\
  disjoint 0x2000 (bs_ctx_size c) 0x100 (array_size c (place 0 ex_bufs)) /\
  (forall p buf, In (p, buf) (place 0 ex_bufs) -> disjoint 0x2000 (bs_ctx_size c) p (N.of_nat (length buf))).
Proof.
  intros t. destruct (ex_call t 96 good96) as (m & R & S & C & _). set (c := ex_build t) in *.
  destruct (possible_of_ready _ _ _ _ _ _ _ _ R) as (ctx & P & _).
  set (m1 := put m 0x10 (repeat 7 8)).
  assert (Q : forall x, 0x18 <= x -> m1 x = m x) by (intros x Hx; apply put_out; rewrite repeat_length; lia).
  assert (Wc : bs_ctx_size c <= 0x1000) by (subst c; destruct t; vm_compute; discriminate).
  assert (W : array_size c (place 0 ex_bufs) <= 0x40).
  { unfold array_size. change (length (place 0 ex_bufs)) with 3%nat. unfold entry_bytes, ptr_bytes. destruct (ptr64 c); lia. }
  assert (Pl : forall p buf, In (p, buf) (place 0 ex_bufs) -> 0x4000 <= p).
  { intros p buf I. repeat (destruct I as [I|I]; [injection I as <- _; vm_compute; discriminate|]). destruct I. }
  assert (H7 : holds m1 0x10 (repeat 7 8)) by (apply holds_put, bytes_of; reflexivity).
  assert (P1 : call_possible c (zero_stack c) m1 0x2000 0x100 ctx (place 0 ex_bufs) 96).
  { destruct P as [Su Al Sz Hk St Ba Li Ml]. constructor; try assumption.
    - apply (holds_ext _ _ _ _ Hk). intros x Hx. apply Q. lia.
    - apply (batch_elsewhere c m); [exact Ba| |]; [intros x Hx; apply Q; lia|]. intros p buf I x Hx. apply Q. pose proof (Pl p buf I). lia. }
  assert (Sc : bs_cw_source c 0x10 0x2000) by (intros x Hx; lia).
  destruct (key_set_runs c (fun _ => 0) m1 0x10 0x2000 (repeat 7 8)) as (mf & E & _); try assumption; try reflexivity.
  - intros k I. unfold mul_fits. subst c. destruct t; intros X; try discriminate X. intros Y. discriminate Y.
  - apply N.eqb_eq, (ps_align _ _ _ _ _ _ _ _ P1).
  - rewrite <- (ps_size _ _ _ _ _ _ _ _ P1). apply holds_mapped, (ps_key _ _ _ _ _ _ _ _ P1).
  - exists m1, mf, ctx. cbv zeta. split; [exact P1|]. split; [exact H7|]. split; [exact Sc|]. split; [exact E|]. split.
    + intros x Hx. lia.
    + intros p buf I x Hx. pose proof (Pl p buf I). lia.
Qed.
