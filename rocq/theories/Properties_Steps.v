(** Properties_Steps.v -- C39 (threads, access by access) and C40 (interrupted calls).
    Vocabulary: StepsSpec.v (the machine), HistorySpec.v and ThreadSpec.v (the abstract machine),
    ModelSteps.v (the calls as sequences of byte accesses). *)
From Verif Require Import Base Mem Spec KnownAnswers ClassicalFacts ClassicalExamples ModelClassical ModelBsWord ModelBsAlgo ApiSpec BsApiSpec BsKey BsFacts BsMoreFacts BsReady
  BsRel BsApiFacts ModelAlloc HistorySpec History ThreadSpec Threads ModelSteps StepsFacts StepsSpec StepsMachine Steps StepsOrder Properties_Bitslice Properties_History.
Local Open Scope N_scope.

(** ** C39 *)
(* The byte accesses of a call, performed without interference, are the call: same outcome, same
   memory, from every memory and for all arguments. *)
Theorem C39_accesses_are_the_call : forall c pl o st, no_alloc o ->
  step c pl o st = ('(_, m) <- run (call_prog c o) (smem st) ;; Ok (mk_state m (blocks st))).
Proof. exact call_steps. Qed.
Print Assumptions C39_accesses_are_the_call.

(* After a common history [os0], any number of threads run, each owning some addresses (pairwise
   disjoint); the contexts [sh] are shared and not re-keyed; each thread's calls are fine when it
   runs alone.  The threads are interleaved access by access, in any order.  Then at every moment:
   at most [bound] accesses have been made; no two threads are about to access the same byte unless
   both read it; no thread is stuck or has failed; a thread that has finished has left in its bytes
   what it leaves there when it runs alone; bytes that no thread owns have not changed; and the
   run can be completed. *)
Theorem C39_byte_threads : forall c pl m os0 s0 ths sh,
  supported c -> no_int_product c -> asteps c os0 (no_ctx m) s0 -> partitioned c s0 ths sh -> Forall (alone_ok c s0 sh) ths ->
  exists st0 bound, run_ops c pl os0 (no_heap m) = Ok st0 /\
  forall n ts' m', msteps n (map (fun t => calls_prog c (calls t)) ths) (smem st0) ts' m' ->
    (n <= bound)%nat /\ ~ race ts' /\
    (forall i t, nth_error ts' i = Some t -> finished t \/ exists t2 m2, tstep t m' t2 m2) /\
    (forall i th, nth_error ths i = Some th -> nth_error ts' i = Some (Ret tt) ->
       forall a b, user (result th) a = Some b -> m' a = Some b) /\
    (forall a, (forall th, In th ths -> owned th a = false) -> m' a = smem st0 a) /\
    (exists k ts2 m2, msteps k ts' m' ts2 m2 /\ Forall finished ts2).
Proof. exact byte_threads. Qed.
Print Assumptions C39_byte_threads.

(* a concrete case: the bitslice context 0x4000 is shared by threads 1 and 3; thread 2 owns the
   classical context 0x2001, gives it a new control word and uses it *)
Definition ex_T1 (t : target) (s : astate) : thread :=
  mk_thread (fun a => (0x100 <=? a) && (a <? 0x500)) [BsCrypt true (zero_stack (ex_build t)) 0x4000 0x100 184] s.
Definition ex_T2 (s : astate) : thread :=
  mk_thread (fun a => (0x600 <=? a) && (a <? 0x800) || (0x2001 <=? a) && (a <? 0x2049))
    [KeySet 0x600 0x2001; Crypt false 0x2001 0x620 17] s.
Definition ex_T3 (t : target) (s : astate) : thread :=
  mk_thread (fun a => (0x900 <=? a) && (a <? 0xa00))
    [UserWrite 0x980 [1; 2; 3]; BsCrypt false (zero_stack (ex_build t)) 0x4000 0x900 184] s.
Definition ex_sh3 (k : N) : bool := k =? 0x4000.
Lemma ex_byte_threads t cw pt : length cw = 8%nat -> Forall is_byte cw -> length pt = 184%nat -> Forall is_byte pt ->
  exists s0 s1 s2 s3, let ths := [ex_T1 t s1; ex_T2 s2; ex_T3 t s3] in
    asteps (ex_build t) (ex_setup t) (no_ctx (ex_mem1 t cw pt)) s0 /\
    partitioned (ex_build t) s0 ths ex_sh3 /\ Forall (alone_ok (ex_build t) s0 ex_sh3) ths /\
    holds (user s1) 0x400 (csa true cw pt) /\ holds (user s2) 0x620 (csa false (repeat 0 8) (repeat 0 17)) /\
    holds (user s3) 0x980 [1; 2; 3].
Proof.
  intros Lcw Fcw Lpt Fpt. destruct (ex_setup_runs t cw pt Lcw Fcw Lpt) as (s0 & A0 & U & K).
  destruct (ex_sizes t pt) as [Z1 Z2].
  assert (Kc : forall k x v, actx s0 k = Some (x, v) -> k = 0x4000 /\ x = Bitslice \/ k = 0x2001 /\ x = Classical).
  { intros k x v E. rewrite K in E. unfold ex_contexts in E. destruct (N.eqb_spec k 0x4000); [injection E as <- <-; auto|].
    destruct (N.eqb_spec k 0x2001); [injection E as <- <-; auto|discriminate]. }
  assert (V : forall F a l, holds (ex_mem1 t cw pt) a l -> (forall x, a <= x < a + N.of_nat (length l) -> F x = true) ->
    holds (user (view s0 F ex_sh3)) a l).
  { intros F a l H HF. apply (holds_ext _ _ _ _ H). intros x Hx. cbn [user view]. rewrite (HF x Hx), U. reflexivity. }
  assert (Zr : forall a n, 0x600 <= a -> a + N.of_nat n <= 0x1000 -> holds (ex_mem1 t cw pt) a (repeat 0 n)).
  { intros a n H1 H2. split; [apply Forall_rep; reflexivity|]. intros i. rewrite repeat_length. intros Hi. unfold ex_mem1.
    rewrite !put_out by (rewrite ?Z1, ?Lcw, ?Lpt; lia). rewrite nth_repeat. unfold zero_mem. destruct (N.ltb_spec (a + N.of_nat i) 0x1000); [reflexivity|lia]. }
  assert (Vs : forall F v, ex_contexts cw 0x4000 = Some v -> actx (view s0 F ex_sh3) 0x4000 = Some v).
  { intros F v E. cbn [actx view]. change (ex_sh3 0x4000) with true. cbn [orb]. rewrite K. exact E. }
  assert (B0 : forall v, v < 256 -> is_byte v) by (intros v Hv; exact Hv).
  pose proof (csa_length true cw pt) as Lc. pose proof (csa_bytes true cw pt Lcw Fcw Fpt) as Bc.
  assert (F8 : Forall is_byte (repeat 0 8)) by (apply Forall_rep; reflexivity).
  assert (F17 : Forall is_byte (repeat 0 17)) by (apply Forall_rep; reflexivity).
  pose proof (csa_bytes false (repeat 0 8) (repeat 0 17) eq_refl F8 F17) as B17.
  exists s0. eexists. eexists. eexists. split; [exact A0|]. split; [|split; [constructor; [|constructor; [|constructor; [|constructor]]]|split; [|split]]].
  - constructor.
    + intros i j u w a Ei Ej Nij Oa.
      destruct i as [|[|[|i]]]; cbn in Ei; [| | |destruct i; discriminate Ei]; injection Ei as <-;
        (destruct j as [|[|[|j]]]; cbn in Ej; [| | |destruct j; discriminate Ej]; injection Ej as <-); try contradiction;
        cbn [owned ex_T1 ex_T2 ex_T3] in *; lia.
    + intros u k x v a Iu E Sk Hr. destruct (Kc k x v E) as [[-> ->]|[-> ->]]; [|discriminate Sk].
      destruct Iu as [<-|[<-|[<-|[]]]]; cbn [owned ex_T1 ex_T2 ex_T3 api_size] in *; lia.
    + intros u k x v a Iu E Sk Hr. destruct (Kc k x v E) as [[-> ->]|[-> ->]]; [discriminate Sk|]. cbn [api_size] in Hr. unfold ctx_size in Hr.
      destruct Iu as [<-|[<-|[<-|[]]]]; cbn [owned ex_T1 ex_T2 ex_T3 api_size] in *; lia.
  - split; [|split; repeat constructor]. cbn [calls ex_T1 owned result].
    eapply a_cons; [apply (a_bs_crypt _ _ true (zero_stack (ex_build t)) _ _ _ cw (ex_ps pt)); [apply Vs; reflexivity| | | |apply zero_stack_ok]|apply a_nil].
    + eapply (ex_array t); eauto; apply V.
      * apply holds_put, Fpt.
      * intros x Hx. lia.
      * assert (Q : holds (put (ex_mem1 t cw pt) 0x400 pt) 0x100 (array_image (ex_build t) (ex_ps pt))) by (eapply ex_array_there; eauto). apply (holds_ext _ _ _ _ Q). intros x Hx. rewrite Z1 in Hx. symmetry. apply put_out. rewrite Lpt. lia.
      * rewrite Z1. intros x Hx. lia.
    + split; [pose proof (ex_size t); unfold ex_ps; cbn [length]; lia|]. constructor; [cbn [snd]; lia|constructor].
    + exists 23%nat. split; [lia|reflexivity].
  - split; [|split; repeat constructor]. cbn [calls ex_T2 owned result].
    eapply a_cons; [apply (a_key_set _ _ _ _ (repeat 0 8) (Some cw)); [|reflexivity|]|].
    { cbn [actx view]. change (ex_sh3 0x2001) with false. cbn [orb]. rewrite K. reflexivity. }
    { apply V; [apply Zr; lia|]. intros x. rewrite repeat_length. lia. }
    eapply a_cons; [apply (a_crypt _ _ false _ _ _ (repeat 0 8) (repeat 0 17)); [reflexivity| |reflexivity|reflexivity|discriminate]|apply a_nil].
    { cbn [user set_ctx]. apply V; [apply Zr; lia|]. intros x. rewrite repeat_length. lia. }
  - split; [|split; repeat constructor]. cbn [calls ex_T3 owned result].
    eapply a_cons; [apply a_write; [|repeat constructor; reflexivity]|].
    { pose proof (V (fun a => (0x900 <=? a) && (a <? 0xa00)) 0x980 (repeat 0 3)) as Q. rewrite repeat_length in Q.
      apply (holds_mapped _ _ (repeat 0 3)). apply Q; [apply Zr; lia|intros; lia]. }
    eapply a_cons; [apply (a_bs_crypt _ _ false (zero_stack (ex_build t)) _ _ _ cw []); [apply Vs; reflexivity| | | |apply zero_stack_ok]|apply a_nil].
    + constructor; [intros [|i] p buf E; discriminate E|]. cbn [user set_user length Nat.mul]. rewrite N.add_0_r.
      replace (native_bytes (big_endian (ex_build t)) (ptr_bytes (ex_build t)) 0) with (repeat 0 8) by (destruct t; reflexivity).
      apply holds_put_disj; [|intros x; rewrite repeat_length; cbn [length]; lia].
      apply V; [apply Zr; lia|]. intros x. rewrite repeat_length. lia.
    + split; [cbn [length]; lia|constructor].
    + exists 23%nat. split; [lia|reflexivity].
  - cbn [user set_user]. unfold map_packets, ex_ps. cbn [map write_all fst snd].
    replace (on_prefix (csa true cw) 184 pt) with (csa true cw pt); [apply holds_put, Bc|].
    unfold on_prefix. rewrite skipn_all2, app_nil_r, firstn_all2 by (rewrite Lpt; apply Nat.leb_le; reflexivity). reflexivity.
  - cbn [user set_user set_ctx]. apply holds_put. exact B17.
  - cbn [user set_user]. apply holds_put. repeat constructor; reflexivity.
Qed.
Example C39_case : forall t, exists s0 s1 s2 s3, let ths := [ex_T1 t s1; ex_T2 s2; ex_T3 t s3] in
  asteps (ex_build t) (ex_setup t) (no_ctx (ex_mem1 t cw1 pt1)) s0 /\
  partitioned (ex_build t) s0 ths ex_sh3 /\ Forall (alone_ok (ex_build t) s0 ex_sh3) ths /\ holds (user s1) 0x400 ct1.
Proof.
  intros t. assert (E : csa true cw1 pt1 = ct1) by exact spec_encrypt_vector1.
  destruct (ex_byte_threads t cw1 pt1 eq_refl ltac:(apply bytes_of; reflexivity) eq_refl ltac:(apply bytes_of; reflexivity)) as (s0 & s1 & s2 & s3 & Q).
  rewrite E in Q. exists s0, s1, s2, s3. cbn zeta in *. tauto.
Qed.

(** ** C40 *)
(* whenever a call is interrupted, after however many accesses, only bytes of its packets (its
   context, for the key functions) can differ from what they were; the first three need no
   assumption about the context or the memory at all *)
Theorem C40_classical : forall (enc : bool) be m key data len n t m', len < 2 ^ 32 ->
  msteps n [(if enc then p_encrypt else p_decrypt) be key data len] m [t] m' -> same_outside data len m m'.
Proof.
  intros enc be m key data len n t m' B S x Hx. apply (inside_msteps (range data len) _ _ _ _ _) with (2 := S); [|exact Hx].
  destruct enc; eapply only_inside; [apply encrypt_only, B|apply decrypt_only, B].
Qed.
Print Assumptions C40_classical.
Theorem C40_key_set : forall be m cwp key n t m', msteps n [p_key_set be cwp key] m [t] m' -> same_outside key ctx_size m m'.
Proof.
  intros be m cwp key n t m' S x Hx. apply (inside_msteps (range key ctx_size) _ _ _ _ _) with (2 := S); [|exact Hx].
  eapply only_inside, key_set_only.
Qed.
Print Assumptions C40_key_set.
Theorem C40_bs_key_set : forall c m cwp key n t m', msteps n [p_bs_key_set c cwp key] m [t] m' -> same_outside key (bs_ctx_size c) m m'.
Proof.
  intros c m cwp key n t m' S x Hx. apply (inside_msteps (range key (bs_ctx_size c)) _ _ _ _ _) with (2 := S); [|exact Hx].
  eapply only_inside, bs_key_set_only.
Qed.
Print Assumptions C40_bs_key_set.
Theorem C40_bitslice : forall (enc : bool) c jk m key pcks maxlen ps n t m', batch_array c m pcks ps ->
  msteps n [(if enc then p_bs_encrypt else p_bs_decrypt) c jk key pcks maxlen] m [t] m' ->
  forall a, (forall p buf, In (p, buf) ps -> ~ (p <= a < p + N.of_nat (length buf))) -> m' a = m a.
Proof.
  intros enc c jk m key pcks maxlen ps n t m' B S a Ha.
  apply (inside_msteps (fun x => exists p buf, In (p, buf) ps /\ range p (N.of_nat (length buf)) x) _ _ _ _ _) with (2 := S).
  - apply bs_crypt_inside with (ps := ps); [exact B|]. intros p buf x I Hx. exists p, buf. auto.
  - intros (p & buf & I & H). exact (Ha p buf I H).
Qed.
Print Assumptions C40_bitslice.

(* packets that do not overlap are rewritten one after the other, in the order of the array, each
   from its first byte to its last: at every moment a first part of the new bytes is in place and
   all the others are as before the call *)
Theorem C40_bitslice_in_order : forall (enc : bool) c jk m key pcks cw ps maxlen n t m',
  call_ready c jk m key pcks cw ps maxlen -> separate ps ->
  msteps n [(if enc then p_bs_encrypt else p_bs_decrypt) c jk key pcks maxlen] m [t] m' ->
  exists k, same_mem m' (write_some k m (map_packets (on_prefix (csa enc cw) maxlen) ps)).
Proof. exact bs_in_order. Qed.
Print Assumptions C40_bitslice_in_order.
(* so that no byte ever has a third value *)
Theorem C40_bitslice_old_or_new : forall (enc : bool) c jk m key pcks cw ps maxlen n t m',
  call_ready c jk m key pcks cw ps maxlen -> separate ps ->
  msteps n [(if enc then p_bs_encrypt else p_bs_decrypt) c jk key pcks maxlen] m [t] m' ->
  forall i p buf j, nth_error ps i = Some (p, buf) -> (j < length buf)%nat ->
    m' (p + N.of_nat j) = Some (nth j buf 0) \/ m' (p + N.of_nat j) = Some (nth j (on_prefix (csa enc cw) maxlen buf) 0).
Proof. exact bs_old_or_new. Qed.
Print Assumptions C40_bitslice_old_or_new.

(* concrete cases: the first [n] accesses of a program, as a computation *)
Fixpoint advance (n : nat) (t : prog unit) (m : mem) : prog unit * mem :=
  match n, t with
  | S n, Rd p k => match m p with Some v => advance n (k v) m | None => (t, m) end
  | S n, Wr p v t' => match m p with Some _ => advance n t' (fun x => if x =? p then Some v else m x) | None => (t, m) end
  | _, _ => (t, m)
  end.
Lemma advance_msteps n : forall t m, exists k, msteps k [t] m [fst (advance n t m)] (snd (advance n t m)).
Proof.
  induction n as [|n IH]; intros t m; [exists 0%nat; apply ms_nil|]. destruct t as [x|p k|p v t|f]; cbn [advance]; try (exists 0%nat; apply ms_nil).
  - destruct (m p) as [v|] eqn:E; [|exists 0%nat; apply ms_nil]. destruct (IH (k v) m) as [j Hj]. exists (S j).
    apply (ms_step _ _ _ 0%nat (Rd p k) (k v) m); [reflexivity|apply ts_rd, E|exact Hj].
  - destruct (m p) as [w|] eqn:E; [|exists 0%nat; apply ms_nil]. destruct (IH t (fun x => if x =? p then Some v else m x)) as [j Hj]. exists (S j).
    eapply (ms_step _ _ _ 0%nat (Wr p v t) t); [reflexivity|apply ts_wr with (w := w), E|exact Hj].
Qed.
(* dvbcsa_encrypt stopped in the middle of a packet of 17 bytes (under the zero context): the two
   blocks have been written, the residue has not *)
Example C40_classical_case : exists n t m', msteps n [p_encrypt false 0x100 0x200 17] (zero_mem 0x1000) [t] m' /\
  t <> Ret tt /\ m' 0x200 <> Some 0 /\ m' 0x208 <> Some 0 /\ m' 0x210 = Some 0.
Proof.
  destruct (advance_msteps 180 (p_encrypt false 0x100 0x200 17) (zero_mem 0x1000)) as [n S].
  assert (Q : let a := advance 180 (p_encrypt false 0x100 0x200 17) (zero_mem 0x1000) in
    (match fst a with Ret _ => true | _ => false end, snd a 0x208, snd a 0x200, snd a 0x210) = (false, Some 86, Some 216, Some 0))
    by (vm_compute; reflexivity).
  destruct (advance 180 (p_encrypt false 0x100 0x200 17) (zero_mem 0x1000)) as [t m']. cbn [fst snd] in *. cbv zeta in Q.
  injection Q as Q1 Q2 Q3 Q4. exists n, t, m'. split; [exact S|]. rewrite Q2, Q3, Q4. repeat split; try discriminate.
  intros ->. discriminate Q1.
Qed.
(* every call of C17 is a case of C40_bitslice: it can be run to its end, access by access *)
Lemma run_msteps t : forall m m', run t m = Ok (tt, m') -> exists n, msteps n [t] m [Ret tt] m'.
Proof.
  induction t as [[]|p k IH|p v t IH|f]; intros m m' E; cbn [run] in E.
  - injection E as <-. exists 0%nat. apply ms_nil.
  - unfold load in E. destruct (m p) as [v|] eqn:F; [|discriminate E]. cbn [bind] in E. destruct (IH v m m' E) as [n S].
    exists (Datatypes.S n). apply (ms_step _ _ _ 0%nat (Rd p k) (k v) m); [reflexivity|apply ts_rd, F|exact S].
  - unfold store in E. destruct (m p) as [w|] eqn:F; [|discriminate E]. cbn [bind] in E. destruct (IH _ _ E) as [n S].
    exists (Datatypes.S n). eapply (ms_step _ _ _ 0%nat (Wr p v t) t); [reflexivity|apply ts_wr with (w := w), F|exact S].
  - destruct f; discriminate E.
Qed.
Example C40_bitslice_case : forall t, exists m n m',
  call_ready (ex_build t) (zero_stack (ex_build t)) m 0x2000 0x100 cw1 (place 0 ex_bufs) 96 /\ separate (place 0 ex_bufs) /\
  msteps n [p_bs_encrypt (ex_build t) (zero_stack (ex_build t)) 0x2000 0x100 96] m [Ret tt] m' /\
  holds m' 0x4000 (on_prefix (csa_encrypt cw1) 96 pt1).
Proof.
  intros t. destruct (C17_case t) as (m & R & S). exists m.
  destruct (C18_bs_encrypt_is_csa _ _ _ _ _ _ _ _ R S) as (m' & E & H & _).
  assert (Q : run (p_bs_encrypt (ex_build t) (zero_stack (ex_build t)) 0x2000 0x100 96) m = Ok (tt, m')) by (rewrite bs_encrypt_steps, E; reflexivity).
  apply run_msteps in Q as [n Q]. exists n, m'. split; [exact R|]. split; [exact S|]. split; [exact Q|]. apply (H 0%nat 0x4000 pt1 eq_refl).
Qed.
