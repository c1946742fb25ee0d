(** Properties_History.v -- property theorems about allocation (C35), histories of calls (C33) and
    threads (C34).  Vocabulary: HistorySpec.v, ThreadSpec.v, and that of Properties_Bitslice.v. *)
From Verif Require Import Base Mem Spec ModelClassical ModelBsWord ModelBsAlgo ApiSpec ClassicalFacts KnownAnswers ClassicalExamples.
From Verif Require Import BsApiSpec BsRel BsFacts BsApiFacts BsKey BsMoreFacts BsReady Properties_Bitslice ModelAlloc HistorySpec History ThreadSpec Threads.
Local Open Scope N_scope.

(** ** C35 *)
(* whatever a C library that keeps its contract answers (to legal requests; nothing is known of its
   answer to an illegal one), dvbcsa_bs_key_alloc returns NULL and changes nothing, or returns a new
   block that is aligned to the bitslice word, has room for the whole context, and that
   dvbcsa_bs_key_free takes back, leaving the heap as it was.  The one other outcome is a failed
   assert, on platforms with neither _mm_malloc nor posix_memalign. *)
Theorem C35_bs_key_alloc : forall c pl l s malloc_align, good_libc c malloc_align s l ->
  have_mm_malloc pl = true \/ have_posix_memalign pl = true \/ have_assert c = true \/ malloc_align mod word_size c = 0 ->
  (exists s' p, dvbcsa_bs_key_alloc c pl l s = Ok (s', p) /\
     (p = 0 /\ s' = s \/
      0 < p /\ p mod word_size c = 0 /\ fresh (smem s) p (bs_ctx_size c) /\ mapped (smem s') p (bs_ctx_size c) /\
      same_outside p (bs_ctx_size c) (smem s) (smem s') /\
      exists s'', dvbcsa_bs_key_free pl s' p = Ok s'' /\ same_mem (smem s'') (smem s) /\ forall x, blocks s'' x = blocks s x)) \/
  (dvbcsa_bs_key_alloc c pl l s = Abort /\ have_mm_malloc pl = false /\ have_posix_memalign pl = false /\
   have_assert c = true /\ malloc_align mod word_size c <> 0).
Proof. exact bs_alloc_ok. Qed.
Print Assumptions C35_bs_key_alloc.

Theorem C35_key_alloc : forall c l s malloc_align, good_libc c malloc_align s l ->
  exists s' p, dvbcsa_key_alloc l s = Ok (s', p) /\
    (p = 0 /\ s' = s \/
     0 < p /\ fresh (smem s) p ctx_size /\ mapped (smem s') p ctx_size /\ same_outside p ctx_size (smem s) (smem s') /\
     exists s'', dvbcsa_key_free s' p = Ok s'' /\ same_mem (smem s'') (smem s) /\ forall x, blocks s'' x = blocks s x).
Proof. exact classical_alloc_ok. Qed.
Print Assumptions C35_key_alloc.

(* releasing NULL is harmless in both APIs *)
Theorem C35_free_null : forall pl s, dvbcsa_key_free s 0 = Ok s /\ dvbcsa_bs_key_free pl s 0 = Ok s.
Proof. intros pl s. split; reflexivity. Qed.
Print Assumptions C35_free_null.


(* the hypothesis is needed: without asserts, and with malloc as the only allocator, an AVX2 build
   gets contexts that are not aligned (malloc promises 16), and dvbcsa_bs_key_set then misbehaves *)
Definition ex_fallback : build := mk_build AVX2 false false false true false true (Some (0, 0)).
Definition ex_malloc : libc := fun r => match r with Malloc n => Some (0x1010, repeat 0 (N.to_nat n)) | _ => None end.
Definition ex_user : mem := put (fun x => if x <? 0x100 then Some 0 else None) 0x10 cw1.
Theorem C35_fallback_refuted : exists c pl l s s' p,
  good_libc c 16 s l /\ supported c /\ holds (smem s) 0x10 cw1 /\
  dvbcsa_bs_key_alloc c pl l s = Ok (s', p) /\ 0 < p /\ p mod word_size c <> 0 /\
  dvbcsa_bs_key_set c (fun _ => 0) (smem s') 0x10 p = UB Misaligned.
Proof.
  exists ex_fallback, (mk_platform false false), ex_malloc, (no_heap ex_user).
  exists (fst (allocate (no_heap ex_user) (Malloc (bs_ctx_size ex_fallback)) (ex_malloc (Malloc (bs_ctx_size ex_fallback))))).
  exists 0x1010. split; [|split; [|split; [|split; [reflexivity|]]]].
  - intros r L. unfold ex_malloc, fulfils. destruct r as [n|al n|n al]; try exact I. rewrite repeat_length.
    split; [reflexivity|]. cbn [req_size req_align]. split; [lia|]. split; [apply Forall_rep; reflexivity|].
    split; [|split; reflexivity]. intros x Hx. cbn [smem no_heap]. unfold ex_user. rewrite put_out by (change (N.of_nat (length cw1)) with 8; lia).
    destruct (N.ltb_spec x 0x100); [lia|reflexivity].
  - split; [split|].
    + discriminate.
    + intros a b E. injection E as <- <-. split; reflexivity.
    + intros _. split; [reflexivity|discriminate].
  - apply holds_put, bytes_of. reflexivity.
  - split; [reflexivity|]. split; [discriminate|]. vm_compute. reflexivity.
Qed.
Print Assumptions C35_fallback_refuted.

(* concrete cases: on every target, with _mm_malloc, with posix_memalign and with malloc alone *)
Definition ex_libc (ma : N) : libc := fun r =>
  if req_align ma r <=? 32 then Some (0x20000, repeat 0 (N.to_nat (req_size r))) else None.
Lemma div32 al : power_of_two al -> al <= 32 -> 0x20000 mod al = 0.
Proof.
  intros [k ->] H. assert (K : k <= 5).
  { destruct (N.leb_spec k 5) as [L|L]; [exact L|]. exfalso.
    assert (2 ^ 6 <= 2 ^ k) by (apply N.pow_le_mono_r; lia). change (2 ^ 6) with 64 in *. lia. }
  assert (k = 0 \/ k = 1 \/ k = 2 \/ k = 3 \/ k = 4 \/ k = 5) as C by lia.
  repeat (destruct C as [->|C]; [reflexivity|]). subst k. reflexivity.
Qed.
Example C35_case : forall t, good_libc (ex_build t) 32 (no_heap ex_user) (ex_libc 32) /\ 32 mod word_size (ex_build t) = 0 /\
  forall mm pm, exists s', dvbcsa_bs_key_alloc (ex_build t) (mk_platform mm pm) (ex_libc 32) (no_heap ex_user) = Ok (s', 0x20000).
Proof.
  intros t. split; [|split].
  - intros r L. unfold ex_libc. destruct (N.leb_spec (req_align 32 r) 32) as [H|]; [|exact I]. unfold fulfils. rewrite repeat_length.
    split; [reflexivity|]. split; [lia|]. split; [apply Forall_rep; reflexivity|]. split; [|split; [reflexivity|]].
    + intros x Hx. cbn [smem no_heap]. unfold ex_user. rewrite put_out by (change (N.of_nat (length cw1)) with 8; lia).
      destruct (N.ltb_spec x 0x100); [lia|reflexivity].
    + destruct r as [n|al n|n al]; cbn [req_align legal] in *; [reflexivity| |]; apply div32; tauto.
  - destruct t; reflexivity.
  - intros mm pm. destruct t, mm, pm; (eexists; reflexivity).
Qed.

(** ** C33 *)
(* a history that the abstract machine accepts runs without undefined behaviour or abort in the
   library, and leaves the program's bytes (all addresses outside live contexts) as the abstract
   machine says; the machine knows of a context only the control word last set in it *)
Theorem C33_history : forall c pl os m s', supported c -> no_int_product c -> asteps c os (no_ctx m) s' ->
  exists st', run_ops c pl os (no_heap m) = Ok st' /\
    (forall a b, user s' a = Some b -> smem st' a = Some b) /\
    (forall a, (forall k x v, actx s' k = Some (x, v) -> ~ (k <= a < k + api_size c x)) -> smem st' a = user s' a).
Proof. intros c pl os m s' Sp Ni. exact (history c pl Sp Ni os m s'). Qed.
Print Assumptions C33_history.

(* the same for every intermediate point of the history *)
Theorem C33_every_prefix : forall c pl os os' m s', supported c -> no_int_product c -> asteps c (os ++ os') (no_ctx m) s' ->
  exists s st, asteps c os (no_ctx m) s /\ asteps c os' s s' /\ run_ops c pl os (no_heap m) = Ok st /\
    forall a b, user s a = Some b -> smem st a = Some b.
Proof.
  intros c pl os os' m s' Sp Ni A.
  assert (G : forall os s0, asteps c (os ++ os') s0 s' -> exists s, asteps c os s0 s /\ asteps c os' s s').
  { clear os A. induction os as [|o os IH]; intros s0 A; cbn [app] in A.
    - exists s0. split; [constructor|exact A].
    - inversion A as [|? ? ? s1 ? A1 A2]; subst. destruct (IH s1 A2) as (s & B1 & B2). exists s. split; [econstructor; eauto|exact B2]. }
  destruct (G os _ A) as (s & B1 & B2). destruct (history c pl Sp Ni os m s B1) as (st & E & H & _). exists s, st. auto.
Qed.
Print Assumptions C33_every_prefix.

(* a concrete history: both kinds of contexts are allocated and given the same control word, a
   packet is scrambled by the classical API and descrambled by the bitslice API, contexts are freed *)
Section ExHistory.
  Context (t : target) (cw pt : list N).
  Hypothesis (Lcw : length cw = 8%nat) (Fcw : Forall is_byte cw) (Lpt : length pt = 184%nat) (Fpt : Forall is_byte pt).
  Definition ex_ps (buf : list N) : packets := [(0x400, buf)].
  Definition ex_mem1 : mem :=
    put (put (put (zero_mem 0x1000) 0x10 cw) 0x100 (array_image (ex_build t) (ex_ps pt))) 0x400 pt.
  Definition ex_block (n : N) : list N := repeat 0xa5 (N.to_nat n).
  Definition ex_setup : list op :=
    [KeyAlloc (Some (0x2001, ex_block ctx_size)); BsAlloc (Some (0x4000, ex_block (bs_ctx_size (ex_build t))));
     KeySet 0x10 0x2001; BsKeySet (fun _ => 7) 0x10 0x4000].
  Definition ex_calls : list op :=
    [Crypt true 0x2001 0x400 184; BsCrypt false (zero_stack (ex_build t)) 0x4000 0x100 184].
  Definition ex_release : list op := [KeyFree 0x2001; BsFree 0x4000].
  Definition ex_contexts : N -> option (api * option (list N)) := fun k =>
    if k =? 0x4000 then Some (Bitslice, Some cw) else if k =? 0x2001 then Some (Classical, Some cw) else None.

  Lemma ex_sizes : N.of_nat (length (array_image (ex_build t) (ex_ps pt))) = 24 /\ bs_ctx_size (ex_build t) <= 3840.
  Proof.
    split; [|destruct t; vm_compute; congruence]. rewrite array_image_length. unfold array_size, ex_ps. cbn [length].
    destruct t; reflexivity.
  Qed.
  Lemma ex_image buf : length buf = 184%nat -> array_image (ex_build t) (ex_ps buf) = array_image (ex_build t) (ex_ps pt).
  Proof. intros L. unfold array_image, ex_ps, entry_image. cbn [map concat fst snd]. rewrite L, Lpt. reflexivity. Qed.
  Lemma ex_array m buf : length buf = 184%nat -> holds m 0x400 buf -> holds m 0x100 (array_image (ex_build t) (ex_ps pt)) ->
    batch_array (ex_build t) m 0x100 (ex_ps buf).
  Proof.
    intros L H A. apply array_of_image; [rewrite ex_image by exact L; exact A|].
    intros p b [I|[]]. apply pair_equal_spec in I as [<- <-]. rewrite L.
    split; [destruct t; split; reflexivity|]. split; [reflexivity|]. split; [exact H|].
    intros x. rewrite <- (array_image_length (ex_build t)), ex_image, (proj1 ex_sizes) by exact L. lia.
  Qed.
  Lemma ex_cw_there : holds ex_mem1 0x10 cw.
  Proof.
    unfold ex_mem1. apply holds_put_disj; [apply holds_put_disj; [apply holds_put, Fcw|]|].
    - intros x. rewrite (proj1 ex_sizes), Lcw. lia.
    - intros x. rewrite Lcw, Lpt. lia.
  Qed.
  Lemma ex_array_there buf : length buf = 184%nat -> holds (put ex_mem1 0x400 buf) 0x100 (array_image (ex_build t) (ex_ps pt)).
  Proof.
    intros L. apply holds_put_disj; [|intros x; rewrite (proj1 ex_sizes), L; lia]. unfold ex_mem1.
    apply holds_put_disj; [apply holds_put, array_image_bytes|]. intros x. rewrite (proj1 ex_sizes), Lpt. lia.
  Qed.
  Lemma ex_unused a n : 0x1000 <= a -> fresh ex_mem1 a n.
  Proof.
    intros La x Hx. unfold ex_mem1. rewrite !put_out by (rewrite ?(proj1 ex_sizes), ?Lcw, ?Lpt; lia).
    unfold zero_mem. destruct (N.ltb_spec x 0x1000); [lia|reflexivity].
  Qed.

  Lemma ex_setup_runs : exists s, asteps (ex_build t) ex_setup (no_ctx ex_mem1) s /\ user s = ex_mem1 /\
    forall k, actx s k = ex_contexts k.
  Proof.
    destruct ex_sizes as [_ Z2]. eexists. split; [|split].
    - unfold ex_setup.
      eapply a_cons; [apply a_alloc; [reflexivity|unfold ex_block; rewrite repeat_length; lia|split; [apply ex_unused; lia|discriminate]]|].
      eapply a_cons; [apply a_bs_alloc; [reflexivity|unfold ex_block; rewrite repeat_length; lia| |destruct t; reflexivity]|].
      { split; [apply ex_unused; lia|]. intros k x v E. cbn in E. destruct (N.eqb_spec k 0x2001) as [->|]; [|discriminate].
        injection E as <- <-. intros y. cbn [api_size]. unfold ctx_size. lia. }
      eapply a_cons; [apply (a_key_set _ _ _ _ cw None); [reflexivity|exact Lcw|exact ex_cw_there]|].
      eapply a_cons; [apply (a_bs_key_set _ _ _ _ _ cw None); [reflexivity|exact Lcw|exact ex_cw_there]|]. apply a_nil.
    - reflexivity.
    - intros k. cbn [actx set_ctx no_ctx]. unfold ex_contexts. destruct (N.eqb_spec k 0x4000), (N.eqb_spec k 0x2001); reflexivity.
  Qed.

  Lemma ex_runs : exists s', asteps (ex_build t) (ex_setup ++ ex_calls ++ ex_release) (no_ctx ex_mem1) s' /\ holds (user s') 0x400 pt.
  Proof.
    destruct ex_setup_runs as (s & A & U & K).
    assert (G : exists s', asteps (ex_build t) (ex_calls ++ ex_release) s s' /\ holds (user s') 0x400 pt).
    { clear A. pose proof (csa_length true cw pt) as Lc. pose proof (csa_bytes true cw pt Lcw Fcw Fpt) as Bc.
      pose proof (csa_inv true cw pt) as Inv. cbn [negb] in Inv.
      assert (Ka : forall k v, ex_contexts k = Some v -> actx s k = Some v) by (intros k v E; rewrite K; exact E).
      eexists. split.
      - unfold ex_calls, ex_release. cbn [app].
        eapply a_cons; [apply (a_crypt _ _ true _ _ _ cw pt); [apply Ka; reflexivity| | |reflexivity|reflexivity]|].
        { rewrite U. apply holds_put, Fpt. } { rewrite Lpt; reflexivity. }
        eapply a_cons; [apply (a_bs_crypt _ _ false (zero_stack (ex_build t)) _ _ _ cw (ex_ps (csa true cw pt))); [apply Ka; reflexivity| | | |apply zero_stack_ok]|].
        { apply ex_array; [congruence| |]; cbn [user set_user]; rewrite U; [apply holds_put, Bc|apply ex_array_there; congruence]. }
        { split; [pose proof (ex_size t); unfold ex_ps; cbn [length]; lia|]. constructor; [cbn [snd]; lia|constructor]. }
        { exists 23%nat. split; [lia|reflexivity]. }
        eapply a_cons; [eapply a_free; [discriminate|apply Ka; reflexivity]|].
        eapply a_cons; [eapply a_bs_free; [discriminate|]; cbn [actx set_user set_ctx]; change (0x4000 =? 0x2001) with false; apply Ka; reflexivity|]. apply a_nil.
      - cbn [user set_user set_ctx no_ctx]. unfold map_packets, ex_ps. cbn [map write_all fst snd].
        replace (on_prefix (csa false cw) 184 (csa true cw pt)) with pt; [apply holds_put, Fpt|].
        unfold on_prefix. rewrite skipn_all2, app_nil_r, firstn_all2 by (rewrite Lc, Lpt; apply Nat.leb_le; reflexivity).
        symmetry. exact Inv. }
    destruct G as (s' & B & H). exists s'. split; [|exact H]. clear - A B.
    revert A. generalize (no_ctx ex_mem1) as s0. induction ex_setup as [|o os IH]; intros s0 A; inversion A; subst; [exact B|].
    cbn [app]. econstructor; eauto.
  Qed.
End ExHistory.
Example C33_case : forall t, exists s',
  asteps (ex_build t) (ex_setup t ++ ex_calls t ++ ex_release) (no_ctx (ex_mem1 t cw1 pt1)) s' /\
  holds (user s') 0x400 pt1 /\ csa_encrypt cw1 pt1 <> pt1.
Proof.
  intros t. destruct (ex_runs t cw1 pt1 eq_refl ltac:(apply bytes_of; reflexivity) eq_refl ltac:(apply bytes_of; reflexivity)) as (s' & A & H).
  exists s'. split; [exact A|]. split; [exact H|]. rewrite spec_encrypt_vector1. vm_compute. discriminate.
Qed.

(** ** C34 *)
(* After a common history [os0], two threads run [os1] and [os2].  Thread i owns the addresses Fi
   (disjoint); the contexts [sh] are shared and neither re-keyed nor freed; each thread's calls are
   fine when it runs alone.  Then every interleaving of their calls runs without undefined
   behaviour, and each thread's bytes end up as if the other thread did not exist. *)
Theorem C34_threads : forall c pl m os0 s0 F1 F2 sh os1 os2 os s1 s2,
  supported c -> no_int_product c ->
  asteps c os0 (no_ctx m) s0 -> partition c s0 F1 F2 sh ->
  asteps c os1 (view s0 F1 sh) s1 -> Forall (polite c F1 sh) os1 ->
  asteps c os2 (view s0 F2 sh) s2 -> Forall (polite c F2 sh) os2 ->
  interleaving os1 os2 os ->
  exists st st1 st2,
    run_ops c pl (os0 ++ os) (no_heap m) = Ok st /\
    run_ops c pl (os0 ++ os1) (no_heap m) = Ok st1 /\
    run_ops c pl (os0 ++ os2) (no_heap m) = Ok st2 /\
    (forall a b, user s1 a = Some b -> smem st1 a = Some b /\ smem st a = Some b) /\
    (forall a b, user s2 a = Some b -> smem st2 a = Some b /\ smem st a = Some b) /\
    (forall a b, user s0 a = Some b -> F1 a = false -> F2 a = false -> smem st a = Some b).
Proof. exact threads. Qed.
Print Assumptions C34_threads.

(* a concrete case: both threads share the two contexts of the example above.  Thread 1 owns
   [0x100, 0x500) and scrambles its packet by a bitslice call; thread 2 owns [0x600, 0x800) and
   [0x8000, 0x9000), allocates and keys a context of its own and uses it and the shared one *)
Definition ex_F1 (a : N) : bool := (0x100 <=? a) && (a <? 0x500).
Definition ex_F2 (a : N) : bool := (0x600 <=? a) && (a <? 0x800) || (0x8000 <=? a) && (a <? 0x9000).
Definition ex_sh (k : N) : bool := (k =? 0x2001) || (k =? 0x4000).
Definition ex_os1 (t : target) : list op := [BsCrypt true (zero_stack (ex_build t)) 0x4000 0x100 184].
Definition ex_os2 : list op :=
  [KeyAlloc (Some (0x8000, ex_block ctx_size)); KeySet 0x600 0x8000; Crypt false 0x8000 0x620 17; Crypt true 0x2001 0x700 17].
Lemma ex_threads t cw pt : length cw = 8%nat -> Forall is_byte cw -> length pt = 184%nat -> Forall is_byte pt ->
  exists s0 s1 s2, asteps (ex_build t) (ex_setup t) (no_ctx (ex_mem1 t cw pt)) s0 /\
    partition (ex_build t) s0 ex_F1 ex_F2 ex_sh /\
    asteps (ex_build t) (ex_os1 t) (view s0 ex_F1 ex_sh) s1 /\ Forall (polite (ex_build t) ex_F1 ex_sh) (ex_os1 t) /\
    asteps (ex_build t) ex_os2 (view s0 ex_F2 ex_sh) s2 /\ Forall (polite (ex_build t) ex_F2 ex_sh) ex_os2 /\
    holds (user s1) 0x400 (csa true cw pt).
Proof.
  intros Lcw Fcw Lpt Fpt. destruct (ex_setup_runs t cw pt Lcw Fcw Lpt) as (s0 & A0 & U & K).
  destruct (ex_sizes t pt) as [Z1 Z2].
  assert (Kc : forall k x v, actx s0 k = Some (x, v) -> k = 0x4000 /\ x = Bitslice \/ k = 0x2001 /\ x = Classical).
  { intros k x v E. rewrite K in E. unfold ex_contexts in E. destruct (N.eqb_spec k 0x4000); [injection E as <- <-; auto|].
    destruct (N.eqb_spec k 0x2001); [injection E as <- <-; auto|discriminate]. }
  assert (F1 : forall a, ex_F1 a = true <-> 0x100 <= a < 0x500) by (intros a; unfold ex_F1; lia).
  assert (F2 : forall a, ex_F2 a = true <-> (0x600 <= a < 0x800 \/ 0x8000 <= a < 0x9000)) by (intros a; unfold ex_F2; lia).
  assert (V : forall F a l, holds (ex_mem1 t cw pt) a l -> (forall x, a <= x < a + N.of_nat (length l) -> F x = true) ->
    holds (user (view s0 F ex_sh)) a l).
  { intros F a l H HF. apply (holds_ext _ _ _ _ H). intros x Hx. cbn [user view]. rewrite (HF x Hx), U. reflexivity. }
  assert (Zr : forall a n, 0x600 <= a -> a + N.of_nat n <= 0x800 -> holds (ex_mem1 t cw pt) a (repeat 0 n)).
  { intros a n H1 H2. split; [apply Forall_rep; reflexivity|]. intros i. rewrite repeat_length. intros Hi. unfold ex_mem1.
    rewrite !put_out by (rewrite ?Z1, ?Lcw, ?Lpt; lia). rewrite nth_repeat. unfold zero_mem. destruct (N.ltb_spec (a + N.of_nat i) 0x1000); [reflexivity|lia]. }
  assert (Vs : forall F k v, ex_sh k = true -> ex_contexts cw k = Some v -> actx (view s0 F ex_sh) k = Some v).
  { intros F k v Sk E. cbn [actx view]. rewrite Sk. cbn [orb]. rewrite K. exact E. }
  assert (Ps : partition (ex_build t) s0 ex_F1 ex_F2 ex_sh).
  { constructor.
    - intros a [H1 H2]. apply F1 in H1. apply F2 in H2. lia.
    - intros k x v a E _ Ha. unfold ex_F1, ex_F2. destruct (Kc k x v E) as [[-> ->]|[-> ->]]; cbn [api_size] in Ha; unfold ctx_size in Ha; split; lia.
    - intros k x v a E S Ha. destruct (Kc k x v E) as [[-> ->]|[-> ->]]; discriminate S.
    - intros k x v a E S Ha. destruct (Kc k x v E) as [[-> ->]|[-> ->]]; discriminate S. }
  pose proof (csa_length true cw pt) as Lc. pose proof (csa_bytes true cw pt Lcw Fcw Fpt) as Bc.
  exists s0. eexists. eexists. split; [exact A0|]. split; [exact Ps|]. split; [|split; [|split; [|split]]].
  - eapply a_cons; [apply (a_bs_crypt _ _ true (zero_stack (ex_build t)) _ _ _ cw (ex_ps pt)); [apply Vs; reflexivity| | | |apply zero_stack_ok]|apply a_nil].
    + eapply (ex_array t); eauto; apply V.
      * apply holds_put, Fpt.
      * intros x Hx. apply F1. lia.
      * assert (Q : holds (put (ex_mem1 t cw pt) 0x400 pt) 0x100 (array_image (ex_build t) (ex_ps pt))) by (eapply ex_array_there; eauto). apply (holds_ext _ _ _ _ Q). intros x Hx. rewrite Z1 in Hx. symmetry. apply put_out. rewrite Lpt. lia.
      * rewrite Z1. intros x Hx. apply F1. lia.
    + split; [pose proof (ex_size t); unfold ex_ps; cbn [length]; lia|]. constructor; [cbn [snd]; lia|constructor].
    + exists 23%nat. split; [lia|reflexivity].
  - repeat constructor.
  - unfold ex_os2.
    eapply a_cons; [apply a_alloc; [reflexivity|unfold ex_block; rewrite repeat_length; lia|split]|].
    { intros x Hx. cbn [user view]. rewrite U. assert (Q : ex_mem1 t cw pt x = None) by (eapply ex_unused with (a := 0x8000); eauto; lia); rewrite Q. destruct (ex_F2 x); reflexivity. }
    { intros k x v E. cbn [actx view] in E. assert (E' : actx s0 k = Some (x, v)) by (destruct (ex_sh k || ex_F2 k); [exact E|discriminate]).
      intros y. destruct (Kc k x v E') as [[-> ->]|[-> ->]]; cbn [api_size]; unfold ctx_size; lia. }
    eapply a_cons; [apply (a_key_set _ _ _ _ (repeat 0 8) None); [reflexivity|reflexivity|]|].
    { cbn [user set_ctx]. apply V; [apply Zr; lia|]. intros x. rewrite repeat_length. intros Hx. apply F2. lia. }
    eapply a_cons; [apply (a_crypt _ _ false _ _ _ (repeat 0 8) (repeat 0 17)); [reflexivity| |reflexivity|reflexivity|discriminate]|].
    { cbn [user set_ctx]. apply V; [apply Zr; lia|]. intros x. rewrite repeat_length. intros Hx. apply F2. lia. }
    eapply a_cons; [apply (a_crypt _ _ true _ _ _ cw (repeat 0 17)); [|  |reflexivity|reflexivity|reflexivity]|apply a_nil].
    { cbn [actx set_user set_ctx]. change (0x2001 =? 0x8000) with false. apply Vs; reflexivity. }
    { cbn [user set_ctx set_user]. apply holds_put_disj; [|intros x; rewrite csa_length, !repeat_length; lia].
      apply V; [apply Zr; lia|]. intros x. rewrite repeat_length. intros Hx. apply F2. lia. }
  - unfold ex_os2. constructor; [|repeat constructor]. split; [reflexivity|]. intros a Ha. apply F2. unfold ctx_size in Ha. lia.
  - cbn [user set_user]. unfold map_packets, ex_ps. cbn [map write_all fst snd].
    replace (on_prefix (csa true cw) 184 pt) with (csa true cw pt); [apply holds_put, Bc|].
    unfold on_prefix. rewrite skipn_all2, app_nil_r, firstn_all2 by (rewrite Lpt; apply Nat.leb_le; reflexivity). reflexivity.
Qed.
Example C34_case : forall t, exists s0 s1 s2, asteps (ex_build t) (ex_setup t) (no_ctx (ex_mem1 t cw1 pt1)) s0 /\
  partition (ex_build t) s0 ex_F1 ex_F2 ex_sh /\
  asteps (ex_build t) (ex_os1 t) (view s0 ex_F1 ex_sh) s1 /\ Forall (polite (ex_build t) ex_F1 ex_sh) (ex_os1 t) /\
  asteps (ex_build t) ex_os2 (view s0 ex_F2 ex_sh) s2 /\ Forall (polite (ex_build t) ex_F2 ex_sh) ex_os2 /\
  holds (user s1) 0x400 ct1.
Proof.
  intros t. assert (E : csa true cw1 pt1 = ct1) by exact spec_encrypt_vector1.
  pose proof (ex_threads t cw1 pt1 eq_refl ltac:(apply bytes_of; reflexivity) eq_refl ltac:(apply bytes_of; reflexivity)) as Q.
  rewrite E in Q. exact Q.
Qed.
