(** Properties_Heap.v -- C47: whole multi-threaded programs.  Vocabulary: HeapSpec.v (programs, the
    machine), HistorySpec.v (the abstract machine), ModelSteps.v (calls as byte accesses). *)
From Verif Require Import Base Mem Spec KnownAnswers ClassicalFacts ClassicalExamples ModelClassical ModelBsWord ModelBsAlgo ApiSpec BsApiSpec BsKey BsFacts BsMoreFacts BsReady
  BsRel BsApiFacts ModelAlloc HistorySpec History ThreadSpec Threads ModelSteps StepsFacts StepsSpec StepsMachine Steps HeapSpec HeapProg Heap HeapMachine Properties_Bitslice Properties_History.
Local Open Scope N_scope.

(** ** C33 *)
(* what the abstract machine says is one thing only: the bytes of the program after a history are
   determined by the history and the bytes before it *)
Theorem C33_deterministic : forall c os s s1 s2, asteps c os s s1 -> asteps c os s s2 -> s1 = s2.
Proof. exact asteps_det. Qed.
Print Assumptions C33_deterministic.

(** ** C47 *)
(* After a common history [os0], any number of threads run programs whose control flow may depend on
   the data they read and on the addresses they get; they allocate, key, use and release contexts and
   buffers of their own; the contexts [sh] are shared and not changed; bytes that no thread may write
   are readable by all.  A thread's program is [fine] on its own, wherever its memory is placed.  The
   threads are interleaved access by access, in any order; the allocator answers as the C standard
   says, possibly with memory that another thread has released, or with NULL.  Programs need not end.
   Then at every moment: no two threads are about to touch the same byte unless both read it
   (a release touches the whole block); no thread is about to do anything undefined, and each that has
   not ended can go on; a thread between two calls has in its bytes what it can have there when it
   runs alone; bytes that nobody may write and contexts that nobody may change are unchanged; a call
   in progress ends after a bounded number of its own steps, whatever the other threads do
   meanwhile.  If each program ends when run alone, every execution ends, and any can be completed. *)
Theorem C47_programs : forall c pl ma m os0 s0 ths sh,
  supported c -> no_int_product c ->
  have_mm_malloc pl = true \/ have_posix_memalign pl = true \/ ma mod word_size c = 0 ->
  asteps c os0 (no_ctx m) s0 -> separated s0 sh ths ->
  (forall w, In w ths -> fine c sh (its_code w, own_view s0 sh w)) ->
  exists st0, run_ops c pl os0 (no_heap m) = Ok st0 /\
    ((forall w, In w ths -> ends c sh (its_code w, own_view s0 sh w)) -> Acc (fun y x => goes c pl ma x y) (map start ths, st0)) /\
    forall ts st, reaches c pl ma (map start ths, st0) (ts, st) ->
      ~ conflict (ts, st) /\
      (forall i t, nth_error ts i = Some t -> ~ faulty c pl ma t st /\ (ended t \/ exists t' st', hstep c pl ma t st t' st')) /\
      (forall i w t, nth_error ths i = Some w -> nth_error ts i = Some t -> idle t ->
         exists l, lsteps c sh (its_code w, own_view s0 sh w) (todo t, l) /\
           forall a b, user (seen l) a = Some b -> smem st a = Some b) /\
      (forall a b, user s0 a = Some b -> (forall w, In w ths -> may_write w a = false) -> smem st a = Some b) /\
      (forall k x v, actx s0 k = Some (x, v) -> (forall w, In w ths -> its_ctx w k = false) -> same_inside k (api_size c x) (smem st0) (smem st)) /\
      (forall i t, nth_error ts i = Some t -> exists n, forall k y, busy c pl ma i k (ts, st) y -> (k <= n)%nat) /\
      ((forall w, In w ths -> ends c sh (its_code w, own_view s0 sh w)) -> exists y, reaches c pl ma (ts, st) y /\ Forall ended (fst y)).
Proof. exact programs. Qed.
Print Assumptions C47_programs.

(* a concrete case.  Thread 1 scrambles its packet with the shared bitslice context 0x4000, looks at
   the result and stores a byte depending on it.  Thread 2 allocates a context, keys it from a control
   word that thread 3 reads too, gets a buffer, scrambles it, copies its first byte to 0x600, and
   releases context and buffer.  Thread 3 allocates, keys and releases a bitslice context. *)
Definition ex_w1 (t : target) : worker :=
  mk_worker (fun _ => false) (fun a => (0x100 <=? a) && (a <? 0x500)) (fun _ => false)
    (Do (BsCrypt true (zero_stack (ex_build t)) 0x4000 0x100 184)
      (Look 0x400 (fun b => if b =? 0x47 then Done else Do (UserWrite 0x4c0 [b]) Done))).
Definition ex_w2 : worker :=
  mk_worker (fun a => (0x10 <=? a) && (a <? 0x18)) (fun a => (0x600 <=? a) && (a <? 0x700)) (fun _ => false)
    (New Classical (fun p => if p =? 0 then Done else
      Do (KeySet 0x10 p) (Buf 17 (fun q => if q =? 0 then Do (KeyFree p) Done else
        Do (UserWrite q (repeat 0 17)) (Do (Crypt true p q 17) (Look q (fun b =>
          Do (UserWrite 0x600 [b]) (Do (KeyFree p) (Drop q 17 Done))))))))).
Definition ex_w3 (t : target) : worker :=
  mk_worker (fun a => (0x10 <=? a) && (a <? 0x18)) (fun _ => false) (fun _ => false)
    (New Bitslice (fun p => if p =? 0 then Done else Do (BsKeySet (fun _ => 7) 0x10 p) (Do (BsFree p) Done))).

Ltac ck := rewrite checks_S; cbv beta iota.

Section Ex.
  Context (t : target) (cw pt : list N).
  Hypothesis (Lcw : length cw = 8%nat) (Fcw : Forall is_byte cw) (Lpt : length pt = 184%nat) (Fpt : Forall is_byte pt).
  Context (s0 : astate) (U : user s0 = ex_mem1 t cw pt) (K : forall k, actx s0 k = ex_contexts cw k).
  Notation c := (ex_build t).
  Notation out := (csa true cw (repeat 0 17)).

  Lemma ex_seen w a l : holds (ex_mem1 t cw pt) a l -> (forall x, a <= x < a + N.of_nat (length l) -> may_read w x || may_write w x = true) ->
    holds (user (seen (own_view s0 ex_sh w))) a l.
  Proof. intros H V. apply (holds_ext _ _ _ _ H). intros x Hx. cbn. rewrite (V x Hx), U. reflexivity. Qed.
  Lemma ex_checks1 : checks 12 c ex_sh (fun l => holds (user (seen l)) 0x400 (csa true cw pt)) (its_code (ex_w1 t)) (own_view s0 ex_sh (ex_w1 t)).
  Proof.
    destruct (ex_sizes t pt) as [Z1 Z2]. pose proof (csa_length true cw pt) as Lc. pose proof (csa_bytes true cw pt Lcw Fcw Fpt) as Bc.
    set (l0 := own_view s0 ex_sh (ex_w1 t)).
    assert (V : forall x, 0x100 <= x < 0x500 -> may_read (ex_w1 t) x || may_write (ex_w1 t) x = true) by (intros x Hx; cbn; lia).
    assert (Hp : holds (user (seen l0)) 0x400 pt).
    { apply ex_seen; [apply holds_put, Fpt|]. rewrite Lpt. intros x Hx. apply V. lia. }
    assert (Ha : holds (user (seen l0)) 0x100 (array_image c (ex_ps pt))).
    { apply ex_seen; [|rewrite Z1; intros x Hx; apply V; lia].
      assert (Q : holds (put (ex_mem1 t cw pt) 0x400 pt) 0x100 (array_image c (ex_ps pt))) by (eapply ex_array_there; eauto).
      apply (holds_ext _ _ _ _ Q). intros x Hx. rewrite Z1 in Hx. symmetry. apply put_out. rewrite Lpt. lia. }
    assert (B : batch_array c (user (seen l0)) 0x100 (ex_ps pt)) by (eapply (ex_array t); eauto).
    cbn [ex_w1 its_code]. ck. split.
    - split; [exact I|]. intros a (ps & p & buf & B' & I & Hr). rewrite (array_unique _ _ _ _ _ B' B) in I. destruct I as [I|[]].
      apply pair_equal_spec in I as [<- <-]. rewrite Lpt in Hr. cbn. lia.
    - exists (set_user (seen l0) (write_all (user (seen l0)) (map_packets (on_prefix (csa true cw) 184) (ex_ps pt)))). split.
      + apply a_bs_crypt; [|exact B| | |apply zero_stack_ok].
        * cbn [seen own_view actx l0]. change (ex_sh 0x4000) with true. cbn [orb]. rewrite K. reflexivity.
        * split; [pose proof (ex_size t); unfold ex_ps; cbn [length]; lia|]. constructor; [cbn [snd]; lia|constructor].
        * exists 23%nat. split; [lia|reflexivity].
      + cbn [seen writable]. ck. set (u := write_all _ _).
        assert (Hc : holds u 0x400 (csa true cw pt)).
        { unfold u, map_packets, ex_ps. cbn [map write_all fst snd].
          replace (on_prefix (csa true cw) 184 pt) with (csa true cw pt); [apply holds_put, Bc|].
          unfold on_prefix. rewrite skipn_all2, app_nil_r, firstn_all2 by (rewrite Lpt; apply Nat.leb_le; reflexivity). reflexivity. }
        exists (nth 0 (csa true cw pt) 0). split; [change 0x400 with (0x400 + N.of_nat 0); apply Hc; rewrite Lc, Lpt; lia|].
        destruct (_ =? 0x47); ck; [exact Hc|]. set (b := nth 0 _ 0).
        assert (Mw : mapped u 0x4c0 1).
        { assert (Q : holds (user (seen l0)) 0x4c0 [0]).
          { apply ex_seen; [|intros x Hx; apply V; cbn [length] in Hx; lia]. split; [constructor; [reflexivity|constructor]|]. intros [|[|i]] Hi; cbn [length] in Hi; try lia.
            unfold ex_mem1. rewrite !put_out by (rewrite ?Z1, ?Lcw, ?Lpt; lia). reflexivity. }
          intros x Hx. unfold u, map_packets, ex_ps. cbn [map write_all fst snd].
          rewrite put_out by (rewrite on_prefix_length by (intros; apply csa_length); rewrite Lpt; lia). apply (holds_mapped _ _ _ Q x Hx). }
        split; [split; [exact I|]; intros a; cbn [changes length]; intros Hr; cbn; lia|].
        eexists. split; [apply a_write; [exact Mw|constructor; [|constructor]]|].
        * unfold b. destruct (csa true cw pt) as [|z r] eqn:Er; [cbn in Lc; rewrite Lpt in Lc; discriminate Lc|]. inversion Bc. assumption.
        * ck. cbn [user set_user seen]. apply holds_put_disj; [exact Hc|]. intros x. rewrite Lc, Lpt. cbn [length]. lia.
  Qed.

  Lemma ex_cw_seen w : (forall x, 0x10 <= x < 0x18 -> may_read w x = true) -> holds (user (seen (own_view s0 ex_sh w))) 0x10 cw.
  Proof. intros V. apply ex_seen; [exact (ex_cw_there t cw pt Lcw Fcw Lpt)|]. rewrite Lcw. intros x Hx. rewrite V by lia. reflexivity. Qed.
  (* new memory is placed elsewhere *)
  Lemma ex_elsewhere (u : mem) a l p n : holds u a l -> fresh u p n -> disjoint a (N.of_nat (length l)) p n.
  Proof. intros H F x [H1 H2]. destruct (holds_mapped _ _ _ H x H1) as [b E]. rewrite (F x H2) in E. discriminate E. Qed.

  Lemma ex_not_shared w p n : 0 < n -> unused c (seen (own_view s0 ex_sh w)) p n -> ex_sh p = false.
  Proof.
    intros Hn [_ N]. destruct (ex_sh p) eqn:E; [|reflexivity]. exfalso.
    assert (Q : exists x v, actx (seen (own_view s0 ex_sh w)) p = Some (x, v)).
    { cbn. rewrite E. cbn. rewrite K. unfold ex_sh in E. unfold ex_contexts. destruct (p =? 0x4000); [eauto|]. destruct (p =? 0x2001); [eauto|discriminate E]. }
    destruct Q as (x & v & Q). apply (N p x v Q p). pose proof (api_size_pos c x). lia.
  Qed.

  Lemma ex_checks2 : checks 12 c ex_sh (fun l => user (seen l) 0x600 = Some 0 \/ user (seen l) 0x600 = Some (nth 0 out 0)) (its_code ex_w2) (own_view s0 ex_sh ex_w2).
  Proof.
    destruct (ex_sizes t pt) as [Z1 Z2].
    assert (F17 : Forall is_byte (repeat 0 17)) by (apply Forall_rep; reflexivity).
    pose proof (csa_length true cw (repeat 0 17)) as Lo. rewrite repeat_length in Lo. pose proof (csa_bytes true cw (repeat 0 17) Lcw Fcw F17) as Bo.
    set (l0 := own_view s0 ex_sh ex_w2).
    assert (H0 : holds (user (seen l0)) 0x600 [0]).
    { apply ex_seen; [|intros x Hx; cbn [length] in Hx; cbn; lia]. split; [constructor; [reflexivity|constructor]|]. intros [|[|i]] Hi; cbn [length] in Hi; try lia.
      unfold ex_mem1. rewrite !put_out by (rewrite ?Z1, ?Lcw, ?Lpt; lia). reflexivity. }
    assert (Hc : holds (user (seen l0)) 0x10 cw) by (apply ex_cw_seen; intros x Hx; cbn; lia).
    assert (At0 : user (seen l0) 0x600 = Some 0) by (apply (proj2 H0 0%nat); cbn; lia).
    cbn [ex_w2 its_code]. ck. cbn [N.eqb]. split; [ck; left; exact At0|].
    intros p Hp Un _. destruct (N.eqb_spec p 0); [lia|]. ck.
    assert (Sp : ex_sh p = false) by (apply (ex_not_shared ex_w2 p (api_size c Classical)); [reflexivity|exact Un]).
    split; [split; [exact Sp|contradiction]|].
    eexists. split; [apply (a_key_set _ _ _ _ cw None); [cbn; rewrite N.eqb_refl; reflexivity|exact Lcw|exact Hc]|].
    cbn [seen writable]. ck. split.
    - (* no buffer *)
      cbn [N.eqb]. ck. split; [split; [exact Sp|contradiction]|]. eexists. split; [eapply a_free; [assumption|cbn; rewrite N.eqb_refl; reflexivity]|]. ck. left. exact At0.
    - intros q bs Hq Lb Fb [Uq Kq]. destruct (N.eqb_spec q 0); [lia|]. cbn [seen writable user set_user set_ctx] in *.
      assert (D0 : ~ (q <= 0x600 < q + 17)).
      { intros D. pose proof (Uq 0x600 D) as E. cbn [user set_ctx] in E. rewrite At0 in E. discriminate E. }
      assert (Wq : forall a, q <= a < q + 17 -> with_writable (writable l0) q 17 a = true) by (intros a Ha; unfold with_writable; lia).
      (* store *)
      ck. split; [split; [exact I|]; intros a; cbn [changes]; rewrite repeat_length; exact (Wq a)|].
      eexists. split; [apply a_write; [rewrite repeat_length; cbn [seen user set_user set_ctx]; intros a Ha; rewrite put_in by lia; eauto|exact F17]|].
      cbn [seen writable user set_user set_ctx].
      (* scramble *)
      ck. split; [split; [exact I|]; exact Wq|].
      eexists. split; [apply (a_crypt _ _ true _ _ _ cw (repeat 0 17)); [cbn; rewrite N.eqb_refl; reflexivity|apply holds_put, F17|reflexivity|reflexivity|reflexivity]|].
      cbn [seen writable user set_user set_ctx].
      (* look *)
      ck. exists (nth 0 out 0). split.
      { pose proof (proj2 (holds_put (put (put (user (seen l0)) q bs) q (repeat 0 17)) q out Bo) 0%nat ltac:(lia)) as Q. rewrite N.add_0_r in Q. exact Q. }
      ck. split; [split; [exact I|]; intros a; cbn [changes length]; intros Hr; unfold with_writable; cbn; lia|].
      eexists. split; [apply a_write|].
      + cbn [length seen user set_user set_ctx]. intros a Ha. assert (a = 0x600) as -> by lia. rewrite !put_out by (rewrite ?Lo, ?repeat_length; lia). eauto.
      + constructor; [|constructor]. destruct (csa true cw (repeat 0 17)) as [|z r]; [discriminate Lo|]. inversion Bo. assumption.
      + cbn [seen writable user set_user set_ctx].
        ck. split; [split; [exact Sp|contradiction]|]. eexists. split; [eapply a_free; [assumption|cbn; rewrite N.eqb_refl; reflexivity]|].
        cbn [seen writable user set_user set_ctx]. ck. split.
        * intros a Ha. cbn [seen writable user set_user set_ctx]. split; [|apply Wq, Ha]. rewrite put_out by (cbn [length]; intros Z; apply D0; lia). rewrite put_in by lia. discriminate.
        * ck. right. cbn [seen user set_user set_ctx]. unfold erase. destruct (N.leb_spec q 0x600); destruct (N.ltb_spec 0x600 (q + 17)); cbn [andb]; try lia; reflexivity.
  Qed.

  Lemma ex_checks3 : checks 12 c ex_sh (fun _ => True) (its_code (ex_w3 t)) (own_view s0 ex_sh (ex_w3 t)).
  Proof.
    cbn [ex_w3 its_code]. ck. cbn [N.eqb]. split; [ck; exact I|]. intros p Hp Un _. destruct (N.eqb_spec p 0); [lia|]. ck.
    assert (Sp : ex_sh p = false) by (apply (ex_not_shared (ex_w3 t) p (api_size c Bitslice)); [apply api_size_pos|exact Un]).
    split; [split; [exact Sp|contradiction]|].
    eexists. split; [apply (a_bs_key_set _ _ _ _ _ cw None); [cbn; rewrite N.eqb_refl; reflexivity|exact Lcw|apply (ex_cw_seen (ex_w3 t)); intros x Hx; cbn; lia]|].
    ck. split; [split; [exact Sp|contradiction]|]. eexists. split; [eapply a_bs_free; [assumption|cbn; rewrite N.eqb_refl; reflexivity]|]. ck. exact I.
  Qed.
  Lemma ex_separated : separated s0 ex_sh [ex_w1 t; ex_w2; ex_w3 t].
  Proof.
    constructor.
    - intros i j u w a Nij Ei Ej.
      destruct i as [|[|[|i]]]; cbn in Ei; [| | |destruct i; discriminate Ei]; injection Ei as <-;
        (destruct j as [|[|[|j]]]; cbn in Ej; [| | |destruct j; discriminate Ej]; injection Ej as <-); try contradiction; cbn; intros; try discriminate; lia.
    - intros i j u w k Nij Ei Ej. destruct i as [|[|[|i]]]; cbn in Ei; [| | |destruct i; discriminate Ei]; injection Ei as <-; discriminate.
    - intros k Sk. split.
      + rewrite K. unfold ex_sh in Sk. unfold ex_contexts. destruct (k =? 0x4000); [discriminate|]. destruct (k =? 0x2001); [discriminate|discriminate Sk].
      + intros u [<-|[<-|[<-|[]]]]; reflexivity.
  Qed.
End Ex.

Example C47_case : forall t pl ma, have_mm_malloc pl = true \/ have_posix_memalign pl = true \/ ma mod word_size (ex_build t) = 0 ->
  let c := ex_build t in let ths := [ex_w1 t; ex_w2; ex_w3 t] in let out := csa true cw1 (repeat 0 17) in
  exists s0 st0, asteps c (ex_setup t) (no_ctx (ex_mem1 t cw1 pt1)) s0 /\ separated s0 ex_sh ths /\
    (forall w, In w ths -> fine c ex_sh (its_code w, own_view s0 ex_sh w)) /\
    run_ops c pl (ex_setup t) (no_heap (ex_mem1 t cw1 pt1)) = Ok st0 /\
    Acc (fun y x => goes c pl ma x y) (map start ths, st0) /\
    forall ts st, reaches c pl ma (map start ths, st0) (ts, st) -> Forall ended ts ->
      holds (smem st) 0x400 ct1 /\ (smem st 0x600 = Some 0 \/ smem st 0x600 = Some (nth 0 out 0)) /\ holds (smem st) 0x10 cw1.
Proof.
  intros t pl ma Al. cbn zeta.
  assert (Fcw : Forall is_byte cw1) by (apply bytes_of; reflexivity). assert (Fpt : Forall is_byte pt1) by (apply bytes_of; reflexivity).
  destruct (ex_setup_runs t cw1 pt1 eq_refl Fcw eq_refl) as (s0 & A & U & K).
  pose proof (ex_checks1 t cw1 pt1 eq_refl Fcw eq_refl Fpt s0 U K) as C1.
  pose proof (ex_checks2 t cw1 pt1 eq_refl Fcw eq_refl s0 U K) as C2.
  pose proof (ex_checks3 t cw1 pt1 eq_refl Fcw eq_refl s0 U K) as C3.
  destruct (checks_fine _ _ _ _ _ _ C1) as (F1 & N1 & Q1). destruct (checks_fine _ _ _ _ _ _ C2) as (F2 & N2 & Q2). destruct (checks_fine _ _ _ _ _ _ C3) as (F3 & N3 & _).
  assert (Sep : separated s0 ex_sh [ex_w1 t; ex_w2; ex_w3 t]) by (eapply (ex_separated t cw1 pt1); try eassumption; reflexivity).
  assert (Fi : forall w, In w [ex_w1 t; ex_w2; ex_w3 t] -> fine (ex_build t) ex_sh (its_code w, own_view s0 ex_sh w)) by (intros w [<-|[<-|[<-|[]]]]; assumption).
  destruct (C47_programs (ex_build t) pl ma (ex_mem1 t cw1 pt1) (ex_setup t) s0 _ ex_sh (ex_supported t) (fun _ => eq_refl) Al A Sep Fi) as (st0 & E0 & Te & G).
  exists s0, st0. split; [exact A|]. split; [exact Sep|]. split; [exact Fi|]. split; [exact E0|].
  split; [apply Te; intros w [<-|[<-|[<-|[]]]]; assumption|].
  intros ts st R En. destruct (G ts st R) as (_ & _ & Res & Rest & _).
  assert (Len : length ts = 3%nat).
  { clear - R. change 3%nat with (length (fst (map start [ex_w1 t; ex_w2; ex_w3 t], st0))). change ts with (fst (ts, st)).
    induction R as [x|x y z R IH [? H]]; [reflexivity|]. destruct H. cbn [fst] in *. rewrite upd_length. exact IH. }
  assert (At : forall i w, nth_error [ex_w1 t; ex_w2; ex_w3 t] i = Some w -> exists l, lsteps (ex_build t) ex_sh (its_code w, own_view s0 ex_sh w) (Done, l) /\ forall a b, user (seen l) a = Some b -> smem st a = Some b).
  { intros i w Ew. destruct (nth_error ts i) as [u|] eqn:Eu.
    - pose proof (proj1 (Forall_forall _ _) En u (nth_error_In _ _ Eu)) as [Id Dn]. destruct (Res i w u Ew Eu Id) as (l & S & M). rewrite Dn in S. eauto.
    - apply nth_error_None in Eu. rewrite Len in Eu. assert (nth_error [ex_w1 t; ex_w2; ex_w3 t] i <> None) as H%nth_error_Some by congruence. cbn [length] in H. lia. }
  destruct (At 0%nat _ eq_refl) as (l1 & S1 & M1). destruct (At 1%nat _ eq_refl) as (l2 & S2 & M2).
  split; [|split].
  - pose proof (Q1 l1 S1) as H. assert (E : csa true cw1 pt1 = ct1) by exact spec_encrypt_vector1. rewrite E in H.
    destruct H as [Hb H]. split; [exact Hb|]. intros i Hi. apply M1, H, Hi.
  - destruct (Q2 l2 S2) as [H|H]; [left|right]; apply M2, H.
  - pose proof (ex_cw_there t cw1 pt1 eq_refl Fcw eq_refl) as [Hb H]. split; [exact Hb|]. intros i Hi. apply Rest; [rewrite U; apply H, Hi|].
    change (length cw1) with 8%nat in Hi. intros w [<-|[<-|[<-|[]]]]; cbn [ex_w1 ex_w2 ex_w3 may_write]; [lia|lia|reflexivity].
Qed.

(* two threads that scramble a block of their own with the shared context 0x2001, again and again *)
CoFixpoint ex_serve (a : N) : code := Do (Crypt true 0x2001 a 8) (ex_serve a).
Definition ex_server (a : N) : worker := mk_worker (fun _ => false) (fun x => (a <=? x) && (x <? a + 8)) (fun _ => false) (ex_serve a).
Lemma ex_serve_eq a : ex_serve a = Do (Crypt true 0x2001 a 8) (ex_serve a).
Proof. transitivity (match ex_serve a with Done => Done | Do o k => Do o k | Look a k => Look a k | New x k => New x k | Buf n k => Buf n k | Drop p n k => Drop p n k end); [destruct (ex_serve a)|]; reflexivity. Qed.
Lemma ex_server_fine t cw pt s0 a : length cw = 8%nat -> Forall is_byte cw -> length pt = 184%nat -> user s0 = ex_mem1 t cw pt -> (forall k, actx s0 k = ex_contexts cw k) -> 0x600 <= a < 0xff0 ->
  fine (ex_build t) ex_sh (its_code (ex_server a), own_view s0 ex_sh (ex_server a)) /\
  forall k l, lsteps (ex_build t) ex_sh (its_code (ex_server a), own_view s0 ex_sh (ex_server a)) (k, l) -> k <> Done.
Proof.
  intros Lcw Fcw Lpt U K Ha. destruct (ex_sizes t pt) as [Z1 Z2].
  assert (I : forall x, lsteps (ex_build t) ex_sh (its_code (ex_server a), own_view s0 ex_sh (ex_server a)) x ->
    fst x = ex_serve a /\ writable (snd x) = may_write (ex_server a) /\ actx (seen (snd x)) 0x2001 = Some (Classical, Some cw) /\
    exists bs, length bs = 8%nat /\ holds (user (seen (snd x))) a bs).
  { intros x H. remember (its_code (ex_server a), own_view s0 ex_sh (ex_server a)) as x0 eqn:Ex. induction H as [x|x y z H IH S]; subst x.
    - split; [reflexivity|]. split; [reflexivity|]. split; [cbn; rewrite K; reflexivity|]. exists (repeat 0 8). split; [reflexivity|].
      apply (ex_seen t cw pt s0 U).
      + split; [apply Forall_rep; reflexivity|]. rewrite repeat_length. intros i Hi. unfold ex_mem1. rewrite !put_out by (rewrite ?Z1, ?Lcw, ?Lpt; lia).
        unfold zero_mem. destruct (N.ltb_spec (a + N.of_nat i) 0x1000); [|lia]. rewrite nth_repeat. reflexivity.
      + rewrite repeat_length. intros x Hx. cbn. lia.
    - destruct (IH eq_refl) as (E1 & E2 & E3 & bs & Lb & Hb). clear IH H. destruct S; cbn [fst snd] in *; rewrite ex_serve_eq in E1; try discriminate E1.
      injection E1 as -> ->. match goal with H : astep _ _ _ _ |- _ => inversion H; subst end. cbn [seen writable user set_user actx].
      assert (cw0 = cw) by congruence. subst cw0. assert (length buf = 8%nat) by lia.
      split; [reflexivity|]. split; [exact E2|]. split; [exact E3|]. exists (csa true cw buf). rewrite csa_length. split; [assumption|].
      apply holds_put, csa_bytes; try assumption. match goal with H : holds _ _ buf |- _ => apply H end. }
  split.
  - intros k l H. destruct (I _ H) as (E1 & E2 & E3 & bs & Lb & Hb). cbn [fst snd] in *. right. subst k. rewrite ex_serve_eq.
    eexists. eapply l_do; [|apply (a_crypt _ _ true _ _ _ cw bs); [exact E3|exact Hb|rewrite Lb; reflexivity|reflexivity|reflexivity]].
    split; [exact Logic.I|]. intros x Hx. cbn [changes] in Hx. rewrite E2. cbn. lia.
  - intros k l H E. destruct (I _ H) as (E1 & _). cbn [fst] in E1. rewrite E, ex_serve_eq in E1. discriminate E1.
Qed.
Example C47_forever_case : forall t,
  let c := ex_build t in let ths := [ex_server 0x800; ex_server 0x900] in
  exists s0, asteps c (ex_setup t) (no_ctx (ex_mem1 t cw1 pt1)) s0 /\ separated s0 ex_sh ths /\
    (forall w, In w ths -> fine c ex_sh (its_code w, own_view s0 ex_sh w)) /\
    (forall w k l, In w ths -> lsteps c ex_sh (its_code w, own_view s0 ex_sh w) (k, l) -> k <> Done).
Proof.
  intros t. cbn zeta. assert (Fcw : Forall is_byte cw1) by (apply bytes_of; reflexivity).
  destruct (ex_setup_runs t cw1 pt1 eq_refl Fcw eq_refl) as (s0 & A & U & K). exists s0. split; [exact A|].
  pose proof (ex_server_fine t cw1 pt1 s0 0x800 eq_refl Fcw eq_refl U K ltac:(lia)) as [F1 N1].
  pose proof (ex_server_fine t cw1 pt1 s0 0x900 eq_refl Fcw eq_refl U K ltac:(lia)) as [F2 N2].
  split; [|split; [intros w [<-|[<-|[]]]; assumption|intros w k l [<-|[<-|[]]] H; [exact (N1 k l H)|exact (N2 k l H)]]].
  constructor.
  - intros i j u w a Nij Ei Ej.
    destruct i as [|[|i]]; cbn in Ei; [| |destruct i; discriminate Ei]; injection Ei as <-;
      (destruct j as [|[|j]]; cbn in Ej; [| |destruct j; discriminate Ej]; injection Ej as <-); try contradiction; cbn; intros; split; try reflexivity; lia.
  - intros i j u w k Nij Ei Ej. destruct i as [|[|i]]; cbn in Ei; [| |destruct i; discriminate Ei]; injection Ei as <-; discriminate.
  - intros k Sk. split.
    + rewrite K. unfold ex_sh in Sk. unfold ex_contexts. destruct (k =? 0x4000); [discriminate|]. destruct (k =? 0x2001); [discriminate|discriminate Sk].
    + intros u [<-|[<-|[]]]; reflexivity.
Qed.
