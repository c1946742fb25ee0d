(** SourceRun.v -- the functions of the classical library, as parsed from the source text
    (SourceClassical.v) and run by the semantics of MiniC.v, do what the model (ModelClassical.v) does. *)
From Coq Require Import String.
From Verif Require Import Base Tables ModelClassical ApiSpec MiniC MiniCFrame MiniCRun SourceClassical.
Local Open Scope string_scope. Local Open Scope N_scope.

#[local] Opaque link.
(* the functions up to a given one *)
Definition p_xor (be : bool) := [src_dvbcsa_xor_64].
Definition p_load32 (be : bool) := src_dvbcsa_load_le32 be :: p_xor be.
Definition p_load64 (be : bool) := src_dvbcsa_load_le64 be :: p_load32 be.
Definition p_store64 (be : bool) := src_dvbcsa_store_le64 be :: p_load64 be.
Definition p_perm (be : bool) := src_dvbcsa_key_permute_block :: p_store64 be.
Definition p_sched (be : bool) := src_dvbcsa_key_schedule_block :: p_perm be.
Definition p_keyset (be : bool) := src_dvbcsa_key_set :: p_sched be.
Definition p_bdec (be : bool) := src_dvbcsa_block_decrypt :: p_keyset be.
Definition p_benc (be : bool) := src_dvbcsa_block_encrypt :: p_bdec be.
Definition p_swap (be : bool) := src_swap_nbl :: p_benc be.
Definition p_rot (be : bool) := src_csa_stream_rotate :: p_swap be.
Definition p_sbox (be : bool) := src_csa_stream_sboxes :: p_rot be.
Definition p_bsel (be : bool) := src_csa_stream_B_sel :: p_sbox be.
Definition p_cfed (be : bool) := src_csa_stream_cfed :: p_bsel be.
Definition p_init (be : bool) := src_csa_stream_init_round :: p_cfed be.
Definition p_round (be : bool) := src_csa_stream_round :: p_init be.
Definition p_stream (be : bool) := src_dvbcsa_stream_xor :: p_round be.
Definition p_dec (be : bool) := src_dvbcsa_decrypt :: p_stream be.
Definition p_enc (be : bool) := src_dvbcsa_encrypt :: p_dec be.
Lemma p_enc_all be : p_enc be = src_program be. Proof. reflexivity. Qed.

Notation lk be fuel := (link be src_tables src_structs fuel).
Notation u8p a := (VPtr (TInt U8) (Flat a)).

Ltac gob H := (* split a successful chain of binds *)
  cbn beta in H;
  repeat match type of H with
  | bind ?e _ = Ok _ => let E := fresh "E" in destruct e eqn:E; try discriminate H; cbn [bind] in H
  end.
Lemma ok_inj {A} (a b : A) : Ok a = Ok b -> a = b. Proof. intros H. injection H as H. exact H. Qed.
Ltac okj E := apply ok_inj in E; try subst.
Lemma load_bd m a b : bytes_mem m -> load m a = Ok b -> b < 2 ^ 8.
Proof. unfold load. intros B E. destruct (m a) eqn:M; [|discriminate]. okj E. exact (B _ _ M). Qed.
Ltac bds := repeat match goal with
  | B : bytes_mem ?m, E : load ?m ?a = Ok ?b |- _ => lazymatch goal with _ : b < 2 ^ 8 |- _ => fail | _ => pose proof (load_bd m a b B E) end end.

Ltac enter := apply call_any_stack; [intros v [<-|Hv]; [exact I|]; repeat (destruct Hv as [<-|Hv]; [exact I|]); destruct Hv | exact I | goto; rewrite link_here by reflexivity; cbv delta [src_dvbcsa_load_le32 src_dvbcsa_load_le64 src_dvbcsa_store_le64]; cbv iota beta].
Ltac fin := first [discriminate | reflexivity | exact I | cbn; lia].

Lemma u8_id x : x < 2 ^ 8 -> u8 x = x. Proof. apply N.mod_small. Qed.
Lemma u32_id x : x < 2 ^ 32 -> u32 x = x. Proof. apply N.mod_small. Qed.

(** ** dvbcsa_pv.h *)
Lemma load32_ok be fuel m p x l : dvbcsa_load_le32 be m p = Ok x -> bytes_mem m ->
  lk be fuel (p_load32 be) "dvbcsa_load_le32" [u8p p] (mk_cst m l) = Ok (Some (VInt U32 x), mk_cst m l).
Proof.
  intros E B. unfold dvbcsa_load_le32 in E. destruct be; enter.
  - gob E. okj E. bds. value_call. reflexivity.
  - gob E. okj E. value_call. reflexivity.
Qed.

Lemma load64_ok be fuel m p x l : dvbcsa_load_le64 be m p = Ok x -> bytes_mem m ->
  lk be fuel (p_load64 be) "dvbcsa_load_le64" [u8p p] (mk_cst m l) = Ok (Some (VInt U64 x), mk_cst m l).
Proof.
  intros E B. unfold dvbcsa_load_le64 in E. destruct be; enter.
  - gob E. okj E. bds. value_call. reflexivity.
  - gob E. okj E. value_call. reflexivity.
Qed.

Lemma store64_ok be fuel m p w m' l : dvbcsa_store_le64 be m p w = Ok m' -> w < 2 ^ 64 ->
  lk be fuel (p_store64 be) "dvbcsa_store_le64" [u8p p; VInt U64 w] (mk_cst m l) = Ok (None, mk_cst m' l).
Proof.
  intros E B. unfold dvbcsa_store_le64 in E. destruct be; enter.
  - gob E. rewrite (u8_id (N.shiftr w 56)) in E0 by bd. void_call. reflexivity.
  - void_call. reflexivity.
Qed.

Lemma xor64_ok be fuel m b a m' l : dvbcsa_xor_64 be m b a = Ok m' ->
  lk be fuel (p_xor be) "dvbcsa_xor_64" [u8p b; u8p a] (mk_cst m l) = Ok (None, mk_cst m' l).
Proof.
  intros E. unfold dvbcsa_xor_64 in E. gob E. enter. void_call. reflexivity.
Qed.

(** ** dvbcsa_key.c *)
(* a table of rows of equal length, laid out row by row *)
Lemma row_get {A} (w : N) (t : list (list A)) : forall i row j e, Forall (fun r => length r = N.to_nat w) t ->
  aget t i = Ok row -> tget row j = Ok e -> tget (concat t) (N.of_nat i * w + j) = Ok e.
Proof.
  unfold tget, aget. induction t as [|r t IH]; intros i row j e F E G; [destruct i; discriminate|].
  inversion F as [|? ? Hr F']; subst. destruct i as [|i]; cbn [nth_error] in E.
  - injection E as <-. cbn [concat]. rewrite N.mul_0_l, N.add_0_l, nth_error_app1; [exact G|].
    destruct (nth_error r (N.to_nat j)) eqn:H; [|discriminate]. apply nth_error_Some. rewrite H. discriminate.
  - specialize (IH i row j e F' E G). cbn [concat]. rewrite nth_error_app2 by lia.
    replace (N.to_nat (N.of_nat (S i) * w + j) - length r)%nat with (N.to_nat (N.of_nat i * w + j)) by lia. exact IH.
Qed.
Lemma kperm_src : src_tab_kperm = concat kperm. Proof. vm_compute. reflexivity. Qed.
Lemma kperm_rows : Forall (fun r => length r = N.to_nat 256) kperm. Proof.
  assert (H : forallb (fun r => Nat.eqb (length r) 256) kperm = true) by (vm_compute; reflexivity). apply Forall_forall. intros r Hr.
  rewrite forallb_forall in H. apply Nat.eqb_eq, H, Hr.
Qed.

Lemma perm_ok be fuel m k n l : dvbcsa_key_permute_block k = Ok n -> k < 2 ^ 64 -> (100 <= fuel)%nat ->
  lk be fuel (p_perm be) "dvbcsa_key_permute_block" [VInt U64 k] (mk_cst m l) = Ok (Some (VInt U64 n), mk_cst m l).
Proof.
  intros E B Hf. unfold dvbcsa_key_permute_block in E. gob E. destruct a as [n' k']. okj E. enter.
  etransitivity; [eapply call_value; [ret_type; discriminate | params | the_body | | cbn; lia] | tidy].
  - stx. stx. eapply seq_one.
    + eapply st_for; [eapply opt_some; evx|]. tidy.
      set (R := fun (i : nat) (x : N * N) => mk_cst m [OInts U64 [Some (snd x)]; OInts U64 [Some (fst x)]; OInts I32 [Some (N.of_nat i)]]).
      refine (proj1 (loop_up _ _ _ _ _ R (fun _ x => snd x < 2 ^ 64) _ _ _ _ _ 8 fuel 0 (0, k) (n, k') 8 E0 ltac:(lia) B eq_refl _ _)).
      * clear E0. intros j [n1 k1] x' Hj Hk E. cbn [snd] in Hk. assert (Hj' : N.of_nat j < 2 ^ 3) by lia. gob E. okj E.
        assert (Et : tget src_tab_kperm (N.of_nat j * 256 + N.land k1 255) = Ok a0) by (rewrite kperm_src; eapply row_get; eauto using kperm_rows).
        split; [cbn [snd]; bd|]. split.
        { unfold R. eapply cond_ok; [evx|rv|]. rewrite true_truth. f_equal. apply N.ltb_lt. lia. }
        eexists. split.
        { unfold R, body_ok. cbn [fst snd]. eapply exec_block. stx. stx. stx. }
        tidy. etransitivity; [eapply opt_some; evx|]. tidy. unfold R; cbn [fst snd]. st_eq.
      * intros [n1 k1] _. unfold R. eapply cond_ok; [evx|rv|]. reflexivity.
    + stx.
  - ret_type; convv.
  - reflexivity.
Qed.

Lemma perm_bound k n : dvbcsa_key_permute_block k = Ok n -> n < 2 ^ 64.
Proof.
  intros E. unfold dvbcsa_key_permute_block in E.
  assert (T : Forall (Forall (fun e => e < 2 ^ 64)) kperm).
  { assert (H : forallb (forallb (fun e => e <? 2 ^ 64)) kperm = true) by (vm_compute; reflexivity).
    apply Forall_forall. intros r Hr. rewrite forallb_forall in H. specialize (H r Hr). rewrite forallb_forall in H.
    apply Forall_forall. intros e He. apply N.ltb_lt, H, He. }
  match type of E with bind ?e _ = _ => assert (W : wp e (fun x => fst x < 2 ^ 64)) end.
  { destruct (for_ _ _ _ _) as [[a b]| | |] eqn:F; try discriminate. cbn [wp fst].
    assert (G : forall c i x, fst x < 2 ^ 64 -> forall y, for_ c i (fun i '(n, k) => row <- aget kperm i ;; e <- tget row (N.land k 0xff) ;; Ok (N.lor n e, N.shiftr k 8)) x = Ok y -> fst y < 2 ^ 64).
    { clear E F a b. induction c as [|c IH]; intros i [n1 k1] Hx y Ey; cbn [for_] in Ey; [okj Ey; exact Hx|].
      destruct (aget kperm i) as [row| | |] eqn:R; try discriminate Ey. cbn [bind] in Ey.
      destruct (tget row (N.land k1 255)) as [e| | |] eqn:Q; try discriminate Ey. cbn [bind] in Ey. eapply IH; [|exact Ey].
      cbn [fst] in *. apply lor_lt; [exact Hx|]. unfold tget, aget in *. destruct (nth_error kperm i) eqn:R'; [|discriminate]. okj R.
      destruct (nth_error row (N.to_nat (N.land k1 255))) eqn:Q'; [|discriminate]. okj Q.
      rewrite Forall_forall in T. specialize (T _ (nth_error_In _ _ R')). rewrite Forall_forall in T. exact (T _ (nth_error_In _ _ Q')). }
    exact (G 8%nat 0%nat (0, k) ltac:(reflexivity) (a, b) F). }
  destruct (for_ _ _ _ _) as [[a b]| | |]; try contradiction. cbn [bind] in E. okj E. exact W.
Qed.

Lemma store_keeps m a v m' : bytes_mem m -> v < 2 ^ 8 -> store m a v = Ok m' -> bytes_mem m'.
Proof.
  intros B V E. unfold store in E. destruct (m a); [|discriminate]. okj E. intros x b. destruct (x =? a); [|apply B].
  intros H; injection H as <-. exact V.
Qed.
Ltac callx ::= goto; lazymatch goal with
  | |- link _ _ _ _ _ "dvbcsa_load_le64" _ _ = _ => eapply load64_ok; eassumption
  | |- link _ _ _ _ _ "dvbcsa_key_permute_block" _ _ = _ => eapply perm_ok; [eassumption|eassumption|lia] end.

Lemma le_val_lt bs : Forall (fun b => b < 2 ^ 8) bs -> le_val bs < 2 ^ (8 * N.of_nat (length bs)).
Proof.
  induction 1 as [|b bs Hb F IH]; [reflexivity|]. cbn [le_val length]. rewrite Nat2N.inj_succ, N.mul_succ_r, N.pow_add_r, N.mul_comm with (m := 2 ^ 8).
  change (2 ^ 8) with 256 in *. nia.
Qed.
Lemma load64_bound be m p x : bytes_mem m -> dvbcsa_load_le64 be m p = Ok x -> x < 2 ^ 64.
Proof.
  intros B E. unfold dvbcsa_load_le64 in E. destruct be; gob E; bds; okj E; [bd|].
  pose proof (load_bytes_length _ _ _ _ E0) as Hl. pose proof (le_val_lt _ (load_bytes_are _ _ B _ _ E0)) as H. rewrite Hl in H. exact H.
Qed.
Lemma oget_aset {A} (k k' : list (option A)) j y i z : aset k j (Some y) = Ok k' -> oget k' i = Ok z -> z = y \/ oget k i = Ok z.
Proof.
  unfold aset. destruct (Nat.ltb_spec j (length k)) as [Hj|]; [|discriminate]. intros E G. okj E. unfold oget, aget in *. rewrite nth_error_upd in G.
  destruct ((i =? j)%nat && (j <? length k)%nat); [left; okj G; reflexivity|right; exact G].
Qed.

Lemma for_down_inv {X} (I : X -> Prop) body n : forall x y : X, for_down n body x = Ok y -> I x -> (forall j x x', (j < n)%nat -> I x -> body j x = Ok x' -> I x') -> I y.
Proof.
  induction n as [|n IH]; intros x y E H Hb; cbn [for_down] in E; [okj E; exact H|]. gob E. eapply IH; [exact E|eapply Hb; [|exact H|exact E0]; lia|].
  intros j z z' Hj. apply Hb. lia.
Qed.
Lemma for_inv {X} (I : X -> Prop) body n : forall i (x y : X), for_ n i body x = Ok y -> I x -> (forall j x x', (i <= j < i + n)%nat -> I x -> body j x = Ok x' -> I x') -> I y.
Proof.
  induction n as [|n IH]; intros i x y E H Hb; cbn [for_] in E; [okj E; exact H|]. gob E. eapply IH; [exact E|eapply Hb; [|exact H|exact E0]; lia|].
  intros j z z' Hj. apply Hb. lia.
Qed.

Definition words (k : list (option N)) : Prop := forall i y, oget k i = Ok y -> y < 2 ^ 64.
Lemma sched_ok be fuel m cw kk m' l : dvbcsa_key_schedule_block be m cw kk = Ok m' -> bytes_mem m -> (100 <= fuel)%nat ->
  lk be fuel (p_sched be) "dvbcsa_key_schedule_block" [u8p cw; u8p kk] (mk_cst m l) = Ok (None, mk_cst m' l).
Proof.
  intros E B Hf. unfold dvbcsa_key_schedule_block in E. gob E. rename a into x. rename a0 into k0. rename a1 into k. cbv in E1. okj E1.
  pose proof (load64_bound _ _ _ _ B E0) as Bx.
  assert (I0 : words [None; None; None; None; None; None; Some x]).
  { intros i y Hy. do 7 (destruct i as [|i]; [try discriminate Hy; okj Hy; exact Bx|]). destruct i; discriminate Hy. }
  assert (I1 : forall k1 j yj k2, words k1 -> yj < 2 ^ 64 -> aset k1 j (Some yj) = Ok k2 -> words k2).
  { intros k1 j yj k2 Hk Hy Ea i z Hz. destruct (oget_aset _ _ _ _ _ _ Ea Hz) as [->|Hz']; [exact Hy|exact (Hk _ _ Hz')]. }
  assert (Ik : words k).
  { eapply for_down_inv; [exact E2|exact I0|]. intros j k1 k2 Hj Hk Eb. gob Eb. eapply I1; [exact Hk| |exact Eb]. eapply perm_bound; eassumption. }
  enter.
  etransitivity; [eapply call_void; [ret_type; reflexivity | params | the_body | | cbn; lia] | tidy].
  - stx. stx. stx. stx.
    (* for (i = 6; i > 0; i--) k[i-1] = permute(k[i]) *)
    eapply seq_one.
    { eapply st_for; [eapply opt_some; evx|]. tidy.
      set (R := fun (i : nat) (k : list (option N)) => mk_cst m [OPtr (TInt U8) (Some (Flat cw)); OPtr (TInt U8) (Some (Flat kk)); OInts U64 k; OInts I32 [Some (N.of_nat i)]; OInts I32 [None]]).
      refine (proj1 (loop_down _ _ _ _ _ R (fun j => R (S j)) (R O) words _ _ _ _ _ 6 fuel _ k E2 ltac:(lia) I0 _ _)).
      - clear E2 E Ik I0. intros j k1 k2 Hj Hk E. assert (Hj' : N.of_nat (S j) < 2 ^ 3) by lia. gob E. rename a into xj, a0 into yj, E1 into Eg, E2 into Ep.
        pose proof (Hk _ _ Eg) as Hx. split; [eapply I1; [exact Hk|eapply perm_bound; exact Ep|exact E]|]. split.
        { unfold R. eapply cond_ok; [evx|rv|]. reflexivity. }
        rewrite <- (Nat2N.id (S j)) in Eg. replace j with (N.to_nat (N.of_nat (S j) - 1)) in E by lia.
        eexists. split.
        { unfold R, body_ok. eapply exec_block. stx. stx. }
        tidy. etransitivity; [eapply opt_some; evx|]. tidy. unfold R. st_eq.
      - intros k1 _. unfold R. eapply cond_ok; [evx|rv|]. reflexivity. }
    (* for (i = 0; i < 7; i++) for (j = 0; j < 8; j++) *)
    clear E2 I0 I1. cbn beta.
    set (R := fun (i : nat) (m : mem) => mk_cst m [OPtr (TInt U8) (Some (Flat cw)); OPtr (TInt U8) (Some (Flat kk)); OInts U64 k; OInts I32 [Some (N.of_nat i)]; OInts I32 [match i with O => None | _ => Some 8 end]]).
    eapply seq_one.
    { eapply st_for; [eapply opt_some; evx|]. tidy.
      refine (proj1 (loop_up _ _ _ _ _ R (fun _ _ => True) _ _ _ _ _ 7 fuel 0 m m' 7 E ltac:(lia) I eq_refl _ _)).
      - clear E B E0. intros i m1 m2 Hi _ E. assert (Hi' : N.of_nat i < 2 ^ 3) by lia. split; [exact I|]. split.
        { unfold R. eapply cond_ok; [evx|rv|]. rewrite true_truth. f_equal. apply N.ltb_lt. lia. }
        set (Q := fun (j : nat) (m : mem) => mk_cst m [OPtr (TInt U8) (Some (Flat cw)); OPtr (TInt U8) (Some (Flat kk)); OInts U64 k; OInts I32 [Some (N.of_nat i)]; OInts I32 [Some (N.of_nat j)]]).
        eexists. split.
        { unfold R, body_ok. eapply exec_block. eapply seq_one; [|stx].
          eapply st_for; [eapply opt_some; evx|]. tidy.
          refine (proj1 (loop_up _ _ _ _ _ Q (fun _ _ => True) _ _ _ _ _ 8 fuel 0 m1 m2 8 E ltac:(lia) I eq_refl _ _)).
          - clear E. intros j m3 m4 Hj _ E. assert (Hj' : N.of_nat j < 2 ^ 3) by lia. split; [exact I|]. gob E. rename a into xi. pose proof (Ik _ _ E0) as Bi.
            split.
            { unfold Q. eapply cond_ok; [evx|rv|]. rewrite true_truth. f_equal. apply N.ltb_lt. lia. }
            rewrite <- (Nat2N.id i) in E0. replace (N.of_nat (i * 8 + j)) with (N.of_nat i * 8 + N.of_nat j) in E by lia.
            replace (N.of_nat (j * 8)) with (N.of_nat j * 8) in E by lia.
            eexists. split.
            { unfold Q, body_ok. eapply exec_block. stx. stx. }
            tidy. etransitivity; [eapply opt_some; evx|]. tidy. unfold Q. st_eq.
          - intros m3 _. unfold Q. eapply cond_ok; [evx|rv|]. reflexivity. }
        unfold Q. tidy. etransitivity; [eapply opt_some; evx|]. tidy. unfold R. st_eq.
      - intros m1 _. unfold R. eapply cond_ok; [evx|rv|]. reflexivity. }
    stx.
  - exact I.
  - reflexivity.
Qed.

Lemma store_bytes_keeps bs : forall m a m', bytes_mem m -> Forall (fun b => b < 2 ^ 8) bs -> store_bytes m a bs = Ok m' -> bytes_mem m'.
Proof.
  induction bs as [|b bs IH]; intros m a m' B F E; cbn [store_bytes] in E; [okj E; exact B|]. gob E. inversion F; subst.
  eapply IH; [|eassumption|exact E]. eapply store_keeps; eassumption.
Qed.
Lemma le_bytes_are n : forall v, Forall (fun b => b < 2 ^ 8) (le_bytes n v).
Proof. induction n as [|n IH]; intros v; cbn [le_bytes]; constructor; [apply N.mod_lt; discriminate|apply IH]. Qed.
Lemma native_bytes_are be n v : Forall (fun b => b < 2 ^ 8) (native_bytes be n v).
Proof. unfold native_bytes. destruct be; [apply Forall_rev|]; apply le_bytes_are. Qed.
Lemma store64_keeps be m p w m' : bytes_mem m -> dvbcsa_store_le64 be m p w = Ok m' -> bytes_mem m'.
Proof.
  intros B E. unfold dvbcsa_store_le64 in E. destruct be.
  - gob E. do 7 (eapply store_keeps; [|apply mod_lt; apply N.le_refl|eassumption]). eapply store_keeps; [exact B|apply mod_lt; apply N.le_refl|exact E0].
  - eapply store_bytes_keeps; [exact B| |exact E]. apply native_bytes_are.
Qed.
Ltac callx ::= goto; lazymatch goal with
  | |- link _ _ _ _ _ "dvbcsa_load_le64" _ _ = _ => eapply load64_ok; eassumption
  | |- link _ _ _ _ _ "dvbcsa_store_le64" _ _ = _ => eapply store64_ok; [eassumption|bd]
  | |- link _ _ _ _ _ "dvbcsa_key_schedule_block" _ _ = _ => eapply sched_ok; [eassumption|eassumption|lia] end.

Notation keyp a := (VPtr (TStruct "dvbcsa_key_s") (Flat a)).
Lemma keyset_ok be fuel m cw key m' l : dvbcsa_key_set be m cw key = Ok m' -> bytes_mem m -> (100 <= fuel)%nat ->
  lk be fuel (p_keyset be) "dvbcsa_key_set" [u8p cw; keyp key] (mk_cst m l) = Ok (None, mk_cst m' l).
Proof.
  intros E B Hf. unfold dvbcsa_key_set in E. gob E. rename a into x, a0 into m1, a1 into m2.
  pose proof (load64_bound _ _ _ _ B E0) as Bx. pose proof (store64_keeps _ _ _ _ _ B E1) as B1. pose proof (store64_keeps _ _ _ _ _ B1 E2) as B2.
  enter. void_call. reflexivity.
Qed.

(** ** dvbcsa_block.c *)
Lemma sbox_src : src_tab_dvbcsa_block_sbox = dvbcsa_block_sbox. Proof. vm_compute. reflexivity. Qed.
Lemma perm_src : src_tab_csa_block_perm = csa_block_perm. Proof. vm_compute. reflexivity. Qed.
Lemma table_lt l k : forallb (fun e => e <? 2 ^ k) l = true -> forall i e, tget l i = Ok e -> e < 2 ^ k.
Proof.
  intros H i e E. unfold tget, aget in E. destruct (nth_error l (N.to_nat i)) eqn:G; [|discriminate]. okj E.
  rewrite forallb_forall in H. apply N.ltb_lt, H. eapply nth_error_In, G.
Qed.
Lemma sbox_lt i e : tget dvbcsa_block_sbox i = Ok e -> e < 2 ^ 8.
Proof. apply table_lt. vm_compute. reflexivity. Qed.
Lemma bperm_lt i e : tget csa_block_perm i = Ok e -> e < 2 ^ 8.
Proof. apply table_lt. vm_compute. reflexivity. Qed.
#[local] Opaque src_tab_dvbcsa_block_sbox dvbcsa_block_sbox src_tab_csa_block_perm csa_block_perm.

Definition block8 (W : list N) : Prop := length W = 8%nat /\ Forall (fun b => b < 2 ^ 8) W.
Lemma block8_list W : block8 W -> exists w0 w1 w2 w3 w4 w5 w6 w7, W = [w0; w1; w2; w3; w4; w5; w6; w7] /\
  (w0 < 2 ^ 8 /\ w1 < 2 ^ 8 /\ w2 < 2 ^ 8 /\ w3 < 2 ^ 8 /\ w4 < 2 ^ 8 /\ w5 < 2 ^ 8 /\ w6 < 2 ^ 8 /\ w7 < 2 ^ 8).
Proof.
  intros [L F]. do 8 (destruct W as [|? W]; [discriminate L|]). destruct W; [|discriminate L].
  repeat match goal with H : Forall _ (_ :: _) |- _ => inversion H; clear H; subst end. do 8 eexists. split; [reflexivity|]. tauto.
Qed.
Lemma dround k W W' : block8 W -> block_decrypt_round k W = Ok W' -> exists w0 w1 w2 w3 w4 w5 w6 w7 S p, W = [w0; w1; w2; w3; w4; w5; w6; w7] /\
  (w0 < 2 ^ 8 /\ w1 < 2 ^ 8 /\ w2 < 2 ^ 8 /\ w3 < 2 ^ 8 /\ w4 < 2 ^ 8 /\ w5 < 2 ^ 8 /\ w6 < 2 ^ 8 /\ w7 < 2 ^ 8) /\
  tget src_tab_dvbcsa_block_sbox (N.lxor k w6) = Ok S /\ tget src_tab_csa_block_perm S = Ok p /\ S < 2 ^ 8 /\ p < 2 ^ 8 /\
  W' = [N.lxor w7 S; w0; N.lxor w1 (N.lxor w7 S); N.lxor w2 (N.lxor w7 S); N.lxor w3 (N.lxor w7 S); w4; N.lxor w5 p; w6].
Proof.
  intros J E. destruct (block8_list W J) as (w0 & w1 & w2 & w3 & w4 & w5 & w6 & w7 & -> & BB). unfold block_decrypt_round in E.
  cbn [aget nth_error bind aset upd length Nat.ltb Nat.leb] in E. gob E. okj E.
  do 10 eexists. rewrite sbox_src, perm_src. split; [reflexivity|]. split; [exact BB|]. split; [eassumption|]. split; [eassumption|].
  split; [eapply sbox_lt; eassumption|]. split; [eapply bperm_lt; eassumption|]. reflexivity.
Qed.
Lemma dround8 k W W' : block8 W -> block_decrypt_round k W = Ok W' -> block8 W'.
Proof.
  intros J E. destruct (dround k W W' J E) as (w0 & w1 & w2 & w3 & w4 & w5 & w6 & w7 & S & p & -> & BB & _ & _ & HS & Hp & ->).
  split; [reflexivity|]. repeat constructor; try bd; tauto.
Qed.

Lemma bdec_ok be fuel m key inp out m' l : dvbcsa_block_decrypt m key inp out = Ok m' -> bytes_mem m -> (100 <= fuel)%nat ->
  lk be fuel (p_bdec be) "dvbcsa_block_decrypt" [u8p key; u8p inp; u8p out] (mk_cst m l) = Ok (None, mk_cst m' l).
Proof.
  intros E B Hf. unfold dvbcsa_block_decrypt in E. gob E. rename a into W0, a0 into W1. enter.
  assert (J0 : block8 W0) by (split; [eapply load_bytes_length; eassumption|eapply load_bytes_are; eassumption]).
  assert (J1 : block8 W1).
  { eapply for_down_inv; [exact E1|exact J0|]. intros j W W' Hj HW Eb. gob Eb. eapply dround8; eassumption. }
  etransitivity; [eapply call_void; [ret_type; reflexivity | params | the_body | | cbn; lia] | tidy].
  - stx. stx. stx.
    set (R := fun (i : N) (W : list N) => mk_cst m [OPtr (TInt U8) (Some (Flat key)); OPtr (TInt U8) (Some (Flat inp)); OPtr (TInt U8) (Some (Flat out)); OInts U32 [Some i]; OInts U8 (map Some W)]).
    eapply seq_one.
    { eapply st_while.
      refine (proj1 (loop_down _ _ _ _ _ (fun i => R (N.of_nat i)) (fun i => R (N.of_nat i)) (R (2 ^ 32 - 1)) block8 _ _ _ _ _ 56 fuel W0 W1 E1 ltac:(lia) J0 _ _)).
      - clear E1 J0 E. intros j W W' Hj HW E. assert (Hj' : N.of_nat (S j) < 2 ^ 6) by lia. assert (Hj2 : N.of_nat j < 2 ^ 6) by lia. gob E. rename a into k, E1 into Ek. bds. split; [eapply dround8; eassumption|].
        destruct (dround k W W' HW E) as (w0 & w1 & w2 & w3 & w4 & w5 & w6 & w7 & S' & p & -> & (H0 & H1 & H2 & H3 & H4 & H5 & H6 & H7) & ES & Ep & HS & Hp & ->). split.
        { etransitivity; [unfold R; eapply cond_ok; [evx|rv|reflexivity]|]. tidy. unfold R. st_eq. }
        eexists. split.
        { unfold R, body_ok. cbn [map]. eapply exec_block. stx. stx. stx. stx. stx. stx. stx. stx. stx. stx. stx. stx. stx. }
        tidy. unfold R. cbn [opt_ev map]. reflexivity.
      - intros W _. etransitivity; [unfold R; change (N.of_nat 0) with 0; eapply cond_ok; [evx|rv|reflexivity]|]. reflexivity. }
    unfold R. eapply seq_one; [eapply st_expr; eapply ev_memcpy; [evsx|eapply read_bytes_array; [reflexivity|apply J1|rewrite (proj1 J1); reflexivity]|wrx]|]. tidy. stx.
  - exact I.
  - reflexivity.
Qed.


Lemma eround k W W' : block8 W -> k < 2 ^ 8 -> block_encrypt_round k W = Ok W' -> exists w0 w1 w2 w3 w4 w5 w6 w7 S p, W = [w0; w1; w2; w3; w4; w5; w6; w7] /\
  (w0 < 2 ^ 8 /\ w1 < 2 ^ 8 /\ w2 < 2 ^ 8 /\ w3 < 2 ^ 8 /\ w4 < 2 ^ 8 /\ w5 < 2 ^ 8 /\ w6 < 2 ^ 8 /\ w7 < 2 ^ 8) /\
  tget src_tab_dvbcsa_block_sbox (N.lxor k w7) = Ok S /\ tget src_tab_csa_block_perm S = Ok p /\ S < 2 ^ 8 /\ p < 2 ^ 8 /\
  W' = [w1; N.lxor w2 w0; N.lxor w3 w0; N.lxor w4 w0; w5; N.lxor w6 p; w7; N.lxor w0 S].
Proof.
  intros J K E. destruct (block8_list W J) as (w0 & w1 & w2 & w3 & w4 & w5 & w6 & w7 & -> & BB). unfold block_encrypt_round in E.
  cbn [aget nth_error bind aset upd length Nat.ltb Nat.leb] in E. gob E. okj E.
  do 10 eexists. rewrite sbox_src, perm_src. split; [reflexivity|]. split; [exact BB|]. split; [eassumption|]. split; [eassumption|].
  split; [eapply sbox_lt; eassumption|]. split; [eapply bperm_lt; eassumption|]. reflexivity.
Qed.
Lemma eround8 k W W' : block8 W -> k < 2 ^ 8 -> block_encrypt_round k W = Ok W' -> block8 W'.
Proof.
  intros J K E. destruct (eround k W W' J K E) as (w0 & w1 & w2 & w3 & w4 & w5 & w6 & w7 & S & p & -> & BB & _ & _ & HS & Hp & ->).
  split; [reflexivity|]. repeat constructor; try bd; tauto.
Qed.

Lemma benc_ok be fuel m key inp out m' l : dvbcsa_block_encrypt m key inp out = Ok m' -> bytes_mem m -> (100 <= fuel)%nat ->
  lk be fuel (p_benc be) "dvbcsa_block_encrypt" [u8p key; u8p inp; u8p out] (mk_cst m l) = Ok (None, mk_cst m' l).
Proof.
  intros E B Hf. unfold dvbcsa_block_encrypt in E. gob E. rename a into W0, a0 into W1. enter.
  assert (J0 : block8 W0) by (split; [eapply load_bytes_length; eassumption|eapply load_bytes_are; eassumption]).
  assert (J1 : block8 W1).
  { eapply for_inv; [exact E1|exact J0|]. intros j W W' Hj HW Eb. gob Eb. bds. eapply eround8; eassumption. }
  etransitivity; [eapply call_void; [ret_type; reflexivity | params | the_body | | cbn; lia] | tidy].
  - stx. stx. stx.
    set (R := fun (i : nat) (W : list N) => mk_cst m [OPtr (TInt U8) (Some (Flat key)); OPtr (TInt U8) (Some (Flat inp)); OPtr (TInt U8) (Some (Flat out)); OInts U32 [Some (N.of_nat i)]; OInts U8 (map Some W)]).
    eapply seq_one.
    { eapply st_while.
      refine (proj1 (loop_up _ _ _ _ _ R (fun _ => block8) _ _ _ _ _ 56 fuel 0 W0 W1 56 E1 ltac:(lia) J0 eq_refl _ _)).
      - clear E1 J0 E. intros j W W' Hj HW E. assert (Hj' : N.of_nat j < 2 ^ 6) by lia. gob E. rename a into k, E1 into Ek. bds. split; [eapply eround8; eassumption|].
        destruct (eround k W W' HW H E) as (w0 & w1 & w2 & w3 & w4 & w5 & w6 & w7 & S' & p & -> & (H0 & H1 & H2 & H3 & H4 & H5 & H6 & H7) & ES & Ep & HS & Hp & ->). split.
        { unfold R. eapply cond_ok; [evx|rv|]. rewrite true_truth. f_equal. apply N.ltb_lt. lia. }
        eexists. split.
        { unfold R, body_ok. cbn [map]. eapply exec_block. stx. stx. stx. stx. stx. stx. stx. stx. stx. stx. stx. stx. stx. stx. }
        tidy. unfold R. cbn [opt_ev map]. st_eq.
      - intros W _. unfold R. eapply cond_ok; [evx|rv|reflexivity]. }
    unfold R. eapply seq_one; [eapply st_expr; eapply ev_memcpy; [evsx|eapply read_bytes_array; [reflexivity|apply J1|rewrite (proj1 J1); reflexivity]|wrx]|]. tidy. stx.
  - exact I.
  - reflexivity.
Qed.
