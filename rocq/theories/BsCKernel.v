(** BsCKernel.v -- the source of the stream cipher kernel (dvbcsa_bs_stream_kernel.h / .inc) computes what
    the model of ModelBsStream.v computes. *)
From Coq Require Import String.
From Verif Require Import Base Mem ModelBsWord ModelBsTranspose ModelBsStream BsC SourceBitslice BsCRun.
From Verif Require MiniC MiniCRun.
Local Open Scope string_scope. Local Open Scope list_scope. Local Open Scope N_scope.

Lemma aget_aset_same {A} (l l' : list A) n x : aset l n x = Ok l' -> aget l' n = Ok x.
Proof.
  unfold aset, aget. destruct (n <? length l)%nat eqn:E; [|discriminate]. intros H. injection H as <-. apply Nat.ltb_lt in E.
  rewrite nth_error_upd, Nat.eqb_refl, (proj2 (Nat.ltb_lt _ _) E). reflexivity.
Qed.

Section Sboxes.
  Context (c : build) (rnd : nat -> nat -> N) (fuel : nat) (calls : callable) (g : list (string * binding)) (m : mem) (k : nat).
  Notation call f vs O := (call_fun c src_bs_tables (src_bs_structs c) rnd fuel calls f vs (mk_cst g m O k)).
  Definition sbox_source (fn : fundef) (md : word -> word -> word -> word -> word -> word * word) : Prop :=
    forall O fa fb fc fd fe i f p j h q ws1 ws2 wa wb O1 O2 sa sb, md fa fb fc fd fe = (sa, sb) ->
    getc O i f = Ok (CWords ws1) -> aset ws1 p sa = Ok wa -> setc O i f (CWords wa) = O1 ->
    getc O1 j h = Ok (CWords ws2) -> aset ws2 q sb = Ok wb -> setc O1 j h (CWords wb) = O2 ->
    call fn [VWord fa; VWord fb; VWord fc; VWord fd; VWord fe; VPtr TWord (Obj i f (wo c p)); VPtr TWord (Obj j h (wo c q))] O = Ok (None, mk_cst g m O2 k).
  Ltac sbox :=
    intros O fa fb fc fd fe i f p j h q ws1 ws2 wa wb O1 O2 sa sb E G1 A1 S1 G2 A2 S2; injection E as <- <-; subst O1 O2;
    eapply xcall_void; [reflexivity|params|the_body; stxs|subst; fobj].
  Lemma sbox1_source : sbox_source (bs_stream_sbox1 c) (bs_sbox1 (word_ops c)). Proof. sbox. Qed.
  Lemma sbox2_source : sbox_source (bs_stream_sbox2 c) (bs_sbox2 (word_ops c)). Proof. sbox. Qed.
  Lemma sbox3_source : sbox_source (bs_stream_sbox3 c) (bs_sbox3 (word_ops c)). Proof. sbox. Qed.
  Lemma sbox5_source : sbox_source (bs_stream_sbox5 c) (bs_sbox5 (word_ops c)). Proof. sbox. Qed.
  Lemma sbox6_source : sbox_source (bs_stream_sbox6 c) (bs_sbox6 (word_ops c)). Proof. sbox. Qed.
  Lemma sbox7_source : sbox_source (bs_stream_sbox7 c) (bs_sbox7 (word_ops c)). Proof. sbox. Qed.
  Lemma sbox4_source : sbox_source (bs_stream_sbox4 c) (bs_sbox4 (word_ops c)).
  Proof.
    intros O fa fb fc fd fe i f p j h q ws1 ws2 wa wb O1 O2 sa sb E G1 A1 S1 G2 A2 S2; injection E as <- <-; subst O1 O2.
    assert (G3 : getc (setc O i f (CWords wa)) i f = Ok (CWords wa)) by (rewrite (getc_setc _ _ _ _ _ _ _ G1), Nat.eqb_refl, String.eqb_refl; reflexivity).
    pose proof (aget_aset_same _ _ _ _ A1) as A3.
    eapply xcall_void; [reflexivity|params|the_body; stxs|fobj].
  Qed.
End Sboxes.

Ltac agetx ::= first [eassumption | reflexivity | match goal with H : aget ?l ?n = Ok _ |- aget ?l ?m = Ok _ => replace m with n by lia; exact H end].
Ltac asetx ::= first [eassumption | reflexivity | match goal with H : aset ?l ?n ?v = Ok _ |- aset ?l ?m ?v = Ok _ => replace m with n by lia; exact H end].

#[local] Opaque BS_AND BS_OR BS_XOR BS_NOT BS_SHL BS_SHR BS_VAL bs_sbox1 bs_sbox2 bs_sbox3 bs_sbox4 bs_sbox5 bs_sbox6 bs_sbox7.
(* struct dvbcsa_bs_stream_regs_s holding s *)
Definition robj (s : regs word) : object :=
  [("A", CWords (rgA s)); ("B", CWords (rgB s)); ("X", CWords (rgX s)); ("Y", CWords (rgY s)); ("Z", CWords (rgZ s)); ("D", CWords (rgD s));
   ("E", CWords (rgE s)); ("F", CWords (rgF s)); ("sb", CWords (rgsb s)); ("p", CWords [rgp s]); ("q", CWords [rgq s]); ("r", CWords [rgr s])].

Section Kernel.
  Context (c : build) (rnd : nat -> nat -> N) (fuel : nat) (calls : callable) (m : mem) (k : nat) (O : list object) (ir : nat) (Hir : (ir < length O)%nat).
  Context (Hf : (10 < fuel)%nat).
  Notation exec := (exec c src_bs_tables (src_bs_structs c) rnd fuel calls).
  Notation rtype := (TStruct "dvbcsa_bs_stream_regs_s").
  Notation kvars a i j b :=
    [("b", BVal (TInt I32) b); ("j", BVal (TInt I32) j); ("i", BVal (TInt I32) i);
     ("B", BVal (TPtr (TArr TWord 4)) (Some (VPtr (TArr TWord 4) (Obj ir "B" (wo c (4 * a))))));
     ("A", BVal (TPtr (TArr TWord 4)) (Some (VPtr (TArr TWord 4) (Obj ir "A" (wo c (4 * a))))));
     ("extra_B", BObj (TArr TWord 4) (length O));
     ("regs", BVal (TPtr rtype) (Some (VPtr rtype (Obj ir "" 0))))].
  Notation num n := (Some (VInt I32 (N.of_nat n))).
  Notation st v A B X Y Z D E F sb p q r ex :=
    (mk_cst v m (upd O ir [("A", CWords A); ("B", CWords B); ("X", CWords X); ("Y", CWords Y); ("Z", CWords Z); ("D", CWords D);
       ("E", CWords E); ("F", CWords F); ("sb", CWords sb); ("p", CWords [p]); ("q", CWords [q]); ("r", CWords [r])] ++ [[("", CWords ex)]]) k).



  Lemma mod_two j t : (j < 4)%nat -> Nat.odd j = t -> bin_op c (src_bs_structs c) Mod (VInt I32 (N.of_nat j)) (VInt I32 2) = Ok (VInt I32 (if t then 1 else 0)).
  Proof. intros H <-. destruct j as [|[|[|[|]]]]; try lia; reflexivity. Qed.
  Ltac modx ::= eapply mod_two; [lia|eassumption].
  Ltac condx ::= eapply pv_cond; [pvx|vm_compute; reflexivity|cbv iota; pvx].

  Ltac forb F M n :=
    eapply seq_one; [eapply st_for; [eapply opt_some; runx|
      eapply (loop_fun c rnd fuel _ F _ _ _ _ n fuel 0); [exact M|lia| |intros; eapply cond_ok; [pvx|falsex]];
      let b := fresh "b" in let M1 := fresh "M" in intros b ? ? ? M1; unfold row_get in M1; gob M1; try okj M1; (split; [eapply cond_ok; [pvx|truex]|
        eexists; split; [blk ltac:(idtac; stxs)|stepx]])]|cbv beta; change (0 + n)%nat with n].

  Ltac callx ::= goto;
    lazymatch goal with
    | |- link _ _ _ _ _ (bs_stream_sbox1 _ :: _) _ _ _ = _ => rewrite link_here by reflexivity; eapply sbox1_source
    | |- link _ _ _ _ _ (bs_stream_sbox2 _ :: _) _ _ _ = _ => rewrite link_here by reflexivity; eapply sbox2_source
    | |- link _ _ _ _ _ (bs_stream_sbox3 _ :: _) _ _ _ = _ => rewrite link_here by reflexivity; eapply sbox3_source
    | |- link _ _ _ _ _ (bs_stream_sbox4 _ :: _) _ _ _ = _ => rewrite link_here by reflexivity; eapply sbox4_source
    | |- link _ _ _ _ _ (bs_stream_sbox5 _ :: _) _ _ _ = _ => rewrite link_here by reflexivity; eapply sbox5_source
    | |- link _ _ _ _ _ (bs_stream_sbox6 _ :: _) _ _ _ = _ => rewrite link_here by reflexivity; eapply sbox6_source
    | |- link _ _ _ _ _ (bs_stream_sbox7 _ :: _) _ _ _ = _ => rewrite link_here by reflexivity; change (Obj ir "p" 0) with (Obj ir "p" (wo c 0)); change (Obj ir "q" 0) with (Obj ir "q" (wo c 0)); eapply sbox7_source
    end; [eassumption|getx|asetx|setx|getx|asetx|setx].

  Definition step_body (f : fundef) : list stmt :=
    match nth_error (fn_body f) 8 with
    | Some (SFor _ _ _ (SBlock [SFor _ _ _ (SBlock l)])) => l
    | _ => []
    end.
  Definition step_claim (init : bool) (fn : fundef) : Prop := forall i j a s s' ex bv, (i < 8)%nat -> (j < 4)%nat -> length ex = 4%nat ->
    kernel_step (word_ops c) init i j a s = Ok s' ->
    exists ex', length ex' = 4%nat /\
    exec_seq c rnd fuel calls (step_body fn)
      (mk_cst (kvars a (num i) (num j) bv) m (upd O ir (robj s) ++ [[("", CWords ex)]]) k)
     = Ok (None, mk_cst (kvars (a - 1) (num i) (num j) (num 4)) m (upd O ir (robj s') ++ [[("", CWords ex')]]) k).
  Ltac body := lazymatch goal with |- exec_seq _ _ _ _ (step_body ?f) _ = _ => let q := eval hnf in (step_body f) in change (step_body f) with q end.
  Ltac prepare :=
    let i := fresh "i" in let j := fresh "j" in let a := fresh "a" in let Hi := fresh "Hi" in let Hj := fresh "Hj" in let Lx := fresh "Lx" in let M := fresh "M" in
    let p1 := fresh in let P := fresh in let Ha := fresh in
    intros i j a [A B X Y Z D E F sb p q r] s' ex bv Hi Hj Lx M; destruct ex as [|x0 [|x1 [|x2 [|x3 [|]]]]]; try discriminate Lx; clear Lx;
    unfold kernel_step in M; apply bind_ok in M; destruct M as (p1 & P & M); unfold psub in P; destruct (a <? 1)%nat eqn:Ha; [discriminate P|]; apply Nat.ltb_ge in Ha; apply ok_inj in P; subst p1;
    cbn [rgA rgB rgX rgY rgZ rgD rgE rgF rgsb rgp rgq rgr] in M;
    gob M; unfold xor4_get, adder_bit, rotate_B, sbox_get, row_get in *; cbv iota in *; gobs;
    unfold robj; cbn [rgA rgB rgX rgY rgZ rgD rgE rgF rgsb rgp rgq rgr].
  Ltac step :=
    prepare; eexists [_; _; _; _]; split; [reflexivity|]; body; do 4 stx;
    lazymatch goal with M : feed_A _ _ ?i ?j ?a _ ?X ?D ?sb ?A = Ok _ |- exec_seq _ _ _ _ _ (mk_cst _ _ (upd _ _ (_ :: ?l) ++ ?ex) _) = _ =>
      forb (fun b A1 => mk_cst (kvars a (num i) (num j) (num b)) m (upd O ir (("A", CWords A1) :: l) ++ ex) k) M 4%nat
    end;
    lazymatch goal with M : feed_B _ _ ?i ?j ?a _ ?Y _ ?B = Ok _ |- exec_seq _ _ _ _ _ (mk_cst _ _ (upd _ _ (?A0 :: _ :: ?l) ++ ?ex) _) = _ =>
      forb (fun b B1 => mk_cst (kvars a (num i) (num j) (num b)) m (upd O ir (A0 :: ("B", CWords B1) :: l) ++ ex) k) M 4%nat
    end;
    (eapply seq_one; [blk ltac:(idtac; stxs)|]);
    (eapply seq_one; [blk ltac:(idtac; stxs)|]);
    stxs.
  Lemma step_source : calls = link c src_bs_tables (src_bs_structs c) rnd fuel (skipn 7 (src_bs_program c)) -> step_claim false (bs_stream_cipher_kernel c).
  Proof. intros Hc. step. Qed.
  Ltac forb F M n ::=
    eapply seq_one; [eapply st_for; [eapply opt_some; runx|
      eapply (loop_fun c rnd fuel _ F _ _ _ _ n fuel 0); [exact M|lia| |intros; eapply cond_ok; [pvx|falsex]];
      let b := fresh "b" in let M1 := fresh "M" in intros b ? ? ? M1; unfold row_get in M1; cbv beta iota in M1; gob M1;
      lazymatch goal with H : (if Nat.odd ?j then _ else _) = _ |- _ => revert H; destruct (Nat.odd j) eqn:?; intros H end;
      (split; [eapply cond_ok; [pvx|truex]|
        eexists; split; [blk ltac:(idtac; stxs)|stepx]])]|cbv beta; change (0 + n)%nat with n].
  Lemma step_init_source : calls = link c src_bs_tables (src_bs_structs c) rnd fuel (skipn 8 (src_bs_program c)) -> step_claim true (bs_stream_cipher_kernel_init c).
  Proof. intros Hc. step. Qed.
  Ltac forb F M n ::=
    eapply seq_one; [eapply st_for; [eapply opt_some; runx|
      eapply (loop_fun c rnd fuel _ F _ _ _ _ n fuel 0); [exact M|lia| |intros; eapply cond_ok; [pvx|falsex]];
      let b := fresh "b" in let M1 := fresh "M" in intros b ? ? ? M1; gob M1;
      (split; [eapply cond_ok; [pvx|truex]|
        eexists; split; [blk ltac:(idtac; stxs)|stepx]])]|cbv beta; change (0 + n)%nat with n].
  Ltac forbs F M n t :=
    eapply seq_one; [eapply st_for; [eapply opt_some; runx|
      eapply (loop_fun c rnd fuel _ F _ _ _ _ n fuel 0); [exact M|lia| |intros; eapply cond_ok; [pvx|falsex]];
      intros; (split; [eapply cond_ok; [pvx|truex]|
        eexists; split; [blk ltac:(idtac; t)|stepx]])]|cbv beta; change (0 + n)%nat with n].
  Definition kernel_claim (init : bool) (fn : fundef) : Prop := forall g s s',
    stream_cipher_kernel (word_ops c) init s = Ok s' ->
    call_fun c src_bs_tables (src_bs_structs c) rnd fuel calls fn [VPtr rtype (Obj ir "" 0)] (mk_cst g m (upd O ir (robj s)) k) = Ok (None, mk_cst g m (upd O ir (robj s')) (S k)).
End Kernel.
Section Kernels.
  Context (c : build) (rnd : nat -> nat -> N) (fuel : nat) (calls : callable) (m : mem) (k : nat) (O : list object) (ir : nat) (Hir : (ir < length O)%nat).
  Context (Hf : (10 < fuel)%nat).
  Notation exec := (exec c src_bs_tables (src_bs_structs c) rnd fuel calls).
  Notation rtype := (TStruct "dvbcsa_bs_stream_regs_s").
  Notation kvars a i j b :=
    [("b", BVal (TInt I32) b); ("j", BVal (TInt I32) j); ("i", BVal (TInt I32) i);
     ("B", BVal (TPtr (TArr TWord 4)) (Some (VPtr (TArr TWord 4) (Obj ir "B" (wo c (4 * a))))));
     ("A", BVal (TPtr (TArr TWord 4)) (Some (VPtr (TArr TWord 4) (Obj ir "A" (wo c (4 * a))))));
     ("extra_B", BObj (TArr TWord 4) (length O));
     ("regs", BVal (TPtr rtype) (Some (VPtr rtype (Obj ir "" 0))))].
  Notation num n := (Some (VInt I32 (N.of_nat n))).
  Definition kst a i j b (s : regs word) ex := mk_cst (kvars a i j b) m (upd O ir (robj s) ++ [[("", CWords ex)]]) (S k).
  (* the two nested loops *)
  Lemma loops_source init fn s a' s' ex (jv bv : option value) e2 st2 e1 st1 :
    step_claim c rnd fuel calls m (S k) O ir init fn -> length ex = 4%nat ->
    e2 = EBin Lt (EVar "j") (EConst I32 4) -> st2 = EPost Add (EVar "j") -> e1 = EBin Lt (EVar "i") (EConst I32 8) -> st1 = EPost Add (EVar "i") ->
    for_ 8 0 (fun i st => for_ 4 0 (fun j '(a, s) => s <- kernel_step (word_ops c) init i j a s ;; a <- psub a 1 ;; Ok (a, s)) st) (32%nat, s) = Ok (a', s') ->
    exists ex' jv' bv', loop fuel (cond_of c src_bs_tables (src_bs_structs c) calls e1)
       (exec (SBlock [SFor (Some (EAssign (EVar "j") (EConst I32 0))) e2 (Some st2) (SBlock (step_body fn))])) (opt_ev c src_bs_tables (src_bs_structs c) calls (Some st1))
       (kst 32 (num 0%nat) jv bv s ex) = Ok (None, kst a' (num 8%nat) jv' bv' s' ex').
  Proof.
    intros Step Lx Q1 Q2 Q3 Q4 M.
    edestruct (loop_up c rnd fuel calls (fun i '(a, s) st => exists ex jv bv, length ex = 4%nat /\ st = kst a (num i) jv bv s ex) e1 (Some st1) (SBlock [SFor (Some (EAssign (EVar "j") (EConst I32 0))) e2 (Some st2) (SBlock (step_body fn))]) _ 8 fuel 0 _ _ 8%nat (kst 32 (num 0%nat) jv bv s ex) M) as (s9 & E9 & ex9 & jv9 & bv9 & L9 & ->).
    - lia.
    - exists ex, jv, bv. split; [exact Lx|reflexivity].
    - reflexivity.
    - intros i [a1 s1] [a2 s2] st Hi (ex1 & jv1 & bv1 & L1 & ->) M1. split; [subst; unfold kst; eapply cond_ok; [pvx|truex]|].
      edestruct (loop_up c rnd fuel calls (fun j '(a, s) st => exists ex bv, length ex = 4%nat /\ st = kst a (num i) (num j) bv s ex) e2 (Some st2) (SBlock (step_body fn)) _ 4 fuel 0 _ _ 4%nat (kst a1 (num i) (num 0%nat) bv1 s1 ex1) M1) as (s3 & E3 & ex3 & bv3 & L3 & ->).
      + lia.
      + exists ex1, bv1. split; [exact L1|reflexivity].
      + reflexivity.
      + intros j [a4 s4] [a5 s5] st Hj (ex4 & bv4 & L4 & ->) M4. split; [subst; unfold kst; eapply cond_ok; [pvx|truex]|].
        gob M4. unfold psub in *. destruct (a4 <? 1)%nat; [discriminate|]. gobs.
        lazymatch goal with H : kernel_step _ _ _ _ _ _ = _ |- _ => destruct (Step i j a4 s4 s5 ex4 bv4 ltac:(lia) ltac:(lia) L4 H) as (ex6 & L6 & E6) end.
        rewrite ?Q2, ?Q4 in *. eexists. eexists. split; [|split]; [unfold kst; blk ltac:(exact E6)|stepx|]. exists ex6. eexists. split; [exact L6|reflexivity].
      + intros [a4 s4] st (ex4 & bv4 & L4 & ->). subst; unfold kst; eapply cond_ok; [pvx|falsex].
      + rewrite ?Q2, ?Q4 in *. eexists. eexists. split; [|split]; [unfold kst; blk ltac:(eapply seq_one; [eapply st_for; [eapply opt_some; runx|exact E3]|reflexivity])|stepx|].
        exists ex3. eexists. eexists. split; [exact L3|reflexivity].
    - intros [a4 s4] st (ex4 & jv4 & bv4 & L4 & ->). subst; unfold kst; eapply cond_ok; [pvx|falsex].
    - exists ex9, jv9, bv9. exact E9.
  Qed.

  (* for (i = 0; i < 10; i++) for (b = 0; b < 4; b++) regs->A[32 + i][b] = regs->A[i][b]; *)
  Lemma rewind_source f ob A A' a i0 jv bv e st b e2 st2 b2 :
    f = "A" \/ f = "B" -> (forall A, member (ob A) f = Some (CWords A)) -> (forall A A', set_member (ob A) f (CWords A') = ob A') ->
    e = EBin Lt (EVar "i") (EConst I32 10) -> st = Some (EPost Add (EVar "i")) ->
    b = SBlock [SFor (Some (EAssign (EVar "b") (EConst I32 0))) e2 st2 b2] ->
    e2 = EBin Lt (EVar "b") (EConst I32 4) -> st2 = Some (EPost Add (EVar "b")) ->
    b2 = SBlock [SExpr (EAssign (EIndex (EIndex (EField (EDeref (EVar "regs")) f) (EBin Add (EConst I32 32) (EVar "i"))) (EVar "b")) (EIndex (EIndex (EField (EDeref (EVar "regs")) f) (EVar "i")) (EVar "b")))] ->
    rewind A = Ok A' ->
    forall O1, (ir < length O1)%nat -> exists bv',
    exec (SFor (Some (EAssign (EVar "i") (EConst I32 0))) e st b) (mk_cst (kvars a i0 jv bv) m (upd O1 ir (ob A)) (S k)) = Ok (None, mk_cst (kvars a (num 10%nat) jv bv') m (upd O1 ir (ob A')) (S k)).
  Proof.
    intros Hn Hg Hs Qe Qs Qb Qe2 Qs2 Qb2 M O1 LO. unfold rewind in M.
    edestruct (loop_up c rnd fuel calls (fun i A st => exists bv, st = mk_cst (kvars a (num i) jv bv) m (upd O1 ir (ob A)) (S k)) e st b _ 10 fuel 0 _ _ 10%nat (mk_cst (kvars a (num 0%nat) jv bv) m (upd O1 ir (ob A)) (S k)) M) as (s9 & E9 & bv9 & ->).
    - lia.
    - exists bv. reflexivity.
    - reflexivity.
    - intros i A1 A2 s Hi (bv1 & ->) M1. split; [rewrite Qe; eapply cond_ok; [pvx|truex]|]. eexists. eexists. split; [|split].
      + rewrite Qb. eapply xblock.
        * eapply seq_one; [|reflexivity]. eapply st_for; [eapply opt_some; runx|].
          eapply (loop_fun c rnd fuel _ (fun b A1 => mk_cst (kvars a (num i) jv (num b)) m (upd O1 ir (ob A1)) (S k)) _ _ _ _ 4 fuel 0); [exact M1|lia| |].
          -- intros b1 A3 A4 Hb M2. cbv beta in M2. gob M2. split; [rewrite Qe2; eapply cond_ok; [pvx|truex]|]. exists (mk_cst (kvars a (num i) jv (num b1)) m (upd O1 ir (ob A4)) (S k)). split; [rewrite Qb2; destruct Hn; subst f|].
             ++ eapply xblock; [eapply seq_one; [eapply st_expr|reflexivity]; eapply run_assign; [eapply pv_pl; [plx|eapply load_w; [eapply getc_here; [lens|apply Hg]|agetx]]|plx|eapply asg_loc; [reflexivity|
                  eapply xstore_w; [eapply getc_here; [lens|apply Hg]|asetx|eapply setc_here; [lens|apply Hs]]]]|reflexivity|fobj].
             ++ eapply xblock; [eapply seq_one; [eapply st_expr|reflexivity]; eapply run_assign; [eapply pv_pl; [plx|eapply load_w; [eapply getc_here; [lens|apply Hg]|agetx]]|plx|eapply asg_loc; [reflexivity|
                  eapply xstore_w; [eapply getc_here; [lens|apply Hg]|asetx|eapply setc_here; [lens|apply Hs]]]]|reflexivity|fobj].
             ++ rewrite Qs2; stepx.
          -- intros. rewrite Qe2. eapply cond_ok; [pvx|falsex].
        * cbn [length Nat.sub skipn]; reflexivity.
        * fobj.
      + rewrite Qs. cbv beta. stepx.
      + eexists. reflexivity.
    - intros A1 s (bv1 & ->). rewrite Qe. eapply cond_ok; [pvx|falsex].
    - exists bv9. eapply st_for; [eapply opt_some; runx|]. exact E9.
  Qed.
  Lemma kernel_claim_ok init fn :
    step_claim c rnd fuel calls m (S k) O ir init fn ->
    fn_ret fn = TVoid -> fn_params fn = [("regs", TPtr rtype)] -> 
    fn_body fn = fn_body (bs_stream_cipher_kernel c) \/ fn_body fn = fn_body (bs_stream_cipher_kernel_init c) -> 
    kernel_claim c rnd fuel calls m k O ir init fn.
  Proof.
    intros Step R P Bd g s s' M. unfold stream_cipher_kernel in M. gob M. okj M.
    lazymatch goal with H : for_ 8 _ _ _ = Ok (?a, ?s2) |- _ => destruct (loops_source init fn s a s2 (any_words c rnd k 4) None None _ _ _ _ Step eq_refl eq_refl eq_refl eq_refl eq_refl H) as (ex & jv & bv & El) end.
    lazymatch goal with HA : rewind (rgA ?s1) = Ok ?A, HB : rewind (rgB ?s1) = Ok ?B |- _ =>
      assert (Lx : (ir < length (O ++ [[("", CWords ex)]]))%nat) by lens;
      destruct (rewind_source "A" (fun A => ("A", CWords A) :: tl (robj s1)) (rgA s1) A v0 (num 8%nat) jv bv _ _ _ _ _ _ (or_introl eq_refl) ltac:(reflexivity) ltac:(reflexivity)
        eq_refl eq_refl eq_refl eq_refl eq_refl eq_refl HA (O ++ [[("", CWords ex)]]) Lx) as (bv1 & EA);
      destruct (rewind_source "B" (fun B => ("A", CWords A) :: ("B", CWords B) :: tl (tl (robj s1))) (rgB s1) B v0 (num 10%nat) jv bv1 _ _ _ _ _ _ (or_intror eq_refl) ltac:(reflexivity) ltac:(reflexivity)
        eq_refl eq_refl eq_refl eq_refl eq_refl eq_refl HB (O ++ [[("", CWords ex)]]) Lx) as (bv2 & EB)
    end.
    rewrite !(upd_app O) in EA, EB by exact Hir.
    eapply xcall_void; [exact R|rewrite P; cbn [bind_params convert bind]; reflexivity| |].
    - destruct Bd as [Bd|Bd]; rewrite Bd; the_body.
      + eapply seq_one; [eapply xst_declobj; [exact I|reflexivity|apply upd_length]|]. do 7 stx.
        eapply seq_one; [eapply st_for; [eapply opt_some; runx|unfold step_body in El; rewrite Bd in El; exact El]|].
        eapply seq_one; [exact EA|]. eapply seq_one; [exact EB|]. reflexivity.
      + eapply seq_one; [eapply xst_declobj; [exact I|reflexivity|apply upd_length]|]. do 7 stx.
        eapply seq_one; [eapply st_for; [eapply opt_some; runx|unfold step_body in El; rewrite Bd in El; exact El]|].
        eapply seq_one; [exact EA|]. eapply seq_one; [exact EB|]. reflexivity.
    - eapply firstn_drop; [lens|]. unfold robj. cbn [tl rgA rgB rgX rgY rgZ rgD rgE rgF rgsb rgp rgq rgr]. apply firstn_same. lens.
  Qed.
End Kernels.
Theorem kernel_source c rnd fuel m k O ir : (ir < length O)%nat -> (10 < fuel)%nat ->
  kernel_claim c rnd fuel (link c src_bs_tables (src_bs_structs c) rnd fuel (skipn 7 (src_bs_program c))) m k O ir false (bs_stream_cipher_kernel c).
Proof. intros. eapply kernel_claim_ok; try assumption; try reflexivity; [|left; reflexivity]. eapply step_source; try assumption. reflexivity. Qed.
Theorem kernel_init_source c rnd fuel m k O ir : (ir < length O)%nat -> (10 < fuel)%nat ->
  kernel_claim c rnd fuel (link c src_bs_tables (src_bs_structs c) rnd fuel (skipn 8 (src_bs_program c))) m k O ir true (bs_stream_cipher_kernel_init c).
Proof. intros. eapply kernel_claim_ok; try assumption; try reflexivity; [|right; reflexivity]. eapply step_init_source; try assumption. reflexivity. Qed.
