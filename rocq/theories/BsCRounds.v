(** BsCRounds.v -- the rounds of dvbcsa_bs_block.c: the two register functions of the source compute what the model computes. *)
From Coq Require Import String.
From Verif Require Import Base Mem Tables ModelBsWord ModelBsTranspose ModelBsStream ModelBsBlock BsWordFacts BsView BsC SourceBitslice BsCRun BsCTranspose BsCPack BsCRegister.
From Verif Require MiniC MiniCRun.
Local Open Scope string_scope. Local Open Scope list_scope. Local Open Scope N_scope.
#[local] Opaque BS_AND BS_OR BS_XOR BS_NOT BS_SHL BS_SHR BS_VAL ob key_block_word.

Section Rounds.
  Context (c : build) (rnd : nat -> nat -> N) (fuel : nat) (calls : callable) (m : mem) (O : list object) (ir : nat) (r0 : list word) (key : N).
  Context (Hf : (256 < fuel)%nat) (Gr : getc O ir "" = Ok (CWords r0)).
  Notation T := src_bs_tables. Notation S := (src_bs_structs c). Notation be := (big_endian c).
  Notation exec := (exec c T S rnd fuel calls).
  Notation num n := (Some (VInt I32 (N.of_nat n))).
  Notation st v r s1 s2 k := (mk_cst v m (ob O ir r s1 s2) k).
  Notation rnv enc q := (if enc : bool then "r7_N" else "r6_N", BVal (TPtr TWord) (Some (VPtr TWord (Obj ir "" (wo c q))))).
  Notation base n2 gv iv p := [("g", BVal (TInt I32) gv); ("i", BVal (TInt I32) (Some (VInt I32 iv))); ("scratch2", BObj (TArr TWord n2) (Datatypes.S (length O))); ("scratch1", BObj (TArr TWord 8) (length O));
    ("block", BVal (TPtr TWord) (Some (VPtr TWord (Flat key)))); ("r", BVal (TPtr TWord) (Some (VPtr TWord (Obj ir "" (wo c p)))))].
  Ltac lens ::= rewrite ?(ob_len fuel _ _ Hf); first [reflexivity | lia].
  Ltac getx ::= cbn [objs];
    lazymatch goal with
    | |- getc (ob _ _ _ _ _) ir _ = _ => eapply ob_R; exact Gr
    | |- getc (ob _ _ _ _ _) (length O) _ = _ => apply ob_1
    | |- getc (ob _ _ _ _ _) (Datatypes.S (length O)) _ = _ => eapply ob_2; exact Hf
    end.
  Ltac setx ::= cbn [objs];
    lazymatch goal with
    | |- setc (ob _ _ _ _ _) ir _ _ = _ => eapply ob_setR; [exact Hf|exact Gr]
    | |- setc (ob _ _ _ _ _) (length O) _ _ = _ => eapply ob_set1; exact Hf
    | |- setc (ob _ _ _ _ _) (Datatypes.S (length O)) _ _ = _ => eapply ob_set2; exact Hf
    end.
  Ltac nat_of ::=
  lazymatch goal with
  | |- N.of_nat ?k = N.of_nat _ => reflexivity
  | |- ?a + ?b = N.of_nat _ => eapply natify_add; [nat_of|nat_of]
  | |- ?a - ?b = N.of_nat _ => eapply natify_sub; [nat_of|nat_of]
  | |- ?a * ?b = N.of_nat _ => eapply natify_mul; [nat_of|nat_of]
  | |- ?e = N.of_nat ?k => first [MiniCRun.ground e; let q := eval vm_compute in (N.to_nat e) in unify k q; vm_compute; reflexivity
                                 | unify k (N.to_nat e); symmetry; apply N2Nat.id]
  end.
  Ltac divx ::= apply div_wb.
  Ltac kwx := cbn [flat]; match goal with H : key_block_word _ _ _ _ = Ok _ |- _ => exact H end.
  Ltac vgetx := cbn [MiniC.bytes_in]; lazymatch goal with |- view_get _ ?z ?r ?q = _ => match goal with H : view_get _ z r ?p = Ok _ |- _ => replace q with p by lia; exact H end end.
  Ltac vsetx := cbn [MiniC.bytes_in]; lazymatch goal with |- view_set _ ?z ?r ?q ?v = _ => match goal with H : view_set _ z r ?p v = Ok _ |- _ => replace q with p by lia; exact H end end.
  Ltac loadx ::=
    lazymatch goal with
    | |- load_at _ _ TWord (Flat _) _ = _ => eapply load_flatw; kwx
    | |- load_at _ _ (TInt _) (Tab _ _) _ = _ => eapply load_tab; [reflexivity|eassumption]
    | |- load_at _ _ (TInt ?t) (Obj _ _ 0) _ = _ => eapply (load_e c t _ _ _ 0); [eassumption|getx|vgetx]
    | |- load_at _ _ (TInt ?t) (Obj _ _ _) _ = _ => eapply (load_e c t); [eassumption|getx|vgetx]
    end.
  Ltac storex ::= lazymatch goal with |- store_at _ (TInt ?t) (Obj _ _ 0) _ _ = _ => eapply (xstore_e c t _ _ _ _ 0); [eassumption|getx|vsetx|setx] | |- store_at _ (TInt ?t) (Obj _ _ _) _ _ = _ => eapply (xstore_e c t); [eassumption|getx|vsetx|setx] end.
  Ltac ptrx ::=
    lazymatch goal with
    | |- bin_op _ _ Add (VPtr TWord (Flat _)) _ = _ => eapply ptr_flat; svn
    | |- bin_op _ _ Add (VPtr (TInt ?t) (Obj _ _ 0)) _ = _ => eapply (ptr_el0 c t); svn
    | |- bin_op _ _ Add (VPtr (TInt ?t) (Obj _ _ (N.of_nat _))) _ = _ => eapply (ptr_el c t); svn
    | |- bin_op _ _ Add (VPtr _ (Tab _ 0)) _ = _ => eapply ptr_table; reflexivity
    | |- bin_op _ _ Sub (VPtr TWord (Obj _ _ (wo _ _))) _ = _ => eapply ptr_w_sub; [svn|lia]
    end.
  Ltac step := first [eapply opt_step; [runx|st_eq] | unfold opt_ev; eapply f_equal; st_eq].
  (* a loop with for_ as its model *)
  Ltac forr F M n i0 prep body :=
    eapply seq_one; [eapply st_for; [first [eapply opt_some; runx | reflexivity]|
      refine (proj1 (loop_inv c rnd fuel calls (fun _ => True) F _ _ _ _ n fuel i0 _ _ _ Logic.I M ltac:(lia) _ _ _)); [|intros ?; eapply cond_ok; [pvx|falsex]|cbv beta; st_eq];
      let j := fresh "j" in let x := fresh "x" in let x' := fresh "x'" in let Hj := fresh "Hj" in let M1 := fresh "M" in
      intros j x x' Hj _ M1; cbv beta in M1; prep M1; (split; [eapply cond_ok; [pvx|truex]|]); eexists; split; [blk ltac:(idtac; body j)|split; [step|exact Logic.I]]]|cbv beta].
  Ltac go1 j := stxs.
  Ltac gob1 M := gob M.
  Ltac asetx ::= first [eassumption | match goal with H : aset ?l ?n _ = Ok _ |- aset ?l ?m _ = Ok _ => replace m with n by lia; exact H end].
  Lemma neg8 : bin_op c S Mul (VInt I32 4294967288) (VInt I32 1) = Ok (VInt I32 4294967288). Proof. reflexivity. Qed.
  Ltac binop ::=
  lazymatch goal with
  | |- bin_op _ _ Mul (VInt I32 4294967288) (VInt I32 1) = _ => apply neg8
  | |- bin_op _ _ Add (VInt I32 4294967288) (VInt I32 (N.of_nat _)) = _ => eapply back_ix; lia
  | |- bin_op _ _ Mod (VInt _ _) (VInt _ _) = _ => modx
  | |- bin_op _ _ Div (VInt _ _) (VInt _ _) = _ => first [eapply int_lift; MiniCRun.intop | divx]
  | |- bin_op _ _ _ (VInt _ _) (VInt _ _) = _ => eapply int_lift; MiniCRun.intop
  | |- bin_op _ _ Add (VPtr TWord (Obj _ _ 0)) (VInt _ _) = _ => eapply ptr_word0; svn
  | |- bin_op _ _ Add (VPtr TWord (Obj _ _ (wo _ _))) (VInt I32 (4294967288 + _)) = _ => eapply ptr_w_back; lia
  | |- bin_op _ _ Add (VPtr TWord (Obj _ _ (wo _ _))) (VInt _ _) = _ => eapply ptr_word; svn
  | |- _ => ptrx
  end.
  Lemma deint_row row g x y : BS_LOAD_DEINTERLEAVE_8 c row g = Ok (x, y) -> exists a b, aget row (2 * g) = Ok a /\ aget row (2 * g + 1) = Ok b /\ BS_LOAD_DEINTERLEAVE_8 c [a; b] 0 = Ok (x, y).
  Proof. unfold BS_LOAD_DEINTERLEAVE_8. intros E. gob E. exists v, v0. repeat split; [exact E0|exact E1|]. cbn [aget nth_error Nat.mul Nat.add bind]. exact E. Qed.
  Lemma xst_deint p lo hi s i f row n g x y rl rh s1 s2 : pv c calls p s (VPtr TWord (Obj i f (wo c n))) -> n = (2 * g)%nat -> getc (objs s) i f = Ok (CWords row) -> BS_LOAD_DEINTERLEAVE_8 c row g = Ok (x, y) ->
    pl c calls lo s rl -> asg c rl (VWord x) s s1 -> pl c calls hi s1 rh -> asg c rh (VWord y) s1 s2 -> exec (SDeint p lo hi) s = Ok (None, s2).
  Proof.
    intros [rp [P P']] -> G E L [z1 A] H [z2 B]. destruct (deint_row _ _ _ _ E) as (a & b & Ga & Gb & D).
    pose proof (load_w c i f (2 * g) row a s G Ga) as La. pose proof (load_w c i f (2 * g + 1) row b s G Gb) as Lb.
    cbn [BsC.exec]. rewrite P; cbn [bind]. rewrite P'; cbn [bind]. rewrite (move_at c TWord i f _ _ (wo c (2 * g + 1))) by (rewrite size_word; unfold wo; nia). cbn [bind].
    rewrite La; cbn [bind]. rewrite Lb; cbn [bind]. rewrite D. rewrite L; cbn [bind]. rewrite A; cbn [bind]. rewrite H; cbn [bind]. rewrite B. reflexivity.
  Qed.
  Lemma psub_eq a b d : psub a b = Ok d -> (b <= a)%nat /\ d = (a - b)%nat.
  Proof. unfold psub. destruct (a <? b)%nat eqn:E; [discriminate|]. intros H. injection H as <-. apply Nat.ltb_ge in E. split; [exact E|reflexivity]. Qed.
  Ltac gobp M := gob M; match goal with H : psub _ _ = Ok _ |- _ => apply psub_eq in H; destruct H as [? ->] end.
  Ltac gobn M := gob M; match goal with H : bind (aget _ _) _ = Ok _ |- _ => gob H; injection H as <- <- end.
  Ltac gobpn M := gobp M; match goal with H : bind (aget _ _) _ = Ok _ |- _ => gob H; injection H as <- <- end.
  Lemma dec_rounds (wide : bool) n2 i p q r s1 s2 r' k rest y : deinterleave c = wide ->
    for_ 8 0 (fun g r =>
      '(sbox_out, perm_out) <- block_perm_stage c s2 g ;;
      w <- aget r (p + 8 * 8 + g) ;; tmp1 <- aget r (p + 8 * 2 + g) ;; tmp2 <- aget r (p + 8 * 3 + g) ;; tmp3 <- aget r (p + 8 * 4 + g) ;;
      let w := BS_XOR w sbox_out in
      tmp4 <- aget r (p + 8 * 6 + g) ;;
      let tmp1 := BS_XOR tmp1 w in let tmp2 := BS_XOR tmp2 w in let tmp3 := BS_XOR tmp3 w in
      r <- aset r (p + 8 * 0 + g) w ;; r <- aset r (p + 8 * 2 + g) tmp1 ;;
      let tmp4 := BS_XOR tmp4 perm_out in
      r <- aset r (p + 8 * 3 + g) tmp2 ;; r <- aset r (p + 8 * 4 + g) tmp3 ;; aset r (p + 8 * 6 + g) tmp4) r = Ok r' ->
    exec_seq c rnd fuel calls rest (st (rnv false q :: base n2 (num 8) i p) r' s1 s2 k) = y ->
    exec_seq c rnd fuel calls (round_loop wide dec_rest :: rest) (st (rnv false q :: base n2 (num 8) i p) r s1 s2 k) = y.
  Proof.
    intros W M K. unfold round_loop, dec_rest, permute, put_, set_, wx, rix. cbv zeta. unfold block_perm_stage in M. rewrite W in M. destruct wide.
    - forr (fun j r => st (rnv false q :: base n2 (num j) i p) r s1 s2 k) M 8%nat 0%nat gob1
        ltac:(fun j => cbn [app]; do 7 stx; eapply seq_one; [eapply (xst_deint _ _ _ _ _ _ _ _ j); [pvx|lia|getx|eassumption|plx|asx|plx|asx]|]; stxs). exact K.
    - forr (fun j r => st (rnv false q :: base n2 (num j) i p) r s1 s2 k) M 8%nat 0%nat gobn
        ltac:(fun j => cbn [app]; do 8 stx; eapply seq_one; [blk ltac:(idtac; stxs)|]; stxs). exact K.
  Qed.
  Lemma enc_rounds (wide : bool) n2 i p q r s1 s2 r' k rest y : deinterleave c = wide ->
    for_ 8 0 (fun g r =>
      '(sbox_out, perm_out) <- block_perm_stage c s2 g ;;
      pm <- psub (p + g) 8 ;;
      w <- aget r pm ;;
      tmp1 <- aget r (p + 8 * 1 + g) ;; tmp2 <- aget r (p + 8 * 2 + g) ;; tmp3 <- aget r (p + 8 * 3 + g) ;;
      let sbox_out := BS_XOR sbox_out w in
      tmp4 <- aget r (p + 8 * 5 + g) ;;
      let tmp1 := BS_XOR tmp1 w in let tmp2 := BS_XOR tmp2 w in let tmp3 := BS_XOR tmp3 w in
      r <- aset r (p + 8 * 7 + g) sbox_out ;; r <- aset r (p + 8 * 1 + g) tmp1 ;;
      let tmp4 := BS_XOR tmp4 perm_out in
      r <- aset r (p + 8 * 2 + g) tmp2 ;; r <- aset r (p + 8 * 3 + g) tmp3 ;; aset r (p + 8 * 5 + g) tmp4) r = Ok r' ->
    exec_seq c rnd fuel calls rest (st (rnv true q :: base n2 (num 8) i p) r' s1 s2 k) = y ->
    exec_seq c rnd fuel calls (round_loop wide enc_rest :: rest) (st (rnv true q :: base n2 (num 8) i p) r s1 s2 k) = y.
  Proof.
    intros W M K. unfold round_loop, enc_rest, permute, put_, set_, wx, rix. cbv zeta. unfold block_perm_stage in M. rewrite W in M. destruct wide.
    - forr (fun j r => st (rnv true q :: base n2 (num j) i p) r s1 s2 k) M 8%nat 0%nat gobp
        ltac:(fun j => cbn [app]; do 7 stx; eapply seq_one; [eapply (xst_deint _ _ _ _ _ _ _ _ j); [pvx|lia|getx|eassumption|plx|asx|plx|asx]|]; stxs). exact K.
    - forr (fun j r => st (rnv true q :: base n2 (num j) i p) r s1 s2 k) M 8%nat 0%nat gobpn
        ltac:(fun j => cbn [app]; do 8 stx; eapply seq_one; [blk ltac:(idtac; stxs)|]; stxs). exact K.
  Qed.
  (** ** The outer loops *)
  Definition iv (n : nat) : N := match n with 0%nat => 4294967295 | Datatypes.S n => N.of_nat n end.
  Lemma dec_step n2 gv j p r s1 s2 k : (j < 56)%nat ->
    opt_ev c T S calls (Some (EPost Sub (EVar "i"))) (st (base n2 gv (N.of_nat j) p) r s1 s2 k) = Ok (st (base n2 gv (iv j) p) r s1 s2 k).
  Proof.
    intros Hj. destruct j as [|j].
    - change (N.of_nat 0) with 0. eapply opt_some. eapply run_post; [plx|rvx|vm_compute; reflexivity|eapply xasg_var; [reflexivity|names; reflexivity]].
    - eapply opt_step; [runx|]. unfold iv. st_eq.
  Qed.
  Lemma dec_loop wide n2 r s1 s2 r' k : deinterleave c = wide -> decrypt_register c (key_block_word c m key) r s1 s2 = Ok r' ->
    exists gv p s1' s2', exec (SFor (Some (EAssign (EVar "i") (EConst I32 0x37))) (EBin Ge (EVar "i") (EConst I32 0)) (Some (EPost Sub (EVar "i")))
      (SBlock [
        SDecl (TPtr (TWord)) "r6_N" (Some (EBin Add (EVar "r") (EBin Mul (EConst I32 8) (EConst I32 6))));
        SExpr (EOpAssign Sub (EVar "r") (EConst I32 8));
        keyloop "r6_N"; stage_of c; round_loop wide dec_rest]))
      (mk_cst [("g", BVal (TInt I32) None); ("i", BVal (TInt I32) None); ("scratch2", BObj (TArr TWord n2) (Datatypes.S (length O))); ("scratch1", BObj (TArr TWord 8) (length O));
    ("block", BVal (TPtr TWord) (Some (VPtr TWord (Flat key)))); ("r", BVal (TPtr TWord) (Some (VPtr TWord (Obj ir "" (wo c (8 * 56))))))] m (ob O ir r s1 s2) k) = Ok (None, st (base n2 gv 4294967295 p) r' s1' s2' k).
  Proof.
    intros W M. unfold decrypt_register in M. gob M. injection M as <-.
    destruct (loop_down c rnd fuel calls (fun n '(p, r, s1, s2) s => exists gv, s = st (base n2 gv (iv n) p) r s1 s2 k) (EBin Ge (EVar "i") (EConst I32 0)) (Some (EPost Sub (EVar "i")))
      (SBlock [
        SDecl (TPtr (TWord)) "r6_N" (Some (EBin Add (EVar "r") (EBin Mul (EConst I32 8) (EConst I32 6))));
        SExpr (EOpAssign Sub (EVar "r") (EConst I32 8));
        keyloop "r6_N"; stage_of c; round_loop wide dec_rest]) _ 56 fuel _ _ (st (base n2 None 55 (8 * 56)%nat) r s1 s2 k) E ltac:(lia) ltac:(exists None; reflexivity)) as (s' & L & R).
    - intros j [[[q x] y] z] [[[q' x'] y'] z'] s Hj [gv ->] M1. cbv beta iota in M1. gob M1. injection M1 as <- <- <- <-.
      match goal with H : psub _ _ = Ok _ |- _ => apply psub_eq in H; destruct H as [? ->] end.
      change (iv (Datatypes.S j)) with (N.of_nat j).
      split; [eapply cond_ok; [pvx|truex]|].
      eexists. eexists. split; [|split].
      + eapply xblock.
        1: { stx. stx. eapply (key_ok c rnd fuel calls m O ir r0 key Hf Gr false); [exact Hj|eassumption|]. eapply seq_one; [eapply (stage_ok c rnd fuel calls m O ir key Hf false); eassumption|]. eapply dec_rounds; [exact W|eassumption|reflexivity]. }
        1: cbn [length Nat.sub skipn]; reflexivity.
        apply firstn_same; lens.
      + apply dec_step. exact Hj.
      + exists (num 8). reflexivity.
    - intros [[[q x] y] z] s [gv ->]. change (iv 0) with 4294967295. eapply cond_ok; [eapply pv_bin; [pvx|pvx|reflexivity]|reflexivity].
    - destruct R as [gv ->]. exists gv. do 3 eexists. eapply st_for; [eapply opt_some; runx|exact L].
  Qed.
  Lemma enc_loop wide n2 r s1 s2 r' k : deinterleave c = wide -> encrypt_register c (key_block_word c m key) r s1 s2 = Ok r' ->
    exists gv p s1' s2', exec (SFor (Some (EAssign (EVar "i") (EConst I32 0))) (EBin Lt (EVar "i") (EConst I32 0x38)) (Some (EPost Add (EVar "i")))
      (SBlock [
        SDecl (TPtr (TWord)) "r7_N" (Some (EBin Add (EVar "r") (EBin Mul (EConst I32 8) (EConst I32 7))));
        SExpr (EOpAssign Add (EVar "r") (EConst I32 8));
        keyloop "r7_N"; stage_of c; round_loop wide enc_rest]))
      (mk_cst [("g", BVal (TInt I32) None); ("i", BVal (TInt I32) None); ("scratch2", BObj (TArr TWord n2) (Datatypes.S (length O))); ("scratch1", BObj (TArr TWord 8) (length O));
    ("block", BVal (TPtr TWord) (Some (VPtr TWord (Flat key)))); ("r", BVal (TPtr TWord) (Some (VPtr TWord (Obj ir "" (wo c 0)))))] m (ob O ir r s1 s2) k) = Ok (None, st (base n2 gv 56 p) r' s1' s2' k).
  Proof.
    intros W M. unfold encrypt_register in M. gob M. injection M as <-.
    destruct (loop_up c rnd fuel calls (fun n '(p, r, s1, s2) s => exists gv, s = st (base n2 gv (N.of_nat n) p) r s1 s2 k) (EBin Lt (EVar "i") (EConst I32 0x38)) (Some (EPost Add (EVar "i")))
      (SBlock [
        SDecl (TPtr (TWord)) "r7_N" (Some (EBin Add (EVar "r") (EBin Mul (EConst I32 8) (EConst I32 7))));
        SExpr (EOpAssign Add (EVar "r") (EConst I32 8));
        keyloop "r7_N"; stage_of c; round_loop wide enc_rest]) _ 56 fuel 0%nat _ _ 56%nat (st (base n2 None 0 0%nat) r s1 s2 k) E ltac:(lia) ltac:(exists None; reflexivity) eq_refl) as (s' & L & R).
    - intros j [[[q x] y] z] [[[q' x'] y'] z'] s Hj [gv ->] M1. cbv beta iota in M1. gob M1. injection M1 as <- <- <- <-.
      split; [eapply cond_ok; [pvx|truex]|].
      eexists. eexists. split; [|split].
      + eapply xblock.
        1: { stx. stx. eapply (key_ok c rnd fuel calls m O ir r0 key Hf Gr true); [lia|eassumption|]. eapply seq_one; [eapply (stage_ok c rnd fuel calls m O ir key Hf true); eassumption|]. eapply enc_rounds; [exact W|eassumption|reflexivity]. }
        1: cbn [length Nat.sub skipn]; reflexivity.
        apply firstn_same; lens.
      + eapply opt_some. runx.
      + exists (num 8). st_eq.
    - intros [[[q x] y] z] s [gv ->]. eapply cond_ok; [pvx|falsex].
    - destruct R as [gv ->]. exists gv. do 3 eexists. eapply st_for; [eapply opt_some; runx|exact L].
  Qed.

  (** ** The functions *)
  Lemma ob_here r s1 s2 : setc O ir "" (CWords r) = O -> (O ++ [[("", CWords s1)]]) ++ [[("", CWords s2)]] = ob O ir r s1 s2.
  Proof. Transparent ob. intros E. unfold ob. rewrite E. reflexivity. Opaque ob. Qed.
  Lemma ob_leave r s1 s2 : firstn (length O) (ob O ir r s1 s2) = setc O ir "" (CWords r).
  Proof. Transparent ob. unfold ob. rewrite <- app_assoc. rewrite firstn_app, setc_length, Nat.sub_diag. rewrite firstn_all2 by (rewrite setc_length; lia). cbn [firstn]. apply app_nil_r. Opaque ob. Qed.
  Definition n_s2 : nat := if deinterleave c then 16 else 8.
  Lemma dec_reg_source g r' k : decrypt_register c (key_block_word c m key) r0 (any_words c rnd k 8) (any_words c rnd (Datatypes.S k) n_s2) = Ok r' ->
    call_fun c T S rnd fuel calls (bs_block_decrypt_register c) [VPtr TWord (Flat key); VPtr TWord (Obj ir "" 0)] (mk_cst g m O k) = Ok (None, mk_cst g m (setc O ir "" (CWords r')) (Datatypes.S (Datatypes.S k))).
  Proof.
    intros M. rewrite dec_variants. unfold n_s2 in M. set (wide := deinterleave c) in *.
    set (n2 := if wide then 16 else 8). assert (En : (if wide then 16 else 8)%nat = N.to_nat n2) by (unfold n2; destruct wide; reflexivity). rewrite En in M.
    destruct (dec_loop wide n2 _ _ _ _ (Datatypes.S (Datatypes.S k)) eq_refl M) as (gv & p & t1 & t2 & L).
    eapply xcall_void; [reflexivity|unfold dec_reg; cbn [fn_params bind_params convert bind]; reflexivity| |].
    - unfold dec_reg. cbn [fn_body]. fold n2.
      eapply seq_one; [eapply xst_declobj; [exact Logic.I|reflexivity|reflexivity]|].
      eapply seq_one; [eapply xst_declobj; [exact Logic.I|reflexivity|rewrite app_length; cbn [length]; rewrite Nat.add_1_r; reflexivity]|].
      stx. stx. stx. cbn [app]. rewrite (ob_here r0) by (apply setc_id; exact Gr). eapply seq_one; [exact L|reflexivity].
    - apply ob_leave.
  Qed.
  Lemma enc_reg_source g r' k : encrypt_register c (key_block_word c m key) r0 (any_words c rnd k 8) (any_words c rnd (Datatypes.S k) n_s2) = Ok r' ->
    call_fun c T S rnd fuel calls (bs_block_encrypt_register c) [VPtr TWord (Flat key); VPtr TWord (Obj ir "" 0)] (mk_cst g m O k) = Ok (None, mk_cst g m (setc O ir "" (CWords r')) (Datatypes.S (Datatypes.S k))).
  Proof.
    intros M. rewrite enc_variants. unfold n_s2 in M. set (wide := deinterleave c) in *.
    set (n2 := if wide then 16 else 8). assert (En : (if wide then 16 else 8)%nat = N.to_nat n2) by (unfold n2; destruct wide; reflexivity). rewrite En in M.
    destruct (enc_loop wide n2 _ _ _ _ (Datatypes.S (Datatypes.S k)) eq_refl M) as (gv & p & t1 & t2 & L).
    eapply xcall_void; [reflexivity|unfold enc_reg; cbn [fn_params bind_params convert bind]; reflexivity| |].
    - unfold enc_reg. cbn [fn_body]. fold n2.
      eapply seq_one; [eapply xst_declobj; [exact Logic.I|reflexivity|reflexivity]|].
      eapply seq_one; [eapply xst_declobj; [exact Logic.I|reflexivity|rewrite app_length; cbn [length]; rewrite Nat.add_1_r; reflexivity]|].
      stx. stx. cbn [app]. rewrite (ob_here r0) by (apply setc_id; exact Gr). eapply seq_one; [exact L|reflexivity].
    - apply ob_leave.
  Qed.
End Rounds.
