(** BsCRegister.v -- the source of the block cipher's register rounds (dvbcsa_bs_block.c) computes what the model computes. *)
From Coq Require Import String.
From Verif Require Import Base Mem Tables ModelBsWord ModelBsTranspose ModelBsStream ModelBsBlock BsWordFacts BsView BsC SourceBitslice BsCRun BsCTranspose BsCPack.
From Verif Require MiniC MiniCRun.
Local Open Scope string_scope. Local Open Scope list_scope. Local Open Scope N_scope.
#[local] Opaque BS_AND BS_OR BS_XOR BS_NOT BS_SHL BS_SHR BS_VAL.

(** ** The pieces the variants of the functions are made of *)
Definition keyloop (rn : string) : stmt :=
  SFor (Some (EAssign (EVar "g") (EConst I32 0))) (EBin Lt (EVar "g") (EConst I32 8)) (Some (EPost Add (EVar "g")))
          (SBlock [
            SExpr (EAssign (EIndex (EVar "scratch1") (EVar "g")) (EWop WXor (EIndex (EVar "block") (EVar "i")) (EIndex (EVar rn) (EVar "g"))))]).
Definition elt (wide : bool) : ity := if wide then U16 else U8.
Definition tabn (wide : bool) : string := if wide then "dvbcsa_block_sbox_perm" else "dvbcsa_block_sbox".
Definition putc (wide : bool) (ix : expr) (x : string) : stmt := SExpr (EAssign (EIndex (EVar "dst") ix) (EIndex (EVar (tabn wide)) (EVar x))).
Definition plain_loop (c : build) (wide : bool) : stmt :=
  let at_ n := EBin Add (EVar "j") (EConst I32 n) in
  let ld x n := SExpr (EAssign (EVar x) (EIndex (EVar "src") (at_ n))) in
          SFor (Some (EAssign (EVar "j") (EConst I32 0))) (EBin Lt (EVar "j") (EBin Mul (EConst I32 (N.of_nat (word_bytes c))) (EConst I32 8))) (Some (EOpAssign Add (EVar "j") (EConst I32 4)))
            (SBlock [ld "a" 0; ld "b" 1; ld "c" 2; ld "d" 3; putc wide (at_ 0) "a"; putc wide (at_ 1) "b"; putc wide (at_ 2) "c"; putc wide (at_ 3) "d"]).
Definition plain_stage (c : build) (wide : bool) : stmt :=
        SBlock [
          SDecl (TPtr (TInt U8)) "src" (Some (ECast (TPtr (TInt U8)) (EVar "scratch1")));
          SDecl (TPtr (TInt (elt wide))) "dst" (Some (ECast (TPtr (TInt (elt wide))) (EVar "scratch2")));
          SDecl (TInt U8) "a" None; SDecl (TInt U8) "b" None; SDecl (TInt U8) "c" None; SDecl (TInt U8) "d" None;
          SDecl (TInt I32) "j" None; plain_loop c wide].
Definition alt_loads (big : bool) : list stmt :=
  let byte n := if n =? 0 then EBin And (EVar "s") (EConst I32 255) else EBin And (EBin Shr (EVar "s") (EConst I32 n)) (EConst I32 255) in
  map (fun '(x, n) => SExpr (EAssign (EVar x) (byte n))) (if big then [("a", 24); ("b", 16); ("c", 8); ("d", 0)] else [("a", 0); ("b", 8); ("c", 16); ("d", 24)]).
Definition alt_puts (wide : bool) : list stmt := [putc wide (EConst I32 0) "a"; putc wide (EConst I32 1) "b"; putc wide (EConst I32 2) "c"; putc wide (EConst I32 3) "d"].
Definition alt_loop (c : build) (big wide : bool) : stmt :=
          SFor (Some (EAssign (EVar "j") (EConst I32 0))) (EBin Lt (EVar "j") (EBin Sub (EBin Mul (EBin Div (EConst I32 (N.of_nat (word_bytes c))) (EConst I32 4)) (EConst I32 8)) (EConst I32 1))) None
            (SBlock (SExpr (EPost Add (EVar "j")) :: alt_loads big ++ [SExpr (EAssign (EVar "s") (EIndex (EVar "src") (EVar "j")))] ++ alt_puts wide ++ [SExpr (EOpAssign Add (EVar "dst") (EConst I32 4))])).
Definition alt_stage (c : build) (big wide : bool) : stmt :=
        SBlock ([
          SDecl (TPtr (TInt U32)) "src" (Some (ECast (TPtr (TInt U32)) (EVar "scratch1")));
          SDecl (TPtr (TInt (elt wide))) "dst" (Some (ECast (TPtr (TInt (elt wide))) (EVar "scratch2")));
          SDecl (TInt U32) "a" None; SDecl (TInt U32) "b" None; SDecl (TInt U32) "c" None; SDecl (TInt U32) "d" None; SDecl (TInt U32) "s" None;
          SDecl (TInt I32) "j" None;
          SExpr (EAssign (EVar "s") (EDeref (EVar "src"))); alt_loop c big wide]
          ++ alt_loads big ++ alt_puts wide).
Definition avx2_stage : stmt := SExpr (ECall "BLOCK_SBOX_PERMUTE" [(EVar "scratch1"); (EVar "scratch2")]).
Definition permute (wide : bool) : stmt :=
  if wide then SDeint (EBin Add (EVar "scratch2") (EBin Mul (EVar "g") (EConst I32 2))) (EVar "sbox_out") (EVar "perm_out")
  else SBlock [SExpr (EAssign (EVar "perm_out") (
         let V := EWVal 1 in let x := EVar "sbox_out" in let K n := EConst I32 n in
         EWop WOr (EWop WOr (EWop WOr (EWShl (EWop WAnd x (V 0x29)) (K 1)) (EWShl (EWop WAnd x (V 0x02)) (K 6)))
                            (EWop WOr (EWShl (EWop WAnd x (V 0x04)) (K 3)) (EWShr (EWop WAnd x (V 0x10)) (K 2))))
                  (EWop WOr (EWShr (EWop WAnd x (V 0x40)) (K 6)) (EWShr (EWop WAnd x (V 0x80)) (K 4)))))].
Definition round_loop (wide : bool) (rest : list stmt) : stmt :=
        SFor (Some (EAssign (EVar "g") (EConst I32 0))) (EBin Lt (EVar "g") (EConst I32 8)) (Some (EPost Add (EVar "g")))
          (SBlock ([
            SDecl (TWord) "sbox_out" None;
            SDecl (TWord) "perm_out" None;
            SDecl (TWord) "w" None;
            SDecl (TWord) "tmp1" None;
            SDecl (TWord) "tmp2" None;
            SDecl (TWord) "tmp3" None;
            SDecl (TWord) "tmp4" None] ++ (if wide then [] else [SExpr (EAssign (EVar "sbox_out") (EIndex (EVar "scratch2") (EVar "g")))]) ++ permute wide :: rest)).
Definition rix (n : N) : expr := EIndex (EVar "r") (EBin Add (EBin Mul (EConst I32 8) (EConst I32 n)) (EVar "g")).
Definition set_ (x : string) (e : expr) : stmt := SExpr (EAssign (EVar x) e).
Definition put_ (n : N) (x : string) : stmt := SExpr (EAssign (rix n) (EVar x)).
Definition wx (x y : string) : expr := EWop WXor (EVar x) (EVar y).
Definition dec_rest : list stmt :=
  [set_ "w" (rix 8); set_ "tmp1" (rix 2); set_ "tmp2" (rix 3); set_ "tmp3" (rix 4); set_ "w" (wx "w" "sbox_out"); set_ "tmp4" (rix 6);
   set_ "tmp1" (wx "tmp1" "w"); set_ "tmp2" (wx "tmp2" "w"); set_ "tmp3" (wx "tmp3" "w"); put_ 0 "w"; put_ 2 "tmp1"; set_ "tmp4" (wx "tmp4" "perm_out");
   put_ 3 "tmp2"; put_ 4 "tmp3"; put_ 6 "tmp4"].
Definition enc_rest : list stmt :=
  [set_ "w" (EIndex (EVar "r") (EBin Add (EBin Mul (EUn Neg (EConst I32 8)) (EConst I32 1)) (EVar "g"))); set_ "tmp1" (rix 1); set_ "tmp2" (rix 2); set_ "tmp3" (rix 3);
   set_ "sbox_out" (wx "sbox_out" "w"); set_ "tmp4" (rix 5); set_ "tmp1" (wx "tmp1" "w"); set_ "tmp2" (wx "tmp2" "w"); set_ "tmp3" (wx "tmp3" "w");
   put_ 7 "sbox_out"; put_ 1 "tmp1"; set_ "tmp4" (wx "tmp4" "perm_out"); put_ 2 "tmp2"; put_ 3 "tmp3"; put_ 5 "tmp4"].
Definition dec_reg (wide : bool) (stage : stmt) : fundef := mk_fun "dvbcsa_bs_block_decrypt_register" (TVoid) [("block", TPtr (TWord)); ("r", TPtr (TWord))] [
    SDecl (TArr (TWord) 8) "scratch1" None;
    SDecl (TArr (TWord) (if wide then 16 else 8)) "scratch2" None;
    SDecl (TInt I32) "i" None;
    SDecl (TInt I32) "g" None;
    SExpr (EOpAssign Add (EVar "r") (EBin Mul (EConst I32 8) (EConst I32 0x38)));
    SFor (Some (EAssign (EVar "i") (EConst I32 0x37))) (EBin Ge (EVar "i") (EConst I32 0)) (Some (EPost Sub (EVar "i")))
      (SBlock [
        SDecl (TPtr (TWord)) "r6_N" (Some (EBin Add (EVar "r") (EBin Mul (EConst I32 8) (EConst I32 6))));
        SExpr (EOpAssign Sub (EVar "r") (EConst I32 8));
        keyloop "r6_N"; stage; round_loop wide dec_rest])].
Definition enc_reg (wide : bool) (stage : stmt) : fundef := mk_fun "dvbcsa_bs_block_encrypt_register" (TVoid) [("block", TPtr (TWord)); ("r", TPtr (TWord))] [
    SDecl (TArr (TWord) 8) "scratch1" None;
    SDecl (TArr (TWord) (if wide then 16 else 8)) "scratch2" None;
    SDecl (TInt I32) "i" None;
    SDecl (TInt I32) "g" None;
    SFor (Some (EAssign (EVar "i") (EConst I32 0))) (EBin Lt (EVar "i") (EConst I32 0x38)) (Some (EPost Add (EVar "i")))
      (SBlock [
        SDecl (TPtr (TWord)) "r7_N" (Some (EBin Add (EVar "r") (EBin Mul (EConst I32 8) (EConst I32 7))));
        SExpr (EOpAssign Add (EVar "r") (EConst I32 8));
        keyloop "r7_N"; stage; round_loop wide enc_rest])].
(* the variants are these *)
Definition stage_of (c : build) : stmt :=
  if use_alt_sbox c then alt_stage c (big_endian c) (deinterleave c)
  else match tgt c with AVX2 => avx2_stage | _ => plain_stage c (deinterleave c) end.
Lemma dec_variants c : bs_block_decrypt_register c = dec_reg (deinterleave c) (stage_of c).
Proof.
  destruct c as [t e al i p ha w pt]. unfold bs_block_decrypt_register, stage_of, deinterleave. cbn [tgt big_endian use_alt_sbox].
  destruct t, e, al; reflexivity.
Qed.
Lemma enc_variants c : bs_block_encrypt_register c = enc_reg (deinterleave c) (stage_of c).
Proof.
  destruct c as [t e al i p ha w pt]. unfold bs_block_encrypt_register, stage_of, deinterleave. cbn [tgt big_endian use_alt_sbox].
  destruct t, e, al; reflexivity.
Qed.

(** ** Accesses *)
Lemma fits1 c : fits c 1. Proof. split; [lia|]. exists (word_bytes c). lia. Qed.
Lemma fits2 c : fits c 2. Proof. split; [lia|]. unfold word_bytes. destruct (tgt c); [exists 2%nat|exists 4%nat|exists 4%nat|exists 8%nat|exists 8%nat|exists 16%nat|exists 8%nat]; reflexivity. Qed.
Lemma wb_small c : (4 <= word_bytes c <= 32)%nat. Proof. unfold word_bytes. destruct (tgt c); lia. Qed.
Lemma wb_4 c : (4 * (word_bytes c / 4) = word_bytes c)%nat. Proof. unfold word_bytes. destruct (tgt c); reflexivity. Qed.
Lemma sbox_src : src_tab_bs_block_sbox = dvbcsa_block_sbox. Proof. vm_compute. reflexivity. Qed.
Lemma perm_src : src_tab_dvbcsa_block_sbox_perm = dvbcsa_block_sbox_perm. Proof. vm_compute. reflexivity. Qed.
Lemma sbox_bytes : Forall is_byte dvbcsa_block_sbox.
Proof. apply Forall_forall. intros x H. assert (F : forallb (fun x => x <? 256) dvbcsa_block_sbox = true) by (vm_compute; reflexivity). rewrite forallb_forall in F. apply N.ltb_lt, F, H. Qed.
#[local] Opaque dvbcsa_block_sbox dvbcsa_block_sbox_perm src_tab_bs_block_sbox src_tab_dvbcsa_block_sbox_perm.
Section Access.
  Context (c : build).
  Notation T := src_bs_tables. Notation S := (src_bs_structs c). Notation be := (big_endian c).
  Lemma size_int t : size_of c S 2 (TInt t) = N.of_nat (bytes_in t). Proof. destruct t; reflexivity. Qed.
  Lemma ptr_el t i f a ti x k : sval ti x = Z.of_nat k -> bin_op c S Add (VPtr (TInt t) (Obj i f (N.of_nat (bytes_in t * a)))) (VInt ti x) = Ok (VPtr (TInt t) (Obj i f (N.of_nat (bytes_in t * (a + k))))).
  Proof. intros E. unfold bin_op. rewrite E, (move_at c (TInt t) _ _ _ _ (N.of_nat (bytes_in t * (a + k)))); [reflexivity|]. rewrite size_int. nia. Qed.
  Lemma ptr_el0 t i f ti x k : sval ti x = Z.of_nat k -> bin_op c S Add (VPtr (TInt t) (Obj i f 0)) (VInt ti x) = Ok (VPtr (TInt t) (Obj i f (N.of_nat (bytes_in t * k)))).
  Proof. intros E. pose proof (ptr_el t i f 0 ti x k E) as H. rewrite Nat.mul_0_r in H. exact H. Qed.
  Lemma ptr_table x k ti n t : sval ti n = Z.of_N k -> bin_op c S Add (VPtr t (Tab x 0)) (VInt ti n) = Ok (VPtr t (Tab x k)).
  Proof. intros E. unfold bin_op. rewrite E, (move_tab c t x 0 _ k) by lia. reflexivity. Qed.
  Lemma ptr_w_sub i f n ti x k : sval ti x = Z.of_nat k -> (k <= n)%nat -> bin_op c S Sub (VPtr TWord (Obj i f (wo c n))) (VInt ti x) = Ok (VPtr TWord (Obj i f (wo c (n - k)))).
  Proof. intros E L. unfold bin_op. rewrite E, (move_at c TWord _ _ _ _ (wo c (n - k))); [reflexivity|]. rewrite size_word. unfold wo. nia. Qed.
  Lemma ptr_w_back i f n g : (g < 8)%nat -> (8 <= n + g)%nat -> bin_op c S Add (VPtr TWord (Obj i f (wo c n))) (VInt I32 (4294967288 + N.of_nat g)) = Ok (VPtr TWord (Obj i f (wo c (n + g - 8)))).
  Proof.
    intros G L. unfold bin_op. replace (sval I32 (4294967288 + N.of_nat g)) with (Z.of_nat g - 8)%Z by (do 8 (destruct g as [|g]; [reflexivity|]); lia).
    rewrite (move_at c TWord _ _ _ _ (wo c (n + g - 8))); [reflexivity|]. rewrite size_word. unfold wo. nia.
  Qed.
  Lemma back_ix g : (g < 8)%nat -> bin_op c S Add (VInt I32 4294967288) (VInt I32 (N.of_nat g)) = Ok (VInt I32 (4294967288 + N.of_nat g)).
  Proof. intros G. do 8 (destruct g as [|g]; [reflexivity|]). lia. Qed.
  Lemma ptr_flat a ti x k : sval ti x = Z.of_nat k -> bin_op c S Add (VPtr TWord (Flat a)) (VInt ti x) = Ok (VPtr TWord (Flat (a + N.of_nat (k * word_bytes c)))).
  Proof. intros E. unfold bin_op. rewrite E, (move_flat c TWord _ _ (a + N.of_nat (k * word_bytes c))); [reflexivity|]. rewrite size_word. nia. Qed.
  Lemma load_flatw a w s : load_word c (flat s) a = Ok w -> load_at c T TWord (Flat a) s = Ok (VWord w).
  Proof. intros E. unfold load_at. rewrite E. reflexivity. Qed.
  Lemma load_e t i f row j v s : fits c (bytes_in t) -> getc (objs s) i f = Ok (CWords row) -> view_get c (bytes_in t) row j = Ok v ->
    load_at c T (TInt t) (Obj i f (N.of_nat (bytes_in t * j))) s = Ok (VInt t (native_val be v)).
  Proof. intros F G E. apply (load_v c t i f [] row [] j v s F); [rewrite app_nil_r; exact G|exact E]. Qed.
  Lemma xstore_e t i f row row' j n g m O k O' : fits c (bytes_in t) -> getc O i f = Ok (CWords row) -> view_set c (bytes_in t) row j (native_bytes be (bytes_in t) n) = Ok row' ->
    setc O i f (CWords row') = O' -> store_at c (TInt t) (Obj i f (N.of_nat (bytes_in t * j))) (VInt t n) (mk_cst g m O k) = Ok (mk_cst g m O' k).
  Proof.
    intros F G E <-. eapply (xstore_v c t i f [] row [] row' j); [exact F|rewrite app_nil_r; exact G|reflexivity|exact E|rewrite app_nil_r; reflexivity].
  Qed.
  Lemma div_wb : bin_op c S Div (VInt I32 (N.of_nat (word_bytes c))) (VInt I32 4) = Ok (VInt I32 (N.of_nat (word_bytes c / 4))).
  Proof. unfold word_bytes. destruct (tgt c); reflexivity. Qed.
  (* a byte of a word *)
  Lemma byte_get_native row j x : byte_get c row j = Ok x -> exists b, view_get c 1 row j = Ok b /\ native_val be b = x.
  Proof.
    intros E. unfold byte_get in E. gob E. exists v. split; [exact E0|]. unfold view_get in E0. gob E0. injection E0 as <-.
    match type of E with context [skipn ?q v0] => destruct (skipn q v0) as [|y r] end; unfold aget in E; cbn [firstn nth_error] in *; [discriminate E|]. injection E as ->. unfold native_val. destruct be; cbn [rev app le_val]; lia.
  Qed.
  Definition tabl (wide : bool) := if wide then src_tab_dvbcsa_block_sbox_perm else src_tab_bs_block_sbox.
  Definition put_of (wide : bool) := if wide then put_sbox_perm c else put_sbox c.
  Lemma put_of_ok wide dst j x dst' : put_of wide dst j x = Ok dst' -> exists v, tget (tabl wide) x = Ok v /\
    view_set c (bytes_in (elt wide)) dst j (native_bytes be (bytes_in (elt wide)) v) = Ok dst'.
  Proof.
    intros E. destruct wide; cbn [put_of elt tabn MiniC.bytes_in] in *.
    - unfold put_sbox_perm in E. gob E. exists v. unfold tabl. rewrite perm_src. split; [exact E0|exact E].
    - unfold put_sbox in E. gob E. exists v. unfold tabl. rewrite sbox_src. split; [exact E0|]. 
      replace (native_bytes be 1 v) with [v]; [exact E|]. assert (B : is_byte v). { unfold tget in E0. apply (aget_in _ _ _ _ sbox_bytes E0). }
      unfold native_bytes. cbn [le_bytes]. destruct be; cbn [rev app]; rewrite N.mod_small by exact B; reflexivity.
  Qed.
End Access.

(* a loop whose state depends on more than the model's *)
Lemma for_ex c rnd fuel calls {X Y} (F : nat -> X -> Y -> cstate) i0 e st b (body : nat -> X -> res X) n i x y z0 s :
    for_ n i body x = Ok y -> (n < fuel)%nat ->
    opt_ev c src_bs_tables (src_bs_structs c) calls i0 s = Ok (F i x z0) ->
    (forall j x x' z, (i <= j < i + n)%nat -> body j x = Ok x' -> cond_of c src_bs_tables (src_bs_structs c) calls e (F j x z) = Ok (true, F j x z) /\
       exists s1 z', exec c src_bs_tables (src_bs_structs c) rnd fuel calls b (F j x z) = Ok (None, s1) /\ opt_ev c src_bs_tables (src_bs_structs c) calls st s1 = Ok (F (Datatypes.S j) x' z')) ->
    (forall x z, cond_of c src_bs_tables (src_bs_structs c) calls e (F (i + n)%nat x z) = Ok (false, F (i + n)%nat x z)) ->
    exists z, exec c src_bs_tables (src_bs_structs c) rnd fuel calls (SFor i0 e st b) s = Ok (None, F (i + n)%nat y z).
Proof.
  intros E K I0 Hb Hc. destruct (loop_up c rnd fuel calls (fun i x s => exists z, s = F i x z) e st b body n fuel i x y (i + n)%nat (F i x z0) E K (ex_intro _ z0 eq_refl) eq_refl) as (s' & L & z & ->).
  - intros j w w' s1 Hj [z ->] B. destruct (Hb j w w' z Hj B) as (C & s2 & z' & E1 & E2). split; [exact C|]. exists s2, (F (Datatypes.S j) w' z'). repeat split; try assumption. exists z'. reflexivity.
  - intros w s1 [z ->]. apply Hc.
  - exists z. eapply st_for; [exact I0|exact L].
Qed.

Section Stages.
  Context (c : build) (rnd : nat -> nat -> N) (fuel : nat) (calls : callable) (m : mem) (O : list object) (ir : nat) (r0 : list word) (key : N).
  Context (Hf : (256 < fuel)%nat) (Gr : getc O ir "" = Ok (CWords r0)).
  Notation T := src_bs_tables. Notation S := (src_bs_structs c). Notation be := (big_endian c).
  Notation exec := (exec c T S rnd fuel calls).
  Notation num n := (Some (VInt I32 (N.of_nat n))).
  Definition ob (r s1 s2 : list word) : list object := (setc O ir "" (CWords r) ++ [[("", CWords s1)]]) ++ [[("", CWords s2)]].
  Lemma ob_len r s1 s2 : length (ob r s1 s2) = (length O + 2)%nat. Proof. unfold ob. rewrite !app_length, setc_length. cbn. lia. Qed.
  Lemma ob_R r s1 s2 : getc (ob r s1 s2) ir "" = Ok (CWords r). Proof. unfold ob. apply getc_app, getc_app. eapply getc_win, Gr. Qed.
  Lemma ob_1 r s1 s2 : getc (ob r s1 s2) (length O) "" = Ok (CWords s1).
  Proof. unfold ob. apply getc_app. apply getc_end; [rewrite setc_length; reflexivity|reflexivity]. Qed.
  Lemma ob_2 r s1 s2 : getc (ob r s1 s2) (Datatypes.S (length O)) "" = Ok (CWords s2).
  Proof. unfold ob. apply getc_end; [rewrite app_length, setc_length; cbn; lia|reflexivity]. Qed.
  Lemma ob_setR r s1 s2 r' : setc (ob r s1 s2) ir "" (CWords r') = ob r' s1 s2.
  Proof. pose proof (getc_lt _ _ _ _ Gr). unfold ob. rewrite !setc_app by (rewrite ?app_length, ?setc_length; cbn; lia). rewrite setc_same. reflexivity. Qed.
  Lemma ob_set1 r s1 s2 s1' : setc (ob r s1 s2) (length O) "" (CWords s1') = ob r s1' s2.
  Proof. unfold ob. rewrite setc_app by (rewrite ?app_length, ?setc_length; cbn; lia). rewrite (setc_end _ _ _ _ _ [("", CWords s1')]); [reflexivity|rewrite setc_length; reflexivity|reflexivity]. Qed.
  Lemma ob_set2 r s1 s2 s2' : setc (ob r s1 s2) (Datatypes.S (length O)) "" (CWords s2') = ob r s1 s2'.
  Proof. unfold ob. rewrite (setc_end _ _ _ _ _ [("", CWords s2')]); [reflexivity|rewrite app_length, setc_length; cbn; lia|reflexivity]. Qed.
  Opaque ob.
  Notation st v r s1 s2 k := (mk_cst v m (ob r s1 s2) k).
  Notation rnv enc q := (if enc : bool then "r7_N" else "r6_N", BVal (TPtr TWord) (Some (VPtr TWord (Obj ir "" (wo c q))))).
  Notation base n2 gv iv p := [("g", BVal (TInt I32) gv); ("i", BVal (TInt I32) (Some (VInt I32 iv))); ("scratch2", BObj (TArr TWord n2) (Datatypes.S (length O))); ("scratch1", BObj (TArr TWord 8) (length O));
    ("block", BVal (TPtr TWord) (Some (VPtr TWord (Flat key)))); ("r", BVal (TPtr TWord) (Some (VPtr TWord (Obj ir "" (wo c p)))))].
  Ltac lens ::= repeat (rewrite ob_len); first [reflexivity | lia].
  Ltac getx ::= cbn [objs];
    lazymatch goal with
    | |- getc (ob _ _ _) ir _ = _ => apply ob_R
    | |- getc (ob _ _ _) (length O) _ = _ => apply ob_1
    | |- getc (ob _ _ _) (Datatypes.S (length O)) _ = _ => apply ob_2
    end.
  Ltac setx ::= cbn [objs];
    lazymatch goal with
    | |- setc (ob _ _ _) ir _ _ = _ => apply ob_setR
    | |- setc (ob _ _ _) (length O) _ _ = _ => apply ob_set1
    | |- setc (ob _ _ _) (Datatypes.S (length O)) _ _ = _ => apply ob_set2
    end.
  Ltac nat_of ::=
  lazymatch goal with
  | |- N.of_nat ?k = N.of_nat _ => reflexivity
  | |- ?a + ?b = N.of_nat _ => eapply natify_add; [nat_of|nat_of]
  | |- ?a - ?b = N.of_nat _ => eapply natify_sub; [nat_of|nat_of]
  | |- ?a * ?b = N.of_nat _ => eapply natify_mul; [nat_of|nat_of]
  | |- ?e = N.of_nat ?k => first [MiniCRun.ground e; let q := eval vm_compute in (N.to_nat e) in unify k q; vm_compute; reflexivity
                                 | unify k (N.to_nat e); symmetry; apply N2Nat.id]
  end.
  Ltac divx ::= apply div_wb.
  Ltac kwx := cbn [flat]; match goal with H : key_block_word _ _ _ _ = Ok _ |- _ => exact H end.
  Ltac vgetx := cbn [MiniC.bytes_in]; lazymatch goal with |- view_get _ ?z ?r ?q = _ => match goal with H : view_get _ z r ?p = Ok _ |- _ => replace q with p by lia; exact H end end.
  Ltac vsetx := cbn [MiniC.bytes_in]; lazymatch goal with |- view_set _ ?z ?r ?q ?v = _ => match goal with H : view_set _ z r ?p v = Ok _ |- _ => replace q with p by lia; exact H end end.
  Ltac loadx ::=
    lazymatch goal with
    | |- load_at _ _ TWord (Flat _) _ = _ => eapply load_flatw; kwx
    | |- load_at _ _ (TInt _) (Tab _ _) _ = _ => eapply load_tab; [reflexivity|eassumption]
    | |- load_at _ _ (TInt ?t) (Obj _ _ 0) _ = _ => eapply (load_e c t _ _ _ 0); [eassumption|getx|vgetx]
    | |- load_at _ _ (TInt ?t) (Obj _ _ _) _ = _ => eapply (load_e c t); [eassumption|getx|vgetx]
    end.
  Ltac storex ::= lazymatch goal with |- store_at _ (TInt ?t) (Obj _ _ 0) _ _ = _ => eapply (xstore_e c t _ _ _ _ 0); [eassumption|getx|vsetx|setx] | |- store_at _ (TInt ?t) (Obj _ _ _) _ _ = _ => eapply (xstore_e c t); [eassumption|getx|vsetx|setx] end.
  Ltac ptrx ::=
    lazymatch goal with
    | |- bin_op _ _ Add (VPtr TWord (Flat _)) _ = _ => eapply ptr_flat; svn
    | |- bin_op _ _ Add (VPtr (TInt ?t) (Obj _ _ 0)) _ = _ => eapply (ptr_el0 c t); svn
    | |- bin_op _ _ Add (VPtr (TInt ?t) (Obj _ _ (N.of_nat _))) _ = _ => eapply (ptr_el c t); svn
    | |- bin_op _ _ Add (VPtr _ (Tab _ 0)) _ = _ => eapply ptr_table; reflexivity
    | |- bin_op _ _ Sub (VPtr TWord (Obj _ _ (wo _ _))) _ = _ => eapply ptr_w_sub; [svn|lia]
    end.
  Ltac step := first [eapply opt_step; [runx|st_eq] | unfold opt_ev; eapply f_equal; st_eq].
  (* a loop with for_ as its model *)
  Ltac forr F M n i0 prep body :=
    eapply seq_one; [eapply st_for; [first [eapply opt_some; runx | reflexivity]|
      refine (proj1 (loop_inv c rnd fuel calls (fun _ => True) F _ _ _ _ n fuel i0 _ _ _ Logic.I M ltac:(lia) _ _ _)); [|intros ?; eapply cond_ok; [pvx|falsex]|cbv beta; st_eq];
      let j := fresh "j" in let x := fresh "x" in let x' := fresh "x'" in let Hj := fresh "Hj" in let M1 := fresh "M" in
      intros j x x' Hj _ M1; cbv beta in M1; prep M1; (split; [eapply cond_ok; [pvx|truex]|]); eexists; split; [blk ltac:(idtac; body j)|split; [step|exact Logic.I]]]|cbv beta].
  Ltac go1 j := stxs.
  Ltac gob1 M := gob M.
  Lemma key_ok enc n2 gv i p q r s1 s2 s1' k rest y : (i < 56)%nat -> key_xor c (key_block_word c m key) i r q s1 = Ok s1' ->
    exec_seq c rnd fuel calls rest (st (rnv enc q :: base n2 (num 8) (N.of_nat i) p) r s1' s2 k) = y ->
    exec_seq c rnd fuel calls (keyloop (if enc then "r7_N" else "r6_N") :: rest) (st (rnv enc q :: base n2 gv (N.of_nat i) p) r s1 s2 k) = y.
  Proof.
    intros Hi M K. unfold key_xor in M. unfold keyloop.
    destruct enc.
    - forr (fun j s1 => st (rnv true q :: base n2 (num j) (N.of_nat i) p) r s1 s2 k) M 8%nat 0%nat gob1 go1. exact K.
    - forr (fun j s1 => st (rnv false q :: base n2 (num j) (N.of_nat i) p) r s1 s2 k) M 8%nat 0%nat gob1 go1. exact K.
  Qed.
  Ltac bytes M := repeat match goal with
    | H : byte_get c _ _ = Ok ?x |- _ => let b := fresh "b" in let Hb := fresh "Hb" in destruct (byte_get_native c _ _ _ H) as (b & Hb & <-); clear H
    | H : put_of c _ _ _ _ = Ok _ |- _ => let v := fresh "v" in let Hv := fresh "Hv" in let Hs := fresh "Hs" in destruct (put_of_ok c _ _ _ _ _ H) as (v & Hv & Hs); clear H; cbn [elt tabl MiniC.bytes_in] in Hv, Hs
    end.
  Ltac gob2 M := gob M; bytes M.
  Notation four := (option value * option value * option value * option value)%type.
  Notation plv t jv a b cc d := [("j", BVal (TInt I32) jv); ("d", BVal (TInt U8) d); ("c", BVal (TInt U8) cc); ("b", BVal (TInt U8) b); ("a", BVal (TInt U8) a);
    ("dst", BVal (TPtr (TInt t)) (Some (VPtr (TInt t) (Obj (Datatypes.S (length O)) "" 0)))); ("src", BVal (TPtr (TInt U8)) (Some (VPtr (TInt U8) (Obj (length O) "" 0))))].
  Lemma plain_loop_ok (enc wide : bool) n2 i p q r s1 s2 s2' k : sbox_loop c (put_of c wide) s1 s2 = Ok s2' ->
    exists z : four, exec (plain_loop c wide) (st (plv (elt wide) None None None None None ++ rnv enc q :: base n2 (num 8) i p) r s1 s2 k) =
      Ok (None, let '(a, b, cc, d) := z in st (plv (elt wide) (num (4 * (word_bytes c * 8 / 4))) a b cc d ++ rnv enc q :: base n2 (num 8) i p) r s1 s2' k).
  Proof.
    intros M. unfold sbox_loop in M. unfold plain_loop. pose proof (wb_small c). pose proof (wb_4 c). pose proof (fits1 c) as F1. pose proof (fits2 c) as F2.
    assert (N4 : (4 * (word_bytes c * 8 / 4) = word_bytes c * 8)%nat) by (unfold word_bytes; destruct (tgt c); reflexivity).
    assert (K : (word_bytes c * 8 / 4 < fuel)%nat) by lia.
    apply (for_ex c rnd fuel calls (fun j s2 (z : four) => let '(a, b, cc, d) := z in st (plv (elt wide) (num (4 * j)) a b cc d ++ rnv enc q :: base n2 (num 8) i p) r s1 s2 k) _ _ _ _ _ _ 0%nat s2 s2' (None, None, None, None) _ M K).
    - cbn [app]. destruct wide, enc; (eapply opt_some; runx).
    - intros j x x' [[[a b] cc] d] Hj M1. cbv beta in M1. gob2 M1. cbn [app].
      destruct wide, enc; (split; [eapply cond_ok; [pvx|truex]|]).
      + eexists. eexists (_,_,_,_). split; [blk ltac:(idtac; unfold putc; cbn [tabn]; stxs)|step].
      + eexists. eexists (_,_,_,_). split; [blk ltac:(idtac; unfold putc; cbn [tabn]; stxs)|step].
      + eexists. eexists (_,_,_,_). split; [blk ltac:(idtac; unfold putc; cbn [tabn]; stxs)|step].
      + eexists. eexists (_,_,_,_). split; [blk ltac:(idtac; unfold putc; cbn [tabn]; stxs)|step].
    - intros x [[[a b] cc] d]. cbn [app]. destruct wide, enc; (eapply cond_ok; [pvx|falsex]).
  Qed.
  Lemma plain_stage_ok (enc wide : bool) n2 i p q r s1 s2 s2' k : sbox_loop c (put_of c wide) s1 s2 = Ok s2' ->
    exec (plain_stage c wide) (st (rnv enc q :: base n2 (num 8) i p) r s1 s2 k) = Ok (None, st (rnv enc q :: base n2 (num 8) i p) r s1 s2' k).
  Proof.
    intros M. destruct (plain_loop_ok enc wide n2 i p q r s1 s2 s2' k M) as ([[[a b] cc] d] & L). cbn [app] in L. unfold plain_stage.
    destruct enc, wide; (eapply xblock; [do 7 stx; eapply seq_one; [exact L|]; reflexivity|cbn [length Nat.sub skipn]; reflexivity|apply firstn_same; lens]).

  Qed.
  Lemma and_u32 s : bin_op c S And (VInt U32 s) (VInt I32 255) = Ok (VInt U32 (N.land s 255)). Proof. reflexivity. Qed.
  Lemma shr_u32 s n : n = 8 \/ n = 16 \/ n = 24 -> bin_op c S Shr (VInt U32 s) (VInt I32 n) = Ok (VInt U32 (N.shiftr s n)). Proof. intros [->|[->| ->]]; reflexivity. Qed.
  Ltac binop ::=
  lazymatch goal with
  | |- bin_op _ _ And (VInt U32 _) (VInt I32 255) = _ => apply and_u32
  | |- bin_op _ _ Shr (VInt U32 _) (VInt I32 _) = _ => apply shr_u32; lia
  | |- bin_op _ _ Mod (VInt _ _) (VInt _ _) = _ => modx
  | |- bin_op _ _ Div (VInt _ _) (VInt _ _) = _ => first [eapply int_lift; MiniCRun.intop | divx]
  | |- bin_op _ _ _ (VInt _ _) (VInt _ _) = _ => eapply int_lift; MiniCRun.intop
  | |- bin_op _ _ Add (VPtr TWord (Obj _ _ 0)) (VInt _ _) = _ => eapply ptr_word0; svn
  | |- bin_op _ _ Add (VPtr TWord (Obj _ _ (wo _ _))) (VInt _ _) = _ => eapply ptr_word; svn
  | |- _ => ptrx
  end.
  Lemma u32_get_ok a i x : u32_get c a i = Ok x -> exists b, view_get c 4 a i = Ok b /\ native_val be b = x.
  Proof. unfold u32_get. intros E. gob E. injection E as <-. exists v. split; [exact E0|reflexivity]. Qed.
  Notation alv wide jv sv a b cc d n := [("j", BVal (TInt I32) jv); ("s", BVal (TInt U32) sv); ("d", BVal (TInt U32) d); ("c", BVal (TInt U32) cc); ("b", BVal (TInt U32) b); ("a", BVal (TInt U32) a);
    ("dst", BVal (TPtr (TInt (elt wide))) (Some (VPtr (TInt (elt wide)) (Obj (Datatypes.S (length O)) "" (N.of_nat (bytes_in (elt wide) * n)))))); ("src", BVal (TPtr (TInt U32)) (Some (VPtr (TInt U32) (Obj (length O) "" 0))))].
  Ltac gob3 M := gob M; bytes M.
  Definition quad (big : bool) (x : N) : N * N * N * N :=
    if big then (N.land (N.shiftr x 24) 255, N.land (N.shiftr x 16) 255, N.land (N.shiftr x 8) 255, N.land x 255)
    else (N.land x 255, N.land (N.shiftr x 8) 255, N.land (N.shiftr x 16) 255, N.land (N.shiftr x 24) 255).
  Lemma alt_put_ok wide big x j y y' : be = big -> alt_sbox_put c (put_of c wide) x j y = Ok y' ->
    let '(a, b, e, d) := quad big x in exists va vb ve vd y1 y2 y3,
      let w := bytes_in (elt wide) in
      (tget (tabl wide) a = Ok va /\ tget (tabl wide) b = Ok vb /\ tget (tabl wide) e = Ok ve /\ tget (tabl wide) d = Ok vd) /\
      (view_set c w y (4 * j + 0) (native_bytes be w va) = Ok y1 /\ view_set c w y1 (4 * j + 1) (native_bytes be w vb) = Ok y2 /\
       view_set c w y2 (4 * j + 2) (native_bytes be w ve) = Ok y3 /\ view_set c w y3 (4 * j + 3) (native_bytes be w vd) = Ok y').
  Proof.
    intros EB M. unfold alt_sbox_put, alt_sbox_load in M. rewrite EB in M. unfold quad. destruct big; (gob M; bytes M;
    do 7 eexists; repeat split; eassumption).
  Qed.
  Lemma alt_loop_ok (enc wide big : bool) n2 i p q r s1 x0 s2 x' s2' k : be = big ->
    for_ (word_bytes c / 4 * 8 - 1) 0 (fun j '(s, dst) => s' <- u32_get c s1 (j + 1) ;; dst <- alt_sbox_put c (put_of c wide) s j dst ;; Ok (s', dst)) (x0, s2) = Ok (x', s2') ->
    exists z : four, exec (alt_loop c big wide) (st (alv wide None (Some (VInt U32 x0)) None None None None 0%nat ++ rnv enc q :: base n2 (num 8) i p) r s1 s2 k) =
      Ok (None, let '(a, b, cc, d) := z in st (alv wide (num (word_bytes c / 4 * 8 - 1)) (Some (VInt U32 x')) a b cc d (4 * (word_bytes c / 4 * 8 - 1))%nat ++ rnv enc q :: base n2 (num 8) i p) r s1 s2' k).
  Proof.
    intros EB M. unfold alt_loop. pose proof (wb_small c). pose proof (wb_4 c). pose proof (fits1 c) as F1. pose proof (fits2 c) as F2. pose proof (fits4 c) as F4.
    assert (K : (word_bytes c / 4 * 8 - 1 < fuel)%nat) by lia.
    apply (for_ex c rnd fuel calls (fun j '(sv, s2) (z : four) => let '(a, b, cc, d) := z in st (alv wide (num j) (Some (VInt U32 sv)) a b cc d (4 * j)%nat ++ rnv enc q :: base n2 (num 8) i p) r s1 s2 k) _ _ _ _ _ _ 0%nat (x0, s2) (x', s2') (None, None, None, None) _ M K).
    - cbn [app]. destruct wide, enc; (eapply opt_some; runx).
    - intros j [sv y] [sv' y'] [[[a b] cc] d] Hj M1. cbv beta iota in M1. gob M1. injection M1 as <- <-. 
      destruct (u32_get_ok _ _ _ E) as (u & Hu & <-). pose proof (alt_put_ok wide big _ _ _ _ EB E0) as X. unfold quad in X. cbn [app]. unfold alt_loads, alt_puts, putc.
      destruct big; destruct X as (va & vb & ve & vd & y1 & y2 & y3 & (T1 & T2 & T3 & T4) & V1 & V2 & V3 & V4);
      (destruct wide, enc; (split; [eapply cond_ok; [pvx|truex]|]); cbn [elt tabn tabl MiniC.bytes_in] in *;
        (eexists; eexists (_, _, _, _); split; [blk ltac:(idtac; cbn [map app N.eqb Pos.eqb]; stxs)|unfold opt_ev; eapply f_equal; st_eq; cbn [MiniC.bytes_in]; lia])).
    - intros [sv y] [[[a b] cc] d]. cbn [app]. destruct wide, enc; (eapply cond_ok; [pvx|falsex]).
  Qed.
  Lemma alt_stage_ok (enc wide big : bool) n2 i p q r s1 s2 s2' k : be = big -> alt_sbox_loop c (put_of c wide) s1 s2 = Ok s2' ->
    exec (alt_stage c big wide) (st (rnv enc q :: base n2 (num 8) i p) r s1 s2 k) = Ok (None, st (rnv enc q :: base n2 (num 8) i p) r s1 s2' k).
  Proof.
    intros EB M. unfold alt_sbox_loop in M. gob M. pose proof (wb_small c). pose proof (wb_4 c). pose proof (fits1 c) as F1. pose proof (fits2 c) as F2. pose proof (fits4 c) as F4.
    destruct (u32_get_ok _ _ _ E) as (u & Hu & <-). match goal with H : for_ _ _ _ _ = Ok (?a, ?b) |- _ => rename a into x', b into y end.
    destruct (alt_loop_ok enc wide big n2 i p q r s1 _ s2 _ _ k EB E0) as ([[[a b] cc] d] & L). cbn [app] in L.
    pose proof (alt_put_ok wide big _ _ _ _ EB M) as X. unfold quad in X. clear E0 M. set (nn := (word_bytes c / 4 * 8 - 1)%nat) in *. clearbody nn. unfold alt_stage, alt_loads, alt_puts, putc.
    destruct big; destruct X as (va & vb & ve & vd & y1 & y2 & y3 & (T1 & T2 & T3 & T4) & V1 & V2 & V3 & V4);
    (destruct enc, wide; cbn [elt tabn tabl MiniC.bytes_in] in *; (eapply xblock; [cbn [map app N.eqb Pos.eqb]; do 9 stx; eapply seq_one; [exact L|]; stxs|cbn [length Nat.sub skipn]; reflexivity|apply firstn_same; lens])).
  Qed.
  Lemma stage_ok (enc : bool) n2 i p q r s1 s2 s2' k : block_sbox_stage c s1 s2 = Ok s2' ->
    exec (stage_of c) (st (rnv enc q :: base n2 (num 8) i p) r s1 s2 k) = Ok (None, st (rnv enc q :: base n2 (num 8) i p) r s1 s2' k).
  Proof.
    intros M. unfold stage_of, block_sbox_stage, BLOCK_SBOX_PERMUTE, BLOCK_SBOX in *. destruct (use_alt_sbox c) eqn:A.
    - apply alt_stage_ok; [reflexivity|]. unfold put_of. destruct (deinterleave c); exact M.
    - assert (P : tgt c <> AVX2 -> exec (plain_stage c (deinterleave c)) (st (rnv enc q :: base n2 (num 8) i p) r s1 s2 k) = Ok (None, st (rnv enc q :: base n2 (num 8) i p) r s1 s2' k)).
      { intros NA. apply plain_stage_ok. unfold put_of. destruct (tgt c); [..|contradiction|]; destruct (deinterleave c); exact M. }
      destruct (tgt c) eqn:TT; try (apply P; discriminate). 
      assert (D : deinterleave c = true) by (unfold deinterleave; rewrite TT; reflexivity). rewrite D in M.
      unfold avx2_stage. destruct enc; (eapply st_expr; eapply xpermute; [pvsx|getx|getx|exact M|setx]).
  Qed.
End Stages.
