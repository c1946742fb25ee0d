(** BsCKeySet.v -- dvbcsa_bs_key_set (dvbcsa_bs_key.c): the source computes what the model computes. *)
From Coq Require Import String.
From Verif Require Import Base Mem Tables Spec ModelClassical ModelBsWord ModelBsTranspose ModelBsStream ModelBsBlock ModelBsAlgo ApiSpec BsApiSpec BsWordFacts BsC SourceBitslice BsCRun BsCKernel BsCTranspose BsCPack BsCRegister BsCRounds BsCBlock BsCStream BsCApi SourceBsSpec.
From Verif Require MiniC MiniCRun SourceClassical SourceRun.
Local Open Scope string_scope. Local Open Scope list_scope. Local Open Scope N_scope.
#[local] Opaque BS_AND BS_OR BS_XOR BS_NOT BS_SHL BS_SHR BS_VAL key_stream_word.
Lemma store_bytes_app m a x y : store_bytes m a (x ++ y) = (m <- store_bytes m a x ;; store_bytes m (a + N.of_nat (length x)) y).
Proof. revert m a. induction x as [|b x IH]; intros m a; cbn [app store_bytes bind length]; [rewrite N.add_0_r; reflexivity|]. destruct (store m a b) as [m1| | |]; cbn [bind]; try reflexivity. rewrite IH. replace (a + 1 + N.of_nat (length x)) with (a + N.of_nat (Datatypes.S (length x))) by lia. reflexivity. Qed.
Lemma store_meq m m1 a b m' : store m a b = Ok m' -> meq m m1 -> exists m1', store m1 a b = Ok m1' /\ meq m' m1'.
Proof.
  intros E H. unfold store in *. rewrite <- (H a). destruct (m a); [|discriminate]. injection E as <-. eexists. split; [reflexivity|]. intros x. cbv beta. rewrite (H x). reflexivity.
Qed.
Lemma store_bytes_meq b : forall m m1 a m', store_bytes m a b = Ok m' -> meq m m1 -> exists m1', store_bytes m1 a b = Ok m1' /\ meq m' m1'.
Proof.
  induction b as [|x b IH]; intros m m1 a m' E H; cbn [store_bytes] in *; [injection E as <-; exists m1; split; [reflexivity|exact H]|].
  apply bind_ok in E as (m2 & E1 & E2). destruct (store_meq _ _ _ _ _ E1 H) as (m3 & -> & H3). cbn [bind]. eapply IH; eassumption.
Qed.
Lemma store_word_meq c w m m1 a m' : store_word c m a w = Ok m' -> meq m m1 -> exists m1', store_word c m1 a w = Ok m1' /\ meq m' m1'.
Proof. unfold store_word. destruct (word_aligned c a); [|discriminate]. apply store_bytes_meq. Qed.
(* the last loop of the model *)
Lemma words_meq c (f : nat -> res word) (g : nat -> N) n : forall i m m1 m', for_ n i (fun j m => w <- f j ;; store_word c m (g j) w) m = Ok m' -> meq m m1 ->
  exists m1', for_ n i (fun j m => w <- f j ;; store_word c m (g j) w) m1 = Ok m1' /\ meq m' m1'.
Proof.
  induction n as [|n IH]; intros i m m1 m' E H; cbn [for_] in *; [injection E as <-; exists m1; split; [reflexivity|exact H]|].
  gob E. match goal with X : bind (f i) _ = Ok _ |- _ => gob X end. match goal with X : f i = Ok _, Y : store_word _ _ _ _ = _ |- _ => rewrite X; cbn [bind]; destruct (store_word_meq _ _ _ _ _ _ Y H) as (m3 & -> & H3) end. cbn [bind]. eapply IH; eassumption.
Qed.
Definition same_value (r : res value) (t : ity) (v : N) : bool := match r with Ok (VInt t' n) => MiniC.ity_eqb t t' && (n =? v) | _ => false end.
Lemma same_ok r t v : same_value r t v = true -> r = Ok (VInt t v).
Proof. unfold same_value. destruct r as [[t' n| |]| | |]; try discriminate. destruct (n =? v) eqn:E; [|rewrite Bool.andb_false_r; discriminate]. apply N.eqb_eq in E as ->. destruct t, t'; try discriminate; reflexivity. Qed.
Lemma all_bytes (f : N -> bool) : forallb f (map N.of_nat (seq 0 256)) = true -> forall k, k < 256 -> f k = true.
Proof. intros H k Hk. rewrite forallb_forall in H. apply H. apply in_map_iff. exists (N.to_nat k). split; [lia|apply in_seq; lia]. Qed.
Lemma mul64 c k : k < 256 -> int_op c Mul U8 k U64 0x101010101010101 = Ok (VInt U64 (u64 (k * 0x0101010101010101))).
Proof. intros H. apply same_ok. revert k H. apply all_bytes. vm_compute. reflexivity. Qed.
Lemma mul32 c k v : k < 256 -> (if wrapv c then Ok (u32 (k * 0x01010101)) else z <- int_ok (Z.of_N k * 0x01010101)%Z ;; Ok (Z.to_N z)) = Ok v ->
  int_op c Mul U8 k I32 0x1010101 = Ok (VInt I32 v) /\ v < 2 ^ 32.
Proof.
  intros H E. assert (Q : int_op c Mul U8 k I32 0x1010101 = match MiniC.int_op Mul U8 k I32 0x1010101 with
    | Ok (MiniC.VInt t n) => Ok (VInt t n) | Ok _ => UB BadAddress | UB SignedOverflow => if wrapv c then wrapping Mul U8 k I32 0x1010101 else UB SignedOverflow | UB x => UB x | Abort => Abort | Fuel => Fuel end) by reflexivity.
  rewrite Q. clear Q. revert E. generalize (wrapv c) as b. intros b E.
  pose (t := fun (b : bool) (k : N) => match (if b then @Ok N (u32 (k * 0x01010101)) else z <- int_ok (Z.of_N k * 0x01010101)%Z ;; Ok (Z.to_N z)) with
    | Ok v => (same_value (match MiniC.int_op Mul U8 k I32 0x1010101 with Ok (MiniC.VInt t n) => Ok (VInt t n) | Ok _ => UB BadAddress | UB SignedOverflow => if b then wrapping Mul U8 k I32 0x1010101 else UB SignedOverflow | UB x => UB x | Abort => Abort | Fuel => Fuel end) I32 v && (v <? 2 ^ 32))%bool
    | _ => true end).
  assert (A : t b k = true). { destruct b; revert k H E; intros k H _; revert k H; apply all_bytes; vm_compute; reflexivity. }
  unfold t in A. rewrite E in A. apply andb_prop in A as (A & A'). split; [apply same_ok; exact A|apply N.ltb_lt; exact A'].
Qed.
(* the same multiplication where it overflows *)
Lemma mul32_ub c k : k < 256 -> (if wrapv c then Ok (u32 (k * 0x01010101)) else z <- int_ok (Z.of_N k * 0x01010101)%Z ;; Ok (Z.to_N z)) = UB SignedOverflow ->
  int_op c Mul U8 k I32 0x1010101 = UB SignedOverflow.
Proof.
  intros H E. assert (Q : int_op c Mul U8 k I32 0x1010101 = match MiniC.int_op Mul U8 k I32 0x1010101 with
    | Ok (MiniC.VInt t n) => Ok (VInt t n) | Ok _ => UB BadAddress | UB SignedOverflow => if wrapv c then wrapping Mul U8 k I32 0x1010101 else UB SignedOverflow | UB x => UB x | Abort => Abort | Fuel => Fuel end) by reflexivity.
  rewrite Q. clear Q. destruct (wrapv c); [discriminate E|].
  pose (t := fun k : N => match (z <- int_ok (Z.of_N k * 0x01010101)%Z ;; Ok (Z.to_N z)) with
    | UB SignedOverflow => match MiniC.int_op Mul U8 k I32 0x1010101 with UB SignedOverflow => true | _ => false end | _ => true end).
  assert (A : t k = true) by (revert k H E; intros k H _; revert k H; apply all_bytes; vm_compute; reflexivity).
  unfold t in A. rewrite E in A. destruct (MiniC.int_op Mul U8 k I32 0x1010101) as [?|[]| |]; try discriminate A. reflexivity.
Qed.
Lemma classical_load be fuel m p x : dvbcsa_load_le64 be m p = Ok x -> bytes_mem m ->
  classical be fuel "dvbcsa_load_le64" [MiniC.VPtr (MiniC.TInt U8) (MiniC.Flat p)] m = Ok (Some (MiniC.VInt U64 x), m).
Proof.
  intros E B. unfold classical. rewrite <- SourceRun.p_enc_all.
  assert (K : SourceRun.lk be fuel (SourceRun.p_enc be) "dvbcsa_load_le64" [SourceRun.u8p p] (MiniC.mk_cst m []) = Ok (Some (MiniC.VInt U64 x), MiniC.mk_cst m [])); [|rewrite K; reflexivity].
  do 16 (try MiniCRun.goto). exact (SourceRun.load64_ok be fuel m p x [] E B).
Qed.
Lemma classical_sched be fuel m cw kk m' : dvbcsa_key_schedule_block be m cw kk = Ok m' -> bytes_mem m -> (100 <= fuel)%nat ->
  classical be fuel "dvbcsa_key_schedule_block" [MiniC.VPtr (MiniC.TInt U8) (MiniC.Flat cw); MiniC.VPtr (MiniC.TInt U8) (MiniC.Flat kk)] m = Ok (None, m').
Proof.
  intros E B F. unfold classical. rewrite <- SourceRun.p_enc_all.
  assert (K : SourceRun.lk be fuel (SourceRun.p_enc be) "dvbcsa_key_schedule_block" [SourceRun.u8p cw; SourceRun.u8p kk] (MiniC.mk_cst m []) = Ok (None, MiniC.mk_cst m' [])); [|rewrite K; reflexivity].
  MiniCRun.goto. exact (SourceRun.sched_ok be fuel m cw kk m' [] E B F).
Qed.
Lemma land_shiftr ck i : N.land (N.shiftr ck i) 1 = if N.testbit ck i then 1 else 0.
Proof. apply N.bits_inj. intros n. rewrite N.land_spec, N.shiftr_spec by lia. destruct (N.eq_dec n 0) as [->|Hn].
  - rewrite N.add_0_l. destruct (N.testbit ck i); reflexivity.
  - replace (N.testbit 1 n) with false by (symmetry; change 1 with (2 ^ 0); apply N.pow2_bits_false; lia). rewrite Bool.andb_false_r. destruct (N.testbit ck i); [symmetry; change 1 with (2 ^ 0); apply N.pow2_bits_false; lia|symmetry; apply N.bits_0]. Qed.
Section KeySet.
  Context (c : build) (rnd : nat -> nat -> N) (fuel : nat) (cw key : N).
  Hypothesis (Hf : (256 < fuel)%nat).
  Notation T := src_bs_tables. Notation S := (src_bs_structs c). Notation be := (big_endian c).
  Notation calls := (classical_calls c fuel).
  Notation KEY := (TStruct "dvbcsa_bs_key_s"). Notation num j := (Some (VInt I32 (N.of_nat j))).
  Lemma load_call g m O k x : dvbcsa_load_le64 be m cw = Ok x -> bytes_mem m -> calls "dvbcsa_load_le64" [cw_ptr cw] (mk_cst g m O k) = Ok (Some (VInt U64 x), mk_cst g m O k).
  Proof. intros E B. unfold classical_calls, cw_ptr. cbn [String.eqb Ascii.eqb Bool.eqb flat]. rewrite (classical_load _ fuel _ _ _ E B). reflexivity. Qed.
  Definition lent (ns : list N) (m : mem) : mem := with_local (N.of_nat (length ns)) (fun a => nth (N.to_nat a) ns 0) m.
  Lemma sched_call g m O k i f ns m' ns' : getc O i f = Ok (CInts U8 ns) -> Forall is_byte ns -> bytes_mem m ->
    dvbcsa_key_schedule_block be (lent ns m) (cw + N.of_nat (length ns)) 0 = Ok m' -> load_bytes m' 0 (length ns) = Ok ns' ->
    calls "dvbcsa_key_schedule_block" [cw_ptr cw; VPtr (TInt U8) (Obj i f 0)] (mk_cst g m O k) =
      Ok (None, mk_cst g (fun a => m' (a + N.of_nat (length ns))) (setc O i f (CInts U8 ns')) k).
  Proof.
    intros G F B E L. unfold classical_calls, cw_ptr. cbn [String.eqb Ascii.eqb Bool.eqb flat objs seed vars]. rewrite G. cbn [bind].
    assert (B' : bytes_mem (lent ns m)).
    { intros a b. unfold lent, with_local. destruct (a <? N.of_nat (length ns)) eqn:Ha; [|apply B]. intros Q. injection Q as <-. rewrite Forall_forall in F. apply F, nth_In. apply N.ltb_lt in Ha. lia. }
    cbv zeta. fold (lent ns m). rewrite (classical_sched _ fuel _ _ _ _ E B' ltac:(lia)). cbn [bind]. rewrite L. reflexivity.
  Qed.
  Lemma xstore_flat a w g m O k m' : store_word c m a w = Ok m' -> store_at c TWord (Flat a) (VWord w) (mk_cst g m O k) = Ok (mk_cst g m' O k).
  Proof. intros E. unfold store_at. cbn [flat]. rewrite E. reflexivity. Qed.
  Lemma pv_call f l s vs v : String.eqb f "memcpy" = false -> String.eqb f "BLOCK_SBOX_PERMUTE" = false -> pvs c calls l s vs -> calls f vs s = Ok (Some v, s) -> pv c calls (ECall f l) s v.
  Proof. intros A1 A2 A B. exists (V v). split; [|reflexivity]. unfold ev; fold ev. cbn [BsC.ev]. rewrite A1, A2. rewrite A; cbn [bind]. rewrite B. reflexivity. Qed.
  Notation kvars ck i := [("ck", BVal (TInt U64) (Some (VInt U64 ck))); ("i", BVal (TInt I32) i); ("kk", BObj (TArr (TInt U8) 56) 0%nat); ("cw", BVal (TPtr (TInt U8)) (Some (cw_ptr cw))); ("key", BVal (TPtr KEY) (Some (bs_key_ptr key)))].
  Definition loop1 : stmt := match nth_error (fn_body (bs_key_set_1 c)) 3 with Some st => st | None => SReturn None end.
  Ltac ptrx ::= lazymatch goal with |- bin_op _ _ Add (VPtr TWord (Flat _)) _ = _ => eapply ptr_flat; svn end.
  Ltac plx ::=
    lazymatch goal with
    | |- pl _ _ (EVar _) _ _ => first [eapply pl_var; reflexivity | eapply pl_obj; reflexivity | eapply pl_tab; reflexivity]
    | |- pl _ _ (EIndex _ _) _ _ => eapply pl_index; [pvx|pvx|binop]
    | |- pl _ _ (EDeref _) _ _ => eapply pl_deref; pvx
    | |- pl _ _ (EField (EDeref (EVar "key")) "stream") _ _ => eapply pl_field_flat; [plx|reflexivity|reflexivity|apply key_stream_off]
    end.
  Lemma bit_bound j : (j < 64)%nat -> N.lxor (N.of_nat j) 4 < 64.
  Proof. intros H. do 64 (destruct j as [|j]; [reflexivity|]). lia. Qed.
  Lemma loop1_ok ck i m m1 O k : ck < 2 ^ 64 ->
    for_ 64 0 (fun i m => store_word c m (key + N.of_nat ((56 + i) * word_bytes c)) (if N.testbit ck (N.lxor (N.of_nat i) 4) then BS_VAL c 1 255 else BS_VAL c 1 0)) m = Ok m1 ->
    exec c T S rnd fuel calls loop1 (mk_cst (kvars ck i) m O k) = Ok (None, mk_cst (kvars ck (num 64)) m1 O k).
  Proof.
    intros Bk E. unfold loop1. cbn [nth_error fn_body bs_key_set_1].
    eapply st_for; [eapply opt_some; runx|].
    eapply (loop_fun c rnd fuel calls (fun i m => mk_cst (kvars ck (num i)) m O k) _ _ _ _ 64 fuel 0 m); [exact E|lia| |intros x; eapply cond_ok; [pvx|falsex]].
    intros j x x' Hj M. cbv beta in M. pose proof (bit_bound j ltac:(lia)) as Bj. split; [eapply cond_ok; [pvx|truex]|].
    assert (R : run c calls (EAssign (EIndex (EField (EDeref (EVar "key")) "stream") (EVar "i")) (ECond (EBin And (EBin Shr (EVar "ck") (EBin Xor (EVar "i") (EConst I32 4))) (EConst I32 1)) (EWVal 1 0xff) (EWVal 1 0x0))) (mk_cst (kvars ck (num j)) x O k) (mk_cst (kvars ck (num j)) x' O k)).
    { eapply run_assign.
      - eapply pv_cond.
        + eapply pv_bin; [eapply pv_bin; [pvx|pvx|]|pvx|].
          * eapply int_lift. MiniCRun.intop.
          * eapply int_lift. MiniCRun.intop.
        + reflexivity.
        + rewrite land_shiftr. instantiate (1 := VWord (if N.testbit ck (N.lxor (N.of_nat j) 4) then BS_VAL c 1 255 else BS_VAL c 1 0)). destruct (N.testbit ck (N.lxor (N.of_nat j) 4)); cbn; apply pv_wval.
      - plx.
      - eapply asg_loc; [reflexivity|]. apply xstore_flat. rewrite <- M. f_equal. nia. }
    eexists. split.
    - blk ltac:(idtac; eapply seq_one; [eapply st_expr; exact R|reflexivity]).
    - stepx.
  Qed.
  Lemma key_block_off a : a + field_offset c S [("block", TArr TWord 56); ("stream", TArr TWord 64)] 0 "block" = a.
  Proof. replace (field_offset c S [("block", TArr TWord 56); ("stream", TArr TWord 64)] 0 "block") with 0; [apply N.add_0_r|]. cbn [field_offset String.eqb Ascii.eqb Bool.eqb]; unfold up_to, align_of, size_of, word_bytes; destruct (tgt c); vm_compute; reflexivity. Qed.
  Definition block_body (kk : list N) (i : nat) (m : mem) : res mem :=
    k <- aget kk i ;; w <- block_key_word c k ;; store_word c m (key + N.of_nat (i * word_bytes c)) w.
  Notation kobj kk := [("", CInts U8 kk)].
  Lemma ptr_u8 i f ti x k : sval ti x = Z.of_nat k -> bin_op c S Add (VPtr (TInt U8) (Obj i f 0)) (VInt ti x) = Ok (VPtr (TInt U8) (Obj i f (N.of_nat (bytes_in U8 * k)))).
  Proof. intros E. unfold bin_op. rewrite E, (move_at c (TInt U8) _ _ _ _ (N.of_nat (bytes_in U8 * k))); [reflexivity|]. change (size_of c S 2 (TInt U8)) with 1. cbn. lia. Qed.
  Ltac ptrx ::= lazymatch goal with
    | |- bin_op _ _ Add (VPtr TWord (Flat _)) _ = _ => eapply ptr_flat; svn
    | |- bin_op _ _ Add (VPtr (TInt U8) (Obj _ _ 0)) _ = _ => eapply ptr_u8; svn end.
  Ltac plx ::=
    lazymatch goal with
    | |- pl _ _ (EVar _) _ _ => first [eapply pl_var; reflexivity | eapply pl_obj; reflexivity | eapply pl_tab; reflexivity]
    | |- pl _ _ (EIndex _ _) _ _ => eapply pl_index; [pvx|pvx|binop]
    | |- pl _ _ (EDeref _) _ _ => eapply pl_deref; pvx
    | |- pl _ _ (EField (EDeref (EVar "key")) "block") _ _ => eapply pl_field_flat; [plx|reflexivity|reflexivity|apply key_block_off]
    end.
  Ltac loadx ::= lazymatch goal with |- load_at _ _ (TInt U8) (Obj _ _ _) _ = _ => eapply load_i; [reflexivity|eassumption] end.
  Lemma xstore_fi t a ti n g m O k m' : a mod N.of_nat (bytes_in t) = 0 -> store_bytes m a (native_bytes be (bytes_in t) n) = Ok m' ->
    store_at c (TInt t) (Flat a) (VInt ti n) (mk_cst g m O k) = Ok (mk_cst g m' O k).
  Proof. intros A E. unfold store_at. rewrite A. cbn [N.eqb flat]. rewrite E. reflexivity. Qed.
  Lemma mul64' k : k < 256 -> bin_op c S Mul (VInt U8 k) (VInt U64 0x101010101010101) = Ok (VInt U64 (u64 (k * 0x0101010101010101))).
  Proof. exact (mul64 c k). Qed.
  Section Block.
    Context (ck : N) (kk : list N) (k : nat) (i0 : option value).
    Hypothesis (Fk : Forall is_byte kk).
    Lemma kk_byte i x : aget kk i = Ok x -> x < 256.
    Proof. intros E. rewrite Forall_forall in Fk. apply Fk. unfold aget in E. destruct (nth_error kk i) eqn:Q; [|discriminate]. injection E as <-. eapply nth_error_In; exact Q. Qed.
    Definition loop3 (f : fundef) : stmt := match nth_error (fn_body f) 5 with Some st => st | None => SReturn None end.
    Lemma loop3_1 m m' : tgt c = UINT32 -> for_ 56 0 (block_body kk) m = Ok m' ->
      exec c T S rnd fuel calls (loop3 (bs_key_set_1 c)) (mk_cst (kvars ck i0) m [kobj kk] k) = Ok (None, mk_cst (kvars ck (num 56)) m' [kobj kk] k).
    Proof.
      intros Ht E. unfold loop3. cbn [nth_error fn_body bs_key_set_1].
      eapply st_for; [eapply opt_some; runx|].
      eapply (loop_fun c rnd fuel calls (fun i m => mk_cst (kvars ck (num i)) m [kobj kk] k) _ _ _ _ 56 fuel 0 m); [exact E|lia| |intros x; eapply cond_ok; [pvx|falsex]].
      intros j x x' Hj M. unfold block_body in M. gob M. split; [eapply cond_ok; [pvx|truex]|].
      unfold block_key_word in E1. rewrite Ht in E1. gob E1. okj E1. pose proof (kk_byte _ _ E0) as Bv. destruct (mul32 c v v1 Bv E2) as (Em & Bw).
      unfold store_word in M. destruct (word_aligned c _) eqn:A; [|discriminate]. unfold word_aligned in A. apply N.eqb_eq in A.
      assert (W4 : word_bytes c = 4%nat) by (unfold word_bytes; rewrite Ht; reflexivity).
      assert (R : run c calls (EAssign (EDeref (ECast (TPtr (TInt U32)) (EBin Add (EField (EDeref (EVar "key")) "block") (EVar "i")))) (EBin Mul (EIndex (EVar "kk") (EVar "i")) (EConst I32 0x1010101))) (mk_cst (kvars ck (num j)) x [kobj kk] k) (mk_cst (kvars ck (num j)) x' [kobj kk] k)).
      { eapply run_assign.
        - eapply pv_bin; [pvx|pvx|exact Em].
        - eapply pl_deref. eapply pv_cast; [pvx|reflexivity].
        - eapply asg_loc; [eapply conv_value; MiniCRun.cv1|]. apply xstore_fi; [cbn [bytes_in MiniC.bytes_in]; rewrite W4 in A |- *; exact A|exact M]. }
      eexists. split; [blk ltac:(idtac; eapply seq_one; [eapply st_expr; exact R|reflexivity])|stepx].
    Qed.
    Lemma loop_fun_ub {X} (F : nat -> X -> cstate) e st b (body : nat -> X -> res X) u n : forall k i x,
      for_ n i body x = UB u -> (n < k)%nat ->
      (forall j x x', (i <= j < i + n)%nat -> body j x = Ok x' -> cond_of c T S calls e (F j x) = Ok (true, F j x) /\
         exists s1, exec c T S rnd fuel calls b (F j x) = Ok (None, s1) /\ opt_ev c T S calls st s1 = Ok (F (Datatypes.S j) x')) ->
      (forall j x, (i <= j < i + n)%nat -> body j x = UB u -> cond_of c T S calls e (F j x) = Ok (true, F j x) /\ exec c T S rnd fuel calls b (F j x) = UB u) ->
      loop k (cond_of c T S calls e) (exec c T S rnd fuel calls b) (opt_ev c T S calls st) (F i x) = UB u.
    Proof.
      induction n as [|n IH]; intros kf i x E K Hs Hu; cbn [for_] in E; [discriminate|]. destruct kf as [|kf]; [lia|]. cbn [loop].
      destruct (body i x) as [x'|w| |] eqn:B; cbn [bind] in E; try discriminate.
      - destruct (Hs i x x' ltac:(lia) B) as (C & s1 & E1 & E2). rewrite C; cbn [bind]. rewrite E1; cbn [bind]. rewrite E2; cbn [bind].
        apply IH; [exact E|lia|intros; apply Hs; [lia|assumption]|intros; apply Hu; [lia|assumption]].
      - assert (w = u) by congruence. subst w. destruct (Hu i x ltac:(lia) B) as (C & E1). rewrite C; cbn [bind]. rewrite E1. reflexivity.
    Qed.
    Lemma st_for_any i e st b s s1 r : opt_ev c T S calls i s = Ok s1 -> loop fuel (cond_of c T S calls e) (exec c T S rnd fuel calls b) (opt_ev c T S calls st) s1 = r -> exec c T S rnd fuel calls (SFor i e st b) s = r.
    Proof. intros A B. cbn [BsC.exec]. rewrite A; cbn [bind]. exact B. Qed.
    Lemma bin_fails o a b s va vb u : pv c calls a s va -> pv c calls b s vb -> bin_op c S o va vb = UB u -> ev c T S calls (EBin o a b) s = UB u.
    Proof. intros (ra & A & A') (rb & B & B') Q. cbn [BsC.ev]. rewrite A; cbn [bind]. rewrite A'; cbn [bind]. rewrite B; cbn [bind]. rewrite B'; cbn [bind]. rewrite Q. reflexivity. Qed.
    Lemma assign_fails l r s u : ev c T S calls r s = UB u -> ev c T S calls (EAssign l r) s = UB u.
    Proof. intros A. cbn [BsC.ev]. rewrite A. reflexivity. Qed.
    Lemma block_fails e s u : ev c T S calls e s = UB u -> exec c T S rnd fuel calls (SBlock [SExpr e]) s = UB u.
    Proof. intros A. cbn [BsC.exec]. rewrite A. reflexivity. Qed.
    Lemma store_no_overflow l : forall m a, store_bytes m a l <> UB SignedOverflow.
    Proof. induction l as [|x l IH]; intros m a; cbn [store_bytes]; [discriminate|]. unfold store. destruct (m a); cbn [bind]; [apply IH|discriminate]. Qed.
    Lemma loop3_ub m : tgt c = UINT32 -> for_ 56 0 (block_body kk) m = UB SignedOverflow ->
      exec c T S rnd fuel calls (loop3 (bs_key_set_1 c)) (mk_cst (kvars ck i0) m [kobj kk] k) = UB SignedOverflow.
    Proof.
      intros Ht E. unfold loop3. cbn [nth_error fn_body bs_key_set_1].
      eapply st_for_any; [eapply opt_some; runx|].
      eapply (loop_fun_ub (fun i m => mk_cst (kvars ck (num i)) m [kobj kk] k) _ _ _ _ SignedOverflow 56 fuel 0 m); [exact E|lia| |].
      - intros j x x' Hj M. unfold block_body in M. gob M. split; [eapply cond_ok; [pvx|truex]|].
        unfold block_key_word in E1. rewrite Ht in E1. gob E1. okj E1. pose proof (kk_byte _ _ E0) as Bv. destruct (mul32 c v v1 Bv E2) as (Em & Bw).
        unfold store_word in M. destruct (word_aligned c _) eqn:A; [|discriminate]. unfold word_aligned in A. apply N.eqb_eq in A.
        assert (W4 : word_bytes c = 4%nat) by (unfold word_bytes; rewrite Ht; reflexivity).
      assert (R : run c calls (EAssign (EDeref (ECast (TPtr (TInt U32)) (EBin Add (EField (EDeref (EVar "key")) "block") (EVar "i")))) (EBin Mul (EIndex (EVar "kk") (EVar "i")) (EConst I32 0x1010101))) (mk_cst (kvars ck (num j)) x [kobj kk] k) (mk_cst (kvars ck (num j)) x' [kobj kk] k)).
        { eapply run_assign.
          - eapply pv_bin; [pvx|pvx|exact Em].
          - eapply pl_deref. eapply pv_cast; [pvx|reflexivity].
          - eapply asg_loc; [eapply conv_value; MiniCRun.cv1|]. apply xstore_fi; [cbn [bytes_in MiniC.bytes_in]; rewrite W4 in A |- *; exact A|exact M]. }
        eexists. split; [blk ltac:(idtac; eapply seq_one; [eapply st_expr; exact R|reflexivity])|stepx].
      - intros j x Hj M. split; [eapply cond_ok; [pvx|truex]|]. unfold block_body in M.
        destruct (aget kk j) as [v| | |] eqn:E0; cbn [bind] in M; try (exfalso; unfold aget in E0; destruct (nth_error kk j); congruence). pose proof (kk_byte _ _ E0) as Bv.
        destruct (block_key_word c v) as [w|w| |] eqn:E1; cbn [bind] in M; try discriminate M.
        + exfalso. unfold store_word in M. destruct (word_aligned c _); [|discriminate]. exact (store_no_overflow _ _ _ M).
        + assert (w = SignedOverflow) by congruence. subst w. unfold block_key_word in E1. rewrite Ht in E1.
          assert (Em : bin_op c S Mul (VInt U8 v) (VInt I32 0x1010101) = UB SignedOverflow).
          { apply (mul32_ub c v Bv). match type of E1 with bind ?t _ = _ => destruct t; cbn [bind] in E1; congruence end. }
          apply block_fails, assign_fails. eapply bin_fails; [pvx|pvx|exact Em].
    Qed.
    Lemma loop3_2 m m' : (tgt c = UINT64 \/ tgt c = MMX) -> for_ 56 0 (block_body kk) m = Ok m' ->
      exec c T S rnd fuel calls (loop3 (bs_key_set_2 c)) (mk_cst (kvars ck i0) m [kobj kk] k) = Ok (None, mk_cst (kvars ck (num 56)) m' [kobj kk] k).
    Proof.
      intros Ht E. unfold loop3. cbn [nth_error fn_body bs_key_set_2].
      eapply st_for; [eapply opt_some; runx|].
      eapply (loop_fun c rnd fuel calls (fun i m => mk_cst (kvars ck (num i)) m [kobj kk] k) _ _ _ _ 56 fuel 0 m); [exact E|lia| |intros x; eapply cond_ok; [pvx|falsex]].
      intros j x x' Hj M. unfold block_body in M. gob M. split; [eapply cond_ok; [pvx|truex]|]. pose proof (kk_byte _ _ E0) as Bv.
      assert (W8 : word_bytes c = 8%nat /\ v0 = native_bytes be 8 (u64 (v * 0x0101010101010101))).
      { unfold block_key_word, word_bytes in *. destruct Ht as [Ht|Ht]; rewrite Ht in E1 |- *; okj E1; (split; [reflexivity|]); change (8 / 8)%nat with 1%nat; cbn [repeat concat]; apply app_nil_r. }
      destruct W8 as (W8 & ->).
      unfold store_word in M. destruct (word_aligned c _) eqn:A; [|discriminate]. unfold word_aligned in A. apply N.eqb_eq in A.
      assert (R : run c calls (EAssign (EDeref (ECast (TPtr (TInt U64)) (EBin Add (EField (EDeref (EVar "key")) "block") (EVar "i")))) (EBin Mul (EIndex (EVar "kk") (EVar "i")) (EConst U64 0x101010101010101))) (mk_cst (kvars ck (num j)) x [kobj kk] k) (mk_cst (kvars ck (num j)) x' [kobj kk] k)).
      { eapply run_assign.
        - eapply pv_bin; [pvx|pvx|exact (mul64' v Bv)].
        - eapply pl_deref. eapply pv_cast; [pvx|reflexivity].
        - eapply asg_loc; [reflexivity|]. change (MiniC.conv U64 U64 ?x) with x. apply xstore_fi; [cbn [bytes_in MiniC.bytes_in]; rewrite W8 in A |- *; exact A|exact M]. }
      eexists. split; [blk ltac:(idtac; eapply seq_one; [eapply st_expr; exact R|reflexivity])|stepx].
    Qed.
    Lemma rep_store b a n : forall m i m', store_bytes m (a + N.of_nat (length b * i)) (concat (repeat b n)) = Ok m' -> for_ n i (fun j m => store_bytes m (a + N.of_nat (length b * j)) b) m = Ok m'.
    Proof.
      induction n as [|n IH]; intros m i m' E; cbn [repeat concat for_] in *; [exact E|]. rewrite store_bytes_app in E. gob E. rewrite E0. cbn [bind]. apply IH. rewrite <- E. f_equal. lia.
    Qed.
    Lemma div_words : word_bytes c = 16%nat \/ word_bytes c = 32%nat -> bin_op c S Div (VInt I32 (N.of_nat (word_bytes c))) (VInt I32 8) = Ok (VInt I32 (N.of_nat (word_bytes c / 8))).
    Proof. intros [->| ->]; reflexivity. Qed.
    Lemma ptr_u64 a ti x n : sval ti x = Z.of_nat n -> bin_op c S Add (VPtr (TInt U64) (Flat a)) (VInt ti x) = Ok (VPtr (TInt U64) (Flat (a + N.of_nat (8 * n)))).
    Proof. intros E. unfold bin_op. rewrite E, (move_flat c (TInt U64) _ _ (a + N.of_nat (8 * n))); [reflexivity|]. change (size_of c S 2 (TInt U64)) with 8. lia. Qed.
    Lemma mod_8 a n w : (w = 16%nat \/ w = 32%nat) -> a mod N.of_nat w = 0 -> (a + N.of_nat (8 * n)) mod 8 = 0.
    Proof.
      intros Hw A. replace (N.of_nat (8 * n)) with (N.of_nat n * 8) by lia. rewrite N.mod_add by discriminate. apply N.mod_divide in A; [|destruct Hw as [->| ->]; discriminate]. destruct A as (q & ->).
      destruct Hw as [->| ->]; [change (N.of_nat 16) with (2 * 8)|change (N.of_nat 32) with (4 * 8)]; rewrite N.mul_assoc; apply N.mod_mul; discriminate.
    Qed.
    Ltac ptrx ::= lazymatch goal with
      | |- bin_op _ _ Add (VPtr TWord (Flat _)) _ = _ => eapply ptr_flat; svn
      | |- bin_op _ _ Add (VPtr (TInt U64) (Flat _)) _ = _ => eapply ptr_u64; svn
      | |- bin_op _ _ Add (VPtr (TInt U8) (Obj _ _ 0)) _ = _ => eapply ptr_u8; svn end.
    Lemma loop3_3 m m' : (word_bytes c = 16%nat \/ word_bytes c = 32%nat) -> for_ 56 0 (block_body kk) m = Ok m' ->
      exec c T S rnd fuel calls (loop3 (bs_key_set_3 c)) (mk_cst (kvars ck i0) m [kobj kk] k) = Ok (None, mk_cst (kvars ck (num 56)) m' [kobj kk] k).
    Proof.
      intros Hw E. unfold loop3. cbn [nth_error fn_body bs_key_set_3].
      eapply st_for; [eapply opt_some; runx|].
      eapply (loop_fun c rnd fuel calls (fun i m => mk_cst (kvars ck (num i)) m [kobj kk] k) _ _ _ _ 56 fuel 0 m); [exact E|lia| |intros x; eapply cond_ok; [pvx|falsex]].
      intros j x x' Hj M. unfold block_body in M. gob M. split; [eapply cond_ok; [pvx|truex]|]. pose proof (kk_byte _ _ E0) as Bv.
      set (u := u64 (v * 0x0101010101010101)) in *.
      assert (W : v0 = concat (repeat (native_bytes be 8 u) (word_bytes c / 8))).
      { unfold block_key_word in E1. destruct (tgt c) eqn:Q; try (okj E1; reflexivity). unfold word_bytes in Hw. rewrite Q in Hw. destruct Hw; discriminate. }
      subst v0.
      unfold store_word in M. destruct (word_aligned c _) eqn:A; [|discriminate]. unfold word_aligned in A. apply N.eqb_eq in A.
      set (a := key + N.of_nat (j * word_bytes c)) in *.
      assert (L8 : length (native_bytes be 8 u) = 8%nat) by apply native_bytes_length.
      assert (M3 : for_ (word_bytes c / 8) 0 (fun j m => store_bytes m (a + N.of_nat (8 * j)) (native_bytes be 8 u)) x = Ok x').
      { pose proof (rep_store (native_bytes be 8 u) a (word_bytes c / 8) x 0 x') as Q. rewrite L8 in Q. apply Q. rewrite Nat.mul_0_r, N.add_0_r. exact M. }
      assert (Wd : (word_bytes c / 8 <= 4)%nat) by (destruct Hw as [->| ->]; cbn; lia).
      pose proof (div_words Hw) as Dv. set (n8 := (word_bytes c / 8)%nat) in *.
      match goal with |- exists s1, exec _ _ _ _ _ _ ?b ?s = _ /\ _ => assert (Bl : exec c T S rnd fuel calls b s = Ok (None, mk_cst (kvars ck (num j)) x' [kobj kk] k)) end; [|eexists; split; [exact Bl|stepx]].
      eapply xblock.
      {
      eapply seq_one; [eapply xst_init; [exact Logic.I|eapply pv_bin; [pvx|pvx|exact (mul64' v Bv)]|reflexivity]|]. fold u.
      eapply seq_one; [eapply xst_decl; exact Logic.I|].
      eapply seq_one; [|reflexivity].
      eapply st_for; [eapply opt_some; runx|].
      eapply (loop_fun c rnd fuel calls (fun i m => mk_cst (("j", BVal (TInt I32) (num i)) :: ("v", BVal (TInt U64) (Some (VInt U64 u))) :: kvars ck (num j)) m [kobj kk] k) _ _ _ _ n8 fuel 0 x); [exact M3|lia| |].
      2:{ intros y. eapply cond_ok; [eapply pv_bin; [pvx|eapply pv_bin; [pvx|pvx|exact Dv]|binop]|falsex]. }
      intros b y y' Hb M4. cbv beta in M4. split; [eapply cond_ok; [eapply pv_bin; [pvx|eapply pv_bin; [pvx|pvx|exact Dv]|binop]|truex]|].
      assert (R : run c calls (EAssign (EDeref (EBin Add (ECast (TPtr (TInt U64)) (EBin Add (EField (EDeref (EVar "key")) "block") (EVar "i"))) (EVar "j"))) (EVar "v"))
         (mk_cst (("j", BVal (TInt I32) (num b)) :: ("v", BVal (TInt U64) (Some (VInt U64 u))) :: kvars ck (num j)) y [kobj kk] k) (mk_cst (("j", BVal (TInt I32) (num b)) :: ("v", BVal (TInt U64) (Some (VInt U64 u))) :: kvars ck (num j)) y' [kobj kk] k)).
      { eapply run_assign; [pvx| |].
        - eapply pl_deref. eapply pv_bin; [eapply pv_cast; [pvx|reflexivity]|pvx|ptrx].
        - eapply asg_loc; [reflexivity|]. change (MiniC.conv U64 U64 u) with u. apply xstore_fi; [eapply mod_8; [exact Hw|exact A]|exact M4]. }
      eexists. split; [blk ltac:(idtac; eapply seq_one; [eapply st_expr; exact R|reflexivity])|stepx].
      }
      { cbn [length Nat.sub skipn]; reflexivity. }
      { fobj. }
    Qed.
  End Block.
  (** ** The whole function *)
  Definition kj0 : list N := any_ints rnd U8 0 56.
  Lemma kj0_ok : length kj0 = 56%nat /\ Forall is_byte kj0.
  Proof.
    unfold kj0, any_ints. split; [rewrite map_length, seq_length; reflexivity|]. apply Forall_forall. intros x H. apply in_map_iff in H as (j & <- & _). apply N.mod_lt. discriminate.
  Qed.
  Lemma body_ok m ck m1 ml kk m' : dvbcsa_load_le64 be m cw = Ok ck -> bytes_mem m -> bytes_mem m1 ->
    for_ 64 0 (fun i m => store_word c m (key + N.of_nat ((56 + i) * word_bytes c)) (if N.testbit ck (N.lxor (N.of_nat i) 4) then BS_VAL c 1 255 else BS_VAL c 1 0)) m = Ok m1 ->
    dvbcsa_key_schedule_block be (lent kj0 m1) (cw + 56) 0 = Ok ml -> load_bytes ml 0 56 = Ok kk -> Forall is_byte kk ->
    for_ 56 0 (block_body kk) (fun a => ml (a + 56)) = Ok m' ->
    src_bs_key_set c rnd fuel m cw key = Ok m'.
  Proof.
    intros E1 B B1 E2 E3 E4 Fk E5. pose proof (SourceRun.load64_bound _ _ _ _ B E1) as Bk. destruct kj0_ok as (L0 & F0).
    assert (K : call_fun c T S rnd fuel calls (bs_key_set c) [cw_ptr cw; bs_key_ptr key] (mk_cst [] m [] 0) = Ok (None, mk_cst [] m' [] 1)); [|unfold src_bs_key_set; rewrite K; reflexivity].
    assert (N0 : new_object c S rnd (TArr (TInt U8) 56) 0 = Some (kobj kj0, 1%nat)) by reflexivity.
    assert (C1 : forall g k, calls "dvbcsa_load_le64" [cw_ptr cw] (mk_cst g m [kobj kj0] k) = Ok (Some (VInt U64 ck), mk_cst g m [kobj kj0] k)) by (intros; apply load_call; assumption).
    assert (C2 : forall g k, calls "dvbcsa_key_schedule_block" [cw_ptr cw; VPtr (TInt U8) (Obj 0 "" 0)] (mk_cst g m1 [kobj kj0] k) = Ok (None, mk_cst g (fun a => ml (a + 56)) [kobj kk] k)).
    { intros g k. rewrite (sched_call g m1 [kobj kj0] k 0 "" kj0 ml kk); [|reflexivity|exact F0|exact B1|rewrite L0; exact E3|rewrite L0; exact E4]. rewrite L0. reflexivity. }
    pose proof (fun i k => loop1_ok ck i m m1 [kobj kj0] k Bk E2) as S1.
    assert (S3 : forall k, exec c T S rnd fuel calls (loop3 (bs_key_set c)) (mk_cst (kvars ck (num 64)) (fun a => ml (a + 56)) [kobj kk] k) = Ok (None, mk_cst (kvars ck (num 56)) m' [kobj kk] k)).
    { intros k. unfold bs_key_set. destruct (tgt c) eqn:Q; [apply loop3_1; auto|apply loop3_2; auto|apply loop3_2; auto|..]; (apply loop3_3; [exact Fk| |exact E5]; unfold word_bytes; rewrite Q; auto). }
    unfold loop1, loop3 in *. cbn [nth_error fn_body bs_key_set_1] in S1.
    unfold bs_key_set in *.
    destruct (tgt c) eqn:Q; (eapply xcall_void; [reflexivity|params|the_body; cbn [nth_error fn_body bs_key_set_1 bs_key_set_2 bs_key_set_3] in S3|reflexivity];
      (eapply seq_one; [eapply xst_declobj; [exact Logic.I|exact N0|reflexivity]|]);
      (eapply seq_one; [eapply xst_decl; exact Logic.I|]);
      (eapply seq_one; [eapply xst_init; [exact Logic.I|eapply pv_call; [reflexivity|reflexivity|pvsx|apply C1]|reflexivity]|]);
      (eapply seq_one; [apply S1|]);
      (eapply seq_one; [eapply st_expr; eapply run_call; [reflexivity|reflexivity|pvsx|apply C2]|]);
      (eapply seq_one; [apply S3|]); reflexivity).
  Qed.
  (* and where the multiplication overflows *)
  Lemma body_ub m ck m1 ml kk : tgt c = UINT32 -> dvbcsa_load_le64 be m cw = Ok ck -> bytes_mem m -> bytes_mem m1 ->
    for_ 64 0 (fun i m => store_word c m (key + N.of_nat ((56 + i) * word_bytes c)) (if N.testbit ck (N.lxor (N.of_nat i) 4) then BS_VAL c 1 255 else BS_VAL c 1 0)) m = Ok m1 ->
    dvbcsa_key_schedule_block be (lent kj0 m1) (cw + 56) 0 = Ok ml -> load_bytes ml 0 56 = Ok kk -> Forall is_byte kk ->
    for_ 56 0 (block_body kk) (fun a => ml (a + 56)) = UB SignedOverflow ->
    src_bs_key_set c rnd fuel m cw key = UB SignedOverflow.
  Proof.
    intros Ht E1 B B1 E2 E3 E4 Fk E5. pose proof (SourceRun.load64_bound _ _ _ _ B E1) as Bk. destruct kj0_ok as (L0 & F0).
    assert (K : call_fun c T S rnd fuel calls (bs_key_set c) [cw_ptr cw; bs_key_ptr key] (mk_cst [] m [] 0) = UB SignedOverflow); [|unfold src_bs_key_set; rewrite K; reflexivity].
    assert (N0 : new_object c S rnd (TArr (TInt U8) 56) 0 = Some (kobj kj0, 1%nat)) by reflexivity.
    assert (C1 : forall g k, calls "dvbcsa_load_le64" [cw_ptr cw] (mk_cst g m [kobj kj0] k) = Ok (Some (VInt U64 ck), mk_cst g m [kobj kj0] k)) by (intros; apply load_call; assumption).
    assert (C2 : forall g k, calls "dvbcsa_key_schedule_block" [cw_ptr cw; VPtr (TInt U8) (Obj 0 "" 0)] (mk_cst g m1 [kobj kj0] k) = Ok (None, mk_cst g (fun a => ml (a + 56)) [kobj kk] k)).
    { intros g k. rewrite (sched_call g m1 [kobj kj0] k 0 "" kj0 ml kk); [|reflexivity|exact F0|exact B1|rewrite L0; exact E3|rewrite L0; exact E4]. rewrite L0. reflexivity. }
    pose proof (fun i k => loop1_ok ck i m m1 [kobj kj0] k Bk E2) as S1.
    pose proof (fun k => loop3_ub ck kk k (num 64) Fk (fun a => ml (a + 56)) Ht E5) as S3.
    unfold loop1, loop3 in *. cbn [nth_error fn_body bs_key_set_1] in S1, S3.
    assert (X : exists g0, bind_params (fn_params (bs_key_set_1 c)) [cw_ptr cw; bs_key_ptr key] = Ok g0 /\ exec_seq c rnd fuel calls (fn_body (bs_key_set_1 c)) (mk_cst g0 m [] 0) = UB SignedOverflow).
    { eexists. split; [params|]. the_body.
      (eapply seq_one; [eapply xst_declobj; [exact Logic.I|exact N0|reflexivity]|]).
      (eapply seq_one; [eapply xst_decl; exact Logic.I|]).
      (eapply seq_one; [eapply xst_init; [exact Logic.I|eapply pv_call; [reflexivity|reflexivity|pvsx|apply C1]|reflexivity]|]).
      (eapply seq_one; [apply S1|]).
      (eapply seq_one; [eapply st_expr; eapply run_call; [reflexivity|reflexivity|pvsx|apply C2]|]).
      cbn [exec_seq]. match goal with |- bind ?t _ = _ => assert (Y : t = UB SignedOverflow) by apply S3; rewrite Y end. reflexivity. }
    destruct X as (g0 & X1 & X2). unfold bs_key_set. rewrite Ht. unfold call_fun. rewrite X1. cbn [bind].
    assert (Y : exec c T S rnd fuel calls (SBlock (fn_body (bs_key_set_1 c))) (set_vars (mk_cst [] m [] 0) g0) = UB SignedOverflow).
    { cbn [BsC.exec]. unfold exec_seq in X2. change (set_vars (mk_cst [] m [] 0) g0) with (mk_cst g0 m [] 0%nat). rewrite X2. reflexivity. }
    rewrite Y. reflexivity.
  Qed.
End KeySet.

Lemma loads_holds m n : bytes_mem m -> forall a l, load_bytes m a n = Ok l -> holds m a l /\ length l = n.
Proof.
  intros B. induction n as [|n IH]; intros a l E; cbn [load_bytes] in E; [injection E as <-; split; [split; [constructor|cbn; lia]|reflexivity]|].
  gob E. okj E. destruct (IH _ _ E1) as ((F & H) & L). unfold load in E0. destruct (m a) as [b|] eqn:Q; [|discriminate]. okj E0.
  split; [|cbn; lia]. split; [constructor; [exact (B _ _ Q)|exact F]|]. intros i Hi. destruct i as [|i]; cbn [length nth] in *; [rewrite N.add_0_r; exact Q|].
  rewrite <- H by lia. f_equal. lia.
Qed.
Lemma load64_holds be m p x : dvbcsa_load_le64 be m p = Ok x -> bytes_mem m -> exists l, length l = 8%nat /\ holds m p l.
Proof.
  intros E B. unfold dvbcsa_load_le64 in E. destruct be.
  - gob E. assert (L : load_bytes m p 8 = Ok [v6; v5; v4; v3; v2; v1; v0; v]).
    { cbn [load_bytes]. rewrite <- !N.add_assoc. cbn [N.add Pos.add Pos.succ]. rewrite E0, E1, E2, E3, E4, E5, E6, E7. reflexivity. }
    destruct (loads_holds _ _ B _ _ L) as (H & L8). eexists. split; [exact L8|exact H].
  - gob E. destruct (loads_holds _ _ B _ _ E0) as (H & L8). exists v. split; [exact L8|exact H].
Qed.
Lemma words_keep c (f : nat -> word) (g : nat -> N) n : (forall i, Forall is_byte (f i)) -> forall i m m', for_ n i (fun j m => store_word c m (g j) (f j)) m = Ok m' -> bytes_mem m -> bytes_mem m'.
Proof.
  intros F. induction n as [|n IH]; intros i m m' E B; cbn [for_] in E; [okj E; exact B|]. gob E. eapply IH; [exact E|].
  unfold store_word in E0. destruct (word_aligned c (g i)); [|discriminate]. eapply SourceRun.store_bytes_keeps; [exact B|apply F|exact E0].
Qed.
Lemma block_loop c key l n : forall i mm, for_ n i (block_body c key l) mm = for_ n i (fun j m => w <- (k <- aget l j ;; block_key_word c k) ;; store_word c m (key + N.of_nat (j * word_bytes c)) w) mm.
Proof. induction n as [|n IH]; intros i mm; cbn [for_]; [reflexivity|]. unfold block_body at 1. destruct (aget l i); cbn [bind]; try reflexivity. destruct (block_key_word c a); cbn [bind]; try reflexivity. destruct (store_word c mm _ a0); cbn [bind]; try reflexivity. apply IH. Qed.
(* what the model computes, for whatever content of its local array, is what the source computes *)
Theorem key_set_source c rnd fuel kj m cw key m' : (256 < fuel)%nat -> (forall a, a < 56 -> kj a < 256) -> bytes_mem m -> dvbcsa_bs_key_set c kj m cw key = Ok m' ->
  exists m1, src_bs_key_set c rnd fuel m cw key = Ok m1 /\ same_mem m1 m'.
Proof.
  intros Hf Hj B E. unfold dvbcsa_bs_key_set in E. gob E. rename v into ck, v0 into m1, v1 into ml, v2 into kk.
  assert (B1 : bytes_mem m1).
  { eapply (words_keep c (fun i => if N.testbit ck (N.lxor (N.of_nat i) 4) then BS_VAL c 1 255 else BS_VAL c 1 0)); [|exact E1|exact B].
    intros i. destruct (N.testbit ck (N.lxor (N.of_nat i) 4)); apply (wf_val c 1); auto. }
  assert (Bl : forall j, (forall a, a < 56 -> j a < 256) -> bytes_mem (with_local 56 j m1)).
  { intros j H a b. unfold with_local. destruct (a <? 56) eqn:Q; [|apply B1]. apply N.ltb_lt in Q. intros X. injection X as <-. apply H, Q. }
  assert (X : exists l, length l = 8%nat /\ holds (with_local 56 kj m1) (cw + 56) l).
  { unfold dvbcsa_key_schedule_block in E2. apply bind_ok in E2 as (x & E2 & _). exact (load64_holds _ _ _ _ E2 (Bl _ Hj)). }
  destruct X as (l & L & Hl).
  assert (Hl' : forall j, holds (with_local 56 j m1) (cw + 56) l).
  { intros j. destruct Hl as (F & H). split; [exact F|]. intros i Hi. rewrite <- H by exact Hi. unfold with_local. destruct (N.ltb_spec (cw + 56 + N.of_nat i) 56); [lia|reflexivity]. }
  assert (Sc : forall j, exists ml, dvbcsa_key_schedule_block (big_endian c) (with_local 56 j m1) (cw + 56) 0 = Ok ml /\ load_bytes ml 0 56 = Ok (key_schedule l) /\ forall a, ml (a + 56) = m1 a).
  { intros j. destruct (wp_get _ _ (ClassicalKey.key_schedule_block_ok (big_endian c) _ _ 0 l (Hl' j) L (BsKey.with_local_mapped 56 j m1))) as (mx & Ex & Mx).
    exists mx. split; [exact Ex|]. pose proof (ClassicalKey.key_schedule_length l L) as Lk. split.
    - apply load_bytes_ok'; [|exact Lk]. assert (H : holds (put (with_local 56 j m1) 0 (key_schedule l)) 0 (key_schedule l)) by (apply holds_put, ClassicalKey.key_schedule_bytes; [exact L|apply Hl]).
      eapply holds_ext; [exact H|]. intros x _. apply Mx.
    - intros a. rewrite Mx. unfold put. rewrite Lk. change (0 + N.of_nat 56) with 56. rewrite (proj2 (N.ltb_ge (a + 56) 56)) by lia. rewrite Bool.andb_false_r. unfold with_local. destruct (N.ltb_spec (a + 56) 56); [lia|]. f_equal. lia. }
  destruct (Sc kj) as (mk & Ek & Lk & Mk). assert (mk = ml) by congruence. subst mk. assert (kk = key_schedule l) by congruence. subst kk.
  destruct (Sc (fun a => nth (N.to_nat a) (kj0 rnd) 0)) as (ms & Es & Ls & Ms).
  assert (Q : forall m, for_ 56 0 (block_body c key (key_schedule l)) m = for_ 56 0 (fun j m => w <- (k <- aget (key_schedule l) j ;; block_key_word c k) ;; store_word c m (key + N.of_nat (j * word_bytes c)) w) m).
  { intros mm. apply block_loop. }
  assert (Em : for_ 56 0 (block_body c key (key_schedule l)) m1 = Ok m') by exact E.
  rewrite Q in Em. destruct (words_meq _ _ _ _ _ _ (fun a => ms (a + 56)) _ Em ltac:(intros x; symmetry; apply Ms)) as (m2 & E5 & M5). rewrite <- Q in E5.
  exists m2. split; [|intros x; symmetry; apply M5].
  eapply body_ok; [exact Hf|exact E0|exact B|exact B1|exact E1| |exact Ls| |exact E5].
  - unfold lent. destruct (kj0_ok rnd) as (L0 & _). rewrite L0. exact Es.
  - apply ClassicalKey.key_schedule_bytes; [exact L|apply Hl].
Qed.
