(** BsCStream.v -- the stream cipher of a batch (dvbcsa_bs_stream.c): the source computes what the model computes. *)
From Coq Require Import String.
From Verif Require Import Base Mem Tables Spec ModelBsWord ModelBsTranspose ModelBsStream ModelBsBlock ModelBsAlgo BsApiSpec BsWordFacts BsView BsTransposeFacts BsRel BsKernel BsKernelRun BsStream BsAnyKey BsC SourceBitslice BsCRun BsCKernel BsCTranspose BsCPack BsCRegister BsCBlock.
From Verif Require MiniC MiniCRun.
Local Open Scope string_scope. Local Open Scope list_scope. Local Open Scope N_scope.
#[local] Opaque BS_AND BS_OR BS_XOR BS_NOT BS_SHL BS_SHR BS_VAL key_stream_word.

(** ** Lengths and well-formedness of the registers, by parametricity *)
Definition unit_ops : bsops unit := mk_ops unit (fun _ _ => tt) (fun _ _ => tt) (fun _ _ => tt) (fun _ => tt) tt tt.
Definition ushape : regs unit :=
  mk_regs (repeat tt 168) (repeat tt 168) (repeat tt 4) (repeat tt 4) (repeat tt 4) (repeat tt 4) (repeat tt 4) (repeat tt 4) (repeat tt 64) tt tt tt.
Definition Rwf (c : build) (w : word) (u : unit) : Prop := wf c w.
Definition shape (c : build) (s : regs word) : Prop := regs_rel (Rwf c) s ushape.
Lemma unit_rel c : ops_rel (Rwf c) (word_ops c) unit_ops.
Proof.
  constructor; unfold Rwf; cbn [word_ops unit_ops op_and op_or op_xor op_not op_00 op_ff]; intros; first [apply wf_and; assumption | apply wf_or; assumption | apply wf_xor; assumption | apply wf_not; assumption | apply wf_val; auto].
Qed.
Lemma Forall2_len {A B} (R : A -> B -> Prop) l l' : Forall2 R l l' -> length l = length l'. Proof. induction 1; cbn; congruence. Qed.
Lemma shape_list c l n : Forall (wf c) l -> length l = n -> Forall2 (Rwf c) l (repeat tt n).
Proof. intros F <-. induction F; cbn; constructor; assumption. Qed.
Lemma shape_wf c l n : Forall2 (Rwf c) l (repeat tt n) -> wrows c n l.
Proof.
  intros F. split; [rewrite (Forall2_len _ _ _ F), repeat_length; reflexivity|].
  revert n F. induction l as [|w l IH]; intros [|n] F; inversion F; subst; constructor; [assumption|eapply IH; eassumption].
Qed.
Lemma shape_sb c s : shape c s -> wrows c 64 (rgsb s). Proof. intros H. apply shape_wf, (rr_sb _ _ _ H). Qed.
Lemma shape_set_sb c s sb : shape c s -> wrows c 64 sb -> shape c (set_sb s sb).
Proof. intros [] [L W]. constructor; cbn; try assumption. apply (shape_list c sb 64); assumption. Qed.
Lemma junk_shape c s : junk_regs c s -> shape c s.
Proof. intros [[] ? ? ? ? ? ? ? ? ?]. constructor; cbn [ushape rgA rgB rgX rgY rgZ rgD rgE rgF rgsb rgp rgq rgr]; first [apply shape_list; assumption | assumption]. Qed.
Lemma kernel_shape c init s : shape c s -> exists s', stream_cipher_kernel (word_ops c) init s = Ok s' /\ shape c s'.
Proof.
  intros H. pose proof (kernel_rel _ _ _ (unit_rel c) init s ushape H) as K.
  replace (stream_cipher_kernel unit_ops init ushape) with (Ok ushape) in K by (destruct init; vm_compute; reflexivity).
  destruct (stream_cipher_kernel (word_ops c) init s); cbn in K; try contradiction. eexists. split; [reflexivity|exact K].
Qed.
Lemma load_shape c k s : (forall i, (i < 64)%nat -> exists w, k i = Ok w /\ wf c w) -> shape c s -> exists s', stream_load_regs (word_ops c) k s = Ok s' /\ shape c s'.
Proof.
  intros Hk H. rewrite load_key64.
  pose proof (load_regs_rel _ _ _ (unit_rel c) (fun i => if (i <? 64)%nat then k i else UB OutOfBounds) (fun i => if (i <? 64)%nat then Ok tt else UB OutOfBounds) s ushape) as K.
  replace (stream_load_regs unit_ops (fun i => if (i <? 64)%nat then Ok tt else UB OutOfBounds) ushape) with (Ok ushape) in K by (vm_compute; reflexivity).
  specialize (K ltac:(intros i; destruct (Nat.ltb_spec i 64) as [Hi|Hi]; [destruct (Hk i Hi) as (w & -> & W); exact W|reflexivity]) H).
  destruct (stream_load_regs (word_ops c) _ s); cbn in K; try contradiction. eexists. split; [reflexivity|exact K].
Qed.
(* the bytes of a column *)
Definition col_bytes (l : list bool) : list N := map (fun k => byte_of_bits (fun b => nth (8 * k + b) l false)) (seq 0 8).
Lemma col_bytes_ok l : length l = 64%nat -> sb_of l (col_bytes l).
Proof.
  intros L. split; [exact L|]. split; [reflexivity|]. split.
  - apply Forall_forall. intros x H. apply in_map_iff in H as (k & <- & _). apply byte_of_bits_byte.
  - intros i k Hi Hk. unfold col_bytes. assert (Q : nth i (map (fun k => byte_of_bits (fun b => nth (8 * k + b) l false)) (seq 0 8)) 0 = byte_of_bits (fun b => nth (8 * i + b) l false)) by (do 8 (destruct i as [|i]; [reflexivity|]); lia).
    rewrite Q, byte_of_bits_ok by exact Hk. reflexivity.
Qed.
Lemma out_shape c n l8 d row b : sane c -> wrows c 64 row -> (n <= batch_size c)%nat -> pbuf (batch_size c) d -> (b < 23)%nat ->
  exists d' row', dvbcsa_bs_stream_transpose_out c (mk_pb n l8 d) (N.of_nat (8 * b)) row = Ok (mk_pb n l8 d', row') /\ wrows c 64 row' /\ pbuf (batch_size c) d'.
Proof.
  intros Hs W Hn Pd Hb.
  destruct (wp_get _ _ (stream_out_ok c (mk_pb n l8 d) row (fun i => col_bytes (col (spos c i) row)) b Hs W Hn Pd Hb ltac:(intros i Hi; apply col_bytes_ok; unfold col; rewrite map_length; apply W))) as ([pb' row'] & E & W' & d' & Ep & X).
  cbn [fst snd] in *. subst pb'. exists d', row'. split; [exact E|]. split; [exact W'|]. destruct Pd as [Ld _]. destruct X as (L & F & _). cbn [pdata n_packets] in *. split; [congruence|exact F].
Qed.

Section Stream.
  Context (c : build) (rnd : nat -> nat -> N) (fuel : nat) (m : mem) (key : N) (O : list object) (ip n : nat) (l8 d00 : list N).
  Context (Hf : (256 < fuel)%nat) (Sa : sane c) (HK : forall i, (i < 64)%nat -> exists w, key_stream_word c m key i = Ok w /\ wf c w) (Hn : (n <= batch_size c)%nat).
  Context (GD : getc O ip "data" = Ok (CBytes d00)) (GN : getc O ip "n_packets" = Ok (CInts I32 [N.of_nat n])) (GL : getc O ip "len8" = Ok (CInts U32 l8)).
  Notation T := src_bs_tables. Notation S := (src_bs_structs c).
  Notation PB := (TStruct "dvbcsa_bs_pkt_buf"). Notation KEY := (TStruct "dvbcsa_bs_key_s"). Notation REGS := (TStruct "dvbcsa_bs_stream_regs_s").
  Notation od d := (BsCBlock.od O ip d).
  Notation num n := (Some (VInt I32 (N.of_nat n))).
  Notation svars h b i ml :=
    [("h", BVal (TInt U32) h); ("b", BVal (TInt I32) b); ("i", BVal (TInt I32) i); ("regs", BObj REGS (length O)); ("key", BVal (TPtr KEY) (Some (VPtr KEY (Flat key))));
     ("pkt_buf", BVal (TPtr PB) (Some (VPtr PB (Obj ip "" 0)))); ("maxlen", BVal (TInt U32) (Some (VInt U32 ml)))].
  Definition os (d : list N) (s : regs word) : list object := od d ++ [robj s].
  Lemma key_stream_off a : a + field_offset c S [("block", TArr TWord 56); ("stream", TArr TWord 64)] 0 "stream" = a + N.of_nat (56 * word_bytes c).
  Proof. f_equal. cbn [field_offset String.eqb Ascii.eqb Bool.eqb]; unfold up_to, align_of, size_of, word_bytes; destruct (tgt c); vm_compute; reflexivity. Qed.
  Lemma load_ks i w s : flat s = m -> key_stream_word c m key i = Ok w -> load_at c T TWord (Flat (key + N.of_nat (56 * word_bytes c) + N.of_nat (i * word_bytes c))) s = Ok (VWord w).
  Proof. Transparent key_stream_word. intros <- E. unfold key_stream_word in E. unfold load_at. replace (key + _ + _) with (key + N.of_nat ((56 + i) * word_bytes c)) by nia. rewrite E. reflexivity. Opaque key_stream_word. Qed.
  Lemma od_len' d : length (od d) = length O. Proof. apply setc_length. Qed.
  Ltac lens ::= unfold os; repeat (rewrite od_len' || rewrite upd_length || rewrite setc_length || rewrite app_length); cbn [length]; first [reflexivity | lia].
  Definition load_for : stmt := match nth_error (fn_body (bs_stream_cipher_batch c)) 5 with Some st => st | None => SReturn None end.
  Ltac ptrx ::= lazymatch goal with |- bin_op _ _ Add (VPtr TWord (Flat _)) _ = _ => eapply ptr_flat; svn end.
  Ltac loadx ::= lazymatch goal with |- load_at _ _ TWord (Flat _) _ = _ => eapply load_ks; [reflexivity|eassumption] end.
  Ltac plx ::=
    lazymatch goal with
    | |- pl _ _ (EVar _) _ _ => first [eapply pl_var; reflexivity | eapply pl_obj; reflexivity | eapply pl_tab; reflexivity]
    | |- pl _ _ (EIndex _ _) _ _ => eapply pl_index; [pvx|pvx|binop]
    | |- pl _ _ (EDeref _) _ _ => eapply pl_deref; pvx
    | |- pl _ _ (EField (EDeref (EVar "key")) _) _ _ => eapply pl_field_flat; [plx|reflexivity|reflexivity|apply key_stream_off]
    | |- pl _ _ (EField _ _) _ _ => eapply pl_field_obj; [plx|reflexivity|reflexivity]
    end.
  Ltac inner M1 := eapply seq_one; [eapply st_for; [eapply opt_some; runx|
        match goal with |- loop _ _ _ _ (mk_cst (?e1 :: ?e2 :: _ :: ?e) ?m (?o ++ [(_, CWords ?A) :: (_, CWords ?B) :: ?l]) ?k) = _ =>
        eapply (loop_fun c rnd fuel _ (fun i (x : list word * list word) => mk_cst (e1 :: e2 :: ("i", BVal (TInt I32) (num i)) :: e) m (o ++ [("A", CWords (fst x)) :: ("B", CWords (snd x)) :: l]) k) _ _ _ _ 8 fuel 0 (A, B)); [exact M1|lia| |intros [? ?]; eapply cond_ok; [pvx|falsex]] end;
        let b := fresh "b" in let x := fresh "x" in let x' := fresh "x'" in let M2 := fresh "M" in intros b x x' ? M2; destruct x, x'; cbv beta in M2; cbn [fst snd]; gob M2; try okj M2; (split; [eapply cond_ok; [pvx|truex]|
        eexists; split; [blk ltac:(idtac; stxs)|stepx]])]|cbv beta; cbn [fst snd]].
  Definition load_body : stmt := match load_for with SFor _ _ _ b => b | x => x end.
  Lemma load_loop calls s s' d k ml h b0 i0 : stream_load_regs (word_ops c) (key_stream_word c m key) s = Ok s' ->
    exists i', exec c T S rnd fuel calls load_for (mk_cst (svars h b0 i0 ml) m (os d s) k) =
      Ok (None, mk_cst (svars h (num 4%nat) i' ml) m (os d (mk_regs (rgA s') (rgB s') (rgX s') (rgY s') (rgZ s') (rgD s') (rgE s') (rgF s') (rgsb s') (rgp s) (rgq s) (rgr s))) k).
  Proof.
    intros M. change (op_00 (word_ops c)) with (BS_VAL c 1 0) in M. destruct s as [A B X Y Z D E F sb p q r]. unfold stream_load_regs in M. gob M. repeat match goal with p : _ * _ |- _ => destruct p end. injection M as <-.
    cbn [rgA rgB rgX rgY rgZ rgD rgE rgF rgsb rgp rgq rgr] in *.
    match goal with H : for_ 4 0 _ _ = Ok _ |- _ => rename H into M end.
    destruct (for_ex c rnd fuel calls (fun j (x : list word * list word * (list word * list word * list word) * (list word * list word * list word)) (z : option value) =>
       let '(A, B, (X, Y, Z), (D, E, F)) := x in mk_cst (svars h (num j) z ml) m (os d (mk_regs A B X Y Z D E F sb p q r)) k) (Some (EAssign (EVar "b") (EConst I32 0))) (EBin Lt (EVar "b") (EConst I32 4)) (Some (EPost Add (EVar "b")))
       load_body _ 4 0 _ _ i0 (mk_cst (svars h b0 i0 ml) m (os d (mk_regs A B X Y Z D E F sb p q r)) k) M) as (z & El).
    - lia.
    - eapply opt_some; runx.
    - intros j x x' z Hj M1. destruct x as [[[A1 B1] [[X1 Y1] Z1]] [[D1 E1] F1]]. destruct x' as [[[A2 B2] [[X2 Y2] Z2]] [[D2 E2] F2]].
      split; [eapply cond_ok; [pvx|truex]|]. gob M1. 
      let q := eval hnf in load_body in change load_body with q.
      unfold os, robj. cbn [rgA rgB rgX rgY rgZ rgD rgE rgF rgsb rgp rgq rgr].
      match goal with H : for_ 8 0 _ _ = Ok _ |- _ => rename H into M2 end. okj M1. change (op_00 (word_ops c)) with (BS_VAL c 1 0) in *.
      eexists. eexists. split.
      + blk ltac:(idtac; inner M2; stxs). 
      + stepx.
    - intros [[[A1 B1] [[X1 Y1] Z1]] [[D1 E1] F1]] z. eapply cond_ok; [pvx|falsex].
    - exists z. exact El.
  Qed.
  Lemma ip_lt' : (ip < length O)%nat. Proof. exact (getc_lt _ _ _ _ GD). Qed.
  Lemma od_D' d : getc (od d) ip "data" = Ok (CBytes d). Proof. unfold BsCBlock.od. rewrite (getc_setc _ _ _ _ _ _ _ GD), Nat.eqb_refl. reflexivity. Qed.
  Lemma od_N' d : getc (od d) ip "n_packets" = Ok (CInts I32 [N.of_nat n]). Proof. unfold BsCBlock.od. rewrite (getc_setc _ _ _ _ _ _ _ GD), Nat.eqb_refl. exact GN. Qed.
  Lemma os_D d s : getc (os d s) ip "data" = Ok (CBytes d). Proof. apply getc_app, od_D'. Qed.
  Lemma os_N d s : getc (os d s) ip "n_packets" = Ok (CInts I32 [N.of_nat n]). Proof. apply getc_app, od_N'. Qed.
  Lemma os_sb d s : getc (os d s) (length O) "sb" = Ok (CWords (rgsb s)). Proof. unfold os. apply getc_end; [symmetry; apply od_len'|reflexivity]. Qed.
  Lemma os_set_sb d s sb : setc (os d s) (length O) "sb" (CWords sb) = os d (set_sb s sb).
  Proof. unfold os. rewrite (setc_end _ _ _ _ _ (robj (set_sb s sb))); [reflexivity|symmetry; apply od_len'|reflexivity]. Qed.
  Lemma os_set_D d s d' : setc (os d s) ip "data" (CBytes d') = os d' s.
  Proof. pose proof ip_lt'. unfold os. rewrite setc_app by (rewrite od_len'; assumption). unfold BsCBlock.od. rewrite setc_same. reflexivity. Qed.
  Lemma upd_end' {A} (l : list A) x y : upd (l ++ [x]) (length l) y = l ++ [y]. Proof. induction l as [|a l IH]; cbn; [reflexivity|rewrite IH; reflexivity]. Qed.
  Lemma os_upd d s s' : upd (os d s) (length O) (robj s') = os d s'. Proof. unfold os. rewrite <- (od_len' d). apply upd_end'. Qed.
  Lemma kernel_call q init d s s' g k : (q <= 6)%nat -> stream_cipher_kernel (word_ops c) init s = Ok s' ->
    prog_from c rnd fuel q (if init then "dvbcsa_bs_stream_cipher_kernel_init" else "dvbcsa_bs_stream_cipher_kernel") [VPtr REGS (Obj (length O) "" 0)] (mk_cst g m (os d s) k) = Ok (None, mk_cst g m (os d s') (Datatypes.S k)).
  Proof.
    intros Hq M. assert (L : (length O < length (os d s))%nat) by lens. destruct init.
    - rewrite (call_at c rnd fuel q (7 - q) _ (bs_stream_cipher_kernel_init c)); [|discriminate|do 7 (destruct q as [|q]; [reflexivity|]); lia|replace (q + (7 - q))%nat with 7%nat by lia; reflexivity|reflexivity].
      replace (Datatypes.S (q + (7 - q))) with 8%nat by lia. rewrite <- (os_upd d s s) at 1. rewrite <- (os_upd d s s'). apply (kernel_init_source c rnd fuel m k (os d s) (length O) L ltac:(lia) g s s' M).
    - rewrite (call_at c rnd fuel q (6 - q) _ (bs_stream_cipher_kernel c)); [|discriminate|do 7 (destruct q as [|q]; [reflexivity|]); lia|replace (q + (6 - q))%nat with 6%nat by lia; reflexivity|reflexivity].
      replace (Datatypes.S (q + (6 - q))) with 7%nat by lia. rewrite <- (os_upd d s s) at 1. rewrite <- (os_upd d s s'). apply (kernel_source c rnd fuel m k (os d s) (length O) L ltac:(lia) g s s' M).
  Qed.
  Lemma m64 q : (q <= 24)%nat -> tgt c <> UINT32 -> matrix_call c (prog_from c rnd fuel q) "dvbcsa_bs_matrix_transpose_64x" (matrix_transpose_stream c).
  Proof.
    intros Hq Ht g m1 O1 k i f pre post row row' G M. rewrite (call_at c rnd fuel q (24 - q) _ (bs_matrix_transpose_64x c)).
    - apply (x64_source c rnd fuel _ m1 k O1 i f pre post row ltac:(lia) G Ht g row' M).
    - discriminate.
    - do 25 (destruct q as [|q]; [reflexivity|]); lia.
    - replace (q + (24 - q))%nat with 24%nat by lia; reflexivity.
    - destruct c as [t e al i0 p ha w pt]; destruct t, e, i0; first [contradiction Ht; reflexivity | reflexivity].
  Qed.
  Lemma m32 q : (q <= 23)%nat -> tgt c = UINT32 -> matrix_call c (prog_from c rnd fuel q) "dvbcsa_bs_matrix_transpose_64x32" (matrix_transpose_stream c).
  Proof.
    intros Hq Ht g m1 O1 k i f pre post row row' G M. rewrite (call_at c rnd fuel q (23 - q) _ (bs_matrix_transpose_64x32 c)).
    - apply (x32_source c rnd fuel _ m1 k O1 i f pre post row ltac:(lia) G Ht g row' M).
    - discriminate.
    - do 24 (destruct q as [|q]; [reflexivity|]); lia.
    - replace (q + (23 - q))%nat with 23%nat by lia; reflexivity.
    - destruct c as [t e al i0 p ha w pt]; destruct t, e; first [discriminate Ht | reflexivity].
  Qed.
  Lemma is32 : tgt c = UINT32 \/ tgt c <> UINT32. Proof. destruct (tgt c); first [left; reflexivity | right; discriminate]. Qed.
  Lemma sin_call q d s sb g k : (q <= 22)%nat -> wrows c 64 (rgsb s) -> Forall is_byte d -> dvbcsa_bs_stream_transpose_in c (mk_pb n l8 d) (rgsb s) = Ok sb ->
    prog_from c rnd fuel q "dvbcsa_bs_stream_transpose_in" [VPtr PB (Obj ip "" 0); VPtr TWord (Obj (length O) "sb" 0)] (mk_cst g m (os d s) k) = Ok (None, mk_cst g m (os d (set_sb s sb)) k).
  Proof.
    intros Hq [L W] Bd M. pose proof ip_lt'. assert (Nq : ip <> length O) by lia.
    rewrite (call_at c rnd fuel q (22 - q) _ (bs_stream_transpose_in c)); [|discriminate|do 23 (destruct q as [|q]; [reflexivity|]); lia|replace (q + (22 - q))%nat with 22%nat by lia; reflexivity|unfold bs_stream_transpose_in; destruct (tgt c); reflexivity].
    replace (Datatypes.S (q + (22 - q))) with 23%nat by lia.
    rewrite <- (os_set_sb d s sb). change (Obj (length O) "sb" 0) with (Obj (length O) "sb" (wo c (length (@nil word)))).
    rewrite <- (app_nil_r sb). change (sb ++ []) with ([] ++ sb ++ []).
    assert (G : getc (os d s) (length O) "sb" = Ok (CWords ([] ++ rgsb s ++ []))) by (rewrite app_nil_r; apply os_sb).
    destruct is32 as [Ht|Ht].
    - replace (bs_stream_transpose_in c) with (bs_stream_transpose_in_1 c) by (unfold bs_stream_transpose_in; rewrite Ht; reflexivity).
      eapply (in_1 c rnd fuel _ m (os d s) ip (length O) "sb" [] [] (rgsb s) n l8 d Hf Nq Hn G (os_D d s) (os_N d s) W Bd g k sb Ht (m32 23 ltac:(lia) Ht) M).
    - replace (bs_stream_transpose_in c) with (bs_stream_transpose_in_2 c) by (unfold bs_stream_transpose_in; destruct (tgt c); first [reflexivity | contradiction Ht; reflexivity]).
      eapply (in_2 c rnd fuel _ m (os d s) ip (length O) "sb" [] [] (rgsb s) n l8 d Hf Nq Hn G (os_D d s) (os_N d s) W Bd g k sb Ht (m64 23 ltac:(lia) Ht) M).
  Qed.
  Lemma sout_call q d s ix d' sb g k : (q <= 21)%nat -> wrows c 64 (rgsb s) -> Forall is_byte d -> ix < 2 ^ 30 -> dvbcsa_bs_stream_transpose_out c (mk_pb n l8 d) ix (rgsb s) = Ok (mk_pb n l8 d', sb) ->
    prog_from c rnd fuel q "dvbcsa_bs_stream_transpose_out" [VPtr PB (Obj ip "" 0); VInt U32 ix; VPtr TWord (Obj (length O) "sb" 0)] (mk_cst g m (os d s) k) = Ok (None, mk_cst g m (os d' (set_sb s sb)) k).
  Proof.
    intros Hq [L W] Bd Hx M. pose proof ip_lt'. assert (Nq : ip <> length O) by lia.
    assert (Q : ix < 2 ^ 32 /\ ix / 8 < 2 ^ 31). { change (2 ^ 30) with 1073741824 in Hx. change (2 ^ 32) with 4294967296. change (2 ^ 31) with 2147483648. split; [lia|]. apply N.div_lt_upper_bound; lia. } destruct Q as [Q1 Q2].
    rewrite (call_at c rnd fuel q (21 - q) _ (bs_stream_transpose_out c)); [|discriminate|do 22 (destruct q as [|q]; [reflexivity|]); lia|replace (q + (21 - q))%nat with 21%nat by lia; reflexivity|unfold bs_stream_transpose_out; destruct (tgt c); reflexivity].
    replace (Datatypes.S (q + (21 - q))) with 22%nat by lia.
    rewrite <- (os_set_D d (set_sb s sb) d'), <- (os_set_sb d s sb). change (Obj (length O) "sb" 0) with (Obj (length O) "sb" (wo c (length (@nil word)))).
    rewrite <- (app_nil_r sb). change (sb ++ []) with ([] ++ sb ++ []).
    assert (G : getc (os d s) (length O) "sb" = Ok (CWords ([] ++ rgsb s ++ []))) by (rewrite app_nil_r; apply os_sb).
    destruct is32 as [Ht|Ht].
    - replace (bs_stream_transpose_out c) with (bs_stream_transpose_out_1 c) by (unfold bs_stream_transpose_out; rewrite Ht; reflexivity).
      eapply (out_1 c rnd fuel _ m (os d s) ip (length O) "sb" [] [] (rgsb s) n l8 d Hf Nq Hn G (os_D d s) (os_N d s) W Bd g k ix d' sb Ht Sa L Q1 Q2 (m32 22 ltac:(lia) Ht) M).
    - replace (bs_stream_transpose_out c) with (bs_stream_transpose_out_2 c) by (unfold bs_stream_transpose_out; destruct (tgt c); first [reflexivity | contradiction Ht; reflexivity]).
      eapply (out_2 c rnd fuel _ m (os d s) ip (length O) "sb" [] [] (rgsb s) n l8 d Hf Nq Hn G (os_D d s) (os_N d s) W Bd g k ix d' sb Ht Sa L Q1 Q2 (m64 22 ltac:(lia) Ht) M).
  Qed.
  Notation exec := (exec c T S rnd fuel).
  Ltac callk E := eapply seq_one; [eapply st_expr; eapply run_call; [reflexivity|reflexivity| |exact E]|].
  Notation hv b := (Some (VInt U32 (N.of_nat (8 * b)))).
  Lemma gen_loop mb bv iv (Hm : (mb <= 23)%nat) : forall t b s d k kf wf', t = (mb - b)%nat -> (1 <= b <= 24)%nat -> shape c s -> pbuf (batch_size c) d -> (t < kf)%nat -> (t <= wf')%nat ->
    exists d1 s1 k', pbuf (batch_size c) d1 /\
      loop kf (cond_of c T S (prog_from c rnd fuel 6) (EBin Lt (EVar "h") (EVar "maxlen")))
        (exec (prog_from c rnd fuel 6) (SBlock [SExpr (ECall "dvbcsa_bs_stream_cipher_kernel" [EAddr (EVar "regs")]); SExpr (ECall "dvbcsa_bs_stream_transpose_out" [EVar "pkt_buf"; EVar "h"; EField (EVar "regs") "sb"])]))
        (opt_ev c T S (prog_from c rnd fuel 6) (Some (EOpAssign Add (EVar "h") (EConst I32 8)))) (mk_cst (svars (hv b) bv iv (N.of_nat (8 * mb))) m (os d s) k) =
        Ok (None, mk_cst (svars (hv (Nat.max b mb)) bv iv (N.of_nat (8 * mb))) m (os d1 s1) k') /\
      while_ wf' (fun '(h, _) => (h <? N.of_nat (8 * mb))%N) (fun '(h, (s, pb)) =>
         s <- stream_cipher_kernel (word_ops c) false s ;;
         '(pb, sb) <- dvbcsa_bs_stream_transpose_out c pb h (rgsb s) ;;
         Ok (u32 (h + 8), (set_sb s sb, pb))) (N.of_nat (8 * b), (s, mk_pb n l8 d)) = Ok (N.of_nat (8 * Nat.max b mb), (s1, mk_pb n l8 d1)).
  Proof.
    induction t as [|t IH]; intros b s d k kf wf' Et Hb Hs Pd Kf Wf; (destruct kf as [|kf]; [lia|]); cbn [loop].
    - rewrite Nat.max_l by lia. exists d, s, k. split; [exact Pd|]. split.
      + assert (C : cond_of c T S (prog_from c rnd fuel 6) (EBin Lt (EVar "h") (EVar "maxlen")) (mk_cst (svars (hv b) bv iv (N.of_nat (8 * mb))) m (os d s) k) = Ok (false, mk_cst (svars (hv b) bv iv (N.of_nat (8 * mb))) m (os d s) k)) by (eapply cond_ok; [pvx|falsex]).
        rewrite C. reflexivity.
      + destruct wf'; cbn [while_]; rewrite (proj2 (N.ltb_ge _ _)) by lia; reflexivity.
    - destruct (kernel_shape c false s Hs) as (s2 & K & Hs2).
      destruct (out_shape c n l8 d (rgsb s2) b Sa (shape_sb _ _ Hs2) Hn Pd ltac:(lia)) as (d2 & sb & Eo & Ws & Pd2).
      pose proof (shape_set_sb _ _ _ Hs2 Ws) as Hs3.
      destruct wf' as [|wf']; [lia|].
      destruct (IH (Datatypes.S b) (set_sb s2 sb) d2 (Datatypes.S k) kf wf' ltac:(lia) ltac:(lia) Hs3 Pd2 ltac:(lia) ltac:(lia)) as (d1 & s1 & k' & P1 & L & M).
      replace (Nat.max (Datatypes.S b) mb) with (Nat.max b mb) in * by lia.
      exists d1, s1, k'. split; [exact P1|]. split.
      + assert (C : cond_of c T S (prog_from c rnd fuel 6) (EBin Lt (EVar "h") (EVar "maxlen")) (mk_cst (svars (hv b) bv iv (N.of_nat (8 * mb))) m (os d s) k) = Ok (true, mk_cst (svars (hv b) bv iv (N.of_nat (8 * mb))) m (os d s) k)) by (eapply cond_ok; [pvx|truex]).
        rewrite C. cbn [bind].
        pose proof (kernel_call 6 false d s s2 (svars (hv b) bv iv (N.of_nat (8 * mb))) k ltac:(lia) K) as C1. cbv iota in C1.
        pose proof (sout_call 6 d s2 (N.of_nat (8 * b)) d2 sb (svars (hv b) bv iv (N.of_nat (8 * mb))) (Datatypes.S k) ltac:(lia) (shape_sb _ _ Hs2) (proj2 Pd) ltac:(change (2 ^ 30) with 1073741824; lia) Eo) as C2.
        assert (B : exec (prog_from c rnd fuel 6) (SBlock [SExpr (ECall "dvbcsa_bs_stream_cipher_kernel" [EAddr (EVar "regs")]); SExpr (ECall "dvbcsa_bs_stream_transpose_out" [EVar "pkt_buf"; EVar "h"; EField (EVar "regs") "sb"])])
           (mk_cst (svars (hv b) bv iv (N.of_nat (8 * mb))) m (os d s) k) = Ok (None, mk_cst (svars (hv b) bv iv (N.of_nat (8 * mb))) m (os d2 (set_sb s2 sb)) (Datatypes.S k))).
        { eapply xblock; [callk C1; [pvsx|]; callk C2; [pvsx|reflexivity]|cbn [length Nat.sub skipn]; reflexivity|apply firstn_same; lens]. }
        rewrite B. cbn [bind].
        assert (P : opt_ev c T S (prog_from c rnd fuel 6) (Some (EOpAssign Add (EVar "h") (EConst I32 8))) (mk_cst (svars (hv b) bv iv (N.of_nat (8 * mb))) m (os d2 (set_sb s2 sb)) (Datatypes.S k)) =
          Ok (mk_cst (svars (hv (Datatypes.S b)) bv iv (N.of_nat (8 * mb))) m (os d2 (set_sb s2 sb)) (Datatypes.S k))) by (eapply opt_step; [runx|st_eq]).
        rewrite P. cbn [bind]. exact L.
      + cbn [while_]. rewrite (proj2 (N.ltb_lt _ _)) by lia. rewrite K. cbn [bind]. rewrite Eo. cbn [bind]. replace (u32 (N.of_nat (8 * b) + 8)) with (N.of_nat (8 * Datatypes.S b)); [exact M|].
        unfold u32. rewrite N.mod_small; [lia|]. change (2 ^ 32) with 4294967296. lia.
  Qed.
  Definition regs_junk (k : nat) : regs word :=
    mk_regs (any_words c rnd k 168) (any_words c rnd (1 + k) 168) (any_words c rnd (2 + k) 4) (any_words c rnd (3 + k) 4) (any_words c rnd (4 + k) 4) (any_words c rnd (5 + k) 4) (any_words c rnd (6 + k) 4) (any_words c rnd (7 + k) 4)
      (any_words c rnd (8 + k) 64) (hd [] (any_words c rnd (9 + k) 1)) (hd [] (any_words c rnd (10 + k) 1)) (hd [] (any_words c rnd (11 + k) 1)).
  #[local] Opaque any_words.
  Lemma one_word k : any_words c rnd k 1 = [hd [] (any_words c rnd k 1)]. Proof. Transparent any_words. reflexivity. Opaque any_words. Qed.
  Lemma regs_new k : new_object c S rnd REGS k = Some (robj (regs_junk k), (k + 12)%nat).
  Proof. unfold regs_junk, robj. cbn [rgA rgB rgX rgY rgZ rgD rgE rgF rgsb rgp rgq rgr]. rewrite <- !one_word. reflexivity. Qed.
  Lemma regs_junk_ok k : junk_regs c (regs_junk k).
  Proof.
    pose proof (fun k n => any_words_wrows c rnd k n) as W.
    assert (H : forall k, wf c (hd [] (any_words c rnd k 1))) by (intros k0; destruct (W k0 1%nat) as [_ F]; rewrite one_word in F; inversion F; assumption).
    constructor; [constructor|..]; cbn [regs_junk rgA rgB rgX rgY rgZ rgD rgE rgF rgsb rgp rgq rgr]; first [apply W | apply H].
  Qed.
  Ltac asetx ::= reflexivity.
  Theorem stream_batch_source q mb d g k : (q <= 5)%nat -> (mb <= 23)%nat -> pbuf (batch_size c) d ->
    exists d1 k', pbuf (batch_size c) d1 /\ dvbcsa_bs_stream_cipher_batch c (regs_junk k) m key (mk_pb n l8 d) (N.of_nat (8 * mb)) = Ok (mk_pb n l8 d1) /\
      prog_from c rnd fuel q "dvbcsa_bs_stream_cipher_batch" [VPtr KEY (Flat key); VPtr PB (Obj ip "" 0); VInt U32 (N.of_nat (8 * mb))] (mk_cst g m (od d) k) = Ok (None, mk_cst g m (od d1) k').
  Proof.
    intros Hq Hm Pd. set (s0 := regs_junk k). pose proof (junk_shape _ _ (regs_junk_ok k)) as Sh. fold s0 in Sh.
    destruct (wp_get _ _ (stream_in_ok c (mk_pb n l8 d) (rgsb s0) Sa (shape_sb _ _ Sh) Hn Pd)) as (sb & Ei & Wi & _).
    destruct (load_shape c (key_stream_word c m key) (set_sb s0 sb) HK (shape_set_sb _ _ _ Sh Wi)) as (s1 & El & Sh1).
    destruct (kernel_shape c true s1 Sh1) as (s2 & Ek & Sh2).
    assert (Z : rgp s1 = BS_VAL c 1 0 /\ rgq s1 = BS_VAL c 1 0 /\ rgr s1 = BS_VAL c 1 0).
    { pose proof El as M. unfold stream_load_regs in M. gob M. repeat match goal with p : _ * _ |- _ => destruct p end. injection M as <-. repeat split. }
    destruct Z as (Zp & Zq & Zr).
    pose proof (sin_call 6 d s0 sb (svars None None None (N.of_nat (8 * mb))) (k + 12) ltac:(lia) (shape_sb _ _ Sh) (proj2 Pd) Ei) as C1.
    destruct (load_loop (prog_from c rnd fuel 6) (set_sb s0 sb) s1 d (k + 12) (N.of_nat (8 * mb)) None None None El) as (i' & C2).
    pose proof (kernel_call 6 true d s1 s2 (svars None (num 4%nat) i' (N.of_nat (8 * mb))) (k + 12) ltac:(lia) Ek) as C3. cbv iota in C3.
    destruct (gen_loop mb (num 4%nat) i' Hm (mb - 1) 1 s2 d (Datatypes.S (k + 12)) fuel (N.to_nat (N.of_nat (8 * mb))) eq_refl ltac:(lia) Sh2 Pd ltac:(lia) ltac:(lia)) as (d1 & s3 & k' & P1 & L & M).
    exists d1, k'. split; [exact P1|]. split.
    - unfold dvbcsa_bs_stream_cipher_batch. rewrite Ei. cbn [bind]. rewrite El. cbn [bind]. rewrite Ek. cbn [bind]. change (N.of_nat (8 * 1)) with 8 in M. rewrite M. reflexivity.
    - rewrite (call_at c rnd fuel q (5 - q) _ (bs_stream_cipher_batch c)); [|discriminate|do 6 (destruct q as [|q]; [reflexivity|]); lia|replace (q + (5 - q))%nat with 5%nat by lia; reflexivity|reflexivity].
      replace (Datatypes.S (q + (5 - q))) with 6%nat by lia.
      eapply xcall_void; [reflexivity|params|the_body|].
      + eapply seq_one; [eapply xst_declobj; [exact Logic.I|apply regs_new|apply od_len']|]. do 3 stx. fold s0. change (od d ++ [robj s0]) with (os d s0).
        callk C1; [pvsx|]. eapply seq_one; [exact C2|].
        cbn [set_sb rgp rgq rgr]. unfold os at 1, robj at 1. cbn [rgA rgB rgX rgY rgZ rgD rgE rgF rgsb rgp rgq rgr].
        do 3 stx.
        match goal with |- exec_seq _ _ _ _ _ (mk_cst _ _ ?o _) = _ => replace o with (os d s1) by (unfold os, robj; rewrite Zp, Zq, Zr; reflexivity) end.
        callk C3; [pvsx|]. eapply seq_one; [eapply st_for; [eapply opt_some; runx|exact L]|reflexivity].
      + unfold os. rewrite od_len', <- (od_len' d1), firstn_app, Nat.sub_diag, firstn_all. cbn [firstn]. apply app_nil_r.
  Qed.
End Stream.
