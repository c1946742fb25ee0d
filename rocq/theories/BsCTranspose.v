(** BsCTranspose.v -- the sources of the matrix transpositions (dvbcsa_bs_transpose_block.c, _stream.c,
    _stream32.c) compute what the model of ModelBsTranspose.v computes. *)
From Coq Require Import String.
From Verif Require Import Base Mem ModelBsWord ModelBsTranspose BsC SourceBitslice BsCRun.
From Verif Require MiniC MiniCRun.
Local Open Scope string_scope. Local Open Scope list_scope. Local Open Scope N_scope.
#[local] Opaque BS_AND BS_OR BS_XOR BS_NOT BS_SHL BS_SHR BS_VAL.

(** ** A window of an array *)
Lemma aget_win {A} (pre row post : list A) n w : aget row n = Ok w -> aget (pre ++ row ++ post) (length pre + n) = Ok w.
Proof.
  unfold aget. destruct (nth_error row n) as [x|] eqn:E; [|discriminate]. intros H. injection H as ->.
  rewrite nth_error_app2 by lia. replace (length pre + n - length pre)%nat with n by lia.
  rewrite nth_error_app1, E; [reflexivity|]. apply nth_error_Some. congruence.
Qed.
Lemma upd_pre {A} (pre l : list A) n w : upd (pre ++ l) (length pre + n) w = pre ++ upd l n w.
Proof. induction pre as [|x pre IH]; [reflexivity|]. cbn. f_equal. exact IH. Qed.
Lemma aset_win {A} (pre row post : list A) n w row' : aset row n w = Ok row' -> aset (pre ++ row ++ post) (length pre + n) w = Ok (pre ++ row' ++ post).
Proof.
  unfold aset. destruct (n <? length row)%nat eqn:E; [|discriminate]. intros H. injection H as <-. apply Nat.ltb_lt in E.
  rewrite !app_length. replace (length pre + n <? _)%nat with true by (symmetry; apply Nat.ltb_lt; lia).
  rewrite upd_pre, upd_app by exact E. reflexivity.
Qed.
Lemma getc_win O i f d e : getc O i f = Ok e -> getc (setc O i f d) i f = Ok d.
Proof. intros G. rewrite (getc_setc _ _ _ _ _ _ _ G), Nat.eqb_refl, String.eqb_refl. reflexivity. Qed.

Lemma xst_swap c rnd fuel calls n t b g m O k rt rb x y x' y' s1 s2 : pl c calls t (mk_cst g m O k) rt -> rvalue c src_bs_tables rt (mk_cst g m O k) = Ok (VWord x) -> pl c calls b (mk_cst g m O k) rb ->
  rvalue c src_bs_tables rb (mk_cst g m O k) = Ok (VWord y) ->
  BS_SWAP_LE c n x y = (x', y') -> asg c rt (VWord x') (mk_cst g m O k) s1 -> asg c rb (VWord y') s1 s2 -> exec c src_bs_tables (src_bs_structs c) rnd fuel calls (SSwap n t b) (mk_cst g m O k) = Ok (None, s2).
Proof. apply st_swap. Qed.

(** ** The swaps *)
Definition neon (c : build) : bool := match tgt c with NEON => true | _ => false end.
Section Swaps.
  Context (c : build) (be nn : bool) (Hb : big_endian c = be) (Hn : neon c = nn).
  Definition is_bits n shift mask t b : Prop := BS_SWAP_LE c n t b = (BS_XOR t (BS_SHL c (BS_AND (BS_XOR (BS_SHR c t shift) b) mask) shift), BS_XOR b (BS_AND (BS_XOR (BS_SHR c t shift) b) mask)).
  Lemma bits1 t b : is_bits 1 1 (BS_VAL c 1 0x55) t b. Proof. reflexivity. Qed.
  Lemma bits2 t b : is_bits 2 2 (BS_VAL c 1 0x33) t b. Proof. reflexivity. Qed.
  Lemma bits4 t b : is_bits 4 4 (BS_VAL c 1 0x0f) t b. Proof. reflexivity. Qed.
  Lemma bits8 t b : nn = false -> is_bits 8 8 (BS_VAL c 2 0xff) t b.
  Proof. intros ->. unfold is_bits, BS_SWAP_LE. unfold neon in Hn. destruct (tgt c); try reflexivity. discriminate. Qed.
  Lemma bits16 t b : nn = false -> is_bits 16 16 (BS_VAL c 4 0xffff) t b.
  Proof. intros ->. unfold is_bits, BS_SWAP_LE. unfold neon in Hn. destruct (tgt c); try reflexivity. discriminate. Qed.
  Lemma bits32 t b : nn = false -> is_bits 32 32 (BS_VAL c 8 0xffffffff) t b.
  Proof. intros ->. unfold is_bits, BS_SWAP_LE. unfold neon in Hn. destruct (tgt c); try reflexivity. discriminate. Qed.
  (* BS_SWAPn in terms of BS_SWAPn_LE *)
  Lemma swap_small n t b x y : (n < 8)%nat -> BS_SWAP c n t b = (x, y) -> BS_SWAP_LE c n t b = (x, y).
  Proof. intros L. unfold BS_SWAP. replace (8 <=? n)%nat with false by (symmetry; apply Nat.leb_gt; lia). rewrite Bool.andb_false_r. exact (fun e => e). Qed.
  Lemma swap_le n t b x y : be = false -> BS_SWAP c n t b = (x, y) -> BS_SWAP_LE c n t b = (x, y).
  Proof. intros E. unfold BS_SWAP. rewrite Hb, E. exact (fun e => e). Qed.
  Lemma swap_be n t b x y : be = true -> (8 <= n)%nat -> BS_SWAP c n t b = (x, y) -> BS_SWAP_LE c n b t = (y, x).
  Proof.
    intros E L. unfold BS_SWAP. rewrite Hb, E. rewrite (proj2 (Nat.leb_le _ _) L). cbn [andb]. destruct (BS_SWAP_LE c n b t). congruence.
  Qed.
End Swaps.

Section Transpose.
  Context (c : build) (rnd : nat -> nat -> N) (fuel : nat) (calls : callable) (m : mem) (k : nat) (O : list object) (ir : nat) (f : string) (pre post row0 : list word).
  Context (Hf : (64 < fuel)%nat) (G : getc O ir f = Ok (CWords (pre ++ row0 ++ post))).
  Notation exec := (exec c src_bs_tables (src_bs_structs c) rnd fuel calls).
  Notation num n := (Some (VInt I32 (N.of_nat n))).
  Notation st v row := (mk_cst v m (setc O ir f (CWords (pre ++ row ++ post))) k).
  Notation rv := ("row", BVal (TPtr TWord) (Some (VPtr TWord (Obj ir f (wo c (length pre)))))).

  Ltac getx ::= cbn [objs]; eapply getc_win; exact G.
  Ltac agetx ::= lazymatch goal with |- aget (pre ++ ?r ++ post) (length pre + ?n) = _ =>
    match goal with H : aget r ?q = Ok _ |- _ => replace n with q by lia; eapply aget_win; exact H end end.
  Ltac asetx ::= lazymatch goal with |- aset (pre ++ ?r ++ post) (length pre + ?n) ?v = _ =>
    match goal with H : aset r ?q v = Ok _ |- _ => replace n with q by lia; eapply aset_win; exact H end end.
  Ltac setx ::= cbn [objs]; apply setc_same.
  (* the model's swaps, as the source's *)
  Ltac swaps Hb Hn M :=
    repeat match type of M with context [BS_SWAP c ?n ?a ?b] =>
      let x := fresh "x" in let y := fresh "y" in let P := fresh "P" in destruct (BS_SWAP c n a b) as [x y] eqn:P; cbv beta iota in M;
      first [apply (swap_small c n) in P; [|lia] | apply (swap_le c _ Hb n) in P; [|reflexivity] | apply (swap_be c _ Hb n) in P; [|reflexivity|lia]];
      try (first [rewrite (bits1 c) in P|rewrite (bits2 c) in P|rewrite (bits4 c) in P|rewrite (bits8 c _ Hn _ _ eq_refl) in P|rewrite (bits16 c _ Hn _ _ eq_refl) in P|rewrite (bits32 c _ Hn _ _ eq_refl) in P];
           injection P; clear P; intros)
    end.
  Ltac sts := repeat first
    [ stx
    | lazymatch goal with |- exec_seq _ _ _ _ (SBlock _ :: _) _ = _ =>
        eapply seq_one; [blk ltac:(idtac; stxs)|]; cbn [word_op]; repeat match goal with Q : BS_XOR ?a ?b = ?x |- context [BS_XOR ?a ?b] => rewrite Q; clear Q end end
    | lazymatch goal with |- exec_seq _ _ _ _ (SSwap _ _ _ :: _) _ = _ => eapply seq_one; [eapply xst_swap; [plx|rvx|plx|rvx|eassumption|asx|asx]|] end ].
  Ltac stepn q := eapply opt_step; [runx|]; lazymatch goal with |- context [VInt I32 (N.of_nat ?b + ?z)] => replace (N.of_nat b + z) with (N.of_nat q) by lia; reflexivity end.
  Ltac forx F M n prep body step :=
    eapply seq_one; [eapply st_for; [eapply opt_some; runx|
      eapply (loop_fun c rnd fuel _ F _ _ _ _ n fuel 0); [exact M|lia| |intros; eapply cond_ok; [pvx|falsex]];
      let j := fresh "j" in let Hj := fresh "Hj" in let M1 := fresh "M" in intros j ? ? Hj M1; cbv beta in M1; prep M1; (split; [eapply cond_ok; [pvx|truex]|
        eexists; split; [blk ltac:(idtac; body j M1)|step j]])]|cbv beta].
  Ltac binds H := repeat lazymatch type of H with
    | bind _ _ = Ok _ => let x := fresh "v" in let E := fresh "E" in apply bind_ok in H; destruct H as (x & E & H); cbv beta in H end.
  Ltac rows Hb Hn M1 := unfold rows4, rows8, swaps4 in M1; cbv beta in M1; repeat (progress (binds M1; swaps Hb Hn M1)).
  Ltac none M := idtac.
  Ltac stsr j M := sts; reflexivity.

  Definition transpose_claim (fn : fundef) (md : list word -> res (list word)) : Prop := forall g row',
    md row0 = Ok row' ->
    call_fun c src_bs_tables (src_bs_structs c) rnd fuel calls fn [VPtr TWord (Obj ir f (wo c (length pre)))] (mk_cst g m O k) = Ok (None, mk_cst g m (setc O ir f (CWords (pre ++ row' ++ post))) k).
  Ltac start g row' M :=
    intros g row' M; rewrite <- (setc_id _ _ _ _ G) at 1; eapply xcall_void; [reflexivity|params|the_body; stx|rewrite setc_id by exact G; rewrite <- (setc_length O ir f (CWords (pre ++ row' ++ post))); apply firstn_all].
  Notation jv j := [("j", BVal (TInt I32) (num j)); rv].
  Ltac loop1 q n M Hb Hn step := forx (fun j row => st (jv (q * j)%nat) row) M n ltac:(fun M2 => rows Hb Hn M2) stsr step.
  Ltac loop2 q n ni M Hb Hn :=
    forx (fun j row => st (jv (q * j)%nat) row) M n none
      ltac:(fun j M1 => stx;
         forx (fun i row => st (("i", BVal (TInt I32) (num i)) :: jv (q * j)%nat) row) M1 ni ltac:(fun M2 => rows Hb Hn M2) stsr ltac:(fun i => stepx); reflexivity)
      ltac:(fun j => stepn (q * S j)%nat).
  Ltac block_ Hb Hn := let g := fresh "g" in let row' := fresh "row'" in let M := fresh "M" in start g row' M; unfold matrix_transpose_block in M; loop2 32%nat 2%nat 8%nat M Hb Hn; reflexivity.
  Ltac x64_i386 Hb Hn := let g := fresh "g" in let row' := fresh "row'" in let M := fresh "M" in start g row' M; unfold matrix_transpose_64x_i386, matrix_transpose_64x32 in M; gob M;
    lazymatch goal with A : for_ 16 0 _ row0 = Ok ?r1, B : for_ 4 0 _ ?r1 = Ok ?r2, D : for_ 16 0 _ ?r2 = Ok row' |- _ =>
      loop1 1%nat 16%nat A Hb Hn ltac:(fun j => stepn (1 * S j)%nat);
      loop2 16%nat 4%nat 4%nat B Hb Hn;
      loop1 4%nat 16%nat D Hb Hn ltac:(fun j => stepn (4 * S j)%nat) end; reflexivity.
  Ltac x64_gen Hb Hn := let g := fresh "g" in let row' := fresh "row'" in let M := fresh "M" in start g row' M; unfold matrix_transpose_64x_gen in M; gob M;
    lazymatch goal with A : for_ 8 0 _ row0 = Ok ?r1, B : for_ 8 0 _ ?r1 = Ok row' |- _ =>
      loop1 8%nat 8%nat A Hb Hn ltac:(fun j => stepn (8 * S j)%nat);
      loop1 1%nat 8%nat B Hb Hn ltac:(fun j => stepn (1 * S j)%nat) end; reflexivity.
  Notation block_model := (matrix_transpose_block (BS_SWAP c)). Notation i386_model := (matrix_transpose_64x_i386 (BS_SWAP c)).
  Notation gen_model := (matrix_transpose_64x_gen (BS_SWAP c)). Notation m32_model := (matrix_transpose_64x32 (BS_SWAP c)).
  Lemma block_1 : big_endian c = true -> neon c = false -> transpose_claim (bs_matrix_transpose_block_1 c) block_model.
  Proof. intros Hb Hn. block_ Hb Hn. Qed.
  Lemma block_2 : big_endian c = false -> neon c = false -> transpose_claim (bs_matrix_transpose_block_2 c) block_model.
  Proof. intros Hb Hn. block_ Hb Hn. Qed.
  Lemma block_3 : big_endian c = true -> neon c = true -> transpose_claim (bs_matrix_transpose_block_3 c) block_model.
  Proof. intros Hb Hn. block_ Hb Hn. Qed.
  Lemma block_4 : big_endian c = false -> neon c = true -> transpose_claim (bs_matrix_transpose_block_4 c) block_model.
  Proof. intros Hb Hn. block_ Hb Hn. Qed.
  Lemma x64_2 : big_endian c = true -> neon c = false -> transpose_claim (bs_matrix_transpose_64x_2 c) i386_model.
  Proof. intros Hb Hn. x64_i386 Hb Hn. Qed.
  Lemma x64_3 : big_endian c = true -> neon c = false -> transpose_claim (bs_matrix_transpose_64x_3 c) gen_model.
  Proof. intros Hb Hn. x64_gen Hb Hn. Qed.
  Lemma x64_4 : big_endian c = false -> neon c = false -> transpose_claim (bs_matrix_transpose_64x_4 c) i386_model.
  Proof. intros Hb Hn. x64_i386 Hb Hn. Qed.
  Lemma x64_5 : big_endian c = false -> neon c = false -> transpose_claim (bs_matrix_transpose_64x_5 c) gen_model.
  Proof. intros Hb Hn. x64_gen Hb Hn. Qed.
  Lemma x64_6 : big_endian c = true -> neon c = true -> transpose_claim (bs_matrix_transpose_64x_6 c) i386_model.
  Proof. intros Hb Hn. x64_i386 Hb Hn. Qed.
  Lemma x64_7 : big_endian c = true -> neon c = true -> transpose_claim (bs_matrix_transpose_64x_7 c) gen_model.
  Proof. intros Hb Hn. x64_gen Hb Hn. Qed.
  Lemma x64_8 : big_endian c = false -> neon c = true -> transpose_claim (bs_matrix_transpose_64x_8 c) i386_model.
  Proof. intros Hb Hn. x64_i386 Hb Hn. Qed.
  Lemma x64_9 : big_endian c = false -> neon c = true -> transpose_claim (bs_matrix_transpose_64x_9 c) gen_model.
  Proof. intros Hb Hn. x64_gen Hb Hn. Qed.
  Lemma x32_1 : big_endian c = true -> neon c = false -> transpose_claim (bs_matrix_transpose_64x32_1 c) m32_model.
  Proof. intros Hb Hn. x64_i386 Hb Hn. Qed.
  Lemma x32_2 : big_endian c = false -> neon c = false -> transpose_claim (bs_matrix_transpose_64x32_2 c) m32_model.
  Proof. intros Hb Hn. x64_i386 Hb Hn. Qed.
  Ltac pick := unfold transpose_claim;
    lazymatch goal with
    | |- context [bs_matrix_transpose_block_1] => apply block_1 | |- context [bs_matrix_transpose_block_2] => apply block_2
    | |- context [bs_matrix_transpose_block_3] => apply block_3 | |- context [bs_matrix_transpose_block_4] => apply block_4
    | |- context [bs_matrix_transpose_64x_2] => apply x64_2 | |- context [bs_matrix_transpose_64x_3] => apply x64_3
    | |- context [bs_matrix_transpose_64x_4] => apply x64_4 | |- context [bs_matrix_transpose_64x_5] => apply x64_5
    | |- context [bs_matrix_transpose_64x_6] => apply x64_6 | |- context [bs_matrix_transpose_64x_7] => apply x64_7
    | |- context [bs_matrix_transpose_64x_8] => apply x64_8 | |- context [bs_matrix_transpose_64x_9] => apply x64_9
    | |- context [bs_matrix_transpose_64x32_1] => apply x32_1 | |- context [bs_matrix_transpose_64x32_2] => apply x32_2
    end.
  Ltac flags Ht := first [assumption | unfold neon; rewrite Ht; reflexivity].
  Lemma block_source : transpose_claim (bs_matrix_transpose_block c) block_model.
  Proof. unfold bs_matrix_transpose_block. destruct (big_endian c) eqn:Hb, (tgt c) eqn:Ht; pick; flags Ht. Qed.
  Lemma x64_source : tgt c <> UINT32 -> transpose_claim (bs_matrix_transpose_64x c) (matrix_transpose_stream c).
  Proof.
    intros Nu. unfold bs_matrix_transpose_64x, transpose_claim, matrix_transpose_stream. destruct (big_endian c) eqn:Hb, (i386 c) eqn:Hi, (tgt c) eqn:Ht; try contradiction; pick; flags Ht.
  Qed.
  Lemma x32_source : tgt c = UINT32 -> transpose_claim (bs_matrix_transpose_64x32 c) (matrix_transpose_stream c).
  Proof.
    intros Nu. unfold bs_matrix_transpose_64x32, transpose_claim, matrix_transpose_stream. rewrite Nu. destruct (big_endian c) eqn:Hb; pick; flags Nu.
  Qed.
End Transpose.
