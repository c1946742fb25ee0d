(** BsCPack.v -- the sources that move packets between the packet buffer and bit slices
    (dvbcsa_bs_transpose_stream.c, _stream32.c, dvbcsa_bs_transpose_block.c) compute what the model computes. *)
From Coq Require Import String.
From Verif Require Import Base Mem ModelBsWord ModelBsTranspose BsWordFacts BsView BsTransposeFacts BsC SourceBitslice BsCRun BsCTranspose.
From Verif Require MiniC MiniCRun SpecLemmas ClassicalBlock BsAlgo.
Local Open Scope string_scope. Local Open Scope list_scope. Local Open Scope N_scope.
#[local] Opaque BS_AND BS_OR BS_XOR BS_NOT BS_SHL BS_SHR BS_VAL.

(** ** Integers as bytes *)
Definition good (n : nat) (v : list N) : Prop := length v = n /\ Forall is_byte v.
Lemma native_back be n v : good n v -> native_bytes be n (native_val be v) = v.
Proof.
  intros [<- F]. unfold native_bytes, native_val. destruct be.
  - rewrite <- (rev_length v), le_bytes_val by (apply Forall_rev, F). apply rev_involutive.
  - apply le_bytes_val, F.
Qed.
Lemma native_lt be n v : good n v -> native_val be v < 2 ^ N.of_nat (8 * n).
Proof.
  intros [<- F]. unfold native_val. replace (N.of_nat (8 * length v)) with (8 * N.of_nat (length v)) by lia. destruct be; [|apply le_val_bound, F].
  rewrite <- (rev_length v). apply le_val_bound, Forall_rev, F.
Qed.
Lemma xor_back be n a b : good n a -> good n b -> native_bytes be n (N.lxor (native_val be a) (native_val be b)) = map2 N.lxor a b.
Proof.
  intros [La Fa] [Lb Fb]. rewrite (ClassicalBlock.native_xor be n a b La Lb Fa Fb). clear. revert b. induction a as [|x a IH]; intros [|y b]; try reflexivity; cbn; f_equal; apply IH.
Qed.
Lemma bget_good d p n v : Forall is_byte d -> bget d p n = Ok v -> good n v.
Proof.
  intros F. unfold bget. destruct (Nat.leb_spec (p + n) (length d)); [|discriminate]. intros E. injection E as <-. split; [rewrite firstn_length, skipn_length; lia|].
  apply Forall_firstn, Forall_skipn, F.
Qed.
Lemma bset_bytes d p v d' : Forall is_byte d -> Forall is_byte v -> bset d p v = Ok d' -> Forall is_byte d'.
Proof.
  intros F Fv. unfold bset. destruct (Nat.leb_spec (p + length v) (length d)); [|discriminate]. intros E. injection E as <-. apply Forall_splice; assumption.
Qed.
Lemma xor_good n a b : good n a -> good n b -> good n (map2 N.lxor a b).
Proof.
  intros [La Fa] [Lb Fb]. split.
  - revert n b La Lb Fb. induction a as [|x a IH]; intros n [|y b] La Lb Fb; cbn in *; try congruence. destruct n; [discriminate|]. f_equal. inversion Fa; inversion Fb; subst. apply IH; try assumption; congruence.
  - clear La Lb. revert b Fb. induction a as [|x a IH]; intros [|y b] Fb; cbn; [constructor|constructor|constructor|]. inversion Fa; inversion Fb; subst. constructor; [|apply IH; assumption].
    exact (MiniCRun.lxor_lt x y 8 H1 H5).
Qed.
(* sz divides the size of words *)
Definition fits (c : build) (sz : nat) : Prop := (0 < sz)%nat /\ exists q, word_bytes c = (q * sz)%nat.
Lemma fits4 c : fits c 4. Proof. split; [lia|]. unfold word_bytes. destruct (tgt c); [exists 1%nat|exists 2%nat|exists 2%nat|exists 4%nat|exists 4%nat|exists 8%nat|exists 4%nat]; reflexivity. Qed.
Lemma fits8 c : tgt c <> UINT32 -> fits c 8.
Proof. intros N. split; [lia|]. unfold word_bytes. destruct (tgt c); [contradiction|exists 1%nat|exists 1%nat|exists 2%nat|exists 2%nat|exists 4%nat|exists 2%nat]; reflexivity. Qed.
Lemma mod_fits c sz i : fits c sz -> (sz * i mod word_bytes c + sz <= word_bytes c)%nat.
Proof.
  intros [P (q & E)]. rewrite E, (Nat.mul_comm q), Nat.mul_mod_distr_l by (destruct q; [pose proof (wb_pos c)|]; lia).
  assert (i mod q < q)%nat by (apply Nat.mod_upper_bound; pose proof (wb_pos c); destruct q; lia). nia.
Qed.
Lemma aget_in {A} (l : list A) n x (P : A -> Prop) : Forall P l -> aget l n = Ok x -> P x.
Proof. intros F. unfold aget. destruct (nth_error l n) eqn:E; [|discriminate]. intros H. injection H as ->. eapply Forall_forall; [exact F|]. eapply nth_error_In, E. Qed.
Lemma Forall_upd {A} (P : A -> Prop) l i x : Forall P l -> P x -> Forall P (upd l i x).
Proof. intros F H. revert i. induction F as [|y l Hy F IH]; intros [|i]; cbn; constructor; try assumption. apply IH. Qed.
Lemma aset_all {A} (P : A -> Prop) l i x l' : Forall P l -> P x -> aset l i x = Ok l' -> Forall P l'.
Proof. intros F H. unfold aset. destruct (i <? length l)%nat; [|discriminate]. intros E. injection E as <-. apply Forall_upd; assumption. Qed.
Lemma view_get_good c sz rows i v : fits c sz -> Forall (wf c) rows -> view_get c sz rows i = Ok v -> good sz v.
Proof.
  intros Hs F E. unfold view_get in E. gob E. injection E as <-. destruct (aget_in _ _ _ _ F E0) as [L B]. split; [rewrite firstn_length, skipn_length; pose proof (mod_fits c sz i Hs); lia|].
  apply Forall_firstn, Forall_skipn, B.
Qed.
Lemma view_set_wf c sz rows i v rows' : fits c sz -> Forall (wf c) rows -> good sz v -> view_set c sz rows i v = Ok rows' -> Forall (wf c) rows' /\ length rows' = length rows.
Proof.
  intros Hs F [Lv Fv] E. unfold view_set in E. gob E. destruct (aget_in _ _ _ _ F E0) as [L B]. split.
  - eapply aset_all; [exact F| |exact E]. pose proof (mod_fits c sz i Hs). split; [rewrite splice_length; lia|apply Forall_splice; assumption].
  - unfold aset in E. destruct (_ <? _)%nat; [|discriminate]. injection E as <-. apply upd_length.
Qed.

(** ** Accesses *)
Section Access.
  Context (c : build).
  Notation T := src_bs_tables. Notation S := (src_bs_structs c). Notation be := (big_endian c).
  Notation ty sz := (match sz with 4%nat => U32 | _ => U64 end).
  (* the words from a given one on, as integers *)
  Lemma ptr_u32 i f P ti x k : sval ti x = Z.of_nat k -> bin_op c S Add (VPtr (TInt U32) (Obj i f (wo c P))) (VInt ti x) = Ok (VPtr (TInt U32) (Obj i f (wo c P + N.of_nat (4 * k)))).
  Proof. intros E. unfold bin_op. rewrite E, (move_at c (TInt U32) _ _ _ _ (wo c P + N.of_nat (4 * k))); [reflexivity|]. change (size_of c S 2 (TInt U32)) with 4. lia. Qed.
  Lemma ptr_u64 i f P ti x k : sval ti x = Z.of_nat k -> bin_op c S Add (VPtr (TInt U64) (Obj i f (wo c P))) (VInt ti x) = Ok (VPtr (TInt U64) (Obj i f (wo c P + N.of_nat (8 * k)))).
  Proof. intros E. unfold bin_op. rewrite E, (move_at c (TInt U64) _ _ _ _ (wo c P + N.of_nat (8 * k))); [reflexivity|]. change (size_of c S 2 (TInt U64)) with 8. lia. Qed.
  Lemma ptr_u64_at i f P a ti x k : sval ti x = Z.of_nat k -> bin_op c S Add (VPtr (TInt U64) (Obj i f (wo c P + N.of_nat (8 * a)))) (VInt ti x) = Ok (VPtr (TInt U64) (Obj i f (wo c P + N.of_nat (8 * (a + k))))).
  Proof. intros E. unfold bin_op. rewrite E, (move_at c (TInt U64) _ _ _ _ (wo c P + N.of_nat (8 * (a + k)))); [reflexivity|]. change (size_of c S 2 (TInt U64)) with 8. lia. Qed.
  (* blocks of the packet buffer *)
  Notation B8 := (TStruct "dvbcsa_bs_block8_t").
  Lemma size_b8 : size_of c S 2 B8 = 8. Proof. reflexivity. Qed.
  Lemma ptr_blk i f b ti x k : sval ti x = Z.of_nat k -> bin_op c S Add (VPtr B8 (Obj i f (N.of_nat (8 * b)))) (VInt ti x) = Ok (VPtr B8 (Obj i f (N.of_nat (8 * (b + k))))).
  Proof. intros E. unfold bin_op. rewrite E, (move_at c B8 _ _ _ _ (N.of_nat (8 * (b + k)))); [reflexivity|]. rewrite size_b8. lia. Qed.
  Lemma ptr_blk0 i f ti x k : sval ti x = Z.of_nat k -> bin_op c S Add (VPtr B8 (Obj i f 0)) (VInt ti x) = Ok (VPtr B8 (Obj i f (N.of_nat (8 * k)))).
  Proof. apply (ptr_blk i f 0). Qed.
  Lemma ptr_blk_back i f b : (1 <= b)%nat -> bin_op c S Add (VPtr B8 (Obj i f (N.of_nat (8 * b)))) (VInt I32 4294967295) = Ok (VPtr B8 (Obj i f (N.of_nat (8 * (b - 1))))).
  Proof. intros L. unfold bin_op. change (sval I32 4294967295) with (-1)%Z. rewrite (move_at c B8 _ _ _ _ (N.of_nat (8 * (b - 1)))); [reflexivity|]. rewrite size_b8. lia. Qed.
  Lemma ptr_half i f b ti x k : sval ti x = Z.of_nat k -> bin_op c S Add (VPtr (TInt U32) (Obj i f (N.of_nat (8 * b)))) (VInt ti x) = Ok (VPtr (TInt U32) (Obj i f (N.of_nat (8 * b + 4 * k)))).
  Proof. intros E. unfold bin_op. rewrite E, (move_at c (TInt U32) _ _ _ _ (N.of_nat (8 * b + 4 * k))); [reflexivity|]. change (size_of c S 2 (TInt U32)) with 4. lia. Qed.
  Lemma ptr_u32_0 i f ti x k : sval ti x = Z.of_nat k -> bin_op c S Add (VPtr (TInt U32) (Obj i f 0)) (VInt ti x) = Ok (VPtr (TInt U32) (Obj i f (N.of_nat (4 * k)))).
  Proof. intros E. unfold bin_op. rewrite E, (move_at c (TInt U32) _ _ _ _ (N.of_nat (4 * k))); [reflexivity|]. change (size_of c S 2 (TInt U32)) with 4. lia. Qed.

  Lemma mod_nat sz k : (0 < sz)%nat -> N.of_nat (sz * k) mod N.of_nat sz = 0.
  Proof. intros H. rewrite Nat2N.inj_mul, N.mul_comm. apply N.mod_mul. lia. Qed.
  (* bytes *)
  Lemma load_b t i f q z v d s : (q = bytes_in t * z)%nat -> getc (objs s) i f = Ok (CBytes d) -> bget d q (bytes_in t) = Ok v ->
    load_at c T (TInt t) (Obj i f (N.of_nat q)) s = Ok (VInt t (native_val be v)).
  Proof.
    intros -> G E. unfold load_at. rewrite G; cbn [bind]. unfold get_int. rewrite mod_nat by (destruct t; cbn; lia). cbn [N.eqb negb]. rewrite Nat2N.id, E. reflexivity.
  Qed.
  Lemma xstore_b t i f q z v n d d' g m O k O' : (q = bytes_in t * z)%nat -> getc O i f = Ok (CBytes d) -> native_bytes be (bytes_in t) n = v -> bset d q v = Ok d' -> setc O i f (CBytes d') = O' ->
    store_at c (TInt t) (Obj i f (N.of_nat q)) (VInt t n) (mk_cst g m O k) = Ok (mk_cst g m O' k).
  Proof.
    intros -> G E1 E2 <-. unfold store_at. cbn [objs]. rewrite G; cbn [bind]. unfold set_int. rewrite mod_nat by (destruct t; cbn; lia). cbn [N.eqb negb]. rewrite Nat2N.id, E1, E2. reflexivity.
  Qed.
  (* integers *)
  Lemma load_i t i f q ns n s : getc (objs s) i f = Ok (CInts t ns) -> aget ns q = Ok n -> load_at c T (TInt t) (Obj i f (N.of_nat (bytes_in t * q))) s = Ok (VInt t n).
  Proof.
    intros G E. unfold load_at. rewrite G; cbn [bind]. unfold get_int. rewrite mod_nat by (destruct t; cbn; lia). cbn [N.eqb negb].
    replace (MiniC.ity_eqb t t) with true by (destruct t; reflexivity). rewrite Nat2N.inj_mul, N.mul_comm, N.div_mul by (destruct t; discriminate). rewrite Nat2N.id, E. reflexivity.
  Qed.
  Lemma load_i0 t i f n s : getc (objs s) i f = Ok (CInts t [n]) -> load_at c T (TInt t) (Obj i f 0) s = Ok (VInt t n).
  Proof. intros G. replace 0 with (N.of_nat (bytes_in t * 0)) by lia. eapply load_i; [exact G|reflexivity]. Qed.
  (* words as integers *)
  Lemma split_div P sz i : (0 < sz)%nat -> N.to_nat ((wo c P + N.of_nat (sz * i)) / N.of_nat (word_bytes c)) = (P + sz * i / word_bytes c)%nat.
  Proof.
    intros H. pose proof (wb_pos c). unfold wo. rewrite <- Nat2N.inj_add. rewrite <- Nnat.Nat2N.inj_div, Nat2N.id. rewrite Nat.add_comm, Nat.div_add by lia. lia.
  Qed.
  Lemma split_mod P sz i : N.to_nat ((wo c P + N.of_nat (sz * i)) mod N.of_nat (word_bytes c)) = (sz * i mod word_bytes c)%nat.
  Proof.
    pose proof (wb_pos c). unfold wo. rewrite <- Nat2N.inj_add. rewrite <- Nnat.Nat2N.inj_mod, Nat2N.id. rewrite Nat.add_comm, Nat.mod_add by lia. reflexivity.
  Qed.
  Lemma split_al P sz i : fits c sz -> (wo c P + N.of_nat (sz * i)) mod N.of_nat sz = 0.
  Proof.
    intros [H (q & E)]. unfold wo. rewrite E. replace (N.of_nat (P * (q * sz)) + N.of_nat (sz * i)) with ((N.of_nat P * N.of_nat q + N.of_nat i) * N.of_nat sz) by nia. apply N.mod_mul. lia.
  Qed.
  Lemma fits_le sz : fits c sz -> (N.of_nat sz <=? N.of_nat (word_bytes c)) = true.
  Proof. intros [H (q & E)]. apply N.leb_le. pose proof (wb_pos c). destruct q; [lia|nia]. Qed.
  Lemma load_v t i f (pre row post : list word) j v s : fits c (bytes_in t) -> getc (objs s) i f = Ok (CWords (pre ++ row ++ post)) -> view_get c (bytes_in t) row j = Ok v ->
    load_at c T (TInt t) (Obj i f (wo c (length pre) + N.of_nat (bytes_in t * j))) s = Ok (VInt t (native_val be v)).
  Proof.
    intros Hf G E. unfold view_get in E. gob E. injection E as <-. unfold load_at. rewrite G; cbn [bind]. unfold get_int. rewrite split_al, fits_le by exact Hf. cbn [N.eqb negb].
    rewrite split_div by apply Hf. rewrite (aget_win _ _ _ _ _ E0). cbn [bind]. rewrite split_mod. reflexivity.
  Qed.
  Lemma xstore_v t i f (pre row post row' : list word) j v n g m O k O' : fits c (bytes_in t) -> getc O i f = Ok (CWords (pre ++ row ++ post)) -> native_bytes be (bytes_in t) n = v ->
    view_set c (bytes_in t) row j v = Ok row' -> setc O i f (CWords (pre ++ row' ++ post)) = O' ->
    store_at c (TInt t) (Obj i f (wo c (length pre) + N.of_nat (bytes_in t * j))) (VInt t n) (mk_cst g m O k) = Ok (mk_cst g m O' k).
  Proof.
    intros Hf G <- E <-. unfold view_set in E. gob E. unfold store_at. cbn [objs]. rewrite G; cbn [bind]. unfold set_int. rewrite split_al, fits_le by exact Hf. cbn [N.eqb negb].
    rewrite split_div by apply Hf. rewrite (aget_win _ _ _ _ _ E0). cbn [bind]. rewrite split_mod, (aset_win _ _ _ _ _ _ E). reflexivity.
  Qed.
End Access.

Lemma run_assign_inc c calls x r g m O k v rl t l v' s1 s2 : let s := mk_cst g m O k in pv c calls r s v -> pl c calls (EVar x) s rl -> rvalue c src_bs_tables rl s = Ok (VPtr t l) ->
  bin_op c (src_bs_structs c) Add (VPtr t l) (VInt I32 1) = Ok v' -> asg c rl v' s s1 -> asg c (L t l) v s1 s2 -> run c calls (EAssign (EDeref (EPost Add (EVar x))) r) s s2.
Proof.
  intros s (rr & A & A') B D E (y & C) (z & F). exists z. change (ev c src_bs_tables (src_bs_structs c) calls (EAssign (EDeref (EPost Add (EVar x))) r) s)
    with ('(rr, s) <- ev c src_bs_tables (src_bs_structs c) calls r s ;; v <- rvalue c src_bs_tables rr s ;;
          '(rl, s) <- ('(ra, s) <- ('(rl, s) <- ev c src_bs_tables (src_bs_structs c) calls (EVar x) s ;; vl <- rvalue c src_bs_tables rl s ;;
                      v <- bin_op c (src_bs_structs c) Add vl (VInt I32 1) ;; '(_, s) <- assign c rl v s ;; Ok (V vl, s)) ;;
                      va <- rvalue c src_bs_tables ra s ;; match va with VPtr t l => Ok (L t l, s) | _ => stuck end) ;; assign c rl v s).
  rewrite A; cbn [bind]. rewrite A'; cbn [bind]. rewrite B; cbn [bind]. rewrite D; cbn [bind]. rewrite E; cbn [bind]. rewrite C; cbn [bind rvalue]. exact F.
Qed.
Lemma div_u32 c a : a < 2 ^ 32 -> bin_op c (src_bs_structs c) Div (VInt U32 a) (VInt I32 8) = Ok (VInt U32 (a / 8)).
Proof.
  intros A. unfold bin_op. apply int_lift. unfold MiniC.int_op. cbn [MiniC.promote MiniC.common]. change (MiniC.conv I32 I32 8) with 8. change (MiniC.conv I32 U32 8) with 8.
  change (MiniC.conv U32 U32 (MiniC.conv U32 U32 a)) with a. change (sval U32 8) with 8%Z. change (8 =? 0)%Z with false. cbv iota. change (sval U32 a) with (Z.of_N a).
  change 8%Z with (Z.of_N 8). rewrite <- N2Z.inj_quot. unfold MiniC.arith. cbn [MiniC.is_signed]. cbn [bind]. unfold MiniC.wrap. cbn [MiniC.bits].
  rewrite Z.mod_small; [rewrite N2Z.id; reflexivity|]. split; [apply N2Z.is_nonneg|]. change (2 ^ Z.of_N 32)%Z with (Z.of_N (2 ^ 32)). apply N2Z.inj_lt.
  eapply N.le_lt_trans; [apply N.div_le_upper_bound; [discriminate|]|exact A]. lia.
Qed.
(* n & (unsigned)~3, n & (unsigned)~1 *)
Lemma and_not3 n : (n <= 256)%nat -> N.land (N.of_nat n) 4294967292 = N.of_nat (4 * (n / 4)).
Proof.
  intros H. do 257 (destruct n as [|n]; [reflexivity|]). lia.
Qed.
Lemma and_not1 n : (n <= 256)%nat -> N.land (N.of_nat n) 4294967294 = N.of_nat (2 * (n / 2)).
Proof.
  intros H. do 257 (destruct n as [|n]; [reflexivity|]). lia.
Qed.
Lemma loop_inv c rnd fuel calls {X} (P : X -> Prop) (F : nat -> X -> cstate) e st b (body : nat -> X -> res X) n : forall k i x y s0, P x ->
    for_ n i body x = Ok y -> (n < k)%nat ->
    (forall j x x', (i <= j < i + n)%nat -> P x -> body j x = Ok x' -> cond_of c src_bs_tables (src_bs_structs c) calls e (F j x) = Ok (true, F j x) /\
       exists s1, exec c src_bs_tables (src_bs_structs c) rnd fuel calls b (F j x) = Ok (None, s1) /\ opt_ev c src_bs_tables (src_bs_structs c) calls st s1 = Ok (F (Datatypes.S j) x') /\ P x') ->
    (forall x, cond_of c src_bs_tables (src_bs_structs c) calls e (F (i + n)%nat x) = Ok (false, F (i + n)%nat x)) -> s0 = F i x ->
    loop k (cond_of c src_bs_tables (src_bs_structs c) calls e) (exec c src_bs_tables (src_bs_structs c) rnd fuel calls b) (opt_ev c src_bs_tables (src_bs_structs c) calls st) s0 = Ok (None, F (i + n)%nat y) /\ P y.
Proof.
  intros k i x y s0 Px E K Hb Hc ->. destruct (loop_up c rnd fuel calls (fun i x s => s = F i x /\ P x) e st b body n k i x y (i + n)%nat (F i x) E K (conj eq_refl Px) eq_refl) as (s' & L & -> & Py).
  - intros j z z' s Hj [-> Pz] B. destruct (Hb j z z' Hj Pz B) as (C & s1 & E1 & E2 & Pz'). split; [exact C|]. exists s1, (F (Datatypes.S j) z'). repeat split; assumption.
  - intros z s [-> _]. apply Hc.
  - split; assumption.
Qed.

(* a call of one of the matrix transpositions *)
Definition matrix_call (c : build) (calls : callable) (name : string) (model : list word -> res (list word)) : Prop :=
  forall g m O k i f pre post row row', getc O i f = Ok (CWords (pre ++ row ++ post)) -> model row = Ok row' ->
    calls name [VPtr TWord (Obj i f (wo c (length pre)))] (mk_cst g m O k) = Ok (None, mk_cst g m (setc O i f (CWords (pre ++ row' ++ post))) k).

Lemma keep_for {X} (P : X -> Prop) (body : nat -> X -> res X) n : forall i x y, (forall j x x', P x -> body j x = Ok x' -> P x') -> P x -> for_ n i body x = Ok y -> P y.
Proof.
  induction n as [|n IH]; intros i x y H Px; cbn [for_]; [intros E; injection E as <-; exact Px|]. destruct (body i x) as [x'| | |] eqn:E; cbn [bind]; try discriminate. apply IH; [exact H|]. eapply H; eassumption.
Qed.
(* how many of the first j packets are longer than off *)
Definition cnt (l8 : list N) (off : N) (j : nat) : nat := length (filter (fun l => N.ltb off l) (firstn j l8)).
Lemma cnt_S l8 off j l : aget l8 j = Ok l -> cnt l8 off (Datatypes.S j) = (cnt l8 off j + if N.ltb off l then 1 else 0)%nat.
Proof.
  unfold cnt, aget. destruct (nth_error l8 j) as [x|] eqn:E; [|discriminate]. intros H. injection H as ->.
  revert j E. induction l8 as [|y r IH]; intros [|j] E; try discriminate; cbn in E.
  - injection E as ->. cbn. destruct (off <? l); reflexivity.
  - change (firstn (Datatypes.S (Datatypes.S j)) (y :: r)) with (y :: firstn (Datatypes.S j) r). change (firstn (Datatypes.S j) (y :: r)) with (y :: firstn j r). cbn [filter].
    destruct (off <? y); cbn [length]; rewrite (IH j E); reflexivity.
Qed.
Lemma good_app a b v w : good a v -> good b w -> good (a + b) (v ++ w).
Proof. intros [A F] [B G]. split; [rewrite app_length; lia|apply Forall_app; split; assumption]. Qed.

Section Pack.
  Context (c : build) (rnd : nat -> nat -> N) (fuel : nat) (calls : callable) (m : mem) (O : list object) (ip ir : nat) (f : string) (pre post row0 : list word) (n : nat) (l8 d0 : list N).
  Context (Hf : (256 < fuel)%nat) (Ne : ip <> ir) (Hn : (n <= batch_size c)%nat) (GW : getc O ir f = Ok (CWords (pre ++ row0 ++ post))) (GD : getc O ip "data" = Ok (CBytes d0))
    (GN : getc O ip "n_packets" = Ok (CInts I32 [N.of_nat n])) (GL : getc O ip "len8" = Ok (CInts U32 l8)).
  Notation T := src_bs_tables. Notation S := (src_bs_structs c). Notation be := (big_endian c).
  Notation exec := (exec c T S rnd fuel calls).
  Notation num n := (Some (VInt I32 (N.of_nat n))).
  Notation PB := (TStruct "dvbcsa_bs_pkt_buf"). Notation B8 := (TStruct "dvbcsa_bs_block8_t").
  Definition obs (row : list word) (d : list N) : list object := setc (setc O ir f (CWords (pre ++ row ++ post))) ip "data" (CBytes d).
  Lemma obs_0 : obs row0 d0 = O. Proof. unfold obs. rewrite (setc_id O ir f) by exact GW. apply setc_id, GD. Qed.
  Lemma sub_W row : getc (setc O ir f (CWords (pre ++ row ++ post))) ip "data" = Ok (CBytes d0).
  Proof. rewrite (getc_setc _ _ _ _ _ _ _ GW), (proj2 (Nat.eqb_neq _ _) Ne). exact GD. Qed.
  Lemma obs_W row d : getc (obs row d) ir f = Ok (CWords (pre ++ row ++ post)).
  Proof. unfold obs. rewrite (getc_setc _ _ _ _ _ _ _ (sub_W row)), (proj2 (Nat.eqb_neq _ _) (not_eq_sym Ne)). cbn [andb]. eapply getc_win, GW. Qed.
  Lemma obs_D row d : getc (obs row d) ip "data" = Ok (CBytes d).
  Proof. unfold obs. eapply getc_win, sub_W. Qed.
  Lemma obs_N row d : getc (obs row d) ip "n_packets" = Ok (CInts I32 [N.of_nat n]).
  Proof. unfold obs. rewrite (getc_setc _ _ _ _ _ _ _ (sub_W row)), Nat.eqb_refl. cbn [andb String.eqb Ascii.eqb Bool.eqb]. rewrite (getc_setc _ _ _ _ _ _ _ GW), (proj2 (Nat.eqb_neq _ _) Ne). exact GN. Qed.
  Lemma obs_L row d : getc (obs row d) ip "len8" = Ok (CInts U32 l8).
  Proof. unfold obs. rewrite (getc_setc _ _ _ _ _ _ _ (sub_W row)), Nat.eqb_refl. cbn [andb String.eqb Ascii.eqb Bool.eqb]. rewrite (getc_setc _ _ _ _ _ _ _ GW), (proj2 (Nat.eqb_neq _ _) Ne). exact GL. Qed.
  Lemma obs_setW row d row' : setc (obs row d) ir f (CWords (pre ++ row' ++ post)) = obs row' d.
  Proof. unfold obs. rewrite setc_comm by (left; congruence). rewrite setc_same. reflexivity. Qed.
  Lemma obs_setD row d d' : setc (obs row d) ip "data" (CBytes d') = obs row d'.
  Proof. unfold obs. apply setc_same. Qed.
  Lemma obs_length row d : length (obs row d) = length O.
  Proof. unfold obs. rewrite !setc_length. reflexivity. Qed.
  Lemma obs_row row : obs row d0 = setc O ir f (CWords (pre ++ row ++ post)).
  Proof. unfold obs. apply setc_id, sub_W. Qed.
  Lemma batch_le : (batch_size c <= 256)%nat. Proof. unfold batch_size. destruct (tgt c); lia. Qed.
  Opaque obs.
  Notation st v row d k := (mk_cst v m (obs row d) k).

  Ltac nat_of ::=
  lazymatch goal with
  | |- N.of_nat ?k = N.of_nat _ => reflexivity
  | |- ?a + ?b = N.of_nat _ => eapply natify_add; [nat_of|nat_of]
  | |- ?a - ?b = N.of_nat _ => eapply natify_sub; [nat_of|nat_of]
  | |- ?a * ?b = N.of_nat _ => eapply natify_mul; [nat_of|nat_of]
  | |- ?e = N.of_nat ?k => first [MiniCRun.ground e; let q := eval vm_compute in (N.to_nat e) in unify k q; vm_compute; reflexivity
                                 | unify k (N.to_nat e); symmetry; apply N2Nat.id]
  end.
  Ltac params ::= lazymatch goal with |- bind_params (fn_params ?f) _ = _ => let q := eval hnf in (fn_params f) in change (fn_params f) with q; cbn [bind_params convert bind];
    repeat match goal with |- context [MiniC.conv ?t ?t ?n] => change (MiniC.conv t t n) with n end; reflexivity end.
  Ltac lens ::= repeat (rewrite upd_length || rewrite setc_length || rewrite app_length || rewrite obs_length); cbn [length]; first [reflexivity | lia].
  Ltac getx ::= cbn [objs];
    lazymatch goal with
    | |- getc (obs _ _) ip "data" = _ => apply obs_D
    | |- getc (obs _ _) ip "n_packets" = _ => apply obs_N
    | |- getc (obs _ _) ip "len8" = _ => apply obs_L
    | |- getc (obs _ _) ir f = _ => apply obs_W
    | |- getc (_ ++ [_]) _ "" = _ => eapply getc_end; [lens | names; reflexivity]
    | |- getc (_ ++ [_]) _ _ = _ => eapply getc_before; getx
    end.
  Ltac setx ::= cbn [objs];
    lazymatch goal with
    | |- setc (obs _ _) ip "data" _ = _ => apply obs_setD
    | |- setc (obs _ _) ir f _ = _ => apply obs_setW
    | |- setc (_ ++ [_]) _ "" _ = _ => eapply setc_end; [lens | names; reflexivity]
    | |- setc (_ ++ [_]) _ _ _ = _ => eapply setc_before; [lens|setx]
    end.
  Ltac at_eq := unfold block_at, slot; try change (N.to_nat (0 / 8)) with 0%nat; lia.
  Ltac bgetx := cbn [MiniC.bytes_in]; lazymatch goal with |- bget ?d ?q ?z = _ => match goal with H : bget d ?p z = Ok _ |- _ => replace q with p by at_eq; exact H end end.
  Ltac bsetx := cbn [MiniC.bytes_in]; lazymatch goal with |- bset ?d ?q ?v = _ => match goal with H : bset d ?p v = Ok _ |- _ => replace q with p by at_eq; exact H end end.
  Ltac vgetx := cbn [MiniC.bytes_in]; lazymatch goal with |- view_get _ ?z ?r ?q = _ => match goal with H : view_get _ z r ?p = Ok _ |- _ => replace q with p by lia; exact H end end.
  Ltac vsetx := cbn [MiniC.bytes_in]; lazymatch goal with |- view_set _ ?z ?r ?q ?v = _ => match goal with H : view_set _ z r ?p v = Ok _ |- _ => replace q with p by lia; exact H end end.
  Ltac goodx := first [eassumption | eapply view_get_good; [eassumption|eassumption|eassumption] | eapply bget_good; [eassumption|eassumption] | apply xor_good; goodx].
  Ltac bytesx := cbn [MiniC.bytes_in]; first [eapply native_back; goodx | eapply xor_back; goodx].
  Ltac ptrx ::=
    lazymatch goal with
    | |- bin_op _ _ Add (VPtr (TInt U32) (Obj _ _ (wo _ _))) _ = _ => eapply ptr_u32; svn
    | |- bin_op _ _ Add (VPtr (TInt U64) (Obj _ _ (wo _ _))) _ = _ => eapply ptr_u64; svn
    | |- bin_op _ _ Add (VPtr (TInt U64) (Obj _ _ (wo _ _ + _))) _ = _ => eapply ptr_u64_at; svn
    | |- bin_op _ _ Add (VPtr B8 (Obj _ _ 0)) _ = _ => eapply ptr_blk0; svn
    | |- bin_op _ _ Add (VPtr B8 _) (VInt I32 4294967295) = _ => eapply ptr_blk_back; lia
    | |- bin_op _ _ Add (VPtr B8 _) _ = _ => eapply ptr_blk; svn
    | |- bin_op _ _ Add (VPtr (TInt U32) (Obj _ _ 0)) _ = _ => eapply ptr_u32_0; svn
    | |- bin_op _ _ Add (VPtr (TInt U32) (Obj _ _ (N.of_nat (8 * _)))) _ = _ => eapply ptr_half; svn
    end.
  Ltac alx := lazymatch goal with
    | |- (8 * ?b + 4 * ?k = _ * _)%nat => instantiate (1 := (2 * b + k)%nat); cbn [MiniC.bytes_in]; lia
    | |- (8 * ?b = _ * _)%nat => instantiate (1 := b); cbn [MiniC.bytes_in]; lia
    | |- (4 * ?k = _ * _)%nat => instantiate (1 := k); cbn [MiniC.bytes_in]; lia
    end.
  Ltac loadx ::=
    lazymatch goal with
    | |- load_at _ _ (TInt ?t) (Obj _ _ (wo _ _ + _)) _ = _ => eapply (load_v c t); [eassumption|getx|vgetx]
    | |- load_at _ _ (TInt I32) (Obj ip "n_packets" 0) _ = _ => eapply load_i0; getx
    | |- load_at _ _ (TInt U32) (Obj ip "len8" _) _ = _ => eapply (load_i c U32); [getx|eassumption]
    | |- load_at _ _ (TInt ?t) (Obj _ _ (N.of_nat _)) _ = _ => eapply (load_b c t); [alx|getx|bgetx]
    end.
  Ltac storex ::=
    lazymatch goal with
    | |- store_at _ (TInt ?t) (Obj _ _ (wo _ _ + _)) _ _ = _ => eapply (xstore_v c t); [eassumption|getx|bytesx|vsetx|setx]
    | |- store_at _ (TInt ?t) (Obj _ _ (N.of_nat _)) _ _ = _ => eapply (xstore_b c t); [alx|getx|bytesx|bsetx|setx]
    end.
  Notation rb P := (Some (VPtr (TInt U32) (Obj ir f P))). Notation rq P := (Some (VPtr (TInt U64) (Obj ir f P))).
  Notation bl b := (Some (VPtr B8 (Obj ip "data" (N.of_nat (8 * b))))).
  Notation pbuf_arg := (VPtr PB (Obj ip "" 0)). Notation row_arg := (VPtr TWord (Obj ir f (wo c (length pre)))).
  Context (Hw : Forall (wf c) row0) (Hd : Forall is_byte d0).

  (* what is known of the bytes *)
  Ltac know := repeat match goal with
    | H : bget ?d _ ?z = Ok ?v, F : Forall is_byte ?d |- _ => lazymatch goal with _ : good z v |- _ => fail | |- _ => pose proof (bget_good _ _ _ _ F H) end
    | H : view_get _ ?z ?r _ = Ok ?v, F : Forall (wf _) ?r, Fi : fits _ ?z |- _ => lazymatch goal with _ : good z v |- _ => fail | |- _ => pose proof (view_get_good _ _ _ _ _ Fi F H) end
    | H : view_set _ ?z ?r _ ?v = Ok ?r', F : Forall (wf _) ?r, Fi : fits _ ?z, G : good ?z ?v |- _ =>
        lazymatch goal with _ : Forall (wf _) r' |- _ => fail | |- _ => destruct (view_set_wf _ _ _ _ _ _ Fi F G H) end
    | H : bset ?d _ (map2 N.lxor ?a ?b) = Ok ?d', F : Forall is_byte ?d, A : good ?z ?a, B : good ?z ?b |- _ =>
        lazymatch goal with _ : Forall is_byte d' |- _ => fail | |- _ => pose proof (bset_bytes _ _ _ _ F (proj2 (xor_good _ _ _ A B)) H) end
    | H : bset ?d _ ?v = Ok ?d', F : Forall is_byte ?d, A : good ?z ?v |- _ => lazymatch goal with _ : Forall is_byte d' |- _ => fail | |- _ => pose proof (bset_bytes _ _ _ _ F (proj2 A) H) end
    end.
  Ltac step := first [eapply opt_step; [runx|st_eq] | unfold opt_ev; eapply f_equal; st_eq].
  (* a loop whose body keeps P true *)
  Ltac forx P F M n i0 Hp prep body :=
    eapply seq_one; [eapply st_for; [first [eapply opt_some; runx | reflexivity]|
      refine (proj1 (loop_inv c rnd fuel calls P F _ _ _ _ n fuel i0 _ _ _ Hp M ltac:(lia) _ _ _)); [|intros ?; eapply cond_ok; [pvx|falsex]|cbv beta; st_eq];
      let j := fresh "j" in let x := fresh "x" in let x' := fresh "x'" in let Hj := fresh "Hj" in let Px := fresh "Px" in let M1 := fresh "M" in
      intros j x x' Hj Px M1; cbv beta in M1, Px; prep M1; know; (split; [eapply cond_ok; [pvx|truex]|]); eexists; split; [blk ltac:(idtac; body j)|split; [step|assumption]]]|cbv beta].
  Ltac callx ::= lazymatch goal with H : matrix_call _ _ ?s _ |- calls ?s _ _ = _ => eapply H; [getx|eassumption] end.
  Ltac fin := first [rewrite obs_row | rewrite obs_setW, obs_row]; apply firstn_same; lens.
  Ltac go1 j := stxs.
  Ltac prep_in M1 := unfold u32_0, u32_1 in M1; gob M1.
  Notation pv_pb := ("pkt_buf", BVal (TPtr PB) (Some pbuf_arg)). Notation rowv := ("row", BVal (TPtr TWord) (Some row_arg)).
  Notation iv j := ("i", BVal (TInt I32) (num j)). Notation blv b := ("block", BVal (TPtr B8) (bl b)).
  Lemma in_1 g k row' : tgt c = UINT32 -> matrix_call c calls "dvbcsa_bs_matrix_transpose_64x32" (matrix_transpose_stream c) ->
    dvbcsa_bs_stream_transpose_in c (mk_pb n l8 d0) row0 = Ok row' ->
    call_fun c T S rnd fuel calls (bs_stream_transpose_in_1 c) [pbuf_arg; row_arg] (mk_cst g m O k) = Ok (None, mk_cst g m (setc O ir f (CWords (pre ++ row' ++ post))) k).
  Proof.
    intros Ht Hm M. pose proof batch_le. unfold dvbcsa_bs_stream_transpose_in in M. rewrite Ht in M. cbn [n_packets pdata] in M. gob M.
    pose proof (fits4 c) as F4. rewrite <- obs_0 at 1.
    eapply xcall_void; [reflexivity|params|the_body; do 3 stx|].
    - forx (fun row => Forall (wf c) row)
          (fun j row => st [iv j; blv (23 * j); ("p", BVal (TPtr (TInt U32)) (rb (wo c (length pre)))); pv_pb; rowv] row d0 k)
          E n 0%nat Hw prep_in go1.
      stxs.
    - rewrite obs_setW, <- obs_row. apply firstn_same. lens.
  Qed.
  Ltac prep_in2 M1 := gob M1.
  Ltac runx ::=
    lazymatch goal with
    | |- run _ _ (EAssign (EDeref (EPost Add (EVar _))) _) _ _ => eapply run_assign_inc; [pvx|plx|rvx|binop|asx|asx]
    | |- run _ _ (EAssign _ _) _ _ => eapply run_assign; [pvx|plx|asx]
    | |- run _ _ (EOpAssign _ _ _) _ _ => eapply run_op; [pvx|plx|rvx|binop|asx]
    | |- run _ _ (EPost _ _) _ _ => eapply run_post; [plx|rvx|binop|asx]
    | |- run _ _ (EComma _ _) _ _ => eapply run_comma; [runx|runx]
    | |- run _ _ (ECall _ _) _ _ => eapply run_call; [reflexivity|reflexivity|pvsx|callx]
    end.
  Lemma in_2 g k row' : tgt c <> UINT32 -> matrix_call c calls "dvbcsa_bs_matrix_transpose_64x" (matrix_transpose_stream c) ->
    dvbcsa_bs_stream_transpose_in c (mk_pb n l8 d0) row0 = Ok row' ->
    call_fun c T S rnd fuel calls (bs_stream_transpose_in_2 c) [pbuf_arg; row_arg] (mk_cst g m O k) = Ok (None, mk_cst g m (setc O ir f (CWords (pre ++ row' ++ post))) k).
  Proof.
    intros Ht Hm M. pose proof batch_le. unfold dvbcsa_bs_stream_transpose_in in M. cbn [n_packets pdata] in M. gob M.
    assert (E' : for_ n 0 (fun i row => a <- bget d0 (block_at 0 i) 8 ;; view_set c 8 row i a) row0 = Ok v) by (destruct (tgt c); try contradiction; exact E). clear E.
    pose proof (fits8 c Ht) as F8. rewrite <- obs_0 at 1.
    eapply xcall_void; [reflexivity|params|the_body; do 3 stx|].
    - forx (fun row => Forall (wf c) row)
          (fun j row => st [iv j; blv (23 * j); ("p", BVal (TPtr (TInt U64)) (rq (wo c (length pre) + N.of_nat (8 * j)))); pv_pb; rowv] row d0 k)
          E' n 0%nat Hw prep_in2 go1.
      stxs.
    - rewrite obs_setW, <- obs_row. apply firstn_same. lens.
  Qed.

  Ltac divx ::= eapply div_u32; assumption.
  Ltac prep_out M1 := unfold u32_0, u32_1, stream_out_pair, stream_out_packet, xor_u64 in M1; gob M1.
  Lemma out_1 g k ix d' row' : tgt c = UINT32 -> sane c -> length row0 = 64%nat -> ix < 2 ^ 32 -> ix / 8 < 2 ^ 31 -> matrix_call c calls "dvbcsa_bs_matrix_transpose_64x32" (matrix_transpose_stream c) ->
    dvbcsa_bs_stream_transpose_out c (mk_pb n l8 d0) ix row0 = Ok (mk_pb n l8 d', row') ->
    call_fun c T S rnd fuel calls (bs_stream_transpose_out_1 c) [pbuf_arg; VInt U32 ix; row_arg] (mk_cst g m O k) =
      Ok (None, mk_cst g m (setc (setc O ir f (CWords (pre ++ row' ++ post))) ip "data" (CBytes d')) k).
  Proof.
    intros Ht Hs Lr Hi Hi' Hm M. pose proof batch_le. unfold dvbcsa_bs_stream_transpose_out in M. rewrite Ht in M. cbn [n_packets pdata] in M. gob M. unfold set_pdata in M. cbn [n_packets len8 pdata] in M.
    injection M as -> ->.
    pose proof (fits4 c) as F4.
    assert (W' : Forall (wf c) row'). { pose proof (stream_matrix c row0 Hs (conj Lr Hw)) as W. rewrite E in W. apply W. }
    rewrite <- obs_0 at 1.
    eapply xcall_void; [reflexivity|params|the_body; do 3 stx|].
    - stx. rewrite obs_setW.
      forx (fun d => Forall is_byte d)
          (fun j d => st [iv j; blv (N.to_nat (ix / 8) + 23 * j); ("p", BVal (TPtr (TInt U32)) (rb (wo c (length pre)))); pv_pb; ("index", BVal (TInt U32) (Some (VInt U32 ix))); rowv] row' d k)
          E0 n 0%nat Hd prep_out go1.
      stxs.
    - apply firstn_same. lens.
  Qed.
  Lemma out_2 g k ix d' row' : tgt c <> UINT32 -> sane c -> length row0 = 64%nat -> ix < 2 ^ 32 -> ix / 8 < 2 ^ 31 -> matrix_call c calls "dvbcsa_bs_matrix_transpose_64x" (matrix_transpose_stream c) ->
    dvbcsa_bs_stream_transpose_out c (mk_pb n l8 d0) ix row0 = Ok (mk_pb n l8 d', row') ->
    call_fun c T S rnd fuel calls (bs_stream_transpose_out_2 c) [pbuf_arg; VInt U32 ix; row_arg] (mk_cst g m O k) =
      Ok (None, mk_cst g m (setc (setc O ir f (CWords (pre ++ row' ++ post))) ip "data" (CBytes d')) k).
  Proof.
    intros Ht Hs Lr Hi Hi' Hm M. pose proof batch_le. unfold dvbcsa_bs_stream_transpose_out in M. cbn [n_packets pdata] in M. gob M. unfold set_pdata in M. cbn [n_packets len8 pdata] in M.
    injection M as -> ->.
    assert (E' : (d <- for_ (n / 2) 0 (fun k d => stream_out_pair c row' ix (2 * k) d) d0 ;;
           for_ (n - 2 * (n / 2)) (2 * (n / 2)) (fun i d => stream_out_packet c row' ix i d) d) = Ok d') by (destruct (tgt c); try contradiction; exact E0). clear E0. gob E'.
    pose proof (fits8 c Ht) as F8.
    assert (W' : Forall (wf c) row'). { pose proof (stream_matrix c row0 Hs (conj Lr Hw)) as W. rewrite E in W. apply W. }
    assert (N2 : (2 * (n / 2) <= n)%nat) by (apply Nat.mul_div_le; lia).
    assert (Hv : Forall is_byte v).
    { revert E0. apply (keep_for (fun d => Forall is_byte d)); [|exact Hd]. intros j x x' Px M1. prep_out M1. know. assumption. }
    rewrite <- obs_0 at 1.
    eapply xcall_void; [reflexivity|params|the_body; do 4 stx|].
    - stx. rewrite obs_setW. stx. rewrite (and_not1 n) by lia.
      forx (fun d => Forall is_byte d)
          (fun j d => st [("n_pkt2", BVal (TInt I32) (num (2 * (n / 2)))); iv (2 * j); blv (N.to_nat (ix / 8) + 23 * (2 * j)); ("p", BVal (TPtr (TInt U64)) (rq (wo c (length pre)))); pv_pb; ("index", BVal (TInt U32) (Some (VInt U32 ix))); rowv] row' d k)
          E0 (n / 2)%nat 0%nat Hd prep_out go1.
      forx (fun d => Forall is_byte d)
          (fun j d => st [("n_pkt2", BVal (TInt I32) (num (2 * (n / 2)))); iv j; blv (N.to_nat (ix / 8) + 23 * j); ("p", BVal (TPtr (TInt U64)) (rq (wo c (length pre)))); pv_pb; ("index", BVal (TInt U32) (Some (VInt U32 ix))); rowv] row' d k)
          E' (n - 2 * (n / 2))%nat (2 * (n / 2))%nat Hv prep_out go1.
      stxs.
    - apply firstn_same. lens.
  Qed.

  Ltac prep_bin M1 := unfold block_in_pair, u32_0, u32_1 in M1; cbn [pdata] in M1; gob M1;
    repeat match goal with H : bind _ _ = Ok _ |- _ => gob H end.
  Lemma block_in g k off row' : off < 2 ^ 32 -> off / 8 < 2 ^ 31 -> matrix_call c calls "dvbcsa_bs_matrix_transpose_block" (matrix_transpose_block (BS_SWAP c)) ->
    dvbcsa_bs_block_transpose_in c row0 (mk_pb n l8 d0) off = Ok row' ->
    call_fun c T S rnd fuel calls (bs_block_transpose_in c) [row_arg; pbuf_arg; VInt U32 off] (mk_cst g m O k) = Ok (None, mk_cst g m (setc O ir f (CWords (pre ++ row' ++ post))) k).
  Proof.
    intros Hi Hi' Hm M. pose proof batch_le. unfold dvbcsa_bs_block_transpose_in in M. cbn [n_packets pdata] in M. cbv zeta in M. gob M.
    pose proof (fits4 c) as F4.
    assert (N4 : (4 * (n / 4) <= n)%nat) by (apply Nat.mul_div_le; lia).
    assert (Hv : Forall (wf c) v).
    { revert E. apply (keep_for (fun d => Forall (wf c) d)); [|exact Hw]. intros j x x' Px M1. prep_bin M1. know. assumption. }
    rewrite <- obs_0 at 1.
    eapply xcall_void; [reflexivity|params|the_body; do 4 stx|].
    - rewrite (and_not3 n) by lia.
      forx (fun r => Forall (wf c) r)
          (fun j r => st [("n_pkt4", BVal (TInt I32) (num (4 * (n / 4)))); iv (4 * j); blv (N.to_nat (off / 8) + 23 * (4 * j)); ("ri", BVal (TPtr (TInt U32)) (rb (wo c (length pre)))); ("out", BVal (TPtr TWord) (Some row_arg)); pv_pb; ("offset", BVal (TInt U32) (Some (VInt U32 off)))] r d0 k)
          E (n / 4)%nat 0%nat Hw prep_bin go1.
      forx (fun r => Forall (wf c) r)
          (fun j r => st [("n_pkt4", BVal (TInt I32) (num (4 * (n / 4)))); iv j; blv (N.to_nat (off / 8) + 23 * j); ("ri", BVal (TPtr (TInt U32)) (rb (wo c (length pre)))); ("out", BVal (TPtr TWord) (Some row_arg)); pv_pb; ("offset", BVal (TInt U32) (Some (VInt U32 off)))] r d0 k)
          E0 (n - 4 * (n / 4))%nat (4 * (n / 4))%nat Hv prep_bin go1.
      stxs.
    - rewrite obs_setW, <- obs_row. apply firstn_same. lens.
  Qed.

  (* the statement for one packet, and how many unions it has declared before packet j *)
  Definition packet_if (enc : bool) : stmt :=
    SIf (EBin Lt (EVar "offset") (EIndex (EField (EDeref (EVar "pkt_buf")) "len8") (EVar "i")))
      (SBlock [
        SDecl (TStruct "dvbcsa_bs_block8_t") "b" None;
        SExpr (EAssign (EIndex (EField (EVar "b") "u32") (EConst I32 0)) (EIndex (EVar "ri") (EVar "i")));
        SExpr (EAssign (EIndex (EField (EVar "b") "u32") (EConst I32 1)) (EIndex (EVar "ri") (EBin Add (EVar "i") (EConst I32 (N.of_nat (batch_size c))))));
        SExpr (EOpAssign Xor (EField (EIndex (EVar "block") (EUn Neg (EConst I32 1))) "u64") (if enc then EField (EVar "b") "u64" else EField (EIndex (EVar "block") (EConst I32 0)) "u64"));
        SExpr (EAssign (EField (EIndex (EVar "block") (EConst I32 0)) "u64") (EField (EVar "b") "u64"))])
      (SBlock []).
  Lemma load_b0 t i h q v d s : q = bytes_in t -> getc (objs s) i h = Ok (CBytes d) -> bget d 0 q = Ok v -> load_at c T (TInt t) (Obj i h 0) s = Ok (VInt t (native_val be v)).
  Proof. intros -> G E. apply (load_b c t i h 0 0 v d s); [lia|exact G|exact E]. Qed.
  Notation outv off e := [("ri", BVal (TPtr (TInt U32)) (rb (wo c (length pre)))); ("in", BVal (TPtr TWord) (Some row_arg)); pv_pb; ("offset", BVal (TInt U32) (Some (VInt U32 off))); ("encrypt", BVal (TInt I32) (Some (VInt I32 e)))].
  Ltac loadx ::=
    lazymatch goal with
    | |- load_at _ _ (TInt ?t) (Obj _ _ (wo _ _ + _)) _ = _ => eapply (load_v c t); [eassumption|getx|vgetx]
    | |- load_at _ _ (TInt I32) (Obj ip "n_packets" 0) _ = _ => eapply load_i0; getx
    | |- load_at _ _ (TInt U32) (Obj ip "len8" _) _ = _ => eapply (load_i c U32); [getx|eassumption]
    | |- load_at _ _ (TInt ?t) (Obj _ _ 0) _ = _ => eapply (load_b0 t); [reflexivity|getx|bgetx]
    | |- load_at _ _ (TInt ?t) (Obj _ _ (N.of_nat _)) _ = _ => eapply (load_b c t); [alx|getx|bgetx]
    end.
  Context (Hl : Forall (fun l => l < 2 ^ 32) l8).
  Lemma packet_ok (enc : bool) p4 e off row i d d' k : off < 2 ^ 32 -> off / 8 < 2 ^ 31 -> Forall (wf c) row -> Forall is_byte d -> (i < n)%nat ->
    block_out_packet c enc row off i (mk_pb n l8 d) = Ok (mk_pb n l8 d') ->
    let g := ("n_pkt4", BVal (TInt I32) (num p4)) :: iv i :: blv (N.to_nat (off / 8) + 23 * i) :: outv off e in
    exec (packet_if enc) (st g row d (k + cnt l8 off i)) = Ok (None, st g row d' (k + cnt l8 off (Datatypes.S i))) /\ Forall is_byte d'.
  Proof.
    intros Ho Ho' Wr Wd Hi M g. pose proof batch_le. pose proof (getc_lt _ _ _ _ GD) as Lip. pose proof (fits4 c) as F4. unfold block_out_packet in M. cbn [len8 pdata] in M. gob M.
    assert (Bl : v < 2 ^ 32) by (exact (aget_in _ _ _ _ Hl E)).
    rewrite (cnt_S l8 off i v E). unfold packet_if.
    destruct (off <? v) eqn:Hlt.
    - gob M. injection M as <-. unfold psub in E2. destruct (Nat.ltb_spec (block_at off i) 8) as [|Hb8]; [discriminate|]. injection E2 as <-. unfold xor_u64 in E4. gob E4.
      know. assert (G0 : good 4 v0) by assumption. assert (G1 : good 4 v1) by assumption. pose proof (good_app 4 4 _ _ G0 G1 : good 8 (v0 ++ v1)) as G8.
      assert (Lb : forall k, length (any_bytes rnd k 8) = 8%nat) by (intros; unfold any_bytes; rewrite map_length, seq_length; reflexivity).
      set (bj := any_bytes rnd (k + cnt l8 off i) 8). specialize (Lb (k + cnt l8 off i)%nat : length bj = 8%nat).
      assert (Eb1 : bset bj 0 v0 = Ok (v0 ++ skipn 4 bj)). { unfold bset, splice. destruct G0 as [L0 _]. rewrite L0, Lb. reflexivity. }
      assert (Eb2 : bset (v0 ++ skipn 4 bj) 4 v1 = Ok (v0 ++ v1)).
      { unfold bset. destruct G0 as [L0 _], G1 as [L1 _]. rewrite app_length, skipn_length, L0, L1, Lb. cbn [Nat.add Nat.sub Nat.leb]. unfold splice.
        rewrite firstn_app, L0, Nat.sub_diag, firstn_O, app_nil_r, firstn_all2 by lia. rewrite skipn_all2 by (rewrite app_length, skipn_length, L0, L1, Lb; lia). rewrite app_nil_r. reflexivity. }
      assert (Eb3 : bget (v0 ++ v1) 0 8 = Ok (v0 ++ v1)).
      { unfold bget. rewrite (proj1 G8). cbn [Nat.add Nat.leb skipn]. rewrite <- (proj1 G8) at 1. rewrite firstn_all. reflexivity. }
      assert (Hb1 : (1 <= N.to_nat (off / 8) + 23 * i)%nat) by (unfold block_at, slot in Hb8; lia).
      destruct enc; [injection E3 as <-|]; know; (split; [|assumption]); unfold g;
        (eapply st_if; [eapply cond_ok; [pvx|rewrite true_if; cbn [MiniCRun.cmp]; rewrite Hlt; reflexivity]|]); cbv iota;
        rewrite (Nat.add_assoc k), (Nat.add_1_r (k + _));
        blk ltac:(idtac; eapply seq_one; [eapply xst_declobj; [exact I|reflexivity|reflexivity]|]; match goal with |- context [CBytes (any_bytes ?a ?b ?z)] => change (any_bytes a b z) with bj end; stxs).
    - injection M as <-. split; [|exact Wd]. rewrite Nat.add_0_r. unfold g. eapply st_if; [eapply cond_ok; [pvx|rewrite true_if; cbn [MiniCRun.cmp]; rewrite Hlt; reflexivity]|]. blk ltac:(idtac; stxs).
  Qed.

  Definition okpb (pb : pkt_buf) : Prop := n_packets pb = n /\ len8 pb = l8 /\ Forall is_byte (pdata pb).
  Notation pg p4 i off e := (("n_pkt4", BVal (TInt I32) (num p4)) :: iv i :: blv (N.to_nat (off / 8) + 23 * i) :: outv off e).
  Lemma packet_pb (enc : bool) p4 e off row i pb pb' k : off < 2 ^ 32 -> off / 8 < 2 ^ 31 -> Forall (wf c) row -> (i < n)%nat -> okpb pb -> block_out_packet c enc row off i pb = Ok pb' ->
    exec (packet_if enc) (st (pg p4 i off e) row (pdata pb) (k + cnt l8 off i)) = Ok (None, st (pg p4 i off e) row (pdata pb') (k + cnt l8 off (Datatypes.S i))) /\ okpb pb'.
  Proof.
    intros Ho Ho' Wr Hi (A & B & C) M. destruct pb as [n1 l1 d1]; cbn [n_packets len8 pdata] in *. subst n1 l1.
    assert (exists d', pb' = mk_pb n l8 d') as (d' & ->).
    { unfold block_out_packet in M. cbn [len8 pdata] in M. gob M. destruct (off <? v); gob M; injection M as <-; eexists; reflexivity. }
    destruct (packet_ok enc p4 e off row i d1 d' k Ho Ho' Wr C Hi M) as [X Y]. split; [exact X|]. repeat split. exact Y.
  Qed.
  Lemma packet_step (enc : bool) p4 e off row i pb pb' k r x : off < 2 ^ 32 -> off / 8 < 2 ^ 31 -> Forall (wf c) row -> (i < n)%nat -> okpb pb -> block_out_packet c enc row off i pb = Ok pb' ->
    (okpb pb' -> exec_seq c rnd fuel calls r (st (pg p4 (Datatypes.S i) off e) row (pdata pb') (k + cnt l8 off (Datatypes.S i))) = x) ->
    exec_seq c rnd fuel calls (packet_if enc :: SExpr (EPost Add (EVar "i")) :: SExpr (EOpAssign Add (EVar "block") (EBin Div (EConst I32 0xb8) (EConst I32 8))) :: r)
      (st (pg p4 i off e) row (pdata pb) (k + cnt l8 off i)) = x.
  Proof.
    intros Ho Ho' Wr Hi Op M K. pose proof batch_le. destruct (packet_pb enc p4 e off row i pb pb' k Ho Ho' Wr Hi Op M) as [X Y]. eapply seq_one; [exact X|].
    do 2 stx. rewrite <- (K Y). f_equal. st_eq.
  Qed.
  Lemma packet_keeps enc row off i pb pb' : Forall (wf c) row -> okpb pb -> block_out_packet c enc row off i pb = Ok pb' -> okpb pb'.
  Proof.
    intros Wr (A & B & C) M. pose proof (fits4 c) as F4. unfold block_out_packet in M. gob M. destruct (off <? v); [|injection M as <-; repeat split; assumption].
    gob M. injection M as <-. unfold xor_u64 in E4. gob E4. repeat split; try assumption. cbn [set_pdata pdata].
    know. assert (G0 : good 4 v0) by assumption. assert (G1 : good 4 v1) by assumption. pose proof (good_app 4 4 _ _ G0 G1 : good 8 (v0 ++ v1)) as G8.
    destruct enc; [injection E3 as <-|]; know; assumption.
  Qed.
  (* the two loops of each branch *)
  Lemma out_loops (enc : bool) e off row' pb1 pb2 pb3 k : off < 2 ^ 32 -> off / 8 < 2 ^ 31 -> Forall (wf c) row' -> okpb pb1 ->
    for_ (n / 4) 0 (fun k pb =>
            pb <- block_out_packet c enc row' off (4 * k) pb ;;
            pb <- block_out_packet c enc row' off (4 * k + 1) pb ;;
            pb <- block_out_packet c enc row' off (4 * k + 2) pb ;;
            block_out_packet c enc row' off (4 * k + 3) pb) pb1 = Ok pb2 ->
    for_ (n - 4 * (n / 4)) (4 * (n / 4)) (fun i pb => block_out_packet c enc row' off i pb) pb2 = Ok pb3 ->
    let step := [SExpr (EPost Add (EVar "i")); SExpr (EOpAssign Add (EVar "block") (EBin Div (EConst I32 0xb8) (EConst I32 8)))] in
    let p := packet_if enc :: step in
    exec (SBlock [
            SDecl (TInt I32) "n_pkt4" (Some (EBin And (EField (EDeref (EVar "pkt_buf")) "n_packets") (ECast (TInt U32) (EUn Not (EConst I32 3)))));
            SFor (Some (EAssign (EVar "i") (EConst I32 0))) (EBin Lt (EVar "i") (EVar "n_pkt4")) None (SBlock (p ++ p ++ p ++ p));
            SFor None (EBin Lt (EVar "i") (EField (EDeref (EVar "pkt_buf")) "n_packets")) (Some (EComma (EPost Add (EVar "i")) (EOpAssign Add (EVar "block") (EBin Div (EConst I32 0xb8) (EConst I32 8)))))
              (SBlock [packet_if enc])])
      (st (("i", BVal (TInt I32) None) :: blv (N.to_nat (off / 8)) :: outv off e) row' (pdata pb1) k) =
    Ok (None, st (iv n :: blv (N.to_nat (off / 8) + 23 * n) :: outv off e) row' (pdata pb3) (k + cnt l8 off n)).
  Proof.
    intros Ho Ho' Wr Op E1 E2 step p. pose proof batch_le.
    assert (N4 : (4 * (n / 4) <= n)%nat) by (apply Nat.mul_div_le; lia).
    assert (Op2 : okpb pb2).
    { revert E1. apply (keep_for okpb); [|exact Op]. intros j x x' Px M1. gob M1. repeat (eapply packet_keeps; [exact Wr| |eassumption]). exact Px. }
    replace (iv n :: blv (N.to_nat (off / 8) + 23 * n) :: outv off e) with (iv (4 * (n / 4) + (n - 4 * (n / 4))) :: blv (N.to_nat (off / 8) + 23 * (4 * (n / 4) + (n - 4 * (n / 4)))) :: outv off e)
      by (replace (4 * (n / 4) + (n - 4 * (n / 4)))%nat with n by lia; reflexivity).
    replace (cnt l8 off n) with (cnt l8 off (4 * (n / 4) + (n - 4 * (n / 4)))%nat) by (f_equal; lia).
    eapply xblock.
    1: stx. 1: rewrite (and_not3 n) by lia.
    1: eapply seq_one.
    1: { eapply st_for; [eapply opt_some; runx|].
      refine (proj1 (loop_inv c rnd fuel calls okpb (fun j pb => st (pg (4 * (n / 4))%nat (4 * j)%nat off e) row' (pdata pb) (k + cnt l8 off (4 * j))) _ _ _ _ (n / 4)%nat fuel 0%nat _ _ _ Op E1 ltac:(lia) _ _ _)).
      - intros j x x' Hj Px M1. cbv beta in M1. gob M1.
        replace (4 * j + 1)%nat with (Datatypes.S (4 * j)) in * by lia. replace (4 * j + 2)%nat with (Datatypes.S (Datatypes.S (4 * j))) in * by lia.
        replace (4 * j + 3)%nat with (Datatypes.S (Datatypes.S (Datatypes.S (4 * j)))) in * by lia.
        assert (okpb x') by (repeat (eapply packet_keeps; [exact Wr| |eassumption]); exact Px).
        split; [eapply cond_ok; [pvx|truex]|]. eexists. split; [|split; [|assumption]].
        + eapply xblock.
          1: cbv [p step app].
          1: do 4 (eapply packet_step; [exact Ho|exact Ho'|exact Wr|lia|eassumption|eassumption|intros ?]).
          reflexivity. reflexivity. apply firstn_same; lens.
        + replace (4 * Datatypes.S j)%nat with (Datatypes.S (Datatypes.S (Datatypes.S (Datatypes.S (4 * j))))) by lia. reflexivity.
      - intros ?; eapply cond_ok; [pvx|falsex].
      - change (cnt l8 off (4 * 0)) with 0%nat. st_eq. }
    1: eapply seq_one.
    1: { eapply st_for; [reflexivity|].
      refine (proj1 (loop_inv c rnd fuel calls okpb (fun j pb => st (pg (4 * (n / 4))%nat j off e) row' (pdata pb) (k + cnt l8 off j)) _ _ _ _ (n - 4 * (n / 4))%nat fuel (4 * (n / 4))%nat _ _ _ Op2 E2 ltac:(lia) _ _ _)).
      - intros j x x' Hj Px M1. cbv beta in M1. destruct (packet_pb enc (4 * (n / 4)) e off row' j x x' k Ho Ho' Wr ltac:(lia) Px M1) as [X Y].
        split; [eapply cond_ok; [pvx|truex]|]. eexists. split; [|split; [|exact Y]].
        + eapply xblock; [eapply seq_one; [exact X|reflexivity]|cbn [length Nat.sub skipn]; reflexivity|apply firstn_same; lens].
        + step.
      - intros ?; eapply cond_ok; [pvx|falsex].
      - reflexivity. }
    - reflexivity.
    - reflexivity.
    - fobj.
  Qed.
  Lemma zero_keeps row off i pb pb' l b0 b1 d d1 : Forall (wf c) row -> okpb pb -> aget (len8 pb) i = Ok l -> view_get c 4 row i = Ok b0 -> bset (pdata pb) (block_at off i) b0 = Ok d ->
    view_get c 4 row (i + batch_size c) = Ok b1 -> bset d (block_at off i + 4) b1 = Ok d1 -> pb' = set_pdata pb d1 -> okpb pb'.
  Proof. intros Wr (A & B & C) E0 E1 E2 E3 E4 ->. pose proof (fits4 c) as F4. know. repeat split; assumption. Qed.
  Notation zero_for := (SFor (Some (EAssign (EVar "i") (EConst I32 0))) (EBin Lt (EVar "i") (EField (EDeref (EVar "pkt_buf")) "n_packets")) (Some (EComma (EPost Add (EVar "i")) (EOpAssign Add (EVar "block") (EBin Div (EConst I32 0xb8) (EConst I32 8)))))
          (SBlock [
            SIf (EIndex (EField (EDeref (EVar "pkt_buf")) "len8") (EVar "i"))
              (SBlock [
                SExpr (EAssign (EIndex (EField (EDeref (EVar "block")) "u32") (EConst I32 0)) (EIndex (EVar "ri") (EVar "i")));
                SExpr (EAssign (EIndex (EField (EDeref (EVar "block")) "u32") (EConst I32 1)) (EIndex (EVar "ri") (EBin Add (EVar "i") (EConst I32 (N.of_nat (batch_size c))))))])
              (SBlock [])])).
  Lemma true_u32 v : is_true (VInt U32 v) = Ok (negb (v =? 0)). Proof. reflexivity. Qed.
  Lemma out_zero e row' pb1 pb2 k : Forall (wf c) row' -> okpb pb1 ->
    for_ n 0 (fun i pb =>
      l <- aget (len8 pb) i ;;
      if (l =? 0)%N then Ok pb
      else
        b0 <- view_get c 4 row' i ;;
        d <- bset (pdata pb) (block_at 0 i) b0 ;;
        b1 <- view_get c 4 row' (i + batch_size c) ;;
        d <- bset d (block_at 0 i + 4) b1 ;;
        Ok (set_pdata pb d)) pb1 = Ok pb2 ->
    exec zero_for (st (("i", BVal (TInt I32) None) :: blv 0 :: outv 0 e) row' (pdata pb1) k) = Ok (None, st (iv n :: blv (23 * n) :: outv 0 e) row' (pdata pb2) k).
  Proof.
    intros Wr Op E. pose proof batch_le. pose proof (fits4 c) as F4.
    eapply st_for; [eapply opt_some; runx|].
    refine (proj1 (loop_inv c rnd fuel calls okpb (fun j pb => st (iv j :: blv (23 * j) :: outv 0 e) row' (pdata pb) k) _ _ _ _ n fuel 0%nat _ _ _ Op E ltac:(lia) _ _ _)).
    - intros j x x' Hj Px M1. cbv beta in M1. split; [eapply cond_ok; [pvx|truex]|].
      assert (okpb x').
      { gob M1. destruct (v =? 0); [injection M1 as <-; exact Px|]. gob M1. injection M1 as <-. eapply zero_keeps; [exact Wr|exact Px|exact E0|exact E1|exact E2|exact E3|exact E4|reflexivity]. }
      gob M1. destruct Px as (A & B & C). rewrite B in E0.
      destruct (v =? 0) eqn:Ez.
      + injection M1 as <-. eexists. split; [|split; [|assumption]]. 1: eapply xblock.
        1: eapply seq_one. 1: eapply st_if. 1: eapply cond_ok; [pvx|rewrite true_u32, Ez; reflexivity]. 1: cbn [negb]; blk ltac:(idtac; stxs). 1: reflexivity. 1: cbn [length Nat.sub skipn]; reflexivity. 1: fobj. step.
      + gob M1. injection M1 as <-. know. eexists. split; [|split; [|assumption]]. 1: eapply xblock.
        1: eapply seq_one. 1: eapply st_if. 1: eapply cond_ok; [pvx|rewrite true_u32, Ez; reflexivity]. 1: cbn [negb]; blk ltac:(idtac; stxs). 1: reflexivity. 1: cbn [length Nat.sub skipn]; reflexivity. 1: fobj. step.
    - intros ?; eapply cond_ok; [pvx|falsex].
    - cbv beta; st_eq.
  Qed.
  Lemma block_out (enc : bool) g k off pb' : sane c -> length row0 = 64%nat -> off < 2 ^ 32 -> off / 8 < 2 ^ 31 -> matrix_call c calls "dvbcsa_bs_matrix_transpose_block" (matrix_transpose_block (BS_SWAP c)) ->
    dvbcsa_bs_block_transpose_out_and_xor c row0 (mk_pb n l8 d0) off enc = Ok pb' ->
    exists ri k', matrix_transpose_block (BS_SWAP c) row0 = Ok ri /\ okpb pb' /\
    call_fun c T S rnd fuel calls (bs_block_transpose_out_and_xor c) [row_arg; pbuf_arg; VInt U32 off; VInt I32 (if enc then 1 else 0)] (mk_cst g m O k) =
      Ok (None, mk_cst g m (setc (setc O ir f (CWords (pre ++ ri ++ post))) ip "data" (CBytes (pdata pb'))) k').
  Proof.
    intros Hs Lr Ho Ho' Hm M. pose proof batch_le. unfold dvbcsa_bs_block_transpose_out_and_xor in M. cbn [n_packets] in M. gob M. rename v into ri.
    assert (W' : Forall (wf c) ri). { pose proof (block_matrix c row0 Hs (conj Lr Hw)) as W. rewrite E in W. apply W. }
    assert (Op : okpb (mk_pb n l8 d0)) by (repeat split; assumption).
    change (setc (setc O ir f (CWords (pre ++ ri ++ post))) ip "data" (CBytes (pdata pb'))) with (obs ri (pdata pb')).
    destruct (off =? 0) eqn:Ez.
    - apply N.eqb_eq in Ez. subst off.
      assert (Op' : okpb pb').
      { revert M. apply (keep_for okpb); [|exact Op]. intros j x x' Px M1. gob M1. destruct (v =? 0); [injection M1 as <-; exact Px|]. gob M1. injection M1 as <-.
        eapply zero_keeps; [exact W'|exact Px|exact E0|exact E1|exact E2|exact E3|exact E4|reflexivity]. }
      exists ri, k. split; [exact E|]. split; [exact Op'|].
      rewrite <- obs_0 at 1.
      eapply xcall_void; [reflexivity|params|the_body|].
      + do 4 stx. rewrite obs_setW. change (0 / 8) with 0. change (N.to_nat 0) with 0%nat.
        eapply seq_one; [eapply st_if; [eapply cond_ok; [pvx|reflexivity]|]|reflexivity].
        cbv iota. eapply xblock; [eapply seq_one; [eapply (out_zero _ ri (mk_pb n l8 d0) pb' k); [exact W'|exact Op|exact M]|reflexivity]|cbn [length Nat.sub skipn]; reflexivity|apply firstn_same; lens].
      + apply firstn_same. lens.
    - gob M. rename v into pb2.
      assert (Op2 : okpb pb2).
      { revert E0. apply (keep_for okpb); [|exact Op]. intros j x x' Px M1. gob M1. repeat (eapply packet_keeps; [exact W'| |eassumption]). exact Px. }
      assert (Op' : okpb pb').
      { revert M. apply (keep_for okpb); [|exact Op2]. intros j x x' Px M1. eapply packet_keeps; [exact W'|exact Px|exact M1]. }
      exists ri, (k + cnt l8 off n)%nat. split; [exact E|]. split; [exact Op'|].
      rewrite <- obs_0 at 1. destruct enc.
      + eapply xcall_void; [reflexivity|params|the_body; do 4 stx; rewrite obs_setW|].
        { eapply seq_one; [eapply st_if; [eapply cond_ok; [pvx|rewrite true_if; cbn [MiniCRun.cmp]; rewrite Ez; reflexivity]|]|reflexivity]. cbv iota.
          eapply xblock; [eapply seq_one; [eapply st_if; [eapply cond_ok; [pvx|reflexivity]|cbv iota; eapply (out_loops true 1 off ri (mk_pb n l8 d0) pb2 pb' k); [exact Ho|exact Ho'|exact W'|exact Op|exact E0|exact M]]|reflexivity]
            |cbn [length Nat.sub skipn]; reflexivity|apply firstn_same; lens]. }
        apply firstn_same. lens.
      + eapply xcall_void; [reflexivity|params|the_body; do 4 stx; rewrite obs_setW|].
        { eapply seq_one; [eapply st_if; [eapply cond_ok; [pvx|rewrite true_if; cbn [MiniCRun.cmp]; rewrite Ez; reflexivity]|]|reflexivity]. cbv iota.
          eapply xblock; [eapply seq_one; [eapply st_if; [eapply cond_ok; [pvx|reflexivity]|cbv iota; eapply (out_loops false 0 off ri (mk_pb n l8 d0) pb2 pb' k); [exact Ho|exact Ho'|exact W'|exact Op|exact E0|exact M]]|reflexivity]
            |cbn [length Nat.sub skipn]; reflexivity|apply firstn_same; lens]. }
        apply firstn_same. lens.
  Qed.
End Pack.
