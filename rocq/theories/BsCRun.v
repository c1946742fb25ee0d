(** BsCRun.v -- running programs of BsC.v symbolically: one lemma per construct, and tactics that apply
    them.  Expressions are free of side effects except at the top of a statement: [pv e s v] says that
    [e] has the value [v] in the state [s], and leaves [s] unchanged; [pl e s r] that it designates [r]. *)
From Coq Require Import String.
From Verif Require Import Base Mem ModelBsWord ModelBsTranspose ModelBsStream ModelBsBlock ModelBsAlgo BsC SourceBitslice.
From Verif Require MiniC MiniCRun.
Local Open Scope string_scope. Local Open Scope list_scope. Local Open Scope N_scope.

(** ** Word offsets *)
Definition wo (c : build) (n : nat) : N := N.of_nat (n * word_bytes c).
Lemma wb_pos c : (0 < word_bytes c)%nat.
Proof. unfold word_bytes. destruct (tgt c); lia. Qed.
Lemma wo_mod c n : wo c n mod N.of_nat (word_bytes c) = 0.
Proof. unfold wo. pose proof (wb_pos c). rewrite Nat2N.inj_mul. apply N.mod_mul. lia. Qed.
Lemma wo_div c n : wo c n / N.of_nat (word_bytes c) = N.of_nat n.
Proof. unfold wo. pose proof (wb_pos c). rewrite Nat2N.inj_mul. apply N.div_mul. lia. Qed.
Lemma wo_0 c : wo c 0 = 0. Proof. reflexivity. Qed.
Lemma wo_add c a b : wo c (a + b) = wo c a + wo c b. Proof. unfold wo. lia. Qed.

(** ** Objects *)
Lemma getc_here O i ob f d : (i < length O)%nat -> member ob f = Some d -> getc (upd O i ob) i f = Ok d.
Proof. intros H M. unfold getc. rewrite nth_error_upd, Nat.eqb_refl, (proj2 (Nat.ltb_lt _ _) H). cbn. rewrite M. reflexivity. Qed.
Lemma getc_other O i j ob f r : i <> j -> getc O i f = r -> getc (upd O j ob) i f = r.
Proof. intros H <-. unfold getc. rewrite nth_error_upd. destruct (Nat.eqb_spec i j); [contradiction|]. reflexivity. Qed.
Lemma setc_here O i ob f d ob' : (i < length O)%nat -> set_member ob f d = ob' -> setc (upd O i ob) i f d = upd O i ob'.
Proof.
  intros H <-. unfold setc. rewrite nth_error_upd, Nat.eqb_refl, (proj2 (Nat.ltb_lt _ _) H). cbn.
  clear H. revert i. induction O as [|x O IH]; intros [|i]; cbn [upd]; try reflexivity. f_equal. apply IH.
Qed.
Lemma upd_comm {A} (O : list A) i j a b : i <> j -> upd (upd O i a) j b = upd (upd O j b) i a.
Proof. revert i j. induction O as [|x O IH]; intros [|i] [|j] H; cbn [upd]; try reflexivity; try contradiction. f_equal. apply IH. lia. Qed.
Lemma upd_twice {A} (O : list A) i a b : upd (upd O i a) i b = upd O i b.
Proof. revert i. induction O as [|x O IH]; intros [|i]; cbn [upd]; try reflexivity. f_equal. apply IH. Qed.
Lemma setc_under O i j ob f d O' : i <> j -> setc O i f d = O' -> setc (upd O j ob) i f d = upd O' j ob.
Proof.
  intros H <-. unfold setc. rewrite nth_error_upd. destruct (Nat.eqb_spec i j); [contradiction|].
  destruct (nth_error O i); [|reflexivity]. apply upd_comm. congruence.
Qed.
Lemma setc_length O i f d : length (setc O i f d) = length O.
Proof. unfold setc. destruct (nth_error O i); [apply upd_length|reflexivity]. Qed.
Lemma member_set ob f g d e : member ob f = Some e -> member (set_member ob f d) g = if String.eqb g f then Some d else member ob g.
Proof.
  induction ob as [|[x y] ob IH]; cbn [member set_member]; [discriminate|]. destruct (String.eqb_spec x f) as [->|N].
  - intros _. cbn [member]. rewrite (String.eqb_sym g f). destruct (String.eqb f g); reflexivity.
  - intros H. cbn [member]. destruct (String.eqb_spec x g) as [->|M]; [|apply IH, H]. destruct (String.eqb_spec g f); [contradiction|]. reflexivity.
Qed.
Lemma getc_setc O i f d j g e : getc O i f = Ok e -> getc (setc O i f d) j g = if (Nat.eqb j i && String.eqb g f)%bool then Ok d else getc O j g.
Proof.
  unfold getc, setc. destruct (nth_error O i) as [ob|] eqn:E; [|discriminate]. destruct (member ob f) as [x|] eqn:M; [|discriminate]. intros _.
  rewrite nth_error_upd. destruct (Nat.eqb_spec j i) as [->|Nj].
  - assert (L : (i < length O)%nat) by (apply nth_error_Some; congruence). rewrite (proj2 (Nat.ltb_lt _ _) L), E. cbn.
    rewrite (member_set _ _ _ _ _ M). destruct (String.eqb g f); reflexivity.
  - reflexivity.
Qed.
Lemma setc_same O i f d e : setc (setc O i f d) i f e = setc O i f e.
Proof.
  unfold setc. destruct (nth_error O i) as [ob|] eqn:E; [|rewrite E; reflexivity].
  assert (L : (i < length O)%nat) by (apply nth_error_Some; congruence).
  rewrite nth_error_upd, Nat.eqb_refl, (proj2 (Nat.ltb_lt _ _) L). cbn. rewrite upd_twice. f_equal.
  clear. induction ob as [|[x y] ob IH]; cbn [set_member]; [reflexivity|]. destruct (String.eqb x f) eqn:F; cbn [set_member]; rewrite F; [reflexivity|]. f_equal. exact IH.
Qed.
(* two members *)
Lemma setc_comm O i f d j g e : (i <> j \/ f <> g) -> setc (setc O i f d) j g e = setc (setc O j g e) i f d.
Proof.
  intros H. destruct (Nat.eq_dec i j) as [->|N].
  - assert (F : f <> g) by (destruct H; [contradiction|assumption]). unfold setc. destruct (nth_error O j) as [ob|] eqn:E; [|rewrite E; reflexivity].
    assert (L : (j < length O)%nat) by (apply nth_error_Some; congruence).
    rewrite !nth_error_upd, Nat.eqb_refl, (proj2 (Nat.ltb_lt _ _) L). cbn. rewrite !upd_twice. f_equal.
    clear - F. induction ob as [|[x y] ob IH]; cbn [set_member]; [reflexivity|].
    destruct (String.eqb x f) eqn:A, (String.eqb x g) eqn:B; cbn [set_member]; rewrite ?A, ?B; try reflexivity; [|f_equal; exact IH].
    apply String.eqb_eq in A, B. congruence.
  - unfold setc. destruct (nth_error O i) as [a|] eqn:E, (nth_error O j) as [b|] eqn:G; rewrite ?nth_error_upd;
      rewrite ?(proj2 (Nat.eqb_neq i j) N), ?(proj2 (Nat.eqb_neq j i) (not_eq_sym N)), ?E, ?G; try reflexivity. apply upd_comm. exact N.
Qed.
Lemma setc_id O i f d : getc O i f = Ok d -> setc O i f d = O.
Proof.
  unfold getc, setc. destruct (nth_error O i) as [ob|] eqn:E; [|discriminate]. destruct (member ob f) as [x|] eqn:M; [|discriminate]. intros H. injection H as ->.
  assert (S : set_member ob f d = ob).
  { clear E. revert M. induction ob as [|[x y] ob IH]; cbn [member set_member]; [discriminate|]. destruct (String.eqb x f); [congruence|]. intros H. rewrite (IH H). reflexivity. }
  rewrite S. clear S M. revert i E. induction O as [|x O IH]; intros [|i] E; try discriminate; cbn in *; [congruence|]. f_equal. apply IH, E.
Qed.
Lemma getc_lt O i f d : getc O i f = Ok d -> (i < length O)%nat.
Proof. unfold getc. destruct (nth_error O i) eqn:E; [|discriminate]. intros _. apply nth_error_Some. congruence. Qed.
Lemma getc_app O l i f d : getc O i f = Ok d -> getc (O ++ l) i f = Ok d.
Proof. intros H. pose proof (getc_lt _ _ _ _ H). unfold getc in *. rewrite nth_error_app1 by assumption. exact H. Qed.
Lemma upd_app {A} (O : list A) l i x : (i < length O)%nat -> upd (O ++ l) i x = upd O i x ++ l.
Proof. revert i. induction O as [|y O IH]; intros [|i] H; cbn in *; try lia; [reflexivity|]. f_equal. apply IH. lia. Qed.
Lemma setc_app O l i f d : (i < length O)%nat -> setc (O ++ l) i f d = setc O i f d ++ l.
Proof.
  intros H. unfold setc. rewrite nth_error_app1 by exact H. destruct (nth_error O i); [|reflexivity]. apply upd_app, H.
Qed.
Lemma nth_end {A} (l : list A) x : nth_error (l ++ [x]) (length l) = Some x.
Proof. induction l as [|z l IH]; [reflexivity|]. exact IH. Qed.
Lemma upd_end {A} (l : list A) x y : upd (l ++ [x]) (length l) y = l ++ [y].
Proof. induction l as [|z l IH]; [reflexivity|]. simpl. f_equal. exact IH. Qed.

(** ** Integers *)
Lemma int_lift c o ta a tb b t n : MiniC.int_op o ta a tb b = Ok (MiniC.VInt t n) -> int_op c o ta a tb b = Ok (VInt t n).
Proof. intros E. unfold int_op. rewrite E. reflexivity. Qed.
Lemma natify_add a b x y : a = N.of_nat x -> b = N.of_nat y -> a + b = N.of_nat (x + y). Proof. intros -> ->. symmetry. apply Nat2N.inj_add. Qed.
Lemma natify_sub a b x y : a = N.of_nat x -> b = N.of_nat y -> a - b = N.of_nat (x - y). Proof. intros -> ->. symmetry. apply Nat2N.inj_sub. Qed.
Lemma natify_mul a b x y : a = N.of_nat x -> b = N.of_nat y -> a * b = N.of_nat (x * y). Proof. intros -> ->. symmetry. apply Nat2N.inj_mul. Qed.
Ltac nat_of :=
  lazymatch goal with
  | |- N.of_nat ?k = N.of_nat _ => reflexivity
  | |- ?a + ?b = N.of_nat _ => eapply natify_add; [nat_of|nat_of]
  | |- ?a - ?b = N.of_nat _ => eapply natify_sub; [nat_of|nat_of]
  | |- ?a * ?b = N.of_nat _ => eapply natify_mul; [nat_of|nat_of]
  | |- ?e = N.of_nat ?k => MiniCRun.ground e; let q := eval vm_compute in (N.to_nat e) in unify k q; vm_compute; reflexivity
  | |- ?e = N.of_nat ?k => unify k (N.to_nat e); symmetry; apply N2Nat.id
  end.
(* sval t n = Z.of_nat ?k *)
Lemma sval_nat t n k : n = N.of_nat k -> n < 2 ^ (if MiniC.is_signed t then MiniC.bits t - 1 else MiniC.bits t) -> sval t n = Z.of_nat k.
Proof. intros -> H. rewrite MiniCRun.sval_id by exact H. apply nat_N_Z. Qed.

Section Run.
  Context (c : build) (rnd : nat -> nat -> N) (fuel : nat) (calls : callable).
  Notation T := src_bs_tables. Notation S := (src_bs_structs c).
  Notation ev := (ev c T S calls).
  Notation rvalue := (rvalue c T).
  Notation exec := (exec c T S rnd fuel calls).
  Notation wb := (N.of_nat (word_bytes c)).

  (** ** Pointers *)
  Lemma size_word : size_of c S 2 TWord = wb. Proof. reflexivity. Qed.
  Lemma move_at t i f k z k' : (Z.of_N k + z * Z.of_N (size_of c S 2 t))%Z = Z.of_N k' -> move c S t (Obj i f k) z = Ok (Obj i f k').
  Proof. intros E. unfold move. rewrite E, (proj2 (Z.ltb_ge _ _) (N2Z.is_nonneg _)), N2Z.id. reflexivity. Qed.
  Lemma move_flat t a z a' : (Z.of_N a + z * Z.of_N (size_of c S 2 t))%Z = Z.of_N a' -> move c S t (Flat a) z = Ok (Flat a').
  Proof. intros E. unfold move. rewrite E, (proj2 (Z.ltb_ge _ _) (N2Z.is_nonneg _)), N2Z.id. reflexivity. Qed.
  Lemma move_tab t x k z k' : (Z.of_N k + z)%Z = Z.of_N k' -> move c S t (Tab x k) z = Ok (Tab x k').
  Proof. intros E. unfold move. replace (Z.of_N k + z * Z.of_N 1)%Z with (Z.of_N k') by lia. rewrite (proj2 (Z.ltb_ge _ _) (N2Z.is_nonneg _)), N2Z.id. reflexivity. Qed.
  (* words *)
  Lemma ptr_word i f n ti x k : sval ti x = Z.of_nat k -> bin_op c S Add (VPtr TWord (Obj i f (wo c n))) (VInt ti x) = Ok (VPtr TWord (Obj i f (wo c (n + k)))).
  Proof. intros E. unfold bin_op. rewrite E, (move_at _ _ _ _ _ (wo c (n + k))); [reflexivity|]. rewrite size_word. unfold wo. nia. Qed.
  Lemma ptr_word0 i f ti x k : sval ti x = Z.of_nat k -> bin_op c S Add (VPtr TWord (Obj i f 0)) (VInt ti x) = Ok (VPtr TWord (Obj i f (wo c k))).
  Proof. apply (ptr_word i f 0). Qed.
  (* rows of four words *)
  Lemma ptr_row i f a ti x k : sval ti x = Z.of_nat k ->
    bin_op c S Add (VPtr (TArr TWord 4) (Obj i f (wo c (4 * a)))) (VInt ti x) = Ok (VPtr (TArr TWord 4) (Obj i f (wo c (4 * (a + k))))).
  Proof.
    intros E. unfold bin_op. rewrite E, (move_at _ _ _ _ _ (wo c (4 * (a + k)))); [reflexivity|].
    change (size_of c S 2 (TArr TWord 4)) with (4 * wb). unfold wo. nia.
  Qed.
  Lemma ptr_row0 i f ti x k : sval ti x = Z.of_nat k ->
    bin_op c S Add (VPtr (TArr TWord 4) (Obj i f 0)) (VInt ti x) = Ok (VPtr (TArr TWord 4) (Obj i f (wo c (4 * k)))).
  Proof. apply (ptr_row i f 0). Qed.
  Lemma ptr_row_back i f a : (1 <= a)%nat ->
    bin_op c S Add (VPtr (TArr TWord 4) (Obj i f (wo c (4 * a)))) (VInt I32 4294967295) = Ok (VPtr (TArr TWord 4) (Obj i f (wo c (4 * (a - 1))))).
  Proof.
    intros L. unfold bin_op. change (sval I32 4294967295) with (-1)%Z. rewrite (move_at _ _ _ _ _ (wo c (4 * (a - 1)))); [reflexivity|].
    change (size_of c S 2 (TArr TWord 4)) with (4 * wb). unfold wo. nia.
  Qed.
  Lemma ptr_row_sub i f a : (1 <= a)%nat ->
    bin_op c S Sub (VPtr (TArr TWord 4) (Obj i f (wo c (4 * a)))) (VInt I32 1) = Ok (VPtr (TArr TWord 4) (Obj i f (wo c (4 * (a - 1))))).
  Proof.
    intros L. unfold bin_op. change (- sval I32 1)%Z with (-1)%Z. rewrite (move_at _ _ _ _ _ (wo c (4 * (a - 1)))); [reflexivity|].
    change (size_of c S 2 (TArr TWord 4)) with (4 * wb). unfold wo. nia.
  Qed.
  Lemma load_w i f n ws w s : getc (objs s) i f = Ok (CWords ws) -> aget ws n = Ok w -> load_at c T TWord (Obj i f (wo c n)) s = Ok (VWord w).
  Proof. intros G A. unfold load_at. rewrite G. cbn [bind]. unfold get_word. rewrite wo_mod, wo_div. cbn [N.eqb]. rewrite Nat2N.id, A. reflexivity. Qed.
  Lemma load_w0 i f ws w s : getc (objs s) i f = Ok (CWords ws) -> aget ws 0 = Ok w -> load_at c T TWord (Obj i f 0) s = Ok (VWord w).
  Proof. apply (load_w i f 0). Qed.
  Lemma store_w i f n ws ws' w s O : getc (objs s) i f = Ok (CWords ws) -> aset ws n w = Ok ws' -> setc (objs s) i f (CWords ws') = O ->
    store_at c TWord (Obj i f (wo c n)) (VWord w) s = Ok (set_objs s O).
  Proof. intros G A <-. unfold store_at. rewrite G. cbn [bind]. unfold set_word. rewrite wo_mod, wo_div. cbn [N.eqb]. rewrite Nat2N.id, A. reflexivity. Qed.
  Lemma store_w0 i f ws ws' w s O : getc (objs s) i f = Ok (CWords ws) -> aset ws 0 w = Ok ws' -> setc (objs s) i f (CWords ws') = O ->
    store_at c TWord (Obj i f 0) (VWord w) s = Ok (set_objs s O).
  Proof. apply (store_w i f 0). Qed.
  Lemma load_tab it x l k n s : T x = Some (it, l) -> tget l k = Ok n -> load_at c T (TInt it) (Tab x k) s = Ok (VInt it n).
  Proof. intros E A. unfold load_at. rewrite E, A. destruct it; reflexivity. Qed.

  (** ** Expressions without side effects *)
  Definition pl (e : expr) (s : cstate) (r : result) : Prop := ev e s = Ok (r, s).
  Definition pv (e : expr) (s : cstate) (v : value) : Prop := exists r, ev e s = Ok (r, s) /\ rvalue r s = Ok v.
  Lemma pv_pl e s r v : pl e s r -> rvalue r s = Ok v -> pv e s v. Proof. intros A B. exists r. split; assumption. Qed.
  Lemma pv_const t n s : pv (EConst t n) s (VInt t n). Proof. eexists. split; reflexivity. Qed.
  Lemma pv_var x s t v : lookup (vars s) x = Some (BVal t (Some v)) -> pv (EVar x) s v.
  Proof. intros E. exists (LVar t x). split; simpl; rewrite E; reflexivity. Qed.
  Lemma pl_var x s t v : lookup (vars s) x = Some (BVal t v) -> pl (EVar x) s (LVar t x).
  Proof. intros E. unfold pl. simpl. rewrite E. reflexivity. Qed.
  Lemma pl_obj x s t i : lookup (vars s) x = Some (BObj t i) -> pl (EVar x) s (L t (Obj i "" 0)).
  Proof. intros E. unfold pl. simpl. rewrite E. reflexivity. Qed.
  Lemma pl_tab x s t l : lookup (vars s) x = None -> T x = Some (t, l) -> pl (EVar x) s (L (TArr (TInt t) (N.of_nat (length l))) (Tab x 0)).
  Proof. intros E F. unfold pl. cbn [BsC.ev]. rewrite E, F. reflexivity. Qed.
  Lemma pv_bin o a b s va vb v : pv a s va -> pv b s vb -> bin_op c S o va vb = Ok v -> pv (EBin o a b) s v.
  Proof. intros (ra & A & A') (rb & B & B') E. exists (V v). split; [|reflexivity]. simpl. rewrite A; simpl. rewrite A'; simpl. rewrite B; simpl. rewrite B'; simpl. rewrite E. reflexivity. Qed.
  Lemma pv_un o a s va v : pv a s va -> un_op o va = Ok v -> pv (EUn o a) s v.
  Proof. intros (ra & A & A') E. exists (V v). split; [|reflexivity]. simpl. rewrite A; simpl. rewrite A'; simpl. rewrite E. reflexivity. Qed.
  Lemma pv_cond x a b s vc t v : pv x s vc -> is_true vc = Ok t -> (if t then pv a s v else pv b s v) -> pv (ECond x a b) s v.
  Proof.
    intros (rc & A & A') C E. exists (V v). split; [|reflexivity]. simpl. rewrite A; simpl. rewrite A'; simpl. rewrite C; simpl.
    destruct t; destruct E as (r & B & B'); rewrite B; simpl; rewrite B'; reflexivity.
  Qed.
  Lemma pv_cast t a s va v : pv a s va -> convert t va = Ok v -> pv (ECast t a) s v.
  Proof. intros (ra & A & A') E. exists (V v). split; [|reflexivity]. simpl. rewrite A; simpl. rewrite A'; simpl. rewrite E. reflexivity. Qed.
  Lemma pl_index a b s va vb t l : pv a s va -> pv b s vb -> bin_op c S Add va vb = Ok (VPtr t l) -> pl (EIndex a b) s (L t l).
  Proof. intros (ra & A & A') (rb & B & B') E. unfold pl. simpl. rewrite A; simpl. rewrite A'; simpl. rewrite B; simpl. rewrite B'; simpl. rewrite E. reflexivity. Qed.
  Lemma pl_deref a s t l : pv a s (VPtr t l) -> pl (EDeref a) s (L t l).
  Proof. intros (ra & A & A'). unfold pl. simpl. rewrite A; simpl. rewrite A'. reflexivity. Qed.
  Lemma pv_addr a s t l : pl a s (L t l) -> pv (EAddr a) s (VPtr t l).
  Proof. intros A. eexists. split; [simpl; rewrite A; reflexivity|reflexivity]. Qed.
  Lemma pl_field_obj a f s n i fs t : pl a s (L (TStruct n) (Obj i "" 0)) -> S n = Some (false, fs) -> field_type fs f = Some t -> pl (EField a f) s (L t (Obj i f 0)).
  Proof. intros A B C. unfold pl. cbn [BsC.ev]. rewrite A; cbn [bind]. rewrite B, C. reflexivity. Qed.
  Lemma pl_field_flat a f s n p fs t q : pl a s (L (TStruct n) (Flat p)) -> S n = Some (false, fs) -> field_type fs f = Some t -> p + field_offset c S fs 0 f = q ->
    pl (EField a f) s (L t (Flat q)).
  Proof. intros A B C <-. unfold pl. cbn [BsC.ev]. rewrite A; cbn [bind]. rewrite B, C. reflexivity. Qed.
  Lemma pl_field_union a f s n l fs t : pl a s (L (TStruct n) l) -> S n = Some (true, fs) -> field_type fs f = Some t -> pl (EField a f) s (L t l).
  Proof. intros A B C. unfold pl. cbn [BsC.ev]. rewrite A; cbn [bind]. rewrite B, C. reflexivity. Qed.
  Lemma pv_wval b v s : pv (EWVal b v) s (VWord (BS_VAL c b v)). Proof. eexists. split; reflexivity. Qed.
  Lemma pv_wop o a b s x y : pv a s (VWord x) -> pv b s (VWord y) -> pv (EWop o a b) s (VWord (word_op o x y)).
  Proof. intros (ra & A & A') (rb & B & B'). eexists (V _). split; [|reflexivity]. simpl. rewrite A; simpl. rewrite A'; simpl. rewrite B; simpl. rewrite B'. reflexivity. Qed.
  Lemma pv_wnot a s x : pv a s (VWord x) -> pv (EWNot a) s (VWord (BS_NOT c x)).
  Proof. intros (ra & A & A'). eexists (V _). split; [|reflexivity]. simpl. rewrite A; simpl. rewrite A'. reflexivity. Qed.
  Lemma pv_wshl a b s x t n : pv a s (VWord x) -> pv b s (VInt t n) -> pv (EWShl a b) s (VWord (BS_SHL c x n)).
  Proof. intros (ra & A & A') (rb & B & B'). eexists (V _). split; [|reflexivity]. simpl. rewrite A; simpl. rewrite A'; simpl. rewrite B; simpl. rewrite B'. reflexivity. Qed.
  Lemma pv_wshr a b s x t n : pv a s (VWord x) -> pv b s (VInt t n) -> pv (EWShr a b) s (VWord (BS_SHR c x n)).
  Proof. intros (ra & A & A') (rb & B & B'). eexists (V _). split; [|reflexivity]. simpl. rewrite A; simpl. rewrite A'; simpl. rewrite B; simpl. rewrite B'. reflexivity. Qed.

  (** ** Assignments *)
  Definition asg (l : result) (v : value) (s s' : cstate) : Prop := exists r, assign c l v s = Ok (r, s').
  Lemma asg_var t x v v' s g : convert t v = Ok v' -> set_var (vars s) x v' = g -> asg (LVar t x) v s (set_vars s g).
  Proof. intros E <-. eexists. unfold assign. rewrite E. reflexivity. Qed.
  Lemma asg_loc t p v v' s s' : convert t v = Ok v' -> store_at c t p v' s = Ok s' -> asg (L t p) v s s'.
  Proof. intros E F. eexists. unfold assign. rewrite E; cbn [bind]. rewrite F. reflexivity. Qed.
  Definition run (e : expr) (s s' : cstate) : Prop := exists r, ev e s = Ok (r, s').
  Lemma run_pv e s v : pv e s v -> run e s s. Proof. intros (r & A & _). exists r. exact A. Qed.
  Lemma run_assign l r s v rl s' : pv r s v -> pl l s rl -> asg rl v s s' -> run (EAssign l r) s s'.
  Proof. intros (rr & A & A') B (x & C). exists x. cbn [BsC.ev]. rewrite A; cbn [bind]. rewrite A'; cbn [bind]. rewrite B; cbn [bind]. exact C. Qed.
  Lemma run_op o l r s vr rl vl v s' : pv r s vr -> pl l s rl -> rvalue rl s = Ok vl -> bin_op c S o vl vr = Ok v -> asg rl v s s' -> run (EOpAssign o l r) s s'.
  Proof.
    intros (rr & A & A') B D E (x & C). exists x. cbn [BsC.ev]. rewrite A; cbn [bind]. rewrite A'; cbn [bind]. rewrite B; cbn [bind]. rewrite D; cbn [bind].
    rewrite E; cbn [bind]. exact C.
  Qed.
  Lemma run_post o l s rl vl v s' : pl l s rl -> rvalue rl s = Ok vl -> bin_op c S o vl (VInt I32 1) = Ok v -> asg rl v s s' -> run (EPost o l) s s'.
  Proof.
    intros B D E (x & C). eexists. cbn [BsC.ev]. rewrite B; cbn [bind]. rewrite D; cbn [bind].
    rewrite E; cbn [bind]. rewrite C. reflexivity.
  Qed.
  Lemma run_comma a b s s1 s2 : run a s s1 -> run b s1 s2 -> run (EComma a b) s s2.
  Proof. intros (x & A) (y & B). exists y. cbn [BsC.ev]. rewrite A; cbn [bind]. exact B. Qed.

  Fixpoint evs (l : list expr) (s : cstate) : res (list value * cstate) :=
    match l with
    | [] => Ok ([], s)
    | a :: r => '(ra, s) <- ev a s ;; v <- rvalue ra s ;; '(vs, s) <- evs r s ;; Ok (v :: vs, s)
    end.
  Definition pvs (l : list expr) (s : cstate) (vs : list value) : Prop := evs l s = Ok (vs, s).
  Lemma pvs_nil s : pvs [] s []. Proof. reflexivity. Qed.
  Lemma pvs_cons a r s v vs : pv a s v -> pvs r s vs -> pvs (a :: r) s (v :: vs).
  Proof. intros (ra & A & A') B. unfold pvs. cbn [evs]. rewrite A; cbn [bind]. rewrite A'; cbn [bind]. rewrite B. reflexivity. Qed.
  Lemma evs_fix l : forall s, (fix evs (l : list expr) (s : cstate) : res (list value * cstate) :=
             match l with
             | [] => Ok ([], s)
             | a :: r => '(ra, s) <- ev a s ;; v <- rvalue ra s ;; '(vs, s) <- evs r s ;; Ok (v :: vs, s)
             end) l s = evs l s.
  Proof.
    reflexivity.
  Qed.
  Lemma run_call f l s vs r s2 : String.eqb f "memcpy" = false -> String.eqb f "BLOCK_SBOX_PERMUTE" = false -> pvs l s vs -> calls f vs s = Ok (r, s2) -> run (ECall f l) s s2.
  Proof. intros M M' A B. eexists. cbn [BsC.ev]. rewrite evs_fix, A; cbn [bind]. rewrite M, M', B. reflexivity. Qed.
  Lemma run_memcpy l s td d tq q tn n bs s2 : pvs l s [VPtr td d; VPtr tq q; VInt tn n] ->
    read_bytes q n s = Ok bs -> write_bytes d bs s = Ok s2 -> run (ECall "memcpy" l) s s2.
  Proof. intros A B C. eexists. cbn [BsC.ev]. rewrite evs_fix, A; cbn [bind]. simpl String.eqb. cbv iota. rewrite B; cbn [bind]. rewrite C. reflexivity. Qed.
  Lemma run_permute l s i f j g src dst r s2 : pvs l s [VPtr TWord (Obj i f 0); VPtr TWord (Obj j g 0)] ->
    getc (objs s) i f = Ok (CWords src) -> getc (objs s) j g = Ok (CWords dst) -> avx2_block_sbox_permute c src dst = Ok r ->
    set_objs s (setc (objs s) j g (CWords r)) = s2 -> run (ECall "BLOCK_SBOX_PERMUTE" l) s s2.
  Proof.
    intros A B C D <-. eexists. cbn [BsC.ev]. rewrite evs_fix, A; cbn [bind]. simpl String.eqb. cbv iota. unfold sbox_permute. rewrite B; cbn [bind]. rewrite C; cbn [bind].
    rewrite D. reflexivity.
  Qed.

  (** ** Statements *)
  Fixpoint exec_seq (l : list stmt) (s : cstate) : res (outcome * cstate) :=
    match l with
    | [] => Ok (None, s)
    | a :: r => '(o, s) <- exec a s ;; match o with Some _ => Ok (o, s) | None => exec_seq r s end
    end.
  Lemma exec_block l s o s1 : exec_seq l s = Ok (o, s1) -> exec (SBlock l) s = Ok (o, leave s s1).
  Proof.
    intros E. cbn [BsC.exec].
    assert (K : forall l s, (fix seq (l : list stmt) (s : cstate) : res (outcome * cstate) :=
             match l with
             | [] => Ok (None, s)
             | a :: r => '(o, s) <- exec a s ;; match o with Some _ => Ok (o, s) | None => seq r s end
             end) l s = exec_seq l s).
    { reflexivity. }
    rewrite K, E. reflexivity.
  Qed.
  Lemma seq_nil s : exec_seq [] s = Ok (None, s). Proof. reflexivity. Qed.
  Lemma seq_one st r s s1 x : exec st s = Ok (None, s1) -> exec_seq r s1 = x -> exec_seq (st :: r) s = x.
  Proof. intros A B. cbn [exec_seq]. rewrite A. exact B. Qed.
  Lemma seq_app l r s s1 x : exec_seq l s = Ok (None, s1) -> exec_seq r s1 = x -> exec_seq (l ++ r) s = x.
  Proof.
    revert s. induction l as [|a l IH]; intros s A B; cbn [exec_seq app] in *; [injection A as ->; exact B|].
    destruct (exec a s) as [[[o|] s2]| | |]; try discriminate A. cbn [bind] in *. apply IH; assumption.
  Qed.
  Lemma st_expr e s s1 : run e s s1 -> exec (SExpr e) s = Ok (None, s1).
  Proof. intros (r & A). cbn [BsC.exec]. rewrite A. reflexivity. Qed.
  Lemma st_decl t x s : match t with TInt _ | TWord | TPtr _ => True | _ => False end -> exec (SDecl t x None) s = Ok (None, set_vars s ((x, BVal t None) :: vars s)).
  Proof. intros A. cbn [BsC.exec]. unfold declare. destruct t; try contradiction; reflexivity. Qed.
  Lemma st_declobj t x s o k : match t with TArr _ _ | TStruct _ => True | _ => False end -> new_object c S rnd t (seed s) = Some (o, k) ->
    exec (SDecl t x None) s = Ok (None, mk_cst ((x, BObj t (length (objs s))) :: vars s) (flat s) (objs s ++ [o]) k).
  Proof. intros A B. cbn [BsC.exec]. unfold declare. destruct t; try contradiction; rewrite B; reflexivity. Qed.
  Lemma st_init t x e s v v' : match t with TInt _ | TWord | TPtr _ => True | _ => False end -> pv e (set_vars s ((x, BVal t None) :: vars s)) v -> convert t v = Ok v' ->
    exec (SDecl t x (Some e)) s = Ok (None, set_vars s ((x, BVal t (Some v')) :: vars s)).
  Proof.
    intros A (r & B & B') C. cbn [BsC.exec]. unfold declare. replace (match t with TInt _ | TWord | TPtr _ => _ | _ => _ end) with (Ok (set_vars s ((x, BVal t None) :: vars s)))
      by (destruct t; try contradiction; reflexivity).
    cbn [bind]. rewrite B; cbn [bind]. rewrite B'; cbn [bind]. unfold assign. rewrite C; cbn [bind]. unfold set_vars; cbn [vars flat objs seed set_var]. rewrite String.eqb_refl. reflexivity.
  Qed.
  Lemma cond_ok e s v b : pv e s v -> is_true v = Ok b -> cond_of c T S calls e s = Ok (b, s).
  Proof. intros (r & A & B) C. unfold cond_of. rewrite A; simpl. rewrite B; simpl. rewrite C. reflexivity. Qed.
  Lemma st_if e a d s (t : bool) x : cond_of c T S calls e s = Ok (t, s) -> (if t then exec a s else exec d s) = x -> exec (SIf e a d) s = x.
  Proof. intros A <-. cbn [BsC.exec]. rewrite A. reflexivity. Qed.
  Lemma st_assert e s : cond_of c T S calls e s = Ok (true, s) -> exec (SAssert e) s = Ok (None, s).
  Proof. intros A. cbn [BsC.exec]. rewrite A. reflexivity. Qed.
  Lemma st_assert_fails e s : cond_of c T S calls e s = Ok (false, s) -> exec (SAssert e) s = Abort.
  Proof. intros A. cbn [BsC.exec]. rewrite A. reflexivity. Qed.
  Lemma opt_some e s s1 : run e s s1 -> opt_ev c T S calls (Some e) s = Ok s1.
  Proof. intros (r & A). simpl. rewrite A. reflexivity. Qed.
  Lemma opt_step e s s1 s2 : run e s s1 -> s1 = s2 -> opt_ev c T S calls (Some e) s = Ok s2.
  Proof. intros A <-. apply opt_some, A. Qed.
  Lemma st_swap n t b s rt rb x y x' y' s1 s2 : pl t s rt -> rvalue rt s = Ok (VWord x) -> pl b s rb -> rvalue rb s = Ok (VWord y) ->
    BS_SWAP_LE c n x y = (x', y') -> asg rt (VWord x') s s1 -> asg rb (VWord y') s1 s2 -> exec (SSwap n t b) s = Ok (None, s2).
  Proof.
    intros A A' B B' E (r1 & F) (r2 & G). cbn [BsC.exec]. rewrite A; cbn [bind]. rewrite A'; cbn [bind]. rewrite B; cbn [bind]. rewrite B'; cbn [bind]. rewrite E.
    rewrite F; cbn [bind]. rewrite G. reflexivity.
  Qed.

  (** ** Loops *)
  Notation cond_of := (cond_of c T S calls). Notation opt_ev := (opt_ev c T S calls).
  (* R i x s: the state s before iteration i, the model's state being x *)
  Lemma loop_up {X} (R : nat -> X -> cstate -> Prop) e st b (body : nat -> X -> res X) n : forall k i x y n0 s,
    for_ n i body x = Ok y -> (n < k)%nat -> R i x s -> n0 = (i + n)%nat ->
    (forall j x x' s, (i <= j < n0)%nat -> R j x s -> body j x = Ok x' -> cond_of e s = Ok (true, s) /\
       exists s1 s2, exec b s = Ok (None, s1) /\ opt_ev st s1 = Ok s2 /\ R (Datatypes.S j) x' s2) ->
    (forall x s, R n0 x s -> cond_of e s = Ok (false, s)) ->
    exists s', loop k (cond_of e) (exec b) (opt_ev st) s = Ok (None, s') /\ R n0 y s'.
  Proof.
    induction n as [|n IH]; intros k i x y n0 s E K Hi En Hb Hc; (destruct k as [|k]; [lia|]); cbn [loop].
    - injection E as <-. replace n0 with i in * by lia. rewrite (Hc x s Hi). cbn [bind]. exists s. split; [reflexivity|exact Hi].
    - cbn [for_] in E. destruct (body i x) as [x'| | |] eqn:B; try discriminate E. cbn [bind] in E.
      destruct (Hb i x x' s ltac:(lia) Hi B) as (C & s1 & s2 & E1 & E2 & Hi'). rewrite C; cbn [bind]. rewrite E1; cbn [bind]. rewrite E2; cbn [bind].
      eapply IH; try eassumption; try lia. intros j z z' t Hj. apply Hb. lia.
  Qed.
  Lemma loop_down {X} (R : nat -> X -> cstate -> Prop) e st b (body : nat -> X -> res X) n : forall k x y s,
    for_down n body x = Ok y -> (n < k)%nat -> R n x s ->
    (forall j x x' s, (j < n)%nat -> R (Datatypes.S j) x s -> body j x = Ok x' -> cond_of e s = Ok (true, s) /\
       exists s1 s2, exec b s = Ok (None, s1) /\ opt_ev st s1 = Ok s2 /\ R j x' s2) ->
    (forall x s, R O x s -> cond_of e s = Ok (false, s)) ->
    exists s', loop k (cond_of e) (exec b) (opt_ev st) s = Ok (None, s') /\ R O y s'.
  Proof.
    induction n as [|n IH]; intros k x y s E K Hi Hb Hc; (destruct k as [|k]; [lia|]); cbn [loop].
    - injection E as <-. rewrite (Hc x s Hi). cbn [bind]. exists s. split; [reflexivity|exact Hi].
    - cbn [for_down] in E. destruct (body n x) as [x'| | |] eqn:B; try discriminate E. cbn [bind] in E.
      destruct (Hb n x x' s ltac:(lia) Hi B) as (C & s1 & s2 & E1 & E2 & Hi'). rewrite C; cbn [bind]. rewrite E1; cbn [bind]. rewrite E2; cbn [bind].
      eapply IH; try eassumption; try lia. intros j z z' t Hj. apply Hb. lia.
  Qed.
  Lemma loop_while {X} (R : X -> cstate -> Prop) e st b (cnd : X -> bool) (body : X -> res X) : forall n k x y s,
    while_ n cnd body x = Ok y -> (n < k)%nat -> R x s ->
    (forall x s, R x s -> cond_of e s = Ok (cnd x, s)) ->
    (forall x x' s, R x s -> cnd x = true -> body x = Ok x' ->
       exists s1 s2, exec b s = Ok (None, s1) /\ opt_ev st s1 = Ok s2 /\ R x' s2) ->
    exists s', loop k (cond_of e) (exec b) (opt_ev st) s = Ok (None, s') /\ R y s'.
  Proof.
    induction n as [|n IH]; intros k x y s E K Hi Hc Hb; (destruct k as [|k]; [lia|]); cbn [loop]; rewrite (Hc x s Hi); cbn [bind]; cbn [while_] in E;
      destruct (cnd x) eqn:C; try discriminate E; try (injection E as <-; exists s; split; [reflexivity|exact Hi]).
    destruct (body x) as [x'| | |] eqn:B; try discriminate E. cbn [bind] in E.
    destruct (Hb x x' s Hi C B) as (s1 & s2 & E1 & E2 & Hi'). rewrite E1; cbn [bind]. rewrite E2; cbn [bind]. eapply IH; try eassumption. lia.
  Qed.
  (* the same, when the state is a function of the model's *)
  Lemma loop_fun {X} (F : nat -> X -> cstate) e st b (body : nat -> X -> res X) n : forall k i x y,
    for_ n i body x = Ok y -> (n < k)%nat ->
    (forall j x x', (i <= j < i + n)%nat -> body j x = Ok x' -> cond_of e (F j x) = Ok (true, F j x) /\
       exists s1, exec b (F j x) = Ok (None, s1) /\ opt_ev st s1 = Ok (F (Datatypes.S j) x')) ->
    (forall x, cond_of e (F (i + n)%nat x) = Ok (false, F (i + n)%nat x)) ->
    loop k (cond_of e) (exec b) (opt_ev st) (F i x) = Ok (None, F (i + n)%nat y).
  Proof.
    intros k i x y E K Hb Hc. destruct (loop_up (fun i x s => s = F i x) e st b body n k i x y (i + n)%nat (F i x) E K eq_refl eq_refl) as (s' & L & ->).
    - intros j z z' s Hj -> B. destruct (Hb j z z' Hj B) as (C & s1 & E1 & E2). split; [exact C|]. exists s1, (F (Datatypes.S j) z'). repeat split; assumption.
    - intros z s ->. apply Hc.
    - exact L.
  Qed.
  Lemma st_for i e st b s s1 s2 : opt_ev i s = Ok s1 -> loop fuel (cond_of e) (exec b) (opt_ev st) s1 = Ok (None, s2) -> exec (SFor i e st b) s = Ok (None, s2).
  Proof. intros A B. cbn [BsC.exec]. rewrite A; cbn [bind]. rewrite B. reflexivity. Qed.

  (** ** Calls *)
  Lemma call_void f vs s g s1 : fn_ret f = TVoid -> bind_params (fn_params f) vs = Ok g -> exec_seq (fn_body f) (set_vars s g) = Ok (None, s1) ->
    call_fun c T S rnd fuel calls f vs s = Ok (None, mk_cst (vars s) (flat s1) (firstn (length (objs s)) (objs s1)) (seed s1)).
  Proof.
    intros A B C. unfold call_fun. rewrite B; cbn [bind]. rewrite (exec_block _ _ _ _ C); cbn [bind]. rewrite A. reflexivity.
  Qed.
End Run.
Section Link.
  Context (c : build) (rnd : nat -> nat -> N) (fuel : nat).
  Notation T := src_bs_tables. Notation S := (src_bs_structs c).
  Lemma link_skip fn r f vs s : String.eqb f (fn_name fn) = false -> link c T S rnd fuel (fn :: r) f vs s = link c T S rnd fuel r f vs s.
  Proof. intros E. cbn [link]. rewrite E. reflexivity. Qed.
  Lemma link_here fn r f vs s : String.eqb f (fn_name fn) = true -> link c T S rnd fuel (fn :: r) f vs s = call_fun c T S rnd fuel (link c T S rnd fuel r) fn vs s.
  Proof. intros E. cbn [link]. rewrite E. reflexivity. Qed.
End Link.

(** ** The same on explicit states *)
Section Explicit.
  Context (c : build) (rnd : nat -> nat -> N) (fuel : nat) (calls : callable).
  Notation T := src_bs_tables. Notation S := (src_bs_structs c).
  Lemma xasg_var t x v v' g m O k g' : convert t v = Ok v' -> set_var g x v' = g' -> asg c (LVar t x) v (mk_cst g m O k) (mk_cst g' m O k).
  Proof. intros E <-. apply (asg_var c t x v v' (mk_cst g m O k) _ E eq_refl). Qed.
  Lemma xstore_w i f n ws ws' w g m O k O' : getc O i f = Ok (CWords ws) -> aset ws n w = Ok ws' -> setc O i f (CWords ws') = O' ->
    store_at c TWord (Obj i f (wo c n)) (VWord w) (mk_cst g m O k) = Ok (mk_cst g m O' k).
  Proof. intros A B C. apply (store_w c i f n ws ws' w (mk_cst g m O k) O' A B C). Qed.
  Lemma xstore_w0 i f ws ws' w g m O k O' : getc O i f = Ok (CWords ws) -> aset ws 0 w = Ok ws' -> setc O i f (CWords ws') = O' ->
    store_at c TWord (Obj i f 0) (VWord w) (mk_cst g m O k) = Ok (mk_cst g m O' k).
  Proof. apply (xstore_w i f 0). Qed.
  Lemma xst_decl t x g m O k : match t with TInt _ | TWord | TPtr _ => True | _ => False end ->
    exec c T S rnd fuel calls (SDecl t x None) (mk_cst g m O k) = Ok (None, mk_cst ((x, BVal t None) :: g) m O k).
  Proof. apply (st_decl c rnd fuel calls t x (mk_cst g m O k)). Qed.
  Lemma xst_declobj t x g m O k o k' n : match t with TArr _ _ | TStruct _ => True | _ => False end -> new_object c S rnd t k = Some (o, k') -> length O = n ->
    exec c T S rnd fuel calls (SDecl t x None) (mk_cst g m O k) = Ok (None, mk_cst ((x, BObj t n) :: g) m (O ++ [o]) k').
  Proof. intros A B <-. apply (st_declobj c rnd fuel calls t x (mk_cst g m O k) o k' A B). Qed.
  Lemma xst_init t x e g m O k v v' : match t with TInt _ | TWord | TPtr _ => True | _ => False end -> pv c calls e (mk_cst ((x, BVal t None) :: g) m O k) v -> convert t v = Ok v' ->
    exec c T S rnd fuel calls (SDecl t x (Some e)) (mk_cst g m O k) = Ok (None, mk_cst ((x, BVal t (Some v')) :: g) m O k).
  Proof. apply (st_init c rnd fuel calls t x e (mk_cst g m O k)). Qed.
  Lemma xblock l g m O k o g1 m1 O1 k1 g2 O2 : exec_seq c rnd fuel calls l (mk_cst g m O k) = Ok (o, mk_cst g1 m1 O1 k1) ->
    skipn (length g1 - length g) g1 = g2 -> firstn (length O) O1 = O2 -> exec c T S rnd fuel calls (SBlock l) (mk_cst g m O k) = Ok (o, mk_cst g2 m1 O2 k1).
  Proof. intros A <- <-. rewrite (exec_block _ _ _ _ _ _ _ _ A). reflexivity. Qed.
  Lemma xcall_void f vs g m O k g0 g1 m1 O1 k1 O2 : fn_ret f = TVoid -> bind_params (fn_params f) vs = Ok g0 -> exec_seq c rnd fuel calls (fn_body f) (mk_cst g0 m O k) = Ok (None, mk_cst g1 m1 O1 k1) ->
    firstn (length O) O1 = O2 -> call_fun c T S rnd fuel calls f vs (mk_cst g m O k) = Ok (None, mk_cst g m1 O2 k1).
  Proof. intros A B C <-. rewrite (call_void c rnd fuel calls f vs (mk_cst g m O k) _ _ A B C). reflexivity. Qed.
  Lemma xpermute l g m O k i f j h src dst r O' : pvs c calls l (mk_cst g m O k) [VPtr TWord (Obj i f 0); VPtr TWord (Obj j h 0)] ->
    getc O i f = Ok (CWords src) -> getc O j h = Ok (CWords dst) -> avx2_block_sbox_permute c src dst = Ok r ->
    setc O j h (CWords r) = O' -> run c calls (ECall "BLOCK_SBOX_PERMUTE" l) (mk_cst g m O k) (mk_cst g m O' k).
  Proof. intros A B C D <-. eapply run_permute; try eassumption. reflexivity. Qed.
End Explicit.
Lemma getc_before O o i f d : getc O i f = Ok d -> getc (O ++ [o]) i f = Ok d. Proof. apply getc_app. Qed.
Lemma getc_end O o i f d : i = length O -> member o f = Some d -> getc (O ++ [o]) i f = Ok d.
Proof. intros -> M. unfold getc. rewrite nth_end, M. reflexivity. Qed.
Lemma setc_before O o i f d O' : (i < length O)%nat -> setc O i f d = O' -> setc (O ++ [o]) i f d = O' ++ [o].
Proof. intros H <-. apply setc_app, H. Qed.
Lemma setc_end O o i f d o' : i = length O -> set_member o f d = o' -> setc (O ++ [o]) i f d = O ++ [o'].
Proof. intros -> <-. unfold setc. rewrite nth_end. apply upd_end. Qed.
Lemma firstn_same {A B} (X : list A) (Y : list B) : length X = length Y -> firstn (length X) Y = Y.
Proof. intros ->. apply firstn_all. Qed.
Lemma firstn_drop {A B} (X : list A) (Y : list B) o Z : (length X <= length Y)%nat -> firstn (length X) Y = Z -> firstn (length X) (Y ++ [o]) = Z.
Proof. intros L <-. rewrite firstn_app. replace (length X - length Y)%nat with 0%nat by lia. apply app_nil_r. Qed.
Lemma true_if t (b : bool) : is_true (VInt t (if b then 1 else 0)) = Ok b. Proof. destruct b; reflexivity. Qed.
Lemma conv_value s t n n' : MiniC.conv s t n = n' -> convert (TInt t) (VInt s n) = Ok (VInt t n').
Proof. intros <-. reflexivity. Qed.

(** ** Tactics *)
Ltac names := cbv beta iota zeta delta [lookup set_var set_member member String.eqb Ascii.eqb Bool.eqb].
Ltac lens := repeat (rewrite upd_length || rewrite setc_length || rewrite app_length); cbn [length]; first [reflexivity | lia].
Ltac getx :=
  cbn [objs];
  lazymatch goal with
  | |- getc (upd _ ?i _) ?i _ = _ => eapply getc_here; [lens | names; reflexivity]
  | |- getc (upd _ _ _) _ _ = _ => eapply getc_other; [solve [assumption | apply not_eq_sym; assumption | lens] | getx]
  | |- getc (_ ++ [_]) _ _ = _ => first [eapply getc_end; [lens | names; reflexivity] | eapply getc_before; getx]
  | |- _ => eassumption
  end.
Ltac setx :=
  cbn [objs];
  lazymatch goal with
  | |- setc (upd _ ?i _) ?i _ _ = _ => eapply setc_here; [lens | names; reflexivity]
  | |- setc (upd _ _ _) _ _ _ = _ => eapply setc_under; [solve [assumption | apply not_eq_sym; assumption | lens] | setx]
  | |- setc (_ ++ [_]) _ _ _ = _ => first [eapply setc_end; [lens | names; reflexivity] | eapply setc_before; [lens|setx]]
  | |- setc (setc _ ?i ?f _) ?i ?f _ = _ => apply setc_same
  | |- _ => reflexivity
  end.
Ltac agetx := first [eassumption | match goal with H : aget ?l ?n = Ok _ |- aget ?l ?m = Ok _ => replace m with n by lia; exact H end].
Ltac asetx := first [eassumption | match goal with H : aset ?l ?n ?v = Ok _ |- aset ?l ?m ?v = Ok _ => replace m with n by lia; exact H end].
Ltac bound := MiniCRun.bits_norm; MiniCRun.bd.
Ltac svn := eapply sval_nat; [nat_of | bound].
Ltac ptrx := fail.
Ltac modx := fail.
Ltac divx := fail.
Ltac condx := fail.
Ltac binop :=
  lazymatch goal with
  | |- bin_op _ _ Mod (VInt _ _) (VInt _ _) = _ => modx
  | |- bin_op _ _ Div (VInt _ _) (VInt _ _) = _ => first [eapply int_lift; MiniCRun.intop | divx]
  | |- bin_op _ _ _ (VInt _ _) (VInt _ _) = _ => eapply int_lift; MiniCRun.intop
  | |- bin_op _ _ Add (VPtr TWord (Obj _ _ 0)) (VInt _ _) = _ => eapply ptr_word0; svn
  | |- bin_op _ _ Add (VPtr TWord (Obj _ _ (wo _ _))) (VInt _ _) = _ => eapply ptr_word; svn
  | |- bin_op _ _ Add (VPtr (TArr TWord 4) (Obj _ _ 0)) (VInt _ _) = _ => eapply ptr_row0; svn
  | |- bin_op _ _ Add (VPtr (TArr TWord 4) (Obj _ _ _)) (VInt I32 4294967295) = _ => eapply ptr_row_back; lia
  | |- bin_op _ _ Add (VPtr (TArr TWord 4) (Obj _ _ (wo _ _))) (VInt _ _) = _ => eapply ptr_row; svn
  | |- bin_op _ _ Sub (VPtr (TArr TWord 4) (Obj _ _ (wo _ _))) (VInt I32 1) = _ => eapply ptr_row_sub; lia
  | |- _ => ptrx
  end.
Ltac loadx := fail.
Ltac storex := fail.
Ltac rvx :=
  lazymatch goal with
  | |- rvalue _ _ (V _) _ = _ => reflexivity
  | |- rvalue _ _ (LVar _ _) _ = _ => reflexivity
  | |- rvalue _ _ (L (TArr _ _) _) _ = _ => reflexivity
  | |- rvalue _ _ (L TWord (Obj _ _ 0)) _ = _ => eapply load_w0; [getx|agetx]
  | |- rvalue _ _ (L TWord (Obj _ _ (wo _ _))) _ = _ => eapply load_w; [getx|agetx]
  | |- rvalue ?b ?T (L ?t ?l) ?s = ?v => change (load_at b T t l s = v); loadx
  end.
Ltac convv := lazymatch goal with |- convert _ (VInt _ _) = _ => eapply conv_value; MiniCRun.cv1 | |- _ => reflexivity end.
Ltac pvx :=
  lazymatch goal with
  | |- pv _ _ (EConst _ _) _ _ => apply pv_const
  | |- pv _ _ (EVar _) _ _ => first [eapply pv_var; reflexivity | eapply pv_pl; [plx|rvx]]
  | |- pv _ _ (EBin _ _ _) _ _ => eapply pv_bin; [pvx|pvx|binop]
  | |- pv _ _ (EUn _ _) _ _ => eapply pv_un; [pvx|vm_compute; reflexivity]
  | |- pv _ _ (ECast _ _) _ _ => eapply pv_cast; [pvx|convv]
  | |- pv _ _ (EAddr _) _ _ => eapply pv_addr; plx
  | |- pv _ _ (ECond _ _ _) _ _ => condx
  | |- pv _ _ (EWVal _ _) _ _ => apply pv_wval
  | |- pv _ _ (EWop _ _ _) _ _ => eapply pv_wop; [pvx|pvx]
  | |- pv _ _ (EWNot _) _ _ => eapply pv_wnot; pvx
  | |- pv _ _ (EWShl _ _) _ _ => eapply pv_wshl; [pvx|pvx]
  | |- pv _ _ (EWShr _ _) _ _ => eapply pv_wshr; [pvx|pvx]
  | |- pv _ _ _ _ _ => eapply pv_pl; [plx|rvx]
  end
with plx :=
  lazymatch goal with
  | |- pl _ _ (EVar _) _ _ => first [eapply pl_var; reflexivity | eapply pl_obj; reflexivity | eapply pl_tab; reflexivity]
  | |- pl _ _ (EIndex _ _) _ _ => eapply pl_index; [pvx|pvx|binop]
  | |- pl _ _ (EDeref _) _ _ => eapply pl_deref; pvx
  | |- pl _ _ (EField _ _) _ _ => first [eapply pl_field_obj; [plx|reflexivity|reflexivity] | eapply pl_field_union; [plx|reflexivity|reflexivity] | eapply pl_field_flat; [plx|reflexivity|reflexivity|]]
  end.
Ltac asx :=
  lazymatch goal with
  | |- asg _ (LVar _ _) _ _ _ => eapply xasg_var; [convv | names; reflexivity]
  | |- asg _ (L TWord (Obj _ _ 0)) _ _ _ => eapply asg_loc; [reflexivity | eapply xstore_w0; [getx|asetx|setx]]
  | |- asg _ (L TWord (Obj _ _ _)) _ _ _ => eapply asg_loc; [reflexivity | eapply xstore_w; [getx|asetx|setx]]
  | |- asg _ (L _ _) _ _ _ => eapply asg_loc; [convv | storex]
  end.
Ltac callx := fail.
Ltac rdx := fail.
Ltac wrx := fail.
Ltac pvsx := lazymatch goal with |- pvs _ _ [] _ _ => apply pvs_nil | |- _ => eapply pvs_cons; [pvx|pvsx] end.
Ltac runx :=
  lazymatch goal with
  | |- run _ _ (EAssign _ _) _ _ => eapply run_assign; [pvx|plx|asx]
  | |- run _ _ (EOpAssign _ _ _) _ _ => eapply run_op; [pvx|plx|rvx|binop|asx]
  | |- run _ _ (EPost _ _) _ _ => eapply run_post; [plx|rvx|binop|asx]
  | |- run _ _ (EComma _ _) _ _ => eapply run_comma; [runx|runx]
  | |- run _ _ (ECall "memcpy" _) _ _ => eapply run_memcpy; [pvsx|rdx|wrx]
  | |- run _ _ (ECall _ _) _ _ => eapply run_call; [reflexivity|reflexivity|pvsx|callx]
  end.
Ltac stx :=
  lazymatch goal with
  | |- exec_seq _ _ _ _ (SExpr _ :: _) _ = _ => eapply seq_one; [eapply st_expr; runx|]
  | |- exec_seq _ _ _ _ (SDecl _ _ None :: _) _ = _ => eapply seq_one; [eapply xst_decl; exact I|]
  | |- exec_seq _ _ _ _ (SDecl _ _ (Some _) :: _) _ = _ => eapply seq_one; [eapply xst_init; [exact I|pvx|convv]|]
  | |- exec_seq _ _ _ _ [] _ = _ => reflexivity
  end.
Ltac stxs := lazymatch goal with |- exec_seq _ _ _ _ [] _ = _ => reflexivity | |- _ => stx; stxs end.
(* the objects left at the end of a block *)
Ltac fobj := lazymatch goal with |- firstn _ (_ ++ [_]) = _ => first [apply firstn_same; lens | eapply firstn_drop; [lens|fobj]] | |- _ => apply firstn_same; lens end.
Ltac blk t := eapply xblock; [t | cbn [length Nat.sub skipn]; reflexivity | fobj].
Ltac the_body :=
  lazymatch goal with |- exec_seq ?c ?r ?fu ?cl (fn_body ?f) ?s = ?x => let q := eval hnf in (fn_body f) in change (exec_seq c r fu cl q s = x) end.
Ltac params := lazymatch goal with |- bind_params (fn_params ?f) _ = _ => let q := eval hnf in (fn_params f) in change (fn_params f) with q; cbn [bind_params convert bind]; reflexivity end.
Ltac goto :=
  lazymatch goal with
  | |- link ?b ?T ?S ?rd ?fu ?p ?f ?vs ?s = ?x =>
    let p' := eval hnf in p in
    lazymatch p' with ?fn :: ?r =>
      change (link b T S rd fu p' f vs s = x);
      let q := eval vm_compute in (String.eqb f (fn_name fn)) in
      lazymatch q with
      | true => idtac
      | false => rewrite (link_skip b rd fu fn r f vs s) by reflexivity; goto
      end
    end
  end.
Ltac truex := rewrite true_if; cbn [MiniCRun.cmp]; first [rewrite (proj2 (N.ltb_lt _ _)) by lia | rewrite (proj2 (N.leb_le _ _)) by lia | rewrite (proj2 (N.eqb_eq _ _)) by lia]; reflexivity.
Ltac falsex := rewrite true_if; cbn [MiniCRun.cmp]; first [rewrite (proj2 (N.ltb_ge _ _)) by lia | rewrite (proj2 (N.leb_gt _ _)) by lia | rewrite (proj2 (N.eqb_neq _ _)) by lia]; reflexivity.
Ltac st_eq := repeat lazymatch goal with |- ?a = ?a => reflexivity | |- @eq N _ _ => lia | |- @eq nat _ _ => lia | |- _ => progress f_equal end.
Ltac stepx := eapply opt_step; [runx|]; lazymatch goal with |- context [N.of_nat ?b + 1] => replace (N.of_nat b + 1) with (N.of_nat (S b)) by lia; reflexivity end.
(* split binds of the model *)
Lemma bind_ok {A B} (m : res A) (f : A -> res B) y : bind m f = Ok y -> exists x, m = Ok x /\ f x = Ok y.
Proof. destruct m; cbn; try discriminate. intros H. eexists. split; [reflexivity|exact H]. Qed.
Ltac gob H :=
  repeat lazymatch type of H with
  | bind _ _ = Ok _ => let x := fresh "v" in let E := fresh "E" in apply bind_ok in H; destruct H as (x & E & H); cbv beta in H
  | (let '(_, _) := ?p in _) = Ok _ => let a := fresh "v" in let b := fresh "v" in let E := fresh "P" in destruct p as [a b] eqn:E
  end.
Lemma ok_inj {A} (a b : A) : Ok a = Ok b -> a = b. Proof. congruence. Qed.
(* the same for all hypotheses *)
Ltac gobs := repeat match goal with
  | H : bind _ _ = Ok _ |- _ => gob H
  | H : Ok _ = Ok _ |- _ => apply ok_inj in H
  | H : (_, _) = (_, _) |- _ => injection H as; subst
  | H : _ = ?x |- _ => is_var x; subst x
  end.
Ltac okj H := injection H as H; try subst.
