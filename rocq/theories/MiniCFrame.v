(** MiniCFrame.v -- what a function of the C subset (MiniC.v) does, does not depend on the automatic
    objects of its callers: below the objects it is given, any others may lie.  So a function can be
    run on a concrete stack, and the result holds for every stack. *)
From Coq Require Import String.
From Verif Require Import Base MiniC.
Local Open Scope N_scope.

Definition rmap {A B} (f : A -> B) (r : res A) : res B :=
  match r with Ok a => Ok (f a) | UB k => UB k | Abort => Abort | Fuel => Fuel end.

Lemma bind_rmap {A B C D} (f : A -> B) (h : C -> D) (r : res A) (k : A -> res C) (k' : B -> res D) :
  (forall a, k' (f a) = rmap h (k a)) -> bind (rmap f r) k' = rmap h (bind r k).
Proof. intros H; destruct r; simpl; [apply H|reflexivity|reflexivity|reflexivity]. Qed.

Section Frame.
  Context (be : bool) (tables : string -> option (ctype * list N)) (structs : string -> list (string * ctype)) (fuel : nat).
  Context (b : list obj).   (* the objects below *)

  Definition fl (l : loc) : loc := match l with Obj i k => Obj (length b + i) k | _ => l end.
  Definition fv (v : value) : value := match v with VPtr t l => VPtr t (fl l) | _ => v end.
  Definition fo (o : obj) : obj := match o with OPtr t (Some l) => OPtr t (Some (fl l)) | _ => o end.
  Definition fs (s : cstate) : cstate := mk_cst (flat s) (b ++ map fo (objs s)).
  Definition fr (r : result) : result := match r with L t l => L t (fl l) | V v => V (fv v) end.
  Definition fe (g : env) : env := map (fun '(x, (t, i)) => (x, (t, (length b + i)%nat))) g.
  Definition frs (p : result * cstate) := (fr (fst p), fs (snd p)).
  Definition fout (o : outcome) : outcome := match o with Some (Some v) => Some (Some (fv v)) | _ => o end.
  Definition fret (p : option value * cstate) := (option_map fv (fst p), fs (snd p)).

  Lemma objs_fs s : objs (fs s) = b ++ map fo (objs s). Proof. reflexivity. Qed.
  Lemma flat_fs s : flat (fs s) = flat s. Proof. reflexivity. Qed.
  Lemma set_fs s o : set_objs (fs s) (b ++ map fo o) = fs (set_objs s o). Proof. reflexivity. Qed.
  Arguments fs : simpl never.
  Arguments objs : simpl never.
  Lemma nth_app s i : nth_error (objs (fs s)) (length b + i) = option_map fo (nth_error (objs s) i).
  Proof.
    rewrite objs_fs. rewrite nth_error_app2 by apply Nat.le_add_r.
    rewrite (Nat.add_comm (length b)), Nat.add_sub.
    generalize (objs s). intros l; revert i; induction l as [|x l IH]; intros [|i]; simpl; auto.
  Qed.
  Lemma upd_app s i o : upd (objs (fs s)) (length b + i) (fo o) = b ++ map fo (upd (objs s) i o).
  Proof.
    rewrite objs_fs. induction b as [|x l IH]; simpl; [|f_equal; exact IH].
    revert i; induction (objs s) as [|y r IHr]; intros [|i]; simpl; auto. f_equal; apply IHr.
  Qed.

  Lemma load_frame t l s : load_at be tables t (fl l) (fs s) = rmap fv (load_at be tables t l s).
  Proof.
    destruct t as [it|t| | |], l as [a|i k|x k]; simpl; try reflexivity.
    - destruct (a mod N.of_nat (bytes_in it) =? 0); [|reflexivity]. destruct (load_bytes _ _ _); reflexivity.
    - rewrite nth_app. destruct (nth_error (objs s) i) as [[it' cs|t' [p|]]|]; simpl; try reflexivity.
      destruct (ity_eqb it it'); [|reflexivity]. destruct (oget _ _); reflexivity.
    - destruct (tables x) as [[t' l]|]; [|reflexivity]. destruct (tget _ _); reflexivity.
    - destruct k; [|reflexivity]. rewrite nth_app. destruct (nth_error (objs s) i) as [[it' cs|t' [p|]]|]; reflexivity.
  Qed.
  Lemma store_frame t l v s : store_at be t (fl l) (fv v) (fs s) = rmap fs (store_at be t l v s).
  Proof.
    destruct t as [it|t| | |], l as [a|i k|x k], v as [vt nn|vt p]; simpl; try reflexivity;
      try (destruct k; reflexivity).
    - destruct (_ =? 0); [|reflexivity]. destruct (store_bytes _ _ _); reflexivity.
    - rewrite nth_app. destruct (nth_error (objs s) i) as [[it' cs|t' [p|]]|]; simpl; try reflexivity.
      destruct (ity_eqb it it'); [|reflexivity]. destruct (aset _ _ _) as [cs'| | |]; try reflexivity.
      simpl. change (OInts it' cs') with (fo (OInts it' cs')). rewrite upd_app, set_fs. reflexivity.
    - destruct k; [|reflexivity]. rewrite nth_app. destruct (nth_error (objs s) i) as [[it' cs|t' q]|]; simpl; try reflexivity.
      destruct q as [q|]; simpl; change (OPtr t' (Some (fl p))) with (fo (OPtr t' (Some p))); rewrite upd_app, set_fs; reflexivity.
  Qed.
  Lemma convert_frame t v : convert t (fv v) = rmap fv (convert t v).
  Proof. destruct t, v; reflexivity. Qed.
  Lemma move_frame t l z : move structs t (fl l) z = rmap fl (move structs t l z).
  Proof. destruct l; unfold move; simpl; destruct (_ <? 0)%Z; reflexivity. Qed.
  Lemma int_frame o ta x tb y : int_op o ta x tb y = rmap fv (int_op o ta x tb y).
  Proof.
    unfold int_op. destruct o; try reflexivity;
      try (match goal with |- context [arith ?t ?z] => destruct (arith t z); reflexivity end);
      try (destruct (_ =? 0)%Z; [reflexivity|]; match goal with |- context [arith ?t ?z] => destruct (arith t z); reflexivity end).
    - destruct (_ <? 0)%Z; [reflexivity|]. destruct (shift_left _ _ _); reflexivity.
    - destruct (_ <? 0)%Z; [reflexivity|]. destruct (shift_right _ _ _); reflexivity.
  Qed.
  Lemma bin_frame o x y : bin_op structs o (fv x) (fv y) = rmap fv (bin_op structs o x y).
  Proof.
    destruct x as [tx x|tx x], y as [ty y|ty y]; simpl; try reflexivity; [apply int_frame|].
    destruct o; try reflexivity; rewrite move_frame; destruct (move _ _ _ _); reflexivity.
  Qed.
  Lemma un_frame o x : un_op o (fv x) = rmap fv (un_op o x).
  Proof. destruct x; [|reflexivity]. destruct o; simpl; [reflexivity|]. destruct (arith _ _); reflexivity. Qed.
  Lemma true_frame x : is_true (fv x) = is_true x. Proof. destruct x; reflexivity. Qed.

  Lemma rvalue_frame r s : rvalue be tables (fr r) (fs s) = rmap fv (rvalue be tables r s).
  Proof. destruct r as [[]|]; cbn [rvalue fr]; rewrite ?load_frame; reflexivity. Qed.
  Lemma lookup_frame g x : lookup (fe g) x = option_map (fun '(t, i) => (t, (length b + i)%nat)) (lookup g x).
  Proof. induction g as [|[y [t i]] g IH]; simpl; [reflexivity|]. destruct (String.eqb x y); [reflexivity|exact IH]. Qed.

  Lemma read_frame l n s : read_bytes be (fl l) n (fs s) = read_bytes be l n s.
  Proof.
    destruct l as [a|i k|x k]; simpl; try reflexivity.
    rewrite nth_app. destruct (nth_error (objs s) i) as [[it' cs|t' [p|]]|]; reflexivity.
  Qed.
  Lemma write_frame l bs s : write_bytes be (fl l) bs (fs s) = rmap fs (write_bytes be l bs s).
  Proof.
    destruct l as [a|i k|x k]; simpl; try reflexivity.
    - destruct (store_bytes _ _ _); reflexivity.
    - rewrite nth_app. destruct (nth_error (objs s) i) as [[it cs|t' [p|]]|]; simpl; try reflexivity.
      destruct (_ && _); [|reflexivity]. simpl.
      match goal with |- context [upd _ _ ?o] => change o with (fo o) end. rewrite upd_app, set_fs. reflexivity.
  Qed.
  Lemma memcpy_frame d q n s : memcpy be (fl d) (fl q) n (fs s) = rmap fs (memcpy be d q n s).
  Proof. unfold memcpy. rewrite read_frame. destruct (read_bytes _ _ _ _); simpl; try reflexivity. apply write_frame. Qed.

  Section Calls.
    Context (calls : callable).
    Hypothesis calls_frame : forall f vs s, calls f (map fv vs) (fs s) = rmap fret (calls f vs s).

    Lemma assign_frame t l v s : assign be t (fl l) (fv v) (fs s) = rmap frs (assign be t l v s).
    Proof.
      unfold assign. rewrite convert_frame. apply bind_rmap; intros v'. rewrite store_frame.
      apply bind_rmap; intros s'. reflexivity.
    Qed.

    Ltac nx := rewrite ?rvalue_frame, ?bin_frame, ?un_frame, ?convert_frame, ?true_frame, ?assign_frame, ?memcpy_frame.
    Ltac bnd := first [apply (bind_rmap frs); intros [? ?]; cbn [frs fst snd] | apply (bind_rmap fv); intros ? | apply (bind_rmap fs); intros ?].

    (* induction over expressions with lists of them *)
    Lemma expr_ind' (P : expr -> Prop)
      (h1 : forall t n, P (EConst t n)) (h2 : forall x, P (EVar x)) (h3 : forall o a c, P a -> P c -> P (EBin o a c))
      (h4 : forall o a, P a -> P (EUn o a)) (h5 : forall a c d, P a -> P c -> P d -> P (ECond a c d)) (h6 : forall t a, P a -> P (ECast t a))
      (h7 : forall a c, P a -> P c -> P (EIndex a c)) (h8 : forall a, P a -> P (EDeref a)) (h9 : forall a, P a -> P (EAddr a))
      (h10 : forall a f, P a -> P (EField a f)) (h11 : forall a c, P a -> P c -> P (EAssign a c))
      (h12 : forall o a c, P a -> P c -> P (EOpAssign o a c)) (h13 : forall o a, P a -> P (EPost o a))
      (h14 : forall a, P a -> P (ESizeof a)) (h15 : forall f l, Forall P l -> P (ECall f l)) : forall e, P e.
    Proof.
      fix IH 1. destruct e; try (clear IH; auto; fail);
        [apply h3 | apply h4 | apply h5 | apply h6 | apply h7 | apply h8 | apply h9 | apply h10 | apply h11 | apply h12 | apply h13 | apply h14 | apply h15]; try apply IH.
      induction args as [|a r IHr]; constructor; [apply IH|exact IHr].
    Qed.
    Notation ev := (ev be tables structs calls).

    Lemma ev_frame e g : forall s, ev e (fe g) (fs s) = rmap frs (ev e g s).
    Proof.
      induction e as [t n|x|o a c IHa IHc|o a IHa|a c d IHa IHc IHd|t a IHa|a c IHa IHc|a IHa|a IHa|a f IHa|a c IHa IHc|o a c IHa IHc|o a IHa|a IHa|f l IHl]
        using expr_ind'; intros s; cbn [MiniC.ev].
      - reflexivity.
      - rewrite lookup_frame. destruct (lookup g x) as [[t i]|]; simpl; [reflexivity|].
        destruct (tables x) as [[t l]|]; reflexivity.
      - rewrite IHa. bnd. nx. bnd. rewrite IHc. bnd. nx. bnd. nx. bnd. reflexivity.
      - rewrite IHa. bnd. nx. bnd. nx. bnd. reflexivity.
      - rewrite IHa. bnd. nx. bnd. rewrite true_frame. destruct (is_true _) as [t| | |]; try reflexivity. cbn [bind].
        destruct t; [rewrite IHc|rewrite IHd]; bnd; nx; bnd; reflexivity.
      - rewrite IHa. bnd. nx. bnd. nx. bnd. reflexivity.
      - rewrite IHa. bnd. nx. bnd. rewrite IHc. bnd. nx. bnd. nx. bnd. match goal with v : value |- _ => destruct v; reflexivity end.
      - rewrite IHa. bnd. nx. bnd. match goal with v : value |- _ => destruct v; reflexivity end.
      - rewrite IHa. bnd. destruct r; reflexivity.
      - rewrite IHa. bnd. destruct r as [t l|v]; [|reflexivity]. destruct t; simpl; try reflexivity. destruct l; simpl; try reflexivity.
        destruct (field_type _ _); reflexivity.
      - rewrite IHc. bnd. nx. bnd. rewrite IHa. bnd. destruct r0; simpl; [|reflexivity]. apply assign_frame.
      - rewrite IHc. bnd. nx. bnd. rewrite IHa. bnd. destruct r0 as [t l|v]; cbn [fr]; [|reflexivity].
        change (L t (fl l)) with (fr (L t l)). nx. bnd. nx. bnd. apply assign_frame.
      - rewrite IHa. bnd. destruct r as [t l|v]; cbn [fr]; [|reflexivity].
        change (L t (fl l)) with (fr (L t l)). nx. bnd. change (VInt I32 1) with (fv (VInt I32 1)) at 1. nx. bnd. nx. bnd. reflexivity.
      - rewrite IHa. bnd. destruct r; reflexivity.
      - set (evs' := fix evs (l : list expr) (s : cstate) : res (list value * cstate) := match l with [] => Ok ([], s)
             | a :: r => '(ra, s) <- ev a (fe g) s ;; v <- rvalue be tables ra s ;; '(vs, s) <- evs r s ;; Ok (v :: vs, s) end).
        set (evs := fix evs (l : list expr) (s : cstate) : res (list value * cstate) := match l with [] => Ok ([], s)
             | a :: r => '(ra, s) <- ev a g s ;; v <- rvalue be tables ra s ;; '(vs, s) <- evs r s ;; Ok (v :: vs, s) end).
        assert (E : forall s, evs' l (fs s) = rmap (fun p => (map fv (fst p), fs (snd p))) (evs l s)).
        { clear s. induction IHl as [|a l Ha Hl IH]; intros s; [reflexivity|]. cbn [evs evs'].
          rewrite Ha. bnd. nx. bnd. fold evs evs'. rewrite IH. apply bind_rmap. intros [vs s2]. reflexivity. }
        rewrite E. apply bind_rmap. intros [vs s2]; cbn [fst snd]. destruct (String.eqb f "memcpy").
        + destruct vs as [|[|t d] [|[|t' q] [|[tn n|] [|]]]]; try reflexivity. cbn [map fv]. nx. bnd. reflexivity.
        + rewrite calls_frame. apply bind_rmap. intros [[v|] s3]; reflexivity.
    Qed.

    Notation exec := (exec be tables structs fuel calls).
    Definition fx (p : env * outcome * cstate) := (fe (fst (fst p)), fout (snd (fst p)), fs (snd p)).
    Definition fos (p : outcome * cstate) := (fout (fst p), fs (snd p)).
    Definition fbs (p : bool * cstate) := (fst p, fs (snd p)).

    Lemma cond_frame c g s : cond_of be tables structs calls c (fe g) (fs s) = rmap fbs (cond_of be tables structs calls c g s).
    Proof.
      unfold cond_of. rewrite ev_frame. bnd. nx. bnd. rewrite true_frame. destruct (is_true _); reflexivity.
    Qed.
    Lemma opt_frame e g s : opt_ev be tables structs calls e (fe g) (fs s) = rmap fs (opt_ev be tables structs calls e g s).
    Proof. destruct e; [|reflexivity]. simpl. rewrite ev_frame. bnd. reflexivity. Qed.
    Lemma loop_frame c c' bo bo' st st' : (forall s, c' (fs s) = rmap fbs (c s)) -> (forall s, bo' (fs s) = rmap fos (bo s)) ->
      (forall s, st' (fs s) = rmap fs (st s)) -> forall n s, loop n c' bo' st' (fs s) = rmap fos (loop n c bo st s).
    Proof.
      intros Hc Hb Hs. induction n as [|n IH]; intros s; [reflexivity|]. cbn [loop]. rewrite Hc. apply bind_rmap. intros [t s1]; cbn [fbs fst snd].
      destruct t; [|reflexivity]. rewrite Hb. apply bind_rmap. intros [o s2]; cbn [fos fst snd].
      destruct o as [[v|]|]; cbn [fout]; try reflexivity. rewrite Hs. apply bind_rmap. intros s3. apply IH.
    Qed.
    Lemma declare_frame t x g s : declare t x (fe g) (fs s) = rmap (fun p => (fe (fst p), fs (snd p))) (declare t x g s).
    Proof.
      unfold declare. destruct (base_of t) as [o|] eqn:E; [|reflexivity]. cbn [rmap fst snd]. rewrite objs_fs, app_length, map_length, <- app_assoc.
      assert (Ho : [o] = map fo [o]).
      { destruct t as [|t|t| |]; simpl in E; try discriminate; try (injection E as <-; reflexivity).
        destruct t; try discriminate; injection E as <-; reflexivity. }
      rewrite Ho at 1. rewrite <- map_app, set_fs. reflexivity.
    Qed.
    Lemma cut_frame k s : firstn (length b + k) (objs (fs s)) = b ++ map fo (firstn k (objs s)).
    Proof. rewrite objs_fs. rewrite firstn_app_2, firstn_map. reflexivity. Qed.
    Lemma fs_length s : length (objs (fs s)) = (length b + length (objs s))%nat.
    Proof. rewrite objs_fs. rewrite app_length, map_length. reflexivity. Qed.

    Lemma stmt_ind' (P : stmt -> Prop)
      (h1 : forall e, P (SExpr e)) (h2 : forall t x i, P (SDecl t x i)) (h3 : forall c a d, P a -> P d -> P (SIf c a d))
      (h4 : forall c a, P a -> P (SWhile c a)) (h5 : forall i c st a, P a -> P (SFor i c st a)) (h6 : forall e, P (SReturn e))
      (h7 : forall l, Forall P l -> P (SBlock l)) : forall s, P s.
    Proof.
      fix IH 1. destruct s; [apply h1 | apply h2 | apply h3; apply IH | apply h4; apply IH | apply h5; apply IH | apply h6 | apply h7].
      induction ss as [|a r IHr]; constructor; [apply IH|exact IHr].
    Qed.

    Lemma exec_frame st : forall g s, exec st (fe g) (fs s) = rmap fx (exec st g s).
    Proof.
      induction st as [e|t x i|c a d IHa IHd|c a IHa|i c st a IHa|e|l IHl] using stmt_ind'; intros g s; cbn [MiniC.exec].
      - rewrite ev_frame. bnd. reflexivity.
      - rewrite declare_frame. apply bind_rmap. intros [g' s']; cbn [fst snd]. destruct i as [e|]; [|reflexivity].
        rewrite ev_frame. bnd. nx. bnd. rewrite lookup_frame. destruct (lookup g' x) as [[t' i]|]; cbn [option_map]; [|reflexivity].
        change (Obj (length b + i) 0) with (fl (Obj i 0)). nx. bnd. reflexivity.
      - rewrite cond_frame. apply bind_rmap. intros [t s']; cbn [fbs fst snd].
        destruct t; [rewrite IHa|rewrite IHd]; apply bind_rmap; intros [[g' o] s2]; reflexivity.
      - assert (E : forall s, loop fuel (cond_of be tables structs calls c (fe g)) (fun s => '(_, o, s) <- exec a (fe g) s ;; Ok (o, s)) (fun s => Ok s) (fs s)
            = rmap fos (loop fuel (cond_of be tables structs calls c g) (fun s => '(_, o, s) <- exec a g s ;; Ok (o, s)) (fun s => Ok s) s)).
        { apply loop_frame; [intros; apply cond_frame| |reflexivity]. intros s1. rewrite IHa. apply bind_rmap. intros [[g' o] s2]; reflexivity. }
        rewrite E. apply bind_rmap. intros [o s2]; reflexivity.
      - rewrite opt_frame. apply bind_rmap. intros s1.
        assert (E : forall s, loop fuel (cond_of be tables structs calls c (fe g)) (fun s => '(_, o, s) <- exec a (fe g) s ;; Ok (o, s)) (opt_ev be tables structs calls st (fe g)) (fs s)
            = rmap fos (loop fuel (cond_of be tables structs calls c g) (fun s => '(_, o, s) <- exec a g s ;; Ok (o, s)) (opt_ev be tables structs calls st g) s)).
        { apply loop_frame; [intros; apply cond_frame| |intros; apply opt_frame]. intros s2. rewrite IHa. apply bind_rmap. intros [[g' o] s3]; reflexivity. }
        rewrite E. apply bind_rmap. intros [o s2]; reflexivity.
      - destruct e as [e|]; [|reflexivity]. rewrite ev_frame. bnd. nx. bnd. reflexivity.
      - set (n := length (objs s)).
        set (seq := fix seq (l : list stmt) (g : env) (s : cstate) : res (outcome * cstate) :=
             match l with [] => Ok (None, s)
             | a :: r => '(g, o, s) <- exec a g s ;; match o with Some _ => Ok (o, s) | None => seq r g s end end).
        assert (E : forall g s, seq l (fe g) (fs s) = rmap fos (seq l g s)).
        { clear g s n. induction IHl as [|a l Ha Hl IH]; intros g s; [reflexivity|]. cbn [seq].
          rewrite Ha. apply bind_rmap. intros [[g' o] s2]; cbn [fx fst snd]. destruct o as [[v|]|]; cbn [fout]; try reflexivity. apply IH. }
        rewrite E. apply bind_rmap. intros [o s2]; cbn [fos fst snd]. rewrite fs_length, cut_frame, set_fs. reflexivity.
    Qed.

    Lemma params_frame ps : forall vs g s, bind_params be ps (map fv vs) (fe g) (fs s) = rmap (fun p => (fe (fst p), fs (snd p))) (bind_params be ps vs g s).
    Proof.
      induction ps as [|[x t] ps IH]; intros [|v vs] g s; try reflexivity. cbn [bind_params map]. rewrite declare_frame.
      apply bind_rmap. intros [g' s']; cbn [fst snd]. rewrite lookup_frame. destruct (lookup g' x) as [[t' i]|]; cbn [option_map]; [|reflexivity].
      change (Obj (length b + i) 0) with (fl (Obj i 0)). nx. bnd. apply IH.
    Qed.
    Lemma call_frame f vs s : call_fun be tables structs fuel calls f (map fv vs) (fs s) = rmap fret (call_fun be tables structs fuel calls f vs s).
    Proof.
      unfold call_fun. change (@nil (string * (ctype * nat))) with (fe []) at 1. rewrite params_frame. apply bind_rmap. intros [g s1]; cbn [fst snd].
      rewrite exec_frame. apply bind_rmap. intros [[g' o] s2]; cbn [fx fst snd]. rewrite fs_length, cut_frame, set_fs.
      destruct (fn_ret f) eqn:E; destruct o as [[v|]|]; cbn [fout]; try reflexivity; rewrite convert_frame; destruct (convert _ v); reflexivity.
    Qed.
  End Calls.

  Theorem link_frame fns : forall f vs s, link be tables structs fuel fns f (map fv vs) (fs s) = rmap fret (link be tables structs fuel fns f vs s).
  Proof.
    induction fns as [|fn fns IH]; intros f vs s; [reflexivity|]. cbn [link]. destruct (String.eqb f (fn_name fn)); [|apply IH].
    apply call_frame, IH.
  Qed.
End Frame.

(** The form in which it is used: no pointers to automatic objects are passed or returned. *)
Lemma call_any_stack be tables structs fuel fns f vs m m' r l :
  (forall v, In v vs -> match v with VPtr _ (Obj _ _) => False | _ => True end) ->
  match r with Some (VPtr _ (Obj _ _)) => False | _ => True end ->
  link be tables structs fuel fns f vs (mk_cst m []) = Ok (r, mk_cst m' []) ->
  link be tables structs fuel fns f vs (mk_cst m l) = Ok (r, mk_cst m' l).
Proof.
  intros Hv Hr H. pose proof (link_frame be tables structs fuel l fns f vs (mk_cst m [])) as E. rewrite H in E. cbn in E.
  unfold fs in E; cbn in E. rewrite app_nil_r in E. unfold fret in E; cbn in E. unfold fs in E; cbn in E. rewrite app_nil_r in E.
  replace (map (fv l) vs) with vs in E.
  - rewrite E. do 2 f_equal. destruct r as [[|t [| |]]|]; try reflexivity. contradiction.
  - clear -Hv. induction vs as [|v vs IH]; [reflexivity|]. simpl. rewrite <- IH by (intros; apply Hv; right; assumption).
    specialize (Hv v (or_introl eq_refl)). destruct v as [|t [| |]]; try reflexivity. contradiction.
Qed.
