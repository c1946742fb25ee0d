(** MiniCRun.v -- running programs of the C subset (MiniC.v) symbolically: one lemma per construct,
    and tactics that apply them. *)
From Coq Require Import String.
From Verif Require Import Base MiniC.
Local Open Scope N_scope.

(** ** Bounds *)
Lemma lt_up a j k : a < 2 ^ j -> j <= k -> a < 2 ^ k.
Proof. intros H K. eapply N.lt_le_trans; [exact H|]. apply N.pow_le_mono_r; [discriminate|exact K]. Qed.
Lemma bits_lt a k : (forall i, k <= i -> N.testbit a i = false) -> a < 2 ^ k.
Proof.
  intros H. destruct (N.eq_dec a 0) as [->|Ha]; [apply N.neq_0_lt_0, N.pow_nonzero; discriminate|].
  apply N.log2_lt_pow2; [apply N.neq_0_lt_0; exact Ha|]. destruct (N.lt_ge_cases (N.log2 a) k) as [|G]; [assumption|].
  pose proof (N.bit_log2 a Ha) as B. rewrite (H _ G) in B. discriminate.
Qed.
Lemma lt_bits a k i : a < 2 ^ k -> k <= i -> N.testbit a i = false.
Proof.
  intros H K. destruct (N.eq_dec a 0) as [->|Ha]; [apply N.bits_0|]. apply N.bits_above_log2.
  apply N.lt_le_trans with k; [|exact K]. apply N.log2_lt_pow2; [apply N.neq_0_lt_0; exact Ha|exact H].
Qed.
Lemma lxor_lt a b k : a < 2 ^ k -> b < 2 ^ k -> N.lxor a b < 2 ^ k.
Proof. intros A B. apply bits_lt. intros i K. rewrite N.lxor_spec, (lt_bits a k i A K), (lt_bits b k i B K). reflexivity. Qed.
Lemma lor_lt a b k : a < 2 ^ k -> b < 2 ^ k -> N.lor a b < 2 ^ k.
Proof. intros A B. apply bits_lt. intros i K. rewrite N.lor_spec, (lt_bits a k i A K), (lt_bits b k i B K). reflexivity. Qed.
Lemma land_lt_l a b k : a < 2 ^ k -> N.land a b < 2 ^ k.
Proof. intros A. apply bits_lt. intros i K. rewrite N.land_spec, (lt_bits a k i A K). reflexivity. Qed.
Lemma land_lt_r a b k : b < 2 ^ k -> N.land a b < 2 ^ k.
Proof. intros A. apply bits_lt. intros i K. rewrite N.land_spec, (lt_bits b k i A K). apply andb_false_r. Qed.
Lemma shiftr_lt a j k : a < 2 ^ (k + j) -> N.shiftr a j < 2 ^ k.
Proof. intros A. apply bits_lt. intros i K. rewrite N.shiftr_spec'. apply (lt_bits a (k + j)); [exact A|lia]. Qed.
Lemma shiftl_lt a j k : a < 2 ^ (k - j) -> j <= k -> N.shiftl a j < 2 ^ k.
Proof.
  intros A J. apply bits_lt. intros i K. destruct (N.lt_ge_cases i j) as [H|H]; [apply N.shiftl_spec_low; exact H|].
  rewrite N.shiftl_spec_high' by exact H. apply (lt_bits a (k - j)); [exact A|lia].
Qed.
Lemma mod_lt a j k : j <= k -> a mod 2 ^ j < 2 ^ k.
Proof. intros K. apply lt_up with j; [|exact K]. apply N.mod_lt, N.pow_nonzero. discriminate. Qed.

Ltac groundP p := lazymatch p with xH => idtac | xO ?q => groundP q | xI ?q => groundP q end.
Ltac ground n := lazymatch n with N0 => idtac | Npos ?p => groundP p end.

(* e < 2 ^ k *)
Ltac bd :=
  lazymatch goal with
  | |- ?e < 2 ^ ?k =>
    lazymatch e with
    | N.lxor _ _ => apply lxor_lt; bd
    | N.lor _ _ => apply lor_lt; bd
    | N.land _ _ => first [apply land_lt_r; bd | apply land_lt_l; bd]
    | N.shiftr ?a ?j => apply shiftr_lt; let q := eval vm_compute in (k + j) in change (k + j) with q; bd
    | N.shiftl ?a ?j => apply shiftl_lt; [let q := eval vm_compute in (k - j) in change (k - j) with q; bd | discriminate]
    | _ mod 2 ^ _ => apply mod_lt; discriminate
    | u8 _ => apply mod_lt; discriminate
    | u32 _ => apply mod_lt; discriminate
    | u64 _ => apply mod_lt; discriminate
    | _ => first [(ground e; vm_compute; reflexivity) | assumption | (eapply lt_up; [eassumption | discriminate]) | (let q := eval vm_compute in (2 ^ k) in change (e < q)); lia]
    end
  end.

(** ** Integers *)
Lemma conv_id s t n : n < 2 ^ (bits t) -> n < 2 ^ (if is_signed s then bits s - 1 else bits s) -> conv s t n = n.
Proof.
  intros A B. unfold conv. destruct (bits t <? bits s); [apply N.mod_small; exact A|].
  destruct (is_signed s) eqn:S; [|reflexivity]. simpl. destruct (bits s <? bits t); [|reflexivity].
  unfold sval. rewrite S. cbn [andb]. rewrite (proj2 (N.leb_gt _ _) B). unfold wrap.
  rewrite <- (N2Z.id n) at 2. f_equal. apply Z.mod_small. split; [apply N2Z.is_nonneg|].
  change 2%Z with (Z.of_N 2). rewrite <- N2Z.inj_pow. apply N2Z.inj_lt. exact A.
Qed.
(* widening of an unsigned type; change of sign *)
Lemma conv_free s t n : (bits t <? bits s) = false -> is_signed s && (bits s <? bits t) = false -> conv s t n = n.
Proof. intros A B. unfold conv. rewrite A, B. reflexivity. Qed.
Lemma conv_cut s t n : (bits t <? bits s) = true -> conv s t n = n mod 2 ^ bits t.
Proof. intros A. unfold conv. rewrite A. reflexivity. Qed.
Lemma sval_id t n : n < 2 ^ (if is_signed t then bits t - 1 else bits t) -> sval t n = Z.of_N n.
Proof.
  intros B. unfold sval. destruct (is_signed t); [|reflexivity]. cbn [andb]. rewrite (proj2 (N.leb_gt _ _) B). reflexivity.
Qed.
Lemma sval_u t n : is_signed t = false -> sval t n = Z.of_N n.
Proof. intros B. unfold sval. rewrite B. reflexivity. Qed.

(* conv s t n = ?n' *)
Ltac bits_norm := cbn [is_signed bits]; repeat match goal with |- context [?a - ?b] => ground a; ground b; let q := eval vm_compute in (a - b) in change (a - b) with q end.
Ltac cv1 :=
  lazymatch goal with
  | |- conv ?s ?t ?n = _ =>
      first [ ground n; vm_compute; reflexivity
            | apply conv_free; reflexivity
            | apply conv_id; bits_norm; bd
            | (etransitivity; [apply conv_cut; reflexivity | cbn [bits]; reflexivity]) ]
  end.
Definition tj ta tb := common (promote ta) (promote tb).
Definition up t ta a := conv (promote ta) t (conv ta (promote ta) a).
Lemma up_intro t ta a a1 a2 : conv ta (promote ta) a = a1 -> conv (promote ta) t a1 = a2 -> up t ta a = a2.
Proof. intros <- <-. reflexivity. Qed.
Ltac upv := eapply up_intro; cbn [promote common tj]; [cv1|cv1].

Lemma int_and ta a tb b a' b' : up (tj ta tb) ta a = a' -> up (tj ta tb) tb b = b' -> int_op And ta a tb b = Ok (VInt (tj ta tb) (N.land a' b')).
Proof. intros <- <-. reflexivity. Qed.
Lemma int_or ta a tb b a' b' : up (tj ta tb) ta a = a' -> up (tj ta tb) tb b = b' -> int_op Or ta a tb b = Ok (VInt (tj ta tb) (N.lor a' b')).
Proof. intros <- <-. reflexivity. Qed.
Lemma int_xor ta a tb b a' b' : up (tj ta tb) ta a = a' -> up (tj ta tb) tb b = b' -> int_op Xor ta a tb b = Ok (VInt (tj ta tb) (N.lxor a' b')).
Proof. intros <- <-. reflexivity. Qed.
Definition half (t : ity) : N := if is_signed t then 2 ^ (bits t - 1) else 2 ^ bits t.
Lemma half_full t : half t <= 2 ^ bits t.
Proof. destruct t; vm_compute; discriminate. Qed.
Lemma sval_half t n : n < half t -> sval t n = Z.of_N n.
Proof. unfold half. intros H. apply sval_id. destruct (is_signed t); exact H. Qed.
Lemma arith_half t n : n < half t -> arith t (Z.of_N n) = Ok n.
Proof.
  intros H. unfold arith.
  assert (W : wrap t (Z.of_N n) = n).
  { unfold wrap. rewrite Z.mod_small; [apply N2Z.id|]. split; [apply N2Z.is_nonneg|]. change 2%Z with (Z.of_N 2).
    rewrite <- N2Z.inj_pow. apply N2Z.inj_lt. eapply N.lt_le_trans; [exact H|apply half_full]. }
  rewrite W. unfold half in H. destruct (is_signed t); [|reflexivity].
  assert (F : fits_in t (Z.of_N n) = true); [|rewrite F; reflexivity].
  unfold fits_in. apply andb_true_intro. split.
  - apply Z.leb_le. pose proof (Z.pow_nonneg 2 (Z.of_N (bits t) - 1)). pose proof (N2Z.is_nonneg n). lia.
  - apply Z.ltb_lt. replace (Z.of_N (bits t) - 1)%Z with (Z.of_N (bits t - 1)) by (destruct t; reflexivity).
    change 2%Z with (Z.of_N 2). rewrite <- N2Z.inj_pow. apply N2Z.inj_lt. exact H.
Qed.
Lemma int_add ta a tb b a' b' : up (tj ta tb) ta a = a' -> up (tj ta tb) tb b = b' -> a' + b' < half (tj ta tb) ->
  int_op Add ta a tb b = Ok (VInt (tj ta tb) (a' + b')).
Proof.
  intros <- <- H. unfold int_op, up in *. cbn zeta. fold (tj ta tb). rewrite !sval_half by (eapply N.le_lt_trans; [|exact H]; lia).
  rewrite <- N2Z.inj_add, arith_half by exact H. reflexivity.
Qed.
Lemma int_mul ta a tb b a' b' : up (tj ta tb) ta a = a' -> up (tj ta tb) tb b = b' -> a' < half (tj ta tb) -> b' < half (tj ta tb) -> a' * b' < half (tj ta tb) ->
  int_op Mul ta a tb b = Ok (VInt (tj ta tb) (a' * b')).
Proof.
  intros <- <- Ha Hb H. unfold int_op, up in *. cbn zeta. fold (tj ta tb). rewrite !sval_half by assumption.
  rewrite <- N2Z.inj_mul, arith_half by exact H. reflexivity.
Qed.
Lemma int_sub ta a tb b a' b' : up (tj ta tb) ta a = a' -> up (tj ta tb) tb b = b' -> b' <= a' -> a' < half (tj ta tb) ->
  int_op Sub ta a tb b = Ok (VInt (tj ta tb) (a' - b')).
Proof.
  intros <- <- L H. unfold int_op, up in *. cbn zeta. fold (tj ta tb). rewrite !sval_half by (eapply N.le_lt_trans; [|exact H]; lia).
  rewrite <- N2Z.inj_sub, arith_half by lia. reflexivity.
Qed.
(* unsigned addition and subtraction wrap *)
Lemma wrap_N t n : wrap t (Z.of_N n) = n mod 2 ^ bits t.
Proof.
  unfold wrap. change 2%Z with (Z.of_N 2). rewrite <- N2Z.inj_pow, <- N2Z.inj_mod. apply N2Z.id.
Qed.
Lemma int_add_u ta a tb b a' b' : up (tj ta tb) ta a = a' -> up (tj ta tb) tb b = b' -> is_signed (tj ta tb) = false ->
  int_op Add ta a tb b = Ok (VInt (tj ta tb) ((a' + b') mod 2 ^ bits (tj ta tb))).
Proof.
  intros <- <- U. unfold int_op, up in *. cbn zeta. fold (tj ta tb). rewrite !sval_u by exact U. unfold arith. rewrite U.
  rewrite <- N2Z.inj_add, wrap_N. reflexivity.
Qed.
Lemma int_sub_u ta a tb b a' b' : up (tj ta tb) ta a = a' -> up (tj ta tb) tb b = b' -> is_signed (tj ta tb) = false -> b' <= 2 ^ bits (tj ta tb) ->
  int_op Sub ta a tb b = Ok (VInt (tj ta tb) ((a' + 2 ^ bits (tj ta tb) - b') mod 2 ^ bits (tj ta tb))).
Proof.
  intros <- <- U L. unfold int_op, up in *. cbn zeta. fold (tj ta tb). rewrite !sval_u by exact U. unfold arith. rewrite U. cbn [bind].
  do 2 f_equal. rewrite <- wrap_N. unfold wrap. f_equal.
  rewrite N2Z.inj_sub, N2Z.inj_add, N2Z.inj_pow by lia. change (Z.of_N 2) with 2%Z.
  rewrite <- (Z_mod_plus_full _ 1). f_equal. lia.
Qed.
Definition cmp (o : binop) (a b : N) : bool :=
  match o with Lt => a <? b | Gt => b <? a | Le => a <=? b | Ge => b <=? a | Eq => a =? b | Ne => negb (a =? b) | _ => false end.
Definition is_cmp (o : binop) : bool := match o with Lt | Gt | Le | Ge | Eq | Ne => true | _ => false end.
Lemma ltb_Z a b : (Z.of_N a <? Z.of_N b)%Z = (a <? b). Proof. destruct (N.ltb_spec a b), (Z.ltb_spec (Z.of_N a) (Z.of_N b)); lia. Qed.
Lemma leb_Z a b : (Z.of_N a <=? Z.of_N b)%Z = (a <=? b). Proof. destruct (N.leb_spec a b), (Z.leb_spec (Z.of_N a) (Z.of_N b)); lia. Qed.
Lemma eqb_Z a b : (Z.of_N a =? Z.of_N b)%Z = (a =? b). Proof. destruct (N.eqb_spec a b), (Z.eqb_spec (Z.of_N a) (Z.of_N b)); lia. Qed.
Lemma int_cmp o ta a tb b a' b' : is_cmp o = true -> up (tj ta tb) ta a = a' -> up (tj ta tb) tb b = b' ->
  a' < half (tj ta tb) -> b' < half (tj ta tb) -> int_op o ta a tb b = Ok (truth (cmp o a' b')).
Proof.
  intros O <- <- Ha Hb. unfold up in *. destruct o; try discriminate O; unfold int_op; cbn zeta; fold (tj ta tb);
    rewrite !sval_half by assumption; rewrite ?ltb_Z, ?leb_Z, ?eqb_Z; reflexivity.
Qed.
Lemma true_truth b : is_true (truth b) = Ok b. Proof. destruct b; reflexivity. Qed.

(* shifts by a constant *)
Lemma shl_u t a k : is_signed t = false -> k < bits t -> shift_left t a k = Ok (N.shiftl a k mod 2 ^ bits t).
Proof. intros S K. unfold shift_left. rewrite (proj2 (N.ltb_lt _ _) K), S. reflexivity. Qed.
Lemma shl_s t a k : is_signed t = true -> k < bits t -> a < half t -> N.shiftl a k < half t -> shift_left t a k = Ok (N.shiftl a k).
Proof.
  intros S K A H. unfold shift_left. rewrite (proj2 (N.ltb_lt _ _) K), S, sval_half by exact A.
  pose proof (arith_half t _ H) as F. unfold arith in F. rewrite S in F.
  replace (Z.shiftl (Z.of_N a) (Z.of_N k)) with (Z.of_N (N.shiftl a k)).
  - rewrite (proj2 (Z.leb_le _ _) (N2Z.is_nonneg a)). destruct (fits_in t _); [reflexivity|discriminate].
  - rewrite Z.shiftl_mul_pow2 by apply N2Z.is_nonneg. rewrite N.shiftl_mul_pow2, N2Z.inj_mul, N2Z.inj_pow. reflexivity.
Qed.
Lemma shr_ok t a k : k < bits t -> a < half t -> shift_right t a k = Ok (N.shiftr a k).
Proof.
  intros K A. unfold shift_right. rewrite (proj2 (N.ltb_lt _ _) K), sval_half by exact A.
  replace (Z.shiftr (Z.of_N a) (Z.of_N k)) with (Z.of_N (N.shiftr a k)).
  - destruct (is_signed t); [|reflexivity]. rewrite wrap_N, N.mod_small; [reflexivity|].
    eapply N.le_lt_trans; [|eapply N.lt_le_trans; [exact A|apply half_full]].
    rewrite N.shiftr_div_pow2. apply N.div_le_upper_bound; [apply N.pow_nonzero; discriminate|].
    rewrite <- (N.mul_1_l a) at 1. apply N.mul_le_mono_r. pose proof (N.pow_nonzero 2 k). lia.
  - rewrite Z.shiftr_div_pow2 by apply N2Z.is_nonneg. rewrite N.shiftr_div_pow2, N2Z.inj_div, N2Z.inj_pow. reflexivity.
Qed.
Lemma int_shl ta a tb k a' k' r : conv ta (promote ta) a = a' -> conv tb (promote tb) k = k' -> k' < half (promote tb) ->
  shift_left (promote ta) a' k' = Ok r -> int_op Shl ta a tb k = Ok (VInt (promote ta) r).
Proof.
  intros <- <- K E. unfold int_op. cbn zeta. rewrite sval_half by exact K.
  rewrite (proj2 (Z.ltb_ge _ _) (N2Z.is_nonneg _)), E. reflexivity.
Qed.
Lemma int_shr ta a tb k a' k' r : conv ta (promote ta) a = a' -> conv tb (promote tb) k = k' -> k' < half (promote tb) ->
  shift_right (promote ta) a' k' = Ok r -> int_op Shr ta a tb k = Ok (VInt (promote ta) r).
Proof.
  intros <- <- K E. unfold int_op. cbn zeta. rewrite sval_half by exact K.
  rewrite (proj2 (Z.ltb_ge _ _) (N2Z.is_nonneg _)), E. reflexivity.
Qed.

(* the same, with the type in normal form *)
Lemma retype v n n' t t' : v = Ok (VInt t n) -> t = t' -> n = n' -> v = Ok (VInt t' n'). Proof. intros -> -> ->. reflexivity. Qed.
(* n < half t, and other side conditions of arithmetic *)
Ltac small :=
  match goal with
  | |- ?a < half ?t => (ground a; vm_compute; reflexivity)
  | |- _ < half ?t => (let h := eval cbv [half is_signed] in (half t) in change (half t) with h); bits_norm; bd
  | |- _ < half ?t => (let h := eval vm_compute in (half t) in change (half t) with h); lia
  | |- _ <= _ => lia
  | |- _ < _ => lia
  | |- _ < ?b => vm_compute; reflexivity
  end.
Ltac ty := cbv [tj promote common bits]; reflexivity.
Ltac intop :=
  lazymatch goal with
  | |- int_op ?o ?ta ?a ?tb ?b = _ =>
    first [ ground a; ground b; vm_compute; reflexivity |
    lazymatch o with
    | And => eapply retype; [eapply int_and; [upv|upv] | ty | ty]
    | Or => eapply retype; [eapply int_or; [upv|upv] | ty | ty]
    | Xor => eapply retype; [eapply int_xor; [upv|upv] | ty | ty]
    | Add => eapply retype; [first [eapply int_add; [upv|upv|cbn [tj promote common]; small] | eapply int_add_u; [upv|upv|reflexivity]] | ty | ty]
    | Sub => eapply retype; [first [eapply int_sub; [upv|upv|cbn [tj promote common]; small|cbn [tj promote common]; small] | eapply int_sub_u; [upv|upv|reflexivity|cbn [tj promote common bits]; small]] | ty | ty]
    | Mul => eapply retype; [eapply int_mul; [upv|upv|cbn [tj promote common]; small|cbn [tj promote common]; small|cbn [tj promote common]; small] | ty | ty]
    | Shl => eapply retype; [eapply int_shl; cbn [promote]; [cv1|cv1|small|first [apply shl_u; [reflexivity|vm_compute; reflexivity] | apply shl_s; [reflexivity|vm_compute; reflexivity|small|small]]] | ty | ty]
    | Shr => eapply retype; [eapply int_shr; cbn [promote]; [cv1|cv1|small|apply shr_ok; [first [vm_compute; reflexivity | cbn [bits]; lia]|small]] | ty | ty]
    | _ => eapply int_cmp; [reflexivity|upv|upv|cbn [tj promote common]; small|cbn [tj promote common]; small]
    end ]
  end.

(** ** Pointers and accesses *)
Section Access.
  Context (be : bool) (tables : string -> option (ctype * list N)) (structs : string -> list (string * ctype)).
  (* element i after the location *)
  Definition plus_loc (t : ctype) (l : loc) (i : N) : loc :=
    match l with Flat a => Flat (a + i * size_of structs t) | Obj o k => Obj o (k + i * elements t) | Tab x k => Tab x (k + i * elements t) end.
  Lemma move_up t l i : move structs t l (Z.of_N i) = Ok (plus_loc t l i).
  Proof.
    destruct l; unfold move, plus_loc; rewrite <- N2Z.inj_mul, <- N2Z.inj_add, (proj2 (Z.ltb_ge _ _) (N2Z.is_nonneg _)), N2Z.id; reflexivity.
  Qed.
  Lemma ptr_add t l ti i i' l' : sval ti i = Z.of_N i' -> plus_loc t l i' = l' -> bin_op structs Add (VPtr t l) (VInt ti i) = Ok (VPtr t l').
  Proof. intros E <-. unfold bin_op. rewrite E, move_up. reflexivity. Qed.
  Lemma ptr_sub t a ti i i' : sval ti i = Z.of_N i' -> i' * size_of structs t <= a ->
    bin_op structs Sub (VPtr t (Flat a)) (VInt ti i) = Ok (VPtr t (Flat (a - i' * size_of structs t))).
  Proof.
    intros E H. unfold bin_op. rewrite E. unfold move.
    replace (Z.of_N a + - Z.of_N i' * Z.of_N (size_of structs t))%Z with (Z.of_N (a - i' * size_of structs t))
      by (rewrite N2Z.inj_sub, N2Z.inj_mul by exact H; ring).
    rewrite (proj2 (Z.ltb_ge _ _) (N2Z.is_nonneg _)), N2Z.id. reflexivity.
  Qed.
  Lemma load_flat8 a s b : load (flat s) a = Ok b -> load_at be tables (TInt U8) (Flat a) s = Ok (VInt U8 b).
  Proof.
    intros E. unfold load_at. cbn [bytes_in]. change (N.of_nat 1) with 1. rewrite N.mod_1_r. cbn [N.eqb load_bytes bind]. rewrite E. cbn [bind].
    do 2 f_equal. unfold native_val. destruct be; cbn [rev app le_val]; lia.
  Qed.
  Lemma store_flat8 a s t v m : v < 2 ^ 8 -> store (flat s) a v = Ok m -> store_at be (TInt U8) (Flat a) (VInt t v) s = Ok (mk_cst m (objs s)).
  Proof.
    intros B E. unfold store_at. cbn [bytes_in]. change (N.of_nat 1) with 1. rewrite N.mod_1_r. cbn [N.eqb].
    replace (native_bytes be 1 v) with [v]; [cbn [store_bytes bind]; rewrite E; reflexivity|].
    unfold native_bytes. cbn [le_bytes]. rewrite N.mod_small by exact B. destruct be; reflexivity.
  Qed.
  Lemma load_tab it x ty l k n s : tables x = Some (ty, l) -> tget l k = Ok n -> load_at be tables (TInt it) (Tab x k) s = Ok (VInt it n).
  Proof. intros T E. unfold load_at. rewrite T, E. reflexivity. Qed.
  Lemma load_obj it i k cs n s : nth_error (objs s) i = Some (OInts it cs) -> oget cs (N.to_nat k) = Ok n -> load_at be tables (TInt it) (Obj i k) s = Ok (VInt it n).
  Proof. intros T E. unfold load_at. rewrite T. replace (ity_eqb it it) with true by (destruct it; reflexivity). rewrite E. reflexivity. Qed.
  Lemma store_obj it i k cs cs' t n s : nth_error (objs s) i = Some (OInts it cs) -> aset cs (N.to_nat k) (Some n) = Ok cs' ->
    store_at be (TInt it) (Obj i k) (VInt t n) s = Ok (mk_cst (flat s) (upd (objs s) i (OInts it cs'))).
  Proof. intros T E. unfold store_at. rewrite T. replace (ity_eqb it it) with true by (destruct it; reflexivity). rewrite E. reflexivity. Qed.
  Lemma conv_value s t n n' : conv s t n = n' -> convert (TInt t) (VInt s n) = Ok (VInt t n').
  Proof. intros <-. reflexivity. Qed.
End Access.

(** ** Expressions *)
Section Expr.
  Context (be : bool) (tables : string -> option (ctype * list N)) (structs : string -> list (string * ctype)) (fuel : nat) (calls : callable).
  Notation ev := (ev be tables structs calls).
  Notation rvalue := (rvalue be tables).
  Lemma ev_var e x g s t i : e = EVar x -> lookup g x = Some (t, i) -> ev e g s = Ok (L t (Obj i 0), s).
  Proof. intros -> E. simpl. rewrite E. reflexivity. Qed.
  Lemma ev_tab x g s t l : lookup g x = None -> tables x = Some (t, l) -> ev (EVar x) g s = Ok (L t (Tab x 0), s).
  Proof. intros E T. simpl. rewrite E, T. reflexivity. Qed.
  Lemma ev_bin o a b g s ra s1 va rb s2 vb v : ev a g s = Ok (ra, s1) -> rvalue ra s1 = Ok va -> ev b g s1 = Ok (rb, s2) -> rvalue rb s2 = Ok vb ->
    bin_op structs o va vb = Ok v -> ev (EBin o a b) g s = Ok (V v, s2).
  Proof. intros A B C D E. simpl. rewrite A; simpl. rewrite B; simpl. rewrite C; simpl. rewrite D; simpl. rewrite E. reflexivity. Qed.
  Lemma ev_un o a g s ra s1 va v : ev a g s = Ok (ra, s1) -> rvalue ra s1 = Ok va -> un_op o va = Ok v -> ev (EUn o a) g s = Ok (V v, s1).
  Proof. intros A B C. simpl. rewrite A; simpl. rewrite B; simpl. rewrite C. reflexivity. Qed.
  Lemma ev_cond c a b g s rc s1 vc t r s2 v : ev c g s = Ok (rc, s1) -> rvalue rc s1 = Ok vc -> is_true vc = Ok t ->
    (if t then ev a g s1 else ev b g s1) = Ok (r, s2) -> rvalue r s2 = Ok v -> ev (ECond c a b) g s = Ok (V v, s2).
  Proof. intros A B C D E. simpl. rewrite A; simpl. rewrite B; simpl. rewrite C; simpl. rewrite D; simpl. rewrite E. reflexivity. Qed.
  Lemma ev_cast t a g s ra s1 va v : ev a g s = Ok (ra, s1) -> rvalue ra s1 = Ok va -> convert t va = Ok v -> ev (ECast t a) g s = Ok (V v, s1).
  Proof. intros A B C. simpl. rewrite A; simpl. rewrite B; simpl. rewrite C. reflexivity. Qed.
  Lemma ev_index a b g s ra s1 va rb s2 vb t l : ev a g s = Ok (ra, s1) -> rvalue ra s1 = Ok va -> ev b g s1 = Ok (rb, s2) -> rvalue rb s2 = Ok vb ->
    bin_op structs Add va vb = Ok (VPtr t l) -> ev (EIndex a b) g s = Ok (L t l, s2).
  Proof. intros A B C D E. simpl. rewrite A; simpl. rewrite B; simpl. rewrite C; simpl. rewrite D; simpl. rewrite E. reflexivity. Qed.
  Lemma ev_deref a g s ra s1 t l : ev a g s = Ok (ra, s1) -> rvalue ra s1 = Ok (VPtr t l) -> ev (EDeref a) g s = Ok (L t l, s1).
  Proof. intros A B. simpl. rewrite A; simpl. rewrite B. reflexivity. Qed.
  Lemma ev_addr a g s t l s1 : ev a g s = Ok (L t l, s1) -> ev (EAddr a) g s = Ok (V (VPtr t l), s1).
  Proof. intros A. simpl. rewrite A. reflexivity. Qed.
  Lemma ev_field a f g s n p s1 t o q : ev a g s = Ok (L (TStruct n) (Flat p), s1) -> field_type (structs n) f = Some t -> field_offset (structs n) f = o -> p + o = q ->
    ev (EField a f) g s = Ok (L t (Flat q), s1).
  Proof. intros A B <- <-. simpl. rewrite A; simpl. rewrite B. reflexivity. Qed.
  Lemma ev_assign l r g s rr s1 v t p s2 v' s3 : ev r g s = Ok (rr, s1) -> rvalue rr s1 = Ok v -> ev l g s1 = Ok (L t p, s2) ->
    convert t v = Ok v' -> store_at be t p v' s2 = Ok s3 -> ev (EAssign l r) g s = Ok (V v', s3).
  Proof. intros A B C D E. simpl. rewrite A; simpl. rewrite B; simpl. rewrite C; simpl. unfold assign. rewrite D; simpl. rewrite E. reflexivity. Qed.
  Lemma ev_op o l r g s rr s1 v t p s2 vl v' v'' s3 : ev r g s = Ok (rr, s1) -> rvalue rr s1 = Ok v -> ev l g s1 = Ok (L t p, s2) ->
    rvalue (L t p) s2 = Ok vl -> bin_op structs o vl v = Ok v' -> convert t v' = Ok v'' -> store_at be t p v'' s2 = Ok s3 ->
    ev (EOpAssign o l r) g s = Ok (V v'', s3).
  Proof.
    intros A B C D E F G. cbn [MiniC.ev]. rewrite A; cbn [bind]. rewrite B; cbn [bind]. rewrite C; cbn [bind]. rewrite D; cbn [bind].
    rewrite E; cbn [bind]. unfold assign. rewrite F; cbn [bind]. rewrite G. reflexivity.
  Qed.
  Lemma ev_post o l g s t p s2 vl v' v'' s3 : ev l g s = Ok (L t p, s2) ->
    rvalue (L t p) s2 = Ok vl -> bin_op structs o vl (VInt I32 1) = Ok v' -> convert t v' = Ok v'' -> store_at be t p v'' s2 = Ok s3 ->
    ev (EPost o l) g s = Ok (V vl, s3).
  Proof.
    intros C D E F G. cbn [MiniC.ev]. rewrite C; cbn [bind]. rewrite D; cbn [bind].
    rewrite E; cbn [bind]. unfold assign. rewrite F; cbn [bind]. rewrite G. reflexivity.
  Qed.
  Lemma ev_sizeof a g s t l s1 : ev a g s = Ok (L t l, s1) -> ev (ESizeof a) g s = Ok (V (VInt U64 (size_of structs t)), s).
  Proof. intros A. simpl. rewrite A. reflexivity. Qed.

  Fixpoint evs (l : list expr) (g : env) (s : cstate) : res (list value * cstate) :=
    match l with
    | [] => Ok ([], s)
    | a :: r => '(ra, s) <- ev a g s ;; v <- rvalue ra s ;; '(vs, s) <- evs r g s ;; Ok (v :: vs, s)
    end.
  Lemma evs_cons a r g s ra s1 v vs s2 : ev a g s = Ok (ra, s1) -> rvalue ra s1 = Ok v -> evs r g s1 = Ok (vs, s2) -> evs (a :: r) g s = Ok (v :: vs, s2).
  Proof. intros A B C. cbn [evs]. rewrite A; cbn [bind]. rewrite B; cbn [bind]. rewrite C. reflexivity. Qed.
  Lemma evs_fix l g : forall s, (fix evs (l : list expr) (s : cstate) : res (list value * cstate) :=
             match l with
             | [] => Ok ([], s)
             | a :: r => '(ra, s) <- ev a g s ;; v <- rvalue ra s ;; '(vs, s) <- evs r s ;; Ok (v :: vs, s)
             end) l s = evs l g s.
  Proof.
    induction l as [|a r IH]; intros s; [reflexivity|]. cbn [evs]. destruct (ev a g s) as [[ra s1]| | |]; try reflexivity. cbn [bind].
    destruct (rvalue ra s1); try reflexivity. cbn [bind]. rewrite IH. reflexivity.
  Qed.
  Lemma ev_call f l g s vs s1 r s2 : String.eqb f "memcpy" = false -> evs l g s = Ok (vs, s1) -> calls f vs s1 = Ok (r, s2) ->
    ev (ECall f l) g s = Ok (V (match r with Some v => v | None => VInt I32 0 end), s2).
  Proof. intros M A B. cbn [MiniC.ev]. rewrite evs_fix, A; cbn [bind]. rewrite M, B. reflexivity. Qed.
  Lemma ev_memcpy l g s td d tq q tn n s1 bs s2 : evs l g s = Ok ([VPtr td d; VPtr tq q; VInt tn n], s1) ->
    read_bytes be q n s1 = Ok bs -> write_bytes be d bs s1 = Ok s2 -> ev (ECall "memcpy" l) g s = Ok (V (VPtr tq d), s2).
  Proof. intros A B C. cbn [MiniC.ev]. rewrite evs_fix, A; cbn [bind]. simpl String.eqb. cbv iota. unfold memcpy. rewrite B; cbn [bind]. rewrite C. reflexivity. Qed.

  (** ** Statements *)
  Notation exec := (exec be tables structs fuel calls).
  Fixpoint exec_seq (l : list stmt) (g : env) (s : cstate) : res (outcome * cstate) :=
    match l with
    | [] => Ok (None, s)
    | a :: r => '(g, o, s) <- exec a g s ;; match o with Some _ => Ok (o, s) | None => exec_seq r g s end
    end.
  Lemma exec_block l g s o s1 : exec_seq l g s = Ok (o, s1) -> exec (SBlock l) g s = Ok (g, o, mk_cst (flat s1) (firstn (length (objs s)) (objs s1))).
  Proof.
    intros E. cbn [MiniC.exec].
    assert (K : forall l g s, (fix seq (l : list stmt) (g : env) (s : cstate) : res (outcome * cstate) :=
             match l with
             | [] => Ok (None, s)
             | a :: r => '(g, o, s) <- exec a g s ;; match o with Some _ => Ok (o, s) | None => seq r g s end
             end) l g s = exec_seq l g s).
    { reflexivity. }
    rewrite K, E. reflexivity.
  Qed.
  Lemma seq_nil g s : exec_seq [] g s = Ok (None, s). Proof. reflexivity. Qed.
  Lemma seq_one st r g s g1 s1 x : exec st g s = Ok (g1, None, s1) -> exec_seq r g1 s1 = x -> exec_seq (st :: r) g s = x.
  Proof. intros A B. cbn [exec_seq]. rewrite A. exact B. Qed.
  Lemma seq_stop st r g s g1 v s1 : exec st g s = Ok (g1, Some v, s1) -> exec_seq (st :: r) g s = Ok (Some v, s1).
  Proof. intros A. cbn [exec_seq]. rewrite A. reflexivity. Qed.
  Lemma st_expr e g s r s1 : ev e g s = Ok (r, s1) -> exec (SExpr e) g s = Ok (g, None, s1).
  Proof. intros A. simpl. rewrite A. reflexivity. Qed.
  Lemma st_decl t x g s o : base_of t = Some o ->
    exec (SDecl t x None) g s = Ok ((x, (t, length (objs s))) :: g, None, mk_cst (flat s) (objs s ++ [o])).
  Proof. intros A. simpl. unfold declare. rewrite A. reflexivity. Qed.
  Lemma st_init t x e g s o r s1 v v' s2 : base_of t = Some o ->
    ev e ((x, (t, length (objs s))) :: g) (mk_cst (flat s) (objs s ++ [o])) = Ok (r, s1) -> rvalue r s1 = Ok v -> convert t v = Ok v' ->
    store_at be t (Obj (length (objs s)) 0) v' s1 = Ok s2 ->
    exec (SDecl t x (Some e)) g s = Ok ((x, (t, length (objs s))) :: g, None, s2).
  Proof.
    intros A B C D E. simpl. unfold declare. rewrite A; simpl. unfold set_objs. rewrite B; simpl. rewrite C; simpl. rewrite String.eqb_refl.
    unfold assign. rewrite D; simpl. rewrite E. reflexivity.
  Qed.
  Lemma cond_ok c g s r s1 v b : ev c g s = Ok (r, s1) -> rvalue r s1 = Ok v -> is_true v = Ok b -> cond_of be tables structs calls c g s = Ok (b, s1).
  Proof. intros A B C. unfold cond_of. rewrite A; simpl. rewrite B; simpl. rewrite C. reflexivity. Qed.
  Lemma st_if c a d g s t s1 g2 o s2 : cond_of be tables structs calls c g s = Ok (t, s1) -> (if t then exec a g s1 else exec d g s1) = Ok (g2, o, s2) ->
    exec (SIf c a d) g s = Ok (g, o, s2).
  Proof. intros A B. cbn [MiniC.exec]. rewrite A; cbn [bind]. rewrite B. reflexivity. Qed.
  Lemma st_return e g s r s1 v : ev e g s = Ok (r, s1) -> rvalue r s1 = Ok v -> exec (SReturn (Some e)) g s = Ok (g, Some (Some v), s1).
  Proof. intros A B. simpl. rewrite A; simpl. rewrite B. reflexivity. Qed.
  Lemma opt_some e g s r s1 : ev e g s = Ok (r, s1) -> opt_ev be tables structs calls (Some e) g s = Ok s1.
  Proof. intros A. simpl. rewrite A. reflexivity. Qed.

  (** ** Loops *)
  (* the state before iteration i is [R i x]; the model's loop has the body [body] *)
  Definition body_ok (g : env) (b : stmt) (s s' : cstate) : Prop := exec b g s = Ok (g, None, s').
  Lemma loop_up {X} (R : nat -> X -> cstate) (I : nat -> X -> Prop) c st b g (body : nat -> X -> res X) n : forall k i x y n0,
    for_ n i body x = Ok y -> (n < k)%nat -> I i x -> n0 = (i + n)%nat ->
    (forall j x x', (i <= j < n0)%nat -> I j x -> body j x = Ok x' -> I (S j) x' /\ cond_of be tables structs calls c g (R j x) = Ok (true, R j x) /\
       exists s1, body_ok g b (R j x) s1 /\ opt_ev be tables structs calls st g s1 = Ok (R (S j) x')) ->
    (forall x, I n0 x -> cond_of be tables structs calls c g (R n0 x) = Ok (false, R n0 x)) ->
    loop k (cond_of be tables structs calls c g) (fun s => '(_, o, s) <- exec b g s ;; Ok (o, s)) (opt_ev be tables structs calls st g) (R i x)
      = Ok (None, R n0 y) /\ I n0 y.
  Proof.
    induction n as [|n IH]; intros k i x y n0 E K Hi En Hb Hc; (destruct k as [|k]; [lia|]); cbn [loop].
    - injection E as <-. replace n0 with i in * by lia. rewrite (Hc x Hi). cbn [bind]. split; [reflexivity|exact Hi].
    - cbn [for_] in E. destruct (body i x) as [x'| | |] eqn:B; try discriminate E. cbn [bind] in E.
      destruct (Hb i x x' ltac:(lia) Hi B) as (Hi' & C & s1 & E1 & E2). rewrite C; cbn [bind]. unfold body_ok in E1. rewrite E1; cbn [bind]. rewrite E2; cbn [bind].
      apply IH; try lia; try assumption. intros j z z' Hj. apply Hb. lia.
  Qed.
  (* downwards; the condition may itself change the state (while (i--)) *)
  Lemma loop_down {X} (R Q : nat -> X -> cstate) (F : X -> cstate) (I : X -> Prop) c st b g (body : nat -> X -> res X) n : forall k x y,
    for_down n body x = Ok y -> (n < k)%nat -> I x ->
    (forall j x x', (j < n)%nat -> I x -> body j x = Ok x' -> I x' /\ cond_of be tables structs calls c g (R (S j) x) = Ok (true, Q j x) /\
       exists s1, body_ok g b (Q j x) s1 /\ opt_ev be tables structs calls st g s1 = Ok (R j x')) ->
    (forall x, I x -> cond_of be tables structs calls c g (R O x) = Ok (false, F x)) ->
    loop k (cond_of be tables structs calls c g) (fun s => '(_, o, s) <- exec b g s ;; Ok (o, s)) (opt_ev be tables structs calls st g) (R n x)
      = Ok (None, F y) /\ I y.
  Proof.
    induction n as [|n IH]; intros k x y E K Hi Hb Hc; (destruct k as [|k]; [lia|]); cbn [loop].
    - injection E as <-. rewrite (Hc x Hi). cbn [bind]. split; [reflexivity|exact Hi].
    - cbn [for_down] in E. destruct (body n x) as [x'| | |] eqn:B; try discriminate E. cbn [bind] in E.
      destruct (Hb n x x' ltac:(lia) Hi B) as (Hi' & C & s1 & E1 & E2). rewrite C; cbn [bind]. unfold body_ok in E1. rewrite E1; cbn [bind]. rewrite E2; cbn [bind].
      apply IH; try lia; try assumption. intros j z z' Hj. apply Hb. lia.
  Qed.
  (* while loops *)
  Lemma loop_while {X} (R : X -> cstate) (I : X -> Prop) c st b g (cnd : X -> bool) (body : X -> res X) : forall n k x y,
    while_ n cnd body x = Ok y -> (n < k)%nat -> I x ->
    (forall x, I x -> cond_of be tables structs calls c g (R x) = Ok (cnd x, R x)) ->
    (forall x x', I x -> cnd x = true -> body x = Ok x' -> I x' /\
       exists s1, body_ok g b (R x) s1 /\ opt_ev be tables structs calls st g s1 = Ok (R x')) ->
    loop k (cond_of be tables structs calls c g) (fun s => '(_, o, s) <- exec b g s ;; Ok (o, s)) (opt_ev be tables structs calls st g) (R x)
      = Ok (None, R y) /\ I y.
  Proof.
    induction n as [|n IH]; intros k x y E K Hi Hc Hb; (destruct k as [|k]; [lia|]); cbn [loop]; rewrite (Hc x Hi); cbn [bind]; cbn [while_] in E;
      destruct (cnd x) eqn:C; try discriminate E; try (injection E as <-; split; [reflexivity|exact Hi]).
    destruct (body x) as [x'| | |] eqn:B; try discriminate E. cbn [bind] in E.
    destruct (Hb x x' Hi C B) as (Hi' & s1 & E1 & E2). unfold body_ok in E1. rewrite E1; cbn [bind]. rewrite E2; cbn [bind]. apply IH; try lia; assumption.
  Qed.
  Lemma st_for i c st b g s s1 s2 : opt_ev be tables structs calls i g s = Ok s1 ->
    loop fuel (cond_of be tables structs calls c g) (fun s => '(_, o, s) <- exec b g s ;; Ok (o, s)) (opt_ev be tables structs calls st g) s1 = Ok (None, s2) ->
    exec (SFor i c st b) g s = Ok (g, None, s2).
  Proof. intros A B. cbn [MiniC.exec]. rewrite A; cbn [bind]. rewrite B. reflexivity. Qed.
  Lemma st_while c b g s s2 :
    loop fuel (cond_of be tables structs calls c g) (fun s => '(_, o, s) <- exec b g s ;; Ok (o, s)) (opt_ev be tables structs calls None g) s = Ok (None, s2) ->
    exec (SWhile c b) g s = Ok (g, None, s2).
  Proof. intros B. cbn [MiniC.exec]. change (fun s => Ok s) with (opt_ev be tables structs calls None g). rewrite B. reflexivity. Qed.

  Lemma call_void f vs s g s1 s2 o : fn_ret f = TVoid -> bind_params be (fn_params f) vs [] s = Ok (g, s1) -> exec_seq (fn_body f) g s1 = Ok (o, s2) ->
    match o with Some (Some _) => False | _ => True end -> (length (objs s) <= length (objs s1))%nat ->
    call_fun be tables structs fuel calls f vs s = Ok (None, mk_cst (flat s2) (firstn (length (objs s)) (objs s2))).
  Proof.
    intros T A B O Le. unfold call_fun. rewrite A; cbn [bind]. rewrite (exec_block _ _ _ _ _ B); cbn [bind]. rewrite T. unfold set_objs; cbn [objs flat].
    rewrite firstn_firstn, Nat.min_l by exact Le. destruct o as [[|]|]; [contradiction|reflexivity|reflexivity].
  Qed.
  Lemma call_value f vs s g s1 s2 v v' : fn_ret f <> TVoid -> bind_params be (fn_params f) vs [] s = Ok (g, s1) -> exec_seq (fn_body f) g s1 = Ok (Some (Some v), s2) ->
    convert (fn_ret f) v = Ok v' -> (length (objs s) <= length (objs s1))%nat ->
    call_fun be tables structs fuel calls f vs s = Ok (Some v', mk_cst (flat s2) (firstn (length (objs s)) (objs s2))).
  Proof.
    intros T A B C Le. unfold call_fun. rewrite A; cbn [bind]. rewrite (exec_block _ _ _ _ _ B); cbn [bind]. unfold set_objs; cbn [objs flat].
    rewrite firstn_firstn, Nat.min_l by exact Le. destruct (fn_ret f) as [|t| | |]; rewrite ?C; reflexivity.
  Qed.
End Expr.

(** ** Tactics *)
(* accesses to automatic objects on a concrete stack *)
Ltac look := cbv beta iota zeta delta [lookup String.eqb Ascii.eqb Bool.eqb]; reflexivity.
Ltac cells := cbv beta iota zeta delta [load_at store_at set_objs objs flat nth_error upd ity_eqb oget aget aset bind length Nat.ltb Nat.leb N.to_nat Pos.to_nat Pos.iter_op Nat.add]; reflexivity.
(* rvalue r s = Ok ?v *)
Ltac flatload := eapply load_flat8; cbn [flat]; eassumption.
Ltac tabload := eapply load_tab; [reflexivity|eassumption].
Ltac rv :=
  cbn [rvalue];
  lazymatch goal with
  | |- Ok _ = Ok _ => reflexivity
  | |- load_at _ _ _ (Obj _ _) _ = _ => first [cells | eapply load_obj; [reflexivity|eassumption]]
  | |- load_at _ _ _ (Flat _) _ = _ => flatload
  | |- load_at _ _ _ (Tab _ _) _ = _ => tabload
  end.
Ltac szn := cbn [size_of elements bytes_in plain_size]; change (N.of_nat 1) with 1; rewrite ?N.mul_1_r, ?N.add_0_l, ?N.add_0_r.
Ltac sv := first [apply sval_u; reflexivity | apply sval_id; bits_norm; bd].
Ltac binop :=
  lazymatch goal with
  | |- bin_op _ _ (VInt _ _) (VInt _ _) = _ => cbn [bin_op]; intop
  | |- bin_op _ Add (VPtr _ (Obj _ ?k)) (VInt _ ?i) = _ =>
      first [ground k; ground i; vm_compute; reflexivity | eapply ptr_add; [sv | cbn [plus_loc]; szn; reflexivity]]
  | |- bin_op _ Add (VPtr _ _) (VInt _ _) = _ => eapply ptr_add; [sv | cbn [plus_loc]; szn; reflexivity]
  | |- bin_op _ Sub (VPtr _ (Flat _)) (VInt _ _) = _ => eapply ptr_sub; [sv | szn; lia]
  end.
Ltac convv := lazymatch goal with |- convert _ (VInt _ _) = _ => eapply conv_value; cv1 | |- _ => reflexivity end.
Ltac flatstore := eapply store_flat8; [bd | cbn [flat]; eassumption].
Ltac sto :=
  lazymatch goal with
  | |- store_at _ _ (Obj _ _) _ _ = _ => first [cells | eapply store_obj; [reflexivity|eassumption]]
  | |- store_at _ _ (Flat _) _ _ = _ => flatstore
  end.
Ltac callx := fail.
Ltac rdx := fail.
Ltac wrx := fail.
Ltac evx :=
  lazymatch goal with
  | |- ev _ _ _ _ (EConst _ _) _ _ = _ => reflexivity
  | |- ev _ _ _ _ (EVar _) _ _ = _ => first [eapply ev_var; [reflexivity|look] | eapply ev_tab; [look|reflexivity]]
  | |- ev _ _ _ _ (EBin _ _ _) _ _ = _ => eapply ev_bin; [evx|rv|evx|rv|binop]
  | |- ev _ _ _ _ (EUn _ _) _ _ = _ => eapply ev_un; [evx|rv|vm_compute; reflexivity]
  | |- ev _ _ _ _ (ECast _ _) _ _ = _ => eapply ev_cast; [evx|rv|convv]
  | |- ev _ _ _ _ (EIndex _ _) _ _ = _ => eapply ev_index; [evx|rv|evx|rv|binop]
  | |- ev _ _ _ _ (EDeref _) _ _ = _ => eapply ev_deref; [evx|rv]
  | |- ev _ _ _ _ (EAddr _) _ _ = _ => eapply ev_addr; evx
  | |- ev _ _ _ _ (EField _ _) _ _ = _ => eapply ev_field; [evx|reflexivity|vm_compute; reflexivity|rewrite ?N.add_0_r; reflexivity]
  | |- ev _ _ _ _ (EAssign _ _) _ _ = _ => eapply ev_assign; [evx|rv|evx|convv|sto]
  | |- ev _ _ _ _ (EOpAssign _ _ _) _ _ = _ => eapply ev_op; [evx|rv|evx|rv|binop|convv|sto]
  | |- ev _ _ _ _ (EPost _ _) _ _ = _ => eapply ev_post; [evx|rv|binop|convv|sto]
  | |- ev _ _ _ _ (ESizeof _) _ _ = _ => eapply ev_sizeof; evx
  | |- ev _ _ _ _ (ECall "memcpy" _) _ _ = _ => eapply ev_memcpy; [evsx|rdx|wrx]
  | |- ev _ _ _ _ (ECall _ _) _ _ = _ => eapply ev_call; [reflexivity|evsx|callx]
  end
with evsx :=
  lazymatch goal with
  | |- evs _ _ _ _ (_ :: _) _ _ = _ => eapply evs_cons; [evx|rv|evsx]
  | |- evs _ _ _ _ [] _ _ = _ => reflexivity
  end.
Ltac tidy := cbn [objs flat app length firstn upd].
(* one simple statement of a sequence *)
Ltac stx :=
  lazymatch goal with
  | |- exec_seq _ _ _ _ _ (SExpr _ :: _) _ _ = _ => eapply seq_one; [eapply st_expr; evx|tidy]
  | |- exec_seq _ _ _ _ _ (SDecl _ _ None :: _) _ _ = _ => eapply seq_one; [eapply st_decl; vm_compute; reflexivity|tidy]
  | |- exec_seq _ _ _ _ _ (SDecl _ _ (Some _) :: _) _ _ = _ => eapply seq_one; [eapply st_init; [vm_compute; reflexivity|tidy; evx|rv|convv|tidy; sto]|tidy]
  | |- exec_seq _ _ _ _ _ (SReturn (Some _) :: _) _ _ = _ => eapply seq_stop; eapply st_return; [evx|rv]
  | |- exec_seq _ _ _ _ _ [] _ _ = _ => reflexivity
  end.

(** ** Calls and copies *)
Section More.
  Context (be : bool) (tables : string -> option (ctype * list N)) (structs : string -> list (string * ctype)) (fuel : nat).
  Lemma link_skip fn r f vs s : String.eqb f (fn_name fn) = false -> link be tables structs fuel (fn :: r) f vs s = link be tables structs fuel r f vs s.
  Proof. intros E. cbn [link]. rewrite E. reflexivity. Qed.
  Lemma link_here fn r f vs s : String.eqb f (fn_name fn) = true -> link be tables structs fuel (fn :: r) f vs s = call_fun be tables structs fuel (link be tables structs fuel r) fn vs s.
  Proof. intros E. cbn [link]. rewrite E. reflexivity. Qed.

  Lemma load_bytes_length m n : forall a bs, load_bytes m a n = Ok bs -> length bs = n.
  Proof.
    induction n as [|n IH]; intros a bs E; cbn [load_bytes] in E; [injection E as <-; reflexivity|].
    destruct (load m a); try discriminate. cbn [bind] in E. destruct (load_bytes m (a + 1) n) eqn:F; try discriminate. injection E as <-.
    simpl. rewrite (IH _ _ F). reflexivity.
  Qed.
  Lemma load_bytes_are m n : (forall a b, m a = Some b -> b < 256) -> forall a bs, load_bytes m a n = Ok bs -> Forall (fun b => b < 2 ^ 8) bs.
  Proof.
    intros B. induction n as [|n IH]; intros a bs E; cbn [load_bytes] in E; [injection E as <-; constructor|].
    unfold load in E. destruct (m a) eqn:M; try discriminate. cbn [bind] in E. destruct (load_bytes m (a + 1) n) eqn:F; try discriminate. injection E as <-.
    constructor; [exact (B _ _ M)|exact (IH _ _ F)].
  Qed.

  (* a copy into, and from, an integer object *)
  Lemma write_word i t c bs s : nth_error (objs s) i = Some (OInts t [c]) -> length bs = bytes_in t ->
    write_bytes be (Obj i 0) bs s = Ok (mk_cst (flat s) (upd (objs s) i (OInts t [Some (native_val be bs)]))).
  Proof.
    intros E Hl. unfold write_bytes. rewrite E, Hl. rewrite N.div_same, N.mod_same by (destruct t; discriminate).
    cbn [length]. change (N.of_nat 1) with 1. change ((0 =? 0) && (0 + 1 <=? 1)) with true. cbv iota.
    change (N.to_nat 1) with 1%nat. change (N.to_nat 0) with 0%nat. change (N.to_nat (0 + 1)) with 1%nat.
    cbn [chunks map firstn skipn app]. rewrite <- Hl, firstn_all. reflexivity.
  Qed.
  Lemma read_word i t v s : nth_error (objs s) i = Some (OInts t [Some v]) ->
    read_bytes be (Obj i 0) (N.of_nat (bytes_in t)) s = Ok (native_bytes be (bytes_in t) v).
  Proof.
    intros E. unfold read_bytes. rewrite E. rewrite N.div_same, N.mod_same by (destruct t; discriminate).
    cbn [length]. change (N.of_nat 1) with 1. change ((0 =? 0) && (0 + 1 <=? 1)) with true. cbv iota.
    change (N.to_nat 1) with 1%nat. change (N.to_nat 0) with 0%nat. cbn [firstn skipn opt_list map concat]. rewrite app_nil_r. reflexivity.
  Qed.
  (* byte arrays *)
  Lemma chunks_bytes l : map (fun c => Some (native_val be c)) (chunks 1 (length l) l) = map Some l.
  Proof.
    induction l as [|x l IH]; [reflexivity|]. cbn [length chunks firstn skipn map]. rewrite IH. do 2 f_equal.
    unfold native_val. destruct be; simpl; lia.
  Qed.
  Lemma write_bytes_array i cs bs s : nth_error (objs s) i = Some (OInts U8 cs) -> length bs = length cs ->
    write_bytes be (Obj i 0) bs s = Ok (mk_cst (flat s) (upd (objs s) i (OInts U8 (map Some bs)))).
  Proof.
    intros E Hl. unfold write_bytes. rewrite E. cbn [bytes_in]. change (N.of_nat 1) with 1. rewrite N.mod_1_r, N.div_1_r, N.add_0_l.
    rewrite (proj2 (N.leb_le _ _)) by lia. cbn [N.eqb andb N.to_nat firstn app]. rewrite Nat2N.id, chunks_bytes, skipn_all2, app_nil_r by lia. reflexivity.
  Qed.
  Lemma opt_some_list l : opt_list (map (@Some N) l) = Some l.
  Proof. induction l as [|x l IH]; [reflexivity|]. simpl. rewrite IH. reflexivity. Qed.
  Lemma read_bytes_array i bs n s : nth_error (objs s) i = Some (OInts U8 (map Some bs)) -> Forall (fun b => b < 2 ^ 8) bs -> n = N.of_nat (length bs) ->
    read_bytes be (Obj i 0) n s = Ok bs.
  Proof.
    intros E F ->. unfold read_bytes. rewrite E. cbn [bytes_in]. change (N.of_nat 1) with 1. rewrite N.mod_1_r, N.div_1_r, N.add_0_l, map_length.
    rewrite N.leb_refl. cbn [N.eqb andb N.to_nat skipn]. rewrite Nat2N.id, <- (map_length (@Some N) bs), firstn_all, opt_some_list. f_equal.
    clear E. induction F as [|x l Hx F IH]; [reflexivity|]. cbn [map concat]. rewrite IH. unfold native_bytes. cbn [le_bytes]. rewrite N.mod_small by exact Hx.
    destruct be; reflexivity.
  Qed.
End More.
Ltac goto :=
  lazymatch goal with
  | |- link ?b ?T ?S ?fu ?p ?f ?vs ?s = ?x =>
    let p' := eval hnf in p in
    lazymatch p' with ?fn :: ?r =>
      change (link b T S fu p' f vs s = x);
      let q := eval vm_compute in (String.eqb f (fn_name fn)) in
      lazymatch q with
      | true => idtac
      | false => rewrite (link_skip b T S fu fn r f vs s) by reflexivity; goto
      | _ => first [rewrite (link_skip b T S fu fn r f vs s) by (destruct b; reflexivity); goto | idtac]
      end
    end
  end.

(** ** Parameters *)
Lemma upd_end {A} (l : list A) x y : upd (l ++ [x]) (length l) y = l ++ [y].
Proof. induction l as [|z l IH]; [reflexivity|]. simpl. f_equal. exact IH. Qed.
Lemma nth_end {A} (l : list A) x : nth_error (l ++ [x]) (length l) = Some x.
Proof. induction l as [|z l IH]; [reflexivity|]. exact IH. Qed.
Lemma bind_int be x t ps sv v v' vs g s r : conv sv t v = v' ->
  bind_params be ps vs ((x, (TInt t, length (objs s))) :: g) (mk_cst (flat s) (objs s ++ [OInts t [Some v']])) = r ->
  bind_params be ((x, TInt t) :: ps) (VInt sv v :: vs) g s = r.
Proof.
  intros <- <-. cbn [bind_params]. unfold declare; cbn [base_of bind lookup]. rewrite String.eqb_refl. unfold assign; cbn [convert bind store_at].
  unfold set_objs; cbn [objs flat]. rewrite nth_end. replace (ity_eqb t t) with true by (destruct t; reflexivity).
  change (N.to_nat 0) with 0%nat. cbn [aset length Nat.ltb Nat.leb bind upd]. rewrite upd_end. reflexivity.
Qed.
Lemma bind_ptr be x t ps t' p vs g s r :
  bind_params be ps vs ((x, (TPtr t, length (objs s))) :: g) (mk_cst (flat s) (objs s ++ [OPtr t (Some p)])) = r ->
  bind_params be ((x, TPtr t) :: ps) (VPtr t' p :: vs) g s = r.
Proof.
  intros <-. cbn [bind_params]. unfold declare; cbn [base_of bind lookup]. rewrite String.eqb_refl. unfold assign; cbn [convert bind store_at].
  unfold set_objs; cbn [objs flat]. rewrite nth_end, upd_end. reflexivity.
Qed.
Ltac params :=
  lazymatch goal with
  | |- bind_params ?b (fn_params ?f) ?vs ?g ?s = ?r => let q := eval hnf in (fn_params f) in change (bind_params b q vs g s = r); params
  | |- bind_params _ [] [] _ _ = _ => reflexivity
  | |- bind_params _ (_ :: _) (VInt _ _ :: _) _ _ = _ => eapply bind_int; [cv1|]; tidy; params
  | |- bind_params _ (_ :: _) (VPtr _ _ :: _) _ _ = _ => eapply bind_ptr; tidy; params
  end.
Ltac the_body :=
  lazymatch goal with |- exec_seq ?b ?T ?S ?fu ?c (fn_body ?f) ?g ?s = ?r => let q := eval hnf in (fn_body f) in change (exec_seq b T S fu c q g s = r) end.
Ltac ret_type := match goal with |- context [fn_ret ?f] => let q := eval hnf in (fn_ret f) in change (fn_ret f) with q end.
(* a call that returns a value, or none *)
Ltac value_call := etransitivity; [eapply call_value; [ret_type; discriminate | params | the_body; repeat stx | ret_type; convv | cbn; lia] | tidy].
Ltac void_call := etransitivity; [eapply call_void; [ret_type; reflexivity | params | the_body; repeat stx | exact I | cbn; lia] | tidy].
Lemma write_flat be a bs s m : store_bytes (flat s) a bs = Ok m -> write_bytes be (Flat a) bs s = Ok (mk_cst m (objs s)).
Proof. intros E. unfold write_bytes. rewrite E. reflexivity. Qed.
Lemma read_word' be i t n v s : nth_error (objs s) i = Some (OInts t [Some v]) -> n = N.of_nat (bytes_in t) ->
  read_bytes be (Obj i 0) n s = Ok (native_bytes be (bytes_in t) v).
Proof. intros E ->. apply read_word. exact E. Qed.
(* copies *)
Ltac rdx ::=
  lazymatch goal with
  | |- read_bytes _ (Flat _) _ _ = _ => cbn [read_bytes flat]; eassumption
  | |- read_bytes _ (Obj _ _) _ _ = _ => first [eapply read_word'; [reflexivity|reflexivity] | eapply read_bytes_array; [reflexivity|eassumption|reflexivity]]
  end.
Ltac wrx ::=
  lazymatch goal with
  | |- write_bytes _ (Flat _) _ _ = _ => eapply write_flat; cbn [flat]; eassumption
  | |- write_bytes _ (Obj _ _) _ _ = _ =>
      first [eapply write_word; [reflexivity|eapply load_bytes_length; eassumption] | eapply write_bytes_array; [reflexivity|eapply load_bytes_length; eassumption]]
  end; cbn [upd objs flat].
(* equality of states *)
Ltac st_eq := repeat lazymatch goal with |- ?a = ?a => reflexivity | |- @eq N _ _ => lia | |- @eq nat _ _ => lia | |- _ => progress f_equal end.
