(** MiniC.v -- a small formal semantics of the C subset in which the classical part of the library
    is written.  The syntax trees come from tools/gen_source.py; what they mean is defined here:
    integer promotions and conversions (int 32 bits, long and long long 64 bits), unsigned
    wrap-around, undefined signed overflow and shifts, objects with lifetimes, pointers into the
    caller's memory, into automatic objects and into constant tables, memcpy.

    Simplifications: subexpressions are evaluated from left to right; automatic objects hold values
    of their declared type (no type punning except through memcpy); a constant table is bounded as a
    whole, not row by row; the caller's memory is a map from unbounded addresses to bytes (Base.mem). *)
From Coq Require Import String.
From Verif Require Import Base.
Local Open Scope N_scope.

(** ** Types *)
Inductive ity := U8 | U16 | I32 | U32 | I64 | U64.
Inductive ctype := TInt (t : ity) | TPtr (t : ctype) | TArr (t : ctype) (n : N) | TStruct (s : string) | TVoid.
Definition bits (t : ity) : N := match t with U8 => 8 | U16 => 16 | I32 | U32 => 32 | I64 | U64 => 64 end.
Definition is_signed (t : ity) : bool := match t with I32 | I64 => true | _ => false end.
Definition bytes_in (t : ity) : nat := match t with U8 => 1 | U16 => 2 | I32 | U32 => 4 | I64 | U64 => 8 end%nat.
Definition ity_eqb (a b : ity) : bool :=
  match a, b with U8, U8 | U16, U16 | I32, I32 | U32, U32 | I64, I64 | U64, U64 => true | _, _ => false end.

(** ** Syntax *)
Inductive binop := Add | Sub | Mul | Div | Mod | And | Or | Xor | Shl | Shr | Lt | Gt | Le | Ge | Eq | Ne.
Inductive unop := Not (* ~ *) | Neg.
Inductive expr :=
| EConst (t : ity) (n : N)
| EVar (x : string)
| EBin (o : binop) (a b : expr)
| EUn (o : unop) (a : expr)
| ECond (c a b : expr)                    (* c ? a : b *)
| ECast (t : ctype) (a : expr)
| EIndex (a i : expr)                     (* a[i] *)
| EDeref (a : expr)
| EAddr (a : expr)
| EField (a : expr) (f : string)          (* a.f; a->f is ( *a).f *)
| EAssign (l r : expr)
| EOpAssign (o : binop) (l r : expr)      (* l o= r *)
| EPost (o : binop) (l : expr)            (* l++ (Add), l-- (Sub) *)
| ESizeof (a : expr)
| ECall (f : string) (args : list expr).
Inductive stmt :=
| SExpr (e : expr)
| SDecl (t : ctype) (x : string) (init : option expr)
| SIf (c : expr) (a b : stmt)
| SWhile (c : expr) (b : stmt)
| SFor (init : option expr) (c : expr) (step : option expr) (b : stmt)
| SReturn (e : option expr)
| SBlock (ss : list stmt).
Record fundef := mk_fun { fn_name : string; fn_ret : ctype; fn_params : list (string * ctype); fn_body : list stmt }.

(** ** Values and states *)
(* an integer of type t is kept as its bit pattern, a number below 2^(bits t) *)
Inductive loc := Flat (a : N)             (* the caller's memory *)
               | Obj (i : nat) (k : N)    (* element k of the i-th automatic object *)
               | Tab (x : string) (k : N) (* element k of a constant table *).
Inductive value := VInt (t : ity) (n : N) | VPtr (t : ctype) (l : loc).
(* automatic objects; None: indeterminate *)
Inductive obj := OInts (t : ity) (cells : list (option N)) | OPtr (t : ctype) (v : option loc).
Record cstate := mk_cst { flat : mem; objs : list obj }.
Definition env := list (string * (ctype * nat)).

(* outside the subset, or a shift by too much, a pointer before its object, ... *)
Notation stuck := (UB BadAddress).

(** ** Integers *)
Definition sval (t : ity) (n : N) : Z :=
  if is_signed t && (2 ^ (bits t - 1) <=? n) then (Z.of_N n - 2 ^ Z.of_N (bits t))%Z else Z.of_N n.
Definition wrap (t : ity) (z : Z) : N := Z.to_N (z mod 2 ^ Z.of_N (bits t)).
Definition fits_in (t : ity) (z : Z) : bool := ((- 2 ^ (Z.of_N (bits t) - 1) <=? z) && (z <? 2 ^ (Z.of_N (bits t) - 1)))%Z.
(* result of arithmetic *)
Definition arith (t : ity) (z : Z) : res N :=
  if is_signed t then if fits_in t z then Ok (wrap t z) else UB SignedOverflow else Ok (wrap t z).
(* conversion from type s to type t *)
Definition conv (s t : ity) (n : N) : N :=
  if bits t <? bits s then n mod 2 ^ bits t            (* narrowing *)
  else if is_signed s && (bits s <? bits t) then wrap t (sval s n)   (* sign extension *)
  else n.
Definition promote (t : ity) : ity := match t with U8 | U16 => I32 | _ => t end.
(* usual arithmetic conversions, after promotion: I32 < U32 < I64 < U64 *)
Definition common (a b : ity) : ity :=
  match a, b with
  | U64, _ | _, U64 => U64
  | I64, _ | _, I64 => I64
  | U32, _ | _, U32 => U32
  | _, _ => I32
  end.
Definition truth (b : bool) : value := VInt I32 (if b then 1 else 0).

Definition shift_left (t : ity) (a : N) (k : N) : res N :=
  if k <? bits t then
    if is_signed t then if (0 <=? sval t a)%Z && fits_in t (Z.shiftl (sval t a) (Z.of_N k)) then Ok (N.shiftl a k) else UB SignedOverflow
    else Ok (N.shiftl a k mod 2 ^ bits t)
  else stuck.
Definition shift_right (t : ity) (a : N) (k : N) : res N :=
  if k <? bits t then Ok (if is_signed t then wrap t (Z.shiftr (sval t a) (Z.of_N k)) else N.shiftr a k) else stuck.

Definition int_op (o : binop) (ta : ity) (a : N) (tb : ity) (b : N) : res value :=
  let pa := promote ta in let pb := promote tb in
  let a := conv ta pa a in let b := conv tb pb b in
  match o with
  | Shl => if (sval pb b <? 0)%Z then stuck else r <- shift_left pa a b ;; Ok (VInt pa r)
  | Shr => if (sval pb b <? 0)%Z then stuck else r <- shift_right pa a b ;; Ok (VInt pa r)
  | _ =>
    let t := common pa pb in
    let a := conv pa t a in let b := conv pb t b in
    match o with
    | Add => r <- arith t (sval t a + sval t b) ;; Ok (VInt t r)
    | Sub => r <- arith t (sval t a - sval t b) ;; Ok (VInt t r)
    | Mul => r <- arith t (sval t a * sval t b) ;; Ok (VInt t r)
    | Div => if (sval t b =? 0)%Z then stuck else r <- arith t (Z.quot (sval t a) (sval t b)) ;; Ok (VInt t r)
    | Mod => if (sval t b =? 0)%Z then stuck else r <- arith t (Z.rem (sval t a) (sval t b)) ;; Ok (VInt t r)
    | And => Ok (VInt t (N.land a b))
    | Or  => Ok (VInt t (N.lor a b))
    | Xor => Ok (VInt t (N.lxor a b))
    | Lt => Ok (truth (sval t a <? sval t b)%Z)
    | Gt => Ok (truth (sval t b <? sval t a)%Z)
    | Le => Ok (truth (sval t a <=? sval t b)%Z)
    | Ge => Ok (truth (sval t b <=? sval t a)%Z)
    | Eq => Ok (truth (sval t a =? sval t b)%Z)
    | Ne => Ok (truth (negb (sval t a =? sval t b)%Z))
    | _ => stuck
    end
  end.

Section Semantics.
  (* [be]: big-endian machine; the constant tables and structures of the translation unit *)
  Context (be : bool) (tables : string -> option (ctype * list N)) (structs : string -> list (string * ctype)).

  (** ** Sizes.  All members of the structures here are arrays of bytes, so that there is no padding. *)
  Fixpoint field_type (fs : list (string * ctype)) (f : string) : option ctype :=
    match fs with [] => None | (x, t) :: r => if String.eqb x f then Some t else field_type r f end.
  (* the structure members: sizes of integers, pointers and arrays of them only *)
  Fixpoint plain_size (t : ctype) : N :=
    match t with TInt t => N.of_nat (bytes_in t) | TPtr _ => 8 | TArr t n => n * plain_size t | _ => 0 end.
  Fixpoint field_offset (fs : list (string * ctype)) (f : string) : N :=
    match fs with [] => 0 | (x, t) :: r => if String.eqb x f then 0 else plain_size t + field_offset r f end.
  Fixpoint struct_size (fs : list (string * ctype)) : N :=
    match fs with [] => 0 | (_, t) :: r => plain_size t + struct_size r end.
  Fixpoint size_of (t : ctype) : N :=
    match t with TInt t => N.of_nat (bytes_in t) | TPtr _ => 8 | TArr t n => n * size_of t | TStruct s => struct_size (structs s) | TVoid => 0 end.
  (* number of scalar elements *)
  Fixpoint elements (t : ctype) : N := match t with TArr t n => n * elements t | _ => 1 end.

  (** ** Accesses *)
  Definition load_at (t : ctype) (l : loc) (s : cstate) : res value :=
    match t, l with
    | TInt it, Flat a =>
        if a mod N.of_nat (bytes_in it) =? 0 then bs <- load_bytes (flat s) a (bytes_in it) ;; Ok (VInt it (native_val be bs))
        else UB Misaligned
    | TInt it, Obj i k =>
        match nth_error (objs s) i with
        | Some (OInts it' cs) => if ity_eqb it it' then n <- oget cs (N.to_nat k) ;; Ok (VInt it n) else stuck
        | _ => stuck
        end
    | TInt it, Tab x k => match tables x with Some (_, l) => n <- tget l k ;; Ok (VInt it n) | None => stuck end
    | TPtr t, Obj i 0 =>
        match nth_error (objs s) i with
        | Some (OPtr _ (Some l)) => Ok (VPtr t l)
        | Some (OPtr _ None) => UB Uninitialised
        | _ => stuck
        end
    | _, _ => stuck
    end.
  Definition set_objs (s : cstate) (o : list obj) : cstate := mk_cst (flat s) o.
  Definition store_at (t : ctype) (l : loc) (v : value) (s : cstate) : res cstate :=
    match t, l, v with
    | TInt it, Flat a, VInt _ n =>
        if a mod N.of_nat (bytes_in it) =? 0 then m <- store_bytes (flat s) a (native_bytes be (bytes_in it) n) ;; Ok (mk_cst m (objs s))
        else UB Misaligned
    | TInt it, Obj i k, VInt _ n =>
        match nth_error (objs s) i with
        | Some (OInts it' cs) =>
            if ity_eqb it it' then cs <- aset cs (N.to_nat k) (Some n) ;; Ok (set_objs s (upd (objs s) i (OInts it' cs))) else stuck
        | _ => stuck
        end
    | TPtr t, Obj i 0, VPtr _ p =>
        match nth_error (objs s) i with
        | Some (OPtr t' _) => Ok (set_objs s (upd (objs s) i (OPtr t' (Some p))))
        | _ => stuck
        end
    | _, _, _ => stuck
    end.

  (* conversion of a value to a type, as by assignment *)
  Definition convert (t : ctype) (v : value) : res value :=
    match t, v with
    | TInt it, VInt s n => Ok (VInt it (conv s it n))
    | TPtr t, VPtr _ l => Ok (VPtr t l)
    | _, _ => stuck
    end.

  (* p + z, for a pointer to elements of type t *)
  Definition move (t : ctype) (l : loc) (z : Z) : res loc :=
    let at_ (k : N) (sz : N) (f : N -> loc) := if (Z.of_N k + z * Z.of_N sz <? 0)%Z then stuck else Ok (f (Z.to_N (Z.of_N k + z * Z.of_N sz))) in
    match l with
    | Flat a => at_ a (size_of t) Flat
    | Obj i k => at_ k (elements t) (Obj i)
    | Tab x k => at_ k (elements t) (Tab x)
    end.

  Definition bin_op (o : binop) (a b : value) : res value :=
    match a, b with
    | VInt ta x, VInt tb y => int_op o ta x tb y
    | VPtr t l, VInt tb y =>
        match o with
        | Add => l <- move t l (sval tb y) ;; Ok (VPtr t l)
        | Sub => l <- move t l (- sval tb y) ;; Ok (VPtr t l)
        | _ => stuck
        end
    | _, _ => stuck
    end.
  Definition un_op (o : unop) (a : value) : res value :=
    match a with
    | VInt t x => let p := promote t in let x := sval p (conv t p x) in
        match o with Not => Ok (VInt p (wrap p (Z.lnot x))) | Neg => r <- arith p (- x) ;; Ok (VInt p r) end
    | _ => stuck
    end.
  Definition is_true (v : value) : res bool := match v with VInt _ n => Ok (negb (n =? 0)) | VPtr _ _ => stuck end.

  (* memcpy; between the caller's memory and automatic integer objects, whole elements *)
  Fixpoint opt_list {A} (l : list (option A)) : option (list A) :=
    match l with [] => Some [] | Some x :: r => match opt_list r with Some r => Some (x :: r) | None => None end | None :: _ => None end.
  Fixpoint chunks (k n : nat) (l : list N) : list (list N) :=
    match n with O => [] | S n => firstn k l :: chunks k n (skipn k l) end.
  Definition read_bytes (l : loc) (n : N) (s : cstate) : res (list N) :=
    match l with
    | Flat a => load_bytes (flat s) a (N.to_nat n)
    | Obj i k =>
        match nth_error (objs s) i with
        | Some (OInts t cs) =>
            let w := N.of_nat (bytes_in t) in
            if (n mod w =? 0) && (k + n / w <=? N.of_nat (length cs)) then
              match opt_list (firstn (N.to_nat (n / w)) (skipn (N.to_nat k) cs)) with
              | Some vs => Ok (concat (map (native_bytes be (bytes_in t)) vs))
              | None => UB Uninitialised
              end
            else stuck
        | _ => stuck
        end
    | Tab _ _ => stuck
    end.
  Definition write_bytes (l : loc) (bs : list N) (s : cstate) : res cstate :=
    match l with
    | Flat a => m <- store_bytes (flat s) a bs ;; Ok (mk_cst m (objs s))
    | Obj i k =>
        match nth_error (objs s) i with
        | Some (OInts t cs) =>
            let n := N.of_nat (length bs) in let w := N.of_nat (bytes_in t) in
            if (n mod w =? 0) && (k + n / w <=? N.of_nat (length cs)) then
              let vs := map (fun c => Some (native_val be c)) (chunks (bytes_in t) (N.to_nat (n / w)) bs) in
              Ok (set_objs s (upd (objs s) i (OInts t (firstn (N.to_nat k) cs ++ vs ++ skipn (N.to_nat (k + n / w)) cs))))
            else stuck
        | _ => stuck
        end
    | Tab _ _ => stuck
    end.
  Definition memcpy (d src : loc) (n : N) (s : cstate) : res cstate :=
    bs <- read_bytes src n s ;; write_bytes d bs s.

  (** ** Expressions *)
  (* the functions that may be called *)
  Definition callable := string -> list value -> cstate -> res (option value * cstate).
  Context (fuel : nat).
  (* an expression designates an object or has a value *)
  Inductive result := L (t : ctype) (l : loc) | V (v : value).
  Definition rvalue (r : result) (s : cstate) : res value :=
    match r with
    | V v => Ok v
    | L (TArr t _) l => Ok (VPtr t l)     (* an array becomes a pointer to its first element *)
    | L t l => load_at t l s
    end.
  Fixpoint lookup (g : env) (x : string) : option (ctype * nat) :=
    match g with [] => None | (y, p) :: r => if String.eqb x y then Some p else lookup r x end.

  Section Calls.
    Context (calls : callable).
    Definition assign (t : ctype) (l : loc) (v : value) (s : cstate) : res (result * cstate) :=
      v <- convert t v ;; s <- store_at t l v s ;; Ok (V v, s).
    Fixpoint ev (e : expr) (g : env) (s : cstate) : res (result * cstate) :=
      match e with
      | EConst t n => Ok (V (VInt t n), s)
      | EVar x =>
          match lookup g x with
          | Some (t, i) => Ok (L t (Obj i 0), s)
          | None => match tables x with Some (t, _) => Ok (L t (Tab x 0), s) | None => stuck end
          end
      | EBin o a b =>
          '(ra, s) <- ev a g s ;; va <- rvalue ra s ;;
          '(rb, s) <- ev b g s ;; vb <- rvalue rb s ;;
          v <- bin_op o va vb ;; Ok (V v, s)
      | EUn o a => '(ra, s) <- ev a g s ;; va <- rvalue ra s ;; v <- un_op o va ;; Ok (V v, s)
      | ECond c a b =>
          (* a and b have integer types here, and the result their common type; since no two
             branches of different type occur with a negative value, the conversion is left out *)
          '(rc, s) <- ev c g s ;; vc <- rvalue rc s ;; b' <- is_true vc ;;
          '(r, s) <- (if b' then ev a g s else ev b g s) ;; v <- rvalue r s ;; Ok (V v, s)
      | ECast t a => '(ra, s) <- ev a g s ;; va <- rvalue ra s ;; v <- convert t va ;; Ok (V v, s)
      | EIndex a i =>
          '(ra, s) <- ev a g s ;; va <- rvalue ra s ;;
          '(ri, s) <- ev i g s ;; vi <- rvalue ri s ;;
          p <- bin_op Add va vi ;; match p with VPtr t l => Ok (L t l, s) | _ => stuck end
      | EDeref a => '(ra, s) <- ev a g s ;; va <- rvalue ra s ;; match va with VPtr t l => Ok (L t l, s) | _ => stuck end
      | EAddr a => '(ra, s) <- ev a g s ;; match ra with L t l => Ok (V (VPtr t l), s) | _ => stuck end
      | EField a f =>
          '(ra, s) <- ev a g s ;;
          match ra with
          | L (TStruct n) (Flat p) =>
              match field_type (structs n) f with Some t => Ok (L t (Flat (p + field_offset (structs n) f)), s) | None => stuck end
          | _ => stuck
          end
      | EAssign l r =>
          '(rr, s) <- ev r g s ;; v <- rvalue rr s ;;
          '(rl, s) <- ev l g s ;; match rl with L t p => assign t p v s | _ => stuck end
      | EOpAssign o l r =>
          '(rr, s) <- ev r g s ;; vr <- rvalue rr s ;;
          '(rl, s) <- ev l g s ;;
          match rl with L t p => vl <- rvalue rl s ;; v <- bin_op o vl vr ;; assign t p v s | _ => stuck end
      | EPost o l =>
          '(rl, s) <- ev l g s ;;
          match rl with
          | L t p => vl <- rvalue rl s ;; v <- bin_op o vl (VInt I32 1) ;; '(_, s) <- assign t p v s ;; Ok (V vl, s)
          | _ => stuck
          end
      | ESizeof a => '(ra, _) <- ev a g s ;; match ra with L t _ => Ok (V (VInt U64 (size_of t)), s) | _ => stuck end
      | ECall f args =>
          '(vs, s) <- (fix evs (l : list expr) (s : cstate) : res (list value * cstate) :=
             match l with
             | [] => Ok ([], s)
             | a :: r => '(ra, s) <- ev a g s ;; v <- rvalue ra s ;; '(vs, s) <- evs r s ;; Ok (v :: vs, s)
             end) args s ;;
          if String.eqb f "memcpy" then
            match vs with
            | [VPtr _ d; VPtr t q; VInt _ n] => s <- memcpy d q n s ;; Ok (V (VPtr t d), s)
            | _ => stuck
            end
          else '(r, s) <- calls f vs s ;; Ok (V (match r with Some v => v | None => VInt I32 0 end), s)
      end.

    (** ** Statements *)
    (* Some r: the function returns r *)
    Definition outcome := option (option value).
    Definition cond_of (c : expr) (g : env) (s : cstate) : res (bool * cstate) :=
      '(r, s) <- ev c g s ;; v <- rvalue r s ;; b <- is_true v ;; Ok (b, s).
    Definition opt_ev (e : option expr) (g : env) (s : cstate) : res cstate :=
      match e with None => Ok s | Some e => '(_, s) <- ev e g s ;; Ok s end.
    Fixpoint loop (n : nat) (cond : cstate -> res (bool * cstate)) (body : cstate -> res (outcome * cstate)) (step : cstate -> res cstate)
      (s : cstate) : res (outcome * cstate) :=
      match n with
      | O => Fuel
      | S n =>
          '(b, s) <- cond s ;;
          if b then
            '(o, s) <- body s ;;
            match o with Some r => Ok (Some r, s) | None => s <- step s ;; loop n cond body step s end
          else Ok (None, s)
      end.
    (* a new automatic object of type t *)
    Definition base_of (t : ctype) : option obj :=
      match t with
      | TInt it => Some (OInts it [None])
      | TArr (TInt it) n => Some (OInts it (repeat None (N.to_nat n)))
      | TPtr t => Some (OPtr t None)
      | _ => None
      end.
    Definition declare (t : ctype) (x : string) (g : env) (s : cstate) : res (env * cstate) :=
      match base_of t with
      | Some o => Ok ((x, (t, length (objs s))) :: g, set_objs s (objs s ++ [o]))
      | None => stuck
      end.
    Fixpoint exec (st : stmt) (g : env) (s : cstate) : res (env * outcome * cstate) :=
      match st with
      | SExpr e => '(_, s) <- ev e g s ;; Ok (g, None, s)
      | SDecl t x init =>
          '(g, s) <- declare t x g s ;;
          match init with
          | None => Ok (g, None, s)
          | Some e =>
              '(r, s) <- ev e g s ;; v <- rvalue r s ;;
              match lookup g x with Some (t, i) => '(_, s) <- assign t (Obj i 0) v s ;; Ok (g, None, s) | None => stuck end
          end
      | SIf c a b => '(t, s) <- cond_of c g s ;; '(_, o, s) <- (if t then exec a g s else exec b g s) ;; Ok (g, o, s)
      | SWhile c b => '(o, s) <- loop fuel (cond_of c g) (fun s => '(_, o, s) <- exec b g s ;; Ok (o, s)) (fun s => Ok s) s ;; Ok (g, o, s)
      | SFor i c st b =>
          s <- opt_ev i g s ;;
          '(o, s) <- loop fuel (cond_of c g) (fun s => '(_, o, s) <- exec b g s ;; Ok (o, s)) (opt_ev st g) s ;; Ok (g, o, s)
      | SReturn None => Ok (g, Some None, s)
      | SReturn (Some e) => '(r, s) <- ev e g s ;; v <- rvalue r s ;; Ok (g, Some (Some v), s)
      | SBlock ss =>
          let n := length (objs s) in
          '(o, s) <- (fix seq (l : list stmt) (g : env) (s : cstate) : res (outcome * cstate) :=
             match l with
             | [] => Ok (None, s)
             | a :: r => '(g, o, s) <- exec a g s ;; match o with Some _ => Ok (o, s) | None => seq r g s end
             end) ss g s ;;
          Ok (g, o, set_objs s (firstn n (objs s)))   (* end of the lifetime of the block's objects *)
      end.

    (** ** Functions *)
    Fixpoint bind_params (ps : list (string * ctype)) (vs : list value) (g : env) (s : cstate) : res (env * cstate) :=
      match ps, vs with
      | [], [] => Ok (g, s)
      | (x, t) :: ps, v :: vs =>
          '(g, s) <- declare t x g s ;;
          match lookup g x with
          | Some (t, i) => '(_, s) <- assign t (Obj i 0) v s ;; bind_params ps vs g s
          | None => stuck
          end
      | _, _ => stuck
      end.
    Definition call_fun (f : fundef) (vs : list value) (s : cstate) : res (option value * cstate) :=
      let n := length (objs s) in
      '(g, s) <- bind_params (fn_params f) vs [] s ;;
      '(_, o, s) <- exec (SBlock (fn_body f)) g s ;;
      let s := set_objs s (firstn n (objs s)) in
      match fn_ret f, o with
      | TVoid, (None | Some None) => Ok (None, s)
      | t, Some (Some v) => v <- convert t v ;; Ok (Some v, s)
      | _, _ => stuck
      end.
  End Calls.

  (* a program: later functions first; a function may call the ones before it (no recursion) *)
  Fixpoint link (fs : list fundef) : callable :=
    match fs with
    | [] => fun _ _ _ => stuck
    | f :: r => fun x vs s => if String.eqb x (fn_name f) then call_fun (link r) f vs s else link r x vs s
    end.
End Semantics.
