(** BsC.v -- a small formal semantics of the C subset in which the bitslice part of the library is
    written.  The syntax trees come from tools/gen_source_bs.py; what they mean is defined here.
    Integer types, conversions and arithmetic are those of MiniC.v.  In addition there are:

    - the word type dvbcsa_bs_word_t, with the operations BS_AND, BS_OR, BS_XOR, BS_NOT, BS_SHL,
      BS_SHR, BS_VALn of the word type's header, and, where that header defines them,
      BS_LOAD_DEINTERLEAVE_8, BS_SWAPn_LE and BLOCK_SBOX_PERMUTE.  What these do is taken from
      ModelBsWord.v and ModelBsBlock.v; that the headers' own text does this is C52 (Header.v);
    - automatic arrays, structures and unions, with indeterminate initial contents that may be read
      (reading an indeterminate scalar variable is undefined); an object is a list of members, and a
      pointer knows its member: an access outside it is undefined;
    - words seen as integers of 8, 16, 32 or 64 bits through cast pointers, and a union of one 64-bit
      and two 32-bit integers, in native byte order;
    - structures in the caller's memory, with alignment, and pointers stored there (null is 0).

    Simplifications: subexpressions are evaluated from left to right; computing an address outside an
    object (but not below its start) is allowed, accessing it is not; scalar variables have no address;
    the caller's memory is a map from unbounded addresses to bytes (Base.mem). *)
From Coq Require Import String.
From Verif Require Import Base Mem ModelBsWord ModelBsTranspose ModelBsStream ModelBsBlock ModelBsAlgo.
From Verif Require MiniC.
Notation ity := MiniC.ity.
Notation U8 := MiniC.U8. Notation U16 := MiniC.U16. Notation I32 := MiniC.I32.
Notation U32 := MiniC.U32. Notation I64 := MiniC.I64. Notation U64 := MiniC.U64.
Notation bytes_in := MiniC.bytes_in. Notation bits := MiniC.bits. Notation sval := MiniC.sval.
Notation binop := MiniC.binop. Notation unop := MiniC.unop.
Notation Add := MiniC.Add. Notation Sub := MiniC.Sub. Notation Mul := MiniC.Mul. Notation Div := MiniC.Div.
Notation Mod := MiniC.Mod. Notation And := MiniC.And. Notation Or := MiniC.Or. Notation Xor := MiniC.Xor.
Notation Shl := MiniC.Shl. Notation Shr := MiniC.Shr. Notation Lt := MiniC.Lt. Notation Gt := MiniC.Gt.
Notation Le := MiniC.Le. Notation Ge := MiniC.Ge. Notation Eq := MiniC.Eq. Notation Ne := MiniC.Ne.
Notation Not := MiniC.Not. Notation Neg := MiniC.Neg.
Local Open Scope N_scope.

(** ** Syntax *)
Inductive ctype := TInt (t : ity) | TWord | TPtr (t : ctype) | TArr (t : ctype) (n : N) | TStruct (s : string) | TVoid.
Inductive wop := WAnd | WOr | WXor.
Inductive expr :=
| EConst (t : ity) (n : N)
| EVar (x : string)
| EBin (o : binop) (a b : expr)
| EUn (o : unop) (a : expr)
| ECond (c a b : expr)
| ECast (t : ctype) (a : expr)
| EIndex (a i : expr)
| EDeref (a : expr)
| EAddr (a : expr)
| EField (a : expr) (f : string)          (* a.f; a->f is ( *a).f *)
| EAssign (l r : expr)
| EOpAssign (o : binop) (l r : expr)
| EPost (o : binop) (l : expr)            (* l++ (Add), l-- (Sub) *)
| EComma (a b : expr)
| EWVal (bytes : nat) (v : N)             (* BS_VAL8 .. BS_VAL64 *)
| EWop (o : wop) (a b : expr)             (* BS_AND, BS_OR, BS_XOR *)
| EWNot (a : expr)                        (* BS_NOT *)
| EWShl (a n : expr)                      (* BS_SHL *)
| EWShr (a n : expr)                      (* BS_SHR *)
| ECall (f : string) (args : list expr).
Inductive stmt :=
| SExpr (e : expr)
| SDecl (t : ctype) (x : string) (init : option expr)
| SIf (c : expr) (a b : stmt)
| SFor (init : option expr) (c : expr) (step : option expr) (b : stmt)
| SReturn (e : option expr)
| SAssert (e : expr)
| SSwap (n : nat) (t b : expr)            (* BS_SWAPn_LE, if defined by the header of the word type *)
| SDeint (p lo hi : expr)                 (* BS_LOAD_DEINTERLEAVE_8 *)
| SBlock (ss : list stmt).
Record fundef := mk_fun { fn_name : string; fn_ret : ctype; fn_params : list (string * ctype); fn_body : list stmt }.

(** ** Values and states *)
Inductive loc := Flat (a : N)                       (* the caller's memory *)
               | Obj (i : nat) (f : string) (k : N) (* byte k of member f of object number i; "" is the object itself *)
               | Tab (x : string) (k : N)           (* element k of a constant table *).
Inductive value := VInt (t : ity) (n : N) | VWord (w : word) | VPtr (t : ctype) (l : loc).
(* the contents of a member of an automatic object: words, integers of one type, or bytes (unions) *)
Inductive cells := CWords (ws : list word) | CInts (t : ity) (ns : list N) | CBytes (bs : list N).
Definition object := list (string * cells).
(* a variable is a scalar with its value (None: indeterminate), or an object *)
Inductive binding := BVal (t : ctype) (v : option value) | BObj (t : ctype) (i : nat).
Record cstate := mk_cst { vars : list (string * binding); flat : mem; objs : list object; seed : nat }.

Notation stuck := (UB BadAddress).

Section Semantics.
  (* the build; the constant tables and structures (true: union) of the program; the contents of
     new objects: byte or number [k] of the object with serial number [n] is [rnd n k] *)
  Context (c : build) (tables : string -> option (ity * list N)) (structs : string -> option (bool * list (string * ctype)))
          (rnd : nat -> nat -> N).
  Notation be := (big_endian c).
  Notation wb := (N.of_nat (word_bytes c)).

  (** ** Integers: MiniC.int_op, with signed overflow wrapping if the compiler is told so *)
  Definition wrapping (o : binop) (ta : ity) (a : N) (tb : ity) (b : N) : res value :=
    let t := MiniC.common (MiniC.promote ta) (MiniC.promote tb) in
    let x := sval t (MiniC.conv (MiniC.promote ta) t (MiniC.conv ta (MiniC.promote ta) a)) in
    let y := sval t (MiniC.conv (MiniC.promote tb) t (MiniC.conv tb (MiniC.promote tb) b)) in
    match o with
    | Add => Ok (VInt t (MiniC.wrap t (x + y)))
    | Sub => Ok (VInt t (MiniC.wrap t (x - y)))
    | Mul => Ok (VInt t (MiniC.wrap t (x * y)))
    | _ => UB SignedOverflow
    end.
  Definition int_op (o : binop) (ta : ity) (a : N) (tb : ity) (b : N) : res value :=
    match MiniC.int_op o ta a tb b with
    | Ok (MiniC.VInt t n) => Ok (VInt t n)
    | Ok _ => stuck
    | UB SignedOverflow => if wrapv c then wrapping o ta a tb b else UB SignedOverflow
    | UB k => UB k
    | Abort => Abort
    | Fuel => Fuel
    end.

  (** ** Sizes and alignment *)
  Definition up_to (a n : N) : N := (n + a - 1) / a * a.   (* n rounded up to a multiple of a *)
  Fixpoint align_of (d : nat) : ctype -> N :=
    fix go (t : ctype) : N :=
    match t with
    | TInt t => N.of_nat (bytes_in t) | TWord => wb | TPtr _ => N.of_nat (ptr_bytes c) | TArr t _ => go t | TVoid => 1
    | TStruct s =>
        match d, structs s with
        | S d, Some (_, fs) => fold_right (fun '(_, t) n => N.max (align_of d t) n) 1 fs
        | _, _ => 1
        end
    end.
  Fixpoint size_of (d : nat) : ctype -> N :=
    fix go (t : ctype) : N :=
    match t with
    | TInt t => N.of_nat (bytes_in t) | TWord => wb | TPtr _ => N.of_nat (ptr_bytes c) | TArr t n => n * go t | TVoid => 1
    | TStruct s =>
        match d, structs s with
        | S d, Some (true, fs) => fold_right (fun '(_, t) n => N.max (size_of d t) n) 0 fs
        | S d, Some (false, fs) => up_to (align_of (S d) t) (fold_left (fun o '(_, t) => up_to (align_of d t) o + size_of d t) fs 0)
        | _, _ => 0
        end
    end.
  (* nesting of structures is at most two *)
  Notation size := (size_of 2).
  Notation align := (align_of 2).
  Fixpoint field_offset (fs : list (string * ctype)) (o : N) (f : string) : N :=
    match fs with
    | [] => 0
    | (x, t) :: r => if String.eqb x f then up_to (align t) o else field_offset r (up_to (align t) o + size t) f
    end.
  Fixpoint field_type (fs : list (string * ctype)) (f : string) : option ctype :=
    match fs with [] => None | (x, t) :: r => if String.eqb x f then Some t else field_type r f end.

  (** ** Objects *)
  Fixpoint member (o : object) (f : string) : option cells :=
    match o with [] => None | (x, d) :: r => if String.eqb x f then Some d else member r f end.
  Fixpoint set_member (o : object) (f : string) (d : cells) : object :=
    match o with [] => [] | (x, e) :: r => if String.eqb x f then (x, d) :: r else (x, e) :: set_member r f d end.
  Definition getc (o : list object) (i : nat) (f : string) : res cells :=
    match nth_error o i with Some ob => match member ob f with Some d => Ok d | None => stuck end | None => stuck end.
  Definition setc (o : list object) (i : nat) (f : string) (d : cells) : list object :=
    match nth_error o i with Some ob => upd o i (set_member ob f d) | None => o end.
  (* the integer of type t at byte offset k of a member *)
  Definition get_int (t : ity) (d : cells) (k : N) : res N :=
    let sz := bytes_in t in
    if negb (k mod N.of_nat sz =? 0) then UB Misaligned else
    match d with
    | CInts t' ns => if MiniC.ity_eqb t t' then aget ns (N.to_nat (k / N.of_nat sz)) else stuck
    | CWords ws =>
        if N.of_nat sz <=? wb then
          w <- aget ws (N.to_nat (k / wb)) ;; Ok (native_val be (firstn sz (skipn (N.to_nat (k mod wb)) w)))
        else stuck
    | CBytes bs => b <- bget bs (N.to_nat k) sz ;; Ok (native_val be b)
    end.
  Definition set_int (t : ity) (d : cells) (k : N) (n : N) : res cells :=
    let sz := bytes_in t in
    if negb (k mod N.of_nat sz =? 0) then UB Misaligned else
    match d with
    | CInts t' ns => if MiniC.ity_eqb t t' then ns <- aset ns (N.to_nat (k / N.of_nat sz)) n ;; Ok (CInts t' ns) else stuck
    | CWords ws =>
        if N.of_nat sz <=? wb then
          w <- aget ws (N.to_nat (k / wb)) ;;
          ws <- aset ws (N.to_nat (k / wb)) (splice w (N.to_nat (k mod wb)) (native_bytes be sz n)) ;; Ok (CWords ws)
        else stuck
    | CBytes bs => bs <- bset bs (N.to_nat k) (native_bytes be sz n) ;; Ok (CBytes bs)
    end.
  Definition get_word (d : cells) (k : N) : res word :=
    match d with
    | CWords ws => if k mod wb =? 0 then aget ws (N.to_nat (k / wb)) else UB Misaligned
    | _ => stuck
    end.
  Definition set_word (d : cells) (k : N) (w : word) : res cells :=
    match d with
    | CWords ws => if k mod wb =? 0 then ws <- aset ws (N.to_nat (k / wb)) w ;; Ok (CWords ws) else UB Misaligned
    | _ => stuck
    end.

  (** ** Accesses *)
  Definition load_at (t : ctype) (l : loc) (s : cstate) : res value :=
    match t, l with
    | TInt it, Flat a =>
        if a mod N.of_nat (bytes_in it) =? 0 then bs <- load_bytes (flat s) a (bytes_in it) ;; Ok (VInt it (native_val be bs))
        else UB Misaligned
    | TWord, Flat a => w <- load_word c (flat s) a ;; Ok (VWord w)
    | TPtr t, Flat a =>
        if a mod N.of_nat (ptr_bytes c) =? 0 then bs <- load_bytes (flat s) a (ptr_bytes c) ;; Ok (VPtr t (Flat (native_val be bs)))
        else UB Misaligned
    | TInt it, Obj i f k => d <- getc (objs s) i f ;; n <- get_int it d k ;; Ok (VInt it n)
    | TWord, Obj i f k => d <- getc (objs s) i f ;; w <- get_word d k ;; Ok (VWord w)
    | TInt it, Tab x k =>
        match tables x with Some (it', l) => if MiniC.ity_eqb it it' then n <- tget l k ;; Ok (VInt it n) else stuck | None => stuck end
    | _, _ => stuck
    end.
  Definition set_vars (s : cstate) v := mk_cst v (flat s) (objs s) (seed s).
  Definition set_flat (s : cstate) m := mk_cst (vars s) m (objs s) (seed s).
  Definition set_objs (s : cstate) o := mk_cst (vars s) (flat s) o (seed s).
  Definition store_at (t : ctype) (l : loc) (v : value) (s : cstate) : res cstate :=
    match t, l, v with
    | TInt it, Flat a, VInt _ n =>
        if a mod N.of_nat (bytes_in it) =? 0 then m <- store_bytes (flat s) a (native_bytes be (bytes_in it) n) ;; Ok (set_flat s m)
        else UB Misaligned
    | TWord, Flat a, VWord w => m <- store_word c (flat s) a w ;; Ok (set_flat s m)
    | TInt it, Obj i f k, VInt _ n => d <- getc (objs s) i f ;; d <- set_int it d k n ;; Ok (set_objs s (setc (objs s) i f d))
    | TWord, Obj i f k, VWord w => d <- getc (objs s) i f ;; d <- set_word d k w ;; Ok (set_objs s (setc (objs s) i f d))
    | _, _, _ => stuck
    end.

  (* conversion of a value to a type, as by assignment *)
  Definition convert (t : ctype) (v : value) : res value :=
    match t, v with
    | TInt it, VInt s n => Ok (VInt it (MiniC.conv s it n))
    | TWord, VWord w => Ok (VWord w)
    | TPtr t, VPtr _ l => Ok (VPtr t l)
    | _, _ => stuck
    end.

  (* p + z, for a pointer to elements of type t *)
  Definition move (t : ctype) (l : loc) (z : Z) : res loc :=
    let at_ (k : N) (sz : N) (f : N -> loc) := if (Z.of_N k + z * Z.of_N sz <? 0)%Z then stuck else Ok (f (Z.to_N (Z.of_N k + z * Z.of_N sz))) in
    match l with
    | Flat a => at_ a (size t) Flat
    | Obj i f k => at_ k (size t) (Obj i f)
    | Tab x k => at_ k 1 (Tab x)
    end.
  Definition bin_op (o : binop) (a b : value) : res value :=
    match a, b with
    | VInt ta x, VInt tb y => int_op o ta x tb y
    | VPtr t l, VInt tb y =>
        match o with
        | Add => l <- move t l (sval tb y) ;; Ok (VPtr t l)
        | Sub => l <- move t l (- sval tb y) ;; Ok (VPtr t l)
        | _ => stuck
        end
    | _, _ => stuck
    end.
  Definition un_op (o : unop) (a : value) : res value :=
    match a with
    | VInt t x =>
        match MiniC.un_op o (MiniC.VInt t x) with Ok (MiniC.VInt t n) => Ok (VInt t n) | Ok _ => stuck | UB k => UB k | Abort => Abort | Fuel => Fuel end
    | _ => stuck
    end.
  Definition is_true (v : value) : res bool :=
    match v with
    | VInt _ n => Ok (negb (n =? 0))
    | VPtr _ (Flat a) => Ok (negb (a =? 0))
    | VPtr _ _ => Ok true
    | VWord _ => stuck
    end.
  Definition word_op (o : wop) (a b : word) : word := match o with WAnd => BS_AND a b | WOr => BS_OR a b | WXor => BS_XOR a b end.

  (* memcpy between the caller's memory and unions *)
  Definition read_bytes (l : loc) (n : N) (s : cstate) : res (list N) :=
    match l with
    | Flat a => load_bytes (flat s) a (N.to_nat n)
    | Obj i f k => d <- getc (objs s) i f ;; match d with CBytes bs => bget bs (N.to_nat k) (N.to_nat n) | _ => stuck end
    | Tab _ _ => stuck
    end.
  Definition write_bytes (l : loc) (b : list N) (s : cstate) : res cstate :=
    match l with
    | Flat a => m <- store_bytes (flat s) a b ;; Ok (set_flat s m)
    | Obj i f k =>
        d <- getc (objs s) i f ;;
        match d with CBytes bs => bs <- bset bs (N.to_nat k) b ;; Ok (set_objs s (setc (objs s) i f (CBytes bs))) | _ => stuck end
    | Tab _ _ => stuck
    end.

  (** ** Variables *)
  Fixpoint lookup (g : list (string * binding)) (x : string) : option binding :=
    match g with [] => None | (y, p) :: r => if String.eqb x y then Some p else lookup r x end.
  Fixpoint set_var (g : list (string * binding)) (x : string) (v : value) : list (string * binding) :=
    match g with
    | [] => []
    | (y, p) :: r => if String.eqb x y then (y, match p with BVal t _ => BVal t (Some v) | _ => p end) :: r else (y, p) :: set_var r x v
    end.

  (** ** Expressions *)
  Definition callable := string -> list value -> cstate -> res (option value * cstate).
  Context (fuel : nat).
  (* an expression designates a scalar variable or an object, or has a value *)
  Inductive result := LVar (t : ctype) (x : string) | L (t : ctype) (l : loc) | V (v : value).
  Definition rvalue (r : result) (s : cstate) : res value :=
    match r with
    | V v => Ok v
    | LVar _ x => match lookup (vars s) x with Some (BVal _ (Some v)) => Ok v | Some (BVal _ None) => UB Uninitialised | _ => stuck end
    | L (TArr t _) l => Ok (VPtr t l)     (* an array becomes a pointer to its first element *)
    | L t l => load_at t l s
    end.
  Definition assign (l : result) (v : value) (s : cstate) : res (result * cstate) :=
    match l with
    | LVar t x => v <- convert t v ;; Ok (V v, set_vars s (set_var (vars s) x v))
    | L t p => v <- convert t v ;; s <- store_at t p v s ;; Ok (V v, s)
    | V _ => stuck
    end.
  (* BLOCK_SBOX_PERMUTE(src, dst) of dvbcsa_bs_avx2.h on two arrays of words *)
  Definition sbox_permute (i : nat) (f : string) (j : nat) (g : string) (s : cstate) : res cstate :=
    a <- getc (objs s) i f ;; b <- getc (objs s) j g ;;
    match a, b with
    | CWords src, CWords dst => r <- avx2_block_sbox_permute c src dst ;; Ok (set_objs s (setc (objs s) j g (CWords r)))
    | _, _ => stuck
    end.

  Section Calls.
    Context (calls : callable).
    Fixpoint ev (e : expr) (s : cstate) : res (result * cstate) :=
      match e with
      | EConst t n => Ok (V (VInt t n), s)
      | EVar x =>
          match lookup (vars s) x with
          | Some (BVal t _) => Ok (LVar t x, s)
          | Some (BObj t i) => Ok (L t (Obj i "" 0), s)
          | None => match tables x with Some (t, l) => Ok (L (TArr (TInt t) (N.of_nat (length l))) (Tab x 0), s) | None => stuck end
          end
      | EBin o a b =>
          '(ra, s) <- ev a s ;; va <- rvalue ra s ;;
          '(rb, s) <- ev b s ;; vb <- rvalue rb s ;;
          v <- bin_op o va vb ;; Ok (V v, s)
      | EUn o a => '(ra, s) <- ev a s ;; va <- rvalue ra s ;; v <- un_op o va ;; Ok (V v, s)
      | ECond c a b =>
          (* both branches have the same type here *)
          '(rc, s) <- ev c s ;; vc <- rvalue rc s ;; t <- is_true vc ;;
          '(r, s) <- (if t then ev a s else ev b s) ;; v <- rvalue r s ;; Ok (V v, s)
      | ECast t a => '(ra, s) <- ev a s ;; va <- rvalue ra s ;; v <- convert t va ;; Ok (V v, s)
      | EIndex a i =>
          '(ra, s) <- ev a s ;; va <- rvalue ra s ;;
          '(ri, s) <- ev i s ;; vi <- rvalue ri s ;;
          p <- bin_op Add va vi ;; match p with VPtr t l => Ok (L t l, s) | _ => stuck end
      | EDeref a => '(ra, s) <- ev a s ;; va <- rvalue ra s ;; match va with VPtr t l => Ok (L t l, s) | _ => stuck end
      | EAddr a => '(ra, s) <- ev a s ;; match ra with L t l => Ok (V (VPtr t l), s) | _ => stuck end
      | EField a f =>
          '(ra, s) <- ev a s ;;
          match ra with
          | L (TStruct n) l =>
              match structs n with
              | Some (u, fs) =>
                  match field_type fs f with
                  | Some t =>
                      if u then Ok (L t l, s)      (* all members of a union begin at its address *)
                      else match l with
                           | Flat p => Ok (L t (Flat (p + field_offset fs 0 f)), s)
                           | Obj i "" 0 => Ok (L t (Obj i f 0), s)
                           | _ => stuck
                           end
                  | None => stuck
                  end
              | None => stuck
              end
          | _ => stuck
          end
      | EAssign l r => '(rr, s) <- ev r s ;; v <- rvalue rr s ;; '(rl, s) <- ev l s ;; assign rl v s
      | EOpAssign o l r =>
          '(rr, s) <- ev r s ;; vr <- rvalue rr s ;;
          '(rl, s) <- ev l s ;; vl <- rvalue rl s ;; v <- bin_op o vl vr ;; assign rl v s
      | EPost o l =>
          '(rl, s) <- ev l s ;; vl <- rvalue rl s ;; v <- bin_op o vl (VInt I32 1) ;; '(_, s) <- assign rl v s ;; Ok (V vl, s)
      | EComma a b => '(_, s) <- ev a s ;; ev b s
      | EWVal bytes v => Ok (V (VWord (BS_VAL c bytes v)), s)
      | EWop o a b =>
          '(ra, s) <- ev a s ;; va <- rvalue ra s ;; '(rb, s) <- ev b s ;; vb <- rvalue rb s ;;
          match va, vb with VWord x, VWord y => Ok (V (VWord (word_op o x y)), s) | _, _ => stuck end
      | EWNot a => '(ra, s) <- ev a s ;; va <- rvalue ra s ;; match va with VWord x => Ok (V (VWord (BS_NOT c x)), s) | _ => stuck end
      | EWShl a n =>
          '(ra, s) <- ev a s ;; va <- rvalue ra s ;; '(rn, s) <- ev n s ;; vn <- rvalue rn s ;;
          match va, vn with VWord x, VInt _ k => Ok (V (VWord (BS_SHL c x k)), s) | _, _ => stuck end
      | EWShr a n =>
          '(ra, s) <- ev a s ;; va <- rvalue ra s ;; '(rn, s) <- ev n s ;; vn <- rvalue rn s ;;
          match va, vn with VWord x, VInt _ k => Ok (V (VWord (BS_SHR c x k)), s) | _, _ => stuck end
      | ECall f args =>
          '(vs, s) <- (fix evs (l : list expr) (s : cstate) : res (list value * cstate) :=
             match l with
             | [] => Ok ([], s)
             | a :: r => '(ra, s) <- ev a s ;; v <- rvalue ra s ;; '(vs, s) <- evs r s ;; Ok (v :: vs, s)
             end) args s ;;
          if String.eqb f "memcpy" then
            match vs with
            | [VPtr t d; VPtr _ q; VInt _ n] => bs <- read_bytes q n s ;; s <- write_bytes d bs s ;; Ok (V (VPtr t d), s)
            | _ => stuck
            end
          else if String.eqb f "BLOCK_SBOX_PERMUTE" then
            match vs with
            | [VPtr TWord (Obj i x 0); VPtr TWord (Obj j y 0)] => s <- sbox_permute i x j y s ;; Ok (V (VInt I32 0), s)
            | _ => stuck
            end
          else '(r, s) <- calls f vs s ;; Ok (V (match r with Some v => v | None => VInt I32 0 end), s)
      end.

    (** ** Statements *)
    Definition outcome := option (option value).   (* Some r: the function returns r *)
    Definition cond_of (e : expr) (s : cstate) : res (bool * cstate) :=
      '(r, s) <- ev e s ;; v <- rvalue r s ;; b <- is_true v ;; Ok (b, s).
    Definition opt_ev (e : option expr) (s : cstate) : res cstate :=
      match e with None => Ok s | Some e => '(_, s) <- ev e s ;; Ok s end.
    Fixpoint loop (n : nat) (cond : cstate -> res (bool * cstate)) (body : cstate -> res (outcome * cstate)) (step : cstate -> res cstate)
      (s : cstate) : res (outcome * cstate) :=
      match n with
      | O => Fuel
      | S n =>
          '(b, s) <- cond s ;;
          if b then
            '(o, s) <- body s ;;
            match o with Some r => Ok (Some r, s) | None => s <- step s ;; loop n cond body step s end
          else Ok (None, s)
      end.
    (* indeterminate contents *)
    Definition any_bytes (sd n : nat) : list N := map (fun k => rnd sd k mod 256) (seq 0 n).
    Definition any_words (sd n : nat) : list word :=
      map (fun j => map (fun k => rnd sd (j * word_bytes c + k) mod 256) (seq 0 (word_bytes c))) (seq 0 n).
    Definition any_ints (t : ity) (sd n : nat) : list N := map (fun k => rnd sd k mod 2 ^ bits t) (seq 0 n).
    (* the cells of a member of type t *)
    Definition new_cells (t : ctype) (sd : nat) : option cells :=
      match t with
      | TWord => Some (CWords (any_words sd 1))
      | TInt it => Some (CInts it (any_ints it sd 1))
      | TArr TWord n => Some (CWords (any_words sd (N.to_nat n)))
      | TArr (TArr TWord m) n => Some (CWords (any_words sd (N.to_nat (n * m))))
      | TArr (TInt it) n => Some (CInts it (any_ints it sd (N.to_nat n)))
      | TArr (TStruct u) n => Some (CBytes (any_bytes sd (N.to_nat (n * size (TStruct u)))))   (* u a union *)
      | _ => None
      end.
    Fixpoint new_members (fs : list (string * ctype)) (sd : nat) : option object :=
      match fs with
      | [] => Some []
      | (x, t) :: r => match new_cells t sd, new_members r (S sd) with Some d, Some o => Some ((x, d) :: o) | _, _ => None end
      end.
    Definition new_object (t : ctype) (sd : nat) : option (object * nat) :=
      match t with
      | TArr _ _ => match new_cells t sd with Some d => Some ([(""%string, d)], S sd) | None => None end
      | TStruct s =>
          match structs s with
          | Some (true, _) => Some ([(""%string, CBytes (any_bytes sd (N.to_nat (size t))))], S sd)
          | Some (false, fs) => match new_members fs sd with Some o => Some (o, (sd + length fs)%nat) | None => None end
          | None => None
          end
      | _ => None
      end.
    Definition declare (t : ctype) (x : string) (s : cstate) : res cstate :=
      match t with
      | TInt _ | TWord | TPtr _ => Ok (set_vars s ((x, BVal t None) :: vars s))
      | _ =>
          match new_object t (seed s) with
          | Some (o, sd) => Ok (mk_cst ((x, BObj t (length (objs s))) :: vars s) (flat s) (objs s ++ [o]) sd)
          | None => stuck
          end
      end.
    (* end of a block: the variables and objects declared in it disappear *)
    Definition leave (s0 s : cstate) : cstate :=
      mk_cst (skipn (length (vars s) - length (vars s0)) (vars s)) (flat s) (firstn (length (objs s0)) (objs s)) (seed s).
    Fixpoint exec (st : stmt) (s : cstate) : res (outcome * cstate) :=
      match st with
      | SExpr e => '(_, s) <- ev e s ;; Ok (None, s)
      | SDecl t x init =>
          s <- declare t x s ;;
          match init with
          | None => Ok (None, s)
          | Some e => '(r, s) <- ev e s ;; v <- rvalue r s ;; '(_, s) <- assign (LVar t x) v s ;; Ok (None, s)
          end
      | SIf e a b => '(t, s) <- cond_of e s ;; if t then exec a s else exec b s
      | SFor i e st b => s <- opt_ev i s ;; loop fuel (cond_of e) (exec b) (opt_ev st) s
      | SReturn None => Ok (Some None, s)
      | SReturn (Some e) => '(r, s) <- ev e s ;; v <- rvalue r s ;; Ok (Some (Some v), s)
      | SAssert e => '(t, s) <- cond_of e s ;; if t then Ok (None, s) else Abort
      | SSwap n t b =>
          '(rt, s) <- ev t s ;; vt <- rvalue rt s ;; '(rb, s) <- ev b s ;; vb <- rvalue rb s ;;
          match vt, vb with
          | VWord x, VWord y => let '(x, y) := BS_SWAP_LE c n x y in '(_, s) <- assign rt (VWord x) s ;; '(_, s) <- assign rb (VWord y) s ;; Ok (None, s)
          | _, _ => stuck
          end
      | SDeint p lo hi =>
          '(rp, s) <- ev p s ;; vp <- rvalue rp s ;;
          match vp with
          | VPtr TWord l =>
              l' <- move TWord l 1 ;; a <- load_at TWord l s ;; b <- load_at TWord l' s ;;
              match a, b with
              | VWord a, VWord b =>
                  '(x, y) <- BS_LOAD_DEINTERLEAVE_8 c [a; b] 0 ;;
                  '(r, s) <- ev lo s ;; '(_, s) <- assign r (VWord x) s ;; '(r, s) <- ev hi s ;; '(_, s) <- assign r (VWord y) s ;; Ok (None, s)
              | _, _ => stuck
              end
          | _ => stuck
          end
      | SBlock ss =>
          '(o, s') <- (fix seq (l : list stmt) (s : cstate) : res (outcome * cstate) :=
             match l with
             | [] => Ok (None, s)
             | a :: r => '(o, s) <- exec a s ;; match o with Some _ => Ok (o, s) | None => seq r s end
             end) ss s ;;
          Ok (o, leave s s')
      end.

    (** ** Functions *)
    Fixpoint bind_params (ps : list (string * ctype)) (vs : list value) : res (list (string * binding)) :=
      match ps, vs with
      | [], [] => Ok []
      | (x, t) :: ps, v :: vs => v <- convert t v ;; r <- bind_params ps vs ;; Ok ((x, BVal t (Some v)) :: r)
      | _, _ => stuck
      end.
    Definition call_fun (f : fundef) (vs : list value) (s : cstate) : res (option value * cstate) :=
      g <- bind_params (fn_params f) vs ;;
      '(o, s') <- exec (SBlock (fn_body f)) (set_vars s g) ;;
      let s' := set_vars s' (vars s) in
      match fn_ret f, o with
      | TVoid, (None | Some None) => Ok (None, s')
      | t, Some (Some v) => v <- convert t v ;; Ok (Some v, s')
      | _, _ => stuck
      end.
  End Calls.

  (* a program: later functions first; a function may call the ones before it (no recursion) *)
  Fixpoint link (fs : list fundef) : callable :=
    match fs with
    | [] => fun _ _ _ => stuck
    | f :: r => fun x vs s => if String.eqb x (fn_name f) then call_fun (link r) f vs s else link r x vs s
    end.
End Semantics.
