(** Header.v -- what the headers of the word types (dvbcsa_bs_uint32.h, uint64.h, mmx.h, sse.h,
    avx2.h, neon.h of /repo/src) mean.  The syntax trees of their macros come from
    tools/gen_header.py; this file says what the trees do: C integers as in MiniC.v, and the vector
    intrinsics as their vendors document them (Intel intrinsics guide, ARM C language extensions).

    A vector register is the list of its bytes, least significant first, which is also their order in
    memory (these processors are little-endian here).  [lanes e r] are its elements of e bytes, as
    numbers, element 0 first.  An intrinsic applied to anything but values of its argument types, a
    shift count outside the documented range, or an access outside a buffer is undefined.

    Simplifications: assignments have no value; the alignment that _mm*_load/_store need is not
    checked here (the buffers of the sources are arrays of words); _m_empty() (no effect on memory)
    does not occur. *)
From Coq Require Import String.
From Verif Require Import Base Mem ModelBsWord MiniC.
Local Open Scope string_scope.
Local Open Scope list_scope.
Local Open Scope N_scope.

(** ** Syntax *)
Inductive cty := CInt (t : ity) | CReg | CPair | CPtr.
Inductive hexpr :=
| HNum (t : ity) (n : N)
| HVar (x : string)
| HBin (o : binop) (a b : hexpr)
| HNot (a : hexpr)                        (* ~ *)
| HCast (t : cty) (a : hexpr)
| HCall (f : string) (args : list hexpr)  (* an intrinsic *)
| HPart (a : hexpr) (k : N).              (* a.val[k] *)
Inductive hact :=
| HSet (x : string) (e : hexpr)
| HDo (f : string) (args : list hexpr).   (* a store, or a function of the header *)
Inductive hstmt :=
| HAct (a : hact)
| HDecl (t : cty) (x : string) (e : option hexpr)
| HBlock (ss : list hstmt)
| HFor (i : hact) (c : hexpr) (s : hact) (b : list hstmt).
Record hfun := mk_hfun { h_params : list (string * cty); h_body : list hstmt; h_value : option hexpr }.

(** ** Values *)
Inductive hval := HInt (t : ity) (n : N) | HReg (r : list N) | HTwo (a b : list N) | HPtr (b : string) (k : N).
Notation stuck := (UB BadAddress).

(** ** Vector registers *)
Definition pieces (e : nat) (r : list N) : list (list N) :=
  map (fun i => firstn e (skipn (e * i) r)) (seq 0 (length r / e)).
Definition lanes (e : nat) (r : list N) : list N := map le_val (pieces e r).
Definition of_lanes (e : nat) (l : list N) : list N := concat (map (le_bytes e) l).
(* a bitwise operation on all bits of a register *)
Definition bitwise (f : N -> N -> N) (a b : list N) : list N := le_bytes (length a) (f (le_val a) (le_val b)).
Definition all_ones (n : nat) : N := 2 ^ (8 * N.of_nat n) - 1.
(* shifts of the elements: counts above the element width give zero (Intel) *)
Definition lane_shl (e : nat) (k : N) (r : list N) : list N :=
  of_lanes e (map (fun x => if k <? 8 * N.of_nat e then N.shiftl x k mod 2 ^ (8 * N.of_nat e) else 0) (lanes e r)).
Definition lane_shr (e : nat) (k : N) (r : list N) : list N :=
  of_lanes e (map (fun x => if k <? 8 * N.of_nat e then N.shiftr x k else 0) (lanes e r)).
(* a0 b0 a1 b1 .. *)
Fixpoint alternate {A} (a b : list A) : list A :=
  match a, b with x :: a, y :: b => x :: y :: alternate a b | _, _ => [] end.
(* _mm_unpacklo/hi on 16 bytes: alternate the elements of the low or high eight bytes *)
Definition unpack (e : nat) (hi : bool) (a b : list N) : list N :=
  let h r := if hi then skipn 8 r else firstn 8 r in
  concat (alternate (pieces e (h a)) (pieces e (h b))).
(* _mm_shuffle_epi8 on 16 bytes: byte i is byte (m_i mod 16) of a, or zero if the top bit of m_i is set *)
Definition shuffle (a m : list N) : list N :=
  map (fun i => if N.testbit i 7 then 0 else nth (N.to_nat (N.land i 15)) a 0) m.
(* the 256-bit versions work on the two halves of 16 bytes *)
Definition halves (f : list N -> list N -> list N) (a b : list N) : list N :=
  f (firstn 16 a) (firstn 16 b) ++ f (skipn 16 a) (skipn 16 b).
(* vtrn: (a0 b0 a2 b2 ..), (a1 b1 a3 b3 ..) *)
Definition vtrn (e : nat) (a b : list N) : list N * list N :=
  let x := pieces e a in let y := pieces e b in
  let n := length x in
  (concat (map (fun i => if Nat.even i then nth i x [] else nth (i - 1) y []) (seq 0 n)),
   concat (map (fun i => if Nat.even i then nth (i + 1) x [] else nth i y []) (seq 0 n))).

Definition is_reg (n : nat) (v : hval) : res (list N) :=
  match v with HReg r => if (length r =? n)%nat then Ok r else stuck | _ => stuck end.
Definition is_int (v : hval) : res N := match v with HInt _ n => Ok n | _ => stuck end.
Fixpoint all_res {A B} (f : A -> res B) (l : list A) : res (list B) :=
  match l with [] => Ok [] | x :: r => y <- f x ;; r <- all_res f r ;; Ok (y :: r) end.

Section Headers.
  (* the bytes of the table dvbcsa_block_sbox_perm and what may be read behind it; the header *)
  Context (table : list N) (hdr : list (string * hfun)).

  Definition bufs := list (string * list (list N)).
  Fixpoint assoc {A} (x : string) (l : list (string * A)) : option A :=
    match l with [] => None | (y, v) :: r => if String.eqb x y then Some v else assoc x r end.
  Fixpoint assoc_set {A} (x : string) (v : A) (l : list (string * A)) : list (string * A) :=
    match l with [] => [] | (y, w) :: r => if String.eqb x y then (y, v) :: r else (y, w) :: assoc_set x v r end.

  (** ** Intrinsics *)
  (* two registers of n bytes -> one *)
  Definition two (n : nat) (f : list N -> list N -> list N) (vs : list hval) : res hval :=
    match vs with [a; b] => a <- is_reg n a ;; b <- is_reg n b ;; Ok (HReg (f a b)) | _ => stuck end.
  Definition one (n : nat) (f : list N -> list N) (vs : list hval) : res hval :=
    match vs with [a] => a <- is_reg n a ;; Ok (HReg (f a)) | _ => stuck end.
  (* a register and a shift count between lo and hi *)
  Definition shift (n : nat) (f : N -> list N -> list N) (lo hi : N) (vs : list hval) : res hval :=
    match vs with
    | [a; k] => a <- is_reg n a ;; k <- is_int k ;; if (lo <=? k) && (k <=? hi) then Ok (HReg (f k a)) else stuck
    | _ => stuck
    end.
  (* the n elements of e bytes, highest first *)
  Definition set (n e : nat) (vs : list hval) : res hval :=
    if (length vs =? n)%nat then l <- all_res is_int vs ;; Ok (HReg (of_lanes e (rev l))) else stuck.
  (* n copies of an element of e bytes *)
  Definition dup (n e : nat) (vs : list hval) : res hval :=
    match vs with [v] => x <- is_int v ;; Ok (HReg (of_lanes e (repeat x n))) | _ => stuck end.
  (* one word of a buffer of words of n bytes *)
  Definition load (n : nat) (bs : bufs) (vs : list hval) : res hval :=
    match vs with
    | [HPtr b k] => match assoc b bs with Some ws => r <- aget ws (N.to_nat k) ;; r <- is_reg n (HReg r) ;; Ok (HReg r) | None => stuck end
    | _ => stuck
    end.
  (* _mm256_i32gather_epi32(base, idx, scale): element i is the 4 bytes at base + scale * idx_i
     (idx_i is signed: a negative one is outside the table) *)
  Definition gather (vs : list hval) : res hval :=
    match vs with
    | [HPtr "dvbcsa_block_sbox_perm" 0; idx; HInt _ scale] =>
        idx <- is_reg 32 idx ;;
        l <- all_res (fun x => if x <? 2 ^ 31 then bget table (N.to_nat (scale * x)) 4 else UB OutOfBounds) (lanes 4 idx) ;;
        Ok (HReg (concat l))
    | _ => stuck
    end.
  (* vld2q_u8: 32 consecutive bytes, the even ones and the odd ones *)
  Definition vld2q (bs : bufs) (vs : list hval) : res hval :=
    match vs with
    | [HPtr b k] =>
        match assoc b bs with
        | Some ws =>
            x <- aget ws (N.to_nat k) ;; y <- aget ws (N.to_nat k + 1) ;; x <- is_reg 16 (HReg x) ;; y <- is_reg 16 (HReg y) ;;
            let l := x ++ y in
            Ok (HTwo (map (fun i => nth (2 * i) l 0) (seq 0 16)) (map (fun i => nth (2 * i + 1) l 0) (seq 0 16)))
        | None => stuck
        end
    | _ => stuck
    end.
  Definition trn2 (e : nat) (vs : list hval) : res hval :=
    match vs with
    | [a; b] => a <- is_reg 16 a ;; b <- is_reg 16 b ;; Ok (let '(x, y) := vtrn e a b in HTwo x y)
    | _ => stuck
    end.
  Definition andnot (n : nat) (a b : list N) : list N := bitwise (fun x y => N.land (N.lxor x (all_ones n)) y) a b.

  Definition intrinsics (bs : bufs) : list (string * (list hval -> res hval)) :=
    [ (* MMX, 64 bits *)
      ("_m_pand", two 8 (bitwise N.land)); ("_m_por", two 8 (bitwise N.lor)); ("_m_pxor", two 8 (bitwise N.lxor));
      ("_m_psllqi", shift 8 (lane_shl 8) 0 255); ("_m_psrlqi", shift 8 (lane_shr 8) 0 255);
      (* SSE2, 128 bits *)
      ("_mm_and_si128", two 16 (bitwise N.land)); ("_mm_or_si128", two 16 (bitwise N.lor)); ("_mm_xor_si128", two 16 (bitwise N.lxor));
      ("_mm_andnot_si128", two 16 (andnot 16));
      ("_mm_slli_epi64", shift 16 (lane_shl 8) 0 255); ("_mm_srli_epi64", shift 16 (lane_shr 8) 0 255);
      ("_mm_set_epi64x", set 2 8); ("_mm_set_epi8", set 16 1); ("_mm_load_si128", load 16 bs);
      ("_mm_unpacklo_epi64", two 16 (unpack 8 false)); ("_mm_unpackhi_epi64", two 16 (unpack 8 true));
      (* SSSE3 *)
      ("_mm_shuffle_epi8", two 16 shuffle);
      (* AVX2, 256 bits *)
      ("_mm256_and_si256", two 32 (bitwise N.land)); ("_mm256_or_si256", two 32 (bitwise N.lor)); ("_mm256_xor_si256", two 32 (bitwise N.lxor));
      ("_mm256_andnot_si256", two 32 (andnot 32));
      ("_mm256_slli_epi64", shift 32 (lane_shl 8) 0 255); ("_mm256_srli_epi64", shift 32 (lane_shr 8) 0 255);
      ("_mm256_slli_epi32", shift 32 (lane_shl 4) 0 255); ("_mm256_srli_epi32", shift 32 (lane_shr 4) 0 255);
      ("_mm256_set_epi64x", set 4 8); ("_mm256_set_epi32", set 8 4); ("_mm256_set_epi8", set 32 1); ("_mm256_load_si256", load 32 bs);
      ("_mm256_unpacklo_epi16", two 32 (halves (unpack 2 false))); ("_mm256_unpackhi_epi16", two 32 (halves (unpack 2 true)));
      ("_mm256_unpacklo_epi32", two 32 (halves (unpack 4 false))); ("_mm256_unpackhi_epi32", two 32 (halves (unpack 4 true)));
      ("_mm256_shuffle_epi8", two 32 (halves shuffle)); ("_mm256_i32gather_epi32", gather);
      (* NEON, 128 bits *)
      ("vandq_u64", two 16 (bitwise N.land)); ("vorrq_u64", two 16 (bitwise N.lor)); ("veorq_u64", two 16 (bitwise N.lxor));
      ("vmvnq_u8", one 16 (fun a => of_lanes 1 (map (fun x => 255 - x) (lanes 1 a))));
      ("vshlq_n_u64", shift 16 (lane_shl 8) 0 63); ("vshrq_n_u64", shift 16 (lane_shr 8) 1 64);
      ("vdupq_n_u8", dup 16 1); ("vdupq_n_u16", dup 8 2); ("vdupq_n_u32", dup 4 4); ("vdupq_n_u64", dup 2 8);
      ("vreinterpretq_u64_u8", one 16 (fun a => a)); ("vreinterpretq_u64_u16", one 16 (fun a => a)); ("vreinterpretq_u64_u32", one 16 (fun a => a));
      ("vreinterpretq_u8_u64", one 16 (fun a => a)); ("vreinterpretq_u16_u64", one 16 (fun a => a)); ("vreinterpretq_u32_u64", one 16 (fun a => a));
      ("vtrnq_u8", trn2 1); ("vtrnq_u16", trn2 2); ("vtrnq_u32", trn2 4); ("vld2q_u8", vld2q bs) ].

  (** ** Expressions *)
  Definition env := list (string * (cty * option hval)).
  Definition hconv (t : cty) (v : hval) : res hval :=
    match t, v with
    | CInt t, HInt s n => Ok (HInt t (conv s t n))
    | CReg, HReg _ | CPair, HTwo _ _ | CPtr, HPtr _ _ => Ok v
    | _, _ => stuck
    end.
  (* casts: also of a 64-bit integer to __m64 *)
  Definition hcast (t : cty) (v : hval) : res hval :=
    match t, v with CReg, HInt U64 n => Ok (HReg (le_bytes 8 n)) | _, _ => hconv t v end.
  Definition hbin (o : binop) (a b : hval) : res hval :=
    match a, b with
    | HInt ta x, HInt tb y => match int_op o ta x tb y with Ok (VInt t n) => Ok (HInt t n) | Ok _ => stuck | UB k => UB k | Abort => Abort | Fuel => Fuel end
    | HPtr p k, HInt _ n => match o with Add => Ok (HPtr p (k + n)) | _ => stuck end
    | _, _ => stuck
    end.
  Fixpoint heval (s : env) (bs : bufs) (e : hexpr) : res hval :=
    match e with
    | HNum t n => Ok (HInt t n)
    | HVar x =>
        match assoc x s with
        | Some (_, Some v) => Ok v
        | Some (_, None) => UB Uninitialised
        | None => if String.eqb x "dvbcsa_block_sbox_perm" then Ok (HPtr x 0) else stuck
        end
    | HBin o a b => a <- heval s bs a ;; b <- heval s bs b ;; hbin o a b
    | HNot a =>   (* of an unsigned integer that is not promoted *)
        a <- heval s bs a ;;
        match a with HInt U32 n => Ok (HInt U32 (2 ^ 32 - 1 - n)) | HInt U64 n => Ok (HInt U64 (2 ^ 64 - 1 - n)) | _ => stuck end
    | HCast t a => a <- heval s bs a ;; hcast t a
    | HCall f args =>
        vs <- (fix go l := match l with [] => Ok [] | x :: r => v <- heval s bs x ;; r <- go r ;; Ok (v :: r) end) args ;;
        match assoc f (intrinsics bs) with Some g => g vs | None => stuck end
    | HPart a k =>
        a <- heval s bs a ;;
        match a, k with HTwo x _, 0 => Ok (HReg x) | HTwo _ y, 1 => Ok (HReg y) | _, _ => stuck end
    end.

  (** ** Statements *)
  Section Calls.
    (* calls of functions of the header *)
    Context (call : string -> list hval -> bufs -> res bufs).
    Definition hact_run (a : hact) (s : env) (bs : bufs) : res (env * bufs) :=
      match a with
      | HSet x e =>
          v <- heval s bs e ;;
          match assoc x s with Some (t, _) => v <- hconv t v ;; Ok (assoc_set x (t, Some v) s, bs) | None => stuck end
      | HDo f args =>
          vs <- all_res (heval s bs) args ;;
          if String.eqb f "_mm256_store_si256" then
            match vs with
            | [HPtr b k; r] =>
                r <- is_reg 32 r ;;
                match assoc b bs with Some ws => ws <- aset ws (N.to_nat k) r ;; Ok (s, assoc_set b ws bs) | None => stuck end
            | _ => stuck
            end
          else bs <- call f vs bs ;; Ok (s, bs)
      end.
    Fixpoint hloop (fuel : nat) (c : env -> bufs -> res hval) (body step : env -> bufs -> res (env * bufs)) (s : env) (bs : bufs) : res (env * bufs) :=
      match fuel with
      | O => Fuel
      | S fuel =>
          v <- c s bs ;;
          match v with
          | HInt _ 0 => Ok (s, bs)
          | HInt _ _ => '(s, bs) <- body s bs ;; '(s, bs) <- step s bs ;; hloop fuel c body step s bs
          | _ => stuck
          end
      end.
    (* the end of a block: the variables declared in it are gone *)
    Definition leave (s s' : env) : env := skipn (length s' - length s) s'.
    Fixpoint hexec (st : hstmt) (s : env) (bs : bufs) : res (env * bufs) :=
      let all := fix all (l : list hstmt) (s : env) (bs : bufs) : res (env * bufs) :=
        match l with [] => Ok (s, bs) | x :: r => '(s, bs) <- hexec x s bs ;; all r s bs end in
      match st with
      | HAct a => hact_run a s bs
      | HDecl t x None => Ok ((x, (t, None)) :: s, bs)
      | HDecl t x (Some e) => v <- heval s bs e ;; v <- hconv t v ;; Ok ((x, (t, Some v)) :: s, bs)
      | HBlock ss => '(s', bs) <- all ss s bs ;; Ok (leave s s', bs)
      | HFor i c st b =>
          '(s, bs) <- hact_run i s bs ;;
          hloop 1000 (fun s bs => heval s bs c) (fun s bs => '(s', bs) <- all b s bs ;; Ok (leave s s', bs)) (hact_run st) s bs
      end.
    Fixpoint hexecs (l : list hstmt) (s : env) (bs : bufs) : res (env * bufs) :=
      match l with [] => Ok (s, bs) | x :: r => '(s, bs) <- hexec x s bs ;; hexecs r s bs end.
  End Calls.

  Fixpoint bind_params (ps : list (string * cty)) (vs : list (option hval)) : res env :=
    match ps, vs with
    | [], [] => Ok []
    | (x, t) :: ps, None :: vs => s <- bind_params ps vs ;; Ok ((x, (t, None)) :: s)
    | (x, t) :: ps, Some v :: vs => v <- hconv t v ;; s <- bind_params ps vs ;; Ok ((x, (t, Some v)) :: s)
    | _, _ => stuck
    end.
  Fixpoint hcall (d : nat) (f : string) (vs : list hval) (bs : bufs) : res bufs :=
    match d with
    | O => stuck
    | S d =>
        match assoc f hdr with
        | Some h => s <- bind_params (h_params h) (map Some vs) ;; '(_, bs) <- hexecs (hcall d) (h_body h) s bs ;; Ok bs
        | None => stuck
        end
    end.

  (** ** Uses of a macro *)
  (* a macro that is an expression, on values for its parameters *)
  Definition macro_value (m : string) (vs : list hval) : res hval :=
    match assoc m hdr with
    | Some h =>
        s <- bind_params (h_params h) (map Some vs) ;;
        match h_body h, h_value h with [], Some e => heval s [] e | _, _ => stuck end
    | None => stuck
    end.
  (* a macro that is a statement: the parameters (None: a variable without a value yet) and the
     buffers before, the variables and buffers after *)
  Definition macro_run (m : string) (vs : list (option hval)) (bs : bufs) : res (list (option hval) * bufs) :=
    match assoc m hdr with
    | Some h =>
        s <- bind_params (h_params h) vs ;; '(s, bs) <- hexecs (hcall 1) (h_body h) s bs ;; Ok (map (fun x => snd (snd x)) s, bs)
    | None => stuck
    end.
End Headers.
