(** HeaderSpec.v -- vocabulary of C52: words as values of dvbcsa_bs_word_t, and the uses that the
    bitslice sources (SourceBitslice.v, generated from /repo/src) make of the macros of the
    word-type headers. *)
From Coq Require Import String.
From Verif Require Import Base ModelBsWord ModelBsBlock Header HeaderSource.
From Verif Require MiniC BsC.
Local Open Scope string_scope.
Local Open Scope list_scope.
Local Open Scope N_scope.

(* a word (its bytes in memory order) as a value of dvbcsa_bs_word_t: an integer whose representation
   these bytes are (uint32.h:28, uint64.h:28), or a vector register (mmx.h:31, sse.h:36, avx2.h:31, neon.h:31) *)
Definition as_word (c : build) (w : word) : hval :=
  match tgt c with
  | UINT32 => HInt MiniC.U32 (native_val (big_endian c) w)
  | UINT64 => HInt MiniC.U64 (native_val (big_endian c) w)
  | _ => HReg w
  end.

(* the uses of header macros in the sources *)
Inductive use :=
| UOp                          (* BS_AND, BS_OR, BS_XOR, BS_NOT *)
| UShift (n : option N)        (* BS_SHL, BS_SHR; None: the count is not a constant *)
| UVal (bytes : nat) (v : N)   (* BS_VALn(v) *)
| USwap (n : nat) (args : list BsC.expr)  (* BS_SWAPn_LE, not expanded *)
| UDeint (args : list BsC.expr)           (* BS_LOAD_DEINTERLEAVE_8 *)
| UPermute.                    (* BLOCK_SBOX_PERMUTE, not expanded *)
Definition constant (e : BsC.expr) : option N := match e with BsC.EConst MiniC.I32 n => Some n | _ => None end.
Fixpoint uses_e (e : BsC.expr) : list use :=
  match e with
  | BsC.EConst _ _ | BsC.EVar _ => []
  | BsC.EBin _ a b | BsC.EIndex a b | BsC.EAssign a b | BsC.EOpAssign _ a b | BsC.EComma a b => uses_e a ++ uses_e b
  | BsC.EUn _ a | BsC.ECast _ a | BsC.EDeref a | BsC.EAddr a | BsC.EField a _ | BsC.EPost _ a => uses_e a
  | BsC.ECond c a b => uses_e c ++ uses_e a ++ uses_e b
  | BsC.EWVal k v => [UVal k v]
  | BsC.EWop _ a b => UOp :: uses_e a ++ uses_e b
  | BsC.EWNot a => UOp :: uses_e a
  | BsC.EWShl a n | BsC.EWShr a n => UShift (constant n) :: uses_e a ++ uses_e n
  | BsC.ECall f args => (if String.eqb f "BLOCK_SBOX_PERMUTE" then [UPermute] else []) ++ flat_map uses_e args
  end.
Definition uses_o (o : option BsC.expr) : list use := match o with Some e => uses_e e | None => [] end.
Fixpoint uses_s (s : BsC.stmt) : list use :=
  match s with
  | BsC.SExpr e | BsC.SAssert e => uses_e e
  | BsC.SDecl _ _ o | BsC.SReturn o => uses_o o
  | BsC.SIf e a b => uses_e e ++ uses_s a ++ uses_s b
  | BsC.SFor i e st b => uses_o i ++ uses_e e ++ uses_o st ++ uses_s b
  | BsC.SSwap n a b => USwap n [a; b] :: uses_e a ++ uses_e b
  | BsC.SDeint p a b => UDeint [p; a; b] :: uses_e p ++ uses_e a ++ uses_e b
  | BsC.SBlock ss => flat_map uses_s ss
  end.
Definition uses (p : list BsC.fundef) : list use := flat_map (fun f => flat_map uses_s (BsC.fn_body f)) p.

(* the names in an expression without side effects; None if it may have some *)
Fixpoint pure_names (e : BsC.expr) : option (list string) :=
  let both a b := match pure_names a, pure_names b with Some x, Some y => Some (x ++ y) | _, _ => None end in
  match e with
  | BsC.EConst _ _ => Some []
  | BsC.EVar x => Some [x]
  | BsC.EBin _ a b | BsC.EIndex a b => both a b
  | BsC.ECast _ a | BsC.EDeref a | BsC.EAddr a | BsC.EField a _ => pure_names a
  | _ => None
  end.
(* the names that the body of a macro declares: a name of the same spelling in an argument would be captured *)
Fixpoint declared (s : hstmt) : list string :=
  match s with HDecl _ x _ => [x] | HBlock ss | HFor _ _ _ ss => flat_map declared ss | HAct _ => [] end.
Definition declares (c : build) (m : string) : list string :=
  match assoc m (header (tgt c)) with Some f => flat_map declared (h_body f) | None => [] end.
(* arguments that may be evaluated more than once, in the scope of the macro's body *)
Definition safe_args (c : build) (m : string) (args : list BsC.expr) : Prop :=
  Forall (fun e => exists xs, pure_names e = Some xs /\ Forall (fun x => ~ In x (declares c m)) xs) args.

(* the uses that C52 speaks about *)
Definition covered (c : build) (u : use) : Prop :=
  match u with
  | UOp => True
  | UShift o => exists n, o = Some n /\ 1 <= n < 8 * N.of_nat (lane_bytes c)
  | UVal k v => (exists m, In (m, (k, v)) constants) /\ (k <= word_bytes c)%nat
  | USwap n args => tgt c = NEON /\ exists m, In (n, m) [(8%nat, "BS_SWAP8_LE"); (16%nat, "BS_SWAP16_LE"); (32%nat, "BS_SWAP32_LE")] /\ safe_args c m args
  | UDeint args => deinterleave c = true /\ safe_args c "BS_LOAD_DEINTERLEAVE_8" args
  | UPermute => tgt c = AVX2
  end.
