(** SourceBsSpec.v -- vocabulary of the property theorems about the source text of the bitslice API:
    what it is to run an API function of the parsed sources (SourceBitslice.v) under the C semantics
    of BsC.v.  [rnd] gives the contents of automatic objects when they come into existence, [fuel]
    bounds the iterations of each loop (a run that exceeds it ends in [Fuel], never in [Ok]); the
    caller's memory is the only argument and result besides the pointers and the length. *)
From Coq Require Import String.
From Verif Require Import Base ModelBsWord ModelBsAlgo BsC SourceBitslice.
From Verif Require MiniC SourceClassical.
Local Open Scope string_scope. Local Open Scope N_scope.

(* struct dvbcsa_bs_key_s *, struct dvbcsa_bs_batch_s *, const unsigned char * *)
Definition bs_key_ptr (a : N) : value := VPtr (TStruct "dvbcsa_bs_key_s") (Flat a).
Definition batch_ptr (a : N) : value := VPtr (TStruct "dvbcsa_bs_batch_s") (Flat a).
Definition cw_ptr (a : N) : value := VPtr (TInt U8) (Flat a).

(* run function [f] of the sources on an empty stack *)
Definition run_bs_source (c : build) (rnd : nat -> nat -> N) (fuel : nat) (f : string) (args : list value) (m : mem) : res mem :=
  '(_, s) <- link c src_bs_tables (src_bs_structs c) rnd fuel (src_bs_program c) f args (mk_cst [] m [] 0) ;; Ok (flat s).
(* dvbcsa.h: dvbcsa_bs_encrypt(key, pcks, maxlen), dvbcsa_bs_decrypt(key, pcks, maxlen) *)
Definition src_bs_call (enc : bool) c rnd fuel m key pcks maxlen :=
  run_bs_source c rnd fuel (if enc then "dvbcsa_bs_encrypt" else "dvbcsa_bs_decrypt") [bs_key_ptr key; batch_ptr pcks; VInt U32 maxlen] m.

(** ** dvbcsa_bs_key_set
    It calls two functions of the classical library, dvbcsa_load_le64 (dvbcsa_pv.h) and
    dvbcsa_key_schedule_block (dvbcsa_key.c).  These are run by the semantics of MiniC.v (see C49).
    The local array kk that dvbcsa_key_schedule_block fills is lent to it as follows: the callee sees
    the caller's memory moved up by the size of the array, and the array at address 0 (with_local,
    ModelBsAlgo.v); afterwards the array and the caller's memory are taken back from there. *)
Definition classical (be : bool) (fuel : nat) (f : string) (args : list MiniC.value) (m : mem) : res (option MiniC.value * mem) :=
  '(r, s) <- MiniC.link be SourceClassical.src_tables SourceClassical.src_structs fuel (SourceClassical.src_program be) f args (MiniC.mk_cst m []) ;;
  Ok (r, MiniC.flat s).
Definition classical_calls (c : build) (fuel : nat) : callable := fun f vs s =>
  if String.eqb f "dvbcsa_load_le64" then
    match vs with
    | [VPtr _ (Flat p)] =>
        '(r, m) <- classical (big_endian c) fuel f [MiniC.VPtr (MiniC.TInt U8) (MiniC.Flat p)] (flat s) ;;
        match r with Some (MiniC.VInt t n) => Ok (Some (VInt t n), mk_cst (vars s) m (objs s) (seed s)) | _ => UB BadAddress end
    | _ => UB BadAddress
    end
  else if String.eqb f "dvbcsa_key_schedule_block" then
    match vs with
    | [VPtr _ (Flat p); VPtr _ (Obj i x 0)] =>
        d <- getc (objs s) i x ;;
        match d with
        | CInts U8 ns =>
            let n := N.of_nat (length ns) in
            '(_, m) <- classical (big_endian c) fuel f [MiniC.VPtr (MiniC.TInt U8) (MiniC.Flat (p + n)); MiniC.VPtr (MiniC.TInt U8) (MiniC.Flat 0)]
                         (with_local n (fun a => nth (N.to_nat a) ns 0) (flat s)) ;;
            ns' <- load_bytes m 0 (length ns) ;;
            Ok (None, mk_cst (vars s) (fun a => m (a + n)) (setc (objs s) i x (CInts U8 ns')) (seed s))
        | _ => UB BadAddress
        end
    | _ => UB BadAddress
    end
  else UB BadAddress.
(* dvbcsa.h: dvbcsa_bs_key_set(cw, key) *)
Definition src_bs_key_set c rnd fuel m cw key : res mem :=
  '(_, s) <- call_fun c src_bs_tables (src_bs_structs c) rnd fuel (classical_calls c fuel) (bs_key_set c) [cw_ptr cw; bs_key_ptr key] (mk_cst [] m [] 0) ;;
  Ok (flat s).

(* struct dvbcsa_bs_batch_s contains a pointer: an array of it has the alignment of a pointer *)
Definition batch_aligned (c : build) (pcks : N) : Prop := pcks mod N.of_nat (ptr_bytes c) = 0.
