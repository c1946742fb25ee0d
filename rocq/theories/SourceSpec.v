(** SourceSpec.v -- vocabulary of the property theorems about the source text itself: what it is to
    run an API function of the parsed sources (SourceClassical.v) under the C semantics of MiniC.v.
    [be]: big-endian machine; [fuel] bounds the iterations of each loop (a run that exceeds it ends
    in [Fuel], never in [Ok]); the caller's memory is the only argument and result besides the
    pointers and the length. *)
From Coq Require Import String.
From Verif Require Import Base MiniC SourceClassical.
Local Open Scope string_scope. Local Open Scope N_scope.

(* run function [f] of the sources with the given arguments on an empty stack *)
Definition run_source (be : bool) (fuel : nat) (f : string) (args : list value) (m : mem) : res mem :=
  '(r, s) <- link be src_tables src_structs fuel (src_program be) f args (mk_cst m []) ;;
  match r with None => Ok (flat s) | Some _ => UB BadAddress end.

(* arguments: const unsigned char *, struct dvbcsa_key_s *, unsigned int *)
Definition byte_ptr (a : N) : value := VPtr (TInt U8) (Flat a).
Definition key_ptr (a : N) : value := VPtr (TStruct "dvbcsa_key_s") (Flat a).
Definition uint (n : N) : value := VInt U32 n.

(* dvbcsa.h: dvbcsa_key_set(cw, key), dvbcsa_encrypt(key, data, len), dvbcsa_decrypt(key, data, len) *)
Definition src_key_set be fuel m cw key := run_source be fuel "dvbcsa_key_set" [byte_ptr cw; key_ptr key] m.
Definition src_encrypt be fuel m key data len := run_source be fuel "dvbcsa_encrypt" [key_ptr key; byte_ptr data; uint len] m.
Definition src_decrypt be fuel m key data len := run_source be fuel "dvbcsa_decrypt" [key_ptr key; byte_ptr data; uint len] m.

(* enough iterations for a packet of [len] bytes *)
Definition enough (fuel : nat) (len : N) : Prop := (100 <= fuel)%nat /\ (N.to_nat len < fuel)%nat.
