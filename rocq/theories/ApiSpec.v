(** ApiSpec.v -- vocabulary of the property statements about the classical API.
    Together with Spec.v (the cipher) and the predicates at the top of Mem.v
    ([holds], [mapped], [disjoint], [same_outside], [same_inside]) this is all a reader of the
    property theorems needs besides the modelled functions themselves. *)
From Verif Require Import Base Mem ModelClassical.
Local Open Scope N_scope.

(* dvbcsa_pv.h:82-87: sizeof(struct dvbcsa_key_s), the object dvbcsa_key_alloc returns *)
Definition ctx_size : N := 72.

(* every live byte of memory has a value below 256 *)
Definition bytes_mem (m : mem) : Prop := forall x b, m x = Some b -> b < 256.

(* dvbcsa_key_set may be given any 8 readable bytes outside the first 16 bytes of the context,
   or the control word stored at the start of the context itself *)
Definition cw_source (cwp key : N) : Prop := cwp = key \/ disjoint cwp 8 key 16.

(* [key] is a context whose 72 bytes are those that an earlier successful call of
   dvbcsa_key_set with control word [cw] left there *)
Definition keyed (be : bool) (m : mem) (key : N) (cw : list N) : Prop :=
  exists m0 cwp m1,
    holds m0 cwp cw /\ mapped m0 key ctx_size /\ cw_source cwp key /\
    dvbcsa_key_set be m0 cwp key = Ok m1 /\ same_inside key ctx_size m1 m.

(* a packet of [len] bytes with content [buf] at [data], outside the key context *)
Definition packet (m : mem) (key data len : N) (buf : list N) : Prop :=
  holds m data buf /\ len = N.of_nat (length buf) /\ len < 2 ^ 32 /\ disjoint key ctx_size data len.

(* the call returned normally in [m'], the packet now holds [out], nothing else changed *)
Definition rewrites (m : mem) (r : res mem) (data len : N) (out : list N) : Prop :=
  exists m', r = Ok m' /\ holds m' data out /\ N.of_nat (length out) = len /\ same_outside data len m m'.
