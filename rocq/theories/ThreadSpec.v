(** ThreadSpec.v -- two threads that share key contexts (C34), at the granularity of calls. *)
From Verif Require Import Base Mem ModelBsWord ModelBsAlgo ApiSpec BsApiSpec ModelAlloc HistorySpec.
Local Open Scope N_scope.

(* [os] runs the calls of [xs] and of [ys], each in its order *)
Inductive interleaving {A} : list A -> list A -> list A -> Prop :=
| il_nil : interleaving [] [] []
| il_left x xs ys os : interleaving xs ys os -> interleaving (x :: xs) ys (x :: os)
| il_right y xs ys os : interleaving xs ys os -> interleaving xs (y :: ys) (y :: os).

(* what a thread that owns the addresses [F] sees of the state: its own bytes, its own contexts,
   and the contexts [sh] shared with the other thread *)
Definition view (s : astate) (F sh : N -> bool) : astate :=
  mk_astate (fun a => if F a then user s a else None) (fun k => if sh k || F k then actx s k else None).

(* the addresses of the two threads are disjoint; shared contexts lie outside both, every other
   context of a thread lies wholly in its addresses *)
Record partition (c : build) (s : astate) (F1 F2 sh : N -> bool) : Prop := {
  pt_disj : forall a, ~ (F1 a = true /\ F2 a = true);
  pt_shared : forall k x v a, actx s k = Some (x, v) -> sh k = true -> k <= a < k + api_size c x -> F1 a = false /\ F2 a = false;
  pt_own1 : forall k x v a, actx s k = Some (x, v) -> sh k = false -> k <= a < k + api_size c x -> F1 a = F1 k;
  pt_own2 : forall k x v a, actx s k = Some (x, v) -> sh k = false -> k <= a < k + api_size c x -> F2 a = F2 k }.

(* the thread does not set or free shared contexts, and what it allocates is in its addresses *)
Definition polite (c : build) (F sh : N -> bool) (o : op) : Prop :=
  match o with
  | KeySet _ k | BsKeySet _ _ k | KeyFree k | BsFree k => sh k = false
  | KeyAlloc (Some (p, _)) => sh p = false /\ forall a, p <= a < p + ctx_size -> F a = true
  | BsAlloc (Some (p, _)) => sh p = false /\ forall a, p <= a < p + bs_ctx_size c -> F a = true
  | _ => True
  end.
