(** TraceSpec.v -- vocabulary for C44: the memory accesses of a call that runs alone. *)
From Verif Require Import Base Mem ModelBsWord ModelBsAlgo BsApiSpec ModelSteps.
Local Open Scope N_scope.

(* the byte accesses in their order: address, and whether it is a write *)
Fixpoint accesses {A} (t : prog A) (m : mem) : list (N * bool) :=
  match t with
  | Ret _ | Stop _ => []
  | Rd p k => match m p with Some v => (p, false) :: accesses (k v) m | None => [] end
  | Wr p v t => match m p with Some _ => (p, true) :: accesses t (fun x => if x =? p then Some v else m x) | None => [] end
  end.

(* where the packets of a batch are and how long they are, but not what is in them *)
Definition extents (ps : packets) : list (N * nat) := map (fun x => (fst x, length (snd x))) ps.
Definition total_length (es : list (N * nat)) : nat := fold_right (fun e n => (snd e + n)%nat) 0%nat es.
