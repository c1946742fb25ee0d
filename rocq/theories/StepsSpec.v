(** StepsSpec.v -- threads at the granularity of single byte accesses (C39). *)
From Verif Require Import Base Mem ModelClassical ModelBsWord ModelBsAlgo ApiSpec BsApiSpec ModelAlloc HistorySpec ThreadSpec ModelSteps.
Local Open Scope N_scope.

(* the byte accesses of a call; [kj], the uninitialised local array, is not visible to others *)
Definition call_prog (c : build) (o : op) : prog unit :=
  let be := big_endian c in
  match o with
  | UserWrite a bs => wr_bytes a bs
  | KeySet cwp k => p_key_set be cwp k
  | Crypt enc k data len => (if enc then p_encrypt else p_decrypt) be k data len
  | BsKeySet _ cwp k => p_bs_key_set c cwp k
  | BsCrypt enc jk k pcks maxlen => (if enc then p_bs_encrypt else p_bs_decrypt) c jk k pcks maxlen
  | KeyAlloc _ | KeyFree _ | BsAlloc _ | BsFree _ => Ret tt
  end.
Definition no_alloc (o : op) : Prop :=
  match o with KeyAlloc _ | KeyFree _ | BsAlloc _ | BsFree _ => False | _ => True end.
Fixpoint calls_prog (c : build) (os : list op) : prog unit :=
  match os with [] => Ret tt | o :: r => _ <~ call_prog c o ;; calls_prog c r end.

(* one access of one thread; accesses outside live objects are not possible *)
Inductive tstep : prog unit -> mem -> prog unit -> mem -> Prop :=
| ts_rd p k m v : m p = Some v -> tstep (Rd p k) m (k v) m
| ts_wr p v t m w : m p = Some w -> tstep (Wr p v t) m t (fun x => if x =? p then Some v else m x).
(* any thread may go next; [msteps n]: n accesses in all *)
Inductive msteps : nat -> list (prog unit) -> mem -> list (prog unit) -> mem -> Prop :=
| ms_nil ts m : msteps 0 ts m ts m
| ms_step n ts m i t t' m' ts2 m2 : nth_error ts i = Some t -> tstep t m t' m' ->
    msteps n (upd ts i t') m' ts2 m2 -> msteps (S n) ts m ts2 m2.
Definition finished (t : prog unit) : Prop := t = Ret tt.

(* the next access of a thread: address, and whether it writes *)
Definition access (t : prog unit) : option (N * bool) :=
  match t with Rd p _ => Some (p, false) | Wr p _ _ => Some (p, true) | _ => None end.
(* two threads are about to access the same byte, and one of them to write it *)
Definition race (ts : list (prog unit)) : Prop :=
  exists i j t u p w w', i <> j /\ nth_error ts i = Some t /\ nth_error ts j = Some u /\
    access t = Some (p, w) /\ access u = Some (p, w') /\ w || w' = true.

(* a thread: the addresses it owns, its calls, and how it ends when it runs alone *)
Record thread := mk_thread { owned : N -> bool; calls : list op; result : astate }.
(* the threads' addresses are pairwise disjoint; shared contexts lie outside all of them; a
   context of a thread lies wholly in its addresses *)
Record partitioned (c : build) (s : astate) (ths : list thread) (sh : N -> bool) : Prop := {
  pn_disj : forall i j t u a, nth_error ths i = Some t -> nth_error ths j = Some u -> i <> j ->
    owned t a = true -> owned u a = false;
  pn_shared : forall t k x v a, In t ths -> actx s k = Some (x, v) -> sh k = true -> k <= a < k + api_size c x -> owned t a = false;
  pn_own : forall t k x v a, In t ths -> actx s k = Some (x, v) -> sh k = false -> k <= a < k + api_size c x -> owned t a = owned t k }.
(* every thread is fine when it runs alone on its part of the state, does not set or free shared
   contexts, and does not allocate *)
Definition alone_ok (c : build) (s : astate) (sh : N -> bool) (t : thread) : Prop :=
  asteps c (calls t) (view s (owned t) sh) (result t) /\
  Forall (polite c (owned t) sh) (calls t) /\ Forall no_alloc (calls t).

(** ** Interrupted calls (C40) *)
(* the memory when the first [k] bytes of the packets' new contents have been stored, packet after
   packet, each from its first byte on *)
Fixpoint write_some (k : nat) (m : mem) (l : packets) : mem :=
  match l with [] => m | (p, b) :: r => write_some (k - length b) (put m p (firstn k b)) r end.
