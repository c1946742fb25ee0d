(** HeapSpec.v -- whole programs that use the library from several threads (C47): control flow that
    depends on data and on allocated addresses, memory that comes and goes, shared contexts, shared
    read-only bytes; interleaved access by access.

    Reads of the program itself ([Look]) and its stores ([Do (UserWrite ..)]) are single byte
    accesses.  Allocation and release are single steps, as the C library makes them (C11 7.22.3). *)
From Verif Require Import Base Mem ModelClassical ModelBsWord ModelBsAlgo ApiSpec BsApiSpec ModelAlloc HistorySpec ThreadSpec ModelSteps StepsSpec.
Local Open Scope N_scope.

(** ** Programs; they need not end *)
CoInductive code :=
| Done
| Do (o : op) (k : code)               (* a library call, or a store of the program *)
| Look (a : N) (k : N -> code)         (* the program reads a byte and goes on accordingly *)
| New (x : api) (k : N -> code)        (* dvbcsa_key_alloc / dvbcsa_bs_key_alloc; gets the pointer *)
| Buf (n : N) (k : N -> code)          (* the program gets n bytes: malloc, a new stack frame; 0: none *)
| Drop (p n : N) (k : code).           (* ... and gives them back *)

Definition erase (m : mem) (p n : N) : mem := fun a => if (p <=? a) && (a <? p + n) then None else m a.

(** ** A thread on its own, as its author thinks of it: the bytes it can see, those it may change,
    and the contexts it can use, of which only the control word matters. *)
Record lstate := mk_lstate { seen : astate; writable : N -> bool }.
Definition with_writable (f : N -> bool) (p n : N) : N -> bool := fun a => f a || (p <=? a) && (a <? p + n).

(* the bytes of the program that a call changes *)
Definition changes (c : build) (s : astate) (o : op) (a : N) : Prop :=
  match o with
  | UserWrite p bs => p <= a < p + N.of_nat (length bs)
  | Crypt _ _ data len => data <= a < data + len
  | BsCrypt _ _ _ pcks _ => exists ps p buf, batch_array c (user s) pcks ps /\ In (p, buf) ps /\ p <= a < p + N.of_nat (length buf)
  | _ => False
  end.
(* shared contexts [sh] are neither set nor released; only writable bytes are changed *)
Definition allowed (c : build) (sh : N -> bool) (l : lstate) (o : op) : Prop :=
  match o with
  | KeyAlloc _ | BsAlloc _ => False                            (* use [New] *)
  | KeySet _ k | BsKeySet _ _ k | KeyFree k | BsFree k => sh k = false
  | _ => True
  end /\ forall a, changes c (seen l) o a -> writable l a = true.

Inductive lstep (c : build) (sh : N -> bool) : code * lstate -> code * lstate -> Prop :=
| l_do o k l s' : allowed c sh l o -> astep c o (seen l) s' -> lstep c sh (Do o k, l) (k, mk_lstate s' (writable l))
| l_look a k l b : user (seen l) a = Some b -> lstep c sh (Look a k, l) (k b, l)
| l_new_null x k l : lstep c sh (New x k, l) (k 0, l)
| l_new x k l p : 0 < p -> unused c (seen l) p (api_size c x) -> (x = Bitslice -> p mod word_size c = 0) ->
    lstep c sh (New x k, l) (k p, mk_lstate (set_ctx (seen l) p (Some (x, None))) (writable l))
| l_buf_none n k l : lstep c sh (Buf n k, l) (k 0, l)
| l_buf n k l p bs : 0 < p -> N.of_nat (length bs) = n -> Forall is_byte bs -> unused c (seen l) p n ->
    lstep c sh (Buf n k, l) (k p, mk_lstate (set_user (seen l) (put (user (seen l)) p bs)) (with_writable (writable l) p n))
| l_drop p n k l : (forall a, p <= a < p + n -> user (seen l) a <> None /\ writable l a = true) ->
    lstep c sh (Drop p n k, l) (k, mk_lstate (set_user (seen l) (erase (user (seen l)) p n)) (writable l)).
Inductive lsteps (c : build) (sh : N -> bool) : code * lstate -> code * lstate -> Prop :=
| ls_refl x : lsteps c sh x x
| ls_more x y z : lsteps c sh x y -> lstep c sh y z -> lsteps c sh x z.

(* on its own, the thread never gets stuck, wherever new memory is placed *)
Definition fine (c : build) (sh : N -> bool) (x : code * lstate) : Prop :=
  forall k l, lsteps c sh x (k, l) -> k = Done \/ exists y, lstep c sh (k, l) y.

(* on its own, the thread ends, wherever new memory is placed *)
Definition ends (c : build) (sh : N -> bool) (x : code * lstate) : Prop := Acc (fun y x => lstep c sh x y) x.

(** ** The machine: one memory, one heap, any number of threads *)
Record tstate := mk_tstate { doing : prog unit; todo : code }.   (* the call in progress; what comes next *)
Definition is_free (o : op) : Prop := match o with KeyFree _ | BsFree _ => True | _ => False end.
Definition new_context (c : build) (pl : platform) (x : api) (l : libc) (st : state) : res (state * N) :=
  match x with Classical => dvbcsa_key_alloc l st | Bitslice => dvbcsa_bs_key_alloc c pl l st end.

(* [ma]: the alignment of malloc *)
Inductive hstep (c : build) (pl : platform) (ma : N) : tstate -> state -> tstate -> state -> Prop :=
| h_access t m t' m' k b : tstep t m t' m' -> hstep c pl ma (mk_tstate t k) (mk_state m b) (mk_tstate t' k) (mk_state m' b)
| h_start o k st : no_alloc o -> hstep c pl ma (mk_tstate (Ret tt) (Do o k)) st (mk_tstate (call_prog c o) k) st
| h_free o k st st' : is_free o -> step c pl o st = Ok st' -> hstep c pl ma (mk_tstate (Ret tt) (Do o k)) st (mk_tstate (Ret tt) k) st'
| h_look a k st b : smem st a = Some b -> hstep c pl ma (mk_tstate (Ret tt) (Look a k)) st (mk_tstate (Ret tt) (k b)) st
| h_new x k st l st' p : good_libc c ma st l -> new_context c pl x l st = Ok (st', p) ->
    hstep c pl ma (mk_tstate (Ret tt) (New x k)) st (mk_tstate (Ret tt) (k p)) st'
| h_buf_none n k st : hstep c pl ma (mk_tstate (Ret tt) (Buf n k)) st (mk_tstate (Ret tt) (k 0)) st
| h_buf n k m b p bs : 0 < p -> N.of_nat (length bs) = n -> Forall is_byte bs -> fresh m p n ->
    hstep c pl ma (mk_tstate (Ret tt) (Buf n k)) (mk_state m b) (mk_tstate (Ret tt) (k p)) (mk_state (put m p bs) b)
| h_drop p n k m b : mapped m p n -> hstep c pl ma (mk_tstate (Ret tt) (Drop p n k)) (mk_state m b) (mk_tstate (Ret tt) k) (mk_state (erase m p n) b).

Definition config := (list tstate * state)%type.
(* thread i goes; any thread may go next *)
Inductive goes_by (c : build) (pl : platform) (ma : N) (i : nat) : config -> config -> Prop :=
| g_step ts st t t' st' : nth_error ts i = Some t -> hstep c pl ma t st t' st' -> goes_by c pl ma i (ts, st) (upd ts i t', st').
Definition goes (c : build) (pl : platform) (ma : N) (x y : config) : Prop := exists i, goes_by c pl ma i x y.
Inductive reaches (c : build) (pl : platform) (ma : N) : config -> config -> Prop :=
| r_refl x : reaches c pl ma x x
| r_more x y z : reaches c pl ma x y -> goes c pl ma y z -> reaches c pl ma x z.

(* what a thread does next has no defined effect: an access outside live objects, a stopped call, a
   bad release, an allocation that does not return *)
Definition faulty (c : build) (pl : platform) (ma : N) (t : tstate) (st : state) : Prop :=
  match doing t with
  | Rd p _ | Wr p _ _ => smem st p = None
  | Stop _ => True
  | Ret _ =>
      match todo t with
      | Do o _ => match o with KeyAlloc _ | BsAlloc _ => True | _ => is_free o /\ forall st', step c pl o st <> Ok st' end
      | Look a _ => smem st a = None
      | New x _ => exists l, good_libc c ma st l /\ forall r, new_context c pl x l st <> Ok r
      | Drop p n _ => ~ mapped (smem st) p n
      | Done | Buf _ _ => False
      end
  end.
(* the bytes a thread touches next; [true]: not just reads.  A release touches the whole block. *)
Definition next_touch (st : state) (t : tstate) (a : N) (w : bool) : Prop :=
  match doing t with
  | Rd p _ => a = p /\ w = false
  | Wr p _ _ => a = p /\ w = true
  | Stop _ => False
  | Ret _ =>
      match todo t with
      | Look p _ => a = p /\ w = false
      | Do (KeyFree k) _ | Do (BsFree k) _ => w = true /\ k <> 0 /\ exists f n, blocks st k = Some (f, n) /\ k <= a < k + n
      | Drop p n _ => w = true /\ p <= a < p + n
      | _ => False
      end
  end.
Definition conflict (x : config) : Prop :=
  exists i j t u a w w', i <> j /\ nth_error (fst x) i = Some t /\ nth_error (fst x) j = Some u /\
    next_touch (snd x) t a w /\ next_touch (snd x) u a w' /\ w || w' = true.

(** ** Threads that start in a common state *)
Record worker := mk_worker { may_read : N -> bool; may_write : N -> bool; its_ctx : N -> bool; its_code : code }.
Definition own_view (s : astate) (sh : N -> bool) (t : worker) : lstate :=
  mk_lstate (mk_astate (fun a => if may_read t a || may_write t a then user s a else None)
                       (fun k => if sh k || its_ctx t k then actx s k else None)) (may_write t).
(* a byte that one thread may write is not visible to the others; a context of one thread is not
   visible to the others; shared contexts exist *)
Record separated (s : astate) (sh : N -> bool) (ths : list worker) : Prop := {
  sp_bytes : forall i j t u a, i <> j -> nth_error ths i = Some t -> nth_error ths j = Some u ->
    may_write t a = true -> may_read u a = false /\ may_write u a = false;
  sp_ctx : forall i j t u k, i <> j -> nth_error ths i = Some t -> nth_error ths j = Some u ->
    its_ctx t k = true -> its_ctx u k = false;
  sp_shared : forall k, sh k = true -> actx s k <> None /\ forall t, In t ths -> its_ctx t k = false }.
Definition start (t : worker) : tstate := mk_tstate (Ret tt) (its_code t).
Definition idle (t : tstate) : Prop := doing t = Ret tt.
Definition ended (t : tstate) : Prop := doing t = Ret tt /\ todo t = Done.

(* an execution in which thread i is inside one call and makes n steps of it, and the others do what they like *)
Inductive busy (c : build) (pl : platform) (ma : N) (i : nat) : nat -> config -> config -> Prop :=
| b_refl x : busy c pl ma i 0 x x
| b_other n x y z j : busy c pl ma i n x y -> j <> i -> goes_by c pl ma j y z -> busy c pl ma i n x z
| b_own n x y z t : busy c pl ma i n x y -> nth_error (fst y) i = Some t -> ~ idle t -> goes_by c pl ma i y z -> busy c pl ma i (S n) x z.
