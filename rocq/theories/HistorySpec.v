(** HistorySpec.v -- what the C library promises (C35), API histories and the abstract machine
    they are compared with (C33). *)
From Verif Require Import Base Mem Spec ModelClassical ModelBsWord ModelBsAlgo ApiSpec BsApiSpec ModelAlloc.
Local Open Scope N_scope.

(** ** Allocators *)
Definition power_of_two (a : N) : Prop := exists k, a = 2 ^ k.
(* arguments the allocators accept: C11 7.22.3, POSIX posix_memalign, mm_malloc.h *)
Definition legal (c : build) (r : request) : Prop :=
  match r with
  | Malloc n => 0 < n
  | Memalign al n => 0 < n /\ power_of_two al /\ al mod N.of_nat (ptr_bytes c) = 0
  | MmMalloc n al => 0 < n /\ power_of_two al
  end.
Definition req_align (malloc_align : N) (r : request) : N :=
  match r with Malloc _ => malloc_align | Memalign al _ | MmMalloc _ al => al end.
Definition fresh (m : mem) (a n : N) : Prop := forall x, a <= x < a + n -> m x = None.
(* NULL, or a new block of the size and alignment asked for *)
Definition fulfils (malloc_align : N) (s : state) (r : request) (o : answer) : Prop :=
  match o with
  | None => True
  | Some (a, content) =>
      0 < a /\ N.of_nat (length content) = req_size r /\ Forall is_byte content /\
      fresh (smem s) a (req_size r) /\ blocks s a = None /\ a mod req_align malloc_align r = 0
  end.
Definition good_libc (c : build) (malloc_align : N) (s : state) (l : libc) : Prop :=
  forall r, legal c r -> fulfils malloc_align s r (l r).

(** ** Histories *)
Inductive op :=
| UserWrite (a : N) (bs : list N)                            (* the program stores some bytes *)
| KeyAlloc (o : answer) | KeyFree (k : N)                    (* [o]: what the allocator answers *)
| KeySet (cwp k : N) | Crypt (enc : bool) (k data len : N)
| BsAlloc (o : answer) | BsFree (k : N)
| BsKeySet (kj : N -> N) (cwp k : N)                         (* [kj], [jk]: indeterminate locals *)
| BsCrypt (enc : bool) (jk : junk) (k pcks maxlen : N).

Definition on_mem (s : state) (r : res mem) : res state := m <- r ;; Ok (mk_state m (blocks s)).

(* one call of the library (or one store of the program) *)
Definition step (c : build) (pl : platform) (o : op) (s : state) : res state :=
  let be := big_endian c in
  match o with
  | UserWrite a bs => on_mem s (store_bytes (smem s) a bs)
  | KeyAlloc o => '(s', _) <- dvbcsa_key_alloc (fun _ => o) s ;; Ok s'
  | KeyFree k => dvbcsa_key_free s k
  | KeySet cwp k => on_mem s (dvbcsa_key_set be (smem s) cwp k)
  | Crypt enc k data len => on_mem s ((if enc then dvbcsa_encrypt else dvbcsa_decrypt) be (smem s) k data len)
  | BsAlloc o => '(s', _) <- dvbcsa_bs_key_alloc c pl (fun _ => o) s ;; Ok s'
  | BsFree k => dvbcsa_bs_key_free pl s k
  | BsKeySet kj cwp k => on_mem s (dvbcsa_bs_key_set c kj (smem s) cwp k)
  | BsCrypt enc jk k pcks maxlen => on_mem s (bs_call enc c jk (smem s) k pcks maxlen)
  end.
Fixpoint run_ops (c : build) (pl : platform) (os : list op) (s : state) : res state :=
  match os with [] => Ok s | o :: r => s' <- step c pl o s ;; run_ops c pl r s' end.

(** ** The abstract machine: the program's own bytes, and per context only the control word.
    The bytes of the contexts are not part of its state. *)
Inductive api := Classical | Bitslice.
Record astate := mk_astate { user : mem; actx : N -> option (api * option (list N)) }.
Definition api_size (c : build) (x : api) : N := match x with Classical => ctx_size | Bitslice => bs_ctx_size c end.
Definition set_ctx (s : astate) (k : N) (v : option (api * option (list N))) : astate :=
  mk_astate (user s) (fun x => if x =? k then v else actx s x).
Definition set_user (s : astate) (m : mem) : astate := mk_astate m (actx s).
(* [a, a + n) is used neither by the program nor by a context *)
Definition unused (c : build) (s : astate) (a n : N) : Prop :=
  fresh (user s) a n /\ forall k x v, actx s k = Some (x, v) -> disjoint k (api_size c x) a n.

Inductive astep (c : build) : op -> astate -> astate -> Prop :=
| a_write s a bs : mapped (user s) a (N.of_nat (length bs)) -> Forall is_byte bs ->
    astep c (UserWrite a bs) s (set_user s (put (user s) a bs))
| a_alloc_null s : astep c (KeyAlloc None) s s
| a_alloc s p content : 0 < p -> N.of_nat (length content) = ctx_size -> unused c s p ctx_size ->
    astep c (KeyAlloc (Some (p, content))) s (set_ctx s p (Some (Classical, None)))
| a_bs_alloc_null s : astep c (BsAlloc None) s s
| a_bs_alloc s p content : 0 < p -> N.of_nat (length content) = bs_ctx_size c -> unused c s p (bs_ctx_size c) ->
    p mod word_size c = 0 ->
    astep c (BsAlloc (Some (p, content))) s (set_ctx s p (Some (Bitslice, None)))
| a_free_null s : astep c (KeyFree 0) s s
| a_free s k v : k <> 0 -> actx s k = Some (Classical, v) -> astep c (KeyFree k) s (set_ctx s k None)
| a_bs_free_null s : astep c (BsFree 0) s s
| a_bs_free s k v : k <> 0 -> actx s k = Some (Bitslice, v) -> astep c (BsFree k) s (set_ctx s k None)
| a_key_set s cwp k cw v : actx s k = Some (Classical, v) -> length cw = 8%nat -> holds (user s) cwp cw ->
    astep c (KeySet cwp k) s (set_ctx s k (Some (Classical, Some cw)))
| a_bs_key_set s kj cwp k cw v : actx s k = Some (Bitslice, v) -> length cw = 8%nat -> holds (user s) cwp cw ->
    astep c (BsKeySet kj cwp k) s (set_ctx s k (Some (Bitslice, Some cw)))
| a_crypt s enc k data len cw buf : actx s k = Some (Classical, Some cw) ->
    holds (user s) data buf -> len = N.of_nat (length buf) -> len < 2 ^ 32 -> (enc = true -> len < 2 ^ 31 + 16) ->
    astep c (Crypt enc k data len) s (set_user s (put (user s) data (csa enc cw buf)))
| a_bs_crypt s enc jk k pcks maxlen cw ps : actx s k = Some (Bitslice, Some cw) ->
    batch_array c (user s) pcks ps -> in_limits c ps -> good_maxlen maxlen -> stack_ok c jk ->
    astep c (BsCrypt enc jk k pcks maxlen) s
      (set_user s (write_all (user s) (map_packets (on_prefix (csa enc cw) maxlen) ps))).
Inductive asteps (c : build) : list op -> astate -> astate -> Prop :=
| a_nil s : asteps c [] s s
| a_cons o os s s1 s2 : astep c o s s1 -> asteps c os s1 s2 -> asteps c (o :: os) s s2.

Definition no_ctx (m : mem) : astate := mk_astate m (fun _ => None).
Definition no_heap (m : mem) : state := mk_state m (fun _ => None).
