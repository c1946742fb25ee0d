(** SourceHistorySpec.v -- vocabulary of C51: API histories whose calls are runs of the source text
    (SourceClassical.v under MiniC.v, SourceBitslice.v under BsC.v), and a batch processed packet by
    packet with the classical functions. *)
From Verif Require Import Base Mem ModelClassical ModelBsWord ModelBsAlgo ApiSpec BsApiSpec ModelAlloc HistorySpec SourceSpec SourceBsSpec.
Local Open Scope N_scope.

(* one call of the library, or one store of the program.  The indeterminate locals that the operations
   BsKeySet and BsCrypt carry for the model are not used: [rnd] gives them here.  The allocating and
   releasing functions are those of ModelAlloc.v (in the sources: one call of the C library each). *)
Definition src_step (c : build) (pl : platform) (rnd : nat -> nat -> N) (fuel : nat) (o : op) (s : state) : res state :=
  let be := big_endian c in
  match o with
  | KeySet cwp k => on_mem s (src_key_set be fuel (smem s) cwp k)
  | Crypt enc k data len => on_mem s ((if enc then src_encrypt else src_decrypt) be fuel (smem s) k data len)
  | BsKeySet _ cwp k => on_mem s (src_bs_key_set c rnd fuel (smem s) cwp k)
  | BsCrypt enc _ k pcks maxlen => on_mem s (src_bs_call enc c rnd fuel (smem s) k pcks maxlen)
  | UserWrite _ _ | KeyAlloc _ | KeyFree _ | BsAlloc _ | BsFree _ => step c pl o s
  end.
(* each call finds other garbage in its locals: [rnd (length r)] *)
Fixpoint src_run_ops (c : build) (pl : platform) (rnd : nat -> nat -> nat -> N) (fuel : nat) (os : list op) (s : state) : res state :=
  match os with [] => Ok s | o :: r => s' <- src_step c pl (rnd (length r)) fuel o s ;; src_run_ops c pl rnd fuel r s' end.

(* what C itself asks of the operations beyond what the abstract machine does: the allocator returns
   bytes, batch arrays have the alignment of their type; loops may run as often as the length says *)
Definition src_op_ok (c : build) (fuel : nat) (o : op) : Prop :=
  match o with
  | KeyAlloc (Some (_, content)) | BsAlloc (Some (_, content)) => Forall is_byte content
  | Crypt _ _ _ len => enough fuel len
  | BsCrypt _ _ _ pcks _ => batch_aligned c pcks
  | _ => True
  end.

(* the packets of a batch, one after the other, with dvbcsa_encrypt or dvbcsa_decrypt, at most
   [maxlen] bytes of each *)
Fixpoint src_one_by_one (enc : bool) (be : bool) (fuel : nat) (m : mem) (key : N) (maxlen : N) (ps : list (N * list N)) : res mem :=
  match ps with
  | [] => Ok m
  | (p, buf) :: r =>
      m' <- (if enc then src_encrypt else src_decrypt) be fuel m key p (N.min (N.of_nat (length buf)) maxlen) ;;
      src_one_by_one enc be fuel m' key maxlen r
  end.
