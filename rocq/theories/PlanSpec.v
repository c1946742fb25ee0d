(** PlanSpec.v -- vocabulary for C42: different ways of sending the same packets through the
    library.  A job is one call: a batch call on an array, or a call of the classical function on
    one packet (on its first maxlen bytes, which is all that a batch call processes). *)
From Verif Require Import Base Mem Spec ModelClassical ModelBsWord ModelBsTranspose ModelBsAlgo ApiSpec BsApiSpec.
Local Open Scope N_scope.

Inductive job : Type :=
| Batch (c : build) (jk : junk) (key pcks : N) (ps : packets)   (* build, stack contents, context, array, packets listed *)
| Single (be : bool) (key p : N) (buf : list N).                (* byte order, context, packet *)

Definition do_job (enc : bool) (maxlen : N) (m : mem) (j : job) : res mem :=
  match j with
  | Batch c jk key pcks ps => (if enc then dvbcsa_bs_encrypt else dvbcsa_bs_decrypt) c jk m key pcks maxlen
  | Single be key p buf => (if enc then dvbcsa_encrypt else dvbcsa_decrypt) be m key p (N.min (N.of_nat (length buf)) maxlen)
  end.
Fixpoint do_jobs (enc : bool) (maxlen : N) (m : mem) (js : list job) : res mem :=
  match js with [] => Ok m | j :: r => m' <- do_job enc maxlen m j ;; do_jobs enc maxlen m' r end.

(* the packets a job processes, and the other memory it reads *)
Definition packets_of (j : job) : packets := match j with Batch _ _ _ _ ps => ps | Single _ _ p buf => [(p, buf)] end.
Definition inputs_of (j : job) : list (N * N) :=
  match j with
  | Batch c _ key pcks ps => [(key, bs_ctx_size c); (pcks, N.of_nat (length ps * entry_bytes c + ptr_bytes c))]
  | Single _ key _ _ => [(key, ctx_size)]
  end.

(* the job can be done in memory [m]: contexts keyed with [cw], packets and arrays in place *)
Definition job_ready (m : mem) (cw : list N) (maxlen : N) (j : job) : Prop :=
  match j with
  | Batch c jk key pcks ps => call_ready c jk m key pcks cw ps maxlen
  | Single be key p buf => length cw = 8%nat /\ keyed be m key cw /\ holds m p buf /\ good_maxlen maxlen
  end.

(* no context and no array lies inside a packet *)
Definition inputs_clear (js : list job) (ps : packets) : Prop :=
  forall j a n p buf, In j js -> In (a, n) (inputs_of j) -> In (p, buf) ps -> disjoint a n p (N.of_nat (length buf)).
