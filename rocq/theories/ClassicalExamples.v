(** ClassicalExamples.v -- concrete states that meet the hypotheses of Properties_Classical.v, and
    runs of the classical model on the known-answer vectors (tests, not proofs of a property). *)
From Verif Require Import Base Mem Spec ModelClassical ClassicalKey ApiSpec ClassicalFacts KnownAnswers.
Local Open Scope N_scope.

(* control word at 0x10, key context at 0x100, a 184-byte packet at an odd address *)
Definition ex_mem0 : mem := put (put (zero_mem 0x1000) 0x10 cw1) 0x2a1 pt1.
Definition run {A} (r : res A) (d : A) : A := match r with Ok a => a | _ => d end.
Definition ex_mem : mem := run (dvbcsa_key_set false ex_mem0 0x10 0x100) ex_mem0.

Definition dump (m : mem) (a : N) (n : nat) : list (option N) := map (fun i => m (a + N.of_nat i)) (seq 0 n).

Lemma forall_lt_dec n (P : nat -> bool) : forallb P (seq 0 n) = true -> forall i, (i < n)%nat -> P i = true.
Proof. intros H i Hi. rewrite forallb_forall in H. apply H, in_seq. lia. Qed.

Lemma bytes_of (l : list N) : forallb (fun b => b <? 256) l = true -> Forall is_byte l.
Proof. intros H. apply Forall_forall. intros x Hx. rewrite forallb_forall in H. apply N.ltb_lt, H, Hx. Qed.

Lemma ex_holds0 : holds ex_mem0 0x10 cw1 /\ holds ex_mem0 0x2a1 pt1 /\ mapped ex_mem0 0x100 ctx_size.
Proof.
  split; [|split].
  - unfold ex_mem0. apply holds_put_disj; [apply holds_put, bytes_of; reflexivity|].
    intros x. change (N.of_nat (length cw1)) with 8. change (N.of_nat (length pt1)) with 184. lia.
  - apply holds_put, bytes_of. reflexivity.
  - intros x Hx. unfold ctx_size in Hx. unfold ex_mem0.
    rewrite !put_out by (change (N.of_nat (length cw1)) with 8; change (N.of_nat (length pt1)) with 184; lia).
    exists 0. unfold zero_mem. destruct (N.ltb_spec x 0x1000); [reflexivity|lia].
Qed.
Lemma ex_source : cw_source 0x10 0x100.
Proof. right. intros x. lia. Qed.

(* the hypotheses of the classical theorems hold in a concrete state *)
Lemma ex_ready be : exists m, dvbcsa_key_set be ex_mem0 0x10 0x100 = Ok m /\ keyed be m 0x100 cw1 /\
  packet m 0x100 0x2a1 184 pt1 /\ same_outside 0x100 ctx_size ex_mem0 m.
Proof.
  destruct ex_holds0 as (H1 & H2 & H3).
  destruct (key_set_total be ex_mem0 0x10 0x100 cw1 eq_refl H1 H3 ex_source) as (m & E & S & K & _).
  exists m. split; [exact E|]. split; [exact K|]. split; [|exact S].
  split; [|split; [|split]].
  - apply (holds_ext _ _ _ _ H2). intros x Hx. apply S. change (N.of_nat (length pt1)) with 184 in Hx. unfold ctx_size. lia.
  - reflexivity.
  - reflexivity.
  - intros x. unfold ctx_size. lia.
Qed.

Lemma bytes_mem_put m a l : Forall is_byte l -> bytes_mem m -> bytes_mem (put m a l).
Proof.
  intros F B x b. unfold put. destruct ((a <=? x) && (x <? a + N.of_nat (length l))) eqn:C; [|apply B].
  intros E. assert (E' : b = nth (N.to_nat (x - a)) l 0) by congruence. rewrite E'.
  rewrite Forall_forall in F. apply F, nth_In. apply andb_true_iff in C as [C1 C2].
  apply N.leb_le in C1. apply N.ltb_lt in C2. lia.
Qed.

Lemma ex_bytes : bytes_mem ex_mem0 /\ mapped ex_mem0 0x100 ctx_size /\ mapped ex_mem0 0x2a1 184 /\ disjoint 0x100 ctx_size 0x2a1 184.
Proof.
  destruct ex_holds0 as (H1 & H2 & H3). split; [|split; [exact H3|split]].
  - unfold ex_mem0. apply bytes_mem_put; [apply bytes_of; reflexivity|]. apply bytes_mem_put; [apply bytes_of; reflexivity|].
    intros x b. unfold zero_mem. destruct (x <? 0x1000); [|discriminate]. intros E; injection E as <-. lia.
  - apply (holds_mapped _ _ _ H2).
  - intros x. unfold ctx_size. lia.
Qed.

(* runs of the model *)
Definition ex_encrypted (be : bool) : list (option N) :=
  match dvbcsa_key_set be ex_mem0 0x10 0x100 with
  | Ok m => match dvbcsa_encrypt be m 0x100 0x2a1 184 with Ok m' => dump m' 0x2a1 184 | _ => [] end
  | _ => []
  end.
Example model_encrypts_vector1_le : ex_encrypted false = map Some ct1.
Proof. vm_compute. reflexivity. Qed.
Example model_encrypts_vector1_be : ex_encrypted true = map Some ct1.
Proof. vm_compute. reflexivity. Qed.

Definition ex_decrypted (be : bool) : list (option N) :=
  let m0 := put (put (zero_mem 0x1000) 0x10 cw2) 0x2a1 ct2 in
  match dvbcsa_key_set be m0 0x10 0x100 with
  | Ok m => match dvbcsa_decrypt be m 0x100 0x2a1 184 with Ok m' => dump m' 0x2a1 184 | _ => [] end
  | _ => []
  end.
Example model_decrypts_vector2_le : ex_decrypted false = map Some pt2.
Proof. vm_compute. reflexivity. Qed.
Example model_decrypts_vector2_be : ex_decrypted true = map Some pt2.
Proof. vm_compute. reflexivity. Qed.
