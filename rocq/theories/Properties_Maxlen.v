(** Properties_Maxlen.v -- C48: dvbcsa_bs_decrypt and dvbcsa_bs_encrypt in a build without assert
    (compiled with -DNDEBUG), when maxlen is not a multiple of 8 or exceeds 184.
    Vocabulary: BsApiSpec.v.  [have_assert c = false] is such a build. *)
From Verif Require Import Base Mem Spec ModelClassical ModelBsWord ModelBsTranspose ModelBsAlgo ApiSpec ClassicalFacts KnownAnswers ClassicalExamples.
From Verif Require Import BsApiSpec BsSlot BsFacts BsApiFacts BsKey BsMoreFacts BsReady BsMaxlen.
Local Open Scope N_scope.

(* everything a call needs but a proper maxlen (0 is a proper one) *)
Definition ready_but_maxlen c jk m key pcks cw ps : Prop := call_ready c jk m key pcks cw ps 0.

(** ** A concrete state of every target, without assert: packets of 184, 7 and 100 bytes *)
Definition nd_build (t : target) : build := mk_build t false false false true false true (Some (0, 0)).
Definition nd_bufs : list (list N) := [pt1; firstn 7 pt1; firstn 100 ct2].
Lemma nd_supported t : supported (nd_build t).
Proof.
  split; [split|].
  - discriminate.
  - intros a b E. injection E as <- <-. split; reflexivity.
  - intros _. split; [reflexivity|discriminate].
Qed.
Lemma nd_ready t : exists m, ready_but_maxlen (nd_build t) (zero_stack (nd_build t)) m 0x2000 0x100 cw1 (place 0 nd_bufs) /\ separate (place 0 nd_bufs).
Proof.
  destruct (ready_exists (nd_build t) cw1 nd_bufs 0) as (m & R & S & _).
  - apply nd_supported.
  - reflexivity.
  - apply bytes_of. reflexivity.
  - intros k _ _ H. discriminate H.
  - destruct t; cbn; lia.
  - apply Forall_forall. intros b H. split.
    + repeat (destruct H as [<-|H]; [vm_compute; lia|]). destruct H.
    + apply bytes_of. repeat (destruct H as [<-|H]; [reflexivity|]). destruct H.
  - exists 0%nat. split; [lia|reflexivity].
  - exists m. split; assumption.
Qed.

(* C48: decryption behaves as if maxlen were rounded up to a multiple of 8, whatever the memory, the
   context and the array are *)
Theorem C48_decrypt_rounds_up : forall c jk m key pcks maxlen, have_assert c = false -> maxlen <= 184 ->
  dvbcsa_bs_decrypt c jk m key pcks maxlen = dvbcsa_bs_decrypt c jk m key pcks (8 * ((maxlen + 7) / 8)).
Proof. intros c jk m key pcks maxlen A H. apply decrypt_round_up; [exact A|]. change (2 ^ 32) with 4294967296. lia. Qed.
Print Assumptions C48_decrypt_rounds_up.
(* hence up to 7 bytes beyond maxlen are processed *)
Theorem C48_decrypt_result : forall c jk m key pcks cw ps maxlen,
  have_assert c = false -> maxlen <= 184 -> ready_but_maxlen c jk m key pcks cw ps -> separate ps ->
  exists m', dvbcsa_bs_decrypt c jk m key pcks maxlen = Ok m' /\
    (forall i p buf, nth_error ps i = Some (p, buf) -> holds m' p (on_prefix (csa_decrypt cw) (8 * ((maxlen + 7) / 8)) buf)) /\
    (forall x, (forall p buf, In (p, buf) ps -> ~ (p <= x < p + N.of_nat (length buf))) -> m' x = m x).
Proof.
  intros c jk m key pcks cw ps maxlen A H R S. rewrite C48_decrypt_rounds_up by assumption.
  assert (G : good_maxlen (8 * ((maxlen + 7) / 8))).
  { exists (N.to_nat ((maxlen + 7) / 8)). assert ((maxlen + 7) / 8 < 24) by (apply N.div_lt_upper_bound; lia). split; lia. }
  assert (R' : call_ready c jk m key pcks cw ps (8 * ((maxlen + 7) / 8))) by (destruct R; constructor; assumption).
  destruct (ready_each false _ _ _ _ _ _ _ _ R') as (m' & E & F & Q). exists m'. split; [exact E|]. split; [|exact F].
  intros i p buf Ei. apply (Q i p buf Ei). intros j q b Hj Ej. apply (S i j p buf q b Ei Ej). lia.
Qed.
Print Assumptions C48_decrypt_result.

(* C48: encryption with maxlen below 8 changes nothing (so it does not undo decryption with the same maxlen) *)
Theorem C48_encrypt_below_8 : forall c jk m key pcks cw ps maxlen,
  have_assert c = false -> maxlen < 8 -> ready_but_maxlen c jk m key pcks cw ps ->
  exists m', dvbcsa_bs_encrypt c jk m key pcks maxlen = Ok m' /\ same_mem m' m.
Proof.
  intros c jk m key pcks cw ps maxlen A H R. rewrite encrypt_below_8 by assumption. destruct R as [Sp Lc K J B Li G].
  destruct (bs_is_csa true c jk m key pcks cw ps 0 Sp Lc K J B Li G) as (m' & E & M). exists m'. split; [exact E|].
  intros x. rewrite M.
  assert (W : forall l m0, (forall p buf, In (p, buf) l -> holds m0 p buf) -> write_all m0 l x = m0 x).
  { induction l as [|[p buf] l IH]; intros m0 Hl; [reflexivity|]. cbn [write_all].
    assert (P : forall y, put m0 p buf y = m0 y).
    { intros y. apply put_holds. apply Hl. left. reflexivity. }
    rewrite IH; [apply P|]. intros q b Iq. apply (holds_meq m0); [intros y; symmetry; apply P|]. apply Hl. right. exact Iq. }
  replace (map_packets (on_prefix (csa true cw) 0) ps) with ps.
  - apply W. intros p buf Ip. apply In_nth_error in Ip as [i Ei]. destruct (ba_entry _ _ _ _ B i p buf Ei) as (_ & _ & Hb & _). exact Hb.
  - unfold map_packets. rewrite <- (map_id ps) at 1. apply map_ext. intros [p buf]. reflexivity.
Qed.
Print Assumptions C48_encrypt_below_8.
Example C48_decrypt_case : forall t, exists m m',
  dvbcsa_bs_decrypt (nd_build t) (zero_stack (nd_build t)) m 0x2000 0x100 5 = Ok m' /\
  holds m 0x4000 pt1 /\ holds m' 0x4000 (on_prefix (csa_decrypt cw1) 8 pt1) /\ on_prefix (csa_decrypt cw1) 8 pt1 <> pt1 /\
  exists m2, dvbcsa_bs_encrypt (nd_build t) (zero_stack (nd_build t)) m 0x2000 0x100 5 = Ok m2 /\ same_mem m2 m.
Proof.
  intros t. destruct (nd_ready t) as (m & R & S).
  destruct (C48_decrypt_result (nd_build t) _ _ _ _ _ _ 5 eq_refl ltac:(lia) R S) as (m' & E & H & _).
  exists m, m'. split; [exact E|]. split.
  - apply (ba_entry _ _ _ _ (rd_batch _ _ _ _ _ _ _ _ R) 0%nat 0x4000 pt1). reflexivity.
  - split; [apply (H 0%nat); reflexivity|]. split; [vm_compute; discriminate|].
    apply (C48_encrypt_below_8 (nd_build t) _ _ _ _ _ _ 5 eq_refl ltac:(lia) R).
Qed.

(* C48: encryption with any other maxlen that is not a multiple of 8 writes before the start of an
   internal array as soon as the first packet has 8 bytes *)
Theorem C48_encrypt_uneven_undefined : forall c jk m key pcks cw ps maxlen p buf,
  have_assert c = false -> 8 < maxlen < 2 ^ 32 -> maxlen mod 8 <> 0 -> ready_but_maxlen c jk m key pcks cw ps ->
  nth_error ps 0 = Some (p, buf) -> (8 <= length buf)%nat ->
  dvbcsa_bs_encrypt c jk m key pcks maxlen = UB OutOfBounds.
Proof. intros c jk m key pcks cw ps maxlen p buf A H Hr R E L. apply (encrypt_uneven c jk m key pcks cw ps maxlen A R p buf); assumption. Qed.
Print Assumptions C48_encrypt_uneven_undefined.

(* C48: both functions leave the internal packet buffer (184 bytes for each slot of a full batch) if
   maxlen is larger than what remains of it from the last packet's slot on *)
Theorem C48_too_long_undefined : forall enc c jk m key pcks cw ps maxlen,
  have_assert c = false -> ready_but_maxlen c jk m key pcks cw ps -> ps <> [] ->
  184 * (N.of_nat (batch_size c) - N.of_nat (length ps) + 1) < maxlen < 2 ^ 32 ->
  bs_call enc c jk m key pcks maxlen = UB OutOfBounds.
Proof.
  intros enc c jk m key pcks cw ps maxlen A R Hp Hm. assert (0 < length ps)%nat by (destruct ps; [congruence|cbn; lia]).
  destruct R as [Sp Lc K J B Li G]. pose proof Li as [Hn _].
  apply (too_long c jk m key pcks cw ps maxlen A); [constructor; assumption|assumption| |apply Hm].
  change slot with 184%nat. lia.
Qed.
Print Assumptions C48_too_long_undefined.
(* a full batch: every maxlen above 184 *)
Theorem C48_full_batch_undefined : forall enc c jk m key pcks cw ps maxlen,
  have_assert c = false -> ready_but_maxlen c jk m key pcks cw ps -> length ps = batch_size c -> 184 < maxlen < 2 ^ 32 ->
  bs_call enc c jk m key pcks maxlen = UB OutOfBounds.
Proof.
  intros enc c jk m key pcks cw ps maxlen A R L Hm. apply (C48_too_long_undefined enc c jk m key pcks cw ps maxlen A R).
  - intros ->. unfold batch_size in L. destruct (tgt c); discriminate L.
  - rewrite L. replace (N.of_nat (batch_size c) - N.of_nat (batch_size c) + 1) with 1 by lia. exact Hm.
Qed.
Print Assumptions C48_full_batch_undefined.
Example C48_undefined_case : forall t, exists m,
  dvbcsa_bs_encrypt (nd_build t) (zero_stack (nd_build t)) m 0x2000 0x100 100 = UB OutOfBounds /\
  dvbcsa_bs_decrypt (nd_build t) (zero_stack (nd_build t)) m 0x2000 0x100 47104 = UB OutOfBounds.
Proof.
  intros t. destruct (nd_ready t) as (m & R & S). exists m. split.
  - refine (C48_encrypt_uneven_undefined (nd_build t) _ _ _ _ _ _ 100 0x4000 pt1 eq_refl _ _ R eq_refl _).
    + change (2 ^ 32) with 4294967296. lia.
    + vm_compute. discriminate.
    + vm_compute. lia.
  - apply (C48_too_long_undefined false (nd_build t) _ _ _ _ _ _ 47104 eq_refl R); [discriminate|].
    change (length (place 0 nd_bufs)) with 3%nat. change (2 ^ 32) with 4294967296. destruct t; cbn; lia.
Qed.
