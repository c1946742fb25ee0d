(** Properties_Bitslice.v -- property theorems about the bitslice API (C06, C13, C17-C32, C36, C37).
    Vocabulary: Spec.v (the cipher), Mem.v (holds, mapped, disjoint, same_inside), ApiSpec.v,
    BsApiSpec.v (supported, bs_keyed, batch_array, in_limits, good_maxlen, stack_ok, on_prefix,
    write_all, call_ready).  [bs_call true] is dvbcsa_bs_encrypt, [bs_call false] is
    dvbcsa_bs_decrypt; [csa true], [csa false] are the scrambling and descrambling of Spec.v. *)
From Verif Require Import Base Mem Spec ModelClassical ModelBsWord ModelBsTranspose ModelBsAlgo ApiSpec ClassicalFacts KnownAnswers ClassicalExamples.
From Verif Require Import BsApiSpec BsRel BsSlot BsFacts BsApiFacts BsKey BsMoreFacts BsAvx2 BsReady BsAltAvx2 BsLanes.
Local Open Scope N_scope.

(** ** A concrete state for every target: three packets of 184, 7 and 100 bytes, maxlen 96 *)
Definition ex_build (t : target) : build := mk_build t false false false true true true (Some (0, 0)).
Definition ex_bufs : list (list N) := [pt1; firstn 7 pt1; firstn 100 ct2].
Lemma ex_supported t : supported (ex_build t).
Proof.
  split; [split|].
  - discriminate.
  - intros a b E. injection E as <- <-. split; reflexivity.
  - intros _. split; [reflexivity|discriminate].
Qed.
Lemma ex_mul t cw : forall k, In k (key_schedule cw) -> mul_fits (ex_build t) k.
Proof. intros k _ _ H. discriminate H. Qed.
Lemma ex_call t maxlen : good_maxlen maxlen -> exists m,
  call_ready (ex_build t) (zero_stack (ex_build t)) m 0x2000 0x100 cw1 (place 0 ex_bufs) maxlen /\
  separate (place 0 ex_bufs) /\ clear_of (place 0 ex_bufs) 0x2000 (bs_ctx_size (ex_build t)) /\ map snd (place 0 ex_bufs) = ex_bufs.
Proof.
  intros G. apply ready_exists; try assumption; try reflexivity; try apply ex_supported; try apply ex_mul.
  - apply bytes_of. reflexivity.
  - destruct t; cbn; lia.
  - apply Forall_forall. intros b H. split.
    + repeat (destruct H as [<-|H]; [vm_compute; lia|]). destruct H.
    + apply bytes_of. repeat (destruct H as [<-|H]; [reflexivity|]). destruct H.
Qed.
Lemma ex_size t : (32 <= batch_size (ex_build t))%nat.
Proof. destruct t; unfold batch_size; simpl; lia. Qed.
Lemma good96 : good_maxlen 96. Proof. exists 12%nat. split; [lia|reflexivity]. Qed.

(* C17: every packet becomes its descrambling up to maxlen (which covers the first min(len, maxlen)
   bytes), the rest of the packet and all other memory is unchanged *)
Theorem C17_bs_decrypt_is_csa : forall c jk m key pcks cw ps maxlen,
  call_ready c jk m key pcks cw ps maxlen -> separate ps ->
  exists m', dvbcsa_bs_decrypt c jk m key pcks maxlen = Ok m' /\
    (forall i p buf, nth_error ps i = Some (p, buf) -> holds m' p (on_prefix (csa_decrypt cw) maxlen buf)) /\
    (forall x, (forall p buf, In (p, buf) ps -> ~ (p <= x < p + N.of_nat (length buf))) -> m' x = m x).
Proof.
  intros c jk m key pcks cw ps maxlen R S. destruct (ready_each false _ _ _ _ _ _ _ _ R) as (m' & E & F & H).
  exists m'. split; [exact E|]. split; [|exact F]. intros i p buf Ei. apply (H i p buf Ei).
  intros j q b Hj Ej. apply (S i j p buf q b Ei Ej). lia.
Qed.
Print Assumptions C17_bs_decrypt_is_csa.
Example C17_case : forall t, exists m, call_ready (ex_build t) (zero_stack (ex_build t)) m 0x2000 0x100 cw1 (place 0 ex_bufs) 96 /\ separate (place 0 ex_bufs).
Proof. intros t. destruct (ex_call t 96 good96) as (m & R & S & _). exists m. split; assumption. Qed.

(* C17: hence what dvbcsa_decrypt gives on that prefix, in any classical state with the same control word *)
Theorem C17_matches_classical : forall c jk m key pcks cw ps maxlen i p buf be mc keyc data out,
  call_ready c jk m key pcks cw ps maxlen -> separate ps -> nth_error ps i = Some (p, buf) ->
  let pre := firstn (N.to_nat maxlen) buf in
  keyed be mc keyc cw -> packet mc keyc data (N.of_nat (length pre)) pre ->
  rewrites mc (dvbcsa_decrypt be mc keyc data (N.of_nat (length pre))) data (N.of_nat (length pre)) out ->
  exists m', dvbcsa_bs_decrypt c jk m key pcks maxlen = Ok m' /\ holds m' p (out ++ skipn (N.to_nat maxlen) buf).
Proof. exact (bs_matches_classical false). Qed.
Print Assumptions C17_matches_classical.

(* C18 *)
Theorem C18_bs_encrypt_is_csa : forall c jk m key pcks cw ps maxlen,
  call_ready c jk m key pcks cw ps maxlen -> separate ps ->
  exists m', dvbcsa_bs_encrypt c jk m key pcks maxlen = Ok m' /\
    (forall i p buf, nth_error ps i = Some (p, buf) -> holds m' p (on_prefix (csa_encrypt cw) maxlen buf)) /\
    (forall x, (forall p buf, In (p, buf) ps -> ~ (p <= x < p + N.of_nat (length buf))) -> m' x = m x).
Proof.
  intros c jk m key pcks cw ps maxlen R S. destruct (ready_each true _ _ _ _ _ _ _ _ R) as (m' & E & F & H).
  exists m'. split; [exact E|]. split; [|exact F]. intros i p buf Ei. apply (H i p buf Ei).
  intros j q b Hj Ej. apply (S i j p buf q b Ei Ej). lia.
Qed.
Print Assumptions C18_bs_encrypt_is_csa.
Theorem C18_matches_classical : forall c jk m key pcks cw ps maxlen i p buf be mc keyc data out,
  call_ready c jk m key pcks cw ps maxlen -> separate ps -> nth_error ps i = Some (p, buf) ->
  let pre := firstn (N.to_nat maxlen) buf in
  keyed be mc keyc cw -> packet mc keyc data (N.of_nat (length pre)) pre ->
  rewrites mc (dvbcsa_encrypt be mc keyc data (N.of_nat (length pre))) data (N.of_nat (length pre)) out ->
  exists m', dvbcsa_bs_encrypt c jk m key pcks maxlen = Ok m' /\ holds m' p (out ++ skipn (N.to_nat maxlen) buf).
Proof. exact (bs_matches_classical true). Qed.
Print Assumptions C18_matches_classical.
Lemma prefix184 f buf out : length buf = 184%nat -> f buf = out -> on_prefix f 184 buf = out.
Proof.
  intros L E. unfold on_prefix. change (N.to_nat 184) with 184%nat. rewrite <- L, firstn_all, skipn_all, app_nil_r. exact E.
Qed.
(* concretely: the first packet of the example state becomes the known ciphertext *)
Example C18_case : forall t, exists m m',
  dvbcsa_bs_encrypt (ex_build t) (zero_stack (ex_build t)) m 0x2000 0x100 184 = Ok m' /\ holds m 0x4000 pt1 /\ holds m' 0x4000 ct1.
Proof.
  intros t. assert (G : good_maxlen 184) by (exists 23%nat; split; [lia|reflexivity]).
  destruct (ex_call t 184 G) as (m & R & S & _). destruct (C18_bs_encrypt_is_csa _ _ _ _ _ _ _ _ R S) as (m' & E & H & _).
  exists m, m'. split; [exact E|]. split.
  - apply (ba_entry _ _ _ _ (rd_batch _ _ _ _ _ _ _ _ R) 0%nat 0x4000 pt1). reflexivity.
  - rewrite <- (prefix184 (csa_encrypt cw1) pt1 ct1 eq_refl spec_encrypt_vector1). apply (H 0%nat). reflexivity.
Qed.

(* C06, bitslice half: packets of fewer than 8 bytes keep their content in every batch *)
Theorem C06_short_packets_bitslice : forall enc c jk m key pcks cw ps maxlen i p buf,
  call_ready c jk m key pcks cw ps maxlen -> separate ps -> nth_error ps i = Some (p, buf) -> (length buf < 8)%nat ->
  exists m', bs_call enc c jk m key pcks maxlen = Ok m' /\ holds m' p buf.
Proof. exact bs_short. Qed.
Print Assumptions C06_short_packets_bitslice.
Example C06_bs_case : nth_error (place 0 ex_bufs) 1 = Some (0x4100, firstn 7 pt1) /\ (length (firstn 7 pt1) < 8)%nat.
Proof. split; [reflexivity|cbn; lia]. Qed.

(* C13, C31, bitslice: dvbcsa_bs_key_set returns, writes only the context, and two calls with the
   same control word leave the same bytes whatever the contexts contained before *)
Theorem C13_C31_bs_key_set : forall c kj m cwp key cw,
  no_int_product c -> length cw = 8%nat -> holds m cwp cw ->
  word_aligned c key = true -> mapped m key (bs_ctx_size c) -> bs_cw_source c cwp key ->
  exists m', dvbcsa_bs_key_set c kj m cwp key = Ok m' /\ same_outside key (bs_ctx_size c) m m' /\ bs_keyed c m' key cw.
Proof.
  intros c kj m cwp key cw NI L H A M S.
  destruct (key_set_runs c kj m cwp key cw) as (m' & E & F & K & _); try assumption.
  - intros k _ T W. rewrite (NI T) in W. discriminate W.
  - exists m'. repeat split; assumption.
Qed.
Print Assumptions C13_C31_bs_key_set.
Theorem C13_bs_rekeying_forgets : forall c kj m cwp key kj' m' cwp' key' cw m1 m1',
  length cw = 8%nat ->
  holds m cwp cw -> mapped m key (bs_ctx_size c) -> bs_cw_source c cwp key ->
  holds m' cwp' cw -> mapped m' key' (bs_ctx_size c) -> bs_cw_source c cwp' key' ->
  dvbcsa_bs_key_set c kj m cwp key = Ok m1 -> dvbcsa_bs_key_set c kj' m' cwp' key' = Ok m1' ->
  forall i, i < bs_ctx_size c -> m1 (key + i) = m1' (key' + i).
Proof.
  intros c kj m cwp key kj' m' cwp' key' cw m1 m1' L H M S H' M' S' E E'.
  apply (keyed_same c m1 key m1' key' cw L).
  - exists kj, m, cwp, m1. repeat (split; [assumption|]). intros x _. reflexivity.
  - exists kj', m', cwp', m1'. repeat (split; [assumption|]). intros x _. reflexivity.
Qed.
Print Assumptions C13_bs_rekeying_forgets.
Example C13_bs_case : forall t, exists m, dvbcsa_bs_key_set (ex_build t) (fun _ => 0) (put (zero_mem 0x20000) 0x10 cw1) 0x10 0x2000 = Ok m.
Proof.
  intros t. destruct (bs_key_at (ex_build t) (fun _ => 0) cw1 eq_refl) as (m & E & _).
  - apply bytes_of. reflexivity.
  - apply ex_mul.
  - exists m. exact E.
Qed.

(* C19: bytes from maxlen on are unchanged and the others are processed like a packet of maxlen
   bytes (in any other batch, build and state) *)
Theorem C19_partial_processing : forall enc c jk m key pcks cw ps maxlen i p buf c2 jk2 m2 key2 pcks2 ps2 j p2,
  call_ready c jk m key pcks cw ps maxlen -> separate ps -> nth_error ps i = Some (p, buf) ->
  call_ready c2 jk2 m2 key2 pcks2 cw ps2 maxlen -> separate ps2 -> nth_error ps2 j = Some (p2, firstn (N.to_nat maxlen) buf) ->
  exists m' m2' out, bs_call enc c jk m key pcks maxlen = Ok m' /\ bs_call enc c2 jk2 m2 key2 pcks2 maxlen = Ok m2' /\
    holds m2' p2 out /\ holds m' p (out ++ skipn (N.to_nat maxlen) buf).
Proof. exact bs_partial. Qed.
Print Assumptions C19_partial_processing.
Example C19_case : (N.to_nat 96 < length pt1)%nat /\ csa_encrypt cw1 (firstn 96 pt1) <> firstn 96 (csa_encrypt cw1 pt1).
Proof. split; [cbn; lia|]. vm_compute. discriminate. Qed.

(* C20: the README's promise for packets over 184 bytes is false: what the bytes from offset 184
   become, for every batch that stays inside the internal buffer ... *)
Theorem C20_long_packets_spill : forall enc c jk m key pcks cw ps maxlen,
  supported c -> length cw = 8%nat -> bs_keyed c m key cw -> stack_ok c jk -> batch_array c m pcks ps -> good_maxlen maxlen ->
  (length ps <= batch_size c)%nat ->
  (forall j r b, nth_error ps j = Some (r, b) -> (length b <= (batch_size c - j) * 184)%nat) -> separate ps ->
  exists m', bs_call enc c jk m key pcks maxlen = Ok m' /\
    (forall j r b, nth_error ps j = Some (r, b) -> holds m' r (on_prefix (csa enc cw) maxlen (firstn 184 b))) /\
    (forall i p buf q buf', nth_error ps i = Some (p, buf) -> nth_error ps (S i) = Some (q, buf') ->
       forall k, (k < 184)%nat -> (k < length buf')%nat -> (184 + k < length buf)%nat ->
         m' (p + N.of_nat (184 + k)) = m' (q + N.of_nat k)) /\
    (forall i p buf, nth_error ps i = Some (p, buf) -> S i = length ps ->
       forall k, (184 <= k < length buf)%nat -> m' (p + N.of_nat k) = m (p + N.of_nat k)).
Proof. exact bs_spill. Qed.
Print Assumptions C20_long_packets_spill.

(* ... and if a packet does not fit in what remains of it, it is overrun *)
Theorem C20_long_packet_overruns : forall enc c jk m key pcks ps maxlen i p buf,
  stack_ok c jk -> batch_array c m pcks ps -> good_maxlen maxlen ->
  (length ps <= batch_size c)%nat -> nth_error ps i = Some (p, buf) -> ((batch_size c - i) * 184 < length buf)%nat ->
  bs_call enc c jk m key pcks maxlen = UB OutOfBounds.
Proof. exact bs_overrun. Qed.
Print Assumptions C20_long_packet_overruns.

(* C20, the refutation: on every target a batch of two packets, the first of 200 bytes, whose
   byte 184, beyond maxlen = 184, changes *)
Definition long_bufs : list (list N) := [repeat 7 200; pt1].
Theorem C20_readme_refuted : forall t, exists c m m' p q buf,
  tgt c = t /\ supported c /\ bs_keyed c m 0x2000 cw1 /\ batch_array c m 0x100 [(p, buf); (q, pt1)] /\ separate [(p, buf); (q, pt1)] /\
  length buf = 200%nat /\ dvbcsa_bs_encrypt c (zero_stack c) m 0x2000 0x100 184 = Ok m' /\
  m (p + 184) = Some 7 /\ m' (p + 184) = Some (nth 0 ct1 0) /\ nth 0 ct1 0 <> 7.
Proof.
  intros t. set (c := ex_build t).
  destruct (state_exists c cw1 long_bufs eq_refl) as (m & K & B & S & _ & _).
  - apply bytes_of. reflexivity.
  - apply ex_mul.
  - subst c. destruct t; cbn; lia.
  - repeat constructor; try (cbn; lia); try (apply bytes_of; reflexivity).
  - assert (P : place 0 long_bufs = [(0x4000, repeat 7 200); (0x4100, pt1)]) by reflexivity.
    rewrite P in B, S. clear P.
    destruct (bs_spill true c (zero_stack c) m 0x2000 0x100 cw1 _ 184 (ex_supported t) eq_refl K (zero_stack_ok c) B) as (m' & E & H1 & H2 & _).
    + exists 23%nat. split; [lia|reflexivity].
    + subst c. pose proof (ex_size t). simpl. lia.
    + intros j r b Hj. destruct j as [|[|j]].
      * injection Hj as <- <-. match goal with |- (length ?l <= _)%nat => change (length l) with 200%nat end. subst c. pose proof (ex_size t). lia.
      * injection Hj as <- <-. change (length pt1) with 184%nat. subst c. pose proof (ex_size t). lia.
      * destruct j; discriminate Hj.
    + exact S.
    + exists c, m, m', 0x4000, 0x4100, (repeat 7 200).
      split; [reflexivity|]. split; [apply ex_supported|]. split; [exact K|]. split; [exact B|]. split; [exact S|].
      split; [reflexivity|]. split; [exact E|]. split; [|split].
      * pose proof (ba_entry _ _ _ _ B 0%nat _ _ eq_refl) as X. cbv zeta in X. destruct X as (_ & _ & [_ X] & _).
        apply (X 184%nat). apply Nat.ltb_lt. vm_compute. reflexivity.
      * assert (Y : m' (0x4000 + 184) = m' 0x4100).
        { apply (H2 0%nat 0x4000 (repeat 7 200) 0x4100 pt1 eq_refl eq_refl 0%nat); apply Nat.ltb_lt; vm_compute; reflexivity. }
        rewrite Y.
        pose proof (H1 1%nat 0x4100 pt1 eq_refl) as X.
        rewrite (prefix184 (csa true cw1) (firstn 184 pt1) ct1 eq_refl spec_encrypt_vector1) in X.
        destruct X as [_ X]. apply (X 0%nat). change (length ct1) with 184%nat. lia.
      * vm_compute. discriminate.
Qed.
Print Assumptions C20_readme_refuted.

(* C21: same control word, same bytes, same maxlen, any two batches of the same build, any two
   positions in them: same result *)
Theorem C21_packets_independent : forall enc c jk m key pcks cw ps maxlen i p buf jk2 m2 key2 pcks2 ps2 j p2,
  call_ready c jk m key pcks cw ps maxlen -> separate ps -> nth_error ps i = Some (p, buf) ->
  call_ready c jk2 m2 key2 pcks2 cw ps2 maxlen -> separate ps2 -> nth_error ps2 j = Some (p2, buf) ->
  exists m' m2' out, bs_call enc c jk m key pcks maxlen = Ok m' /\ bs_call enc c jk2 m2 key2 pcks2 maxlen = Ok m2' /\
    length out = length buf /\ holds m' p out /\ holds m2' p2 out.
Proof. intros. eapply bs_function; eassumption. Qed.
Print Assumptions C21_packets_independent.

(* C22: two runs that differ only in the initial contents of the locals end in the same memory *)
Theorem C22_uninitialised_memory_harmless : forall enc c jk jk' m key pcks cw ps maxlen,
  call_ready c jk m key pcks cw ps maxlen -> stack_ok c jk' ->
  exists m1 m2, bs_call enc c jk m key pcks maxlen = Ok m1 /\ bs_call enc c jk' m key pcks maxlen = Ok m2 /\ same_mem m1 m2.
Proof. exact bs_no_junk. Qed.
Print Assumptions C22_uninitialised_memory_harmless.
(* there are different stacks to choose from *)
Definition full_stack (c : build) : junk :=
  mk_junk (repeat 248 (batch_size c)) (repeat 255 (batch_size c * 184)) (jk_regs (zero_stack c)) (jk_block (zero_stack c)).
Example C22_case : forall t, stack_ok (ex_build t) (full_stack (ex_build t)) /\ full_stack (ex_build t) <> zero_stack (ex_build t).
Proof.
  intros t. split.
  - destruct (zero_stack_ok (ex_build t)). constructor; try assumption.
    + apply repeat_length.
    + split; [apply repeat_length|]. apply Forall_forall. intros x Hx. apply repeat_spec in Hx. subst x. reflexivity.
  - intros E. apply (f_equal (fun j => nth 0 (jk_data j) 1)) in E.
    unfold full_stack, zero_stack in E. cbn [jk_data] in E. pose proof (ex_size t) as Z.
    destruct (batch_size (ex_build t) * 184)%nat eqn:E2; [lia|discriminate E].
Qed.

(* C23: two builds (other than AVX2 with the alternative S-box), same control word, same packet *)
Theorem C23_targets_agree : forall enc c jk m key pcks cw ps maxlen i p buf c2 jk2 m2 key2 pcks2 ps2 j p2,
  call_ready c jk m key pcks cw ps maxlen -> separate ps -> nth_error ps i = Some (p, buf) ->
  call_ready c2 jk2 m2 key2 pcks2 cw ps2 maxlen -> separate ps2 -> nth_error ps2 j = Some (p2, buf) ->
  exists m' m2' out, bs_call enc c jk m key pcks maxlen = Ok m' /\ bs_call enc c2 jk2 m2 key2 pcks2 maxlen = Ok m2' /\
    length out = length buf /\ holds m' p out /\ holds m2' p2 out.
Proof. exact bs_function. Qed.
Print Assumptions C23_targets_agree.
Example C23_case : exists m m',
  call_ready (ex_build UINT32) (zero_stack (ex_build UINT32)) m 0x2000 0x100 cw1 (place 0 ex_bufs) 96 /\
  call_ready (ex_build AVX2) (zero_stack (ex_build AVX2)) m' 0x2000 0x100 cw1 (place 0 ex_bufs) 96.
Proof.
  destruct (ex_call UINT32 96 good96) as (m & R & _). destruct (ex_call AVX2 96 good96) as (m' & R' & _).
  exists m, m'. split; assumption.
Qed.
(* C23: a build that differs: AVX2 with --enable-alt-sbox scrambles 8 zero bytes wrongly *)
Theorem C23_avx2_alt_sbox_refuted : exists m m' p,
  sane avx2_alt /\ bs_keyed avx2_alt m 0x2000 zero8 /\ stack_ok avx2_alt (zero_stack avx2_alt) /\
  batch_array avx2_alt m 0x100 [(p, zero8)] /\ in_limits avx2_alt [(p, zero8)] /\ good_maxlen 8 /\
  dvbcsa_bs_encrypt avx2_alt (zero_stack avx2_alt) m 0x2000 0x100 8 = Ok m' /\
  holds m' p wrong_block /\ wrong_block <> csa_encrypt zero8 zero8.
Proof. exact avx2_alt_wrong. Qed.
Print Assumptions C23_avx2_alt_sbox_refuted.

(* C24: encrypt then decrypt (enc = true) or decrypt then encrypt (enc = false) restores memory *)
Theorem C24_bs_round_trip : forall enc c jk jk' m key pcks cw ps maxlen,
  call_ready c jk m key pcks cw ps maxlen -> stack_ok c jk' -> separate ps -> clear_of ps key (bs_ctx_size c) ->
  exists m1 m2, bs_call enc c jk m key pcks maxlen = Ok m1 /\ bs_call (negb enc) c jk' m1 key pcks maxlen = Ok m2 /\ same_mem m2 m.
Proof. exact bs_round_trip. Qed.
Print Assumptions C24_bs_round_trip.
Example C24_case : forall t, exists m,
  call_ready (ex_build t) (zero_stack (ex_build t)) m 0x2000 0x100 cw1 (place 0 ex_bufs) 96 /\
  separate (place 0 ex_bufs) /\ clear_of (place 0 ex_bufs) 0x2000 (bs_ctx_size (ex_build t)).
Proof. intros t. destruct (ex_call t 96 good96) as (m & R & S & C & _). exists m. exact (conj R (conj S C)). Qed.
(* C24, across the APIs: the output of a classical call is undone by the opposite bitslice call ... *)
Theorem C24_classical_then_bitslice : forall enc c jk m key pcks cw ps maxlen i p be mc keyc data len buf out,
  call_ready c jk m key pcks cw ps maxlen -> separate ps -> nth_error ps i = Some (p, out) -> N.of_nat (length out) <= maxlen ->
  keyed be mc keyc cw -> packet mc keyc data len buf ->
  rewrites mc (classical_call enc be mc keyc data len) data len out ->
  exists m', bs_call (negb enc) c jk m key pcks maxlen = Ok m' /\ holds m' p buf.
Proof. exact cross_classical_to_bs. Qed.
Print Assumptions C24_classical_then_bitslice.
(* ... and the other way round *)
Theorem C24_bitslice_then_classical : forall enc c jk m key pcks cw ps maxlen i p be keyc buf m',
  call_ready c jk m key pcks cw ps maxlen -> separate ps -> nth_error ps i = Some (p, buf) -> N.of_nat (length buf) <= maxlen ->
  bs_call enc c jk m key pcks maxlen = Ok m' ->
  keyed be m' keyc cw -> disjoint keyc ctx_size p (N.of_nat (length buf)) ->
  exists m2, classical_call (negb enc) be m' keyc p (N.of_nat (length buf)) = Ok m2 /\ holds m2 p buf.
Proof. exact cross_bs_to_classical. Qed.
Print Assumptions C24_bitslice_then_classical.

(* C25 *)
Theorem C25_only_payloads_written : forall enc c jk m key pcks cw ps maxlen, call_ready c jk m key pcks cw ps maxlen ->
  exists m', bs_call enc c jk m key pcks maxlen = Ok m' /\
    (forall x, (forall p buf, In (p, buf) ps -> ~ (p <= x < p + N.of_nat (length buf))) -> m' x = m x) /\
    same_inside pcks (N.of_nat (length ps * entry_bytes c + ptr_bytes c)) m m' /\
    (clear_of ps key (bs_ctx_size c) -> bs_keyed c m' key cw /\ same_inside key (bs_ctx_size c) m m').
Proof. exact bs_frame. Qed.
Print Assumptions C25_only_payloads_written.

(* C26: within the limits every call returns normally, whatever the overlaps of the packets *)
Theorem C26_no_undefined_behaviour : forall enc c jk m key pcks cw ps maxlen,
  call_ready c jk m key pcks cw ps maxlen -> exists m', bs_call enc c jk m key pcks maxlen = Ok m'.
Proof. intros. edestruct bs_frame as (m' & E & _); [eassumption|]. exists m'. exact E. Qed.
Print Assumptions C26_no_undefined_behaviour.

(* C27 *)
Theorem C27_batch_limit_tight : forall enc c jk m key pcks ps maxlen,
  stack_ok c jk -> batch_array c m pcks ps -> good_maxlen maxlen ->
  (batch_size c < length ps)%nat -> Forall (fun x => length (snd x) <= 184)%nat ps ->
  bs_call enc c jk m key pcks maxlen = UB OutOfBounds.
Proof. exact bs_overflow. Qed.
Print Assumptions C27_batch_limit_tight.

(* C28: with any memory, key and array pointers whatsoever *)
Theorem C28_bad_maxlen_rejected : forall enc c jk m key pcks maxlen,
  have_assert c = true -> ~ (maxlen mod 8 = 0 /\ maxlen <= 184) -> bs_call enc c jk m key pcks maxlen = Abort.
Proof.
  intros enc c jk m key pcks maxlen A G. apply bs_bad_maxlen; [exact A|]. intros (mb & H & ->). apply G.
  split; [|lia]. replace (N.of_nat (8 * mb)) with (N.of_nat mb * 8) by lia. apply N.mod_mul. lia.
Qed.
Print Assumptions C28_bad_maxlen_rejected.
Example C28_case : ~ (100 mod 8 = 0 /\ 100 <= 184) /\ ~ (192 mod 8 = 0 /\ 192 <= 184).
Proof. split; intros [A B]; vm_compute in A, B; congruence. Qed.

(* C29: bytes after the terminating NULL pointer do not matter and are not changed *)
Theorem C29_entries_after_null_ignored : forall enc c jk m key pcks cw ps maxlen a bs,
  call_ready c jk m key pcks cw ps maxlen ->
  pcks + N.of_nat (length ps * entry_bytes c + ptr_bytes c) <= a ->
  disjoint key (bs_ctx_size c) a (N.of_nat (length bs)) -> clear_of ps a (N.of_nat (length bs)) ->
  exists m' m2', bs_call enc c jk m key pcks maxlen = Ok m' /\ bs_call enc c jk (put m a bs) key pcks maxlen = Ok m2' /\ same_mem m2' (put m' a bs).
Proof. exact bs_after_end. Qed.
Print Assumptions C29_entries_after_null_ignored.
Theorem C29_empty_batch : forall enc c jk m key pcks cw maxlen, call_ready c jk m key pcks cw [] maxlen ->
  exists m', bs_call enc c jk m key pcks maxlen = Ok m' /\ same_mem m' m.
Proof. exact bs_empty. Qed.
Print Assumptions C29_empty_batch.
Example C29_case : forall t, exists m, call_ready (ex_build t) (zero_stack (ex_build t)) m 0x2000 0x100 cw1 [] 96.
Proof.
  intros t. destruct (ready_exists (ex_build t) cw1 [] 96) as (m & R & _); try reflexivity; try apply ex_supported; try apply ex_mul.
  - apply bytes_of. reflexivity.
  - cbn. lia.
  - constructor.
  - exact good96.
  - exists m. exact R.
Qed.

Lemma cw_bit_byte cw i : length cw = 8%nat -> (i < 64)%nat -> Forall is_byte cw ->
  BsStream.cw_bit cw i = N.testbit (nth (i / 8) cw 0) (N.of_nat (Nat.lxor (i mod 8) 4)).
Proof.
  intros L Hi F. unfold BsStream.cw_bit.
  assert (A : forallb (fun i => N.eqb (N.lxor (N.of_nat i) 4) (N.of_nat (8 * (i / 8) + Nat.lxor (i mod 8) 4)) &&
    Nat.ltb (Nat.lxor (i mod 8) 4) 8 && Nat.ltb (i / 8) 8) (seq 0 64) = true) by (vm_compute; reflexivity).
  rewrite forallb_forall in A. specialize (A i). rewrite in_seq, !andb_true_iff, N.eqb_eq, !Nat.ltb_lt in A.
  destruct A as [[A1 A2] A3]; [lia|]. rewrite A1.
  rewrite testbit_le_val by assumption.
  replace (N.of_nat (8 * (i / 8) + Nat.lxor (i mod 8) 4)) with (8 * N.of_nat (i / 8) + N.of_nat (Nat.lxor (i mod 8) 4)) by lia.
  rewrite N.mul_comm, N.div_add_l, N.div_small, N.add_0_r, Nnat.Nat2N.id, N.add_comm, N.mod_add, N.mod_small by lia. reflexivity.
Qed.
(* C30: in every byte b of every word: the round keys of dvbcsa_key_set (C07_C08_C15_key_set) and
   the control word, bit by bit, as all-ones or all-zeros *)
Theorem C30_all_lanes_keyed : forall c m key cw, length cw = 8%nat -> bs_keyed c m key cw ->
  (forall i b, (i < 56)%nat -> (b < word_bytes c)%nat ->
     m (key + N.of_nat (i * word_bytes c + b)) = Some (nth i (key_schedule cw) 0)) /\
  (forall i b, (i < 64)%nat -> (b < word_bytes c)%nat ->
     m (key + N.of_nat ((56 + i) * word_bytes c + b)) =
     Some (if N.testbit (nth (i / 8) cw 0) (N.of_nat (Nat.lxor (i mod 8) 4)) then 255 else 0)).
Proof.
  intros c m key cw L K. destruct (bs_key_bytes c m key cw L K) as [H1 H2]. split; [exact H1|].
  intros i b Hi Hb. rewrite (H2 i b Hi Hb), (cw_bit_byte cw i L Hi) by apply (BsAlgo.bs_keyed_facts c m key cw L K). reflexivity.
Qed.
Print Assumptions C30_all_lanes_keyed.

(* C31: on every target but uint32, and on uint32 if the compiler wraps signed overflow,
   dvbcsa_bs_key_set has no undefined behaviour: C13_C31_bs_key_set.  On uint32 under ISO C it
   has, for every control word with a round-key byte of 128 or more, *)
Theorem C31_uint32_overflow : forall c kj m cwp key cw,
  tgt c = UINT32 -> wrapv c = false -> word_aligned c key = true -> mapped m key (bs_ctx_size c) ->
  length cw = 8%nat -> holds m cwp cw -> bs_cw_source c cwp key ->
  (exists k, In k (key_schedule cw) /\ 128 <= k) ->
  dvbcsa_bs_key_set c kj m cwp key = UB SignedOverflow.
Proof.
  intros c kj m cwp key cw T W A M L H S X. apply (bs_key_set_ub c kj m cwp key cw); try assumption.
  intros x. specialize (S x). unfold word_size in S. lia.
Qed.
Print Assumptions C31_uint32_overflow.
(* so the claim for every target is refuted *)
Theorem C31_key_set_refuted : exists c kj m cwp key cw,
  sane c /\ word_aligned c key = true /\ mapped m key (bs_ctx_size c) /\ length cw = 8%nat /\ holds m cwp cw /\
  bs_cw_source c cwp key /\ dvbcsa_bs_key_set c kj m cwp key = UB SignedOverflow.
Proof.
  set (c := mk_build UINT32 false false false true true false None).
  set (m := put (zero_mem 0x20000) 0x10 cw1).
  assert (H : holds m 0x10 cw1) by (apply holds_put, bytes_of; reflexivity).
  assert (S : bs_cw_source c 0x10 0x2000) by (intros x; unfold word_size; cbn; lia).
  assert (M : mapped m 0x2000 (bs_ctx_size c)).
  { intros x Hx. unfold m. change (bs_ctx_size c) with 480 in Hx. rewrite put_out by (change (N.of_nat (length cw1)) with 8; lia).
    exists 0. unfold zero_mem. destruct (N.ltb_spec x 0x20000); [reflexivity|lia]. }
  exists c, (fun _ => 0), m, 0x10, 0x2000, cw1.
  split; [split; discriminate|]. split; [reflexivity|]. split; [exact M|]. split; [reflexivity|]. split; [exact H|]. split; [exact S|].
  apply (C31_uint32_overflow c _ m 0x10 0x2000 cw1); try reflexivity; try assumption.
  assert (X : existsb (fun k => 128 <=? k) (key_schedule cw1) = true) by (vm_compute; reflexivity).
  rewrite existsb_exists in X. destruct X as (k & I1 & I2). exists k. split; [exact I1|]. apply N.leb_le, I2.
Qed.
Print Assumptions C31_key_set_refuted.

(* C32: in the AVX2 build a table entry 255 looked up in the first round of the last block makes
   the gather read past the table: undefined behaviour if those bytes cannot be read ... *)
Theorem C32_avx2_reads_past_table : forall c jk m key pcks cw ps mb i p buf,
  tgt c = AVX2 -> use_alt_sbox c = false -> past_table c = None -> sane c ->
  length cw = 8%nat -> bs_keyed c m key cw -> stack_ok c jk -> batch_array c m pcks ps -> in_limits c ps ->
  (0 < mb)%nat -> (mb <= 23)%nat -> nth_error ps i = Some (p, buf) -> (8 * mb <= length buf)%nat ->
  N.lxor (nth 0 (key_schedule cw) 0) (nth (8 * mb - 1) buf 0) = 255 ->
  dvbcsa_bs_encrypt c jk m key pcks (N.of_nat (8 * mb)) = UB OutOfBounds.
Proof. exact avx2_reads_past_table. Qed.
Print Assumptions C32_avx2_reads_past_table.
(* ... with a witness ... *)
Theorem C32_stays_in_table_refuted : exists c m p buf,
  tgt c = AVX2 /\ sane c /\ bs_keyed c m 0x2000 cw1 /\ stack_ok c (zero_stack c) /\ batch_array c m 0x100 [(p, buf)] /\
  in_limits c [(p, buf)] /\ dvbcsa_bs_encrypt c (zero_stack c) m 0x2000 0x100 8 = UB OutOfBounds.
Proof.
  set (c := mk_build AVX2 false false false true true true None).
  set (buf := repeat 0 7 ++ [N.lxor (nth 0 (key_schedule cw1) 0) 255]).
  destruct (state_exists c cw1 [buf] eq_refl) as (m & K & B & _).
  - apply bytes_of. reflexivity.
  - intros k _ T _. discriminate T.
  - cbn. lia.
  - constructor; [|constructor]. split; [vm_compute; lia|]. apply bytes_of. vm_compute. reflexivity.
  - change (place 0 [buf]) with [(0x4000, buf)] in B.
    assert (Sa : sane c) by (split; discriminate).
    assert (Li : in_limits c [(0x4000, buf)]).
    { split; [cbn; lia|]. constructor; [|constructor]. change (length (snd (0x4000, buf))) with 8%nat. lia. }
    exists c, m, 0x4000, buf. split; [reflexivity|]. split; [exact Sa|]. split; [exact K|]. split; [apply zero_stack_ok|].
    split; [exact B|]. split; [exact Li|].
    apply (avx2_reads_past_table c (zero_stack c) m 0x2000 0x100 cw1 [(0x4000, buf)] 1 0 0x4000 buf); try reflexivity; try assumption; try lia.
    apply zero_stack_ok.
Qed.
Print Assumptions C32_stays_in_table_refuted.
(* ... and if they can be read, their value does not matter *)
Definition with_past (c : build) (v : option (N * N)) : build :=
  mk_build (tgt c) (big_endian c) (use_alt_sbox c) (i386 c) (ptr64 c) (have_assert c) (wrapv c) v.
Theorem C32_stray_bytes_harmless : forall enc c jk m key pcks cw ps maxlen a b,
  call_ready c jk m key pcks cw ps maxlen -> is_byte a -> is_byte b ->
  exists m1 m2, bs_call enc c jk m key pcks maxlen = Ok m1 /\
    bs_call enc (with_past c (Some (a, b))) jk m key pcks maxlen = Ok m2 /\ same_mem m1 m2.
Proof.
  intros enc c jk m key pcks cw ps maxlen a b R Ha Hb.
  assert (R2 : call_ready (with_past c (Some (a, b))) jk m key pcks cw ps maxlen).
  { destruct R as [[[S1 S2] S3] L K J B Li G]. constructor; try assumption.
    - split; [split; [exact S1|]|].
      + intros a0 b0 E. injection E as <- <-. split; assumption.
      + intros T. destruct (S3 T) as [A _]. split; [exact A|discriminate].
    - destruct J. constructor; assumption.
    - destruct B. constructor; assumption. }
  destruct (ready_csa enc _ _ _ _ _ _ _ _ R) as (m1 & E1 & M1). destruct (ready_csa enc _ _ _ _ _ _ _ _ R2) as (m2 & E2 & M2).
  exists m1, m2. split; [exact E1|]. split; [exact E2|]. intros x. rewrite M1, M2. reflexivity.
Qed.
Print Assumptions C32_stray_bytes_harmless.
Example C32_case : exists m, call_ready (ex_build AVX2) (zero_stack (ex_build AVX2)) m 0x2000 0x100 cw1 (place 0 ex_bufs) 96.
Proof. destruct (ex_call AVX2 96 good96) as (m & R & _). exists m. exact R. Qed.

(* C36: all packets are read before any is written: with any overlaps, the final memory is the
   initial one with the processed initial contents written back in array order *)
Theorem C36_read_all_then_write : forall enc c jk m key pcks cw ps maxlen, call_ready c jk m key pcks cw ps maxlen ->
  exists m', bs_call enc c jk m key pcks maxlen = Ok m' /\
    same_mem m' (write_all m (map_packets (on_prefix (csa enc cw) maxlen) ps)).
Proof. exact ready_csa. Qed.
Print Assumptions C36_read_all_then_write.
(* C36: each byte is that of the last packet in array order that contains it *)
Theorem C36_last_packet_wins : forall enc c jk m key pcks cw ps maxlen, call_ready c jk m key pcks cw ps maxlen ->
  exists m', bs_call enc c jk m key pcks maxlen = Ok m' /\
    forall i p buf x, nth_error ps i = Some (p, buf) -> p <= x < p + N.of_nat (length buf) ->
      (forall j q b, (i < j)%nat -> nth_error ps j = Some (q, b) -> ~ (q <= x < q + N.of_nat (length b))) ->
      m' x = Some (nth (N.to_nat (x - p)) (on_prefix (csa enc cw) maxlen buf) 0).
Proof. exact bs_last_wins. Qed.
Print Assumptions C36_last_packet_wins.
Theorem C36_same_packet_twice : forall enc c jk m key pcks cw ps maxlen i j p buf,
  call_ready c jk m key pcks cw ps maxlen -> i <> j ->
  nth_error ps i = Some (p, buf) -> nth_error ps j = Some (p, buf) ->
  (forall k q b, k <> i -> k <> j -> nth_error ps k = Some (q, b) -> disjoint p (N.of_nat (length buf)) q (N.of_nat (length b))) ->
  exists m', bs_call enc c jk m key pcks maxlen = Ok m' /\ holds m' p (on_prefix (csa enc cw) maxlen buf).
Proof. exact bs_twice. Qed.
Print Assumptions C36_same_packet_twice.
(* a batch that lists one packet twice *)
Example C36_case : forall t, exists m, call_ready (ex_build t) (zero_stack (ex_build t)) m 0x2000 0x100 cw1 [(0x4000, pt1); (0x4000, pt1)] 96.
Proof.
  intros t. set (c := ex_build t).
  destruct (state_exists c cw1 [pt1] eq_refl) as (m & K & B & _ & Cl & _).
  - apply bytes_of. reflexivity.
  - apply ex_mul.
  - subst c. pose proof (ex_size t). simpl. lia.
  - constructor; [|constructor]. split; [cbn; lia|apply bytes_of; reflexivity].
  - change (place 0 [pt1]) with [(0x4000, pt1)] in *.
    set (ps := [(0x4000, pt1); (0x4000, pt1)]).
    assert (As : array_size c ps = 40) by (subst c; destruct t; reflexivity).
    assert (Ha : holds m 0x4000 pt1) by (apply (ba_entry _ _ _ _ B 0%nat 0x4000 pt1); reflexivity).
    assert (L : N.of_nat (length pt1) = 184) by reflexivity.
    exists (put m 0x100 (array_image c ps)).
    assert (Out : forall x, ~ (0x100 <= x < 0x128) -> put m 0x100 (array_image c ps) x = m x).
    { intros x Hx. apply put_out. rewrite array_image_length, As. lia. }
    constructor.
    + apply ex_supported.
    + reflexivity.
    + apply (keyed_again _ _ _ _ _ K). intros x Hx. apply Out. lia.
    + apply zero_stack_ok.
    + apply array_of_image; [apply holds_put, array_image_bytes|].
      assert (G : (0 < 0x4000 < 2 ^ N.of_nat (8 * ptr_bytes c)) /\ (N.of_nat (length pt1) < 2 ^ 32) /\
        holds (put m 0x100 (array_image c ps)) 0x4000 pt1 /\ disjoint 0x4000 (N.of_nat (length pt1)) 0x100 (array_size c ps)).
      { split; [split; reflexivity|]. split; [reflexivity|]. split.
        - apply (holds_ext _ _ _ _ Ha). intros x Hx. apply Out. lia.
        - intros x. rewrite As, L. lia. }
      intros p buf I. destruct I as [I|[I|[]]]; apply pair_equal_spec in I as [<- <-]; exact G.
    + split; [pose proof (ex_size t); subst c; simpl; lia|]. repeat constructor; apply Nat.leb_le; reflexivity.
    + exact good96.
Qed.

(* C37 *)
Theorem C37_batch_size : forall c,
  dvbcsa_bs_batch_size c = match tgt c with UINT32 => 32 | UINT64 | MMX => 64 | SSE2 | SSSE3 | NEON => 128 | AVX2 => 256 end /\
  dvbcsa_bs_batch_size c = 8 * word_size c.
Proof. intros c. unfold dvbcsa_bs_batch_size, batch_size, word_size, word_bytes. destruct (tgt c); split; reflexivity. Qed.
Print Assumptions C37_batch_size.
(* a full batch is processed correctly (and one more packet is not: C27_batch_limit_tight) *)
Theorem C37_full_batch : forall enc c jk m key pcks cw ps maxlen,
  call_ready c jk m key pcks cw ps maxlen -> separate ps -> N.of_nat (length ps) = dvbcsa_bs_batch_size c ->
  exists m', bs_call enc c jk m key pcks maxlen = Ok m' /\
    forall i, (i < N.to_nat (dvbcsa_bs_batch_size c))%nat -> exists p buf, nth_error ps i = Some (p, buf) /\
      holds m' p (on_prefix (csa enc cw) maxlen buf).
Proof.
  intros enc c jk m key pcks cw ps maxlen R S L. destruct (ready_each enc _ _ _ _ _ _ _ _ R) as (m' & E & _ & H).
  exists m'. split; [exact E|]. intros i Hi. destruct (nth_error ps i) as [[p buf]|] eqn:Ei.
  - exists p, buf. split; [reflexivity|]. apply (H i p buf Ei). intros j q b Hj Ej. apply (S i j p buf q b Ei Ej). lia.
  - apply nth_error_None in Ei. lia.
Qed.
Print Assumptions C37_full_batch.
Example C37_case : forall t, exists m ps,
  call_ready (ex_build t) (zero_stack (ex_build t)) m 0x2000 0x100 cw1 ps 96 /\ separate ps /\
  N.of_nat (length ps) = dvbcsa_bs_batch_size (ex_build t).
Proof.
  intros t. destruct (ready_exists (ex_build t) cw1 (repeat pt1 (batch_size (ex_build t))) 96) as (m & R & S & _ & _); try reflexivity; try apply ex_supported; try apply ex_mul.
  - apply bytes_of. reflexivity.
  - rewrite repeat_length. lia.
  - apply Forall_forall. intros b Hb. apply repeat_spec in Hb. subst b. split; [apply Nat.leb_le; reflexivity|apply bytes_of; reflexivity].
  - exact good96.
  - exists m, (place 0 (repeat pt1 (batch_size (ex_build t)))). split; [exact R|]. split; [exact S|].
    rewrite place_length, repeat_length. reflexivity.
Qed.
(* every packet has a bit position of its own in the words that the transposition hands to the
   stream cipher (bit r of its first 8 bytes is in word r) and a byte position of its own in the
   words handed to the block cipher (byte j of its block t is in word 8*j + grp) *)
Theorem C37_own_lanes : forall c, sane c -> exists bit grp byte : nat -> nat,
  (forall i, (i < batch_size c)%nat -> (bit i < 8 * word_bytes c /\ grp i < 8 /\ byte i < word_bytes c)%nat) /\
  (forall i j, (i < batch_size c)%nat -> (j < batch_size c)%nat -> i <> j ->
     bit i <> bit j /\ (grp i, byte i) <> (grp j, byte j)) /\
  (forall pb, (n_packets pb <= batch_size c)%nat -> length (pdata pb) = (batch_size c * 184)%nat -> Forall is_byte (pdata pb) ->
    (forall row, words_ok c 64 row -> exists row', dvbcsa_bs_stream_transpose_in c pb row = Ok row' /\
       forall i r, (i < n_packets pb)%nat -> (r < 64)%nat ->
         N.testbit (nth (bit i / 8) (nth r row' []) 0) (N.of_nat (bit i mod 8)) =
         N.testbit (nth (184 * i + r / 8) (pdata pb) 0) (N.of_nat (r mod 8))) /\
    (forall out t, words_ok c 64 out -> (t < 23)%nat ->
       exists out', dvbcsa_bs_block_transpose_in c out pb (N.of_nat (8 * t)) = Ok out' /\
       forall i j, (i < n_packets pb)%nat -> (j < 8)%nat ->
         nth (byte i) (nth (8 * j + grp i) out' []) 0 = nth (184 * i + 8 * t + j) (pdata pb) 0)).
Proof. exact own_lanes. Qed.
Print Assumptions C37_own_lanes.
