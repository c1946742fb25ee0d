(** Properties_Switches.v -- C45: builds with one layer of the cipher left out.
    Vocabulary: SwitchSpec.v (what is left of the cipher), ModelSwitches.v (the functions compiled
    with DVBCSA_DISABLE_STREAM / DVBCSA_DISABLE_BLOCK), ApiSpec.v, BsApiSpec.v. *)
From Verif Require Import Base Mem Spec SpecLemmas KnownAnswers ModelClassical ApiSpec ClassicalFacts ClassicalExamples ModelBsWord ModelBsAlgo BsApiSpec BsKey BsAlgo BsFacts BsApiFacts BsReady
  ModelSwitches SwitchSpec Switches Properties_Bitslice.
Local Open Scope N_scope.

(* C45: with neither macro defined these are the functions all other properties speak about *)
Theorem C45_no_switch : forall enc be m key data len c jk pcks maxlen,
  sw_call (mk_switches false false) enc be m key data len = (if enc then dvbcsa_encrypt else dvbcsa_decrypt) be m key data len /\
  sw_bs_call (mk_switches false false) enc c jk m key pcks maxlen = bs_call enc c jk m key pcks maxlen.
Proof. intros. split; [apply sw_off_call|apply sw_off_bs]. Qed.
Print Assumptions C45_no_switch.

(* C45: the packet functions compute the remaining layers, and change nothing else.  The length
   limit of dvbcsa_encrypt (C05) is one of its block layer. *)
Theorem C45_classical : forall s enc be m key cw data len buf,
  length cw = 8%nat -> keyed be m key cw -> packet m key data len buf ->
  (enc = true -> disable_block s = false -> len < 2 ^ 31 + 16) ->
  rewrites m (sw_call s enc be m key data len) data len (sw_csa s enc cw buf).
Proof. exact sw_is. Qed.
Print Assumptions C45_classical.
Example C45_classical_case : forall s enc be, exists m, keyed be m 0x100 cw1 /\ packet m 0x100 0x2a1 184 pt1 /\
  rewrites m (sw_call s enc be m 0x100 0x2a1 184) 0x2a1 184 (sw_csa s enc cw1 pt1).
Proof.
  intros s enc be. destruct (ex_ready be) as (m & _ & K & P & _). exists m. split; [exact K|]. split; [exact P|].
  apply (sw_is s enc be m 0x100 cw1 0x2a1 184 pt1 eq_refl K P). intros _ _. reflexivity.
Qed.

(* C45: each switched build decrypts what it has encrypted, and the other way round *)
Theorem C45_classical_round_trip : forall s enc be m key cw data len buf,
  length cw = 8%nat -> keyed be m key cw -> packet m key data len buf -> len < 2 ^ 31 + 16 ->
  exists m1 m2, sw_call s enc be m key data len = Ok m1 /\ sw_call s (negb enc) be m1 key data len = Ok m2 /\
    forall x, m2 x = m x.
Proof.
  intros s enc be m key cw data len buf L K P Hl.
  destruct (sw_is s enc be m key cw data len buf L K P (fun _ _ => Hl)) as (m1 & E1 & H1 & L1 & S1).
  destruct P as (H & El & Hl' & D).
  destruct (sw_is s (negb enc) be m1 key cw data len (sw_csa s enc cw buf) L) as (m2 & E2 & H2 & L2 & S2); auto.
  { eapply outside_keyed; eauto. }
  { repeat split; auto; apply H1. }
  exists m1, m2. split; [exact E1|]. split; [exact E2|]. rewrite sw_csa_inv in H2.
  eapply holds_outside_meq; eauto using same_outside_trans.
Qed.
Print Assumptions C45_classical_round_trip.

(* C45: the batch functions compute the same remaining layers on the first maxlen bytes *)
Theorem C45_bitslice : forall s enc c jk m key pcks cw ps maxlen,
  call_ready c jk m key pcks cw ps maxlen -> separate ps ->
  exists m', sw_bs_call s enc c jk m key pcks maxlen = Ok m' /\
    (forall i p buf, nth_error ps i = Some (p, buf) -> holds m' p (on_prefix (sw_csa s enc cw) maxlen buf)) /\
    (forall x, (forall p buf, In (p, buf) ps -> ~ (p <= x < p + N.of_nat (length buf))) -> m' x = m x).
Proof.
  intros s enc c jk m key pcks cw ps maxlen [Sp Lc K J B Li (mb & Hm & ->)] S.
  destruct (sw_bs_is s c jk m key pcks cw ps mb Sp Lc K J B Li Hm enc) as (m' & E & M).
  exists m'. split; [exact E|]. destruct (bs_keyed_facts c m key cw Lc K) as (Fc & _).
  assert (Lf : forall b, length (on_prefix (sw_csa s enc cw) (N.of_nat (8 * mb)) b) = length b) by (intros; apply on_prefix_length, sw_csa_length).
  split.
  - intros i p buf Ei. apply (holds_meq (write_all m (map_packets (on_prefix (sw_csa s enc cw) (N.of_nat (8 * mb))) ps))); [intros x; symmetry; apply M|].
    apply (write_all_holds _ _ i).
    + rewrite nth_error_map_packets, Ei. reflexivity.
    + apply on_prefix_bytes; [intros l Fl; apply sw_csa_bytes; assumption|]. apply (entry_bytes_ok c m pcks ps B p buf), (nth_error_In _ _ Ei).
    + intros j q b Hj Ej. rewrite nth_error_map_packets in Ej. destruct (nth_error ps j) as [[q0 b0]|] eqn:Ep; [|discriminate].
      cbn [option_map fst snd] in Ej. inversion Ej; subst. rewrite !Lf. apply (S i j p buf q b0 Ei Ep). lia.
  - intros x Hx. rewrite M. apply write_all_out. intros p buf I. apply in_map_packets in I as (b & I & ->). rewrite Lf. apply Hx, I.
Qed.
Print Assumptions C45_bitslice.
Example C45_bitslice_case : forall t, exists m, call_ready (ex_build t) (zero_stack (ex_build t)) m 0x2000 0x100 cw1 (place 0 ex_bufs) 96 /\ separate (place 0 ex_bufs).
Proof. exact C17_case. Qed.

(* C45: and so do the batch functions *)
Theorem C45_bitslice_round_trip : forall s enc c jk jk' m key pcks cw ps maxlen,
  call_ready c jk m key pcks cw ps maxlen -> stack_ok c jk' -> separate ps -> clear_of ps key (bs_ctx_size c) ->
  exists m1 m2, sw_bs_call s enc c jk m key pcks maxlen = Ok m1 /\ sw_bs_call s (negb enc) c jk' m1 key pcks maxlen = Ok m2 /\ same_mem m2 m.
Proof.
  intros s enc c jk jk' m key pcks cw ps maxlen [Sp Lc K J B Li (mb & Hm & ->)] J' S Cl.
  destruct (sw_bs_is s c jk m key pcks cw ps mb Sp Lc K J B Li Hm enc) as (m1 & E1 & M1). exists m1.
  set (maxlen := N.of_nat (8 * mb)) in *.
  set (f := on_prefix (sw_csa s enc cw) maxlen) in *.
  assert (Lf : forall l, length (f l) = length l) by (intros; apply on_prefix_length, sw_csa_length).
  destruct (bs_keyed_facts c m key cw Lc K) as (Fc & _).
  destruct (sw_bs_is s c jk' m1 key pcks cw (map_packets f ps) mb Sp Lc) with (enc := negb enc) as (m2 & E2 & M2); try assumption.
  - apply (keyed_again c m); [exact K|]. intros x Hx. rewrite M1. apply write_all_out. intros p buf I. apply in_map_packets in I as (b & I & ->).
    rewrite Lf. intros Q. apply (Cl p b I x). split; assumption.
  - apply (batch_again f c m); try assumption. intros p buf I. apply on_prefix_bytes; [intros l Fl; apply sw_csa_bytes; assumption|].
    apply (entry_bytes_ok c m pcks ps B p buf I).
  - destruct Li as [Hn F]. split; [unfold map_packets; rewrite map_length; exact Hn|]. unfold map_packets. rewrite Forall_map.
    eapply Forall_impl; [|exact F]. intros [p b] Hb. cbn [snd] in *. rewrite Lf. exact Hb.
  - exists m2. split; [exact E1|]. split; [exact E2|].
    intros x. rewrite M2. unfold map_packets at 1 2. rewrite map_map. cbn [fst snd]. fold maxlen.
    replace (map (fun y : N * list N => (fst y, on_prefix (sw_csa s (negb enc) cw) maxlen (f (snd y)))) ps) with ps.
    2:{ rewrite <- (map_id ps) at 1. apply map_ext. intros [p b]. cbn [fst snd]. f_equal. symmetry. apply on_prefix_inv; [apply sw_csa_length|apply sw_csa_inv]. }
    rewrite (write_all_meq ps m1 _ M1 x). apply write_back; [exact S|exact Lf|]. intros p buf I. apply (entry_bytes_ok c m pcks ps B p buf I).
Qed.
Print Assumptions C45_bitslice_round_trip.

(* C45: without the block layer, encryption and decryption are the same function: both XOR a keystream
   that depends on the control word and the first 8 bytes only, and leave these 8 bytes alone *)
Theorem C45_stream_only : forall s be m key cw data len buf out out',
  disable_stream s = false -> disable_block s = true ->
  length cw = 8%nat -> keyed be m key cw -> packet m key data len buf -> 8 <= len ->
  rewrites m (sw_call s true be m key data len) data len out -> rewrites m (sw_call s false be m key data len) data len out' ->
  out = out' /\ firstn 8 out = firstn 8 buf /\
  out = firstn 8 buf ++ xor_bytes (skipn 8 buf) (keystream cw (firstn 8 buf) (length buf - 8)).
Proof.
  intros s be m key cw data len buf out out' S1 S2 L K P H8 R R'.
  assert (Hs : forall e : bool, e = true -> disable_block s = false -> len < 2 ^ 31 + 16) by congruence.
  rewrite (rewrites_inj _ _ _ _ _ _ R (sw_is s true _ _ _ _ _ _ _ L K P (Hs _))).
  rewrite (rewrites_inj _ _ _ _ _ _ R' (sw_is s false _ _ _ _ _ _ _ L K P (Hs _))).
  destruct P as (_ & El & _). unfold sw_csa, stream_layer, encrypt_layer, decrypt_layer. rewrite S1, S2.
  destruct (Nat.ltb_spec (length buf) 8) as [C|C]; [lia|]. split; [reflexivity|]. unfold stream_cipher. split.
  - rewrite firstn_app, firstn_firstn. replace (8 - length (firstn 8 buf))%nat with 0%nat by (rewrite firstn_length; lia).
    cbn [firstn Nat.min]. rewrite app_nil_r. reflexivity.
  - rewrite skipn_length. reflexivity.
Qed.
Print Assumptions C45_stream_only.

(* C45: without the stream layer the bytes after the last whole block are not touched *)
Theorem C45_block_only : forall s enc be m key cw data len buf out,
  disable_stream s = true ->
  length cw = 8%nat -> keyed be m key cw -> packet m key data len buf -> len < 2 ^ 31 + 16 ->
  rewrites m (sw_call s enc be m key data len) data len out ->
  residue out = residue buf.
Proof.
  intros s enc be m key cw data len buf out S1 L K P Hl R.
  rewrite (rewrites_inj _ _ _ _ _ _ R (sw_is s enc _ _ _ _ _ _ _ L K P (fun _ _ => Hl))).
  unfold sw_csa, stream_layer, encrypt_layer, decrypt_layer. rewrite S1.
  destruct (Nat.ltb_spec (length buf) 8) as [C|C]; [reflexivity|].
  assert (Q : forall F, (forall bs : list block, length (F bs) = length bs) -> residue (block_layer F buf) = residue buf).
  { intros F LF. unfold residue at 1. rewrite block_layer_length by exact LF. unfold block_layer.
    rewrite skipn_app, unblocks_length, LF, blocks_length. rewrite skipn_all2 by (rewrite unblocks_length, LF, blocks_length; lia).
    rewrite Nat.sub_diag. reflexivity. }
  destruct enc, (disable_block s); try reflexivity; apply Q; [apply rcbc_enc_length|apply rcbc_dec_length].
Qed.
Print Assumptions C45_block_only.

(* C45: with both layers left out nothing is changed *)
Theorem C45_nothing_left : forall s enc be m key cw data len buf out,
  disable_stream s = true -> disable_block s = true ->
  length cw = 8%nat -> keyed be m key cw -> packet m key data len buf ->
  rewrites m (sw_call s enc be m key data len) data len out -> out = buf.
Proof.
  intros s enc be m key cw data len buf out S1 S2 L K P R.
  rewrite (rewrites_inj _ _ _ _ _ _ R (sw_is s enc _ _ _ _ _ _ _ L K P ltac:(congruence))).
  unfold sw_csa, stream_layer, encrypt_layer, decrypt_layer. rewrite S1, S2. destruct (length buf <? 8)%nat, enc; reflexivity.
Qed.
Print Assumptions C45_nothing_left.

(* the three variants differ from each other and from the full cipher on a known packet *)
Example C45_differ : let f s := sw_csa s true cw1 (firstn 24 pt1) in
  f (mk_switches false true) <> f (mk_switches true false) /\ f (mk_switches false true) <> f (mk_switches false false) /\
  f (mk_switches true false) <> f (mk_switches false false) /\ f (mk_switches true true) = firstn 24 pt1 /\
  f (mk_switches false false) = csa_encrypt cw1 (firstn 24 pt1).
Proof. vm_compute. repeat split; discriminate. Qed.
