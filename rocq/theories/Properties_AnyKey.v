(** Properties_AnyKey.v -- the batch functions on a context with arbitrary content: freshly
    allocated, half written by an interrupted dvbcsa_bs_key_set, or put together by other means
    (C25, C26, C41).  Vocabulary: BsApiSpec.v, in particular [call_possible], [mixed_csa],
    [lane_cw] and [lane_round_keys]. *)
From Verif Require Import Base Mem Spec ModelBsWord ModelBsTranspose ModelBsStream ModelBsBlock ModelBsAlgo ApiSpec BsApiSpec
  BsWordFacts BsTransposeFacts BsRel BsView BsStream BsFacts BsApiFacts BsMoreFacts BsReady BsAnyKey KnownAnswers Properties_Bitslice.
Local Open Scope N_scope.

(* C26: no undefined behaviour and termination, whatever the context contains *)
Theorem C26_any_context : forall enc c jk m key pcks ctx ps maxlen,
  call_possible c jk m key pcks ctx ps maxlen -> exists m', bs_call enc c jk m key pcks maxlen = Ok m'.
Proof. intros enc c jk m key pcks ctx ps maxlen R. destruct (possible_each enc _ _ _ _ _ _ _ _ R) as (m' & E & _). eauto. Qed.
Print Assumptions C26_any_context.

(* C25: and only the payloads are written *)
Theorem C25_any_context : forall enc c jk m key pcks ctx ps maxlen m',
  call_possible c jk m key pcks ctx ps maxlen -> bs_call enc c jk m key pcks maxlen = Ok m' ->
  forall x, (forall p buf, In (p, buf) ps -> ~ (p <= x < p + N.of_nat (length buf))) -> m' x = m x.
Proof.
  intros enc c jk m key pcks ctx ps maxlen m' R E. destruct (possible_each enc _ _ _ _ _ _ _ _ R) as (m1 & E1 & F & _).
  assert (m1 = m') by congruence. subst m1. exact F.
Qed.
Print Assumptions C25_any_context.

(* C41: position i of a batch has its own bit lane [bit i] and its byte lane [byte i] (shared by
   the eight positions of a byte, see C37); its packet is processed with the stream-cipher key
   found in the one and the round keys found in the other, whatever the other lanes contain *)
Theorem C41_each_lane_its_own_key : forall c, supported c -> exists bit byte : nat -> nat,
  (forall i, (i < batch_size c)%nat -> (bit i < 8 * word_bytes c)%nat /\ (byte i < word_bytes c)%nat) /\
  (forall i j, (i < batch_size c)%nat -> (j < batch_size c)%nat -> i <> j -> bit i <> bit j) /\
  (* the results, in whatever state and batch *)
  (forall enc jk m key pcks ctx ps maxlen, call_possible c jk m key pcks ctx ps maxlen -> separate ps ->
     exists m', bs_call enc c jk m key pcks maxlen = Ok m' /\
       forall i p buf, nth_error ps i = Some (p, buf) ->
         holds m' p (on_prefix (mixed_csa enc (lane_cw c ctx (bit i)) (lane_round_keys c ctx (byte i))) maxlen buf)) /\
  (* two calls, two contexts that agree on these two lanes only, the same packet at the same position *)
  (forall enc jk1 m1 key1 pcks1 ctx1 ps1 jk2 m2 key2 pcks2 ctx2 ps2 maxlen i p1 p2 buf,
     call_possible c jk1 m1 key1 pcks1 ctx1 ps1 maxlen -> separate ps1 -> nth_error ps1 i = Some (p1, buf) ->
     call_possible c jk2 m2 key2 pcks2 ctx2 ps2 maxlen -> separate ps2 -> nth_error ps2 i = Some (p2, buf) ->
     (forall w, (56 <= w < 120)%nat ->
        N.testbit (nth (w * word_bytes c + bit i / 8) ctx1 0) (N.of_nat (bit i mod 8)) =
        N.testbit (nth (w * word_bytes c + bit i / 8) ctx2 0) (N.of_nat (bit i mod 8))) ->
     (forall w, (w < 56)%nat -> nth (w * word_bytes c + byte i) ctx1 0 = nth (w * word_bytes c + byte i) ctx2 0) ->
     exists m1' m2' out, bs_call enc c jk1 m1 key1 pcks1 maxlen = Ok m1' /\ bs_call enc c jk2 m2 key2 pcks2 maxlen = Ok m2' /\
       length out = length buf /\ holds m1' p1 out /\ holds m2' p2 out).
Proof.
  intros c Sp. exists (spos c), (bcol c).
  assert (Run : forall enc jk m key pcks ctx ps maxlen, call_possible c jk m key pcks ctx ps maxlen -> separate ps ->
     exists m', bs_call enc c jk m key pcks maxlen = Ok m' /\
       forall i p buf, nth_error ps i = Some (p, buf) ->
         holds m' p (on_prefix (mixed_csa enc (lane_cw c ctx (spos c i)) (lane_round_keys c ctx (bcol c i))) maxlen buf)).
  { intros enc jk m key pcks ctx ps maxlen R S. destruct (possible_each enc _ _ _ _ _ _ _ _ R) as (m' & E & _ & H).
    exists m'. split; [exact E|]. intros i p buf Ei. refine (H i p buf Ei _).
    intros j q b Hj Ej. apply (S i j p buf q b Ei Ej). lia. }
  split; [intros i Hi; split; [apply spos_bound, Hi|apply bpos_bounds, Hi]|].
  split; [intros i j Hi Hj Ne E; exact (Ne (spos_inj c i j Hi Hj E))|].
  split; [exact Run|].
  intros enc jk1 m1 key1 pcks1 ctx1 ps1 jk2 m2 key2 pcks2 ctx2 ps2 maxlen i p1 p2 buf R1 S1 E1 R2 S2 E2 Hs Hb.
  destruct (Run enc _ _ _ _ _ _ _ R1 S1) as (m1' & O1 & H1). destruct (Run enc _ _ _ _ _ _ _ R2 S2) as (m2' & O2 & H2).
  specialize (H1 i p1 buf E1). specialize (H2 i p2 buf E2).
  replace (lane_cw c ctx2 (spos c i)) with (lane_cw c ctx1 (spos c i)) in H2.
  2:{ unfold lane_cw. apply map_ext_in. intros k Hk. apply in_seq in Hk. unfold byte_of_bits. cbn [seq fold_right].
      rewrite !Hs by (cbn; lia). reflexivity. }
  replace (lane_round_keys c ctx2 (bcol c i)) with (lane_round_keys c ctx1 (bcol c i)) in H2.
  2:{ unfold lane_round_keys. apply map_ext_in. intros r Hr. apply in_seq in Hr. apply Hb. lia. }
  eexists m1', m2', _. split; [exact O1|]. split; [exact O2|]. split; [|split; [exact H1|exact H2]].
  apply on_prefix_length. intros l. apply mixed_length.
Qed.
Print Assumptions C41_each_lane_its_own_key.

(* C41: a context keyed with dvbcsa_bs_key_set is the special case with the same key in every lane *)
Theorem C41_keyed_context : forall c jk m key pcks cw ps maxlen, call_ready c jk m key pcks cw ps maxlen ->
  exists ctx, call_possible c jk m key pcks ctx ps maxlen /\
    (forall bit, (bit < 8 * word_bytes c)%nat -> lane_cw c ctx bit = cw) /\
    (forall byte, (byte < word_bytes c)%nat -> lane_round_keys c ctx byte = key_schedule cw) /\
    (forall enc data, mixed_csa enc cw (key_schedule cw) data = csa enc cw data).
Proof.
  intros c jk m key pcks cw ps maxlen R. destruct (possible_of_ready _ _ _ _ _ _ _ _ R) as (ctx & P & H1 & H2).
  exists ctx. split; [exact P|]. split; [exact H1|]. split; [exact H2|]. intros. apply mixed_same.
Qed.
Print Assumptions C41_keyed_context.

(* C41: whatever a context contains, decryption undoes encryption and the other way round *)
Theorem C41_round_trip_any_context : forall enc c jk jk' m key pcks ctx ps maxlen,
  call_possible c jk m key pcks ctx ps maxlen -> stack_ok c jk' -> separate ps -> clear_of ps key (bs_ctx_size c) ->
  exists m1 m2, bs_call enc c jk m key pcks maxlen = Ok m1 /\ bs_call (negb enc) c jk' m1 key pcks maxlen = Ok m2 /\ same_mem m2 m.
Proof. exact any_round_trip. Qed.
Print Assumptions C41_round_trip_any_context.

(* a state for every target in which all bytes of the context differ from their neighbours *)
Definition ex_ctx (c : build) : list N := map (fun i => N.of_nat i * 167 mod 256) (seq 0 (120 * word_bytes c)).
Example C41_case : forall t, exists m,
  call_possible (ex_build t) (zero_stack (ex_build t)) m 0x2000 0x100 (ex_ctx (ex_build t)) (place 0 ex_bufs) 96 /\
  separate (place 0 ex_bufs) /\ clear_of (place 0 ex_bufs) 0x2000 (bs_ctx_size (ex_build t)) /\
  lane_cw (ex_build t) (ex_ctx (ex_build t)) 0 <> lane_cw (ex_build t) (ex_ctx (ex_build t)) 9.
Proof.
  intros t. destruct (ex_call t 96 good96) as (m & [Sp _ _ J B Li G] & S & C & E).
  set (c := ex_build t) in *.
  assert (L : length (ex_ctx c) = (120 * word_bytes c)%nat) by (unfold ex_ctx; rewrite map_length, seq_length; reflexivity).
  exists (put m 0x2000 (ex_ctx c)). split; [|split; [exact S|split; [exact C|]]].
  - constructor; try assumption.
    + destruct t; reflexivity.
    + unfold bs_ctx_size. rewrite L. reflexivity.
    + apply holds_put. apply Forall_forall. intros x Hx. apply in_map_iff in Hx as (i & <- & _). unfold is_byte. apply N.mod_lt. discriminate.
    + assert (Hc : forall x, (0x2000 <= x < 0x2000 + N.of_nat (length (ex_ctx c))) -> 0x2000 <= x < 0x2000 + bs_ctx_size c)
        by (intros x; unfold bs_ctx_size; rewrite L; auto).
      assert (W : (length (place 0 ex_bufs) * entry_bytes c + ptr_bytes c <= 0x40)%nat).
      { change (length (place 0 ex_bufs)) with 3%nat. unfold entry_bytes, ptr_bytes. destruct (ptr64 c); lia. }
      constructor.
      * intros i p buf Ei. cbv zeta. destruct (ba_entry _ _ _ _ B i p buf Ei) as (Hp & Hl & H1 & H2 & H3 & D).
        assert (Hi : (i < length (place 0 ex_bufs))%nat) by (apply nth_error_Some; congruence).
        assert (Ee : entry_bytes c = (2 * ptr_bytes c)%nat) by reflexivity.
        assert (E4 : (4 <= ptr_bytes c)%nat) by (unfold ptr_bytes; destruct (ptr64 c); lia).
        split; [exact Hp|]. split; [exact Hl|]. split; [|split; [|split; [|exact D]]].
        -- apply holds_put_disj; [exact H1|]. intros x [Q1 Q2]. apply (C p buf (nth_error_In _ _ Ei) x). split; [apply Hc, Q2|exact Q1].
        -- apply holds_put_disj; [exact H2|]. rewrite native_bytes_length. intros x [Q1 Q2]. nia.
        -- apply holds_put_disj; [exact H3|]. rewrite native_bytes_length. intros x [Q1 Q2]. nia.
      * apply holds_put_disj; [apply (ba_end _ _ _ _ B)|]. rewrite native_bytes_length. intros x [Q1 Q2]. lia.
  - destruct t; vm_compute; discriminate.
Qed.
