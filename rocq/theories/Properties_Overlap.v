(** Properties_Overlap.v -- the key set functions when the control word shares memory with the
    context (C46), and the keystream as a function of the control word and the first scrambled
    block alone (C11).  Vocabulary: OverlapSpec.v, ApiSpec.v, BsApiSpec.v, Spec.v. *)
From Verif Require Import Base Mem Spec ModelClassical ApiSpec ClassicalFacts ClassicalExamples KnownAnswers
  ModelBsWord ModelBsTranspose ModelBsStream ModelBsBlock ModelBsAlgo BsApiSpec BsWordFacts BsView BsTransposeFacts BsStream BsKey BsFacts BsApiFacts BsMoreFacts BsReady BsAnyKey
  OverlapSpec Overlap Properties_Bitslice.
Local Open Scope N_scope.

(* C46: wherever the 8 bytes of the control word lie, dvbcsa_key_set returns and writes nothing but
   the context; afterwards the stream cipher uses the control word as it was at entry, the block
   cipher uses the round keys of what the second reading found *)
Theorem C46_any_control_word_address : forall be m cwp key cw,
  length cw = 8%nat -> holds m cwp cw -> mapped m key ctx_size ->
  exists m', dvbcsa_key_set be m cwp key = Ok m' /\ same_outside key ctx_size m m' /\
    forall enc m2 data len buf, same_inside key ctx_size m' m2 -> packet m2 key data len buf -> (enc = true -> len < 2 ^ 31 + 16) ->
      rewrites m2 (classical_call enc be m2 key data len) data len
        (mixed_csa enc cw (key_schedule (second_reading cw cwp key)) buf).
Proof.
  intros be m cwp key cw L H M. destruct (key_set_any_address be m cwp key cw L H M) as (m' & E & S & _).
  exists m'. split; [exact E|]. split; [exact S|]. apply (calls_after_any be m m' cwp key cw L H M E).
Qed.
Print Assumptions C46_any_control_word_address.

(* C46: decryption undoes encryption even with such a context *)
Theorem C46_round_trip : forall be m cwp key cw m1 enc data len buf,
  length cw = 8%nat -> holds m cwp cw -> mapped m key ctx_size -> dvbcsa_key_set be m cwp key = Ok m1 ->
  packet m1 key data len buf -> len < 2 ^ 31 + 16 ->
  exists m2 m3, classical_call enc be m1 key data len = Ok m2 /\ classical_call (negb enc) be m2 key data len = Ok m3 /\
    holds m3 data buf /\ same_outside data len m1 m3.
Proof.
  intros be m cwp key cw m1 enc data len buf L H M E P G.
  destruct (calls_after_any be m m1 cwp key cw L H M E enc m1 data len buf ltac:(intros x _; reflexivity) P ltac:(auto))
    as (m2 & E2 & H2 & L2 & S2).
  assert (P2 : packet m2 key data len (mixed_csa enc cw (key_schedule (second_reading cw cwp key)) buf)).
  { destruct P as (_ & El & Hl & D). split; [exact H2|]. split; [symmetry; exact L2|]. split; [exact Hl|exact D]. }
  assert (S12 : same_inside key ctx_size m1 m2).
  { destruct P as (_ & _ & _ & D). intros x Hx. apply S2. intros Q. apply (D x). split; assumption. }
  destruct (calls_after_any be m m1 cwp key cw L H M E (negb enc) m2 data len _ S12 P2 ltac:(auto)) as (m3 & E3 & H3 & L3 & S3).
  rewrite mixed_inv in H3. exists m2, m3. split; [exact E2|]. split; [exact E3|]. split; [exact H3|].
  eapply same_outside_trans; eassumption.
Qed.
Print Assumptions C46_round_trip.

(* C46: with the sources of [cw_source] (apart from the first 16 bytes of the context, or the control
   word stored there) the second reading finds the control word again, and the cipher is CSA *)
Theorem C46_safe_sources : forall cw cwp key, length cw = 8%nat -> cw_source cwp key ->
  second_reading cw cwp key = cw /\ forall enc data, mixed_csa enc cw (key_schedule cw) data = csa enc cw data.
Proof. intros cw cwp key L S. split; [apply second_reading_same; assumption|]. intros. apply mixed_same. Qed.
Print Assumptions C46_safe_sources.

(* C46: but a control word taken from bytes 8 to 15 of the context is read back with its nibbles
   swapped, and one that starts k < 8 bytes before the context is read back with its first k bytes repeated *)
Theorem C46_harmful_sources : forall cw key, length cw = 8%nat ->
  second_reading cw (key + 8) key = map nibbles_swapped cw /\
  (forall k, (k < 8)%nat -> N.of_nat k <= key -> second_reading cw (key - N.of_nat k) key = firstn k cw ++ firstn (8 - k) cw).
Proof.
  intros cw key L. split.
  - apply (nth_ext _ _ 0 (nibbles_swapped 0)); [rewrite map_length, L; reflexivity|]. intros i Hi. rewrite second_reading_length in Hi.
    unfold second_reading. rewrite nth_map_seq8, map_nth by exact Hi. cbv zeta.
    destruct (N.leb_spec key (key + 8 + N.of_nat i)); [|lia]. destruct (N.ltb_spec (key + 8 + N.of_nat i) (key + 8)); [lia|]. cbn [andb].
    destruct (N.leb_spec (key + 8) (key + 8 + N.of_nat i)); [|lia]. destruct (N.ltb_spec (key + 8 + N.of_nat i) (key + 16)); [|lia]. cbn [andb].
    do 2 f_equal. lia.
  - intros k Hk Hkey. apply (nth_ext _ _ 0 0); [rewrite app_length, !firstn_length, L, second_reading_length; lia|]. intros i Hi. rewrite second_reading_length in Hi.
    unfold second_reading. rewrite nth_map_seq8 by exact Hi. cbv zeta.
    destruct (Nat.lt_ge_cases i k) as [C|C].
    + destruct (N.leb_spec key (key - N.of_nat k + N.of_nat i)); [lia|]. cbn [andb].
      destruct (N.leb_spec (key + 8) (key - N.of_nat k + N.of_nat i)); [lia|]. cbn [andb].
      rewrite app_nth1 by (rewrite firstn_length; lia). symmetry. apply nth_firstn_lt, C.
    + destruct (N.leb_spec key (key - N.of_nat k + N.of_nat i)); [|lia]. destruct (N.ltb_spec (key - N.of_nat k + N.of_nat i) (key + 8)); [|lia]. cbn [andb].
      rewrite app_nth2 by (rewrite firstn_length; lia). rewrite firstn_length, L, Nat.min_l by lia.
      rewrite nth_firstn_lt by lia. f_equal. lia.
Qed.
Print Assumptions C46_harmful_sources.

(* a program that passes key + 8 as the control word: the call returns, and the packet that it
   descrambles afterwards is not descrambled with that control word *)
Example C46_case : exists m m' out,
  holds m (0x100 + 8) cw1 /\ mapped m 0x100 ctx_size /\ dvbcsa_key_set false m (0x100 + 8) 0x100 = Ok m' /\
  packet m' 0x100 0x2a1 184 pt1 /\
  rewrites m' (dvbcsa_encrypt false m' 0x100 0x2a1 184) 0x2a1 184 out /\ out <> csa_encrypt cw1 pt1.
Proof.
  destruct ex_holds0 as (H1 & H2 & H3).
  set (m := put ex_mem0 (0x100 + 8) cw1).
  assert (H : holds m (0x100 + 8) cw1) by (apply holds_put; exact (proj1 H1)).
  assert (M : mapped m 0x100 ctx_size) by (apply mapped_put; exact H3).
  destruct (C46_any_control_word_address false m (0x100 + 8) 0x100 cw1 eq_refl H M) as (m' & E & S & R).
  assert (P : packet m' 0x100 0x2a1 184 pt1).
  { split; [|split; [reflexivity|split; [reflexivity|]]].
    - apply (holds_ext ex_mem0); [exact H2|]. intros x Hx. change (N.of_nat (length pt1)) with 184 in Hx.
      rewrite S by (unfold ctx_size; lia). apply put_out. change (N.of_nat (length cw1)) with 8. lia.
    - intros x. unfold ctx_size. lia. }
  exists m, m'. eexists. split; [exact H|]. split; [exact M|]. split; [exact E|]. split; [exact P|].
  split; [apply (R true m' 0x2a1 184 pt1 ltac:(intros x _; reflexivity) P); reflexivity|].
  intros Q. apply (f_equal (fun l => nth 0 l 0)) in Q. revert Q. vm_compute. discriminate.
Qed.

(* C46, bitslice: the same for dvbcsa_bs_key_set, for every build and every batch *)
Theorem C46_bs_any_control_word_address : forall c kj m cwp key cw,
  key mod word_size c = 0 -> mapped m key (bs_ctx_size c) -> length cw = 8%nat -> holds m cwp cw ->
  (tgt c = UINT32 -> wrapv c = false -> forall k, In k (key_schedule (bs_second_reading c cw cwp key)) -> k < 128) ->
  exists m', dvbcsa_bs_key_set c kj m cwp key = Ok m' /\ same_outside key (bs_ctx_size c) m m' /\
    forall enc jk m2 pcks ps maxlen, supported c -> same_inside key (bs_ctx_size c) m' m2 -> stack_ok c jk -> batch_array c m2 pcks ps ->
      in_limits c ps -> good_maxlen maxlen -> separate ps ->
      exists m3, bs_call enc c jk m2 key pcks maxlen = Ok m3 /\
        forall i p buf, nth_error ps i = Some (p, buf) ->
          holds m3 p (on_prefix (mixed_csa enc cw (key_schedule (bs_second_reading c cw cwp key))) maxlen buf).
Proof.
  intros c kj m cwp key cw Al M L H MF.
  destruct (bs_key_set_any_address c kj m cwp key cw Al M L H ltac:(intros k Hk T W; apply MF; assumption)) as (m' & E & S & Hc).
  exists m'. split; [exact E|]. split; [exact S|].
  intros enc jk m2 pcks ps maxlen Sp S2 J B Li G Se.
  set (cw2 := bs_second_reading c cw cwp key) in *. assert (L' : length cw2 = 8%nat) by reflexivity.
  assert (F' : Forall is_byte cw2) by (apply bs_second_bytes; exact (proj1 H)).
  destruct (bs_mixed_ok c cw cw2 L L' (proj1 H) F') as [Lm Fm]. destruct (bs_mixed_lanes c cw cw2 L L' (proj1 H) F') as [A1 A2].
  assert (Hc2 : holds m2 key (bs_mixed_ctx c cw cw2)).
  { eapply holds_ext; [exact Hc|]. rewrite Lm. intros x Hx. apply S2. exact Hx. }
  assert (R : call_possible c jk m2 key pcks (bs_mixed_ctx c cw cw2) ps maxlen).
  { constructor; try assumption. unfold bs_ctx_size. rewrite Lm. reflexivity. }
  destruct (possible_each enc _ _ _ _ _ _ _ _ R) as (m3 & E3 & _ & H3). exists m3. split; [exact E3|].
  intros i p buf Ei. specialize (H3 i p buf Ei ltac:(intros j q b Hj Ej; apply (Se i j p buf q b Ei Ej); lia)).
  assert (Hi : (i < batch_size c)%nat).
  { destruct Li as [Hn _]. assert (i < length ps)%nat by (apply nth_error_Some; congruence). lia. }
  unfold at_lanes in H3. rewrite A1 in H3 by (apply spos_bound, Hi). rewrite A2 in H3 by (apply bpos_bounds, Hi). exact H3.
Qed.
Print Assumptions C46_bs_any_control_word_address.

Theorem C46_bs_safe_sources : forall c cw cwp key, length cw = 8%nat -> bs_cw_source c cwp key -> bs_second_reading c cw cwp key = cw.
Proof. intros. apply bs_second_same; assumption. Qed.
Print Assumptions C46_bs_safe_sources.

(* the control word inside the stream words: 8 bytes of ones or zeros are read back *)
Example C46_bs_case : forall t, exists m m',
  holds m (0x2000 + 56 * word_size (ex_build t)) cw1 /\ mapped m 0x2000 (bs_ctx_size (ex_build t)) /\
  0x2000 mod word_size (ex_build t) = 0 /\
  dvbcsa_bs_key_set (ex_build t) (fun _ => 0) m (0x2000 + 56 * word_size (ex_build t)) 0x2000 = Ok m' /\
  bs_second_reading (ex_build t) cw1 (0x2000 + 56 * word_size (ex_build t)) 0x2000 <> cw1.
Proof.
  intros t. set (a := 0x2000 + 56 * word_size (ex_build t)). set (m := put (zero_mem 0x20000) a cw1).
  assert (H : holds m a cw1) by (apply holds_put, ClassicalExamples.bytes_of; reflexivity).
  assert (M : mapped m 0x2000 (bs_ctx_size (ex_build t))).
  { apply mapped_put. intros x Hx. exists 0. unfold zero_mem. destruct (N.ltb_spec x 0x20000) as [|C]; [reflexivity|exfalso].
    assert (bs_ctx_size (ex_build t) <= 0x1e00) by (destruct t; vm_compute; discriminate). lia. }
  assert (Al : 0x2000 mod word_size (ex_build t) = 0) by (destruct t; reflexivity).
  destruct (C46_bs_any_control_word_address (ex_build t) (fun _ => 0) m a 0x2000 cw1 Al M eq_refl H ltac:(intros _ W; discriminate W)) as (m' & E & _).
  exists m, m'. split; [exact H|]. split; [exact M|]. split; [exact Al|]. split; [exact E|].
  destruct t; vm_compute; discriminate.
Qed.

(* C11: for each control word there is one function that gives, from the first 8 bytes of the
   scrambled packet alone, the keystream XORed onto the rest: the same for both directions, all four
   packet functions, all lengths, positions in a batch, builds and memory states *)
Theorem C11_one_keystream : forall cw, length cw = 8%nat -> exists ks : list N -> nat -> N,
  (forall enc be m key data len inp out, keyed be m key cw -> packet m key data len inp ->
     8 <= len -> (enc = true -> len < 2 ^ 31 + 16) ->
     rewrites m (classical_call enc be m key data len) data len out ->
     layered_with (ks (scrambled_start enc inp out)) enc cw inp out) /\
  (forall enc c jk m key pcks ps maxlen m' i p inp rest out,
     call_ready c jk m key pcks cw ps maxlen -> separate ps -> bs_call enc c jk m key pcks maxlen = Ok m' ->
     nth_error ps i = Some (p, inp ++ rest) -> length inp = Nat.min (N.to_nat maxlen) (length (inp ++ rest)) ->
     (8 <= length inp)%nat -> holds m' p out -> length out = length inp ->
     layered_with (ks (scrambled_start enc inp out)) enc cw inp out).
Proof. exact one_keystream. Qed.
Print Assumptions C11_one_keystream.
(* the two parts meet: the hypotheses hold for a 184 byte packet at once in a classical state and,
   for every target, as the first packet of a batch *)
Example C11_one_case : forall t, exists m mb mb' out,
  keyed false m 0x100 cw1 /\ packet m 0x100 0x2a1 184 pt1 /\
  rewrites m (classical_call true false m 0x100 0x2a1 184) 0x2a1 184 out /\
  call_ready (ex_build t) (zero_stack (ex_build t)) mb 0x2000 0x100 cw1 (place 0 ex_bufs) 184 /\ separate (place 0 ex_bufs) /\
  nth_error (place 0 ex_bufs) 0 = Some (0x4000, pt1 ++ []) /\
  bs_call true (ex_build t) (zero_stack (ex_build t)) mb 0x2000 0x100 184 = Ok mb' /\ holds mb' 0x4000 out.
Proof.
  intros t. destruct (ex_ready false) as (m & _ & K & P & _).
  pose proof (encrypt_is_csa false m 0x100 cw1 0x2a1 184 pt1 eq_refl K P eq_refl) as R.
  rewrite spec_encrypt_vector1 in R.
  assert (G : good_maxlen 184) by (exists 23%nat; split; [lia|reflexivity]).
  destruct (ex_call t 184 G) as (mb & Rb & S & _). destruct (C18_bs_encrypt_is_csa _ _ _ _ _ _ _ _ Rb S) as (mb' & E & H & _).
  exists m, mb, mb', ct1. split; [exact K|]. split; [exact P|]. split; [exact R|]. split; [exact Rb|]. split; [exact S|].
  split; [reflexivity|]. split; [exact E|].
  rewrite <- (prefix184 (csa_encrypt cw1) pt1 ct1 eq_refl spec_encrypt_vector1). apply (H 0%nat). reflexivity.
Qed.
