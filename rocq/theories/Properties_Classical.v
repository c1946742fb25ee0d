(** Properties_Classical.v -- property theorems about the classical API (C01-C16, C38).
    Vocabulary: Spec.v (the cipher), Mem.v (holds, mapped, disjoint, same_outside),
    ApiSpec.v (keyed, packet, rewrites).  [be] ranges over little- and big-endian builds.
    Concrete states meeting the hypotheses: ClassicalExamples.v (ex_ready, ex_bytes) and the
    Examples below. *)
From Verif Require Import Base Mem Spec ModelClassical ClassicalKey SpecLemmas SpecFacts ApiSpec ClassicalFacts KnownAnswers ClassicalExamples.
Local Open Scope N_scope.

(* C01: encrypt then decrypt restores every byte of memory *)
Theorem C01_decrypt_after_encrypt : forall be m key cw data len buf,
  length cw = 8%nat -> keyed be m key cw -> packet m key data len buf -> len < 2 ^ 31 + 16 ->
  exists m1 m2, dvbcsa_encrypt be m key data len = Ok m1 /\ dvbcsa_decrypt be m1 key data len = Ok m2 /\
                forall x, m2 x = m x.
Proof. exact dec_after_enc. Qed.
Print Assumptions C01_decrypt_after_encrypt.
Example C01_case : exists m, keyed false m 0x100 cw1 /\ packet m 0x100 0x2a1 184 pt1.
Proof. destruct (ex_ready false) as (m & _ & K & P & _). exists m. split; assumption. Qed.

(* C02 *)
Theorem C02_encrypt_after_decrypt : forall be m key cw data len buf,
  length cw = 8%nat -> keyed be m key cw -> packet m key data len buf -> len < 2 ^ 31 + 16 ->
  exists m1 m2, dvbcsa_decrypt be m key data len = Ok m1 /\ dvbcsa_encrypt be m1 key data len = Ok m2 /\
                forall x, m2 x = m x.
Proof. exact enc_after_dec. Qed.
Print Assumptions C02_encrypt_after_decrypt.
Example C02_case : exists m, keyed true m 0x100 cw1 /\ packet m 0x100 0x2a1 184 pt1.
Proof. destruct (ex_ready true) as (m & _ & K & P & _). exists m. split; assumption. Qed.

(* C03 *)
Theorem C03_decrypt_is_csa : forall be m key cw data len buf,
  length cw = 8%nat -> keyed be m key cw -> packet m key data len buf ->
  rewrites m (dvbcsa_decrypt be m key data len) data len (csa_decrypt cw buf).
Proof. exact decrypt_is_csa. Qed.
Print Assumptions C03_decrypt_is_csa.
Example C03_case : ex_decrypted false = map Some pt2 /\ csa_decrypt cw2 ct2 = pt2 /\ pt2 <> ct2.
Proof. split; [exact model_decrypts_vector2_le|]. split; [exact spec_decrypt_vector2|discriminate]. Qed.

(* C04 *)
Theorem C04_encrypt_is_csa : forall be m key cw data len buf,
  length cw = 8%nat -> keyed be m key cw -> packet m key data len buf -> len < 2 ^ 31 + 16 ->
  rewrites m (dvbcsa_encrypt be m key data len) data len (csa_encrypt cw buf).
Proof. exact encrypt_is_csa. Qed.
Print Assumptions C04_encrypt_is_csa.
Example C04_case : ex_encrypted true = map Some ct1 /\ csa_encrypt cw1 pt1 = ct1 /\ ct1 <> pt1.
Proof. split; [exact model_encrypts_vector1_be|]. split; [exact spec_encrypt_vector1|discriminate]. Qed.

(* C05: for every length from 2^31+16 on there is a packet that does not survive the round trip *)
Theorem C05_round_trip_refuted : forall len, 2 ^ 31 + 16 <= len < 2 ^ 32 ->
  exists be m key cw data buf m1 m2,
    length cw = 8%nat /\ keyed be m key cw /\ packet m key data len buf /\
    dvbcsa_encrypt be m key data len = Ok m1 /\ dvbcsa_decrypt be m1 key data len = Ok m2 /\
    ~ holds m2 data buf.
Proof. exact large_packet_refutes. Qed.
Print Assumptions C05_round_trip_refuted.
Example C05_case : 2 ^ 31 + 16 <= 0x80000010 < 2 ^ 32.
Proof. vm_compute. split; [discriminate|reflexivity]. Qed.

(* C05, what happens to any such packet: its first block comes back as D(p0) xor p1 *)
Theorem C05_large_packet_behaviour : forall be m key cw data len buf,
  length cw = 8%nat -> keyed be m key cw -> packet m key data len buf -> 2 ^ 31 + 16 <= len ->
  exists m1 m2 out, dvbcsa_encrypt be m key data len = Ok m1 /\ dvbcsa_decrypt be m1 key data len = Ok m2 /\
    holds m2 data out /\ length out = length buf /\
    firstn 8 out = block_bytes (xor_block (block_dec (key_schedule cw) (nth 0 (blocks buf) zero_block))
                                          (nth 1 (blocks buf) zero_block)).
Proof. exact round_trip_large. Qed.
Print Assumptions C05_large_packet_behaviour.

(* C06, classical half: fewer than 8 bytes, whatever the key context *)
Theorem C06_short_packets_classical : forall be m key data len, len < 8 ->
  dvbcsa_encrypt be m key data len = Ok m /\ dvbcsa_decrypt be m key data len = Ok m.
Proof. exact short_packets. Qed.
Print Assumptions C06_short_packets_classical.
Example C06_case : 7 < 8 /\ ~ 8 < 8. Proof. split; [reflexivity|apply N.lt_irrefl]. Qed.

(* C07: with any context contents and any length, nothing outside the payload changes *)
Theorem C07_only_payload_written : forall m key data len,
  bytes_mem m -> mapped m key ctx_size -> mapped m data len -> len < 2 ^ 32 -> disjoint key ctx_size data len ->
  forall be,
  (exists m', dvbcsa_encrypt be m key data len = Ok m' /\ same_outside data len m m') /\
  (exists m', dvbcsa_decrypt be m key data len = Ok m' /\ same_outside data len m m').
Proof. exact safe_frame. Qed.
Print Assumptions C07_only_payload_written.
Example C07_case : bytes_mem ex_mem0 /\ mapped ex_mem0 0x100 ctx_size /\ mapped ex_mem0 0x2a1 184 /\ disjoint 0x100 ctx_size 0x2a1 184.
Proof. exact ex_bytes. Qed.

(* C07, C08, C13, C15: dvbcsa_key_set always returns, writes only the context, and leaves the
   control word at offset 0 and the 56 round-key bytes of the definition at offset 16 *)
Theorem C07_C08_C15_key_set : forall be m cwp key cw,
  length cw = 8%nat -> holds m cwp cw -> mapped m key ctx_size -> cw_source cwp key ->
  exists m', dvbcsa_key_set be m cwp key = Ok m' /\ same_outside key ctx_size m m' /\ keyed be m' key cw /\
             holds m' key cw /\ holds m' (key + 16) (key_schedule cw).
Proof. exact key_set_total. Qed.
Print Assumptions C07_C08_C15_key_set.
Example C15_case : holds ex_mem0 0x10 cw1 /\ mapped ex_mem0 0x100 ctx_size /\ cw_source 0x10 0x100.
Proof. exact (conj (proj1 ex_holds0) (conj (proj2 (proj2 ex_holds0)) ex_source)). Qed.

(* C08: every call returns normally: no undefined behaviour, no abort, no divergence *)
Theorem C08_no_undefined_behaviour : forall be m key data len,
  bytes_mem m -> mapped m key ctx_size -> mapped m data len -> len < 2 ^ 32 -> disjoint key ctx_size data len ->
  (exists m', dvbcsa_encrypt be m key data len = Ok m') /\ (exists m', dvbcsa_decrypt be m key data len = Ok m').
Proof. exact no_ub. Qed.
Print Assumptions C08_no_undefined_behaviour.

(* C09 *)
Theorem C09_residue_encrypt : forall be m key cw data len whole res k,
  length cw = 8%nat -> keyed be m key cw -> packet m key data len (whole ++ res) -> len < 2 ^ 31 + 16 ->
  length whole = (8 * S k)%nat -> (length res < 8)%nat ->
  rewrites m (dvbcsa_encrypt be m key data len) data len
    (csa_encrypt cw whole ++
     xor_bytes res (skipn (8 * k) (keystream cw (firstn 8 (csa_encrypt cw whole)) (8 * k + length res)))).
Proof. exact residue_encrypt. Qed.
Print Assumptions C09_residue_encrypt.

Theorem C09_residue_decrypt : forall be m key cw data len whole res k,
  length cw = 8%nat -> keyed be m key cw -> packet m key data len (whole ++ res) ->
  length whole = (8 * S k)%nat -> (length res < 8)%nat ->
  rewrites m (dvbcsa_decrypt be m key data len) data len
    (csa_decrypt cw whole ++
     xor_bytes res (skipn (8 * k) (keystream cw (firstn 8 whole) (8 * k + length res)))).
Proof. exact residue_decrypt. Qed.
Print Assumptions C09_residue_decrypt.
Example C09_case : length (firstn 16 pt1) = (8 * 2)%nat /\ (length [1;2;3]%N < 8)%nat /\
  csa_encrypt cw1 (firstn 16 pt1 ++ [1;2;3]) <> csa_encrypt cw1 (firstn 16 pt1) ++ [1;2;3].
Proof. split; [reflexivity|]. split; [repeat constructor|]. vm_compute. discriminate. Qed.

(* C10: two ciphertexts that differ in one 8-byte block (not the first) *)
Theorem C10_error_propagation : forall be m m' key cw data len c c' k out out',
  length cw = 8%nat -> keyed be m key cw -> keyed be m' key cw ->
  packet m key data len c -> packet m' key data len c' -> (1 <= k)%nat ->
  (forall n, (n / 8 <> k)%nat -> nth n c 0 = nth n c' 0) ->
  rewrites m (dvbcsa_decrypt be m key data len) data len out ->
  rewrites m' (dvbcsa_decrypt be m' key data len) data len out' ->
  forall i, (i < length c)%nat -> (i / 8 <> k)%nat -> (i / 8 <> k - 1)%nat -> nth i out 0 = nth i out' 0.
Proof. exact error_propagation_api. Qed.
Print Assumptions C10_error_propagation.
Example C10_case : let c := firstn 24 ct1 in let c' := firstn 20 ct1 ++ [0] ++ skipn 21 c in
  length c' = length c /\
  forallb (fun n => N.eqb (nth n c 0) (nth n c' 0) || Nat.eqb (n / 8) 2) (seq 0 24) = true /\
  csa_decrypt cw1 c' <> csa_decrypt cw1 c.
Proof. vm_compute. repeat split; discriminate. Qed.

(* C11: same first 8 ciphertext bytes, same keystream: the XOR of input and output residue agree *)
Theorem C11_same_keystream : forall be m m' key cw data len c c' out out',
  length cw = 8%nat -> keyed be m key cw -> keyed be m' key cw ->
  packet m key data len c -> packet m' key data len c' -> 8 <= len -> firstn 8 c = firstn 8 c' ->
  rewrites m (dvbcsa_decrypt be m key data len) data len out ->
  rewrites m' (dvbcsa_decrypt be m' key data len) data len out' ->
  xor_bytes (residue out) (residue c) = xor_bytes (residue out') (residue c').
Proof. exact same_keystream_api. Qed.
Print Assumptions C11_same_keystream.

(* C11: decrypting only the first n bytes gives the same bytes, except for the last whole block
   (and what follows it) when the packet is cut *)
Theorem C11_prefix_decryption : forall be m m' key cw data data' len n c out out' i,
  length cw = 8%nat -> keyed be m key cw -> keyed be m' key cw ->
  packet m key data len c -> packet m' key data' (N.of_nat n) (firstn n c) -> (n <= length c)%nat ->
  rewrites m (dvbcsa_decrypt be m key data len) data len out ->
  rewrites m' (dvbcsa_decrypt be m' key data' (N.of_nat n)) data' (N.of_nat n) out' ->
  (i + 8 < 8 * (n / 8) \/ (i < 8 * (n / 8) /\ n / 8 = length c / 8))%nat ->
  nth i out' 0 = nth i out 0.
Proof. exact prefix_api. Qed.
Print Assumptions C11_prefix_decryption.
Example C11_case : firstn 20 (csa_decrypt cw1 (firstn 30 ct1)) <> firstn 20 pt1 /\
                   firstn 16 (csa_decrypt cw1 (firstn 30 ct1)) = firstn 16 pt1.
Proof. vm_compute. split; [discriminate|reflexivity]. Qed.

(* C12 *)
Theorem C12_encryption_injective : forall be m m' key cw data len p p' out,
  length cw = 8%nat -> keyed be m key cw -> keyed be m' key cw ->
  packet m key data len p -> packet m' key data len p' -> len < 2 ^ 31 + 16 ->
  rewrites m (dvbcsa_encrypt be m key data len) data len out ->
  rewrites m' (dvbcsa_encrypt be m' key data len) data len out ->
  p = p'.
Proof. exact encrypt_injective_api. Qed.
Print Assumptions C12_encryption_injective.

Theorem C12_encryption_surjective : forall be m key cw data len buf target,
  length cw = 8%nat -> keyed be m key cw -> packet m key data len buf -> len < 2 ^ 31 + 16 ->
  Forall is_byte target -> N.of_nat (length target) = len ->
  exists p, length p = length target /\ forall m', keyed be m' key cw -> packet m' key data len p ->
    rewrites m' (dvbcsa_encrypt be m' key data len) data len target.
Proof. exact encrypt_surjective_api. Qed.
Print Assumptions C12_encryption_surjective.
(* two states with the same keyed context and different packets *)
Example C12_case : exists m m', keyed false m 0x100 cw1 /\ keyed false m' 0x100 cw1 /\
  packet m 0x100 0x2a1 184 pt1 /\ packet m' 0x100 0x2a1 184 ct1 /\ pt1 <> ct1.
Proof.
  destruct (ex_ready false) as (m & _ & K & P & _). exists m, (put m 0x2a1 ct1). split; [exact K|]. split; [|split; [exact P|split; [|discriminate]]].
  - destruct K as (m0 & cwp & m1 & K1 & K2 & K3 & K4 & K5). exists m0, cwp, m1. repeat (split; [assumption|]).
    intros x Hx. rewrite put_out; [apply K5, Hx|]. unfold ctx_size in Hx. lia.
  - destruct P as (_ & _ & P3 & P4). split; [|split; [reflexivity|split; [exact P3|exact P4]]].
    apply holds_put. apply Forall_forall. intros b Hb.
    assert (X : forallb (fun b => b <? 256) ct1 = true) by (vm_compute; reflexivity). rewrite forallb_forall in X. apply N.ltb_lt, X, Hb.
Qed.

(* C13: same control word, any two contexts (any previous contents, any addresses): same bytes *)
Theorem C13_rekeying_forgets : forall be m cwp key m' cwp' key' cw,
  length cw = 8%nat ->
  holds m cwp cw -> mapped m key ctx_size -> cw_source cwp key ->
  holds m' cwp' cw -> mapped m' key' ctx_size -> cw_source cwp' key' ->
  exists m1 m1', dvbcsa_key_set be m cwp key = Ok m1 /\ dvbcsa_key_set be m' cwp' key' = Ok m1' /\
    forall i, i < ctx_size -> m1 (key + i) = m1' (key' + i).
Proof. exact rekey_forgets. Qed.
Print Assumptions C13_rekeying_forgets.
(* a context full of zeros and one full of 0xff bytes *)
Example C13_case : let m' := put ex_mem0 0x100 (repeat 255 72) in
  (holds ex_mem0 0x10 cw1 /\ mapped ex_mem0 0x100 ctx_size) /\ (holds m' 0x10 cw1 /\ mapped m' 0x100 ctx_size) /\
  cw_source 0x10 0x100 /\ ex_mem0 0x100 <> m' 0x100.
Proof.
  cbv zeta. destruct ex_holds0 as (H & _ & M). split; [split; assumption|]. split; [split|split].
  - apply holds_put_disj; [exact H|]. intros x. change (N.of_nat (length cw1)) with 8. rewrite repeat_length. lia.
  - apply mapped_put, M.
  - exact ex_source.
  - rewrite put_in by (rewrite repeat_length; lia). vm_compute. discriminate.
Qed.

(* C14: each of the seven 8-byte groups of round keys is a bit permutation of the control word,
   XORed bytewise with the group number *)
Theorem C14_schedule_is_bit_permutation : exists src : nat -> nat -> nat,
  (forall g j, (g < 7)%nat -> (j < 64)%nat -> (src g j < 64)%nat) /\
  (forall g j j', (g < 7)%nat -> (j < 64)%nat -> (j' < 64)%nat -> src g j = src g j' -> j = j') /\
  forall be m cwp key cw m', length cw = 8%nat -> holds m cwp cw -> mapped m key ctx_size -> cw_source cwp key ->
    dvbcsa_key_set be m cwp key = Ok m' ->
    forall g j, (g < 7)%nat -> (j < 64)%nat ->
    exists b, m' (key + 16 + N.of_nat (8 * g + j / 8)) = Some b /\
      N.testbit b (N.of_nat (j mod 8)) =
      xorb (N.testbit (nth (src g j / 8) cw 0) (N.of_nat (src g j mod 8))) (N.testbit (N.of_nat g) (N.of_nat (j mod 8))).
Proof. exact schedule_is_permutation. Qed.
Print Assumptions C14_schedule_is_bit_permutation.

(* C14: different control words differ in every group *)
Theorem C14_all_bits_used : forall be m cwp key cw m1 m' cwp' key' cw' m1' g,
  length cw = 8%nat -> length cw' = 8%nat -> cw <> cw' ->
  holds m cwp cw -> mapped m key ctx_size -> cw_source cwp key ->
  holds m' cwp' cw' -> mapped m' key' ctx_size -> cw_source cwp' key' ->
  dvbcsa_key_set be m cwp key = Ok m1 -> dvbcsa_key_set be m' cwp' key' = Ok m1' ->
  g < 7 ->
  exists i, 16 + 8 * g <= i < 16 + 8 * g + 8 /\ m1 (key + i) <> m1' (key' + i).
Proof. exact different_cw_different_groups. Qed.
Print Assumptions C14_all_bits_used.
(* the checksum bytes (3 and 7) of a control word matter too *)
Example C14_case : key_schedule [1;2;3;6;4;5;6;15] <> key_schedule [1;2;3;7;4;5;6;15].
Proof. vm_compute. discriminate. Qed.

(* C16 *)
Theorem C16_endian_independent_packets : forall m key data len,
  bytes_mem m -> mapped m key ctx_size -> mapped m data len -> len < 2 ^ 32 -> disjoint key ctx_size data len ->
  (exists m1 m2, dvbcsa_encrypt false m key data len = Ok m1 /\ dvbcsa_encrypt true m key data len = Ok m2 /\ forall x, m1 x = m2 x) /\
  (exists m1 m2, dvbcsa_decrypt false m key data len = Ok m1 /\ dvbcsa_decrypt true m key data len = Ok m2 /\ forall x, m1 x = m2 x).
Proof. exact endian_independent. Qed.
Print Assumptions C16_endian_independent_packets.

Theorem C16_endian_independent_key_set : forall m cwp key,
  bytes_mem m -> mapped m cwp 8 -> mapped m key ctx_size -> cw_source cwp key ->
  exists m1 m2, dvbcsa_key_set false m cwp key = Ok m1 /\ dvbcsa_key_set true m cwp key = Ok m2 /\ forall x, m1 x = m2 x.
Proof. exact key_set_endian. Qed.
Print Assumptions C16_endian_independent_key_set.
Example C16_case : ex_encrypted false = map Some ct1 /\ ex_encrypted true = map Some ct1.
Proof. exact (conj model_encrypts_vector1_le model_encrypts_vector1_be). Qed.

(* C38: the result depends on the control word and the packet contents only, not on any address *)
Theorem C38_address_independent : forall be be' m m' key key' data data' cw len buf,
  length cw = 8%nat -> keyed be m key cw -> keyed be' m' key' cw ->
  packet m key data len buf -> packet m' key' data' len buf -> len < 2 ^ 31 + 16 ->
  (exists out, rewrites m (dvbcsa_encrypt be m key data len) data len out /\
               rewrites m' (dvbcsa_encrypt be' m' key' data' len) data' len out) /\
  (exists out, rewrites m (dvbcsa_decrypt be m key data len) data len out /\
               rewrites m' (dvbcsa_decrypt be' m' key' data' len) data' len out).
Proof. exact address_independent_api. Qed.
Print Assumptions C38_address_independent.
Example C38_case : exists m, keyed false m 0x100 cw1 /\ packet m 0x100 0x2a1 184 pt1 /\ 0x2a1 mod 2 = 1.
Proof. destruct (ex_ready false) as (m & _ & K & P & _). exists m. repeat split; try apply P; assumption. Qed.
