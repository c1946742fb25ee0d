(** Properties_Source.v -- C49: the source text of the classical library, as parsed by
    tools/gen_source.py and run under the C semantics of MiniC.v, is the Common Scrambling Algorithm
    and has no undefined behaviour.  Vocabulary: SourceSpec.v (src_key_set, src_encrypt,
    src_decrypt), Spec.v (the cipher), ApiSpec.v (packet, rewrites, cw_source), Mem.v. *)
From Coq Require Import String.
From Verif Require Import Base Mem Spec ModelClassical ApiSpec ClassicalKey ClassicalFacts ClassicalExamples KnownAnswers MiniC SourceClassical SourceSpec SourceFacts.
Local Open Scope N_scope.

(* C49: after dvbcsa_key_set with any control word, in every later memory that still has the
   context, dvbcsa_decrypt and dvbcsa_encrypt replace any packet by its CSA (de)scrambling *)
Theorem C49_source_is_csa : forall be fuel m cwp key cw,
  length cw = 8%nat -> holds m cwp cw -> mapped m key ctx_size -> cw_source cwp key -> bytes_mem m -> (100 <= fuel)%nat ->
  exists m1, src_key_set be fuel m cwp key = Ok m1 /\ same_outside key ctx_size m m1 /\ holds m1 key cw /\
    forall m2 data len buf fuel, bytes_mem m2 -> same_inside key ctx_size m1 m2 -> packet m2 key data len buf -> enough fuel len ->
      rewrites m2 (src_decrypt be fuel m2 key data len) data len (csa_decrypt cw buf) /\
      (len < 2 ^ 31 + 16 -> rewrites m2 (src_encrypt be fuel m2 key data len) data len (csa_encrypt cw buf)).
Proof. exact source_csa. Qed.
Print Assumptions C49_source_is_csa.

(* C49: no undefined behaviour, whatever the context and the packet contain *)
Theorem C49_source_no_undefined_behaviour : forall be fuel m key data len,
  bytes_mem m -> mapped m key ctx_size -> mapped m data len -> len < 2 ^ 32 -> disjoint key ctx_size data len -> enough fuel len ->
  (exists m', src_encrypt be fuel m key data len = Ok m' /\ same_outside data len m m') /\
  (exists m', src_decrypt be fuel m key data len = Ok m' /\ same_outside data len m m').
Proof. exact source_safe. Qed.
Print Assumptions C49_source_no_undefined_behaviour.

(* C49: the model that the other theorems (C01-C16, ...) are about is refined by the source text *)
Theorem C49_model_is_source : forall be fuel m, bytes_mem m -> (100 <= fuel)%nat ->
  (forall cw key m', dvbcsa_key_set be m cw key = Ok m' -> src_key_set be fuel m cw key = Ok m') /\
  (forall key data len m', len < 2 ^ 32 -> enough fuel len ->
    (dvbcsa_encrypt be m key data len = Ok m' -> src_encrypt be fuel m key data len = Ok m') /\
    (dvbcsa_decrypt be m key data len = Ok m' -> src_decrypt be fuel m key data len = Ok m')).
Proof.
  intros be fuel m B F. split; [intros; eapply key_set_source; eassumption|]. intros key data len m' L G.
  split; intros E; [eapply encrypt_source|eapply decrypt_source]; eassumption.
Qed.
Print Assumptions C49_model_is_source.

(* C49: round trip of the source text *)
Theorem C49_source_round_trip : forall be fuel m key cw data len buf,
  length cw = 8%nat -> keyed be m key cw -> bytes_mem m -> packet m key data len buf -> len < 2 ^ 31 + 16 -> enough fuel len ->
  exists m1 m2, src_encrypt be fuel m key data len = Ok m1 /\ src_decrypt be fuel m1 key data len = Ok m2 /\ forall x, m2 x = m x.
Proof. exact source_round_trip. Qed.
Print Assumptions C49_source_round_trip.

(* a concrete run of the source text: key, then a 24-byte packet at an odd address *)
Example C49_case : forall be, bytes_mem ex_mem0 /\ holds ex_mem0 0x10 cw1 /\ mapped ex_mem0 0x100 ctx_size /\ cw_source 0x10 0x100 /\
  match (m <- src_key_set be 200 ex_mem0 0x10 0x100 ;; src_encrypt be 200 m 0x100 0x2a1 24) with
  | Ok m => dump m 0x2a1 24 = map Some (csa_encrypt cw1 (firstn 24 pt1)) | _ => False end.
Proof.
  intros be. split; [apply ex_bytes|]. split; [apply ex_holds0|]. split; [apply ex_holds0|]. split; [exact ex_source|].
  destruct be; vm_compute; reflexivity.
Qed.

(* C05 of the source text: a packet of 2^31 + 16 bytes or more is not restored, its first block comes back as
   the block decryption of its first block xored with its second *)
Theorem C05_source_large_packet : forall be fuel m key cw data len buf,
  length cw = 8%nat -> keyed be m key cw -> bytes_mem m -> packet m key data len buf -> 2 ^ 31 + 16 <= len -> enough fuel len ->
  exists m1 m2 out, src_encrypt be fuel m key data len = Ok m1 /\ src_decrypt be fuel m1 key data len = Ok m2 /\
    holds m2 data out /\ length out = length buf /\
    firstn 8 out = block_bytes (xor_block (block_dec (key_schedule cw) (nth 0 (blocks buf) zero_block)) (nth 1 (blocks buf) zero_block)).
Proof.
  intros be fuel m key cw data len buf L K B P Hl F.
  destruct (round_trip_large be m key cw data len buf L K P Hl) as (m1 & m2 & out & E1 & E2 & S).
  assert (Hl' : len < 2 ^ 32) by (destruct P as (_ & _ & Q & _); exact Q).
  exists m1, m2, out. split; [exact (encrypt_source _ _ _ _ _ _ _ E1 B Hl' F)|]. split; [|exact S].
  exact (decrypt_source _ _ _ _ _ _ _ E2 (encrypt_keeps _ _ _ _ _ _ E1 B Hl') Hl' F).
Qed.
Print Assumptions C05_source_large_packet.
(* and such packets exist for every such length: encrypting and decrypting then loses the packet *)
Theorem C05_source_refuted : forall len, 2 ^ 31 + 16 <= len < 2 ^ 32 ->
  exists be m key cw data buf,
    length cw = 8%nat /\ keyed be m key cw /\ bytes_mem m /\ packet m key data len buf /\
    forall fuel, enough fuel len -> exists m1 m2,
      src_encrypt be fuel m key data len = Ok m1 /\ src_decrypt be fuel m1 key data len = Ok m2 /\ ~ holds m2 data buf.
Proof.
  intros len HL.
  set (m0 := put (zero_mem (200 + len)) 0 cw1).
  assert (F1 : Forall is_byte cw1) by (repeat constructor).
  destruct (key_set_facts false m0 0 16 cw1) as (m & E & Q).
  - reflexivity.
  - apply holds_put, F1.
  - intros x Hx. unfold ctx_size in Hx. unfold m0. rewrite put_out by (change (length cw1) with 8%nat; lia).
    unfold zero_mem. exists 0. destruct (N.ltb_spec x (200 + len)); [reflexivity|lia].
  - right. intros x Hx. lia.
  - assert (K : keyed false m 16 cw1).
    { exists m0, 0, m. repeat split.
      - exact F1.
      - apply holds_put, F1.
      - intros x Hx. unfold ctx_size in Hx. unfold m0. rewrite put_out by (change (length cw1) with 8%nat; lia).
        unfold zero_mem. exists 0. destruct (N.ltb_spec x (200 + len)); [reflexivity|lia].
      - right. intros x Hx. lia.
      - exact E. }
    set (buf := repeat 0 (N.to_nat len)).
    assert (Lb : N.of_nat (length buf) = len) by (unfold buf; rewrite repeat_length; lia).
    assert (P : packet m 16 100 len buf).
    { repeat split.
      - unfold buf. apply Forall_forall. intros x Hx. apply repeat_spec in Hx. rewrite Hx; reflexivity.
      - intros i Hi. rewrite Q, put_out by (rewrite ctx_bytes_length by reflexivity; lia).
        unfold m0. rewrite put_out by (change (length cw1) with 8%nat; lia). unfold zero_mem.
        destruct (N.ltb_spec (100 + N.of_nat i) (200 + len)); [|lia]. f_equal. symmetry. unfold buf. apply nth_repeat.
      - auto.
      - lia.
      - intros x Hx. unfold ctx_size in Hx. lia. }
    assert (B : bytes_mem m).
    { intros x b Hb. rewrite Q in Hb. unfold put in Hb.
      assert (Z : forall l, Forall is_byte l -> nth (N.to_nat (x - 16)) l 0 < 256 /\ nth (N.to_nat (x - 0)) l 0 < 256).
      { intros l Fl. rewrite Forall_forall in Fl. assert (G : forall k, nth k l 0 < 256); [|split; apply G]. intros k.
        destruct (nth_in_or_default k l 0) as [I|E0]; [apply Fl, I|rewrite E0; reflexivity]. }
      pose proof (ctx_bytes_byte cw1 eq_refl F1) as FC.
      assert (V : forall v, v < 256 -> Some v = Some b -> b < 256) by (intros v Hv X; injection X as <-; exact Hv).
      clear - Hb Z FC F1 V. revert Hb.
      match goal with |- (if ?t then _ else _) = _ -> _ => destruct t end; [apply V, (Z _ FC)|]. unfold m0, put.
      match goal with |- (if ?t then _ else _) = _ -> _ => destruct t end; [apply V, (Z _ F1)|]. unfold zero_mem.
      match goal with |- (if ?t then _ else _) = _ -> _ => destruct t end; [apply V; reflexivity|discriminate]. }
    exists false, m, 16, cw1, 100, buf. split; [reflexivity|]. split; [exact K|]. split; [exact B|]. split; [exact P|].
    intros fuel En.
    destruct (C05_source_large_packet false fuel m 16 cw1 100 len buf eq_refl K B P ltac:(lia) En) as (m1 & m2 & out & E1 & E2 & H2 & Lo & F).
    exists m1, m2. split; [exact E1|]. split; [exact E2|]. intros HB.
    assert (EO : out = buf) by (eapply holds_inj; eauto). rewrite EO in F.
    unfold buf in F. rewrite blocks_zero, blocks_zero1 in F by lia.
    assert (G : exists n, N.to_nat len = (8 + n)%nat) by (exists (N.to_nat len - 8)%nat; lia).
    destruct G as [n G]. rewrite G in F.
    assert (X : firstn 8 (repeat 0 (8 + n)) = repeat 0 8) by reflexivity. rewrite X in F.
    vm_compute in F. discriminate F.
Qed.
Print Assumptions C05_source_refuted.
