(** SourceFacts.v -- the API functions of the source text, composed with the facts about the model. *)
From Coq Require Import String.
From Verif Require Import Base Mem Spec ModelClassical ApiSpec ClassicalKey ClassicalFacts MiniC MiniCFrame MiniCRun SourceClassical SourceSpec SourceRun SourceStream SourceAlgo.
Local Open Scope string_scope. Local Open Scope N_scope.
#[local] Opaque link.

Lemma key_set_source be fuel m cw key m' : dvbcsa_key_set be m cw key = Ok m' -> bytes_mem m -> (100 <= fuel)%nat -> src_key_set be fuel m cw key = Ok m'.
Proof.
  intros E B F. unfold src_key_set, run_source, byte_ptr, key_ptr. rewrite <- p_enc_all.
  assert (K : lk be fuel (p_enc be) "dvbcsa_key_set" [u8p cw; keyp key] (mk_cst m []) = Ok (None, mk_cst m' [])); [|rewrite K; reflexivity].
  goto. exact (keyset_ok be fuel m cw key m' [] E B F).
Qed.
Lemma decrypt_source be fuel m key data len m' : dvbcsa_decrypt be m key data len = Ok m' -> bytes_mem m -> len < 2 ^ 32 -> enough fuel len -> src_decrypt be fuel m key data len = Ok m'.
Proof.
  intros E B L [F1 F2]. unfold src_decrypt, run_source, byte_ptr, key_ptr, uint. rewrite <- p_enc_all.
  assert (K : lk be fuel (p_enc be) "dvbcsa_decrypt" [keyp key; u8p data; VInt U32 len] (mk_cst m []) = Ok (None, mk_cst m' [])); [|rewrite K; reflexivity].
  goto. exact (decrypt_ok be fuel m key data len m' [] E B F1 L F2).
Qed.
Lemma encrypt_source be fuel m key data len m' : dvbcsa_encrypt be m key data len = Ok m' -> bytes_mem m -> len < 2 ^ 32 -> enough fuel len -> src_encrypt be fuel m key data len = Ok m'.
Proof.
  intros E B L [F1 F2]. unfold src_encrypt, run_source, byte_ptr, key_ptr, uint. rewrite <- p_enc_all.
  rewrite (encrypt_ok be fuel m key data len m' [] E B F1 L F2). reflexivity.
Qed.

Lemma decrypt_keeps be m key data len m' : dvbcsa_decrypt be m key data len = Ok m' -> bytes_mem m -> len < 2 ^ 32 -> bytes_mem m'.
Proof.
  intros E B Hl. unfold dvbcsa_decrypt in E. cbn zeta in E. destruct (len <? 8) eqn:L8; [okj E; exact B|].
  gob E. destruct a1 as [i' m2]. okj E. rename a into m1, a0 into m2. pose proof (mask_le len) as Ha.
  assert (B1 : bytes_mem m1) by (eapply stream_keeps; [eassumption|exact B|lia]). assert (B2 : bytes_mem m2) by (eapply bdec_keeps; eassumption).
  assert (K : dinv (i', m') /\ (i' <? N.land len 0xfffffff8) = false); [|apply K].
  refine (while_inv dinv _ (dbody be key data) _ _ _ E2 _ _); [split; [apply N.le_refl|split; [reflexivity|exact B2]]|].
  intros [i m3] x' J C F. apply N.ltb_lt in C. exact (proj1 (dbody_run _ _ _ _ _ _ F J C Ha)).
Qed.
Lemma encrypt_keeps be m key data len m' : dvbcsa_encrypt be m key data len = Ok m' -> bytes_mem m -> len < 2 ^ 32 -> bytes_mem m'.
Proof.
  intros E B Hl. unfold dvbcsa_encrypt in E. cbn zeta in E. destruct (len <? 8) eqn:L8; [okj E; exact B|].
  gob E. destruct a0 as [i' m2]. rename a into m1. assert (B1 : bytes_mem m1) by (eapply benc_keeps; eassumption).
  destruct (wrap_to_int (u32 (N.land len 0xfffffff8 + 2 ^ 32 - 16)) ltac:(apply N.mod_lt; discriminate)) as [Hw Hi].
  eapply stream_keeps; [exact E| |lia].
  assert (K : einv (i', m2) /\ (0 <=? i')%Z = false); [|apply K].
  refine (while_inv einv _ (ebody be key data) _ _ _ E1 _ _); [split; assumption|]. intros [z m3] x' J C F. apply Z.leb_le in C. exact (proj1 (ebody_run _ _ _ _ _ F J C)).
Qed.

Lemma source_csa be fuel m cwp key cw : length cw = 8%nat -> holds m cwp cw -> mapped m key ctx_size -> cw_source cwp key -> bytes_mem m -> (100 <= fuel)%nat ->
  exists m1, src_key_set be fuel m cwp key = Ok m1 /\ same_outside key ctx_size m m1 /\ holds m1 key cw /\
    forall m2 data len buf fuel, bytes_mem m2 -> same_inside key ctx_size m1 m2 -> packet m2 key data len buf -> enough fuel len ->
      rewrites m2 (src_decrypt be fuel m2 key data len) data len (csa_decrypt cw buf) /\
      (len < 2 ^ 31 + 16 -> rewrites m2 (src_encrypt be fuel m2 key data len) data len (csa_encrypt cw buf)).
Proof.
  intros L H M A B F. destruct (key_set_total be m cwp key cw L H M A) as (m1 & E & S & K & Hk & _).
  exists m1. split; [exact (key_set_source _ _ _ _ _ _ E B F)|]. split; [exact S|]. split; [exact Hk|].
  intros m2 data len buf fuel2 B2 I2 P F2.
  assert (K2 : keyed be m2 key cw) by (exists m, cwp, m1; repeat split; assumption || apply H || exact I2).
  assert (Hl : len < 2 ^ 32) by (destruct P as (_ & _ & Hl & _); exact Hl). split.
  - destruct (decrypt_is_csa be m2 key cw data len buf L K2 P) as (m3 & E3 & R). exists m3. split; [exact (decrypt_source _ _ _ _ _ _ _ E3 B2 Hl F2)|exact R].
  - intros L2. destruct (encrypt_is_csa be m2 key cw data len buf L K2 P L2) as (m3 & E3 & R). exists m3. split; [exact (encrypt_source _ _ _ _ _ _ _ E3 B2 Hl F2)|exact R].
Qed.
Lemma source_safe be fuel m key data len : bytes_mem m -> mapped m key ctx_size -> mapped m data len -> len < 2 ^ 32 -> disjoint key ctx_size data len -> enough fuel len ->
  (exists m', src_encrypt be fuel m key data len = Ok m' /\ same_outside data len m m') /\
  (exists m', src_decrypt be fuel m key data len = Ok m' /\ same_outside data len m m').
Proof.
  intros B K D L X F. destruct (safe_frame m key data len B K D L X be) as [(m1 & E1 & S1) (m2 & E2 & S2)]. split.
  - exists m1. split; [exact (encrypt_source _ _ _ _ _ _ _ E1 B L F)|exact S1].
  - exists m2. split; [exact (decrypt_source _ _ _ _ _ _ _ E2 B L F)|exact S2].
Qed.
Lemma source_round_trip be fuel m key cw data len buf : length cw = 8%nat -> keyed be m key cw -> bytes_mem m -> packet m key data len buf -> len < 2 ^ 31 + 16 -> enough fuel len ->
  exists m1 m2, src_encrypt be fuel m key data len = Ok m1 /\ src_decrypt be fuel m1 key data len = Ok m2 /\ forall x, m2 x = m x.
Proof.
  intros L K B P Hl F. destruct (dec_after_enc be m key cw data len buf L K P Hl) as (m1 & m2 & E1 & E2 & S).
  assert (Hl' : len < 2 ^ 32) by (destruct P as (_ & _ & Q & _); exact Q).
  exists m1, m2. split; [exact (encrypt_source _ _ _ _ _ _ _ E1 B Hl' F)|]. split; [|exact S].
  exact (decrypt_source _ _ _ _ _ _ _ E2 (encrypt_keeps _ _ _ _ _ _ E1 B Hl') Hl' F).
Qed.
