(** ClassicalFacts.v -- proofs behind Properties_Classical.v *)
From Coq Require Import ZifyBool ZifyNat ZifyN.
From Verif Require Import Base Mem Tables Spec ModelClassical ClassicalBlock ClassicalKey ClassicalStream SpecLemmas ClassicalAlgo SpecFacts ApiSpec KnownAnswers.
Local Open Scope N_scope.

Lemma key_set_facts be m cwp key cw :
  length cw = 8%nat -> holds m cwp cw -> mapped m key ctx_size -> cw_source cwp key ->
  exists m1, dvbcsa_key_set be m cwp key = Ok m1 /\ meq m1 (put m key (ctx_bytes cw)).
Proof.
  intros L H M A. apply wp_ok. apply key_set_ok; assumption.
Qed.

Lemma keyed_ctx be m key cw : length cw = 8%nat -> keyed be m key cw -> holds m key (ctx_bytes cw).
Proof.
  intros L (m0 & cwp & m1 & H & M & A & E & S).
  destruct (key_set_facts be m0 cwp key cw L H M A) as (m2 & E2 & Q). rewrite E in E2. injection E2 as <-.
  eapply holds_ext.
  - eapply holds_meq; [apply meq_sym; exact Q|]. apply holds_put, ctx_bytes_byte; [exact L|exact (proj1 H)].
  - rewrite ctx_bytes_length by exact L. intros x Hx. apply S. exact Hx.
Qed.

Lemma keyed_bytes be m key cw : keyed be m key cw -> Forall is_byte cw.
Proof. intros (m0 & cwp & m1 & H & _). exact (proj1 H). Qed.

Lemma put_same_outside m m' data len l : meq m' (put m data l) -> N.of_nat (length l) = len -> same_outside data len m m'.
Proof. intros E <- x Hx. rewrite E. apply put_out. exact Hx. Qed.

Lemma rewrites_of_wp m r data len out : wp r (fun m' => meq m' (put m data out)) -> Forall is_byte out ->
  N.of_nat (length out) = len -> rewrites m r data len out.
Proof.
  intros W F L. apply wp_ok in W as (m' & E & Q). exists m'. repeat split; auto.
  - eapply holds_meq; [apply meq_sym; exact Q|]. apply holds_put, F.
  - eapply put_same_outside; eauto.
Qed.

Lemma decrypt_is_csa be m key cw data len buf :
  length cw = 8%nat -> keyed be m key cw -> packet m key data len buf ->
  rewrites m (dvbcsa_decrypt be m key data len) data len (csa_decrypt cw buf).
Proof.
  intros L K (H & El & Hl & D). pose proof (keyed_ctx _ _ _ _ L K) as C.
  apply rewrites_of_wp.
  - apply decrypt_ok; assumption.
  - apply csa_decrypt_bytes; [exact L|eapply keyed_bytes; eauto|exact (proj1 H)].
  - rewrite csa_decrypt_length; auto.
Qed.

Lemma encrypt_is_csa be m key cw data len buf :
  length cw = 8%nat -> keyed be m key cw -> packet m key data len buf -> len < 2 ^ 31 + 16 ->
  rewrites m (dvbcsa_encrypt be m key data len) data len (csa_encrypt cw buf).
Proof.
  intros L K (H & El & _ & D) Hl. pose proof (keyed_ctx _ _ _ _ L K) as C.
  apply rewrites_of_wp.
  - apply encrypt_ok; assumption.
  - apply csa_encrypt_bytes; [exact L|eapply keyed_bytes; eauto|exact (proj1 H)].
  - rewrite csa_encrypt_length; auto.
Qed.

(* contexts survive packet calls *)
Lemma keyed_ext be m m' key cw : keyed be m key cw -> same_inside key ctx_size m m' -> keyed be m' key cw.
Proof.
  intros (m0 & cwp & m1 & H & M & A & E & S) S'. exists m0, cwp, m1. repeat split; auto; try apply H.
  intros x Hx. rewrite (S' x Hx). apply S. exact Hx.
Qed.
Lemma outside_keyed be m m' key cw data len : keyed be m key cw -> same_outside data len m m' ->
  disjoint key ctx_size data len -> keyed be m' key cw.
Proof.
  intros K S D. eapply keyed_ext; [exact K|]. intros x Hx. apply S. intros Hd. apply (D x). tauto.
Qed.

Lemma holds_outside_meq m m2 data len buf :
  holds m data buf -> len = N.of_nat (length buf) -> holds m2 data buf -> same_outside data len m m2 -> forall x, m2 x = m x.
Proof.
  intros H El H2 S x.
  destruct (N.le_gt_cases data x) as [A|A]; [|apply S; lia].
  destruct (N.lt_ge_cases x (data + len)) as [B|B]; [|apply S; lia].
  destruct H as [_ H], H2 as [_ H2]. specialize (H (N.to_nat (x - data)) ltac:(lia)).
  specialize (H2 (N.to_nat (x - data)) ltac:(lia)).
  replace (data + N.of_nat (N.to_nat (x - data))) with x in * by lia. congruence.
Qed.

Lemma same_outside_trans a n m m1 m2 : same_outside a n m m1 -> same_outside a n m1 m2 -> same_outside a n m m2.
Proof. intros H K x Hx. rewrite (K x Hx). apply H, Hx. Qed.

Lemma dec_after_enc be m key cw data len buf :
  length cw = 8%nat -> keyed be m key cw -> packet m key data len buf -> len < 2 ^ 31 + 16 ->
  exists m1 m2, dvbcsa_encrypt be m key data len = Ok m1 /\ dvbcsa_decrypt be m1 key data len = Ok m2 /\
                forall x, m2 x = m x.
Proof.
  intros L K P Hl. destruct (encrypt_is_csa _ _ _ _ _ _ _ L K P Hl) as (m1 & E1 & H1 & L1 & S1).
  destruct P as (H & El & Hl' & D).
  destruct (decrypt_is_csa be m1 key cw data len (csa_encrypt cw buf) L) as (m2 & E2 & H2 & L2 & S2).
  { eapply outside_keyed; eauto. }
  { repeat split; auto; apply H1. }
  exists m1, m2. repeat split; auto. rewrite csa_dec_enc in H2.
  eapply holds_outside_meq; eauto using same_outside_trans.
Qed.

Lemma enc_after_dec be m key cw data len buf :
  length cw = 8%nat -> keyed be m key cw -> packet m key data len buf -> len < 2 ^ 31 + 16 ->
  exists m1 m2, dvbcsa_decrypt be m key data len = Ok m1 /\ dvbcsa_encrypt be m1 key data len = Ok m2 /\
                forall x, m2 x = m x.
Proof.
  intros L K P Hl. destruct (decrypt_is_csa _ _ _ _ _ _ _ L K P) as (m1 & E1 & H1 & L1 & S1).
  destruct P as (H & El & Hl' & D).
  destruct (encrypt_is_csa be m1 key cw data len (csa_decrypt cw buf) L) as (m2 & E2 & H2 & L2 & S2); auto.
  { eapply outside_keyed; eauto. }
  { repeat split; auto; apply H1. }
  exists m1, m2. repeat split; auto. rewrite csa_enc_dec in H2.
  eapply holds_outside_meq; eauto using same_outside_trans.
Qed.

(** ** arbitrary contexts: safety, frame, endianness *)
Lemma swap_nibbles_invol b : is_byte b -> swap_nibbles (swap_nibbles b) = b.
Proof.
  unfold is_byte, swap_nibbles; intros H.
  assert (b mod 16 < 16) by (apply N.mod_lt; lia).
  assert (b / 16 < 16) by (apply N.div_lt_upper_bound; lia).
  assert (E1 : (16 * (b mod 16) + b / 16) mod 16 = b / 16)
    by (rewrite N.add_comm, N.mul_comm, N.mod_add by lia; apply N.mod_small; assumption).
  assert (E2 : (16 * (b mod 16) + b / 16) / 16 = b mod 16)
    by (rewrite N.add_comm, N.mul_comm, N.div_add by lia; rewrite (N.div_small (b / 16)) by assumption; reflexivity).
  rewrite E1, E2. pose proof (N.div_mod b 16 ltac:(lia)). lia.
Qed.

Lemma any_context m key : bytes_mem m -> mapped m key ctx_size ->
  exists cw kk, length cw = 8%nat /\ Forall is_byte cw /\ holds m (key + 8) (map swap_nibbles cw) /\
                length kk = 56%nat /\ holds m (key + 16) kk.
Proof.
  intros B M.
  destruct (holds_of_mapped m (key + 8) 8 B) as (c & Lc & Hc); [intros x Hx; apply M; unfold ctx_size; lia|].
  destruct (holds_of_mapped m (key + 16) 56 B) as (kk & Lk & Hk); [intros x Hx; apply M; unfold ctx_size; lia|].
  exists (map swap_nibbles c), kk. rewrite map_length. repeat split; auto.
  - rewrite Forall_map. eapply Forall_impl; [|exact (proj1 Hc)]. apply swap_nibbles_byte.
  - rewrite map_map. rewrite Forall_map. eapply Forall_impl; [|exact (proj1 Hc)].
    intros a Ha; rewrite swap_nibbles_invol; auto.
  - rewrite map_map. erewrite map_ext_in; [rewrite map_id; apply Hc|].
    intros a Ha. apply swap_nibbles_invol. pose proof (proj1 Hc) as F. rewrite Forall_forall in F. auto.
  - exact (proj1 Hk).
  - apply Hk.
Qed.

Lemma any_payload m data len : bytes_mem m -> mapped m data len ->
  exists buf, len = N.of_nat (length buf) /\ holds m data buf.
Proof.
  intros B M. destruct (holds_of_mapped m data (N.to_nat len) B) as (l & L & H).
  - rewrite N2Nat.id. exact M.
  - exists l. split; [lia|exact H].
Qed.

Lemma csa_decrypt_ctx_length cw kk d : length (csa_decrypt_ctx cw kk d) = length d.
Proof.
  unfold csa_decrypt_ctx. destruct (Nat.ltb (length d) 8); [reflexivity|].
  rewrite block_layer_length by apply rcbc_dec_length. apply stream_cipher_length.
Qed.

Lemma enc_out_length cw kk buf : length kk = 56%nat ->
  length (if N.of_nat (length buf) <? 8 then buf else stream_cipher cw (enc_block_part kk buf)) = length buf.
Proof.
  intros Lk. destruct (N.ltb_spec (N.of_nat (length buf)) 8); [reflexivity|].
  rewrite stream_cipher_length. unfold enc_block_part.
  destruct (N.of_nat (length buf) <? 2 ^ 31 + 16).
  - apply block_layer_length, rcbc_enc_length.
  - apply enc_partial_length; first [lia|apply Nat.le_sub_l].
Qed.

Lemma decrypt_any m key data len :
  bytes_mem m -> mapped m key ctx_size -> mapped m data len -> len < 2 ^ 32 -> disjoint key ctx_size data len ->
  exists out, (forall be, exists m', dvbcsa_decrypt be m key data len = Ok m' /\ meq m' (put m data out)) /\
              N.of_nat (length out) = len.
Proof.
  intros B Mk Md Hl D. destruct (any_context m key B Mk) as (cw & kk & Lc & Fc & Hc & Lk & Hk).
  destruct (any_payload m data len B Md) as (buf & El & Hb).
  exists (csa_decrypt_ctx cw kk buf). split; [|rewrite csa_decrypt_ctx_length; auto].
  intros be'. apply wp_ok. apply decrypt_ctx_ok; assumption.
Qed.

Lemma encrypt_any m key data len :
  bytes_mem m -> mapped m key ctx_size -> mapped m data len -> len < 2 ^ 32 -> disjoint key ctx_size data len ->
  exists out, (forall be, exists m', dvbcsa_encrypt be m key data len = Ok m' /\ meq m' (put m data out)) /\
              N.of_nat (length out) = len.
Proof.
  intros B Mk Md Hl D. destruct (any_context m key B Mk) as (cw & kk & Lc & Fc & Hc & Lk & Hk).
  destruct (any_payload m data len B Md) as (buf & El & Hb).
  exists (if len <? 8 then buf else stream_cipher cw (enc_block_part kk buf)).
  split; [|subst len; rewrite enc_out_length; auto].
  intros be'. apply wp_ok. apply encrypt_ctx_ok; assumption.
Qed.

(** ** very long packets *)
Lemma nth_block_enc_partial kk c k j : (j < k)%nat -> (k < length c / 8)%nat ->
  length (enc_partial kk c k) = length c ->
  nth j (blocks (enc_partial kk c k)) zero_block = nth j (blocks c) zero_block.
Proof.
  intros Hj Hk L. assert (B : (8 * (length c / 8) <= length c)%nat) by (apply Nat.mul_div_le; lia).
  assert (H8 : (8 <= length c)%nat) by lia.
  rewrite <- !block_at_nth by (rewrite ?L; lia).
  f_equal. unfold enc_partial.
  assert (Lf : length (firstn (8 * k) c) = (8 * k)%nat) by (rewrite firstn_length; lia).
  rewrite skipn_app, Lf. replace (8 * j - 8 * k)%nat with 0%nat by lia. rewrite skipn_O.
  rewrite firstn_app_le by (rewrite skipn_length, Lf; lia).
  rewrite skipn_firstn_comm, firstn_firstn. f_equal. lia.
Qed.

(* for len >= 2^31+16 the first block of decrypt(encrypt(p)) is block_dec(p_0) xor p_1 *)
Lemma round_trip_large be m key cw data len buf :
  length cw = 8%nat -> keyed be m key cw -> packet m key data len buf -> 2 ^ 31 + 16 <= len ->
  exists m1 m2 out, dvbcsa_encrypt be m key data len = Ok m1 /\ dvbcsa_decrypt be m1 key data len = Ok m2 /\
    holds m2 data out /\ length out = length buf /\
    firstn 8 out = block_bytes (xor_block (block_dec (key_schedule cw) (nth 0 (blocks buf) zero_block)) (nth 1 (blocks buf) zero_block)).
Proof.
  intros L K (H & El & Hl & D) HL. pose proof (keyed_ctx _ _ _ _ L K) as C.
  assert (Fcw := keyed_bytes _ _ _ _ K).
  pose proof (encrypt_general be m key data len cw buf L C H El Hl D) as W.
  apply wp_ok in W as (m1 & E1 & Q1).
  destruct (N.ltb_spec len 8) as [Z|_]; [lia|].
  set (X := enc_block_part (key_schedule cw) buf) in *.
  assert (EX : X = enc_partial (key_schedule cw) buf (length buf / 8 - 1)).
  { unfold X, enc_block_part. rewrite <- El. destruct (N.ltb_spec len (2 ^ 31 + 16)); [lia|reflexivity]. }
  assert (LB : (8 <= length buf)%nat) by lia.
  assert (LX : length X = length buf) by (rewrite EX; apply enc_partial_length; first [assumption|apply Nat.le_sub_l|apply key_schedule_length, L]).
  assert (Hs := ctx_sched _ _ _ L C).
  assert (FX : Forall is_byte X) by (rewrite EX; apply (enc_partial_bytes m key (key_schedule cw) Hs buf (proj1 H))).
  assert (S1 : same_outside data len m m1).
  { eapply put_same_outside; [exact Q1|]. rewrite stream_cipher_length, LX. auto. }
  destruct (decrypt_is_csa be m1 key cw data len (stream_cipher cw X) L) as (m2 & E2 & H2 & L2 & S2).
  { eapply outside_keyed; eauto. }
  { repeat split; auto.
    - apply stream_cipher_bytes, FX.
    - eapply (holds_meq (put m data (stream_cipher cw X))); [apply meq_sym, Q1|].
      apply holds_put, stream_cipher_bytes, FX.
    - rewrite stream_cipher_length, LX. exact El. }
  exists m1, m2, (csa_decrypt cw (stream_cipher cw X)). repeat split; auto; try apply H2.
  { rewrite csa_decrypt_length, stream_cipher_length. exact LX. }
  assert (K3 : (3 <= length buf / 8)%nat) by (apply Nat.div_le_lower_bound; lia).
  unfold csa_decrypt. rewrite stream_cipher_length, LX.
  replace (length buf <? 8)%nat with false by (symmetry; apply Nat.ltb_ge; lia).
  rewrite stream_cipher_involutive by lia. unfold block_layer.
  rewrite firstn_app_le by (rewrite unblocks_length, rcbc_dec_length, blocks_length, LX; lia).
  change 8%nat with (8 * 1)%nat at 1. rewrite firstn_unblocks.
  assert (B0 : nth 0 (blocks X) zero_block = nth 0 (blocks buf) zero_block) by (rewrite EX in *; apply nth_block_enc_partial; lia).
  assert (B1 : nth 1 (blocks X) zero_block = nth 1 (blocks buf) zero_block) by (rewrite EX in *; apply nth_block_enc_partial; lia).
  rewrite <- B0, <- B1. clearbody X.
  assert (LBX : (2 <= length (blocks X))%nat) by (rewrite blocks_length, LX; lia).
  destruct (blocks X) as [|x0 [|x1 xs]]; simpl in LBX; try lia.
  cbn [rcbc_dec firstn hd nth]. unfold unblocks. cbn [map concat]. apply app_nil_r.
Qed.

Lemma blocks_zero n : (8 <= n)%nat -> nth 0 (blocks (repeat 0 n)) zero_block = zero_block.
Proof. intros H. do 8 (destruct n as [|n]; [lia|]). reflexivity. Qed.
Lemma blocks_zero1 n : (16 <= n)%nat -> nth 1 (blocks (repeat 0 n)) zero_block = zero_block.
Proof. intros H. do 16 (destruct n as [|n]; [lia|]). reflexivity. Qed.

(* a memory with control word [cw] at address 0, zeros elsewhere below [top] *)
Definition zero_mem (top : N) : mem := fun x => if x <? top then Some 0 else None.

Lemma large_packet_refutes len : 2 ^ 31 + 16 <= len < 2 ^ 32 ->
  exists be m key cw data buf m1 m2,
    length cw = 8%nat /\ keyed be m key cw /\ packet m key data len buf /\
    dvbcsa_encrypt be m key data len = Ok m1 /\ dvbcsa_decrypt be m1 key data len = Ok m2 /\
    ~ holds m2 data buf.
Proof.
  intros HL.
  set (m0 := put (zero_mem (200 + len)) 0 cw1).
  assert (F1 : Forall is_byte cw1) by (repeat constructor).
  destruct (key_set_facts false m0 0 16 cw1) as (m & E & Q).
  - reflexivity.
  - apply holds_put, F1.
  - intros x Hx. unfold ctx_size in Hx. unfold m0. rewrite put_out by (change (length cw1) with 8%nat; lia).
    unfold zero_mem. exists 0. destruct (N.ltb_spec x (200 + len)); [reflexivity|lia].
  - right. intros x Hx. lia.
  - assert (K : keyed false m 16 cw1).
    { exists m0, 0, m. repeat split.
      - exact F1.
      - apply holds_put, F1.
      - intros x Hx. unfold ctx_size in Hx. unfold m0. rewrite put_out by (change (length cw1) with 8%nat; lia).
        unfold zero_mem. exists 0. destruct (N.ltb_spec x (200 + len)); [reflexivity|lia].
      - right. intros x Hx. lia.
      - exact E. }
    set (buf := repeat 0 (N.to_nat len)).
    assert (Lb : N.of_nat (length buf) = len) by (unfold buf; rewrite repeat_length; lia).
    assert (P : packet m 16 100 len buf).
    { repeat split.
      - unfold buf. apply Forall_forall. intros x Hx. apply repeat_spec in Hx. rewrite Hx; reflexivity.
      - intros i Hi. rewrite Q, put_out by (rewrite ctx_bytes_length by reflexivity; lia).
        unfold m0. rewrite put_out by (change (length cw1) with 8%nat; lia). unfold zero_mem.
        destruct (N.ltb_spec (100 + N.of_nat i) (200 + len)); [|lia]. f_equal. symmetry. unfold buf. apply nth_repeat.
      - auto.
      - lia.
      - intros x Hx. unfold ctx_size in Hx. lia. }
    destruct (round_trip_large false m 16 cw1 100 len buf eq_refl K P ltac:(lia)) as (m1 & m2 & out & E1 & E2 & H2 & Lo & F).
    exists false, m, 16, cw1, 100, buf, m1, m2.
    split; [reflexivity|]. split; [exact K|]. split; [exact P|]. split; [exact E1|]. split; [exact E2|]. intros HB.
    assert (EO : out = buf) by (eapply holds_inj; eauto). rewrite EO in F.
    unfold buf in F. rewrite blocks_zero, blocks_zero1 in F by lia.
    assert (G : exists n, N.to_nat len = (8 + n)%nat) by (exists (N.to_nat len - 8)%nat; lia).
    destruct G as [n G]. rewrite G in F.
    assert (X : firstn 8 (repeat 0 (8 + n)) = repeat 0 8) by reflexivity. rewrite X in F.
    vm_compute in F. discriminate F.
Qed.

(** ** statements used verbatim by Properties_Classical.v *)
Lemma key_set_total be m cwp key cw :
  length cw = 8%nat -> holds m cwp cw -> mapped m key ctx_size -> cw_source cwp key ->
  exists m', dvbcsa_key_set be m cwp key = Ok m' /\ same_outside key ctx_size m m' /\ keyed be m' key cw /\
             holds m' key cw /\ holds m' (key + 16) (key_schedule cw).
Proof.
  intros L H M A. destruct (key_set_facts be m cwp key cw L H M A) as (m' & E & Q). exists m'.
  assert (C : holds m' key (ctx_bytes cw)).
  { eapply holds_meq; [apply meq_sym, Q|]. apply holds_put, ctx_bytes_byte; [exact L|exact (proj1 H)]. }
  split; [exact E|]. split; [|split; [|split]].
  - eapply put_same_outside; [exact Q|]. rewrite ctx_bytes_length by exact L. reflexivity.
  - exists m, cwp, m'. repeat split; auto; apply H.
  - unfold ctx_bytes in C. apply holds_app in C as [C _]. exact C.
  - apply ctx_sched; assumption.
Qed.

Lemma safe_frame m key data len :
  bytes_mem m -> mapped m key ctx_size -> mapped m data len -> len < 2 ^ 32 -> disjoint key ctx_size data len ->
  forall be,
  (exists m', dvbcsa_encrypt be m key data len = Ok m' /\ same_outside data len m m') /\
  (exists m', dvbcsa_decrypt be m key data len = Ok m' /\ same_outside data len m m').
Proof.
  intros B Mk Md Hl D be. split.
  - destruct (encrypt_any m key data len B Mk Md Hl D) as (out & W & L). destruct (W be) as (m' & E & Q).
    exists m'. split; [exact E|]. eapply put_same_outside; eauto.
  - destruct (decrypt_any m key data len B Mk Md Hl D) as (out & W & L). destruct (W be) as (m' & E & Q).
    exists m'. split; [exact E|]. eapply put_same_outside; eauto.
Qed.

Lemma endian_independent m key data len :
  bytes_mem m -> mapped m key ctx_size -> mapped m data len -> len < 2 ^ 32 -> disjoint key ctx_size data len ->
  (exists m1 m2, dvbcsa_encrypt false m key data len = Ok m1 /\ dvbcsa_encrypt true m key data len = Ok m2 /\ forall x, m1 x = m2 x) /\
  (exists m1 m2, dvbcsa_decrypt false m key data len = Ok m1 /\ dvbcsa_decrypt true m key data len = Ok m2 /\ forall x, m1 x = m2 x).
Proof.
  intros B Mk Md Hl D. split.
  - destruct (encrypt_any m key data len B Mk Md Hl D) as (out & W & L).
    destruct (W false) as (m1 & E1 & Q1). destruct (W true) as (m2 & E2 & Q2).
    exists m1, m2. repeat split; auto. intros x. rewrite Q1, Q2. reflexivity.
  - destruct (decrypt_any m key data len B Mk Md Hl D) as (out & W & L).
    destruct (W false) as (m1 & E1 & Q1). destruct (W true) as (m2 & E2 & Q2).
    exists m1, m2. repeat split; auto. intros x. rewrite Q1, Q2. reflexivity.
Qed.

Lemma key_set_endian m cwp key :
  bytes_mem m -> mapped m cwp 8 -> mapped m key ctx_size -> cw_source cwp key ->
  exists m1 m2, dvbcsa_key_set false m cwp key = Ok m1 /\ dvbcsa_key_set true m cwp key = Ok m2 /\ forall x, m1 x = m2 x.
Proof.
  intros B Mc Mk A. destruct (any_payload m cwp 8 B Mc) as (cw & L & H).
  destruct (key_set_facts false m cwp key cw ltac:(lia) H Mk A) as (m1 & E1 & Q1).
  destruct (key_set_facts true m cwp key cw ltac:(lia) H Mk A) as (m2 & E2 & Q2).
  exists m1, m2. repeat split; auto. intros x. rewrite Q1, Q2. reflexivity.
Qed.

Lemma rekey_forgets be m cwp key m' cwp' key' cw :
  length cw = 8%nat ->
  holds m cwp cw -> mapped m key ctx_size -> cw_source cwp key ->
  holds m' cwp' cw -> mapped m' key' ctx_size -> cw_source cwp' key' ->
  exists m1 m1', dvbcsa_key_set be m cwp key = Ok m1 /\ dvbcsa_key_set be m' cwp' key' = Ok m1' /\
    forall i, i < ctx_size -> m1 (key + i) = m1' (key' + i).
Proof.
  intros L H Mk A H' Mk' A'.
  destruct (key_set_facts be m cwp key cw L H Mk A) as (m1 & E1 & Q1).
  destruct (key_set_facts be m' cwp' key' cw L H' Mk' A') as (m2 & E2 & Q2).
  exists m1, m2. repeat split; auto. unfold ctx_size. intros i Hi. rewrite Q1, Q2.
  rewrite !put_in by (rewrite ctx_bytes_length by exact L; lia). do 2 f_equal. lia.
Qed.

Lemma schedule_is_permutation : exists src : nat -> nat -> nat,
  (forall g j, (g < 7)%nat -> (j < 64)%nat -> (src g j < 64)%nat) /\
  (forall g j j', (g < 7)%nat -> (j < 64)%nat -> (j' < 64)%nat -> src g j = src g j' -> j = j') /\
  forall be m cwp key cw m', length cw = 8%nat -> holds m cwp cw -> mapped m key ctx_size -> cw_source cwp key ->
    dvbcsa_key_set be m cwp key = Ok m' ->
    forall g j, (g < 7)%nat -> (j < 64)%nat ->
    exists b, m' (key + 16 + N.of_nat (8 * g + j / 8)) = Some b /\
      N.testbit b (N.of_nat (j mod 8)) =
      xorb (N.testbit (nth (src g j / 8) cw 0) (N.of_nat (src g j mod 8))) (N.testbit (N.of_nat g) (N.of_nat (j mod 8))).
Proof.
  exists group_src. split; [|split].
  - intros g j _ Hj. apply iter_src_lt, Hj.
  - intros g j j' _ Hj Hj'. apply iter_src_inj; assumption.
  - intros be m cwp key cw m' L H M A E g j Hg Hj.
    destruct (key_set_total be m cwp key cw L H M A) as (m1 & E1 & _ & _ & _ & [_ Hs]).
    rewrite E in E1. injection E1 as <-.
    assert (j / 8 < 8)%nat by (apply Nat.div_lt_upper_bound; lia).
    eexists. split; [apply Hs; rewrite key_schedule_length by exact L; lia|].
    apply schedule_bit; assumption.
Qed.

Lemma different_cw_different_groups be m cwp key cw m1 m' cwp' key' cw' m1' g :
  length cw = 8%nat -> length cw' = 8%nat -> cw <> cw' ->
  holds m cwp cw -> mapped m key ctx_size -> cw_source cwp key ->
  holds m' cwp' cw' -> mapped m' key' ctx_size -> cw_source cwp' key' ->
  dvbcsa_key_set be m cwp key = Ok m1 -> dvbcsa_key_set be m' cwp' key' = Ok m1' ->
  g < 7 ->
  exists i, 16 + 8 * g <= i < 16 + 8 * g + 8 /\ m1 (key + i) <> m1' (key' + i).
Proof.
  intros L L' NE H Mk A H' Mk' A' E E' Hg.
  destruct (key_set_total be m cwp key cw L H Mk A) as (x & E1 & _ & _ & _ & Hs). rewrite E in E1. injection E1 as <-.
  destruct (key_set_total be m' cwp' key' cw' L' H' Mk' A') as (x & E1 & _ & _ & _ & Hs'). rewrite E' in E1. injection E1 as <-.
  assert (X : {i | (8 * N.to_nat g <= i < 8 * N.to_nat g + 8)%nat /\ nth i (key_schedule cw) 0 <> nth i (key_schedule cw') 0} +
              {forall i, (8 * N.to_nat g <= i < 8 * N.to_nat g + 8)%nat -> nth i (key_schedule cw) 0 = nth i (key_schedule cw') 0}).
  { generalize (8 * N.to_nat g)%nat as a. intros a.
    assert (Y : forall n, {i | (a <= i < a + n)%nat /\ nth i (key_schedule cw) 0 <> nth i (key_schedule cw') 0} +
              {forall i, (a <= i < a + n)%nat -> nth i (key_schedule cw) 0 = nth i (key_schedule cw') 0}); [|apply Y].
    induction n as [|n [IH|IH]].
    - right. intros; lia.
    - left. destruct IH as (i & Hi & Ni). exists i. split; [lia|exact Ni].
    - destruct (N.eq_dec (nth (a + n) (key_schedule cw) 0) (nth (a + n) (key_schedule cw') 0)) as [Q|Q].
      + right. intros i Hi. destruct (Nat.eq_dec i (a + n)); [subst; exact Q|apply IH; lia].
      + left. exists (a + n)%nat. split; [lia|exact Q]. }
  destruct X as [(i & Hi & Ni)|X].
  - exists (16 + N.of_nat i). split; [lia|]. destruct Hs as [_ Hs], Hs' as [_ Hs'].
    rewrite !N.add_assoc. rewrite Hs, Hs' by (rewrite key_schedule_length by assumption; lia). congruence.
  - exfalso. apply NE. apply (group_injective cw cw' (N.to_nat g)); try assumption; try apply H; try apply H'; try lia.
    assert (Z := key_schedule_length cw L). assert (Z' := key_schedule_length cw' L').
    apply (firstn_nth_ext 8 _ _ 0); rewrite ?skipn_length; try lia.
    intros i Hi. rewrite !nth_skipn. apply X. lia.
Qed.

Lemma rewrites_inj m r data len o o' : rewrites m r data len o -> rewrites m r data len o' -> o = o'.
Proof.
  intros (m1 & E & H & L & _) (m2 & E' & H' & L' & _). rewrite E in E'. injection E' as <-.
  eapply holds_inj; eauto. lia.
Qed.

Lemma csa_encrypt_inj cw a b : csa_encrypt cw a = csa_encrypt cw b -> a = b.
Proof. intros E. rewrite <- (csa_dec_enc cw a), <- (csa_dec_enc cw b), E. reflexivity. Qed.

Lemma error_propagation_api : forall be m m' key cw data len c c' k out out',
  length cw = 8%nat -> keyed be m key cw -> keyed be m' key cw ->
  packet m key data len c -> packet m' key data len c' -> (1 <= k)%nat ->
  (forall n, (n / 8 <> k)%nat -> nth n c 0 = nth n c' 0) ->
  rewrites m (dvbcsa_decrypt be m key data len) data len out ->
  rewrites m' (dvbcsa_decrypt be m' key data len) data len out' ->
  forall i, (i < length c)%nat -> (i / 8 <> k)%nat -> (i / 8 <> k - 1)%nat -> nth i out 0 = nth i out' 0.
Proof.
  intros be m m' key cw data len c c' k out out' L K K' P P' Hk H R R' i Hi N0 N1.
  rewrite (rewrites_inj _ _ _ _ _ _ R (decrypt_is_csa _ _ _ _ _ _ _ L K P)).
  rewrite (rewrites_inj _ _ _ _ _ _ R' (decrypt_is_csa _ _ _ _ _ _ _ L K' P')).
  destruct P as (_ & E & _), P' as (_ & E' & _). apply (error_propagation cw c c' k i); try assumption. lia.
Qed.

Lemma same_keystream_api : forall be m m' key cw data len c c' out out',
  length cw = 8%nat -> keyed be m key cw -> keyed be m' key cw ->
  packet m key data len c -> packet m' key data len c' -> 8 <= len -> firstn 8 c = firstn 8 c' ->
  rewrites m (dvbcsa_decrypt be m key data len) data len out ->
  rewrites m' (dvbcsa_decrypt be m' key data len) data len out' ->
  xor_bytes (residue out) (residue c) = xor_bytes (residue out') (residue c').
Proof.
  intros be m m' key cw data len c c' out out' L K K' P P' L8 H R R'.
  rewrite (rewrites_inj _ _ _ _ _ _ R (decrypt_is_csa _ _ _ _ _ _ _ L K P)).
  rewrite (rewrites_inj _ _ _ _ _ _ R' (decrypt_is_csa _ _ _ _ _ _ _ L K' P')).
  destruct P as (_ & E & _), P' as (_ & E' & _). apply same_keystream; try assumption; lia.
Qed.

Lemma prefix_api : forall be m m' key cw data data' len n c out out' i,
  length cw = 8%nat -> keyed be m key cw -> keyed be m' key cw ->
  packet m key data len c -> packet m' key data' (N.of_nat n) (firstn n c) -> (n <= length c)%nat ->
  rewrites m (dvbcsa_decrypt be m key data len) data len out ->
  rewrites m' (dvbcsa_decrypt be m' key data' (N.of_nat n)) data' (N.of_nat n) out' ->
  (i + 8 < 8 * (n / 8) \/ (i < 8 * (n / 8) /\ n / 8 = length c / 8))%nat ->
  nth i out' 0 = nth i out 0.
Proof.
  intros be m m' key cw data data' len n c out out' i L K K' P P' Hn R R' Hi.
  rewrite (rewrites_inj _ _ _ _ _ _ R (decrypt_is_csa _ _ _ _ _ _ _ L K P)).
  rewrite (rewrites_inj _ _ _ _ _ _ R' (decrypt_is_csa _ _ _ _ _ _ _ L K' P')).
  apply decrypt_prefix; assumption.
Qed.

Lemma encrypt_injective_api : forall be m m' key cw data len p p' out,
  length cw = 8%nat -> keyed be m key cw -> keyed be m' key cw ->
  packet m key data len p -> packet m' key data len p' -> len < 2 ^ 31 + 16 ->
  rewrites m (dvbcsa_encrypt be m key data len) data len out ->
  rewrites m' (dvbcsa_encrypt be m' key data len) data len out ->
  p = p'.
Proof.
  intros be m m' key cw data len p p' out L K K' P P' Hl R R'.
  apply (csa_encrypt_inj cw).
  rewrite <- (rewrites_inj _ _ _ _ _ _ R (encrypt_is_csa _ _ _ _ _ _ _ L K P Hl)).
  apply (rewrites_inj _ _ _ _ _ _ R' (encrypt_is_csa _ _ _ _ _ _ _ L K' P' Hl)).
Qed.

Lemma encrypt_surjective_api : forall be m key cw data len buf target,
  length cw = 8%nat -> keyed be m key cw -> packet m key data len buf -> len < 2 ^ 31 + 16 ->
  Forall is_byte target -> N.of_nat (length target) = len ->
  exists p, length p = length target /\ forall m', keyed be m' key cw -> packet m' key data len p ->
    rewrites m' (dvbcsa_encrypt be m' key data len) data len target.
Proof.
  intros be m key cw data len buf target L K P Hl F Lt.
  exists (csa_decrypt cw target). split; [apply csa_decrypt_length|].
  intros m' K' P'. rewrite <- (csa_enc_dec cw target). apply encrypt_is_csa; assumption.
Qed.

Lemma address_independent_api : forall be be' m m' key key' data data' cw len buf,
  length cw = 8%nat -> keyed be m key cw -> keyed be' m' key' cw ->
  packet m key data len buf -> packet m' key' data' len buf -> len < 2 ^ 31 + 16 ->
  (exists out, rewrites m (dvbcsa_encrypt be m key data len) data len out /\
               rewrites m' (dvbcsa_encrypt be' m' key' data' len) data' len out) /\
  (exists out, rewrites m (dvbcsa_decrypt be m key data len) data len out /\
               rewrites m' (dvbcsa_decrypt be' m' key' data' len) data' len out).
Proof.
  intros be be' m m' key key' data data' cw len buf L K K' P P' Hl. split.
  - exists (csa_encrypt cw buf). split; apply encrypt_is_csa; assumption.
  - exists (csa_decrypt cw buf). split; apply decrypt_is_csa; assumption.
Qed.

Lemma short_packets be m key data len : len < 8 ->
  dvbcsa_encrypt be m key data len = Ok m /\ dvbcsa_decrypt be m key data len = Ok m.
Proof.
  intros H. unfold dvbcsa_encrypt, dvbcsa_decrypt. destruct (N.ltb_spec len 8); [|lia]. split; reflexivity.
Qed.

Lemma no_ub be m key data len :
  bytes_mem m -> mapped m key ctx_size -> mapped m data len -> len < 2 ^ 32 -> disjoint key ctx_size data len ->
  (exists m', dvbcsa_encrypt be m key data len = Ok m') /\ (exists m', dvbcsa_decrypt be m key data len = Ok m').
Proof.
  intros B K D L X. destruct (safe_frame m key data len B K D L X be) as [(m1 & E1 & _) (m2 & E2 & _)]. split; eauto.
Qed.

Lemma residue_encrypt be m key cw data len whole res k :
  length cw = 8%nat -> keyed be m key cw -> packet m key data len (whole ++ res) -> len < 2 ^ 31 + 16 ->
  length whole = (8 * S k)%nat -> (length res < 8)%nat ->
  rewrites m (dvbcsa_encrypt be m key data len) data len
    (csa_encrypt cw whole ++
     xor_bytes res (skipn (8 * k) (keystream cw (firstn 8 (csa_encrypt cw whole)) (8 * k + length res)))).
Proof. intros L K P Hl Lw Lr. rewrite <- csa_encrypt_residue by assumption. apply encrypt_is_csa; assumption. Qed.
Lemma residue_decrypt be m key cw data len whole res k :
  length cw = 8%nat -> keyed be m key cw -> packet m key data len (whole ++ res) ->
  length whole = (8 * S k)%nat -> (length res < 8)%nat ->
  rewrites m (dvbcsa_decrypt be m key data len) data len
    (csa_decrypt cw whole ++
     xor_bytes res (skipn (8 * k) (keystream cw (firstn 8 whole) (8 * k + length res)))).
Proof. intros L K P Lw Lr. rewrite <- csa_decrypt_residue by assumption. apply decrypt_is_csa; assumption. Qed.
