(** ClassicalAlgo.v -- dvbcsa_decrypt and dvbcsa_encrypt against csa_decrypt and csa_encrypt. *)
From Verif Require Import Base Tables Spec Mem ModelClassical ClassicalBlock ClassicalKey ClassicalStream SpecLemmas.
Local Open Scope N_scope.

Lemma alen_ok len : len < 2 ^ 32 -> N.land len 0xfffffff8 = 8 * (len / 8).
Proof.
  intros H. replace (8 * (len / 8)) with (N.ldiff len (N.ones 3)).
  - apply N.bits_inj. intros k. rewrite N.land_spec, N.ldiff_spec.
    destruct (N.lt_ge_cases k 32) as [L|L].
    + f_equal. change 0xfffffff8 with (N.ldiff (N.ones 32) (N.ones 3)). rewrite N.ldiff_spec, N.ones_spec_low by exact L. reflexivity.
    + rewrite (bits_of_bound len 32 k) by assumption. reflexivity.
  - rewrite N.ldiff_ones_r, N.shiftl_mul_pow2, N.shiftr_div_pow2. change (2 ^ 3) with 8. lia.
Qed.

Lemma splice_mid P X X' R : length X = length X' -> splice (P ++ X ++ R) (length P) X' = P ++ X' ++ R.
Proof.
  intros L. unfold splice. rewrite firstn_app, Nat.sub_diag, firstn_all. cbn [firstn]. rewrite app_nil_r.
  f_equal. f_equal. rewrite <- L. rewrite app_assoc, <- app_length. rewrite skipn_app, skipn_all, Nat.sub_diag. reflexivity.
Qed.
Lemma mid (P X R : list N) n : length X = n -> firstn n (skipn (length P) (P ++ X ++ R)) = X.
Proof.
  intros <-. rewrite skipn_app, skipn_all, Nat.sub_diag. cbn [skipn app].
  rewrite firstn_app, Nat.sub_diag, firstn_all. cbn [firstn]. apply app_nil_r.
Qed.

(* block k of a byte string, and the bytes from there on *)
Lemma skipn_block l k : (k < length l / 8)%nat ->
  skipn (8 * k) l = block_bytes (nth k (blocks l) zero_block) ++ skipn (8 * S k) l.
Proof.
  intros H. rewrite <- (unblocks_blocks l) at 1 3.
  rewrite <- blocks_length in H. set (bs := blocks l) in *. set (r := residue l). clearbody bs r.
  revert bs H; induction k as [|k IH]; intros [|b bs] H; simpl in H; try lia.
  - cbn [nth]. rewrite unblocks_cons. rewrite Nat.mul_0_r, skipn_O. change (8 * 1)%nat with 8%nat.
    rewrite <- app_assoc. f_equal. blk b. reflexivity.
  - cbn [nth]. rewrite unblocks_cons, <- app_assoc.
    replace (8 * S k)%nat with (length (block_bytes b) + 8 * k)%nat by (rewrite block_bytes_length; lia).
    replace (8 * S (S k))%nat with (length (block_bytes b) + 8 * S k)%nat by (rewrite block_bytes_length; lia).
    assert (X : forall n, skipn (length (block_bytes b) + n) (block_bytes b ++ unblocks bs ++ r) = skipn n (unblocks bs ++ r)).
    { intros n. rewrite skipn_app, skipn_all2 by lia. cbn [app]. f_equal. lia. }
    rewrite !X. apply IH. lia.
Qed.

Lemma block_at_nth l k : (k < length l / 8)%nat ->
  list_block (firstn 8 (skipn (8 * k) l)) = nth k (blocks l) zero_block.
Proof.
  intros H. rewrite skipn_block by exact H. rewrite firstn_app, block_bytes_length, Nat.sub_diag.
  rewrite (firstn_all2 (block_bytes _)) by (rewrite block_bytes_length; lia). rewrite firstn_O, app_nil_r. apply list_block_bytes.
Qed.

Lemma firstn_unblocks bs k : firstn (8 * k) (unblocks bs) = unblocks (firstn k bs).
Proof.
  revert bs; induction k as [|k IH]; intros bs; [reflexivity|].
  destruct bs as [|b bs]; [rewrite firstn_nil; reflexivity|].
  cbn [firstn]. rewrite !unblocks_cons. replace (8 * S k)%nat with (length (block_bytes b) + 8 * k)%nat by (rewrite block_bytes_length; lia).
  rewrite firstn_app_2. f_equal. apply IH.
Qed.

Section Loops.
  Variables (be : bool) (m : mem) (key data : N) (kk : list N).
  Hypothesis Hk : holds m (key + 16) kk.
  Hypothesis Lk : length kk = 56%nat.

  (* state of the payload inside the decryption loop, before block k is processed *)
  Definition dec_partial (c : list N) (k : nat) : list N :=
    unblocks (firstn (k - 1) (rcbc_dec (block_dec kk) (blocks c)))
    ++ block_bytes (block_dec kk (nth (k - 1) (blocks c) zero_block))
    ++ skipn (8 * k) c.

  Variable c : list N.
  Hypothesis Fc : Forall is_byte c.
  Hypothesis D : disjoint (key + 16) 56 data (N.of_nat (length c)).
  Hypothesis Lc : (8 <= length c)%nat.

  Lemma kk_bytes : Forall is_byte kk.
  Proof. exact (proj1 Hk). Qed.

  Lemma nth_wf k : wf_block (nth k (blocks c) zero_block).
  Proof.
    destruct (Nat.lt_ge_cases k (length (blocks c))) as [H|H].
    - pose proof (wf_blocks c Fc) as F. rewrite Forall_forall in F. apply F, nth_In, H.
    - rewrite nth_overflow by exact H. apply wf_zero.
  Qed.

  Lemma res_wf : Forall wf_block (rcbc_dec (block_dec kk) (blocks c)).
  Proof. apply rcbc_dec_wf; [|apply wf_blocks, Fc]. intros; apply block_dec_wf; [apply kk_bytes|assumption]. Qed.

  Lemma dec_partial_bytes k : Forall is_byte (dec_partial c k).
  Proof.
    unfold dec_partial. rewrite !Forall_app. repeat split.
    - apply unblocks_bytes, Forall_firstn, res_wf.
    - apply block_dec_wf; [apply kk_bytes|apply nth_wf].
    - apply Forall_skipn, Fc.
  Qed.

  Lemma dec_partial_length k : (1 <= k <= length c / 8)%nat -> length (dec_partial c k) = length c.
  Proof.
    intros H. unfold dec_partial. rewrite !app_length, unblocks_length, firstn_length, rcbc_dec_length, blocks_length,
      block_bytes_length, skipn_length. pose proof (Nat.div_mod (length c) 8 ltac:(lia)). lia.
  Qed.

  Lemma dec_prefix_length k : (1 <= k <= length c / 8)%nat ->
    length (unblocks (firstn (k - 1) (rcbc_dec (block_dec kk) (blocks c)))) = (8 * (k - 1))%nat.
  Proof.
    intros H. rewrite unblocks_length, firstn_length, rcbc_dec_length, blocks_length. lia.
  Qed.

  Lemma dec_loop_step k m1 : (1 <= k < length c / 8)%nat -> meq m1 (put m data (dec_partial c k)) ->
    wp (m2 <- dvbcsa_xor_64 be m1 (data + N.of_nat (8 * (k - 1))) (data + N.of_nat (8 * k)) ;;
        dvbcsa_block_decrypt m2 (key + 16) (data + N.of_nat (8 * k)) (data + N.of_nat (8 * k)))
       (fun m3 => meq m3 (put m data (dec_partial c (S k)))).
  Proof.
    intros H E. assert (L := dec_partial_length k ltac:(lia)).
    pose proof (Nat.div_mod (length c) 8 ltac:(lia)) as DM.
    set (P := unblocks (firstn (k - 1) (rcbc_dec (block_dec kk) (blocks c)))).
    assert (LP : length P = (8 * (k - 1))%nat) by (apply dec_prefix_length; lia).
    set (X := block_dec kk (nth (k - 1) (blocks c) zero_block)).
    set (Y := nth k (blocks c) zero_block).
    assert (E0 : dec_partial c k = P ++ block_bytes X ++ block_bytes Y ++ skipn (8 * S k) c).
    { unfold dec_partial. fold P X. rewrite (skipn_block c k) by lia. reflexivity. }
    apply wp_bind. eapply wp_mono.
    { apply (xor_64_at be m m1 data (dec_partial c k) (8 * (k - 1)) (8 * k) E (dec_partial_bytes k)); lia. }
    intros m2 E2.
    assert (E1 : splice (dec_partial c k) (8 * (k - 1))
              (xor_bytes (firstn 8 (skipn (8 * (k - 1)) (dec_partial c k)))
                         (firstn 8 (skipn (8 * k) (dec_partial c k))))
            = P ++ block_bytes (xor_block X Y) ++ block_bytes Y ++ skipn (8 * S k) c).
    { rewrite E0. rewrite <- LP at 1. rewrite splice_mid.
      - f_equal. f_equal. rewrite <- LP. rewrite mid by apply block_bytes_length.
        rewrite app_assoc. replace (8 * k)%nat with (length (P ++ block_bytes X)) by (rewrite app_length, block_bytes_length; lia).
        rewrite mid by apply block_bytes_length. apply xor_block_bytes.
      - rewrite xor_bytes_length, !firstn_length, !skipn_length, !app_length, !block_bytes_length. lia. }
    rewrite E1 in E2.
    set (cur := P ++ block_bytes (xor_block X Y) ++ block_bytes Y ++ skipn (8 * S k) c) in *.
    assert (Lcur : length cur = length c).
    { unfold cur. rewrite !app_length, !block_bytes_length, skipn_length. lia. }
    assert (Fcur : Forall is_byte cur).
    { unfold cur. rewrite !Forall_app. repeat split.
      - apply unblocks_bytes, Forall_firstn, res_wf.
      - apply wf_xor_block; [apply block_dec_wf; [apply kk_bytes|]|]; apply nth_wf.
      - apply nth_wf.
      - apply Forall_skipn, Fc. }
    eapply wp_mono.
    { apply (block_decrypt_at m (key + 16) data kk cur m2 Hk Lk); try assumption; [rewrite Lcur; exact D|lia]. }
    intros m3 E3.
    replace (dec_partial c (S k)) with (splice cur (8 * k) (block_bytes (block_dec kk (block_at cur (8 * k))))); [exact E3|].
    unfold block_at, cur. rewrite !app_assoc. rewrite <- (app_assoc _ (block_bytes Y)).
    replace (8 * k)%nat with (length (P ++ block_bytes (xor_block X Y))) by (rewrite app_length, block_bytes_length; lia).
    rewrite mid, list_block_bytes by apply block_bytes_length. rewrite splice_mid by (rewrite !block_bytes_length; reflexivity).
    unfold dec_partial. replace (S k - 1)%nat with k by lia.
    replace (firstn k (rcbc_dec (block_dec kk) (blocks c))) with
      (firstn (k - 1) (rcbc_dec (block_dec kk) (blocks c)) ++ [xor_block X Y]).
    - rewrite unblocks_app. unfold unblocks at 2. cbn [map concat]. rewrite app_nil_r. fold Y P. rewrite <- app_assoc. reflexivity.
    - assert (K : (k - 1 < length (blocks c))%nat) by (rewrite blocks_length; lia).
      pose proof (rcbc_dec_nth (block_dec kk) (blocks c) (k - 1) K) as N0.
      replace (S (k - 1)) with k in N0 by lia. fold X Y in N0.
      rewrite <- N0. replace k with (S (k - 1)) at 3 by lia. symmetry. apply firstn_S_nth.
      rewrite rcbc_dec_length. exact K.
  Qed.

  Lemma dec_partial_end : dec_partial c (length c / 8) = block_layer (rcbc_dec (block_dec kk)) c.
  Proof.
    pose proof (Nat.div_mod (length c) 8 ltac:(lia)) as DM. pose proof (Nat.mod_upper_bound (length c) 8 ltac:(lia)).
    unfold dec_partial, block_layer, residue. rewrite app_assoc. f_equal.
    set (K := (length c / 8)%nat) in *.
    assert (KL : (K - 1 < length (blocks c))%nat) by (rewrite blocks_length; fold K; lia).
    assert (X : rcbc_dec (block_dec kk) (blocks c) = firstn (K - 1) (rcbc_dec (block_dec kk) (blocks c)) ++ [block_dec kk (nth (K - 1) (blocks c) zero_block)]).
    { rewrite <- (firstn_all (rcbc_dec (block_dec kk) (blocks c))) at 1. rewrite rcbc_dec_length, blocks_length. fold K.
      replace K with (S (K - 1)) at 1 by lia. rewrite (firstn_S_nth _ _ zero_block) by (rewrite rcbc_dec_length; exact KL).
      f_equal. f_equal. rewrite rcbc_dec_nth by exact KL. rewrite (nth_overflow _ _ (n := S (K - 1))) by (rewrite blocks_length; fold K; lia).
      apply xor_block_zero. }
    rewrite X at 2. rewrite unblocks_app. unfold unblocks at 3. cbn [map concat]. rewrite app_nil_r. reflexivity.
  Qed.

  (* the loop of dvbcsa_decrypt, block layer *)
  Lemma dec_layer_ok m1 len : meq m1 (put m data c) -> len = N.of_nat (length c) -> len < 2 ^ 32 ->
    wp (m <- dvbcsa_block_decrypt m1 (key + 16) data data ;;
        '(_, m) <- while_ (N.to_nat len) (fun '(i, _) => i <? N.land len 0xfffffff8) (fun '(i, m) =>
            m <- dvbcsa_xor_64 be m (data + i - 8) (data + i) ;;
            m <- dvbcsa_block_decrypt m (key + 16) (data + i) (data + i) ;;
            Ok (u32 (i + 8), m)) (8, m) ;;
        Ok m)
       (fun m' => meq m' (put m data (block_layer (rcbc_dec (block_dec kk)) c))).
  Proof.
    intros E El Hl. rewrite alen_ok by exact Hl.
    pose proof (Nat.div_mod (length c) 8 ltac:(lia)) as DM. pose proof (Nat.mod_upper_bound (length c) 8 ltac:(lia)).
    assert (EK : len / 8 = N.of_nat (length c / 8)) by (subst len; rewrite Nat2N.inj_div; reflexivity).
    rewrite EK. set (K := (length c / 8)%nat) in *.
    assert (HK : (1 <= K)%nat) by lia.
    apply wp_bind. eapply wp_mono.
    { pose proof (block_decrypt_at m (key + 16) data kk c m1 Hk Lk D E Fc 0 ltac:(lia)) as W.
      rewrite N.add_0_r in W. exact W. }
    intros m2 E2.
    assert (E2' : meq m2 (put m data (dec_partial c 1))).
    { replace (dec_partial c 1) with (splice c 0 (block_bytes (block_dec kk (block_at c 0)))); [exact E2|].
      pose proof (block_at_nth c 0 ltac:(fold K; lia)) as B0. change (8 * 0)%nat with 0%nat in B0. unfold block_at. rewrite B0.
      unfold dec_partial, splice. rewrite block_bytes_length. reflexivity. }
    apply wp_bind.
    pose (Inv := fun st : N * mem => exists k, (1 <= k <= K)%nat /\ fst st = N.of_nat (8 * k) /\ meq (snd st) (put m data (dec_partial c k))).
    eapply wp_mono.
    { apply (wp_while Inv (fun st => N.to_nat (len - fst st))).
      - cbn [fst]; lia.
      - exists 1%nat. cbn [fst snd]. repeat split; try lia. exact E2'.
      - intros [i m3] (k & Hk1 & Ei & E3) Hc. cbn [fst snd] in *. apply N.ltb_lt in Hc.
        split; [lia|].
        pose proof (dec_loop_step k m3 ltac:(fold K; lia) E3) as W.
        replace (data + i - 8) with (data + N.of_nat (8 * (k - 1))) by lia. rewrite Ei.
        destruct (dvbcsa_xor_64 be m3 (data + N.of_nat (8 * (k - 1))) (data + N.of_nat (8 * k))) as [m4| | |]; cbn [bind] in *; try contradiction.
        destruct (dvbcsa_block_decrypt m4 (key + 16) (data + N.of_nat (8 * k)) (data + N.of_nat (8 * k))) as [m5| | |]; cbn [bind wp] in *; try contradiction.
        rewrite u32_small by lia. split.
        + exists (S k). cbn [fst snd]. repeat split; try lia. exact W.
        + cbn [fst]. lia. }
    intros [i m3] [(k & Hk1 & Ei & E3) Hc]. cbn [fst snd] in *. apply N.ltb_ge in Hc. cbn [wp].
    replace k with K in E3 by lia. unfold K in E3. rewrite dec_partial_end in E3. exact E3.
  Qed.
End Loops.

Lemma put_tail m m' data iv body X : holds m data (iv ++ body) -> length body = length X ->
  meq m' (put m (data + N.of_nat (length iv)) X) -> meq m' (put m data (iv ++ X)).
Proof.
  intros H L E. apply holds_app in H as [H _].
  eapply meq_trans; [exact E|]. eapply meq_trans; [|apply (put_app m data iv X); reflexivity].
  apply put_meq, meq_sym, put_holds, H.
Qed.

(* payload-level effect of dvbcsa_stream_xor as called by both packet functions *)
Lemma stream_layer_ok be m key data len cw (buf : list N) m1 cur :
  length cw = 8%nat -> Forall is_byte cw -> holds m (key + 8) (map swap_nibbles cw) ->
  disjoint key 72 data (N.of_nat (length buf)) ->
  meq m1 (put m data cur) -> Forall is_byte cur -> length cur = length buf -> (8 <= length buf)%nat ->
  len = N.of_nat (length buf) -> len < 2 ^ 32 ->
  wp (dvbcsa_stream_xor be m1 (key + 8) data (data + 8) (len - 8))
     (fun m' => meq m' (put m data (stream_cipher cw cur))).
Proof.
  intros Lc Fcw Hk D E F L L8 El Hl.
  assert (Hcur : holds m1 data cur) by (eapply holds_meq; [apply meq_sym; exact E|]; apply holds_put; exact F).
  assert (Hcws : holds m1 (key + 8) (map swap_nibbles cw)).
  { eapply holds_meq; [apply meq_sym; exact E|]. apply holds_put_disj; [exact Hk|]. rewrite map_length, L, Lc.
    intros x Hx. apply (D x). lia. }
  pose proof Hcur as Hsp. rewrite <- (firstn_skipn 8 cur) in Hsp. apply holds_app in Hsp as [Hiv Hbody].
  assert (Liv : length (firstn 8 cur) = 8%nat) by (rewrite firstn_length; lia).
  rewrite Liv in Hbody. change (N.of_nat 8) with 8 in Hbody.
  eapply wp_mono.
  { apply (stream_xor_ok be m1 (key + 8) data (data + 8) (len - 8) cw (firstn 8 cur) (skipn 8 cur)); try assumption;
    rewrite ?skipn_length; lia. }
  intros m2 E2.
  assert (E3 : meq m2 (put m1 data (stream_cipher cw cur))).
  { unfold stream_cipher. apply (put_tail m1 m2 data (firstn 8 cur) (skipn 8 cur)).
    - rewrite firstn_skipn. exact Hcur.
    - rewrite xor_bytes_length, keystream_length. lia.
    - rewrite Liv. change (N.of_nat 8) with 8. exact E2. }
  eapply meq_trans; [exact E3|]. intros x. unfold put at 1 2. rewrite stream_cipher_length.
  destruct ((data <=? x) && (x <? data + N.of_nat (length cur))) eqn:B; [reflexivity|].
  rewrite E. apply put_out. intros K. apply andb_false_iff in B as [B|B]; [apply N.leb_gt in B|apply N.ltb_ge in B]; lia.
Qed.

Lemma sub_disjoint key data n : disjoint key 72 data n -> disjoint (key + 16) 56 data n.
Proof. intros D x H. apply (D x). lia. Qed.

Lemma ctx_sched m key cw : length cw = 8%nat -> holds m key (ctx_bytes cw) -> holds m (key + 16) (key_schedule cw).
Proof.
  intros L H. unfold ctx_bytes in H. rewrite app_assoc in H. apply holds_app in H as [_ H].
  rewrite app_length, map_length, L in H. exact H.
Qed.
Lemma ctx_cw m key cw : holds m key (ctx_bytes cw) -> Forall is_byte cw.
Proof. intros [F _]. unfold ctx_bytes in F. apply Forall_app in F as [F _]. exact F. Qed.

Lemma ctx_cws m key cw : length cw = 8%nat -> holds m key (ctx_bytes cw) -> holds m (key + 8) (map swap_nibbles cw).
Proof.
  intros L H. unfold ctx_bytes in H. apply holds_app in H as [_ H]. apply holds_app in H as [H _].
  rewrite L in H. exact H.
Qed.

(* payload effect with an arbitrary context: stream key [cw], round keys [kk] *)
Definition csa_decrypt_ctx (cw kk data : list N) : list N :=
  if Nat.ltb (length data) 8 then data
  else block_layer (rcbc_dec (block_dec kk)) (stream_cipher cw data).

Theorem decrypt_ctx_ok be m key data len cw kk buf :
  length cw = 8%nat -> Forall is_byte cw -> holds m (key + 8) (map swap_nibbles cw) ->
  length kk = 56%nat -> holds m (key + 16) kk -> holds m data buf ->
  len = N.of_nat (length buf) -> len < 2 ^ 32 ->
  disjoint key 72 data len ->
  wp (dvbcsa_decrypt be m key data len) (fun m' => meq m' (put m data (csa_decrypt_ctx cw kk buf))).
Proof.
  intros Lc Fcw Hk Lk Hs Hb El Hl D. unfold dvbcsa_decrypt, csa_decrypt_ctx.
  destruct (N.ltb_spec len 8) as [H8|H8]; destruct (Nat.ltb_spec (length buf) 8) as [H8'|H8']; try lia.
  - cbn [wp]. apply meq_sym, put_holds, Hb.
  - apply wp_bind. eapply wp_mono.
    { apply (stream_layer_ok be m key data len cw buf m buf); try assumption; try reflexivity.
      - rewrite <- El; exact D.
      - apply meq_sym, put_holds, Hb.
      - exact (proj1 Hb). }
    intros m1 E1.
    apply (dec_layer_ok be m key data kk Hs Lk
             (stream_cipher cw buf)).
    + apply stream_cipher_bytes, (proj1 Hb).
    + rewrite stream_cipher_length, <- El. apply sub_disjoint, D.
    + rewrite stream_cipher_length. exact H8'.
    + exact E1.
    + rewrite stream_cipher_length. exact El.
    + exact Hl.
Qed.

Theorem decrypt_ok be m key data len cw buf :
  length cw = 8%nat -> holds m key (ctx_bytes cw) -> holds m data buf ->
  len = N.of_nat (length buf) -> len < 2 ^ 32 ->
  disjoint key 72 data len ->
  wp (dvbcsa_decrypt be m key data len) (fun m' => meq m' (put m data (csa_decrypt cw buf))).
Proof.
  intros Lc Hk. apply decrypt_ctx_ok; eauto using ctx_cw, ctx_cws, ctx_sched, key_schedule_length.
Qed.

(** ** encryption *)
Section EncLoops.
  Variables (be : bool) (m : mem) (key data : N) (kk : list N).
  Hypothesis Hk : holds m (key + 16) kk.
  Hypothesis Lk : length kk = 56%nat.
  Variable c : list N.
  Hypothesis Fc : Forall is_byte c.
  Hypothesis D : disjoint (key + 16) 56 data (N.of_nat (length c)).
  Hypothesis Lc : (8 <= length c)%nat.
  Let K := (length c / 8)%nat.

  (* payload when blocks k .. K-1 have been enciphered *)
  Definition enc_partial (k : nat) : list N :=
    firstn (8 * k) c ++ unblocks (rcbc_enc (block_enc kk) (skipn k (blocks c))) ++ skipn (8 * K) c.

  Let DM := Nat.div_mod (length c) 8 ltac:(lia).

  Lemma enc_tail_wf k : Forall wf_block (rcbc_enc (block_enc kk) (skipn k (blocks c))).
  Proof.
    apply rcbc_enc_wf; [|apply Forall_skipn, wf_blocks, Fc].
    intros; apply block_enc_wf; [exact (proj1 Hk)|assumption].
  Qed.

  Lemma enc_partial_bytes k : Forall is_byte (enc_partial k).
  Proof.
    unfold enc_partial. rewrite !Forall_app. repeat split.
    - apply Forall_firstn, Fc.
    - apply unblocks_bytes, enc_tail_wf.
    - apply Forall_skipn, Fc.
  Qed.
  Lemma enc_partial_length k : (k <= K)%nat -> length (enc_partial k) = length c.
  Proof.
    intros H. unfold enc_partial. rewrite !app_length, unblocks_length, rcbc_enc_length, !skipn_length, blocks_length, firstn_length.
    fold K. lia.
  Qed.

  Lemma firstn_block k : (k < K)%nat -> firstn (8 * S k) c = firstn (8 * k) c ++ block_bytes (nth k (blocks c) zero_block).
  Proof.
    intros H. pose proof (skipn_block c k H) as S0.
    rewrite <- (firstn_skipn (8 * k) c) at 1. rewrite S0.
    assert (L1 : length (firstn (8 * k) c) = (8 * k)%nat) by (rewrite firstn_length; lia).
    rewrite firstn_app, L1. replace (8 * S k - 8 * k)%nat with 8%nat by lia.
    rewrite firstn_all2 by lia. f_equal. rewrite firstn_app, block_bytes_length, Nat.sub_diag, firstn_O.
    rewrite app_nil_r. apply firstn_all2. rewrite block_bytes_length. lia.
  Qed.

  Lemma enc_at k Z R m1 : (k < K)%nat ->
    meq m1 (put m data (firstn (8 * k) c ++ block_bytes Z ++ R)) ->
    length (firstn (8 * k) c ++ block_bytes Z ++ R) = length c ->
    Forall is_byte (firstn (8 * k) c ++ block_bytes Z ++ R) ->
    wp (dvbcsa_block_encrypt m1 (key + 16) (data + N.of_nat (8 * k)) (data + N.of_nat (8 * k)))
       (fun m2 => meq m2 (put m data (firstn (8 * k) c ++ block_bytes (block_enc kk Z) ++ R))).
  Proof.
    intros H E L F.
    assert (L1 : length (firstn (8 * k) c) = (8 * k)%nat) by (rewrite firstn_length; lia).
    eapply wp_mono.
    { apply (block_encrypt_at m (key + 16) data kk (firstn (8 * k) c ++ block_bytes Z ++ R) m1 Hk Lk); try assumption.
      - rewrite L. exact D.
      - rewrite L. lia. }
    intros m2 E2.
    assert (B : block_at (firstn (8 * k) c ++ block_bytes Z ++ R) (8 * k) = Z).
    { unfold block_at. set (P := firstn (8 * k) c) in *. rewrite <- L1. rewrite mid by apply block_bytes_length. apply list_block_bytes. }
    rewrite B in E2. set (P := firstn (8 * k) c) in *. rewrite <- L1 in E2.
    rewrite splice_mid in E2 by (rewrite !block_bytes_length; reflexivity). exact E2.
  Qed.

  Lemma enc_loop_step k m1 : (S k < K)%nat -> meq m1 (put m data (enc_partial (S k))) ->
    wp (m2 <- dvbcsa_xor_64 be m1 (data + N.of_nat (8 * k)) (data + N.of_nat (8 * S k)) ;;
        dvbcsa_block_encrypt m2 (key + 16) (data + N.of_nat (8 * k)) (data + N.of_nat (8 * k)))
       (fun m3 => meq m3 (put m data (enc_partial k))).
  Proof.
    intros H E. assert (L := enc_partial_length (S k) ltac:(lia)). assert (F := enc_partial_bytes (S k)).
    set (X := nth k (blocks c) zero_block).
    assert (HB : (k < length (blocks c))%nat) by (rewrite blocks_length; fold K; lia).
    set (tail := rcbc_enc (block_enc kk) (skipn (S k) (blocks c))).
    assert (LT : length tail = (K - S k)%nat) by (unfold tail; rewrite rcbc_enc_length, skipn_length, blocks_length; reflexivity).
    destruct tail as [|Y tail'] eqn:ET; [simpl in LT; lia|].
    assert (L1 : length (firstn (8 * k) c) = (8 * k)%nat) by (rewrite firstn_length; lia).
    assert (E0 : enc_partial (S k) = firstn (8 * k) c ++ block_bytes X ++ block_bytes Y ++ unblocks tail' ++ skipn (8 * K) c).
    { unfold enc_partial. fold tail. rewrite ET. rewrite firstn_block by lia. fold X. rewrite unblocks_cons, <- !app_assoc. reflexivity. }
    set (R := unblocks tail' ++ skipn (8 * K) c) in *.
    apply wp_bind. eapply wp_mono.
    { apply (xor_64_at be m m1 data (enc_partial (S k)) (8 * k) (8 * S k) E F); lia. }
    intros m2 E2.
    assert (E1 : splice (enc_partial (S k)) (8 * k)
              (xor_bytes (firstn 8 (skipn (8 * k) (enc_partial (S k))))
                         (firstn 8 (skipn (8 * S k) (enc_partial (S k)))))
            = firstn (8 * k) c ++ block_bytes (xor_block X Y) ++ block_bytes Y ++ R).
    { assert (M1 : firstn 8 (skipn (8 * k) (enc_partial (S k))) = block_bytes X).
      { rewrite E0. set (P := firstn (8 * k) c) in *. rewrite <- L1. apply mid, block_bytes_length. }
      assert (M2 : firstn 8 (skipn (8 * S k) (enc_partial (S k))) = block_bytes Y).
      { rewrite E0, app_assoc. replace (8 * S k)%nat with (length (firstn (8 * k) c ++ block_bytes X)) by (rewrite app_length, block_bytes_length; lia).
        apply mid, block_bytes_length. }
      rewrite M1, M2, xor_block_bytes, E0. set (P := firstn (8 * k) c) in *. rewrite <- L1.
      apply splice_mid. rewrite !block_bytes_length. reflexivity. }
    rewrite E1 in E2.
    eapply wp_mono.
    { apply (enc_at k (xor_block X Y) (block_bytes Y ++ R) m2); [lia|exact E2|..].
      - rewrite E0 in L. rewrite !app_length, !block_bytes_length in *. exact L.
      - rewrite E0 in F. rewrite !Forall_app in *. destruct F as (F1 & F2 & F3 & F4). repeat split; try assumption.
        apply wf_xor_block; assumption. }
    intros m3 E3.
    replace (enc_partial k) with (firstn (8 * k) c ++ block_bytes (block_enc kk (xor_block X Y)) ++ block_bytes Y ++ R); [exact E3|].
    unfold enc_partial. rewrite (skipn_nth (blocks c) k zero_block) by exact HB. cbn [rcbc_enc]. fold tail X. rewrite ET. cbn [hd].
    rewrite !unblocks_cons, <- !app_assoc. reflexivity.
  Qed.

  (* first block enciphered: the last one of the packet *)
  Lemma enc_first_ok m1 : meq m1 (put m data c) ->
    wp (dvbcsa_block_encrypt m1 (key + 16) (data + N.of_nat (8 * (K - 1))) (data + N.of_nat (8 * (K - 1))))
       (fun m2 => meq m2 (put m data (enc_partial (K - 1)))).
  Proof.
    intros E. pose proof (Nat.mod_upper_bound (length c) 8 ltac:(lia)).
    assert (HK : (1 <= K)%nat) by (unfold K; lia).
    pose proof (skipn_block c (K - 1) ltac:(fold K; lia)) as S0. replace (S (K - 1)) with K in S0 by lia.
    set (Z := nth (K - 1) (blocks c) zero_block) in *.
    assert (E0 : c = firstn (8 * (K - 1)) c ++ block_bytes Z ++ skipn (8 * K) c).
    { rewrite <- S0. symmetry. apply firstn_skipn. }
    eapply wp_mono.
    { apply (enc_at (K - 1) Z (skipn (8 * K) c) m1).
      - lia.
      - rewrite <- E0. exact E.
      - rewrite <- E0. reflexivity.
      - rewrite <- E0. exact Fc. }
    intros m2 E2.
    replace (enc_partial (K - 1)) with (firstn (8 * (K - 1)) c ++ block_bytes (block_enc kk Z) ++ skipn (8 * K) c); [exact E2|].
    unfold enc_partial. rewrite (skipn_nth (blocks c) (K - 1) zero_block) by (rewrite blocks_length; fold K; lia).
    rewrite (skipn_all2 (blocks c)) by (rewrite blocks_length; fold K; lia). cbn [rcbc_enc hd].
    rewrite xor_block_zero. rewrite unblocks_cons. unfold unblocks; cbn [map concat]. rewrite app_nil_r. reflexivity.
  Qed.

  Lemma enc_partial_end : enc_partial 0 = block_layer (rcbc_enc (block_enc kk)) c.
  Proof. reflexivity. Qed.

  Definition enc_loop (len : N) (m2 : mem) : res (Z * mem) :=
    while_ (N.to_nat len) (fun '(i, _) => (0 <=? i)%Z) (fun '(i, m) =>
        m <- dvbcsa_xor_64 be m (padd data i) (padd data (i + 8)) ;;
        m <- dvbcsa_block_encrypt m (key + 16) (padd data i) (padd data i) ;;
        i <- int_ok (i - 8) ;;
        Ok (i, m)) (to_int (u32 (N.land len 0xfffffff8 + 2 ^ 32 - 16)), m2).

  Lemma enc_loop_ok len m2 : meq m2 (put m data (enc_partial (K - 1))) ->
    len = N.of_nat (length c) -> len < 2 ^ 31 + 16 ->
    wp (enc_loop len m2) (fun st => meq (snd st) (put m data (block_layer (rcbc_enc (block_enc kk)) c))).
  Proof.
    intros E El Hl. pose proof (Nat.mod_upper_bound (length c) 8 ltac:(lia)).
    assert (HK : (1 <= K)%nat) by (unfold K; lia).
    unfold enc_loop. rewrite alen_ok by lia.
    assert (EK : len / 8 = N.of_nat K) by (subst len; unfold K; rewrite Nat2N.inj_div; reflexivity).
    rewrite EK.
    assert (Ei : to_int (u32 (8 * N.of_nat K + 2 ^ 32 - 16)) = (8 * (Z.of_nat K - 2))%Z).
    { unfold to_int, u32. destruct (Nat.eq_dec K 1) as [HK1|HK1]; [rewrite HK1; reflexivity|].
      replace (8 * N.of_nat K + 2 ^ 32 - 16) with ((8 * N.of_nat K - 16) + 1 * 2 ^ 32) by lia.
      rewrite N.mod_add by lia. rewrite N.mod_small by lia.
      destruct (N.ltb_spec (8 * N.of_nat K - 16) (2 ^ 31)); lia. }
    rewrite Ei.
    pose (Inv := fun st : Z * mem => exists k, (k < K)%nat /\ fst st = (8 * (Z.of_nat k - 1))%Z /\ meq (snd st) (put m data (enc_partial k))).
    eapply wp_mono.
    { apply (wp_while Inv (fun st => Z.to_nat (fst st + 8))).
      - cbn [fst]. lia.
      - exists (K - 1)%nat. cbn [fst snd]. repeat split; try lia. exact E.
      - intros [i m3] (k & Hk1 & Hi & E3) Hc. cbn [fst snd] in *. apply Z.leb_le in Hc.
        split; [lia|]. destruct k as [|k]; [lia|].
        pose proof (enc_loop_step k m3 Hk1 E3) as W.
        replace (padd data i) with (data + N.of_nat (8 * k)) by (unfold padd; lia).
        replace (padd data (i + 8)) with (data + N.of_nat (8 * S k)) by (unfold padd; lia).
        destruct (dvbcsa_xor_64 be m3 (data + N.of_nat (8 * k)) (data + N.of_nat (8 * S k))) as [m4| | |]; cbn [bind] in *; try contradiction.
        destruct (dvbcsa_block_encrypt m4 (key + 16) (data + N.of_nat (8 * k)) (data + N.of_nat (8 * k))) as [m5| | |]; cbn [bind wp] in *; try contradiction.
        unfold int_ok.
        replace ((-2 ^ 31 <=? i - 8)%Z && (i - 8 <? 2 ^ 31)%Z) with true
          by (symmetry; apply andb_true_intro; split; [apply Z.leb_le|apply Z.ltb_lt]; lia).
        cbn [bind]. split.
        + exists k. cbn [fst snd]. repeat split; try lia. exact W.
        + cbn [fst]. lia. }
    intros [i m3] [(k & Hk1 & Hi & E3) Hc]. cbn [fst snd] in *. apply Z.leb_gt in Hc.
    replace k with 0%nat in E3 by lia. rewrite enc_partial_end in E3. exact E3.
  Qed.

  (* beyond 2^31+16 bytes the loop variable starts negative and the loop is skipped *)
  Lemma enc_loop_skipped len m2 : len = N.of_nat (length c) -> 2 ^ 31 + 16 <= len < 2 ^ 32 ->
    exists i, enc_loop len m2 = Ok (i, m2).
  Proof.
    clear Hk Lk D Fc DM Lc. intros El Hl. unfold enc_loop. rewrite alen_ok by lia.
    pose proof (N.div_mod len 8 ltac:(lia)) as Q1. pose proof (N.mod_lt len 8 ltac:(lia)) as Q2.
    set (q := len / 8) in *. set (r := len mod 8) in *. clearbody r q.
    assert (Ei : (to_int (u32 (8 * q + 2 ^ 32 - 16)) < 0)%Z).
    { unfold to_int, u32. replace (8 * q + 2 ^ 32 - 16) with ((8 * q - 16) + 1 * 2 ^ 32) by lia.
      rewrite N.mod_add by lia. rewrite N.mod_small by lia.
      destruct (N.ltb_spec (8 * q - 16) (2 ^ 31)); lia. }
    eexists. destruct (N.to_nat len); cbn [while_];
      (replace (0 <=? to_int (u32 (8 * q + 2 ^ 32 - 16)))%Z with false by (symmetry; apply Z.leb_gt; exact Ei)); reflexivity.
  Qed.
End EncLoops.

(* effect of the block part of dvbcsa_encrypt on the packet, whatever its length *)
Definition enc_block_part (kk c : list N) : list N :=
  if N.of_nat (length c) <? 2 ^ 31 + 16 then block_layer (rcbc_enc (block_enc kk)) c
  else enc_partial kk c (length c / 8 - 1).

Theorem encrypt_ctx_ok be m key data len cw kk buf :
  length cw = 8%nat -> Forall is_byte cw -> holds m (key + 8) (map swap_nibbles cw) ->
  length kk = 56%nat -> holds m (key + 16) kk -> holds m data buf ->
  len = N.of_nat (length buf) -> len < 2 ^ 32 ->
  disjoint key 72 data len ->
  wp (dvbcsa_encrypt be m key data len)
     (fun m' => meq m' (put m data (if len <? 8 then buf else stream_cipher cw (enc_block_part kk buf)))).
Proof.
  intros Lc Fcw Hk Ls Hs Hb El Hl D. unfold dvbcsa_encrypt.
  destruct (N.ltb_spec len 8) as [H8|H8].
  - cbn [wp]. apply meq_sym, put_holds, Hb.
  - assert (H8' : (8 <= length buf)%nat) by lia.
    assert (Fb : Forall is_byte buf) by exact (proj1 Hb).
    assert (Ds : disjoint (key + 16) 56 data (N.of_nat (length buf))) by (rewrite <- El; apply sub_disjoint, D).
    assert (EA : data + N.land len 0xfffffff8 - 8 = data + N.of_nat (8 * (length buf / 8 - 1))).
    { rewrite alen_ok by exact Hl. pose proof (Nat.div_mod (length buf) 8 ltac:(lia)) as DM. pose proof (Nat.mod_upper_bound (length buf) 8 ltac:(lia)).
      assert (EK : len / 8 = N.of_nat (length buf / 8)) by (subst len; rewrite Nat2N.inj_div; reflexivity). rewrite EK. lia. }
    rewrite EA. apply wp_bind. eapply wp_mono.
    { apply (enc_first_ok m key data kk Hs Ls buf Fb Ds H8' m). apply meq_sym, put_holds, Hb. }
    intros m2 E2.
    change (wp (x <- enc_loop be key data len m2 ;; match x with (_, m) => dvbcsa_stream_xor be m (key + 8) data (data + 8) (len - 8) end)
       (fun m' => meq m' (put m data (stream_cipher cw (enc_block_part kk buf))))).
    apply wp_bind.
    assert (W : wp (enc_loop be key data len m2) (fun st => meq (snd st) (put m data (enc_block_part kk buf)))).
    { unfold enc_block_part. rewrite <- El. destruct (N.ltb_spec len (2 ^ 31 + 16)) as [HH|HH].
      - apply (enc_loop_ok be m key data kk Hs Ls buf Fb Ds H8' len m2); assumption.
      - edestruct (enc_loop_skipped be key data buf) as [i Ei]; [exact El| |rewrite Ei; cbn [wp snd]; exact E2]. lia. }
    eapply wp_mono; [exact W|]. intros [i m3] E3. cbn [snd] in E3.
    apply (stream_layer_ok be m key data len cw buf m3); try assumption.
    + rewrite <- El; exact D.
    + unfold enc_block_part. destruct (N.of_nat (length buf) <? 2 ^ 31 + 16).
      * rewrite <- enc_partial_end. apply (enc_partial_bytes m key kk Hs buf Fb).
      * apply (enc_partial_bytes m key kk Hs buf Fb).
    + unfold enc_block_part. destruct (N.of_nat (length buf) <? 2 ^ 31 + 16).
      * apply block_layer_length, rcbc_enc_length.
      * apply enc_partial_length; try assumption. lia.
Qed.

Theorem encrypt_general be m key data len cw buf :
  length cw = 8%nat -> holds m key (ctx_bytes cw) -> holds m data buf ->
  len = N.of_nat (length buf) -> len < 2 ^ 32 ->
  disjoint key 72 data len ->
  wp (dvbcsa_encrypt be m key data len)
     (fun m' => meq m' (put m data (if len <? 8 then buf else stream_cipher cw (enc_block_part (key_schedule cw) buf)))).
Proof.
  intros Lc Hk. apply encrypt_ctx_ok; eauto using ctx_cw, ctx_cws, ctx_sched, key_schedule_length.
Qed.

Theorem encrypt_ok be m key data len cw buf :
  length cw = 8%nat -> holds m key (ctx_bytes cw) -> holds m data buf ->
  len = N.of_nat (length buf) -> len < 2 ^ 31 + 16 ->
  disjoint key 72 data len ->
  wp (dvbcsa_encrypt be m key data len) (fun m' => meq m' (put m data (csa_encrypt cw buf))).
Proof.
  intros Lc Hk Hb El Hl D. eapply wp_mono; [apply (encrypt_general be m key data len cw buf); try assumption; lia|].
  intros m' E. cbv beta in E. unfold csa_encrypt, enc_block_part in *. rewrite <- El in E.
  destruct (N.ltb_spec len (2 ^ 31 + 16)); [|lia].
  destruct (N.ltb_spec len 8) as [H8|H8]; destruct (Nat.ltb_spec (length buf) 8) as [H8'|H8']; try lia; exact E.
Qed.
