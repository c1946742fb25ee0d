(** SourceAlgo.v -- dvbcsa_algo.c as parsed from the source text does what the model does. *)
From Coq Require Import String.
From Verif Require Import Base Tables ModelClassical ApiSpec MiniC MiniCFrame MiniCRun SourceClassical SourceRun SourceStream.
Local Open Scope string_scope. Local Open Scope N_scope.
#[local] Opaque link.

Lemma xor64_keeps be m b a m' : dvbcsa_xor_64 be m b a = Ok m' -> bytes_mem m -> bytes_mem m'.
Proof. intros E B. unfold dvbcsa_xor_64 in E. gob E. eapply store_bytes_keeps; [exact B| |exact E]. apply native_bytes_are. Qed.
Lemma bdec_keeps m key inp out m' : dvbcsa_block_decrypt m key inp out = Ok m' -> bytes_mem m -> bytes_mem m'.
Proof.
  intros E B. unfold dvbcsa_block_decrypt in E. gob E. rename a into W0, a0 into W1.
  assert (J0 : block8 W0) by (split; [eapply load_bytes_length; eassumption|eapply load_bytes_are; eassumption]).
  assert (J1 : block8 W1).
  { eapply for_down_inv; [exact E1|exact J0|]. intros j W W' Hj HW Eb. gob Eb. eapply dround8; eassumption. }
  eapply store_bytes_keeps; [exact B|exact (proj2 J1)|exact E].
Qed.
Lemma benc_keeps m key inp out m' : dvbcsa_block_encrypt m key inp out = Ok m' -> bytes_mem m -> bytes_mem m'.
Proof.
  intros E B. unfold dvbcsa_block_encrypt in E. gob E. rename a into W0, a0 into W1.
  assert (J0 : block8 W0) by (split; [eapply load_bytes_length; eassumption|eapply load_bytes_are; eassumption]).
  assert (J1 : block8 W1).
  { eapply for_inv; [exact E1|exact J0|]. intros j W W' Hj HW Eb. gob Eb. bds. eapply eround8; eassumption. }
  eapply store_bytes_keeps; [exact B|exact (proj2 J1)|exact E].
Qed.
Lemma mask_le len : N.land len 0xfffffff8 <= 2 ^ 32 - 8.
Proof.
  replace 0xfffffff8 with (N.shiftl (N.ones 29) 3) by reflexivity.
  assert (E : N.land len (N.shiftl (N.ones 29) 3) = N.shiftl (N.land (N.shiftr len 3) (N.ones 29)) 3).
  { apply N.bits_inj. intros i. rewrite N.land_spec. destruct (N.lt_ge_cases i 3) as [H|H].
    - rewrite !N.shiftl_spec_low by exact H. apply andb_false_r.
    - rewrite !N.shiftl_spec_high' by exact H. rewrite N.land_spec, N.shiftr_spec'. replace (i - 3 + 3) with i by lia. reflexivity. }
  rewrite E, N.shiftl_mul_pow2, N.land_ones. pose proof (N.mod_lt (N.shiftr len 3) (2 ^ 29)). change (2 ^ 29) with 536870912 in *. change (2 ^ 3) with 8. change (2 ^ 32) with 4294967296. lia.
Qed.

Ltac callx ::= goto; lazymatch goal with
  | |- link _ _ _ _ _ "dvbcsa_stream_xor" _ _ = _ => eapply stream_ok; [eassumption|assumption|assumption|bd|lia]
  | |- link _ _ _ _ _ "dvbcsa_block_decrypt" _ _ = _ => eapply bdec_ok; [eassumption|assumption|assumption]
  | |- link _ _ _ _ _ "dvbcsa_block_encrypt" _ _ = _ => eapply benc_ok; [eassumption|assumption|assumption]
  | |- link _ _ _ _ _ "dvbcsa_xor_64" _ _ = _ => eapply xor64_ok; eassumption
  end.

Definition dbody be (key data : N) (x : N * mem) : res (N * mem) :=
  let '(i, m) := x in
  m <- dvbcsa_xor_64 be m (data + i - 8) (data + i) ;;
  m <- dvbcsa_block_decrypt m (key + 16) (data + i) (data + i) ;;
  Ok (u32 (i + 8), m).
Definition dinv (x : N * mem) : Prop := 8 <= fst x /\ fst x < 2 ^ 32 /\ bytes_mem (snd x).
Lemma dbody_run be key data alen x x' : dbody be key data x = Ok x' -> dinv x -> (fst x < alen) -> alen <= 2 ^ 32 - 8 ->
  dinv x' /\ fst x' = fst x + 8 /\ exists m1, dvbcsa_xor_64 be (snd x) (data + fst x - 8) (data + fst x) = Ok m1 /\ bytes_mem m1 /\
    dvbcsa_block_decrypt m1 (key + 16) (data + fst x) (data + fst x) = Ok (snd x').
Proof.
  destruct x as [i m]. intros E (Hi & Hi' & B) Hl L. cbn [fst snd] in *. unfold dbody in E. gob E. okj E. cbn [fst snd].
  assert (Hu : u32 (i + 8) = i + 8) by (apply u32_id; lia). assert (B1 : bytes_mem a) by (eapply xor64_keeps; eassumption).
  assert (B2 : bytes_mem a0) by (eapply bdec_keeps; eassumption).
  rewrite Hu. split; [split; [cbn [fst]; lia|split; [cbn [fst]; lia|exact B2]]|]. split; [reflexivity|]. exists a. repeat split; assumption.
Qed.

Lemma decrypt_ok be fuel m key data len m' l : dvbcsa_decrypt be m key data len = Ok m' -> bytes_mem m -> (100 <= fuel)%nat -> len < 2 ^ 32 -> (N.to_nat len < fuel)%nat ->
  lk be fuel (p_dec be) "dvbcsa_decrypt" [keyp key; u8p data; VInt U32 len] (mk_cst m l) = Ok (None, mk_cst m' l).
Proof.
  intros E B Hf Hl Hlf. unfold dvbcsa_decrypt in E. cbn zeta in E. pose proof (mask_le len) as Ha. enter.
  destruct (len <? 8) eqn:L8.
  - okj E. etransitivity; [eapply call_void; [ret_type; reflexivity | params | the_body | | cbn; lia] | tidy].
    + stx. stx. eapply seq_stop. eapply st_if; [eapply cond_ok; [evx|rv|rewrite true_truth; cbn [cmp]; rewrite L8; reflexivity]|cbv iota; reflexivity].
    + exact I.
    + reflexivity.
  - gob E. destruct a1 as [i' m2]. okj E. rename a into m1, a0 into m2.
    assert (B1 : bytes_mem m1) by (eapply stream_keeps; [eassumption|exact B|lia]). assert (B2 : bytes_mem m2) by (eapply bdec_keeps; eassumption).
    pose proof (proj1 (N.ltb_ge _ _) L8) as L8'.
    etransitivity; [eapply call_void; [ret_type; reflexivity | params | the_body | | cbn; lia] | tidy].
    + stx. stx. eapply seq_one; [eapply st_if; [eapply cond_ok; [evx|rv|rewrite true_truth; cbn [cmp]; rewrite L8; reflexivity]|cbv iota; reflexivity]|tidy].
      stx. stx. eapply seq_one.
      { eapply st_for; [eapply opt_some; evx|]. tidy.
        refine (proj1 (loop_while _ _ _ _ _ (fun x : N * mem => mk_cst (snd x) [OPtr (TStruct "dvbcsa_key_s") (Some (Flat key)); OPtr (TInt U8) (Some (Flat data)); OInts U32 [Some len]; OInts U32 [Some (N.land len 0xfffffff8)]; OInts U32 [Some (fst x)]])
           dinv _ _ _ _ _ (dbody be key data) _ fuel (8, m2) (i', m') E2 Hlf _ _ _)).
        - split; [apply N.le_refl|split; [reflexivity|exact B2]].
        - intros [i m3] (Hi & Hi' & B3). cbn [fst snd] in *. eapply cond_ok; [evx|rv|]. rewrite true_truth. reflexivity.
        - clear E2. intros [i m3] [i2 m4] J C E. apply N.ltb_lt in C. destruct (dbody_run _ _ _ _ _ _ E J C Ha) as (J' & Ei & m5 & Ex & B5 & Eb). split; [exact J'|].
          destruct J as (Hi & Hi' & B3). cbn [fst snd] in *. subst i2. 
          eexists. split.
          { unfold body_ok. eapply exec_block. stx. stx. stx. }
          tidy. etransitivity; [eapply opt_some; evx|]. tidy. reflexivity. }
      stx.
    + exact I.
    + reflexivity.
Qed.

(** ** dvbcsa_encrypt: a signed loop variable *)
Lemma mask_ge len : 8 <= len -> len < 2 ^ 32 -> 8 <= N.land len 0xfffffff8.
Proof.
  intros H L. replace 0xfffffff8 with (N.shiftl (N.ones 29) 3) by reflexivity.
  assert (E : N.land len (N.shiftl (N.ones 29) 3) = N.shiftl (N.land (N.shiftr len 3) (N.ones 29)) 3).
  { apply N.bits_inj. intros i. rewrite N.land_spec. destruct (N.lt_ge_cases i 3) as [K|K].
    - rewrite !N.shiftl_spec_low by exact K. apply andb_false_r.
    - rewrite !N.shiftl_spec_high' by exact K. rewrite N.land_spec, N.shiftr_spec'. replace (i - 3 + 3) with i by lia. reflexivity. }
  rewrite E, N.shiftl_mul_pow2, N.land_ones, N.shiftr_div_pow2. rewrite N.mod_small by (apply N.div_lt_upper_bound; [discriminate|exact L]).
  change (2 ^ 3) with 8. pose proof (N.div_str_pos len 8). lia.
Qed.
Definition in_int (z : Z) : Prop := (- 2 ^ 31 <= z < 2 ^ 31)%Z.
Lemma sval_wrap z : in_int z -> sval I32 (wrap I32 z) = z.
Proof.
  intros H. unfold in_int in H. unfold sval, wrap. cbn [is_signed bits andb]. change (2 ^ Z.of_N 32)%Z with 4294967296%Z. change (32 - 1) with 31. change (2 ^ 31) with 2147483648. change (2 ^ 31)%Z with 2147483648%Z in H.
  destruct (Z.lt_ge_cases z 0) as [Hz|Hz].
  - replace (z mod 4294967296)%Z with (z + 4294967296)%Z by (rewrite <- (Z_mod_plus_full z 1), Z.mod_small; lia).
    rewrite (proj2 (N.leb_le _ _)) by lia. lia.
  - rewrite Z.mod_small by lia. rewrite (proj2 (N.leb_gt _ _)) by lia. lia.
Qed.
Lemma wrap_to_int n : n < 2 ^ 32 -> wrap I32 (to_int n) = n /\ in_int (to_int n).
Proof.
  intros H. unfold to_int, wrap, in_int. cbn [bits]. change (2 ^ Z.of_N 32)%Z with 4294967296%Z. change (2 ^ 31) with 2147483648. change (2 ^ 31)%Z with 2147483648%Z. change (2 ^ 32)%Z with 4294967296%Z. change (2 ^ 32) with 4294967296 in H.
  destruct (N.ltb_spec n 2147483648).
  - rewrite Z.mod_small by lia. lia.
  - replace ((Z.of_N n - 4294967296) mod 4294967296)%Z with (Z.of_N n) by (rewrite <- (Z_mod_plus_full _ 1), Z.mod_small; lia). lia.
Qed.
Lemma ge_zero z : in_int z -> int_op Ge I32 (wrap I32 z) I32 0 = Ok (truth (0 <=? z)%Z).
Proof.
  intros H. unfold int_op. cbn zeta. cbn [promote common]. rewrite !(conv_free I32 I32) by reflexivity. rewrite sval_wrap by exact H. reflexivity.
Qed.
Lemma sub_eight z z' : in_int z -> int_ok (z - 8) = Ok z' -> int_op Sub I32 (wrap I32 z) I32 8 = Ok (VInt I32 (wrap I32 z')) /\ in_int z'.
Proof.
  intros H E. unfold int_ok in E. destruct ((_ <=? _)%Z && (_ <? _)%Z) eqn:C; [|discriminate]. okj E. split.
  - unfold int_op. cbn zeta. cbn [promote common]. rewrite !(conv_free I32 I32) by reflexivity. rewrite sval_wrap by exact H.
    change (sval I32 8) with 8%Z. unfold arith, fits_in. cbn [is_signed bits]. change (Z.of_N 32 - 1)%Z with 31%Z. rewrite C. reflexivity.
  - apply andb_true_iff in C. destruct C as [C1 C2]. apply Z.leb_le in C1. apply Z.ltb_lt in C2. split; assumption.
Qed.
Lemma wrap_pos z : (0 <= z)%Z -> in_int z -> wrap I32 z = Z.to_N z /\ Z.to_N z < 2 ^ 31.
Proof.
  intros P H. unfold in_int in H. change (2 ^ 31)%Z with 2147483648%Z in H. unfold wrap. cbn [bits]. change (2 ^ Z.of_N 32)%Z with 4294967296%Z. change (2 ^ 31) with 2147483648.
  rewrite Z.mod_small by lia. lia.
Qed.

Definition ebody be (key data : N) (x : Z * mem) : res (Z * mem) :=
  let '(i, m) := x in
  m <- dvbcsa_xor_64 be m (padd data i) (padd data (i + 8)) ;;
  m <- dvbcsa_block_encrypt m (key + 16) (padd data i) (padd data i) ;;
  i <- int_ok (i - 8) ;;
  Ok (i, m).
Definition einv (x : Z * mem) : Prop := in_int (fst x) /\ bytes_mem (snd x).
Lemma ebody_run be key data x x' : ebody be key data x = Ok x' -> einv x -> (0 <= fst x)%Z ->
  einv x' /\ int_op Sub I32 (wrap I32 (fst x)) I32 8 = Ok (VInt I32 (wrap I32 (fst x'))) /\ exists n m1, wrap I32 (fst x) = n /\ n < 2 ^ 31 /\
    dvbcsa_xor_64 be (snd x) (data + n) (data + n + 8) = Ok m1 /\ bytes_mem m1 /\
    dvbcsa_block_encrypt m1 (key + 16) (data + n) (data + n) = Ok (snd x').
Proof.
  destruct x as [z m]. intros E [Hz B] P. cbn [fst snd] in *. unfold ebody in E. gob E. okj E. cbn [fst snd].
  destruct (wrap_pos z P Hz) as [Hw Hn]. destruct (sub_eight z a1 Hz E2) as [Hs Hi].
  assert (B1 : bytes_mem a) by (eapply xor64_keeps; eassumption). assert (B2 : bytes_mem a0) by (eapply benc_keeps; eassumption).
  assert (P1 : padd data z = data + Z.to_N z) by (unfold padd; lia). assert (P2 : padd data (z + 8) = data + Z.to_N z + 8) by (unfold padd; lia).
  rewrite P1, P2 in E0. rewrite P1 in E1.
  split; [split; assumption|]. split; [exact Hs|]. exists (Z.to_N z), a. repeat split; assumption.
Qed.

Lemma encrypt_ok be fuel m key data len m' l : dvbcsa_encrypt be m key data len = Ok m' -> bytes_mem m -> (100 <= fuel)%nat -> len < 2 ^ 32 -> (N.to_nat len < fuel)%nat ->
  lk be fuel (p_enc be) "dvbcsa_encrypt" [keyp key; u8p data; VInt U32 len] (mk_cst m l) = Ok (None, mk_cst m' l).
Proof.
  intros E B Hf Hl Hlf. unfold dvbcsa_encrypt in E. cbn zeta in E. pose proof (mask_le len) as Ha. enter.
  destruct (len <? 8) eqn:L8.
  - okj E. etransitivity; [eapply call_void; [ret_type; reflexivity | params | the_body | | cbn; lia] | tidy].
    + stx. stx. eapply seq_stop. eapply st_if; [eapply cond_ok; [evx|rv|rewrite true_truth; cbn [cmp]; rewrite L8; reflexivity]|cbv iota; reflexivity].
    + exact I.
    + reflexivity.
  - gob E. destruct a0 as [i' m2]. rename a into m1. pose proof (proj1 (N.ltb_ge _ _) L8) as L8'. pose proof (mask_ge len L8' Hl) as Hg.
    assert (B1 : bytes_mem m1) by (eapply benc_keeps; eassumption).
    destruct (wrap_to_int (u32 (N.land len 0xfffffff8 + 2 ^ 32 - 16)) ltac:(apply N.mod_lt; discriminate)) as [Hw Hi].
    assert (B2 : bytes_mem m2).
    { assert (K : einv (i', m2) /\ (0 <=? i')%Z = false); [|apply K].
      refine (while_inv einv _ (ebody be key data) _ _ _ E1 _ _); [split; assumption|]. intros [z m3] x' J C F. apply Z.leb_le in C. exact (proj1 (ebody_run _ _ _ _ _ F J C)). }
    etransitivity; [eapply call_void; [ret_type; reflexivity | params | the_body | | cbn; lia] | tidy].
    + stx. stx. eapply seq_one; [eapply st_if; [eapply cond_ok; [evx|rv|rewrite true_truth; cbn [cmp]; rewrite L8; reflexivity]|cbv iota; reflexivity]|tidy].
      stx. eapply seq_one.
      { eapply st_for; [eapply opt_some; evx|]. tidy.
        match goal with |- context [OInts I32 [Some ?x]] => change x with (u32 (N.land len 0xfffffff8 + 2 ^ 32 - 16)); rewrite <- Hw end.
        refine (proj1 (loop_while _ _ _ _ _ (fun x : Z * mem => mk_cst (snd x) [OPtr (TStruct "dvbcsa_key_s") (Some (Flat key)); OPtr (TInt U8) (Some (Flat data)); OInts U32 [Some len]; OInts U32 [Some (N.land len 0xfffffff8)]; OInts I32 [Some (wrap I32 (fst x))]])
           einv _ _ _ _ _ (ebody be key data) _ fuel (to_int (u32 (N.land len 0xfffffff8 + 2 ^ 32 - 16)), m1) (i', m2) E1 Hlf _ _ _)).
        - split; assumption.
        - intros [i m3] (Hi' & B3). cbn [fst snd] in *. eapply cond_ok; [eapply ev_bin; [evx|rv|evx|rv|cbn [bin_op]; apply ge_zero; exact Hi']|rv|]. rewrite true_truth. reflexivity.
        - clear E1. intros [i m3] [i2 m4] J C E1. apply Z.leb_le in C. destruct (ebody_run _ _ _ _ _ E1 J C) as (J' & Es & n & m5 & Hn & Hn' & Ex & B5 & Eb). split; [exact J'|].
          destruct J as (Hi' & B3). cbn [fst snd] in *. rewrite Hn in *.
          eexists. split.
          { unfold body_ok. eapply exec_block. stx. stx. stx. }
          tidy. etransitivity; [eapply opt_some; eapply ev_op; [evx|rv|evx|rv|cbn [bin_op]; exact Es|reflexivity|sto]|]. tidy. reflexivity. }
      cbn [fst snd]. stx. stx.
    + exact I.
    + reflexivity.
Qed.
