(** BsSbox.v -- the S-box and permutation stage of the bitslice block cipher, on every target. *)
From Verif Require Import Base Mem Tables Spec ModelBsWord ModelBsTranspose ModelBsStream ModelBsBlock ClassicalBlock
  BsApiSpec BsWordFacts BsView BsTransposeFacts BsStream.
Local Open Scope nat_scope.

Definition s2_words (c : build) : nat := if deinterleave c then 16 else 8.

(** ** Table lookups through the byte and 16-bit views *)
Definition puts (c : build) (n es : nat) (enc : N -> list N) (put : list word -> nat -> N -> res (list word)) : Prop :=
  forall dst j x, wrows c n dst -> es * j + es <= n * word_bytes c -> is_byte x ->
    wp (put dst j x) (fun dst' => wrows c n dst' /\
      forall k, fbyte c dst' k = if (es * j <=? k) && (k <? es * j + es) then nth (k - es * j) (enc x) 0%N else fbyte c dst k).

Lemma put_sbox_ok c n : puts c n 1 (fun x => [sbox x]) (put_sbox c).
Proof.
  intros dst j x W Hj Hx. unfold put_sbox. rewrite tget_sbox by exact Hx. cbn [bind].
  apply (wp_view_set c n); auto; try lia; [exists (word_bytes c); lia|].
  constructor; [apply sbox_is_byte|constructor].
Qed.

Lemma sbox_perm_entry x : is_byte x ->
  tget dvbcsa_block_sbox_perm x = Ok (sbox x + 256 * perm (sbox x))%N.
Proof.
  intros H. unfold tget. rewrite (aget_ok _ _ 0%N) by (change (length dvbcsa_block_sbox_perm) with 256%nat; unfold is_byte in H; lia).
  f_equal. apply N.eqb_eq.
  apply (byte_sweep (fun x => nth (N.to_nat x) dvbcsa_block_sbox_perm 0 =? sbox x + 256 * perm (sbox x))%N); [vm_compute; reflexivity|exact H].
Qed.

Lemma le_bytes_pair a b : is_byte a -> is_byte b -> le_bytes 2 (a + 256 * b) = [a; b].
Proof.
  unfold is_byte. intros Ha Hb. unfold le_bytes.
  assert (E1 : ((a + 256 * b) mod 256 = a)%N) by (rewrite N.mul_comm, N.mod_add, N.mod_small; lia).
  assert (E2 : ((a + 256 * b) / 256 = b)%N) by (rewrite N.mul_comm, N.div_add, N.div_small; lia).
  rewrite E1, E2, N.mod_small by lia. reflexivity.
Qed.

Lemma put_sbox_perm_ok c n : big_endian c = false -> (exists q, word_bytes c = q * 2) ->
  puts c n 2 (fun x => [sbox x; perm (sbox x)]) (put_sbox_perm c).
Proof.
  intros Hb Hq dst j x W Hj Hx. unfold put_sbox_perm. rewrite sbox_perm_entry by exact Hx. cbn [bind].
  rewrite Hb. unfold native_bytes. rewrite le_bytes_pair by auto using sbox_is_byte, perm_is_byte.
  apply (wp_view_set c n); auto; try lia.
  repeat constructor; auto using sbox_is_byte, perm_is_byte.
Qed.

Definition looked (c : build) (es K : nat) (enc : N -> list N) (src dst : list word) : Prop :=
  forall k t, k < K -> t < es -> fbyte c dst (es * k + t) = nth t (enc (fbyte c src k)) 0%N.

Lemma alt_load_le a b d e : is_byte a -> is_byte b -> is_byte d -> is_byte e ->
  (N.land (le_val [a; b; d; e]) 255 = a /\ N.land (N.shiftr (le_val [a; b; d; e]) 8) 255 = b /\
   N.land (N.shiftr (le_val [a; b; d; e]) 16) 255 = d /\ N.land (N.shiftr (le_val [a; b; d; e]) 24) 255 = e)%N.
Proof.
  unfold is_byte. intros Ha Hb Hd He. cbn [le_val].
  assert (M : forall x y, (x < 256)%N -> ((x + 256 * y) mod 256 = x)%N) by (intros; rewrite N.mul_comm, N.mod_add, N.mod_small; lia).
  assert (D : forall x y, (x < 256)%N -> ((x + 256 * y) / 256 = y)%N) by (intros; rewrite N.mul_comm, N.div_add, N.div_small; lia).
  change 255%N with (N.ones 8). rewrite !N.land_ones, !N.shiftr_div_pow2.
  change (2 ^ 8)%N with 256%N. change (2 ^ 16)%N with (256 * 256)%N. change (2 ^ 24)%N with (256 * 256 * 256)%N.
  rewrite <- !N.div_div by lia. repeat (rewrite D by assumption). rewrite !M by assumption. auto.
Qed.

Section Loops.
  Context (c : build) (n es : nat) (enc : N -> list N) (put : list word -> nat -> N -> res (list word)).
  Hypothesis (Hput : puts c n es enc put) (Hes : es * 8 <= n).
  Context (src : list word).
  Hypothesis (Ws : wrows c 8 src).

  Lemma put_looked dst K x : wrows c n dst -> K < 8 * word_bytes c -> looked c es K enc src dst -> x = fbyte c src K ->
    wp (put dst K x) (fun dst' => wrows c n dst' /\ looked c es (S K) enc src dst').
  Proof.
    intros W HK L ->. eapply wp_mono; [apply Hput; [exact W|nia|apply (fbyte_is_byte c 8), Ws]|].
    intros dst' [W' H']. split; [exact W'|]. intros k t Hk Ht. rewrite H'.
    destruct (Nat.eq_dec k K) as [->|Ne].
    - destruct (Nat.leb_spec (es * K) (es * K + t)); [|lia]. destruct (Nat.ltb_spec (es * K + t) (es * K + es)); [|lia].
      cbn [andb]. f_equal. lia.
    - replace (es * K <=? es * k + t) with false by (symmetry; apply Nat.leb_gt; nia). cbn [andb]. apply L; lia.
  Qed.

  Lemma byte_get_ok k : k < 8 * word_bytes c -> byte_get c src k = Ok (fbyte c src k).
  Proof.
    intros Hk. unfold byte_get.
    assert (W : wp (view_get c 1 src k) (fun v => length v = 1 /\ Forall is_byte v /\ forall j, j < 1 -> nth j v 0%N = fbyte c src (1 * k + j))).
    { apply (wp_view_get c 8); [exact Ws|lia|exists (word_bytes c); lia|lia]. }
    apply wp_ok in W as (v & -> & Lv & _ & Hv). cbn [bind].
    destruct v as [|x [|]]; simpl in Lv; try lia. specialize (Hv 0 ltac:(lia)). cbn [nth] in Hv.
    unfold aget; cbn [nth_error]. rewrite Hv. do 2 f_equal. lia.
  Qed.

  Lemma words4 : exists e, word_bytes c = 4 * e /\ 0 < e.
  Proof. destruct (word_bytes4 c) as (e & He & E & _). eauto. Qed.

  Lemma sbox_loop_ok dst : wrows c n dst ->
    wp (sbox_loop c put src dst) (fun dst' => wrows c n dst' /\ looked c es (8 * word_bytes c) enc src dst').
  Proof.
    intros W. destruct words4 as (e & Ee & He). unfold sbox_loop.
    assert (E4 : word_bytes c * 8 / 4 = 8 * e) by (rewrite Ee; symmetry; apply Nat.div_unique_exact; lia).
    rewrite E4.
    eapply wp_mono; [apply (wp_for (fun k dst => wrows c n dst /\ looked c es (4 * k) enc src dst))|].
    - split; [exact W|]. intros k t Hk; lia.
    - intros k d1 Hk [W1 L1]. rewrite !byte_get_ok by lia. cbn [bind]. rewrite Nat.add_0_r.
      apply wp_bind. eapply wp_mono; [apply (put_looked d1 (4 * k) _ W1 ltac:(lia) L1 eq_refl)|]. intros d2 [W2 L2].
      replace (4 * k + 1) with (S (4 * k)) by lia.
      apply wp_bind. eapply wp_mono; [apply (put_looked d2 (S (4 * k)) _ W2 ltac:(lia) L2 eq_refl)|]. intros d3 [W3 L3].
      replace (4 * k + 2) with (S (S (4 * k))) by lia.
      apply wp_bind. eapply wp_mono; [apply (put_looked d3 (S (S (4 * k))) _ W3 ltac:(lia) L3 eq_refl)|]. intros d4 [W4 L4].
      replace (4 * k + 3) with (S (S (S (4 * k)))) by lia.
      eapply wp_mono; [apply (put_looked d4 (S (S (S (4 * k)))) _ W4 ltac:(lia) L4 eq_refl)|]. intros d5 [W5 L5].
      split; [exact W5|]. replace (4 * S k) with (S (S (S (S (4 * k))))) by lia. exact L5.
    - intros d [Wd Ld]. split; [exact Wd|]. replace (8 * word_bytes c) with (4 * (0 + 8 * e)) by lia. exact Ld.
  Qed.

  Lemma u32_get_ok i : i < 2 * word_bytes c ->
    wp (u32_get c src i) (fun s => alt_sbox_load c s =
      (fbyte c src (4 * i), fbyte c src (4 * i + 1), fbyte c src (4 * i + 2), fbyte c src (4 * i + 3))).
  Proof.
    intros Hi. unfold u32_get. apply wp_bind.
    eapply wp_mono; [apply (wp_view_get c 8 4 src i Ws); [lia|apply div_4_words|lia]|].
    intros v (Lv & Fv & Hv). cbn [wp].
    destruct v as [|x0 [|x1 [|x2 [|x3 [|]]]]]; simpl in Lv; try lia.
    pose proof (Hv 0 ltac:(lia)) as H0. pose proof (Hv 1 ltac:(lia)) as H1. pose proof (Hv 2 ltac:(lia)) as H2. pose proof (Hv 3 ltac:(lia)) as H3.
    cbn [nth] in *. rewrite Nat.add_0_r in H0. rewrite <- H0, <- H1, <- H2, <- H3. clear H0 H1 H2 H3 Hv.
    inv_forall. unfold alt_sbox_load, native_val. destruct (big_endian c).
    - cbn [rev app]. destruct (alt_load_le x3 x2 x1 x0) as (-> & -> & -> & ->); auto.
    - destruct (alt_load_le x0 x1 x2 x3) as (-> & -> & -> & ->); auto.
  Qed.

  Lemma alt_put_ok s j dst : wrows c n dst -> j < 2 * word_bytes c -> looked c es (4 * j) enc src dst ->
    alt_sbox_load c s = (fbyte c src (4 * j), fbyte c src (4 * j + 1), fbyte c src (4 * j + 2), fbyte c src (4 * j + 3)) ->
    wp (alt_sbox_put c put s j dst) (fun dst' => wrows c n dst' /\ looked c es (4 * S j) enc src dst').
  Proof.
    intros W Hj L Es. unfold alt_sbox_put. rewrite Es. rewrite Nat.add_0_r.
    apply wp_bind. eapply wp_mono; [apply (put_looked dst (4 * j) _ W ltac:(lia) L eq_refl)|]. intros d2 [W2 L2].
    replace (4 * j + 1) with (S (4 * j)) by lia.
    apply wp_bind. eapply wp_mono; [apply (put_looked d2 (S (4 * j)) _ W2 ltac:(lia) L2 eq_refl)|]. intros d3 [W3 L3].
    replace (4 * j + 2) with (S (S (4 * j))) by lia.
    apply wp_bind. eapply wp_mono; [apply (put_looked d3 (S (S (4 * j))) _ W3 ltac:(lia) L3 eq_refl)|]. intros d4 [W4 L4].
    replace (4 * j + 3) with (S (S (S (4 * j)))) by lia.
    eapply wp_mono; [apply (put_looked d4 (S (S (S (4 * j)))) _ W4 ltac:(lia) L4 eq_refl)|]. intros d5 [W5 L5].
    split; [exact W5|]. replace (4 * S j) with (S (S (S (S (4 * j))))) by lia. exact L5.
  Qed.

  Lemma alt_sbox_loop_ok dst : wrows c n dst ->
    wp (alt_sbox_loop c put src dst) (fun dst' => wrows c n dst' /\ looked c es (8 * word_bytes c) enc src dst').
  Proof.
    intros W. destruct words4 as (e & Ee & He). unfold alt_sbox_loop.
    assert (E4 : word_bytes c / 4 = e) by (rewrite Ee, Nat.mul_comm, Nat.div_mul by lia; reflexivity).
    rewrite E4. cbv zeta.
    apply wp_bind. eapply wp_mono; [apply u32_get_ok; lia|]. intros s Hs.
    apply wp_bind. eapply wp_mono; [apply (wp_for (fun j st => wrows c n (snd st) /\ looked c es (4 * j) enc src (snd st) /\
      alt_sbox_load c (fst st) = (fbyte c src (4 * j), fbyte c src (4 * j + 1), fbyte c src (4 * j + 2), fbyte c src (4 * j + 3))))|].
    - cbn [fst snd]. split; [exact W|]. split; [intros k t Hk; lia|exact Hs].
    - intros j [s1 d1] Hj (W1 & L1 & S1). cbn [fst snd] in *.
      apply wp_bind. eapply wp_mono; [apply (u32_get_ok (j + 1)); lia|]. intros s2 S2.
      apply wp_bind. eapply wp_mono; [apply (alt_put_ok s1 j d1 W1 ltac:(lia) L1 S1)|]. intros d2 [W2 L2].
      cbn [wp fst snd]. split; [exact W2|]. split; [exact L2|]. rewrite S2. replace (j + 1) with (S j) by lia. reflexivity.
    - intros [s1 d1] (W1 & L1 & S1). cbn [fst snd] in *.
      eapply wp_mono; [apply (alt_put_ok s1 (e * 8 - 1) d1 W1 ltac:(lia) L1 S1)|]. intros d2 [W2 L2].
      split; [exact W2|]. replace (8 * word_bytes c) with (4 * S (e * 8 - 1)) by lia. exact L2.
  Qed.
End Loops.

(** ** BLOCK_PERMUTE_LOGIC *)
Lemma vpos_byte be p b k : p mod 8 = 0 -> k < 8 -> 8 * b + k < p ->
  exists b', vpos be p (8 * b + k) = 8 * b' + k /\ 8 * b' + 8 <= p /\ forall k', k' < 8 -> vpos be p (8 * b + k') = 8 * b' + k'.
Proof.
  intros Hp Hk Hb. pose proof (Nat.div_mod p 8 ltac:(lia)) as Ep.
  assert (E : forall k', k' < 8 -> (8 * b + k') / 8 = b /\ (8 * b + k') mod 8 = k').
  { intros k' Hk'. rewrite div8, mod8, Nat.div_small, Nat.mod_small by lia. split; lia. }
  unfold vpos. destruct be.
  - exists (p / 8 - 1 - b). repeat split; [|lia|]; intros; (destruct (E k Hk) as [-> ->] || idtac); try lia.
    destruct (E k' ltac:(assumption)) as [-> ->]. lia.
  - exists b. repeat split; intros; lia.
Qed.

(* byte b of a word, by bits *)
Lemma byte_lanes c b : b < word_bytes c -> exists L b', L < n_lanes c /\ 8 * b' + 8 <= P c /\ forall k, 8 * b + k = P c * L + (8 * b' + k).
Proof.
  intros Hb. pose proof (word_lanes c) as E. assert (0 < lane_bytes c) by (destruct (lane_bytes_cases c); lia).
  exists (b / lane_bytes c), (b mod lane_bytes c).
  pose proof (Nat.div_mod b (lane_bytes c) ltac:(lia)). pose proof (Nat.mod_upper_bound b (lane_bytes c) ltac:(lia)).
  split; [apply Nat.div_lt_upper_bound; lia|]. unfold P. split; [lia|]. intros k. nia.
Qed.

Lemma nth_byte_mbit w b k : k < 8 -> N.testbit (nth b w 0%N) (N.of_nat k) = mbit w (8 * b + k).
Proof. intros Hk. unfold mbit. rewrite div8, mod8, Nat.div_small, Nat.mod_small, Nat.add_0_r by lia. reflexivity. Qed.

Lemma byte_ext x y : is_byte x -> is_byte y -> (forall k, k < 8 -> N.testbit x (N.of_nat k) = N.testbit y (N.of_nat k)) -> x = y.
Proof.
  intros Hx Hy H. apply N.bits_inj. intros k. destruct (N.lt_ge_cases k 8) as [C|C].
  - specialize (H (N.to_nat k) ltac:(lia)). rewrite N2Nat.id in H. exact H.
  - rewrite !(fun x => bits_of_bound x 8); auto.
Qed.

Lemma wf_nth c w b : wf c w -> is_byte (nth b w 0%N).
Proof.
  intros [L F]. destruct (Nat.lt_ge_cases b (length w)) as [C|C].
  - rewrite Forall_forall in F. apply F, nth_In, C.
  - rewrite nth_overflow by lia. reflexivity.
Qed.

Lemma nth_and c x y b : wf c x -> wf c y -> b < word_bytes c -> nth b (BS_AND x y) 0%N = N.land (nth b x 0%N) (nth b y 0%N).
Proof. intros [Lx _] [Ly _] Hb. apply (nth_map2 N.land); lia. Qed.
Lemma nth_or c x y b : wf c x -> wf c y -> b < word_bytes c -> nth b (BS_OR x y) 0%N = N.lor (nth b x 0%N) (nth b y 0%N).
Proof. intros [Lx _] [Ly _] Hb. apply (nth_map2 N.lor); lia. Qed.
Lemma nth_xor c x y b : wf c x -> wf c y -> b < word_bytes c -> nth b (BS_XOR x y) 0%N = N.lxor (nth b x 0%N) (nth b y 0%N).
Proof. intros [Lx _] [Ly _] Hb. apply (nth_map2 N.lxor); lia. Qed.
Lemma nth_val8 c v b : is_byte v -> b < word_bytes c -> nth b (BS_VAL c 1 v) 0%N = v.
Proof.
  intros Hv Hb. apply byte_ext; [apply (wf_nth c), wf_val; auto|exact Hv|].
  intros k Hk. rewrite nth_byte_mbit by exact Hk. rewrite mbit_val8 by (exact Hv || lia).
  rewrite mod8, Nat.mod_small by exact Hk. reflexivity.
Qed.

(* shifts that keep every selected bit inside its byte *)
Lemma nth_shl_mask c x M n b : wf c x -> is_byte M -> is_byte (N.shiftl M (N.of_nat n)) -> n < 8 -> b < word_bytes c ->
  nth b (BS_SHL c (BS_AND x (BS_VAL c 1 M)) (N.of_nat n)) 0%N = N.shiftl (N.land (nth b x 0%N) M) (N.of_nat n).
Proof.
  intros Wx HM HMn Hn Hb.
  assert (WM : wf c (BS_VAL c 1 M)) by (apply wf_val; auto).
  assert (Wa : wf c (BS_AND x (BS_VAL c 1 M))) by (apply wf_and; assumption).
  destruct (byte_lanes c b Hb) as (L & b' & HL & HP & Eb).
  assert (HPm : P c mod 8 = 0) by (destruct (P_cases c) as [-> | ->]; reflexivity).
  assert (Hbyte : is_byte (N.shiftl (N.land (nth b x 0%N) M) (N.of_nat n))).
  { unfold is_byte. change 256%N with (2 ^ 8)%N. apply bound_of_bits. intros k Hk.
    rewrite N.shiftl_spec_high' by lia. rewrite N.land_spec.
    rewrite <- (N.shiftl_spec_high' M (N.of_nat n) k) by lia.
    rewrite (bits_of_bound (N.shiftl M (N.of_nat n)) 8); [apply andb_false_r|exact HMn|exact Hk]. }
  apply byte_ext; [apply (wf_nth c), wf_shl, Wa|exact Hbyte|].
  intros k Hk. rewrite nth_byte_mbit by exact Hk. rewrite Eb.
  rewrite mbit_vbit by (auto using wf_shl; lia).
  destruct (vpos_byte (big_endian c) (P c) b' k HPm Hk ltac:(lia)) as (b2 & Ev & Hb2 & Ev2).
  rewrite Ev, vbit_shl by (auto; lia).
  destruct (Nat.lt_ge_cases k n) as [C|C].
  - (* would come from the byte below: masked out *)
    rewrite N.shiftl_spec_low by lia.
    destruct (Nat.ltb_spec (8 * b2 + k) n); [reflexivity|].
    rewrite vbit_and by (auto; lia). rewrite vbit_val by (auto; lia).
    replace (8 * b2 + k - n) with (8 * (b2 - 1) + (8 + k - n)) by lia. rewrite Nat.mul_1_r, mod8, Nat.mod_small by lia.
    assert (Z : N.testbit M (N.of_nat (8 + k - n)) = false).
    { assert (Q : N.testbit (N.shiftl M (N.of_nat n)) (N.of_nat (8 + k)) = false) by (apply bits_of_bound with (n := 8%N); [exact HMn|lia]).
      rewrite N.shiftl_spec_high' in Q by lia. rewrite <- Q. f_equal. lia. }
    rewrite Z. apply andb_false_r.
  - rewrite N.shiftl_spec_high' by lia.
    destruct (Nat.ltb_spec (8 * b2 + k) n); [lia|].
    replace (N.of_nat k - N.of_nat n)%N with (N.of_nat (k - n)) by lia.
    rewrite vbit_and by (auto; lia). rewrite vbit_val by (auto; lia).
    replace (8 * b2 + k - n) with (8 * b2 + (k - n)) by lia.
    rewrite Nat.mul_1_r, mod8, Nat.mod_small by lia. rewrite N.land_spec. f_equal.
    rewrite nth_byte_mbit by lia. rewrite Eb, mbit_vbit by (auto; lia). rewrite Ev2 by lia. reflexivity.
Qed.

Lemma nth_shr_mask c x M n b : wf c x -> is_byte M -> N.land M (N.ones (N.of_nat n)) = 0%N -> n < 8 -> b < word_bytes c ->
  nth b (BS_SHR c (BS_AND x (BS_VAL c 1 M)) (N.of_nat n)) 0%N = N.shiftr (N.land (nth b x 0%N) M) (N.of_nat n).
Proof.
  intros Wx HM HMn Hn Hb.
  assert (WM : wf c (BS_VAL c 1 M)) by (apply wf_val; auto).
  assert (Wa : wf c (BS_AND x (BS_VAL c 1 M))) by (apply wf_and; assumption).
  destruct (byte_lanes c b Hb) as (L & b' & HL & HP & Eb).
  assert (HPm : P c mod 8 = 0) by (destruct (P_cases c) as [-> | ->]; reflexivity).
  assert (Hbyte : is_byte (N.shiftr (N.land (nth b x 0%N) M) (N.of_nat n))).
  { rewrite N.shiftr_div_pow2. pose proof (land_byte (nth b x 0%N) M (wf_nth c x b Wx)) as Q. unfold is_byte in *.
    eapply N.le_lt_trans; [|exact Q]. apply N.div_le_upper_bound; [apply N.pow_nonzero; lia|].
    assert (0 < 2 ^ N.of_nat n)%N by (apply N.neq_0_lt_0, N.pow_nonzero; lia). nia. }
  apply byte_ext; [apply (wf_nth c), wf_shr, Wa|exact Hbyte|].
  intros k Hk. rewrite nth_byte_mbit by exact Hk. rewrite Eb.
  rewrite mbit_vbit by (auto using wf_shr; lia).
  destruct (vpos_byte (big_endian c) (P c) b' k HPm Hk ltac:(lia)) as (b2 & Ev & Hb2 & Ev2).
  rewrite Ev, vbit_shr by (auto; lia). rewrite N.shiftr_spec'. rewrite <- Nat2N.inj_add.
  destruct (Nat.lt_ge_cases (k + n) 8) as [C|C].
  - replace (8 * b2 + k + n) with (8 * b2 + (k + n)) by lia.
    rewrite vbit_and by (auto; lia). rewrite vbit_val by (auto; lia).
    rewrite Nat.mul_1_r, mod8, Nat.mod_small by lia. rewrite N.land_spec. f_equal.
    rewrite nth_byte_mbit by lia. rewrite Eb, mbit_vbit by (auto; lia). rewrite Ev2 by lia. reflexivity.
  - replace (N.testbit (N.land (nth b x 0%N) M) (N.of_nat (k + n))) with false
      by (symmetry; apply bits_of_bound with (n := 8%N); [apply land_byte, (wf_nth c), Wx|lia]).
    destruct (Nat.lt_ge_cases (8 * b2 + k + n) (P c)) as [C2|C2].
    + rewrite vbit_and by (auto; lia). rewrite vbit_val by (auto; lia).
      replace (8 * b2 + k + n) with (8 * (b2 + 1) + (k + n - 8)) by lia. rewrite Nat.mul_1_r, mod8, Nat.mod_small by lia.
      assert (Z : N.testbit M (N.of_nat (k + n - 8)) = false).
      { apply (f_equal (fun z => N.testbit z (N.of_nat (k + n - 8)))) in HMn. rewrite N.land_spec, N.bits_0 in HMn.
        rewrite N.ones_spec_low in HMn by lia. rewrite andb_true_r in HMn. exact HMn. }
      rewrite Z. apply andb_false_r.
    + apply vbit_high; auto.
Qed.

Lemma permute_logic_ok c x : wf c x ->
  wf c (BLOCK_PERMUTE_LOGIC c x) /\ forall b, b < word_bytes c -> nth b (BLOCK_PERMUTE_LOGIC c x) 0%N = perm (nth b x 0%N).
Proof.
  intros Wx.
  assert (A : forall v, wf c (BS_AND x (BS_VAL c 1 v))) by (intros; apply wf_and; [exact Wx|apply wf_val; auto]).
  assert (S1 : forall v n, wf c (BS_SHL c (BS_AND x (BS_VAL c 1 v)) n)) by (intros; apply wf_shl, A).
  assert (S2 : forall v n, wf c (BS_SHR c (BS_AND x (BS_VAL c 1 v)) n)) by (intros; apply wf_shr, A).
  unfold BLOCK_PERMUTE_LOGIC. cbv zeta. split; [repeat apply wf_or; auto|].
  intros b Hb.
  repeat (rewrite (nth_or c) by (try exact Hb; repeat apply wf_or; auto)).
  assert (H29 := nth_shl_mask c x 0x29%N 1 b Wx eq_refl eq_refl ltac:(lia) Hb). change (N.of_nat 1) with 1%N in H29. rewrite H29.
  assert (H02 := nth_shl_mask c x 0x02%N 6 b Wx eq_refl eq_refl ltac:(lia) Hb). change (N.of_nat 6) with 6%N in H02. rewrite H02.
  assert (H04 := nth_shl_mask c x 0x04%N 3 b Wx eq_refl eq_refl ltac:(lia) Hb). change (N.of_nat 3) with 3%N in H04. rewrite H04.
  assert (H10 := nth_shr_mask c x 0x10%N 2 b Wx eq_refl eq_refl ltac:(lia) Hb). change (N.of_nat 2) with 2%N in H10. rewrite H10.
  assert (H40 := nth_shr_mask c x 0x40%N 6 b Wx eq_refl eq_refl ltac:(lia) Hb). change (N.of_nat 6) with 6%N in H40. rewrite H40.
  assert (H80 := nth_shr_mask c x 0x80%N 4 b Wx eq_refl eq_refl ltac:(lia) Hb). change (N.of_nat 4) with 4%N in H80. rewrite H80.
  apply N.eqb_eq. apply (byte_sweep (fun v => N.lor (N.lor (N.lor (N.shiftl (N.land v 0x29) 1) (N.shiftl (N.land v 0x02) 6))
     (N.lor (N.shiftl (N.land v 0x04) 3) (N.shiftr (N.land v 0x10) 2)))
     (N.lor (N.shiftr (N.land v 0x40) 6) (N.shiftr (N.land v 0x80) 4)) =? perm v)%N); [vm_compute; reflexivity|apply (wf_nth c), Wx].
Qed.

(** ** AVX2: four gathers per word, then byte and 16-bit shuffles *)
Lemma lor_add_65536 a b : (a < 65536)%N -> N.lor a (b * 65536) = (a + b * 65536)%N.
Proof.
  intros Ha. assert (Z : N.land a (b * 65536) = 0%N).
  { apply N.bits_inj. intros k. rewrite N.land_spec, N.bits_0. change 65536%N with (2 ^ 16)%N.
    destruct (N.lt_ge_cases k 16) as [C|C].
    - rewrite N.mul_pow2_bits_low by exact C. apply andb_false_r.
    - rewrite (bits_of_bound a 16 k Ha C). reflexivity. }
  rewrite N.add_nocarry_lxor by exact Z. rewrite N.lxor_lor by exact Z. reflexivity.
Qed.

Lemma two_entries s p e f s' p' e' f' : Forall is_byte [s; p; e; f; s'; p'; e'; f'] ->
  le_bytes 4 (N.lor (N.land (le_val [s; p; e; f]) 0xffff) (u32 (N.shiftl (le_val [s'; p'; e'; f']) 16))) = [s; p; s'; p'].
Proof.
  intros F. inv_forall. unfold is_byte in *.
  assert (E : (N.lor (N.land (le_val [s; p; e; f]) 0xffff) (u32 (N.shiftl (le_val [s'; p'; e'; f']) 16)) = le_val [s; p; s'; p'])%N).
  { change 0xffff%N with (N.ones 16). rewrite N.land_ones, N.shiftl_mul_pow2. unfold u32. cbn [le_val].
    change (2 ^ 16)%N with 65536%N.
    replace ((s + 256 * (p + 256 * (e + 256 * (f + 256 * 0)))) mod 65536)%N with (s + 256 * p)%N
      by (apply (N.mod_unique _ 65536 (e + 256 * f)); lia).
    replace (((s' + 256 * (p' + 256 * (e' + 256 * (f' + 256 * 0)))) * 65536) mod 2 ^ 32)%N with ((s' + 256 * p') * 65536)%N
      by (change (2 ^ 32)%N with 4294967296%N; apply (N.mod_unique _ 4294967296 (e' + 256 * f')); lia).
    rewrite lor_add_65536 by lia. lia. }
  rewrite E. apply (le_bytes_val [s; p; s'; p']). repeat constructor; assumption.
Qed.

(* one 4-byte table read at entry x *)
Definition entry (c : build) (x : N) : list N := firstn 4 (skipn (2 * N.to_nat x) (table_bytes c)).
Lemma table_length c : past_table c <> None -> length (table_bytes c) = 514.
Proof. unfold table_bytes. destruct (past_table c) as [[a b]|]; [reflexivity|congruence]. Qed.
Lemma table_is_byte c : sane c -> Forall is_byte (table_bytes c).
Proof.
  intros [_ H]. unfold table_bytes. apply Forall_app. split.
  - apply Forall_concat. apply Forall_map. apply Forall_forall. intros x _. apply le_bytes_is_byte.
  - destruct (past_table c) as [[a b]|]; [|constructor]. destruct (H a b eq_refl). repeat constructor; assumption.
Qed.
Lemma entry_ok c x : sane c -> past_table c <> None -> is_byte x ->
  bget (table_bytes c) (2 * N.to_nat x) 4 = Ok (entry c x) /\
  exists e f, entry c x = [sbox x; perm (sbox x); e; f] /\ is_byte e /\ is_byte f.
Proof.
  intros Sc Hp Hx. pose proof (table_length c Hp) as L. pose proof (table_is_byte c Sc) as F.
  unfold is_byte in Hx.
  split; [unfold bget; rewrite (proj2 (Nat.leb_le _ _)) by lia; reflexivity|].
  assert (Le : length (entry c x) = 4) by (unfold entry; rewrite firstn_length, skipn_length; lia).
  assert (Fe : Forall is_byte (entry c x)) by (unfold entry; apply Forall_firstn, Forall_skipn, F).
  assert (N0 : forall k, k < 4 -> nth k (entry c x) 0%N = nth (2 * N.to_nat x + k) (table_bytes c) 0%N).
  { intros k Hk. unfold entry. rewrite nth_firstn_lt, nth_skipn by lia. reflexivity. }
  assert (T : forall k, k < 2 -> nth (2 * N.to_nat x + k) (table_bytes c) 0%N = nth k [sbox x; perm (sbox x)] 0%N).
  { intros k Hk. unfold table_bytes. rewrite app_nth1 by (change (length (concat (map (le_bytes 2) dvbcsa_block_sbox_perm))) with 512; lia).
    assert (Q := byte_sweep (fun x => (nth (2 * N.to_nat x + 0) (concat (map (le_bytes 2) dvbcsa_block_sbox_perm)) 0 =? sbox x)%N &&
      (nth (2 * N.to_nat x + 1) (concat (map (le_bytes 2) dvbcsa_block_sbox_perm)) 0 =? perm (sbox x))%N)
      ltac:(vm_compute; reflexivity) x Hx). cbv beta in Q. apply andb_prop in Q as [Q0 Q1]. apply N.eqb_eq in Q0, Q1.
    destruct k as [|[|]]; [exact Q0|exact Q1|lia]. }
  pose proof (N0 0 ltac:(lia)) as A0. pose proof (N0 1 ltac:(lia)) as A1. rewrite T in A0, A1 by lia.
  destruct (entry c x) as [|a [|b [|e [|f [|]]]]]; simpl in Le; try lia. cbn [nth] in A0, A1. subst a b.
  inv_forall. exists e, f. auto.
Qed.

Lemma gather_ok c l : sane c -> past_table c <> None -> Forall is_byte l ->
  gather (table_bytes c) l = Ok (map (fun x => le_val (entry c x)) l).
Proof.
  intros Sc Hp. induction 1 as [|x l Hx _ IH]; [reflexivity|]. cbn [gather map].
  destruct (entry_ok c x Sc Hp Hx) as [-> _]. cbn [bind]. rewrite IH. reflexivity.
Qed.

Definition quad := (N * N * N * N)%type.
Definition quad_ok (q : quad) : Prop := let '(a, b, d, e) := q in Forall is_byte [a; b; d; e].
Definition quad_val (q : quad) : N := let '(a, b, d, e) := q in le_val [a; b; d; e].

Lemma pair_lane c x y : sane c -> past_table c <> None -> is_byte x -> is_byte y ->
  le_bytes 4 (N.lor (N.land (le_val (entry c x)) 0xffff) (u32 (N.shiftl (le_val (entry c y)) 16))) =
  [sbox x; perm (sbox x); sbox y; perm (sbox y)].
Proof.
  intros Sc Hp Hx Hy. destruct (entry_ok c x Sc Hp Hx) as (_ & e & f & -> & He & Hf).
  destruct (entry_ok c y Sc Hp Hy) as (_ & e' & f' & -> & He' & Hf').
  apply two_entries. repeat constructor; auto using sbox_is_byte, perm_is_byte.
Qed.

Lemma gathered_lanes c (f g : quad -> N) qs : sane c -> past_table c <> None ->
  (forall q, quad_ok q -> is_byte (f q)) -> (forall q, quad_ok q -> is_byte (g q)) -> Forall quad_ok qs ->
  of_lanes32 (map2 N.lor (map (fun x => N.land x 0xffff) (map (fun x => le_val (entry c x)) (map f qs)))
                         (map (fun x => u32 (N.shiftl x 16)) (map (fun x => le_val (entry c x)) (map g qs)))) =
  concat (map (fun q => [sbox (f q); perm (sbox (f q)); sbox (g q); perm (sbox (g q))]) qs).
Proof.
  intros Sc Hp Hf Hg. unfold of_lanes32. induction 1 as [|q qs Hq _ IH]; [reflexivity|].
  cbn [map map2 concat]. rewrite IH. rewrite pair_lane; auto.
Qed.

Lemma quad_bytes q : quad_ok q ->
  (N.land (quad_val q) 255 = fst (fst (fst q)) /\ N.land (N.shiftr (quad_val q) 8) 255 = snd (fst (fst q)) /\
   N.land (N.shiftr (N.shiftr (quad_val q) 8) 8) 255 = snd (fst q) /\
   N.land (N.shiftr (N.shiftr (N.shiftr (quad_val q) 8) 8) 8) 255 = snd q)%N.
Proof.
  destruct q as [[[a b] d] e]. intros F. cbn in F. inv_forall. cbn [fst snd]. unfold quad_val.
  rewrite !N.shiftr_shiftr. change (8 + 8 + 8)%N with 24%N. change (8 + 8)%N with 16%N. apply alt_load_le; assumption.
Qed.

Lemma avx2_sbox_word_ok c w : supported c -> tgt c = AVX2 -> wf c w ->
  avx2_sbox_word c w = Ok (map sbox w, map (fun x => perm (sbox x)) w).
Proof.
  intros [Sc Hs] Ht [Lw Fw]. destruct (Hs Ht) as [_ Hp]. clear Hs. unfold word_bytes in Lw. rewrite Ht in Lw.
  assert (exists qs, Forall quad_ok qs /\ length qs = 8 /\ lanes32 w = map quad_val qs /\
    w = concat (map (fun q : quad => let '(a, b, d, e) := q in [a; b; d; e]) qs)) as (qs & Fq & Lq & El & Ew).
  { do 32 (destruct w as [|? w]; [discriminate Lw|]). destruct w; [|discriminate Lw]. clear Lw.
    inv_forall.
    match goal with |- context [lanes32 [?a0;?a1;?a2;?a3;?a4;?a5;?a6;?a7;?a8;?a9;?a10;?a11;?a12;?a13;?a14;?a15;
      ?b0;?b1;?b2;?b3;?b4;?b5;?b6;?b7;?b8;?b9;?b10;?b11;?b12;?b13;?b14;?b15]] =>
      exists [(a0,a1,a2,a3);(a4,a5,a6,a7);(a8,a9,a10,a11);(a12,a13,a14,a15);(b0,b1,b2,b3);(b4,b5,b6,b7);(b8,b9,b10,b11);(b12,b13,b14,b15)] end.
    split; [repeat constructor; assumption|]. split; [reflexivity|]. split; reflexivity. }
  unfold avx2_sbox_word. rewrite El.
  rewrite !map_map.
  assert (B : forall (h : N -> N) (f : quad -> N), (forall q, quad_ok q -> h (quad_val q) = f q) -> map (fun q => h (quad_val q)) qs = map f qs).
  { intros h f H. apply map_ext_in. intros q Hq. apply H. rewrite Forall_forall in Fq. auto. }
  rewrite (B (fun v => N.land v 255) (fun q => fst (fst (fst q)))) by (intros q Hq; apply (quad_bytes q Hq)).
  rewrite (B (fun v => N.land (N.shiftr v 8) 255) (fun q => snd (fst (fst q)))) by (intros q Hq; apply (quad_bytes q Hq)).
  rewrite (B (fun v => N.land (N.shiftr (N.shiftr v 8) 8) 255) (fun q => snd (fst q))) by (intros q Hq; apply (quad_bytes q Hq)).
  rewrite (B (fun v => N.land (N.shiftr (N.shiftr (N.shiftr v 8) 8) 8) 255) (fun q => snd q)) by (intros q Hq; apply (quad_bytes q Hq)).
  assert (Q : forall q, quad_ok q -> is_byte (fst (fst (fst q))) /\ is_byte (snd (fst (fst q))) /\ is_byte (snd (fst q)) /\ is_byte (snd q)).
  { intros [[[a b] d] e] F. cbn in F. inv_forall. auto. }
  assert (FM : forall f : quad -> N, (forall q, quad_ok q -> is_byte (f q)) -> Forall is_byte (map f qs)).
  { intros f H. apply Forall_map. eapply Forall_impl; [|exact Fq]. exact H. }
  rewrite !gather_ok by (auto; apply FM; apply Q). cbn [bind].
  rewrite !gathered_lanes by (auto; apply Q).
  subst w. clear El Fw Fq B FM Q. clear Hp Sc Ht.
  do 8 (destruct qs as [|[[[? ?] ?] ?] qs]; [discriminate Lq|]). destruct qs; [|discriminate Lq]. clear Lq.
  reflexivity.
Qed.

(** ** The whole stage *)
Definition stage_ok (c : build) (s1 s2' : list word) : Prop :=
  wrows c (s2_words c) s2' /\
  forall g, g < 8 -> wp (block_perm_stage c s2' g) (fun so_po =>
    wf c (fst so_po) /\ wf c (snd so_po) /\
    forall b, b < word_bytes c ->
      nth b (fst so_po) 0%N = sbox (nth b (nth g s1 []) 0%N) /\
      nth b (snd so_po) 0%N = perm (sbox (nth b (nth g s1 []) 0%N))).

Lemma stage_plain c s1 s2 : deinterleave c = false -> wrows c 8 s1 -> wrows c (s2_words c) s2 ->
  wp (block_sbox_stage c s1 s2) (stage_ok c s1).
Proof.
  intros Hd W1 W2. unfold block_sbox_stage, stage_ok, s2_words in *. rewrite Hd in *. unfold BLOCK_SBOX.
  assert (L : wp (if use_alt_sbox c then alt_sbox_loop c (put_sbox c) s1 s2 else sbox_loop c (put_sbox c) s1 s2)
     (fun s2' => wrows c 8 s2' /\ looked c 1 (8 * word_bytes c) (fun x => [sbox x]) s1 s2')).
  { destruct (use_alt_sbox c).
    - apply (alt_sbox_loop_ok c 8 1 (fun x => [sbox x]) (put_sbox c)); auto using put_sbox_ok.
    - apply (sbox_loop_ok c 8 1 (fun x => [sbox x]) (put_sbox c)); auto using put_sbox_ok. }
  eapply wp_mono; [exact L|]. intros s2' [W Lk]. split; [exact W|]. intros g Hg.
  unfold block_perm_stage. rewrite Hd. rewrite (aget_ok (A:=word) _ _ []) by (destruct W; lia). cbn [bind wp fst snd].
  pose proof (wrows_nth c 8 s2' g W Hg) as Wg. destruct (permute_logic_ok c _ Wg) as [Wp Hp].
  split; [exact Wg|]. split; [exact Wp|]. intros b Hb. rewrite Hp by exact Hb.
  assert (E : nth b (nth g s2' []) 0%N = sbox (nth b (nth g s1 []) 0%N)).
  { rewrite <- !(fbyte_row c) by exact Hb. specialize (Lk (g * word_bytes c + b) 0 ltac:(nia) ltac:(lia)).
    rewrite Nat.add_0_r, Nat.mul_1_l in Lk. exact Lk. }
  rewrite E. auto.
Qed.

(* loading a pair of words and separating the even from the odd bytes *)
Lemma evens_length : forall n l, length l = 2 * n -> length (evens l) = n /\ length (odds l) = n.
Proof.
  induction n as [|n IH]; intros l H; destruct l as [|a [|b l]]; simpl in H; try lia; [split; reflexivity|].
  simpl. destruct (IH l ltac:(lia)). split; lia.
Qed.
Lemma evens_nth : forall n l k, length l = 2 * n -> nth k (evens l) 0%N = nth (2 * k) l 0%N /\ nth k (odds l) 0%N = nth (2 * k + 1) l 0%N.
Proof.
  induction n as [|n IH]; intros l k H; destruct l as [|a [|b l]]; simpl in H; try lia.
  - rewrite !nth_overflow by (simpl; lia). auto.
  - destruct k as [|k]; [split; reflexivity|]. destruct (IH l k ltac:(lia)) as [E O].
    replace (2 * S k) with (S (S (2 * k))) by lia. split; cbn [evens odds nth Nat.add]; assumption.
Qed.
Lemma evens_Forall : forall n l, length l = 2 * n -> Forall is_byte l -> Forall is_byte (evens l) /\ Forall is_byte (odds l).
Proof.
  induction n as [|n IH]; intros l H F; destruct l as [|a [|b l]]; simpl in H; try lia; [split; constructor|].
  inversion F as [|? ? Ha F']; inversion F' as [|? ? Hb F'']; subst. destruct (IH l ltac:(lia) F''). split; constructor; assumption.
Qed.
Lemma shuffle_evens a b : length a = 16 -> length b = 16 ->
  firstn 8 (shuffle16 a) ++ firstn 8 (shuffle16 b) = evens (a ++ b) /\
  firstn 8 (skipn 8 (shuffle16 a)) ++ firstn 8 (skipn 8 (shuffle16 b)) = odds (a ++ b).
Proof.
  intros La Lb. do 16 (destruct a as [|? a]; [discriminate La|]). destruct a; [|discriminate La].
  do 16 (destruct b as [|? b]; [discriminate Lb|]). destruct b; [|discriminate Lb]. split; reflexivity.
Qed.

Lemma stage_pairs c s1 s2 : deinterleave c = true -> tgt c <> AVX2 -> sane c -> wrows c 8 s1 -> wrows c (s2_words c) s2 ->
  wp (block_sbox_stage c s1 s2) (stage_ok c s1).
Proof.
  intros Hd Ht [Sb _] W1 W2. unfold block_sbox_stage, stage_ok, s2_words in *. rewrite Hd in *. unfold BLOCK_SBOX_PERMUTE.
  assert (Hbe : big_endian c = false).
  { destruct (big_endian c); [|reflexivity]. exfalso. unfold deinterleave in Hd. destruct (Sb eq_refl) as [E|E]; rewrite E in Hd; discriminate. }
  assert (Hwb : word_bytes c = 16) by (unfold word_bytes, deinterleave in *; destruct (tgt c); congruence || discriminate).
  pose proof (put_sbox_perm_ok c 16 Hbe ltac:(exists 8; lia)) as HP.
  assert (L : wp (if use_alt_sbox c then alt_sbox_loop c (put_sbox_perm c) s1 s2
     else match tgt c with AVX2 => avx2_block_sbox_permute c s1 s2 | _ => sbox_loop c (put_sbox_perm c) s1 s2 end)
     (fun s2' => wrows c 16 s2' /\ looked c 2 (8 * word_bytes c) (fun x => [sbox x; perm (sbox x)]) s1 s2')).
  { destruct (use_alt_sbox c).
    - apply (alt_sbox_loop_ok c 16 2 (fun x => [sbox x; perm (sbox x)]) (put_sbox_perm c)); auto.
    - assert (G : wp (sbox_loop c (put_sbox_perm c) s1 s2)
        (fun s2' => wrows c 16 s2' /\ looked c 2 (8 * word_bytes c) (fun x => [sbox x; perm (sbox x)]) s1 s2'))
        by (apply (sbox_loop_ok c 16 2 (fun x => [sbox x; perm (sbox x)]) (put_sbox_perm c)); auto).
      destruct (tgt c); try exact G. congruence. }
  eapply wp_mono; [exact L|]. intros s2' [W Lk]. split; [exact W|]. intros g Hg.
  unfold block_perm_stage. rewrite Hd. unfold BS_LOAD_DEINTERLEAVE_8.
  rewrite (aget_ok (A:=word) _ (2 * g) []) by (destruct W; lia). cbn [bind].
  rewrite (aget_ok (A:=word) _ (2 * g + 1) []) by (destruct W; lia). cbn [bind].
  destruct (wrows_nth c 16 s2' (2 * g) W ltac:(lia)) as [La Fa].
  destruct (wrows_nth c 16 s2' (2 * g + 1) W ltac:(lia)) as [Lb Fb].
  rewrite Hwb in La, Lb.
  set (a := nth (2 * g) s2' []) in *. set (b := nth (2 * g + 1) s2' []) in *.
  assert (R : wp (match tgt c with
      | AVX2 => Ok (a, b)
      | NEON => Ok (evens (a ++ b), odds (a ++ b))
      | _ => let a := shuffle16 a in let b := shuffle16 b in
             Ok (firstn 8 a ++ firstn 8 b, firstn 8 (skipn 8 a) ++ firstn 8 (skipn 8 b))
      end) (fun r => r = (evens (a ++ b), odds (a ++ b)))).
  { destruct (shuffle_evens a b La Lb) as [Ee Eo]. destruct (tgt c); cbv zeta; cbn [wp]; try congruence. }
  eapply wp_mono; [exact R|]. intros r ->. cbn [fst snd].
  destruct (evens_length 16 (a ++ b) ltac:(rewrite app_length; lia)) as [Le Lo].
  assert (Fab : Forall is_byte (a ++ b)) by (apply Forall_app; auto).
  destruct (evens_Forall 16 (a ++ b) ltac:(rewrite app_length; lia) Fab) as [F1 F2].
  split; [split; [lia|exact F1]|]. split; [split; [lia|exact F2]|].
  intros k Hk. destruct (evens_nth 16 (a ++ b) k ltac:(rewrite app_length; lia)) as [-> ->].
  assert (F16 : forall rows r q, q < 16 -> fbyte c rows (r * 16 + q) = nth q (nth r rows []) 0%N).
  { intros rows r q Hq. pose proof (fbyte_row c rows r q) as E. rewrite Hwb in E. apply E, Hq. }
  assert (AB : forall j, j < 32 -> nth j (a ++ b) 0%N = fbyte c s2' (2 * g * 16 + j)).
  { intros j Hj. destruct (Nat.lt_ge_cases j 16) as [C|C].
    - rewrite app_nth1 by lia. rewrite F16 by lia. reflexivity.
    - rewrite app_nth2 by lia. replace (2 * g * 16 + j) with ((2 * g + 1) * 16 + (j - 16)) by lia.
      rewrite F16 by lia. rewrite La. reflexivity. }
  rewrite Hwb in *. rewrite !AB by lia.
  pose proof (Lk (g * 16 + k) 0 ltac:(lia) ltac:(lia)) as E0. pose proof (Lk (g * 16 + k) 1 ltac:(lia) ltac:(lia)) as E1.
  cbn [nth] in E0, E1. rewrite F16 in E0, E1 by lia.
  replace (2 * g * 16 + 2 * k) with (2 * (g * 16 + k) + 0) by lia.
  replace (2 * g * 16 + (2 * k + 1)) with (2 * (g * 16 + k) + 1) by lia.
  rewrite E0, E1. auto.
Qed.

Lemma avx2_permute_ok c s1 s2 : tgt c = AVX2 -> supported c -> wrows c 8 s1 -> wrows c 16 s2 ->
  wp (avx2_block_sbox_permute c s1 s2) (fun d => wrows c 16 d /\ forall g, g < 8 ->
     nth (2 * g) d [] = map sbox (nth g s1 []) /\ nth (2 * g + 1) d [] = map (fun x => perm (sbox x)) (nth g s1 [])).
Proof.
  intros Ht Sp W1 W2.
  assert (WM : forall w f, wf c w -> (forall x, is_byte x -> is_byte (f x)) -> wf c (map f w)).
  { intros w f [Lw Fw] Hf. split; [rewrite map_length; exact Lw|]. apply Forall_map. eapply Forall_impl; [|exact Fw]. exact Hf. }
  unfold avx2_block_sbox_permute.
  eapply wp_mono; [apply (wp_for (fun j d => wrows c 16 d /\ forall g, g < j ->
     nth (2 * g) d [] = map sbox (nth g s1 []) /\ nth (2 * g + 1) d [] = map (fun x => perm (sbox x)) (nth g s1 [])))|].
  - split; [exact W2|]. intros; lia.
  - intros j d Hj [Wd Hd']. rewrite (aget_ok (A:=word) _ _ []) by (destruct W1; lia). cbn [bind].
    pose proof (wrows_nth c 8 s1 j W1 ltac:(lia)) as Wj.
    rewrite avx2_sbox_word_ok by assumption. cbn [bind].
    rewrite aset_ok by (destruct Wd; lia). cbn [bind]. rewrite aset_ok by (rewrite upd_length; destruct Wd; lia). cbn [wp].
    split.
    + apply wrows_upd; [apply wrows_upd; [exact Wd|]|]; apply WM; auto using sbox_is_byte, perm_is_byte.
    + intros g Hg. rewrite !nth_upd, upd_length. destruct Wd as [Ld _]. rewrite Ld.
      destruct (Nat.eq_dec g j) as [->|Ne].
      * rewrite !Nat.eqb_refl. destruct (Nat.eqb_spec (2 * j) (2 * j + 1)); [lia|].
        destruct (Nat.ltb_spec (2 * j + 1) 16); [|lia]. destruct (Nat.ltb_spec (2 * j) 16); [|lia]. auto.
      * destruct (Nat.eqb_spec (2 * g) (2 * j)); [lia|]. destruct (Nat.eqb_spec (2 * g) (2 * j + 1)); [lia|].
        destruct (Nat.eqb_spec (2 * g + 1) (2 * j)); [lia|]. destruct (Nat.eqb_spec (2 * g + 1) (2 * j + 1)); [lia|].
        rewrite !andb_false_l || idtac. apply Hd'. lia.
  - intros d Wd. exact Wd.
Qed.

Lemma stage_avx2 c s1 s2 : tgt c = AVX2 -> supported c -> wrows c 8 s1 -> wrows c (s2_words c) s2 ->
  wp (block_sbox_stage c s1 s2) (stage_ok c s1).
Proof.
  intros Ht Sp W1 W2. assert (Hd : deinterleave c = true) by (unfold deinterleave; rewrite Ht; reflexivity).
  pose proof Sp as [Sc Ha]. destruct (Ha Ht) as [Halt _].
  unfold block_sbox_stage, stage_ok, s2_words in *. rewrite Hd in *. unfold BLOCK_SBOX_PERMUTE. rewrite Halt, Ht.
  assert (WM : forall w f, wf c w -> (forall x, is_byte x -> is_byte (f x)) -> wf c (map f w)).
  { intros w f [Lw Fw] Hf. split; [rewrite map_length; exact Lw|]. apply Forall_map. eapply Forall_impl; [|exact Fw]. exact Hf. }
  eapply wp_mono; [apply avx2_permute_ok; auto|].
  intros d [Wd Hg]. split; [exact Wd|]. intros g Hlt. unfold block_perm_stage. rewrite Hd. unfold BS_LOAD_DEINTERLEAVE_8.
  rewrite (aget_ok (A:=word) _ (2 * g) []) by (destruct Wd; lia). cbn [bind].
  rewrite (aget_ok (A:=word) _ (2 * g + 1) []) by (destruct Wd; lia). cbn [bind]. rewrite Ht. cbn [wp fst snd].
  destruct (Hg g ltac:(lia)) as [-> ->]. pose proof (wrows_nth c 8 s1 g W1 Hlt) as Wg. pose proof Wg as [Lg _].
  split; [apply WM; auto using sbox_is_byte|]. split; [apply WM; auto using sbox_is_byte, perm_is_byte|].
  intros b Hb. rewrite (nth_indep (map sbox _) 0%N (sbox 0%N)) by (rewrite map_length; lia).
  rewrite (nth_indep (map (fun x => perm (sbox x)) _) 0%N (perm (sbox 0%N))) by (rewrite map_length; lia).
  rewrite map_nth. rewrite (map_nth (fun x => perm (sbox x))). auto.
Qed.

Theorem stage_correct c s1 s2 : supported c -> wrows c 8 s1 -> wrows c (s2_words c) s2 ->
  wp (block_sbox_stage c s1 s2) (stage_ok c s1).
Proof.
  intros Sp W1 W2. destruct (deinterleave c) eqn:Hd.
  - assert (D : tgt c = AVX2 \/ tgt c <> AVX2) by (destruct (tgt c); auto; right; discriminate).
    destruct D as [Ht|Ht]; [apply stage_avx2; auto|apply stage_pairs; auto; apply Sp].
  - apply stage_plain; auto.
Qed.
