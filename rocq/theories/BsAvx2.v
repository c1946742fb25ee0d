(** BsAvx2.v -- two defects of the AVX2 build: the gather that reads past the S-box table (C32) and
    the combination with --enable-alt-sbox (C23). *)
From Verif Require Import Base Mem Tables Spec ModelClassical ClassicalBlock ClassicalKey SpecLemmas SpecFacts ApiSpec ClassicalFacts
  ModelBsWord ModelBsTranspose ModelBsStream ModelBsBlock ModelBsAlgo BsApiSpec BsWordFacts BsView BsTransposeFacts BsStream BsSbox BsRegister BsBlock BsBatch BsKey BsSlot BsAlgo BsFacts BsApiFacts BsMoreFacts.
Local Open Scope nat_scope.

Lemma bind_ub {A B} (r : res A) (k : A -> res B) e Q : wp r Q -> (forall a, Q a -> k a = UB e) -> bind r k = UB e.
Proof. destruct r; cbn [wp bind]; intros W H; try contradiction. apply H, W. Qed.

Lemma for_ub {St} (I : St -> Prop) e g n : forall i (b : nat -> St -> res St) s, I s -> i <= g < i + n ->
  (forall j s, i <= j < i + n -> I s -> b j s = UB e \/ wp (b j s) I) -> (forall s, I s -> b g s = UB e) -> for_ n i b s = UB e.
Proof.
  induction n as [|n IH]; intros i b s Hs Hg Hb Hu; [lia|]. cbn [for_].
  destruct (Nat.eq_dec i g) as [->|Ne]; [rewrite (Hu s Hs); reflexivity|].
  destruct (Hb i s ltac:(lia) Hs) as [E|W]; [rewrite E; reflexivity|].
  apply (bind_ub _ _ _ I W). intros s' Hs'. apply (IH (S i)); try assumption; try lia. intros j s0 Hj. apply Hb. lia.
Qed.

(** ** Reading entry 255 *)
Section Strict.
  Context (c : build).
  Hypothesis (Ht : tgt c = AVX2) (Ha : use_alt_sbox c = false) (Hp : past_table c = None).

  Lemma strict_table : length (table_bytes c) = 512.
  Proof. unfold table_bytes. rewrite Hp. reflexivity. Qed.

  Lemma gather_cases l : Forall is_byte l ->
    (exists r, gather (table_bytes c) l = Ok r /\ ~ In 255%N l) \/ (gather (table_bytes c) l = UB OutOfBounds /\ In 255%N l).
  Proof.
    pose proof strict_table as L. intros F.
    induction l as [|x l IH]; [left; exists []; split; [reflexivity|intros []]|]. inversion F; subst. cbn [gather].
    unfold bget; rewrite L. destruct (Nat.leb_spec (2 * N.to_nat x + 4) 512) as [C|C]; cbn [bind].
    - destruct (IH ltac:(assumption)) as [(r & -> & Hn)|[-> Hi]]; cbn [bind].
      + left. eexists. split; [reflexivity|]. intros [E|I]; [subst x; change (N.to_nat 255) with 255 in C; lia|exact (Hn I)].
      + right. split; [reflexivity|right; exact Hi].
    - right. split; [reflexivity|]. left. unfold is_byte in *. lia.
  Qed.

  Lemma sbox_word_strict w : wf c w -> (In 255%N w -> avx2_sbox_word c w = UB OutOfBounds) /\
    (avx2_sbox_word c w = UB OutOfBounds \/ exists r1 r2, avx2_sbox_word c w = Ok (r1, r2)).
  Proof.
    intros [Lw Fw]. unfold word_bytes in Lw. rewrite Ht in Lw.
    assert (exists qs, Forall quad_ok qs /\ length qs = 8 /\ lanes32 w = map quad_val qs /\
      w = concat (map (fun q : quad => let '(a, b, d, e) := q in [a; b; d; e]) qs)) as (qs & Fq & Lq & El & Ew).
    { do 32 (destruct w as [|? w]; [discriminate Lw|]). destruct w; [|discriminate Lw]. clear Lw.
      inv_forall.
      match goal with |- context [lanes32 [?a0;?a1;?a2;?a3;?a4;?a5;?a6;?a7;?a8;?a9;?a10;?a11;?a12;?a13;?a14;?a15;
        ?b0;?b1;?b2;?b3;?b4;?b5;?b6;?b7;?b8;?b9;?b10;?b11;?b12;?b13;?b14;?b15]] =>
        exists [(a0,a1,a2,a3);(a4,a5,a6,a7);(a8,a9,a10,a11);(a12,a13,a14,a15);(b0,b1,b2,b3);(b4,b5,b6,b7);(b8,b9,b10,b11);(b12,b13,b14,b15)] end.
      split; [repeat constructor; assumption|]. split; [reflexivity|]. split; reflexivity. }
    unfold avx2_sbox_word. rewrite El. rewrite !map_map.
    assert (B : forall (h : N -> N) (f : quad -> N), (forall q, quad_ok q -> h (quad_val q) = f q) -> map (fun q => h (quad_val q)) qs = map f qs).
    { intros h f H. apply map_ext_in. intros q Hq. apply H. rewrite Forall_forall in Fq. auto. }
    rewrite (B (fun v => N.land v 255) (fun q => fst (fst (fst q)))) by (intros q Hq; apply (quad_bytes q Hq)).
    rewrite (B (fun v => N.land (N.shiftr v 8) 255) (fun q => snd (fst (fst q)))) by (intros q Hq; apply (quad_bytes q Hq)).
    rewrite (B (fun v => N.land (N.shiftr (N.shiftr v 8) 8) 255) (fun q => snd (fst q))) by (intros q Hq; apply (quad_bytes q Hq)).
    rewrite (B (fun v => N.land (N.shiftr (N.shiftr (N.shiftr v 8) 8) 8) 255) (fun q => snd q)) by (intros q Hq; apply (quad_bytes q Hq)).
    assert (Q : forall q, quad_ok q -> is_byte (fst (fst (fst q))) /\ is_byte (snd (fst (fst q))) /\ is_byte (snd (fst q)) /\ is_byte (snd q)).
    { intros [[[a b] d] e] F. cbn in F. inv_forall. auto. }
    assert (FM : forall f : quad -> N, (forall q, quad_ok q -> is_byte (f q)) -> Forall is_byte (map f qs)).
    { intros f H. apply Forall_map. eapply Forall_impl; [|exact Fq]. exact H. }
    assert (In4 : In 255%N w -> In 255%N (map (fun q : quad => fst (fst (fst q))) qs) \/ In 255%N (map (fun q : quad => snd (fst (fst q))) qs) \/
       In 255%N (map (fun q : quad => snd (fst q)) qs) \/ In 255%N (map (fun q : quad => snd q) qs)).
    { rewrite Ew. clear. induction qs as [|[[[a b] d] e] qs IH]; cbn [map concat app fst snd]; [intros []|].
      intros [E|[E|[E|[E|I]]]]; [left; left; exact E|right; left; left; exact E|right; right; left; left; exact E|right; right; right; left; exact E|].
      destruct (IH I) as [J|[J|[J|J]]]; [left|right; left|right; right; left|right; right; right]; right; exact J. }
    pose proof (gather_cases _ (FM _ (fun q H => proj1 (Q q H)))) as [(r1 & -> & N1)|[-> I1]]; cbn [bind]; [|split; [reflexivity|left; reflexivity]].
    pose proof (gather_cases _ (FM _ (fun q H => proj1 (proj2 (Q q H))))) as [(r2 & -> & N2)|[-> I2]]; cbn [bind]; [|split; [reflexivity|left; reflexivity]].
    pose proof (gather_cases _ (FM _ (fun q H => proj1 (proj2 (proj2 (Q q H)))))) as [(r3 & -> & N3)|[-> I3]]; cbn [bind]; [|split; [reflexivity|left; reflexivity]].
    pose proof (gather_cases (map (fun q : quad => snd q) qs) (FM (fun q : quad => snd q) (fun q H => proj2 (proj2 (proj2 (Q q H)))))) as [(r4 & -> & N4)|[-> I4]]; cbn [bind]; [|split; [reflexivity|left; reflexivity]].
    split; [|right; eauto]. intros I. exfalso. apply In4 in I as [I|[I|[I|I]]]; auto.
  Qed.

  Lemma stage_strict s1 s2 g b : wrows c 8 s1 -> wrows c (s2_words c) s2 -> g < 8 -> b < word_bytes c ->
    nth b (nth g s1 []) 0%N = 255%N -> block_sbox_stage c s1 s2 = UB OutOfBounds.
  Proof.
    intros W1 W2 Hg Hb E. assert (Hd : deinterleave c = true) by (unfold deinterleave; rewrite Ht; reflexivity).
    unfold block_sbox_stage, s2_words in *. rewrite Hd in *. unfold BLOCK_SBOX_PERMUTE. rewrite Ha, Ht.
    unfold avx2_block_sbox_permute.
    apply (for_ub (fun d => length d = 16) OutOfBounds g).
    - apply W2.
    - lia.
    - intros j d Hj Ld. rewrite (aget_ok (A:=word) _ _ []) by (destruct W1; lia). cbn [bind].
      pose proof (wrows_nth c 8 s1 j W1 ltac:(lia)) as Wj.
      destruct (sbox_word_strict _ Wj) as [_ [->|(r1 & r2 & ->)]]; [left; reflexivity|right]. cbn [bind].
      rewrite aset_ok by lia. cbn [bind]. rewrite aset_ok by (rewrite upd_length; lia). cbn [wp]. rewrite !upd_length. exact Ld.
    - intros d Ld. rewrite (aget_ok (A:=word) _ _ []) by (destruct W1; lia). cbn [bind].
      pose proof (wrows_nth c 8 s1 g W1 ltac:(lia)) as Wg. destruct (sbox_word_strict _ Wg) as [U _]. rewrite U; [reflexivity|].
      rewrite <- E. apply nth_In. destruct Wg. lia.
  Qed.

  Lemma encrypt_register_strict k kk r s1 s2 g b : key_words c k kk -> wrows c 512 r -> wrows c 8 s1 -> wrows c (s2_words c) s2 ->
    g < 8 -> b < word_bytes c -> N.lxor (nth 0 kk 0%N) (rbyte r g b 7) = 255%N -> encrypt_register c k r s1 s2 = UB OutOfBounds.
  Proof.
    intros HK Wr W1 W2 Hg Hb E. unfold encrypt_register. cbn [for_].
    match goal with |- bind (bind ?x _) _ = _ => assert (U : x = UB OutOfBounds) end; [|rewrite U; reflexivity].
    apply (bind_ub _ _ _ _ (key_xor_ok c k (fun _ => kk) 0 r (0 + 8 * 7) s1 (key_words_lanes _ _ _ HK) ltac:(lia) Wr ltac:(lia) W1)).
    intros t1 [Wt1 Ht1]. rewrite (stage_strict t1 s2 g b); try assumption; [reflexivity|].
    rewrite Ht1 by assumption. exact E.
  Qed.

  Lemma encrypt_block_strict bj m key kk pb t i : sane c -> bj_ok c bj -> key_words c (key_block_word c m key) kk ->
    n_packets pb <= batch_size c -> pbuf (batch_size c) (pdata pb) -> t < 23 -> i < n_packets pb ->
    N.lxor (nth 0 kk 0%N) (nth (8 * (23 * i + t) + 7) (pdata pb) 0%N) = 255%N ->
    encrypt_block c bj m key pb (N.of_nat (8 * t)) = UB OutOfBounds.
  Proof.
    intros Sc (Wr & W1 & W2) HK Hn Pd Htt Hi E. unfold encrypt_block.
    eapply (bind_ub _ _ _ _ (in_window_ok c 0 (bj_r bj) _ (fun w => forall i, i < n_packets pb -> lane_block w (bgrp c i) (bcol c i) 0 = dbl (pdata pb) (23 * i + t))
       Wr ltac:(lia) (fun w Ww => block_in_ok c pb t Sc Hn Pd Htt w Ww))).
    intros r1 [Wr1 (w' & Ww' & Hw & Ew)]. destruct (bpos_bounds c i ltac:(lia)) as [Bg Bc].
    rewrite (encrypt_register_strict _ kk r1 _ _ (bgrp c i) (bcol c i)); try assumption; [reflexivity|].
    rewrite <- E. f_equal. specialize (Hw i Hi).
    rewrite <- (lane_block_shift r1 w' 0 0) in Hw by (try exact Bg; intros j Hj; rewrite <- Ew by exact Hj; reflexivity).
    apply (f_equal snd) in Hw. exact Hw.
  Qed.
End Strict.

Lemma avx2_reads_past_table c jk m key pcks cw ps mb i p buf :
  tgt c = AVX2 -> use_alt_sbox c = false -> past_table c = None -> sane c ->
  length cw = 8 -> bs_keyed c m key cw -> stack_ok c jk -> batch_array c m pcks ps -> in_limits c ps ->
  0 < mb -> mb <= 23 -> nth_error ps i = Some (p, buf) -> 8 * mb <= length buf ->
  N.lxor (nth 0 (key_schedule cw) 0%N) (nth (8 * mb - 1) buf 0%N) = 255%N ->
  dvbcsa_bs_encrypt c jk m key pcks (N.of_nat (8 * mb)) = UB OutOfBounds.
Proof.
  intros Ht Ha Hp Sc Lc K J B Li Hm0 Hm Ei Hl E. pose proof Li as [Hn _].
  pose proof (fits_of_limits c ps Li) as Hf.
  destruct (bs_keyed_facts c m key cw Lc K) as (Fc & Al & Hk).
  assert (Hi : i < length ps) by (apply nth_error_Some; congruence).
  unfold dvbcsa_bs_encrypt.
  rewrite (proj1 (good_maxlen_ok _) (ex_intro _ mb (conj Hm eq_refl))), andb_false_r.
  rewrite (run_load c jk m pcks ps mb J B Hn Hf Hm). cbn [bind].
  set (d0 := layout 0 ps (jk_data jk)). set (pb := mk_pb (length ps) (lens 0 ps (jk_len8 jk)) d0).
  assert (U : dvbcsa_bs_block_encrypt_batch c (jk_block jk) m key pb (N.of_nat (8 * mb)) = UB OutOfBounds); [|rewrite U; reflexivity].
  unfold dvbcsa_bs_block_encrypt_batch. destruct mb as [|t]; [lia|].
  assert (Et : to_int (u32 (N.of_nat (8 * S t) + 2 ^ 32 - 8)) = Z.of_N (N.of_nat (8 * t))).
  { replace (N.of_nat (8 * S t) + 2 ^ 32 - 8)%N with (N.of_nat (8 * t) + 1 * 2 ^ 32)%N by lia.
    unfold u32. rewrite N.mod_add by discriminate. rewrite N.mod_small by (change (2 ^ 32)%N with 4294967296%N; lia).
    unfold to_int. destruct (N.ltb_spec (N.of_nat (8 * t)) (2 ^ 31)) as [C|C]; [lia|].
    change (2 ^ 31)%N with 2147483648%N in C. lia. }
  rewrite Et. rewrite Nat2N.id. replace (8 * S t) with (S (8 * t + 7)) by lia. cbn [while_].
  rewrite (proj2 (Z.leb_le _ _)) by lia.
  rewrite N2Z.id.
  rewrite (encrypt_block_strict c Ht Ha Hp (jk_block jk (N.of_nat (8 * t))) m key (key_schedule cw) pb t i); try assumption; try lia; try reflexivity.
  - apply stack_block, J.
  - apply ctx_block; assumption.
  - apply (d0_ok c jk m pcks ps J B Hf).
  - cbn [pb pdata]. rewrite <- E. f_equal.
    assert (Q : sub d0 i (8 * S t) = firstn (8 * S t) buf).
    { apply (d0_sub c jk ps _ J Hn Hf Hm i p buf); [exact Ei|exact Hl|unfold slot; lia]. }
    replace (8 * S t - 1) with (8 * t + 7) by lia.
    rewrite <- (nth_firstn_lt buf (8 * S t)) by lia. rewrite <- Q, sub_nth by lia. f_equal. unfold slot. lia.
Qed.
