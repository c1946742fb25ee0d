(** BsMaxlen.v -- dvbcsa_bs_decrypt and dvbcsa_bs_encrypt compiled without assert, when maxlen is
    not a multiple of 8 or exceeds 184. *)
From Verif Require Import Base Mem Spec ModelClassical ClassicalBlock ClassicalKey SpecLemmas SpecFacts ModelBsWord ModelBsTranspose ModelBsStream
  ModelBsBlock ModelBsAlgo BsApiSpec BsKernel BsKernelRun BsWordFacts BsView BsTransposeFacts BsStream BsSbox BsRegister BsBlock BsBatch BsKey BsSlot BsAlgo BsFacts.
Local Open Scope nat_scope.

(** ** Loops that visit the same states *)
Lemma while_agree {St} (I : St -> Prop) (mu : St -> nat) cond cond' body : forall f f' (s : St),
  mu s <= f -> mu s <= f' -> I s ->
  (forall s, I s -> cond s = cond' s) ->
  (forall s, I s -> cond s = true -> 0 < mu s) ->
  (forall s s', I s -> cond s = true -> body s = Ok s' -> I s' /\ mu s' < mu s) ->
  while_ f cond body s = while_ f' cond' body s.
Proof.
  induction f as [|f IH]; intros f' s Hf Hf' Hi Hc Hp Hb; destruct f' as [|f']; cbn [while_]; rewrite <- (Hc s Hi);
    destruct (cond s) eqn:E; try reflexivity; pose proof (Hp s Hi E); try lia.
  destruct (body s) as [s'| | |] eqn:Eb; cbn [bind]; try reflexivity.
  destruct (Hb s s' Hi E Eb) as [Hi' Hm]. apply IH; try assumption; lia.
Qed.

(* maxlen rounded up to a multiple of 8 *)
Definition round_up (maxlen : N) : N := (8 * ((maxlen + 7) / 8))%N.
Lemma round_up_lt n maxlen : (n mod 8 = 0)%N -> (n <? round_up maxlen)%N = (n <? maxlen)%N.
Proof.
  intros H. unfold round_up. pose proof (N.div_mod (maxlen + 7) 8 ltac:(lia)) as E. pose proof (N.mod_lt (maxlen + 7) 8 ltac:(lia)).
  pose proof (N.div_mod n 8 ltac:(lia)) as En. rewrite H in En.
  destruct (N.ltb_spec n (8 * ((maxlen + 7) / 8))), (N.ltb_spec n maxlen); try reflexivity; lia.
Qed.
Lemma round_up_bound maxlen : (maxlen <= round_up maxlen < maxlen + 8)%N.
Proof. unfold round_up. pose proof (N.div_mod (maxlen + 7) 8 ltac:(lia)) as E. pose proof (N.mod_lt (maxlen + 7) 8 ltac:(lia)). lia. Qed.
Lemma u32_add8 h : (h mod 8 = 0)%N -> (u32 (h + 8) mod 8 = 0)%N.
Proof.
  intros H. unfold u32. change (2 ^ 32)%N with (8 * 536870912)%N. rewrite N.mod_mul_r by lia.
  rewrite N.mul_comm, N.mod_add by lia. rewrite N.mod_mod by lia. replace (h + 8)%N with (h + 1 * 8)%N by lia. rewrite N.mod_add by lia. exact H.
Qed.

(* the two loops that count up, on any state whatsoever *)
Lemma stream_round_up c s0 m key pb maxlen : (maxlen <= 2 ^ 32 - 8)%N ->
  dvbcsa_bs_stream_cipher_batch c s0 m key pb maxlen = dvbcsa_bs_stream_cipher_batch c s0 m key pb (round_up maxlen).
Proof.
  intros Hm. pose proof (round_up_bound maxlen) as Rb. unfold dvbcsa_bs_stream_cipher_batch.
  destruct (dvbcsa_bs_stream_transpose_in c pb (rgsb s0)) as [sb| | |]; cbn [bind]; try reflexivity.
  destruct (stream_load_regs _ _ _) as [s| | |]; cbn [bind]; try reflexivity.
  destruct (stream_cipher_kernel _ true s) as [s1| | |]; cbn [bind]; try reflexivity.
  match goal with |- bind ?a _ = bind ?b _ => replace a with b; [reflexivity|] end. symmetry.
  apply (while_agree (fun st => (fst st mod 8 = 0)%N) (fun st => N.to_nat (maxlen - fst st))).
  - cbn [fst]. lia.
  - cbn [fst]. lia.
  - reflexivity.
  - intros [h x] H. cbn [fst] in H. symmetry. apply round_up_lt, H.
  - intros [h x] H C. cbn [fst]. apply N.ltb_lt in C. lia.
  - intros [h [s2 pb2]] s' H C E. cbn [fst] in *. apply N.ltb_lt in C.
    destruct (stream_cipher_kernel _ false s2) as [s3| | |]; cbn [bind] in E; try discriminate E.
    destruct (dvbcsa_bs_stream_transpose_out c pb2 h (rgsb s3)) as [[pb3 sb3]| | |]; cbn [bind] in E; try discriminate E.
    injection E as <-. cbn [fst]. split; [apply u32_add8, H|].
    pose proof (round_up_lt h maxlen H) as Q. rewrite (proj2 (N.ltb_lt h maxlen) C) in Q. apply N.ltb_lt in Q.
    unfold u32. rewrite N.mod_small; [lia|]. change (2 ^ 32)%N with 4294967296%N in *. lia.
Qed.

Lemma decrypt_batch_round_up c bj m key pb maxlen : (maxlen <= 2 ^ 32 - 8)%N ->
  dvbcsa_bs_block_decrypt_batch c bj m key pb maxlen = dvbcsa_bs_block_decrypt_batch c bj m key pb (round_up maxlen).
Proof.
  intros Hm. pose proof (round_up_bound maxlen) as Rb. unfold dvbcsa_bs_block_decrypt_batch.
  match goal with |- bind ?a _ = bind ?b _ => replace a with b; [reflexivity|] end. symmetry.
  apply (while_agree (fun st => (fst st mod 8 = 0)%N) (fun st => N.to_nat (maxlen - fst st))).
  - cbn [fst]. lia.
  - cbn [fst]. lia.
  - reflexivity.
  - intros [h x] H. cbn [fst] in H. symmetry. apply round_up_lt, H.
  - intros [h x] H C. cbn [fst]. apply N.ltb_lt in C. lia.
  - intros [h pb2] s' H C E. cbn [fst] in *. apply N.ltb_lt in C.
    destruct (decrypt_block c (bj h) m key pb2 h) as [pb3| | |]; cbn [bind] in E; try discriminate E.
    injection E as <-. cbn [fst]. split; [apply u32_add8, H|].
    unfold u32. rewrite N.mod_small; [lia|]. change (2 ^ 32)%N with 4294967296%N in *. lia.
Qed.

(* decryption rounds maxlen up; no condition on memory, context, array or packets *)
Theorem decrypt_round_up c jk m key pcks maxlen : have_assert c = false -> (maxlen <= 2 ^ 32 - 8)%N ->
  dvbcsa_bs_decrypt c jk m key pcks maxlen = dvbcsa_bs_decrypt c jk m key pcks (round_up maxlen).
Proof.
  intros A Hm. unfold dvbcsa_bs_decrypt. rewrite A. cbn [andb].
  destruct (dvbcsa_pkt_buf_load _ _ _ _) as [pb| | |]; cbn [bind]; try reflexivity.
  rewrite <- (stream_round_up c (jk_regs jk) m key pb maxlen Hm).
  destruct (dvbcsa_bs_stream_cipher_batch _ _ _ _ _ _) as [pb1| | |]; cbn [bind]; try reflexivity.
  rewrite <- decrypt_batch_round_up by exact Hm. reflexivity.
Qed.

(* encryption does nothing if maxlen < 8 *)
Lemma while_stop {St} f cond (body : St -> res St) s : cond s = false -> while_ f cond body s = Ok s.
Proof. intros E. destruct f; cbn [while_]; rewrite E; reflexivity. Qed.

Theorem encrypt_below_8 c jk m key pcks maxlen : have_assert c = false -> (maxlen < 8)%N ->
  dvbcsa_bs_encrypt c jk m key pcks maxlen = dvbcsa_bs_encrypt c jk m key pcks 0.
Proof.
  intros A Hm. unfold dvbcsa_bs_encrypt. rewrite A. cbn [andb].
  destruct (dvbcsa_pkt_buf_load _ _ _ _) as [pb| | |]; cbn [bind]; try reflexivity.
  assert (B : forall M, (M < 8)%N -> dvbcsa_bs_block_encrypt_batch c (jk_block jk) m key pb M = Ok pb).
  { intros M HM. unfold dvbcsa_bs_block_encrypt_batch. rewrite while_stop; [reflexivity|].
    apply Z.leb_gt. unfold u32. rewrite N.mod_small by lia. unfold to_int.
    destruct (N.ltb_spec (M + 2 ^ 32 - 8) (2 ^ 31)) as [C|C]; change (2 ^ 31)%N with 2147483648%N in C; change (2 ^ 32)%N with 4294967296%N in *;
      change (2 ^ 32)%Z with 4294967296%Z; lia. }
  rewrite !B by lia. cbn [bind].
  match goal with |- bind ?a _ = bind ?b _ => replace a with b; [reflexivity|] end.
  unfold dvbcsa_bs_stream_cipher_batch.
  destruct (dvbcsa_bs_stream_transpose_in c pb (rgsb (jk_regs jk))) as [sb| | |]; cbn [bind]; try reflexivity.
  destruct (stream_load_regs _ _ _) as [s| | |]; cbn [bind]; try reflexivity.
  destruct (stream_cipher_kernel _ true s) as [s1| | |]; cbn [bind]; try reflexivity.
  rewrite !while_stop; [reflexivity|..]; cbv beta iota; apply N.ltb_ge; lia.
Qed.

(** ** Returning normally or leaving an array *)
Definition wob {A} (r : res A) (Q : A -> Prop) : Prop :=
  match r with Ok a => Q a | UB OutOfBounds => True | _ => False end.
Lemma wob_wp {A} (r : res A) Q : wp r Q -> wob r Q.
Proof. destruct r; cbn; tauto. Qed.
Lemma wob_bind {A B} (r : res A) (f : A -> res B) Q : wob r (fun a => wob (f a) Q) -> wob (bind r f) Q.
Proof. destruct r as [a|[]| |]; cbn; auto. Qed.
Lemma wob_mono {A} (r : res A) (P Q : A -> Prop) : wob r P -> (forall a, P a -> Q a) -> wob r Q.
Proof. destruct r as [a|[]| |]; cbn; auto. Qed.
Lemma wob_false {A} (r : res A) : wob r (fun _ => False) -> r = UB OutOfBounds.
Proof. destruct r as [a|[]| |]; cbn; tauto. Qed.
Lemma wob_for {St} (I : nat -> St -> Prop) n : forall i body (s : St),
  I i s -> (forall j s, i <= j < i + n -> I j s -> wob (body j s) (I (S j))) -> wob (for_ n i body s) (I (i + n)).
Proof.
  induction n as [|n IH]; intros i body s H Hb; cbn [for_].
  - rewrite Nat.add_0_r. exact H.
  - apply wob_bind. eapply wob_mono; [apply Hb; [lia|exact H]|]. intros s' H'. replace (i + S n) with (S i + n) by lia.
    apply IH; [exact H'|]. intros j s2 Hj H2. apply Hb; [lia|exact H2].
Qed.
Lemma wob_while {St} (I : St -> Prop) (mu : St -> nat) cond body : forall fuel (s : St),
  mu s <= fuel -> I s ->
  (forall s, I s -> cond s = true -> 0 < mu s /\ wob (body s) (fun s' => I s' /\ mu s' < mu s)) ->
  wob (while_ fuel cond body s) (fun s => I s /\ cond s = false).
Proof.
  induction fuel as [|f IH]; intros s Hmu HI Hb; cbn [while_].
  - destruct (cond s) eqn:E; [|split; assumption]. destruct (Hb s HI E) as [H _]; lia.
  - destruct (cond s) eqn:E; [|split; assumption]. destruct (Hb s HI E) as [H0 H1]. apply wob_bind. eapply wob_mono; [exact H1|].
    intros s' [HI' Hm]. apply IH; [lia|exact HI'|exact Hb].
Qed.

Lemma wob_bget l off n : Forall is_byte l -> wob (bget l off n) (fun v => off + n <= length l /\ length v = n /\ Forall is_byte v).
Proof.
  intros F. destruct (Nat.le_gt_cases (off + n) (length l)) as [C|C].
  - apply wob_wp. eapply wp_mono; [apply wp_bget; assumption|]. intros v (L & Fv & _). auto.
  - unfold bget. rewrite (proj2 (Nat.leb_gt _ _)) by lia. exact I.
Qed.
Lemma wob_bset l off v : Forall is_byte l -> Forall is_byte v ->
  wob (bset l off v) (fun l' => off + length v <= length l /\ length l' = length l /\ Forall is_byte l').
Proof.
  intros F Fv. destruct (Nat.le_gt_cases (off + length v) (length l)) as [C|C].
  - apply wob_wp. eapply wp_mono; [apply wp_bset; assumption|]. intros l' (L & F' & _). auto.
  - unfold bset. rewrite (proj2 (Nat.leb_gt _ _)) by lia. exact I.
Qed.
Lemma xor_bytes a b : Forall is_byte a -> Forall is_byte b -> Forall is_byte (map2 N.lxor a b).
Proof. intros. apply (Forall_map2 is_byte is_byte); auto using lxor_byte. Qed.
Lemma wob_xor_u64 d p v : Forall is_byte d -> Forall is_byte v ->
  wob (xor_u64 d p v) (fun d' => p + 8 <= length d /\ length d' = length d /\ Forall is_byte d').
Proof.
  intros F Fv. unfold xor_u64. apply wob_bind. eapply wob_mono; [apply wob_bget, F|]. intros x (H & _ & Fx).
  eapply wob_mono; [apply wob_bset; [exact F|apply xor_bytes; assumption]|]. intros d' (_ & L & F'). auto.
Qed.

(* a buffer that keeps its size *)
Definition same_size (d d' : list N) : Prop := length d' = length d /\ Forall is_byte d'.

(** *** The stream cipher *)
Lemma view8 c row i : wrows c 64 row -> tgt c <> UINT32 -> i < batch_size c -> wp (view_get c 8 row i) (fun v => Forall is_byte v).
Proof.
  intros W T Hi. pose proof (batch_bytes c) as Eb.
  eapply wp_mono; [apply (wp_view_get c 64 8 row i W); [lia|apply div_8_words, T|lia]|]. intros v (_ & F & _). exact F.
Qed.
Lemma view4 c row i : wrows c 64 row -> i < 2 * batch_size c -> wp (view_get c 4 row i) (fun v => length v = 4 /\ Forall is_byte v).
Proof.
  intros W Hi. pose proof (batch_bytes c) as Eb.
  eapply wp_mono; [apply (wp_view_get c 64 4 row i W); [lia|apply div_4_words|lia]|]. intros v (L & F & _). auto.
Qed.

(* transposing out touches block [index / 8] of every packet *)
Lemma stream_out_touches c pb index row : sane c -> wrows c 64 row -> n_packets pb <= batch_size c -> Forall is_byte (pdata pb) ->
  wob (dvbcsa_bs_stream_transpose_out c pb index row) (fun r => wrows c 64 (snd r) /\
    (exists d', fst r = set_pdata pb d' /\ same_size (pdata pb) d') /\
    forall i, i < n_packets pb -> block_at index i + 8 <= length (pdata pb)).
Proof.
  intros Sc W Hn F. unfold dvbcsa_bs_stream_transpose_out.
  apply wob_bind, wob_wp. eapply wp_mono; [apply (stream_transpose_bits c row Sc W)|]. intros r1 [W1 _].
  set (n := n_packets pb) in *. set (d0 := pdata pb) in *.
  pose (J := fun k (d : list N) => same_size d0 d /\ forall i, i < k -> block_at index i + 8 <= length d0).
  apply wob_bind. apply (wob_mono _ (J n)).
  2:{ intros d' [S H]. cbn [wob fst snd]. split; [exact W1|]. split; [|exact H]. exists d'. split; [reflexivity|exact S]. }
  assert (J0 : J 0 d0) by (split; [split; [reflexivity|exact F]|intros; lia]).
  assert (Gen : tgt c <> UINT32 -> wob (d <- for_ (n / 2) 0 (fun k d => stream_out_pair c r1 index (2 * k) d) d0 ;;
            for_ (n - 2 * (n / 2)) (2 * (n / 2)) (fun i d => stream_out_packet c r1 index i d) d) (J n)).
  { intros T. pose proof (Nat.div_mod n 2 ltac:(lia)) as En. pose proof (Nat.mod_upper_bound n 2 ltac:(lia)) as Bn.
    apply wob_bind. eapply wob_mono; [apply (wob_for (fun k d => J (2 * k) d)); [exact J0|]|].
    - intros k d Hk [[L Fd] H]. unfold stream_out_pair.
      apply wob_bind. eapply wob_mono; [apply wob_bget, Fd|]. intros x (Hx & Lx & Fx).
      apply wob_bind, wob_wp. eapply wp_mono; [apply (view8 c r1 (2 * k) W1 T); lia|]. intros p Fp.
      apply wob_bind. eapply wob_mono; [apply wob_bget, Fd|]. intros y (Hy & Ly & Fy).
      apply wob_bind, wob_wp. eapply wp_mono; [apply (view8 c r1 (2 * k + 1) W1 T); lia|]. intros q Fq.
      apply wob_bind. eapply wob_mono; [apply wob_bset; [exact Fd|apply xor_bytes; assumption]|]. intros d1 (_ & L1 & F1).
      eapply wob_mono; [apply wob_bset; [exact F1|apply xor_bytes; assumption]|]. intros d2 (_ & L2 & F2).
      split; [split; [congruence|exact F2]|]. intros i Hi.
      destruct (Nat.eq_dec i (2 * k)) as [->|]; [lia|]. destruct (Nat.eq_dec i (2 * k + 1)) as [->|]; [lia|]. apply H. lia.
    - intros d Jd. rewrite Nat.add_0_l in Jd.
      eapply wob_mono; [apply (wob_for J); [exact Jd|]|].
      + intros i d1 Hi [[L Fd] H]. unfold stream_out_packet.
        apply wob_bind, wob_wp. eapply wp_mono; [apply (view8 c r1 i W1 T); lia|]. intros p Fp.
        eapply wob_mono; [apply wob_xor_u64; assumption|]. intros d2 (Hb & L2 & F2).
        split; [split; [congruence|exact F2]|]. intros j Hj. destruct (Nat.eq_dec j i) as [->|]; [lia|]. apply H. lia.
      + intros d1. cbv beta. replace (2 * (n / 2) + (n - 2 * (n / 2))) with n by lia. auto. }
  destruct (tgt c) eqn:T; try (apply Gen; discriminate).
  clear Gen. eapply wob_mono; [apply (wob_for J); [exact J0|]|].
  - intros i d Hi [[L Fd] H]. pose proof (batch_bytes c) as Eb.
    assert (E32 : batch_size c = 32) by (rewrite Eb; unfold word_bytes; rewrite T; reflexivity).
    apply wob_bind. eapply wob_mono; [apply wob_bget, Fd|]. intros x (Hx & Lx & Fx).
    apply wob_bind, wob_wp. eapply wp_mono; [apply (view4 c r1 i W1); lia|]. intros p [Lp Fp].
    apply wob_bind. eapply wob_mono; [apply wob_bset; [exact Fd|apply xor_bytes; assumption]|]. intros d1 (_ & L1 & F1).
    apply wob_bind. eapply wob_mono; [apply wob_bget, F1|]. intros y (Hy & Ly & Fy).
    apply wob_bind, wob_wp. eapply wp_mono; [apply (view4 c r1 (i + 32) W1); lia|]. intros q [Lq Fq].
    eapply wob_mono; [apply wob_bset; [exact F1|apply xor_bytes; assumption]|]. intros d2 (_ & L2 & F2).
    split; [split; [congruence|exact F2]|]. intros j Hj. destruct (Nat.eq_dec j i) as [->|]; [lia|]. apply H. lia.
  - intros d1. rewrite Nat.add_0_l. auto.
Qed.

(* the batch is streamed up to maxlen, rounded up, in every slot *)
Lemma stream_touches c s0 m key cw pb maxlen : sane c -> junk_regs c s0 -> key_stream_lanes c m key cw ->
  0 < n_packets pb <= batch_size c -> pbuf (batch_size c) (pdata pb) -> (maxlen < 2 ^ 32)%N ->
  wob (dvbcsa_bs_stream_cipher_batch c s0 m key pb maxlen) (fun _ =>
    forall i, i < n_packets pb -> (8 < maxlen)%N -> i * slot + N.to_nat maxlen <= batch_size c * slot).
Proof.
  intros Hs J K [Hp Hn] Pb Hm. unfold dvbcsa_bs_stream_cipher_batch.
  assert (W0 : wrows c 64 (rgsb s0)) by (split; [apply J|apply (wr_sb _ _ (jr_wf _ _ J))]).
  apply wob_bind, wob_wp. eapply wp_mono; [apply (stream_in_ok c pb (rgsb s0) Hs W0 Hn Pb)|]. intros sb [Wsb (iv & Hiv & Hiv2)].
  apply wob_bind, wob_wp. eapply wp_mono; [apply (load_lanes c m key cw); [apply junk_set_sb; eassumption|exact K]|].
  intros s1 [W1 R1]. cbn [set_sb rgsb] in R1.
  apply wob_bind, wob_wp. eapply wp_mono; [apply (kernel_lanes c true s1 (fun i r => exists sb st, ready r sb st) W1)|].
  { intros i Hi. destruct (R1 i Hi) as (st & Hr & Est).
    eapply wp_mono; [apply (kernel_init_run _ _ _ (iv i) Hr (Hiv i Hi))|]. intros r' (s' & Hr' & E'). eauto. }
  intros s2 [W2 R2]. cbv beta in R2.
  apply wob_bind. destruct Pb as [Ld Fd].
  pose (I := fun st : N * (regs word * pkt_buf) => let '(h, (s, p)) := st in
     (h mod 8 = 0)%N /\ (8 <= h)%N /\ (h < maxlen + 8 \/ h = 8)%N /\
     wfregs c s /\ (forall i, i < batch_size c -> exists sb' st', ready (pr (spos c i) s) sb' st') /\
     (exists d1, p = set_pdata pb d1 /\ same_size (pdata pb) d1) /\
     forall i, i < n_packets pb -> (8 < h)%N -> i * slot + N.to_nat h <= batch_size c * slot).
  eapply wob_mono; [apply (wob_while I (fun st => N.to_nat (maxlen - fst st)))|].
  - cbn [fst]. lia.
  - split; [reflexivity|]. split; [lia|]. split; [right; reflexivity|]. split; [exact W2|]. split; [exact R2|]. split; [|intros; lia].
    exists (pdata pb). split; [destruct pb; reflexivity|]. split; [reflexivity|exact Fd].
  - intros [h [s p]] (H8 & Hge & Hlt & W & R & (d1 & -> & L1 & F1) & H) Hc. apply N.ltb_lt in Hc. cbn [fst]. split; [lia|].
    apply wob_bind, wob_wp. eapply wp_mono; [apply (kernel_lanes c false s (fun i r => exists sb st, ready r sb st) W)|].
    { intros i Hi. destruct (R i Hi) as (sb' & st & Hr). eapply wp_mono; [apply (kernel_gen_run _ _ _ Hr)|].
      intros r' (sb2 & s' & Hr' & _). eauto. }
    intros s3 [W3 R3]. cbv beta in R3.
    assert (L3 : length (rgsb s3) = 64).
    { destruct (R3 0 (batch_pos c)) as (sb' & st & Hr). apply (ready_sb _ _ _ _ Hr). }
    apply wob_bind. eapply wob_mono; [apply (stream_out_touches c (set_pdata pb d1) h (rgsb s3) Hs)|].
    + split; [exact L3|apply (wr_sb _ _ W3)].
    + exact Hn.
    + exact F1.
    + intros [p' row'] (Wr & (d' & Ep & Ls & Fs) & T). cbn [fst snd set_pdata n_packets pdata] in *. subst p'. cbn [wob fst].
      pose proof (N.div_mod h 8 ltac:(lia)) as Eh. rewrite H8 in Eh.
      assert (T' : forall i, i < n_packets pb -> i * slot + (N.to_nat h + 8) <= batch_size c * slot).
      { intros i Hi. specialize (T i Hi). unfold block_at in T. rewrite L1, Ld in T. lia. }
      assert (Hw : (h + 8 < 2 ^ 32)%N).
      { specialize (T' 0 Hp). assert (batch_size c <= 256) by (unfold batch_size; destruct (tgt c); cbn; lia). unfold slot in T'.
        change (2 ^ 32)%N with 4294967296%N. lia. }
      assert (E8 : u32 (h + 8) = (h + 8)%N) by (unfold u32; apply N.mod_small, Hw).
      rewrite E8. split; [|lia]. unfold I. split; [replace (h + 8)%N with (h + 1 * 8)%N by lia; rewrite N.mod_add by lia; exact H8|].
      split; [lia|]. split; [left; lia|]. split.
      { destruct W3. unfold set_sb. constructor; cbn [rgA rgB rgX rgY rgZ rgD rgE rgF rgsb rgp rgq rgr]; auto. apply Wr. }
      split.
      { intros i Hi. destruct (R3 i Hi) as (sb' & st & Hr). exists (col (spos c i) row'), st. eapply ready_set_sb; [exact Hr|apply Wr]. }
      split; [exists d'; split; [reflexivity|]; split; [congruence|exact Fs]|].
      intros i Hi _. replace (N.to_nat (h + 8)) with (N.to_nat h + 8) by lia. apply T', Hi.
  - intros [h [s p]] [(_ & Hge & _ & _ & _ & _ & H) Hc]. apply N.ltb_ge in Hc. cbn [wob]. intros i Hi H8.
    specialize (H i Hi ltac:(lia)). lia.
Qed.

(** *** The block cipher, encrypting *)
Lemma vset4 c out i v : wrows c 64 out -> i < 2 * batch_size c -> length v = 4 -> Forall is_byte v -> wp (view_set c 4 out i v) (wrows c 64).
Proof.
  intros W Hi L F. pose proof (batch_bytes c) as Eb.
  eapply wp_mono; [apply (wp_view_set c 64 4); auto; try lia; apply div_4_words|]. intros o [Wo _]. exact Wo.
Qed.

Lemma block_in_shape c pb offset out : sane c -> wrows c 64 out -> n_packets pb <= batch_size c -> Forall is_byte (pdata pb) ->
  wob (dvbcsa_bs_block_transpose_in c out pb offset) (wrows c 64).
Proof.
  intros Sc W Hn F. unfold dvbcsa_bs_block_transpose_in. set (n := n_packets pb) in *.
  pose proof (Nat.div_mod n 4 ltac:(lia)) as En. pose proof (Nat.mod_upper_bound n 4 ltac:(lia)) as Bn.
  assert (G : forall p, wob (bget (pdata pb) p 4) (fun v => length v = 4 /\ Forall is_byte v)).
  { intros p. eapply wob_mono; [apply wob_bget, F|]. intros v (_ & L & Fv). auto. }
  assert (P : forall i o, i + 1 < batch_size c -> wrows c 64 o -> wob (block_in_pair c pb offset i o) (wrows c 64)).
  { intros i o Hi Wo. unfold block_in_pair, u32_0, u32_1.
    apply wob_bind. eapply wob_mono; [apply G|]. intros a [La Fa].
    apply wob_bind. eapply wob_mono; [apply G|]. intros b [Lb Fb].
    apply wob_bind. eapply wob_mono; [apply G|]. intros e [Le Fe].
    apply wob_bind. eapply wob_mono; [apply G|]. intros f [Lf Ff].
    apply wob_wp. apply wp_bind. eapply wp_mono; [apply vset4; try assumption; lia|]. intros o1 W1.
    apply wp_bind. eapply wp_mono; [apply vset4; try assumption; lia|]. intros o2 W2.
    apply wp_bind. eapply wp_mono; [apply vset4; try assumption; lia|]. intros o3 W3.
    apply vset4; try assumption; lia. }
  apply wob_bind. eapply wob_mono; [apply (wob_for (fun _ o => wrows c 64 o)); [exact W|]|].
  - intros k o Hk Wo. apply wob_bind. eapply wob_mono; [apply P; [lia|exact Wo]|]. intros o1 W1. apply P; [lia|exact W1].
  - intros o Wo. apply wob_bind. eapply wob_mono; [apply (wob_for (fun _ o => wrows c 64 o)); [exact Wo|]|].
    + intros i o1 Hi W1. unfold u32_0, u32_1.
      apply wob_bind. eapply wob_mono; [apply G|]. intros a [La Fa].
      apply wob_bind, wob_wp. eapply wp_mono; [apply vset4; try assumption; lia|]. intros o2 W2.
      apply wob_bind. eapply wob_mono; [apply G|]. intros b [Lb Fb].
      apply wob_wp. apply vset4; try assumption; lia.
    + intros o1 W1. apply wob_wp. eapply wp_mono; [apply block_transpose_bytes; assumption|]. intros o2 [W2 _]. exact W2.
Qed.

(* writing back: with a nonzero offset the block before the one addressed is written too *)
Lemma block_out_touches c inp pb offset enc : sane c -> wrows c 64 inp -> n_packets pb <= batch_size c ->
  n_packets pb <= length (len8 pb) -> Forall is_byte (pdata pb) ->
  wob (dvbcsa_bs_block_transpose_out_and_xor c inp pb offset enc) (fun pb' =>
    (exists d, pb' = set_pdata pb d /\ same_size (pdata pb) d) /\
    (offset <> 0%N -> 0 < n_packets pb -> (offset < nth 0 (len8 pb) 0)%N -> (8 <= offset)%N)).
Proof.
  intros Sc W Hn Hl F. unfold dvbcsa_bs_block_transpose_out_and_xor.
  apply wob_bind, wob_wp. eapply wp_mono; [apply block_transpose_bytes; assumption|]. intros ri [Wri _].
  set (n := n_packets pb) in *. cbv zeta. set (d0 := pdata pb) in *.
  pose (J := fun (i : nat) pb' => exists d, pb' = set_pdata pb d /\ same_size d0 d).
  assert (J0 : J 0 pb) by (exists d0; split; [symmetry; apply set_pdata_same|split; [reflexivity|exact F]]).
  destruct (N.eqb_spec offset 0) as [Z|Z].
  - apply (wob_mono _ (J n)); [|intros pb' H; split; [exact H|congruence]]. fold n.
    change n with (0 + n) at 2. apply (wob_for J); [exact J0|].
    intros i pb' Hi (d & -> & Ld & Fd). cbn [len8 pdata set_pdata]. rewrite (aget_ok _ _ 0%N) by lia. cbn [bind].
    destruct (nth i (len8 pb) 0 =? 0)%N; [exists d; split; [reflexivity|split; assumption]|].
    apply wob_bind, wob_wp. eapply wp_mono; [apply (view4 c ri i Wri); lia|]. intros b0 [L0 F0].
    apply wob_bind. eapply wob_mono; [apply wob_bset; assumption|]. intros d1 (_ & L1 & F1).
    apply wob_bind, wob_wp. eapply wp_mono; [apply (view4 c ri (i + batch_size c) Wri); lia|]. intros b1 [Lb1 Fb1].
    apply wob_bind. eapply wob_mono; [apply wob_bset; assumption|]. intros d2 (_ & L2 & F2).
    exists d2. split; [reflexivity|]. split; [congruence|exact F2].
  - pose proof (Nat.div_mod n 4 ltac:(lia)) as En. pose proof (Nat.mod_upper_bound n 4 ltac:(lia)) as Bn.
    pose (J2 := fun (i : nat) pb' => J i pb' /\ (0 < i -> (offset < nth 0 (len8 pb) 0)%N -> (8 <= offset)%N)).
    assert (PK : forall i pb', i < n -> J2 i pb' -> wob (block_out_packet c enc ri offset i pb') (J2 (S i))).
    { intros i pb' Hi [(d & -> & Ld & Fd) H]. unfold block_out_packet. cbn [len8 pdata set_pdata].
      rewrite (aget_ok _ _ 0%N) by lia. cbn [bind]. destruct (N.ltb_spec offset (nth i (len8 pb) 0%N)) as [C|C].
      2:{ cbn [wob]. split; [exists d; split; [reflexivity|split; assumption]|]. intros _ Hf.
          destruct i as [|i]; [lia|]. apply H; [lia|exact Hf]. }
      apply wob_bind, wob_wp. eapply wp_mono; [apply (view4 c ri i Wri); lia|]. intros b0 [L0 F0].
      apply wob_bind, wob_wp. eapply wp_mono; [apply (view4 c ri (i + batch_size c) Wri); lia|]. intros b1 [L1 F1]. cbv zeta.
      assert (Fb : Forall is_byte (b0 ++ b1)) by (apply Forall_app; auto).
      unfold psub. destruct (Nat.ltb_spec (block_at offset i) 8) as [C8|C8]; [exact I|]. cbn [bind].
      apply wob_bind. apply (wob_mono _ (fun x => Forall is_byte x)).
      { destruct enc; [exact Fb|]. eapply wob_mono; [apply wob_bget, Fd|]. intros x (_ & _ & Fx). exact Fx. }
      intros x Fx. apply wob_bind. eapply wob_mono; [apply wob_xor_u64; assumption|]. intros d1 (_ & L1' & F1').
      apply wob_bind. eapply wob_mono; [apply wob_bset; assumption|]. intros d2 (_ & L2 & F2).
      cbn [wob]. split; [exists d2; split; [reflexivity|]; split; [congruence|exact F2]|].
      intros _ Hf. destruct i as [|i]; [|apply H; [lia|exact Hf]]. unfold block_at in C8.
      destruct (N.lt_ge_cases offset 8) as [Q|Q]; [|exact Q]. rewrite (N.div_small offset 8 Q) in C8. cbn in C8. lia. }
    apply (wob_mono _ (J2 n)); [|intros pb' [H1 H2]; split; [exact H1|]; intros _ Hp; apply H2, Hp].
    apply wob_bind. eapply wob_mono; [apply (wob_for (fun k => J2 (4 * k)))|].
    + split; [exact J0|lia].
    + intros k pb' Hk H0. apply wob_bind. eapply wob_mono; [apply PK; [lia|exact H0]|]. intros pb1 H1.
      replace (4 * k + 1) with (S (4 * k)) by lia.
      apply wob_bind. eapply wob_mono; [apply PK; [lia|exact H1]|]. intros pb2 H2.
      replace (4 * k + 2) with (S (S (4 * k))) by lia.
      apply wob_bind. eapply wob_mono; [apply PK; [lia|exact H2]|]. intros pb3 H3.
      replace (4 * k + 3) with (S (S (S (4 * k)))) by lia. replace (4 * S k) with (S (S (S (S (4 * k))))) by lia.
      apply PK; [lia|exact H3].
    + intros pb' H0. rewrite Nat.add_0_l in H0. fold n.
      eapply wob_mono; [apply (wob_for J2); [exact H0|]|].
      * intros i pb1 Hi H1. apply PK; [lia|exact H1].
      * intros pb1. replace (4 * (n / 4) + (n - 4 * (n / 4))) with n by lia. auto.
Qed.

Lemma encrypt_block_touches c bj m key kk pb offset : supported c -> key_lanes c (key_block_word c m key) kk -> bj_ok c bj ->
  n_packets pb <= batch_size c -> n_packets pb <= length (len8 pb) -> Forall is_byte (pdata pb) ->
  wob (encrypt_block c bj m key pb offset) (fun pb' =>
    (exists d, pb' = set_pdata pb d /\ same_size (pdata pb) d) /\
    (offset <> 0%N -> 0 < n_packets pb -> (offset < nth 0 (len8 pb) 0)%N -> (8 <= offset)%N)).
Proof.
  intros Sp HK (Wr & W1 & W2) Hn Hl F. unfold encrypt_block. pose proof Sp as [Sc _].
  apply wob_bind. apply (wob_mono _ (wrows c 512)).
  - unfold in_window. pose proof Wr as [L _]. rewrite L. cbn [Nat.add Nat.leb].
    assert (Ww : wrows c 64 (firstn 64 (skipn 0 (bj_r bj)))) by (apply (wrows_firstn c 512); [exact Wr|lia]).
    apply wob_bind. eapply wob_mono; [apply block_in_shape; assumption|]. intros w Ww'. cbn [wob].
    replace 512 with (0 + (64 + (512 - 64))) by lia.
    apply wrows_app; [apply (wrows_firstn c 512); [exact Wr|lia]|]. apply wrows_app; [exact Ww'|apply wrows_skipn, Wr].
  - intros r1 Wr1. apply wob_bind, wob_wp. eapply wp_mono; [apply (encrypt_register_ok c _ kk); assumption|]. intros r2 [Wr2 _].
    apply block_out_touches; try assumption. apply (wrows_firstn c (512 - 8 * 56)); [apply wrows_skipn, Wr2|lia].
Qed.

(* the start value of the loop counter, int i = maxlen - 8 *)
Lemma enc_start maxlen : (maxlen < 2 ^ 32)%N ->
  to_int (u32 (maxlen + 2 ^ 32 - 8)) =
    if ((8 <=? maxlen) && (maxlen <? 2 ^ 31 + 8))%N then (Z.of_N maxlen - 8)%Z
    else if (maxlen <? 8)%N then (Z.of_N maxlen - 8)%Z else (Z.of_N maxlen - 8 - 2 ^ 32)%Z.
Proof.
  intros H. unfold u32. change (2 ^ 32)%N with 4294967296%N in *. change (2 ^ 31)%N with 2147483648%N. change (2 ^ 32)%Z with 4294967296%Z.
  destruct (N.leb_spec 8 maxlen) as [C|C]; cbn [andb].
  - replace (maxlen + 4294967296 - 8)%N with (maxlen - 8 + 1 * 4294967296)%N by lia. rewrite N.mod_add by lia. rewrite N.mod_small by lia.
    unfold to_int. change (2 ^ 31)%N with 2147483648%N. change (2 ^ 32)%Z with 4294967296%Z.
    destruct (N.ltb_spec (maxlen - 8) 2147483648), (N.ltb_spec maxlen (2147483648 + 8)), (N.ltb_spec maxlen 8); lia.
  - rewrite N.mod_small by lia. unfold to_int. change (2 ^ 31)%N with 2147483648%N. change (2 ^ 32)%Z with 4294967296%Z.
    destruct (N.ltb_spec (maxlen + 4294967296 - 8) 2147483648), (N.ltb_spec maxlen 8); lia.
Qed.

Lemma block_encrypt_touches c bj m key kk pb maxlen : supported c -> key_lanes c (key_block_word c m key) kk -> (forall i, bj_ok c (bj i)) ->
  n_packets pb <= batch_size c -> n_packets pb <= length (len8 pb) -> Forall is_byte (pdata pb) -> (maxlen < 2 ^ 32)%N ->
  wob (dvbcsa_bs_block_encrypt_batch c bj m key pb maxlen) (fun pb' =>
    (exists d, pb' = set_pdata pb d /\ same_size (pdata pb) d) /\
    ((8 <= maxlen < 2 ^ 31 + 8)%N -> (maxlen mod 8 <> 0)%N -> 0 < n_packets pb -> (8 <= nth 0 (len8 pb) 0)%N -> False)).
Proof.
  intros Sp HK Hj Hn Hl F Hm. unfold dvbcsa_bs_block_encrypt_batch. rewrite enc_start by exact Hm.
  apply wob_bind. destruct (((8 <=? maxlen) && (maxlen <? 2 ^ 31 + 8))%N) eqn:R.
  - apply andb_prop in R as [R1 R2]. apply N.leb_le in R1. apply N.ltb_lt in R2. change (2 ^ 31)%N with 2147483648%N in *.
    pose (bad := (maxlen mod 8 <> 0)%N /\ 0 < n_packets pb /\ (8 <= nth 0 (len8 pb) 0)%N).
    pose (I := fun st : Z * pkt_buf => let '(i, p) := st in (exists q, Z.of_N maxlen = i + 8 + 8 * q)%Z /\ (- 8 <= i <= Z.of_N maxlen - 8)%Z /\
      (exists d, p = set_pdata pb d /\ same_size (pdata pb) d) /\ (bad -> (0 <= i)%Z)).
    eapply wob_mono; [apply (wob_while I (fun st => Z.to_nat (fst st + 8)))|].
    + cbn [fst]. lia.
    + split; [exists 0%Z; lia|]. split; [lia|]. split; [|lia].
      exists (pdata pb). split; [symmetry; apply set_pdata_same|split; [reflexivity|exact F]].
    + intros [i p] ((q & Eq) & Hi & (d & -> & Ld & Fd) & _) C. apply Z.leb_le in C. cbn [fst]. split; [lia|].
      apply wob_bind. eapply wob_mono; [apply (encrypt_block_touches c (bj (Z.to_N i)) m key kk (set_pdata pb d)); try assumption; apply Hj|].
      intros p' ((d' & -> & Ld' & Fd') & T). cbn [set_pdata n_packets len8 pdata] in *. unfold int_ok.
      match goal with |- context [if ?b then _ else _] => assert (Eb : b = true) end.
      { apply andb_true_intro. split; [apply Z.leb_le|apply Z.ltb_lt]; change (2 ^ 31)%Z with 2147483648%Z; lia. }
      rewrite Eb. cbn [bind wob fst]. split; [|lia]. split; [exists (q + 1)%Z; lia|]. split; [lia|].
      split; [exists d'; split; [reflexivity|]; split; [congruence|exact Fd']|].
      intros (B1 & B2 & B3). destruct (Z.lt_ge_cases i 8) as [Q|Q]; [|lia]. exfalso.
      assert (Z.to_N i <> 0%N).
      { intros Z0. assert (i = 0)%Z by lia. subst i. apply B1. apply N2Z.inj. rewrite N2Z.inj_mod. rewrite Eq.
        change (Z.of_N 8) with 8%Z. replace (0 + 8 + 8 * q)%Z with ((q + 1) * 8)%Z by lia. apply Z.mod_mul. lia. }
      specialize (T H B2 ltac:(lia)). lia.
    + intros [i p] [(_ & _ & Hd & Hb) C]. apply Z.leb_gt in C. cbn [wob]. split; [exact Hd|]. intros _ B1 B2 B3.
      specialize (Hb (conj B1 (conj B2 B3))). lia.
  - rewrite while_stop.
    + cbn [wob]. split; [exists (pdata pb); split; [symmetry; apply set_pdata_same|split; [reflexivity|exact F]]|].
      intros [A1 A2]. apply andb_false_iff in R as [R|R]; [apply N.leb_gt in R|apply N.ltb_ge in R]; lia.
    + cbv beta iota. apply Z.leb_gt. change (2 ^ 32)%Z with 4294967296%Z. change (2 ^ 32)%N with 4294967296%N in Hm.
      destruct (N.ltb_spec maxlen 8); lia.
Qed.

(** ** The calls *)
Section Bad.
  Context (c : build) (jk : junk) (m : mem) (key pcks : N) (cw : list N) (ps : packets) (maxlen : N).
  Hypothesis (A : have_assert c = false) (Rd : call_ready c jk m key pcks cw ps 0).

  Let d0 := layout 0 ps (jk_data jk).
  Let l8 := lens 0 ps (jk_len8 jk).
  Let pb0 := mk_pb (length ps) l8 d0.

  Lemma bad_setup : supported c /\ key_stream_lanes c m key (fun _ => cw) /\ key_lanes c (key_block_word c m key) (fun _ => key_schedule cw) /\
    stack_ok c jk /\ length ps <= batch_size c /\ pbuf (batch_size c) d0 /\ length l8 = batch_size c /\
    dvbcsa_pkt_buf_load c m pcks (mk_pb 0 (jk_len8 jk) (jk_data jk)) = Ok pb0 /\
    (forall p buf, nth_error ps 0 = Some (p, buf) -> nth 0 l8 0%N = (8 * (N.of_nat (length buf) / 8))%N).
  Proof.
    destruct Rd as [Sp Lc K J B Li _]. destruct (bs_keyed_facts c m key cw Lc K) as (Fc & Al & Hk). pose proof Li as [Hn _].
    split; [exact Sp|]. split; [apply key_stream_lanes_const; try assumption; apply ctx_stream; assumption|].
    split; [apply key_words_lanes, ctx_block; assumption|]. split; [exact J|]. split; [exact Hn|].
    pose proof (fits_of_limits c ps Li) as Hf.
    split; [apply (d0_ok c jk m pcks ps); assumption|]. pose proof (so_len8 _ _ J) as L8.
    split; [unfold l8; rewrite lens_length; exact L8|].
    split; [eapply (run_load c jk m pcks ps 0); try assumption; lia|]. intros p buf E. apply (lens_at ps 0 (jk_len8 jk) 0 p buf); [lia|exact E].
  Qed.

  (* maxlen beyond what is left of the buffer after the last packet's slot starts *)
  Theorem too_long enc : 0 < length ps -> (batch_size c + 1 - length ps) * slot < N.to_nat maxlen -> (maxlen < 2 ^ 32)%N ->
    bs_call enc c jk m key pcks maxlen = UB OutOfBounds.
  Proof.
    intros Hp Hl Hm. destruct bad_setup as (Sp & KS & KB & J & Hn & Pb & L8 & EL & _). apply wob_false.
    assert (ST : forall d, same_size d0 d -> wob (dvbcsa_bs_stream_cipher_batch c (jk_regs jk) m key (set_pdata pb0 d) maxlen) (fun _ => False)).
    { intros d [Ld Fd]. eapply wob_mono; [apply (stream_touches c (jk_regs jk) m key (fun _ => cw)); try assumption|].
      - apply Sp.
      - apply stack_regs, J.
      - split; [exact Hp|exact Hn].
      - split; [change (pdata (set_pdata pb0 d)) with d; rewrite Ld; apply Pb|exact Fd].
      - intros pb' T. cbn [set_pdata n_packets pb0] in T. specialize (T (length ps - 1) ltac:(cbn; lia) ltac:(unfold slot in *; lia)).
        assert ((batch_size c + 1 - length ps) * slot + (length ps - 1) * slot = batch_size c * slot) by (rewrite <- Nat.mul_add_distr_r; f_equal; lia).
        lia. }
    destruct enc; cbn [bs_call].
    - unfold dvbcsa_bs_encrypt. rewrite A. cbn [andb]. rewrite EL. cbn [bind].
      apply wob_bind. eapply wob_mono; [apply (block_encrypt_touches c (jk_block jk) m key (fun _ => key_schedule cw)); try assumption|].
      + apply stack_block, J.
      + cbn. lia.
      + apply Pb.
      + intros pb1 ((d & -> & S) & _). apply wob_bind. eapply wob_mono; [apply ST, S|]. intros ? [].
    - unfold dvbcsa_bs_decrypt. rewrite A. cbn [andb]. rewrite EL. cbn [bind].
      apply wob_bind. rewrite <- (set_pdata_same pb0). eapply wob_mono; [apply ST; split; [reflexivity|apply Pb]|]. intros ? [].
  Qed.

  (* encrypting with a maxlen over 8 that is not a multiple of 8 *)
  Theorem encrypt_uneven p buf : (8 < maxlen < 2 ^ 32)%N -> (maxlen mod 8 <> 0)%N -> nth_error ps 0 = Some (p, buf) -> 8 <= length buf ->
    dvbcsa_bs_encrypt c jk m key pcks maxlen = UB OutOfBounds.
  Proof.
    intros Hm Hr E0 Hb. destruct bad_setup as (Sp & KS & KB & J & Hn & Pb & L8 & EL & H0).
    assert (Hp : 0 < length ps) by (apply nth_error_Some; congruence).
    destruct (N.lt_ge_cases maxlen (2 ^ 31 + 8)) as [C|C].
    - apply wob_false. unfold dvbcsa_bs_encrypt. rewrite A. cbn [andb]. rewrite EL. cbn [bind].
      apply wob_bind. eapply wob_mono; [apply (block_encrypt_touches c (jk_block jk) m key (fun _ => key_schedule cw)); try assumption|].
      + apply stack_block, J.
      + cbn. lia.
      + apply Pb.
      + apply Hm.
      + intros pb1 [_ F]. exfalso. apply F; [lia|exact Hr|exact Hp|]. cbn [len8 pb0]. rewrite (H0 p buf E0).
        pose proof (N.div_le_lower_bound (N.of_nat (length buf)) 8 1 ltac:(lia) ltac:(lia)). lia.
    - apply (too_long true Hp); [|apply Hm]. assert (batch_size c <= 256) by (unfold batch_size; destruct (tgt c); cbn; lia).
      change (2 ^ 31)%N with 2147483648%N in C. unfold slot. lia.
  Qed.
End Bad.
