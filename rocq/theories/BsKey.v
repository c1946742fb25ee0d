(** BsKey.v -- dvbcsa_bs_key_set writes a context that both batch ciphers understand. *)
From Verif Require Import Base Mem Spec ModelClassical ClassicalBlock ClassicalKey SpecLemmas ModelBsWord ModelBsTranspose ModelBsStream
  ModelBsBlock ModelBsAlgo BsApiSpec BsWordFacts BsView BsStream BsRegister.
Local Open Scope nat_scope.

(* the content of a bitslice context: 56 block words, then 64 stream words *)
Definition block_area (c : build) (cw : list N) : list N :=
  concat (map (fun k => repeat k (word_bytes c)) (key_schedule cw)).
Definition stream_area (c : build) (cw : list N) : list N :=
  concat (map (fun i => if cw_bit cw i then repeat 255%N (word_bytes c) else repeat 0%N (word_bytes c)) (seq 0 64)).
Definition bs_ctx_bytes (c : build) (cw : list N) : list N := block_area c cw ++ stream_area c cw.

Lemma val8_repeat c v : (v < 256)%N -> BS_VAL c 1 v = repeat v (word_bytes c).
Proof.
  intros Hv. unfold BS_VAL. rewrite Nat.div_1_r.
  replace (native_bytes (big_endian c) 1 v) with [v].
  - induction (word_bytes c); simpl; congruence.
  - unfold native_bytes. cbn [le_bytes]. rewrite N.mod_small by exact Hv. destruct (big_endian c); reflexivity.
Qed.

Lemma rev_repeat {A} (x : A) n : rev (repeat x n) = repeat x n.
Proof.
  induction n as [|n IH]; [reflexivity|]. simpl. rewrite IH. clear. induction n; simpl; congruence.
Qed.

Lemma concat_repeat_repeat {A} (x : A) a n : concat (repeat (repeat x a) n) = repeat x (n * a).
Proof. induction n as [|n IH]; [reflexivity|]. simpl. rewrite IH, repeat_app. reflexivity. Qed.

Lemma native_rep be n v x : le_bytes n v = repeat x n -> native_bytes be n v = repeat x n.
Proof. intros E. unfold native_bytes. rewrite E. destruct be; [apply rev_repeat|reflexivity]. Qed.

Lemma mul_rep8 k : is_byte k -> le_bytes 8 (u64 (k * 0x0101010101010101)) = repeat k 8.
Proof.
  intros H.
  assert (E : forallb (fun b => b) (map2 N.eqb (le_bytes 8 (u64 (k * 0x0101010101010101))) (repeat k 8)) = true).
  { apply (byte_sweep (fun k => forallb (fun b => b) (map2 N.eqb (le_bytes 8 (u64 (k * 0x0101010101010101))) (repeat k 8)))); [vm_compute; reflexivity|exact H]. }
  cbn [le_bytes repeat map2 forallb] in E |- *. repeat (apply andb_prop in E as [?E E]). 
  repeat match goal with H : (_ =? _)%N = true |- _ => apply N.eqb_eq in H; rewrite H end. reflexivity.
Qed.

Lemma mul_rep4 k : is_byte k -> le_bytes 4 (k * 0x01010101) = repeat k 4 /\ (k * 0x01010101 < 2 ^ 32)%N.
Proof.
  intros H.
  assert (E : forallb (fun b => b) (map2 N.eqb (le_bytes 4 (k * 0x01010101)) (repeat k 4)) = true).
  { apply (byte_sweep (fun k => forallb (fun b => b) (map2 N.eqb (le_bytes 4 (k * 0x01010101)) (repeat k 4)))); [vm_compute; reflexivity|exact H]. }
  cbn [le_bytes repeat map2 forallb] in E |- *. repeat (apply andb_prop in E as [?E E]).
  split; [repeat match goal with H : (_ =? _)%N = true |- _ => apply N.eqb_eq in H; rewrite H end; reflexivity|].
  unfold is_byte in H. change (2 ^ 32)%N with 4294967296%N. lia.
Qed.

(* finding 4: with 32-bit words the multiplication overflows int unless kk[i] < 0x80 *)
Definition mul_fits (c : build) (k : N) : Prop := tgt c = UINT32 -> wrapv c = false -> (k < 128)%N.

Lemma block_key_word_ok c k : is_byte k -> mul_fits c k -> block_key_word c k = Ok (repeat k (word_bytes c)).
Proof.
  intros H F. unfold block_key_word, mul_fits, word_bytes in *.
  assert (E8 := native_rep (big_endian c) 8 _ _ (mul_rep8 k H)).
  destruct (mul_rep4 k H) as [E4 B4]. assert (E4' := native_rep (big_endian c) 4 _ _ E4).
  destruct (tgt c); try (rewrite E8, concat_repeat_repeat; reflexivity).
  destruct (wrapv c).
  - cbn [bind]. unfold u32. rewrite N.mod_small by exact B4. rewrite E4'. reflexivity.
  - specialize (F eq_refl eq_refl). unfold int_ok.
    match goal with |- context [if ?b then _ else _] => assert (Eb : b = true) end.
    { apply andb_true_intro. split; [apply Z.leb_le|apply Z.ltb_lt]; change (2 ^ 31)%Z with 2147483648%Z; lia. }
    rewrite Eb. cbn [bind]. replace (Z.to_N (Z.of_N k * 16843009)) with (k * 16843009)%N by lia. rewrite E4'. reflexivity.
Qed.

Lemma block_key_word_ub c k : is_byte k -> ~ mul_fits c k -> block_key_word c k = UB SignedOverflow.
Proof.
  intros H F. unfold mul_fits, block_key_word in *. destruct (tgt c) eqn:Et; try (exfalso; apply F; discriminate).
  destruct (wrapv c) eqn:Ew; [exfalso; apply F; discriminate|].
  assert (128 <= k)%N by (destruct (N.lt_ge_cases k 128); [exfalso; apply F; auto|assumption]).
  unfold int_ok.
  match goal with |- context [if ?b then _ else _] => assert (Eb : b = false) end.
  { apply andb_false_intro2. apply Z.ltb_ge. change (2 ^ 31)%Z with 2147483648%Z. lia. }
  rewrite Eb. reflexivity.
Qed.

(** ** Storing words one after the other *)
Lemma put_app2 m a l1 l2 n : n = N.of_nat (length l1) -> meq (put (put m a l1) (a + n) l2) (put m a (l1 ++ l2)).
Proof.
  intros -> x. unfold put. rewrite app_length. nb; try lia; try reflexivity;
    (rewrite app_nth2 by lia; do 2 f_equal; lia) || (rewrite app_nth1 by lia; reflexivity).
Qed.

Lemma put_before m a l1 l2 n : n = N.of_nat (length l1) -> meq (put (put m (a + n) l2) a l1) (put m a (l1 ++ l2)).
Proof.
  intros -> x. unfold put. rewrite app_length. nb; try lia; try reflexivity;
    (rewrite app_nth2 by lia; do 2 f_equal; lia) || (rewrite app_nth1 by lia; reflexivity).
Qed.

Lemma concat_words_length {A B} (f : A -> list B) w l : (forall x, length (f x) = w) -> length (concat (map f l)) = length l * w.
Proof. intros H. induction l as [|x l IH]; simpl; [reflexivity|]. rewrite app_length, IH, H. reflexivity. Qed.

Lemma aligned_step c key k : word_aligned c key = true -> word_aligned c (key + N.of_nat (k * word_bytes c)) = true.
Proof.
  unfold word_aligned. intros H. apply N.eqb_eq in H. apply N.eqb_eq.
  rewrite Nat2N.inj_mul, N.mod_add; [exact H|]. pose proof (word_bytes_pos c). lia.
Qed.

Lemma store_words_ok c key (W : nat -> word) (b : nat -> mem -> res mem) off n m :
  word_aligned c key = true -> (forall i, length (W i) = word_bytes c) ->
  mapped m (key + N.of_nat (off * word_bytes c)) (N.of_nat (n * word_bytes c)) ->
  (forall i m, i < n -> b i m = store_word c m (key + N.of_nat ((off + i) * word_bytes c)) (W i)) ->
  wp (for_ n 0 b m) (fun m' => meq m' (put m (key + N.of_nat (off * word_bytes c)) (concat (map W (seq 0 n))))).
Proof.
  intros Al L M B.
  apply (wp_for (fun i m' => meq m' (put m (key + N.of_nat (off * word_bytes c)) (concat (map W (seq 0 i)))))).
  - intros x. unfold put. cbn [seq map concat length]. nb; try lia; reflexivity.
  - intros i m1 Hi E. rewrite B by lia. unfold store_word. rewrite aligned_step by exact Al.
    eapply wp_mono; [apply store_bytes_ok|].
    + eapply mapped_meq; [apply meq_sym; exact E|]. apply mapped_put. eapply mapped_sub; [exact M| |]; rewrite ?L; nia.
    + intros m2 E2. eapply meq_trans; [exact E2|]. eapply meq_trans; [apply put_meq; exact E|].
      rewrite seq_S, map_app, concat_app. cbn [map concat]. rewrite app_nil_r.
      replace (key + N.of_nat ((off + i) * word_bytes c))%N
        with (key + N.of_nat (off * word_bytes c) + N.of_nat (i * word_bytes c))%N by nia.
      apply put_app2. rewrite (concat_words_length W _ _ L), seq_length. reflexivity.
Qed.

Lemma with_local_holds n j m a l : holds m a l -> holds (with_local n j m) (a + n) l.
Proof.
  intros [F H]. split; [exact F|]. intros i Hi. unfold with_local.
  destruct (N.ltb_spec (a + n + N.of_nat i) n); [lia|]. rewrite <- H by exact Hi. f_equal. lia.
Qed.
Lemma with_local_mapped n j m : mapped (with_local n j m) 0 n.
Proof. intros x Hx. unfold with_local. destruct (N.ltb_spec x n); [eauto|lia]. Qed.

Lemma area_lengths c cw : length cw = 8 ->
  length (block_area c cw) = 56 * word_bytes c /\ length (stream_area c cw) = 64 * word_bytes c.
Proof.
  intros L. unfold block_area, stream_area. split.
  - rewrite (concat_words_length _ (word_bytes c)) by (intros; apply repeat_length). rewrite key_schedule_length by exact L. reflexivity.
  - rewrite (concat_words_length _ (word_bytes c)) by (intros x; destruct (cw_bit cw x); apply repeat_length). rewrite seq_length. reflexivity.
Qed.

Lemma Forall_concat_words {A} (f : A -> list N) l : (forall x, In x l -> Forall is_byte (f x)) -> Forall is_byte (concat (map f l)).
Proof. intros H. induction l as [|x l IH]; simpl; [constructor|]. apply Forall_app. split; [apply H; left; reflexivity|apply IH; intros; apply H; right; assumption]. Qed.
Lemma Forall_rep x n : is_byte x -> Forall is_byte (repeat x n).
Proof. intros H. induction n; simpl; constructor; auto. Qed.

Lemma bs_ctx_bytes_ok c cw : length cw = 8 -> Forall is_byte cw ->
  length (bs_ctx_bytes c cw) = 120 * word_bytes c /\ Forall is_byte (bs_ctx_bytes c cw).
Proof.
  intros L F. destruct (area_lengths c cw L) as [L1 L2]. unfold bs_ctx_bytes. split; [rewrite app_length, L1, L2; lia|].
  apply Forall_app. split; apply Forall_concat_words.
  - intros x Hx. apply Forall_rep. pose proof (key_schedule_bytes cw L F) as B. rewrite Forall_forall in B. auto.
  - intros i _. destruct (cw_bit cw i); apply Forall_rep; reflexivity.
Qed.

Lemma map_nth_seq {A B} (f : A -> B) (l : list A) d : map f l = map (fun i => f (nth i l d)) (seq 0 (length l)).
Proof.
  induction l as [|x l IH]; [reflexivity|]. cbn [map length seq nth]. f_equal. rewrite <- seq_shift, map_map, IH. reflexivity.
Qed.

Theorem bs_key_set_ok c kj m cwp key cw :
  word_aligned c key = true -> mapped m key (bs_ctx_size c) -> length cw = 8 -> holds m cwp cw ->
  disjoint cwp 8 (key + N.of_nat (56 * word_bytes c)) (N.of_nat (64 * word_bytes c)) ->
  (forall k, In k (key_schedule cw) -> mul_fits c k) ->
  wp (dvbcsa_bs_key_set c kj m cwp key) (fun m' => meq m' (put m key (bs_ctx_bytes c cw))).
Proof.
  intros Al M L H D MF. pose proof H as [F _]. unfold bs_ctx_size in M. unfold dvbcsa_bs_key_set.
  rewrite (load_le64_ok _ _ _ _ H L). cbn [bind]. apply wp_bind.
  destruct (area_lengths c cw L) as [L1 L2].
  eapply wp_mono; [apply (store_words_ok c key (fun i => if cw_bit cw i then repeat 255%N (word_bytes c) else repeat 0%N (word_bytes c)) _ 56 64 m Al)|].
  - intros i. destruct (cw_bit cw i); apply repeat_length.
  - eapply mapped_sub; [exact M|lia|lia].
  - intros i m1 Hi. f_equal. unfold cw_bit. rewrite !val8_repeat by reflexivity. reflexivity.
  - intros m1 E1. change (meq m1 (put m (key + N.of_nat (56 * word_bytes c)) (stream_area c cw))) in E1.
    assert (H1 : holds m1 cwp cw).
    { eapply holds_meq; [apply meq_sym; exact E1|]. apply holds_put_disj; [exact H|]. rewrite L, L2. exact D. }
    apply wp_bind. eapply wp_mono; [apply (key_schedule_block_ok _ _ _ _ cw)|].
    + apply with_local_holds. exact H1.
    + exact L.
    + apply (with_local_mapped 56).
    + intros ml El.
      assert (Hk : holds ml 0 (key_schedule cw)).
      { eapply holds_meq; [apply meq_sym; exact El|]. apply holds_put. apply key_schedule_bytes; assumption. }
      rewrite (load_bytes_ok' _ _ _ 56 Hk) by (apply key_schedule_length; exact L). cbn [bind].
      pose proof (key_schedule_length cw L) as Lk. pose proof (key_schedule_bytes cw L F) as Fk. rewrite Forall_forall in Fk.
      eapply wp_mono; [apply (store_words_ok c key (fun i => repeat (nth i (key_schedule cw) 0%N) (word_bytes c)) _ 0 56 m1 Al)|].
      * intros i. apply repeat_length.
      * eapply mapped_meq; [apply meq_sym; exact E1|]. apply mapped_put. eapply mapped_sub; [exact M|lia|lia].
      * intros i m2 Hi. rewrite (aget_ok _ _ 0%N) by lia. cbn [bind].
        rewrite block_key_word_ok; [reflexivity| |apply MF]; [apply Fk|]; apply nth_In; lia.
      * intros m2 E2.
        assert (EB : concat (map (fun i => repeat (nth i (key_schedule cw) 0%N) (word_bytes c)) (seq 0 56)) = block_area c cw).
        { unfold block_area. rewrite (map_nth_seq _ (key_schedule cw) 0%N), Lk. reflexivity. }
        cbv beta in E2. unfold word in E2. rewrite EB in E2. cbn [Nat.mul] in E2. rewrite N.add_0_r in E2.
        eapply meq_trans; [exact E2|]. eapply meq_trans; [apply put_meq; exact E1|].
        apply put_before. rewrite L1. reflexivity.
Qed.

(* 32-bit words, no -fwrapv: undefined whenever some round-key byte is 0x80 or more *)
Theorem bs_key_set_ub c kj m cwp key cw :
  word_aligned c key = true -> mapped m key (bs_ctx_size c) -> length cw = 8 -> holds m cwp cw ->
  disjoint cwp 8 (key + N.of_nat (56 * word_bytes c)) (N.of_nat (64 * word_bytes c)) ->
  tgt c = UINT32 -> wrapv c = false -> (exists k, In k (key_schedule cw) /\ (128 <= k)%N) ->
  dvbcsa_bs_key_set c kj m cwp key = UB SignedOverflow.
Proof.
  intros Al M L H D Et Ew (k0 & Ik & Hk0). pose proof H as [F _]. unfold bs_ctx_size in M. unfold dvbcsa_bs_key_set.
  rewrite (load_le64_ok _ _ _ _ H L). cbn [bind].
  destruct (area_lengths c cw L) as [L1 L2].
  match goal with |- bind ?x _ = _ => assert (W : wp x (fun m' => meq m' (put m (key + N.of_nat (56 * word_bytes c)) (stream_area c cw)))) end.
  { apply (store_words_ok c key (fun i => if cw_bit cw i then repeat 255%N (word_bytes c) else repeat 0%N (word_bytes c)) _ 56 64 m Al).
    - intros i. destruct (cw_bit cw i); apply repeat_length.
    - eapply mapped_sub; [exact M|lia|lia].
    - intros i m1 Hi. f_equal. unfold cw_bit. rewrite !val8_repeat by reflexivity. reflexivity. }
  match goal with |- bind ?x _ = _ => destruct x as [m1| | |] end; cbn [wp] in W; try contradiction. cbn [bind].
  assert (H1 : holds m1 cwp cw).
  { eapply holds_meq; [apply meq_sym; exact W|]. apply holds_put_disj; [exact H|]. rewrite L, L2. exact D. }
  pose proof (key_schedule_block_ok (big_endian c) (with_local 56 kj m1) (cwp + 56) 0 cw
     (with_local_holds _ _ _ _ _ H1) L (with_local_mapped 56 kj m1)) as W2.
  destruct (dvbcsa_key_schedule_block _ _ _ _) as [ml| | |]; cbn [wp] in W2; try contradiction. cbn [bind].
  assert (Hk : holds ml 0 (key_schedule cw)).
  { eapply holds_meq; [apply meq_sym; exact W2|]. apply holds_put. apply key_schedule_bytes; assumption. }
  rewrite (load_bytes_ok' _ _ _ 56 Hk) by (apply key_schedule_length; exact L). cbn [bind].
  pose proof (key_schedule_length cw L) as Lk. pose proof (key_schedule_bytes cw L F) as Fk. rewrite Forall_forall in Fk.
  assert (M1 : mapped m1 key (N.of_nat (56 * word_bytes c))).
  { eapply mapped_meq; [apply meq_sym; exact W|]. apply mapped_put. eapply mapped_sub; [exact M|lia|lia]. }
  destruct (In_nth _ _ 0%N Ik) as (p & Hp & Ep).
  assert (G : forall n i mm, mapped mm key (N.of_nat (56 * word_bytes c)) -> i + n = 56 -> i <= p ->
    for_ n i (fun i m => k <- aget (key_schedule cw) i ;; w <- block_key_word c k ;;
       store_word c m (key + N.of_nat (i * word_bytes c)) w) mm = UB SignedOverflow).
  { induction n as [|n IH]; intros i mm Mm Hn Hi; [lia|]. cbn [for_].
    rewrite (aget_ok _ _ 0%N) by lia. cbn [bind].
    assert (Bk : is_byte (nth i (key_schedule cw) 0%N)) by (apply Fk, nth_In; lia).
    destruct (N.lt_ge_cases (nth i (key_schedule cw) 0%N) 128) as [C|C].
    - rewrite block_key_word_ok; [|exact Bk|intros _ _; exact C]. cbn [bind].
      assert (i <> p) by (intros ->; rewrite Ep in C; lia).
      unfold store_word. rewrite aligned_step by exact Al.
      pose proof (store_bytes_ok (repeat (nth i (key_schedule cw) 0%N) (word_bytes c)) mm (key + N.of_nat (i * word_bytes c))) as S.
      rewrite repeat_length in S. specialize (S ltac:(eapply mapped_sub; [exact Mm|lia|nia])).
      destruct (store_bytes mm _ _) as [m2| | |]; cbn [wp] in S; try contradiction. cbn [bind].
      apply IH; [|lia|lia]. eapply mapped_meq; [apply meq_sym; exact S|]. apply mapped_put. exact Mm.
    - rewrite block_key_word_ub; [reflexivity|exact Bk|]. intros Q. specialize (Q Et Ew). lia. }
  apply G; [exact M1|lia|lia].
Qed.

(** ** What the ciphers read back *)
Lemma concat_words_sub {A} (f : A -> list N) w l i d : (forall x, length (f x) = w) -> i < length l ->
  firstn w (skipn (i * w) (concat (map f l))) = f (nth i l d).
Proof.
  intros H. revert i. induction l as [|x l IH]; intros i Hi; cbn [length] in Hi; [lia|].
  cbn [map concat]. destruct i as [|i].
  - cbn [Nat.mul skipn nth]. rewrite firstn_app, H, Nat.sub_diag, <- (H x), firstn_all. cbn [firstn]. apply app_nil_r.
  - cbn [nth Nat.mul]. rewrite skipn_app, H. rewrite (skipn_all2 (f x)) by (rewrite H; lia). cbn [app].
    replace (w + i * w - w) with (i * w) by lia. apply IH. lia.
Qed.

Lemma ctx_stream c m key cw : length cw = 8 -> word_aligned c key = true -> holds m key (bs_ctx_bytes c cw) -> key_stream_ok c m key cw.
Proof.
  intros L Al H i Hi. unfold key_stream_word, load_word. rewrite aligned_step by exact Al.
  destruct (area_lengths c cw L) as [L1 L2]. unfold bs_ctx_bytes in H. apply holds_app in H as [_ H].
  rewrite L1 in H.
  assert (S : holds m (key + N.of_nat (56 * word_bytes c) + N.of_nat (i * word_bytes c)) (firstn (word_bytes c) (skipn (i * word_bytes c) (stream_area c cw)))).
  { apply holds_sub; [exact H|]. rewrite L2. nia. }
  unfold stream_area in S. rewrite (concat_words_sub _ _ _ _ 0) in S by (try (rewrite seq_length; lia); intros x; destruct (cw_bit cw x); apply repeat_length).
  rewrite seq_nth in S by lia. cbn [Nat.add] in S. rewrite !val8_repeat by reflexivity.
  replace (key + N.of_nat ((56 + i) * word_bytes c))%N with (key + N.of_nat (56 * word_bytes c) + N.of_nat (i * word_bytes c))%N by nia.
  apply load_bytes_ok'; [exact S|]. destruct (cw_bit cw i); apply repeat_length.
Qed.

Lemma ctx_block c m key cw : length cw = 8 -> Forall is_byte cw -> word_aligned c key = true -> holds m key (bs_ctx_bytes c cw) ->
  key_words c (key_block_word c m key) (key_schedule cw).
Proof.
  intros L F Al H. pose proof (key_schedule_length cw L) as Lk. split; [exact Lk|]. split; [apply key_schedule_bytes; assumption|].
  intros i Hi. unfold key_block_word, load_word. rewrite aligned_step by exact Al.
  destruct (area_lengths c cw L) as [L1 L2]. unfold bs_ctx_bytes in H. apply holds_app in H as [H _].
  assert (S : holds m (key + N.of_nat (i * word_bytes c)) (firstn (word_bytes c) (skipn (i * word_bytes c) (block_area c cw)))).
  { apply holds_sub; [exact H|]. rewrite L1. nia. }
  unfold block_area in S. rewrite (concat_words_sub _ _ _ _ 0%N) in S by (rewrite ?Lk; try lia; intros; apply repeat_length).
  apply load_bytes_ok'; [exact S|apply repeat_length].
Qed.
