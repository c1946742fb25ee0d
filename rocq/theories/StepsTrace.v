(** StepsTrace.v -- the accesses of a call are determined by addresses and lengths (C44). *)
From Verif Require Import Base Mem Tables ModelClassical ClassicalAlgo ModelBsWord ModelBsTranspose ModelBsStream ModelBsBlock ModelBsAlgo ApiSpec BsApiSpec
  BsKey BsAlgo BsFacts ModelSteps StepsFacts StepsSpec StepsMachine Steps StepsOrder TraceSpec.
Local Open Scope N_scope.
Notation accs := (list (N * bool)).

(* whatever is read, a run of [t] that does not fail makes the accesses [l], and its result satisfies [Q] *)
Fixpoint shape {A} (t : prog A) (l : accs) (Q : A -> Prop) : Prop :=
  match t with
  | Ret a => l = [] /\ Q a
  | Stop _ => True
  | Rd p k => match l with x :: l' => x = (p, false) /\ forall v, shape (k v) l' Q | [] => False end
  | Wr p v t => match l with x :: l' => x = (p, true) /\ shape t l' Q | [] => False end
  end.
Lemma shape_run {A} (t : prog A) : forall l Q m a m', shape t l Q -> run t m = Ok (a, m') -> accesses t m = l /\ Q a.
Proof.
  induction t as [x|p k IH|p v t IH|e]; intros l Q m a m' S R; cbn [shape run accesses] in *.
  - injection R as <- _. split; [symmetry|]; apply S.
  - destruct l as [|y l]; [contradiction|]. destruct S as [-> S]. unfold load in R. destruct (m p) as [v|]; [|discriminate R]. cbn [bind] in R.
    destruct (IH v l Q m a m' (S v) R) as [-> H]. auto.
  - destruct l as [|y l]; [contradiction|]. destruct S as [-> S]. unfold store in R. destruct (m p) as [w|]; [|discriminate R]. cbn [bind] in R.
    destruct (IH l Q _ a m' S R) as [-> H]. auto.
  - destruct e; discriminate R.
Qed.
Lemma shape_bind {A B} (t : prog A) (f : A -> prog B) : forall l1 l2 P Q,
  shape t l1 P -> (forall a, P a -> shape (f a) l2 Q) -> shape (pbind t f) (l1 ++ l2) Q.
Proof.
  induction t as [a|p k IH|p v t IH|e]; intros l1 l2 P Q S K; cbn [shape pbind] in *.
  - destruct S as [-> S]. apply K, S.
  - destruct l1 as [|y l]; [contradiction|]. destruct S as [-> S]. cbn [app]. split; [reflexivity|]. intros v. eapply IH; eauto.
  - destruct l1 as [|y l]; [contradiction|]. destruct S as [-> S]. cbn [app]. split; [reflexivity|]. eapply IH; eauto.
  - exact I.
Qed.
Lemma shape_mono {A} (t : prog A) : forall l (P Q : A -> Prop), shape t l P -> (forall a, P a -> Q a) -> shape t l Q.
Proof.
  induction t as [a|p k IH|p v t IH|e]; intros l P Q S K; cbn [shape] in *.
  - destruct S; auto.
  - destruct l; [contradiction|]. destruct S as [-> S]. split; [reflexivity|]. intros v. eapply IH; eauto.
  - destruct l; [contradiction|]. destruct S as [-> S]. split; [reflexivity|]. eapply IH; eauto.
  - exact I.
Qed.
Lemma shape_any {A} (t : prog A) l Q : shape t l Q -> shape t l any.
Proof. intros S. eapply shape_mono; [exact S|]. intros; exact I. Qed.
Lemma shape_seq {A B} (t : prog A) (f : A -> prog B) l1 l2 Q : shape t l1 any -> (forall a, shape (f a) l2 Q) -> shape (pbind t f) (l1 ++ l2) Q.
Proof. intros S K. eapply shape_bind; [exact S|]. intros; apply K. Qed.
Lemma shape_pure {A B} (r : res A) (f : A -> prog B) l Q : (forall a, r = Ok a -> shape (f a) l Q) -> shape (pbind (lift r) f) l Q.
Proof. intros K. destruct r; cbn; auto. Qed.
Lemma shape_lift {A} (r : res A) (Q : A -> Prop) : (forall a, r = Ok a -> Q a) -> shape (lift r) [] Q.
Proof. destruct r; cbn; auto. Qed.
Lemma shape_eq {A} (t : prog A) l l' Q : shape t l Q -> l = l' -> shape t l' Q. Proof. intros S <-. exact S. Qed.
Lemma shape_rd a : shape (rd a) [(a, false)] any. Proof. cbn. repeat split. Qed.
Lemma shape_wr a v : shape (wr a v) [(a, true)] any. Proof. cbn. repeat split. Qed.

Definition at_ (w : bool) (a : N) (n : nat) : accs := map (fun i => (a + N.of_nat i, w)) (seq 0 n).
Lemma at_length w a n : length (at_ w a n) = n. Proof. unfold at_. rewrite map_length, seq_length. reflexivity. Qed.
Lemma at_S w a n : at_ w a (S n) = (a, w) :: at_ w (a + 1) n.
Proof.
  unfold at_. cbn [seq map]. f_equal; [f_equal; lia|]. rewrite <- seq_shift, map_map. apply map_ext. intros i. f_equal. lia.
Qed.
Lemma shape_rd_bytes n : forall a, shape (rd_bytes a n) (at_ false a n) (fun l => length l = n).
Proof.
  induction n as [|n IH]; intros a; cbn [rd_bytes]; [split; reflexivity|]. rewrite at_S. cbn. split; [reflexivity|]. intros v.
  rewrite <- (app_nil_r (at_ false (a + 1) n)). eapply shape_bind; [apply IH|]. intros l L. cbn. split; congruence.
Qed.
Lemma shape_wr_bytes l : forall a, shape (wr_bytes a l) (at_ true a (length l)) any.
Proof.
  induction l as [|b l IH]; intros a; cbn [wr_bytes length]; [split; [reflexivity|exact I]|]. rewrite at_S. cbn. split; [reflexivity|]. apply IH.
Qed.
Lemma shape_for {St} n : forall i (b : nat -> St -> prog St) s (I : St -> Prop) f, I s ->
  (forall j s, (i <= j < i + n)%nat -> I s -> shape (b j s) (f j) I) -> shape (pfor n i b s) (flat_map f (seq i n)) I.
Proof.
  induction n as [|n IH]; intros i b s I f Hs H; cbn [pfor seq flat_map]; [split; [reflexivity|exact Hs]|].
  eapply shape_bind; [apply H; [lia|exact Hs]|]. intros s' Hs'. apply IH; [exact Hs'|]. intros j t Hj. apply H. lia.
Qed.
Fixpoint down (n : nat) : list nat := match n with O => [] | S n => n :: down n end.
Lemma down_length n : length (down n) = n. Proof. induction n; cbn; congruence. Qed.
Lemma shape_for_down {St} n : forall (b : nat -> St -> prog St) s (I : St -> Prop) f, I s ->
  (forall j s, (j < n)%nat -> I s -> shape (b j s) (f j) I) -> shape (pfor_down n b s) (flat_map f (down n)) I.
Proof.
  induction n as [|n IH]; intros b s I f Hs H; cbn [pfor_down down flat_map]; [split; [reflexivity|exact Hs]|].
  eapply shape_bind; [apply H; [lia|exact Hs]|]. intros s' Hs'. apply IH; [exact Hs'|]. intros j t Hj. apply H. lia.
Qed.
Lemma shape_while {St} n : forall fuel i cond (b : St -> prog St) s (I : nat -> St -> Prop) f, I i s ->
  (forall j s, (i <= j < i + n)%nat -> I j s -> cond s = true /\ shape (b s) (f j) (I (S j))) ->
  (forall s, I (i + n)%nat s -> cond s = false) -> shape (pwhile fuel cond b s) (flat_map f (seq i n)) (I (i + n)%nat).
Proof.
  induction n as [|n IH]; intros fuel i cond b s I f Hs H C.
  - rewrite Nat.add_0_r in *. destruct fuel; cbn [pwhile]; rewrite (C s Hs); split; [reflexivity|exact Hs|reflexivity|exact Hs].
  - destruct (H i s ltac:(lia) Hs) as [E S]. destruct fuel as [|fuel]; cbn [pwhile]; rewrite E; [exact Logic.I|]. cbn [seq flat_map].
    eapply shape_bind; [exact S|]. intros s' Hs'. replace (i + Datatypes.S n)%nat with (Datatypes.S i + n)%nat by lia.
    apply IH; [exact Hs'| |].
    + intros j t Hj. apply H. lia.
    + intros t. replace (Datatypes.S i + n)%nat with (i + Datatypes.S n)%nat by lia. apply C.
Qed.
Lemma flat_map_len {A B} (f : A -> list B) k l : (forall x, length (f x) = k) -> length (flat_map f l) = (length l * k)%nat.
Proof. intros H. induction l as [|x l IH]; cbn; [reflexivity|]. rewrite app_length, H, IH. reflexivity. Qed.

(** ** Classical calls *)
Lemma xor_64_shape be b a : shape (p_xor_64 be b a) (at_ false a 8 ++ at_ false b 8 ++ at_ true b 8) any.
Proof.
  unfold p_xor_64. apply shape_seq; [eapply shape_any, shape_rd_bytes|intros ia]. apply shape_seq; [eapply shape_any, shape_rd_bytes|intros ib].
  eapply shape_eq; [apply shape_wr_bytes|]. rewrite native_bytes_length. reflexivity.
Qed.
Definition rd_le (be : bool) (p : N) (n : nat) : accs := if be then rev (at_ false p n) else at_ false p n.
Lemma load_le32_shape be p : shape (p_load_le32 be p) (rd_le be p 4) any.
Proof.
  unfold p_load_le32, rd_le. destruct be.
  - cbn. repeat (split; [f_equal; try lia|intros]); repeat split; rewrite ?N.add_0_r; reflexivity.
  - rewrite <- (app_nil_r (at_ _ _ _)). apply shape_seq; [eapply shape_any, shape_rd_bytes|]. intros i. split; [reflexivity|exact I].
Qed.
Lemma load_le64_shape be p : shape (p_load_le64 be p) (rd_le be p 8) any.
Proof.
  unfold p_load_le64, rd_le. destruct be.
  - cbn. repeat (split; [f_equal; try lia|intros]); repeat split; rewrite ?N.add_0_r; reflexivity.
  - rewrite <- (app_nil_r (at_ _ _ _)). apply shape_seq; [eapply shape_any, shape_rd_bytes|]. intros i. split; [reflexivity|exact I].
Qed.
Lemma rd_le_length be p n : length (rd_le be p n) = n.
Proof. unfold rd_le. destruct be; rewrite ?rev_length; apply at_length. Qed.
Definition wr_le (be : bool) (p : N) : accs := if be then rev (at_ true p 8) else at_ true p 8.
Lemma wr_le_length be p : length (wr_le be p) = 8%nat.
Proof. unfold wr_le. destruct be; rewrite ?rev_length; apply at_length. Qed.
Lemma store_le64_shape be p w : shape (p_store_le64 be p w) (wr_le be p) any.
Proof.
  unfold p_store_le64, wr_le. destruct be.
  - cbn. repeat (split; [f_equal; try lia|intros]); repeat split; rewrite ?N.add_0_r; reflexivity.
  - eapply shape_eq; [apply shape_wr_bytes|]. rewrite native_bytes_length. reflexivity.
Qed.
Definition block_accs (enc : bool) (key p : N) : accs :=
  at_ false p 8 ++ flat_map (fun i => [(key + N.of_nat i, false)]) (if enc then seq 0 56 else down 56) ++ at_ true p 8.
Lemma block_decrypt_shape key p : shape (p_block_decrypt key p p) (block_accs false key p) any.
Proof.
  unfold p_block_decrypt, block_accs. eapply shape_bind; [apply shape_rd_bytes|]. intros W LW.
  eapply shape_bind; [apply (shape_for_down 56 _ W (fun W => length W = 8%nat)); [exact LW|]|].
  - intros j W' _ L. change [(key + N.of_nat j, false)] with ([(key + N.of_nat j, false)] ++ []).
    apply shape_seq; [apply shape_rd|intros k]. apply shape_lift. intros W2 E. rewrite (decrypt_round_len _ _ _ E). exact L.
  - intros W' L. rewrite <- L. apply shape_wr_bytes.
Qed.
Lemma block_encrypt_shape key p : shape (p_block_encrypt key p p) (block_accs true key p) any.
Proof.
  unfold p_block_encrypt, block_accs. eapply shape_bind; [apply shape_rd_bytes|]. intros W LW.
  eapply shape_bind; [apply (shape_for 56 0 _ W (fun W => length W = 8%nat)); [exact LW|]|].
  - intros j W' _ L. change [(key + N.of_nat j, false)] with ([(key + N.of_nat j, false)] ++ []).
    apply shape_seq; [apply shape_rd|intros k]. apply shape_lift. intros W2 E. rewrite (encrypt_round_len _ _ _ E). exact L.
  - intros W' L. rewrite <- L. apply shape_wr_bytes.
Qed.
Lemma block_accs_length enc key p : length (block_accs enc key p) = 72%nat.
Proof.
  unfold block_accs. rewrite !app_length, !at_length, (flat_map_len _ 1) by reflexivity.
  destruct enc; rewrite ?seq_length, ?down_length; reflexivity.
Qed.
Definition schedule_accs (be : bool) (cw kk : N) : accs :=
  rd_le be cw 8 ++ flat_map (fun i => flat_map (fun j => [(kk + N.of_nat (i * 8 + j), true)]) (seq 0 8)) (seq 0 7).
Lemma key_schedule_shape be cw kk : shape (p_key_schedule_block be cw kk) (schedule_accs be cw kk) any.
Proof.
  unfold p_key_schedule_block, schedule_accs. apply shape_seq; [apply load_le64_shape|intros a]. apply shape_pure. intros k _.
  apply shape_for; [exact I|]. intros i [] _ _. apply shape_for; [exact I|]. intros j [] _ _.
  apply shape_pure. intros b _. apply shape_wr.
Qed.
Definition key_set_accs (be : bool) (cw key : N) : accs :=
  rd_le be cw 8 ++ wr_le be key ++ wr_le be (key + 8) ++ schedule_accs be cw (key + 16).
Lemma key_set_shape be cw key : shape (p_key_set be cw key) (key_set_accs be cw key) any.
Proof.
  unfold p_key_set, key_set_accs. apply shape_seq; [apply load_le64_shape|intros a].
  apply shape_seq; [apply store_le64_shape|intros]. apply shape_seq; [apply store_le64_shape|intros]. apply key_schedule_shape.
Qed.
Lemma schedule_accs_length be cw kk : length (schedule_accs be cw kk) = 64%nat.
Proof.
  unfold schedule_accs. rewrite app_length, rd_le_length, (flat_map_len _ 8), seq_length; [reflexivity|]. intros i.
  rewrite (flat_map_len _ 1), seq_length; reflexivity.
Qed.
Lemma key_set_accs_length be cw key : length (key_set_accs be cw key) = 88%nat.
Proof. unfold key_set_accs. rewrite !app_length, rd_le_length, !wr_le_length, schedule_accs_length. reflexivity. Qed.

Lemma out_round_shape p mask s : shape (p_out_round p mask s) [(p, false); (p, true)] any.
Proof.
  unfold p_out_round. apply shape_pure. intros s' _. apply shape_pure. intros o _.
  change [(p, false); (p, true)] with ([(p, false)] ++ [(p, true)] ++ []). apply shape_seq; [apply shape_rd|intros d].
  apply shape_seq; [apply shape_wr|intros]. split; [reflexivity|exact I].
Qed.
Definition stream_accs (be : bool) (cw iv data : N) (len : nat) : accs :=
  rd_le be cw 4 ++ rd_le be (cw + 4) 4 ++ flat_map (fun i => [(iv + N.of_nat i, false)]) (seq 0 8) ++
  flat_map (fun i => let p := data + N.of_nat i in let r := [(p, false); (p, true)] in r ++ r ++ r ++ r) (seq 0 len) ++ [].
Lemma stream_xor_shape be cw iv data len : len < 2 ^ 32 -> shape (p_stream_xor be cw iv data len) (stream_accs be cw iv data (N.to_nat len)) any.
Proof.
  intros B. unfold p_stream_xor, stream_accs. apply shape_seq; [apply load_le32_shape|intros a]. apply shape_seq; [apply load_le32_shape|intros b].
  apply shape_seq.
  { apply shape_for; [exact I|]. intros j s _ _. change [(iv + N.of_nat j, false)] with ([(iv + N.of_nat j, false)] ++ []).
    apply shape_seq; [apply shape_rd|intros x]. repeat (apply shape_pure; intros). apply shape_lift. intros; exact I. }
  intros s. apply shape_seq; [|intros; split; [reflexivity|exact I]].
  eapply shape_any. apply (shape_while (N.to_nat len) _ 0 _ _ _ (fun j x => fst x = N.of_nat j)); [reflexivity| |].
  - intros j [i s'] Hj E. cbn [fst] in E. subst i. split; [apply N.ltb_lt; lia|].
    rewrite <- (app_nil_r ([(data + N.of_nat j, false); (data + N.of_nat j, true)] ++ _)). rewrite <- !app_assoc.
    repeat (apply shape_seq; [apply out_round_shape|intros]). cbn. split; [reflexivity|]. unfold u32. rewrite N.mod_small; lia.
  - intros [i s'] E. cbn [fst] in E. subst i. apply N.ltb_ge. lia.
Qed.
Lemma stream_accs_length be cw iv data n : length (stream_accs be cw iv data n) = (16 + 8 * n)%nat.
Proof.
  unfold stream_accs. rewrite !app_length, !rd_le_length, (flat_map_len _ 1) by reflexivity.
  rewrite (flat_map_len _ 8) by reflexivity. rewrite !seq_length. cbn [length]. lia.
Qed.

(* the accesses for one block after the first *)
Definition xor_accs (b a : N) : accs := at_ false a 8 ++ at_ false b 8 ++ at_ true b 8.
Lemma decrypt_shape be key data len : len < 2 ^ 32 -> exists l, shape (p_decrypt be key data len) l any /\
  length l = N.to_nat (if len <? 8 then 0 else 8 * len + 96 * (len / 8) - 72).
Proof.
  intros B. unfold p_decrypt. rewrite alen_ok by exact B. destruct (N.ltb_spec len 8) as [L|L]; [exists []; split; [split; [reflexivity|exact I]|reflexivity]|].
  set (q := N.to_nat (len / 8 - 1)).
  exists (stream_accs be (key + 8) data (data + 8) (N.to_nat (len - 8)) ++ block_accs false (key + 16) data ++
    flat_map (fun j => xor_accs (data + 8 * N.of_nat j - 8) (data + 8 * N.of_nat j) ++ block_accs false (key + 16) (data + 8 * N.of_nat j) ++ []) (seq 1 q) ++ []).
  split.
  - apply shape_seq; [apply stream_xor_shape; lia|intros]. apply shape_seq; [apply block_decrypt_shape|intros].
    apply shape_seq; [|intros; split; [reflexivity|exact I]]. eapply shape_any.
    apply (shape_while q _ 1 _ _ _ (fun j i => i = 8 * N.of_nat j)); [reflexivity| |].
    + intros j i Hj ->. split; [apply N.ltb_lt; subst q; lia|]. apply shape_seq; [apply xor_64_shape|intros].
      apply shape_seq; [apply block_decrypt_shape|intros]. split; [reflexivity|]. unfold u32. rewrite N.mod_small; subst q; lia.
    + intros i ->. apply N.ltb_ge. subst q. lia.
  - rewrite !app_length, stream_accs_length, block_accs_length, (flat_map_len _ 96), seq_length.
    2:{ intros x. unfold xor_accs. rewrite !app_length, !at_length, block_accs_length. reflexivity. }
    cbn [length]. subst q. lia.
Qed.
Lemma encrypt_shape be key data len : len < 2 ^ 31 + 16 -> exists l, shape (p_encrypt be key data len) l any /\
  length l = N.to_nat (if len <? 8 then 0 else 8 * len + 96 * (len / 8) - 72).
Proof.
  intros B. unfold p_encrypt. assert (B' : len < 2 ^ 32) by (change (2 ^ 32) with 4294967296; change (2 ^ 31) with 2147483648 in B; lia).
  rewrite alen_ok by exact B'. destruct (N.ltb_spec len 8) as [L|L]; [exists []; split; [split; [reflexivity|exact I]|reflexivity]|].
  set (q := N.to_nat (len / 8 - 1)).
  exists (block_accs true (key + 16) (data + 8 * (len / 8) - 8) ++
    flat_map (fun j => let i := (8 * (Z.of_nat q - 1 - Z.of_nat j))%Z in xor_accs (padd data i) (padd data (i + 8)) ++ block_accs true (key + 16) (padd data i) ++ []) (seq 0 q) ++
    stream_accs be (key + 8) data (data + 8) (N.to_nat (len - 8))).
  split.
  - apply shape_seq; [apply block_encrypt_shape|intros]. apply shape_seq; [|intros; apply stream_xor_shape; lia]. eapply shape_any.
    apply (shape_while q _ 0 _ _ _ (fun j i => i = (8 * (Z.of_nat q - 1 - Z.of_nat j))%Z)).
    + unfold to_int, u32. change (2 ^ 31) with 2147483648 in *. change (2 ^ 32) with 4294967296 in *. change (2 ^ 32)%Z with 4294967296%Z.
      destruct (N.lt_ge_cases (len / 8) 2) as [C|C].
      * assert (len / 8 = 1) as -> by lia. subst q. assert (len / 8 = 1) as -> by lia. reflexivity.
      * replace ((8 * (len / 8) + 4294967296 - 16) mod 4294967296) with (8 * (len / 8) - 16).
        2:{ replace (8 * (len / 8) + 4294967296 - 16) with (8 * (len / 8) - 16 + 1 * 4294967296) by lia. rewrite N.mod_add by discriminate. rewrite N.mod_small; lia. }
        destruct (N.ltb_spec (8 * (len / 8) - 16) 2147483648); subst q; lia.
    + intros j i Hj ->. split; [apply Z.leb_le; lia|]. cbv zeta. apply shape_seq; [apply xor_64_shape|intros].
      apply shape_seq; [apply block_encrypt_shape|intros]. apply shape_lift. intros z E. apply int_ok_inv in E as ->. lia.
    + intros i ->. apply Z.leb_gt. lia.
  - rewrite !app_length, stream_accs_length, block_accs_length, (flat_map_len _ 96), seq_length.
    2:{ intros x. cbv zeta. unfold xor_accs. rewrite !app_length, !at_length, block_accs_length. reflexivity. }
    subst q. lia.
Qed.

(** ** Bitslice calls *)
Definition word_accs (w : bool) (c : build) (key : N) (i : nat) : accs := at_ w (key + N.of_nat (i * word_bytes c)) (word_bytes c).
Lemma rd_word_shape c key i : shape (rd_word c (key + N.of_nat (i * word_bytes c))) (word_accs false c key i) any.
Proof. unfold rd_word. destruct (word_aligned _ _); [|exact I]. eapply shape_any, shape_rd_bytes. Qed.
Lemma wr_word_shape c key i w : length w = word_bytes c -> shape (wr_word c (key + N.of_nat (i * word_bytes c)) w) (word_accs true c key i) any.
Proof. intros L. unfold wr_word, word_accs. destruct (word_aligned _ _); [|exact I]. rewrite <- L at 3. apply shape_wr_bytes. Qed.
Lemma word_accs_length w c key i : length (word_accs w c key i) = word_bytes c. Proof. apply at_length. Qed.

Definition bs_key_set_accs (c : build) (cw key : N) : accs :=
  rd_le (big_endian c) cw 8 ++ flat_map (fun i => word_accs true c key (56 + i)) (seq 0 64) ++
  rd_le (big_endian c) cw 8 ++ flat_map (fun i => word_accs true c key i) (seq 0 56).
Lemma bs_key_set_shape c cw key : shape (p_bs_key_set c cw key) (bs_key_set_accs c cw key) any.
Proof.
  unfold p_bs_key_set, bs_key_set_accs. apply shape_seq; [apply load_le64_shape|intros ck]. apply shape_seq.
  { apply shape_for; [exact I|]. intros i [] _ _. apply wr_word_shape. destruct (N.testbit _ _); apply val8_len. }
  intros _. apply shape_seq; [apply load_le64_shape|intros a]. apply shape_pure. intros k _. apply shape_pure. intros kk _.
  apply shape_for; [exact I|]. intros i [] _ _. apply shape_pure. intros b _. apply shape_pure. intros w E.
  apply wr_word_shape, (block_key_word_len _ _ _ E).
Qed.
Lemma bs_key_set_accs_length c cw key : length (bs_key_set_accs c cw key) = (16 + 120 * word_bytes c)%nat.
Proof.
  unfold bs_key_set_accs. rewrite !app_length, rd_le_length, !(flat_map_len _ (word_bytes c)), !seq_length by (intros; apply word_accs_length). lia.
Qed.

Definition load_regs_accs (f : nat -> accs) : accs :=
  flat_map (fun b => flat_map (fun i => f (b + i * 4)%nat ++ f (b + i * 4 + 32)%nat ++ []) (seq 0 8) ++ []) (seq 0 4) ++ [].
Lemma load_regs_shape {T} (o : bsops T) k f s : (forall i, shape (k i) (f i) any) -> shape (p_stream_load_regs o k s) (load_regs_accs f) any.
Proof.
  intros H. unfold p_stream_load_regs, load_regs_accs.
  apply shape_seq; [|intros [[[A B] [[X Y] Z]] [[D E] F]]; split; [reflexivity|exact I]].
  apply (shape_for 4 0 _ _ any); [exact I|]. intros b [[[A B] [[X Y] Z]] [[D E] F]] _ _.
  apply shape_seq.
  - apply (shape_for 8 0 _ _ any); [exact I|]. intros i [A' B'] _ _. apply shape_seq; [apply H|intros x]. apply shape_pure. intros A2 _.
    apply shape_seq; [apply H|intros y]. apply shape_pure. intros B2 _. split; [reflexivity|exact I].
  - intros [A' B']. apply shape_lift. intros; exact I.
Qed.
Lemma stream_batch_shape c s0 key pb maxlen :
  shape (p_stream_cipher_batch c s0 key pb maxlen) (load_regs_accs (fun i => word_accs false c key (56 + i)) ++ []) any.
Proof.
  unfold p_stream_cipher_batch. apply shape_pure. intros sb _. apply shape_seq.
  - apply load_regs_shape. intros i. unfold p_key_stream_word. apply rd_word_shape.
  - intros s. apply shape_pure. intros s' _. apply shape_lift. intros; exact I.
Qed.
Lemma load_regs_accs_length f w : (forall i, length (f i) = w) -> length (load_regs_accs f) = (64 * w)%nat.
Proof.
  intros H. unfold load_regs_accs. rewrite app_length, (flat_map_len _ (8 * (2 * w))), seq_length; [cbn [length]; lia|]. intros b.
  rewrite app_length, (flat_map_len _ (2 * w)), seq_length; [cbn [length]; lia|]. intros i. rewrite !app_length, !H. cbn [length]. lia.
Qed.
Definition key_xor_accs (f : nat -> accs) (i : nat) : accs := flat_map (fun _ => f i) (seq 0 8).
Lemma key_xor_shape c k f i r base s1 : (forall i, shape (k i) (f i) any) -> shape (p_key_xor c k i r base s1) (key_xor_accs f i) any.
Proof.
  intros H. unfold p_key_xor, key_xor_accs. apply shape_for; [exact I|]. intros g s _ _. rewrite <- (app_nil_r (f i)).
  apply shape_seq; [apply H|intros kw]. apply shape_lift. intros; exact I.
Qed.
Definition block_word_accs (c : build) (key : N) : nat -> accs := word_accs false c key.
Lemma decrypt_register_shape c k f r s1 s2 : (forall i, shape (k i) (f i) any) ->
  shape (p_decrypt_register c k r s1 s2) (flat_map (fun i => key_xor_accs f i ++ []) (down 56) ++ []) any.
Proof.
  intros H. unfold p_decrypt_register. apply shape_seq; [|intros [[[p r'] x] y]; split; [reflexivity|exact I]].
  apply (shape_for_down 56 _ _ any); [exact I|]. intros i [[[p r'] x] y] _ _. apply shape_pure. intros p' _.
  apply shape_seq; [apply key_xor_shape, H|intros s]. apply shape_lift. intros; exact I.
Qed.
Lemma encrypt_register_shape c k f r s1 s2 : (forall i, shape (k i) (f i) any) ->
  shape (p_encrypt_register c k r s1 s2) (flat_map (fun i => key_xor_accs f i ++ []) (seq 0 56) ++ []) any.
Proof.
  intros H. unfold p_encrypt_register. apply shape_seq; [|intros [[[p r'] x] y]; split; [reflexivity|exact I]].
  apply (shape_for 56 0 _ _ any); [exact I|]. intros i [[[p r'] x] y] _ _. cbv zeta.
  apply shape_seq; [apply key_xor_shape, H|intros s]. apply shape_lift. intros; exact I.
Qed.
Definition register_accs (enc : bool) (c : build) (key : N) : accs :=
  (flat_map (fun i => key_xor_accs (word_accs false c key) i ++ []) (if enc then seq 0 56 else down 56) ++ []) ++ [].
Lemma decrypt_block_shape c bj key pb off : shape (p_decrypt_block c bj key pb off) (register_accs false c key) any.
Proof.
  unfold p_decrypt_block, register_accs. apply shape_pure. intros r _. apply shape_seq.
  - apply decrypt_register_shape. intros i. apply rd_word_shape.
  - intros r'. apply shape_lift. intros; exact I.
Qed.
Lemma encrypt_block_shape c bj key pb off : shape (p_encrypt_block c bj key pb off) (register_accs true c key) any.
Proof.
  unfold p_encrypt_block, register_accs. apply shape_pure. intros r _. apply shape_seq.
  - apply encrypt_register_shape. intros i. apply rd_word_shape.
  - intros r'. apply shape_lift. intros; exact I.
Qed.
Lemma register_accs_length enc c key : length (register_accs enc c key) = (448 * word_bytes c)%nat.
Proof.
  unfold register_accs. rewrite !app_length, (flat_map_len _ (8 * word_bytes c)).
  - destruct enc; rewrite ?seq_length, ?down_length; cbn [length]; lia.
  - intros i. unfold key_xor_accs. rewrite app_length, (flat_map_len _ (word_bytes c)), seq_length by (intros; apply word_accs_length). cbn [length]. lia.
Qed.
Definition blocks_accs (enc : bool) (c : build) (key : N) (k : nat) : accs := flat_map (fun _ => register_accs enc c key ++ []) (seq 0 k) ++ [].
Lemma blocks_accs_length enc c key k : length (blocks_accs enc c key k) = (k * (448 * word_bytes c))%nat.
Proof.
  unfold blocks_accs. rewrite app_length, (flat_map_len _ (448 * word_bytes c)), seq_length; [cbn [length]; lia|].
  intros _. rewrite app_length, register_accs_length. cbn [length]. lia.
Qed.
Lemma decrypt_batch_shape c bj key pb k : N.of_nat k < 2 ^ 24 -> shape (p_block_decrypt_batch c bj key pb (N.of_nat (8 * k))) (blocks_accs false c key k) any.
Proof.
  intros B. unfold p_block_decrypt_batch, blocks_accs. apply shape_seq; [|intros [i pb']; split; [reflexivity|exact I]].
  eapply shape_any. apply (shape_while k _ 0 _ _ _ (fun j x => fst x = 8 * N.of_nat j)); [reflexivity| |].
  - intros j [i pb'] Hj E. cbn [fst] in E. subst i. split; [apply N.ltb_lt; lia|]. apply shape_seq; [apply decrypt_block_shape|intros pb2].
    split; [reflexivity|]. cbn [fst]. unfold u32. change (2 ^ 24) with 16777216 in B. change (2 ^ 32) with 4294967296. rewrite N.mod_small; lia.
  - intros [i pb'] E. cbn [fst] in E. subst i. apply N.ltb_ge. lia.
Qed.
Lemma encrypt_batch_shape c bj key pb k : N.of_nat k < 2 ^ 24 -> shape (p_block_encrypt_batch c bj key pb (N.of_nat (8 * k))) (blocks_accs true c key k) any.
Proof.
  intros B. unfold p_block_encrypt_batch, blocks_accs. apply shape_seq; [|intros [i pb']; split; [reflexivity|exact I]].
  change (2 ^ 24) with 16777216 in B.
  eapply shape_any. apply (shape_while k _ 0 _ _ _ (fun j x => fst x = (8 * (Z.of_nat k - 1 - Z.of_nat j))%Z)).
  - cbn [fst]. unfold to_int, u32. change (2 ^ 31) with 2147483648 in *. change (2 ^ 32) with 4294967296 in *. change (2 ^ 32)%Z with 4294967296%Z.
    destruct k as [|k]; [reflexivity|].
    replace ((N.of_nat (8 * S k) + 4294967296 - 8) mod 4294967296) with (N.of_nat (8 * k)).
    2:{ replace (N.of_nat (8 * S k) + 4294967296 - 8) with (N.of_nat (8 * k) + 1 * 4294967296) by lia. rewrite N.mod_add by discriminate. rewrite N.mod_small; lia. }
    destruct (N.ltb_spec (N.of_nat (8 * k)) 2147483648); lia.
  - intros j [i pb'] Hj E. cbn [fst] in E. subst i. split; [apply Z.leb_le; lia|]. apply shape_seq; [apply encrypt_block_shape|intros pb2].
    apply shape_pure. intros z E. apply int_ok_inv in E as ->. split; [reflexivity|]. cbn [fst]. lia.
  - intros [i pb'] E. cbn [fst] in E. subst i. apply Z.leb_gt. lia.
Qed.

(** ** The batch array *)
Lemma accesses_bind {A B} (t : prog A) (f : A -> prog B) : forall m a m1, run t m = Ok (a, m1) ->
  accesses (pbind t f) m = accesses t m ++ accesses (f a) m1.
Proof.
  induction t as [x|p k IH|p v t IH|e]; intros m a m1 E; cbn [run pbind accesses] in *.
  - injection E as <- <-. reflexivity.
  - unfold load in E. destruct (m p) as [v|]; [|discriminate E]. cbn [app]. f_equal. apply (IH v m a m1 E).
  - unfold store in E. destruct (m p) as [w|]; [|discriminate E]. cbn [app]. f_equal. apply (IH _ a m1 E).
  - destruct e; discriminate E.
Qed.
Lemma accesses_reads {A B} (t : prog A) (f : A -> prog B) l Q m r b : shape t l Q -> reads t m r -> run (pbind t f) m = Ok b ->
  exists a, r = Ok a /\ Q a /\ accesses (pbind t f) m = l ++ accesses (f a) m /\ run (f a) m = Ok b.
Proof.
  intros S R E. destruct (run_reads_ok _ _ _ _ _ R E) as (a & -> & E2). exists a. unfold reads in R. cbn in R.
  destruct (shape_run t l Q m a m S R) as [L H]. rewrite (accesses_bind t f m a m R), L. auto.
Qed.
Lemma batch_data_shape c pcks i : shape (p_batch_data c pcks i) (at_ false (pcks + N.of_nat (i * entry_bytes c)) (ptr_bytes c) ++ []) any.
Proof. unfold p_batch_data. apply shape_seq; [eapply shape_any, shape_rd_bytes|]. intros b. split; [reflexivity|exact I]. Qed.
Lemma batch_len_shape c pcks i : shape (p_batch_len c pcks i) (at_ false (pcks + N.of_nat (i * entry_bytes c + ptr_bytes c)) 4 ++ []) any.
Proof. unfold p_batch_len. apply shape_seq; [eapply shape_any, shape_rd_bytes|]. intros b. split; [reflexivity|exact I]. Qed.
Notation data_accs c pcks i := (at_ false (pcks + N.of_nat (i * entry_bytes c)) (ptr_bytes c) ++ []).
Notation len_accs c pcks i := (at_ false (pcks + N.of_nat (i * entry_bytes c + ptr_bytes c)) 4 ++ []).
Fixpoint load_accs (c : build) (pcks : N) (i : nat) (es : list (N * nat)) : accs :=
  match es with
  | [] => data_accs c pcks i
  | (p, n) :: r => data_accs c pcks i ++ len_accs c pcks i ++ len_accs c pcks i ++ at_ false p n ++ load_accs c pcks (S i) r
  end.
Fixpoint store_accs (c : build) (pcks : N) (i : nat) (es : list (N * nat)) : accs :=
  match es with
  | [] => data_accs c pcks i
  | (p, n) :: r => data_accs c pcks i ++ len_accs c pcks i ++ at_ true p n ++ store_accs c pcks (S i) r
  end.
Lemma skipn_nth {A} (l : list A) : forall i x, nth_error l i = Some x -> skipn i l = x :: skipn (S i) l.
Proof. induction l as [|a l IH]; intros [|i] x E; try discriminate E; [cbn in E; injection E as ->; reflexivity|]. cbn [skipn]. apply IH, E. Qed.

Section Array.
  Context (c : build) (m : mem) (pcks : N) (ps : packets) (B : batch_array c m pcks ps).
  Notation arr := (N.of_nat (length ps * entry_bytes c + ptr_bytes c)).
  Lemma load_accesses fuel : forall i l8 d pb, (i <= length ps)%nat ->
    run (p_pkt_buf_load_from fuel c pcks i l8 d) m = Ok (pb, m) ->
    accesses (p_pkt_buf_load_from fuel c pcks i l8 d) m = load_accs c pcks i (extents (skipn i ps)).
  Proof.
    assert (S : same_inside pcks arr m m) by (intros x _; reflexivity).
    induction fuel as [|fuel IH]; intros i l8 d pb Hi R; cbn [p_pkt_buf_load_from] in *; [discriminate R|].
    destruct (accesses_reads _ _ _ _ _ _ _ (batch_data_shape c pcks i) (batch_data_steps c pcks i m) R) as (p & Ep & _ & -> & R1). clear R.
    destruct (Nat.eq_dec i (length ps)) as [->|Ni].
    - rewrite (end_data _ _ _ _ B m S) in Ep. injection Ep as <-. cbn. rewrite skipn_all. cbn. rewrite !app_nil_r. reflexivity.
    - destruct (nth_error ps i) as [[q buf]|] eqn:Ei; [|apply nth_error_None in Ei; lia].
      destruct (entry_data _ _ _ _ B i q buf m Ei S) as (D1 & D2 & D3). rewrite D1 in Ep. injection Ep as <-.
      destruct (N.eqb_spec q 0); [lia|].
      destruct (accesses_reads _ _ _ _ _ _ _ (batch_len_shape c pcks i) (batch_len_steps c pcks i m) R1) as (n1 & E1 & _ & -> & R2). clear R1.
      destruct (run_reads_ok _ _ _ _ _ (reads_lift _ _) R2) as (l8' & E2 & R3). rewrite E2 in *. cbn [lift pbind] in *. clear R2.
      destruct (accesses_reads _ _ _ _ _ _ _ (batch_len_shape c pcks i) (batch_len_steps c pcks i m) R3) as (n2 & E3 & _ & -> & R4). clear R3.
      rewrite D2 in E3. injection E3 as <-.
      destruct (accesses_reads _ _ _ _ _ _ _ (shape_rd_bytes _ _) (reads_bytes _ _ m) R4) as (bs & E4 & _ & -> & R5). clear R4.
      destruct (run_reads_ok _ _ _ _ _ (reads_lift _ _) R5) as (d' & E5 & R6). rewrite E5 in *. cbn [lift pbind] in *. clear R5.
      rewrite (skipn_nth _ _ _ Ei). cbn [extents map load_accs fst snd]. rewrite Nat2N.id.
      rewrite (IH (Datatypes.S i) l8' d' pb ltac:(lia) R6). reflexivity.
  Qed.
  Lemma store_accesses fuel : forall i d m1 mf, (i <= length ps)%nat -> same_inside pcks arr m m1 ->
    run (p_pkt_buf_store_from fuel c pcks i d) m1 = Ok (tt, mf) ->
    accesses (p_pkt_buf_store_from fuel c pcks i d) m1 = store_accs c pcks i (extents (skipn i ps)).
  Proof.
    induction fuel as [|fuel IH]; intros i d m1 mf Hi S R; cbn [p_pkt_buf_store_from] in *; [discriminate R|].
    destruct (accesses_reads _ _ _ _ _ _ _ (batch_data_shape c pcks i) (batch_data_steps c pcks i m1) R) as (p & Ep & _ & -> & R1). clear R.
    destruct (Nat.eq_dec i (length ps)) as [->|Ni].
    - rewrite (end_data _ _ _ _ B m1 S) in Ep. injection Ep as <-. cbn. rewrite skipn_all. cbn. rewrite !app_nil_r. reflexivity.
    - destruct (nth_error ps i) as [[q buf]|] eqn:Ei; [|apply nth_error_None in Ei; lia].
      destruct (entry_data _ _ _ _ B i q buf m1 Ei S) as (D1 & D2 & D3). rewrite D1 in Ep. injection Ep as <-.
      destruct (N.eqb_spec q 0); [lia|].
      destruct (accesses_reads _ _ _ _ _ _ _ (batch_len_shape c pcks i) (batch_len_steps c pcks i m1) R1) as (n1 & E1 & _ & -> & R2). clear R1.
      rewrite D2 in E1. injection E1 as <-.
      destruct (run_reads_ok _ _ _ _ _ (reads_lift _ _) R2) as (bs & Eb & R3). rewrite Eb in *. cbn [lift pbind] in *. clear R2.
      rewrite Nat2N.id in Eb. unfold bget in Eb. destruct (Nat.leb_spec (i * slot + length buf) (length d)) as [Hd|]; [|discriminate Eb].
      injection Eb as Eb. assert (Lb : length bs = length buf) by (rewrite <- Eb, firstn_length, skipn_length; lia).
      rewrite run_bind in R3. pose proof (acts_bytes bs q m1) as Ab. rewrite Ab in R3.
      destruct (store_bytes m1 q bs) as [m2| | |] eqn:E2; try discriminate R3. cbn [bind] in R3.
      assert (Rb : run (wr_bytes q bs) m1 = Ok (tt, m2)) by (rewrite Ab; reflexivity).
      rewrite (accesses_bind _ _ m1 tt m2 Rb). rewrite (proj1 (shape_run _ _ _ _ _ _ (shape_wr_bytes bs q) Rb)).
      rewrite (skipn_nth _ _ _ Ei). cbn [extents map store_accs fst snd]. rewrite Lb.
      rewrite (IH (Datatypes.S i) d m2 mf); [reflexivity|lia| |exact R3].
      assert (Mp : mapped m1 q (N.of_nat (length bs))).
      { clear -E2. revert q m1 E2. induction bs as [|b bs IH]; intros q m1 E x Hx; cbn [length] in *; [lia|]. cbn [store_bytes] in E.
        unfold store in E. destruct (m1 q) as [w|] eqn:Eq; [|discriminate E]. cbn [bind] in E.
        destruct (N.eq_dec x q) as [->|Nx]; [eauto|]. destruct (IH _ _ E x ltac:(lia)) as [y Ey].
        cbn beta in Ey. destruct (N.eqb_spec x q); [contradiction|eauto]. }
      pose proof (store_bytes_ok bs m1 q Mp) as P. rewrite E2 in P. cbn in P.
      destruct (ba_entry _ _ _ _ B i q buf Ei) as (_ & _ & _ & _ & _ & Dj).
      intros x Hx. rewrite <- (S x Hx), P. apply put_out. intros Hq. rewrite Lb in Hq. exact (Dj x (conj Hq Hx)).
  Qed.
End Array.
Lemma load_accs_length c pcks es : forall i, length (load_accs c pcks i es) = (length es * (ptr_bytes c + 8) + ptr_bytes c + total_length es)%nat.
Proof.
  induction es as [|[p n] es IH]; intros i; cbn [load_accs length total_length fold_right snd]; rewrite !app_length, !at_length; cbn [length]; [lia|].
  rewrite IH. unfold total_length. lia.
Qed.
Lemma store_accs_length c pcks es : forall i, length (store_accs c pcks i es) = (length es * (ptr_bytes c + 4) + ptr_bytes c + total_length es)%nat.
Proof.
  induction es as [|[p n] es IH]; intros i; cbn [store_accs length total_length fold_right snd]; rewrite !app_length, !at_length; cbn [length]; [lia|].
  rewrite IH. unfold total_length. lia.
Qed.

Definition bs_accs (enc : bool) (c : build) (key pcks : N) (k : nat) (es : list (N * nat)) : accs :=
  load_accs c pcks 0 es ++
  (let st := load_regs_accs (fun i => word_accs false c key (56 + i)) ++ [] in let bl := blocks_accs enc c key k in
   if enc then bl ++ st else st ++ bl) ++ store_accs c pcks 0 es.
Lemma bs_accs_length enc c key pcks k es : length (bs_accs enc c key pcks k es) =
  (2 * ptr_bytes c + length es * (2 * ptr_bytes c + 12) + 2 * total_length es + word_bytes c * (64 + 448 * k))%nat.
Proof.
  unfold bs_accs. rewrite !app_length, load_accs_length, store_accs_length. cbv zeta.
  assert (E : length (load_regs_accs (fun i => word_accs false c key (56 + i))) = (64 * word_bytes c)%nat)
    by (apply load_regs_accs_length; intros; apply word_accs_length).
  destruct enc; rewrite !app_length, E, blocks_accs_length; cbn [length]; lia.
Qed.
Theorem bs_accesses (enc : bool) c jk key pcks k m ps m' : batch_array c m pcks ps -> N.of_nat k < 2 ^ 24 ->
  run ((if enc then p_bs_encrypt else p_bs_decrypt) c jk key pcks (N.of_nat (8 * k))) m = Ok (tt, m') ->
  accesses ((if enc then p_bs_encrypt else p_bs_decrypt) c jk key pcks (N.of_nat (8 * k))) m = bs_accs enc c key pcks k (extents ps).
Proof.
  intros B Hk R. unfold bs_accs. cbv zeta.
  assert (Ld : forall (f : pkt_buf -> prog unit) pb, run (pbind (p_pkt_buf_load c pcks pb) f) m = Ok (tt, m') ->
    exists pb', accesses (pbind (p_pkt_buf_load c pcks pb) f) m = load_accs c pcks 0 (extents ps) ++ accesses (f pb') m /\ run (f pb') m = Ok (tt, m')).
  { intros f pb E. pose proof (pkt_buf_load_steps c pcks pb m) as Q. destruct (run_reads_ok _ _ _ _ _ Q E) as (pb' & E1 & E2).
    exists pb'. split; [|exact E2]. unfold reads in Q. rewrite E1 in Q. cbn [bind] in Q. rewrite (accesses_bind _ _ _ _ _ Q). f_equal.
    apply (load_accesses c m pcks ps B _ 0 _ _ pb'); [lia|exact Q]. }
  assert (St : forall pb, run (p_pkt_buf_store c pcks pb) m = Ok (tt, m') -> accesses (p_pkt_buf_store c pcks pb) m = store_accs c pcks 0 (extents ps)).
  { intros pb E. apply (store_accesses c m pcks ps B _ 0 _ m m'); [lia|intros x _; reflexivity|exact E]. }
  destruct enc; [unfold p_bs_encrypt in *|unfold p_bs_decrypt in *]; destruct (have_assert c && negb (maxlen_ok (N.of_nat (8 * k)))); try discriminate R.
  - apply Ld in R as (pb1 & -> & R).
    destruct (accesses_reads _ _ _ _ _ _ _ (encrypt_batch_shape c _ key pb1 k Hk) (block_encrypt_batch_steps _ _ _ _ _ _) R) as (pb2 & _ & _ & -> & R2).
    destruct (accesses_reads _ _ _ _ _ _ _ (stream_batch_shape c _ key pb2 _) (stream_batch_steps _ _ _ _ _ _) R2) as (pb3 & _ & _ & -> & R3).
    rewrite (St pb3 R3), <- !app_assoc. reflexivity.
  - apply Ld in R as (pb1 & -> & R).
    destruct (accesses_reads _ _ _ _ _ _ _ (stream_batch_shape c _ key pb1 _) (stream_batch_steps _ _ _ _ _ _) R) as (pb2 & _ & _ & -> & R2).
    destruct (accesses_reads _ _ _ _ _ _ _ (decrypt_batch_shape c _ key pb2 k Hk) (block_decrypt_batch_steps _ _ _ _ _ _) R2) as (pb3 & _ & _ & -> & R3).
    rewrite (St pb3 R3), <- !app_assoc. reflexivity.
Qed.
