(** Steps.v -- where the calls write, byte access by byte access, and threads of calls (C39, C40). *)
From Verif Require Import Base Mem Tables ModelClassical ClassicalAlgo ModelBsWord ModelBsTranspose ModelBsStream ModelBsBlock ModelBsAlgo ApiSpec BsApiSpec
  BsKey BsAlgo BsFacts BsMoreFacts ModelAlloc HistorySpec History ThreadSpec ModelSteps StepsFacts StepsSpec StepsMachine.
Local Open Scope N_scope.

Definition range (a n x : N) : Prop := a <= x < a + n.

(** ** Classical calls *)
Lemma aset_len {A} (l : list A) i v l' : aset l i v = Ok l' -> length l' = length l.
Proof. unfold aset. destruct (i <? length l)%nat; [|discriminate]. intros E. injection E as <-. apply upd_length. Qed.
Lemma bind_inv {A B} (r : res A) (f : A -> res B) b : bind r f = Ok b -> exists a, r = Ok a /\ f a = Ok b.
Proof. destruct r; cbn; try discriminate. eauto. Qed.
Ltac lens := repeat match goal with
  | H : bind ?r _ = Ok _ |- _ => let a := fresh "a" in let E := fresh "E" in apply bind_inv in H as (a & E & H)
  | H : aset _ _ _ = Ok _ |- _ => apply aset_len in H end.
Lemma decrypt_round_len k W W' : block_decrypt_round k W = Ok W' -> length W' = length W.
Proof. unfold block_decrypt_round. intros H. lens. congruence. Qed.
Lemma encrypt_round_len k W W' : block_encrypt_round k W = Ok W' -> length W' = length W.
Proof. unfold block_encrypt_round. intros H. lens. congruence. Qed.

Lemma only_len_bytes {F} a n : only F (rd_bytes a n) (fun l => length l = n). Proof. apply only_rd_bytes. Qed.
Lemma only_sub {A} (F G : N -> Prop) (t : prog A) Q : (forall a, F a -> G a) -> only F t Q -> only G t Q.
Proof. intros S. induction t as [a|p k IH|p v t IH|e]; cbn [only]; auto. intros [H1 H2]. split; auto. Qed.

Lemma xor_64_only be b a : only (range b 8) (p_xor_64 be b a) any.
Proof.
  unfold p_xor_64. apply only_seq; [eapply only_any, only_rd_bytes|intros]. apply only_seq; [eapply only_any, only_rd_bytes|intros].
  apply only_wr_bytes. intros x. rewrite native_bytes_length. exact (fun H => H).
Qed.
Lemma load_le32_only F be p : only F (p_load_le32 be p) any.
Proof. unfold p_load_le32. destruct be; repeat (apply only_seq; [first [apply only_rd|eapply only_any, only_rd_bytes]|intros]); exact I. Qed.
Lemma load_le64_only F be p : only F (p_load_le64 be p) any.
Proof. unfold p_load_le64. destruct be; repeat (apply only_seq; [first [apply only_rd|eapply only_any, only_rd_bytes]|intros]); exact I. Qed.
Lemma store_le64_only be p w : only (range p 8) (p_store_le64 be p w) any.
Proof.
  unfold p_store_le64. destruct be.
  - repeat (apply only_seq; [apply only_wr; unfold range; lia|intros]). apply only_wr. unfold range. lia.
  - apply only_wr_bytes. intros x. rewrite native_bytes_length. exact (fun H => H).
Qed.
Lemma block_decrypt_only key i o : only (range o 8) (p_block_decrypt key i o) any.
Proof.
  unfold p_block_decrypt. apply only_bind. eapply only_mono; [apply only_rd_bytes|]. intros W LW. cbn beta. apply only_bind.
  eapply only_mono; [apply (only_for_down _ 56 _ W (fun W => length W = 8%nat)); [exact LW|]|].
  - intros j W' _ L. apply only_seq; [apply only_rd|intros k]. apply only_lift_q. intros W2 E. rewrite (decrypt_round_len _ _ _ E). exact L.
  - intros W' L. apply only_wr_bytes. rewrite L. exact (fun x H => H).
Qed.
Lemma block_encrypt_only key i o : only (range o 8) (p_block_encrypt key i o) any.
Proof.
  unfold p_block_encrypt. apply only_bind. eapply only_mono; [apply only_rd_bytes|]. intros W LW. cbn beta. apply only_bind.
  eapply only_mono; [apply (only_for _ 56 0 _ W (fun W => length W = 8%nat)); [exact LW|]|].
  - intros j W' _ L. apply only_seq; [apply only_rd|intros k]. apply only_lift_q. intros W2 E. rewrite (encrypt_round_len _ _ _ E). exact L.
  - intros W' L. apply only_wr_bytes. rewrite L. exact (fun x H => H).
Qed.
Lemma key_schedule_only be cw kk : only (range kk 56) (p_key_schedule_block be cw kk) any.
Proof.
  unfold p_key_schedule_block. apply only_seq; [apply load_le64_only|intros a]. apply only_seq; [apply only_lift|intros k].
  apply only_for; [exact I|]. intros i [] Hi _. apply only_for; [exact I|]. intros j [] Hj _.
  apply only_seq; [apply only_lift|intros b]. apply only_wr. unfold range. lia.
Qed.
Lemma key_set_only be cw key : only (range key ctx_size) (p_key_set be cw key) any.
Proof.
  unfold p_key_set, ctx_size. apply only_seq; [apply load_le64_only|intros a].
  apply only_seq; [eapply only_sub; [|apply store_le64_only]; unfold range; intros; lia|intros].
  apply only_seq; [eapply only_sub; [|apply store_le64_only]; unfold range; intros; lia|intros].
  eapply only_sub; [|apply key_schedule_only]. unfold range. intros. lia.
Qed.
Lemma out_round_only (F : N -> Prop) p mask s : F p -> only F (p_out_round p mask s) any.
Proof.
  intros H. unfold p_out_round. apply only_seq; [apply only_lift|intros]. apply only_seq; [apply only_lift|intros].
  apply only_seq; [apply only_rd|intros]. apply only_seq; [apply only_wr, H|intros]. exact I.
Qed.
Lemma stream_xor_only be cw iv data len : only (range data len) (p_stream_xor be cw iv data len) any.
Proof.
  unfold p_stream_xor. apply only_seq; [apply load_le32_only|intros A]. apply only_seq; [apply load_le32_only|intros B].
  apply only_seq.
  { apply only_for; [exact I|]. intros j s _ _. apply only_seq; [apply only_rd|intros]. repeat (apply only_seq; [apply only_lift|intros]). apply only_lift. }
  intros s. apply only_seq; [|intros; exact I]. apply only_while; [exact I|]. intros [i s'] _ C.
  assert (Hi : range data len (data + i)) by (unfold range; lia).
  repeat (apply only_seq; [apply out_round_only, Hi|intros]). exact I.
Qed.

Lemma decrypt_only be key data len : len < 2 ^ 32 -> only (range data len) (p_decrypt be key data len) any.
Proof.
  intros B. unfold p_decrypt. rewrite alen_ok by exact B. destruct (N.ltb_spec len 8) as [L|L]; [exact I|].
  apply only_seq; [eapply only_sub; [|apply stream_xor_only]; unfold range; intros; lia|intros].
  apply only_seq; [eapply only_sub; [|apply block_decrypt_only]; unfold range; intros; lia|intros].
  apply only_seq; [|intros; exact I].
  apply only_any with (Q := fun i => exists k, i = 8 * k /\ 1 <= k).
  apply only_while; [exists 1; lia|]. intros i (k & -> & K) C. apply N.ltb_lt in C.
  apply only_seq; [eapply only_sub; [|apply xor_64_only]; unfold range; intros; lia|intros].
  apply only_seq; [eapply only_sub; [|apply block_decrypt_only]; unfold range; intros; lia|intros].
  cbn [only]. exists (k + 1). split; [|lia]. unfold u32. rewrite N.mod_small by lia. lia.
Qed.

Lemma int_ok_inv z z' : int_ok z = Ok z' -> z' = z.
Proof. unfold int_ok. destruct (_ && _); congruence. Qed.
Lemma encrypt_only be key data len : len < 2 ^ 32 -> only (range data len) (p_encrypt be key data len) any.
Proof.
  intros B. unfold p_encrypt. rewrite alen_ok by exact B. destruct (N.ltb_spec len 8) as [L|L]; [exact I|].
  apply only_seq; [eapply only_sub; [|apply block_encrypt_only]; unfold range; intros; lia|intros].
  apply only_seq; [|intros; eapply only_sub; [|apply stream_xor_only]; unfold range; intros; lia].
  apply only_any with (Q := fun i => exists k, i = (8 * k)%Z /\ (8 * k <= 8 * Z.of_N (len / 8) - 16)%Z).
  apply only_while.
  - unfold to_int, u32. change (2 ^ 31) with 2147483648. change (2 ^ 32) with 4294967296 in *. change (2 ^ 32)%Z with 4294967296%Z.
    set (q := len / 8). assert (Hq : 1 <= q < 2 ^ 29) by (subst q; change (2 ^ 29) with 536870912; lia).
    change (2 ^ 29) with 536870912 in Hq. destruct (N.lt_ge_cases q 2) as [C|C].
    + assert (q = 1) as -> by lia. exists (-1)%Z. split; [reflexivity|lia].
    + replace ((8 * q + 4294967296 - 16) mod 4294967296) with (8 * q - 16).
      2:{ replace (8 * q + 4294967296 - 16) with (8 * q - 16 + 1 * 4294967296) by lia. rewrite N.mod_add by discriminate. rewrite N.mod_small; lia. }
      destruct (N.ltb_spec (8 * q - 16) 2147483648); [exists (Z.of_N q - 2)%Z|exists (Z.of_N q - 2 - 536870912)%Z]; lia.
  - intros i (k & -> & K) C. apply Z.leb_le in C. unfold padd.
    apply only_seq; [eapply only_sub; [|apply xor_64_only]; unfold range; intros; lia|intros].
    apply only_seq; [eapply only_sub; [|apply block_encrypt_only]; unfold range; intros; lia|intros].
    apply only_lift_q. intros z E. apply int_ok_inv in E as ->. exists (k - 1)%Z. lia.
Qed.

(** ** Bitslice calls *)
Lemma concat_len {A} n (l : list (list A)) : Forall (fun x => length x = n) l -> length (concat l) = (length l * n)%nat.
Proof. induction 1 as [|x l H F IH]; cbn; [reflexivity|]. rewrite app_length, H, IH. reflexivity. Qed.
Lemma concat_rep_len {A} (x : list A) n : length (concat (repeat x n)) = (n * length x)%nat.
Proof. rewrite (concat_len (length x)), repeat_length; [reflexivity|]. apply Forall_forall. intros y Hy. apply repeat_spec in Hy as ->. reflexivity. Qed.
Lemma val8_len c v : length (BS_VAL c 1 v) = word_bytes c.
Proof. unfold BS_VAL. rewrite concat_rep_len, native_bytes_length, Nat.div_1_r. lia. Qed.
Lemma Ok_inj {A} (a b : A) : Ok a = Ok b -> b = a. Proof. congruence. Qed.
Lemma block_key_word_len c k w : block_key_word c k = Ok w -> length w = word_bytes c.
Proof.
  unfold block_key_word. intros H. destruct (tgt c) eqn:T; lens; apply Ok_inj in H; rewrite H, ?concat_rep_len, native_bytes_length;
    unfold word_bytes; rewrite T; reflexivity.
Qed.
Lemma wr_word_only c a w : length w = word_bytes c -> only (range a (word_size c)) (wr_word c a w) any.
Proof. intros L. unfold wr_word. destruct (word_aligned c a); [|exact I]. apply only_wr_bytes. rewrite L. exact (fun x H => H). Qed.
Lemma bs_key_set_only c cw key : only (range key (bs_ctx_size c)) (p_bs_key_set c cw key) any.
Proof.
  assert (W : forall i w, (i < 120)%nat -> length w = word_bytes c ->
    only (range key (bs_ctx_size c)) (wr_word c (key + N.of_nat (i * word_bytes c)) w) any).
  { intros i w Hi L. eapply only_sub; [|apply wr_word_only, L]. unfold range, bs_ctx_size, word_size. intros x Hx. nia. }
  unfold p_bs_key_set. apply only_seq; [apply load_le64_only|intros ck].
  apply only_seq; [apply only_for; [exact I|]; intros i [] Hi _; apply W; [lia|destruct (N.testbit _ _); apply val8_len]|intros _].
  apply only_seq; [apply load_le64_only|intros a]. apply only_seq; [apply only_lift|intros k]. apply only_seq; [apply only_lift|intros kk].
  apply only_for; [exact I|]. intros i [] Hi _. apply only_seq; [apply only_lift|intros b].
  apply only_bind. apply only_lift_q. intros w E. apply W; [lia|]. apply (block_key_word_len _ _ _ E).
Qed.

(* programs that write nothing *)
Definition quiet {A} (t : prog A) : Prop := only (fun _ => False) t any.
Lemma quiet_bind {A B} (t : prog A) (f : A -> prog B) : quiet t -> (forall a, quiet (f a)) -> quiet (pbind t f).
Proof. apply only_seq. Qed.
Lemma quiet_lift {A} (r : res A) : quiet (lift r). Proof. apply only_lift. Qed.
Lemma quiet_ret {A} (a : A) : quiet (Ret a). Proof. exact I. Qed.
Lemma quiet_for {St} n i (b : nat -> St -> prog St) s : (forall i s, quiet (b i s)) -> quiet (pfor n i b s).
Proof. intros H. apply only_for; [exact I|]. intros. apply H. Qed.
Lemma quiet_for_down {St} n (b : nat -> St -> prog St) s : (forall i s, quiet (b i s)) -> quiet (pfor_down n b s).
Proof. intros H. apply only_for_down; [exact I|]. intros. apply H. Qed.
Lemma quiet_while {St} n c (b : St -> prog St) s : (forall s, quiet (b s)) -> quiet (pwhile n c b s).
Proof. intros H. apply only_while; [exact I|]. intros. apply H. Qed.
Lemma quiet_rd_bytes a n : quiet (rd_bytes a n). Proof. eapply only_any, only_rd_bytes. Qed.
Lemma quiet_word c a : quiet (rd_word c a). Proof. unfold rd_word. destruct (word_aligned c a); [apply quiet_rd_bytes|exact I]. Qed.
Ltac hush := repeat match goal with
  | |- quiet (lift _) => apply quiet_lift
  | |- quiet (Ret _) => apply quiet_ret
  | |- quiet (rd_bytes _ _) => apply quiet_rd_bytes
  | |- quiet (rd_word _ _) => apply quiet_word
  | |- quiet (pbind _ _) => apply quiet_bind; [|intros ?]
  | |- quiet (pfor _ _ _ _) => apply quiet_for; intros ? ?
  | |- quiet (pfor_down _ _ _) => apply quiet_for_down; intros ? ?
  | |- quiet (pwhile _ _ _ _) => apply quiet_while; intros ?
  | |- quiet (match ?x with _ => _ end) => destruct x
  end.
Lemma stream_batch_quiet c s0 key pb ml : quiet (p_stream_cipher_batch c s0 key pb ml).
Proof. unfold p_stream_cipher_batch, p_stream_load_regs, p_key_stream_word. hush. Qed.
Lemma decrypt_batch_quiet c bj key pb ml : quiet (p_block_decrypt_batch c bj key pb ml).
Proof. unfold p_block_decrypt_batch, p_decrypt_block, p_decrypt_register, p_key_xor, p_key_block_word. hush. Qed.
Lemma encrypt_batch_quiet c bj key pb ml : quiet (p_block_encrypt_batch c bj key pb ml).
Proof. unfold p_block_encrypt_batch, p_encrypt_block, p_encrypt_register, p_key_xor, p_key_block_word. hush. Qed.
Lemma batch_data_quiet c pcks i : quiet (p_batch_data c pcks i). Proof. unfold p_batch_data. hush. Qed.
Lemma batch_len_quiet c pcks i : quiet (p_batch_len c pcks i). Proof. unfold p_batch_len. hush. Qed.
Lemma pkt_buf_load_quiet c pcks pb : quiet (p_pkt_buf_load c pcks pb).
Proof.
  unfold p_pkt_buf_load. generalize (S (batch_size c)), 0%nat, (len8 pb), (pdata pb). intros fuel.
  induction fuel as [|fuel IH]; intros i l8 d; cbn [p_pkt_buf_load_from]; [exact I|].
  apply quiet_bind; [apply batch_data_quiet|intros p]. destruct (p =? 0); [exact I|].
  apply quiet_bind; [apply batch_len_quiet|intros]. apply quiet_bind; [apply quiet_lift|intros].
  apply quiet_bind; [apply batch_len_quiet|intros]. apply quiet_bind; [apply quiet_rd_bytes|intros].
  apply quiet_bind; [apply quiet_lift|intros]. apply IH.
Qed.

(* reading first, then a part whose writes are known in the unchanged memory *)
Lemma inside_quiet {A B} (F : N -> Prop) (t : prog A) (f : A -> prog B) m r : quiet t -> reads t m r ->
  (forall a, r = Ok a -> inside F (f a) m) -> inside F (pbind t f) m.
Proof.
  intros Q R K. apply inside_bind.
  - eapply inside_mono; [|apply (only_inside _ _ _ Q)]. contradiction.
  - intros a m' E. rewrite R in E. destruct r as [x| | |]; try discriminate E. cbn in E. injection E as <- <-. apply K. reflexivity.
Qed.

Section Store.
  Context (c : build) (m : mem) (pcks : N) (ps : packets) (B : batch_array c m pcks ps) (F : N -> Prop).
  Hypothesis HF : forall p buf x, In (p, buf) ps -> range p (N.of_nat (length buf)) x -> F x.
  Notation arr := (N.of_nat (length ps * entry_bytes c + ptr_bytes c)).
  Lemma pkt_buf_store_inside fuel : forall i d m1, (i <= length ps)%nat -> same_inside pcks arr m m1 ->
    inside F (p_pkt_buf_store_from fuel c pcks i d) m1.
  Proof.
    induction fuel as [|fuel IH]; intros i d m1 Hi S; cbn [p_pkt_buf_store_from]; [exact I|].
    eapply inside_quiet; [apply batch_data_quiet|apply batch_data_steps|]. intros p Ep.
    destruct (Nat.eq_dec i (length ps)) as [->|Ni].
    - rewrite (end_data _ _ _ _ B m1 S) in Ep. injection Ep as <-. exact I.
    - destruct (nth_error ps i) as [[q buf]|] eqn:Ei; [|apply nth_error_None in Ei; lia].
      destruct (entry_data _ _ _ _ B i q buf m1 Ei S) as (D1 & D2 & D3). rewrite D1 in Ep. injection Ep as <-.
      destruct (N.eqb_spec q 0); [lia|].
      eapply inside_quiet; [apply batch_len_quiet|apply batch_len_steps|]. intros len El. rewrite D2 in El. injection El as <-.
      eapply inside_quiet; [apply quiet_lift|apply reads_lift|]. intros bs Eb.
      assert (Lb : length bs = length buf).
      { unfold bget in Eb. rewrite Nat2N.id in Eb. destruct (Nat.leb_spec (i * slot + length buf) (length d)); [|discriminate Eb].
        injection Eb as <-. rewrite firstn_length, skipn_length. lia. }
      assert (W : only (range q (N.of_nat (length buf))) (wr_bytes q bs) any) by (apply only_wr_bytes; rewrite Lb; exact (fun x H => H)).
      apply inside_bind.
      + eapply inside_mono; [|apply (only_inside _ _ _ W)]. intros x Hx. apply (HF q buf x); [eapply nth_error_In; eauto|exact Hx].
      + intros [] m2 E. apply IH; [lia|]. intros x Hx. rewrite <- (S x Hx).
        rewrite (acts_bytes bs q m1) in E. destruct (store_bytes m1 q bs) as [m3| | |] eqn:E3; try discriminate E. cbn in E. injection E as <-.
        destruct (ba_entry _ _ _ _ B i q buf Ei) as (_ & _ & _ & _ & _ & Dj).
        assert (Mp : mapped m1 q (N.of_nat (length bs))).
        { clear -E3. revert q m1 E3. induction bs as [|b bs IH]; intros q m1 E x Hx; cbn [length] in *; [lia|]. cbn [store_bytes] in E.
          unfold store in E. destruct (m1 q) as [w|] eqn:Eq; [|discriminate E]. cbn [bind] in E.
          destruct (N.eq_dec x q) as [->|Nx]; [eauto|]. destruct (IH _ _ E x ltac:(lia)) as [y Ey].
          cbn beta in Ey. destruct (N.eqb_spec x q); [contradiction|eauto]. }
        pose proof (store_bytes_ok bs m1 q Mp) as Q. rewrite E3 in Q. cbn in Q. rewrite Q. apply put_out.
        intros Hq. rewrite Lb in Hq. exact (Dj x (conj Hq Hx)).
  Qed.
End Store.

Lemma bs_crypt_inside (enc : bool) c jk key pcks maxlen m ps (F : N -> Prop) : batch_array c m pcks ps ->
  (forall p buf x, In (p, buf) ps -> range p (N.of_nat (length buf)) x -> F x) ->
  inside F ((if enc then p_bs_encrypt else p_bs_decrypt) c jk key pcks maxlen) m.
Proof.
  intros B HF. assert (St : forall pb, inside F (p_pkt_buf_store c pcks pb) m).
  { intros pb. apply (pkt_buf_store_inside c m pcks ps B F HF); [lia|intros x _; reflexivity]. }
  destruct enc; [unfold p_bs_encrypt|unfold p_bs_decrypt]; destruct (have_assert c && negb (maxlen_ok maxlen)); try exact I.
  - eapply inside_quiet; [apply pkt_buf_load_quiet|apply pkt_buf_load_steps|intros pb1 _].
    eapply inside_quiet; [apply encrypt_batch_quiet|apply block_encrypt_batch_steps|intros pb2 _].
    eapply inside_quiet; [apply stream_batch_quiet|apply stream_batch_steps|intros pb3 _]. apply St.
  - eapply inside_quiet; [apply pkt_buf_load_quiet|apply pkt_buf_load_steps|intros pb1 _].
    eapply inside_quiet; [apply stream_batch_quiet|apply stream_batch_steps|intros pb2 _].
    eapply inside_quiet; [apply decrypt_batch_quiet|apply block_decrypt_batch_steps|intros pb3 _]. apply St.
Qed.

(** ** Calls *)
Lemma call_steps c pl o st : no_alloc o ->
  step c pl o st = ('(_, m) <- run (call_prog c o) (smem st) ;; Ok (mk_state m (blocks st))).
Proof.
  assert (G : forall t m (r : res mem), acts t m r -> forall b, (m' <- r ;; Ok (mk_state m' b)) = ('(_, m) <- run t m ;; Ok (mk_state m b))).
  { unfold acts. intros t m r -> b. destruct r; reflexivity. }
  destruct o; cbn [no_alloc step call_prog]; intros H; try contradiction; unfold on_mem; apply G.
  - apply acts_bytes.
  - apply key_set_steps.
  - destruct enc; [apply encrypt_steps|apply decrypt_steps].
  - apply bs_key_set_steps.
  - unfold bs_call. destruct enc; [apply bs_encrypt_steps|apply bs_decrypt_steps].
Qed.

(* the thread's bytes and its own contexts are in its addresses *)
Record owns (c : build) (F sh : N -> bool) (s : astate) : Prop := {
  ow_user : forall a b, user s a = Some b -> F a = true;
  ow_ctx : forall k x v a, actx s k = Some (x, v) -> sh k = false -> range k (api_size c x) a -> F a = true }.
Lemma put_owned m a l x b (F : N -> bool) : (forall y b, m y = Some b -> F y = true) -> mapped m a (N.of_nat (length l)) ->
  put m a l x = Some b -> F x = true.
Proof.
  intros O M E. destruct (N.leb_spec a x); [destruct (N.ltb_spec x (a + N.of_nat (length l)))|].
  - destruct (M x ltac:(lia)) as [y Ey]. eapply O, Ey.
  - rewrite put_out in E by lia. eapply O, E.
  - rewrite put_out in E by lia. eapply O, E.
Qed.
Lemma write_all_owned (F : N -> bool) ps : forall m x b, (forall y b, m y = Some b -> F y = true) ->
  (forall p buf, In (p, buf) ps -> forall y, range p (N.of_nat (length buf)) y -> F y = true) ->
  write_all m ps x = Some b -> F x = true.
Proof.
  induction ps as [|[p buf] ps IH]; intros m x b O M; cbn [write_all]; [apply O|]. apply IH.
  - intros y b' E. destruct (N.leb_spec p y); [destruct (N.ltb_spec y (p + N.of_nat (length buf)))|].
    + apply (M p buf (or_introl eq_refl)). unfold range. lia.
    + rewrite put_out in E by lia. eapply O, E.
    + rewrite put_out in E by lia. eapply O, E.
  - intros q b' I. apply M. right. exact I.
Qed.
Lemma on_prefix_len enc cw ml buf : length (on_prefix (csa enc cw) ml buf) = length buf.
Proof. unfold on_prefix. rewrite app_length, csa_length, <- app_length, firstn_skipn. reflexivity. Qed.
Lemma owns_step c F sh o s s' : astep c o s s' -> no_alloc o -> owns c F sh s -> owns c F sh s'.
Proof.
  intros A Na [O1 O2]. destruct A; cbn [no_alloc] in Na; try contradiction; constructor; cbn [user actx set_user set_ctx]; try assumption.
  - intros x b. eapply put_owned; eassumption.
  - intros k' x v' a. destruct (N.eqb_spec k' k) as [->|]; [|apply O2]. intros E. injection E as <- <-. eapply O2; eassumption.
  - intros k' x v' a. destruct (N.eqb_spec k' k) as [->|]; [|apply O2]. intros E. injection E as <- <-. eapply O2; eassumption.
  - intros x b. eapply put_owned; [exact O1|]. rewrite csa_length. apply holds_mapped. assumption.
  - intros x b. eapply write_all_owned; [exact O1|]. intros p buf I y Hy. unfold map_packets in I. apply in_map_iff in I as ([q b'] & E & I).
    cbn [fst snd] in E. injection E as <- <-. rewrite on_prefix_len in Hy. apply In_nth_error in I as [i Ei].
    destruct (ba_entry _ _ _ _ H0 i q b' Ei) as (_ & _ & X & _). apply holds_mapped in X. destruct (X y Hy) as [z Ez]. eapply O1, Ez.
Qed.
(* every write of the call is in the thread's addresses *)
Lemma call_inside c pl F sh o s s' st : refines c pl s st -> astep c o s s' -> no_alloc o -> polite c F sh o -> owns c F sh s ->
  inside (fun a => F a = true) (call_prog c o) (smem st).
Proof.
  intros R A Na P [O1 O2]. destruct A; cbn [no_alloc] in Na; try contradiction; cbn [call_prog].
  - eapply only_inside. apply only_wr_bytes. intros x Hx. destruct (H x Hx) as [b E]. eapply O1, E.
  - eapply only_inside, only_sub; [|apply key_set_only]. intros x Hx. eapply O2; [eassumption|exact P|exact Hx].
  - eapply only_inside, only_sub; [|apply bs_key_set_only]. intros x Hx. eapply O2; [eassumption|exact P|exact Hx].
  - assert (B : len < 2 ^ 32) by assumption.
    assert (S : forall x, range data len x -> F x = true).
    { intros x Hx. apply holds_mapped in H0. subst len. destruct (H0 x Hx) as [b E]. eapply O1, E. }
    destruct enc; (eapply only_inside, only_sub; [exact S|]); [apply encrypt_only, B|apply decrypt_only, B].
  - apply bs_crypt_inside with (ps := ps).
    + destruct H0 as [B1 B2]. constructor.
      * intros i p buf Ei. destruct (B1 i p buf Ei) as (X1 & X2 & X3 & X4 & X5 & X6).
        split; [exact X1|]. split; [exact X2|]. split; [eapply user_holds; eauto|]. split; [eapply user_holds; eauto|]. split; [eapply user_holds; eauto|exact X6].
      * eapply user_holds; eauto.
    + intros p buf x I Hx. apply In_nth_error in I as [i Ei]. destruct (ba_entry _ _ _ _ H0 i p buf Ei) as (_ & _ & X & _).
      apply holds_mapped in X. destruct (X x Hx) as [b E]. eapply O1, E.
Qed.
Lemma calls_alone c pl F sh : supported c -> no_int_product c -> forall os s s' st,
  refines c pl s st -> asteps c os s s' -> Forall (polite c F sh) os -> Forall no_alloc os -> owns c F sh s ->
  exists mf, run (calls_prog c os) (smem st) = Ok (tt, mf) /\ inside (fun a => F a = true) (calls_prog c os) (smem st) /\
    refines c pl s' (mk_state mf (blocks st)).
Proof.
  intros Sp Ni. induction os as [|o os IH]; intros s s' st R A P Na O; inversion A as [|o' os' s0 s1 s2 A1 A2]; subst; cbn [calls_prog].
  - exists (smem st). split; [reflexivity|]. split; [exact I|]. destruct st. exact R.
  - inversion P as [|? ? P1 P2]; subst. inversion Na as [|? ? N1 N2]; subst.
    destruct (step_refines c pl Sp Ni _ _ _ _ R A1) as (st1 & E & R1). rewrite (call_steps c pl o st N1) in E.
    destruct (run (call_prog c o) (smem st)) as [[[] m1]| | |] eqn:E1; try discriminate E. cbn [bind] in E. injection E as <-.
    destruct (IH s1 s' _ R1 A2 P2 N2 (owns_step _ _ _ _ _ _ A1 N1 O)) as (mf & Em & In & Rf). cbn [smem blocks] in *.
    exists mf. rewrite run_bind, E1. cbn [bind]. split; [exact Em|]. split; [|exact Rf].
    apply inside_bind; [eapply call_inside; eassumption|]. intros [] m' E'. rewrite E1 in E'. injection E' as <-. exact In.
Qed.

(** ** Threads *)
Section Split.
  Context (c : build) (s0 : astate) (sh : N -> bool).
  (* [a] is a byte of a shared context *)
  Definition covered (a : N) : bool :=
    existsb (fun d => let d := N.of_nat d in (d <=? a) && sh (a - d) &&
               match actx s0 (a - d) with Some (x, _) => d <? api_size c x | None => false end) (seq 0 (N.to_nat 4000)).
  Lemma api_size_le x : api_size c x <= 3840.
  Proof. destruct x; cbn [api_size]; [unfold ctx_size; lia|]. unfold bs_ctx_size, word_bytes. destruct (tgt c); lia. Qed.
  Lemma covered_spec a : covered a = true <-> exists k x v, sh k = true /\ actx s0 k = Some (x, v) /\ range k (api_size c x) a.
  Proof.
    unfold covered. rewrite existsb_exists. split.
    - intros (d & _ & H). apply andb_true_iff in H as [H H3]. apply andb_true_iff in H as [H1 H2].
      destruct (actx s0 (a - N.of_nat d)) as [[x v]|] eqn:E; [|discriminate H3]. exists (a - N.of_nat d), x, v. unfold range. repeat split; try assumption; lia.
    - intros (k & x & v & Sk & E & H). unfold range in H. pose proof (api_size_le x). exists (N.to_nat (a - k)). split; [apply in_seq; lia|].
      rewrite N2Nat.id. replace (a - (a - k)) with k by lia. rewrite Sk, E. lia.
  Qed.

  Lemma split_view pl st0 (F : N -> bool) : refines c pl s0 st0 ->
    (forall k x v a, actx s0 k = Some (x, v) -> sh k = true -> range k (api_size c x) a -> F a = false) ->
    (forall k x v a, actx s0 k = Some (x, v) -> sh k = false -> range k (api_size c x) a -> F a = F k) ->
    refines c pl (view s0 F sh) (mk_state (fun a => if F a || covered a then smem st0 a else None) (blocks st0)) /\ owns c F sh (view s0 F sh).
  Proof.
    intros R Hs Ho.
    assert (V : forall k x v, actx (view s0 F sh) k = Some (x, v) -> actx s0 k = Some (x, v) /\ (sh k = true \/ sh k = false /\ F k = true)).
    { intros k x v. cbn [actx view]. destruct (sh k), (F k); cbn [orb]; intros E; try discriminate E; auto. }
    assert (Sm : forall k x v, actx (view s0 F sh) k = Some (x, v) ->
      same_inside k (api_size c x) (smem st0) (fun a => if F a || covered a then smem st0 a else None)).
    { intros k x v E a Ha. destruct (V k x v E) as [E0 [Sk|[Sk Fk]]].
      - replace (covered a) with true; [rewrite orb_true_r; reflexivity|]. symmetry. apply covered_spec. exists k, x, v. auto.
      - rewrite (Ho k x v a E0 Sk Ha), Fk. reflexivity. }
    split.
    - constructor.
      + intros k x v E. destruct (V k x v E) as [E0 _]. destruct (rf_ctx _ _ _ _ R k x v E0) as [C1 C2 C3 C4 C5 C6].
        constructor; try assumption; cbn [smem].
        * intros a Ha. cbn [user view]. rewrite (C2 a Ha). destruct (F a); reflexivity.
        * intros a Ha. rewrite (Sm k x v E a Ha). apply C3, Ha.
        * intros cw Ev. destruct (C6 cw Ev) as [L K]. split; [exact L|]. eapply keyed_frame; [exact K|apply (Sm k x v E)].
      + intros k x v k' x' v' E E'. destruct (V _ _ _ E) as [E0 _]. destruct (V _ _ _ E') as [E0' _]. apply (rf_sep _ _ _ _ R _ _ _ _ _ _ E0 E0').
      + intros a Ha. cbn [smem user view]. destruct (F a) eqn:Fa; cbn [orb].
        * apply (rf_user _ _ _ _ R). intros k x v E Hr. destruct (sh k) eqn:Sk.
          -- rewrite (Hs k x v a E Sk Hr) in Fa. discriminate Fa.
          -- apply (Ha k x v); [|exact Hr]. cbn [actx view]. rewrite <- (Ho k x v a E Sk Hr), Fa, orb_true_r. exact E.
        * destruct (covered a) eqn:Ca; [|reflexivity]. apply covered_spec in Ca as (k & x & v & Sk & E & Hr). exfalso.
          apply (Ha k x v); [|exact Hr]. cbn [actx view]. rewrite Sk. exact E.
    - constructor.
      + intros a b. cbn [user view]. destruct (F a); [reflexivity|discriminate].
      + intros k x v a E Sk Hr. destruct (V k x v E) as [E0 [S|[_ Fk]]]; [congruence|]. rewrite (Ho k x v a E0 Sk Hr). exact Fk.
  Qed.
End Split.

Theorem byte_threads c pl m os0 s0 ths sh :
  supported c -> no_int_product c -> asteps c os0 (no_ctx m) s0 -> partitioned c s0 ths sh -> Forall (alone_ok c s0 sh) ths ->
  exists st0 bound, run_ops c pl os0 (no_heap m) = Ok st0 /\
  forall n ts' m', msteps n (map (fun t => calls_prog c (calls t)) ths) (smem st0) ts' m' ->
    (n <= bound)%nat /\ ~ race ts' /\
    (forall i t, nth_error ts' i = Some t -> finished t \/ exists t2 m2, tstep t m' t2 m2) /\
    (forall i th, nth_error ths i = Some th -> nth_error ts' i = Some (Ret tt) ->
       forall a b, user (result th) a = Some b -> m' a = Some b) /\
    (forall a, (forall th, In th ths -> owned th a = false) -> m' a = smem st0 a) /\
    (exists k ts2 m2, msteps k ts' m' ts2 m2 /\ Forall finished ts2).
Proof.
  intros Sp Ni A0 P Al. destruct (run_refines c pl Sp Ni os0 _ _ _ (refines_start c pl m) A0) as (st0 & E0 & R0).
  set (F := fun i a => exists th, nth_error ths i = Some th /\ owned th a = true).
  set (fin := fun i (mf : mem) => forall th a b, nth_error ths i = Some th -> user (result th) a = Some b -> mf a = Some b).
  assert (I0 : forall i th, nth_error ths i = Some th -> exists n, alive (F i) (others F i) (fin i) (smem st0) (calls_prog c (calls th)) n).
  { intros i th Ei. assert (Hin : In th ths) by (eapply nth_error_In; eauto).
    destruct (proj1 (Forall_forall _ _) Al th Hin) as (A & Po & Na).
    destruct (split_view c s0 sh pl st0 (owned th) R0) as [Rv Ov].
    { intros k x v a E Sk Hr. eapply pn_shared; eassumption. }
    { intros k x v a E Sk Hr. eapply pn_own; eassumption. }
    destruct (calls_alone c pl (owned th) sh Sp Ni _ _ _ _ Rv A Po Na Ov) as (mf & Er & In & Rf). cbn [smem blocks] in *.
    exists (cost (calls_prog c (calls th)) (fun a => if owned th a || covered c s0 sh a then smem st0 a else None)).
    eexists _, mf. split; [exact Er|]. split; [|split; [reflexivity|split; [|split]]].
    - eapply inside_mono; [|exact In]. intros a Ha. exists th. auto.
    - intros th' a b Ei' Eu. assert (th' = th) as -> by congruence. exact (user_mem c pl _ _ _ _ Rf Eu).
    - intros a b. cbn beta. destruct (owned th a || covered c s0 sh a); [exact (fun H => H)|discriminate].
    - intros a Ha (j & Nj & u & Ej & Ou). apply Ha. cbn beta.
      assert (O : owned th a = false) by (apply (pn_disj _ _ _ _ P j i u th a Ej Ei Nj Ou)). rewrite O. cbn [orb].
      destruct (covered c s0 sh a) eqn:Ca; [|reflexivity]. apply covered_spec in Ca as (k & x & v & Sk & E & Hr).
      rewrite (pn_shared _ _ _ _ P u k x v a (nth_error_In _ _ Ej) E Sk Hr) in Ou. discriminate Ou. }
  assert (Iv : exists ns, inv F fin (map (fun t => calls_prog c (calls t)) ths) (smem st0) ns).
  { assert (G : forall l k, (forall i th, nth_error l i = Some th -> nth_error ths (k + i) = Some th) ->
      exists ns, length ns = length l /\ forall i th, nth_error l i = Some th ->
        exists n, nth_error ns i = Some n /\ alive (F (k + i)%nat) (others F (k + i)) (fin (k + i)%nat) (smem st0) (calls_prog c (calls th)) n).
    { induction l as [|th l IH]; intros k Hk; [exists []; split; [reflexivity|]; intros [|i]; discriminate|].
      destruct (IH (S k)) as (ns & L & K). { intros i t E. replace (S k + i)%nat with (k + S i)%nat by lia. apply Hk, E. }
      destruct (I0 (k + 0)%nat th (Hk 0%nat th eq_refl)) as (n & An). exists (n :: ns). split; [cbn; congruence|].
      intros [|i] t E; cbn [nth_error] in *; [injection E as <-; eauto|]. destruct (K i t E) as (n' & En & An'). exists n'. split; [exact En|].
      replace (k + S i)%nat with (S k + i)%nat by lia. exact An'. }
    destruct (G ths 0%nat (fun i th E => E)) as (ns & L & K). exists ns. split; [rewrite map_length; exact L|].
    intros i t E. rewrite nth_error_map in E. destruct (nth_error ths i) as [th|] eqn:Ei; [|discriminate E]. cbn in E. injection E as <-. apply (K i th Ei). }
  destruct Iv as (ns & Iv). exists st0, (total ns). split; [exact E0|]. intros n ts' m' Ms.
  destruct (inv_steps F fin _ _ _ _ _ Ms ns Iv) as (ns' & Iv' & T & L & Fr). split; [lia|].
  split; [eapply inv_no_race; exact Iv'|]. split; [|split; [|split]].
  - intros i t E. destruct (inv_progress F fin _ _ _ _ _ Iv' E) as [D|D]; auto.
  - intros i th Ei Ef a b Eu. destruct (inv_final F fin _ _ _ _ Iv' Ef) as (mf & Fi & Sub). apply Sub. eapply Fi; eassumption.
  - intros a Ha. apply Fr. intros i (th & Ei & Oa). rewrite (Ha th (nth_error_In _ _ Ei)) in Oa. discriminate Oa.
  - eapply inv_complete; [exact Iv'|reflexivity].
Qed.

(** ** Interrupted calls *)
Lemma inside_tstep F t m t' m' : inside F t m -> tstep t m t' m' -> inside F t' m' /\ forall a, ~ F a -> m' a = m a.
Proof.
  intros H S. destruct S as [p k m v E|p v t m w E]; cbn [inside] in H.
  - split; [apply H, E|reflexivity].
  - destruct H as [Hp H]. split; [apply H; unfold store; rewrite E; reflexivity|].
    intros a Ha. destruct (N.eqb_spec a p) as [->|]; [contradiction|reflexivity].
Qed.
Lemma inside_msteps F n t m ts m' : inside F t m -> msteps n [t] m ts m' -> forall a, ~ F a -> m' a = m a.
Proof.
  intros H S. remember [t] as ts0 eqn:E. revert t E H. induction S as [ts m|n ts m i u u' m' ts2 m2 Ei St Ms IH]; intros t E H a Ha; [reflexivity|].
  subst ts. destruct i as [|i]; [|destruct i; discriminate Ei]. injection Ei as <-. destruct (inside_tstep _ _ _ _ _ H St) as [H' Fr].
  rewrite (IH u' eq_refl H' a Ha). apply Fr, Ha.
Qed.
