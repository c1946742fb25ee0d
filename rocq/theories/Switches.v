(** Switches.v -- builds with one layer of the cipher left out compute the other layer. *)
From Verif Require Import Base Mem Spec ModelClassical ClassicalBlock ClassicalKey ClassicalStream ClassicalAlgo SpecLemmas SpecFacts ApiSpec ClassicalFacts
  ModelBsWord ModelBsTranspose ModelBsStream ModelBsBlock ModelBsAlgo BsApiSpec BsWordFacts BsView BsTransposeFacts BsStream BsSbox BsRegister BsBlock BsBatch BsKey BsSlot BsAlgo BsFacts BsApiFacts
  ModelSwitches SwitchSpec.
Local Open Scope N_scope.

Lemma sw_off_call enc be m key data len :
  sw_call (mk_switches false false) enc be m key data len =
  (if enc then dvbcsa_encrypt else dvbcsa_decrypt) be m key data len.
Proof.
  destruct enc; unfold sw_call, sw_encrypt, sw_decrypt, dvbcsa_encrypt, dvbcsa_decrypt; cbn [disable_stream disable_block]; [|reflexivity].
  destruct (len <? 8); [reflexivity|].
  destruct (dvbcsa_block_encrypt m (key + 16) (data + N.land len 0xfffffff8 - 8) (data + N.land len 0xfffffff8 - 8)); cbn [bind]; try reflexivity.
  match goal with |- bind (bind ?x _) _ = _ => destruct x as [[i m']| | |] end; reflexivity.
Qed.
Lemma sw_off_bs enc c jk m key pcks maxlen :
  sw_bs_call (mk_switches false false) enc c jk m key pcks maxlen = bs_call enc c jk m key pcks maxlen.
Proof. destruct enc; reflexivity. Qed.

(** ** The remaining cipher *)
Lemma stream_layer_length s cw d : length (stream_layer s cw d) = length d.
Proof. unfold stream_layer. destruct (disable_stream s); [reflexivity|apply stream_cipher_length]. Qed.
Lemma encrypt_layer_length s cw d : length (encrypt_layer s cw d) = length d.
Proof. unfold encrypt_layer. destruct (disable_block s); [reflexivity|apply block_layer_length, rcbc_enc_length]. Qed.
Lemma decrypt_layer_length s cw d : length (decrypt_layer s cw d) = length d.
Proof. unfold decrypt_layer. destruct (disable_block s); [reflexivity|apply block_layer_length, rcbc_dec_length]. Qed.
Lemma sw_csa_length s enc cw d : length (sw_csa s enc cw d) = length d.
Proof.
  unfold sw_csa. destruct (length d <? 8)%nat; [reflexivity|]. destruct enc.
  - rewrite stream_layer_length. apply encrypt_layer_length.
  - rewrite decrypt_layer_length. apply stream_layer_length.
Qed.
Lemma sw_csa_inv s enc cw d : sw_csa s (negb enc) cw (sw_csa s enc cw d) = d.
Proof.
  unfold sw_csa at 1. rewrite sw_csa_length. unfold sw_csa.
  destruct (Nat.ltb_spec (length d) 8) as [|H]; [reflexivity|].
  unfold stream_layer, encrypt_layer, decrypt_layer.
  assert (S : forall l, (8 <= length l)%nat -> stream_cipher cw (stream_cipher cw l) = l) by (intros; apply stream_cipher_involutive; assumption).
  assert (DE : forall l, block_layer (rcbc_dec (block_dec (key_schedule cw))) (block_layer (rcbc_enc (block_enc (key_schedule cw))) l) = l).
  { intros l. apply block_layer_inv. intros. apply rcbc_dec_enc. apply block_dec_enc. }
  assert (ED : forall l, block_layer (rcbc_enc (block_enc (key_schedule cw))) (block_layer (rcbc_dec (block_dec (key_schedule cw))) l) = l).
  { intros l. apply block_layer_inv. intros. apply rcbc_enc_dec. apply block_enc_dec. }
  assert (LE : forall l, length (block_layer (rcbc_enc (block_enc (key_schedule cw))) l) = length l) by (intros; apply block_layer_length, rcbc_enc_length).
  destruct enc, (disable_stream s), (disable_block s); cbn [negb]; rewrite ?S by (rewrite ?LE; exact H); rewrite ?DE, ?ED; try reflexivity.
  apply S, H.
Qed.
Lemma sw_csa_bytes s enc cw d : length cw = 8%nat -> Forall is_byte cw -> Forall is_byte d -> Forall is_byte (sw_csa s enc cw d).
Proof.
  intros Lc Fc F. assert (Fk : Forall is_byte (key_schedule cw)) by (apply key_schedule_bytes; assumption).
  unfold sw_csa. destruct (length d <? 8)%nat; [exact F|].
  assert (S : forall l, Forall is_byte l -> Forall is_byte (stream_layer s cw l)).
  { intros l Fl. unfold stream_layer. destruct (disable_stream s); [exact Fl|apply stream_cipher_bytes, Fl]. }
  destruct enc.
  - apply S. unfold encrypt_layer. destruct (disable_block s); [exact F|].
    apply block_layer_bytes; [|exact F]. intros; apply rcbc_enc_wf; [|assumption]. intros; apply block_enc_wf; auto.
  - unfold decrypt_layer. destruct (disable_block s); [apply S, F|].
    apply block_layer_bytes; [|apply S, F]. intros; apply rcbc_dec_wf; [|assumption]. intros; apply block_dec_wf; auto.
Qed.

(** ** Classical *)
Lemma sw_decrypt_ok s be m key data len cw buf :
  length cw = 8%nat -> holds m key (ctx_bytes cw) -> holds m data buf ->
  len = N.of_nat (length buf) -> len < 2 ^ 32 -> disjoint key 72 data len ->
  wp (sw_decrypt s be m key data len) (fun m' => meq m' (put m data (sw_csa s false cw buf))).
Proof.
  intros Lc Hk Hb El Hl D. unfold sw_decrypt, sw_csa.
  destruct (N.ltb_spec len 8) as [H8|H8]; destruct (Nat.ltb_spec (length buf) 8) as [H8'|H8']; try lia.
  - cbn [wp]. apply meq_sym, put_holds, Hb.
  - apply wp_bind.
    assert (W : wp (if disable_stream s then Ok m else dvbcsa_stream_xor be m (key + 8) data (data + 8) (len - 8))
                   (fun m' => meq m' (put m data (stream_layer s cw buf)))).
    { unfold stream_layer. destruct (disable_stream s); [cbn [wp]; apply meq_sym, put_holds, Hb|].
      apply (stream_layer_ok be m key data len cw buf m buf); try assumption; try reflexivity.
      - eapply ctx_cw, Hk.
      - apply ctx_cws; assumption.
      - rewrite <- El; exact D.
      - apply meq_sym, put_holds, Hb.
      - exact (proj1 Hb). }
    eapply wp_mono; [exact W|]. intros m1 E1. cbv beta in E1. clear W. unfold decrypt_layer.
    destruct (disable_block s); [cbn [wp]; exact E1|].
    assert (LS : length (stream_layer s cw buf) = length buf) by apply stream_layer_length.
    assert (FS : Forall is_byte (stream_layer s cw buf)).
    { unfold stream_layer. destruct (disable_stream s); [exact (proj1 Hb)|apply stream_cipher_bytes; exact (proj1 Hb)]. }
    apply (dec_layer_ok be m key data (key_schedule cw)); try assumption.
    + apply ctx_sched; assumption.
    + apply key_schedule_length, Lc.
    + rewrite LS, <- El. apply sub_disjoint, D.
    + lia.
    + lia.
Qed.

Lemma sw_encrypt_ok s be m key data len cw buf :
  length cw = 8%nat -> holds m key (ctx_bytes cw) -> holds m data buf ->
  len = N.of_nat (length buf) -> len < 2 ^ 32 -> (disable_block s = false -> len < 2 ^ 31 + 16) -> disjoint key 72 data len ->
  wp (sw_encrypt s be m key data len) (fun m' => meq m' (put m data (sw_csa s true cw buf))).
Proof.
  intros Lc Hk Hb El Hl Hs D. unfold sw_encrypt, sw_csa.
  destruct (N.ltb_spec len 8) as [H8|H8]; destruct (Nat.ltb_spec (length buf) 8) as [H8'|H8']; try lia.
  - cbn [wp]. apply meq_sym, put_holds, Hb.
  - assert (Fb : Forall is_byte buf) by exact (proj1 Hb).
    assert (Ds : disjoint (key + 16) 56 data (N.of_nat (length buf))) by (rewrite <- El; apply sub_disjoint, D).
    assert (Hsch : holds m (key + 16) (key_schedule cw)) by (apply ctx_sched; assumption).
    pose proof (key_schedule_length cw Lc) as Ls.
    apply wp_bind. eapply (wp_mono _ (fun m1 => meq m1 (put m data (encrypt_layer s cw buf)))).
    + unfold encrypt_layer. destruct (disable_block s); [cbn [wp]; apply meq_sym, put_holds, Hb|]. specialize (Hs eq_refl).
      assert (EA : data + N.land len 0xfffffff8 - 8 = data + N.of_nat (8 * (length buf / 8 - 1))).
      { rewrite alen_ok by exact Hl. pose proof (Nat.div_mod (length buf) 8 ltac:(lia)) as DM. pose proof (Nat.mod_upper_bound (length buf) 8 ltac:(lia)).
        assert (EK : len / 8 = N.of_nat (length buf / 8)) by (subst len; rewrite Nat2N.inj_div; reflexivity). rewrite EK. lia. }
      rewrite EA. apply wp_bind. eapply wp_mono.
      { apply (enc_first_ok m key data (key_schedule cw) Hsch Ls buf Fb Ds H8' m). apply meq_sym, put_holds, Hb. }
      intros m2 E2.
      change (wp (x <- enc_loop be key data len m2 ;; match x with (_, m) => Ok m end)
        (fun m' => meq m' (put m data (block_layer (rcbc_enc (block_enc (key_schedule cw))) buf)))).
      apply wp_bind. eapply wp_mono; [apply (enc_loop_ok be m key data _ Hsch Ls buf Fb Ds H8' len m2); assumption|].
      intros [i m3] E3. exact E3.
    + intros m3 E3. unfold stream_layer. destruct (disable_stream s); [cbn [wp]; exact E3|].
      apply (stream_layer_ok be m key data len cw buf m3); try assumption.
      * eapply ctx_cw, Hk.
      * apply ctx_cws; assumption.
      * rewrite <- El; exact D.
      * unfold encrypt_layer. destruct (disable_block s); [exact Fb|].
        apply block_layer_bytes; [|exact Fb]. intros; apply rcbc_enc_wf; [|assumption].
        intros; apply block_enc_wf; [exact (proj1 Hsch)|assumption].
      * apply encrypt_layer_length.
Qed.

Theorem sw_is s enc be m key cw data len buf :
  length cw = 8%nat -> keyed be m key cw -> packet m key data len buf ->
  (enc = true -> disable_block s = false -> len < 2 ^ 31 + 16) ->
  rewrites m (sw_call s enc be m key data len) data len (sw_csa s enc cw buf).
Proof.
  intros L K (H & El & Hl & D) Hs. pose proof (keyed_ctx _ _ _ _ L K) as C.
  apply rewrites_of_wp.
  - destruct enc; [apply sw_encrypt_ok|apply sw_decrypt_ok]; auto.
  - apply sw_csa_bytes; [exact L|eapply keyed_bytes; eauto|exact (proj1 H)].
  - rewrite sw_csa_length. auto.
Qed.

(** ** Bitslice *)
Local Open Scope nat_scope.
Definition step_done (g : nat -> list N -> list N) (mb : nat) (ps : packets) (d d1 : list N) : Prop :=
  slots_done g mb ps d d1 /\ Forall is_byte d1.

Lemma prefix_csa_id M l : prefix_csa (fun x => x) M l = l.
Proof. apply firstn_skipn. Qed.
Lemma prefix_csa_comp g h M l : (forall x, length (g x) = length x) -> M <= length l -> prefix_csa h M (prefix_csa g M l) = prefix_csa (fun x => h (g x)) M l.
Proof.
  intros Lg HM. unfold prefix_csa at 1 3. unfold prefix_csa.
  assert (E : length (g (firstn M l)) = M) by (rewrite Lg, firstn_length; lia).
  rewrite firstn_app_exact, skipn_app_exact by exact E. reflexivity.
Qed.

Section Batch.
  Context (s : switches) (c : build) (jk : junk) (m : mem) (key pcks : N) (cw : list N) (ps : packets) (mb : nat).
  Hypothesis (Sp : supported c) (Lcw : length cw = 8) (K : bs_keyed c m key cw) (J : stack_ok c jk).
  Hypothesis (B : batch_array c m pcks ps) (Li : in_limits c ps) (Hm : mb <= 23).
  Let Hn : length ps <= batch_size c := proj1 Li.
  Let Hf : fits c 0 ps := fits_of_limits c ps Li.
  Let l8 := lens 0 ps (jk_len8 jk).
  Let d0 := layout 0 ps (jk_data jk).

  Lemma step_id d : Forall is_byte d -> step_done (fun _ l => l) mb ps d d.
  Proof. intros F. split; [|exact F]. split; [reflexivity|]. split; [|reflexivity]. intros. symmetry. apply prefix_csa_id. Qed.

  Lemma step_comp g h d d1 d2 : (forall i x, length (g i x) = length x) -> length d = batch_size c * slot ->
    step_done g mb ps d d1 -> step_done h mb ps d1 d2 -> step_done (fun i x => h i (g i x)) mb ps d d2.
  Proof.
    intros Lg Ld [(L1 & S1 & T1) F1] [(L2 & S2 & T2) F2]. split; [|exact F2]. split; [congruence|]. split.
    - intros i p buf E. rewrite (S2 i p buf E), (S1 i p buf E). apply prefix_csa_comp; [apply Lg|].
      rewrite sub_length; [lia|]. rewrite Ld. assert (i < length ps) by (apply nth_error_Some; congruence). unfold slot in *. nia.
    - intros k Hk. rewrite T2, T1 by exact Hk. reflexivity.
  Qed.

  Lemma step_stream pb : n_packets pb = length ps -> pbuf (batch_size c) (pdata pb) ->
    wp (if disable_stream s then Ok pb else dvbcsa_bs_stream_cipher_batch c (jk_regs jk) m key pb (N.of_nat (8 * mb)))
      (fun pb' => exists d1, pb' = set_pdata pb d1 /\ step_done (fun _ l => if length l <? 8 then l else stream_layer s cw l) mb ps (pdata pb) d1).
  Proof.
    intros En Pb. unfold stream_layer. destruct (disable_stream s).
    - cbn [wp]. exists (pdata pb). split; [destruct pb; reflexivity|].
      destruct (step_id (pdata pb) (proj2 Pb)) as [(L & S & T) F]. split; [|exact F]. split; [exact L|]. split; [|exact T].
      intros i p buf E. rewrite (S i p buf E) at 1. unfold prefix_csa. destruct (_ <? 8); reflexivity.
    - destruct (bs_keyed_facts c m key cw Lcw K) as (Fc & Al & Hk).
      eapply wp_mono; [apply (stream_batch_ok c (jk_regs jk) m key (fun _ => cw) pb mb); try assumption|].
      + apply Sp.
      + apply stack_regs, J.
      + apply key_stream_lanes_const; try assumption. apply ctx_stream; assumption.
      + rewrite En. exact Hn.
      + intros pb' (d1 & -> & S1). exists d1. split; [reflexivity|]. pose proof S1 as (L1 & F1 & _). split; [|exact F1].
        rewrite En in S1. split; [exact L1|]. split.
        * intros i p buf E. assert (Hi : i < length ps) by (apply nth_error_Some; congruence).
          rewrite (streamed_sub _ _ _ _ _ i _ S1 Hi); try assumption; try (unfold slot; lia).
          -- reflexivity.
          -- rewrite (proj1 Pb). unfold slot in *. nia.
        * intros k Hk'. apply (streamed_beyond _ _ _ _ _ _ S1 Hk').
  Qed.

  Lemma step_of_layer (F : list block -> list block) dis pb d1 : n_packets pb = length ps -> len8 pb = l8 -> pbuf (batch_size c) (pdata pb) ->
    (forall bs, length (F bs) = length bs) -> dis = false ->
    layered (fun _ => F) (len8 pb) (n_packets pb) mb (pdata pb) d1 ->
    step_done (fun _ l => if dis : bool then l else block_layer F l) mb ps (pdata pb) d1.
  Proof.
    intros En E8 Pb LF -> Y. pose proof Y as (L1 & F1 & _). split; [|exact F1]. split; [exact L1|].
    assert (L8 : length (jk_len8 jk) = batch_size c) by apply (so_len8 _ _ J).
    rewrite En, E8 in Y. split.
    - intros i p buf E. assert (Hi : i < length ps) by (apply nth_error_Some; congruence).
      rewrite (layered_sub _ _ _ _ _ _ i _ Y); try assumption; try (unfold slot; lia).
      + reflexivity.
      + rewrite (proj1 Pb). unfold slot in *. nia.
      + apply (nbk_min ps _ mb i p buf); try assumption. lia.
    - intros k Hk'. apply (layered_beyond _ _ _ _ _ _ _ Y Hk').
  Qed.

  Lemma step_block enc pb : n_packets pb = length ps -> len8 pb = l8 -> pbuf (batch_size c) (pdata pb) ->
    wp (if disable_block s then Ok pb else (if enc : bool then dvbcsa_bs_block_encrypt_batch else dvbcsa_bs_block_decrypt_batch) c (jk_block jk) m key pb (N.of_nat (8 * mb)))
      (fun pb' => exists d1, pb' = set_pdata pb d1 /\ step_done (fun _ => if enc then encrypt_layer s cw else decrypt_layer s cw) mb ps (pdata pb) d1).
  Proof.
    intros En E8 Pb.
    assert (L8 : length (jk_len8 jk) = batch_size c) by apply (so_len8 _ _ J).
    destruct (lens_ok ps (jk_len8 jk) ltac:(lia)) as [Ok8 _].
    destruct (disable_block s) eqn:Ed.
    - cbn [wp]. exists (pdata pb). split; [destruct pb; reflexivity|].
      destruct (step_id (pdata pb) (proj2 Pb)) as [(L & S & T) F]. split; [|exact F]. split; [exact L|]. split; [|exact T].
      intros i p buf E. rewrite (S i p buf E) at 1. unfold prefix_csa. unfold encrypt_layer, decrypt_layer. rewrite Ed. destruct enc; reflexivity.
    - destruct (bs_keyed_facts c m key cw Lcw K) as (Fc & Al & Hk).
      assert (KB : key_lanes c (key_block_word c m key) (fun _ => key_schedule cw)) by (apply key_words_lanes, ctx_block; assumption).
      destruct enc.
      + eapply wp_mono; [apply (block_encrypt_batch_ok c (jk_block jk) m key (fun _ => key_schedule cw) pb mb); try assumption|].
        * rewrite En. exact Hn.
        * rewrite En, E8. exact Ok8.
        * apply stack_block, J.
        * intros pb' (d1 & -> & S1). exists d1. split; [reflexivity|]. unfold encrypt_layer.
          apply (step_of_layer _ (disable_block s)); try assumption. apply rcbc_enc_length.
      + eapply wp_mono; [apply (block_decrypt_batch_ok c (jk_block jk) m key (fun _ => key_schedule cw) pb mb); try assumption|].
        * rewrite En. exact Hn.
        * rewrite En, E8. exact Ok8.
        * apply stack_block, J.
        * intros pb' (d1 & -> & S1). exists d1. split; [reflexivity|]. unfold decrypt_layer.
          apply (step_of_layer _ (disable_block s)); try assumption. apply rcbc_dec_length.
  Qed.

  Lemma done_ext g h d d1 : (forall i x, g i x = h i x) -> slots_done g mb ps d d1 -> slots_done h mb ps d d1.
  Proof.
    intros E (L & S & T). split; [exact L|]. split; [|exact T]. intros i p buf Ei. rewrite (S i p buf Ei). unfold prefix_csa. rewrite E. reflexivity.
  Qed.

  Lemma sw_run enc : wp (sw_bs_call s enc c jk m key pcks (N.of_nat (8 * mb)))
    (fun m' => exists d2, slots_done (fun _ => sw_csa s enc cw) mb ps d0 d2 /\ meq m' (write_all m (taken d2 0 ps))).
  Proof.
    assert (P0 : pbuf (batch_size c) d0) by (apply (d0_ok c jk m pcks ps); assumption).
    assert (RL : dvbcsa_pkt_buf_load c m pcks (mk_pb 0 (jk_len8 jk) (jk_data jk)) = Ok (mk_pb (length ps) l8 d0))
      by (apply (run_load c jk m pcks ps mb); assumption).
    assert (RS : forall d, length d = batch_size c * slot -> wp (dvbcsa_pkt_buf_store c m pcks (mk_pb (length ps) l8 d)) (fun m' => meq m' (write_all m (taken d 0 ps))))
      by (intros; apply (run_store c jk m pcks ps mb); assumption).
    destruct enc; unfold sw_bs_call, sw_bs_encrypt, sw_bs_decrypt; rewrite (maxlen_is_ok c ps mb Hn Hm), andb_false_r, RL; cbn [bind].
    - apply wp_bind. eapply wp_mono; [apply (step_block true (mk_pb (length ps) l8 d0)); try reflexivity; exact P0|].
      intros pb1 (d1 & -> & S1). cbn [set_pdata n_packets pdata len8] in *. pose proof S1 as [(L1 & _) F1].
      assert (P1 : pbuf (batch_size c) d1) by (split; [rewrite L1; apply P0|exact F1]).
      apply wp_bind. eapply wp_mono; [apply (step_stream (mk_pb (length ps) l8 d1)); [reflexivity|exact P1]|].
      intros pb2 (d2 & -> & S2). cbn [set_pdata n_packets pdata len8] in *. pose proof S2 as [(L2 & _) F2].
      eapply wp_mono; [apply RS; rewrite L2; apply P1|]. intros m' E. exists d2. split; [|exact E].
      eapply done_ext; [|eapply (step_comp (fun _ => encrypt_layer s cw)); [intros; apply encrypt_layer_length|apply P0|exact S1|exact S2] ].
      intros i x. cbv beta. rewrite encrypt_layer_length. unfold sw_csa. destruct (Nat.ltb_spec (length x) 8); [|reflexivity].
      unfold encrypt_layer. destruct (disable_block s); [reflexivity|]. apply block_layer_short; [apply rcbc_enc_length|assumption].
    - apply wp_bind. eapply wp_mono; [apply (step_stream (mk_pb (length ps) l8 d0)); [reflexivity|exact P0]|].
      intros pb1 (d1 & -> & S1). cbn [set_pdata n_packets pdata len8] in *. pose proof S1 as [(L1 & _) F1].
      assert (P1 : pbuf (batch_size c) d1) by (split; [rewrite L1; apply P0|exact F1]).
      apply wp_bind. eapply wp_mono; [apply (step_block false (mk_pb (length ps) l8 d1)); try reflexivity; exact P1|].
      intros pb2 (d2 & -> & S2). cbn [set_pdata n_packets pdata len8] in *. pose proof S2 as [(L2 & _) F2].
      eapply wp_mono; [apply RS; rewrite L2; apply P1|]. intros m' E. exists d2. split; [|exact E].
      eapply done_ext; [|eapply (step_comp (fun _ l => if length l <? 8 then l else stream_layer s cw l)); [intros; destruct (_ <? 8); [reflexivity|apply stream_layer_length]|apply P0|exact S1|exact S2] ].
      intros i x. cbv beta. unfold sw_csa. destruct (Nat.ltb_spec (length x) 8); [|reflexivity].
      unfold decrypt_layer. destruct (disable_block s); [reflexivity|]. apply block_layer_short; [apply rcbc_dec_length|assumption].
  Qed.

  Theorem sw_bs_is enc : exists m', sw_bs_call s enc c jk m key pcks (N.of_nat (8 * mb)) = Ok m' /\
    same_mem m' (write_all m (map_packets (on_prefix (sw_csa s enc cw) (N.of_nat (8 * mb))) ps)).
  Proof.
    pose proof Li as [_ F184].
    destruct (general_run_res _ c jk m pcks (fun _ => sw_csa s enc cw) ps mb (sw_run enc) J Hn Hf Hm) as (m' & outs & E & M & Lo & H).
    exists m'. split; [exact E|]. replace (map_packets _ ps) with outs; [exact M|].
    apply nth_error_ext. intros i. rewrite nth_error_map_packets. destruct (nth_error ps i) as [[p buf]|] eqn:Ei.
    - destruct (H i p buf Ei) as (out & Eo & Lout & H1 & _). rewrite Eo. cbn [option_map fst snd]. do 2 f_equal.
      assert (Hb : length buf <= 184) by (rewrite Forall_forall in F184; apply (F184 (p, buf)), (nth_error_In _ _ Ei)).
      rewrite !firstn_all2 in H1 by lia. exact H1.
    - cbn [option_map]. apply nth_error_None. apply nth_error_None in Ei. lia.
  Qed.
End Batch.
