(** BsAltAvx2.v -- an AVX2 build with --enable-alt-sbox computes something else (C23).

    configure.ac accepts the combination.  dvbcsa_bs_block.c:92-145 then redefines
    BLOCK_SBOX_PERMUTE to store S-box and permutation bytes interleaved, while the
    BS_LOAD_DEINTERLEAVE_8 of dvbcsa_bs_avx2.h:55-59 expects them separated already. *)
From Verif Require Import Base Mem Tables Spec ModelClassical ClassicalBlock ClassicalKey SpecLemmas SpecFacts ApiSpec ClassicalFacts
  ModelBsWord ModelBsTranspose ModelBsStream ModelBsBlock ModelBsAlgo BsApiSpec BsWordFacts BsView BsTransposeFacts BsStream BsSbox BsRegister BsBlock BsBatch BsKey BsSlot BsAlgo BsFacts BsApiFacts BsMoreFacts BsAvx2 BsReady.
Local Open Scope nat_scope.

Definition avx2_alt : build := mk_build AVX2 false true false true true true (Some (0, 0)%N).
Definition zero8 : list N := repeat 0%N 8.

Lemma for_ext {St} n : forall i (b b' : nat -> St -> res St) s, (forall j s, i <= j < i + n -> b j s = b' j s) -> for_ n i b s = for_ n i b' s.
Proof.
  induction n as [|n IH]; intros i b b' s H; [reflexivity|]. cbn [for_]. rewrite H by lia. destruct (b' i s); cbn [bind]; try reflexivity.
  apply IH. intros j s0 Hj. apply H. lia.
Qed.

Lemma encrypt_register_ext c k k' r s1 s2 : (forall i, i < 56 -> k i = k' i) -> encrypt_register c k r s1 s2 = encrypt_register c k' r s1 s2.
Proof.
  intros H. unfold encrypt_register. f_equal. apply for_ext. intros j [[[p r1] t1] t2] Hj.
  replace (key_xor c k j r1 (p + 8 * 7) t1) with (key_xor c k' j r1 (p + 8 * 7) t1); [reflexivity|].
  unfold key_xor. rewrite H by lia. reflexivity.
Qed.

Lemma encrypt_block_ext c bj m m' key key' pb off : (forall i, i < 56 -> key_block_word c m key i = key_block_word c m' key' i) ->
  encrypt_block c bj m key pb off = encrypt_block c bj m' key' pb off.
Proof.
  intros H. unfold encrypt_block. destruct (in_window 0 (bj_r bj) _); cbn [bind]; try reflexivity.
  rewrite (encrypt_register_ext c _ _ _ _ _ H). reflexivity.
Qed.

(* a memory that holds the round-key words of the all-zero control word at 0 *)
Definition zero_key_mem : mem := fun a => if (a <? 1792)%N then Some (a / 256)%N else None.
Definition pb0 : pkt_buf := mk_pb 1 (8%N :: repeat 0%N 255) (repeat 0%N (256 * 184)).
Definition bj0 : block_junk := jk_block (zero_stack avx2_alt) 0%N.

Fixpoint same_bytes (l l' : list N) : bool :=
  match l, l' with [], [] => true | a :: l, b :: l' => N.eqb a b && same_bytes l l' | _, _ => false end.
Lemma same_bytes_ok l : forall l', same_bytes l l' = true -> l = l'.
Proof. induction l as [|a l IH]; intros [|b l'] H; cbn in H; try discriminate; [reflexivity|]. apply andb_prop in H as [H1 H2]. apply N.eqb_eq in H1. f_equal; auto. Qed.

Definition wrong_block : list N := [207; 136; 199; 140; 251; 119; 232; 36]%N.

Lemma block_run : match encrypt_block avx2_alt bj0 zero_key_mem 0 pb0 0 with
  | Ok r => (n_packets r =? 1) && (N.of_nat (length (pdata r)) =? 47104)%N && forallb (fun b => b <? 256)%N (pdata r) && same_bytes (firstn 8 (pdata r)) wrong_block
  | _ => false end = true.
Proof. vm_compute. reflexivity. Qed.

Lemma zero_keys : key_schedule zero8 = flat_map (fun k => repeat (N.of_nat k) 8) (seq 0 7).
Proof. vm_compute. reflexivity. Qed.

Lemma zero_key_words i : i < 56 -> key_block_word avx2_alt zero_key_mem 0 i = Ok (repeat (nth i (key_schedule zero8) 0%N) 32).
Proof. intros H. rewrite zero_keys. do 56 (destruct i as [|i]; [vm_compute; reflexivity|]). lia. Qed.

Lemma lens_zero p : lens 0 [(p, zero8)] (repeat 0%N 256) = len8 pb0.
Proof. reflexivity. Qed.
Lemma layout_zero p : layout 0 [(p, zero8)] (repeat 0%N (256 * 184)) = pdata pb0.
Proof.
  cbn [layout pb0 pdata]. generalize (eq_refl (256 * 184)). generalize (256 * 184) at 1 3 4. intros n Hn.
  assert (H8 : 8 <= n) by (subst n; lia). clear Hn. replace n with (8 + (n - 8)) by lia. rewrite repeat_app. reflexivity.
Qed.

(* one packet of eight zero bytes under the all-zero control word *)
Theorem avx2_alt_wrong : exists m m' p,
  sane avx2_alt /\ bs_keyed avx2_alt m 0x2000 zero8 /\ stack_ok avx2_alt (zero_stack avx2_alt) /\
  batch_array avx2_alt m 0x100 [(p, zero8)] /\ in_limits avx2_alt [(p, zero8)] /\ good_maxlen 8 /\
  dvbcsa_bs_encrypt avx2_alt (zero_stack avx2_alt) m 0x2000 0x100 8 = Ok m' /\
  holds m' p wrong_block /\ wrong_block <> csa_encrypt zero8 zero8.
Proof.
  assert (Fz : Forall is_byte zero8) by (apply Forall_rep; reflexivity).
  set (c := avx2_alt).
  assert (Sc : sane c) by (split; [discriminate|intros a b E; inversion E; split; reflexivity]).
  destruct (state_exists c zero8 [zero8]) as (m & K & B & _ & _ & _); try reflexivity; try assumption.
  { intros k _. intros Q. discriminate Q. }
  { cbn. lia. }
  { constructor; [|constructor]. split; [cbn; lia|exact Fz]. }
  change (place 0 [zero8]) with [(0x4000%N, zero8)] in B.
  pose proof (zero_stack_ok c) as J.
  assert (Li : in_limits c [(0x4000%N, zero8)]) by (split; [cbn; lia|constructor; [cbn; lia|constructor]]).
  assert (G : good_maxlen 8) by (exists 1; split; [lia|reflexivity]).
  pose proof (fits_of_limits c _ Li) as Hf. pose proof Li as [Hn _].
  destruct (bs_keyed_facts c m 0x2000 zero8 eq_refl K) as (_ & Al & Hk).
  exists m.
  assert (Run : wp (dvbcsa_bs_encrypt c (zero_stack c) m 0x2000 0x100 8) (fun m' => holds m' 0x4000 wrong_block)).
  { unfold dvbcsa_bs_encrypt. rewrite (proj1 (good_maxlen_ok 8) G), andb_false_r.
    rewrite (run_load c (zero_stack c) m 0x100 _ 1 J B Hn Hf ltac:(lia)). cbn [bind].
    change (jk_len8 (zero_stack c)) with (repeat 0%N 256). change (jk_data (zero_stack c)) with (repeat 0%N (256 * 184)).
    rewrite lens_zero, layout_zero. change (mk_pb (length [(0x4000%N, zero8)]) (len8 pb0) (pdata pb0)) with pb0.
    apply wp_bind. unfold dvbcsa_bs_block_encrypt_batch.
    change (to_int (u32 (8 + 2 ^ 32 - 8))) with 0%Z. change (N.to_nat 8) with 8.
    cbn [while_]. change (0 <=? 0)%Z with true. cbn iota. change (Z.to_N 0) with 0%N.
    change (jk_block (zero_stack c) 0%N) with bj0.
    rewrite (encrypt_block_ext c bj0 m zero_key_mem 0x2000 0 pb0 0).
    2:{ intros i Hi. unfold c. rewrite zero_key_words by exact Hi.
        destruct (ctx_block c m 0x2000 zero8 eq_refl Fz Al Hk) as (_ & _ & Q). rewrite Q by exact Hi. reflexivity. }
    pose proof block_run as Br. fold c in Br.
    destruct (encrypt_block c bj0 zero_key_mem 0 pb0 0) as [pb1| | |] eqn:E1; try discriminate Br.
    apply andb_prop in Br as [Br Hd]. apply andb_prop in Br as [Br Hby]. apply andb_prop in Br as [Hnp Hlen].
    apply Nat.eqb_eq in Hnp. apply N.eqb_eq in Hlen. apply same_bytes_ok in Hd.
    cbn [bind]. change (int_ok (0 - 8)) with (Ok (-8)%Z). cbn [bind].
    change (0 <=? -8)%Z with false. cbn iota. cbn [bind wp].
    assert (Pb : pbuf (batch_size c) (pdata pb1)).
    { split; [change (batch_size c * slot) with (256 * 184); lia|]. apply Forall_forall. intros x Hx. rewrite forallb_forall in Hby. apply N.ltb_lt, Hby, Hx. }
    apply wp_bind. eapply wp_mono; [apply (stream_batch_ok c (jk_regs (zero_stack c)) m 0x2000 (fun _ => zero8) pb1 1); try assumption; try reflexivity|].
    - apply stack_regs, J.
    - apply key_stream_lanes_const; [reflexivity|exact Fz|]. apply ctx_stream; [reflexivity|exact Al|exact Hk].
    - rewrite Hnp. change (batch_size c) with 256. lia.
    - lia.
    - intros pb2 (d2 & -> & L2 & F2 & H2).
      eapply wp_mono; [apply (run_store c (zero_stack c) m 0x100 _ 1 B Hn Hf ltac:(lia) d2)|].
      + destruct Pb as [Lp _]. lia.
      + intros m' E. cbn [taken seq length combine map] in E.
        apply (holds_meq _ _ _ _ (meq_sym _ _ E)). unfold taken. cbn [combine map seq length write_all fst snd].
        replace (firstn (length zero8) (skipn (0 * slot) d2)) with wrong_block; [apply holds_put; repeat constructor|].
        cbn [Nat.mul skipn]. change (length zero8) with 8. rewrite <- Hd.
        apply (nth_ext _ _ 0%N 0%N).
        * rewrite !firstn_length. lia.
        * intros k Hk'. rewrite firstn_length in Hk'. rewrite !nth_firstn_lt by lia. rewrite H2.
          rewrite (Nat.mod_small k slot) by (unfold slot; lia). destruct (Nat.leb_spec 8 k); [lia|]. cbn [andb]. rewrite andb_false_r. reflexivity. }
  apply wp_ok in Run as (m' & E & H). exists m', 0x4000%N. repeat (split; [assumption|]). vm_compute. discriminate.
Qed.
