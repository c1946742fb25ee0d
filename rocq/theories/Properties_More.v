(** Properties_More.v -- further properties: different ways of sending the same packets through the
    library (C42), what a change of one block does (C10, C43), and the exact condition for C31.
    Vocabulary: Spec.v, ApiSpec.v, BsApiSpec.v, PlanSpec.v. *)
From Coq Require Import Permutation.
From Verif Require Import Base Mem Spec ModelClassical ApiSpec ClassicalFacts ClassicalExamples KnownAnswers SpecMore
  ModelBsWord ModelBsTranspose ModelBsAlgo BsApiSpec BsKey BsFacts BsApiFacts BsMoreFacts BsReady PlanSpec Plans Properties_Bitslice.
Local Open Scope N_scope.

(* C42: two lists of calls that process the same packets -- in one batch or several, in any order,
   in any builds, packet by packet with the classical functions, or any mixture -- end in the same memory *)
Theorem C42_any_grouping : forall enc cw maxlen m js ks,
  let ps := concat (map packets_of js) in
  Forall (job_ready m cw maxlen) js -> Forall (job_ready m cw maxlen) ks ->
  Permutation ps (concat (map packets_of ks)) -> separate ps -> inputs_clear js ps -> inputs_clear ks ps ->
  exists m1 m2, do_jobs enc maxlen m js = Ok m1 /\ do_jobs enc maxlen m ks = Ok m2 /\ forall x, m1 x = m2 x.
Proof. exact plans_agree. Qed.
Print Assumptions C42_any_grouping.

(* C42: and that memory has every packet processed by the cipher, once, and nothing else changed *)
Theorem C42_each_packet_once : forall enc cw maxlen m js,
  let ps := concat (map packets_of js) in
  Forall (job_ready m cw maxlen) js -> separate ps -> inputs_clear js ps ->
  exists m', do_jobs enc maxlen m js = Ok m' /\
    (forall p buf, In (p, buf) ps -> holds m' p (on_prefix (csa enc cw) maxlen buf)) /\
    (forall x, (forall p buf, In (p, buf) ps -> ~ (p <= x < p + N.of_nat (length buf))) -> m' x = m x).
Proof.
  intros enc cw maxlen m js ps F S C. destruct (jobs_run enc cw maxlen js m F S C) as (m' & E & M).
  exists m'. split; [exact E|]. fold ps in M. change (all_packets js) with ps in M.
  split.
  - intros p buf I. apply (holds_meq (write_all m (map_packets (on_prefix (csa enc cw) maxlen) ps))); [intros x; symmetry; apply M|].
    apply In_nth_error in I as (i & Ei). apply (write_all_holds _ m i).
    + unfold map_packets. rewrite nth_error_map, Ei. reflexivity.
    + assert (Q : exists j, In j js /\ In (p, buf) (packets_of j)).
      { apply nth_error_In in Ei. apply in_concat in Ei as (l & Il & Ip). apply in_map_iff in Il as (j & <- & Ij). exists j. split; assumption. }
      destruct Q as (j & Ij & Ip). rewrite Forall_forall in F. specialize (F j Ij).
      destruct j as [c jk key pcks qs|be key q b]; cbn [job_ready packets_of] in F, Ip.
      * destruct F as [_ L K _ B _ _]. apply on_prefix_bytes.
        -- intros l Fl. apply csa_bytes; [exact L| |exact Fl]. destruct K as (? & ? & ? & ? & [K _] & _). exact K.
        -- apply In_nth_error in Ip as (n & En). destruct (ba_entry _ _ _ _ B n p buf En) as (_ & _ & [Hb _] & _). exact Hb.
      * destruct F as (L & K & H & _). destruct Ip as [Ip|[]]. injection Ip as -> ->. apply on_prefix_bytes.
        -- intros l Fl. apply csa_bytes; [exact L| |exact Fl]. destruct K as (? & ? & ? & [K _] & _). exact K.
        -- apply H.
    + intros j q b Hj Ej. unfold map_packets in Ej. rewrite nth_error_map in Ej. destruct (nth_error ps j) as [[q' b']|] eqn:Ej'; [|discriminate].
      cbn in Ej. injection Ej as <- <-. rewrite !on_prefix_length by (intros; apply csa_length).
      apply (S i j p buf q' b' Ei Ej'). lia.
  - intros x Hx. rewrite M. apply write_all_out. intros p buf I. apply in_map_packets in I as (b & I & ->).
    rewrite on_prefix_length by (intros; apply csa_length). apply Hx, I.
Qed.
Print Assumptions C42_each_packet_once.
(* a state in which the three packets can be sent as one batch, or one by one, last packet first *)
Example C42_case : forall t, exists m,
  let js := [Batch (ex_build t) (zero_stack (ex_build t)) 0x2000 0x100 (place 0 ex_bufs)] in
  let ks := map (fun x => Single false 0x1000 (fst x) (snd x)) (rev (place 0 ex_bufs)) in
  Forall (job_ready m cw1 96) js /\ Forall (job_ready m cw1 96) ks /\
  Permutation (concat (map packets_of js)) (concat (map packets_of ks)) /\ separate (concat (map packets_of js)) /\
  inputs_clear js (concat (map packets_of js)) /\ inputs_clear ks (concat (map packets_of js)).
Proof.
  intros t. destruct (ex_call t 96 good96) as (m & R & S & C & _). set (c := ex_build t) in *.
  set (m1 := put m 0x1000 (cw1 ++ repeat 0 64)).
  assert (H1 : holds m1 0x1000 (cw1 ++ repeat 0 64)) by (apply holds_put, bytes_of; reflexivity).
  destruct (key_set_total false m1 0x1000 0x1000 cw1 eq_refl) as (m2 & E2 & So & K2 & _).
  { apply (proj1 (holds_app m1 0x1000 cw1 (repeat 0 64))), H1. }
  { apply (holds_mapped m1 0x1000 _ H1). }
  { left. reflexivity. }
  assert (Q : forall x, ~ (0x1000 <= x < 0x1000 + 72) -> m2 x = m x).
  { intros x Hx. rewrite (So x Hx). apply put_out. change (N.of_nat (length (cw1 ++ repeat 0 64))) with 72. exact Hx. }
  assert (W : array_size c (place 0 ex_bufs) <= 0x40).
  { unfold array_size. change (length (place 0 ex_bufs)) with 3%nat. unfold entry_bytes, ptr_bytes. destruct (ptr64 c); lia. }
  assert (Wc : bs_ctx_size c <= 0x1000) by (subst c; destruct t; vm_compute; discriminate).
  assert (Pl : forall p buf, In (p, buf) (place 0 ex_bufs) -> 0x4000 <= p /\ holds m p buf).
  { intros p buf I. split.
    - repeat (destruct I as [I|I]; [injection I as <- _; vm_compute; discriminate|]). destruct I.
    - apply In_nth_error in I as (i & Ei). apply (ba_entry _ _ _ _ (rd_batch _ _ _ _ _ _ _ _ R) i p buf Ei). }
  assert (R2 : call_ready c (zero_stack c) m2 0x2000 0x100 cw1 (place 0 ex_bufs) 96).
  { apply (ready_elsewhere _ _ m); [exact R| | |]; try (intros x Hx; apply Q; lia).
    intros p buf I x Hx. apply Q. destruct (Pl p buf I). lia. }
  exists m2. cbv zeta. split; [constructor; [exact R2|constructor]|]. split; [|split; [|split; [|split]]].
  - apply Forall_forall. intros j I. apply in_map_iff in I as ([p buf] & <- & I). apply in_rev in I. cbn [job_ready fst snd].
    split; [reflexivity|]. split; [exact K2|]. split; [|exact good96].
    destruct (Pl p buf I) as [P1 P2]. apply (holds_ext _ _ _ _ P2). intros x Hx. apply Q. lia.
  - cbn [map concat packets_of]. rewrite app_nil_r, map_map. cbn [packets_of].
    replace (concat (map (fun x => [(fst x, snd x)]) (rev (place 0 ex_bufs)))) with (rev (place 0 ex_bufs)); [apply Permutation_rev|].
    induction (rev (place 0 ex_bufs)) as [|[p b] l IH]; [reflexivity|]. cbn [map concat fst snd app]. f_equal. exact IH.
  - cbn [map concat packets_of]. rewrite app_nil_r. exact S.
  - cbn [map concat packets_of]. rewrite app_nil_r. intros j a n p buf [<-|[]] Ia Ip. cbn [inputs_of] in Ia.
    destruct Ia as [Ia|[Ia|[]]]; injection Ia as <- <-; destruct (Pl p buf Ip) as [P1 _]; intros x Hx.
    + lia.
    + unfold array_size in W. lia.
  - cbn [map concat packets_of]. rewrite app_nil_r. intros j a n p buf Ij Ia Ip. apply in_map_iff in Ij as ([p' b'] & <- & _).
    cbn [inputs_of] in Ia. destruct Ia as [Ia|[]]. injection Ia as <- <-. destruct (Pl p buf Ip) as [P1 _]. intros x Hx. unfold ctx_size in Hx. lia.
Qed.

(* C10: bits that differ in whole ciphertext block k flip exactly the same bits of block k-1 of the result *)
Theorem C10_bit_flips : forall be m m' key cw data len c c' k out out',
  length cw = 8%nat -> keyed be m key cw -> keyed be m' key cw ->
  packet m key data len c -> packet m' key data len c' -> (1 <= k)%nat -> (8 * k + 8 <= length c)%nat ->
  (forall n, (n / 8 <> k)%nat -> nth n c 0 = nth n c' 0) ->
  rewrites m (dvbcsa_decrypt be m key data len) data len out ->
  rewrites m' (dvbcsa_decrypt be m' key data len) data len out' ->
  forall i, (i < 8)%nat ->
    N.lxor (nth (8 * (k - 1) + i) out 0) (nth (8 * (k - 1) + i) out' 0) = N.lxor (nth (8 * k + i) c 0) (nth (8 * k + i) c' 0).
Proof.
  intros be m m' key cw data len c c' k out out' L K K' P P' Hk Hl H R R' i Hi.
  rewrite (rewrites_inj _ _ _ _ _ _ R (decrypt_is_csa _ _ _ _ _ _ _ L K P)).
  rewrite (rewrites_inj _ _ _ _ _ _ R' (decrypt_is_csa _ _ _ _ _ _ _ L K' P')).
  destruct P as (_ & E & _), P' as (_ & E' & _).
  rewrite (error_bits cw c c' k); try assumption; try lia.
  replace (8 * (k - 1) + i + 8)%nat with (8 * k + i)%nat by lia. reflexivity.
Qed.
Print Assumptions C10_bit_flips.
Example C10_flip_case : let c := firstn 24 ct1 in let c' := firstn 20 ct1 ++ [0] ++ skipn 21 c in
  N.lxor (nth 12 (csa_decrypt cw1 c) 0) (nth 12 (csa_decrypt cw1 c') 0) = nth 20 c 0 /\ nth 20 c 0 <> 0.
Proof. vm_compute. split; [reflexivity|discriminate]. Qed.

(* C43: changing one whole block of a plaintext, in any way, changes the first ciphertext block
   (and with it the keystream that everything else is ciphered with) *)
Theorem C43_first_block_changes : forall be m m' key cw data len p p' k out out',
  length cw = 8%nat -> keyed be m key cw -> keyed be m' key cw ->
  packet m key data len p -> packet m' key data len p' -> len < 2 ^ 31 + 16 ->
  (8 * k + 8 <= length p)%nat -> p <> p' -> (forall n, (n / 8 <> k)%nat -> nth n p 0 = nth n p' 0) ->
  rewrites m (dvbcsa_encrypt be m key data len) data len out ->
  rewrites m' (dvbcsa_encrypt be m' key data len) data len out' ->
  exists i, (i < 8)%nat /\ nth i out 0 <> nth i out' 0.
Proof.
  intros be m m' key cw data len p p' k out out' L K K' P P' Hl Hk Ne H R R'.
  rewrite (rewrites_inj _ _ _ _ _ _ R (encrypt_is_csa _ _ _ _ _ _ _ L K P Hl)).
  rewrite (rewrites_inj _ _ _ _ _ _ R' (encrypt_is_csa _ _ _ _ _ _ _ L K' P' Hl)).
  destruct P as (_ & E & _), P' as (_ & E' & _).
  assert (Le : length p = length p') by lia.
  pose proof (first_block_differs cw p p' k Le Hk Ne H) as D.
  set (a := csa_encrypt cw p) in *. set (b := csa_encrypt cw p') in *.
  assert (La : length a = length p) by apply SpecLemmas.csa_encrypt_length. assert (Lb : length b = length p') by apply SpecLemmas.csa_encrypt_length.
  destruct (existsb (fun i => negb (nth i a 0 =? nth i b 0)) (seq 0 8)) eqn:X.
  - apply existsb_exists in X as (i & Ii & Hi). apply in_seq in Ii. exists i. split; [lia|]. intros Q. rewrite Q, N.eqb_refl in Hi. discriminate Hi.
  - exfalso. apply D. apply (SpecFacts.firstn_nth_ext 8 a b 0); [lia|lia|]. intros i Hi.
    destruct (N.eqb_spec (nth i a 0) (nth i b 0)) as [Q|Q]; [exact Q|]. exfalso.
    assert (X' : existsb (fun i => negb (nth i a 0 =? nth i b 0)) (seq 0 8) = true).
    { apply existsb_exists. exists i. split; [apply in_seq; lia|]. apply N.eqb_neq in Q. rewrite Q. reflexivity. }
    congruence.
Qed.
Print Assumptions C43_first_block_changes.
Example C43_case : let p := firstn 24 pt1 in let p' := firstn 20 pt1 ++ [nth 20 pt1 0 + 1] ++ skipn 21 p in
  p <> p' /\ forallb (fun n => N.eqb (nth n p 0) (nth n p' 0) || Nat.eqb (n / 8) 2) (seq 0 24) = true /\
  nth 0 (csa_encrypt cw1 p) 0 <> nth 0 (csa_encrypt cw1 p') 0.
Proof. vm_compute. repeat split; discriminate. Qed.

(* C31: in a uint32 build under ISO C, dvbcsa_bs_key_set is defined exactly for the control words whose
   round keys are all below 128 *)
Theorem C31_uint32_exact : forall c kj m cwp key cw,
  tgt c = UINT32 -> wrapv c = false -> word_aligned c key = true -> mapped m key (bs_ctx_size c) ->
  length cw = 8%nat -> holds m cwp cw -> bs_cw_source c cwp key ->
  ((exists m', dvbcsa_bs_key_set c kj m cwp key = Ok m') <-> (forall k, In k (key_schedule cw) -> k < 128)).
Proof.
  intros c kj m cwp key cw T W Al Mp L H S. split.
  - intros (m' & E) k I. destruct (N.lt_ge_cases k 128) as [Q|Q]; [exact Q|].
    rewrite (C31_uint32_overflow c kj m cwp key cw T W Al Mp L H S (ex_intro _ k (conj I Q))) in E. discriminate E.
  - intros F. destruct (key_set_runs c kj m cwp key cw) as (m' & E & _); try assumption.
    + intros k I _ _. apply F, I.
    + exists m'. exact E.
Qed.
Print Assumptions C31_uint32_exact.
Example C31_exact_case : (forall k, In k (key_schedule [0;0;0;0;0;0;0;0]) -> k < 128) /\ (exists k, In k (key_schedule cw1) /\ 128 <= k).
Proof.
  split.
  - assert (X : forallb (fun k => k <? 128) (key_schedule [0;0;0;0;0;0;0;0]) = true) by (vm_compute; reflexivity).
    intros k I. rewrite forallb_forall in X. apply N.ltb_lt, X, I.
  - assert (X : existsb (fun k => 128 <=? k) (key_schedule cw1) = true) by (vm_compute; reflexivity).
    rewrite existsb_exists in X. destruct X as (k & I1 & I2). exists k. split; [exact I1|]. apply N.leb_le, I2.
Qed.
