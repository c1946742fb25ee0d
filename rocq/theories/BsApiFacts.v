(** BsApiFacts.v -- the properties of the bitslice API, derived from BsFacts.v. *)
From Verif Require Import Base Mem Spec ModelClassical ClassicalBlock ClassicalKey SpecLemmas SpecFacts ApiSpec ClassicalFacts
  ModelBsWord ModelBsTranspose ModelBsStream ModelBsBlock ModelBsAlgo BsApiSpec BsWordFacts BsView BsStream BsSbox BsRegister BsBlock BsBatch BsKey BsSlot BsAlgo BsFacts.
Local Open Scope nat_scope.

Section Ready.
  Context (enc : bool) (c : build) (jk : junk) (m : mem) (key pcks : N) (cw : list N) (ps : packets) (maxlen : N).
  Hypothesis (R : call_ready c jk m key pcks cw ps maxlen).

  Lemma ready_csa : exists m', bs_call enc c jk m key pcks maxlen = Ok m' /\
    same_mem m' (write_all m (map_packets (on_prefix (csa enc cw) maxlen) ps)).
  Proof. destruct R. apply bs_is_csa; assumption. Qed.

  Lemma ready_each : exists m', bs_call enc c jk m key pcks maxlen = Ok m' /\
    (forall x, (forall p buf, In (p, buf) ps -> ~ (p <= x < p + N.of_nat (length buf))%N) -> m' x = m x) /\
    (forall i p buf, nth_error ps i = Some (p, buf) ->
       (forall j q b, i < j -> nth_error ps j = Some (q, b) -> disjoint p (N.of_nat (length buf)) q (N.of_nat (length b))) ->
       holds m' p (on_prefix (csa enc cw) maxlen buf)).
  Proof. destruct R. eapply bs_each; eassumption. Qed.

  Lemma ready_packet i p buf : nth_error ps i = Some (p, buf) -> separate ps ->
    exists m', bs_call enc c jk m key pcks maxlen = Ok m' /\ holds m' p (on_prefix (csa enc cw) maxlen buf).
  Proof.
    intros E S. destruct ready_each as (m' & Ok & _ & H). exists m'. split; [exact Ok|]. apply (H i p buf E).
    intros j q b Hj Ej. apply (S i j p buf q b E Ej). lia.
  Qed.
End Ready.

(* C06 *)
Lemma bs_short enc c jk m key pcks cw ps maxlen i p buf : call_ready c jk m key pcks cw ps maxlen -> separate ps ->
  nth_error ps i = Some (p, buf) -> length buf < 8 ->
  exists m', bs_call enc c jk m key pcks maxlen = Ok m' /\ holds m' p buf.
Proof.
  intros R S E L. destruct (ready_packet enc _ _ _ _ _ _ _ _ R i p buf E S) as (m' & Ok & H). exists m'. split; [exact Ok|].
  replace (on_prefix (csa enc cw) maxlen buf) with buf in H; [exact H|].
  unfold on_prefix. rewrite csa_short by (rewrite firstn_length; lia). symmetry. apply firstn_skipn.
Qed.

(* C17, C18: agreement with the classical functions *)
Definition classical_call (enc : bool) := if enc then dvbcsa_encrypt else dvbcsa_decrypt.

Lemma classical_is_csa enc be m key cw data len buf : length cw = 8 -> keyed be m key cw -> packet m key data len buf ->
  (enc = true -> len < 2 ^ 31 + 16)%N -> rewrites m (classical_call enc be m key data len) data len (csa enc cw buf).
Proof.
  intros L K P Hl. destruct enc; cbn [classical_call csa]; [apply (encrypt_is_csa be m key cw data len buf); auto|apply (decrypt_is_csa be m key cw data len buf); assumption].
Qed.

Lemma bs_matches_classical enc c jk m key pcks cw ps maxlen i p buf be mc keyc data out :
  call_ready c jk m key pcks cw ps maxlen -> separate ps -> nth_error ps i = Some (p, buf) ->
  let pre := firstn (N.to_nat maxlen) buf in
  keyed be mc keyc cw -> packet mc keyc data (N.of_nat (length pre)) pre ->
  rewrites mc (classical_call enc be mc keyc data (N.of_nat (length pre))) data (N.of_nat (length pre)) out ->
  exists m', bs_call enc c jk m key pcks maxlen = Ok m' /\ holds m' p (out ++ skipn (N.to_nat maxlen) buf).
Proof.
  intros R S E pre K P W. destruct (ready_packet enc _ _ _ _ _ _ _ _ R i p buf E S) as (m' & Ok & H). exists m'. split; [exact Ok|].
  assert (L184 : length buf <= 184).
  { destruct (rd_limits _ _ _ _ _ _ _ _ R) as [_ F]. rewrite Forall_forall in F. apply (F (p, buf)), (nth_error_In _ _ E). }
  pose proof (classical_is_csa enc be mc keyc cw data _ pre (rd_cw _ _ _ _ _ _ _ _ R) K P) as Q.
  assert (Hl : (N.of_nat (length pre) < 2 ^ 31 + 16)%N).
  { unfold pre. rewrite firstn_length. change (2 ^ 31)%N with 2147483648%N. lia. }
  specialize (Q (fun _ => Hl)). destruct W as (m1 & E1 & H1 & L1 & _). destruct Q as (m2 & E2 & H2 & L2 & _).
  assert (m1 = m2) by congruence. subst m2.
  assert (Eo : out = csa enc cw pre) by (apply (holds_inj m1 data); [exact H1|exact H2|lia]).
  unfold on_prefix in H. fold pre in H. rewrite <- Eo in H. exact H.
Qed.

(* C19 *)
Lemma bs_partial enc c jk m key pcks cw ps maxlen i p buf c2 jk2 m2 key2 pcks2 ps2 j p2 :
  call_ready c jk m key pcks cw ps maxlen -> separate ps -> nth_error ps i = Some (p, buf) ->
  call_ready c2 jk2 m2 key2 pcks2 cw ps2 maxlen -> separate ps2 -> nth_error ps2 j = Some (p2, firstn (N.to_nat maxlen) buf) ->
  exists m' m2' out, bs_call enc c jk m key pcks maxlen = Ok m' /\ bs_call enc c2 jk2 m2 key2 pcks2 maxlen = Ok m2' /\
    holds m2' p2 out /\ holds m' p (out ++ skipn (N.to_nat maxlen) buf).
Proof.
  intros R S E R2 S2 E2. destruct (ready_packet enc _ _ _ _ _ _ _ _ R i p buf E S) as (m' & Ok & H).
  destruct (ready_packet enc _ _ _ _ _ _ _ _ R2 j p2 _ E2 S2) as (m2' & Ok2 & H2).
  exists m', m2', (csa enc cw (firstn (N.to_nat maxlen) buf)). split; [exact Ok|]. split; [exact Ok2|]. split; [|exact H].
  rewrite on_prefix_all in H2 by (rewrite firstn_length; lia). exact H2.
Qed.

(* C21, C23: the result is a function of control word, content and maxlen *)
Lemma bs_function enc c jk m key pcks cw ps maxlen i p buf c2 jk2 m2 key2 pcks2 ps2 j p2 :
  call_ready c jk m key pcks cw ps maxlen -> separate ps -> nth_error ps i = Some (p, buf) ->
  call_ready c2 jk2 m2 key2 pcks2 cw ps2 maxlen -> separate ps2 -> nth_error ps2 j = Some (p2, buf) ->
  exists m' m2' out, bs_call enc c jk m key pcks maxlen = Ok m' /\ bs_call enc c2 jk2 m2 key2 pcks2 maxlen = Ok m2' /\
    length out = length buf /\ holds m' p out /\ holds m2' p2 out.
Proof.
  intros R S E R2 S2 E2. destruct (ready_packet enc _ _ _ _ _ _ _ _ R i p buf E S) as (m' & Ok & H).
  destruct (ready_packet enc _ _ _ _ _ _ _ _ R2 j p2 _ E2 S2) as (m2' & Ok2 & H2).
  exists m', m2', (on_prefix (csa enc cw) maxlen buf). split; [exact Ok|]. split; [exact Ok2|]. split; [|split; assumption].
  apply on_prefix_length, csa_length.
Qed.

(* C22 *)
Lemma bs_no_junk enc c jk jk' m key pcks cw ps maxlen :
  call_ready c jk m key pcks cw ps maxlen -> stack_ok c jk' ->
  exists m1 m2, bs_call enc c jk m key pcks maxlen = Ok m1 /\ bs_call enc c jk' m key pcks maxlen = Ok m2 /\ same_mem m1 m2.
Proof.
  intros R J. destruct (ready_csa enc _ _ _ _ _ _ _ _ R) as (m1 & E1 & M1).
  assert (R' : call_ready c jk' m key pcks cw ps maxlen) by (destruct R; constructor; assumption).
  destruct (ready_csa enc _ _ _ _ _ _ _ _ R') as (m2 & E2 & M2). exists m1, m2. split; [exact E1|]. split; [exact E2|].
  intros x. rewrite M1, M2. reflexivity.
Qed.

(* C24 *)
Lemma batch_again f c m pcks ps m' : (forall l, length (f l) = length l) -> (forall p buf, In (p, buf) ps -> Forall is_byte (f buf)) ->
  batch_array c m pcks ps -> separate ps -> same_mem m' (write_all m (map_packets f ps)) -> batch_array c m' pcks (map_packets f ps).
Proof.
  intros Lf Ff B S M. set (n := (N.of_nat (length ps * entry_bytes c + ptr_bytes c))%N).
  assert (Out : forall x, (pcks <= x < pcks + n)%N -> m' x = m x).
  { intros x Hx. rewrite M. apply write_all_out. intros p buf I. apply in_map_packets in I as (b & I & ->). rewrite Lf.
    apply In_nth_error in I as [i E]. destruct (ba_entry _ _ _ _ B i p b E) as (_ & _ & _ & _ & _ & D). intros Q. apply (D x). split; [exact Q|exact Hx]. }
  assert (Ee : entry_bytes c = 2 * ptr_bytes c) by reflexivity.
  assert (Ep : 4 <= ptr_bytes c) by (unfold ptr_bytes; destruct (ptr64 c); lia).
  constructor.
  - intros i p buf E. rewrite nth_error_map_packets in E. destruct (nth_error ps i) as [[q b]|] eqn:Ei; [|discriminate].
    cbn [option_map fst snd] in E. inversion E; subst. clear E.
    assert (Hi : i < length ps) by (apply nth_error_Some; congruence).
    assert (Hs : (i * entry_bytes c + entry_bytes c <= length ps * entry_bytes c)) by nia.
    destruct (ba_entry _ _ _ _ B i p b Ei) as (Hp & HL & Hb & H1 & H2 & D). rewrite Lf.
    unfold map_packets at 1. rewrite map_length.
    repeat (split; [solve [assumption]|]). split.
    { apply (holds_meq (write_all m (map_packets f ps))); [intros x; symmetry; apply M|]. apply (write_all_holds _ _ i).
      - rewrite nth_error_map_packets, Ei. reflexivity.
      - apply (Ff p), (nth_error_In _ _ Ei).
      - intros j q b' Hj Ej. rewrite nth_error_map_packets in Ej. destruct (nth_error ps j) as [[q0 b0]|] eqn:Ej0; [|discriminate].
        cbn [option_map fst snd] in Ej. inversion Ej; subst. rewrite !Lf. apply (S i j p b q b0); try assumption. lia. }
    split; [|split; [|exact D]].
    + eapply holds_ext; [exact H1|]. rewrite native_bytes_length. intros x Hx. apply Out. unfold n. lia.
    + eapply holds_ext; [exact H2|]. rewrite native_bytes_length. intros x Hx. apply Out. unfold n. lia.
  - unfold map_packets. rewrite map_length. eapply holds_ext; [apply (ba_end _ _ _ _ B)|]. rewrite native_bytes_length. intros x Hx. apply Out. unfold n. lia.
Qed.

(* no packet overlaps the region *)
Definition clear_of (ps : packets) (a n : N) : Prop := forall p buf, In (p, buf) ps -> disjoint a n p (N.of_nat (length buf)).

Lemma keyed_again c m key cw m' : bs_keyed c m key cw -> same_inside key (bs_ctx_size c) m m' -> bs_keyed c m' key cw.
Proof.
  intros (kj & m0 & cwp & m1 & H & M & D & E & S) S'. exists kj, m0, cwp, m1. repeat (split; [assumption|]).
  intros x Hx. rewrite (S' x Hx). apply S. exact Hx.
Qed.

Lemma write_back m ps f : separate ps -> (forall l, length (f l) = length l) -> (forall p buf, In (p, buf) ps -> holds m p buf) ->
  same_mem (write_all (write_all m (map_packets f ps)) ps) m.
Proof.
  intros S Lf H x.
  assert (D : (exists i p buf, nth_error ps i = Some (p, buf) /\ (p <= x < p + N.of_nat (length buf))%N) \/
              (forall p buf, In (p, buf) ps -> ~ (p <= x < p + N.of_nat (length buf))%N)).
  { clear. induction ps as [|[p b] ps IH]; [right; intros p buf []|].
    destruct (N.le_gt_cases p x) as [A|A]; [destruct (N.lt_ge_cases x (p + N.of_nat (length b))) as [A'|A']|].
    - left. exists 0, p, b. split; [reflexivity|lia].
    - destruct IH as [(i & q & bq & E & Q)|IH]; [left; exists (S i), q, bq; auto|right]. intros q bq [I|I]; [inversion I; subst; lia|apply IH, I].
    - destruct IH as [(i & q & bq & E & Q)|IH]; [left; exists (S i), q, bq; auto|right]. intros q bq [I|I]; [inversion I; subst; lia|apply IH, I]. }
  destruct D as [(i & p & buf & E & Q)|D].
  - rewrite (write_all_last ps _ i p buf x E Q).
    + destruct (H p buf (nth_error_In _ _ E)) as [_ Hb]. rewrite <- Hb by lia. f_equal. lia.
    + intros j q b Hj Ej Q'. apply (S i j p buf q b E Ej ltac:(lia) x). split; assumption.
  - rewrite write_all_out by exact D. apply write_all_out. intros p buf I. apply in_map_packets in I as (b & I & ->). rewrite Lf. apply D, I.
Qed.

Lemma bs_round_trip enc c jk jk' m key pcks cw ps maxlen :
  call_ready c jk m key pcks cw ps maxlen -> stack_ok c jk' -> separate ps -> clear_of ps key (bs_ctx_size c) ->
  exists m1 m2, bs_call enc c jk m key pcks maxlen = Ok m1 /\ bs_call (negb enc) c jk' m1 key pcks maxlen = Ok m2 /\ same_mem m2 m.
Proof.
  intros R J S Cl. destruct (ready_csa enc _ _ _ _ _ _ _ _ R) as (m1 & E1 & M1). exists m1.
  set (f := on_prefix (csa enc cw) maxlen) in *.
  assert (Lf : forall l, length (f l) = length l) by (intros; apply on_prefix_length, csa_length).
  destruct R as [Sp Lc K _ B Li G].
  destruct (bs_keyed_facts c m key cw Lc K) as (Fc & _).
  assert (R1 : call_ready c jk' m1 key pcks cw (map_packets f ps) maxlen).
  { constructor; try assumption.
    - apply (keyed_again c m); [exact K|]. intros x Hx. rewrite M1. apply write_all_out. intros p buf I. apply in_map_packets in I as (b & I & ->).
      rewrite Lf. intros Q. apply (Cl p b I x). split; assumption.
    - apply (batch_again f c m); try assumption. intros p buf I. apply on_prefix_bytes; [intros l Fl; apply csa_bytes; assumption|].
      apply (entry_bytes_ok c m pcks ps B p buf I).
    - destruct Li as [Hn F]. split; [unfold map_packets; rewrite map_length; exact Hn|]. unfold map_packets. rewrite Forall_map.
      eapply Forall_impl; [|exact F]. intros [p b] Hb. cbn [snd] in *. rewrite Lf. exact Hb. }
  destruct (ready_csa (negb enc) _ _ _ _ _ _ _ _ R1) as (m2 & E2 & M2). exists m2. split; [exact E1|]. split; [exact E2|].
  intros x. rewrite M2. unfold map_packets at 1 2. rewrite map_map. cbn [fst snd].
  replace (map (fun y : N * list N => (fst y, on_prefix (csa (negb enc) cw) maxlen (f (snd y)))) ps) with ps.
  2:{ rewrite <- (map_id ps) at 1. apply map_ext. intros [p b]. cbn [fst snd]. f_equal. symmetry. apply on_prefix_inv; [apply csa_length|apply csa_inv]. }
  rewrite (write_all_meq ps m1 _ M1 x). apply write_back; [exact S|exact Lf|]. intros p buf I. apply (entry_bytes_ok c m pcks ps B p buf I).
Qed.

(* C24 across the two APIs *)
Lemma cross_classical_to_bs enc c jk m key pcks cw ps maxlen i p be mc keyc data len buf out :
  call_ready c jk m key pcks cw ps maxlen -> separate ps -> nth_error ps i = Some (p, out) -> (N.of_nat (length out) <= maxlen)%N ->
  keyed be mc keyc cw -> packet mc keyc data len buf ->
  rewrites mc (classical_call enc be mc keyc data len) data len out ->
  exists m', bs_call (negb enc) c jk m key pcks maxlen = Ok m' /\ holds m' p buf.
Proof.
  intros R S E Hl K P W. destruct (ready_packet (negb enc) _ _ _ _ _ _ _ _ R i p out E S) as (m' & Ok & H). exists m'. split; [exact Ok|].
  assert (L184 : length out <= 184).
  { destruct (rd_limits _ _ _ _ _ _ _ _ R) as [_ F]. rewrite Forall_forall in F. apply (F (p, out)), (nth_error_In _ _ E). }
  destruct W as (m1 & E1 & H1 & L1 & _). 
  assert (Hlen : (len < 2 ^ 31 + 16)%N) by (change (2 ^ 31)%N with 2147483648%N; lia).
  destruct (classical_is_csa enc be mc keyc cw data len buf (rd_cw _ _ _ _ _ _ _ _ R) K P (fun _ => Hlen)) as (m2 & E2 & H2 & L2 & _).
  assert (m1 = m2) by congruence. subst m2.
  assert (Eo : out = csa enc cw buf) by (apply (holds_inj m1 data); [exact H1|exact H2|lia]).
  rewrite on_prefix_all in H by lia. rewrite Eo, csa_inv in H. exact H.
Qed.

Lemma cross_bs_to_classical enc c jk m key pcks cw ps maxlen i p be keyc buf m' :
  call_ready c jk m key pcks cw ps maxlen -> separate ps -> nth_error ps i = Some (p, buf) -> (N.of_nat (length buf) <= maxlen)%N ->
  bs_call enc c jk m key pcks maxlen = Ok m' ->
  keyed be m' keyc cw -> disjoint keyc ctx_size p (N.of_nat (length buf)) ->
  exists m2, classical_call (negb enc) be m' keyc p (N.of_nat (length buf)) = Ok m2 /\ holds m2 p buf.
Proof.
  intros R S E Hl Ok K D. destruct (ready_packet enc _ _ _ _ _ _ _ _ R i p buf E S) as (m1 & Ok1 & H). assert (m1 = m') by congruence. subst m1.
  rewrite on_prefix_all in H by lia.
  assert (L184 : length buf <= 184).
  { destruct (rd_limits _ _ _ _ _ _ _ _ R) as [_ F]. rewrite Forall_forall in F. apply (F (p, buf)), (nth_error_In _ _ E). }
  assert (Hlen : (N.of_nat (length buf) < 2 ^ 31 + 16)%N) by (change (2 ^ 31)%N with 2147483648%N; lia).
  destruct (classical_is_csa (negb enc) be m' keyc cw p (N.of_nat (length buf)) (csa enc cw buf) (rd_cw _ _ _ _ _ _ _ _ R) K) as (m2 & E2 & H2 & _).
  - split; [exact H|]. rewrite csa_length. split; [reflexivity|]. split; [change (2 ^ 32)%N with 4294967296%N; lia|exact D].
  - intros _. exact Hlen.
  - rewrite csa_inv in H2. exists m2. split; assumption.
Qed.

(* C25 *)
Lemma bs_frame enc c jk m key pcks cw ps maxlen : call_ready c jk m key pcks cw ps maxlen ->
  exists m', bs_call enc c jk m key pcks maxlen = Ok m' /\
    (forall x, (forall p buf, In (p, buf) ps -> ~ (p <= x < p + N.of_nat (length buf))%N) -> m' x = m x) /\
    same_inside pcks (N.of_nat (length ps * entry_bytes c + ptr_bytes c)) m m' /\
    (clear_of ps key (bs_ctx_size c) -> bs_keyed c m' key cw /\ same_inside key (bs_ctx_size c) m m').
Proof.
  intros R. destruct (ready_each enc _ _ _ _ _ _ _ _ R) as (m' & Ok & Fr & _). exists m'. split; [exact Ok|]. split; [exact Fr|]. split.
  - intros x Hx. apply Fr. intros p buf I Q. apply In_nth_error in I as [i E].
    destruct (ba_entry _ _ _ _ (rd_batch _ _ _ _ _ _ _ _ R) i p buf E) as (_ & _ & _ & _ & _ & D). apply (D x). split; assumption.
  - intros Cl. assert (S : same_inside key (bs_ctx_size c) m m').
    { intros x Hx. apply Fr. intros p buf I Q. apply (Cl p buf I x). split; assumption. }
    split; [|exact S]. apply (keyed_again c m); [apply (rd_key _ _ _ _ _ _ _ _ R)|exact S].
Qed.

Lemma good_maxlen_ok maxlen : good_maxlen maxlen <-> maxlen_ok maxlen = true.
Proof.
  unfold maxlen_ok. split.
  - intros (mb & Hm & ->). apply andb_true_intro. split; [|apply N.leb_le; lia].
    apply N.eqb_eq. rewrite Nat2N.inj_mul, N.mul_comm. apply N.mod_mul. discriminate.
  - intros H. apply andb_prop in H as [H1 H2]. apply N.eqb_eq in H1. apply N.leb_le in H2.
    exists (N.to_nat (maxlen / 8)). pose proof (N.div_mod maxlen 8 ltac:(discriminate)). split; lia.
Qed.

(* C27 *)
Lemma bs_overflow enc c jk m key pcks ps maxlen : stack_ok c jk -> batch_array c m pcks ps -> good_maxlen maxlen ->
  batch_size c < length ps -> Forall (fun x => length (snd x) <= 184) ps ->
  bs_call enc c jk m key pcks maxlen = UB OutOfBounds.
Proof.
  intros J B Hm Hn F. apply good_maxlen_ok in Hm.
  assert (L : dvbcsa_pkt_buf_load c m pcks (mk_pb 0 (jk_len8 jk) (jk_data jk)) = UB OutOfBounds).
  { unfold dvbcsa_pkt_buf_load. apply (load_overflow c m pcks ps B ps); try lia.
    - intros k x E. exact E.
    - apply fits_of_limits. split; [rewrite firstn_length; lia|]. apply Forall_firstn, F.
    - apply (so_len8 _ _ J).
    - apply (so_data _ _ J). }
  destruct enc; cbn [bs_call]; unfold dvbcsa_bs_encrypt, dvbcsa_bs_decrypt; rewrite Hm, andb_false_r, L; reflexivity.
Qed.

(* C20: overrun *)
Lemma bs_overrun enc c jk m key pcks ps maxlen i p buf : stack_ok c jk -> batch_array c m pcks ps -> good_maxlen maxlen ->
  length ps <= batch_size c -> nth_error ps i = Some (p, buf) -> (batch_size c - i) * 184 < length buf ->
  bs_call enc c jk m key pcks maxlen = UB OutOfBounds.
Proof.
  intros J B Hm Hn E Hl. apply good_maxlen_ok in Hm.
  assert (Hi : i < length ps) by (apply nth_error_Some; congruence).
  assert (NF : ~ fits c 0 ps).
  { assert (G : forall r a j, fits c a r -> nth_error r j = Some (p, buf) -> (a + j) * slot + length buf <= batch_size c * slot).
    { induction r as [|[p0 b0] r IH]; intros a j Hfr Ej; [destruct j; discriminate|]. cbn [fits] in Hfr. destruct Hfr as [H1 H2]. destruct j as [|j].
      - cbn [nth_error] in Ej. inversion Ej; subst. rewrite Nat.add_0_r. exact H1.
      - replace (a + S j) with (S a + j) by lia. apply IH; assumption. }
    intros Hf. specialize (G ps 0 i Hf E). unfold slot in G. nia. }
  assert (L : dvbcsa_pkt_buf_load c m pcks (mk_pb 0 (jk_len8 jk) (jk_data jk)) = UB OutOfBounds).
  { unfold dvbcsa_pkt_buf_load. apply (load_overrun c m pcks ps B ps); try lia; try exact NF.
    - intros k x E'. exact E'.
    - apply (so_len8 _ _ J).
    - apply (so_data _ _ J). }
  destruct enc; cbn [bs_call]; unfold dvbcsa_bs_encrypt, dvbcsa_bs_decrypt; rewrite Hm, andb_false_r, L; reflexivity.
Qed.

(* C20: silent corruption *)
Lemma bs_spill enc c jk m key pcks cw ps maxlen :
  supported c -> length cw = 8 -> bs_keyed c m key cw -> stack_ok c jk -> batch_array c m pcks ps -> good_maxlen maxlen ->
  length ps <= batch_size c -> (forall j r b, nth_error ps j = Some (r, b) -> length b <= (batch_size c - j) * 184) -> separate ps ->
  exists m', bs_call enc c jk m key pcks maxlen = Ok m' /\
    (* the first 184 bytes of every packet are processed *)
    (forall j r b, nth_error ps j = Some (r, b) -> holds m' r (on_prefix (csa enc cw) maxlen (firstn 184 b))) /\
    (* the bytes from offset 184 on are those of the next packet *)
    (forall i p buf q buf', nth_error ps i = Some (p, buf) -> nth_error ps (S i) = Some (q, buf') ->
       forall k, k < 184 -> k < length buf' -> 184 + k < length buf -> m' (p + N.of_nat (184 + k))%N = m' (q + N.of_nat k)%N) /\
    (* or unchanged if there is no next packet *)
    (forall i p buf, nth_error ps i = Some (p, buf) -> S i = length ps ->
       forall k, 184 <= k < length buf -> m' (p + N.of_nat k)%N = m (p + N.of_nat k)%N).
Proof.
  intros Sp Lc K J B (mb & Hm & ->) Hn Hl S.
  assert (Hf : fits c 0 ps).
  { assert (G : forall r a, (forall j s b, nth_error r j = Some (s, b) -> (a + j) * slot + length b <= batch_size c * slot) -> fits c a r).
    { induction r as [|[p0 b0] r IH]; intros a H; [exact I|]. cbn [fits]. split.
      - specialize (H 0 p0 b0 eq_refl). rewrite Nat.add_0_r in H. exact H.
      - apply IH. intros j s b Ej. replace (Datatypes.S a + j) with (a + Datatypes.S j) by lia. apply (H _ s b). exact Ej. }
    apply G. intros j s b Ej. assert (j < length ps) by (apply nth_error_Some; congruence). specialize (Hl j s b Ej). unfold slot. nia. }
  destruct (general_run enc c jk m key pcks cw ps mb Sp Lc K J B Hn Hf Hm) as (m' & outs & E & M & Lo & H).
  exists m'. split; [exact E|].
  destruct (bs_keyed_facts c m key cw Lc K) as (Fc & _).
  assert (Hd : forall j r b out, nth_error ps j = Some (r, b) -> nth_error outs j = Some (r, out) ->
     forall k, k < length b -> m' (r + N.of_nat k)%N = Some (nth k out 0%N)).
  { intros j r b out Ej Eo k Hk. rewrite M. destruct (H j r b Ej) as (out0 & Eo0 & L0 & _). assert (out0 = out) by congruence. subst out0.
    rewrite (write_all_last outs m j r out); [do 2 f_equal; lia|exact Eo|lia|].
    intros j' s b' Hj Ej' Q.
    assert (Hj' : j' < length ps) by (rewrite <- Lo; apply nth_error_Some; congruence).
    destruct (nth_error ps j') as [[s' bj]|] eqn:Ep; [|apply nth_error_None in Ep; lia].
    destruct (H j' s' bj Ep) as (o' & Eo' & L' & _). rewrite Ej' in Eo'. inversion Eo'; subst.
    apply (S j j' r b s' bj Ej Ep ltac:(lia) (r + N.of_nat k)%N). split; [lia|]. rewrite <- L'. exact Q. }
  split; [|split].
  - intros j r b Ej. destruct (H j r b Ej) as (out & Eo & L & H1 & _).
    assert (L1 : length (on_prefix (csa enc cw) (N.of_nat (8 * mb)) (firstn 184 b)) = Nat.min 184 (length b)).
    { rewrite on_prefix_length, firstn_length by (intros; apply csa_length). reflexivity. }
    split.
    + apply on_prefix_bytes; [intros l Fl; apply csa_bytes; assumption|]. apply Forall_firstn, (entry_bytes_ok c m pcks ps B r b), (nth_error_In _ _ Ej).
    + rewrite L1. intros k Hk. rewrite <- H1, nth_firstn_lt by lia. apply (Hd j r b out Ej Eo). lia.
  - intros i p buf q buf' Ei Ei' k Hk Hkb Hkl.
    destruct (H i p buf Ei) as (out & Eo & L & _ & H2 & _). destruct (H (Datatypes.S i) q buf' Ei') as (out' & Eo' & _).
    rewrite (Hd i p buf out Ei Eo) by lia. rewrite (Hd (Datatypes.S i) q buf' out' Ei' Eo') by lia. f_equal.
    apply (H2 q buf' out' Ei' Eo'); lia.
  - intros i p buf Ei Hlast k Hk. destruct (H i p buf Ei) as (out & Eo & L & _ & _ & H3).
    rewrite (Hd i p buf out Ei Eo) by lia. specialize (H3 Hlast).
    destruct (entry_bytes_ok c m pcks ps B p buf (nth_error_In _ _ Ei)) as [_ [_ Hm0]]. rewrite Hm0 by lia. f_equal.
    assert (Q : nth (k - 184) (skipn 184 out) 0%N = nth (k - 184) (skipn 184 buf) 0%N) by (rewrite H3; reflexivity).
    rewrite !nth_skipn in Q. replace (184 + (k - 184)) with k in Q by lia. exact Q.
Qed.
