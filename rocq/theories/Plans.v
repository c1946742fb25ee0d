(** Plans.v -- proofs for C42. *)
From Coq Require Import Permutation.
From Verif Require Import Base Mem Spec ModelClassical ApiSpec ClassicalFacts
  ModelBsWord ModelBsTranspose ModelBsAlgo BsApiSpec BsAlgo BsFacts BsApiFacts BsMoreFacts PlanSpec.
Local Open Scope nat_scope.

Definition all_packets (js : list job) : packets := concat (map packets_of js).

Lemma nth_error_perm {A} (l l' : list A) : Permutation l l' -> forall i j x y, nth_error l i = Some x -> nth_error l j = Some y -> i <> j ->
  exists i' j', nth_error l' i' = Some x /\ nth_error l' j' = Some y /\ i' <> j'.
Proof.
  induction 1 as [|a l l' P IH|a b l|l l1 l2 P1 IH1 P2 IH2]; intros i j x y Hi Hj Ne.
  - destruct i; discriminate.
  - destruct i as [|i], j as [|j]; cbn in Hi, Hj; try congruence.
    + apply nth_error_In in Hj. apply (Permutation_in _ P) in Hj. apply In_nth_error in Hj as (j' & Hj). exists 0, (S j'). auto.
    + apply nth_error_In in Hi. apply (Permutation_in _ P) in Hi. apply In_nth_error in Hi as (i' & Hi). exists (S i'), 0. auto.
    + destruct (IH i j x y Hi Hj ltac:(congruence)) as (i' & j' & A1 & A2 & A3). exists (S i'), (S j'). auto.
  - destruct i as [|[|i]], j as [|[|j]]; cbn in Hi, Hj; try congruence.
    + exists 1, 0. auto.
    + exists 1, (S (S j)). auto.
    + exists 0, 1. auto.
    + exists 0, (S (S j)). auto.
    + exists (S (S i)), 1. auto.
    + exists (S (S i)), 0. auto.
    + exists (S (S i)), (S (S j)). auto.
  - destruct (IH1 i j x y Hi Hj Ne) as (i1 & j1 & B1 & B2 & B3). apply (IH2 i1 j1 x y B1 B2 B3).
Qed.

Lemma separate_perm ps qs : Permutation ps qs -> separate ps -> separate qs.
Proof.
  intros P S i j p b p' b' Hi Hj Ne. destruct (nth_error_perm _ _ (Permutation_sym P) _ _ _ _ Hi Hj Ne) as (i' & j' & A & B & C).
  exact (S i' j' p b p' b' A B C).
Qed.

Lemma separate_map f ps : (forall l, length (f l) = length l) -> separate ps -> separate (map_packets f ps).
Proof.
  intros L S i j p b p' b' Hi Hj Ne. unfold map_packets in Hi, Hj. rewrite nth_error_map in Hi, Hj.
  destruct (nth_error ps i) as [[q c]|] eqn:Ei; [|discriminate]. destruct (nth_error ps j) as [[q' c']|] eqn:Ej; [|discriminate].
  cbn in Hi, Hj. injection Hi as <- <-. injection Hj as <- <-. rewrite !L. exact (S i j q c q' c' Ei Ej Ne).
Qed.

Lemma in_some_packet (ps : packets) x :
  (exists i p buf, nth_error ps i = Some (p, buf) /\ (p <= x < p + N.of_nat (length buf))%N) \/
  (forall p buf, In (p, buf) ps -> ~ (p <= x < p + N.of_nat (length buf))%N).
Proof.
  induction ps as [|[p b] ps IH]; [right; intros p buf []|].
  destruct (N.le_gt_cases p x) as [A|A]; [destruct (N.lt_ge_cases x (p + N.of_nat (length b))) as [A'|A']|].
  - left. exists 0, p, b. split; [reflexivity|lia].
  - destruct IH as [(i & q & bq & E & Q)|IH]; [left; exists (S i), q, bq; auto|right]. intros q bq [I|I]; [inversion I; subst; lia|apply IH, I].
  - destruct IH as [(i & q & bq & E & Q)|IH]; [left; exists (S i), q, bq; auto|right]. intros q bq [I|I]; [inversion I; subst; lia|apply IH, I].
Qed.

(* writing separate packets in another order gives the same memory *)
Lemma write_all_perm ps qs m : Permutation ps qs -> separate ps -> same_mem (write_all m ps) (write_all m qs).
Proof.
  intros P S x. destruct (in_some_packet ps x) as [(i & p & buf & E & Q)|D].
  - rewrite (write_all_last ps m i p buf x E Q).
    2:{ intros j q b Hj Ej Q'. apply (S i j p buf q b E Ej ltac:(lia) x). split; assumption. }
    pose proof (nth_error_In _ _ E) as I. apply (Permutation_in _ P) in I. apply In_nth_error in I as (i' & E').
    rewrite (write_all_last qs m i' p buf x E' Q); [reflexivity|].
    intros j q b Hj Ej Q'. apply (separate_perm _ _ P S i' j p buf q b E' Ej ltac:(lia) x). split; assumption.
  - rewrite write_all_out by exact D. rewrite write_all_out; [reflexivity|].
    intros p buf I. apply D, (Permutation_in _ (Permutation_sym P)), I.
Qed.


Section Plan.
  Variables (enc : bool) (cw : list N) (maxlen : N).
  Let f := on_prefix (csa enc cw) maxlen.

  Lemma f_length l : length (f l) = length l.
  Proof. apply on_prefix_length. intros. apply csa_length. Qed.

  (* one job *)
  Lemma job_run m j : job_ready m cw maxlen j -> (forall a n p buf, In (a, n) (inputs_of j) -> In (p, buf) (packets_of j) -> disjoint a n p (N.of_nat (length buf))) ->
    exists m', do_job enc maxlen m j = Ok m' /\ same_mem m' (write_all m (map_packets f (packets_of j))).
  Proof.
    destruct j as [c jk key pcks ps|be key p buf]; cbn [job_ready packets_of inputs_of do_job]; intros R D.
    - apply (ready_csa enc) in R. exact R.
    - destruct R as (L & K & H & (mb & Hm & Eml)).
      set (n := Nat.min (length buf) (8 * mb)).
      assert (En : N.min (N.of_nat (length buf)) maxlen = N.of_nat n) by (unfold n; lia).
      assert (Ef : firstn (8 * mb) buf = firstn n buf) by (unfold n; destruct (Nat.min_spec (length buf) (8 * mb)) as [[Q ->]|[Q ->]]; [rewrite firstn_all, firstn_all2 by lia|]; reflexivity).
      assert (Ln : length (firstn n buf) = n) by (rewrite firstn_length; unfold n; lia).
      rewrite En.
      assert (Pk : packet m key p (N.of_nat n) (firstn n buf)).
      { split; [|split; [|split]].
        - apply (holds_app m p (firstn n buf) (skipn n buf)). rewrite firstn_skipn. exact H.
        - rewrite Ln. reflexivity.
        - assert (n <= 184) by (unfold n; lia). change (2 ^ 32)%N with 4294967296%N. lia.
        - specialize (D key ctx_size p buf (or_introl eq_refl) (or_introl eq_refl)). intros x [Q1 Q2]. apply (D x). split; [exact Q1|]. unfold n in Q2. lia. }
      destruct (classical_is_csa enc be m key cw p (N.of_nat n) _ L K Pk) as (m' & E & Ho & Hl & So).
      { intros _. assert (n <= 184) by (unfold n; lia). change (2 ^ 31 + 16)%N with 2147483664%N. lia. }
      exists m'. split; [exact E|]. intros x. cbn [map_packets map fst snd write_all].
      unfold put. rewrite f_length. nb.
      + unfold f, on_prefix. rewrite Eml, Nat2N.id, Ef. set (o := csa enc cw (firstn n buf)) in *.
        assert (Lo : length o = n) by (unfold o; rewrite csa_length; exact Ln).
        destruct (Nat.lt_ge_cases (N.to_nat (x - p)) n) as [Q|Q].
        * rewrite app_nth1 by lia. destruct Ho as [_ Ho]. rewrite <- Ho by lia. f_equal. lia.
        * rewrite app_nth2 by lia. rewrite (So x) by lia.
          assert (Hn : n = 8 * mb) by (unfold n in *; lia).
          assert (Es : forall i, nth i (skipn (8 * mb) buf) 0%N = nth (8 * mb + i) buf 0%N).
          { intros i. rewrite <- (firstn_skipn (8 * mb) buf) at 2. rewrite app_nth2; rewrite firstn_length_le by lia; [f_equal; lia|lia]. }
          rewrite Es, Lo, Hn. destruct H as [_ H]. replace x with (p + N.of_nat (N.to_nat (x - p)))%N at 1 by lia. rewrite H by lia. do 2 f_equal. lia.
      + apply So. unfold n. lia.
      + apply So. unfold n. lia.
      + apply So. unfold n. lia.
  Qed.

  Lemma job_ready_later m m2 j : job_ready m cw maxlen j ->
    (forall a n, In (a, n) (inputs_of j) -> same_inside a n m m2) ->
    (forall p buf, In (p, buf) (packets_of j) -> same_inside p (N.of_nat (length buf)) m m2) -> job_ready m2 cw maxlen j.
  Proof.
    destruct j as [c jk key pcks ps|be key p buf]; cbn [job_ready packets_of inputs_of]; intros R Si Sp.
    - apply (ready_elsewhere _ _ m); [exact R|apply Si; cbn; auto|apply Si; cbn; auto|exact Sp].
    - destruct R as (L & (m0 & cwp & m1 & K1 & K2 & K3 & K4 & K5) & H & G). split; [exact L|]. split; [|split; [|exact G]].
      + exists m0, cwp, m1. repeat (split; [assumption|]). intros x Hx. rewrite (Si key ctx_size (or_introl eq_refl) x Hx). apply K5, Hx.
      + apply (holds_ext _ _ _ _ H). intros x Hx. apply (Sp p buf (or_introl eq_refl)). exact Hx.
  Qed.

  Lemma separate_app_l ps qs : separate (ps ++ qs) -> separate ps.
  Proof.
    intros S i j p b p' b' Hi Hj Ne. apply (S i j p b p' b'); [| |exact Ne]; (rewrite nth_error_app1; [assumption|apply nth_error_Some; congruence]).
  Qed.
  Lemma separate_app_r ps qs : separate (ps ++ qs) -> separate qs.
  Proof.
    assert (Q : forall i, nth_error (ps ++ qs) (length ps + i) = nth_error qs i).
    { intros i. rewrite nth_error_app2 by lia. f_equal. lia. }
    intros S i j p b p' b' Hi Hj Ne. apply (S (length ps + i) (length ps + j) p b p' b'); [rewrite Q; exact Hi|rewrite Q; exact Hj|lia].
  Qed.
  Lemma separate_app_cross ps qs p b q d : separate (ps ++ qs) -> In (p, b) ps -> In (q, d) qs -> disjoint p (N.of_nat (length b)) q (N.of_nat (length d)).
  Proof.
    intros S I1 I2. apply In_nth_error in I1 as (i & Hi). apply In_nth_error in I2 as (j & Hj).
    assert (i < length ps) by (apply nth_error_Some; congruence).
    apply (S i (length ps + j) p b q d); [rewrite nth_error_app1; assumption| |lia].
    rewrite nth_error_app2 by lia. replace (length ps + j - length ps) with j by lia. exact Hj.
  Qed.

  Lemma jobs_run js : forall m, Forall (job_ready m cw maxlen) js -> separate (all_packets js) -> inputs_clear js (all_packets js) ->
    exists m', do_jobs enc maxlen m js = Ok m' /\ same_mem m' (write_all m (map_packets f (all_packets js))).
  Proof.
    induction js as [|j js IH]; intros m F S C.
    { exists m. split; [reflexivity|]. intros x. reflexivity. }
    inversion F as [|? ? F1 F2]; subst. unfold all_packets in *. cbn [map concat do_jobs] in *.
    destruct (job_run m j F1) as (m1 & E1 & M1).
    { intros a n p buf Ia Ip. apply (C j a n p buf (or_introl eq_refl) Ia). apply in_or_app. left. exact Ip. }
    rewrite E1. cbn [bind].
    assert (Out : forall x, (forall p buf, In (p, buf) (packets_of j) -> ~ (p <= x < p + N.of_nat (length buf))%N) -> m1 x = m x).
    { intros x Hx. rewrite M1. apply write_all_out. intros p buf I. apply in_map_packets in I as (b & I & ->). rewrite f_length. apply Hx, I. }
    destruct (IH m1) as (m2 & E2 & M2).
    - rewrite Forall_forall in F2 |- *. intros k Ik. apply (job_ready_later m); [apply F2, Ik| |].
      + intros a n Ia x Hx. apply Out. intros p buf Ip Q. apply (C k a n p buf (or_intror Ik) Ia ltac:(apply in_or_app; left; exact Ip) x). split; assumption.
      + intros p buf Ip x Hx. apply Out. intros q d Iq Q.
        apply (separate_app_cross _ _ q d p buf S Iq) with (x := x); [|split; assumption].
        apply in_concat. exists (packets_of k). split; [apply in_map, Ik|exact Ip].
    - apply (separate_app_r _ _ S).
    - intros k a n p buf Ik Ia Ip. apply (C k a n p buf (or_intror Ik) Ia). apply in_or_app. right. exact Ip.
    - exists m2. split; [exact E2|]. intros x. rewrite M2. unfold map_packets. rewrite map_app, write_all_app.
      apply write_all_meq. intros y. apply M1.
  Qed.
End Plan.

Lemma map_packets_perm f ps qs : Permutation ps qs -> Permutation (map_packets f ps) (map_packets f qs).
Proof. apply Permutation_map. Qed.

Lemma plans_agree enc cw maxlen m js ks :
  Forall (job_ready m cw maxlen) js -> Forall (job_ready m cw maxlen) ks ->
  Permutation (all_packets js) (all_packets ks) -> separate (all_packets js) ->
  inputs_clear js (all_packets js) -> inputs_clear ks (all_packets js) ->
  exists m1 m2, do_jobs enc maxlen m js = Ok m1 /\ do_jobs enc maxlen m ks = Ok m2 /\ same_mem m1 m2.
Proof.
  intros Fj Fk P S Cj Ck.
  destruct (jobs_run enc cw maxlen js m Fj S Cj) as (m1 & E1 & M1).
  destruct (jobs_run enc cw maxlen ks m Fk (separate_perm _ _ P S)) as (m2 & E2 & M2).
  { intros k a n p buf Ik Ia Ip. apply (Ck k a n p buf Ik Ia), (Permutation_in _ (Permutation_sym P)), Ip. }
  exists m1, m2. split; [exact E1|]. split; [exact E2|]. intros x. rewrite M1, M2.
  apply write_all_perm; [apply map_packets_perm, P|]. apply separate_map; [intros; apply f_length|exact S].
Qed.
