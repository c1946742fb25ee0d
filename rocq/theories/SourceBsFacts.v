(** SourceBsFacts.v -- the source text of the bitslice API: consequences of BsCApi.v. *)
From Coq Require Import String.
From Verif Require Import Base Mem Spec ModelBsWord ModelBsAlgo ApiSpec BsApiSpec BsWordFacts BsView BsTransposeFacts BsRegister BsStream BsAlgo BsFacts BsApiFacts BsMoreFacts BsAnyKey BsC SourceBitslice BsCRun BsCApi SourceBsSpec.
Local Open Scope N_scope.

Lemma from_start c rnd fuel : BsCBlock.prog_from c rnd fuel 0 = link c src_bs_tables (src_bs_structs c) rnd fuel (src_bs_program c).
Proof. reflexivity. Qed.

(* what the source computes is what the model computes, for some content of the model's locals *)
Theorem source_model enc c rnd fuel jk m key pcks ctx ps maxlen :
  call_possible c jk m key pcks ctx ps maxlen -> batch_aligned c pcks -> (256 < fuel)%nat ->
  exists jk' m', stack_ok c jk' /\ bs_call enc c jk' m key pcks maxlen = Ok m' /\ src_bs_call enc c rnd fuel m key pcks maxlen = Ok m'.
Proof.
  intros [Sp Al L Hk J B Li (mb & Hm & ->)] Ap Hf.
  assert (A : word_aligned c key = true) by (unfold word_aligned; apply N.eqb_eq; exact Al).
  assert (L' : length ctx = (120 * word_bytes c)%nat) by (unfold bs_ctx_size in L; lia).
  pose proof (ctx_stream_lanes c m key ctx A Hk L') as KS. pose proof (ctx_block_lanes c m key ctx A Hk L') as KB.
  assert (X : exists jk m' k', api_result c rnd fuel m key pcks mb [] [] enc jk m' 0 k').
  { destruct enc; [eapply encrypt_source|eapply decrypt_source]; try eassumption; try (apply Li); apply fits_of_limits; exact Li. }
  destruct X as (jk' & m' & k' & J' & E & R). exists jk', m'. split; [exact J'|]. split; [exact E|].
  unfold src_bs_call, run_bs_source. rewrite from_start in R. unfold bs_key_ptr, batch_ptr. rewrite R. reflexivity.
Qed.

(* and, up to extensionality of memories, for every content of the model's locals *)
Theorem source_every enc c rnd fuel jk m key pcks ctx ps maxlen m' :
  call_possible c jk m key pcks ctx ps maxlen -> batch_aligned c pcks -> (256 < fuel)%nat ->
  bs_call enc c jk m key pcks maxlen = Ok m' -> exists m1, src_bs_call enc c rnd fuel m key pcks maxlen = Ok m1 /\ same_mem m1 m'.
Proof.
  intros R Ap Hf E. destruct (source_model enc c rnd fuel jk m key pcks ctx ps maxlen R Ap Hf) as (jk' & m1 & J' & E1 & R1).
  exists m1. split; [exact R1|]. pose proof R as [Sp Al L Hk J B Li G].
  assert (A : word_aligned c key = true) by (unfold word_aligned; apply N.eqb_eq; exact Al).
  assert (L' : length ctx = (120 * word_bytes c)%nat) by (unfold bs_ctx_size in L; lia).
  destruct (any_context enc c jk m key pcks ctx ps maxlen Sp A Hk L' J B Li G) as (ma & oa & Ea & Ma & La & Ha).
  destruct (any_context enc c jk' m key pcks ctx ps maxlen Sp A Hk L' J' B Li G) as (mb & ob & Eb & Mb & Lb & Hb).
  assert (oa = ob). { apply nth_error_ext. intros i. destruct (nth_error ps i) as [[p buf]|] eqn:Ei; [rewrite (Ha i p buf Ei), (Hb i p buf Ei); reflexivity|].
    apply nth_error_None in Ei. transitivity (@None (N * list N)); [|symmetry]; apply nth_error_None; lia. }
  subst ob. intros x. replace m1 with mb by congruence. replace m' with ma by congruence. rewrite (Mb x), (Ma x). reflexivity.
Qed.

(** ** The assertions *)
Section Asserts.
  Local Open Scope string_scope. Local Open Scope N_scope.
  Context (c : build) (maxlen : N) (H : maxlen < 2 ^ 32).
  Notation S := (src_bs_structs c).
  Lemma plain o ta a tb b t n : MiniC.int_op o ta a tb b = Ok (MiniC.VInt t n) -> int_op c o ta a tb b = Ok (VInt t n).
  Proof. intros E. unfold int_op. rewrite E. reflexivity. Qed.
  Lemma mod8 : bin_op c S Mod (VInt U32 maxlen) (VInt I32 8) = Ok (VInt U32 (maxlen mod 8)).
  Proof.
    cbn [bin_op]. apply plain.
    change (MiniC.int_op Mod U32 maxlen I32 8) with (r <- MiniC.arith U32 (Z.rem (Z.of_N maxlen) 8) ;; Ok (MiniC.VInt U32 r)).
    rewrite Z.rem_mod_nonneg by lia.
    change (MiniC.arith U32 (Z.of_N maxlen mod 8)) with (@Ok N (Z.to_N ((Z.of_N maxlen mod 8) mod 4294967296))). cbn [bind].
    change 8%Z with (Z.of_N 8). rewrite <- N2Z.inj_mod.
    assert (maxlen mod 8 < 8) by (apply N.mod_lt; discriminate). rewrite Z.mod_small, N2Z.id by lia. reflexivity.
  Qed.
  Lemma le184 : bin_op c S Le (VInt U32 maxlen) (VInt I32 0xb8) = Ok (VInt I32 (if maxlen <=? 184 then 1 else 0)).
  Proof.
    cbn [bin_op]. apply plain.
    change (MiniC.int_op Le U32 maxlen I32 184) with (Ok (MiniC.truth (Z.of_N maxlen <=? 184)%Z)).
    replace (Z.of_N maxlen <=? 184)%Z with (maxlen <=? 184); [destruct (maxlen <=? 184); reflexivity|].
    destruct (N.leb_spec maxlen 184); destruct (Z.leb_spec (Z.of_N maxlen) 184); lia.
  Qed.

  Context (rnd : nat -> nat -> N) (fuel : nat) (m : mem) (key pcks : N).
  Notation avars := [("pbuf", BObj (TStruct "dvbcsa_bs_pkt_buf") 0%nat); ("key", BVal (TPtr (TStruct "dvbcsa_bs_key_s")) (Some (bs_key_ptr key))); ("pcks", BVal (TPtr (TStruct "dvbcsa_bs_batch_s")) (Some (batch_ptr pcks))); ("maxlen", BVal (TInt U32) (Some (VInt U32 maxlen)))].
  Lemma assert_abort calls O1 k l : maxlen_ok maxlen = false ->
    exec_seq c rnd fuel calls (SAssert (EBin Eq (EBin Mod (EVar "maxlen") (EConst I32 8)) (EConst I32 0)) :: SAssert (EBin Le (EVar "maxlen") (EConst I32 0xb8)) :: l) (mk_cst avars m O1 k) = Abort.
  Proof.
    intros E. unfold maxlen_ok in E. destruct (maxlen mod 8 =? 0) eqn:E8; cbn [andb] in E.
    - eapply seq_one; [eapply st_assert; eapply cond_ok; [eapply pv_bin; [eapply pv_bin; [pvx|pvx|apply mod8]|pvx|]|]|].
      + apply N.eqb_eq in E8. rewrite E8. reflexivity.
      + reflexivity.
      + cbn [exec_seq]. erewrite st_assert_fails; [reflexivity|]. eapply cond_ok; [eapply pv_bin; [pvx|pvx|apply le184]|]. rewrite E. reflexivity.
    - cbn [exec_seq]. erewrite st_assert_fails; [reflexivity|]. eapply cond_ok; [eapply pv_bin; [eapply pv_bin; [pvx|pvx|apply mod8]|pvx|]|].
      + cbn [bin_op]. apply plain. instantiate (1 := 0). instantiate (1 := I32).
        change (MiniC.int_op Eq U32 (maxlen mod 8) I32 0) with (Ok (MiniC.truth (Z.of_N (maxlen mod 8) =? 0)%Z)). replace (Z.of_N (maxlen mod 8) =? 0)%Z with false; [reflexivity|].
        symmetry. apply Z.eqb_neq. apply N.eqb_neq in E8. lia.
      + reflexivity.
  Qed.
  Lemma block_abort calls l s : exec_seq c rnd fuel calls l s = Abort -> exec c src_bs_tables S rnd fuel calls (SBlock l) s = Abort.
  Proof.
    intros E. cbn [BsC.exec].
    assert (K : forall l s, (fix seq (l : list stmt) (s : cstate) : res (outcome * cstate) :=
             match l with
             | [] => Ok (None, s)
             | a :: r => '(o, s) <- exec c src_bs_tables S rnd fuel calls a s ;; match o with Some _ => Ok (o, s) | None => seq r s end
             end) l s = exec_seq c rnd fuel calls l s).
    { reflexivity. }
    rewrite K, E. reflexivity.
  Qed.
  Lemma call_abort calls f vs s g0 : bind_params (fn_params f) vs = Ok g0 -> exec_seq c rnd fuel calls (fn_body f) (set_vars s g0) = Abort ->
    call_fun c src_bs_tables S rnd fuel calls f vs s = Abort.
  Proof. intros E1 E2. unfold call_fun. rewrite E1. cbn [bind]. rewrite (block_abort _ _ _ E2). reflexivity. Qed.
  Theorem source_abort enc : have_assert c = true -> maxlen_ok maxlen = false -> src_bs_call enc c rnd fuel m key pcks maxlen = Abort.
  Proof.
    intros A E. unfold src_bs_call, run_bs_source.
    assert (X : BsCBlock.prog_from c rnd fuel 0 (if enc then "dvbcsa_bs_encrypt" else "dvbcsa_bs_decrypt") [bs_key_ptr key; batch_ptr pcks; VInt U32 maxlen] (mk_cst [] m [] 0) = Abort).
    { destruct (pbuf_new c rnd 257 0 [] 0 ltac:(lia) ltac:(cbn; lia) ltac:(lia) ltac:(apply N.mod_0_l; unfold ptr_bytes; destruct (ptr64 c); discriminate) 0) as (n0 & x & l8 & d & En & _).
      destruct enc. idtac.
      - rewrite (BsCBlock.call_at c rnd fuel 0 1 _ (bs_encrypt c)); [|discriminate|reflexivity|reflexivity|unfold bs_encrypt; destruct (have_assert c); reflexivity].
        unfold bs_encrypt. rewrite A. eapply call_abort. params. cbn [fn_body set_vars].

        eapply seq_one. eapply xst_declobj; [exact Logic.I|exact En|reflexivity]. apply assert_abort, E.
      - rewrite (BsCBlock.call_at c rnd fuel 0 2 _ (bs_decrypt c)); [|discriminate|reflexivity|reflexivity|unfold bs_decrypt; destruct (have_assert c); reflexivity].
        unfold bs_decrypt. rewrite A. eapply call_abort. params. cbn [fn_body set_vars].

        eapply seq_one. eapply xst_declobj; [exact Logic.I|exact En|reflexivity]. apply assert_abort, E. }
    rewrite from_start in X. rewrite X. reflexivity.
  Qed.
End Asserts.

(* after a call the same batch is ready for another one *)
Lemma possible_again enc c jk jk' m key pcks ctx ps maxlen m1 :
  call_possible c jk m key pcks ctx ps maxlen -> stack_ok c jk' -> separate ps -> clear_of ps key (bs_ctx_size c) ->
  bs_call enc c jk m key pcks maxlen = Ok m1 -> exists outs, call_possible c jk' m1 key pcks ctx outs maxlen.
Proof.
  intros R J S Cl E. destruct (possible_each enc _ _ _ _ _ _ _ _ R) as (m1' & E1 & Fr1 & H1). assert (m1' = m1) by congruence. subst m1'.
  pose (f := fun i => on_prefix (at_lanes enc c ctx (spos c) (bcol c) i) maxlen).
  assert (Lf : forall i l, length (f i l) = length l) by (intros; apply on_prefix_length; intros; apply at_lanes_length).
  destruct (refill f ps Lf) as (outs & Rf & Ho).
  assert (H1' : forall i p o, nth_error outs i = Some (p, o) -> holds m1 p o).
  { intros i p o Eo. destruct (Ho i p o Eo) as (buf & Ep & ->). unfold f.
    refine (H1 i p buf Ep _). intros j q b Hj Ej. apply (S i j p buf q b Ep Ej). lia. }
  pose proof R as [Sp Al L Hk _ B Li G]. exists outs. constructor; try assumption.
  - eapply holds_ext; [exact Hk|]. intros x Hx. apply Fr1. intros p buf I Q. apply (Cl p buf I x). split; [unfold bs_ctx_size in *; lia|exact Q].
  - apply (batch_refilled c m m1 pcks ps outs); assumption.
  - destruct Li as [Hn F]. pose proof Rf as [Lo _]. split; [lia|]. apply Forall_forall. intros [p o] I. apply In_nth_error in I as [i Ei].
    destruct (refilled_back _ _ _ _ _ Rf Ei) as (buf & Ep & El). cbn [snd]. rewrite El. rewrite Forall_forall in F. apply (F (p, buf)), (nth_error_In _ _ Ep).
Qed.
