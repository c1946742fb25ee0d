(** BsCBlock.v -- the block cipher of a batch (dvbcsa_bs_block.c): blocks and batches of the source compute what the model computes. *)
From Coq Require Import String.
From Verif Require Import Base Mem Tables Spec ModelBsWord ModelBsTranspose ModelBsStream ModelBsBlock BsApiSpec BsWordFacts BsView BsTransposeFacts BsStream BsBlock BsSbox BsRegister BsBatch BsC SourceBitslice BsCRun BsCTranspose BsCPack BsCRegister BsCRounds.
From Verif Require MiniC MiniCRun.
Local Open Scope string_scope. Local Open Scope list_scope. Local Open Scope N_scope.
#[local] Opaque BS_AND BS_OR BS_XOR BS_NOT BS_SHL BS_SHR BS_VAL key_block_word.

(** ** Calls within the program *)
Definition bs_names : list string :=
  ["dvbcsa_bs_key_set"; "dvbcsa_bs_encrypt"; "dvbcsa_bs_decrypt"; "dvbcsa_pkt_buf_store"; "dvbcsa_pkt_buf_load"; "dvbcsa_bs_stream_cipher_batch"; "dvbcsa_bs_stream_cipher_kernel";
   "dvbcsa_bs_stream_cipher_kernel_init"; "dvbcsa_bs_stream_sbox7"; "dvbcsa_bs_stream_sbox6"; "dvbcsa_bs_stream_sbox5"; "dvbcsa_bs_stream_sbox4"; "dvbcsa_bs_stream_sbox3"; "dvbcsa_bs_stream_sbox2";
   "dvbcsa_bs_stream_sbox1"; "dvbcsa_bs_block_encrypt_batch"; "dvbcsa_bs_block_encrypt_block"; "dvbcsa_bs_block_encrypt_register"; "dvbcsa_bs_block_decrypt_batch"; "dvbcsa_bs_block_decrypt_block";
   "dvbcsa_bs_block_decrypt_register"; "dvbcsa_bs_stream_transpose_out"; "dvbcsa_bs_stream_transpose_in"; "dvbcsa_bs_matrix_transpose_64x32"; "dvbcsa_bs_matrix_transpose_64x";
   "dvbcsa_bs_block_transpose_out_and_xor"; "dvbcsa_bs_block_transpose_in"; "dvbcsa_bs_matrix_transpose_block"].
Definition named (fn : fundef) (x : string) : Prop := fn_name fn = x \/ fn_name fn = "".   (* "": not compiled for this target *)
Lemma names_ok c : Forall2 named (src_bs_program c) bs_names.
Proof.
  assert (X1 : forall c, fn_name (bs_block_encrypt_register c) = "dvbcsa_bs_block_encrypt_register") by (intros; rewrite enc_variants; reflexivity).
  assert (X2 : forall c, fn_name (bs_block_decrypt_register c) = "dvbcsa_bs_block_decrypt_register") by (intros; rewrite dec_variants; reflexivity).
  unfold src_bs_program, bs_names. repeat (apply Forall2_cons; [unfold named; first [left; reflexivity | left; apply X1 | left; apply X2 |
    destruct c as [t e al i p ha w pt]; destruct t, e, i, ha; first [left; reflexivity | right; reflexivity]]|]). apply Forall2_nil.
Qed.
Fixpoint index_of (x : string) (l : list string) : option nat := match l with [] => None | y :: r => if String.eqb x y then Some 0%nat else option_map Datatypes.S (index_of x r) end.
Definition prog_from (c : build) (rnd : nat -> nat -> N) (fuel i : nat) : callable := link c src_bs_tables (src_bs_structs c) rnd fuel (skipn i (src_bs_program c)).
Lemma link_nth c rnd fuel x vs s : x <> "" -> forall fs ns j fn, Forall2 named fs ns -> index_of x ns = Some j -> nth_error fs j = Some fn -> fn_name fn = x ->
  link c src_bs_tables (src_bs_structs c) rnd fuel fs x vs s = call_fun c src_bs_tables (src_bs_structs c) rnd fuel (link c src_bs_tables (src_bs_structs c) rnd fuel (skipn (Datatypes.S j) fs)) fn vs s.
Proof.
  intros Nx. induction fs as [|f r IH]; intros ns j fn F I E X; [destruct j; discriminate|]. destruct ns as [|y ns]; [inversion F|]. cbn [index_of] in I. cbn [link].
  destruct (String.eqb x y) eqn:Y.
  - injection I as <-. cbn in E. injection E as ->. rewrite X, String.eqb_refl. reflexivity.
  - inversion F as [|? ? ? ? H HF]; subst. replace (String.eqb (fn_name fn) (fn_name f)) with false.
    2: { symmetry. apply String.eqb_neq. intros Q. destruct H as [H|H]; [rewrite Q, H, String.eqb_refl in Y; discriminate|rewrite H in Q; contradiction]. }
    destruct (index_of (fn_name fn) ns) as [k|] eqn:K; [|discriminate]. cbn in I. injection I as <-. cbn [nth_error] in E. rewrite (IH ns k fn HF K E eq_refl). reflexivity.
Qed.
Lemma nth_error_skipn' {A} (l : list A) : forall i j, nth_error (skipn i l) j = nth_error l (i + j).
Proof. induction l as [|a r IH]; intros [|i] j; cbn; try reflexivity; [destruct j; reflexivity|apply IH]. Qed.
Lemma skipn_skipn' {A} (l : list A) : forall i j, skipn j (skipn i l) = skipn (i + j) l.
Proof. induction l as [|a r IH]; intros [|i] j; cbn; try reflexivity; [destruct j; reflexivity|apply IH]. Qed.
Lemma Forall2_skipn {A B} (R : A -> B -> Prop) l l' : Forall2 R l l' -> forall i, Forall2 R (skipn i l) (skipn i l').
Proof. induction 1; intros [|i]; cbn; try constructor; auto. Qed.
Lemma call_at c rnd fuel i j x fn vs s : x <> "" -> index_of x (skipn i bs_names) = Some j -> nth_error (src_bs_program c) (i + j) = Some fn -> fn_name fn = x ->
  prog_from c rnd fuel i x vs s = call_fun c src_bs_tables (src_bs_structs c) rnd fuel (prog_from c rnd fuel (Datatypes.S (i + j))) fn vs s.
Proof.
  intros Nx I E X. unfold prog_from. rewrite (link_nth c rnd fuel x vs s Nx (skipn i (src_bs_program c)) (skipn i bs_names) j fn (Forall2_skipn _ _ _ (names_ok c) i) I); [|rewrite nth_error_skipn'; exact E|exact X].
  rewrite skipn_skipn'. do 3 f_equal. lia.
Qed.

Lemma block_matrix_call c rnd fuel : (64 < fuel)%nat -> matrix_call c (prog_from c rnd fuel 27) "dvbcsa_bs_matrix_transpose_block" (matrix_transpose_block (BS_SWAP c)).
Proof.
  intros Hf g m O k i f pre post row row' G M. rewrite (call_at c rnd fuel 27 0 _ (bs_matrix_transpose_block c)); [|discriminate|reflexivity|reflexivity|].
  - apply (block_source c rnd fuel _ m k O i f pre post row Hf G g row' M).
  - destruct c as [t e al i0 p ha w pt]; destruct t, e; reflexivity.
Qed.
Lemma block_matrix_call26 c rnd fuel : (64 < fuel)%nat -> matrix_call c (prog_from c rnd fuel 26) "dvbcsa_bs_matrix_transpose_block" (matrix_transpose_block (BS_SWAP c)).
Proof.
  intros Hf g m O k i f pre post row row' G M. rewrite (call_at c rnd fuel 26 1 _ (bs_matrix_transpose_block c)); [|discriminate|reflexivity|reflexivity|].
  - apply (block_source c rnd fuel _ m k O i f pre post row Hf G g row' M).
  - destruct c as [t e al i0 p ha w pt]; destruct t, e; reflexivity.
Qed.
Lemma any_words_wrows c rnd k n : wrows c n (any_words c rnd k n).
Proof.
  unfold any_words. split; [rewrite map_length, seq_length; reflexivity|]. apply Forall_forall. intros w H. apply in_map_iff in H as (j & <- & _). split; [rewrite map_length, seq_length; reflexivity|].
  apply Forall_forall. intros x H. apply in_map_iff in H as (q & <- & _). unfold is_byte. apply N.mod_lt. discriminate.
Qed.
Lemma n_s2_words c : n_s2 c = s2_words c. Proof. reflexivity. Qed.
Lemma dbl_all a b n : length a = (n * slot)%nat -> length b = (n * slot)%nat -> (forall i t, (t < 23)%nat -> dbl a (23 * i + t) = dbl b (23 * i + t)) -> a = b.
Proof.
  intros La Lb H. apply (nth_ext _ _ 0 0); [lia|]. intros k Hk. unfold slot in *.
  pose proof (Nat.div_mod k 8 ltac:(lia)). pose proof (Nat.mod_upper_bound k 8 ltac:(lia)). pose proof (Nat.div_mod (k / 8) 23 ltac:(lia)). pose proof (Nat.mod_upper_bound (k / 8) 23 ltac:(lia)).
  specialize (H (k / 8 / 23)%nat (k / 8 mod 23)%nat ltac:(lia)). replace (23 * (k / 8 / 23) + k / 8 mod 23)%nat with (k / 8)%nat in H by lia.
  remember (k / 8)%nat as u. remember (k mod 8)%nat as v. unfold dbl in H. injection H as Q0 Q1 Q2 Q3 Q4 Q5 Q6 Q7.
  replace k with (8 * u + v)%nat by lia. do 8 (destruct v as [|v]; [rewrite ?Nat.add_0_r; assumption|]). lia.
Qed.
Lemma emitted_fun enc l8 t f d n d1 d2 q : length d = (q * slot)%nat -> emitted enc l8 t f d n d1 -> emitted enc l8 t f d n d2 -> d1 = d2.
Proof.
  intros L (L1 & _ & H1) (L2 & _ & H2). apply (dbl_all _ _ q); [congruence|congruence|]. intros i t' Ht. rewrite H1, H2 by exact Ht. reflexivity.
Qed.

Section Blocks.
  Context (c : build) (rnd : nat -> nat -> N) (fuel : nat) (m : mem) (key : N) (kk : nat -> list N) (O : list object) (ip n : nat) (l8 d00 : list N).
  Context (Hf : (256 < fuel)%nat) (Sp : supported c) (HK : key_lanes c (key_block_word c m key) kk) (Hn : (n <= batch_size c)%nat) (Hok : len8_ok n l8) (Hl : Forall (fun l => l < 2 ^ 32) l8).
  Context (GD : getc O ip "data" = Ok (CBytes d00)) (GN : getc O ip "n_packets" = Ok (CInts I32 [N.of_nat n])) (GL : getc O ip "len8" = Ok (CInts U32 l8)).
  Notation T := src_bs_tables. Notation S := (src_bs_structs c).
  Notation PB := (TStruct "dvbcsa_bs_pkt_buf"). Notation KEY := (TStruct "dvbcsa_bs_key_s").
  Definition od (d : list N) : list object := setc O ip "data" (CBytes d).
  Lemma od_D d : getc (od d) ip "data" = Ok (CBytes d). Proof. unfold od. rewrite (getc_setc _ _ _ _ _ _ _ GD), Nat.eqb_refl. reflexivity. Qed.
  Lemma od_N d : getc (od d) ip "n_packets" = Ok (CInts I32 [N.of_nat n]). Proof. unfold od. rewrite (getc_setc _ _ _ _ _ _ _ GD), Nat.eqb_refl. exact GN. Qed.
  Lemma od_L d : getc (od d) ip "len8" = Ok (CInts U32 l8). Proof. unfold od. rewrite (getc_setc _ _ _ _ _ _ _ GD), Nat.eqb_refl. exact GL. Qed.
  Lemma od_len d : length (od d) = length O. Proof. apply setc_length. Qed.
  Lemma od_set d d' : setc (od d) ip "data" (CBytes d') = od d'. Proof. apply setc_same. Qed.
  (* with the local r[] *)
  Definition ol (d : list N) (r : list word) : list object := od d ++ [[("", CWords r)]].
  Lemma ip_lt : (ip < length O)%nat. Proof. exact (getc_lt _ _ _ _ GD). Qed.
  Lemma ol_R d r : getc (ol d r) (length O) "" = Ok (CWords r). Proof. unfold ol. apply getc_end; [symmetry; apply od_len|reflexivity]. Qed.
  Lemma ol_setR d r r' : setc (ol d r) (length O) "" (CWords r') = ol d r'.
  Proof. unfold ol. rewrite (setc_end _ _ _ _ _ [("", CWords r')]); [reflexivity|symmetry; apply od_len|reflexivity]. Qed.
  Lemma ol_setD d r d' : setc (ol d r) ip "data" (CBytes d') = ol d' r.
  Proof. pose proof ip_lt. unfold ol. rewrite setc_app by (rewrite od_len; assumption). rewrite od_set. reflexivity. Qed.
  Opaque od.
  Lemma set_row base (r : list word) : (base + 64 <= length r)%nat -> firstn base r ++ firstn 64 (skipn base r) ++ skipn (base + 64) r = r.
  Proof. intros L. rewrite <- skipn_skipn'. rewrite firstn_skipn. apply firstn_skipn. Qed.
  Lemma in_call q base d r r' off g k : (q <= 26)%nat -> wrows c 512 r -> Forall is_byte d -> off < 2 ^ 30 -> (base + 64 <= 512)%nat ->
    in_window base r (fun w => dvbcsa_bs_block_transpose_in c w (mk_pb n l8 d) off) = Ok r' ->
    prog_from c rnd fuel q "dvbcsa_bs_block_transpose_in" [VPtr TWord (Obj (length O) "" (wo c base)); VPtr PB (Obj ip "" 0); VInt U32 off] (mk_cst g m (ol d r) k) = Ok (None, mk_cst g m (ol d r') k).
  Proof.
    intros Hq [Lr Wr] Bd Ho Hb M. pose proof ip_lt. unfold in_window in M. rewrite (proj2 (Nat.leb_le _ _)) in M by lia. gob M. injection M as <-.
    assert (Q : off < 2 ^ 32 /\ off / 8 < 2 ^ 31). { change (2 ^ 30) with 1073741824 in Ho. change (2 ^ 32) with 4294967296. change (2 ^ 31) with 2147483648. split; [lia|]. apply N.div_lt_upper_bound; lia. }
    rewrite (call_at c rnd fuel q (26 - q) _ (bs_block_transpose_in c)); [|discriminate|do 27 (destruct q as [|q]; [reflexivity|]); lia|replace (q + (26 - q))%nat with 26%nat by lia; reflexivity|reflexivity].
    replace (Datatypes.S (q + (26 - q))) with 27%nat by lia.
    assert (Lb : length (firstn base r) = base) by (rewrite firstn_length; lia). rewrite <- Lb at 1.
    rewrite <- (ol_setR d r (firstn base r ++ v ++ skipn (base + 64) r)).
    eapply (block_in c rnd fuel _ m (ol d r) ip (length O) "" (firstn base r) (skipn (base + 64) r) (firstn 64 (skipn base r)) n l8 d); try assumption; try lia.
    - rewrite set_row by lia. apply ol_R.
    - unfold ol. apply getc_app, od_D.
    - unfold ol. apply getc_app, od_N.
    - apply Forall_firstn, Forall_skipn, Wr.
    - apply block_matrix_call; lia.
  Qed.
  Lemma out_call q enc base d r pb' off g k : (q <= 25)%nat -> wrows c 512 r -> Forall is_byte d -> off < 2 ^ 30 -> (base + 64 <= 512)%nat ->
    dvbcsa_bs_block_transpose_out_and_xor c (firstn 64 (skipn base r)) (mk_pb n l8 d) off enc = Ok pb' ->
    exists d' r' k', pb' = mk_pb n l8 d' /\ prog_from c rnd fuel q "dvbcsa_bs_block_transpose_out_and_xor" [VPtr TWord (Obj (length O) "" (wo c base)); VPtr PB (Obj ip "" 0); VInt U32 off; VInt I32 (if enc then 1 else 0)] (mk_cst g m (ol d r) k) =
      Ok (None, mk_cst g m (ol d' r') k').
  Proof.
    intros Hq [Lr Wr] Bd Ho Hb M. pose proof ip_lt. pose proof Sp as [Sa _].
    assert (Q : off < 2 ^ 32 /\ off / 8 < 2 ^ 31). { change (2 ^ 30) with 1073741824 in Ho. change (2 ^ 32) with 4294967296. change (2 ^ 31) with 2147483648. split; [lia|]. apply N.div_lt_upper_bound; lia. }
    assert (Lb : length (firstn base r) = base) by (rewrite firstn_length; lia).
    destruct (block_out c rnd fuel (prog_from c rnd fuel 26) m (ol d r) ip (length O) "" (firstn base r) (skipn (base + 64) r) (firstn 64 (skipn base r)) n l8 d) with (enc := enc) (g := g) (k := k) (off := off) (pb' := pb') as (ri & k' & _ & (A & B & _) & E);
      try assumption; try lia; try apply Q.
    - rewrite set_row by lia. apply ol_R.
    - unfold ol. apply getc_app, od_D.
    - unfold ol. apply getc_app, od_N.
    - unfold ol. apply getc_app, od_L.
    - apply Forall_firstn, Forall_skipn, Wr.
    - rewrite firstn_length, skipn_length. lia.
    - apply block_matrix_call26; lia.
    - exists (pdata pb'), (firstn base r ++ ri ++ skipn (base + 64) r), k'. split; [destruct pb'; cbn in A, B |- *; congruence|].
      rewrite (call_at c rnd fuel q (25 - q) _ (bs_block_transpose_out_and_xor c)); [|discriminate|do 26 (destruct q as [|q]; [reflexivity|]); lia|replace (q + (25 - q))%nat with 25%nat by lia; reflexivity|reflexivity].
      replace (Datatypes.S (q + (25 - q))) with 26%nat by lia. rewrite Lb in E. rewrite E. rewrite ol_setR, ol_setD. reflexivity.
  Qed.
  Definition bjk (k : nat) : block_junk := mk_bj (any_words c rnd k 512) (any_words c rnd (Datatypes.S k) 8) (any_words c rnd (Datatypes.S (Datatypes.S k)) (n_s2 c)).
  Lemma bjk_ok k : bj_ok c (bjk k). Proof. repeat split; apply any_words_wrows. Qed.
  Lemma wp_get {A} (x : res A) P : wp x P -> exists y, x = Ok y /\ P y. Proof. destruct x; cbn; try contradiction. intros H. eexists. split; [reflexivity|exact H]. Qed.
  Lemma regs_in base d k t : pbuf (batch_size c) d -> (t < 23)%nat -> (base + 64 <= 512)%nat ->
    exists r, in_window base (any_words c rnd k 512) (fun w => dvbcsa_bs_block_transpose_in c w (mk_pb n l8 d) (N.of_nat (8 * t))) = Ok r /\ wrows c 512 r.
  Proof.
    intros Pd Ht Hb. pose proof Sp as [Sa _].
    destruct (wp_get _ _ (in_window_ok c base (any_words c rnd k 512) (fun w => dvbcsa_bs_block_transpose_in c w (mk_pb n l8 d) (N.of_nat (8 * t))) (fun _ => True) (any_words_wrows c rnd k 512) Hb ltac:(intros w Ww; eapply wp_mono; [apply (block_in_ok c (mk_pb n l8 d) t Sa Hn Pd Ht w Ww)|intros x [X _]; split; [exact X|exact Logic.I]]))) as (r & E & W & _).
    exists r. split; [exact E|exact W].
  Qed.
  Lemma leave_r d d1 r : firstn (length (od d)) (ol d1 r) = od d1. Proof. rewrite od_len, <- (od_len d1). unfold ol. rewrite firstn_app, Nat.sub_diag, firstn_all. cbn [firstn]. apply app_nil_r. Qed.
  Ltac callk E := eapply seq_one; [eapply st_expr; eapply run_call; [reflexivity|reflexivity| |exact E]|].
  Ltac getx ::= cbn [objs]; apply ol_R.
  Lemma key_block_off a : a + field_offset c S [("block", TArr TWord 56); ("stream", TArr TWord 64)] 0 "block" = a.
  Proof. assert (E : field_offset c S [("block", TArr TWord 56); ("stream", TArr TWord 64)] 0 "block" = 0) by (cbn [field_offset String.eqb Ascii.eqb Bool.eqb]; unfold up_to, align_of, word_bytes; destruct (tgt c); vm_compute; reflexivity). rewrite E. apply N.add_0_r. Qed.
  Lemma dec_block q d t g k : (q <= 19)%nat -> pbuf (batch_size c) d -> (t < 23)%nat ->
    exists d1 k', decrypt_block c (bjk k) m key (mk_pb n l8 d) (N.of_nat (8 * t)) = Ok (mk_pb n l8 d1) /\
      prog_from c rnd fuel q "dvbcsa_bs_block_decrypt_block" [VPtr KEY (Flat key); VPtr PB (Obj ip "" 0); VInt U32 (N.of_nat (8 * t))] (mk_cst g m (od d) k) = Ok (None, mk_cst g m (od d1) k').
  Proof.
    intros Hq Pd Ht. pose proof Pd as [Ld Bd]. assert (Ho : N.of_nat (8 * t) < 2 ^ 30) by (change (2 ^ 30) with 1073741824; lia).
    destruct (regs_in 448 d k t Pd Ht ltac:(lia)) as (r1 & E1 & W1).
    destruct (wp_get _ _ (decrypt_register_ok c (key_block_word c m key) kk r1 _ _ Sp HK W1 (any_words_wrows c rnd (Datatypes.S k) 8) (any_words_wrows c rnd (Datatypes.S (Datatypes.S k)) (n_s2 c)))) as (r2 & E2 & W2 & _).
    destruct (wp_get _ _ (block_out_ok c (firstn 64 (skipn 0 r2)) (mk_pb n l8 d) t false (proj1 Sp) (wrows_firstn c 512 64 r2 W2 ltac:(lia)) Hn Pd Ht Hok)) as (pb' & E3 & _).
    set (env := [("r", BObj (TArr TWord 512) (length O)); ("key", BVal (TPtr KEY) (Some (VPtr KEY (Flat key)))); ("pkt_buf", BVal (TPtr PB) (Some (VPtr PB (Obj ip "" 0)))); ("offset", BVal (TInt U32) (Some (VInt U32 (N.of_nat (8 * t)))))]).
    pose proof (in_call 20 448 d _ _ _ env (Datatypes.S k) ltac:(lia) (any_words_wrows c rnd k 512) Bd Ho ltac:(lia) E1) as C1.
    pose proof (dec_reg_source c rnd fuel (prog_from c rnd fuel 21) m (ol d r1) (length O) r1 key Hf (ol_R d r1) env r2 (Datatypes.S k) E2) as C2. rewrite ol_setR in C2.
    rewrite <- (call_at c rnd fuel 20 0 "dvbcsa_bs_block_decrypt_register") in C2; [|discriminate|reflexivity|reflexivity|rewrite dec_variants; reflexivity].
    destruct (out_call 20 false 0 d r2 pb' _ env (Datatypes.S (Datatypes.S (Datatypes.S k))) ltac:(lia) W2 Bd Ho ltac:(lia) E3) as (d1 & r3 & k' & -> & C3).
    exists d1, k'. split; [unfold decrypt_block; cbn [bjk bj_r bj_s1 bj_s2]; change (8 * 56)%nat with 448%nat; rewrite E1; cbn [bind]; rewrite E2; cbn [bind]; exact E3|].
    rewrite (call_at c rnd fuel q (19 - q) _ (bs_block_decrypt_block c)); [|discriminate|do 20 (destruct q as [|q]; [reflexivity|]); lia|replace (q + (19 - q))%nat with 19%nat by lia; reflexivity|reflexivity].
    replace (Datatypes.S (q + (19 - q))) with 20%nat by lia.
    eapply xcall_void; [reflexivity|params|the_body|apply leave_r].
    eapply seq_one; [eapply xst_declobj; [exact Logic.I|reflexivity|apply od_len]|]. fold env.
    callk C1; [pvsx|]. callk C2; [pvsx; apply key_block_off|]. callk C3; [pvsx|]. reflexivity.
  Qed.
  Lemma conv_off t : (t < 23)%nat -> convert (TInt U32) (VInt I32 (N.of_nat (8 * t))) = Ok (VInt U32 (N.of_nat (8 * t))).
  Proof. intros Ht. do 23 (destruct t as [|t]; [reflexivity|]). lia. Qed.
  Lemma enc_block q d t g k : (q <= 16)%nat -> pbuf (batch_size c) d -> (t < 23)%nat ->
    exists d1 k', encrypt_block c (bjk k) m key (mk_pb n l8 d) (N.of_nat (8 * t)) = Ok (mk_pb n l8 d1) /\
      prog_from c rnd fuel q "dvbcsa_bs_block_encrypt_block" [VPtr KEY (Flat key); VPtr PB (Obj ip "" 0); VInt I32 (N.of_nat (8 * t))] (mk_cst g m (od d) k) = Ok (None, mk_cst g m (od d1) k').
  Proof.
    intros Hq Pd Ht. pose proof Pd as [Ld Bd]. assert (Ho : N.of_nat (8 * t) < 2 ^ 30) by (change (2 ^ 30) with 1073741824; lia).
    destruct (regs_in 0 d k t Pd Ht ltac:(lia)) as (r1 & E1 & W1).
    destruct (wp_get _ _ (encrypt_register_ok c (key_block_word c m key) kk r1 _ _ Sp HK W1 (any_words_wrows c rnd (Datatypes.S k) 8) (any_words_wrows c rnd (Datatypes.S (Datatypes.S k)) (n_s2 c)))) as (r2 & E2 & W2 & _).
    destruct (wp_get _ _ (block_out_ok c (firstn 64 (skipn 448 r2)) (mk_pb n l8 d) t true (proj1 Sp) (wrows_firstn c (512 - 448) 64 (skipn 448 r2) (wrows_skipn c 512 448 r2 W2) ltac:(lia)) Hn Pd Ht Hok)) as (pb' & E3 & _).
    set (env := [("r", BObj (TArr TWord 512) (length O)); ("key", BVal (TPtr KEY) (Some (VPtr KEY (Flat key)))); ("pkt_buf", BVal (TPtr PB) (Some (VPtr PB (Obj ip "" 0)))); ("offset", BVal (TInt U32) (Some (VInt U32 (N.of_nat (8 * t)))))]).
    pose proof (in_call 17 0 d _ _ _ env (Datatypes.S k) ltac:(lia) (any_words_wrows c rnd k 512) Bd Ho ltac:(lia) E1) as C1.
    pose proof (enc_reg_source c rnd fuel (prog_from c rnd fuel 18) m (ol d r1) (length O) r1 key Hf (ol_R d r1) env r2 (Datatypes.S k) E2) as C2. rewrite ol_setR in C2.
    rewrite <- (call_at c rnd fuel 17 0 "dvbcsa_bs_block_encrypt_register") in C2; [|discriminate|reflexivity|reflexivity|rewrite enc_variants; reflexivity].
    destruct (out_call 17 true 448 d r2 pb' _ env (Datatypes.S (Datatypes.S (Datatypes.S k))) ltac:(lia) W2 Bd Ho ltac:(lia) E3) as (d1 & r3 & k' & -> & C3).
    exists d1, k'. split; [unfold encrypt_block; cbn [bjk bj_r bj_s1 bj_s2]; change (8 * 56)%nat with 448%nat; rewrite E1; cbn [bind]; rewrite E2; cbn [bind]; exact E3|].
    rewrite (call_at c rnd fuel q (16 - q) _ (bs_block_encrypt_block c)); [|discriminate|do 17 (destruct q as [|q]; [reflexivity|]); lia|replace (q + (16 - q))%nat with 16%nat by lia; reflexivity|reflexivity].
    replace (Datatypes.S (q + (16 - q))) with 17%nat by lia.
    eapply xcall_void; [reflexivity|cbn [bs_block_encrypt_block fn_params bind_params]; rewrite (conv_off t Ht); cbn [convert bind]; reflexivity|the_body|apply leave_r].
    eapply seq_one; [eapply xst_declobj; [exact Logic.I|reflexivity|apply od_len]|]. fold env.
    callk C1; [pvsx|]. callk C2; [pvsx; apply key_block_off|]. callk C3; [pvsx|]. reflexivity.
  Qed.
  Lemma dec_indep bj d t : bj_ok c bj -> pbuf (batch_size c) d -> (t < 23)%nat -> exists d1, pbuf (batch_size c) d1 /\
    decrypt_block c bj m key (mk_pb n l8 d) (N.of_nat (8 * t)) = Ok (mk_pb n l8 d1) /\ forall bj', bj_ok c bj' -> decrypt_block c bj' m key (mk_pb n l8 d) (N.of_nat (8 * t)) = Ok (mk_pb n l8 d1).
  Proof.
    intros J Pd Ht. assert (X : forall bj, bj_ok c bj -> exists d1, decrypt_block c bj m key (mk_pb n l8 d) (N.of_nat (8 * t)) = Ok (mk_pb n l8 d1) /\ emitted false l8 t (fun i => block_dec (kk (bcol c i)) (dbl d (23 * i + t))) d n d1).
    { intros b Jb. destruct (wp_get _ _ (decrypt_block_ok c m key kk (mk_pb n l8 []) Sp HK Hn Hok b d t Jb Pd Ht)) as (pb' & E & d1 & -> & Em). exists d1. split; [exact E|exact Em]. }
    destruct (X bj J) as (d1 & E & Em). exists d1. pose proof Pd as [Ld _]. split; [split; [rewrite (proj1 Em); exact Ld|apply Em]|]. split; [exact E|].
    intros b Jb. destruct (X b Jb) as (d2 & E2 & Em2). rewrite E2, (emitted_fun _ _ _ _ _ _ _ _ _ Ld Em2 Em). reflexivity.
  Qed.
  Lemma enc_indep bj d t : bj_ok c bj -> pbuf (batch_size c) d -> (t < 23)%nat -> exists d1, pbuf (batch_size c) d1 /\
    encrypt_block c bj m key (mk_pb n l8 d) (N.of_nat (8 * t)) = Ok (mk_pb n l8 d1) /\ forall bj', bj_ok c bj' -> encrypt_block c bj' m key (mk_pb n l8 d) (N.of_nat (8 * t)) = Ok (mk_pb n l8 d1).
  Proof.
    intros J Pd Ht. assert (X : forall bj, bj_ok c bj -> exists d1, encrypt_block c bj m key (mk_pb n l8 d) (N.of_nat (8 * t)) = Ok (mk_pb n l8 d1) /\ emitted true l8 t (fun i => block_enc (kk (bcol c i)) (dbl d (23 * i + t))) d n d1).
    { intros b Jb. destruct (wp_get _ _ (encrypt_block_ok c m key kk (mk_pb n l8 []) Sp HK Hn Hok b d t Jb Pd Ht)) as (pb' & E & d1 & -> & Em). exists d1. split; [exact E|exact Em]. }
    destruct (X bj J) as (d1 & E & Em). exists d1. pose proof Pd as [Ld _]. split; [split; [rewrite (proj1 Em); exact Ld|apply Em]|]. split; [exact E|].
    intros b Jb. destruct (X b Jb) as (d2 & E2 & Em2). rewrite E2, (emitted_fun _ _ _ _ _ _ _ _ _ Ld Em2 Em). reflexivity.
  Qed.
  Notation exec := (exec c T S rnd fuel). Notation bvars i mb := [("i", BVal (TInt U32) (Some (VInt U32 i))); ("key", BVal (TPtr KEY) (Some (VPtr KEY (Flat key)))); ("pkt_buf", BVal (TPtr PB) (Some (VPtr PB (Obj ip "" 0)))); ("maxlen", BVal (TInt U32) (Some (VInt U32 (N.of_nat (8 * mb)))))].
  Lemma dec_loop bj mb (Hm : (mb <= 23)%nat) (J : forall i, bj_ok c (bj i)) : forall s t d k kf wf', t = (mb - s)%nat -> (s <= mb)%nat -> pbuf (batch_size c) d -> (s < kf)%nat -> (s <= wf')%nat ->
    exists d1 k', pbuf (batch_size c) d1 /\ loop kf (cond_of c T S (prog_from c rnd fuel 19) (EBin Lt (EVar "i") (EVar "maxlen")))
        (exec (prog_from c rnd fuel 19) (SBlock [SExpr (ECall "dvbcsa_bs_block_decrypt_block" [EVar "key"; EVar "pkt_buf"; EVar "i"])]))
        (opt_ev c T S (prog_from c rnd fuel 19) (Some (EOpAssign Add (EVar "i") (EConst I32 8)))) (mk_cst (bvars (N.of_nat (8 * t)) mb) m (od d) k) =
        Ok (None, mk_cst (bvars (N.of_nat (8 * mb)) mb) m (od d1) k') /\
      while_ wf' (fun '(i, _) => (i <? N.of_nat (8 * mb))%N) (fun '(i, pb) => pb <- decrypt_block c (bj i) m key pb i ;; Ok (u32 (i + 8), pb)) (N.of_nat (8 * t), mk_pb n l8 d) =
        Ok (N.of_nat (8 * mb), mk_pb n l8 d1).
  Proof.
    induction s as [|s IH]; intros t d k kf wf' Et Hs Pd Kf Wf; (destruct kf as [|kf]; [lia|]); cbn [loop].
    - assert (t = mb) as -> by lia. exists d, k. split; [exact Pd|]. split.
      + eassert (C : cond_of c T S (prog_from c rnd fuel 19) (EBin Lt (EVar "i") (EVar "maxlen")) (mk_cst (bvars (N.of_nat (8 * mb)) mb) m (od d) k) = Ok (false, _)) by (eapply cond_ok; [pvx|falsex]).
        rewrite C. reflexivity.
      + destruct wf'; cbn [while_]; rewrite N.ltb_irrefl; reflexivity.
    - destruct (dec_indep (bj (N.of_nat (8 * t))) d t (J _) Pd ltac:(lia)) as (d1 & P1 & E1 & E2).
      destruct (dec_block 19 d t (bvars (N.of_nat (8 * t)) mb) k ltac:(lia) Pd ltac:(lia)) as (d1' & k1 & E3 & C1).
      rewrite (E2 _ (bjk_ok k)) in E3. injection E3 as <-.
      destruct wf' as [|wf']; [lia|].
      destruct (IH (Datatypes.S t) d1 k1 kf wf' ltac:(lia) ltac:(lia) P1 ltac:(lia) ltac:(lia)) as (d2 & k2 & P2 & L & M).
      exists d2, k2. split; [exact P2|]. split.
      + eassert (C : cond_of c T S (prog_from c rnd fuel 19) (EBin Lt (EVar "i") (EVar "maxlen")) (mk_cst (bvars (N.of_nat (8 * t)) mb) m (od d) k) = Ok (true, _)) by (eapply cond_ok; [pvx|truex]).
        rewrite C. cbn [bind].
        eassert (B : exec (prog_from c rnd fuel 19) (SBlock [SExpr (ECall "dvbcsa_bs_block_decrypt_block" [EVar "key"; EVar "pkt_buf"; EVar "i"])]) (mk_cst (bvars (N.of_nat (8 * t)) mb) m (od d) k) = Ok (None, _)).
        { eapply xblock; [callk C1; [pvsx|reflexivity]|cbn [length Nat.sub skipn]; reflexivity|apply firstn_same; rewrite !od_len; reflexivity]. }
        rewrite B. cbn [bind].
        eassert (P : opt_ev c T S (prog_from c rnd fuel 19) (Some (EOpAssign Add (EVar "i") (EConst I32 8))) (mk_cst (bvars (N.of_nat (8 * t)) mb) m (od d1) k1) = Ok (mk_cst (bvars (N.of_nat (8 * Datatypes.S t)) mb) m (od d1) k1)) by (eapply opt_step; [runx|st_eq]).
        rewrite P. cbn [bind]. exact L.
      + cbn [while_]. rewrite (proj2 (N.ltb_lt _ _)) by lia. rewrite E1. cbn [bind]. replace (u32 (N.of_nat (8 * t) + 8)) with (N.of_nat (8 * Datatypes.S t)); [exact M|].
        unfold u32. rewrite N.mod_small; [lia|]. change (2 ^ 32) with 4294967296. lia.
  Qed.
  Definition left8 (t : nat) : N := match t with 0%nat => 4294967288 | Datatypes.S t => N.of_nat (8 * t) end.
  Notation evars t mb := [("i", BVal (TInt I32) (Some (VInt I32 (left8 t)))); ("key", BVal (TPtr KEY) (Some (VPtr KEY (Flat key)))); ("pkt_buf", BVal (TPtr PB) (Some (VPtr PB (Obj ip "" 0)))); ("maxlen", BVal (TInt U32) (Some (VInt U32 (N.of_nat (8 * mb)))))].
  Lemma enc_step calls t mb d k : (t <= 23)%nat -> opt_ev c T S calls (Some (EOpAssign Sub (EVar "i") (EConst I32 8))) (mk_cst (evars (Datatypes.S t) mb) m (od d) k) = Ok (mk_cst (evars t mb) m (od d) k).
  Proof.
    intros Ht. destruct t as [|t].
    - eapply opt_step; [eapply run_op; [pvx|plx|rvx|vm_compute; reflexivity|eapply xasg_var; [vm_compute; reflexivity|names; reflexivity]]|]. reflexivity.
    - cbn [left8]. eapply opt_step; [runx|st_eq].
  Qed.
  Lemma enc_loop bj mb (Hm : (mb <= 23)%nat) (J : forall i, bj_ok c (bj i)) : forall t d k kf wf', (t <= mb)%nat -> pbuf (batch_size c) d -> (t < kf)%nat -> (t <= wf')%nat ->
    exists d1 k', pbuf (batch_size c) d1 /\ loop kf (cond_of c T S (prog_from c rnd fuel 16) (EBin Ge (EVar "i") (EConst I32 0)))
        (exec (prog_from c rnd fuel 16) (SBlock [SExpr (ECall "dvbcsa_bs_block_encrypt_block" [EVar "key"; EVar "pkt_buf"; EVar "i"])]))
        (opt_ev c T S (prog_from c rnd fuel 16) (Some (EOpAssign Sub (EVar "i") (EConst I32 8)))) (mk_cst (evars t mb) m (od d) k) =
        Ok (None, mk_cst (evars 0%nat mb) m (od d1) k') /\
      while_ wf' (fun '(i, _) => (0 <=? i)%Z) (fun '(i, pb) => pb <- encrypt_block c (bj (Z.to_N i)) m key pb (Z.to_N i) ;; i <- int_ok (i - 8) ;; Ok (i, pb)) ((8 * Z.of_nat t - 8)%Z, mk_pb n l8 d) =
        Ok ((-8)%Z, mk_pb n l8 d1).
  Proof.
    induction t as [|t IH]; intros d k kf wf' Hs Pd Kf Wf; (destruct kf as [|kf]; [lia|]); cbn [loop].
    - exists d, k. split; [exact Pd|]. split.
      + eassert (C : cond_of c T S (prog_from c rnd fuel 16) (EBin Ge (EVar "i") (EConst I32 0)) (mk_cst (evars 0%nat mb) m (od d) k) = Ok (false, _)) by (eapply cond_ok; [eapply pv_bin; [pvx|pvx|reflexivity]|reflexivity]).
        rewrite C. reflexivity.
      + destruct wf'; reflexivity.
    - destruct (enc_indep (bj (N.of_nat (8 * t))) d t (J _) Pd ltac:(lia)) as (d1 & P1 & E1 & E2).
      destruct (enc_block 16 d t (evars (Datatypes.S t) mb) k ltac:(lia) Pd ltac:(lia)) as (d1' & k1 & E3 & C1).
      rewrite (E2 _ (bjk_ok k)) in E3. injection E3 as <-.
      destruct wf' as [|wf']; [lia|].
      destruct (IH d1 k1 kf wf' ltac:(lia) P1 ltac:(lia) ltac:(lia)) as (d2 & k2 & P2 & L & M).
      exists d2, k2. split; [exact P2|]. split.
      + eassert (C : cond_of c T S (prog_from c rnd fuel 16) (EBin Ge (EVar "i") (EConst I32 0)) (mk_cst (evars (Datatypes.S t) mb) m (od d) k) = Ok (true, mk_cst (evars (Datatypes.S t) mb) m (od d) k)) by (cbn [left8]; eapply cond_ok; [pvx|truex]).
        rewrite C. cbn [bind].
        eassert (B : exec (prog_from c rnd fuel 16) (SBlock [SExpr (ECall "dvbcsa_bs_block_encrypt_block" [EVar "key"; EVar "pkt_buf"; EVar "i"])]) (mk_cst (evars (Datatypes.S t) mb) m (od d) k) = Ok (None, mk_cst (evars (Datatypes.S t) mb) m (od d1) k1)).
        { eapply xblock; [callk C1; [cbn [left8]; pvsx|reflexivity]|cbn [length Nat.sub skipn]; reflexivity|apply firstn_same; rewrite !od_len; reflexivity]. }
        rewrite B. cbn [bind]. rewrite enc_step by lia. cbn [bind]. exact L.
      + cbn [while_]. rewrite (proj2 (Z.leb_le _ _)) by lia. replace (Z.to_N (8 * Z.of_nat (Datatypes.S t) - 8)) with (N.of_nat (8 * t)) by lia. rewrite E1. cbn [bind].
        unfold int_ok. replace (8 * Z.of_nat (Datatypes.S t) - 8 - 8)%Z with (8 * Z.of_nat t - 8)%Z by lia.
        match goal with |- context [if ?b then _ else _] => replace b with true end; [exact M|]. symmetry. apply andb_true_intro. split; apply Z.leb_le || apply Z.ltb_lt; lia.
  Qed.
  Theorem dec_batch q bj mb d g k : (q <= 18)%nat -> (mb <= 23)%nat -> (forall i, bj_ok c (bj i)) -> pbuf (batch_size c) d ->
    exists d1 k', pbuf (batch_size c) d1 /\ dvbcsa_bs_block_decrypt_batch c bj m key (mk_pb n l8 d) (N.of_nat (8 * mb)) = Ok (mk_pb n l8 d1) /\
      prog_from c rnd fuel q "dvbcsa_bs_block_decrypt_batch" [VPtr KEY (Flat key); VPtr PB (Obj ip "" 0); VInt U32 (N.of_nat (8 * mb))] (mk_cst g m (od d) k) = Ok (None, mk_cst g m (od d1) k').
  Proof.
    intros Hq Hm J Pd. destruct (dec_loop bj mb Hm J mb 0 d k fuel (N.to_nat (N.of_nat (8 * mb))) ltac:(lia) ltac:(lia) Pd ltac:(lia) ltac:(lia)) as (d1 & k' & P1 & L & M).
    exists d1, k'. split; [exact P1|]. split.
    - unfold dvbcsa_bs_block_decrypt_batch. change (N.of_nat (8 * 0)) with 0 in M. rewrite M. reflexivity.
    - rewrite (call_at c rnd fuel q (18 - q) _ (bs_block_decrypt_batch c)); [|discriminate|do 19 (destruct q as [|q]; [reflexivity|]); lia|replace (q + (18 - q))%nat with 18%nat by lia; reflexivity|reflexivity].
      replace (Datatypes.S (q + (18 - q))) with 19%nat by lia.
      eapply xcall_void; [reflexivity|params|the_body|apply firstn_same; rewrite !od_len; reflexivity].
      stx. eapply seq_one; [eapply st_for; [eapply opt_some; runx|exact L]|reflexivity].
  Qed.
  Theorem enc_batch q bj mb d g k : (q <= 15)%nat -> (mb <= 23)%nat -> (forall i, bj_ok c (bj i)) -> pbuf (batch_size c) d ->
    exists d1 k', pbuf (batch_size c) d1 /\ dvbcsa_bs_block_encrypt_batch c bj m key (mk_pb n l8 d) (N.of_nat (8 * mb)) = Ok (mk_pb n l8 d1) /\
      prog_from c rnd fuel q "dvbcsa_bs_block_encrypt_batch" [VPtr KEY (Flat key); VPtr PB (Obj ip "" 0); VInt U32 (N.of_nat (8 * mb))] (mk_cst g m (od d) k) = Ok (None, mk_cst g m (od d1) k').
  Proof.
    intros Hq Hm J Pd. destruct (enc_loop bj mb Hm J mb d k fuel (N.to_nat (N.of_nat (8 * mb))) ltac:(lia) Pd ltac:(lia) ltac:(lia)) as (d1 & k' & P1 & L & M).
    exists d1, k'. split; [exact P1|]. split.
    - unfold dvbcsa_bs_block_encrypt_batch.
      assert (Ei : to_int (u32 (N.of_nat (8 * mb) + 2 ^ 32 - 8)) = (8 * Z.of_nat mb - 8)%Z) by (clear - Hm; do 24 (destruct mb as [|mb]; [reflexivity|]); lia).
      rewrite Ei, M. reflexivity.
    - rewrite (call_at c rnd fuel q (15 - q) _ (bs_block_encrypt_batch c)); [|discriminate|do 16 (destruct q as [|q]; [reflexivity|]); lia|replace (q + (15 - q))%nat with 15%nat by lia; reflexivity|reflexivity].
      replace (Datatypes.S (q + (15 - q))) with 16%nat by lia.
      assert (Sb : bin_op c S Sub (VInt U32 (N.of_nat (8 * mb))) (VInt I32 8) = Ok (VInt U32 (left8 mb))) by (clear - Hm; do 24 (destruct mb as [|mb]; [reflexivity|]); lia).
      assert (Cv : convert (TInt I32) (VInt U32 (left8 mb)) = Ok (VInt I32 (left8 mb))) by (clear - Hm; do 24 (destruct mb as [|mb]; [reflexivity|]); lia).
      eapply xcall_void; [reflexivity|params|the_body|apply firstn_same; rewrite !od_len; reflexivity].
      stx. eapply seq_one; [eapply st_for; [eapply opt_some; eapply run_assign; [eapply pv_bin; [pvx|pvx|exact Sb]|plx|eapply xasg_var; [exact Cv|names; reflexivity]]|exact L]|reflexivity].
  Qed.
End Blocks.
