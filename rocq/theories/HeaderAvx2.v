(** HeaderAvx2.v -- avx2_block_sbox_permute as written in dvbcsa_bs_avx2.h computes the function of
    ModelBsBlock.v, including its undefined read behind the table. *)
From Coq Require Import String.
From Verif Require BsSbox.
From Verif Require Import Base Mem ModelBsWord ModelBsBlock BsWordFacts MiniC MiniCRun Header HeaderSource HeaderSpec HeaderFacts.
Local Open Scope string_scope.
Local Open Scope list_scope.
Local Open Scope N_scope.

Definition lane32 (x : N) : Prop := x < 2 ^ 32.
Definition row (l : list N) : Prop := length l = 8%nat /\ Forall lane32 l.

Lemma of_lanes_length e l : length (of_lanes e l) = (e * length l)%nat.
Proof. unfold of_lanes. induction l; cbn [map concat length]; [lia|]. rewrite app_length, le_bytes_length, IHl. lia. Qed.
Lemma of_lanes_bytes e l : Forall is_byte (of_lanes e l).
Proof. unfold of_lanes. induction l; cbn [map concat]; [constructor|]. apply Forall_app. split; [apply le_bytes_is_byte|assumption]. Qed.
Lemma row_32 l : row l -> length (of_lanes 4 l) = 32%nat.
Proof. intros [L _]. rewrite of_lanes_length, L. reflexivity. Qed.
Lemma row_lanes l : row l -> lanes 4 (of_lanes 4 l) = l.
Proof. intros [_ F]. apply lanes_of_lanes; [lia|exact F]. Qed.
Lemma lanes32_row w : length w = 32%nat -> Forall is_byte w -> row (lanes32 w) /\ of_lanes 4 (lanes32 w) = w /\ lanes 4 w = lanes32 w.
Proof.
  intros L B. assert (E : lanes 4 w = lanes32 w). { unfold lanes, pieces, lanes32. rewrite L, map_map. reflexivity. }
  assert (P : forall k, (k < 8)%nat -> length (firstn 4 (skipn (4 * k) w)) = 4%nat) by (intros; rewrite firstn_length, skipn_length, L; lia).
  split; [|split; [|exact E]].
  - split; [reflexivity|]. unfold lanes32. apply Forall_map, Forall_forall. intros k Hk. apply in_seq in Hk.
    pose proof (le_val_bound (firstn 4 (skipn (4 * k) w)) (Forall_firstn _ _ _ (Forall_skipn _ _ _ B))) as Q.
    rewrite P in Q by lia. exact Q.
  - unfold lanes32, of_lanes. rewrite map_map.
    rewrite (map_ext_in _ (fun k => firstn 4 (skipn (4 * k) w))).
    + clear - L. explicit w 32%nat. reflexivity.
    + intros k Hk. apply in_seq in Hk. pose proof (le_bytes_val (firstn 4 (skipn (4 * k) w)) (Forall_firstn _ _ _ (Forall_skipn _ _ _ B))) as Q.
      rewrite P in Q by lia. exact Q.
Qed.

Lemma le_bytes_bitwise f e x y : bytewise f -> x < 2 ^ (8 * N.of_nat e) -> y < 2 ^ (8 * N.of_nat e) ->
  le_bytes e (f x y) = map2 f (le_bytes e x) (le_bytes e y).
Proof.
  intros F X Y. rewrite <- bitwise_is by (auto using le_bytes_is_byte; rewrite !le_bytes_length; reflexivity).
  unfold bitwise. rewrite le_bytes_length, !le_val_bytes by assumption. reflexivity.
Qed.
Lemma bitwise_row f l m : bytewise f -> row l -> row m -> bitwise f (of_lanes 4 l) (of_lanes 4 m) = of_lanes 4 (map2 f l m).
Proof.
  intros F [Ll Fl] [Lm Fm]. rewrite bitwise_is by (auto using of_lanes_bytes; rewrite !of_lanes_length; congruence).
  assert (L : length l = length m) by congruence. clear Ll Lm. revert m Fm L.
  induction Fl as [|x l Hx Fl IH]; intros [|y m] Fm L; try discriminate; [reflexivity|].
  inversion Fm as [|? ? Hy Fm']; subst. unfold of_lanes in *. cbn [map concat map2]. rewrite map2_app by (rewrite !le_bytes_length; reflexivity).
  rewrite IH by (auto; cbn in L; lia). rewrite (le_bytes_bitwise f 4) by (auto; exact Hx || exact Hy). reflexivity.
Qed.
Lemma row_map f l : (forall x, lane32 x -> lane32 (f x)) -> row l -> row (map f l).
Proof. intros H [L F]. split; [rewrite map_length; exact L|]. apply Forall_map. eapply Forall_impl; [|exact F]. exact H. Qed.
Lemma row_map2 f l m : (forall x y, lane32 x -> lane32 y -> lane32 (f x y)) -> row l -> row m -> row (map2 f l m).
Proof.
  intros H [L F] [L' F']. split; [rewrite map2_length; lia|]. eapply Forall_map2; try eassumption; congruence.
Qed.
Lemma row_repeat x : lane32 x -> row (repeat x 8).
Proof. intros H. split; [reflexivity|]. apply Forall_forall. intros y Hy. apply repeat_spec in Hy. congruence. Qed.
Lemma map2_repeat {A B C} (f : A -> B -> C) y l : forall n, length l = n -> map2 f l (repeat y n) = map (fun x => f x y) l.
Proof. induction l as [|x l IH]; intros [|n] L; try discriminate; cbn; [reflexivity|]. rewrite IH by (cbn in L; lia). reflexivity. Qed.
Lemma land_lane x y : lane32 x -> lane32 (N.land x y).
Proof. unfold lane32. intros H. apply bound_of_bits. intros k K. rewrite N.land_spec, (bits_of_bound x 32 k) by assumption. reflexivity. Qed.
Lemma lor_lane x y : lane32 x -> lane32 y -> lane32 (N.lor x y).
Proof. unfold lane32. intros H H'. apply bound_of_bits. intros k K. rewrite N.lor_spec, (bits_of_bound x 32 k), (bits_of_bound y 32 k) by assumption. reflexivity. Qed.
Lemma shr_lane x k : lane32 x -> lane32 (N.shiftr x k).
Proof.
  unfold lane32. intros H. rewrite N.shiftr_div_pow2. pose proof (N.pow_nonzero 2 k ltac:(lia)). eapply N.le_lt_trans; [|exact H]. apply N.div_le_upper_bound; nia.
Qed.
Lemma and_row l y : lane32 y -> row l -> bitwise N.land (of_lanes 4 l) (of_lanes 4 (repeat y 8)) = of_lanes 4 (map (fun x => N.land x y) l).
Proof.
  intros Y R. rewrite bitwise_row by (auto using bytewise_land, row_repeat). rewrite map2_repeat by apply R. reflexivity.
Qed.
Lemma shr8_row l : row l -> lane_shr 4 8 (of_lanes 4 l) = of_lanes 4 (map (fun x => N.shiftr x 8) l).
Proof. intros R. unfold lane_shr. rewrite row_lanes by exact R. reflexivity. Qed.
Lemma shl16_row l : row l -> lane_shl 4 16 (of_lanes 4 l) = of_lanes 4 (map (fun x => u32 (N.shiftl x 16)) l).
Proof. intros R. unfold lane_shl. rewrite row_lanes by exact R. reflexivity. Qed.

Lemma gather_model tbl l : Forall is_byte tbl -> Forall (fun x => x < 256) l ->
  all_res (fun x => if x <? 2 ^ 31 then bget tbl (N.to_nat (2 * x)) 4 else UB OutOfBounds) l =
  (r <- ModelBsBlock.gather tbl l ;; Ok (map (le_bytes 4) r)) /\
  (forall r, ModelBsBlock.gather tbl l = Ok r -> length r = length l /\ Forall lane32 r).
Proof.
  intros B. induction 1 as [|x l Hx F [IH IH']]; [split; [reflexivity|intros r H; injection H as <-; split; [reflexivity|constructor]]|].
  cbn [all_res ModelBsBlock.gather]. destruct (N.ltb_spec x (2 ^ 31)) as [_|E]; [|exfalso; assert (256 < 2 ^ 31) by reflexivity; lia].
  replace (N.to_nat (2 * x)) with (2 * N.to_nat x)%nat by lia.
  destruct (bget tbl (2 * N.to_nat x) 4) as [b| | |] eqn:Q; cbn [bind]; try (split; [reflexivity|discriminate]).
  assert (BB : Forall is_byte b /\ length b = 4%nat).
  { unfold bget in Q. destruct (2 * N.to_nat x + 4 <=? length tbl)%nat eqn:Q'; [|discriminate]. assert (E : firstn 4 (skipn (2 * N.to_nat x) tbl) = b) by congruence. rewrite <- E. apply Nat.leb_le in Q'.
    split; [apply Forall_firstn, Forall_skipn, B|rewrite firstn_length, skipn_length; lia]. }
  destruct BB as [BB LL].
  rewrite IH. split.
  - destruct (ModelBsBlock.gather tbl l); cbn [bind map]; try reflexivity. pose proof (le_bytes_val _ BB) as Q'. rewrite LL in Q'. rewrite Q'. reflexivity.
  - intros r H. destruct (ModelBsBlock.gather tbl l) as [r'| | |]; try discriminate. injection H as <-. destruct (IH' r' eq_refl) as [L F'].
    split; [cbn; congruence|]. constructor; [|exact F']. pose proof (le_val_bound _ BB) as Q'. rewrite LL in Q'. exact Q'.
Qed.
Lemma gather_is tbl l : Forall is_byte tbl -> row l -> Forall (fun x => x < 256) l ->
  Header.gather tbl [HPtr "dvbcsa_block_sbox_perm" 0; HReg (of_lanes 4 l); HInt I32 2] = (r <- ModelBsBlock.gather tbl l ;; Ok (HReg (of_lanes 4 r))).
Proof.
  intros B R F. unfold Header.gather. rewrite is_reg_ok by (apply row_32, R). cbn [bind]. rewrite row_lanes by exact R.
  rewrite (proj1 (gather_model tbl l B F)). destruct (ModelBsBlock.gather tbl l); reflexivity.
Qed.
Lemma gather_row tbl l r : Forall is_byte tbl -> row l -> Forall (fun x => x < 256) l -> ModelBsBlock.gather tbl l = Ok r -> row r.
Proof. intros B [L _] F G. destruct (proj2 (gather_model tbl l B F) r G). split; [congruence|assumption]. Qed.

Lemma gather_res tbl l : (exists r, ModelBsBlock.gather tbl l = Ok r) \/ (exists k, ModelBsBlock.gather tbl l = UB k).
Proof.
  induction l as [|x l [[r H]|[k H]]]; cbn [ModelBsBlock.gather]; [left; eexists; reflexivity| |]; unfold bget;
    destruct (_ <=? _)%nat; cbn [bind]; try (right; eexists; reflexivity); rewrite H; cbn [bind]; [left|right]; eexists; reflexivity.
Qed.
Lemma mul_2 j : (j < 8)%nat -> int_op Mul I32 2 I32 (N.of_nat j) = Ok (VInt I32 (N.of_nat (2 * j))).
Proof. intros J. do 8 (destruct j as [|j]; [reflexivity|]). lia. Qed.

(* bytes *)
Definition shuffle_bytes : list N := [0; 2; 4; 6; 8; 10; 12; 14; 1; 3; 5; 7; 9; 11; 13; 15; 0; 2; 4; 6; 8; 10; 12; 14; 1; 3; 5; 7; 9; 11; 13; 15].
Lemma shuffle_256 w : length w = 32%nat -> halves shuffle w shuffle_bytes = mm256_shuffle w.
Proof. intros L. explicit w 32%nat. reflexivity. Qed.
Lemma unpacklo_256 a b : length a = 32%nat -> length b = 32%nat -> halves (unpack 2 false) a b = mm256_unpacklo16 a b.
Proof. intros L L'. explicit a 32%nat. explicit b 32%nat. reflexivity. Qed.
Lemma unpackhi_256 a b : length a = 32%nat -> length b = 32%nat -> halves (unpack 2 true) a b = mm256_unpackhi16 a b.
Proof. intros L L'. explicit a 32%nat. explicit b 32%nat. reflexivity. Qed.
Lemma shuffle_length w : length (mm256_shuffle w) = 32%nat.
Proof. reflexivity. Qed.

(** ** One turn of the loop *)
Lemma bytes256 l : Forall (fun x => x < 256) (map (fun x => N.land x 0xff) l).
Proof.
  apply Forall_map, Forall_forall. intros x _. change 0xff with (N.ones 8). rewrite N.land_ones. apply N.mod_lt. discriminate.
Qed.
Lemma byte_row l : row l -> row (map (fun x => N.land x 0xff) l).
Proof. apply row_map. intros. apply land_lane. assumption. Qed.

Definition reg_var (x : string) (v : option (list N)) : string * (cty * option hval) := (x, (CReg, option_map HReg v)).
(* the variables of the function, the last declared first *)
Definition vars (j : N) (a i b r1 r2 : option (list N)) : env :=
  [reg_var "shuffle_mask" (Some shuffle_bytes); reg_var "lsw_mask" (Some (of_lanes 4 (repeat 0xffff 8))); reg_var "lsb_mask" (Some (of_lanes 4 (repeat 0xff 8)));
   reg_var "res2" r2; reg_var "res1" r1; reg_var "b" b; reg_var "i" i; reg_var "a" a; ("j", (CInt I32, Some (HInt I32 j)));
   ("src", (CPtr, Some (HPtr "src" 0))); ("dst", (CPtr, Some (HPtr "dst" 0)))].
Definition all_vars (j : N) (rest : option (list N) * option (list N) * option (list N) * option (list N) * option (list N)) : env :=
  let '(a, i, b, r1, r2) := rest in vars j a i b r1 r2.

(* the body of the loop *)
Definition loop_body : list hstmt := Eval cbv in
  match assoc "avx2_block_sbox_permute" avx2_header with
  | Some h => match nth 9 (h_body h) (HBlock []) with HFor _ _ _ b => b | _ => [] end
  | None => []
  end.

Ltac ev := cbn [heval assoc vars reg_var option_map String.eqb Ascii.eqb Bool.eqb bind intrinsics hcast hconv hbin].


Section Turn.
  Context (c : build) (hdr : list (string * hfun)) (call : string -> list hval -> bufs -> res bufs).
  Notation tbl := (table_bytes c).
  Hypothesis TB : Forall is_byte tbl.
  Notation execs := (hexecs tbl call).
  Notation bufs2 src dst := [("src", src); ("dst", dst)].

  Lemma set_reg x e s bs r s' : heval tbl s bs e = Ok (HReg r) -> assoc x s = Some (CReg, snd (match assoc x s with Some y => y | None => (CReg, None) end)) -> assoc_set x (CReg, Some (HReg r)) s = s' ->
    forall rest, execs (HAct (HSet x e) :: rest) s bs = execs rest s' bs.
  Proof. intros E A <- rest. cbn [hexecs hexec hact_run]. rewrite E. cbn [bind]. rewrite A. reflexivity. Qed.
  Lemma set_fails x e s bs k : heval tbl s bs e = UB k -> forall rest, execs (HAct (HSet x e) :: rest) s bs = UB k.
  Proof. intros E rest. cbn [hexecs hexec hact_run]. rewrite E. reflexivity. Qed.

  Ltac put x r s := rewrite (set_reg x _ _ _ r s); [| |reflexivity|reflexivity].
  Lemma turn src dst j w a i b r1 r2 : (j < 8)%nat -> aget src j = Ok w -> wf c w -> tgt c = AVX2 -> length dst = 16%nat ->
    exists rest, execs loop_body (vars (N.of_nat j) a i b r1 r2) (bufs2 src dst) =
      ('(x, y) <- avx2_sbox_word c w ;; d <- aset dst (2 * j) x ;; d <- aset d (2 * j + 1) y ;; Ok (all_vars (N.of_nat j) rest, bufs2 src d)).
  Proof.
    intros J G [Lw Bw] T Ld. unfold word_bytes in Lw. rewrite T in Lw. unfold word in *.
    destruct (lanes32_row w Lw Bw) as (R0 & W & _).
    unfold loop_body, avx2_sbox_word. set (l0 := lanes32 w) in *.
    put "i" w (vars (N.of_nat j) a (Some w) b r1 r2).
    2: { ev. rewrite (load_ok 32 _ "src" src _ j w); [reflexivity|reflexivity|lia|exact G|exact Lw]. }
    rewrite <- W. clear W.
    pose proof (byte_row _ R0) as B0. pose proof (bytes256 l0) as C0. set (a0 := map (fun x => N.land x 0xff) l0) in *.
    put "a" (of_lanes 4 a0) (vars (N.of_nat j) (Some (of_lanes 4 a0)) (Some (of_lanes 4 l0)) b r1 r2).
    2: { ev. rewrite two_ok by (apply row_32; auto; apply row_repeat; reflexivity). rewrite and_row; [reflexivity|reflexivity|exact R0]. }
    destruct (ModelBsBlock.gather tbl a0) as [g0|k| |] eqn:G0.
    2: { exists (None, None, None, None, None). erewrite set_fails; [reflexivity|]. ev. rewrite gather_is by assumption. rewrite G0. reflexivity. }
    2, 3: destruct (gather_res tbl a0) as [[r Hr]|[k Hk]]; congruence.
    pose proof (gather_row tbl a0 g0 TB B0 C0 G0) as Q0. cbn [bind].
    put "b" (of_lanes 4 g0) (vars (N.of_nat j) (Some (of_lanes 4 a0)) (Some (of_lanes 4 l0)) (Some (of_lanes 4 g0)) r1 r2).
    2: { ev. rewrite gather_is by assumption. rewrite G0. reflexivity. }
    assert (M0 : row (map (fun x => N.land x 0xffff) g0)) by (apply row_map; auto; intros; apply land_lane; assumption). set (x0 := map (fun x => N.land x 0xffff) g0) in *.
    put "res1" (of_lanes 4 x0) (vars (N.of_nat j) (Some (of_lanes 4 a0)) (Some (of_lanes 4 l0)) (Some (of_lanes 4 g0)) (Some (of_lanes 4 x0)) r2).
    2: { ev. rewrite two_ok by (apply row_32; auto; apply row_repeat; reflexivity). rewrite and_row; [reflexivity|reflexivity|assumption]. }
    assert (R1 : row (map (fun x => N.shiftr x 8) l0)) by (apply row_map; auto; intros; apply shr_lane; assumption). set (l1 := map (fun x => N.shiftr x 8) l0) in *.
    put "i" (of_lanes 4 l1) (vars (N.of_nat j) (Some (of_lanes 4 a0)) (Some (of_lanes 4 l1)) (Some (of_lanes 4 g0)) (Some (of_lanes 4 x0)) r2).
    2: { ev. rewrite shift_ok by (try (apply row_32; assumption); lia). rewrite shr8_row by assumption. reflexivity. }
    pose proof (byte_row _ R1) as B1. pose proof (bytes256 l1) as C1. set (a1 := map (fun x => N.land x 0xff) l1) in *.
    put "a" (of_lanes 4 a1) (vars (N.of_nat j) (Some (of_lanes 4 a1)) (Some (of_lanes 4 l1)) (Some (of_lanes 4 g0)) (Some (of_lanes 4 x0)) r2).
    2: { ev. rewrite two_ok by (apply row_32; auto; apply row_repeat; reflexivity). rewrite and_row; [reflexivity|reflexivity|exact R1]. }
    destruct (ModelBsBlock.gather tbl a1) as [g1|k| |] eqn:G1.
    2: { exists (None, None, None, None, None). erewrite set_fails; [reflexivity|]. ev. rewrite gather_is by assumption. rewrite G1. reflexivity. }
    2, 3: destruct (gather_res tbl a1) as [[r Hr]|[k Hk]]; congruence.
    pose proof (gather_row tbl a1 g1 TB B1 C1 G1) as Q1. cbn [bind].
    put "b" (of_lanes 4 g1) (vars (N.of_nat j) (Some (of_lanes 4 a1)) (Some (of_lanes 4 l1)) (Some (of_lanes 4 g1)) (Some (of_lanes 4 x0)) r2).
    2: { ev. rewrite gather_is by assumption. rewrite G1. reflexivity. }
    assert (S1 : row (map (fun x => u32 (N.shiftl x 16)) g1)) by (apply row_map; auto; intros; apply N.mod_lt; discriminate). set (s1 := map (fun x => u32 (N.shiftl x 16)) g1) in *.
    put "b" (of_lanes 4 s1) (vars (N.of_nat j) (Some (of_lanes 4 a1)) (Some (of_lanes 4 l1)) (Some (of_lanes 4 s1)) (Some (of_lanes 4 x0)) r2).
    2: { ev. rewrite shift_ok by (try (apply row_32; assumption); lia). rewrite shl16_row by assumption. reflexivity. }
    assert (M1 : row (map2 N.lor x0 s1)) by (apply row_map2; auto using lor_lane). set (x1 := map2 N.lor x0 s1) in *.
    put "res1" (of_lanes 4 x1) (vars (N.of_nat j) (Some (of_lanes 4 a1)) (Some (of_lanes 4 l1)) (Some (of_lanes 4 s1)) (Some (of_lanes 4 x1)) r2).
    2: { ev. rewrite two_ok by (apply row_32; assumption). rewrite bitwise_row by (auto using bytewise_lor). reflexivity. }
    assert (R2 : row (map (fun x => N.shiftr x 8) l1)) by (apply row_map; auto; intros; apply shr_lane; assumption). set (l2 := map (fun x => N.shiftr x 8) l1) in *.
    put "i" (of_lanes 4 l2) (vars (N.of_nat j) (Some (of_lanes 4 a1)) (Some (of_lanes 4 l2)) (Some (of_lanes 4 s1)) (Some (of_lanes 4 x1)) r2).
    2: { ev. rewrite shift_ok by (try (apply row_32; assumption); lia). rewrite shr8_row by assumption. reflexivity. }
    pose proof (byte_row _ R2) as B2. pose proof (bytes256 l2) as C2. set (a2 := map (fun x => N.land x 0xff) l2) in *.
    put "a" (of_lanes 4 a2) (vars (N.of_nat j) (Some (of_lanes 4 a2)) (Some (of_lanes 4 l2)) (Some (of_lanes 4 s1)) (Some (of_lanes 4 x1)) r2).
    2: { ev. rewrite two_ok by (apply row_32; auto; apply row_repeat; reflexivity). rewrite and_row; [reflexivity|reflexivity|exact R2]. }
    destruct (ModelBsBlock.gather tbl a2) as [g2|k| |] eqn:G2.
    2: { exists (None, None, None, None, None). erewrite set_fails; [reflexivity|]. ev. rewrite gather_is by assumption. rewrite G2. reflexivity. }
    2, 3: destruct (gather_res tbl a2) as [[r Hr]|[k Hk]]; congruence.
    pose proof (gather_row tbl a2 g2 TB B2 C2 G2) as Q2. cbn [bind].
    put "b" (of_lanes 4 g2) (vars (N.of_nat j) (Some (of_lanes 4 a2)) (Some (of_lanes 4 l2)) (Some (of_lanes 4 g2)) (Some (of_lanes 4 x1)) r2).
    2: { ev. rewrite gather_is by assumption. rewrite G2. reflexivity. }
    assert (M2 : row (map (fun x => N.land x 0xffff) g2)) by (apply row_map; auto; intros; apply land_lane; assumption). set (y0 := map (fun x => N.land x 0xffff) g2) in *.
    put "res2" (of_lanes 4 y0) (vars (N.of_nat j) (Some (of_lanes 4 a2)) (Some (of_lanes 4 l2)) (Some (of_lanes 4 g2)) (Some (of_lanes 4 x1)) (Some (of_lanes 4 y0))).
    2: { ev. rewrite two_ok by (apply row_32; auto; apply row_repeat; reflexivity). rewrite and_row; [reflexivity|reflexivity|assumption]. }
    assert (R3 : row (map (fun x => N.shiftr x 8) l2)) by (apply row_map; auto; intros; apply shr_lane; assumption). set (l3 := map (fun x => N.shiftr x 8) l2) in *.
    put "i" (of_lanes 4 l3) (vars (N.of_nat j) (Some (of_lanes 4 a2)) (Some (of_lanes 4 l3)) (Some (of_lanes 4 g2)) (Some (of_lanes 4 x1)) (Some (of_lanes 4 y0))).
    2: { ev. rewrite shift_ok by (try (apply row_32; assumption); lia). rewrite shr8_row by assumption. reflexivity. }
    pose proof (byte_row _ R3) as B3. pose proof (bytes256 l3) as C3. set (a3 := map (fun x => N.land x 0xff) l3) in *.
    put "a" (of_lanes 4 a3) (vars (N.of_nat j) (Some (of_lanes 4 a3)) (Some (of_lanes 4 l3)) (Some (of_lanes 4 g2)) (Some (of_lanes 4 x1)) (Some (of_lanes 4 y0))).
    2: { ev. rewrite two_ok by (apply row_32; auto; apply row_repeat; reflexivity). rewrite and_row; [reflexivity|reflexivity|exact R3]. }
    destruct (ModelBsBlock.gather tbl a3) as [g3|k| |] eqn:G3.
    2: { exists (None, None, None, None, None). erewrite set_fails; [reflexivity|]. ev. rewrite gather_is by assumption. rewrite G3. reflexivity. }
    2, 3: destruct (gather_res tbl a3) as [[r Hr]|[k Hk]]; congruence.
    pose proof (gather_row tbl a3 g3 TB B3 C3 G3) as Q3. cbn [bind].
    put "b" (of_lanes 4 g3) (vars (N.of_nat j) (Some (of_lanes 4 a3)) (Some (of_lanes 4 l3)) (Some (of_lanes 4 g3)) (Some (of_lanes 4 x1)) (Some (of_lanes 4 y0))).
    2: { ev. rewrite gather_is by assumption. rewrite G3. reflexivity. }
    assert (S3 : row (map (fun x => u32 (N.shiftl x 16)) g3)) by (apply row_map; auto; intros; apply N.mod_lt; discriminate). set (s3 := map (fun x => u32 (N.shiftl x 16)) g3) in *.
    put "b" (of_lanes 4 s3) (vars (N.of_nat j) (Some (of_lanes 4 a3)) (Some (of_lanes 4 l3)) (Some (of_lanes 4 s3)) (Some (of_lanes 4 x1)) (Some (of_lanes 4 y0))).
    2: { ev. rewrite shift_ok by (try (apply row_32; assumption); lia). rewrite shl16_row by assumption. reflexivity. }
    assert (M3 : row (map2 N.lor y0 s3)) by (apply row_map2; auto using lor_lane). set (y1 := map2 N.lor y0 s3) in *.
    put "res2" (of_lanes 4 y1) (vars (N.of_nat j) (Some (of_lanes 4 a3)) (Some (of_lanes 4 l3)) (Some (of_lanes 4 s3)) (Some (of_lanes 4 x1)) (Some (of_lanes 4 y1))).
    2: { ev. rewrite two_ok by (apply row_32; assumption). rewrite bitwise_row by (auto using bytewise_lor). reflexivity. }
    pose proof (row_32 _ M1) as X. pose proof (row_32 _ M3) as Y. change of_lanes32 with (of_lanes 4).
    set (p := of_lanes 4 x1) in *. set (q := of_lanes 4 y1) in *.
    put "a" (halves (unpack 4 false) p q) (vars (N.of_nat j) (Some (halves (unpack 4 false) p q)) (Some (of_lanes 4 l3)) (Some (of_lanes 4 s3)) (Some p) (Some q)).
    2: { ev. rewrite two_ok by assumption. reflexivity. }
    put "b" (halves (unpack 4 true) p q) (vars (N.of_nat j) (Some (halves (unpack 4 false) p q)) (Some (of_lanes 4 l3)) (Some (halves (unpack 4 true) p q)) (Some p) (Some q)).
    2: { ev. rewrite two_ok by assumption. reflexivity. }
    put "a" (mm256_shuffle p) (vars (N.of_nat j) (Some (mm256_shuffle p)) (Some (of_lanes 4 l3)) (Some (halves (unpack 4 true) p q)) (Some p) (Some q)).
    2: { ev. rewrite two_ok, shuffle_256 by (assumption || reflexivity). reflexivity. }
    put "b" (mm256_shuffle q) (vars (N.of_nat j) (Some (mm256_shuffle p)) (Some (of_lanes 4 l3)) (Some (mm256_shuffle q)) (Some p) (Some q)).
    2: { ev. rewrite two_ok, shuffle_256 by (assumption || reflexivity). reflexivity. }
    pose proof (shuffle_length p) as LP. pose proof (shuffle_length q) as LQ. set (p' := mm256_shuffle p) in *. set (q' := mm256_shuffle q) in *.
    put "res1" (mm256_unpacklo16 p' q') (vars (N.of_nat j) (Some p') (Some (of_lanes 4 l3)) (Some q') (Some (mm256_unpacklo16 p' q')) (Some q)).
    2: { ev. rewrite two_ok, unpacklo_256 by assumption. reflexivity. }
    put "res2" (mm256_unpackhi16 p' q') (vars (N.of_nat j) (Some p') (Some (of_lanes 4 l3)) (Some q') (Some (mm256_unpacklo16 p' q')) (Some (mm256_unpackhi16 p' q'))).
    2: { ev. rewrite two_ok, unpackhi_256 by assumption. reflexivity. }
    exists (Some p', Some (of_lanes 4 l3), Some q', Some (mm256_unpacklo16 p' q'), Some (mm256_unpackhi16 p' q')).
    assert (LX : length (mm256_unpacklo16 p' q') = 32%nat) by (rewrite <- unpacklo_256 by assumption; clear - LP LQ; explicit p' 32%nat; explicit q' 32%nat; reflexivity).
    assert (LY : length (mm256_unpackhi16 p' q') = 32%nat) by (rewrite <- unpackhi_256 by assumption; clear - LP LQ; explicit p' 32%nat; explicit q' 32%nat; reflexivity).
    set (x := mm256_unpacklo16 p' q') in *. set (y := mm256_unpackhi16 p' q') in *.
    cbn [bind hexecs hexec hact_run all_res]. ev. rewrite (mul_2 j J). cbn [bind all_res String.eqb Ascii.eqb Bool.eqb]. rewrite (is_reg_ok 32 x LX). cbn [bind].
    replace (N.to_nat (0 + N.of_nat (2 * j))) with (2 * j)%nat by lia.
    destruct (aset dst (2 * j) x) as [d1| | |] eqn:D1; try (unfold aset in D1; destruct (_ <? _)%nat; discriminate); cbn [bind]; [|unfold aset in D1; destruct (2 * j <? length dst)%nat eqn:Z; [discriminate|apply Nat.ltb_ge in Z; lia]].
    cbn [assoc_set String.eqb Ascii.eqb Bool.eqb]. cbn [bind hexecs hexec hact_run all_res]. ev. rewrite (mul_2 j J). cbn [hbin bind all_res String.eqb Ascii.eqb Bool.eqb]. rewrite (is_reg_ok 32 y LY). cbn [bind].
    replace (N.to_nat (0 + N.of_nat (2 * j) + 1)) with (2 * j + 1)%nat by lia.
    destruct (aset d1 (2 * j + 1) y) as [d2| | |]; reflexivity.
  Qed.
End Turn.

(** ** The function *)
Lemma lt_8 j : (j <= 8)%nat -> int_op Lt I32 (N.of_nat j) I32 8 = Ok (VInt I32 (if (j <? 8)%nat then 1 else 0)).
Proof. intros J. do 9 (destruct j as [|j]; [reflexivity|]). lia. Qed.
Lemma plus_1 j : (j < 8)%nat -> int_op Add I32 (N.of_nat j) I32 1 = Ok (VInt I32 (N.of_nat (S j))).
Proof. intros J. do 8 (destruct j as [|j]; [reflexivity|]). lia. Qed.

Section Loop.
  Context (c : build) (hdr : list (string * hfun)) (call : string -> list hval -> bufs -> res bufs).
  Notation tbl := (table_bytes c).
  Hypothesis TB : Forall is_byte tbl.
  Hypothesis T : tgt c = AVX2.
  Notation bufs2 src dst := [("src", src); ("dst", dst)].
  Notation cond := (fun s bs => heval tbl s bs (HBin Lt (HVar "j") (HNum I32 8))).
  Notation body := (fun s bs => '(s', bs) <- hexecs tbl call loop_body s bs ;; Ok (leave s s', bs)).
  Notation step := (hact_run tbl call (HSet "j" (HBin Add (HVar "j") (HNum I32 1)))).

  Lemma aset_length {A} (l : list A) i x l' : aset l i x = Ok l' -> length l' = length l.
  Proof. unfold aset. destruct (_ <? _)%nat; [|discriminate]. intros H. injection H as <-. apply upd_length. Qed.

  Lemma loop_run src : length src = 8%nat -> Forall (wf c) src ->
    forall k j fuel rest dst, (j + k = 8)%nat -> (k < fuel)%nat -> length dst = 16%nat ->
    ('(_, bs) <- hloop fuel cond body step (all_vars (N.of_nat j) rest) (bufs2 src dst) ;; Ok bs) =
    (d <- for_ k j (fun j dst => w <- aget src j ;; '(r1, r2) <- avx2_sbox_word c w ;; dst <- aset dst (2 * j) r1 ;; aset dst (2 * j + 1) r2) dst ;; Ok (bufs2 src d)).
  Proof.
    intros LS WS. induction k as [|k IH]; intros j fuel [[[[a i] b] r1] r2] dst JK FK LD; (destruct fuel as [|fuel]; [lia|]); cbn [hloop all_vars for_].
    - replace (heval _ _ _ _) with (Ok (HInt I32 0)); [reflexivity|]. replace j with 8%nat by lia. reflexivity.
    - replace (heval _ _ _ _) with (Ok (HInt I32 1)); [|ev; rewrite lt_8 by lia; destruct (Nat.ltb_spec j 8); [reflexivity|lia]]. cbn [bind].
      destruct (aget src j) as [w| | |] eqn:G; try (unfold aget in G; destruct (nth_error src j) eqn:E; try discriminate; apply nth_error_None in E; lia). cbn [bind].
      destruct (turn c call TB src dst j w a i b r1 r2 ltac:(lia) G (aget_wf _ _ _ _ WS G) T LD) as [rest' E]. rewrite E. clear E.
      destruct (avx2_sbox_word c w) as [[x y]| | |]; cbn [bind]; try reflexivity.
      destruct (aset dst (2 * j) x) as [d1| | |] eqn:D1; cbn [bind]; try reflexivity.
      destruct (aset d1 (2 * j + 1) y) as [d2| | |] eqn:D2; cbn [bind]; try reflexivity.
      destruct rest' as [[[[a' i'] b'] r1'] r2']. cbn [all_vars]. cbn [leave vars length Nat.sub skipn].
      replace (step _ _) with (Ok (vars (N.of_nat (S j)) a' i' b' r1' r2', bufs2 src d2)).
      2: { cbn [hact_run]. ev. rewrite plus_1 by lia. reflexivity. }
      cbn [bind]. apply (IH (S j) fuel (a', i', b', r1', r2') d2); try lia.
      rewrite (aset_length _ _ _ _ D2), (aset_length _ _ _ _ D1). exact LD.
  Qed.
  Definition the_loop src dst := hloop 1000 cond body step (all_vars 0 (None, None, None, None, None)) (bufs2 src dst).
  Lemma the_loop_run src dst : length src = 8%nat -> Forall (wf c) src -> length dst = 16%nat ->
    ('(_, bs) <- the_loop src dst ;; Ok bs) = (d <- avx2_block_sbox_permute c src dst ;; Ok (bufs2 src d)).
  Proof. intros. apply (loop_run src ltac:(assumption) ltac:(assumption) 8 0 1000 (None, None, None, None, None) dst); [reflexivity|lia|assumption]. Qed.
End Loop.

Lemma permute_macro c src dst : sane c -> tgt c = AVX2 -> length src = 8%nat -> Forall (wf c) src -> length dst = 16%nat ->
  macro_run (table_bytes c) (header (tgt c)) "BLOCK_SBOX_PERMUTE" [Some (HPtr "src" 0); Some (HPtr "dst" 0)] [("src", src); ("dst", dst)] =
  (d <- avx2_block_sbox_permute c src dst ;; Ok ([Some (HPtr "src" 0); Some (HPtr "dst" 0)], [("src", src); ("dst", d)])).
Proof.
  intros S T LS WS LD. assert (TB : Forall is_byte (table_bytes c)) by (apply BsSbox.table_is_byte, S).
  rewrite T. unfold macro_run. cbn [assoc header avx2_header String.eqb Ascii.eqb Bool.eqb h_params h_body bind_params hconv bind hexecs hexec hact_run all_res heval].
  cbn [hcall assoc header avx2_header String.eqb Ascii.eqb Bool.eqb h_params h_body bind_params hconv bind map].
  match goal with |- context [hexecs ?t ?cl ?bd ?s ?bs] => set (H := hexecs t cl bd s bs) end.
  assert (E : H = ('(s, bs) <- the_loop c (hcall (table_bytes c) avx2_header 0) src dst ;; Ok (s, bs))) by reflexivity.
  pose proof (the_loop_run c (hcall (table_bytes c) avx2_header 0) TB T src dst LS WS LD) as L. rewrite E. clearbody H.
  destruct (the_loop c _ src dst) as [[? ?]| | |]; cbn [bind] in L |- *; destruct (avx2_block_sbox_permute c src dst); cbn [bind] in L |- *; try discriminate L; try congruence; try (injection L as ->; reflexivity).
all: reflexivity.
Qed.
