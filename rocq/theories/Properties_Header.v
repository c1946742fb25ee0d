(** Properties_Header.v -- C52: the headers of the word types, as written in /repo/src and with the
    documented meaning of the vector intrinsics, provide the word operations that the semantics of the
    sources (C47-C51) is built on.  Vocabulary: Header.v (macro_value, macro_run, intrinsics),
    HeaderSource.v (generated: header), HeaderSpec.v (as_word, uses, covered). *)
From Coq Require Import String.
From Verif Require Import Base Mem Spec ModelBsWord ModelBsBlock BsWordFacts BsView BsSbox BsFacts Header HeaderSource HeaderSpec HeaderFacts HeaderAvx2 SourceBitslice BsApiSpec Properties_Bitslice.
From Verif Require MiniC.
Local Open Scope string_scope.
Local Open Scope list_scope.
Local Open Scope N_scope.

(* C52: on every word type and byte order, BS_AND, BS_OR, BS_XOR, BS_NOT act on every bit of the word *)
Theorem C52_bits : forall tbl c a b, sane c -> wf c a -> wf c b ->
  exists x o e n,
    macro_value tbl (header (tgt c)) "BS_AND" [as_word c a; as_word c b] = Ok (as_word c x) /\
    macro_value tbl (header (tgt c)) "BS_OR" [as_word c a; as_word c b] = Ok (as_word c o) /\
    macro_value tbl (header (tgt c)) "BS_XOR" [as_word c a; as_word c b] = Ok (as_word c e) /\
    macro_value tbl (header (tgt c)) "BS_NOT" [as_word c a] = Ok (as_word c n) /\
    Forall (wf c) [x; o; e; n] /\
    forall i, (i < batch_size c)%nat ->
      mbit x i = mbit a i && mbit b i /\ mbit o i = mbit a i || mbit b i /\ mbit e i = xorb (mbit a i) (mbit b i) /\ mbit n i = negb (mbit a i).
Proof.
  intros tbl c a b S A B. exists (BS_AND a b), (BS_OR a b), (BS_XOR a b), (BS_NOT c a).
  split; [apply (bitwise_macro tbl c N.land); auto using bytewise_land; cbn; auto|].
  split; [apply (bitwise_macro tbl c N.lor); auto using bytewise_lor; cbn; auto|].
  split; [apply (bitwise_macro tbl c N.lxor); auto using bytewise_lxor; cbn; auto|].
  split; [apply not_macro; assumption|].
  split; [apply Forall_cons; [apply wf_and; assumption|]; apply Forall_cons; [apply wf_or; assumption|]; apply Forall_cons; [apply wf_xor; assumption|]; apply Forall_cons; [apply wf_not; assumption|]; apply Forall_nil|].
  intros i Hi. rewrite batch_bytes in Hi.
  repeat split; [eapply mbit_and|eapply mbit_or|eapply mbit_xor|eapply mbit_not]; eassumption.
Qed.

(* C52: and BS_SHL, BS_SHR by a count that fits shift every lane (the whole word, or its 64-bit parts) as an
   unsigned number of the machine's byte order, for every count 1 .. lane size - 1 *)
Theorem C52_shifts : forall tbl c a n, sane c -> wf c a -> 1 <= n < 8 * N.of_nat (lane_bytes c) ->
  exists x y,
    macro_value tbl (header (tgt c)) "BS_SHL" [as_word c a; HInt MiniC.I32 n] = Ok (as_word c x) /\
    macro_value tbl (header (tgt c)) "BS_SHR" [as_word c a; HInt MiniC.I32 n] = Ok (as_word c y) /\
    wf c x /\ wf c y /\
    forall L, (L < word_bytes c / lane_bytes c)%nat ->
      let value w := native_val (big_endian c) (firstn (lane_bytes c) (skipn (lane_bytes c * L) w)) in
      value x = (value a * 2 ^ n) mod 2 ^ (8 * N.of_nat (lane_bytes c)) /\ value y = value a / 2 ^ n.
Proof.
  intros tbl c a n S A H. exists (BS_SHL c a n), (BS_SHR c a n).
  split; [apply shl_macro; assumption|]. split; [apply shr_macro; assumption|].
  split; [apply wf_shl, A|]. split; [apply wf_shr, A|].
  intros L HL. cbv zeta.
  assert (lane_of : forall f, native_val (big_endian c) (firstn (lane_bytes c) (skipn (lane_bytes c * L) (lanewise c f a))) =
    f (native_val (big_endian c) (firstn (lane_bytes c) (skipn (lane_bytes c * L) a))) mod 2 ^ (8 * N.of_nat (lane_bytes c))).
  { intros f. unfold lanewise. rewrite lane_map_lanes.
    - apply native_val_native_bytes.
    - intros; apply native_bytes_length.
    - destruct A as [Ha _]. rewrite Ha; apply word_lanes.
    - exact HL. }
  split.
  - rewrite <- N.shiftl_mul_pow2. apply (lane_of (fun v => N.shiftl v n)).
  - etransitivity; [apply (lane_of (fun v => N.shiftr v n))|]. rewrite N.shiftr_div_pow2. apply N.mod_small.
    pose proof (lane_length c L a A HL) as Le. pose proof (native_bound (big_endian c) (lane c L a) (lane_is_byte c L a A)) as Lt. rewrite Le in Lt.
    unfold lane in Lt. eapply N.le_lt_trans; [|exact Lt]. apply N.div_le_upper_bound; [apply N.pow_nonzero; lia|].
    rewrite <- (N.mul_1_l (native_val _ _)) at 1. apply N.mul_le_mono_r. assert (2 ^ n <> 0) by (apply N.pow_nonzero; lia). lia.
Qed.

(* C52: every constant BS_VALn(v) of the sources is the n-byte number v, repeated *)
Theorem C52_constants : forall tbl c m k v, sane c -> In (m, (k, v)) constants -> (k <= word_bytes c)%nat ->
  macro_value tbl (header (tgt c)) m [] = Ok (as_word c (concat (repeat (native_bytes (big_endian c) k v) (word_bytes c / k)))).
Proof. intros. rewrite (constant_macro tbl c m k v) by assumption. reflexivity. Qed.

(* C52: BS_LOAD_DEINTERLEAVE_8 gives the bytes at even positions of the two words and those at odd positions
   (SSSE3, NEON), or the two words themselves (AVX2, where BLOCK_SBOX_PERMUTE stores them apart), whatever its
   destinations contained before *)
Theorem C52_deinterleave : forall tbl c p ws g (u v : option word), deinterleave c = true -> Forall (wf c) ws -> (2 * g + 1 < length ws)%nat ->
  exists x y,
    macro_run tbl (header (tgt c)) "BS_LOAD_DEINTERLEAVE_8" [Some (HPtr p (2 * N.of_nat g)); option_map HReg u; option_map HReg v] [(p, ws)] =
      Ok ([Some (HPtr p (2 * N.of_nat g)); Some (as_word c x); Some (as_word c y)], [(p, ws)]) /\
    wf c x /\ wf c y /\
    let both := nth (2 * g) ws [] ++ nth (2 * g + 1) ws [] in
    forall k, (k < word_bytes c)%nat ->
      nth k x 0 = nth (if match tgt c with AVX2 => true | _ => false end then k else 2 * k)%nat both 0 /\
      nth k y 0 = nth (if match tgt c with AVX2 => true | _ => false end then word_bytes c + k else 2 * k + 1)%nat both 0.
Proof.
  intros tbl c p ws g u v D F L.
  assert (Wn : forall n, (n < length ws)%nat -> wf c (nth n ws [])) by (intros n Hn; rewrite Forall_forall in F; apply F, nth_In, Hn).
  pose proof (Wn (2 * g)%nat ltac:(lia)) as [La Fa]. pose proof (Wn (2 * g + 1)%nat ltac:(lia)) as [Lb Fb].
  assert (E : BS_LOAD_DEINTERLEAVE_8 c ws g = Ok
    (if match tgt c with AVX2 => true | _ => false end then (nth (2 * g) ws [], nth (2 * g + 1) ws [])
     else (evens (nth (2 * g) ws [] ++ nth (2 * g + 1) ws []), odds (nth (2 * g) ws [] ++ nth (2 * g + 1) ws [])))).
  { unfold BS_LOAD_DEINTERLEAVE_8. rewrite (aget_ok (A:=word) _ (2 * g) []) by lia. cbn [bind].
    rewrite (aget_ok (A:=word) _ (2 * g + 1) []) by lia. cbn [bind]. unfold deinterleave in D. unfold word_bytes in La, Lb.
    destruct (tgt c); try discriminate D; try reflexivity. cbv zeta.
    destruct (shuffle_evens _ _ La Lb) as [-> ->]. reflexivity. }
  cbv zeta. unfold word in *. destruct (tgt c) eqn:T; try (unfold deinterleave in D; rewrite T in D; discriminate D).
  all: cbn beta iota in E.
  all: match type of E with _ = Ok (?x, ?y) => exists x, y end.
  all: split; [rewrite <- T; unfold as_word; rewrite T; pose proof (deinterleave_macro tbl c p ws g u v D F _ _ E) as Hd; rewrite T in Hd; exact Hd|].
  1, 3: pose proof La as La'; pose proof Lb as Lb'; unfold word_bytes in La', Lb'; rewrite T in La', Lb';
    set (l := nth (2 * g) ws [] ++ nth (2 * g + 1) ws []); assert (Ll : length l = (2 * 16)%nat) by (unfold l; rewrite app_length; lia);
    destruct (evens_length 16 l Ll) as [Le Lo]; destruct (evens_Forall 16 l Ll) as [Ge Go]; [apply Forall_app; auto|];
    split; [split; [unfold word_bytes; rewrite T; exact Le|exact Ge]|]; split; [split; [unfold word_bytes; rewrite T; exact Lo|exact Go]|];
    intros k _; apply (evens_nth 16 l k Ll).
  split; [split; assumption|]. split; [split; assumption|]. intros k Hk. split.
  - rewrite app_nth1 by lia. reflexivity.
  - rewrite app_nth2 by lia. f_equal. lia.
Qed.

(* C52: the NEON header's BS_SWAP8_LE, BS_SWAP16_LE and BS_SWAP32_LE exchange the odd elements (of 1, 2 or 4 bytes)
   of the first word with the even ones of the second *)
Theorem C52_swaps : forall tbl c n m t b bs, tgt c = NEON ->
  In (n, m) [(1%nat, "BS_SWAP8_LE"); (2%nat, "BS_SWAP16_LE"); (4%nat, "BS_SWAP32_LE")] -> wf c t -> wf c b ->
  exists x y, macro_run tbl (header (tgt c)) m [Some (as_word c t); Some (as_word c b)] bs = Ok ([Some (as_word c x); Some (as_word c y)], bs) /\
    wf c x /\ wf c y /\
    forall k, (k < 16)%nat ->
      nth k x 0 = (if Nat.even (k / n) then nth k t 0 else nth (k - n) b 0) /\
      nth k y 0 = (if Nat.even (k / n) then nth (k + n) t 0 else nth k b 0).
Proof.
  intros tbl c n m t b bs T H [Lt Ft] [Lb Fb].
  assert (I : In ((8 * n)%nat, m) [(8%nat, "BS_SWAP8_LE"); (16%nat, "BS_SWAP16_LE"); (32%nat, "BS_SWAP32_LE")]).
  { destruct H as [H|[H|[H|[]]]]; inversion H; cbn; auto. }
  exists (fst (BS_SWAP_LE c (8 * n) t b)), (snd (BS_SWAP_LE c (8 * n) t b)).
  split; [eapply swap_macro; try eassumption; try (split; assumption); apply surjective_pairing|].
  assert (B : BS_SWAP_LE c (8 * n) t b = vtrnq n t b) by (unfold BS_SWAP_LE; rewrite T; destruct H as [H|[H|[H|[]]]]; inversion H; reflexivity).
  rewrite B. unfold wf. unfold word_bytes in *. rewrite T in *. unfold word in *.
  do 16 (destruct t as [|? t]; [discriminate Lt|]). destruct t; [|discriminate Lt].
  do 16 (destruct b as [|? b]; [discriminate Lb|]). destruct b; [|discriminate Lb].
  repeat match goal with H : Forall _ (_ :: _) |- _ => inversion H; clear H; subst end.
  destruct H as [H|[H|[H|[]]]]; inversion H; subst; cbv [vtrnq fst snd].
  all: match goal with |- context [trn ?i ?e ?l ?r] => let v := eval vm_compute in (trn i e l r) in change (trn i e l r) with v end; cbv iota beta.
  all: split; [split; [reflexivity|repeat (constructor; try assumption)]|].
  all: split; [split; [reflexivity|repeat (constructor; try assumption)]|].
  all: intros k Hk; do 16 (destruct k as [|k]; [split; reflexivity|]); lia.
Qed.

Theorem C52_sizes : forall tbl c,
  macro_value tbl (header (tgt c)) "BS_BATCH_SIZE" [] = Ok (HInt MiniC.I32 (N.of_nat (batch_size c))) /\
  macro_value tbl (header (tgt c)) "BS_BATCH_BYTES" [] = Ok (HInt MiniC.I32 (N.of_nat (word_bytes c))) /\
  batch_size c = (8 * word_bytes c)%nat.
Proof. intros. destruct (size_macro tbl c). auto using batch_bytes. Qed.

(* C52: the values of the macros are the operations of the semantics of the sources (BsC.v) *)
Theorem C52_semantics : forall tbl c a b, sane c -> wf c a -> wf c b ->
  macro_value tbl (header (tgt c)) "BS_AND" [as_word c a; as_word c b] = Ok (as_word c (BS_AND a b)) /\
  macro_value tbl (header (tgt c)) "BS_OR" [as_word c a; as_word c b] = Ok (as_word c (BS_OR a b)) /\
  macro_value tbl (header (tgt c)) "BS_XOR" [as_word c a; as_word c b] = Ok (as_word c (BS_XOR a b)) /\
  macro_value tbl (header (tgt c)) "BS_NOT" [as_word c a] = Ok (as_word c (BS_NOT c a)) /\
  (forall n, 1 <= n < 8 * N.of_nat (lane_bytes c) ->
     macro_value tbl (header (tgt c)) "BS_SHL" [as_word c a; HInt MiniC.I32 n] = Ok (as_word c (BS_SHL c a n)) /\
     macro_value tbl (header (tgt c)) "BS_SHR" [as_word c a; HInt MiniC.I32 n] = Ok (as_word c (BS_SHR c a n))) /\
  (forall m k v, In (m, (k, v)) constants -> (k <= word_bytes c)%nat -> macro_value tbl (header (tgt c)) m [] = Ok (as_word c (BS_VAL c k v))) /\
  (forall n m bs x y, tgt c = NEON -> In (n, m) [(8%nat, "BS_SWAP8_LE"); (16%nat, "BS_SWAP16_LE"); (32%nat, "BS_SWAP32_LE")] -> BS_SWAP_LE c n a b = (x, y) ->
     macro_run tbl (header (tgt c)) m [Some (as_word c a); Some (as_word c b)] bs = Ok ([Some (as_word c x); Some (as_word c y)], bs)) /\
  (forall p ws g (u v : option word) x y, deinterleave c = true -> Forall (wf c) ws -> BS_LOAD_DEINTERLEAVE_8 c ws g = Ok (x, y) ->
     macro_run tbl (header (tgt c)) "BS_LOAD_DEINTERLEAVE_8" [Some (HPtr p (2 * N.of_nat g)); option_map HReg u; option_map HReg v] [(p, ws)] =
     Ok ([Some (HPtr p (2 * N.of_nat g)); Some (HReg x); Some (HReg y)], [(p, ws)])).
Proof.
  intros tbl c a b S A B.
  split; [apply (bitwise_macro tbl c N.land); auto using bytewise_land; cbn; auto|].
  split; [apply (bitwise_macro tbl c N.lor); auto using bytewise_lor; cbn; auto|].
  split; [apply (bitwise_macro tbl c N.lxor); auto using bytewise_lxor; cbn; auto|].
  split; [apply not_macro; assumption|].
  split; [intros n Hn; split; [apply shl_macro|apply shr_macro]; assumption|].
  split; [intros; apply constant_macro; assumption|].
  split; [intros; eapply swap_macro; eassumption|].
  intros; apply deinterleave_macro; assumption.
Qed.

(* C52: and these are the only uses that the sources make of the headers: shift counts are constants below
   the lane size, constants are in the list and not wider than the word, and the macros that only some
   headers define are used on their builds only, with arguments without side effects and without names that the
   macro's body declares *)
Definition safe_argsb (c : build) (m : string) (args : list BsC.expr) : bool :=
  forallb (fun e => match pure_names e with Some xs => forallb (fun x => negb (existsb (String.eqb x) (declares c m))) xs | None => false end) args.
Lemma safe_argsb_ok c m args : safe_argsb c m args = true -> safe_args c m args.
Proof.
  intros H. apply Forall_forall. intros e He. unfold safe_argsb in H. rewrite forallb_forall in H. specialize (H e He). cbv beta in H.
  destruct (pure_names e) as [xs|]; [|discriminate]. exists xs. split; [reflexivity|]. apply Forall_forall. intros x Hx I.
  rewrite forallb_forall in H. specialize (H x Hx). apply Bool.negb_true_iff in H.
  assert (E : existsb (String.eqb x) (declares c m) = true) by (apply existsb_exists; exists x; split; [exact I|apply String.eqb_refl]). congruence.
Qed.
Definition coveredb (c : build) (u : use) : bool :=
  match u with
  | UOp => true
  | UShift o => match o with Some n => (1 <=? n) && (n <? 8 * N.of_nat (lane_bytes c)) | None => false end
  | UVal k v => existsb (fun x => Nat.eqb (fst (snd x)) k && N.eqb (snd (snd x)) v) constants && Nat.leb k (word_bytes c)
  | USwap n args => match tgt c with NEON => true | _ => false end &&
      existsb (fun x => Nat.eqb n (fst x) && safe_argsb c (snd x) args) [(8%nat, "BS_SWAP8_LE"); (16%nat, "BS_SWAP16_LE"); (32%nat, "BS_SWAP32_LE")]
  | UDeint args => deinterleave c && safe_argsb c "BS_LOAD_DEINTERLEAVE_8" args
  | UPermute => match tgt c with AVX2 => true | _ => false end
  end.
Lemma coveredb_ok c u : coveredb c u = true -> covered c u.
Proof.
  destruct u as [|[n|]|k v|n args|args|]; cbn [coveredb covered]; intros H; try exact I; try discriminate; try (apply andb_prop in H; destruct H as [H1 H2]).
  - apply N.leb_le in H1. apply N.ltb_lt in H2. eauto.
  - apply existsb_exists in H1. destruct H1 as [[m [k' v']] [I E]]. cbn [fst snd] in E.
    apply andb_prop in E. destruct E as [E1 E2]. apply Nat.eqb_eq in E1. apply N.eqb_eq in E2. subst. apply Nat.leb_le in H2. eauto.
  - split; [destruct (tgt c); try discriminate; reflexivity|]. apply existsb_exists in H2. destruct H2 as [[x m] [I E]]. cbn [fst snd] in E.
    apply andb_prop in E. destruct E as [E1 E2]. apply Nat.eqb_eq in E1. subst x. exists m. split; [exact I|apply safe_argsb_ok, E2].
  - split; [exact H1|apply safe_argsb_ok, H2].
  - destruct (tgt c); try discriminate. reflexivity.
Qed.
Theorem C52_uses : forall c, Forall (covered c) (uses (src_bs_program c)).
Proof.
  intros c. apply Forall_forall. intros u H. apply coveredb_ok. revert u H. apply forallb_forall.
  destruct c as [t be alt i386 d a e s]. destruct t, be, alt, i386, d, a, e; vm_compute; reflexivity.
Qed.

(* C52: the AVX2 header's own BLOCK_SBOX_PERMUTE, with the loads that follow it, gives the S-box value of every
   byte of the eight words and its bit permutation *)
Theorem C52_avx2_permute : forall c src dst, supported c -> tgt c = AVX2 ->
  length src = 8%nat -> Forall (wf c) src -> length dst = 16%nat -> Forall (wf c) dst ->
  exists d, macro_run (table_bytes c) (header (tgt c)) "BLOCK_SBOX_PERMUTE" [Some (HPtr "src" 0); Some (HPtr "dst" 0)] [("src", src); ("dst", dst)] =
    Ok ([Some (HPtr "src" 0); Some (HPtr "dst" 0)], [("src", src); ("dst", d)]) /\
  forall tbl g u v, (g < 8)%nat ->
    macro_run tbl (header (tgt c)) "BS_LOAD_DEINTERLEAVE_8" [Some (HPtr "dst" (2 * N.of_nat g)); option_map HReg u; option_map HReg v] [("dst", d)] =
    Ok ([Some (HPtr "dst" (2 * N.of_nat g)); Some (HReg (map sbox (nth g src []))); Some (HReg (map (fun x => perm (sbox x)) (nth g src [])))], [("dst", d)]).
Proof.
  intros c src dst Sp Ht Ls Fs Ld Fd. pose proof Sp as [Sc _].
  assert (W : wp (avx2_block_sbox_permute c src dst) (fun d => (wrows c 16 d) /\ forall g, (g < 8)%nat ->
     nth (2 * g) d [] = map sbox (nth g src []) /\ nth (2 * g + 1) d [] = map (fun x => perm (sbox x)) (nth g src []))).
  { apply avx2_permute_ok; auto; split; assumption. }
  rewrite (permute_macro c src dst Sc Ht Ls Fs Ld).
  destruct (avx2_block_sbox_permute c src dst) as [d| | |]; cbn [wp] in W; try contradiction. destruct W as [[Ln Fn] V].
  exists d. split; [reflexivity|]. intros tbl g u v Hg. destruct (V g Hg) as [V1 V2].
  apply deinterleave_macro; [unfold deinterleave; rewrite Ht; reflexivity|exact Fn|].
  unfold BS_LOAD_DEINTERLEAVE_8. rewrite (aget_ok (A:=word) _ (2 * g) []) by lia. cbn [bind].
  rewrite (aget_ok (A:=word) _ (2 * g + 1) []) by lia. cbn [bind]. rewrite Ht, V1, V2. reflexivity.
Qed.

(* concrete cases: words with all bytes different, on every word type *)
Definition ex_word (c : build) (k : N) : word := map (fun i => (k + 37 * N.of_nat i) mod 256) (seq 0 (word_bytes c)).
Lemma ex_word_wf t k : wf (ex_build t) (ex_word (ex_build t) k).
Proof. split; [unfold ex_word; rewrite map_length, seq_length; reflexivity|]. apply Forall_map, Forall_forall. intros i _. apply N.mod_lt. discriminate. Qed.
Example C52_case_bits : forall t, let c := ex_build t in exists x,
  macro_value (table_bytes c) (header (tgt c)) "BS_XOR" [as_word c (ex_word c 1); as_word c (ex_word c 6)] = Ok (as_word c x) /\ nth 1 x 0 = N.lxor 38 43.
Proof.
  intros t c. exists (BS_XOR (ex_word c 1) (ex_word c 6)). split; [|destruct t; reflexivity].
  assert (S : sane c) by apply ex_supported.
  destruct (C52_semantics (table_bytes c) c (ex_word c 1) (ex_word c 6) S (ex_word_wf t 1) (ex_word_wf t 6)) as (_ & _ & H & _). exact H.
Qed.
(* and computed, on AVX2: the header's code run on concrete words gives S-box values *)
Example C52_case_permute : let c := ex_build AVX2 in
  match macro_run (table_bytes c) (header (tgt c)) "BLOCK_SBOX_PERMUTE" [Some (HPtr "src" 0); Some (HPtr "dst" 0)]
    [("src", map (fun k => ex_word c (N.of_nat k)) (seq 0 8)); ("dst", repeat (ex_word c 9) 16)] with
  | Ok (_, [_; (_, d)]) => nth 10 d [] = map sbox (ex_word c 5) /\ nth 11 d [] = map (fun x => perm (sbox x)) (ex_word c 5) /\ NoDup (firstn 32 (ex_word c 5))
  | _ => False
  end.
Proof. cbv zeta. vm_compute. split; [reflexivity|]. split; [reflexivity|]. repeat (constructor; [cbn; intuition discriminate|]). constructor. Qed.
(* the sources do use the headers *)
Example C52_case_uses : let u t := uses (src_bs_program (ex_build t)) in
  In (USwap 16 [BsC.EVar "a0"; BsC.EVar "a2"]) (u NEON) /\
  In (UDeint [BsC.EBin MiniC.Add (BsC.EVar "scratch2") (BsC.EBin MiniC.Mul (BsC.EVar "g") (BsC.EConst MiniC.I32 2)); BsC.EVar "sbox_out"; BsC.EVar "perm_out"]) (u SSSE3) /\
  In UPermute (u AVX2) /\ In (UVal 8 0xffffffff) (u UINT64) /\ In (UShift (Some 16)) (u UINT32).
Proof.
  cbv zeta. split; [apply (nth_error_In _ 421); vm_compute; reflexivity|]. split; [apply (nth_error_In _ 320); vm_compute; reflexivity|].
  split; [apply (nth_error_In _ 320); vm_compute; reflexivity|]. split; [apply (nth_error_In _ 520); vm_compute; reflexivity|].
  apply (nth_error_In _ 379). vm_compute. reflexivity.
Qed.

Print Assumptions C52_bits.
Print Assumptions C52_shifts.
Print Assumptions C52_constants.
Print Assumptions C52_deinterleave.
Print Assumptions C52_swaps.
Print Assumptions C52_sizes.
Print Assumptions C52_semantics.
Print Assumptions C52_uses.
Print Assumptions C52_avx2_permute.
