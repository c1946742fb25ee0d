(** HeaderFacts.v -- the macros of the word-type headers, as written there (HeaderSource.v) and with
    the documented meaning of the intrinsics (Header.v), compute the word operations of
    ModelBsWord.v and ModelBsBlock.v, on which the semantics of the sources (BsC.v) rests. *)
From Coq Require Import String.
From Verif Require Import Base Mem ModelBsWord ModelBsBlock BsWordFacts MiniC MiniCRun Header HeaderSource HeaderSpec.
Local Open Scope string_scope.
Local Open Scope list_scope.
Local Open Scope N_scope.

(** ** Numbers and bytes *)
Lemma le_val_map2 f :
  (forall a b x y, is_byte a -> is_byte b -> f (a + 256 * x) (b + 256 * y) = f a b + 256 * f x y) -> f 0 0 = 0 ->
  forall a b, length a = length b -> Forall is_byte a -> Forall is_byte b -> le_val (map2 f a b) = f (le_val a) (le_val b).
Proof.
  intros F F0 a. induction a as [|x a IH]; intros [|y b] L A B; try discriminate; cbn [map2 le_val]; [congruence|].
  inversion A; inversion B; subst. rewrite F by assumption. rewrite IH; auto.
Qed.
Lemma bits_256 f g : (forall x y k, N.testbit (f x y) k = g (N.testbit x k) (N.testbit y k)) -> (forall a b, is_byte a -> is_byte b -> is_byte (f a b)) ->
  forall a b x y, is_byte a -> is_byte b -> f (a + 256 * x) (b + 256 * y) = f a b + 256 * f x y.
Proof.
  intros F B a b x y Ha Hb. apply N.bits_inj. intros k. rewrite F, !testbit_add_256, !F; auto.
  destruct (k <? 8); reflexivity.
Qed.
Lemma le_val_land a b : length a = length b -> Forall is_byte a -> Forall is_byte b -> le_val (map2 N.land a b) = N.land (le_val a) (le_val b).
Proof.
  apply le_val_map2; [apply (bits_256 N.land andb); [apply N.land_spec|intros; apply land_byte; assumption]|reflexivity].
Qed.
Lemma le_val_lor a b : length a = length b -> Forall is_byte a -> Forall is_byte b -> le_val (map2 N.lor a b) = N.lor (le_val a) (le_val b).
Proof.
  apply le_val_map2; [apply (bits_256 N.lor orb); [apply N.lor_spec|intros; apply lor_byte; assumption]|reflexivity].
Qed.
Lemma le_val_lxor a b : length a = length b -> Forall is_byte a -> Forall is_byte b -> le_val (map2 N.lxor a b) = N.lxor (le_val a) (le_val b).
Proof.
  apply le_val_map2; [apply (bits_256 N.lxor xorb); [apply N.lxor_spec|intros; apply lxor_byte; assumption]|reflexivity].
Qed.

(* the three operations on bytes that are bitwise operations on the number *)
Definition bytewise (f : N -> N -> N) : Prop :=
  (forall a b, length a = length b -> Forall is_byte a -> Forall is_byte b -> le_val (map2 f a b) = f (le_val a) (le_val b)) /\
  (forall a b, is_byte a -> is_byte b -> is_byte (f a b)).
Lemma bytewise_land : bytewise N.land. Proof. split; [exact le_val_land|intros; apply land_byte; assumption]. Qed.
Lemma bytewise_lor : bytewise N.lor. Proof. split; [exact le_val_lor|intros; apply lor_byte; assumption]. Qed.
Lemma bytewise_lxor : bytewise N.lxor. Proof. split; [exact le_val_lxor|intros; apply lxor_byte; assumption]. Qed.

Lemma map2_bytes f a : bytewise f -> forall b, Forall is_byte a -> Forall is_byte b -> Forall is_byte (map2 f a b).
Proof.
  intros [_ F]. induction a as [|x a IH]; intros [|y b] A B; cbn [map2]; try constructor; inversion A; inversion B; subst; auto.
Qed.
Lemma bitwise_is f a b : bytewise f -> length a = length b -> Forall is_byte a -> Forall is_byte b -> bitwise f a b = map2 f a b.
Proof.
  intros F L A B. unfold bitwise. rewrite <- (proj1 F) by assumption.
  replace (length a) with (length (map2 f a b)) by (rewrite map2_length; lia).
  apply le_bytes_val, map2_bytes; assumption.
Qed.
Lemma map2_app {A B C} (f : A -> B -> C) l : forall l' r r', length l = length l' -> map2 f (l ++ r) (l' ++ r') = map2 f l l' ++ map2 f r r'.
Proof. induction l as [|x l IH]; intros [|y l'] r r' E; try discriminate; cbn; [reflexivity|]. rewrite IH; auto. Qed.
Lemma map2_rev {A B C} (f : A -> B -> C) l : forall l', length l = length l' -> map2 f (rev l) (rev l') = rev (map2 f l l').
Proof.
  induction l as [|x l IH]; intros [|y l'] E; try discriminate; cbn; [reflexivity|].
  injection E as E. rewrite map2_app by (rewrite !rev_length; assumption). cbn. rewrite IH; auto.
Qed.
Lemma native_map2 f be a b : bytewise f -> length a = length b -> Forall is_byte a -> Forall is_byte b ->
  native_val be (map2 f a b) = f (native_val be a) (native_val be b).
Proof.
  intros F L A B. destruct be; cbn; [|apply F; assumption].
  rewrite <- map2_rev by assumption. apply F; [rewrite !rev_length; assumption| |]; apply Forall_rev; assumption.
Qed.
Lemma native_bound be l : Forall is_byte l -> native_val be l < 2 ^ (8 * N.of_nat (length l)).
Proof.
  intros H. destruct be; cbn; [|apply le_val_bound; assumption].
  rewrite <- (rev_length l). apply le_val_bound, Forall_rev, H.
Qed.

(** complements *)
Lemma byte_not x : is_byte x -> N.lxor x 255 = 255 - x.
Proof.
  intros H. assert (P : forall y, In y (map N.of_nat (seq 0 256)) -> N.lxor y 255 = 255 - y).
  { assert (E : forallb (fun y => N.lxor y 255 =? 255 - y) (map N.of_nat (seq 0 256)) = true) by (vm_compute; reflexivity).
    intros y Hy. rewrite forallb_forall in E. apply N.eqb_eq, E, Hy. }
  apply P. apply in_map_iff. exists (N.to_nat x). unfold is_byte in H. split; [lia|]. apply in_seq. lia.
Qed.
Lemma le_val_not l : Forall is_byte l -> le_val (map (fun x => N.lxor x 255) l) = all_ones (length l) - le_val l.
Proof.
  intros H. enough (le_val (map (fun x => N.lxor x 255) l) + le_val l = all_ones (length l)) by lia.
  induction H as [|x l Hx H IH]; [reflexivity|]. cbn [map le_val length]. rewrite byte_not by exact Hx.
  unfold all_ones in *. replace (8 * N.of_nat (S (length l))) with (8 + 8 * N.of_nat (length l)) by lia.
  rewrite N.pow_add_r. change (2 ^ 8) with 256. unfold is_byte in Hx.
  pose proof (N.pow_nonzero 2 (8 * N.of_nat (length l))). lia.
Qed.
Lemma native_not be l : Forall is_byte l -> native_val be (map (fun x => N.lxor x 255) l) = all_ones (length l) - native_val be l.
Proof.
  intros H. destruct be; cbn; [|apply le_val_not; assumption].
  rewrite <- map_rev, le_val_not, rev_length; [reflexivity|apply Forall_rev, H].
Qed.
Lemma not_is_xor l : map (fun x => N.lxor x 255) l = map2 N.lxor l (repeat 255 (length l)).
Proof. induction l; cbn; congruence. Qed.
Lemma ones_byte n : Forall is_byte (repeat 255 n).
Proof. apply Forall_forall. intros x Hx. apply repeat_spec in Hx. subst. reflexivity. Qed.
Lemma ones_val n : le_val (repeat 255 n) = all_ones n.
Proof.
  enough (le_val (repeat 255 n) + 1 = 2 ^ (8 * N.of_nat n)) by (unfold all_ones; lia).
  induction n; [reflexivity|]. cbn [repeat le_val]. replace (8 * N.of_nat (S n)) with (8 + 8 * N.of_nat n) by lia.
  rewrite N.pow_add_r. change (2 ^ 8) with 256. lia.
Qed.
Lemma andnot_is n a b : length a = n -> length b = n -> Forall is_byte a -> Forall is_byte b ->
  andnot n a b = map2 N.land (map (fun x => N.lxor x 255) a) b.
Proof.
  intros La Lb A B. unfold andnot, bitwise.
  rewrite <- ones_val. rewrite <- le_val_lxor by (rewrite ?repeat_length; auto using ones_byte).
  replace n with (length a) at 1. rewrite <- not_is_xor.
  assert (NB : Forall is_byte (map (fun x => N.lxor x 255) a)).
  { apply Forall_map. eapply Forall_impl; [|exact A]. intros x Hx. apply lxor_byte; [exact Hx|reflexivity]. }
  rewrite <- le_val_land by (rewrite ?map_length; auto; congruence).
  replace (length a) with (length (map2 N.land (map (fun x => N.lxor x 255) a) b)) by (rewrite map2_length, map_length; lia).
  apply le_bytes_val, map2_bytes; auto using bytewise_land.
Qed.

(** le_bytes takes the number modulo its size *)
Lemma le_val_le_bytes n : forall v, le_val (le_bytes n v) = v mod 2 ^ (8 * N.of_nat n).
Proof.
  induction n as [|n IH]; intros v; cbn [le_bytes le_val]; [symmetry; apply N.mod_1_r|].
  rewrite IH. replace (8 * N.of_nat (S n)) with (8 + 8 * N.of_nat n) by lia.
  rewrite N.pow_add_r. change (2 ^ 8) with 256. rewrite N.mod_mul_r by (try lia; apply N.pow_nonzero; lia). reflexivity.
Qed.
Lemma le_bytes_mod n v : le_bytes n (v mod 2 ^ (8 * N.of_nat n)) = le_bytes n v.
Proof.
  rewrite <- le_val_le_bytes. rewrite <- (le_bytes_length n v) at 1. apply le_bytes_val, le_bytes_is_byte.
Qed.
Lemma native_val_native_bytes be n v : native_val be (native_bytes be n v) = v mod 2 ^ (8 * N.of_nat n).
Proof. destruct be; cbn; rewrite ?rev_involutive; apply le_val_le_bytes. Qed.

(** elements of a register *)
Lemma pieces_cons e p r : length p = e -> (0 < e)%nat -> pieces e (p ++ r) = p :: pieces e r.
Proof.
  intros L E. unfold pieces. rewrite app_length, L. replace ((e + length r) / e)%nat with (S (length r / e)).
  2: { replace (e + length r)%nat with (length r + 1 * e)%nat by lia. rewrite Nat.div_add by lia. lia. }
  cbn [seq map]. rewrite Nat.mul_0_r. cbn [skipn]. rewrite firstn_app, L, Nat.sub_diag, firstn_O, app_nil_r, firstn_all2 by lia.
  f_equal. rewrite <- seq_shift, map_map. apply map_ext. intros i. rewrite skipn_app, skipn_all2 by lia.
  cbn [app]. do 2 f_equal. lia.
Qed.
Lemma pieces_nil e : (0 < e)%nat -> pieces e [] = [].
Proof. intros H. unfold pieces. cbn [length]. rewrite Nat.div_small by lia. reflexivity. Qed.
Lemma pieces_concat e l : (0 < e)%nat -> Forall (fun p => length p = e) l -> pieces e (concat l) = l.
Proof. intros E. induction 1; cbn [concat]; [apply pieces_nil, E|]. rewrite pieces_cons by assumption. congruence. Qed.
Lemma lanes_1 l : lanes 1 l = l.
Proof.
  unfold lanes. replace (pieces 1 l) with (map (fun x => [x]) l).
  - rewrite map_map. rewrite (map_ext _ (fun x => x)); [apply map_id|]. intros x. cbn. lia.
  - replace l with (concat (map (fun x => [x]) l)) at 2 by (induction l; cbn; congruence).
    rewrite pieces_concat; [reflexivity|lia|]. apply Forall_map, Forall_forall. reflexivity.
Qed.
Lemma of_lanes_1 l : Forall is_byte l -> of_lanes 1 l = l.
Proof. unfold of_lanes. induction 1; cbn [map concat]; [reflexivity|]. rewrite IHForall. cbn. rewrite N.mod_small by assumption. reflexivity. Qed.
Lemma lanes_of_lanes e l : (0 < e)%nat -> Forall (fun x => x < 2 ^ (8 * N.of_nat e)) l -> lanes e (of_lanes e l) = l.
Proof.
  intros E H. unfold lanes, of_lanes. rewrite pieces_concat; [|exact E|apply Forall_map, Forall_forall; intros; apply le_bytes_length].
  rewrite map_map. rewrite (map_ext_in _ (fun x => x)); [apply map_id|]. intros x Hx. rewrite Forall_forall in H. apply le_val_bytes, H, Hx.
Qed.

(** ** The operations on words *)
Lemma is_reg_ok n r : length r = n -> is_reg n (HReg r) = Ok r.
Proof. intros <-. unfold is_reg. rewrite Nat.eqb_refl. reflexivity. Qed.
Lemma two_ok n f a b : length a = n -> length b = n -> two n f [HReg a; HReg b] = Ok (HReg (f a b)).
Proof. intros A B. unfold two. rewrite !is_reg_ok by assumption. reflexivity. Qed.
Lemma one_ok n f a : length a = n -> one n f [HReg a] = Ok (HReg (f a)).
Proof. intros A. unfold one. rewrite !is_reg_ok by assumption. reflexivity. Qed.
Lemma shift_ok n f lo hi a t k : length a = n -> lo <= k <= hi -> shift n f lo hi [HReg a; HInt t k] = Ok (HReg (f k a)).
Proof.
  intros A K. unfold shift. rewrite is_reg_ok by assumption. cbn.
  replace (lo <=? k) with true by (symmetry; apply N.leb_le; lia). replace (k <=? hi) with true by (symmetry; apply N.leb_le; lia). reflexivity.
Qed.

Ltac macro_cbn := cbn [macro_value macro_run assoc header String.eqb Ascii.eqb Bool.eqb uint32_header uint64_header mmx_header sse2_header ssse3_header avx2_header neon_header
  bind_params map hconv conv h_params h_body h_value bits is_signed N.ltb N.compare Pos.compare Pos.compare_cont andb heval intrinsics hbin int_op promote common bind fst snd].

Lemma bitwise_macro tbl c f m a b : sane c -> bytewise f ->
  In (f, m) [(N.land, "BS_AND"); (N.lor, "BS_OR"); (N.lxor, "BS_XOR")] -> wf c a -> wf c b ->
  macro_value tbl (header (tgt c)) m [as_word c a; as_word c b] = Ok (as_word c (map2 f a b)).
Proof.
  intros S F H [La A] [Lb B]. unfold as_word. unfold word_bytes in La, Lb. cbn [In] in H.
  destruct H as [E|[E|[E|[]]]]; injection E as <- <-; destruct (tgt c);
    macro_cbn; rewrite ?two_ok, ?bitwise_is, ?native_map2 by (try assumption; congruence); reflexivity.
Qed.

Lemma not_macro tbl c a : sane c -> wf c a -> macro_value tbl (header (tgt c)) "BS_NOT" [as_word c a] = Ok (as_word c (BS_NOT c a)).
Proof.
  intros S [La A]. unfold as_word, BS_NOT, BS_VAL, BS_XOR, BS_AND. pose proof (proj1 S) as BE. unfold word_bytes in *.
  destruct (tgt c).
  1, 2: macro_cbn; rewrite native_not, La by exact A; reflexivity.
  1-4: macro_cbn; replace (big_endian c) with false by (destruct (big_endian c); [destruct (BE eq_refl); discriminate|reflexivity]).
  - cbn [hcast]. change (le_bytes 8 0xffffffffffffffff) with (repeat 255 8). cbn [bind]. rewrite two_ok, bitwise_is by (auto using bytewise_lxor, ones_byte; rewrite La; reflexivity).
    reflexivity.
  - replace (set 2 8 _) with (Ok (HReg (repeat 255 16))) by (vm_compute; reflexivity). cbn [bind].
    rewrite two_ok, andnot_is by (auto; apply (ones_byte 16)). reflexivity.
  - replace (set 2 8 _) with (Ok (HReg (repeat 255 16))) by (vm_compute; reflexivity). cbn [bind].
    rewrite two_ok, andnot_is by (auto; apply (ones_byte 16)). reflexivity.
  - replace (set 4 8 _) with (Ok (HReg (repeat 255 32))) by (vm_compute; reflexivity). cbn [bind].
    rewrite two_ok, andnot_is by (auto; apply (ones_byte 32)). reflexivity.
  - macro_cbn. rewrite one_ok by assumption. macro_cbn. rewrite one_ok by assumption. macro_cbn.
    rewrite lanes_1, of_lanes_1. 2: { apply Forall_map. eapply Forall_impl; [|exact A]. intros x Hx. unfold is_byte in *. lia. }
    rewrite one_ok by (rewrite map_length; assumption). do 2 f_equal. apply map_ext_in. intros x Hx. symmetry. apply byte_not.
    rewrite Forall_forall in A. apply A, Hx.
Qed.

(* element shifts of a word *)
Lemma lanes_map_lanes e f g n : (0 < e)%nat -> (forall p, length p = e -> f p = le_bytes e (g (le_val p))) ->
  forall w, length w = (n * e)%nat -> map_lanes n e f w = of_lanes e (map g (lanes e w)).
Proof.
  intros E F. induction n as [|n IH]; intros w L; cbn [map_lanes].
  - destruct w; [|discriminate]. unfold lanes. rewrite pieces_nil by exact E. reflexivity.
  - cbn [Nat.mul] in L. unfold lanes. rewrite <- (firstn_skipn e w) at 3. rewrite pieces_cons by (rewrite ?firstn_length; lia).
    cbn [map]. unfold of_lanes. cbn [map concat]. rewrite F by (rewrite firstn_length; lia). f_equal.
    apply IH. rewrite skipn_length. lia.
Qed.

Lemma shl_macro tbl c a n : sane c -> wf c a -> 1 <= n < 8 * N.of_nat (lane_bytes c) ->
  macro_value tbl (header (tgt c)) "BS_SHL" [as_word c a; HInt I32 n] = Ok (as_word c (BS_SHL c a n)).
Proof.
  intros S [La A] N. unfold as_word, BS_SHL, n_lanes. pose proof (proj1 S) as BE. unfold word_bytes, lane_bytes in *.
  assert (NI : sval I32 n = Z.of_N n) by (apply sval_id; cbn; destruct (tgt c); cbn in N; lia).
  destruct (tgt c); cbn in N.
  1, 2: macro_cbn; rewrite NI; destruct (Z.ltb_spec (Z.of_N n) 0); [lia|]; unfold shift_left; cbn [bits];
        lazymatch goal with |- context [?y <? ?k] => destruct (N.ltb_spec y k); [|lia] end; cbn [is_signed bind map_lanes Nat.div Nat.divmod fst];
        rewrite app_nil_r, firstn_all2, native_val_native_bytes by lia; reflexivity.
  all: replace (big_endian c) with false by (destruct (big_endian c); [destruct (BE eq_refl); discriminate|reflexivity]);
       macro_cbn; rewrite shift_ok by (try assumption; lia); unfold lane_shl;
       (rewrite (lanes_map_lanes 8 _ (fun x => if n <? 8 * 8 then N.shiftl x n mod 2 ^ (8 * 8) else 0)); [reflexivity|lia| |exact La]);
       intros p Lp; cbn [native_bytes native_val]; destruct (N.ltb_spec n (8 * 8)); [|lia]; symmetry; apply (le_bytes_mod 8).
Qed.
Lemma shr_macro tbl c a n : sane c -> wf c a -> 1 <= n < 8 * N.of_nat (lane_bytes c) ->
  macro_value tbl (header (tgt c)) "BS_SHR" [as_word c a; HInt I32 n] = Ok (as_word c (BS_SHR c a n)).
Proof.
  intros S [La A] N. unfold as_word, BS_SHR, n_lanes. pose proof (proj1 S) as BE. pose proof (native_bound (big_endian c) a A) as NB. unfold word_bytes, lane_bytes in *.
  assert (NI : sval I32 n = Z.of_N n) by (apply sval_id; cbn; destruct (tgt c); cbn in N; lia).
  assert (SB : forall x y, x < y -> N.shiftr x n < y).
  { intros x y XY. rewrite N.shiftr_div_pow2. pose proof (N.pow_nonzero 2 n ltac:(lia)). eapply N.le_lt_trans; [|exact XY]. apply N.div_le_upper_bound; nia. }
  destruct (tgt c); cbn in N.
  1, 2: macro_cbn; rewrite NI; destruct (Z.ltb_spec (Z.of_N n) 0); [lia|]; unfold shift_right; cbn [bits];
        lazymatch goal with |- context [?y <? ?k] => destruct (N.ltb_spec y k); [|lia] end; cbn [is_signed bind map_lanes Nat.div Nat.divmod fst];
        rewrite app_nil_r, firstn_all2, native_val_native_bytes, N.mod_small by (try lia; apply SB; rewrite La in NB; exact NB); reflexivity.
  all: replace (big_endian c) with false by (destruct (big_endian c); [destruct (BE eq_refl); discriminate|reflexivity]);
       macro_cbn; rewrite shift_ok by (try assumption; lia); unfold lane_shr;
       (rewrite (lanes_map_lanes 8 _ (fun x => if n <? 8 * 8 then N.shiftr x n else 0)); [reflexivity|lia| |exact La]);
       intros p Lp; cbn [native_bytes native_val]; destruct (N.ltb_spec n (8 * 8)); [|lia]; reflexivity.
Qed.

(** constants and sizes *)
Lemma constant_macro tbl c m k v : sane c -> In (m, (k, v)) constants -> (k <= word_bytes c)%nat ->
  macro_value tbl (header (tgt c)) m [] = Ok (as_word c (BS_VAL c k v)).
Proof.
  intros S H K. pose proof (proj1 S) as BE. unfold as_word, BS_VAL. unfold word_bytes in *.
  destruct (tgt c).
  1, 2: destruct (big_endian c); cbn [constants In] in H; repeat (destruct H as [H|H]; [injection H as <- <- <-; try (vm_compute; reflexivity); lia|]); destruct H.
  all: replace (big_endian c) with false by (destruct (big_endian c); [destruct (BE eq_refl); discriminate|reflexivity]).
  all: cbn [constants In] in H; repeat (destruct H as [H|H]; [injection H as <- <- <-; vm_compute; reflexivity|]); destruct H.
Qed.
Lemma size_macro tbl c : macro_value tbl (header (tgt c)) "BS_BATCH_SIZE" [] = Ok (HInt I32 (N.of_nat (batch_size c))) /\
  macro_value tbl (header (tgt c)) "BS_BATCH_BYTES" [] = Ok (HInt I32 (N.of_nat (word_bytes c))).
Proof. unfold batch_size, word_bytes. destruct (tgt c); split; reflexivity. Qed.

(** ** Statements of the headers *)
Ltac run_cbn := cbn [macro_value macro_run assoc assoc_set header String.eqb Ascii.eqb Bool.eqb ssse3_header avx2_header neon_header
  bind_params map hconv conv h_params h_body h_value heval intrinsics hbin bind fst snd hexecs hexec hact_run all_res leave skipn length Nat.sub].

Ltac explicit a n := let rec go k := lazymatch k with O => destruct a; [|discriminate] | S ?k => destruct a as [|? a]; [discriminate|go k] end in go n.

(* the three exchanges that dvbcsa_bs_neon.h defines *)
Lemma swap_macro tbl c n m t b bs : tgt c = NEON -> In (n, m) [(8%nat, "BS_SWAP8_LE"); (16%nat, "BS_SWAP16_LE"); (32%nat, "BS_SWAP32_LE")] ->
  wf c t -> wf c b -> forall x y, BS_SWAP_LE c n t b = (x, y) ->
  macro_run tbl (header (tgt c)) m [Some (as_word c t); Some (as_word c b)] bs = Ok ([Some (as_word c x); Some (as_word c y)], bs).
Proof.
  intros T H [Lt _] [Lb _] x y E. unfold as_word. unfold word_bytes in *. unfold BS_SWAP_LE in E. rewrite T in *. cbn [In] in H.
  explicit t 16%nat. explicit b 16%nat.
  destruct H as [H|[H|[H|[]]]]; injection H as <- <-; cbv [vtrnq trn Nat.div Nat.divmod Nat.mul Nat.add fst snd Nat.sub firstn skipn app] in E; injection E as <- <-; run_cbn;
    reflexivity.
Qed.

(* BS_LOAD_DEINTERLEAVE_8, whatever the two variables held *)
Lemma shuffle_is a : length a = 16%nat -> shuffle a [0; 2; 4; 6; 8; 10; 12; 14; 1; 3; 5; 7; 9; 11; 13; 15] = shuffle16 a.
Proof. intros L. explicit a 16%nat. reflexivity. Qed.
Lemma bind_regs u v p k : bind_params [("ptr", CPtr); ("lo", CReg); ("hi", CReg)] [Some (HPtr p k); option_map HReg u; option_map HReg v] =
  Ok [("ptr", (CPtr, Some (HPtr p k))); ("lo", (CReg, option_map HReg u)); ("hi", (CReg, option_map HReg v))].
Proof. destruct u, v; reflexivity. Qed.
Lemma load_ok n bs p ws k i r : assoc p bs = Some ws -> N.to_nat k = i -> aget ws i = Ok r -> length r = n -> load n bs [HPtr p k] = Ok (HReg r).
Proof. intros B K G L. unfold load. rewrite B, K, G. cbn [bind]. rewrite is_reg_ok by exact L. reflexivity. Qed.
Lemma aget_wf c ws i r : Forall (wf c) ws -> aget ws i = Ok r -> wf c r.
Proof.
  unfold aget. intros F. destruct (nth_error ws i) eqn:E; intros H; [|discriminate]. injection H as <-.
  rewrite Forall_forall in F. apply F. eapply nth_error_In, E.
Qed.
Lemma explicit_list n (a : list N) : length a = n -> a = map (fun i => nth i a 0) (seq 0 n).
Proof. intros <-. induction a as [|x a IH]; [reflexivity|]. cbn [length seq map nth]. f_equal. rewrite <- seq_shift, map_map. exact IH. Qed.

Lemma deinterleave_macro tbl c p ws g (u v : option word) : deinterleave c = true -> Forall (wf c) ws ->
  forall x y, BS_LOAD_DEINTERLEAVE_8 c ws g = Ok (x, y) ->
  macro_run tbl (header (tgt c)) "BS_LOAD_DEINTERLEAVE_8" [Some (HPtr p (2 * N.of_nat g)); option_map HReg u; option_map HReg v] [(p, ws)] =
  Ok ([Some (HPtr p (2 * N.of_nat g)); Some (HReg x); Some (HReg y)], [(p, ws)]).
Proof.
  intros D F x y E. unfold BS_LOAD_DEINTERLEAVE_8 in E.
  destruct (aget ws (2 * g)) as [a| | |] eqn:A; try discriminate. destruct (aget ws (2 * g + 1)) as [b| | |] eqn:B; try discriminate. cbn [bind] in E.
  pose proof (aget_wf _ _ _ _ F A) as [La _]. pose proof (aget_wf _ _ _ _ F B) as [Lb _].
  assert (K1 : N.to_nat (2 * N.of_nat g) = (2 * g)%nat) by lia. assert (K2 : N.to_nat (2 * N.of_nat g + 1) = (2 * g + 1)%nat) by lia.
  assert (P : assoc p [(p, ws)] = Some ws) by (cbn; rewrite String.eqb_refl; reflexivity).
  unfold deinterleave, word_bytes in *. destruct (tgt c); try discriminate D; unfold macro_run; cbn [assoc header ssse3_header avx2_header neon_header String.eqb Ascii.eqb Bool.eqb h_params]; rewrite bind_regs.
  - injection E as <- <-. run_cbn. rewrite (load_ok 16 _ p ws _ _ a P K1 A La). run_cbn. rewrite (load_ok 16 _ p ws _ _ b P K2 B Lb). run_cbn.
    replace (set 16 1 _) with (Ok (HReg [0; 2; 4; 6; 8; 10; 12; 14; 1; 3; 5; 7; 9; 11; 13; 15])) by (vm_compute; reflexivity). cbn [bind].
    rewrite two_ok by (assumption || reflexivity). rewrite shuffle_is by assumption. run_cbn.
    rewrite two_ok by (assumption || reflexivity). rewrite shuffle_is by assumption. run_cbn.
    rewrite !two_ok by reflexivity. run_cbn. rewrite !two_ok by reflexivity. run_cbn. reflexivity.
  - injection E as <- <-. run_cbn. rewrite (load_ok 32 _ p ws _ _ a P K1 A La). run_cbn. rewrite (load_ok 32 _ p ws _ _ b P K2 B Lb). run_cbn. reflexivity.
  - injection E as <- <-. run_cbn. cbn [hcast hconv bind]. unfold vld2q. unfold word in *. cbn [assoc]. rewrite String.eqb_refl, K1. cbn [bind]. rewrite A, B. cbn [bind].
    rewrite (is_reg_ok 16 a La). cbn [bind]. rewrite (is_reg_ok 16 b Lb). cbn [bind].
    clear - La Lb. explicit a 16%nat. explicit b 16%nat. reflexivity.
Qed.
