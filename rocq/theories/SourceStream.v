(** SourceStream.v -- dvbcsa_stream.c as parsed from the source text does what the model does. *)
From Coq Require Import String.
From Verif Require Import Base Tables ModelClassical ApiSpec MiniC MiniCFrame MiniCRun SourceClassical SourceRun.
Local Open Scope string_scope. Local Open Scope N_scope.
#[local] Opaque link.

Lemma swap_ok be fuel b s : b < 2 ^ 8 ->
  lk be fuel (p_swap be) "swap_nbl" [VInt U8 b] s = Ok (Some (VInt U8 (swap_nbl b)), s).
Proof.
  intros B. destruct s as [m l]. enter. value_call. reflexivity.
Qed.

Lemma rot_ok be fuel q x s : q < 2 ^ 32 -> x < 2 ^ 32 ->
  lk be fuel (p_rot be) "csa_stream_rotate" [VInt U32 q; VInt U32 x] s = Ok (Some (VInt U8 (csa_stream_rotate q x)), s).
Proof.
  intros Q X. destruct s as [m l]. enter. unfold csa_stream_rotate.
  destruct (N.land q 4096 =? 0) eqn:C; cbn [negb].
  - etransitivity; [eapply call_value; [ret_type; discriminate | params | the_body | ret_type | cbn; lia] | tidy].
    + eapply seq_stop. eapply st_return; [eapply ev_cond; [evx|rv|cbn [is_true]; rewrite C; reflexivity|cbv iota; cbn [negb]; evx|rv]|rv].
    + eapply conv_value. apply conv_cut. reflexivity.
    + reflexivity.
  - etransitivity; [eapply call_value; [ret_type; discriminate | params | the_body | ret_type | cbn; lia] | tidy].
    + eapply seq_stop. eapply st_return; [eapply ev_cond; [evx|rv|cbn [is_true]; rewrite C; reflexivity|cbn [negb]; cbv iota; evx|rv]|rv].
    + eapply conv_value. apply conv_cut. reflexivity.
    + reflexivity.
Qed.

Lemma rot_bound q x : csa_stream_rotate q x < 2 ^ 8.
Proof. unfold csa_stream_rotate. destruct (negb _); bd. Qed.

(** ** the tables *)
Lemma ssbox_src : src_tab_sbox = concat csa_stream_sbox. Proof. vm_compute. reflexivity. Qed.
Lemma ssbox_rows : Forall (fun r => length r = N.to_nat 32) csa_stream_sbox.
Proof.
  assert (H : forallb (fun r => Nat.eqb (length r) 32) csa_stream_sbox = true) by (vm_compute; reflexivity). apply Forall_forall. intros r Hr.
  rewrite forallb_forall in H. apply Nat.eqb_eq, H, Hr.
Qed.
Lemma ssbox_lt i e : tget src_tab_sbox i = Ok e -> e < 2 ^ 16.
Proof. apply table_lt. vm_compute. reflexivity. Qed.
Lemma cdef_src : src_tab_csa_stream_cdef = csa_stream_cdef. Proof. vm_compute. reflexivity. Qed.
Lemma cdef_lt i e : tget csa_stream_cdef i = Ok e -> e < 2 ^ 16.
Proof. apply table_lt. vm_compute. reflexivity. Qed.
Lemma out_src : src_tab_csa_stream_out = csa_stream_out. Proof. vm_compute. reflexivity. Qed.
Lemma out_lt i e : tget csa_stream_out i = Ok e -> e < 2 ^ 8.
Proof. apply table_lt. vm_compute. reflexivity. Qed.
#[local] Opaque src_tab_sbox src_tab_csa_stream_cdef csa_stream_cdef src_tab_csa_stream_out csa_stream_out csa_stream_sbox.

Lemma sbox_lookup_src A mask n a b c d e r : csa_stream_sbox_lookup A mask n a b c d e = Ok r ->
  tget src_tab_sbox (N.of_nat n * 32 + N.land (N.lxor (N.lxor (N.lxor (N.lxor (N.shiftr (N.land A mask) a) (N.shiftr (N.land A mask) b)) (N.shiftr (N.land A mask) c)) (N.shiftr (N.land A mask) d)) (N.shiftr (N.land A mask) e)) 0x1f) = Ok r /\ r < 2 ^ 16.
Proof.
  intros E. unfold csa_stream_sbox_lookup in E. cbn zeta in E. gob E.
  assert (K : tget src_tab_sbox (N.of_nat n * 32 + N.land (N.lxor (N.lxor (N.lxor (N.lxor (N.shiftr (N.land A mask) a) (N.shiftr (N.land A mask) b)) (N.shiftr (N.land A mask) c)) (N.shiftr (N.land A mask) d)) (N.shiftr (N.land A mask) e)) 0x1f) = Ok r).
  { rewrite ssbox_src. eapply row_get; [exact ssbox_rows|eassumption|exact E]. }
  split; [exact K|]. exact (ssbox_lt _ _ K).
Qed.

Lemma sboxes_ok be fuel A r s : csa_stream_sboxes A = Ok r -> A < 2 ^ 64 ->
  lk be fuel (p_sbox be) "csa_stream_sboxes" [VInt U64 A] s = Ok (Some (VInt U32 r), s).
Proof.
  intros E B. unfold csa_stream_sboxes in E. cbn zeta in E. gob E. okj E. destruct s as [m l]. enter.
  repeat match goal with H : csa_stream_sbox_lookup _ _ ?n _ _ _ _ _ = Ok _ |- _ => apply sbox_lookup_src in H; let q := eval vm_compute in (N.of_nat n * 32) in change (N.of_nat n * 32) with q in H; destruct H as [H ?] end.
  value_call. reflexivity.
Qed.
Lemma sboxes_bound A r : csa_stream_sboxes A = Ok r -> r < 2 ^ 32.
Proof.
  intros E. unfold csa_stream_sboxes in E. cbn zeta in E. gob E. okj E.
  repeat match goal with H : csa_stream_sbox_lookup _ _ ?n _ _ _ _ _ = Ok _ |- _ => apply sbox_lookup_src in H; destruct H as [_ ?] end. bd.
Qed.

Lemma bsel_ok be fuel B s : B < 2 ^ 64 ->
  lk be fuel (p_bsel be) "csa_stream_B_sel" [VInt U64 B] s = Ok (Some (VInt U32 (csa_stream_B_sel B)), s).
Proof.
  intros H. destruct s as [m l]. enter. value_call. reflexivity.
Qed.
Lemma bsel_bound B : csa_stream_B_sel B < 2 ^ 32.
Proof. unfold csa_stream_B_sel. cbn zeta. bd. Qed.

Lemma cfed_ok be fuel q c r s : csa_stream_cfed q c = Ok r -> q < 2 ^ 32 -> c < 2 ^ 32 ->
  lk be fuel (p_cfed be) "csa_stream_cfed" [VInt U32 q; VInt U32 c] s = Ok (Some (VInt U32 r), s).
Proof.
  intros E Q C. unfold csa_stream_cfed in E. gob E. okj E. pose proof (cdef_lt _ _ E0). rewrite <- cdef_src in E0. destruct s as [m l]. enter. value_call. reflexivity.
Qed.
Lemma cfed_bound q c r : csa_stream_cfed q c = Ok r -> r < 2 ^ 32.
Proof. intros E. unfold csa_stream_cfed in E. gob E. okj E. pose proof (cdef_lt _ _ E0). bd. Qed.

(** ** rounds, on the objects of dvbcsa_stream_xor *)
Definition st_ok (s : cs_state) : Prop := csA s < 2 ^ 64 /\ csB s < 2 ^ 64 /\ cs_pqzyx s < 2 ^ 32 /\ cs_cfed s < 2 ^ 32.
Definition ST (m : mem) (cw iv data len : N) (i : option N) (s : cs_state) : cstate :=
  mk_cst m [OPtr (TInt U8) (Some (Flat cw)); OPtr (TInt U8) (Some (Flat iv)); OPtr (TInt U8) (Some (Flat data)); OInts U32 [Some len]; OInts U32 [i];
            OInts U64 [Some (csA s)]; OInts U64 [Some (csB s)]; OInts U32 [Some (cs_pqzyx s)]; OInts U32 [Some (cs_cfed s)]].
Notation st_ptrs := [VPtr (TInt U64) (Obj 5 0); VPtr (TInt U64) (Obj 6 0); VPtr (TInt U32) (Obj 7 0); VPtr (TInt U32) (Obj 8 0)].

Ltac callx ::= goto; lazymatch goal with
  | |- link _ _ _ _ _ "csa_stream_rotate" _ _ = _ => eapply rot_ok; [bd|bd]
  | |- link _ _ _ _ _ "csa_stream_cfed" _ _ = _ => eapply cfed_ok; [eassumption|bd|bd]
  | |- link _ _ _ _ _ "csa_stream_B_sel" _ _ = _ => eapply bsel_ok; bd
  | |- link _ _ _ _ _ "csa_stream_sboxes" _ _ = _ => eapply sboxes_ok; [eassumption|bd]
  end.

Lemma init_ok be fuel m cw iv data len i s s' b : csa_stream_init_round b s = Ok s' -> st_ok s -> b < 2 ^ 8 ->
  lk be fuel (p_init be) "csa_stream_init_round" (VInt U8 b :: st_ptrs) (ST m cw iv data len i s) = Ok (None, ST m cw iv data len i s') /\ st_ok s'.
Proof.
  destruct s as [A B q c]. intros E (HA & HB & Hq & Hc) Hb. cbn [csA csB cs_pqzyx cs_cfed] in *. unfold csa_stream_init_round in E. cbn zeta in E.
  cbn [csA csB cs_pqzyx cs_cfed] in E. rewrite (u32_id (N.land _ _)) in E by bd. gob E. okj E.
  pose proof (rot_bound q (N.land (N.lxor (N.lxor (N.lxor (N.shiftr B 24) (N.shiftr B 36)) (N.shiftr q 4)) b) 15)) as Hr.
  pose proof (cfed_bound _ _ _ E0) as Hcf. pose proof (sboxes_bound _ _ E1) as Hsb.
  match goal with |- context [csa_stream_B_sel ?x] => pose proof (bsel_bound x) as Hbs end.
  split.
  - goto. rewrite link_here by reflexivity. unfold ST. cbn [csA csB cs_pqzyx cs_cfed]. void_call. reflexivity.
  - unfold st_ok. cbn [csA csB cs_pqzyx cs_cfed]. split; [bd|]. split; [bd|]. split; [bd|bd].
Qed.

Lemma round_ok be fuel m cw iv data len i s s' : csa_stream_round s = Ok s' -> st_ok s ->
  lk be fuel (p_round be) "csa_stream_round" st_ptrs (ST m cw iv data len i s) = Ok (None, ST m cw iv data len i s') /\ st_ok s'.
Proof.
  destruct s as [A B q c]. intros E (HA & HB & Hq & Hc). cbn [csA csB cs_pqzyx cs_cfed] in *. unfold csa_stream_round in E. cbn zeta in E.
  cbn [csA csB cs_pqzyx cs_cfed] in E. rewrite (u32_id (N.land _ _)) in E by bd. gob E. okj E.
  pose proof (rot_bound q (N.land (N.lxor (N.lxor (N.shiftr B 24) (N.shiftr B 36)) (N.shiftr q 4)) 15)) as Hr.
  pose proof (cfed_bound _ _ _ E0) as Hcf. pose proof (sboxes_bound _ _ E1) as Hsb.
  match goal with |- context [csa_stream_B_sel ?x] => pose proof (bsel_bound x) as Hbs end.
  split.
  - goto. rewrite link_here by reflexivity. unfold ST. cbn [csA csB cs_pqzyx cs_cfed]. void_call. reflexivity.
  - unfold st_ok. cbn [csA csB cs_pqzyx cs_cfed]. split; [bd|]. split; [bd|]. split; [bd|bd].
Qed.

(** ** dvbcsa_stream_xor *)
Lemma load32_bound be m p x : bytes_mem m -> dvbcsa_load_le32 be m p = Ok x -> x < 2 ^ 32.
Proof.
  intros B E. unfold dvbcsa_load_le32 in E. destruct be; gob E; bds; okj E; [bd|].
  pose proof (load_bytes_length _ _ _ _ E0) as Hl. pose proof (le_val_lt _ (load_bytes_are _ _ B _ _ E0)) as H. rewrite Hl in H. exact H.
Qed.
Lemma swap_bound b : swap_nbl b < 2 ^ 8. Proof. unfold swap_nbl. bd. Qed.

Ltac fold_st := 
  lazymatch goal with
  | |- link _ _ _ _ _ _ _ (mk_cst ?m [OPtr _ (Some (Flat ?cw)); OPtr _ (Some (Flat ?iv)); OPtr _ (Some (Flat ?data)); OInts U32 [Some ?len]; OInts U32 [?i];
            OInts U64 [Some (csA ?s)]; _; _; _]) = _ => fold (ST m cw iv data len i s)
  end.
Ltac callx ::= goto; lazymatch goal with
  | |- link _ _ _ _ _ "dvbcsa_load_le32" _ _ = _ => eapply load32_ok; eassumption
  | |- link _ _ _ _ _ "swap_nbl" _ _ = _ => eapply swap_ok; bd
  | |- link _ _ _ _ _ "csa_stream_init_round" _ _ = _ => fold_st; eapply init_ok; [eassumption|assumption|bd]
  | |- link _ _ _ _ _ "csa_stream_round" _ _ = _ => fold_st; eapply round_ok; [eassumption|assumption]
  end.

Lemma out_round p mask s m s' m' : csa_stream_out_round p mask (s, m) = Ok (s', m') -> st_ok s -> bytes_mem m ->
  st_ok s' /\ bytes_mem m' /\ csa_stream_round s = Ok s' /\ exists o d, tget src_tab_csa_stream_out (N.land (cs_cfed s') 0xf) = Ok o /\ o < 2 ^ 8 /\ load m p = Ok d /\ d < 2 ^ 8 /\
    store m p (N.lxor d (N.land o mask)) = Ok m'.
Proof.
  intros E S B. unfold csa_stream_out_round in E. gob E. okj E. injection E as <- <-.
  destruct (round_ok false 0 (fun _ => None) 0 0 0 0 None _ _ E0 S) as [_ S']. pose proof (out_lt _ _ E1) as Ho. bds.
  split; [exact S'|]. split; [eapply store_keeps; [exact B| |exact E3]; bd|]. split; [first [exact E0|reflexivity]|]. do 2 eexists. rewrite out_src. split; [eassumption|]. split; [exact Ho|]. split; [reflexivity|]. split; eassumption.
Qed.

Lemma while_inv {X} (I : X -> Prop) c (body : X -> res X) n : forall x y, while_ n c body x = Ok y -> I x -> (forall x x', I x -> c x = true -> body x = Ok x' -> I x') -> I y /\ c y = false.
Proof.
  induction n as [|n IH]; intros x y E H Hb; cbn [while_] in E; destruct (c x) eqn:C; try discriminate; try (okj E; tauto).
  gob E. eapply IH; [exact E|eapply Hb; eassumption|exact Hb].
Qed.
Lemma init_st b s s' : csa_stream_init_round b s = Ok s' -> st_ok s -> b < 2 ^ 8 -> st_ok s'.
Proof. intros E S H. exact (proj2 (init_ok false 0 (fun _ => None) 0 0 0 0 None _ _ _ E S H)). Qed.
Definition body1 (m : mem) (iv : N) (i : nat) (s : cs_state) : res cs_state :=
  b <- load m (iv + N.of_nat i) ;; s <- csa_stream_init_round b s ;; s <- csa_stream_init_round (swap_nbl b) s ;; s <- csa_stream_init_round b s ;; csa_stream_init_round (swap_nbl b) s.
Lemma body1_st m iv i s s' : body1 m iv i s = Ok s' -> bytes_mem m -> st_ok s -> st_ok s'.
Proof.
  intros E B S. unfold body1 in E. gob E. bds. pose proof (swap_bound a). repeat (eapply init_st; [eassumption| |assumption]). exact S.
Qed.
Lemma body1_run m iv i s s' : body1 m iv i s = Ok s' -> bytes_mem m -> st_ok s -> exists b s1 s2 s3, load m (iv + N.of_nat i) = Ok b /\ b < 2 ^ 8 /\ swap_nbl b < 2 ^ 8 /\
  csa_stream_init_round b s = Ok s1 /\ csa_stream_init_round (swap_nbl b) s1 = Ok s2 /\ csa_stream_init_round b s2 = Ok s3 /\ csa_stream_init_round (swap_nbl b) s3 = Ok s' /\
  st_ok s1 /\ st_ok s2 /\ st_ok s3.
Proof.
  intros E B S. unfold body1 in E. gob E. bds. pose proof (swap_bound a). rename a into b, a0 into s1, a1 into s2, a2 into s3.
  assert (S1 : st_ok s1) by (eapply init_st; eassumption). assert (S2 : st_ok s2) by (eapply init_st; eassumption). assert (S3 : st_ok s3) by (eapply init_st; eassumption).
  exists b, s1, s2, s3. repeat split; try assumption; try apply S1; try apply S2; try apply S3.
Qed.
Definition body2 (data : N) (x : N * (cs_state * mem)) : res (N * (cs_state * mem)) :=
  let '(i, sm) := x in
  sm <- csa_stream_out_round (data + i) 0xc0 sm ;;
  sm <- csa_stream_out_round (data + i) 0x30 sm ;;
  sm <- csa_stream_out_round (data + i) 0x0c sm ;;
  sm <- csa_stream_out_round (data + i) 0x03 sm ;;
  Ok (u32 (i + 1), sm).
Definition inv2 (len : N) (x : N * (cs_state * mem)) : Prop := fst x <= len /\ st_ok (fst (snd x)) /\ bytes_mem (snd (snd x)).
Lemma body2_inv data len x x' : body2 data x = Ok x' -> inv2 len x -> fst x < len -> len < 2 ^ 32 -> inv2 len x'.
Proof.
  destruct x as [i [s m]]. intros E (Hi & S & B) Hl L. unfold body2 in E. gob E. okj E. cbn [fst snd] in *.
  repeat match goal with H : csa_stream_out_round _ _ (?s, ?m) = Ok ?y |- _ => destruct y as [? ?]; apply out_round in H; [|assumption|assumption]; destruct H as (? & ? & ? & _) end.
  split; [cbn [fst]; rewrite u32_id; lia|split; assumption].
Qed.
Lemma stream_keeps be m cw iv data len m' : dvbcsa_stream_xor be m cw iv data len = Ok m' -> bytes_mem m -> len < 2 ^ 32 -> bytes_mem m'.
Proof.
  intros E B Hl. unfold dvbcsa_stream_xor in E. gob E. destruct a2 as [i' [s2 m2]]. okj E. rename a into A, a0 into B0, a1 into s1.
  pose proof (load32_bound _ _ _ _ B E0) as HA. pose proof (load32_bound _ _ _ _ B E1) as HB.
  assert (S0 : st_ok (mk_cs A B0 0 0)) by (unfold st_ok; cbn [csA csB cs_pqzyx cs_cfed]; repeat split; bd).
  assert (S1 : st_ok s1) by (eapply for_inv; [exact E2|exact S0|]; intros j s s' _ S F; eapply (body1_st m iv j); eassumption).
  assert (K : inv2 len (i', (s2, m')) /\ (i' <? len) = false).
  { refine (while_inv (inv2 len) _ (body2 data) _ _ _ E3 _ _); [split; [apply N.le_0_l|split; assumption]|].
    intros [i sm] x' J C F. eapply body2_inv; [exact F|exact J|apply N.ltb_lt, C|exact Hl]. }
  apply K.
Qed.
Lemma stream_ok be fuel m cw iv data len m' l : dvbcsa_stream_xor be m cw iv data len = Ok m' -> bytes_mem m -> (100 <= fuel)%nat -> len < 2 ^ 32 -> (N.to_nat len < fuel)%nat ->
  lk be fuel (p_stream be) "dvbcsa_stream_xor" [u8p cw; u8p iv; u8p data; VInt U32 len] (mk_cst m l) = Ok (None, mk_cst m' l).
Proof.
  intros E B Hf Hl Hlf. unfold dvbcsa_stream_xor in E. gob E. destruct a2 as [i' [s2 m2]]. okj E. rename a into A, a0 into B0, a1 into s1.
  pose proof (load32_bound _ _ _ _ B E0) as HA. pose proof (load32_bound _ _ _ _ B E1) as HB.
  assert (S0 : st_ok (mk_cs A B0 0 0)) by (unfold st_ok; cbn [csA csB cs_pqzyx cs_cfed]; repeat split; bd).
  assert (S1 : st_ok s1) by (eapply for_inv; [exact E2|exact S0|]; intros j s s' _ S F; eapply (body1_st m iv j); eassumption).
  enter.
  etransitivity; [eapply call_void; [ret_type; reflexivity | params | the_body | | cbn; lia] | tidy].
  - stx. stx. stx. stx. stx. stx. stx.
    eapply seq_one.
    { eapply st_for; [eapply opt_some; evx|]. tidy.
      refine (proj1 (loop_up _ _ _ _ _ (fun i s => ST m cw iv data len (Some (N.of_nat i)) s) (fun _ => st_ok) _ _ _ _ (body1 m iv) 8 fuel 0 (mk_cs A B0 0 0) s1 8 E2 ltac:(lia) S0 eq_refl _ _)).
      - clear E2 E3 S0 S1 E0 E1. intros j s s' Hj S E. assert (Hj' : N.of_nat j < 2 ^ 3) by lia. split; [eapply body1_st; eassumption|].
        destruct (body1_run _ _ _ _ _ E B S) as (b & t1 & t2 & t3 & Eb & Hb & Hsb & F1 & F2 & F3 & F4 & T1 & T2 & T3). split.
        { unfold ST. eapply cond_ok; [evx|rv|]. rewrite true_truth. f_equal. apply N.ltb_lt. lia. }
        eexists. split.
        { unfold ST, body_ok. eapply exec_block. stx. unfold ST; tidy. stx. unfold ST; tidy. stx. unfold ST; tidy. stx. unfold ST; tidy. stx. }
        tidy. etransitivity; [eapply opt_some; evx|]. tidy. unfold ST. st_eq.
      - intros s _. unfold ST. eapply cond_ok; [evx|rv|]. reflexivity. }
    unfold ST. clear E2 S0 E0 E1.
    eapply seq_one.
    { eapply st_for; [eapply opt_some; evx|]. tidy.
      refine (proj1 (loop_while _ _ _ _ _ (fun x : N * (cs_state * mem) => ST (snd (snd x)) cw iv data len (Some (fst x)) (fst (snd x))) (inv2 len) _ _ _ _ _ (body2 data) _ fuel (0, (s1, m)) (i', (s2, m')) E3 Hlf _ _ _)).
      - split; [apply N.le_0_l|split; assumption].
      - intros [i [s m1]] (Hi & S & B1). cbn [fst snd] in *. unfold ST. eapply cond_ok; [evx|rv|]. rewrite true_truth. reflexivity.
      - clear E3. intros [i [s m1]] x' J C E. apply N.ltb_lt in C. split; [eapply body2_inv; eassumption|].
        destruct J as (Hi & S & B1). cbn [fst snd] in *. unfold body2 in E. gob E. okj E.
        repeat match goal with H : csa_stream_out_round _ _ (_, _) = Ok ?y |- _ => destruct y as [? ?]; apply out_round in H; [|assumption|assumption]; destruct H as (? & ? & ? & ? & ? & ? & ? & ? & ? & ?) end.
        eexists. split.
        { unfold ST, body_ok. cbn [fst snd]. eapply exec_block. stx. unfold ST; tidy. stx. stx. unfold ST; tidy. stx. stx. unfold ST; tidy. stx. stx. unfold ST; tidy. stx. stx. }
        tidy. etransitivity; [eapply opt_some; evx|]. tidy. unfold ST. cbn [fst snd]. rewrite u32_id by lia. reflexivity. }
    unfold ST. tidy. stx.
  - exact I.
  - reflexivity.
Qed.
