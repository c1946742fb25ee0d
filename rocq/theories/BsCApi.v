(** BsCApi.v -- dvbcsa_bs_encrypt and dvbcsa_bs_decrypt (dvbcsa_bs_algo.c): the source computes what the model computes. *)
From Coq Require Import String.
From Verif Require Import Base Mem Tables Spec ModelBsWord ModelBsTranspose ModelBsStream ModelBsBlock ModelBsAlgo ApiSpec BsApiSpec BsWordFacts BsView BsTransposeFacts BsStream BsBatch BsAlgo BsFacts BsC SourceBitslice BsCRun BsCKernel BsCTranspose BsCPack BsCBlock BsCStream.
From Verif Require MiniC MiniCRun.
Local Open Scope string_scope. Local Open Scope list_scope. Local Open Scope N_scope.
#[local] Opaque BS_AND BS_OR BS_XOR BS_NOT BS_SHL BS_SHR BS_VAL key_stream_word.

(* a packet buffer as an object *)
Definition pobj (n ml : N) (l8 d : list N) : object := [("n_packets", CInts I32 [n]); ("maxlen", CInts U32 [ml]); ("len8", CInts U32 l8); ("data", CBytes d)].

Section Packets.
  Context (c : build) (rnd : nat -> nat -> N) (fuel : nat) (calls : callable) (pcks : N) (O : list object).
  Notation T := src_bs_tables. Notation S := (src_bs_structs c).
  Notation PB := (TStruct "dvbcsa_bs_pkt_buf"). Notation BATCH := (TStruct "dvbcsa_bs_batch_s"). Notation B8 := (TStruct "dvbcsa_bs_block8_t").
  Notation num n := (Some (VInt I32 (N.of_nat n))).
  Notation FS := [("data", TPtr (TInt U8)); ("len", TInt U32)].
  Context (Hf : (256 < fuel)%nat) (Al : pcks mod N.of_nat (ptr_bytes c) = 0).
  Lemma size_batch : size_of c S 2 BATCH = N.of_nat (entry_bytes c).
  Proof. unfold entry_bytes, ptr_bytes. unfold size_of, align_of, ptr_bytes. destruct (ptr64 c); vm_compute; reflexivity. Qed.
  Lemma data_off a : a + field_offset c S FS 0 "data" = a.
  Proof. rewrite <- (N.add_0_r a) at 2. f_equal. cbn [field_offset String.eqb Ascii.eqb Bool.eqb]; unfold up_to, align_of, size_of, ptr_bytes; destruct (ptr64 c); vm_compute; reflexivity. Qed.
  Lemma len_off a : a + field_offset c S FS 0 "len" = a + N.of_nat (ptr_bytes c).
  Proof. f_equal. cbn [field_offset String.eqb Ascii.eqb Bool.eqb]; unfold up_to, align_of, size_of, ptr_bytes; destruct (ptr64 c); vm_compute; reflexivity. Qed.
  Lemma ptr_entry a ti x k : sval ti x = Z.of_nat k -> bin_op c S Add (VPtr BATCH (Flat a)) (VInt ti x) = Ok (VPtr BATCH (Flat (a + N.of_nat (k * entry_bytes c)))).
  Proof. intros E. unfold bin_op. rewrite E, (move_flat c BATCH _ _ (a + N.of_nat (k * entry_bytes c))); [reflexivity|]. rewrite size_batch. lia. Qed.
  Lemma entry_al i : (pcks + N.of_nat (i * entry_bytes c)) mod N.of_nat (ptr_bytes c) = 0.
  Proof.
    assert (P : N.of_nat (ptr_bytes c) <> 0) by (unfold ptr_bytes; destruct (ptr64 c); discriminate).
    unfold entry_bytes. rewrite N.add_mod, Al, N.add_0_l, N.mod_mod by exact P. replace (N.of_nat (i * (2 * ptr_bytes c))) with (N.of_nat (2 * i) * N.of_nat (ptr_bytes c)) by lia. apply N.mod_mul, P.
  Qed.
  Lemma load_data m i p s : flat s = m -> batch_data c m pcks i = Ok p -> load_at c T (TPtr (TInt U8)) (Flat (pcks + N.of_nat (i * entry_bytes c))) s = Ok (VPtr (TInt U8) (Flat p)).
  Proof. intros <- E. unfold load_at. rewrite entry_al. cbn [N.eqb]. unfold batch_data in E. apply bind_ok in E as (b & E & F). rewrite E. cbn [bind]. injection F as <-. reflexivity. Qed.
  Lemma load_len m i v s : flat s = m -> batch_len c m pcks i = Ok v -> load_at c T (TInt U32) (Flat (pcks + N.of_nat (i * entry_bytes c) + N.of_nat (ptr_bytes c))) s = Ok (VInt U32 v).
  Proof.
    intros <- E. unfold load_at. change (N.of_nat (bytes_in U32)) with 4.
    assert (A : (pcks + N.of_nat (i * entry_bytes c) + N.of_nat (ptr_bytes c)) mod 4 = 0).
    { pose proof (entry_al i) as A. set (x := pcks + _) in *. assert (P : N.of_nat (ptr_bytes c) = 4 \/ N.of_nat (ptr_bytes c) = 8) by (unfold ptr_bytes; destruct (ptr64 c); [right|left]; reflexivity).
      apply N.mod_divide in A; [|destruct P as [-> | ->]; discriminate]. destruct A as [z ->]. apply N.mod_divide; [discriminate|]. destruct P as [-> | ->]; [exists (z + 1)|exists (2 * z + 2)]; lia. }
    rewrite A. cbn [N.eqb]. unfold batch_len in E. replace (pcks + N.of_nat (i * entry_bytes c) + N.of_nat (ptr_bytes c)) with (pcks + N.of_nat (i * entry_bytes c + ptr_bytes c)) by lia.
    change (bytes_in U32) with 4%nat. apply bind_ok in E as (b & E & F). rewrite E. cbn [bind]. injection F as <-. reflexivity.
  Qed.
  Lemma xstore_i t i f q ns ns' n g m O1 k O' : getc O1 i f = Ok (CInts t ns) -> aset ns q n = Ok ns' -> setc O1 i f (CInts t ns') = O' ->
    store_at c (TInt t) (Obj i f (N.of_nat (bytes_in t * q))) (VInt t n) (mk_cst g m O1 k) = Ok (mk_cst g m O' k).
  Proof.
    intros G E <-. unfold store_at. cbn [objs]. rewrite G; cbn [bind]. unfold set_int. rewrite mod_nat by (destruct t; cbn; lia). cbn [N.eqb negb].
    replace (MiniC.ity_eqb t t) with true by (destruct t; reflexivity). rewrite Nat2N.inj_mul, N.mul_comm, N.div_mul by (destruct t; discriminate). rewrite Nat2N.id, E. reflexivity.
  Qed.
  Lemma xstore_i0 t i f x n g m O1 k O' : getc O1 i f = Ok (CInts t [x]) -> setc O1 i f (CInts t [n]) = O' ->
    store_at c (TInt t) (Obj i f 0) (VInt t n) (mk_cst g m O1 k) = Ok (mk_cst g m O' k).
  Proof. intros G E. replace 0 with (N.of_nat (bytes_in t * 0)) by lia. eapply xstore_i; [exact G|reflexivity|exact E]. Qed.
  Lemma and_len v : v < 2 ^ 32 -> bin_op c S And (VInt U32 v) (VInt U32 4294967288) = Ok (VInt U32 (N.land v 4294967288)).
  Proof. intros H. eapply int_lift. MiniCRun.intop. Qed.
  Notation obj := (length O).
  Notation lvars i ml :=
    [("block", BVal (TPtr B8) (Some (VPtr B8 (Obj obj "data" (N.of_nat (8 * (23 * i))))))); ("i", BVal (TInt I32) (num i)); ("pkt_buf", BVal (TPtr PB) (Some (VPtr PB (Obj obj "" 0))));
     ("pcks", BVal (TPtr BATCH) (Some (VPtr BATCH (Flat pcks)))); ("maxlen", BVal (TInt U32) (Some (VInt U32 ml)))].
  Notation svars i :=
    [("block", BVal (TPtr B8) (Some (VPtr B8 (Obj obj "data" (N.of_nat (8 * (23 * i))))))); ("i", BVal (TInt I32) (num i)); ("pkt_buf", BVal (TPtr PB) (Some (VPtr PB (Obj obj "" 0))));
     ("pcks", BVal (TPtr BATCH) (Some (VPtr BATCH (Flat pcks))))].
  Ltac plx ::=
    lazymatch goal with
    | |- pl _ _ (EVar _) _ _ => first [eapply pl_var; reflexivity | eapply pl_obj; reflexivity | eapply pl_tab; reflexivity]
    | |- pl _ _ (EIndex _ _) _ _ => eapply pl_index; [pvx|pvx|binop]
    | |- pl _ _ (EDeref _) _ _ => eapply pl_deref; pvx
    | |- pl _ _ (EField (EIndex _ _) "data") _ _ => eapply pl_field_flat; [plx|reflexivity|reflexivity|apply data_off]
    | |- pl _ _ (EField (EIndex _ _) "len") _ _ => eapply pl_field_flat; [plx|reflexivity|reflexivity|apply len_off]
    | |- pl _ _ (EField _ _) _ _ => eapply pl_field_obj; [plx|reflexivity|reflexivity]
    end.
  Ltac ptrx ::= lazymatch goal with
    | |- bin_op _ _ Add (VPtr BATCH (Flat _)) _ = _ => eapply ptr_entry; svn
    | |- bin_op _ _ Add (VPtr (TInt U32) (Obj _ _ 0)) _ = _ => eapply ptr_u32_0; svn
    | |- bin_op _ _ Add (VPtr B8 _) _ = _ => eapply ptr_blk; svn
    end.
  Ltac loadx ::= lazymatch goal with
    | |- load_at _ _ (TPtr _) (Flat _) _ = _ => eapply load_data; [reflexivity|eassumption]
    | |- load_at _ _ (TInt U32) (Flat _) _ = _ => eapply load_len; [reflexivity|eassumption]
    end.
  Ltac storex ::= lazymatch goal with
    | |- store_at _ _ (Obj _ _ 0) _ _ = _ => eapply xstore_i0; [getx|setx]
    | |- store_at _ _ _ _ _ = _ => eapply (xstore_i U32); [getx|asetx|setx]
    end.
  Definition load_body : stmt := match nth_error (fn_body (bs_dvbcsa_pkt_buf_load c)) 2 with Some (SFor _ _ _ b) => b | _ => SReturn None end.
  Definition store_body : stmt := match nth_error (fn_body (bs_dvbcsa_pkt_buf_store c)) 2 with Some (SFor _ _ _ b) => b | _ => SReturn None end.
  Notation cond := (EField (EIndex (EVar "pcks") (EVar "i")) "data").
  Notation step := (EComma (EPost Add (EVar "i")) (EOpAssign Add (EVar "block") (EBin Div (EConst I32 0xb8) (EConst I32 8)))).
  Notation exec := (exec c T S rnd fuel).
  Lemma cond_ptr g m O1 k p : pv c calls cond (mk_cst g m O1 k) (VPtr (TInt U8) (Flat p)) -> cond_of c T S calls cond (mk_cst g m O1 k) = Ok (negb (p =? 0), mk_cst g m O1 k).
  Proof. intros H. eapply cond_ok; [exact H|reflexivity]. Qed.
  Lemma xwrite_b i f q bs d d' g m O1 k O' : getc O1 i f = Ok (CBytes d) -> bset d q bs = Ok d' -> setc O1 i f (CBytes d') = O' ->
    write_bytes (Obj i f (N.of_nat q)) bs (mk_cst g m O1 k) = Ok (mk_cst g m O' k).
  Proof. intros G E <-. unfold write_bytes. cbn [objs]. rewrite G; cbn [bind]. rewrite Nat2N.id, E. reflexivity. Qed.
  Lemma xread_b i f q n bs d g m O1 k : getc O1 i f = Ok (CBytes d) -> bget d q (N.to_nat n) = Ok bs -> read_bytes (Obj i f (N.of_nat q)) n (mk_cst g m O1 k) = Ok bs.
  Proof. intros G E. unfold read_bytes. cbn [objs]. rewrite G; cbn [bind]. rewrite Nat2N.id, E. reflexivity. Qed.
  Lemma load_step m i ml n0 x p v l8 l8' bs d d' k : (i < 257)%nat -> batch_data c m pcks i = Ok p -> batch_len c m pcks i = Ok v -> v < 2 ^ 32 ->
    aset l8 i (N.land v 0xfffffff8) = Ok l8' -> load_bytes m p (N.to_nat v) = Ok bs -> bset d (i * slot) bs = Ok d' ->
    exec calls load_body (mk_cst (lvars i ml) m (O ++ [pobj n0 x l8 d]) k) = Ok (None, mk_cst (lvars i ml) m (O ++ [pobj n0 x l8' d']) k).
  Proof.
    intros Hi E1 E2 Hv E3 E4 E5. let q := eval hnf in load_body in change load_body with q. unfold pobj. replace (i * slot)%nat with (8 * (23 * i))%nat in E5 by (unfold slot; lia).
    blk ltac:(idtac; eapply seq_one; [eapply st_expr; eapply run_assign; [eapply pv_bin; [pvx|pvx|apply and_len; exact Hv]|plx|asx]|];
      eapply seq_one; [eapply st_expr; eapply run_memcpy; [pvsx|exact E4|eapply xwrite_b; [getx|exact E5|setx]]|reflexivity]).
  Qed.
  Lemma store_step m i m' n0 x p v l8 bs d k : (i < 257)%nat -> batch_data c m pcks i = Ok p -> batch_len c m pcks i = Ok v ->
    bget d (i * slot) (N.to_nat v) = Ok bs -> store_bytes m p bs = Ok m' ->
    exec calls store_body (mk_cst (svars i) m (O ++ [pobj n0 x l8 d]) k) = Ok (None, mk_cst (svars i) m' (O ++ [pobj n0 x l8 d]) k).
  Proof.
    intros Hi E1 E2 E3 E4. let q := eval hnf in store_body in change store_body with q. unfold pobj. replace (i * slot)%nat with (8 * (23 * i))%nat in E3 by (unfold slot; lia).
    blk ltac:(idtac; 
      eapply seq_one; [eapply st_expr; eapply run_memcpy; [pvsx|eapply xread_b; [getx|exact E3]|unfold write_bytes; cbn [flat]; rewrite E4; reflexivity]|reflexivity]).
  Qed.
  Lemma load_next m i ml O1 k : (i < 257)%nat -> opt_ev c T S calls (Some step) (mk_cst (lvars i ml) m O1 k) = Ok (mk_cst (lvars (Datatypes.S i) ml) m O1 k).
  Proof. intros Hi. eapply opt_step; [runx|st_eq]. Qed.
  Lemma store_next m i O1 k : (i < 257)%nat -> opt_ev c T S calls (Some step) (mk_cst (svars i) m O1 k) = Ok (mk_cst (svars (Datatypes.S i)) m O1 k).
  Proof. intros Hi. eapply opt_step; [runx|st_eq]. Qed.
  Lemma load_loop m ml n0 x k : forall fu i kf l8 d n l8' d', (fu + i <= 257)%nat -> (fu <= kf)%nat -> (forall j v, batch_len c m pcks j = Ok v -> (j < n)%nat -> v < 2 ^ 32) ->
    pkt_buf_load_from fu c m pcks i l8 d = Ok (mk_pb n l8' d') -> (i <= n < 257)%nat /\
    loop kf (cond_of c T S calls cond) (exec calls load_body) (opt_ev c T S calls (Some step)) (mk_cst (lvars i ml) m (O ++ [pobj n0 x l8 d]) k) =
      Ok (None, mk_cst (lvars n ml) m (O ++ [pobj n0 x l8' d']) k).
  Proof.
    induction fu as [|fu IH]; intros i kf l8 d n l8' d' Hi Hk Hl E; cbn [pkt_buf_load_from] in E; [discriminate|].
    destruct kf as [|kf]; [lia|]. cbn [loop]. apply bind_ok in E as (p & E1 & E).
    assert (C : cond_of c T S calls cond (mk_cst (lvars i ml) m (O ++ [pobj n0 x l8 d]) k) = Ok (negb (p =? 0), mk_cst (lvars i ml) m (O ++ [pobj n0 x l8 d]) k)) by (apply cond_ptr; pvx).
    rewrite C. cbn [bind]. destruct (p =? 0); cbn [negb].
    - injection E as <- <- <-. split; [lia|reflexivity].
    - gob E. match goal with E : aset _ _ _ = _, E' : load_bytes _ _ _ = _, E'' : bset _ _ _ = _ |- _ => rename E into A, E' into B, E'' into D end.
      match goal with X : batch_len _ _ _ _ = Ok ?a, Y : batch_len _ _ _ _ = Ok ?b |- _ => rewrite X in Y; injection Y as <-; rename X into Q end.
      destruct (IH (Datatypes.S i) kf _ _ _ _ _ ltac:(lia) ltac:(lia) Hl E) as (Hn & L). split; [lia|].
      rewrite (load_step m i ml n0 x p _ l8 _ _ d _ k ltac:(lia) E1 Q (Hl _ _ Q ltac:(lia)) A B D). cbn [bind]. rewrite load_next by lia. cbn [bind]. exact L.
  Qed.
  Lemma store_loop n0 x l8 d k : forall fu i kf m m', (fu + i <= 257)%nat -> (fu <= kf)%nat -> pkt_buf_store_from fu c m pcks i d = Ok m' ->
    exists n, loop kf (cond_of c T S calls cond) (exec calls store_body) (opt_ev c T S calls (Some step)) (mk_cst (svars i) m (O ++ [pobj n0 x l8 d]) k) =
      Ok (None, mk_cst (svars n) m' (O ++ [pobj n0 x l8 d]) k).
  Proof.
    induction fu as [|fu IH]; intros i kf m m' Hi Hk E; cbn [pkt_buf_store_from] in E; [discriminate|].
    destruct kf as [|kf]; [lia|]. cbn [loop]. apply bind_ok in E as (p & E1 & E).
    assert (C : cond_of c T S calls cond (mk_cst (svars i) m (O ++ [pobj n0 x l8 d]) k) = Ok (negb (p =? 0), mk_cst (svars i) m (O ++ [pobj n0 x l8 d]) k)) by (apply cond_ptr; pvx).
    rewrite C. cbn [bind]. destruct (p =? 0); cbn [negb].
    - injection E as <-. exists i. reflexivity.
    - gob E. match goal with X : batch_len _ _ _ _ = Ok ?a, Y : bget _ _ _ = _, Z : store_bytes _ _ _ = _ |- _ => rename X into Q, Y into A, Z into B end.
      destruct (IH (Datatypes.S i) kf _ _ ltac:(lia) ltac:(lia) E) as (n & L). exists n.
      rewrite (store_step m i _ n0 x p _ l8 _ d k ltac:(lia) E1 Q A B). cbn [bind]. rewrite store_next by lia. cbn [bind]. exact L.
  Qed.
  Lemma batch_256 : (batch_size c <= 256)%nat. Proof. unfold batch_size, word_bytes. destruct (tgt c); lia. Qed.
  Theorem pkt_buf_load_source m n0 x l8 d n l8' d' ml g k : (forall j v, batch_len c m pcks j = Ok v -> (j < n)%nat -> v < 2 ^ 32) -> ml < 2 ^ 32 ->
    dvbcsa_pkt_buf_load c m pcks (mk_pb 0 l8 d) = Ok (mk_pb n l8' d') ->
    call_fun c T S rnd fuel calls (bs_dvbcsa_pkt_buf_load c) [VPtr PB (Obj obj "" 0); VPtr BATCH (Flat pcks); VInt U32 ml] (mk_cst g m (O ++ [pobj n0 x l8 d]) k) =
      Ok (None, mk_cst g m (O ++ [pobj (N.of_nat n) ml l8' d']) k).
  Proof.
    intros Hl Hml E. pose proof batch_256. unfold dvbcsa_pkt_buf_load in E. cbn [len8 pdata] in E.
    destruct (load_loop m ml n0 x k (Datatypes.S (batch_size c)) 0 fuel l8 d n l8' d' ltac:(lia) ltac:(lia) Hl E) as (Hn & L).
    eapply xcall_void; [reflexivity|params|the_body|].
    - do 2 stx. eapply seq_one; [eapply st_for; [eapply opt_some; runx|exact L]|]. unfold pobj. do 2 stx. reflexivity.
    - apply firstn_same. rewrite !app_length. reflexivity.
  Qed.
  Theorem pkt_buf_store_source m n0 x l8 d m' g k : dvbcsa_pkt_buf_store c m pcks (mk_pb 0 l8 d) = Ok m' ->
    call_fun c T S rnd fuel calls (bs_dvbcsa_pkt_buf_store c) [VPtr PB (Obj obj "" 0); VPtr BATCH (Flat pcks)] (mk_cst g m (O ++ [pobj n0 x l8 d]) k) =
      Ok (None, mk_cst g m' (O ++ [pobj n0 x l8 d]) k).
  Proof.
    intros E. pose proof batch_256. unfold dvbcsa_pkt_buf_store in E. cbn [pdata] in E.
    destruct (store_loop n0 x l8 d k (Datatypes.S (batch_size c)) 0 fuel m m' ltac:(lia) ltac:(lia) E) as (n & L).
    eapply xcall_void; [reflexivity|params|the_body|].
    - do 2 stx. eapply seq_one; [eapply st_for; [eapply opt_some; runx|exact L]|]. reflexivity.
    - apply firstn_same. rewrite !app_length. reflexivity.
  Qed.
End Packets.

(** ** The two functions *)
Section Api.
  Context (c : build) (rnd : nat -> nat -> N) (fuel : nat) (m : mem) (key pcks : N) (ps : packets) (cw kk : nat -> list N) (mb : nat) (O : list object) (g : list (string * binding)).
  Context (Hf : (256 < fuel)%nat) (Sp : supported c) (KS : key_stream_lanes c m key cw) (KB : BsRegister.key_lanes c (key_block_word c m key) kk).
  Context (B : batch_array c m pcks ps) (Hn : (length ps <= batch_size c)%nat) (Hfit : BsAlgo.fits c 0 ps) (Hm : (mb <= 23)%nat) (Al : pcks mod N.of_nat (ptr_bytes c) = 0).
  Notation T := src_bs_tables. Notation S := (src_bs_structs c).
  Notation PB := (TStruct "dvbcsa_bs_pkt_buf"). Notation BATCH := (TStruct "dvbcsa_bs_batch_s"). Notation KEY := (TStruct "dvbcsa_bs_key_s").
  Notation ml := (N.of_nat (8 * mb)).
  Notation obj := (length O).
  Lemma any_ints_one t k : exists x, any_ints rnd t k 1 = [x]. Proof. eexists. reflexivity. Qed.
  Lemma any_ints_ok k n : length (any_ints rnd U32 k n) = n /\ Forall (fun x => x < 2 ^ 32) (any_ints rnd U32 k n).
  Proof.
    unfold any_ints. split; [rewrite map_length, seq_length; reflexivity|]. apply Forall_forall. intros x H. apply in_map_iff in H as (j & <- & _). apply N.mod_lt. discriminate.
  Qed.
  Lemma any_bytes_ok k n : length (any_bytes rnd k n) = n /\ Forall is_byte (any_bytes rnd k n).
  Proof.
    unfold any_bytes. split; [rewrite map_length, seq_length; reflexivity|]. apply Forall_forall. intros x H. apply in_map_iff in H as (j & <- & _). apply N.mod_lt. discriminate.
  Qed.
  #[local] Opaque any_ints any_bytes any_words.
  Lemma pbuf_new k : exists n0 x l8 d, new_object c S rnd PB k = Some (pobj n0 x l8 d, (k + 4)%nat) /\ length l8 = batch_size c /\ Forall (fun x => x < 2 ^ 32) l8 /\ pbuf (batch_size c) d.
  Proof.
    destruct (any_ints_one I32 k) as (n0 & E0). destruct (any_ints_one U32 (Datatypes.S k)) as (x & E1).
    set (l8 := any_ints rnd U32 (Datatypes.S (Datatypes.S k)) (batch_size c)).
    set (d := any_bytes rnd (Datatypes.S (Datatypes.S (Datatypes.S k))) (batch_size c * slot)).
    exists n0, x, l8, d. split; [|split; [apply any_ints_ok|split; [apply any_ints_ok|apply any_bytes_ok]]].
    change (new_object c S rnd PB k) with (match new_members c S rnd [("n_packets", TInt I32); ("maxlen", TInt U32); ("len8", TArr (TInt U32) (N.of_nat (batch_size c))); ("data", TArr (TStruct "dvbcsa_bs_block8_t") (((N.of_nat (batch_size c)) * 184) / 8))] k with Some o => Some (o, (k + 4)%nat) | None => None end).
    cbn [new_members new_cells]. rewrite E0, E1. unfold pobj, l8, d. rewrite Nat2N.id.
    replace (N.to_nat (N.of_nat (batch_size c) * 184 / 8 * size_of c S 2 (TStruct "dvbcsa_bs_block8_t"))) with (batch_size c * slot)%nat; [reflexivity|].
    change (size_of c S 2 (TStruct "dvbcsa_bs_block8_t")) with 8. change 184 with (23 * 8). rewrite N.mul_assoc, N.div_mul by discriminate. unfold slot. lia.
  Qed.
  Lemma od_obj n0 x l8 d d' : BsCBlock.od (O ++ [pobj n0 x l8 d]) obj d' = O ++ [pobj n0 x l8 d'].
  Proof. unfold BsCBlock.od. apply setc_end; reflexivity. Qed.
  Lemma lens_bound r : forall i l8, Forall (fun x => N.of_nat (length (snd x)) < 2 ^ 32) r -> Forall (fun x => x < 2 ^ 32) l8 -> Forall (fun x => x < 2 ^ 32) (lens i r l8).
  Proof.
    induction r as [|[p buf] r IH]; intros i l8 H F; [exact F|]. cbn [lens]. inversion H as [|? ? H1 H2]; subst. apply IH; [exact H2|]. cbn [snd] in H1.
    assert (Q : 8 * (N.of_nat (length buf) / 8) < 2 ^ 32) by (pose proof (N.mul_div_le (N.of_nat (length buf)) 8 ltac:(discriminate)); lia).
    revert i. clear IH H2 H. induction F as [|y l8 Hy F IHF]; intros [|i]; cbn [upd]; constructor; try assumption. apply IHF.
  Qed.
  Lemma ps_lens : Forall (fun x => N.of_nat (length (snd x)) < 2 ^ 32) ps.
  Proof. apply Forall_forall. intros [p buf] H. apply In_nth_error in H as (i & E). apply (ba_entry _ _ _ _ B i p buf E). Qed.
  Lemma ps_bytes : Forall (fun x => Forall is_byte (snd x)) ps.
  Proof. apply Forall_forall. intros [p buf] H. apply In_nth_error in H as (i & E). destruct (ba_entry _ _ _ _ B i p buf E) as (_ & _ & (F & _) & _). exact F. Qed.
  Lemma len_bound j v : batch_len c m pcks j = Ok v -> (j < length ps)%nat -> v < 2 ^ 32.
  Proof.
    intros E Hj. destruct (nth_error ps j) as [[p buf]|] eqn:Ej; [|apply nth_error_None in Ej; lia].
    destruct (entry_data c m pcks ps B j p buf m Ej ltac:(intros x _; reflexivity)) as (_ & E2 & _). rewrite E2 in E. injection E as <-.
    apply (ba_entry _ _ _ _ B j p buf Ej).
  Qed.
  Lemma any_bj : exists bj, bj_ok c bj.
  Proof.
    set (z := repeat 0 (word_bytes c)). assert (W : wf c z) by (split; [apply repeat_length|apply Forall_forall; intros x H; apply repeat_spec in H as ->; reflexivity]).
    assert (R : forall n, wrows c n (repeat z n)) by (intros n; split; [apply repeat_length|apply Forall_forall; intros x H; apply repeat_spec in H as ->; exact W]).
    exists (mk_bj (repeat z 512) (repeat z 8) (repeat z (if deinterleave c then 16 else 8))). repeat split; apply R.
  Qed.
  Lemma word_key i : (i < 64)%nat -> exists w, key_stream_word c m key i = Ok w /\ wf c w.
  Proof. intros H. destruct (proj2 KS i H) as (w & E & W & _). exists w. split; assumption. Qed.
  (* what a call with these arguments finds on its stack *)
  Definition api_result (enc : bool) (jk : junk) (m' : mem) (k k' : nat) : Prop :=
    stack_ok c jk /\ bs_call enc c jk m key pcks ml = Ok m' /\
    prog_from c rnd fuel 0 (if enc then "dvbcsa_bs_encrypt" else "dvbcsa_bs_decrypt") [VPtr KEY (Flat key); VPtr BATCH (Flat pcks); VInt U32 ml] (mk_cst g m O k) = Ok (None, mk_cst g m' O k').
  Lemma ml_ok : maxlen_ok ml = true.
  Proof. unfold maxlen_ok. rewrite Nat2N.inj_mul, N.mul_comm, N.mod_mul by discriminate. cbn [N.eqb andb]. apply N.leb_le. lia. Qed.
  Ltac callk E := eapply seq_one; [eapply st_expr; eapply run_call; [reflexivity|reflexivity| |exact E]|].
  Notation avars := [("pbuf", BObj PB obj); ("key", BVal (TPtr KEY) (Some (VPtr KEY (Flat key)))); ("pcks", BVal (TPtr BATCH) (Some (VPtr BATCH (Flat pcks)))); ("maxlen", BVal (TInt U32) (Some (VInt U32 ml)))].
  Lemma load_model l8 d : length l8 = batch_size c -> pbuf (batch_size c) d -> dvbcsa_pkt_buf_load c m pcks (mk_pb 0 l8 d) = Ok (mk_pb (length ps) (lens 0 ps l8) (layout 0 ps d)) /\ pbuf (batch_size c) (layout 0 ps d).
  Proof.
    intros L [Ld Fd]. split.
    - unfold dvbcsa_pkt_buf_load. cbn [len8 pdata]. apply (load_run c m pcks ps B ps 0); try assumption; try reflexivity; [intros k x H; exact H|lia].
    - split; [rewrite (layout_length c); [exact Ld|exact Hfit|exact Ld]|apply layout_bytes; [exact ps_bytes|exact Fd]].
  Qed.
  Lemma load_call q n0 x l8 d k g0 : (q <= 4)%nat -> length l8 = batch_size c -> pbuf (batch_size c) d ->
    prog_from c rnd fuel q "dvbcsa_pkt_buf_load" [VPtr PB (Obj obj "" 0); VPtr BATCH (Flat pcks); VInt U32 ml] (mk_cst g0 m (O ++ [pobj n0 x l8 d]) k) =
      Ok (None, mk_cst g0 m (O ++ [pobj (N.of_nat (length ps)) ml (lens 0 ps l8) (layout 0 ps d)]) k).
  Proof.
    intros Hq L P. rewrite (call_at c rnd fuel q (4 - q) _ (bs_dvbcsa_pkt_buf_load c)); [|discriminate|do 5 (destruct q as [|q]; [reflexivity|]); lia|replace (q + (4 - q))%nat with 4%nat by lia; reflexivity|reflexivity].
    apply pkt_buf_load_source; [exact Hf|exact Al|exact len_bound|change (2 ^ 32) with 4294967296; lia|apply load_model; assumption].
  Qed.
  Lemma store_call q n0 x l8 d m' k g0 : (q <= 3)%nat -> dvbcsa_pkt_buf_store c m pcks (mk_pb 0 l8 d) = Ok m' ->
    prog_from c rnd fuel q "dvbcsa_pkt_buf_store" [VPtr PB (Obj obj "" 0); VPtr BATCH (Flat pcks)] (mk_cst g0 m (O ++ [pobj n0 x l8 d]) k) =
      Ok (None, mk_cst g0 m' (O ++ [pobj n0 x l8 d]) k).
  Proof.
    intros Hq E. rewrite (call_at c rnd fuel q (3 - q) _ (bs_dvbcsa_pkt_buf_store c)); [|discriminate|do 4 (destruct q as [|q]; [reflexivity|]); lia|replace (q + (3 - q))%nat with 3%nat by lia; reflexivity|reflexivity].
    apply pkt_buf_store_source; assumption.
  Qed.
  Lemma wrows_words n l : wrows c n l -> words_ok c n l. Proof. intros H. exact H. Qed.
  Lemma stack_of l8 d k bj : length l8 = batch_size c -> pbuf (batch_size c) d -> (forall i, bj_ok c (bj i)) -> stack_ok c (mk_junk l8 d (regs_junk c rnd k) bj).
  Proof.
    intros L [Ld Fd] Hb. pose proof (fun k n => any_words_wrows c rnd k n) as W.
    assert (H : forall k, wf c (hd [] (any_words c rnd k 1))) by (intros k0; destruct (W k0 1%nat) as [_ F]; rewrite one_word in F; inversion F; assumption).
    constructor; cbn [jk_len8 jk_data jk_regs jk_block regs_junk rgA rgB rgX rgY rgZ rgD rgE rgF rgsb rgp rgq rgr].
    - exact L.
    - split; assumption.
    - split; apply W.
    - split; [apply W|split; apply W].
    - split; [apply W|split; apply W].
    - apply W.
    - split; [reflexivity|]. repeat constructor; apply H.
    - intros i. exact (Hb i).
  Qed.
  Lemma model_ok enc jk : stack_ok c jk -> exists m', bs_call enc c jk m key pcks ml = Ok m'.
  Proof. intros J. destruct (wp_get _ _ (mixed_call_run enc c jk m key pcks ps mb Sp J B Hn Hfit Hm cw kk KS KB)) as (m' & E & _). exists m'. exact E. Qed.
  Lemma mod_ok : bin_op c S Mod (VInt U32 ml) (VInt I32 8) = Ok (VInt U32 0).
  Proof. clear - Hm. revert Hm. generalize mb as x. intros x Hx. do 24 (destruct x as [|x]; [reflexivity|]). lia. Qed.
  Lemma le_ok : bin_op c S Le (VInt U32 ml) (VInt I32 0xb8) = Ok (VInt I32 1).
  Proof. clear - Hm. revert Hm. generalize mb as x. intros x Hx. do 24 (destruct x as [|x]; [reflexivity|]). lia. Qed.
  Lemma asserts calls O1 k l x : exec_seq c rnd fuel calls l (mk_cst avars m O1 k) = x ->
    exec_seq c rnd fuel calls (SAssert (EBin Eq (EBin Mod (EVar "maxlen") (EConst I32 8)) (EConst I32 0)) :: SAssert (EBin Le (EVar "maxlen") (EConst I32 0xb8)) :: l) (mk_cst avars m O1 k) = x.
  Proof.
    intros H. eapply seq_one; [eapply st_assert; eapply cond_ok; [eapply pv_bin; [eapply pv_bin; [pvx|pvx|apply mod_ok]|pvx|reflexivity]|reflexivity]|].
    eapply seq_one; [eapply st_assert; eapply cond_ok; [eapply pv_bin; [pvx|pvx|apply le_ok]|reflexivity]|exact H].
  Qed.
  Lemma firstn_end {A} (l : list A) y : firstn (length l) (l ++ [y]) = l. Proof. induction l as [|z l IH]; [reflexivity|]. cbn. f_equal. exact IH. Qed.
  Theorem decrypt_source k : exists jk m' k', api_result false jk m' k k'.
  Proof.
    destruct (pbuf_new k) as (n0 & x & l8 & d & En & L & F & P). destruct any_bj as (bj & Hb).
    destruct (load_model l8 d L P) as (E1 & P1). set (l8' := lens 0 ps l8) in *. set (d0 := layout 0 ps d) in *.
    destruct (lens_ok ps l8 ltac:(lia)) as (K1 & _). pose proof (lens_bound ps 0 l8 ps_lens F) as K2. fold l8' in K1, K2.
    set (O1 := O ++ [pobj (N.of_nat (length ps)) ml l8' d0]).
    assert (GD : getc O1 obj "data" = Ok (CBytes d0)) by (apply getc_end; reflexivity).
    assert (GN : getc O1 obj "n_packets" = Ok (CInts I32 [N.of_nat (length ps)])) by (apply getc_end; reflexivity).
    assert (GL : getc O1 obj "len8" = Ok (CInts U32 l8')) by (apply getc_end; reflexivity).
    destruct (stream_batch_source c rnd fuel m key O1 obj (length ps) l8' d0 Hf (proj1 Sp) word_key Hn GD GN 3 mb d0 avars (k + 4) ltac:(lia) Hm P1) as (d1 & k1 & P2 & E2 & C2).
    destruct (dec_batch c rnd fuel m key kk O1 obj (length ps) l8' d0 Hf Sp KB Hn K1 K2 GD GN GL 3 (fun _ => bj) mb d1 avars k1 ltac:(lia) Hm (fun _ => Hb) P2) as (d2 & k2 & P3 & E3 & C3).
    pose proof (stack_of l8 d (k + 4) (fun _ => bj) L P (fun _ => Hb)) as J. set (jk := mk_junk l8 d (regs_junk c rnd (k + 4)) (fun _ => bj)) in *.
    destruct (model_ok false jk J) as (m' & E). exists jk, m', k2. split; [exact J|]. split; [exact E|].
    assert (E4 : dvbcsa_pkt_buf_store c m pcks (mk_pb 0 l8' d2) = Ok m').
    { cbn [bs_call] in E. unfold dvbcsa_bs_decrypt in E. rewrite ml_ok in E. cbn [negb] in E. rewrite Bool.andb_false_r in E. subst jk. cbn [jk_len8 jk_data jk_regs jk_block] in E.
      rewrite E1 in E. cbn [bind] in E. rewrite E2 in E. cbn [bind] in E. rewrite E3 in E. cbn [bind] in E. exact E. }
    pose proof (load_call 3 n0 x l8 d (k + 4) avars ltac:(lia) L P) as C1. fold l8' d0 in C1.
    pose proof (store_call 3 (N.of_nat (length ps)) ml l8' d2 m' k2 avars ltac:(lia) E4) as C4.
    unfold O1 in C2, C3. rewrite !od_obj in C2, C3.
    cbv iota. rewrite (call_at c rnd fuel 0 2 _ (bs_decrypt c)); [|discriminate|reflexivity|reflexivity|unfold bs_decrypt; destruct (have_assert c); reflexivity].
    change (Datatypes.S (0 + 2)) with 3%nat.
    unfold bs_decrypt. destruct (have_assert c).
    - eapply xcall_void; [reflexivity|params|the_body|].
      + eapply seq_one; [eapply xst_declobj; [exact Logic.I|exact En|reflexivity]|]. apply asserts.
        callk C1; [pvsx|]. callk C2; [pvsx|]. callk C3; [pvsx|]. callk C4; [pvsx|]. reflexivity.
      + apply firstn_end.
    - eapply xcall_void; [reflexivity|params|the_body|].
      + eapply seq_one; [eapply xst_declobj; [exact Logic.I|exact En|reflexivity]|].
        callk C1; [pvsx|]. callk C2; [pvsx|]. callk C3; [pvsx|]. callk C4; [pvsx|]. reflexivity.
      + apply firstn_end.
  Qed.
  Theorem encrypt_source k : exists jk m' k', api_result true jk m' k k'.
  Proof.
    destruct (pbuf_new k) as (n0 & x & l8 & d & En & L & F & P). destruct any_bj as (bj & Hb).
    destruct (load_model l8 d L P) as (E1 & P1). set (l8' := lens 0 ps l8) in *. set (d0 := layout 0 ps d) in *.
    destruct (lens_ok ps l8 ltac:(lia)) as (K1 & _). pose proof (lens_bound ps 0 l8 ps_lens F) as K2. fold l8' in K1, K2.
    set (O1 := O ++ [pobj (N.of_nat (length ps)) ml l8' d0]).
    assert (GD : getc O1 obj "data" = Ok (CBytes d0)) by (apply getc_end; reflexivity).
    assert (GN : getc O1 obj "n_packets" = Ok (CInts I32 [N.of_nat (length ps)])) by (apply getc_end; reflexivity).
    assert (GL : getc O1 obj "len8" = Ok (CInts U32 l8')) by (apply getc_end; reflexivity).
    destruct (enc_batch c rnd fuel m key kk O1 obj (length ps) l8' d0 Hf Sp KB Hn K1 K2 GD GN GL 2 (fun _ => bj) mb d0 avars (k + 4) ltac:(lia) Hm (fun _ => Hb) P1) as (d1 & k1 & P2 & E2 & C2).
    destruct (stream_batch_source c rnd fuel m key O1 obj (length ps) l8' d0 Hf (proj1 Sp) word_key Hn GD GN 2 mb d1 avars k1 ltac:(lia) Hm P2) as (d2 & k2 & P3 & E3 & C3).
    pose proof (stack_of l8 d k1 (fun _ => bj) L P (fun _ => Hb)) as J. set (jk := mk_junk l8 d (regs_junk c rnd k1) (fun _ => bj)) in *.
    destruct (model_ok true jk J) as (m' & E). exists jk, m', k2. split; [exact J|]. split; [exact E|].
    assert (E4 : dvbcsa_pkt_buf_store c m pcks (mk_pb 0 l8' d2) = Ok m').
    { cbn [bs_call] in E. unfold dvbcsa_bs_encrypt in E. rewrite ml_ok in E. cbn [negb] in E. rewrite Bool.andb_false_r in E. subst jk. cbn [jk_len8 jk_data jk_regs jk_block] in E.
      rewrite E1 in E. cbn [bind] in E. rewrite E2 in E. cbn [bind] in E. rewrite E3 in E. cbn [bind] in E. exact E. }
    pose proof (load_call 2 n0 x l8 d (k + 4) avars ltac:(lia) L P) as C1. fold l8' d0 in C1.
    pose proof (store_call 2 (N.of_nat (length ps)) ml l8' d2 m' k2 avars ltac:(lia) E4) as C4.
    unfold O1 in C2, C3. rewrite !od_obj in C2, C3.
    cbv iota. rewrite (call_at c rnd fuel 0 1 _ (bs_encrypt c)); [|discriminate|reflexivity|reflexivity|unfold bs_encrypt; destruct (have_assert c); reflexivity].
    change (Datatypes.S (0 + 1)) with 2%nat.
    unfold bs_encrypt. destruct (have_assert c).
    - eapply xcall_void; [reflexivity|params|the_body|].
      + eapply seq_one; [eapply xst_declobj; [exact Logic.I|exact En|reflexivity]|]. apply asserts.
        callk C1; [pvsx|]. callk C2; [pvsx|]. callk C3; [pvsx|]. callk C4; [pvsx|]. reflexivity.
      + apply firstn_end.
    - eapply xcall_void; [reflexivity|params|the_body|].
      + eapply seq_one; [eapply xst_declobj; [exact Logic.I|exact En|reflexivity]|].
        callk C1; [pvsx|]. callk C2; [pvsx|]. callk C3; [pvsx|]. callk C4; [pvsx|]. reflexivity.
      + apply firstn_end.
  Qed.
End Api.
