(** StepsFacts.v -- the byte-step programs of ModelSteps.v, run alone, are the models of the other
    files: equal for every memory, including every failure. *)
From Verif Require Import Base Mem Tables ModelClassical ModelBsWord ModelBsTranspose ModelBsStream ModelBsBlock ModelBsAlgo ModelSteps.
Local Open Scope N_scope.

Lemma run_bind {A B} (t : prog A) (f : A -> prog B) m :
  run (pbind t f) m = ('(a, m') <- run t m ;; run (f a) m').
Proof.
  revert m; induction t as [a|p k IH|p v t IH|e]; intros m; cbn [pbind run bind]; [reflexivity| | |destruct e; reflexivity].
  - destruct (load m p); cbn [bind]; auto.
  - destruct (store m p v); cbn [bind]; auto.
Qed.
Lemma run_lift {A} (r : res A) m : run (lift r) m = (a <- r ;; Ok (a, m)).
Proof. destruct r; reflexivity. Qed.

(* [t] only reads, and returns [r] *)
Definition reads {A} (t : prog A) (m : mem) (r : res A) : Prop := run t m = (a <- r ;; Ok (a, m)).
(* [t] ends in the memory [r] *)
Definition acts (t : prog unit) (m : mem) (r : res mem) : Prop := run t m = (m' <- r ;; Ok (tt, m')).

Lemma reads_ret {A} (a : A) m : reads (Ret a) m (Ok a). Proof. reflexivity. Qed.
Lemma reads_lift {A} (r : res A) m : reads (lift r) m r. Proof. apply run_lift. Qed.
Lemma reads_rd a m : reads (rd a) m (load m a).
Proof. unfold reads, rd; cbn. reflexivity. Qed.
Lemma reads_bind {A B} (t : prog A) (f : A -> prog B) m r g :
  reads t m r -> (forall a, reads (f a) m (g a)) -> reads (pbind t f) m (bind r g).
Proof. unfold reads. intros H K. rewrite run_bind, H. destruct r; cbn; auto. Qed.
Lemma reads_stop {A} e m : reads (@Stop A e) m (throw e). Proof. destruct e; reflexivity. Qed.
Lemma reads_for {St} n : forall i (pb : nat -> St -> prog St) b s m,
  (forall i s, reads (pb i s) m (b i s)) -> reads (pfor n i pb s) m (for_ n i b s).
Proof. induction n as [|n IH]; intros; cbn [pfor for_]; [reflexivity|]. apply reads_bind; auto. Qed.
Lemma reads_for_down {St} n : forall (pb : nat -> St -> prog St) b s m,
  (forall i s, reads (pb i s) m (b i s)) -> reads (pfor_down n pb s) m (for_down n b s).
Proof. induction n as [|n IH]; intros; cbn [pfor_down for_down]; [reflexivity|]. apply reads_bind; auto. Qed.
Lemma reads_while {St} n : forall cond (pb : St -> prog St) b s m,
  (forall s, reads (pb s) m (b s)) -> reads (pwhile n cond pb s) m (while_ n cond b s).
Proof.
  induction n as [|n IH]; intros; cbn [pwhile while_]; destruct (cond s); try reflexivity. apply reads_bind; auto.
Qed.

Lemma acts_ret m : acts (Ret tt) m (Ok m). Proof. reflexivity. Qed.
Lemma acts_wr a v m : acts (wr a v) m (store m a v).
Proof. unfold acts, wr; cbn. reflexivity. Qed.
Lemma acts_seq (t : prog unit) (f : unit -> prog unit) m r g :
  acts t m r -> (forall m, acts (f tt) m (g m)) -> acts (pbind t f) m (bind r g).
Proof. unfold acts. intros H K. rewrite run_bind, H. destruct r; cbn; auto. Qed.
Lemma acts_bind {A} (t : prog A) (f : A -> prog unit) m r g :
  reads t m r -> (forall a, acts (f a) m (g a)) -> acts (pbind t f) m (bind r g).
Proof. unfold acts, reads. intros H K. rewrite run_bind, H. destruct r; cbn; auto. Qed.
Lemma acts_stop e m : acts (Stop e) m (throw e). Proof. destruct e; reflexivity. Qed.
Lemma acts_for n : forall i (pb : nat -> unit -> prog unit) b m,
  (forall i m, acts (pb i tt) m (b i m)) -> acts (pfor n i pb tt) m (for_ n i b m).
Proof. induction n as [|n IH]; intros; cbn [pfor for_]; [reflexivity|]. apply acts_seq; auto. Qed.

(* loops whose state has a local and a memory part *)
Definition works {S X} (t : prog S) (m : mem) (h : S -> mem -> X) (r : res X) : Prop :=
  ('(s, m') <- run t m ;; Ok (h s m')) = r.
Lemma works_bind {S S' X X'} (t : prog S) (f : S -> prog S') m (h : S -> mem -> X) (h' : S' -> mem -> X') r g :
  works t m h r -> (forall s m, works (f s) m h' (g (h s m))) -> works (pbind t f) m h' (bind r g).
Proof.
  unfold works. intros <- K. rewrite run_bind. destruct (run t m) as [[s m']| | |]; cbn [bind]; [apply K|reflexivity..].
Qed.
Lemma works_while {S X} n : forall cond cond' (pb : S -> prog S) (b : X -> res X) h s m,
  (forall s m, cond' (h s m) = cond s) ->
  (forall s m, works (pb s) m h (b (h s m))) -> works (pwhile n cond pb s) m h (while_ n cond' b (h s m)).
Proof.
  induction n as [|n IH]; intros cond cond' pb b h s m C B; cbn [pwhile while_]; rewrite C; destruct (cond s); try reflexivity.
  eapply works_bind; [apply B|]. intros. apply IH; auto.
Qed.

(** ** Accesses *)
Lemma reads_bytes n : forall a m, reads (rd_bytes a n) m (load_bytes m a n).
Proof.
  induction n as [|n IH]; intros a m; cbn [rd_bytes load_bytes]; [reflexivity|].
  apply reads_bind; [apply reads_rd|]. intros b. apply reads_bind; [apply IH|]. intros. apply reads_ret.
Qed.
Lemma acts_bytes l : forall a m, acts (wr_bytes a l) m (store_bytes m a l).
Proof.
  induction l as [|b l IH]; intros a m; cbn [wr_bytes store_bytes]; [reflexivity|].
  apply acts_seq; [apply acts_wr|]. intros. apply IH.
Qed.

Ltac go := repeat first
  [ apply reads_bytes | apply acts_bytes | apply reads_rd | apply acts_wr | apply reads_ret | apply acts_ret
  | apply reads_lift
  | (eapply reads_bind; [|intros ?]) | (apply acts_bind; [|intros ?]) | (apply acts_seq; [|intros ?])
  | (apply reads_for; intros ? ?) | (apply reads_for_down; intros ? ?) | (apply acts_for; intros ? ?) ].

(** ** Classical *)
Lemma xor_64_steps be b a m : acts (p_xor_64 be b a) m (dvbcsa_xor_64 be m b a).
Proof. unfold p_xor_64, dvbcsa_xor_64. go. Qed.
Lemma load_le32_steps be p m : reads (p_load_le32 be p) m (dvbcsa_load_le32 be m p).
Proof. unfold p_load_le32, dvbcsa_load_le32. destruct be; go. Qed.
Lemma load_le64_steps be p m : reads (p_load_le64 be p) m (dvbcsa_load_le64 be m p).
Proof. unfold p_load_le64, dvbcsa_load_le64. destruct be; go. Qed.
Lemma store_le64_steps be p w m : acts (p_store_le64 be p w) m (dvbcsa_store_le64 be m p w).
Proof. unfold p_store_le64, dvbcsa_store_le64. destruct be; go. Qed.
Lemma block_decrypt_steps key i o m : acts (p_block_decrypt key i o) m (dvbcsa_block_decrypt m key i o).
Proof. unfold p_block_decrypt, dvbcsa_block_decrypt. go. Qed.
Lemma block_encrypt_steps key i o m : acts (p_block_encrypt key i o) m (dvbcsa_block_encrypt m key i o).
Proof. unfold p_block_encrypt, dvbcsa_block_encrypt. go. Qed.

Lemma bind_assoc {A B C} (r : res A) (f : A -> res B) (g : B -> res C) : bind (bind r f) g = bind r (fun a => bind (f a) g).
Proof. destruct r; reflexivity. Qed.
Lemma for_ext {St} n : forall i (b b' : nat -> St -> res St) s, (forall i s, b i s = b' i s) -> for_ n i b s = for_ n i b' s.
Proof. induction n as [|n IH]; intros i b b' s E; cbn [for_]; [reflexivity|]. rewrite E. destruct (b' i s); cbn [bind]; auto. Qed.

Lemma schedule_eq be m cw kk : dvbcsa_key_schedule_block be m cw kk =
  (a <- dvbcsa_load_le64 be m cw ;; k <- schedule_words a ;;
   for_ 7 0 (fun i m => for_ 8 0 (fun j m =>
     b <- schedule_byte k i j ;; store m (kk + N.of_nat (i * 8 + j)) b) m) m).
Proof.
  unfold dvbcsa_key_schedule_block, schedule_words, schedule_byte.
  destruct (dvbcsa_load_le64 be m cw) as [a| | |]; cbn [bind]; try reflexivity.
  rewrite bind_assoc. destruct (aset _ 6 (Some a)); cbn [bind]; try reflexivity.
  match goal with |- bind ?r _ = bind ?r' _ => destruct r; cbn [bind]; try reflexivity end.
  apply for_ext. intros. apply for_ext. intros. destruct (oget a1 i); reflexivity.
Qed.
Lemma key_schedule_steps be cw kk m : acts (p_key_schedule_block be cw kk) m (dvbcsa_key_schedule_block be m cw kk).
Proof. rewrite schedule_eq. unfold p_key_schedule_block. go. apply load_le64_steps. Qed.
Lemma key_set_steps be cw key m : acts (p_key_set be cw key) m (dvbcsa_key_set be m cw key).
Proof.
  unfold p_key_set, dvbcsa_key_set. apply acts_bind; [apply load_le64_steps|]. intros.
  apply acts_seq; [apply store_le64_steps|]. intros. apply acts_seq; [apply store_le64_steps|]. intros. apply key_schedule_steps.
Qed.

Lemma out_round_steps p mask s m : works (p_out_round p mask s) m pair (csa_stream_out_round p mask (s, m)).
Proof.
  unfold works, p_out_round, csa_stream_out_round. rewrite run_bind, run_lift.
  destruct (csa_stream_round s) as [s'| | |]; cbn [bind]; try reflexivity. rewrite run_bind, run_lift.
  destruct (tget _ _); cbn [bind]; try reflexivity. rewrite run_bind, (reads_rd p m). destruct (load m p); cbn [bind]; try reflexivity.
  rewrite run_bind, (acts_wr _ _ m). destruct (store m p _); reflexivity.
Qed.
Lemma acts_of_works {S X} (t : prog S) (k : S -> prog unit) m h (r : res X) (g : X -> res mem) :
  works t m h r -> (forall s m, acts (k s) m (g (h s m))) -> acts (pbind t k) m (bind r g).
Proof.
  unfold works, acts. intros <- K. rewrite run_bind. destruct (run t m) as [[s m']| | |]; cbn [bind]; [apply K|reflexivity..].
Qed.
Lemma stream_xor_steps be cw iv data len m : acts (p_stream_xor be cw iv data len) m (dvbcsa_stream_xor be m cw iv data len).
Proof.
  unfold p_stream_xor, dvbcsa_stream_xor.
  apply acts_bind; [apply load_le32_steps|]. intros A. apply acts_bind; [apply load_le32_steps|]. intros B.
  apply acts_bind; [go|]. intros s.
  apply (acts_of_works _ _ _ (fun (st : N * cs_state) m => (fst st, (snd st, m)))).
  - apply (works_while _ _ _ _ _ (fun (st : N * cs_state) m => (fst st, (snd st, m))) (0, s) m); [intros [i s'] m'; reflexivity|].
    intros [i s'] m'. cbn [fst snd].
    repeat (eapply works_bind; [apply out_round_steps|]; intros ? ?). reflexivity.
  - intros [i s'] m'. reflexivity.
Qed.

Lemma acts_while {S} n (cond : S -> bool) cond' (pb : S -> prog S) b s m :
  (forall s m, cond' (s, m) = cond s) ->
  (forall s m, works (pb s) m pair (b (s, m))) ->
  acts (_ <~ pwhile n cond pb s ;; Ret tt) m ('(_, m) <- while_ n cond' b (s, m) ;; Ok m).
Proof. intros C B. apply (acts_of_works _ _ _ pair); [|reflexivity]. apply works_while; assumption. Qed.
Lemma works_acts {S} (t : prog unit) (k : S) m r : acts t m r -> works (_ <~ t ;; Ret k) m pair (m' <- r ;; Ok (k, m')).
Proof. unfold acts, works. rewrite run_bind. intros ->. destruct r; reflexivity. Qed.
Lemma works_seq {S X} (t : prog unit) (f : unit -> prog S) m h r (g : mem -> res X) :
  acts t m r -> (forall m, works (f tt) m h (g m)) -> works (pbind t f) m h (bind r g).
Proof.
  unfold acts, works. intros H K. rewrite run_bind, H. destruct r; cbn [bind]; [apply K|reflexivity..].
Qed.

Theorem decrypt_steps be key data len m : acts (p_decrypt be key data len) m (dvbcsa_decrypt be m key data len).
Proof.
  unfold p_decrypt, dvbcsa_decrypt. destruct (len <? 8); [reflexivity|].
  apply acts_seq; [apply stream_xor_steps|]. intros m1. apply acts_seq; [apply block_decrypt_steps|]. intros m2.
  apply acts_while; [reflexivity|]. intros i m3.
  apply works_seq; [apply xor_64_steps|]. intros m4. apply works_acts, block_decrypt_steps.
Qed.
Lemma encrypt_steps be key data len m : acts (p_encrypt be key data len) m (dvbcsa_encrypt be m key data len).
Proof.
  unfold p_encrypt, dvbcsa_encrypt. destruct (len <? 8); [reflexivity|].
  apply acts_seq; [apply block_encrypt_steps|]. intros m1.
  eapply (acts_of_works _ _ _ pair).
  - apply works_while with (h := pair); [reflexivity|]. intros i m3.
    apply works_seq; [apply xor_64_steps|]. intros m4. apply works_seq; [apply block_encrypt_steps|]. intros m5.
    unfold works. rewrite run_lift. destruct (int_ok (i - 8)); reflexivity.
  - intros i m3. apply stream_xor_steps.
Qed.

(** ** Bitslice *)
Lemma word_steps c a m : reads (rd_word c a) m (load_word c m a).
Proof. unfold rd_word, load_word. destruct (word_aligned c a); [apply reads_bytes|reflexivity]. Qed.
Lemma store_word_steps c a w m : acts (wr_word c a w) m (store_word c m a w).
Proof. unfold wr_word, store_word. destruct (word_aligned c a); [apply acts_bytes|reflexivity]. Qed.

Lemma load_regs_steps {T} (o : bsops T) pk k s m : (forall n, reads (pk n) m (k n)) ->
  reads (p_stream_load_regs o pk s) m (stream_load_regs o k s).
Proof.
  intros K. unfold p_stream_load_regs, stream_load_regs. apply reads_bind.
  - apply reads_for. intros b [[[A B] [[X Y] Z]] [[D E] F]]. apply reads_bind; [|intros [A' B']; apply reads_lift].
    apply reads_for. intros i [A' B']. repeat first [apply reads_bind; [first [apply K|apply reads_lift]|intros ?]]. apply reads_ret.
  - intros [[[A B] [[X Y] Z]] [[D E] F]]. apply reads_ret.
Qed.
Lemma stream_batch_steps c s0 key pb maxlen m :
  reads (p_stream_cipher_batch c s0 key pb maxlen) m (dvbcsa_bs_stream_cipher_batch c s0 m key pb maxlen).
Proof.
  unfold p_stream_cipher_batch, dvbcsa_bs_stream_cipher_batch.
  apply reads_bind; [apply reads_lift|intros]. apply reads_bind; [apply load_regs_steps; intros; apply word_steps|intros].
  apply reads_bind; [apply reads_lift|intros]. apply reads_lift.
Qed.
Lemma key_xor_steps c pk k i r base s1 m : (forall n, reads (pk n) m (k n)) ->
  reads (p_key_xor c pk i r base s1) m (key_xor c k i r base s1).
Proof. intros K. unfold p_key_xor, key_xor. apply reads_for. intros g s. apply reads_bind; [apply K|intros]. apply reads_lift. Qed.
Lemma decrypt_register_steps c pk k r s1 s2 m : (forall n, reads (pk n) m (k n)) ->
  reads (p_decrypt_register c pk r s1 s2) m (decrypt_register c k r s1 s2).
Proof.
  intros K. unfold p_decrypt_register, decrypt_register. apply reads_bind; [|intros [[[? ?] ?] ?]; apply reads_ret].
  apply reads_for_down. intros i [[[p r'] s1'] s2']. apply reads_bind; [apply reads_lift|intros].
  apply reads_bind; [apply key_xor_steps, K|intros]. apply reads_lift.
Qed.
Lemma encrypt_register_steps c pk k r s1 s2 m : (forall n, reads (pk n) m (k n)) ->
  reads (p_encrypt_register c pk r s1 s2) m (encrypt_register c k r s1 s2).
Proof.
  intros K. unfold p_encrypt_register, encrypt_register. apply reads_bind; [|intros [[[? ?] ?] ?]; apply reads_ret].
  apply reads_for. intros i [[[p r'] s1'] s2'].
  apply reads_bind; [apply key_xor_steps, K|intros]. apply reads_lift.
Qed.
Lemma decrypt_block_steps c bj key pb off m : reads (p_decrypt_block c bj key pb off) m (decrypt_block c bj m key pb off).
Proof.
  unfold p_decrypt_block, decrypt_block. apply reads_bind; [apply reads_lift|intros].
  apply reads_bind; [apply decrypt_register_steps; intros; apply word_steps|intros]. apply reads_lift.
Qed.
Lemma encrypt_block_steps c bj key pb off m : reads (p_encrypt_block c bj key pb off) m (encrypt_block c bj m key pb off).
Proof.
  unfold p_encrypt_block, encrypt_block. apply reads_bind; [apply reads_lift|intros].
  apply reads_bind; [apply encrypt_register_steps; intros; apply word_steps|intros]. apply reads_lift.
Qed.
Lemma block_decrypt_batch_steps c bj key pb maxlen m :
  reads (p_block_decrypt_batch c bj key pb maxlen) m (dvbcsa_bs_block_decrypt_batch c bj m key pb maxlen).
Proof.
  unfold p_block_decrypt_batch, dvbcsa_bs_block_decrypt_batch. apply reads_bind; [|intros [? ?]; apply reads_ret].
  apply reads_while. intros [i pb']. apply reads_bind; [apply decrypt_block_steps|intros]. apply reads_ret.
Qed.
Lemma block_encrypt_batch_steps c bj key pb maxlen m :
  reads (p_block_encrypt_batch c bj key pb maxlen) m (dvbcsa_bs_block_encrypt_batch c bj m key pb maxlen).
Proof.
  unfold p_block_encrypt_batch, dvbcsa_bs_block_encrypt_batch. apply reads_bind; [|intros [? ?]; apply reads_ret].
  apply reads_while. intros [i pb']. apply reads_bind; [apply encrypt_block_steps|intros].
  apply reads_bind; [apply reads_lift|intros]. apply reads_ret.
Qed.
Lemma batch_data_steps c pcks i m : reads (p_batch_data c pcks i) m (batch_data c m pcks i).
Proof. unfold p_batch_data, batch_data. go. Qed.
Lemma batch_len_steps c pcks i m : reads (p_batch_len c pcks i) m (batch_len c m pcks i).
Proof. unfold p_batch_len, batch_len. go. Qed.
Lemma pkt_buf_load_steps c pcks pb m : reads (p_pkt_buf_load c pcks pb) m (dvbcsa_pkt_buf_load c m pcks pb).
Proof.
  unfold p_pkt_buf_load, dvbcsa_pkt_buf_load. generalize (S (batch_size c)), 0%nat, (len8 pb), (pdata pb).
  intros fuel. induction fuel as [|fuel IH]; intros i l8 d; cbn [p_pkt_buf_load_from pkt_buf_load_from]; [reflexivity|].
  apply reads_bind; [apply batch_data_steps|intros p]. destruct (p =? 0); [apply reads_ret|].
  apply reads_bind; [apply batch_len_steps|intros]. apply reads_bind; [apply reads_lift|intros].
  apply reads_bind; [apply batch_len_steps|intros]. apply reads_bind; [apply reads_bytes|intros].
  apply reads_bind; [apply reads_lift|intros]. apply IH.
Qed.
Lemma pkt_buf_store_from_steps c pcks fuel : forall i d m,
  acts (p_pkt_buf_store_from fuel c pcks i d) m (pkt_buf_store_from fuel c m pcks i d).
Proof.
  induction fuel as [|fuel IH]; intros i d m; cbn [p_pkt_buf_store_from pkt_buf_store_from]; [reflexivity|].
  apply acts_bind; [apply batch_data_steps|intros p]. destruct (p =? 0); [apply acts_ret|].
  apply acts_bind; [apply batch_len_steps|intros]. apply acts_bind; [apply reads_lift|intros].
  apply acts_seq; [apply acts_bytes|intros]. apply IH.
Qed.
Theorem bs_decrypt_steps c jk key pcks maxlen m :
  acts (p_bs_decrypt c jk key pcks maxlen) m (dvbcsa_bs_decrypt c jk m key pcks maxlen).
Proof.
  unfold p_bs_decrypt, dvbcsa_bs_decrypt. destruct (have_assert c && negb (maxlen_ok maxlen)); [reflexivity|].
  apply acts_bind; [apply pkt_buf_load_steps|intros]. apply acts_bind; [apply stream_batch_steps|intros].
  apply acts_bind; [apply block_decrypt_batch_steps|intros]. apply pkt_buf_store_from_steps.
Qed.
Theorem bs_encrypt_steps c jk key pcks maxlen m :
  acts (p_bs_encrypt c jk key pcks maxlen) m (dvbcsa_bs_encrypt c jk m key pcks maxlen).
Proof.
  unfold p_bs_encrypt, dvbcsa_bs_encrypt. destruct (have_assert c && negb (maxlen_ok maxlen)); [reflexivity|].
  apply acts_bind; [apply pkt_buf_load_steps|intros]. apply acts_bind; [apply block_encrypt_batch_steps|intros].
  apply acts_bind; [apply stream_batch_steps|intros]. apply pkt_buf_store_from_steps.
Qed.

(* dvbcsa_bs_key_set: the local kk[56] becomes a list *)
Definition req {A B} (R : A -> B -> Prop) (r : res A) (r' : res B) : Prop :=
  match r, r' with
  | Ok a, Ok b => R a b | UB k, UB k' => k = k' | Abort, Abort => True | Fuel, Fuel => True | _, _ => False
  end.
Lemma req_bind {A B A' B'} (R : A -> B -> Prop) (R' : A' -> B' -> Prop) r r' f f' :
  req R r r' -> (forall a b, R a b -> req R' (f a) (f' b)) -> req R' (bind r f) (bind r' f').
Proof. destruct r, r'; cbn; intros H K; try contradiction; auto. Qed.
Lemma req_for {A B} (R : nat -> A -> B -> Prop) n : forall i b b' s s',
  (forall j s s', R j s s' -> (i <= j < i + n)%nat -> req (R (S j)) (b j s) (b' j s')) -> R i s s' ->
  req (R (i + n)%nat) (for_ n i b s) (for_ n i b' s').
Proof.
  induction n as [|n IH]; intros i b b' s s' H H0; cbn [for_].
  - rewrite Nat.add_0_r. exact H0.
  - eapply req_bind; [apply H; [exact H0|lia]|]. intros t t' Ht. replace (i + S n)%nat with (S i + n)%nat by lia.
    apply IH; [intros; apply H; [assumption|lia]|exact Ht].
Qed.
Lemma with_local_load n kj m a : load (with_local n kj m) (a + n) = load m a.
Proof. unfold load, with_local. destruct (N.ltb_spec (a + n) n); [lia|]. replace (a + n - n) with a by lia. reflexivity. Qed.
Lemma with_local_bytes n kj m k : forall a, load_bytes (with_local n kj m) (a + n) k = load_bytes m a k.
Proof.
  induction k as [|k IH]; intros a; cbn [load_bytes]; [reflexivity|]. rewrite with_local_load.
  replace (a + n + 1) with (a + 1 + n) by lia. rewrite IH. reflexivity.
Qed.
Lemma with_local_le64 be n kj m a : dvbcsa_load_le64 be (with_local n kj m) (a + n) = dvbcsa_load_le64 be m a.
Proof.
  unfold dvbcsa_load_le64. rewrite with_local_bytes. destruct be; [|reflexivity].
  repeat match goal with |- context [a + n + ?q] => replace (a + n + q) with (a + q + n) by lia end.
  rewrite !with_local_load. reflexivity.
Qed.
(* [l] is in memory from 0 on *)
Definition filled (n : nat) (M : mem) (l : list N) : Prop :=
  length l = n /\ mapped M 0 56 /\ forall i, (i < n)%nat -> M (N.of_nat i) = Some (nth i l 0).
Lemma filled_load M : forall l a, (forall i, (i < length l)%nat -> M (a + N.of_nat i) = Some (nth i l 0)) -> load_bytes M a (length l) = Ok l.
Proof.
  induction l as [|b l IH]; intros a H; cbn [load_bytes length]; [reflexivity|].
  pose proof (H 0%nat ltac:(cbn; lia)) as H0. cbn [nth N.of_nat] in H0. rewrite N.add_0_r in H0. unfold load. rewrite H0. cbn [bind].
  rewrite IH; [reflexivity|]. intros i Hi. replace (a + 1 + N.of_nat i) with (a + N.of_nat (S i)) by lia. apply (H (S i)). cbn. lia.
Qed.
Lemma schedule_local be kj m cw :
  (ml <- dvbcsa_key_schedule_block be (with_local 56 kj m) (cw + 56) 0 ;; load_bytes ml 0 56) =
  (a <- dvbcsa_load_le64 be m cw ;; k <- schedule_words a ;;
   for_ 7 0 (fun i l => for_ 8 0 (fun j l => b <- schedule_byte k i j ;; Ok (l ++ [b])) l) []).
Proof.
  rewrite schedule_eq, with_local_le64. destruct (dvbcsa_load_le64 be m cw) as [a| | |]; cbn [bind]; try reflexivity.
  destruct (schedule_words a) as [k| | |]; cbn [bind]; try reflexivity.
  match goal with |- bind ?r _ = ?r' => assert (Q : req (filled 56) r r') end.
  { apply (req_for (fun i => filled (8 * i))).
    - intros i M l HF Hi. replace (8 * S i)%nat with (8 * i + 8)%nat by lia.
      apply (req_for (fun j => filled (8 * i + j)) 8 0); [|rewrite Nat.add_0_r; exact HF].
      clear M l HF. intros j M l (L & Mp & H) Hj. destruct (schedule_byte k i j) as [b| | |]; cbn [bind]; try reflexivity.
      unfold store. destruct (Mp (0 + N.of_nat (i * 8 + j)) ltac:(lia)) as [x ->]. cbn.
      split; [rewrite app_length; cbn [length]; lia|]. split.
      + intros y Hy. destruct (y =? _); [eauto|apply Mp, Hy].
      + intros t Ht. destruct (N.eqb_spec (N.of_nat t) (N.of_nat (i * 8 + j))) as [E|E].
        * rewrite app_nth2 by lia. replace (t - length l)%nat with 0%nat by lia. reflexivity.
        * rewrite app_nth1 by lia. apply H. lia.
    - split; [reflexivity|]. split; [|intros i Hi; lia]. intros y Hy. unfold with_local. destruct (N.ltb_spec y 56); [eauto|lia]. }
  match goal with |- bind ?r _ = ?r' => destruct r as [M| | |], r' as [l| | |]; cbn in Q; try contradiction; try reflexivity end.
  - destruct Q as (L & Mp & H). cbn [bind]. rewrite <- L. apply filled_load. intros i Hi. apply H. lia.
  - cbn. congruence.
Qed.
Theorem bs_key_set_steps c kj cw key m : acts (p_bs_key_set c cw key) m (dvbcsa_bs_key_set c kj m cw key).
Proof.
  unfold p_bs_key_set, dvbcsa_bs_key_set. apply acts_bind; [apply load_le64_steps|intros ck].
  apply acts_seq; [apply acts_for; intros; apply store_word_steps|intros m1].
  rewrite <- bind_assoc with (g := fun kk => for_ 56 0 _ m1), schedule_local, !bind_assoc.
  apply acts_bind; [apply load_le64_steps|intros a]. rewrite bind_assoc. apply acts_bind; [apply reads_lift|intros k].
  apply acts_bind; [apply reads_lift|intros kk]. apply acts_for. intros i m2.
  apply acts_bind; [apply reads_lift|intros x]. apply acts_bind; [apply reads_lift|intros w]. apply store_word_steps.
Qed.
