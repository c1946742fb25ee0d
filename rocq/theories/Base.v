(** Base.v -- vocabulary of the model: outcomes with explicit undefined behaviour,
    checked arrays, byte-addressed memory, loops, and a small wp logic. *)
From Coq Require Export List Arith NArith ZArith Lia Bool.
Export ListNotations.

(** ** Outcomes of a piece of C code *)
Inductive ub_kind : Set :=
| OutOfBounds      (* access outside a local array or a constant table *)
| BadAddress       (* access to memory that is not part of any live object *)
| Uninitialised    (* read of an uninitialised local *)
| SignedOverflow   (* signed integer overflow *)
| Misaligned       (* access through an insufficiently aligned pointer *)
| InvalidFree.     (* free of something that this deallocator does not own *)

Inductive res (A : Type) : Type :=
| Ok (a : A)
| UB (k : ub_kind)  (* undefined behaviour *)
| Abort             (* failed assert *)
| Fuel.             (* loop did not finish within the fuel given *)
Arguments Ok {A} _. Arguments UB {A} _. Arguments Abort {A}. Arguments Fuel {A}.

Definition bind {A B} (r : res A) (f : A -> res B) : res B :=
  match r with Ok a => f a | UB k => UB k | Abort => Abort | Fuel => Fuel end.

Declare Scope res_scope.
Notation "x <- e ;; k" := (bind e (fun x => k))
  (at level 100, e at next level, right associativity) : res_scope.
Notation "' p <- e ;; k" := (bind e (fun x => match x with p => k end))
  (at level 100, p pattern, e at next level, right associativity) : res_scope.
Open Scope res_scope.

(** ** Arrays: reading or writing outside [0, length) is undefined *)
Definition aget {A} (l : list A) (i : nat) : res A :=
  match nth_error l i with Some x => Ok x | None => UB OutOfBounds end.

Fixpoint upd {A} (l : list A) (i : nat) (v : A) : list A :=
  match l, i with
  | [], _ => []
  | _ :: r, O => v :: r
  | x :: r, S i => x :: upd r i v
  end.

Definition aset {A} (l : list A) (i : nat) (v : A) : res (list A) :=
  if i <? length l then Ok (upd l i v) else UB OutOfBounds.

(* constant-table lookup with an index computed in unsigned arithmetic *)
Definition tget {A} (l : list A) (i : N) : res A := aget l (N.to_nat i).

(* local array whose cells may be uninitialised *)
Definition oget {A} (l : list (option A)) (i : nat) : res A :=
  match aget l i with
  | Ok (Some x) => Ok x
  | Ok None => UB Uninitialised
  | UB k => UB k | Abort => Abort | Fuel => Fuel
  end.

(** ** Memory: a byte for every address of a live object *)
Definition mem := N -> option N.

Definition load (m : mem) (a : N) : res N :=
  match m a with Some b => Ok b | None => UB BadAddress end.

Definition store (m : mem) (a v : N) : res mem :=
  match m a with
  | Some _ => Ok (fun x => if (x =? a)%N then Some v else m x)
  | None => UB BadAddress
  end.

Fixpoint load_bytes (m : mem) (a : N) (n : nat) : res (list N) :=
  match n with
  | O => Ok []
  | S n => b <- load m a ;; r <- load_bytes m (a + 1)%N n ;; Ok (b :: r)
  end.

Fixpoint store_bytes (m : mem) (a : N) (bs : list N) : res mem :=
  match bs with
  | [] => Ok m
  | b :: r => m' <- store m a b ;; store_bytes m' (a + 1)%N r
  end.

(** ** Loops *)
(* for (i = i0; i < i0 + n; i++) *)
Fixpoint for_ {St} (n i : nat) (body : nat -> St -> res St) (s : St) : res St :=
  match n with
  | O => Ok s
  | S n => s' <- body i s ;; for_ n (S i) body s'
  end.

(* for (i = n - 1; i >= 0; i--) *)
Fixpoint for_down {St} (n : nat) (body : nat -> St -> res St) (s : St) : res St :=
  match n with
  | O => Ok s
  | S n => s' <- body n s ;; for_down n body s'
  end.

(* while (cond) body *)
Fixpoint while_ {St} (fuel : nat) (cond : St -> bool) (body : St -> res St) (s : St) : res St :=
  if cond s then
    match fuel with
    | O => Fuel
    | S f => s' <- body s ;; while_ f cond body s'
    end
  else Ok s.

(** ** Machine integers *)
Definition u8  (x : N) : N := (x mod 2 ^ 8)%N.
Definition u32 (x : N) : N := (x mod 2 ^ 32)%N.
Definition u64 (x : N) : N := (x mod 2 ^ 64)%N.
(* conversion of an unsigned int to int (gcc/clang: modulo 2^32) *)
Definition to_int (x : N) : Z :=
  if (x <? 2 ^ 31)%N then Z.of_N x else (Z.of_N x - 2 ^ 32)%Z.

(* signed int arithmetic: overflow is undefined *)
Definition int_ok (x : Z) : res Z :=
  if ((- 2 ^ 31 <=? x) && (x <? 2 ^ 31))%Z then Ok x else UB SignedOverflow.

(** little-endian and native byte strings *)
Fixpoint le_val (bs : list N) : N :=
  match bs with [] => 0 | b :: r => b + 256 * le_val r end%N.
Fixpoint le_bytes (n : nat) (v : N) : list N :=
  match n with O => [] | S n => (v mod 256) :: le_bytes n (v / 256) end%N.
(* value of an unsigned integer object occupying the bytes [bs] (be: big-endian target) *)
Definition native_val (be : bool) (bs : list N) : N :=
  if be then le_val (rev bs) else le_val bs.
Definition native_bytes (be : bool) (n : nat) (v : N) : list N :=
  if be then rev (le_bytes n v) else le_bytes n v.

Definition is_byte (b : N) : Prop := (b < 256)%N.

(** ** Weakest preconditions (total: the outcome must be [Ok]) *)
Definition wp {A} (r : res A) (Q : A -> Prop) : Prop :=
  match r with Ok a => Q a | _ => False end.

Lemma wp_ok {A} (r : res A) Q : wp r Q <-> exists a, r = Ok a /\ Q a.
Proof.
  destruct r; simpl; split; intros H; try contradiction; eauto;
    destruct H as (x & E & H); try discriminate; injection E as ->; exact H.
Qed.

Lemma wp_ret {A} (a : A) (Q : A -> Prop) : Q a -> wp (Ok a) Q.
Proof. exact (fun H => H). Qed.

Lemma wp_bind {A B} (r : res A) (f : A -> res B) Q :
  wp r (fun a => wp (f a) Q) -> wp (bind r f) Q.
Proof. destruct r; simpl; auto. Qed.

Lemma wp_mono {A} (r : res A) (P Q : A -> Prop) :
  wp r P -> (forall a, P a -> Q a) -> wp r Q.
Proof. destruct r; simpl; auto. Qed.

Lemma wp_aget {A} (l : list A) i x (Q : A -> Prop) :
  nth_error l i = Some x -> Q x -> wp (aget l i) Q.
Proof. unfold aget; intros ->; exact (fun H => H). Qed.

Lemma aget_ok {A} (l : list A) i d : i < length l -> aget l i = Ok (nth i l d).
Proof.
  intros H; unfold aget. rewrite (nth_error_nth' l d H). reflexivity.
Qed.

Lemma aset_ok {A} (l : list A) i v : i < length l -> aset l i v = Ok (upd l i v).
Proof. intros H; unfold aset. destruct (Nat.ltb_spec i (length l)); [reflexivity|lia]. Qed.

Lemma wp_for {St} (I : nat -> St -> Prop) n : forall i body (s : St),
  I i s ->
  (forall j s, i <= j < i + n -> I j s -> wp (body j s) (I (S j))) ->
  wp (for_ n i body s) (I (i + n)).
Proof.
  induction n as [|n IH]; intros i body s H Hb; simpl.
  - replace (i + 0) with i by lia; exact H.
  - apply wp_bind. eapply wp_mono; [apply Hb; [lia|exact H]|].
    intros s' H'. replace (i + S n) with (S i + n) by lia.
    apply IH; [exact H'|]. intros j s2 Hj H2; apply Hb; [lia|exact H2].
Qed.

Lemma wp_for_down {St} (I : nat -> St -> Prop) n : forall body (s : St),
  I n s ->
  (forall j s, j < n -> I (S j) s -> wp (body j s) (I j)) ->
  wp (for_down n body s) (I 0).
Proof.
  induction n as [|n IH]; intros body s H Hb; simpl; [exact H|].
  apply wp_bind. eapply wp_mono; [apply Hb; [lia|exact H]|].
  intros s' H'. apply IH; [exact H'|]. intros j s2 Hj H2; apply Hb; [lia|exact H2].
Qed.

(* [mu] is a decreasing measure bounded by the fuel *)
Lemma wp_while {St} (I : St -> Prop) (mu : St -> nat) cond body : forall fuel (s : St),
  mu s <= fuel -> I s ->
  (forall s, I s -> cond s = true -> 0 < mu s /\ wp (body s) (fun s' => I s' /\ mu s' < mu s)) ->
  wp (while_ fuel cond body s) (fun s => I s /\ cond s = false).
Proof.
  induction fuel as [|f IH]; intros s Hmu HI Hb; simpl.
  - destruct (cond s) eqn:E; [|split; assumption].
    destruct (Hb s HI E) as [H _]; lia.
  - destruct (cond s) eqn:E; [|split; assumption].
    destruct (Hb s HI E) as [H0 H1]. apply wp_bind. eapply wp_mono; [exact H1|].
    intros s' [HI' Hm]. apply IH; [lia|exact HI'|exact Hb].
Qed.

(** ** Array lemmas *)
Lemma upd_length {A} (l : list A) i v : length (upd l i v) = length l.
Proof. revert i; induction l as [|x l IH]; intros [|i]; simpl; auto. Qed.

Lemma nth_upd {A} (l : list A) i j v d :
  nth j (upd l i v) d = if (j =? i) && (i <? length l) then v else nth j l d.
Proof.
  revert i j; induction l as [|x l IH]; intros [|i] [|j]; simpl; auto.
  - rewrite andb_false_r; reflexivity.
  - rewrite IH. reflexivity.
Qed.

Lemma nth_upd_same {A} (l : list A) i v d : i < length l -> nth i (upd l i v) d = v.
Proof.
  intros H; rewrite nth_upd, Nat.eqb_refl. destruct (Nat.ltb_spec i (length l)); [reflexivity|lia].
Qed.

Lemma nth_upd_other {A} (l : list A) i j v d : j <> i -> nth j (upd l i v) d = nth j l d.
Proof.
  intros H; rewrite nth_upd. destruct (Nat.eqb_spec j i); [contradiction|reflexivity].
Qed.

Lemma Forall_upd {A} (P : A -> Prop) l i v : Forall P l -> P v -> Forall P (upd l i v).
Proof.
  intros H Hv; revert i; induction H as [|x l Hx H IH]; intros [|i]; simpl; constructor; auto.
Qed.

Lemma nth_error_upd {A} (l : list A) i j v :
  nth_error (upd l i v) j = if (j =? i) && (i <? length l) then Some v else nth_error l j.
Proof.
  revert i j; induction l as [|x l IH]; intros [|i] [|j]; simpl; auto.
  - rewrite andb_false_r; reflexivity.
  - apply IH.
Qed.
