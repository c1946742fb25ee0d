(** ModelSteps.v -- the API calls of /repo/src as sequences of single byte accesses.

    The models of ModelClassical.v and ModelBs*.v describe a call by its effect on a whole memory.
    For threads that run at the same time the order of the individual accesses matters, so every
    function that goes through a pointer is written here once more as a program whose steps are
    reads and writes of one byte.  StepsFacts.v proves that running these programs without
    interference gives exactly the functions of the other files, for every memory. *)
From Verif Require Import Base Mem Tables ModelClassical ModelBsWord ModelBsTranspose ModelBsStream ModelBsBlock ModelBsAlgo.
Local Open Scope N_scope.

Inductive fault : Set := FUB (k : ub_kind) | FAbort | FFuel.
Definition throw {A} (f : fault) : res A := match f with FUB k => UB k | FAbort => Abort | FFuel => Fuel end.

(* a program: finished, reads a byte, writes a byte, or fails *)
Inductive prog (A : Type) : Type :=
| Ret (a : A)
| Rd (p : N) (k : N -> prog A)
| Wr (p v : N) (t : prog A)
| Stop (f : fault).
Arguments Ret {A} _. Arguments Rd {A} _ _. Arguments Wr {A} _ _ _. Arguments Stop {A} _.

Fixpoint pbind {A B} (t : prog A) (f : A -> prog B) : prog B :=
  match t with
  | Ret a => f a
  | Rd p k => Rd p (fun v => pbind (k v) f)
  | Wr p v t => Wr p v (pbind t f)
  | Stop e => Stop e
  end.
(* computation on locals and constant tables only *)
Definition lift {A} (r : res A) : prog A :=
  match r with Ok a => Ret a | UB k => Stop (FUB k) | Abort => Stop FAbort | Fuel => Stop FFuel end.

Declare Scope prog_scope.
Notation "x <~ e ;; k" := (pbind e (fun x => k))
  (at level 100, e at next level, right associativity) : prog_scope.
Notation "' p <~ e ;; k" := (pbind e (fun x => match x with p => k end))
  (at level 100, p pattern, e at next level, right associativity) : prog_scope.
Open Scope prog_scope.

(* the program runs alone in the memory [m] *)
Fixpoint run {A} (t : prog A) (m : mem) : res (A * mem) :=
  match t with
  | Ret a => Ok (a, m)
  | Rd p k => v <- load m p ;; run (k v) m
  | Wr p v t => m' <- store m p v ;; run t m'
  | Stop f => throw f
  end.

(** ** Loops, as in Base.v *)
Fixpoint pfor {St} (n i : nat) (body : nat -> St -> prog St) (s : St) : prog St :=
  match n with O => Ret s | S n => s' <~ body i s ;; pfor n (S i) body s' end.
Fixpoint pfor_down {St} (n : nat) (body : nat -> St -> prog St) (s : St) : prog St :=
  match n with O => Ret s | S n => s' <~ body n s ;; pfor_down n body s' end.
Fixpoint pwhile {St} (fuel : nat) (cond : St -> bool) (body : St -> prog St) (s : St) : prog St :=
  if cond s then
    match fuel with O => Stop FFuel | S f => s' <~ body s ;; pwhile f cond body s' end
  else Ret s.

(** ** Accesses *)
Definition rd (a : N) : prog N := Rd a Ret.
Definition wr (a v : N) : prog unit := Wr a v (Ret tt).
Fixpoint rd_bytes (a : N) (n : nat) : prog (list N) :=
  match n with O => Ret [] | S n => b <~ rd a ;; r <~ rd_bytes (a + 1) n ;; Ret (b :: r) end.
Fixpoint wr_bytes (a : N) (bs : list N) : prog unit :=
  match bs with [] => Ret tt | b :: r => _ <~ wr a b ;; wr_bytes (a + 1) r end.

(** ** dvbcsa_pv.h *)
(* dvbcsa_pv.h:99-107 *)
Definition p_xor_64 (be : bool) (b a : N) : prog unit :=
  ia <~ rd_bytes a 8 ;;
  ib <~ rd_bytes b 8 ;;
  wr_bytes b (native_bytes be 8 (N.lxor (native_val be ib) (native_val be ia))).
(* dvbcsa_pv.h:109-122 *)
Definition p_load_le32 (be : bool) (p : N) : prog N :=
  if be then
    p3 <~ rd (p + 3) ;; p2 <~ rd (p + 2) ;; p1 <~ rd (p + 1) ;; p0 <~ rd p ;;
    Ret (N.lor (N.lor (N.lor (u32 (N.shiftl p3 24)) (u32 (N.shiftl p2 16)))
                      (u32 (N.shiftl p1 8))) p0)
  else
    i <~ rd_bytes p 4 ;; Ret (native_val false i).
(* dvbcsa_pv.h:124-142 *)
Definition p_load_le64 (be : bool) (p : N) : prog N :=
  if be then
    p7 <~ rd (p + 7) ;; p6 <~ rd (p + 6) ;; p5 <~ rd (p + 5) ;; p4 <~ rd (p + 4) ;;
    p3 <~ rd (p + 3) ;; p2 <~ rd (p + 2) ;; p1 <~ rd (p + 1) ;; p0 <~ rd p ;;
    Ret (N.lor (N.lor (N.lor (N.lor (N.lor (N.lor (N.lor
          (u64 (N.shiftl p7 56)) (u64 (N.shiftl p6 48))) (u64 (N.shiftl p5 40)))
          (u64 (N.shiftl p4 32))) (u64 (N.shiftl p3 24))) (u64 (N.shiftl p2 16)))
          (u64 (N.shiftl p1 8))) p0)
  else
    i <~ rd_bytes p 8 ;; Ret (native_val false i).
(* dvbcsa_pv.h:144-159 *)
Definition p_store_le64 (be : bool) (p w : N) : prog unit :=
  if be then
    _ <~ wr (p + 7) (u8 (N.shiftr w 56)) ;; _ <~ wr (p + 6) (u8 (N.shiftr w 48)) ;;
    _ <~ wr (p + 5) (u8 (N.shiftr w 40)) ;; _ <~ wr (p + 4) (u8 (N.shiftr w 32)) ;;
    _ <~ wr (p + 3) (u8 (N.shiftr w 24)) ;; _ <~ wr (p + 2) (u8 (N.shiftr w 16)) ;;
    _ <~ wr (p + 1) (u8 (N.shiftr w 8)) ;; wr p (u8 w)
  else
    wr_bytes p (native_bytes false 8 w).

(** ** dvbcsa_block.c, dvbcsa_key.c *)
(* dvbcsa_block.c:77-105 *)
Definition p_block_decrypt (key inp out : N) : prog unit :=
  W <~ rd_bytes inp 8 ;;
  W <~ pfor_down 56 (fun i W => k <~ rd (key + N.of_nat i) ;; lift (block_decrypt_round k W)) W ;;
  wr_bytes out W.
(* dvbcsa_block.c:107-137 *)
Definition p_block_encrypt (key inp out : N) : prog unit :=
  W <~ rd_bytes inp 8 ;;
  W <~ pfor 56 0 (fun i W => k <~ rd (key + N.of_nat i) ;; lift (block_encrypt_round k W)) W ;;
  wr_bytes out W.
(* dvbcsa_key.c:577-581: the local k[7] *)
Definition schedule_words (a : N) : res (list (option N)) :=
  k <- aset (repeat None 7) 6 (Some a) ;;
  for_down 6 (fun j k =>
    x <- oget k (S j) ;; y <- dvbcsa_key_permute_block x ;; aset k j (Some y)) k.
Definition schedule_byte (k : list (option N)) (i j : nat) : res N :=
  x <- oget k i ;; Ok (u8 (N.lxor (N.shiftr x (N.of_nat (j * 8))) (N.of_nat i))).
(* dvbcsa_key.c:573-586 *)
Definition p_key_schedule_block (be : bool) (cw kk : N) : prog unit :=
  a <~ p_load_le64 be cw ;;
  k <~ lift (schedule_words a) ;;
  pfor 7 0 (fun i _ => pfor 8 0 (fun j _ =>
    b <~ lift (schedule_byte k i j) ;; wr (kk + N.of_nat (i * 8 + j)) b) tt) tt.
(* dvbcsa_block.c:27-35 *)
Definition p_key_set (be : bool) (cw key : N) : prog unit :=
  a <~ p_load_le64 be cw ;;
  _ <~ p_store_le64 be key a ;;
  _ <~ p_store_le64 be (key + 8)
         (N.lor (N.shiftr (N.land a 0xf0f0f0f0f0f0f0f0) 4)
                (u64 (N.shiftl (N.land a 0x0f0f0f0f0f0f0f0f) 4))) ;;
  p_key_schedule_block be cw (key + 16).

(** ** dvbcsa_stream.c *)
(* dvbcsa_stream.c:333-334 *)
Definition p_out_round (p mask : N) (s : cs_state) : prog cs_state :=
  s <~ lift (csa_stream_round s) ;;
  o <~ lift (tget csa_stream_out (N.land (cs_cfed s) 0xf)) ;;
  d <~ rd p ;;
  _ <~ wr p (N.lxor d (N.land o mask)) ;;
  Ret s.
(* dvbcsa_stream.c:305-345 *)
Definition p_stream_xor (be : bool) (cw iv data len : N) : prog unit :=
  A <~ p_load_le32 be cw ;;
  B <~ p_load_le32 be (cw + 4) ;;
  s <~ pfor 8 0 (fun i s =>
         b <~ rd (iv + N.of_nat i) ;;
         s <~ lift (csa_stream_init_round b s) ;;
         s <~ lift (csa_stream_init_round (swap_nbl b) s) ;;
         s <~ lift (csa_stream_init_round b s) ;;
         lift (csa_stream_init_round (swap_nbl b) s)) (mk_cs A B 0 0) ;;
  _ <~ pwhile (N.to_nat len) (fun '(i, _) => i <? len) (fun '(i, s) =>
         s <~ p_out_round (data + i) 0xc0 s ;;
         s <~ p_out_round (data + i) 0x30 s ;;
         s <~ p_out_round (data + i) 0x0c s ;;
         s <~ p_out_round (data + i) 0x03 s ;;
         Ret (u32 (i + 1), s)) (0, s) ;;
  Ret tt.

(** ** dvbcsa_algo.c *)
(* dvbcsa_algo.c:27-48 *)
Definition p_decrypt (be : bool) (key data len : N) : prog unit :=
  let alen := N.land len 0xfffffff8 in
  if len <? 8 then Ret tt
  else
    _ <~ p_stream_xor be (key + 8) data (data + 8) (len - 8) ;;
    _ <~ p_block_decrypt (key + 16) data data ;;
    _ <~ pwhile (N.to_nat len) (fun i => i <? alen) (fun i =>
        _ <~ p_xor_64 be (data + i - 8) (data + i) ;;
        _ <~ p_block_decrypt (key + 16) (data + i) (data + i) ;;
        Ret (u32 (i + 8))) 8 ;;
    Ret tt.
(* dvbcsa_algo.c:50-71 *)
Definition p_encrypt (be : bool) (key data len : N) : prog unit :=
  let alen := N.land len 0xfffffff8 in
  if len <? 8 then Ret tt
  else
    _ <~ p_block_encrypt (key + 16) (data + alen - 8) (data + alen - 8) ;;
    _ <~ pwhile (N.to_nat len) (fun i => (0 <=? i)%Z) (fun i =>
        _ <~ p_xor_64 be (padd data i) (padd data (i + 8)) ;;
        _ <~ p_block_encrypt (key + 16) (padd data i) (padd data i) ;;
        lift (int_ok (i - 8))) (to_int (u32 (alen + 2 ^ 32 - 16))) ;;
    p_stream_xor be (key + 8) data (data + 8) (len - 8).

(** ** Bitslice: key context *)
Definition rd_word (c : build) (a : N) : prog word :=
  if word_aligned c a then rd_bytes a (word_bytes c) else Stop (FUB Misaligned).
Definition wr_word (c : build) (a : N) (w : word) : prog unit :=
  if word_aligned c a then wr_bytes a w else Stop (FUB Misaligned).
(* bs_key.c:29-65; the local kk[56] is not visible to other threads: only the read of the control
   word and the stores to the context are steps *)
Definition p_bs_key_set (c : build) (cw key : N) : prog unit :=
  ck <~ p_load_le64 (big_endian c) cw ;;
  _ <~ pfor 64 0 (fun i _ =>
         wr_word c (key + N.of_nat ((56 + i) * word_bytes c))
           (if N.testbit ck (N.lxor (N.of_nat i) 4) then BS_VAL c 1 255 else BS_VAL c 1 0)) tt ;;
  a <~ p_load_le64 (big_endian c) cw ;;
  k <~ lift (schedule_words a) ;;
  kk <~ lift (for_ 7 0 (fun i l => for_ 8 0 (fun j l => b <- schedule_byte k i j ;; Ok (l ++ [b])) l) []) ;;
  pfor 56 0 (fun i _ =>
    k <~ lift (aget kk i) ;;
    w <~ lift (block_key_word c k) ;;
    wr_word c (key + N.of_nat (i * word_bytes c)) w) tt.

(** ** Bitslice: stream and block layers *)
(* dvbcsa_bs_stream.c:47-71 *)
Definition p_stream_load_regs {T} (o : bsops T) (key : nat -> prog T) (s : regs T) : prog (regs T) :=
  let O := op_00 o in
  '(A, B, (X, Y, Z), (D, E, F)) <~
    pfor 4 0 (fun b '(A, B, (X, Y, Z), (D, E, F)) =>
      '(A, B) <~ pfor 8 0 (fun i '(A, B) =>
         k <~ key (b + i * 4)%nat ;; A <~ lift (aset A (4 * (32 + i) + b) k) ;;
         k <~ key (b + i * 4 + 32)%nat ;; B <~ lift (aset B (4 * (32 + i) + b) k) ;;
         Ret (A, B)) (A, B) ;;
      lift (
      A <- aset A (4 * (32 + 8) + b) O ;; A <- aset A (4 * (32 + 9) + b) O ;;
      B <- aset B (4 * (32 + 8) + b) O ;; B <- aset B (4 * (32 + 9) + b) O ;;
      X <- aset X b O ;; Y <- aset Y b O ;; Z <- aset Z b O ;;
      D <- aset D b O ;; E <- aset E b O ;; F <- aset F b O ;;
      Ok (A, B, (X, Y, Z), (D, E, F))))
    (rgA s, rgB s, (rgX s, rgY s, rgZ s), (rgD s, rgE s, rgF s)) ;;
  Ret (mk_regs A B X Y Z D E F (rgsb s) O O O).
Definition p_key_block_word (c : build) (key : N) (i : nat) : prog word :=
  rd_word c (key + N.of_nat (i * word_bytes c)).
Definition p_key_stream_word (c : build) (key : N) (i : nat) : prog word :=
  rd_word c (key + N.of_nat ((56 + i) * word_bytes c)).
(* dvbcsa_bs_stream.c:35-86 *)
Definition p_stream_cipher_batch (c : build) (s0 : regs word) (key : N) (pb : pkt_buf) (maxlen : N) : prog pkt_buf :=
  sb <~ lift (dvbcsa_bs_stream_transpose_in c pb (rgsb s0)) ;;
  s <~ p_stream_load_regs (word_ops c) (p_key_stream_word c key) (set_sb s0 sb) ;;
  s <~ lift (stream_cipher_kernel (word_ops c) true s) ;;
  lift (
  '(_, (_, pb)) <- while_ (N.to_nat maxlen) (fun '(h, _) => (h <? maxlen)%N) (fun '(h, (s, pb)) =>
      s <- stream_cipher_kernel (word_ops c) false s ;;
      '(pb, sb) <- dvbcsa_bs_stream_transpose_out c pb h (rgsb s) ;;
      Ok (u32 (h + 8), (set_sb s sb, pb))) (8%N, (s, pb)) ;;
  Ok pb).

(* bs_block.c:234-235, 323-324 *)
Definition p_key_xor (c : build) (k : nat -> prog word) (i : nat) (r : list word) (base : nat)
  (s1 : list word) : prog (list word) :=
  pfor 8 0 (fun g s1 =>
    kw <~ k i ;; lift (x <- aget r (base + g) ;; aset s1 g (BS_XOR kw x))) s1.
(* bs_block.c:214-281 *)
Definition p_decrypt_register (c : build) (k : nat -> prog word) (r s1 s2 : list word) : prog (list word) :=
  '(_, r, _, _) <~ pfor_down 56 (fun i '(p, r, s1, s2) =>
    let r6 := (p + 8 * 6)%nat in
    p <~ lift (psub p 8) ;;
    s1 <~ p_key_xor c k i r r6 s1 ;;
    lift (
    s2 <- block_sbox_stage c s1 s2 ;;
    r <- for_ 8 0 (fun g r =>
      '(sbox_out, perm_out) <- block_perm_stage c s2 g ;;
      w <- aget r (p + 8 * 8 + g) ;;
      tmp1 <- aget r (p + 8 * 2 + g) ;;
      tmp2 <- aget r (p + 8 * 3 + g) ;;
      tmp3 <- aget r (p + 8 * 4 + g) ;;
      let w := BS_XOR w sbox_out in
      tmp4 <- aget r (p + 8 * 6 + g) ;;
      let tmp1 := BS_XOR tmp1 w in
      let tmp2 := BS_XOR tmp2 w in
      let tmp3 := BS_XOR tmp3 w in
      r <- aset r (p + 8 * 0 + g) w ;;
      r <- aset r (p + 8 * 2 + g) tmp1 ;;
      let tmp4 := BS_XOR tmp4 perm_out in
      r <- aset r (p + 8 * 3 + g) tmp2 ;;
      r <- aset r (p + 8 * 4 + g) tmp3 ;;
      aset r (p + 8 * 6 + g) tmp4) r ;;
    Ok (p, r, s1, s2))) ((8 * 56)%nat, r, s1, s2) ;;
  Ret r.
(* bs_block.c:305-370 *)
Definition p_encrypt_register (c : build) (k : nat -> prog word) (r s1 s2 : list word) : prog (list word) :=
  '(_, r, _, _) <~ pfor 56 0 (fun i '(p, r, s1, s2) =>
    let r7 := (p + 8 * 7)%nat in
    let p := (p + 8)%nat in
    s1 <~ p_key_xor c k i r r7 s1 ;;
    lift (
    s2 <- block_sbox_stage c s1 s2 ;;
    r <- for_ 8 0 (fun g r =>
      '(sbox_out, perm_out) <- block_perm_stage c s2 g ;;
      pm <- psub (p + g) 8 ;;
      w <- aget r pm ;;
      tmp1 <- aget r (p + 8 * 1 + g) ;;
      tmp2 <- aget r (p + 8 * 2 + g) ;;
      tmp3 <- aget r (p + 8 * 3 + g) ;;
      let sbox_out := BS_XOR sbox_out w in
      tmp4 <- aget r (p + 8 * 5 + g) ;;
      let tmp1 := BS_XOR tmp1 w in
      let tmp2 := BS_XOR tmp2 w in
      let tmp3 := BS_XOR tmp3 w in
      r <- aset r (p + 8 * 7 + g) sbox_out ;;
      r <- aset r (p + 8 * 1 + g) tmp1 ;;
      let tmp4 := BS_XOR tmp4 perm_out in
      r <- aset r (p + 8 * 2 + g) tmp2 ;;
      r <- aset r (p + 8 * 3 + g) tmp3 ;;
      aset r (p + 8 * 5 + g) tmp4) r ;;
    Ok (p, r, s1, s2))) (0%nat, r, s1, s2) ;;
  Ret r.
(* bs_block.c:283-293 *)
Definition p_decrypt_block (c : build) (bj : block_junk) (key : N) (pb : pkt_buf) (offset : N) : prog pkt_buf :=
  r <~ lift (in_window (8 * 56) (bj_r bj) (fun w => dvbcsa_bs_block_transpose_in c w pb offset)) ;;
  r <~ p_decrypt_register c (p_key_block_word c key) r (bj_s1 bj) (bj_s2 bj) ;;
  lift (dvbcsa_bs_block_transpose_out_and_xor c (firstn 64 r) pb offset false).
(* bs_block.c:372-382 *)
Definition p_encrypt_block (c : build) (bj : block_junk) (key : N) (pb : pkt_buf) (offset : N) : prog pkt_buf :=
  r <~ lift (in_window 0 (bj_r bj) (fun w => dvbcsa_bs_block_transpose_in c w pb offset)) ;;
  r <~ p_encrypt_register c (p_key_block_word c key) r (bj_s1 bj) (bj_s2 bj) ;;
  lift (dvbcsa_bs_block_transpose_out_and_xor c (firstn 64 (skipn (8 * 56) r)) pb offset true).
(* bs_block.c:295-303 *)
Definition p_block_decrypt_batch (c : build) (bj : N -> block_junk) (key : N) (pb : pkt_buf) (maxlen : N) : prog pkt_buf :=
  '(_, pb) <~ pwhile (N.to_nat maxlen) (fun '(i, _) => (i <? maxlen)%N) (fun '(i, pb) =>
      pb <~ p_decrypt_block c (bj i) key pb i ;;
      Ret (u32 (i + 8), pb)) (0%N, pb) ;;
  Ret pb.
(* bs_block.c:384-392 *)
Definition p_block_encrypt_batch (c : build) (bj : N -> block_junk) (key : N) (pb : pkt_buf) (maxlen : N) : prog pkt_buf :=
  '(_, pb) <~ pwhile (N.to_nat maxlen) (fun '(i, _) => (0 <=? i)%Z) (fun '(i, pb) =>
      pb <~ p_encrypt_block c (bj (Z.to_N i)) key pb (Z.to_N i) ;;
      i <~ lift (int_ok (i - 8)) ;;
      Ret (i, pb)) (to_int (u32 (maxlen + 2 ^ 32 - 8)), pb) ;;
  Ret pb.

(** ** dvbcsa_bs_algo.c *)
Definition p_batch_data (c : build) (pcks : N) (i : nat) : prog N :=
  b <~ rd_bytes (pcks + N.of_nat (i * entry_bytes c)) (ptr_bytes c) ;;
  Ret (native_val (big_endian c) b).
Definition p_batch_len (c : build) (pcks : N) (i : nat) : prog N :=
  b <~ rd_bytes (pcks + N.of_nat (i * entry_bytes c + ptr_bytes c)) 4 ;;
  Ret (native_val (big_endian c) b).
(* bs_algo.c:41-56 *)
Fixpoint p_pkt_buf_load_from (fuel : nat) (c : build) (pcks : N) (i : nat) (l8 data : list N) : prog pkt_buf :=
  match fuel with
  | O => Stop FFuel
  | S fuel =>
      p <~ p_batch_data c pcks i ;;
      if p =? 0 then Ret (mk_pb i l8 data)
      else
        len <~ p_batch_len c pcks i ;;
        l8 <~ lift (aset l8 i (N.land len 0xfffffff8)) ;;
        len <~ p_batch_len c pcks i ;;
        bs <~ rd_bytes p (N.to_nat len) ;;
        data <~ lift (bset data (i * slot) bs) ;;
        p_pkt_buf_load_from fuel c pcks (S i) l8 data
  end.
Definition p_pkt_buf_load (c : build) (pcks : N) (pb : pkt_buf) : prog pkt_buf :=
  p_pkt_buf_load_from (S (batch_size c)) c pcks 0 (len8 pb) (pdata pb).
(* bs_algo.c:58-66 *)
Fixpoint p_pkt_buf_store_from (fuel : nat) (c : build) (pcks : N) (i : nat) (data : list N) : prog unit :=
  match fuel with
  | O => Stop FFuel
  | S fuel =>
      p <~ p_batch_data c pcks i ;;
      if p =? 0 then Ret tt
      else
        len <~ p_batch_len c pcks i ;;
        bs <~ lift (bget data (i * slot) (N.to_nat len)) ;;
        _ <~ wr_bytes p bs ;;
        p_pkt_buf_store_from fuel c pcks (S i) data
  end.
Definition p_pkt_buf_store (c : build) (pcks : N) (pb : pkt_buf) : prog unit :=
  p_pkt_buf_store_from (S (batch_size c)) c pcks 0 (pdata pb).
(* bs_algo.c:68-91 *)
Definition p_bs_decrypt (c : build) (jk : junk) (key pcks maxlen : N) : prog unit :=
  if have_assert c && negb (maxlen_ok maxlen) then Stop FAbort
  else
    pb <~ p_pkt_buf_load c pcks (mk_pb 0 (jk_len8 jk) (jk_data jk)) ;;
    pb <~ p_stream_cipher_batch c (jk_regs jk) key pb maxlen ;;
    pb <~ p_block_decrypt_batch c (jk_block jk) key pb maxlen ;;
    p_pkt_buf_store c pcks pb.
(* bs_algo.c:93-116 *)
Definition p_bs_encrypt (c : build) (jk : junk) (key pcks maxlen : N) : prog unit :=
  if have_assert c && negb (maxlen_ok maxlen) then Stop FAbort
  else
    pb <~ p_pkt_buf_load c pcks (mk_pb 0 (jk_len8 jk) (jk_data jk)) ;;
    pb <~ p_block_encrypt_batch c (jk_block jk) key pb maxlen ;;
    pb <~ p_stream_cipher_batch c (jk_regs jk) key pb maxlen ;;
    p_pkt_buf_store c pcks pb.
