(** ModelBsStream.v -- dvbcsa_bs_stream_kernel.h, dvbcsa_bs_stream_kernel.inc and
    dvbcsa_bs_stream.c of /repo/src.

    The kernel uses only BS_AND, BS_OR, BS_XOR, BS_NOT and constants, so it is written over an
    arbitrary type T with such operations; the code is the instance T = word. *)
From Verif Require Import Base Mem ModelBsWord ModelBsTranspose.
Local Open Scope nat_scope.

Record bsops (T : Type) := mk_ops {
  op_and : T -> T -> T; op_or : T -> T -> T; op_xor : T -> T -> T; op_not : T -> T;
  op_00 : T; op_ff : T }.
Arguments op_and {T} _. Arguments op_or {T} _. Arguments op_xor {T} _.
Arguments op_not {T} _. Arguments op_00 {T} _. Arguments op_ff {T} _.

(* dvbcsa_bs_stream_kernel.h:6-19 struct dvbcsa_bs_stream_regs_s; A[42][4] and B[42][4] are
   flattened: element [i][b] is number 4*i+b *)
Record regs (T : Type) := mk_regs {
  rgA : list T; rgB : list T;
  rgX : list T; rgY : list T; rgZ : list T; rgD : list T; rgE : list T; rgF : list T;
  rgsb : list T; rgp : T; rgq : T; rgr : T }.
Arguments mk_regs {T}.
Arguments rgA {T} _. Arguments rgB {T} _. Arguments rgX {T} _. Arguments rgY {T} _.
Arguments rgZ {T} _. Arguments rgD {T} _. Arguments rgE {T} _. Arguments rgF {T} _.
Arguments rgsb {T} _. Arguments rgp {T} _. Arguments rgq {T} _. Arguments rgr {T} _.

Section Kernel.
  Context {T : Type} (o : bsops T).
  Notation AND := (op_and o). Notation OR := (op_or o). Notation XOR := (op_xor o).
  Notation NOT := (op_not o). Notation FF := (op_ff o).

  (* kernel.inc:3-18 dvbcsa_bs_stream_sbox1: ( *sa, *sb ) *)
  Definition bs_sbox1 (fa fb fc fd fe : T) : T * T :=
    let tmp0 := XOR fa (XOR fb (NOT (OR (XOR (OR fa fb) fc) (XOR fc fd)))) in
    let tmp1 := XOR (OR fa fb) (NOT (AND fc (OR fa (XOR fb fd)))) in
    let tmp2 := XOR fa (XOR (AND fb fd) (OR (AND fa fd) fc)) in
    let tmp3 := XOR (AND fa fc) (XOR fa (OR (AND fa fb) fd)) in
    (XOR tmp0 (AND fe tmp1), XOR tmp2 (AND fe tmp3)).

  (* kernel.inc:20-35 dvbcsa_bs_stream_sbox2 *)
  Definition bs_sbox2 (fa fb fc fd fe : T) : T * T :=
    let tmp0 := XOR fa (XOR (AND fb (OR fc fd)) (XOR fc (NOT fd))) in
    let tmp1 := OR (AND fa (XOR fb fd)) (AND (OR fa fb) fc) in
    let tmp2 := XOR (AND fb fd) (OR (AND fa fd) (XOR fb (NOT fc))) in
    let tmp3 := OR (AND fa fd) (XOR fa (XOR fb (AND fc fd))) in
    (XOR tmp0 (AND fe tmp1), XOR tmp2 (AND fe tmp3)).

  (* kernel.inc:37-51 dvbcsa_bs_stream_sbox3 *)
  Definition bs_sbox3 (fa fb fc fd fe : T) : T * T :=
    let tmp0 := XOR fa (XOR fb (XOR (AND fc (OR fa fd)) fd)) in
    let tmp1 := XOR (AND fa fc) (OR (XOR fa fd) (XOR (OR fb fc) (NOT fd))) in
    let tmp2 := XOR fa (XOR (AND (XOR fb fc) fd) fc) in
    (XOR tmp0 (AND (NOT fe) tmp1), XOR tmp2 fe).

  (* kernel.inc:53-67 dvbcsa_bs_stream_sbox4 *)
  Definition bs_sbox4 (fa fb fc fd fe : T) : T * T :=
    let tmp0 := XOR fa (OR (AND fc (XOR fa fd)) (XOR fb (OR fc (NOT fd)))) in
    let tmp1 := XOR (AND fa fb) (XOR fb (XOR (AND (OR fa fc) fd) fc)) in
    let tmp2 := XOR fa (OR (AND fb fc) (XOR (OR (AND fa (XOR fb fd)) fc) fd)) in
    let sa := XOR tmp0 (AND fe (XOR tmp1 tmp0)) in
    (sa, XOR (XOR sa tmp2) fe).

  (* kernel.inc:69-84 dvbcsa_bs_stream_sbox5 *)
  Definition bs_sbox5 (fa fb fc fd fe : T) : T * T :=
    let tmp0 := OR (XOR (AND fa (OR fb fc)) fb) (XOR (OR (XOR fa fc) fd) FF) in
    let tmp1 := XOR fb (AND (XOR fc fd) (XOR fc (OR fb (XOR fa fd)))) in
    let tmp2 := XOR (AND fa fc) (XOR fb (AND (OR fb (XOR fa fc)) fd)) in
    let tmp3 := OR (AND (XOR fa fb) (XOR fc FF)) fd in
    (XOR tmp0 (AND fe tmp1), XOR tmp2 (AND fe tmp3)).

  (* kernel.inc:86-101 dvbcsa_bs_stream_sbox6 *)
  Definition bs_sbox6 (fa fb fc fd fe : T) : T * T :=
    let tmp0 := XOR (AND (AND fa fc) fd) (XOR (AND fb (OR fa fd)) fc) in
    let tmp1 := NOT (AND (XOR fa fc) fd) in
    let tmp2 := XOR (AND fa (OR fb fc)) (XOR fb (OR (AND fb fc) fd)) in
    let tmp3 := AND fc (XOR (AND fa (XOR fb fd)) (OR fb fd)) in
    (XOR tmp0 (AND fe tmp1), XOR tmp2 (AND fe tmp3)).

  (* kernel.inc:103-118 dvbcsa_bs_stream_sbox7 *)
  Definition bs_sbox7 (fa fb fc fd fe : T) : T * T :=
    let tmp0 := XOR fb (OR (AND fc fd) (XOR fa (XOR fc fd))) in
    let tmp1 := AND (OR fb fd) (OR (AND fa fc) (XOR fb (XOR fc fd))) in
    let tmp2 := XOR (OR fa fb) (XOR (AND fc (OR fb fd)) fd) in
    let tmp3 := OR fd (XOR (AND fa fc) FF) in
    (XOR tmp0 (AND fe tmp1), XOR tmp2 (AND fe tmp3)).

  (* A[k][b] through the moving row pointer [a]; A[-1] needs a > 0 *)
  Definition row_get (A : list T) (a k b : nat) : res T := aget A (4 * (a + k) + b).

  (* XOR of four elements of B (kernel.inc:144-147) *)
  Definition xor4_get (B : list T) (a k0 b0 k1 b1 k2 b2 k3 b3 : nat) : res T :=
    x0 <- row_get B a k0 b0 ;; x1 <- row_get B a k1 b1 ;;
    x2 <- row_get B a k2 b2 ;; x3 <- row_get B a k3 b3 ;;
    Ok (XOR (XOR (XOR x0 x1) x2) x3).

  (* five inputs of an S-box taken from A (kernel.inc:231-237) *)
  Definition sbox_get (f : T -> T -> T -> T -> T -> T * T) (A : list T)
    (a k0 b0 k1 b1 k2 b2 k3 b3 k4 b4 : nat) : res (T * T) :=
    x0 <- row_get A a k0 b0 ;; x1 <- row_get A a k1 b1 ;; x2 <- row_get A a k2 b2 ;;
    x3 <- row_get A a k3 b3 ;; x4 <- row_get A a k4 b4 ;;
    Ok (f x0 x1 x2 x3 x4).

  (* kernel.inc:149-158: A[-1][b] = A[9][b] ^ X[b], and during initialisation also ^ D[b] ^ input *)
  Definition feed_A (init : bool) (i j a p : nat) (X D sb : list T) (A : list T) : res (list T) :=
    for_ 4 0 (fun b A =>
      x9 <- row_get A a 9 b ;; x <- aget X b ;;
      A <- aset A (4 * p + b) (XOR x9 x) ;;
      if init then
        v <- aget A (4 * p + b) ;; d <- aget D b ;;
        s <- (if Nat.odd j then aget sb (8 * i + b) else aget sb (8 * i + 4 + b)) ;;
        aset A (4 * p + b) (XOR (XOR v d) s)
      else Ok A) A.

  (* kernel.inc:160-170: B[-1][b] = B[6][b] ^ B[9][b] ^ Y[b], and during initialisation also ^ input *)
  Definition feed_B (init : bool) (i j a p : nat) (Y sb : list T) (B : list T) : res (list T) :=
    for_ 4 0 (fun b B =>
      x6 <- row_get B a 6 b ;; x9 <- row_get B a 9 b ;; y <- aget Y b ;;
      B <- aset B (4 * p + b) (XOR (XOR x6 x9) y) ;;
      if init then
        v <- aget B (4 * p + b) ;;
        s <- (if Nat.odd j then aget sb (8 * i + 4 + b) else aget sb (8 * i + b)) ;;
        aset B (4 * p + b) (XOR v s)
      else Ok B) B.

  (* kernel.inc:172-185: rotate B[-1] left where p is set *)
  Definition rotate_B (p : nat) (rp : T) (B : list T) : res (list T) :=
    tmp3 <- aget B (4 * p + 3) ;; tmp2 <- aget B (4 * p + 2) ;;
    tmp1 <- aget B (4 * p + 1) ;; tmp0 <- aget B (4 * p + 0) ;;
    B <- aset B (4 * p + 3) (XOR tmp3 (AND (XOR tmp3 tmp2) rp)) ;;
    B <- aset B (4 * p + 2) (XOR tmp2 (AND (XOR tmp2 tmp1) rp)) ;;
    B <- aset B (4 * p + 1) (XOR tmp1 (AND (XOR tmp1 tmp0) rp)) ;;
    aset B (4 * p + 0) (XOR tmp0 (AND (XOR tmp0 tmp3) rp)).

  (* kernel.inc:194-201 (b = 0), 203-210, 212-219, 221-228: one bit of T3/T4;
     [tmp4] is the carry in; returns (D, E, F, carry out) *)
  Definition adder_bit (b : nat) (Z : list T) (q ex tmp4 : T) (DEF : list T * list T * list T)
    : res (list T * list T * list T * T) :=
    let '(D, E, F) := DEF in
    z <- aget Z b ;; e <- aget E b ;;
    let tmp0 := XOR z e in
    let tmp1 := AND z e in
    tmp2 <- aget F b ;;
    F <- aset F b (XOR e (AND q (XOR z tmp4))) ;;
    D <- aset D b (XOR ex tmp0) ;;
    let tmp3 := AND tmp0 tmp4 in
    E <- aset E b tmp2 ;;
    Ok (D, E, F, OR tmp1 tmp3).

  (* kernel.inc:140-251: body of the inner loop; [a] is A - regs->A (= B - regs->B) *)
  Definition kernel_step (init : bool) (i j a : nat) (s : regs T) : res (regs T) :=
    let A := rgA s in let B := rgB s in
    p <- psub a 1 ;;
    ex3 <- xor4_get B a 2 0 5 1 6 2 8 3 ;;
    ex2 <- xor4_get B a 5 0 7 1 2 3 3 2 ;;
    ex1 <- xor4_get B a 4 3 7 2 3 0 4 1 ;;
    ex0 <- xor4_get B a 8 2 5 3 2 1 7 0 ;;
    A <- feed_A init i j a p (rgX s) (rgD s) (rgsb s) A ;;
    B <- feed_B init i j a p (rgY s) (rgsb s) B ;;
    B <- rotate_B p (rgp s) B ;;
    '(D, E, F, c0) <- adder_bit 0 (rgZ s) (rgq s) ex0 (rgr s) (rgD s, rgE s, rgF s) ;;
    '(D, E, F, c1) <- adder_bit 1 (rgZ s) (rgq s) ex1 c0 (D, E, F) ;;
    '(D, E, F, c2) <- adder_bit 2 (rgZ s) (rgq s) ex2 c1 (D, E, F) ;;
    '(D, E, F, c3) <- adder_bit 3 (rgZ s) (rgq s) ex3 c2 (D, E, F) ;;
    let r := XOR (rgr s) (AND (rgq s) (XOR c3 (rgr s))) in
    let X := rgX s in let Y := rgY s in let Z := rgZ s in
    '(sa, sb) <- sbox_get bs_sbox1 A a 0 2 5 1 6 3 8 0 3 0 ;; X <- aset X 0 sa ;; Z <- aset Z 2 sb ;;
    '(sa, sb) <- sbox_get bs_sbox2 A a 2 2 5 3 6 0 8 1 1 1 ;; X <- aset X 1 sa ;; Z <- aset Z 3 sb ;;
    '(sa, sb) <- sbox_get bs_sbox3 A a 1 0 4 1 4 3 5 2 0 3 ;; Y <- aset Y 0 sa ;; X <- aset X 2 sb ;;
    '(sa, sb) <- sbox_get bs_sbox4 A a 0 1 1 3 3 2 7 0 2 3 ;; Y <- aset Y 1 sa ;; X <- aset X 3 sb ;;
    '(sa, sb) <- sbox_get bs_sbox5 A a 3 3 5 0 7 1 8 2 4 2 ;; Z <- aset Z 0 sa ;; Y <- aset Y 2 sb ;;
    '(sa, sb) <- sbox_get bs_sbox6 A a 3 1 4 0 6 2 8 3 2 1 ;; Z <- aset Z 1 sa ;; Y <- aset Y 3 sb ;;
    '(np, nq) <- sbox_get bs_sbox7 A a 2 0 6 1 7 2 7 3 1 2 ;;
    sb <- (if init then Ok (rgsb s)
           else
             d2 <- aget D 2 ;; d3 <- aget D 3 ;; d0 <- aget D 0 ;; d1 <- aget D 1 ;;
             sb <- aset (rgsb s) (i * 8 + 7 - 2 * j) (XOR d2 d3) ;;
             aset sb (i * 8 + 6 - 2 * j) (XOR d0 d1)) ;;
    Ok (mk_regs A B X Y Z D E F sb np nq r).

  (* kernel.inc:254-259: move the ten live rows back to the top of the array *)
  Definition rewind (A : list T) : res (list T) :=
    for_ 10 0 (fun i A =>
      for_ 4 0 (fun b A => x <- aget A (4 * i + b) ;; aset A (4 * (32 + i) + b) x) A) A.

  (* kernel.inc:120-260 dvbcsa_bs_stream_cipher_kernel_init (init = true) and
     dvbcsa_bs_stream_cipher_kernel (init = false) *)
  Definition stream_cipher_kernel (init : bool) (s : regs T) : res (regs T) :=
    '(_, s) <- for_ 8 0 (fun i st =>
      for_ 4 0 (fun j '(a, s) =>
        s <- kernel_step init i j a s ;;
        a <- psub a 1 ;;
        Ok (a, s)) st) (32, s) ;;
    A <- rewind (rgA s) ;;
    B <- rewind (rgB s) ;;
    Ok (mk_regs A B (rgX s) (rgY s) (rgZ s) (rgD s) (rgE s) (rgF s) (rgsb s) (rgp s) (rgq s) (rgr s)).

  (* dvbcsa_bs_stream.c:47-71: load the key, clear the other registers; [key n] is key->stream[n] *)
  Definition stream_load_regs (key : nat -> res T) (s : regs T) : res (regs T) :=
    let O := op_00 o in
    '(A, B, (X, Y, Z), (D, E, F)) <-
      for_ 4 0 (fun b '(A, B, (X, Y, Z), (D, E, F)) =>
        '(A, B) <- for_ 8 0 (fun i '(A, B) =>
           k <- key (b + i * 4) ;; A <- aset A (4 * (32 + i) + b) k ;;
           k <- key (b + i * 4 + 32) ;; B <- aset B (4 * (32 + i) + b) k ;;
           Ok (A, B)) (A, B) ;;
        A <- aset A (4 * (32 + 8) + b) O ;; A <- aset A (4 * (32 + 9) + b) O ;;
        B <- aset B (4 * (32 + 8) + b) O ;; B <- aset B (4 * (32 + 9) + b) O ;;
        X <- aset X b O ;; Y <- aset Y b O ;; Z <- aset Z b O ;;
        D <- aset D b O ;; E <- aset E b O ;; F <- aset F b O ;;
        Ok (A, B, (X, Y, Z), (D, E, F)))
      (rgA s, rgB s, (rgX s, rgY s, rgZ s), (rgD s, rgE s, rgF s)) ;;
    Ok (mk_regs A B X Y Z D E F (rgsb s) O O O).
End Kernel.

(* the operations of the build's word type *)
Definition word_ops (c : build) : bsops word :=
  mk_ops word BS_AND BS_OR BS_XOR (BS_NOT c) (BS_VAL c 1 0) (BS_VAL c 1 255).

Definition set_sb {T} (s : regs T) (sb : list T) : regs T :=
  mk_regs (rgA s) (rgB s) (rgX s) (rgY s) (rgZ s) (rgD s) (rgE s) (rgF s) sb (rgp s) (rgq s) (rgr s).

(* dvbcsa_bs.h:65-69 struct dvbcsa_bs_key_s: block[56] then stream[64] *)
Definition key_block_word (c : build) (m : mem) (key : N) (i : nat) : res word :=
  load_word c m (key + N.of_nat (i * word_bytes c)).
Definition key_stream_word (c : build) (m : mem) (key : N) (i : nat) : res word :=
  load_word c m (key + N.of_nat ((56 + i) * word_bytes c)).

(* dvbcsa_bs_stream.c:35-86 dvbcsa_bs_stream_cipher_batch; [s0] is the uninitialised regs *)
Definition dvbcsa_bs_stream_cipher_batch (c : build) (s0 : regs word) (m : mem) (key : N)
  (pb : pkt_buf) (maxlen : N) : res pkt_buf :=
  sb <- dvbcsa_bs_stream_transpose_in c pb (rgsb s0) ;;
  s <- stream_load_regs (word_ops c) (key_stream_word c m key) (set_sb s0 sb) ;;
  s <- stream_cipher_kernel (word_ops c) true s ;;
  '(_, (_, pb)) <- while_ (N.to_nat maxlen) (fun '(h, _) => (h <? maxlen)%N) (fun '(h, (s, pb)) =>
      s <- stream_cipher_kernel (word_ops c) false s ;;
      '(pb, sb) <- dvbcsa_bs_stream_transpose_out c pb h (rgsb s) ;;
      Ok (u32 (h + 8), (set_sb s sb, pb))) (8%N, (s, pb)) ;;
  Ok pb.
