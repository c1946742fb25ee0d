(** ModelBsTranspose.v -- dvbcsa_bs_transpose_block.c, dvbcsa_bs_transpose_stream.c,
    dvbcsa_bs_transpose_stream32.c of /repo/src.

    The three matrix transpositions are written over an arbitrary type T of rows with an
    operation [sw n] for BS_SWAPn; the code is the instance T = word, sw = BS_SWAP c. *)
From Verif Require Import Base Mem ModelBsWord.
Local Open Scope nat_scope.

Section Matrix.
  Context {T : Type} (sw : nat -> T -> T -> T * T).

  (* load four rows, run the swaps, store the four rows *)
  Definition rows4 (i0 i1 i2 i3 : nat) (f : T -> T -> T -> T -> T * T * T * T) (row : list T)
    : res (list T) :=
    a0 <- aget row i0 ;; a1 <- aget row i1 ;; a2 <- aget row i2 ;; a3 <- aget row i3 ;;
    let '(a0, a1, a2, a3) := f a0 a1 a2 a3 in
    row <- aset row i0 a0 ;; row <- aset row i1 a1 ;; row <- aset row i2 a2 ;; aset row i3 a3.

  (* BS_SWAPp(a0,a1); BS_SWAPp(a2,a3); BS_SWAPq(a0,a2); BS_SWAPq(a1,a3) *)
  Definition swaps4 (p q : nat) (a0 a1 a2 a3 : T) : T * T * T * T :=
    let '(a0, a1) := sw p a0 a1 in
    let '(a2, a3) := sw p a2 a3 in
    let '(a0, a2) := sw q a0 a2 in
    let '(a1, a3) := sw q a1 a3 in
    (a0, a1, a2, a3).

  (* load eight rows, three layers of swaps, store: body of transpose_stream.c:108-146 with
     (p,q,s) = (1,2,4) and of 148-186 with (8,16,32) *)
  Definition rows8 (i : nat -> nat) (p q s : nat) (row : list T) : res (list T) :=
    a0 <- aget row (i 0) ;; a1 <- aget row (i 1) ;; a2 <- aget row (i 2) ;; a3 <- aget row (i 3) ;;
    b0 <- aget row (i 4) ;; b1 <- aget row (i 5) ;; b2 <- aget row (i 6) ;; b3 <- aget row (i 7) ;;
    let '(a0, a1) := sw p a0 a1 in let '(a2, a3) := sw p a2 a3 in
    let '(b0, b1) := sw p b0 b1 in let '(b2, b3) := sw p b2 b3 in
    let '(a0, a2) := sw q a0 a2 in let '(a1, a3) := sw q a1 a3 in
    let '(b0, b2) := sw q b0 b2 in let '(b1, b3) := sw q b1 b3 in
    let '(a0, b0) := sw s a0 b0 in let '(a1, b1) := sw s a1 b1 in
    let '(a2, b2) := sw s a2 b2 in let '(a3, b3) := sw s a3 b3 in
    row <- aset row (i 0) a0 ;; row <- aset row (i 1) a1 ;;
    row <- aset row (i 2) a2 ;; row <- aset row (i 3) a3 ;;
    row <- aset row (i 4) b0 ;; row <- aset row (i 5) b1 ;;
    row <- aset row (i 6) b2 ;; aset row (i 7) b3.

  (* transpose_block.c:35-62 dvbcsa_bs_matrix_transpose_block *)
  Definition matrix_transpose_block (row : list T) : res (list T) :=
    for_ 2 0 (fun j row =>
      for_ 8 0 (fun i row =>
        rows4 (32 * j + i + 0) (32 * j + i + 8) (32 * j + i + 16) (32 * j + i + 24)
              (swaps4 8 16) row) row) row.

  (* transpose_stream.c:34-104: the __i386__ variant of dvbcsa_bs_matrix_transpose_64x *)
  Definition matrix_transpose_64x_i386 (row : list T) : res (list T) :=
    row <- for_ 16 0 (fun j row =>
      rows4 (j + 0) (j + 16) (j + 32) (j + 48) (swaps4 16 32) row) row ;;
    row <- for_ 4 0 (fun j row =>
      for_ 4 0 (fun i row =>
        rows4 (16 * j + i + 0) (16 * j + i + 4) (16 * j + i + 8) (16 * j + i + 12)
              (swaps4 4 8) row) row) row ;;
    for_ 16 0 (fun j row =>
      rows4 (4 * j + 0) (4 * j + 1) (4 * j + 2) (4 * j + 3) (swaps4 1 2) row) row.

  (* transpose_stream.c:106-189: the other variant *)
  Definition matrix_transpose_64x_gen (row : list T) : res (list T) :=
    row <- for_ 8 0 (fun j row => rows8 (fun k => 8 * j + k) 1 2 4 row) row ;;
    for_ 8 0 (fun j row => rows8 (fun k => j + 8 * k) 8 16 32 row) row.

  (* transpose_stream32.c:34-99 dvbcsa_bs_matrix_transpose_64x32; the first loop swaps only
     (a0,a1) and (a2,a3) *)
  Definition matrix_transpose_64x32 (row : list T) : res (list T) :=
    row <- for_ 16 0 (fun j row =>
      rows4 (j + 0) (j + 16) (j + 32) (j + 48)
        (fun a0 a1 a2 a3 =>
           let '(a0, a1) := sw 16 a0 a1 in let '(a2, a3) := sw 16 a2 a3 in (a0, a1, a2, a3)) row) row ;;
    row <- for_ 4 0 (fun j row =>
      for_ 4 0 (fun i row =>
        rows4 (16 * j + i + 0) (16 * j + i + 4) (16 * j + i + 8) (16 * j + i + 12)
              (swaps4 4 8) row) row) row ;;
    for_ 16 0 (fun j row =>
      rows4 (4 * j + 0) (4 * j + 1) (4 * j + 2) (4 * j + 3) (swaps4 1 2) row) row.
End Matrix.

(** ** The packet buffer *)

(* dvbcsa/dvbcsa.h:72 DVBCSA_BS_MAX_PACKET_LEN; BS_PKT_BLOCKS8 (dvbcsa_bs.h:75) is 184/8 *)
Definition slot : nat := 184.

(* dvbcsa_bs.h:82-87 struct dvbcsa_bs_pkt_buf: data[] as bytes; the field maxlen is written but
   never read and is left out *)
Record pkt_buf := mk_pb { n_packets : nat; len8 : list N; pdata : list N }.
Definition set_pdata (pb : pkt_buf) (d : list N) : pkt_buf := mk_pb (n_packets pb) (len8 pb) d.

(* byte offset of pkt_buf->data + offset / 8 + i * BS_PKT_BLOCKS8 *)
Definition block_at (offset : N) (i : nat) : nat := 8 * N.to_nat (offset / 8) + i * slot.

(* block->u32[0], block->u32[1] and block->u64 as bytes *)
Definition u32_0 (d : list N) (p : nat) : res (list N) := bget d p 4.
Definition u32_1 (d : list N) (p : nat) : res (list N) := bget d (p + 4) 4.
(* x.u64 ^= y.u64: byte order does not matter for XOR *)
Definition xor_u64 (d : list N) (p : nat) (v : list N) : res (list N) :=
  x <- bget d p 8 ;; bset d p (map2 N.lxor x v).

(** ** dvbcsa_bs_transpose_block.c *)

(* lines 77-86: two packets of the unrolled loop *)
Definition block_in_pair (c : build) (pb : pkt_buf) (offset : N) (i : nat) (out : list word)
  : res (list word) :=
  a <- u32_0 (pdata pb) (block_at offset i) ;;
  b <- u32_1 (pdata pb) (block_at offset i) ;;
  d <- u32_0 (pdata pb) (block_at offset (i + 1)) ;;
  e <- u32_1 (pdata pb) (block_at offset (i + 1)) ;;
  out <- view_set c 4 out i a ;;
  out <- view_set c 4 out (i + batch_size c) b ;;
  out <- view_set c 4 out (i + 1) d ;;
  view_set c 4 out (i + 1 + batch_size c) e.

(* lines 64-96 dvbcsa_bs_block_transpose_in; n_packets & ~3 = 4 * (n_packets / 4) *)
Definition dvbcsa_bs_block_transpose_in (c : build) (out : list word) (pb : pkt_buf) (offset : N)
  : res (list word) :=
  let n := n_packets pb in
  out <- for_ (n / 4) 0 (fun k out =>
           out <- block_in_pair c pb offset (4 * k) out ;;
           block_in_pair c pb offset (4 * k + 2) out) out ;;
  out <- for_ (n - 4 * (n / 4)) (4 * (n / 4)) (fun i out =>
           a <- u32_0 (pdata pb) (block_at offset i) ;;
           out <- view_set c 4 out i a ;;
           b <- u32_1 (pdata pb) (block_at offset i) ;;
           view_set c 4 out (i + batch_size c) b) out ;;
  matrix_transpose_block (BS_SWAP c) out.

(* lines 125-131, 138-144 (encrypt) and 153-159, 166-172 (decrypt): one packet, offset > 0 *)
Definition block_out_packet (c : build) (enc : bool) (ri : list word) (offset : N) (i : nat) (pb : pkt_buf)
  : res pkt_buf :=
  l <- aget (len8 pb) i ;;
  if (offset <? l)%N then
    b0 <- view_get c 4 ri i ;;
    b1 <- view_get c 4 ri (i + batch_size c) ;;
    let b := b0 ++ b1 in
    let p := block_at offset i in
    q <- psub p 8 ;;
    x <- (if enc then Ok b else bget (pdata pb) p 8) ;;
    d <- xor_u64 (pdata pb) q x ;;
    d <- bset d p b ;;
    Ok (set_pdata pb d)
  else Ok pb.

(* lines 100-175 dvbcsa_bs_block_transpose_out_and_xor *)
Definition dvbcsa_bs_block_transpose_out_and_xor (c : build) (inp : list word) (pb : pkt_buf)
  (offset : N) (enc : bool) : res pkt_buf :=
  ri <- matrix_transpose_block (BS_SWAP c) inp ;;
  let n := n_packets pb in
  if (offset =? 0)%N then
    for_ n 0 (fun i pb =>
      l <- aget (len8 pb) i ;;
      if (l =? 0)%N then Ok pb
      else
        b0 <- view_get c 4 ri i ;;
        d <- bset (pdata pb) (block_at offset i) b0 ;;
        b1 <- view_get c 4 ri (i + batch_size c) ;;
        d <- bset d (block_at offset i + 4) b1 ;;
        Ok (set_pdata pb d)) pb
  else
    pb <- for_ (n / 4) 0 (fun k pb =>
            pb <- block_out_packet c enc ri offset (4 * k) pb ;;
            pb <- block_out_packet c enc ri offset (4 * k + 1) pb ;;
            pb <- block_out_packet c enc ri offset (4 * k + 2) pb ;;
            block_out_packet c enc ri offset (4 * k + 3) pb) pb ;;
    for_ (n - 4 * (n / 4)) (4 * (n / 4)) (fun i pb => block_out_packet c enc ri offset i pb) pb.

(** ** Stream transposes *)

(* src/Makefile.am:18-22: transpose_stream32.c for 32-bit words, transpose_stream.c otherwise *)
Definition matrix_transpose_stream (c : build) (row : list word) : res (list word) :=
  match tgt c with
  | UINT32 => matrix_transpose_64x32 (BS_SWAP c) row
  | _ => if i386 c then matrix_transpose_64x_i386 (BS_SWAP c) row
         else matrix_transpose_64x_gen (BS_SWAP c) row
  end.

(* transpose_stream32.c:101-116 and transpose_stream.c:191-205 dvbcsa_bs_stream_transpose_in *)
Definition dvbcsa_bs_stream_transpose_in (c : build) (pb : pkt_buf) (row : list word)
  : res (list word) :=
  row <- for_ (n_packets pb) 0 (fun i row =>
    match tgt c with
    | UINT32 =>
        a <- u32_0 (pdata pb) (block_at 0 i) ;;
        row <- view_set c 4 row i a ;;
        b <- u32_1 (pdata pb) (block_at 0 i) ;;
        view_set c 4 row (i + 32) b
    | _ =>
        a <- bget (pdata pb) (block_at 0 i) 8 ;;
        view_set c 8 row i a
    end) row ;;
  matrix_transpose_stream c row.

(* transpose_stream.c:216-233: packet i of the scalar tail, and the same XOR in the pair loop *)
Definition stream_out_packet (c : build) (row : list word) (index : N) (i : nat) (d : list N)
  : res (list N) :=
  p <- view_get c 8 row i ;;
  xor_u64 d (block_at index i) p.

(* transpose_stream.c:217-228: two packets; both blocks and both rows are read before writing *)
Definition stream_out_pair (c : build) (row : list word) (index : N) (i : nat) (d : list N)
  : res (list N) :=
  x <- bget d (block_at index i) 8 ;;
  p <- view_get c 8 row i ;;
  y <- bget d (block_at index (i + 1)) 8 ;;
  q <- view_get c 8 row (i + 1) ;;
  d <- bset d (block_at index i) (map2 N.lxor x p) ;;
  bset d (block_at index (i + 1)) (map2 N.lxor y q).

(* transpose_stream32.c:118-133 and transpose_stream.c:207-234 dvbcsa_bs_stream_transpose_out *)
Definition dvbcsa_bs_stream_transpose_out (c : build) (pb : pkt_buf) (index : N) (row : list word)
  : res (pkt_buf * list word) :=
  row <- matrix_transpose_stream c row ;;
  let n := n_packets pb in
  d <- match tgt c with
       | UINT32 =>
           for_ n 0 (fun i d =>
             x <- u32_0 d (block_at index i) ;;
             p <- view_get c 4 row i ;;
             d <- bset d (block_at index i) (map2 N.lxor x p) ;;
             y <- u32_1 d (block_at index i) ;;
             q <- view_get c 4 row (i + 32) ;;
             bset d (block_at index i + 4) (map2 N.lxor y q)) (pdata pb)
       | _ =>
           d <- for_ (n / 2) 0 (fun k d => stream_out_pair c row index (2 * k) d) (pdata pb) ;;
           for_ (n - 2 * (n / 2)) (2 * (n / 2)) (fun i d => stream_out_packet c row index i d) d
       end ;;
  Ok (set_pdata pb d, row).
