(** BsApiSpec.v -- vocabulary of the property statements about the bitslice API.
    A reader of the property theorems needs this file, Spec.v (the cipher), the predicates at the
    top of Mem.v, the record [build] of ModelBsWord.v and the modelled functions of ModelBsAlgo.v. *)
From Verif Require Import Base Mem Spec ModelBsWord ModelBsTranspose ModelBsStream ModelBsBlock ModelBsAlgo.
Local Open Scope N_scope.

(* the builds whose batch functions work: an AVX2 build needs the default S-box code, and the two
   bytes that follow the S-box table must be readable (see C32); all others are unrestricted *)
Definition supported (c : build) : Prop :=
  sane c /\ (tgt c = AVX2 -> use_alt_sbox c = false /\ past_table c <> None).

(* dvbcsa_bs.h:91-95: sizeof(struct dvbcsa_bs_key_s): 56 block words, 64 stream words *)
Definition bs_ctx_size (c : build) : N := N.of_nat (120 * word_bytes c).
Definition word_size (c : build) : N := N.of_nat (word_bytes c).

(* dvbcsa_bs_key_set re-reads the control word after it has written the stream words *)
Definition bs_cw_source (c : build) (cwp key : N) : Prop :=
  disjoint cwp 8 (key + 56 * word_size c) (64 * word_size c).

(* [key] is a context whose bytes are those that an earlier successful call of
   dvbcsa_bs_key_set with control word [cw] left there *)
Definition bs_keyed (c : build) (m : mem) (key : N) (cw : list N) : Prop :=
  exists kj m0 cwp m1,
    holds m0 cwp cw /\ mapped m0 key (bs_ctx_size c) /\ bs_cw_source c cwp key /\
    dvbcsa_bs_key_set c kj m0 cwp key = Ok m1 /\ same_inside key (bs_ctx_size c) m1 m.

(* packets: address and content *)
Definition packets := list (N * list N).

(* a NULL-terminated array of struct dvbcsa_bs_batch_s at [pcks] describes the packets [ps],
   which may overlap each other but not the array *)
Record batch_array (c : build) (m : mem) (pcks : N) (ps : packets) : Prop := {
  ba_entry : forall i p buf, nth_error ps i = Some (p, buf) ->
    let e := pcks + N.of_nat (i * entry_bytes c) in
    0 < p < 2 ^ N.of_nat (8 * ptr_bytes c) /\ N.of_nat (length buf) < 2 ^ 32 /\
    holds m p buf /\
    holds m e (native_bytes (big_endian c) (ptr_bytes c) p) /\
    holds m (e + N.of_nat (ptr_bytes c)) (native_bytes (big_endian c) 4 (N.of_nat (length buf))) /\
    disjoint p (N.of_nat (length buf)) pcks (N.of_nat (length ps * entry_bytes c + ptr_bytes c));
  ba_end : holds m (pcks + N.of_nat (length ps * entry_bytes c)) (native_bytes (big_endian c) (ptr_bytes c) 0) }.

(* the documented limits: number of packets, and DVBCSA_BS_MAX_PACKET_LEN (dvbcsa_bs.h:29) *)
Definition in_limits (c : build) (ps : packets) : Prop :=
  (length ps <= batch_size c)%nat /\ Forall (fun x => length (snd x) <= 184)%nat ps.

(* maxlen is a multiple of 8, at most 184 *)
Definition good_maxlen (maxlen : N) : Prop := exists mb, (mb <= 23)%nat /\ maxlen = N.of_nat (8 * mb).

(* locals start with some bytes of the right number, nothing more is known *)
Definition words_ok (c : build) (n : nat) (l : list word) : Prop :=
  length l = n /\ Forall (fun w => length w = word_bytes c /\ Forall is_byte w) l.
Record stack_ok (c : build) (jk : junk) : Prop := {
  so_len8 : length (jk_len8 jk) = batch_size c;
  so_data : length (jk_data jk) = (batch_size c * 184)%nat /\ Forall is_byte (jk_data jk);
  so_AB : words_ok c 168 (rgA (jk_regs jk)) /\ words_ok c 168 (rgB (jk_regs jk));
  so_XYZ : words_ok c 4 (rgX (jk_regs jk)) /\ words_ok c 4 (rgY (jk_regs jk)) /\ words_ok c 4 (rgZ (jk_regs jk));
  so_DEF : words_ok c 4 (rgD (jk_regs jk)) /\ words_ok c 4 (rgE (jk_regs jk)) /\ words_ok c 4 (rgF (jk_regs jk));
  so_sb : words_ok c 64 (rgsb (jk_regs jk));
  so_pqr : words_ok c 3 [rgp (jk_regs jk); rgq (jk_regs jk); rgr (jk_regs jk)];
  so_block : forall i, words_ok c 512 (bj_r (jk_block jk i)) /\ words_ok c 8 (bj_s1 (jk_block jk i)) /\
                       words_ok c (if deinterleave c then 16 else 8) (bj_s2 (jk_block jk i)) }.

(* [f] on the first [maxlen] bytes, the rest unchanged *)
Definition on_prefix (f : list N -> list N) (maxlen : N) (buf : list N) : list N :=
  f (firstn (N.to_nat maxlen) buf) ++ skipn (N.to_nat maxlen) buf.

(* write the packets' contents, in order *)
Fixpoint write_all (m : mem) (ps : packets) : mem :=
  match ps with [] => m | (p, buf) :: r => write_all (put m p buf) r end.
Definition map_packets (f : list N -> list N) (ps : packets) : packets := map (fun x => (fst x, f (snd x))) ps.

Definition same_mem (m m' : mem) : Prop := forall x, m x = m' x.

(* no two packets share a byte *)
Definition separate (ps : packets) : Prop :=
  forall i j p buf p' buf', nth_error ps i = Some (p, buf) -> nth_error ps j = Some (p', buf') -> i <> j ->
    disjoint p (N.of_nat (length buf)) p' (N.of_nat (length buf')).

(* both batch functions at once, and what each is meant to compute *)
Definition bs_call (enc : bool) := if enc then dvbcsa_bs_encrypt else dvbcsa_bs_decrypt.
Definition csa (enc : bool) := if enc then csa_encrypt else csa_decrypt.

(* the cipher of Spec.v with a stream-cipher key [cw] and block-cipher round keys [kk] that need
   not belong together; with [kk = key_schedule cw] this is [csa enc cw] *)
Definition mixed_csa (enc : bool) (cw kk data : list N) : list N :=
  if (length data <? 8)%nat then data
  else if enc then stream_cipher cw (block_layer (rcbc_enc (block_enc kk)) data)
  else block_layer (rcbc_dec (block_dec kk)) (stream_cipher cw data).

(* the key material that one bit lane and one byte lane see in the 120 words [ctx] of a context
   (dvbcsa_bs.h:91-95, dvbcsa_bs_key.c:41-59): bit t of the stream-cipher key is bit [bit] of
   stream word t xor 4; round key r is byte [byte] of block word r *)
Definition byte_of_bits (f : nat -> bool) : N :=
  fold_right (fun b v => (if f b then 1 else 0) + 2 * v) 0 (seq 0 8).
Definition lane_cw (c : build) (ctx : list N) (bit : nat) : list N :=
  map (fun k => byte_of_bits (fun b =>
    let word := (56 + (8 * k + Nat.lxor b 4))%nat in
    N.testbit (nth (word * word_bytes c + bit / 8) ctx 0) (N.of_nat (bit mod 8)))) (seq 0 8).
Definition lane_round_keys (c : build) (ctx : list N) (byte : nat) : list N :=
  map (fun r => nth (r * word_bytes c + byte)%nat ctx 0) (seq 0 56).

(* a call of a batch function with everything it needs in place *)
Record call_ready (c : build) (jk : junk) (m : mem) (key pcks : N) (cw : list N) (ps : packets) (maxlen : N) : Prop := {
  rd_build : supported c;
  rd_cw : length cw = 8%nat;
  rd_key : bs_keyed c m key cw;
  rd_stack : stack_ok c jk;
  rd_batch : batch_array c m pcks ps;
  rd_limits : in_limits c ps;
  rd_maxlen : good_maxlen maxlen }.

(* a call on a context with any content [ctx], keyed or not *)
Record call_possible (c : build) (jk : junk) (m : mem) (key pcks : N) (ctx : list N) (ps : packets) (maxlen : N) : Prop := {
  ps_build : supported c;
  ps_align : key mod word_size c = 0;
  ps_size : N.of_nat (length ctx) = bs_ctx_size c;
  ps_key : holds m key ctx;
  ps_stack : stack_ok c jk;
  ps_batch : batch_array c m pcks ps;
  ps_limits : in_limits c ps;
  ps_maxlen : good_maxlen maxlen }.
