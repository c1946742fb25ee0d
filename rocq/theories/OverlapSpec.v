(** OverlapSpec.v -- vocabulary of C46 and of C11_one_keystream. *)
From Verif Require Import Base Mem Spec ModelClassical ModelBsWord ModelBsAlgo ApiSpec BsApiSpec.
Local Open Scope N_scope.

(* exchange the two halves of a byte *)
Definition nibbles_swapped (b : N) : N := 16 * (b mod 16) + b / 16.

(* A key set function reads the control word twice.  These are the 8 bytes that the second reading
   finds at [cwp], when [cw] was there at entry.
   Classical context (dvbcsa_pv.h:82-87): between the two readings, bytes 0..7 of the context have
   received the control word, bytes 8..15 the control word with the nibbles swapped. *)
Definition second_reading (cw : list N) (cwp key : N) : list N :=
  map (fun i => let x := cwp + N.of_nat i in
         if (key <=? x) && (x <? key + 8) then nth (N.to_nat (x - key)) cw 0
         else if (key + 8 <=? x) && (x <? key + 16) then nibbles_swapped (nth (N.to_nat (x - (key + 8))) cw 0)
         else nth i cw 0) (seq 0 8).

(* Bitslice context (dvbcsa_bs.h:91-95): between the two readings, stream word number j has been
   filled with ones or zeros, according to bit (j xor 4) of the control word. *)
Definition bs_second_reading (c : build) (cw : list N) (cwp key : N) : list N :=
  map (fun i => let x := cwp + N.of_nat i in
         let start := key + 56 * word_size c in
         if (start <=? x) && (x <? start + 64 * word_size c)
         then let t := N.lxor ((x - start) / word_size c) 4 in
              if N.testbit (nth (N.to_nat (t / 8)) cw 0) (t mod 8) then 255 else 0
         else nth i cw 0) (seq 0 8).

(* [b] is [a] with everything but the first 8 bytes XORed with the keystream [ks] *)
Definition xored_with (ks : nat -> N) (a b : list N) : Prop :=
  length b = length a /\
  forall i, (i < length a)%nat -> nth i b 0 = if (i <? 8)%nat then nth i a 0 else N.lxor (nth i a 0) (ks (i - 8)%nat).

(* packet [inp] is transformed into [out], with keystream [ks] for the stream cipher layer *)
Definition layered_with (ks : nat -> N) (enc : bool) (cw inp out : list N) : Prop :=
  if enc then xored_with ks (block_layer (rcbc_enc (block_enc (key_schedule cw))) inp) out
  else exists x, xored_with ks inp x /\ out = block_layer (rcbc_dec (block_dec (key_schedule cw))) x.
(* the first 8 bytes of the scrambled one of the two *)
Definition scrambled_start (enc : bool) (inp out : list N) : list N := firstn 8 (if enc then out else inp).

(* both classical packet functions at once *)
Definition classical_call (enc be : bool) := if enc then dvbcsa_encrypt be else dvbcsa_decrypt be.
