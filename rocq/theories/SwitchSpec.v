(** SwitchSpec.v -- what a build with one layer of the cipher left out is meant to compute. *)
From Coq Require Import List Arith NArith.
Import ListNotations.
From Verif Require Import Spec ModelSwitches.
Local Open Scope N_scope.

(* the layers of Spec.v that the switches leave in place *)
Definition stream_layer (s : switches) (cw data : list N) : list N :=
  if disable_stream s then data else stream_cipher cw data.
Definition encrypt_layer (s : switches) (cw data : list N) : list N :=
  if disable_block s then data else block_layer (rcbc_enc (block_enc (key_schedule cw))) data.
Definition decrypt_layer (s : switches) (cw data : list N) : list N :=
  if disable_block s then data else block_layer (rcbc_dec (block_dec (key_schedule cw))) data.

Definition sw_csa (s : switches) (enc : bool) (cw data : list N) : list N :=
  if (length data <? 8)%nat then data
  else if enc then stream_layer s cw (encrypt_layer s cw data)
  else decrypt_layer s cw (stream_layer s cw data).

(* both directions of the two APIs *)
Definition sw_call (s : switches) (enc : bool) := if enc then sw_encrypt s else sw_decrypt s.
Definition sw_bs_call (s : switches) (enc : bool) := if enc then sw_bs_encrypt s else sw_bs_decrypt s.
