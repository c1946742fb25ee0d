(** HeaderSource.v -- generated by tools/gen_header.py from /repo/src; do not edit.
    The macros of the headers of the word types, expanded and parsed. *)
From Coq Require Import String.
From Verif Require Import Base ModelBsWord MiniC Header.
Local Open Scope string_scope.
Local Open Scope list_scope.
Local Open Scope N_scope.

(* the constants BS_VALn(v) of the bitslice sources: name, bytes, value *)
Definition constants : list (string * (nat * N)) :=
  [("BS_VAL8(00)", (1%nat, 0x0));
   ("BS_VAL8(02)", (1%nat, 0x2));
   ("BS_VAL8(04)", (1%nat, 0x4));
   ("BS_VAL8(0f)", (1%nat, 0xf));
   ("BS_VAL8(10)", (1%nat, 0x10));
   ("BS_VAL8(29)", (1%nat, 0x29));
   ("BS_VAL8(33)", (1%nat, 0x33));
   ("BS_VAL8(40)", (1%nat, 0x40));
   ("BS_VAL8(55)", (1%nat, 0x55));
   ("BS_VAL8(80)", (1%nat, 0x80));
   ("BS_VAL8(ff)", (1%nat, 0xff));
   ("BS_VAL16(00ff)", (2%nat, 0xff));
   ("BS_VAL32(0000ffff)", (4%nat, 0xffff));
   ("BS_VAL64(00000000ffffffff)", (8%nat, 0xffffffff))].

(* dvbcsa_bs_uint32.h *)
Definition uint32_header : list (string * hfun) :=
  [("BS_AND", mk_hfun [("a", (CInt U32)); ("b", (CInt U32))] [] (Some (HBin And (HVar "a") (HVar "b"))));
   ("BS_OR", mk_hfun [("a", (CInt U32)); ("b", (CInt U32))] [] (Some (HBin Or (HVar "a") (HVar "b"))));
   ("BS_XOR", mk_hfun [("a", (CInt U32)); ("b", (CInt U32))] [] (Some (HBin Xor (HVar "a") (HVar "b"))));
   ("BS_NOT", mk_hfun [("a", (CInt U32))] [] (Some (HNot (HVar "a"))));
   ("BS_SHL", mk_hfun [("a", (CInt U32)); ("n", (CInt I32))] [] (Some (HBin Shl (HVar "a") (HVar "n"))));
   ("BS_SHR", mk_hfun [("a", (CInt U32)); ("n", (CInt I32))] [] (Some (HBin Shr (HVar "a") (HVar "n"))));
   ("BS_BATCH_SIZE", mk_hfun [] [] (Some (HNum I32 0x20)));
   ("BS_BATCH_BYTES", mk_hfun [] [] (Some (HNum I32 4)));
   ("BS_VAL8(00)", mk_hfun [] [] (Some (HCast (CInt U32) (HNum I32 0))));
   ("BS_VAL8(02)", mk_hfun [] [] (Some (HCast (CInt U32) (HNum I32 0x2020202))));
   ("BS_VAL8(04)", mk_hfun [] [] (Some (HCast (CInt U32) (HNum I32 0x4040404))));
   ("BS_VAL8(0f)", mk_hfun [] [] (Some (HCast (CInt U32) (HNum I32 0xf0f0f0f))));
   ("BS_VAL8(10)", mk_hfun [] [] (Some (HCast (CInt U32) (HNum I32 0x10101010))));
   ("BS_VAL8(29)", mk_hfun [] [] (Some (HCast (CInt U32) (HNum I32 0x29292929))));
   ("BS_VAL8(33)", mk_hfun [] [] (Some (HCast (CInt U32) (HNum I32 0x33333333))));
   ("BS_VAL8(40)", mk_hfun [] [] (Some (HCast (CInt U32) (HNum I32 0x40404040))));
   ("BS_VAL8(55)", mk_hfun [] [] (Some (HCast (CInt U32) (HNum I32 0x55555555))));
   ("BS_VAL8(80)", mk_hfun [] [] (Some (HCast (CInt U32) (HNum U32 0x80808080))));
   ("BS_VAL8(ff)", mk_hfun [] [] (Some (HCast (CInt U32) (HNum U32 0xffffffff))));
   ("BS_VAL16(00ff)", mk_hfun [] [] (Some (HCast (CInt U32) (HNum I32 0xff00ff))));
   ("BS_VAL32(0000ffff)", mk_hfun [] [] (Some (HCast (CInt U32) (HNum I32 0xffff))))].

(* dvbcsa_bs_uint64.h *)
Definition uint64_header : list (string * hfun) :=
  [("BS_AND", mk_hfun [("a", (CInt U64)); ("b", (CInt U64))] [] (Some (HBin And (HVar "a") (HVar "b"))));
   ("BS_OR", mk_hfun [("a", (CInt U64)); ("b", (CInt U64))] [] (Some (HBin Or (HVar "a") (HVar "b"))));
   ("BS_XOR", mk_hfun [("a", (CInt U64)); ("b", (CInt U64))] [] (Some (HBin Xor (HVar "a") (HVar "b"))));
   ("BS_NOT", mk_hfun [("a", (CInt U64))] [] (Some (HNot (HVar "a"))));
   ("BS_SHL", mk_hfun [("a", (CInt U64)); ("n", (CInt I32))] [] (Some (HBin Shl (HVar "a") (HVar "n"))));
   ("BS_SHR", mk_hfun [("a", (CInt U64)); ("n", (CInt I32))] [] (Some (HBin Shr (HVar "a") (HVar "n"))));
   ("BS_BATCH_SIZE", mk_hfun [] [] (Some (HNum I32 0x40)));
   ("BS_BATCH_BYTES", mk_hfun [] [] (Some (HNum I32 8)));
   ("BS_VAL8(00)", mk_hfun [] [] (Some (HCast (CInt U64) (HNum U64 0))));
   ("BS_VAL8(02)", mk_hfun [] [] (Some (HCast (CInt U64) (HNum U64 0x202020202020202))));
   ("BS_VAL8(04)", mk_hfun [] [] (Some (HCast (CInt U64) (HNum U64 0x404040404040404))));
   ("BS_VAL8(0f)", mk_hfun [] [] (Some (HCast (CInt U64) (HNum U64 0xf0f0f0f0f0f0f0f))));
   ("BS_VAL8(10)", mk_hfun [] [] (Some (HCast (CInt U64) (HNum U64 0x1010101010101010))));
   ("BS_VAL8(29)", mk_hfun [] [] (Some (HCast (CInt U64) (HNum U64 0x2929292929292929))));
   ("BS_VAL8(33)", mk_hfun [] [] (Some (HCast (CInt U64) (HNum U64 0x3333333333333333))));
   ("BS_VAL8(40)", mk_hfun [] [] (Some (HCast (CInt U64) (HNum U64 0x4040404040404040))));
   ("BS_VAL8(55)", mk_hfun [] [] (Some (HCast (CInt U64) (HNum U64 0x5555555555555555))));
   ("BS_VAL8(80)", mk_hfun [] [] (Some (HCast (CInt U64) (HNum U64 0x8080808080808080))));
   ("BS_VAL8(ff)", mk_hfun [] [] (Some (HCast (CInt U64) (HNum U64 0xffffffffffffffff))));
   ("BS_VAL16(00ff)", mk_hfun [] [] (Some (HCast (CInt U64) (HNum U64 0xff00ff00ff00ff))));
   ("BS_VAL32(0000ffff)", mk_hfun [] [] (Some (HCast (CInt U64) (HNum U64 0xffff0000ffff))));
   ("BS_VAL64(00000000ffffffff)", mk_hfun [] [] (Some (HCast (CInt U64) (HNum U64 0xffffffff))))].

(* dvbcsa_bs_mmx.h *)
Definition mmx_header : list (string * hfun) :=
  [("BS_AND", mk_hfun [("a", CReg); ("b", CReg)] [] (Some (HCall "_m_pand" [(HVar "a"); (HVar "b")])));
   ("BS_OR", mk_hfun [("a", CReg); ("b", CReg)] [] (Some (HCall "_m_por" [(HVar "a"); (HVar "b")])));
   ("BS_XOR", mk_hfun [("a", CReg); ("b", CReg)] [] (Some (HCall "_m_pxor" [(HVar "a"); (HVar "b")])));
   ("BS_NOT", mk_hfun [("a", CReg)] [] (Some (HCall "_m_pxor" [(HVar "a"); (HCast CReg (HNum U64 0xffffffffffffffff))])));
   ("BS_SHL", mk_hfun [("a", CReg); ("n", (CInt I32))] [] (Some (HCall "_m_psllqi" [(HVar "a"); (HVar "n")])));
   ("BS_SHR", mk_hfun [("a", CReg); ("n", (CInt I32))] [] (Some (HCall "_m_psrlqi" [(HVar "a"); (HVar "n")])));
   ("BS_BATCH_SIZE", mk_hfun [] [] (Some (HNum I32 0x40)));
   ("BS_BATCH_BYTES", mk_hfun [] [] (Some (HNum I32 8)));
   ("BS_VAL8(00)", mk_hfun [] [] (Some (HCast CReg (HNum U64 0))));
   ("BS_VAL8(02)", mk_hfun [] [] (Some (HCast CReg (HNum U64 0x202020202020202))));
   ("BS_VAL8(04)", mk_hfun [] [] (Some (HCast CReg (HNum U64 0x404040404040404))));
   ("BS_VAL8(0f)", mk_hfun [] [] (Some (HCast CReg (HNum U64 0xf0f0f0f0f0f0f0f))));
   ("BS_VAL8(10)", mk_hfun [] [] (Some (HCast CReg (HNum U64 0x1010101010101010))));
   ("BS_VAL8(29)", mk_hfun [] [] (Some (HCast CReg (HNum U64 0x2929292929292929))));
   ("BS_VAL8(33)", mk_hfun [] [] (Some (HCast CReg (HNum U64 0x3333333333333333))));
   ("BS_VAL8(40)", mk_hfun [] [] (Some (HCast CReg (HNum U64 0x4040404040404040))));
   ("BS_VAL8(55)", mk_hfun [] [] (Some (HCast CReg (HNum U64 0x5555555555555555))));
   ("BS_VAL8(80)", mk_hfun [] [] (Some (HCast CReg (HNum U64 0x8080808080808080))));
   ("BS_VAL8(ff)", mk_hfun [] [] (Some (HCast CReg (HNum U64 0xffffffffffffffff))));
   ("BS_VAL16(00ff)", mk_hfun [] [] (Some (HCast CReg (HNum U64 0xff00ff00ff00ff))));
   ("BS_VAL32(0000ffff)", mk_hfun [] [] (Some (HCast CReg (HNum U64 0xffff0000ffff))));
   ("BS_VAL64(00000000ffffffff)", mk_hfun [] [] (Some (HCast CReg (HNum U64 0xffffffff))))].

(* dvbcsa_bs_sse.h *)
Definition sse2_header : list (string * hfun) :=
  [("BS_AND", mk_hfun [("a", CReg); ("b", CReg)] [] (Some (HCall "_mm_and_si128" [(HVar "a"); (HVar "b")])));
   ("BS_OR", mk_hfun [("a", CReg); ("b", CReg)] [] (Some (HCall "_mm_or_si128" [(HVar "a"); (HVar "b")])));
   ("BS_XOR", mk_hfun [("a", CReg); ("b", CReg)] [] (Some (HCall "_mm_xor_si128" [(HVar "a"); (HVar "b")])));
   ("BS_NOT", mk_hfun [("a", CReg)] [] (Some (HCall "_mm_andnot_si128" [(HVar "a"); (HCall "_mm_set_epi64x" [(HNum U64 0xffffffffffffffff); (HNum U64 0xffffffffffffffff)])])));
   ("BS_SHL", mk_hfun [("a", CReg); ("n", (CInt I32))] [] (Some (HCall "_mm_slli_epi64" [(HVar "a"); (HVar "n")])));
   ("BS_SHR", mk_hfun [("a", CReg); ("n", (CInt I32))] [] (Some (HCall "_mm_srli_epi64" [(HVar "a"); (HVar "n")])));
   ("BS_BATCH_SIZE", mk_hfun [] [] (Some (HNum I32 0x80)));
   ("BS_BATCH_BYTES", mk_hfun [] [] (Some (HNum I32 0x10)));
   ("BS_VAL8(00)", mk_hfun [] [] (Some (HCall "_mm_set_epi64x" [(HNum U64 0); (HNum U64 0)])));
   ("BS_VAL8(02)", mk_hfun [] [] (Some (HCall "_mm_set_epi64x" [(HNum U64 0x202020202020202); (HNum U64 0x202020202020202)])));
   ("BS_VAL8(04)", mk_hfun [] [] (Some (HCall "_mm_set_epi64x" [(HNum U64 0x404040404040404); (HNum U64 0x404040404040404)])));
   ("BS_VAL8(0f)", mk_hfun [] [] (Some (HCall "_mm_set_epi64x" [(HNum U64 0xf0f0f0f0f0f0f0f); (HNum U64 0xf0f0f0f0f0f0f0f)])));
   ("BS_VAL8(10)", mk_hfun [] [] (Some (HCall "_mm_set_epi64x" [(HNum U64 0x1010101010101010); (HNum U64 0x1010101010101010)])));
   ("BS_VAL8(29)", mk_hfun [] [] (Some (HCall "_mm_set_epi64x" [(HNum U64 0x2929292929292929); (HNum U64 0x2929292929292929)])));
   ("BS_VAL8(33)", mk_hfun [] [] (Some (HCall "_mm_set_epi64x" [(HNum U64 0x3333333333333333); (HNum U64 0x3333333333333333)])));
   ("BS_VAL8(40)", mk_hfun [] [] (Some (HCall "_mm_set_epi64x" [(HNum U64 0x4040404040404040); (HNum U64 0x4040404040404040)])));
   ("BS_VAL8(55)", mk_hfun [] [] (Some (HCall "_mm_set_epi64x" [(HNum U64 0x5555555555555555); (HNum U64 0x5555555555555555)])));
   ("BS_VAL8(80)", mk_hfun [] [] (Some (HCall "_mm_set_epi64x" [(HNum U64 0x8080808080808080); (HNum U64 0x8080808080808080)])));
   ("BS_VAL8(ff)", mk_hfun [] [] (Some (HCall "_mm_set_epi64x" [(HNum U64 0xffffffffffffffff); (HNum U64 0xffffffffffffffff)])));
   ("BS_VAL16(00ff)", mk_hfun [] [] (Some (HCall "_mm_set_epi64x" [(HNum U64 0xff00ff00ff00ff); (HNum U64 0xff00ff00ff00ff)])));
   ("BS_VAL32(0000ffff)", mk_hfun [] [] (Some (HCall "_mm_set_epi64x" [(HNum U64 0xffff0000ffff); (HNum U64 0xffff0000ffff)])));
   ("BS_VAL64(00000000ffffffff)", mk_hfun [] [] (Some (HCall "_mm_set_epi64x" [(HNum U64 0xffffffff); (HNum U64 0xffffffff)])))].

(* dvbcsa_bs_sse.h *)
Definition ssse3_header : list (string * hfun) :=
  [("BS_AND", mk_hfun [("a", CReg); ("b", CReg)] [] (Some (HCall "_mm_and_si128" [(HVar "a"); (HVar "b")])));
   ("BS_OR", mk_hfun [("a", CReg); ("b", CReg)] [] (Some (HCall "_mm_or_si128" [(HVar "a"); (HVar "b")])));
   ("BS_XOR", mk_hfun [("a", CReg); ("b", CReg)] [] (Some (HCall "_mm_xor_si128" [(HVar "a"); (HVar "b")])));
   ("BS_NOT", mk_hfun [("a", CReg)] [] (Some (HCall "_mm_andnot_si128" [(HVar "a"); (HCall "_mm_set_epi64x" [(HNum U64 0xffffffffffffffff); (HNum U64 0xffffffffffffffff)])])));
   ("BS_SHL", mk_hfun [("a", CReg); ("n", (CInt I32))] [] (Some (HCall "_mm_slli_epi64" [(HVar "a"); (HVar "n")])));
   ("BS_SHR", mk_hfun [("a", CReg); ("n", (CInt I32))] [] (Some (HCall "_mm_srli_epi64" [(HVar "a"); (HVar "n")])));
   ("BS_BATCH_SIZE", mk_hfun [] [] (Some (HNum I32 0x80)));
   ("BS_BATCH_BYTES", mk_hfun [] [] (Some (HNum I32 0x10)));
   ("BS_VAL8(00)", mk_hfun [] [] (Some (HCall "_mm_set_epi64x" [(HNum U64 0); (HNum U64 0)])));
   ("BS_VAL8(02)", mk_hfun [] [] (Some (HCall "_mm_set_epi64x" [(HNum U64 0x202020202020202); (HNum U64 0x202020202020202)])));
   ("BS_VAL8(04)", mk_hfun [] [] (Some (HCall "_mm_set_epi64x" [(HNum U64 0x404040404040404); (HNum U64 0x404040404040404)])));
   ("BS_VAL8(0f)", mk_hfun [] [] (Some (HCall "_mm_set_epi64x" [(HNum U64 0xf0f0f0f0f0f0f0f); (HNum U64 0xf0f0f0f0f0f0f0f)])));
   ("BS_VAL8(10)", mk_hfun [] [] (Some (HCall "_mm_set_epi64x" [(HNum U64 0x1010101010101010); (HNum U64 0x1010101010101010)])));
   ("BS_VAL8(29)", mk_hfun [] [] (Some (HCall "_mm_set_epi64x" [(HNum U64 0x2929292929292929); (HNum U64 0x2929292929292929)])));
   ("BS_VAL8(33)", mk_hfun [] [] (Some (HCall "_mm_set_epi64x" [(HNum U64 0x3333333333333333); (HNum U64 0x3333333333333333)])));
   ("BS_VAL8(40)", mk_hfun [] [] (Some (HCall "_mm_set_epi64x" [(HNum U64 0x4040404040404040); (HNum U64 0x4040404040404040)])));
   ("BS_VAL8(55)", mk_hfun [] [] (Some (HCall "_mm_set_epi64x" [(HNum U64 0x5555555555555555); (HNum U64 0x5555555555555555)])));
   ("BS_VAL8(80)", mk_hfun [] [] (Some (HCall "_mm_set_epi64x" [(HNum U64 0x8080808080808080); (HNum U64 0x8080808080808080)])));
   ("BS_VAL8(ff)", mk_hfun [] [] (Some (HCall "_mm_set_epi64x" [(HNum U64 0xffffffffffffffff); (HNum U64 0xffffffffffffffff)])));
   ("BS_VAL16(00ff)", mk_hfun [] [] (Some (HCall "_mm_set_epi64x" [(HNum U64 0xff00ff00ff00ff); (HNum U64 0xff00ff00ff00ff)])));
   ("BS_VAL32(0000ffff)", mk_hfun [] [] (Some (HCall "_mm_set_epi64x" [(HNum U64 0xffff0000ffff); (HNum U64 0xffff0000ffff)])));
   ("BS_VAL64(00000000ffffffff)", mk_hfun [] [] (Some (HCall "_mm_set_epi64x" [(HNum U64 0xffffffff); (HNum U64 0xffffffff)])));
   ("BS_LOAD_DEINTERLEAVE_8", mk_hfun [("ptr", CPtr); ("lo", CReg); ("hi", CReg)] [
    HBlock [HDecl CReg "a" None;
     HDecl CReg "b" None;
     HAct (HSet "a" (HCall "_mm_load_si128" [(HVar "ptr")]));
     HAct (HSet "b" (HCall "_mm_load_si128" [(HBin Add (HVar "ptr") (HNum I32 1))]));
     HAct (HSet "a" (HCall "_mm_shuffle_epi8" [(HVar "a"); (HCall "_mm_set_epi8" [(HNum I32 0xf); (HNum I32 0xd); (HNum I32 0xb); (HNum I32 9); (HNum I32 7); (HNum I32 5); (HNum I32 3); (HNum I32 1); (HNum I32 0xe); (HNum I32 0xc); (HNum I32 0xa); (HNum I32 8); (HNum I32 6); (HNum I32 4); (HNum I32 2); (HNum I32 0)])]));
     HAct (HSet "b" (HCall "_mm_shuffle_epi8" [(HVar "b"); (HCall "_mm_set_epi8" [(HNum I32 0xf); (HNum I32 0xd); (HNum I32 0xb); (HNum I32 9); (HNum I32 7); (HNum I32 5); (HNum I32 3); (HNum I32 1); (HNum I32 0xe); (HNum I32 0xc); (HNum I32 0xa); (HNum I32 8); (HNum I32 6); (HNum I32 4); (HNum I32 2); (HNum I32 0)])]));
     HAct (HSet "lo" (HCall "_mm_unpacklo_epi64" [(HVar "a"); (HVar "b")]));
     HAct (HSet "hi" (HCall "_mm_unpackhi_epi64" [(HVar "a"); (HVar "b")]))]] None)].

(* dvbcsa_bs_avx2.h *)
Definition avx2_header : list (string * hfun) :=
  [("BS_AND", mk_hfun [("a", CReg); ("b", CReg)] [] (Some (HCall "_mm256_and_si256" [(HVar "a"); (HVar "b")])));
   ("BS_OR", mk_hfun [("a", CReg); ("b", CReg)] [] (Some (HCall "_mm256_or_si256" [(HVar "a"); (HVar "b")])));
   ("BS_XOR", mk_hfun [("a", CReg); ("b", CReg)] [] (Some (HCall "_mm256_xor_si256" [(HVar "a"); (HVar "b")])));
   ("BS_NOT", mk_hfun [("a", CReg)] [] (Some (HCall "_mm256_andnot_si256" [(HVar "a"); (HCall "_mm256_set_epi64x" [(HNum U64 0xffffffffffffffff); (HNum U64 0xffffffffffffffff); (HNum U64 0xffffffffffffffff); (HNum U64 0xffffffffffffffff)])])));
   ("BS_SHL", mk_hfun [("a", CReg); ("n", (CInt I32))] [] (Some (HCall "_mm256_slli_epi64" [(HVar "a"); (HVar "n")])));
   ("BS_SHR", mk_hfun [("a", CReg); ("n", (CInt I32))] [] (Some (HCall "_mm256_srli_epi64" [(HVar "a"); (HVar "n")])));
   ("BS_BATCH_SIZE", mk_hfun [] [] (Some (HNum I32 0x100)));
   ("BS_BATCH_BYTES", mk_hfun [] [] (Some (HNum I32 0x20)));
   ("BS_VAL8(00)", mk_hfun [] [] (Some (HCall "_mm256_set_epi64x" [(HNum U64 0); (HNum U64 0); (HNum U64 0); (HNum U64 0)])));
   ("BS_VAL8(02)", mk_hfun [] [] (Some (HCall "_mm256_set_epi64x" [(HNum U64 0x202020202020202); (HNum U64 0x202020202020202); (HNum U64 0x202020202020202); (HNum U64 0x202020202020202)])));
   ("BS_VAL8(04)", mk_hfun [] [] (Some (HCall "_mm256_set_epi64x" [(HNum U64 0x404040404040404); (HNum U64 0x404040404040404); (HNum U64 0x404040404040404); (HNum U64 0x404040404040404)])));
   ("BS_VAL8(0f)", mk_hfun [] [] (Some (HCall "_mm256_set_epi64x" [(HNum U64 0xf0f0f0f0f0f0f0f); (HNum U64 0xf0f0f0f0f0f0f0f); (HNum U64 0xf0f0f0f0f0f0f0f); (HNum U64 0xf0f0f0f0f0f0f0f)])));
   ("BS_VAL8(10)", mk_hfun [] [] (Some (HCall "_mm256_set_epi64x" [(HNum U64 0x1010101010101010); (HNum U64 0x1010101010101010); (HNum U64 0x1010101010101010); (HNum U64 0x1010101010101010)])));
   ("BS_VAL8(29)", mk_hfun [] [] (Some (HCall "_mm256_set_epi64x" [(HNum U64 0x2929292929292929); (HNum U64 0x2929292929292929); (HNum U64 0x2929292929292929); (HNum U64 0x2929292929292929)])));
   ("BS_VAL8(33)", mk_hfun [] [] (Some (HCall "_mm256_set_epi64x" [(HNum U64 0x3333333333333333); (HNum U64 0x3333333333333333); (HNum U64 0x3333333333333333); (HNum U64 0x3333333333333333)])));
   ("BS_VAL8(40)", mk_hfun [] [] (Some (HCall "_mm256_set_epi64x" [(HNum U64 0x4040404040404040); (HNum U64 0x4040404040404040); (HNum U64 0x4040404040404040); (HNum U64 0x4040404040404040)])));
   ("BS_VAL8(55)", mk_hfun [] [] (Some (HCall "_mm256_set_epi64x" [(HNum U64 0x5555555555555555); (HNum U64 0x5555555555555555); (HNum U64 0x5555555555555555); (HNum U64 0x5555555555555555)])));
   ("BS_VAL8(80)", mk_hfun [] [] (Some (HCall "_mm256_set_epi64x" [(HNum U64 0x8080808080808080); (HNum U64 0x8080808080808080); (HNum U64 0x8080808080808080); (HNum U64 0x8080808080808080)])));
   ("BS_VAL8(ff)", mk_hfun [] [] (Some (HCall "_mm256_set_epi64x" [(HNum U64 0xffffffffffffffff); (HNum U64 0xffffffffffffffff); (HNum U64 0xffffffffffffffff); (HNum U64 0xffffffffffffffff)])));
   ("BS_VAL16(00ff)", mk_hfun [] [] (Some (HCall "_mm256_set_epi64x" [(HNum U64 0xff00ff00ff00ff); (HNum U64 0xff00ff00ff00ff); (HNum U64 0xff00ff00ff00ff); (HNum U64 0xff00ff00ff00ff)])));
   ("BS_VAL32(0000ffff)", mk_hfun [] [] (Some (HCall "_mm256_set_epi64x" [(HNum U64 0xffff0000ffff); (HNum U64 0xffff0000ffff); (HNum U64 0xffff0000ffff); (HNum U64 0xffff0000ffff)])));
   ("BS_VAL64(00000000ffffffff)", mk_hfun [] [] (Some (HCall "_mm256_set_epi64x" [(HNum U64 0xffffffff); (HNum U64 0xffffffff); (HNum U64 0xffffffff); (HNum U64 0xffffffff)])));
   ("BS_LOAD_DEINTERLEAVE_8", mk_hfun [("ptr", CPtr); ("lo", CReg); ("hi", CReg)] [
    HBlock [HAct (HSet "lo" (HCall "_mm256_load_si256" [(HVar "ptr")]));
     HAct (HSet "hi" (HCall "_mm256_load_si256" [(HBin Add (HVar "ptr") (HNum I32 1))]))]] None);
   ("BLOCK_SBOX_PERMUTE", mk_hfun [("src", CPtr); ("dst", CPtr)] [
    HAct (HDo "avx2_block_sbox_permute" [(HVar "src"); (HVar "dst")])] None);
   ("avx2_block_sbox_permute", mk_hfun [("src", CPtr); ("dst", CPtr)] [
    HDecl (CInt I32) "j" None;
    HDecl CReg "a" None;
    HDecl CReg "i" None;
    HDecl CReg "b" None;
    HDecl CReg "res1" None;
    HDecl CReg "res2" None;
    HDecl CReg "lsb_mask" (Some (HCall "_mm256_set_epi32" [(HNum I32 0xff); (HNum I32 0xff); (HNum I32 0xff); (HNum I32 0xff); (HNum I32 0xff); (HNum I32 0xff); (HNum I32 0xff); (HNum I32 0xff)]));
    HDecl CReg "lsw_mask" (Some (HCall "_mm256_set_epi32" [(HNum I32 0xffff); (HNum I32 0xffff); (HNum I32 0xffff); (HNum I32 0xffff); (HNum I32 0xffff); (HNum I32 0xffff); (HNum I32 0xffff); (HNum I32 0xffff)]));
    HDecl CReg "shuffle_mask" (Some (HCall "_mm256_set_epi8" [(HNum I32 0xf); (HNum I32 0xd); (HNum I32 0xb); (HNum I32 9); (HNum I32 7); (HNum I32 5); (HNum I32 3); (HNum I32 1); (HNum I32 0xe); (HNum I32 0xc); (HNum I32 0xa); (HNum I32 8); (HNum I32 6); (HNum I32 4); (HNum I32 2); (HNum I32 0); (HNum I32 0xf); (HNum I32 0xd); (HNum I32 0xb); (HNum I32 9); (HNum I32 7); (HNum I32 5); (HNum I32 3); (HNum I32 1); (HNum I32 0xe); (HNum I32 0xc); (HNum I32 0xa); (HNum I32 8); (HNum I32 6); (HNum I32 4); (HNum I32 2); (HNum I32 0)]));
    HFor (HSet "j" (HNum I32 0)) (HBin Lt (HVar "j") (HNum I32 8)) (HSet "j" (HBin Add (HVar "j") (HNum I32 1))) [
      HAct (HSet "i" (HCall "_mm256_load_si256" [(HBin Add (HVar "src") (HVar "j"))]));
      HAct (HSet "a" (HCall "_mm256_and_si256" [(HVar "i"); (HVar "lsb_mask")]));
      HAct (HSet "b" (HCall "_mm256_i32gather_epi32" [(HCast CPtr (HVar "dvbcsa_block_sbox_perm")); (HVar "a"); (HNum I32 2)]));
      HAct (HSet "res1" (HCall "_mm256_and_si256" [(HVar "b"); (HVar "lsw_mask")]));
      HAct (HSet "i" (HCall "_mm256_srli_epi32" [(HVar "i"); (HNum I32 8)]));
      HAct (HSet "a" (HCall "_mm256_and_si256" [(HVar "i"); (HVar "lsb_mask")]));
      HAct (HSet "b" (HCall "_mm256_i32gather_epi32" [(HCast CPtr (HVar "dvbcsa_block_sbox_perm")); (HVar "a"); (HNum I32 2)]));
      HAct (HSet "b" (HCall "_mm256_slli_epi32" [(HVar "b"); (HNum I32 0x10)]));
      HAct (HSet "res1" (HCall "_mm256_or_si256" [(HVar "res1"); (HVar "b")]));
      HAct (HSet "i" (HCall "_mm256_srli_epi32" [(HVar "i"); (HNum I32 8)]));
      HAct (HSet "a" (HCall "_mm256_and_si256" [(HVar "i"); (HVar "lsb_mask")]));
      HAct (HSet "b" (HCall "_mm256_i32gather_epi32" [(HCast CPtr (HVar "dvbcsa_block_sbox_perm")); (HVar "a"); (HNum I32 2)]));
      HAct (HSet "res2" (HCall "_mm256_and_si256" [(HVar "b"); (HVar "lsw_mask")]));
      HAct (HSet "i" (HCall "_mm256_srli_epi32" [(HVar "i"); (HNum I32 8)]));
      HAct (HSet "a" (HCall "_mm256_and_si256" [(HVar "i"); (HVar "lsb_mask")]));
      HAct (HSet "b" (HCall "_mm256_i32gather_epi32" [(HCast CPtr (HVar "dvbcsa_block_sbox_perm")); (HVar "a"); (HNum I32 2)]));
      HAct (HSet "b" (HCall "_mm256_slli_epi32" [(HVar "b"); (HNum I32 0x10)]));
      HAct (HSet "res2" (HCall "_mm256_or_si256" [(HVar "res2"); (HVar "b")]));
      HAct (HSet "a" (HCall "_mm256_unpacklo_epi32" [(HVar "res1"); (HVar "res2")]));
      HAct (HSet "b" (HCall "_mm256_unpackhi_epi32" [(HVar "res1"); (HVar "res2")]));
      HAct (HSet "a" (HCall "_mm256_shuffle_epi8" [(HVar "res1"); (HVar "shuffle_mask")]));
      HAct (HSet "b" (HCall "_mm256_shuffle_epi8" [(HVar "res2"); (HVar "shuffle_mask")]));
      HAct (HSet "res1" (HCall "_mm256_unpacklo_epi16" [(HVar "a"); (HVar "b")]));
      HAct (HSet "res2" (HCall "_mm256_unpackhi_epi16" [(HVar "a"); (HVar "b")]));
      HAct (HDo "_mm256_store_si256" [(HBin Add (HVar "dst") (HBin Mul (HNum I32 2) (HVar "j"))); (HVar "res1")]);
      HAct (HDo "_mm256_store_si256" [(HBin Add (HBin Add (HVar "dst") (HBin Mul (HNum I32 2) (HVar "j"))) (HNum I32 1)); (HVar "res2")])]] None)].

(* dvbcsa_bs_neon.h *)
Definition neon_header : list (string * hfun) :=
  [("BS_AND", mk_hfun [("a", CReg); ("b", CReg)] [] (Some (HCall "vandq_u64" [(HVar "a"); (HVar "b")])));
   ("BS_OR", mk_hfun [("a", CReg); ("b", CReg)] [] (Some (HCall "vorrq_u64" [(HVar "a"); (HVar "b")])));
   ("BS_XOR", mk_hfun [("a", CReg); ("b", CReg)] [] (Some (HCall "veorq_u64" [(HVar "a"); (HVar "b")])));
   ("BS_NOT", mk_hfun [("a", CReg)] [] (Some (HCall "vreinterpretq_u64_u8" [(HCall "vmvnq_u8" [(HCall "vreinterpretq_u8_u64" [(HVar "a")])])])));
   ("BS_SHL", mk_hfun [("a", CReg); ("n", (CInt I32))] [] (Some (HCall "vshlq_n_u64" [(HVar "a"); (HVar "n")])));
   ("BS_SHR", mk_hfun [("a", CReg); ("n", (CInt I32))] [] (Some (HCall "vshrq_n_u64" [(HVar "a"); (HVar "n")])));
   ("BS_BATCH_SIZE", mk_hfun [] [] (Some (HNum I32 0x80)));
   ("BS_BATCH_BYTES", mk_hfun [] [] (Some (HNum I32 0x10)));
   ("BS_VAL8(00)", mk_hfun [] [] (Some (HCall "vreinterpretq_u64_u8" [(HCall "vdupq_n_u8" [(HNum I32 0)])])));
   ("BS_VAL8(02)", mk_hfun [] [] (Some (HCall "vreinterpretq_u64_u8" [(HCall "vdupq_n_u8" [(HNum I32 2)])])));
   ("BS_VAL8(04)", mk_hfun [] [] (Some (HCall "vreinterpretq_u64_u8" [(HCall "vdupq_n_u8" [(HNum I32 4)])])));
   ("BS_VAL8(0f)", mk_hfun [] [] (Some (HCall "vreinterpretq_u64_u8" [(HCall "vdupq_n_u8" [(HNum I32 0xf)])])));
   ("BS_VAL8(10)", mk_hfun [] [] (Some (HCall "vreinterpretq_u64_u8" [(HCall "vdupq_n_u8" [(HNum I32 0x10)])])));
   ("BS_VAL8(29)", mk_hfun [] [] (Some (HCall "vreinterpretq_u64_u8" [(HCall "vdupq_n_u8" [(HNum I32 0x29)])])));
   ("BS_VAL8(33)", mk_hfun [] [] (Some (HCall "vreinterpretq_u64_u8" [(HCall "vdupq_n_u8" [(HNum I32 0x33)])])));
   ("BS_VAL8(40)", mk_hfun [] [] (Some (HCall "vreinterpretq_u64_u8" [(HCall "vdupq_n_u8" [(HNum I32 0x40)])])));
   ("BS_VAL8(55)", mk_hfun [] [] (Some (HCall "vreinterpretq_u64_u8" [(HCall "vdupq_n_u8" [(HNum I32 0x55)])])));
   ("BS_VAL8(80)", mk_hfun [] [] (Some (HCall "vreinterpretq_u64_u8" [(HCall "vdupq_n_u8" [(HNum I32 0x80)])])));
   ("BS_VAL8(ff)", mk_hfun [] [] (Some (HCall "vreinterpretq_u64_u8" [(HCall "vdupq_n_u8" [(HNum I32 0xff)])])));
   ("BS_VAL16(00ff)", mk_hfun [] [] (Some (HCall "vreinterpretq_u64_u16" [(HCall "vdupq_n_u16" [(HNum I32 0xff)])])));
   ("BS_VAL32(0000ffff)", mk_hfun [] [] (Some (HCall "vreinterpretq_u64_u32" [(HCall "vdupq_n_u32" [(HNum I32 0xffff)])])));
   ("BS_VAL64(00000000ffffffff)", mk_hfun [] [] (Some (HCall "vdupq_n_u64" [(HNum U64 0xffffffff)])));
   ("BS_SWAP32_LE", mk_hfun [("t", CReg); ("b", CReg)] [
    HBlock [HDecl CPair "tmp" (Some (HCall "vtrnq_u32" [(HCall "vreinterpretq_u32_u64" [(HVar "t")]); (HCall "vreinterpretq_u32_u64" [(HVar "b")])]));
     HAct (HSet "t" (HCall "vreinterpretq_u64_u32" [(HPart (HVar "tmp") 0)]));
     HAct (HSet "b" (HCall "vreinterpretq_u64_u32" [(HPart (HVar "tmp") 1)]))]] None);
   ("BS_SWAP16_LE", mk_hfun [("t", CReg); ("b", CReg)] [
    HBlock [HDecl CPair "tmp" (Some (HCall "vtrnq_u16" [(HCall "vreinterpretq_u16_u64" [(HVar "t")]); (HCall "vreinterpretq_u16_u64" [(HVar "b")])]));
     HAct (HSet "t" (HCall "vreinterpretq_u64_u16" [(HPart (HVar "tmp") 0)]));
     HAct (HSet "b" (HCall "vreinterpretq_u64_u16" [(HPart (HVar "tmp") 1)]))]] None);
   ("BS_SWAP8_LE", mk_hfun [("t", CReg); ("b", CReg)] [
    HBlock [HDecl CPair "tmp" (Some (HCall "vtrnq_u8" [(HCall "vreinterpretq_u8_u64" [(HVar "t")]); (HCall "vreinterpretq_u8_u64" [(HVar "b")])]));
     HAct (HSet "t" (HCall "vreinterpretq_u64_u8" [(HPart (HVar "tmp") 0)]));
     HAct (HSet "b" (HCall "vreinterpretq_u64_u8" [(HPart (HVar "tmp") 1)]))]] None);
   ("BS_LOAD_DEINTERLEAVE_8", mk_hfun [("ptr", CPtr); ("lo", CReg); ("hi", CReg)] [
    HBlock [HDecl CPair "tmp" (Some (HCall "vld2q_u8" [(HCast CPtr (HVar "ptr"))]));
     HAct (HSet "lo" (HCall "vreinterpretq_u64_u8" [(HPart (HVar "tmp") 0)]));
     HAct (HSet "hi" (HCall "vreinterpretq_u64_u8" [(HPart (HVar "tmp") 1)]))]] None)].

Definition header (t : target) : list (string * hfun) :=
  match t with
  | UINT32 => uint32_header
  | UINT64 => uint64_header
  | MMX => mmx_header
  | SSE2 => sse2_header
  | SSSE3 => ssse3_header
  | AVX2 => avx2_header
  | NEON => neon_header
  end.
