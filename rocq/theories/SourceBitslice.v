(* GENERATED by tools/gen_source_bs.py from the C text of /repo/src (dvbcsa_bs.h, dvbcsa_bs_transpose.h,
   dvbcsa_bs_stream_kernel.h/.inc and the dvbcsa_bs_*.c files): the syntax trees of the functions, for BsC.v. *)
From Coq Require Import String.
From Verif Require Import Base MiniC ModelBsWord BsC.
Local Open Scope N_scope.
Local Open Scope string_scope.
Import ListNotations.

Definition src_tab_dvbcsa_block_sbox_perm : list N := [
   0xd43a; 0xd9ea; 0x5168; 0xfdfe; 0xc633; 0x5be9; 0x1888; 0x941a;
   0x8a83; 0xbbcf; 0x4be1; 0xf77f; 0xdcba; 0xc9e2; 0x5438; 0x8412;
   0x59e8; 0xe227; 0x4361; 0x2e95; 0x300c; 0xe436; 0x6be5; 0x4570;
   0xc8a2; 0xa006; 0x8882; 0x757c; 0xa617; 0xcaa3; 0xe026; 0x1349;
   0xfcbe; 0xd57a; 0x736d; 0xa347; 0xbc1; 0x751; 0xba8f; 0xcff3;
   0x39cc; 0x975b; 0xe367; 0x7ebd; 0x3bcd; 0x1418; 0x1008; 0x1bc9;
   0xffff; 0x5369; 0xfbef; 0x8203; 0xb14e; 0x1148; 0x914a; 0x2884;
   0xf63f; 0x6cb4; 0x410; 0x2004; 0x3ddc; 0x6ff5; 0x355c; 0xa9c6;
   0xa416; 0xdaab; 0x78ac; 0x314c; 0x4ff1; 0xd16a; 0xf22f; 0x743c;
   0xd63b; 0x2dd4; 0x2fd5; 0x2c94; 0xdd0; 0x29c4; 0xc363; 0xc162;
   0x4771; 0x4aa1; 0x5ff9; 0xb34f; 0xf02e; 0xd8aa; 0x2bc5; 0xa556;
   0xcbe3; 0x5639; 0x8e93; 0xb9ce; 0x6365; 0x6164; 0x69e4; 0x1558;
   0x716c; 0x1619; 0x8142; 0x5779; 0x3fdd; 0xf9ee; 0xac96; 0xedf6;
   0x988a; 0x79ec; 0xb41e; 0x2a85; 0x8753; 0x2345; 0xbdde; 0xdebb;
   0xf57e; 0x900a; 0x9c9a; 0x8613; 0xd02a; 0x3e9d; 0x89c2; 0xb55e;
   0x955a; 0xb61f; 0xc432; 0x6635; 0x3c9c; 0x58a8; 0xc773; 0x4430;
   0x5229; 0x763d; 0xebe7; 0x8c92; 0xaa87; 0x961b; 0xd22b; 0x934b;
   0x6aa5; 0xa757; 0xae97; 0x140; 0x2615; 0xe9e6; 0x7cbc; 0xb00e;
   0xdbeb; 0x8bc3; 0x6434; 0x722d; 0x5cb8; 0x2144; 0x6225; 0x68a4;
   0x341c; 0xabc7; 0xc223; 0x7bed; 0xc90; 0xf16e; 0x550; 0x0;
   0x1e99; 0xbc9e; 0x334d; 0x1fd9; 0x9dda; 0x3a8d; 0xf36f; 0xb75f;
   0xf43e; 0xafd7; 0x4221; 0x6574; 0xa886; 0xbfdf; 0xd36b; 0x2205;
   0xb88e; 0x375d; 0xe637; 0x611; 0x8dd2; 0x5028; 0x6775; 0xadd6;
   0xeaa7; 0xe777; 0x6024; 0xfebf; 0x4df0; 0x4cb0; 0x8002; 0xeeb7;
   0x5df8; 0x7dfc; 0xa81; 0x1209; 0x4eb1; 0x201; 0xe576; 0xe91;
   0x777d; 0xb20f; 0x19c8; 0x48a0; 0xcdf2; 0x9bcb; 0x5578; 0x4160;
   0xfd1; 0xeff7; 0x49e0; 0x6eb5; 0x1c98; 0xc022; 0xceb3; 0x4020;
   0x361d; 0xe8a6; 0x9fdb; 0xd77b; 0x1759; 0xbe9f; 0xf8ae; 0x4631;
   0xdffb; 0x8fd3; 0xecb6; 0x99ca; 0x8343; 0xc572; 0xa207; 0x6df4;
   0x1dd8; 0x341; 0x2414; 0x2755; 0x320d; 0x2554; 0x9a8b; 0x5eb9;
   0x7aad; 0xa146; 0x920b; 0xfaaf; 0x880; 0x8552; 0x702c; 0xddfa;
   0x388c; 0x1a89; 0xe166; 0x7ffd; 0xccb2; 0x5aa9; 0x9e9b; 0x9c0].
Definition src_tab_bs_block_sbox : list N := [
   0x3a; 0xea; 0x68; 0xfe; 0x33; 0xe9; 0x88; 0x1a;
   0x83; 0xcf; 0xe1; 0x7f; 0xba; 0xe2; 0x38; 0x12;
   0xe8; 0x27; 0x61; 0x95; 0xc; 0x36; 0xe5; 0x70;
   0xa2; 0x6; 0x82; 0x7c; 0x17; 0xa3; 0x26; 0x49;
   0xbe; 0x7a; 0x6d; 0x47; 0xc1; 0x51; 0x8f; 0xf3;
   0xcc; 0x5b; 0x67; 0xbd; 0xcd; 0x18; 0x8; 0xc9;
   0xff; 0x69; 0xef; 0x3; 0x4e; 0x48; 0x4a; 0x84;
   0x3f; 0xb4; 0x10; 0x4; 0xdc; 0xf5; 0x5c; 0xc6;
   0x16; 0xab; 0xac; 0x4c; 0xf1; 0x6a; 0x2f; 0x3c;
   0x3b; 0xd4; 0xd5; 0x94; 0xd0; 0xc4; 0x63; 0x62;
   0x71; 0xa1; 0xf9; 0x4f; 0x2e; 0xaa; 0xc5; 0x56;
   0xe3; 0x39; 0x93; 0xce; 0x65; 0x64; 0xe4; 0x58;
   0x6c; 0x19; 0x42; 0x79; 0xdd; 0xee; 0x96; 0xf6;
   0x8a; 0xec; 0x1e; 0x85; 0x53; 0x45; 0xde; 0xbb;
   0x7e; 0xa; 0x9a; 0x13; 0x2a; 0x9d; 0xc2; 0x5e;
   0x5a; 0x1f; 0x32; 0x35; 0x9c; 0xa8; 0x73; 0x30;
   0x29; 0x3d; 0xe7; 0x92; 0x87; 0x1b; 0x2b; 0x4b;
   0xa5; 0x57; 0x97; 0x40; 0x15; 0xe6; 0xbc; 0xe;
   0xeb; 0xc3; 0x34; 0x2d; 0xb8; 0x44; 0x25; 0xa4;
   0x1c; 0xc7; 0x23; 0xed; 0x90; 0x6e; 0x50; 0x0;
   0x99; 0x9e; 0x4d; 0xd9; 0xda; 0x8d; 0x6f; 0x5f;
   0x3e; 0xd7; 0x21; 0x74; 0x86; 0xdf; 0x6b; 0x5;
   0x8e; 0x5d; 0x37; 0x11; 0xd2; 0x28; 0x75; 0xd6;
   0xa7; 0x77; 0x24; 0xbf; 0xf0; 0xb0; 0x2; 0xb7;
   0xf8; 0xfc; 0x81; 0x9; 0xb1; 0x1; 0x76; 0x91;
   0x7d; 0xf; 0xc8; 0xa0; 0xf2; 0xcb; 0x78; 0x60;
   0xd1; 0xf7; 0xe0; 0xb5; 0x98; 0x22; 0xb3; 0x20;
   0x1d; 0xa6; 0xdb; 0x7b; 0x59; 0x9f; 0xae; 0x31;
   0xfb; 0xd3; 0xb6; 0xca; 0x43; 0x72; 0x7; 0xf4;
   0xd8; 0x41; 0x14; 0x55; 0xd; 0x54; 0x8b; 0xb9;
   0xad; 0x46; 0xb; 0xaf; 0x80; 0x52; 0x2c; 0xfa;
   0x8c; 0x89; 0x66; 0xfd; 0xb2; 0xa9; 0x9b; 0xc0].
Definition src_bs_tables (x : string) : option (ity * list N) :=
  if String.eqb x "dvbcsa_block_sbox" then Some (U8, src_tab_bs_block_sbox) else
  if String.eqb x "dvbcsa_block_sbox_perm" then Some (U16, src_tab_dvbcsa_block_sbox_perm) else None.

(* true: a union *)
Definition src_bs_structs (c : build) (s : string) : option (bool * list (string * ctype)) :=
  if String.eqb s "dvbcsa_bs_key_s" then Some (false, [("block", TArr (TWord) 56); ("stream", TArr (TWord) 64)]) else
  if String.eqb s "dvbcsa_bs_block8_t" then Some (true, [("u64", TInt U64); ("u32", TArr (TInt U32) 2)]) else
  if String.eqb s "dvbcsa_bs_pkt_buf" then Some (false, [("n_packets", TInt I32); ("maxlen", TInt U32); ("len8", TArr (TInt U32) (N.of_nat (batch_size c))); ("data", TArr (TStruct "dvbcsa_bs_block8_t") (((N.of_nat (batch_size c)) * 184) / 8))]) else
  if String.eqb s "dvbcsa_bs_stream_regs_s" then Some (false, [("A", TArr (TArr (TWord) 4) 42); ("B", TArr (TArr (TWord) 4) 42); ("X", TArr (TWord) 4); ("Y", TArr (TWord) 4); ("Z", TArr (TWord) 4); ("D", TArr (TWord) 4); ("E", TArr (TWord) 4); ("F", TArr (TWord) 4); ("sb", TArr (TWord) 64); ("p", TWord); ("q", TWord); ("r", TWord)]) else
  if String.eqb s "dvbcsa_bs_batch_s" then Some (false, [("data", TPtr (TInt U8)); ("len", TInt U32)]) else
  None.

Definition bs_matrix_transpose_block_1 (c : build) : fundef := mk_fun "dvbcsa_bs_matrix_transpose_block" (TVoid) [("row", TPtr (TWord))] [
    SDecl (TInt I32) "j" None;
    SFor (Some (EAssign (EVar "j") (EConst I32 0))) (EBin Lt (EVar "j") (EConst I32 0x40)) (Some (EOpAssign Add (EVar "j") (EConst I32 0x20)))
      (SBlock [
        SDecl (TInt I32) "i" None;
        SFor (Some (EAssign (EVar "i") (EConst I32 0))) (EBin Lt (EVar "i") (EConst I32 8)) (Some (EPost Add (EVar "i")))
          (SBlock [
            SDecl (TWord) "a0" None;
            SDecl (TWord) "a1" None;
            SDecl (TWord) "a2" None;
            SDecl (TWord) "a3" None;
            SExpr (EAssign (EVar "a0") (EIndex (EVar "row") (EBin Add (EBin Add (EVar "j") (EVar "i")) (EConst I32 0))));
            SExpr (EAssign (EVar "a1") (EIndex (EVar "row") (EBin Add (EBin Add (EVar "j") (EVar "i")) (EConst I32 8))));
            SExpr (EAssign (EVar "a2") (EIndex (EVar "row") (EBin Add (EBin Add (EVar "j") (EVar "i")) (EConst I32 0x10))));
            SExpr (EAssign (EVar "a3") (EIndex (EVar "row") (EBin Add (EBin Add (EVar "j") (EVar "i")) (EConst I32 0x18))));
            SBlock [
              SDecl (TWord) "tmp" None;
              SExpr (EAssign (EVar "tmp") (EWop WAnd (EWop WXor (EWShr (EVar "a1") (EConst I32 8)) (EVar "a0")) (EWVal 2 0xff)));
              SExpr (EAssign (EVar "a0") (EWop WXor (EVar "a0") (EVar "tmp")));
              SExpr (EAssign (EVar "a1") (EWop WXor (EVar "a1") (EWShl (EVar "tmp") (EConst I32 8))))];
            SBlock [
              SDecl (TWord) "tmp" None;
              SExpr (EAssign (EVar "tmp") (EWop WAnd (EWop WXor (EWShr (EVar "a3") (EConst I32 8)) (EVar "a2")) (EWVal 2 0xff)));
              SExpr (EAssign (EVar "a2") (EWop WXor (EVar "a2") (EVar "tmp")));
              SExpr (EAssign (EVar "a3") (EWop WXor (EVar "a3") (EWShl (EVar "tmp") (EConst I32 8))))];
            SBlock [
              SDecl (TWord) "tmp" None;
              SExpr (EAssign (EVar "tmp") (EWop WAnd (EWop WXor (EWShr (EVar "a2") (EConst I32 0x10)) (EVar "a0")) (EWVal 4 0xffff)));
              SExpr (EAssign (EVar "a0") (EWop WXor (EVar "a0") (EVar "tmp")));
              SExpr (EAssign (EVar "a2") (EWop WXor (EVar "a2") (EWShl (EVar "tmp") (EConst I32 0x10))))];
            SBlock [
              SDecl (TWord) "tmp" None;
              SExpr (EAssign (EVar "tmp") (EWop WAnd (EWop WXor (EWShr (EVar "a3") (EConst I32 0x10)) (EVar "a1")) (EWVal 4 0xffff)));
              SExpr (EAssign (EVar "a1") (EWop WXor (EVar "a1") (EVar "tmp")));
              SExpr (EAssign (EVar "a3") (EWop WXor (EVar "a3") (EWShl (EVar "tmp") (EConst I32 0x10))))];
            SExpr (EAssign (EIndex (EVar "row") (EBin Add (EBin Add (EVar "j") (EVar "i")) (EConst I32 0))) (EVar "a0"));
            SExpr (EAssign (EIndex (EVar "row") (EBin Add (EBin Add (EVar "j") (EVar "i")) (EConst I32 8))) (EVar "a1"));
            SExpr (EAssign (EIndex (EVar "row") (EBin Add (EBin Add (EVar "j") (EVar "i")) (EConst I32 0x10))) (EVar "a2"));
            SExpr (EAssign (EIndex (EVar "row") (EBin Add (EBin Add (EVar "j") (EVar "i")) (EConst I32 0x18))) (EVar "a3"))])])].

Definition bs_matrix_transpose_block_2 (c : build) : fundef := mk_fun "dvbcsa_bs_matrix_transpose_block" (TVoid) [("row", TPtr (TWord))] [
    SDecl (TInt I32) "j" None;
    SFor (Some (EAssign (EVar "j") (EConst I32 0))) (EBin Lt (EVar "j") (EConst I32 0x40)) (Some (EOpAssign Add (EVar "j") (EConst I32 0x20)))
      (SBlock [
        SDecl (TInt I32) "i" None;
        SFor (Some (EAssign (EVar "i") (EConst I32 0))) (EBin Lt (EVar "i") (EConst I32 8)) (Some (EPost Add (EVar "i")))
          (SBlock [
            SDecl (TWord) "a0" None;
            SDecl (TWord) "a1" None;
            SDecl (TWord) "a2" None;
            SDecl (TWord) "a3" None;
            SExpr (EAssign (EVar "a0") (EIndex (EVar "row") (EBin Add (EBin Add (EVar "j") (EVar "i")) (EConst I32 0))));
            SExpr (EAssign (EVar "a1") (EIndex (EVar "row") (EBin Add (EBin Add (EVar "j") (EVar "i")) (EConst I32 8))));
            SExpr (EAssign (EVar "a2") (EIndex (EVar "row") (EBin Add (EBin Add (EVar "j") (EVar "i")) (EConst I32 0x10))));
            SExpr (EAssign (EVar "a3") (EIndex (EVar "row") (EBin Add (EBin Add (EVar "j") (EVar "i")) (EConst I32 0x18))));
            SBlock [
              SDecl (TWord) "tmp" None;
              SExpr (EAssign (EVar "tmp") (EWop WAnd (EWop WXor (EWShr (EVar "a0") (EConst I32 8)) (EVar "a1")) (EWVal 2 0xff)));
              SExpr (EAssign (EVar "a1") (EWop WXor (EVar "a1") (EVar "tmp")));
              SExpr (EAssign (EVar "a0") (EWop WXor (EVar "a0") (EWShl (EVar "tmp") (EConst I32 8))))];
            SBlock [
              SDecl (TWord) "tmp" None;
              SExpr (EAssign (EVar "tmp") (EWop WAnd (EWop WXor (EWShr (EVar "a2") (EConst I32 8)) (EVar "a3")) (EWVal 2 0xff)));
              SExpr (EAssign (EVar "a3") (EWop WXor (EVar "a3") (EVar "tmp")));
              SExpr (EAssign (EVar "a2") (EWop WXor (EVar "a2") (EWShl (EVar "tmp") (EConst I32 8))))];
            SBlock [
              SDecl (TWord) "tmp" None;
              SExpr (EAssign (EVar "tmp") (EWop WAnd (EWop WXor (EWShr (EVar "a0") (EConst I32 0x10)) (EVar "a2")) (EWVal 4 0xffff)));
              SExpr (EAssign (EVar "a2") (EWop WXor (EVar "a2") (EVar "tmp")));
              SExpr (EAssign (EVar "a0") (EWop WXor (EVar "a0") (EWShl (EVar "tmp") (EConst I32 0x10))))];
            SBlock [
              SDecl (TWord) "tmp" None;
              SExpr (EAssign (EVar "tmp") (EWop WAnd (EWop WXor (EWShr (EVar "a1") (EConst I32 0x10)) (EVar "a3")) (EWVal 4 0xffff)));
              SExpr (EAssign (EVar "a3") (EWop WXor (EVar "a3") (EVar "tmp")));
              SExpr (EAssign (EVar "a1") (EWop WXor (EVar "a1") (EWShl (EVar "tmp") (EConst I32 0x10))))];
            SExpr (EAssign (EIndex (EVar "row") (EBin Add (EBin Add (EVar "j") (EVar "i")) (EConst I32 0))) (EVar "a0"));
            SExpr (EAssign (EIndex (EVar "row") (EBin Add (EBin Add (EVar "j") (EVar "i")) (EConst I32 8))) (EVar "a1"));
            SExpr (EAssign (EIndex (EVar "row") (EBin Add (EBin Add (EVar "j") (EVar "i")) (EConst I32 0x10))) (EVar "a2"));
            SExpr (EAssign (EIndex (EVar "row") (EBin Add (EBin Add (EVar "j") (EVar "i")) (EConst I32 0x18))) (EVar "a3"))])])].

Definition bs_matrix_transpose_block_3 (c : build) : fundef := mk_fun "dvbcsa_bs_matrix_transpose_block" (TVoid) [("row", TPtr (TWord))] [
    SDecl (TInt I32) "j" None;
    SFor (Some (EAssign (EVar "j") (EConst I32 0))) (EBin Lt (EVar "j") (EConst I32 0x40)) (Some (EOpAssign Add (EVar "j") (EConst I32 0x20)))
      (SBlock [
        SDecl (TInt I32) "i" None;
        SFor (Some (EAssign (EVar "i") (EConst I32 0))) (EBin Lt (EVar "i") (EConst I32 8)) (Some (EPost Add (EVar "i")))
          (SBlock [
            SDecl (TWord) "a0" None;
            SDecl (TWord) "a1" None;
            SDecl (TWord) "a2" None;
            SDecl (TWord) "a3" None;
            SExpr (EAssign (EVar "a0") (EIndex (EVar "row") (EBin Add (EBin Add (EVar "j") (EVar "i")) (EConst I32 0))));
            SExpr (EAssign (EVar "a1") (EIndex (EVar "row") (EBin Add (EBin Add (EVar "j") (EVar "i")) (EConst I32 8))));
            SExpr (EAssign (EVar "a2") (EIndex (EVar "row") (EBin Add (EBin Add (EVar "j") (EVar "i")) (EConst I32 0x10))));
            SExpr (EAssign (EVar "a3") (EIndex (EVar "row") (EBin Add (EBin Add (EVar "j") (EVar "i")) (EConst I32 0x18))));
            SSwap 8 (EVar "a1") (EVar "a0");
            SSwap 8 (EVar "a3") (EVar "a2");
            SSwap 16 (EVar "a2") (EVar "a0");
            SSwap 16 (EVar "a3") (EVar "a1");
            SExpr (EAssign (EIndex (EVar "row") (EBin Add (EBin Add (EVar "j") (EVar "i")) (EConst I32 0))) (EVar "a0"));
            SExpr (EAssign (EIndex (EVar "row") (EBin Add (EBin Add (EVar "j") (EVar "i")) (EConst I32 8))) (EVar "a1"));
            SExpr (EAssign (EIndex (EVar "row") (EBin Add (EBin Add (EVar "j") (EVar "i")) (EConst I32 0x10))) (EVar "a2"));
            SExpr (EAssign (EIndex (EVar "row") (EBin Add (EBin Add (EVar "j") (EVar "i")) (EConst I32 0x18))) (EVar "a3"))])])].

Definition bs_matrix_transpose_block_4 (c : build) : fundef := mk_fun "dvbcsa_bs_matrix_transpose_block" (TVoid) [("row", TPtr (TWord))] [
    SDecl (TInt I32) "j" None;
    SFor (Some (EAssign (EVar "j") (EConst I32 0))) (EBin Lt (EVar "j") (EConst I32 0x40)) (Some (EOpAssign Add (EVar "j") (EConst I32 0x20)))
      (SBlock [
        SDecl (TInt I32) "i" None;
        SFor (Some (EAssign (EVar "i") (EConst I32 0))) (EBin Lt (EVar "i") (EConst I32 8)) (Some (EPost Add (EVar "i")))
          (SBlock [
            SDecl (TWord) "a0" None;
            SDecl (TWord) "a1" None;
            SDecl (TWord) "a2" None;
            SDecl (TWord) "a3" None;
            SExpr (EAssign (EVar "a0") (EIndex (EVar "row") (EBin Add (EBin Add (EVar "j") (EVar "i")) (EConst I32 0))));
            SExpr (EAssign (EVar "a1") (EIndex (EVar "row") (EBin Add (EBin Add (EVar "j") (EVar "i")) (EConst I32 8))));
            SExpr (EAssign (EVar "a2") (EIndex (EVar "row") (EBin Add (EBin Add (EVar "j") (EVar "i")) (EConst I32 0x10))));
            SExpr (EAssign (EVar "a3") (EIndex (EVar "row") (EBin Add (EBin Add (EVar "j") (EVar "i")) (EConst I32 0x18))));
            SSwap 8 (EVar "a0") (EVar "a1");
            SSwap 8 (EVar "a2") (EVar "a3");
            SSwap 16 (EVar "a0") (EVar "a2");
            SSwap 16 (EVar "a1") (EVar "a3");
            SExpr (EAssign (EIndex (EVar "row") (EBin Add (EBin Add (EVar "j") (EVar "i")) (EConst I32 0))) (EVar "a0"));
            SExpr (EAssign (EIndex (EVar "row") (EBin Add (EBin Add (EVar "j") (EVar "i")) (EConst I32 8))) (EVar "a1"));
            SExpr (EAssign (EIndex (EVar "row") (EBin Add (EBin Add (EVar "j") (EVar "i")) (EConst I32 0x10))) (EVar "a2"));
            SExpr (EAssign (EIndex (EVar "row") (EBin Add (EBin Add (EVar "j") (EVar "i")) (EConst I32 0x18))) (EVar "a3"))])])].

Definition bs_matrix_transpose_block (c : build) : fundef := match tgt c with UINT32 | UINT64 | MMX | SSE2 | SSSE3 | AVX2 => (if big_endian c then bs_matrix_transpose_block_1 c else bs_matrix_transpose_block_2 c) | NEON => (if big_endian c then bs_matrix_transpose_block_3 c else bs_matrix_transpose_block_4 c) end.

Definition bs_block_transpose_in (c : build) : fundef := mk_fun "dvbcsa_bs_block_transpose_in" (TVoid) [("out", TPtr (TWord)); ("pkt_buf", TPtr (TStruct "dvbcsa_bs_pkt_buf")); ("offset", TInt U32)] [
    SDecl (TPtr (TInt U32)) "ri" (Some (ECast (TPtr (TInt U32)) (EVar "out")));
    SDecl (TPtr (TStruct "dvbcsa_bs_block8_t")) "block" (Some (EBin Add (EField (EDeref (EVar "pkt_buf")) "data") (EBin Div (EVar "offset") (EConst I32 8))));
    SDecl (TInt I32) "i" None;
    SDecl (TInt I32) "n_pkt4" (Some (EBin And (EField (EDeref (EVar "pkt_buf")) "n_packets") (ECast (TInt U32) (EUn Not (EConst I32 3)))));
    SFor (Some (EAssign (EVar "i") (EConst I32 0))) (EBin Lt (EVar "i") (EVar "n_pkt4")) None
      (SBlock [
        SDecl (TInt U32) "a" None;
        SDecl (TInt U32) "b" None;
        SDecl (TInt U32) "c" None;
        SDecl (TInt U32) "d" None;
        SExpr (EAssign (EVar "a") (EIndex (EField (EIndex (EVar "block") (EConst I32 0)) "u32") (EConst I32 0)));
        SExpr (EAssign (EVar "b") (EIndex (EField (EIndex (EVar "block") (EConst I32 0)) "u32") (EConst I32 1)));
        SExpr (EAssign (EVar "c") (EIndex (EField (EIndex (EVar "block") (EBin Div (EConst I32 0xb8) (EConst I32 8))) "u32") (EConst I32 0)));
        SExpr (EAssign (EVar "d") (EIndex (EField (EIndex (EVar "block") (EBin Div (EConst I32 0xb8) (EConst I32 8))) "u32") (EConst I32 1)));
        SExpr (EAssign (EIndex (EVar "ri") (EVar "i")) (EVar "a"));
        SExpr (EAssign (EIndex (EVar "ri") (EBin Add (EVar "i") (EConst I32 (N.of_nat (batch_size c))))) (EVar "b"));
        SExpr (EAssign (EIndex (EVar "ri") (EBin Add (EVar "i") (EConst I32 1))) (EVar "c"));
        SExpr (EAssign (EIndex (EVar "ri") (EBin Add (EBin Add (EVar "i") (EConst I32 1)) (EConst I32 (N.of_nat (batch_size c))))) (EVar "d"));
        SExpr (EOpAssign Add (EVar "i") (EConst I32 2));
        SExpr (EOpAssign Add (EVar "block") (EBin Mul (EBin Div (EConst I32 0xb8) (EConst I32 8)) (EConst I32 2)));
        SExpr (EAssign (EVar "a") (EIndex (EField (EIndex (EVar "block") (EConst I32 0)) "u32") (EConst I32 0)));
        SExpr (EAssign (EVar "b") (EIndex (EField (EIndex (EVar "block") (EConst I32 0)) "u32") (EConst I32 1)));
        SExpr (EAssign (EVar "c") (EIndex (EField (EIndex (EVar "block") (EBin Div (EConst I32 0xb8) (EConst I32 8))) "u32") (EConst I32 0)));
        SExpr (EAssign (EVar "d") (EIndex (EField (EIndex (EVar "block") (EBin Div (EConst I32 0xb8) (EConst I32 8))) "u32") (EConst I32 1)));
        SExpr (EAssign (EIndex (EVar "ri") (EVar "i")) (EVar "a"));
        SExpr (EAssign (EIndex (EVar "ri") (EBin Add (EVar "i") (EConst I32 (N.of_nat (batch_size c))))) (EVar "b"));
        SExpr (EAssign (EIndex (EVar "ri") (EBin Add (EVar "i") (EConst I32 1))) (EVar "c"));
        SExpr (EAssign (EIndex (EVar "ri") (EBin Add (EBin Add (EVar "i") (EConst I32 1)) (EConst I32 (N.of_nat (batch_size c))))) (EVar "d"));
        SExpr (EOpAssign Add (EVar "i") (EConst I32 2));
        SExpr (EOpAssign Add (EVar "block") (EBin Mul (EBin Div (EConst I32 0xb8) (EConst I32 8)) (EConst I32 2)))]);
    SFor None (EBin Lt (EVar "i") (EField (EDeref (EVar "pkt_buf")) "n_packets")) (Some (EComma (EPost Add (EVar "i")) (EOpAssign Add (EVar "block") (EBin Div (EConst I32 0xb8) (EConst I32 8)))))
      (SBlock [
        SExpr (EAssign (EIndex (EVar "ri") (EVar "i")) (EIndex (EField (EDeref (EVar "block")) "u32") (EConst I32 0)));
        SExpr (EAssign (EIndex (EVar "ri") (EBin Add (EVar "i") (EConst I32 (N.of_nat (batch_size c))))) (EIndex (EField (EDeref (EVar "block")) "u32") (EConst I32 1)))]);
    SExpr (ECall "dvbcsa_bs_matrix_transpose_block" [(EVar "out")])].

Definition bs_block_transpose_out_and_xor (c : build) : fundef := mk_fun "dvbcsa_bs_block_transpose_out_and_xor" (TVoid) [("in", TPtr (TWord)); ("pkt_buf", TPtr (TStruct "dvbcsa_bs_pkt_buf")); ("offset", TInt U32); ("encrypt", TInt I32)] [
    SDecl (TPtr (TInt U32)) "ri" (Some (ECast (TPtr (TInt U32)) (EVar "in")));
    SDecl (TPtr (TStruct "dvbcsa_bs_block8_t")) "block" (Some (EBin Add (EField (EDeref (EVar "pkt_buf")) "data") (EBin Div (EVar "offset") (EConst I32 8))));
    SDecl (TInt I32) "i" None;
    SExpr (ECall "dvbcsa_bs_matrix_transpose_block" [(EVar "in")]);
    SIf (EBin Eq (EVar "offset") (EConst I32 0))
      (SBlock [
        SFor (Some (EAssign (EVar "i") (EConst I32 0))) (EBin Lt (EVar "i") (EField (EDeref (EVar "pkt_buf")) "n_packets")) (Some (EComma (EPost Add (EVar "i")) (EOpAssign Add (EVar "block") (EBin Div (EConst I32 0xb8) (EConst I32 8)))))
          (SBlock [
            SIf (EIndex (EField (EDeref (EVar "pkt_buf")) "len8") (EVar "i"))
              (SBlock [
                SExpr (EAssign (EIndex (EField (EDeref (EVar "block")) "u32") (EConst I32 0)) (EIndex (EVar "ri") (EVar "i")));
                SExpr (EAssign (EIndex (EField (EDeref (EVar "block")) "u32") (EConst I32 1)) (EIndex (EVar "ri") (EBin Add (EVar "i") (EConst I32 (N.of_nat (batch_size c))))))])
              (SBlock [])])])
      (SBlock [
        SIf (EVar "encrypt")
          (SBlock [
            SDecl (TInt I32) "n_pkt4" (Some (EBin And (EField (EDeref (EVar "pkt_buf")) "n_packets") (ECast (TInt U32) (EUn Not (EConst I32 3)))));
            SFor (Some (EAssign (EVar "i") (EConst I32 0))) (EBin Lt (EVar "i") (EVar "n_pkt4")) None
              (SBlock [
                SIf (EBin Lt (EVar "offset") (EIndex (EField (EDeref (EVar "pkt_buf")) "len8") (EVar "i")))
                  (SBlock [
                    SDecl (TStruct "dvbcsa_bs_block8_t") "b" None;
                    SExpr (EAssign (EIndex (EField (EVar "b") "u32") (EConst I32 0)) (EIndex (EVar "ri") (EVar "i")));
                    SExpr (EAssign (EIndex (EField (EVar "b") "u32") (EConst I32 1)) (EIndex (EVar "ri") (EBin Add (EVar "i") (EConst I32 (N.of_nat (batch_size c))))));
                    SExpr (EOpAssign Xor (EField (EIndex (EVar "block") (EUn Neg (EConst I32 1))) "u64") (EField (EVar "b") "u64"));
                    SExpr (EAssign (EField (EIndex (EVar "block") (EConst I32 0)) "u64") (EField (EVar "b") "u64"))])
                  (SBlock []);
                SExpr (EPost Add (EVar "i"));
                SExpr (EOpAssign Add (EVar "block") (EBin Div (EConst I32 0xb8) (EConst I32 8)));
                SIf (EBin Lt (EVar "offset") (EIndex (EField (EDeref (EVar "pkt_buf")) "len8") (EVar "i")))
                  (SBlock [
                    SDecl (TStruct "dvbcsa_bs_block8_t") "b" None;
                    SExpr (EAssign (EIndex (EField (EVar "b") "u32") (EConst I32 0)) (EIndex (EVar "ri") (EVar "i")));
                    SExpr (EAssign (EIndex (EField (EVar "b") "u32") (EConst I32 1)) (EIndex (EVar "ri") (EBin Add (EVar "i") (EConst I32 (N.of_nat (batch_size c))))));
                    SExpr (EOpAssign Xor (EField (EIndex (EVar "block") (EUn Neg (EConst I32 1))) "u64") (EField (EVar "b") "u64"));
                    SExpr (EAssign (EField (EIndex (EVar "block") (EConst I32 0)) "u64") (EField (EVar "b") "u64"))])
                  (SBlock []);
                SExpr (EPost Add (EVar "i"));
                SExpr (EOpAssign Add (EVar "block") (EBin Div (EConst I32 0xb8) (EConst I32 8)));
                SIf (EBin Lt (EVar "offset") (EIndex (EField (EDeref (EVar "pkt_buf")) "len8") (EVar "i")))
                  (SBlock [
                    SDecl (TStruct "dvbcsa_bs_block8_t") "b" None;
                    SExpr (EAssign (EIndex (EField (EVar "b") "u32") (EConst I32 0)) (EIndex (EVar "ri") (EVar "i")));
                    SExpr (EAssign (EIndex (EField (EVar "b") "u32") (EConst I32 1)) (EIndex (EVar "ri") (EBin Add (EVar "i") (EConst I32 (N.of_nat (batch_size c))))));
                    SExpr (EOpAssign Xor (EField (EIndex (EVar "block") (EUn Neg (EConst I32 1))) "u64") (EField (EVar "b") "u64"));
                    SExpr (EAssign (EField (EIndex (EVar "block") (EConst I32 0)) "u64") (EField (EVar "b") "u64"))])
                  (SBlock []);
                SExpr (EPost Add (EVar "i"));
                SExpr (EOpAssign Add (EVar "block") (EBin Div (EConst I32 0xb8) (EConst I32 8)));
                SIf (EBin Lt (EVar "offset") (EIndex (EField (EDeref (EVar "pkt_buf")) "len8") (EVar "i")))
                  (SBlock [
                    SDecl (TStruct "dvbcsa_bs_block8_t") "b" None;
                    SExpr (EAssign (EIndex (EField (EVar "b") "u32") (EConst I32 0)) (EIndex (EVar "ri") (EVar "i")));
                    SExpr (EAssign (EIndex (EField (EVar "b") "u32") (EConst I32 1)) (EIndex (EVar "ri") (EBin Add (EVar "i") (EConst I32 (N.of_nat (batch_size c))))));
                    SExpr (EOpAssign Xor (EField (EIndex (EVar "block") (EUn Neg (EConst I32 1))) "u64") (EField (EVar "b") "u64"));
                    SExpr (EAssign (EField (EIndex (EVar "block") (EConst I32 0)) "u64") (EField (EVar "b") "u64"))])
                  (SBlock []);
                SExpr (EPost Add (EVar "i"));
                SExpr (EOpAssign Add (EVar "block") (EBin Div (EConst I32 0xb8) (EConst I32 8)))]);
            SFor None (EBin Lt (EVar "i") (EField (EDeref (EVar "pkt_buf")) "n_packets")) (Some (EComma (EPost Add (EVar "i")) (EOpAssign Add (EVar "block") (EBin Div (EConst I32 0xb8) (EConst I32 8)))))
              (SBlock [
                SIf (EBin Lt (EVar "offset") (EIndex (EField (EDeref (EVar "pkt_buf")) "len8") (EVar "i")))
                  (SBlock [
                    SDecl (TStruct "dvbcsa_bs_block8_t") "b" None;
                    SExpr (EAssign (EIndex (EField (EVar "b") "u32") (EConst I32 0)) (EIndex (EVar "ri") (EVar "i")));
                    SExpr (EAssign (EIndex (EField (EVar "b") "u32") (EConst I32 1)) (EIndex (EVar "ri") (EBin Add (EVar "i") (EConst I32 (N.of_nat (batch_size c))))));
                    SExpr (EOpAssign Xor (EField (EIndex (EVar "block") (EUn Neg (EConst I32 1))) "u64") (EField (EVar "b") "u64"));
                    SExpr (EAssign (EField (EIndex (EVar "block") (EConst I32 0)) "u64") (EField (EVar "b") "u64"))])
                  (SBlock [])])])
          (SBlock [
            SDecl (TInt I32) "n_pkt4" (Some (EBin And (EField (EDeref (EVar "pkt_buf")) "n_packets") (ECast (TInt U32) (EUn Not (EConst I32 3)))));
            SFor (Some (EAssign (EVar "i") (EConst I32 0))) (EBin Lt (EVar "i") (EVar "n_pkt4")) None
              (SBlock [
                SIf (EBin Lt (EVar "offset") (EIndex (EField (EDeref (EVar "pkt_buf")) "len8") (EVar "i")))
                  (SBlock [
                    SDecl (TStruct "dvbcsa_bs_block8_t") "b" None;
                    SExpr (EAssign (EIndex (EField (EVar "b") "u32") (EConst I32 0)) (EIndex (EVar "ri") (EVar "i")));
                    SExpr (EAssign (EIndex (EField (EVar "b") "u32") (EConst I32 1)) (EIndex (EVar "ri") (EBin Add (EVar "i") (EConst I32 (N.of_nat (batch_size c))))));
                    SExpr (EOpAssign Xor (EField (EIndex (EVar "block") (EUn Neg (EConst I32 1))) "u64") (EField (EIndex (EVar "block") (EConst I32 0)) "u64"));
                    SExpr (EAssign (EField (EIndex (EVar "block") (EConst I32 0)) "u64") (EField (EVar "b") "u64"))])
                  (SBlock []);
                SExpr (EPost Add (EVar "i"));
                SExpr (EOpAssign Add (EVar "block") (EBin Div (EConst I32 0xb8) (EConst I32 8)));
                SIf (EBin Lt (EVar "offset") (EIndex (EField (EDeref (EVar "pkt_buf")) "len8") (EVar "i")))
                  (SBlock [
                    SDecl (TStruct "dvbcsa_bs_block8_t") "b" None;
                    SExpr (EAssign (EIndex (EField (EVar "b") "u32") (EConst I32 0)) (EIndex (EVar "ri") (EVar "i")));
                    SExpr (EAssign (EIndex (EField (EVar "b") "u32") (EConst I32 1)) (EIndex (EVar "ri") (EBin Add (EVar "i") (EConst I32 (N.of_nat (batch_size c))))));
                    SExpr (EOpAssign Xor (EField (EIndex (EVar "block") (EUn Neg (EConst I32 1))) "u64") (EField (EIndex (EVar "block") (EConst I32 0)) "u64"));
                    SExpr (EAssign (EField (EIndex (EVar "block") (EConst I32 0)) "u64") (EField (EVar "b") "u64"))])
                  (SBlock []);
                SExpr (EPost Add (EVar "i"));
                SExpr (EOpAssign Add (EVar "block") (EBin Div (EConst I32 0xb8) (EConst I32 8)));
                SIf (EBin Lt (EVar "offset") (EIndex (EField (EDeref (EVar "pkt_buf")) "len8") (EVar "i")))
                  (SBlock [
                    SDecl (TStruct "dvbcsa_bs_block8_t") "b" None;
                    SExpr (EAssign (EIndex (EField (EVar "b") "u32") (EConst I32 0)) (EIndex (EVar "ri") (EVar "i")));
                    SExpr (EAssign (EIndex (EField (EVar "b") "u32") (EConst I32 1)) (EIndex (EVar "ri") (EBin Add (EVar "i") (EConst I32 (N.of_nat (batch_size c))))));
                    SExpr (EOpAssign Xor (EField (EIndex (EVar "block") (EUn Neg (EConst I32 1))) "u64") (EField (EIndex (EVar "block") (EConst I32 0)) "u64"));
                    SExpr (EAssign (EField (EIndex (EVar "block") (EConst I32 0)) "u64") (EField (EVar "b") "u64"))])
                  (SBlock []);
                SExpr (EPost Add (EVar "i"));
                SExpr (EOpAssign Add (EVar "block") (EBin Div (EConst I32 0xb8) (EConst I32 8)));
                SIf (EBin Lt (EVar "offset") (EIndex (EField (EDeref (EVar "pkt_buf")) "len8") (EVar "i")))
                  (SBlock [
                    SDecl (TStruct "dvbcsa_bs_block8_t") "b" None;
                    SExpr (EAssign (EIndex (EField (EVar "b") "u32") (EConst I32 0)) (EIndex (EVar "ri") (EVar "i")));
                    SExpr (EAssign (EIndex (EField (EVar "b") "u32") (EConst I32 1)) (EIndex (EVar "ri") (EBin Add (EVar "i") (EConst I32 (N.of_nat (batch_size c))))));
                    SExpr (EOpAssign Xor (EField (EIndex (EVar "block") (EUn Neg (EConst I32 1))) "u64") (EField (EIndex (EVar "block") (EConst I32 0)) "u64"));
                    SExpr (EAssign (EField (EIndex (EVar "block") (EConst I32 0)) "u64") (EField (EVar "b") "u64"))])
                  (SBlock []);
                SExpr (EPost Add (EVar "i"));
                SExpr (EOpAssign Add (EVar "block") (EBin Div (EConst I32 0xb8) (EConst I32 8)))]);
            SFor None (EBin Lt (EVar "i") (EField (EDeref (EVar "pkt_buf")) "n_packets")) (Some (EComma (EPost Add (EVar "i")) (EOpAssign Add (EVar "block") (EBin Div (EConst I32 0xb8) (EConst I32 8)))))
              (SBlock [
                SIf (EBin Lt (EVar "offset") (EIndex (EField (EDeref (EVar "pkt_buf")) "len8") (EVar "i")))
                  (SBlock [
                    SDecl (TStruct "dvbcsa_bs_block8_t") "b" None;
                    SExpr (EAssign (EIndex (EField (EVar "b") "u32") (EConst I32 0)) (EIndex (EVar "ri") (EVar "i")));
                    SExpr (EAssign (EIndex (EField (EVar "b") "u32") (EConst I32 1)) (EIndex (EVar "ri") (EBin Add (EVar "i") (EConst I32 (N.of_nat (batch_size c))))));
                    SExpr (EOpAssign Xor (EField (EIndex (EVar "block") (EUn Neg (EConst I32 1))) "u64") (EField (EIndex (EVar "block") (EConst I32 0)) "u64"));
                    SExpr (EAssign (EField (EIndex (EVar "block") (EConst I32 0)) "u64") (EField (EVar "b") "u64"))])
                  (SBlock [])])])])].

Definition bs_matrix_transpose_64x_1 (c : build) : fundef := mk_fun "" TVoid [] [].

Definition bs_matrix_transpose_64x_2 (c : build) : fundef := mk_fun "dvbcsa_bs_matrix_transpose_64x" (TVoid) [("row", TPtr (TWord))] [
    SDecl (TInt I32) "j" None;
    SFor (Some (EAssign (EVar "j") (EConst I32 0))) (EBin Lt (EVar "j") (EConst I32 0x10)) (Some (EPost Add (EVar "j")))
      (SBlock [
        SDecl (TWord) "a0" None;
        SDecl (TWord) "a1" None;
        SDecl (TWord) "a2" None;
        SDecl (TWord) "a3" None;
        SExpr (EAssign (EVar "a0") (EIndex (EVar "row") (EBin Add (EVar "j") (EConst I32 0))));
        SExpr (EAssign (EVar "a1") (EIndex (EVar "row") (EBin Add (EVar "j") (EConst I32 0x10))));
        SExpr (EAssign (EVar "a2") (EIndex (EVar "row") (EBin Add (EVar "j") (EConst I32 0x20))));
        SExpr (EAssign (EVar "a3") (EIndex (EVar "row") (EBin Add (EVar "j") (EConst I32 0x30))));
        SBlock [
          SDecl (TWord) "tmp" None;
          SExpr (EAssign (EVar "tmp") (EWop WAnd (EWop WXor (EWShr (EVar "a1") (EConst I32 0x10)) (EVar "a0")) (EWVal 4 0xffff)));
          SExpr (EAssign (EVar "a0") (EWop WXor (EVar "a0") (EVar "tmp")));
          SExpr (EAssign (EVar "a1") (EWop WXor (EVar "a1") (EWShl (EVar "tmp") (EConst I32 0x10))))];
        SBlock [
          SDecl (TWord) "tmp" None;
          SExpr (EAssign (EVar "tmp") (EWop WAnd (EWop WXor (EWShr (EVar "a3") (EConst I32 0x10)) (EVar "a2")) (EWVal 4 0xffff)));
          SExpr (EAssign (EVar "a2") (EWop WXor (EVar "a2") (EVar "tmp")));
          SExpr (EAssign (EVar "a3") (EWop WXor (EVar "a3") (EWShl (EVar "tmp") (EConst I32 0x10))))];
        SBlock [
          SDecl (TWord) "tmp" None;
          SExpr (EAssign (EVar "tmp") (EWop WAnd (EWop WXor (EWShr (EVar "a2") (EConst I32 0x20)) (EVar "a0")) (EWVal 8 0xffffffff)));
          SExpr (EAssign (EVar "a0") (EWop WXor (EVar "a0") (EVar "tmp")));
          SExpr (EAssign (EVar "a2") (EWop WXor (EVar "a2") (EWShl (EVar "tmp") (EConst I32 0x20))))];
        SBlock [
          SDecl (TWord) "tmp" None;
          SExpr (EAssign (EVar "tmp") (EWop WAnd (EWop WXor (EWShr (EVar "a3") (EConst I32 0x20)) (EVar "a1")) (EWVal 8 0xffffffff)));
          SExpr (EAssign (EVar "a1") (EWop WXor (EVar "a1") (EVar "tmp")));
          SExpr (EAssign (EVar "a3") (EWop WXor (EVar "a3") (EWShl (EVar "tmp") (EConst I32 0x20))))];
        SExpr (EAssign (EIndex (EVar "row") (EBin Add (EVar "j") (EConst I32 0))) (EVar "a0"));
        SExpr (EAssign (EIndex (EVar "row") (EBin Add (EVar "j") (EConst I32 0x10))) (EVar "a1"));
        SExpr (EAssign (EIndex (EVar "row") (EBin Add (EVar "j") (EConst I32 0x20))) (EVar "a2"));
        SExpr (EAssign (EIndex (EVar "row") (EBin Add (EVar "j") (EConst I32 0x30))) (EVar "a3"))]);
    SFor (Some (EAssign (EVar "j") (EConst I32 0))) (EBin Lt (EVar "j") (EConst I32 0x40)) (Some (EOpAssign Add (EVar "j") (EConst I32 0x10)))
      (SBlock [
        SDecl (TInt I32) "i" None;
        SFor (Some (EAssign (EVar "i") (EConst I32 0))) (EBin Lt (EVar "i") (EConst I32 4)) (Some (EPost Add (EVar "i")))
          (SBlock [
            SDecl (TWord) "a0" None;
            SDecl (TWord) "a1" None;
            SDecl (TWord) "a2" None;
            SDecl (TWord) "a3" None;
            SExpr (EAssign (EVar "a0") (EIndex (EVar "row") (EBin Add (EBin Add (EVar "j") (EVar "i")) (EConst I32 0))));
            SExpr (EAssign (EVar "a1") (EIndex (EVar "row") (EBin Add (EBin Add (EVar "j") (EVar "i")) (EConst I32 4))));
            SExpr (EAssign (EVar "a2") (EIndex (EVar "row") (EBin Add (EBin Add (EVar "j") (EVar "i")) (EConst I32 8))));
            SExpr (EAssign (EVar "a3") (EIndex (EVar "row") (EBin Add (EBin Add (EVar "j") (EVar "i")) (EConst I32 0xc))));
            SBlock [
              SDecl (TWord) "tmp" None;
              SExpr (EAssign (EVar "tmp") (EWop WAnd (EWop WXor (EWShr (EVar "a0") (EConst I32 4)) (EVar "a1")) (EWVal 1 0xf)));
              SExpr (EAssign (EVar "a1") (EWop WXor (EVar "a1") (EVar "tmp")));
              SExpr (EAssign (EVar "a0") (EWop WXor (EVar "a0") (EWShl (EVar "tmp") (EConst I32 4))))];
            SBlock [
              SDecl (TWord) "tmp" None;
              SExpr (EAssign (EVar "tmp") (EWop WAnd (EWop WXor (EWShr (EVar "a2") (EConst I32 4)) (EVar "a3")) (EWVal 1 0xf)));
              SExpr (EAssign (EVar "a3") (EWop WXor (EVar "a3") (EVar "tmp")));
              SExpr (EAssign (EVar "a2") (EWop WXor (EVar "a2") (EWShl (EVar "tmp") (EConst I32 4))))];
            SBlock [
              SDecl (TWord) "tmp" None;
              SExpr (EAssign (EVar "tmp") (EWop WAnd (EWop WXor (EWShr (EVar "a2") (EConst I32 8)) (EVar "a0")) (EWVal 2 0xff)));
              SExpr (EAssign (EVar "a0") (EWop WXor (EVar "a0") (EVar "tmp")));
              SExpr (EAssign (EVar "a2") (EWop WXor (EVar "a2") (EWShl (EVar "tmp") (EConst I32 8))))];
            SBlock [
              SDecl (TWord) "tmp" None;
              SExpr (EAssign (EVar "tmp") (EWop WAnd (EWop WXor (EWShr (EVar "a3") (EConst I32 8)) (EVar "a1")) (EWVal 2 0xff)));
              SExpr (EAssign (EVar "a1") (EWop WXor (EVar "a1") (EVar "tmp")));
              SExpr (EAssign (EVar "a3") (EWop WXor (EVar "a3") (EWShl (EVar "tmp") (EConst I32 8))))];
            SExpr (EAssign (EIndex (EVar "row") (EBin Add (EBin Add (EVar "j") (EVar "i")) (EConst I32 0))) (EVar "a0"));
            SExpr (EAssign (EIndex (EVar "row") (EBin Add (EBin Add (EVar "j") (EVar "i")) (EConst I32 4))) (EVar "a1"));
            SExpr (EAssign (EIndex (EVar "row") (EBin Add (EBin Add (EVar "j") (EVar "i")) (EConst I32 8))) (EVar "a2"));
            SExpr (EAssign (EIndex (EVar "row") (EBin Add (EBin Add (EVar "j") (EVar "i")) (EConst I32 0xc))) (EVar "a3"))])]);
    SFor (Some (EAssign (EVar "j") (EConst I32 0))) (EBin Lt (EVar "j") (EConst I32 0x40)) (Some (EOpAssign Add (EVar "j") (EConst I32 4)))
      (SBlock [
        SDecl (TWord) "a0" None;
        SDecl (TWord) "a1" None;
        SDecl (TWord) "a2" None;
        SDecl (TWord) "a3" None;
        SExpr (EAssign (EVar "a0") (EIndex (EVar "row") (EBin Add (EVar "j") (EConst I32 0))));
        SExpr (EAssign (EVar "a1") (EIndex (EVar "row") (EBin Add (EVar "j") (EConst I32 1))));
        SExpr (EAssign (EVar "a2") (EIndex (EVar "row") (EBin Add (EVar "j") (EConst I32 2))));
        SExpr (EAssign (EVar "a3") (EIndex (EVar "row") (EBin Add (EVar "j") (EConst I32 3))));
        SBlock [
          SDecl (TWord) "tmp" None;
          SExpr (EAssign (EVar "tmp") (EWop WAnd (EWop WXor (EWShr (EVar "a0") (EConst I32 1)) (EVar "a1")) (EWVal 1 0x55)));
          SExpr (EAssign (EVar "a1") (EWop WXor (EVar "a1") (EVar "tmp")));
          SExpr (EAssign (EVar "a0") (EWop WXor (EVar "a0") (EWShl (EVar "tmp") (EConst I32 1))))];
        SBlock [
          SDecl (TWord) "tmp" None;
          SExpr (EAssign (EVar "tmp") (EWop WAnd (EWop WXor (EWShr (EVar "a2") (EConst I32 1)) (EVar "a3")) (EWVal 1 0x55)));
          SExpr (EAssign (EVar "a3") (EWop WXor (EVar "a3") (EVar "tmp")));
          SExpr (EAssign (EVar "a2") (EWop WXor (EVar "a2") (EWShl (EVar "tmp") (EConst I32 1))))];
        SBlock [
          SDecl (TWord) "tmp" None;
          SExpr (EAssign (EVar "tmp") (EWop WAnd (EWop WXor (EWShr (EVar "a0") (EConst I32 2)) (EVar "a2")) (EWVal 1 0x33)));
          SExpr (EAssign (EVar "a2") (EWop WXor (EVar "a2") (EVar "tmp")));
          SExpr (EAssign (EVar "a0") (EWop WXor (EVar "a0") (EWShl (EVar "tmp") (EConst I32 2))))];
        SBlock [
          SDecl (TWord) "tmp" None;
          SExpr (EAssign (EVar "tmp") (EWop WAnd (EWop WXor (EWShr (EVar "a1") (EConst I32 2)) (EVar "a3")) (EWVal 1 0x33)));
          SExpr (EAssign (EVar "a3") (EWop WXor (EVar "a3") (EVar "tmp")));
          SExpr (EAssign (EVar "a1") (EWop WXor (EVar "a1") (EWShl (EVar "tmp") (EConst I32 2))))];
        SExpr (EAssign (EIndex (EVar "row") (EBin Add (EVar "j") (EConst I32 0))) (EVar "a0"));
        SExpr (EAssign (EIndex (EVar "row") (EBin Add (EVar "j") (EConst I32 1))) (EVar "a1"));
        SExpr (EAssign (EIndex (EVar "row") (EBin Add (EVar "j") (EConst I32 2))) (EVar "a2"));
        SExpr (EAssign (EIndex (EVar "row") (EBin Add (EVar "j") (EConst I32 3))) (EVar "a3"))])].

Definition bs_matrix_transpose_64x_3 (c : build) : fundef := mk_fun "dvbcsa_bs_matrix_transpose_64x" (TVoid) [("row", TPtr (TWord))] [
    SDecl (TInt I32) "j" None;
    SFor (Some (EAssign (EVar "j") (EConst I32 0))) (EBin Lt (EVar "j") (EConst I32 0x40)) (Some (EOpAssign Add (EVar "j") (EConst I32 8)))
      (SBlock [
        SDecl (TWord) "a0" None;
        SDecl (TWord) "a1" None;
        SDecl (TWord) "a2" None;
        SDecl (TWord) "a3" None;
        SDecl (TWord) "b0" None;
        SDecl (TWord) "b1" None;
        SDecl (TWord) "b2" None;
        SDecl (TWord) "b3" None;
        SExpr (EAssign (EVar "a0") (EIndex (EVar "row") (EBin Add (EVar "j") (EConst I32 0))));
        SExpr (EAssign (EVar "a1") (EIndex (EVar "row") (EBin Add (EVar "j") (EConst I32 1))));
        SExpr (EAssign (EVar "a2") (EIndex (EVar "row") (EBin Add (EVar "j") (EConst I32 2))));
        SExpr (EAssign (EVar "a3") (EIndex (EVar "row") (EBin Add (EVar "j") (EConst I32 3))));
        SExpr (EAssign (EVar "b0") (EIndex (EVar "row") (EBin Add (EVar "j") (EConst I32 4))));
        SExpr (EAssign (EVar "b1") (EIndex (EVar "row") (EBin Add (EVar "j") (EConst I32 5))));
        SExpr (EAssign (EVar "b2") (EIndex (EVar "row") (EBin Add (EVar "j") (EConst I32 6))));
        SExpr (EAssign (EVar "b3") (EIndex (EVar "row") (EBin Add (EVar "j") (EConst I32 7))));
        SBlock [
          SDecl (TWord) "tmp" None;
          SExpr (EAssign (EVar "tmp") (EWop WAnd (EWop WXor (EWShr (EVar "a0") (EConst I32 1)) (EVar "a1")) (EWVal 1 0x55)));
          SExpr (EAssign (EVar "a1") (EWop WXor (EVar "a1") (EVar "tmp")));
          SExpr (EAssign (EVar "a0") (EWop WXor (EVar "a0") (EWShl (EVar "tmp") (EConst I32 1))))];
        SBlock [
          SDecl (TWord) "tmp" None;
          SExpr (EAssign (EVar "tmp") (EWop WAnd (EWop WXor (EWShr (EVar "a2") (EConst I32 1)) (EVar "a3")) (EWVal 1 0x55)));
          SExpr (EAssign (EVar "a3") (EWop WXor (EVar "a3") (EVar "tmp")));
          SExpr (EAssign (EVar "a2") (EWop WXor (EVar "a2") (EWShl (EVar "tmp") (EConst I32 1))))];
        SBlock [
          SDecl (TWord) "tmp" None;
          SExpr (EAssign (EVar "tmp") (EWop WAnd (EWop WXor (EWShr (EVar "b0") (EConst I32 1)) (EVar "b1")) (EWVal 1 0x55)));
          SExpr (EAssign (EVar "b1") (EWop WXor (EVar "b1") (EVar "tmp")));
          SExpr (EAssign (EVar "b0") (EWop WXor (EVar "b0") (EWShl (EVar "tmp") (EConst I32 1))))];
        SBlock [
          SDecl (TWord) "tmp" None;
          SExpr (EAssign (EVar "tmp") (EWop WAnd (EWop WXor (EWShr (EVar "b2") (EConst I32 1)) (EVar "b3")) (EWVal 1 0x55)));
          SExpr (EAssign (EVar "b3") (EWop WXor (EVar "b3") (EVar "tmp")));
          SExpr (EAssign (EVar "b2") (EWop WXor (EVar "b2") (EWShl (EVar "tmp") (EConst I32 1))))];
        SBlock [
          SDecl (TWord) "tmp" None;
          SExpr (EAssign (EVar "tmp") (EWop WAnd (EWop WXor (EWShr (EVar "a0") (EConst I32 2)) (EVar "a2")) (EWVal 1 0x33)));
          SExpr (EAssign (EVar "a2") (EWop WXor (EVar "a2") (EVar "tmp")));
          SExpr (EAssign (EVar "a0") (EWop WXor (EVar "a0") (EWShl (EVar "tmp") (EConst I32 2))))];
        SBlock [
          SDecl (TWord) "tmp" None;
          SExpr (EAssign (EVar "tmp") (EWop WAnd (EWop WXor (EWShr (EVar "a1") (EConst I32 2)) (EVar "a3")) (EWVal 1 0x33)));
          SExpr (EAssign (EVar "a3") (EWop WXor (EVar "a3") (EVar "tmp")));
          SExpr (EAssign (EVar "a1") (EWop WXor (EVar "a1") (EWShl (EVar "tmp") (EConst I32 2))))];
        SBlock [
          SDecl (TWord) "tmp" None;
          SExpr (EAssign (EVar "tmp") (EWop WAnd (EWop WXor (EWShr (EVar "b0") (EConst I32 2)) (EVar "b2")) (EWVal 1 0x33)));
          SExpr (EAssign (EVar "b2") (EWop WXor (EVar "b2") (EVar "tmp")));
          SExpr (EAssign (EVar "b0") (EWop WXor (EVar "b0") (EWShl (EVar "tmp") (EConst I32 2))))];
        SBlock [
          SDecl (TWord) "tmp" None;
          SExpr (EAssign (EVar "tmp") (EWop WAnd (EWop WXor (EWShr (EVar "b1") (EConst I32 2)) (EVar "b3")) (EWVal 1 0x33)));
          SExpr (EAssign (EVar "b3") (EWop WXor (EVar "b3") (EVar "tmp")));
          SExpr (EAssign (EVar "b1") (EWop WXor (EVar "b1") (EWShl (EVar "tmp") (EConst I32 2))))];
        SBlock [
          SDecl (TWord) "tmp" None;
          SExpr (EAssign (EVar "tmp") (EWop WAnd (EWop WXor (EWShr (EVar "a0") (EConst I32 4)) (EVar "b0")) (EWVal 1 0xf)));
          SExpr (EAssign (EVar "b0") (EWop WXor (EVar "b0") (EVar "tmp")));
          SExpr (EAssign (EVar "a0") (EWop WXor (EVar "a0") (EWShl (EVar "tmp") (EConst I32 4))))];
        SBlock [
          SDecl (TWord) "tmp" None;
          SExpr (EAssign (EVar "tmp") (EWop WAnd (EWop WXor (EWShr (EVar "a1") (EConst I32 4)) (EVar "b1")) (EWVal 1 0xf)));
          SExpr (EAssign (EVar "b1") (EWop WXor (EVar "b1") (EVar "tmp")));
          SExpr (EAssign (EVar "a1") (EWop WXor (EVar "a1") (EWShl (EVar "tmp") (EConst I32 4))))];
        SBlock [
          SDecl (TWord) "tmp" None;
          SExpr (EAssign (EVar "tmp") (EWop WAnd (EWop WXor (EWShr (EVar "a2") (EConst I32 4)) (EVar "b2")) (EWVal 1 0xf)));
          SExpr (EAssign (EVar "b2") (EWop WXor (EVar "b2") (EVar "tmp")));
          SExpr (EAssign (EVar "a2") (EWop WXor (EVar "a2") (EWShl (EVar "tmp") (EConst I32 4))))];
        SBlock [
          SDecl (TWord) "tmp" None;
          SExpr (EAssign (EVar "tmp") (EWop WAnd (EWop WXor (EWShr (EVar "a3") (EConst I32 4)) (EVar "b3")) (EWVal 1 0xf)));
          SExpr (EAssign (EVar "b3") (EWop WXor (EVar "b3") (EVar "tmp")));
          SExpr (EAssign (EVar "a3") (EWop WXor (EVar "a3") (EWShl (EVar "tmp") (EConst I32 4))))];
        SExpr (EAssign (EIndex (EVar "row") (EBin Add (EVar "j") (EConst I32 0))) (EVar "a0"));
        SExpr (EAssign (EIndex (EVar "row") (EBin Add (EVar "j") (EConst I32 1))) (EVar "a1"));
        SExpr (EAssign (EIndex (EVar "row") (EBin Add (EVar "j") (EConst I32 2))) (EVar "a2"));
        SExpr (EAssign (EIndex (EVar "row") (EBin Add (EVar "j") (EConst I32 3))) (EVar "a3"));
        SExpr (EAssign (EIndex (EVar "row") (EBin Add (EVar "j") (EConst I32 4))) (EVar "b0"));
        SExpr (EAssign (EIndex (EVar "row") (EBin Add (EVar "j") (EConst I32 5))) (EVar "b1"));
        SExpr (EAssign (EIndex (EVar "row") (EBin Add (EVar "j") (EConst I32 6))) (EVar "b2"));
        SExpr (EAssign (EIndex (EVar "row") (EBin Add (EVar "j") (EConst I32 7))) (EVar "b3"))]);
    SFor (Some (EAssign (EVar "j") (EConst I32 0))) (EBin Lt (EVar "j") (EConst I32 8)) (Some (EPost Add (EVar "j")))
      (SBlock [
        SDecl (TWord) "a0" None;
        SDecl (TWord) "a1" None;
        SDecl (TWord) "a2" None;
        SDecl (TWord) "a3" None;
        SDecl (TWord) "b0" None;
        SDecl (TWord) "b1" None;
        SDecl (TWord) "b2" None;
        SDecl (TWord) "b3" None;
        SExpr (EAssign (EVar "a0") (EIndex (EVar "row") (EBin Add (EVar "j") (EConst I32 0))));
        SExpr (EAssign (EVar "a1") (EIndex (EVar "row") (EBin Add (EVar "j") (EConst I32 8))));
        SExpr (EAssign (EVar "a2") (EIndex (EVar "row") (EBin Add (EVar "j") (EConst I32 0x10))));
        SExpr (EAssign (EVar "a3") (EIndex (EVar "row") (EBin Add (EVar "j") (EConst I32 0x18))));
        SExpr (EAssign (EVar "b0") (EIndex (EVar "row") (EBin Add (EVar "j") (EConst I32 0x20))));
        SExpr (EAssign (EVar "b1") (EIndex (EVar "row") (EBin Add (EVar "j") (EConst I32 0x28))));
        SExpr (EAssign (EVar "b2") (EIndex (EVar "row") (EBin Add (EVar "j") (EConst I32 0x30))));
        SExpr (EAssign (EVar "b3") (EIndex (EVar "row") (EBin Add (EVar "j") (EConst I32 0x38))));
        SBlock [
          SDecl (TWord) "tmp" None;
          SExpr (EAssign (EVar "tmp") (EWop WAnd (EWop WXor (EWShr (EVar "a1") (EConst I32 8)) (EVar "a0")) (EWVal 2 0xff)));
          SExpr (EAssign (EVar "a0") (EWop WXor (EVar "a0") (EVar "tmp")));
          SExpr (EAssign (EVar "a1") (EWop WXor (EVar "a1") (EWShl (EVar "tmp") (EConst I32 8))))];
        SBlock [
          SDecl (TWord) "tmp" None;
          SExpr (EAssign (EVar "tmp") (EWop WAnd (EWop WXor (EWShr (EVar "a3") (EConst I32 8)) (EVar "a2")) (EWVal 2 0xff)));
          SExpr (EAssign (EVar "a2") (EWop WXor (EVar "a2") (EVar "tmp")));
          SExpr (EAssign (EVar "a3") (EWop WXor (EVar "a3") (EWShl (EVar "tmp") (EConst I32 8))))];
        SBlock [
          SDecl (TWord) "tmp" None;
          SExpr (EAssign (EVar "tmp") (EWop WAnd (EWop WXor (EWShr (EVar "b1") (EConst I32 8)) (EVar "b0")) (EWVal 2 0xff)));
          SExpr (EAssign (EVar "b0") (EWop WXor (EVar "b0") (EVar "tmp")));
          SExpr (EAssign (EVar "b1") (EWop WXor (EVar "b1") (EWShl (EVar "tmp") (EConst I32 8))))];
        SBlock [
          SDecl (TWord) "tmp" None;
          SExpr (EAssign (EVar "tmp") (EWop WAnd (EWop WXor (EWShr (EVar "b3") (EConst I32 8)) (EVar "b2")) (EWVal 2 0xff)));
          SExpr (EAssign (EVar "b2") (EWop WXor (EVar "b2") (EVar "tmp")));
          SExpr (EAssign (EVar "b3") (EWop WXor (EVar "b3") (EWShl (EVar "tmp") (EConst I32 8))))];
        SBlock [
          SDecl (TWord) "tmp" None;
          SExpr (EAssign (EVar "tmp") (EWop WAnd (EWop WXor (EWShr (EVar "a2") (EConst I32 0x10)) (EVar "a0")) (EWVal 4 0xffff)));
          SExpr (EAssign (EVar "a0") (EWop WXor (EVar "a0") (EVar "tmp")));
          SExpr (EAssign (EVar "a2") (EWop WXor (EVar "a2") (EWShl (EVar "tmp") (EConst I32 0x10))))];
        SBlock [
          SDecl (TWord) "tmp" None;
          SExpr (EAssign (EVar "tmp") (EWop WAnd (EWop WXor (EWShr (EVar "a3") (EConst I32 0x10)) (EVar "a1")) (EWVal 4 0xffff)));
          SExpr (EAssign (EVar "a1") (EWop WXor (EVar "a1") (EVar "tmp")));
          SExpr (EAssign (EVar "a3") (EWop WXor (EVar "a3") (EWShl (EVar "tmp") (EConst I32 0x10))))];
        SBlock [
          SDecl (TWord) "tmp" None;
          SExpr (EAssign (EVar "tmp") (EWop WAnd (EWop WXor (EWShr (EVar "b2") (EConst I32 0x10)) (EVar "b0")) (EWVal 4 0xffff)));
          SExpr (EAssign (EVar "b0") (EWop WXor (EVar "b0") (EVar "tmp")));
          SExpr (EAssign (EVar "b2") (EWop WXor (EVar "b2") (EWShl (EVar "tmp") (EConst I32 0x10))))];
        SBlock [
          SDecl (TWord) "tmp" None;
          SExpr (EAssign (EVar "tmp") (EWop WAnd (EWop WXor (EWShr (EVar "b3") (EConst I32 0x10)) (EVar "b1")) (EWVal 4 0xffff)));
          SExpr (EAssign (EVar "b1") (EWop WXor (EVar "b1") (EVar "tmp")));
          SExpr (EAssign (EVar "b3") (EWop WXor (EVar "b3") (EWShl (EVar "tmp") (EConst I32 0x10))))];
        SBlock [
          SDecl (TWord) "tmp" None;
          SExpr (EAssign (EVar "tmp") (EWop WAnd (EWop WXor (EWShr (EVar "b0") (EConst I32 0x20)) (EVar "a0")) (EWVal 8 0xffffffff)));
          SExpr (EAssign (EVar "a0") (EWop WXor (EVar "a0") (EVar "tmp")));
          SExpr (EAssign (EVar "b0") (EWop WXor (EVar "b0") (EWShl (EVar "tmp") (EConst I32 0x20))))];
        SBlock [
          SDecl (TWord) "tmp" None;
          SExpr (EAssign (EVar "tmp") (EWop WAnd (EWop WXor (EWShr (EVar "b1") (EConst I32 0x20)) (EVar "a1")) (EWVal 8 0xffffffff)));
          SExpr (EAssign (EVar "a1") (EWop WXor (EVar "a1") (EVar "tmp")));
          SExpr (EAssign (EVar "b1") (EWop WXor (EVar "b1") (EWShl (EVar "tmp") (EConst I32 0x20))))];
        SBlock [
          SDecl (TWord) "tmp" None;
          SExpr (EAssign (EVar "tmp") (EWop WAnd (EWop WXor (EWShr (EVar "b2") (EConst I32 0x20)) (EVar "a2")) (EWVal 8 0xffffffff)));
          SExpr (EAssign (EVar "a2") (EWop WXor (EVar "a2") (EVar "tmp")));
          SExpr (EAssign (EVar "b2") (EWop WXor (EVar "b2") (EWShl (EVar "tmp") (EConst I32 0x20))))];
        SBlock [
          SDecl (TWord) "tmp" None;
          SExpr (EAssign (EVar "tmp") (EWop WAnd (EWop WXor (EWShr (EVar "b3") (EConst I32 0x20)) (EVar "a3")) (EWVal 8 0xffffffff)));
          SExpr (EAssign (EVar "a3") (EWop WXor (EVar "a3") (EVar "tmp")));
          SExpr (EAssign (EVar "b3") (EWop WXor (EVar "b3") (EWShl (EVar "tmp") (EConst I32 0x20))))];
        SExpr (EAssign (EIndex (EVar "row") (EBin Add (EVar "j") (EConst I32 0))) (EVar "a0"));
        SExpr (EAssign (EIndex (EVar "row") (EBin Add (EVar "j") (EConst I32 8))) (EVar "a1"));
        SExpr (EAssign (EIndex (EVar "row") (EBin Add (EVar "j") (EConst I32 0x10))) (EVar "a2"));
        SExpr (EAssign (EIndex (EVar "row") (EBin Add (EVar "j") (EConst I32 0x18))) (EVar "a3"));
        SExpr (EAssign (EIndex (EVar "row") (EBin Add (EVar "j") (EConst I32 0x20))) (EVar "b0"));
        SExpr (EAssign (EIndex (EVar "row") (EBin Add (EVar "j") (EConst I32 0x28))) (EVar "b1"));
        SExpr (EAssign (EIndex (EVar "row") (EBin Add (EVar "j") (EConst I32 0x30))) (EVar "b2"));
        SExpr (EAssign (EIndex (EVar "row") (EBin Add (EVar "j") (EConst I32 0x38))) (EVar "b3"))])].

Definition bs_matrix_transpose_64x_4 (c : build) : fundef := mk_fun "dvbcsa_bs_matrix_transpose_64x" (TVoid) [("row", TPtr (TWord))] [
    SDecl (TInt I32) "j" None;
    SFor (Some (EAssign (EVar "j") (EConst I32 0))) (EBin Lt (EVar "j") (EConst I32 0x10)) (Some (EPost Add (EVar "j")))
      (SBlock [
        SDecl (TWord) "a0" None;
        SDecl (TWord) "a1" None;
        SDecl (TWord) "a2" None;
        SDecl (TWord) "a3" None;
        SExpr (EAssign (EVar "a0") (EIndex (EVar "row") (EBin Add (EVar "j") (EConst I32 0))));
        SExpr (EAssign (EVar "a1") (EIndex (EVar "row") (EBin Add (EVar "j") (EConst I32 0x10))));
        SExpr (EAssign (EVar "a2") (EIndex (EVar "row") (EBin Add (EVar "j") (EConst I32 0x20))));
        SExpr (EAssign (EVar "a3") (EIndex (EVar "row") (EBin Add (EVar "j") (EConst I32 0x30))));
        SBlock [
          SDecl (TWord) "tmp" None;
          SExpr (EAssign (EVar "tmp") (EWop WAnd (EWop WXor (EWShr (EVar "a0") (EConst I32 0x10)) (EVar "a1")) (EWVal 4 0xffff)));
          SExpr (EAssign (EVar "a1") (EWop WXor (EVar "a1") (EVar "tmp")));
          SExpr (EAssign (EVar "a0") (EWop WXor (EVar "a0") (EWShl (EVar "tmp") (EConst I32 0x10))))];
        SBlock [
          SDecl (TWord) "tmp" None;
          SExpr (EAssign (EVar "tmp") (EWop WAnd (EWop WXor (EWShr (EVar "a2") (EConst I32 0x10)) (EVar "a3")) (EWVal 4 0xffff)));
          SExpr (EAssign (EVar "a3") (EWop WXor (EVar "a3") (EVar "tmp")));
          SExpr (EAssign (EVar "a2") (EWop WXor (EVar "a2") (EWShl (EVar "tmp") (EConst I32 0x10))))];
        SBlock [
          SDecl (TWord) "tmp" None;
          SExpr (EAssign (EVar "tmp") (EWop WAnd (EWop WXor (EWShr (EVar "a0") (EConst I32 0x20)) (EVar "a2")) (EWVal 8 0xffffffff)));
          SExpr (EAssign (EVar "a2") (EWop WXor (EVar "a2") (EVar "tmp")));
          SExpr (EAssign (EVar "a0") (EWop WXor (EVar "a0") (EWShl (EVar "tmp") (EConst I32 0x20))))];
        SBlock [
          SDecl (TWord) "tmp" None;
          SExpr (EAssign (EVar "tmp") (EWop WAnd (EWop WXor (EWShr (EVar "a1") (EConst I32 0x20)) (EVar "a3")) (EWVal 8 0xffffffff)));
          SExpr (EAssign (EVar "a3") (EWop WXor (EVar "a3") (EVar "tmp")));
          SExpr (EAssign (EVar "a1") (EWop WXor (EVar "a1") (EWShl (EVar "tmp") (EConst I32 0x20))))];
        SExpr (EAssign (EIndex (EVar "row") (EBin Add (EVar "j") (EConst I32 0))) (EVar "a0"));
        SExpr (EAssign (EIndex (EVar "row") (EBin Add (EVar "j") (EConst I32 0x10))) (EVar "a1"));
        SExpr (EAssign (EIndex (EVar "row") (EBin Add (EVar "j") (EConst I32 0x20))) (EVar "a2"));
        SExpr (EAssign (EIndex (EVar "row") (EBin Add (EVar "j") (EConst I32 0x30))) (EVar "a3"))]);
    SFor (Some (EAssign (EVar "j") (EConst I32 0))) (EBin Lt (EVar "j") (EConst I32 0x40)) (Some (EOpAssign Add (EVar "j") (EConst I32 0x10)))
      (SBlock [
        SDecl (TInt I32) "i" None;
        SFor (Some (EAssign (EVar "i") (EConst I32 0))) (EBin Lt (EVar "i") (EConst I32 4)) (Some (EPost Add (EVar "i")))
          (SBlock [
            SDecl (TWord) "a0" None;
            SDecl (TWord) "a1" None;
            SDecl (TWord) "a2" None;
            SDecl (TWord) "a3" None;
            SExpr (EAssign (EVar "a0") (EIndex (EVar "row") (EBin Add (EBin Add (EVar "j") (EVar "i")) (EConst I32 0))));
            SExpr (EAssign (EVar "a1") (EIndex (EVar "row") (EBin Add (EBin Add (EVar "j") (EVar "i")) (EConst I32 4))));
            SExpr (EAssign (EVar "a2") (EIndex (EVar "row") (EBin Add (EBin Add (EVar "j") (EVar "i")) (EConst I32 8))));
            SExpr (EAssign (EVar "a3") (EIndex (EVar "row") (EBin Add (EBin Add (EVar "j") (EVar "i")) (EConst I32 0xc))));
            SBlock [
              SDecl (TWord) "tmp" None;
              SExpr (EAssign (EVar "tmp") (EWop WAnd (EWop WXor (EWShr (EVar "a0") (EConst I32 4)) (EVar "a1")) (EWVal 1 0xf)));
              SExpr (EAssign (EVar "a1") (EWop WXor (EVar "a1") (EVar "tmp")));
              SExpr (EAssign (EVar "a0") (EWop WXor (EVar "a0") (EWShl (EVar "tmp") (EConst I32 4))))];
            SBlock [
              SDecl (TWord) "tmp" None;
              SExpr (EAssign (EVar "tmp") (EWop WAnd (EWop WXor (EWShr (EVar "a2") (EConst I32 4)) (EVar "a3")) (EWVal 1 0xf)));
              SExpr (EAssign (EVar "a3") (EWop WXor (EVar "a3") (EVar "tmp")));
              SExpr (EAssign (EVar "a2") (EWop WXor (EVar "a2") (EWShl (EVar "tmp") (EConst I32 4))))];
            SBlock [
              SDecl (TWord) "tmp" None;
              SExpr (EAssign (EVar "tmp") (EWop WAnd (EWop WXor (EWShr (EVar "a0") (EConst I32 8)) (EVar "a2")) (EWVal 2 0xff)));
              SExpr (EAssign (EVar "a2") (EWop WXor (EVar "a2") (EVar "tmp")));
              SExpr (EAssign (EVar "a0") (EWop WXor (EVar "a0") (EWShl (EVar "tmp") (EConst I32 8))))];
            SBlock [
              SDecl (TWord) "tmp" None;
              SExpr (EAssign (EVar "tmp") (EWop WAnd (EWop WXor (EWShr (EVar "a1") (EConst I32 8)) (EVar "a3")) (EWVal 2 0xff)));
              SExpr (EAssign (EVar "a3") (EWop WXor (EVar "a3") (EVar "tmp")));
              SExpr (EAssign (EVar "a1") (EWop WXor (EVar "a1") (EWShl (EVar "tmp") (EConst I32 8))))];
            SExpr (EAssign (EIndex (EVar "row") (EBin Add (EBin Add (EVar "j") (EVar "i")) (EConst I32 0))) (EVar "a0"));
            SExpr (EAssign (EIndex (EVar "row") (EBin Add (EBin Add (EVar "j") (EVar "i")) (EConst I32 4))) (EVar "a1"));
            SExpr (EAssign (EIndex (EVar "row") (EBin Add (EBin Add (EVar "j") (EVar "i")) (EConst I32 8))) (EVar "a2"));
            SExpr (EAssign (EIndex (EVar "row") (EBin Add (EBin Add (EVar "j") (EVar "i")) (EConst I32 0xc))) (EVar "a3"))])]);
    SFor (Some (EAssign (EVar "j") (EConst I32 0))) (EBin Lt (EVar "j") (EConst I32 0x40)) (Some (EOpAssign Add (EVar "j") (EConst I32 4)))
      (SBlock [
        SDecl (TWord) "a0" None;
        SDecl (TWord) "a1" None;
        SDecl (TWord) "a2" None;
        SDecl (TWord) "a3" None;
        SExpr (EAssign (EVar "a0") (EIndex (EVar "row") (EBin Add (EVar "j") (EConst I32 0))));
        SExpr (EAssign (EVar "a1") (EIndex (EVar "row") (EBin Add (EVar "j") (EConst I32 1))));
        SExpr (EAssign (EVar "a2") (EIndex (EVar "row") (EBin Add (EVar "j") (EConst I32 2))));
        SExpr (EAssign (EVar "a3") (EIndex (EVar "row") (EBin Add (EVar "j") (EConst I32 3))));
        SBlock [
          SDecl (TWord) "tmp" None;
          SExpr (EAssign (EVar "tmp") (EWop WAnd (EWop WXor (EWShr (EVar "a0") (EConst I32 1)) (EVar "a1")) (EWVal 1 0x55)));
          SExpr (EAssign (EVar "a1") (EWop WXor (EVar "a1") (EVar "tmp")));
          SExpr (EAssign (EVar "a0") (EWop WXor (EVar "a0") (EWShl (EVar "tmp") (EConst I32 1))))];
        SBlock [
          SDecl (TWord) "tmp" None;
          SExpr (EAssign (EVar "tmp") (EWop WAnd (EWop WXor (EWShr (EVar "a2") (EConst I32 1)) (EVar "a3")) (EWVal 1 0x55)));
          SExpr (EAssign (EVar "a3") (EWop WXor (EVar "a3") (EVar "tmp")));
          SExpr (EAssign (EVar "a2") (EWop WXor (EVar "a2") (EWShl (EVar "tmp") (EConst I32 1))))];
        SBlock [
          SDecl (TWord) "tmp" None;
          SExpr (EAssign (EVar "tmp") (EWop WAnd (EWop WXor (EWShr (EVar "a0") (EConst I32 2)) (EVar "a2")) (EWVal 1 0x33)));
          SExpr (EAssign (EVar "a2") (EWop WXor (EVar "a2") (EVar "tmp")));
          SExpr (EAssign (EVar "a0") (EWop WXor (EVar "a0") (EWShl (EVar "tmp") (EConst I32 2))))];
        SBlock [
          SDecl (TWord) "tmp" None;
          SExpr (EAssign (EVar "tmp") (EWop WAnd (EWop WXor (EWShr (EVar "a1") (EConst I32 2)) (EVar "a3")) (EWVal 1 0x33)));
          SExpr (EAssign (EVar "a3") (EWop WXor (EVar "a3") (EVar "tmp")));
          SExpr (EAssign (EVar "a1") (EWop WXor (EVar "a1") (EWShl (EVar "tmp") (EConst I32 2))))];
        SExpr (EAssign (EIndex (EVar "row") (EBin Add (EVar "j") (EConst I32 0))) (EVar "a0"));
        SExpr (EAssign (EIndex (EVar "row") (EBin Add (EVar "j") (EConst I32 1))) (EVar "a1"));
        SExpr (EAssign (EIndex (EVar "row") (EBin Add (EVar "j") (EConst I32 2))) (EVar "a2"));
        SExpr (EAssign (EIndex (EVar "row") (EBin Add (EVar "j") (EConst I32 3))) (EVar "a3"))])].

Definition bs_matrix_transpose_64x_5 (c : build) : fundef := mk_fun "dvbcsa_bs_matrix_transpose_64x" (TVoid) [("row", TPtr (TWord))] [
    SDecl (TInt I32) "j" None;
    SFor (Some (EAssign (EVar "j") (EConst I32 0))) (EBin Lt (EVar "j") (EConst I32 0x40)) (Some (EOpAssign Add (EVar "j") (EConst I32 8)))
      (SBlock [
        SDecl (TWord) "a0" None;
        SDecl (TWord) "a1" None;
        SDecl (TWord) "a2" None;
        SDecl (TWord) "a3" None;
        SDecl (TWord) "b0" None;
        SDecl (TWord) "b1" None;
        SDecl (TWord) "b2" None;
        SDecl (TWord) "b3" None;
        SExpr (EAssign (EVar "a0") (EIndex (EVar "row") (EBin Add (EVar "j") (EConst I32 0))));
        SExpr (EAssign (EVar "a1") (EIndex (EVar "row") (EBin Add (EVar "j") (EConst I32 1))));
        SExpr (EAssign (EVar "a2") (EIndex (EVar "row") (EBin Add (EVar "j") (EConst I32 2))));
        SExpr (EAssign (EVar "a3") (EIndex (EVar "row") (EBin Add (EVar "j") (EConst I32 3))));
        SExpr (EAssign (EVar "b0") (EIndex (EVar "row") (EBin Add (EVar "j") (EConst I32 4))));
        SExpr (EAssign (EVar "b1") (EIndex (EVar "row") (EBin Add (EVar "j") (EConst I32 5))));
        SExpr (EAssign (EVar "b2") (EIndex (EVar "row") (EBin Add (EVar "j") (EConst I32 6))));
        SExpr (EAssign (EVar "b3") (EIndex (EVar "row") (EBin Add (EVar "j") (EConst I32 7))));
        SBlock [
          SDecl (TWord) "tmp" None;
          SExpr (EAssign (EVar "tmp") (EWop WAnd (EWop WXor (EWShr (EVar "a0") (EConst I32 1)) (EVar "a1")) (EWVal 1 0x55)));
          SExpr (EAssign (EVar "a1") (EWop WXor (EVar "a1") (EVar "tmp")));
          SExpr (EAssign (EVar "a0") (EWop WXor (EVar "a0") (EWShl (EVar "tmp") (EConst I32 1))))];
        SBlock [
          SDecl (TWord) "tmp" None;
          SExpr (EAssign (EVar "tmp") (EWop WAnd (EWop WXor (EWShr (EVar "a2") (EConst I32 1)) (EVar "a3")) (EWVal 1 0x55)));
          SExpr (EAssign (EVar "a3") (EWop WXor (EVar "a3") (EVar "tmp")));
          SExpr (EAssign (EVar "a2") (EWop WXor (EVar "a2") (EWShl (EVar "tmp") (EConst I32 1))))];
        SBlock [
          SDecl (TWord) "tmp" None;
          SExpr (EAssign (EVar "tmp") (EWop WAnd (EWop WXor (EWShr (EVar "b0") (EConst I32 1)) (EVar "b1")) (EWVal 1 0x55)));
          SExpr (EAssign (EVar "b1") (EWop WXor (EVar "b1") (EVar "tmp")));
          SExpr (EAssign (EVar "b0") (EWop WXor (EVar "b0") (EWShl (EVar "tmp") (EConst I32 1))))];
        SBlock [
          SDecl (TWord) "tmp" None;
          SExpr (EAssign (EVar "tmp") (EWop WAnd (EWop WXor (EWShr (EVar "b2") (EConst I32 1)) (EVar "b3")) (EWVal 1 0x55)));
          SExpr (EAssign (EVar "b3") (EWop WXor (EVar "b3") (EVar "tmp")));
          SExpr (EAssign (EVar "b2") (EWop WXor (EVar "b2") (EWShl (EVar "tmp") (EConst I32 1))))];
        SBlock [
          SDecl (TWord) "tmp" None;
          SExpr (EAssign (EVar "tmp") (EWop WAnd (EWop WXor (EWShr (EVar "a0") (EConst I32 2)) (EVar "a2")) (EWVal 1 0x33)));
          SExpr (EAssign (EVar "a2") (EWop WXor (EVar "a2") (EVar "tmp")));
          SExpr (EAssign (EVar "a0") (EWop WXor (EVar "a0") (EWShl (EVar "tmp") (EConst I32 2))))];
        SBlock [
          SDecl (TWord) "tmp" None;
          SExpr (EAssign (EVar "tmp") (EWop WAnd (EWop WXor (EWShr (EVar "a1") (EConst I32 2)) (EVar "a3")) (EWVal 1 0x33)));
          SExpr (EAssign (EVar "a3") (EWop WXor (EVar "a3") (EVar "tmp")));
          SExpr (EAssign (EVar "a1") (EWop WXor (EVar "a1") (EWShl (EVar "tmp") (EConst I32 2))))];
        SBlock [
          SDecl (TWord) "tmp" None;
          SExpr (EAssign (EVar "tmp") (EWop WAnd (EWop WXor (EWShr (EVar "b0") (EConst I32 2)) (EVar "b2")) (EWVal 1 0x33)));
          SExpr (EAssign (EVar "b2") (EWop WXor (EVar "b2") (EVar "tmp")));
          SExpr (EAssign (EVar "b0") (EWop WXor (EVar "b0") (EWShl (EVar "tmp") (EConst I32 2))))];
        SBlock [
          SDecl (TWord) "tmp" None;
          SExpr (EAssign (EVar "tmp") (EWop WAnd (EWop WXor (EWShr (EVar "b1") (EConst I32 2)) (EVar "b3")) (EWVal 1 0x33)));
          SExpr (EAssign (EVar "b3") (EWop WXor (EVar "b3") (EVar "tmp")));
          SExpr (EAssign (EVar "b1") (EWop WXor (EVar "b1") (EWShl (EVar "tmp") (EConst I32 2))))];
        SBlock [
          SDecl (TWord) "tmp" None;
          SExpr (EAssign (EVar "tmp") (EWop WAnd (EWop WXor (EWShr (EVar "a0") (EConst I32 4)) (EVar "b0")) (EWVal 1 0xf)));
          SExpr (EAssign (EVar "b0") (EWop WXor (EVar "b0") (EVar "tmp")));
          SExpr (EAssign (EVar "a0") (EWop WXor (EVar "a0") (EWShl (EVar "tmp") (EConst I32 4))))];
        SBlock [
          SDecl (TWord) "tmp" None;
          SExpr (EAssign (EVar "tmp") (EWop WAnd (EWop WXor (EWShr (EVar "a1") (EConst I32 4)) (EVar "b1")) (EWVal 1 0xf)));
          SExpr (EAssign (EVar "b1") (EWop WXor (EVar "b1") (EVar "tmp")));
          SExpr (EAssign (EVar "a1") (EWop WXor (EVar "a1") (EWShl (EVar "tmp") (EConst I32 4))))];
        SBlock [
          SDecl (TWord) "tmp" None;
          SExpr (EAssign (EVar "tmp") (EWop WAnd (EWop WXor (EWShr (EVar "a2") (EConst I32 4)) (EVar "b2")) (EWVal 1 0xf)));
          SExpr (EAssign (EVar "b2") (EWop WXor (EVar "b2") (EVar "tmp")));
          SExpr (EAssign (EVar "a2") (EWop WXor (EVar "a2") (EWShl (EVar "tmp") (EConst I32 4))))];
        SBlock [
          SDecl (TWord) "tmp" None;
          SExpr (EAssign (EVar "tmp") (EWop WAnd (EWop WXor (EWShr (EVar "a3") (EConst I32 4)) (EVar "b3")) (EWVal 1 0xf)));
          SExpr (EAssign (EVar "b3") (EWop WXor (EVar "b3") (EVar "tmp")));
          SExpr (EAssign (EVar "a3") (EWop WXor (EVar "a3") (EWShl (EVar "tmp") (EConst I32 4))))];
        SExpr (EAssign (EIndex (EVar "row") (EBin Add (EVar "j") (EConst I32 0))) (EVar "a0"));
        SExpr (EAssign (EIndex (EVar "row") (EBin Add (EVar "j") (EConst I32 1))) (EVar "a1"));
        SExpr (EAssign (EIndex (EVar "row") (EBin Add (EVar "j") (EConst I32 2))) (EVar "a2"));
        SExpr (EAssign (EIndex (EVar "row") (EBin Add (EVar "j") (EConst I32 3))) (EVar "a3"));
        SExpr (EAssign (EIndex (EVar "row") (EBin Add (EVar "j") (EConst I32 4))) (EVar "b0"));
        SExpr (EAssign (EIndex (EVar "row") (EBin Add (EVar "j") (EConst I32 5))) (EVar "b1"));
        SExpr (EAssign (EIndex (EVar "row") (EBin Add (EVar "j") (EConst I32 6))) (EVar "b2"));
        SExpr (EAssign (EIndex (EVar "row") (EBin Add (EVar "j") (EConst I32 7))) (EVar "b3"))]);
    SFor (Some (EAssign (EVar "j") (EConst I32 0))) (EBin Lt (EVar "j") (EConst I32 8)) (Some (EPost Add (EVar "j")))
      (SBlock [
        SDecl (TWord) "a0" None;
        SDecl (TWord) "a1" None;
        SDecl (TWord) "a2" None;
        SDecl (TWord) "a3" None;
        SDecl (TWord) "b0" None;
        SDecl (TWord) "b1" None;
        SDecl (TWord) "b2" None;
        SDecl (TWord) "b3" None;
        SExpr (EAssign (EVar "a0") (EIndex (EVar "row") (EBin Add (EVar "j") (EConst I32 0))));
        SExpr (EAssign (EVar "a1") (EIndex (EVar "row") (EBin Add (EVar "j") (EConst I32 8))));
        SExpr (EAssign (EVar "a2") (EIndex (EVar "row") (EBin Add (EVar "j") (EConst I32 0x10))));
        SExpr (EAssign (EVar "a3") (EIndex (EVar "row") (EBin Add (EVar "j") (EConst I32 0x18))));
        SExpr (EAssign (EVar "b0") (EIndex (EVar "row") (EBin Add (EVar "j") (EConst I32 0x20))));
        SExpr (EAssign (EVar "b1") (EIndex (EVar "row") (EBin Add (EVar "j") (EConst I32 0x28))));
        SExpr (EAssign (EVar "b2") (EIndex (EVar "row") (EBin Add (EVar "j") (EConst I32 0x30))));
        SExpr (EAssign (EVar "b3") (EIndex (EVar "row") (EBin Add (EVar "j") (EConst I32 0x38))));
        SBlock [
          SDecl (TWord) "tmp" None;
          SExpr (EAssign (EVar "tmp") (EWop WAnd (EWop WXor (EWShr (EVar "a0") (EConst I32 8)) (EVar "a1")) (EWVal 2 0xff)));
          SExpr (EAssign (EVar "a1") (EWop WXor (EVar "a1") (EVar "tmp")));
          SExpr (EAssign (EVar "a0") (EWop WXor (EVar "a0") (EWShl (EVar "tmp") (EConst I32 8))))];
        SBlock [
          SDecl (TWord) "tmp" None;
          SExpr (EAssign (EVar "tmp") (EWop WAnd (EWop WXor (EWShr (EVar "a2") (EConst I32 8)) (EVar "a3")) (EWVal 2 0xff)));
          SExpr (EAssign (EVar "a3") (EWop WXor (EVar "a3") (EVar "tmp")));
          SExpr (EAssign (EVar "a2") (EWop WXor (EVar "a2") (EWShl (EVar "tmp") (EConst I32 8))))];
        SBlock [
          SDecl (TWord) "tmp" None;
          SExpr (EAssign (EVar "tmp") (EWop WAnd (EWop WXor (EWShr (EVar "b0") (EConst I32 8)) (EVar "b1")) (EWVal 2 0xff)));
          SExpr (EAssign (EVar "b1") (EWop WXor (EVar "b1") (EVar "tmp")));
          SExpr (EAssign (EVar "b0") (EWop WXor (EVar "b0") (EWShl (EVar "tmp") (EConst I32 8))))];
        SBlock [
          SDecl (TWord) "tmp" None;
          SExpr (EAssign (EVar "tmp") (EWop WAnd (EWop WXor (EWShr (EVar "b2") (EConst I32 8)) (EVar "b3")) (EWVal 2 0xff)));
          SExpr (EAssign (EVar "b3") (EWop WXor (EVar "b3") (EVar "tmp")));
          SExpr (EAssign (EVar "b2") (EWop WXor (EVar "b2") (EWShl (EVar "tmp") (EConst I32 8))))];
        SBlock [
          SDecl (TWord) "tmp" None;
          SExpr (EAssign (EVar "tmp") (EWop WAnd (EWop WXor (EWShr (EVar "a0") (EConst I32 0x10)) (EVar "a2")) (EWVal 4 0xffff)));
          SExpr (EAssign (EVar "a2") (EWop WXor (EVar "a2") (EVar "tmp")));
          SExpr (EAssign (EVar "a0") (EWop WXor (EVar "a0") (EWShl (EVar "tmp") (EConst I32 0x10))))];
        SBlock [
          SDecl (TWord) "tmp" None;
          SExpr (EAssign (EVar "tmp") (EWop WAnd (EWop WXor (EWShr (EVar "a1") (EConst I32 0x10)) (EVar "a3")) (EWVal 4 0xffff)));
          SExpr (EAssign (EVar "a3") (EWop WXor (EVar "a3") (EVar "tmp")));
          SExpr (EAssign (EVar "a1") (EWop WXor (EVar "a1") (EWShl (EVar "tmp") (EConst I32 0x10))))];
        SBlock [
          SDecl (TWord) "tmp" None;
          SExpr (EAssign (EVar "tmp") (EWop WAnd (EWop WXor (EWShr (EVar "b0") (EConst I32 0x10)) (EVar "b2")) (EWVal 4 0xffff)));
          SExpr (EAssign (EVar "b2") (EWop WXor (EVar "b2") (EVar "tmp")));
          SExpr (EAssign (EVar "b0") (EWop WXor (EVar "b0") (EWShl (EVar "tmp") (EConst I32 0x10))))];
        SBlock [
          SDecl (TWord) "tmp" None;
          SExpr (EAssign (EVar "tmp") (EWop WAnd (EWop WXor (EWShr (EVar "b1") (EConst I32 0x10)) (EVar "b3")) (EWVal 4 0xffff)));
          SExpr (EAssign (EVar "b3") (EWop WXor (EVar "b3") (EVar "tmp")));
          SExpr (EAssign (EVar "b1") (EWop WXor (EVar "b1") (EWShl (EVar "tmp") (EConst I32 0x10))))];
        SBlock [
          SDecl (TWord) "tmp" None;
          SExpr (EAssign (EVar "tmp") (EWop WAnd (EWop WXor (EWShr (EVar "a0") (EConst I32 0x20)) (EVar "b0")) (EWVal 8 0xffffffff)));
          SExpr (EAssign (EVar "b0") (EWop WXor (EVar "b0") (EVar "tmp")));
          SExpr (EAssign (EVar "a0") (EWop WXor (EVar "a0") (EWShl (EVar "tmp") (EConst I32 0x20))))];
        SBlock [
          SDecl (TWord) "tmp" None;
          SExpr (EAssign (EVar "tmp") (EWop WAnd (EWop WXor (EWShr (EVar "a1") (EConst I32 0x20)) (EVar "b1")) (EWVal 8 0xffffffff)));
          SExpr (EAssign (EVar "b1") (EWop WXor (EVar "b1") (EVar "tmp")));
          SExpr (EAssign (EVar "a1") (EWop WXor (EVar "a1") (EWShl (EVar "tmp") (EConst I32 0x20))))];
        SBlock [
          SDecl (TWord) "tmp" None;
          SExpr (EAssign (EVar "tmp") (EWop WAnd (EWop WXor (EWShr (EVar "a2") (EConst I32 0x20)) (EVar "b2")) (EWVal 8 0xffffffff)));
          SExpr (EAssign (EVar "b2") (EWop WXor (EVar "b2") (EVar "tmp")));
          SExpr (EAssign (EVar "a2") (EWop WXor (EVar "a2") (EWShl (EVar "tmp") (EConst I32 0x20))))];
        SBlock [
          SDecl (TWord) "tmp" None;
          SExpr (EAssign (EVar "tmp") (EWop WAnd (EWop WXor (EWShr (EVar "a3") (EConst I32 0x20)) (EVar "b3")) (EWVal 8 0xffffffff)));
          SExpr (EAssign (EVar "b3") (EWop WXor (EVar "b3") (EVar "tmp")));
          SExpr (EAssign (EVar "a3") (EWop WXor (EVar "a3") (EWShl (EVar "tmp") (EConst I32 0x20))))];
        SExpr (EAssign (EIndex (EVar "row") (EBin Add (EVar "j") (EConst I32 0))) (EVar "a0"));
        SExpr (EAssign (EIndex (EVar "row") (EBin Add (EVar "j") (EConst I32 8))) (EVar "a1"));
        SExpr (EAssign (EIndex (EVar "row") (EBin Add (EVar "j") (EConst I32 0x10))) (EVar "a2"));
        SExpr (EAssign (EIndex (EVar "row") (EBin Add (EVar "j") (EConst I32 0x18))) (EVar "a3"));
        SExpr (EAssign (EIndex (EVar "row") (EBin Add (EVar "j") (EConst I32 0x20))) (EVar "b0"));
        SExpr (EAssign (EIndex (EVar "row") (EBin Add (EVar "j") (EConst I32 0x28))) (EVar "b1"));
        SExpr (EAssign (EIndex (EVar "row") (EBin Add (EVar "j") (EConst I32 0x30))) (EVar "b2"));
        SExpr (EAssign (EIndex (EVar "row") (EBin Add (EVar "j") (EConst I32 0x38))) (EVar "b3"))])].

Definition bs_matrix_transpose_64x_6 (c : build) : fundef := mk_fun "dvbcsa_bs_matrix_transpose_64x" (TVoid) [("row", TPtr (TWord))] [
    SDecl (TInt I32) "j" None;
    SFor (Some (EAssign (EVar "j") (EConst I32 0))) (EBin Lt (EVar "j") (EConst I32 0x10)) (Some (EPost Add (EVar "j")))
      (SBlock [
        SDecl (TWord) "a0" None;
        SDecl (TWord) "a1" None;
        SDecl (TWord) "a2" None;
        SDecl (TWord) "a3" None;
        SExpr (EAssign (EVar "a0") (EIndex (EVar "row") (EBin Add (EVar "j") (EConst I32 0))));
        SExpr (EAssign (EVar "a1") (EIndex (EVar "row") (EBin Add (EVar "j") (EConst I32 0x10))));
        SExpr (EAssign (EVar "a2") (EIndex (EVar "row") (EBin Add (EVar "j") (EConst I32 0x20))));
        SExpr (EAssign (EVar "a3") (EIndex (EVar "row") (EBin Add (EVar "j") (EConst I32 0x30))));
        SSwap 16 (EVar "a1") (EVar "a0");
        SSwap 16 (EVar "a3") (EVar "a2");
        SSwap 32 (EVar "a2") (EVar "a0");
        SSwap 32 (EVar "a3") (EVar "a1");
        SExpr (EAssign (EIndex (EVar "row") (EBin Add (EVar "j") (EConst I32 0))) (EVar "a0"));
        SExpr (EAssign (EIndex (EVar "row") (EBin Add (EVar "j") (EConst I32 0x10))) (EVar "a1"));
        SExpr (EAssign (EIndex (EVar "row") (EBin Add (EVar "j") (EConst I32 0x20))) (EVar "a2"));
        SExpr (EAssign (EIndex (EVar "row") (EBin Add (EVar "j") (EConst I32 0x30))) (EVar "a3"))]);
    SFor (Some (EAssign (EVar "j") (EConst I32 0))) (EBin Lt (EVar "j") (EConst I32 0x40)) (Some (EOpAssign Add (EVar "j") (EConst I32 0x10)))
      (SBlock [
        SDecl (TInt I32) "i" None;
        SFor (Some (EAssign (EVar "i") (EConst I32 0))) (EBin Lt (EVar "i") (EConst I32 4)) (Some (EPost Add (EVar "i")))
          (SBlock [
            SDecl (TWord) "a0" None;
            SDecl (TWord) "a1" None;
            SDecl (TWord) "a2" None;
            SDecl (TWord) "a3" None;
            SExpr (EAssign (EVar "a0") (EIndex (EVar "row") (EBin Add (EBin Add (EVar "j") (EVar "i")) (EConst I32 0))));
            SExpr (EAssign (EVar "a1") (EIndex (EVar "row") (EBin Add (EBin Add (EVar "j") (EVar "i")) (EConst I32 4))));
            SExpr (EAssign (EVar "a2") (EIndex (EVar "row") (EBin Add (EBin Add (EVar "j") (EVar "i")) (EConst I32 8))));
            SExpr (EAssign (EVar "a3") (EIndex (EVar "row") (EBin Add (EBin Add (EVar "j") (EVar "i")) (EConst I32 0xc))));
            SBlock [
              SDecl (TWord) "tmp" None;
              SExpr (EAssign (EVar "tmp") (EWop WAnd (EWop WXor (EWShr (EVar "a0") (EConst I32 4)) (EVar "a1")) (EWVal 1 0xf)));
              SExpr (EAssign (EVar "a1") (EWop WXor (EVar "a1") (EVar "tmp")));
              SExpr (EAssign (EVar "a0") (EWop WXor (EVar "a0") (EWShl (EVar "tmp") (EConst I32 4))))];
            SBlock [
              SDecl (TWord) "tmp" None;
              SExpr (EAssign (EVar "tmp") (EWop WAnd (EWop WXor (EWShr (EVar "a2") (EConst I32 4)) (EVar "a3")) (EWVal 1 0xf)));
              SExpr (EAssign (EVar "a3") (EWop WXor (EVar "a3") (EVar "tmp")));
              SExpr (EAssign (EVar "a2") (EWop WXor (EVar "a2") (EWShl (EVar "tmp") (EConst I32 4))))];
            SSwap 8 (EVar "a2") (EVar "a0");
            SSwap 8 (EVar "a3") (EVar "a1");
            SExpr (EAssign (EIndex (EVar "row") (EBin Add (EBin Add (EVar "j") (EVar "i")) (EConst I32 0))) (EVar "a0"));
            SExpr (EAssign (EIndex (EVar "row") (EBin Add (EBin Add (EVar "j") (EVar "i")) (EConst I32 4))) (EVar "a1"));
            SExpr (EAssign (EIndex (EVar "row") (EBin Add (EBin Add (EVar "j") (EVar "i")) (EConst I32 8))) (EVar "a2"));
            SExpr (EAssign (EIndex (EVar "row") (EBin Add (EBin Add (EVar "j") (EVar "i")) (EConst I32 0xc))) (EVar "a3"))])]);
    SFor (Some (EAssign (EVar "j") (EConst I32 0))) (EBin Lt (EVar "j") (EConst I32 0x40)) (Some (EOpAssign Add (EVar "j") (EConst I32 4)))
      (SBlock [
        SDecl (TWord) "a0" None;
        SDecl (TWord) "a1" None;
        SDecl (TWord) "a2" None;
        SDecl (TWord) "a3" None;
        SExpr (EAssign (EVar "a0") (EIndex (EVar "row") (EBin Add (EVar "j") (EConst I32 0))));
        SExpr (EAssign (EVar "a1") (EIndex (EVar "row") (EBin Add (EVar "j") (EConst I32 1))));
        SExpr (EAssign (EVar "a2") (EIndex (EVar "row") (EBin Add (EVar "j") (EConst I32 2))));
        SExpr (EAssign (EVar "a3") (EIndex (EVar "row") (EBin Add (EVar "j") (EConst I32 3))));
        SBlock [
          SDecl (TWord) "tmp" None;
          SExpr (EAssign (EVar "tmp") (EWop WAnd (EWop WXor (EWShr (EVar "a0") (EConst I32 1)) (EVar "a1")) (EWVal 1 0x55)));
          SExpr (EAssign (EVar "a1") (EWop WXor (EVar "a1") (EVar "tmp")));
          SExpr (EAssign (EVar "a0") (EWop WXor (EVar "a0") (EWShl (EVar "tmp") (EConst I32 1))))];
        SBlock [
          SDecl (TWord) "tmp" None;
          SExpr (EAssign (EVar "tmp") (EWop WAnd (EWop WXor (EWShr (EVar "a2") (EConst I32 1)) (EVar "a3")) (EWVal 1 0x55)));
          SExpr (EAssign (EVar "a3") (EWop WXor (EVar "a3") (EVar "tmp")));
          SExpr (EAssign (EVar "a2") (EWop WXor (EVar "a2") (EWShl (EVar "tmp") (EConst I32 1))))];
        SBlock [
          SDecl (TWord) "tmp" None;
          SExpr (EAssign (EVar "tmp") (EWop WAnd (EWop WXor (EWShr (EVar "a0") (EConst I32 2)) (EVar "a2")) (EWVal 1 0x33)));
          SExpr (EAssign (EVar "a2") (EWop WXor (EVar "a2") (EVar "tmp")));
          SExpr (EAssign (EVar "a0") (EWop WXor (EVar "a0") (EWShl (EVar "tmp") (EConst I32 2))))];
        SBlock [
          SDecl (TWord) "tmp" None;
          SExpr (EAssign (EVar "tmp") (EWop WAnd (EWop WXor (EWShr (EVar "a1") (EConst I32 2)) (EVar "a3")) (EWVal 1 0x33)));
          SExpr (EAssign (EVar "a3") (EWop WXor (EVar "a3") (EVar "tmp")));
          SExpr (EAssign (EVar "a1") (EWop WXor (EVar "a1") (EWShl (EVar "tmp") (EConst I32 2))))];
        SExpr (EAssign (EIndex (EVar "row") (EBin Add (EVar "j") (EConst I32 0))) (EVar "a0"));
        SExpr (EAssign (EIndex (EVar "row") (EBin Add (EVar "j") (EConst I32 1))) (EVar "a1"));
        SExpr (EAssign (EIndex (EVar "row") (EBin Add (EVar "j") (EConst I32 2))) (EVar "a2"));
        SExpr (EAssign (EIndex (EVar "row") (EBin Add (EVar "j") (EConst I32 3))) (EVar "a3"))])].

Definition bs_matrix_transpose_64x_7 (c : build) : fundef := mk_fun "dvbcsa_bs_matrix_transpose_64x" (TVoid) [("row", TPtr (TWord))] [
    SDecl (TInt I32) "j" None;
    SFor (Some (EAssign (EVar "j") (EConst I32 0))) (EBin Lt (EVar "j") (EConst I32 0x40)) (Some (EOpAssign Add (EVar "j") (EConst I32 8)))
      (SBlock [
        SDecl (TWord) "a0" None;
        SDecl (TWord) "a1" None;
        SDecl (TWord) "a2" None;
        SDecl (TWord) "a3" None;
        SDecl (TWord) "b0" None;
        SDecl (TWord) "b1" None;
        SDecl (TWord) "b2" None;
        SDecl (TWord) "b3" None;
        SExpr (EAssign (EVar "a0") (EIndex (EVar "row") (EBin Add (EVar "j") (EConst I32 0))));
        SExpr (EAssign (EVar "a1") (EIndex (EVar "row") (EBin Add (EVar "j") (EConst I32 1))));
        SExpr (EAssign (EVar "a2") (EIndex (EVar "row") (EBin Add (EVar "j") (EConst I32 2))));
        SExpr (EAssign (EVar "a3") (EIndex (EVar "row") (EBin Add (EVar "j") (EConst I32 3))));
        SExpr (EAssign (EVar "b0") (EIndex (EVar "row") (EBin Add (EVar "j") (EConst I32 4))));
        SExpr (EAssign (EVar "b1") (EIndex (EVar "row") (EBin Add (EVar "j") (EConst I32 5))));
        SExpr (EAssign (EVar "b2") (EIndex (EVar "row") (EBin Add (EVar "j") (EConst I32 6))));
        SExpr (EAssign (EVar "b3") (EIndex (EVar "row") (EBin Add (EVar "j") (EConst I32 7))));
        SBlock [
          SDecl (TWord) "tmp" None;
          SExpr (EAssign (EVar "tmp") (EWop WAnd (EWop WXor (EWShr (EVar "a0") (EConst I32 1)) (EVar "a1")) (EWVal 1 0x55)));
          SExpr (EAssign (EVar "a1") (EWop WXor (EVar "a1") (EVar "tmp")));
          SExpr (EAssign (EVar "a0") (EWop WXor (EVar "a0") (EWShl (EVar "tmp") (EConst I32 1))))];
        SBlock [
          SDecl (TWord) "tmp" None;
          SExpr (EAssign (EVar "tmp") (EWop WAnd (EWop WXor (EWShr (EVar "a2") (EConst I32 1)) (EVar "a3")) (EWVal 1 0x55)));
          SExpr (EAssign (EVar "a3") (EWop WXor (EVar "a3") (EVar "tmp")));
          SExpr (EAssign (EVar "a2") (EWop WXor (EVar "a2") (EWShl (EVar "tmp") (EConst I32 1))))];
        SBlock [
          SDecl (TWord) "tmp" None;
          SExpr (EAssign (EVar "tmp") (EWop WAnd (EWop WXor (EWShr (EVar "b0") (EConst I32 1)) (EVar "b1")) (EWVal 1 0x55)));
          SExpr (EAssign (EVar "b1") (EWop WXor (EVar "b1") (EVar "tmp")));
          SExpr (EAssign (EVar "b0") (EWop WXor (EVar "b0") (EWShl (EVar "tmp") (EConst I32 1))))];
        SBlock [
          SDecl (TWord) "tmp" None;
          SExpr (EAssign (EVar "tmp") (EWop WAnd (EWop WXor (EWShr (EVar "b2") (EConst I32 1)) (EVar "b3")) (EWVal 1 0x55)));
          SExpr (EAssign (EVar "b3") (EWop WXor (EVar "b3") (EVar "tmp")));
          SExpr (EAssign (EVar "b2") (EWop WXor (EVar "b2") (EWShl (EVar "tmp") (EConst I32 1))))];
        SBlock [
          SDecl (TWord) "tmp" None;
          SExpr (EAssign (EVar "tmp") (EWop WAnd (EWop WXor (EWShr (EVar "a0") (EConst I32 2)) (EVar "a2")) (EWVal 1 0x33)));
          SExpr (EAssign (EVar "a2") (EWop WXor (EVar "a2") (EVar "tmp")));
          SExpr (EAssign (EVar "a0") (EWop WXor (EVar "a0") (EWShl (EVar "tmp") (EConst I32 2))))];
        SBlock [
          SDecl (TWord) "tmp" None;
          SExpr (EAssign (EVar "tmp") (EWop WAnd (EWop WXor (EWShr (EVar "a1") (EConst I32 2)) (EVar "a3")) (EWVal 1 0x33)));
          SExpr (EAssign (EVar "a3") (EWop WXor (EVar "a3") (EVar "tmp")));
          SExpr (EAssign (EVar "a1") (EWop WXor (EVar "a1") (EWShl (EVar "tmp") (EConst I32 2))))];
        SBlock [
          SDecl (TWord) "tmp" None;
          SExpr (EAssign (EVar "tmp") (EWop WAnd (EWop WXor (EWShr (EVar "b0") (EConst I32 2)) (EVar "b2")) (EWVal 1 0x33)));
          SExpr (EAssign (EVar "b2") (EWop WXor (EVar "b2") (EVar "tmp")));
          SExpr (EAssign (EVar "b0") (EWop WXor (EVar "b0") (EWShl (EVar "tmp") (EConst I32 2))))];
        SBlock [
          SDecl (TWord) "tmp" None;
          SExpr (EAssign (EVar "tmp") (EWop WAnd (EWop WXor (EWShr (EVar "b1") (EConst I32 2)) (EVar "b3")) (EWVal 1 0x33)));
          SExpr (EAssign (EVar "b3") (EWop WXor (EVar "b3") (EVar "tmp")));
          SExpr (EAssign (EVar "b1") (EWop WXor (EVar "b1") (EWShl (EVar "tmp") (EConst I32 2))))];
        SBlock [
          SDecl (TWord) "tmp" None;
          SExpr (EAssign (EVar "tmp") (EWop WAnd (EWop WXor (EWShr (EVar "a0") (EConst I32 4)) (EVar "b0")) (EWVal 1 0xf)));
          SExpr (EAssign (EVar "b0") (EWop WXor (EVar "b0") (EVar "tmp")));
          SExpr (EAssign (EVar "a0") (EWop WXor (EVar "a0") (EWShl (EVar "tmp") (EConst I32 4))))];
        SBlock [
          SDecl (TWord) "tmp" None;
          SExpr (EAssign (EVar "tmp") (EWop WAnd (EWop WXor (EWShr (EVar "a1") (EConst I32 4)) (EVar "b1")) (EWVal 1 0xf)));
          SExpr (EAssign (EVar "b1") (EWop WXor (EVar "b1") (EVar "tmp")));
          SExpr (EAssign (EVar "a1") (EWop WXor (EVar "a1") (EWShl (EVar "tmp") (EConst I32 4))))];
        SBlock [
          SDecl (TWord) "tmp" None;
          SExpr (EAssign (EVar "tmp") (EWop WAnd (EWop WXor (EWShr (EVar "a2") (EConst I32 4)) (EVar "b2")) (EWVal 1 0xf)));
          SExpr (EAssign (EVar "b2") (EWop WXor (EVar "b2") (EVar "tmp")));
          SExpr (EAssign (EVar "a2") (EWop WXor (EVar "a2") (EWShl (EVar "tmp") (EConst I32 4))))];
        SBlock [
          SDecl (TWord) "tmp" None;
          SExpr (EAssign (EVar "tmp") (EWop WAnd (EWop WXor (EWShr (EVar "a3") (EConst I32 4)) (EVar "b3")) (EWVal 1 0xf)));
          SExpr (EAssign (EVar "b3") (EWop WXor (EVar "b3") (EVar "tmp")));
          SExpr (EAssign (EVar "a3") (EWop WXor (EVar "a3") (EWShl (EVar "tmp") (EConst I32 4))))];
        SExpr (EAssign (EIndex (EVar "row") (EBin Add (EVar "j") (EConst I32 0))) (EVar "a0"));
        SExpr (EAssign (EIndex (EVar "row") (EBin Add (EVar "j") (EConst I32 1))) (EVar "a1"));
        SExpr (EAssign (EIndex (EVar "row") (EBin Add (EVar "j") (EConst I32 2))) (EVar "a2"));
        SExpr (EAssign (EIndex (EVar "row") (EBin Add (EVar "j") (EConst I32 3))) (EVar "a3"));
        SExpr (EAssign (EIndex (EVar "row") (EBin Add (EVar "j") (EConst I32 4))) (EVar "b0"));
        SExpr (EAssign (EIndex (EVar "row") (EBin Add (EVar "j") (EConst I32 5))) (EVar "b1"));
        SExpr (EAssign (EIndex (EVar "row") (EBin Add (EVar "j") (EConst I32 6))) (EVar "b2"));
        SExpr (EAssign (EIndex (EVar "row") (EBin Add (EVar "j") (EConst I32 7))) (EVar "b3"))]);
    SFor (Some (EAssign (EVar "j") (EConst I32 0))) (EBin Lt (EVar "j") (EConst I32 8)) (Some (EPost Add (EVar "j")))
      (SBlock [
        SDecl (TWord) "a0" None;
        SDecl (TWord) "a1" None;
        SDecl (TWord) "a2" None;
        SDecl (TWord) "a3" None;
        SDecl (TWord) "b0" None;
        SDecl (TWord) "b1" None;
        SDecl (TWord) "b2" None;
        SDecl (TWord) "b3" None;
        SExpr (EAssign (EVar "a0") (EIndex (EVar "row") (EBin Add (EVar "j") (EConst I32 0))));
        SExpr (EAssign (EVar "a1") (EIndex (EVar "row") (EBin Add (EVar "j") (EConst I32 8))));
        SExpr (EAssign (EVar "a2") (EIndex (EVar "row") (EBin Add (EVar "j") (EConst I32 0x10))));
        SExpr (EAssign (EVar "a3") (EIndex (EVar "row") (EBin Add (EVar "j") (EConst I32 0x18))));
        SExpr (EAssign (EVar "b0") (EIndex (EVar "row") (EBin Add (EVar "j") (EConst I32 0x20))));
        SExpr (EAssign (EVar "b1") (EIndex (EVar "row") (EBin Add (EVar "j") (EConst I32 0x28))));
        SExpr (EAssign (EVar "b2") (EIndex (EVar "row") (EBin Add (EVar "j") (EConst I32 0x30))));
        SExpr (EAssign (EVar "b3") (EIndex (EVar "row") (EBin Add (EVar "j") (EConst I32 0x38))));
        SSwap 8 (EVar "a1") (EVar "a0");
        SSwap 8 (EVar "a3") (EVar "a2");
        SSwap 8 (EVar "b1") (EVar "b0");
        SSwap 8 (EVar "b3") (EVar "b2");
        SSwap 16 (EVar "a2") (EVar "a0");
        SSwap 16 (EVar "a3") (EVar "a1");
        SSwap 16 (EVar "b2") (EVar "b0");
        SSwap 16 (EVar "b3") (EVar "b1");
        SSwap 32 (EVar "b0") (EVar "a0");
        SSwap 32 (EVar "b1") (EVar "a1");
        SSwap 32 (EVar "b2") (EVar "a2");
        SSwap 32 (EVar "b3") (EVar "a3");
        SExpr (EAssign (EIndex (EVar "row") (EBin Add (EVar "j") (EConst I32 0))) (EVar "a0"));
        SExpr (EAssign (EIndex (EVar "row") (EBin Add (EVar "j") (EConst I32 8))) (EVar "a1"));
        SExpr (EAssign (EIndex (EVar "row") (EBin Add (EVar "j") (EConst I32 0x10))) (EVar "a2"));
        SExpr (EAssign (EIndex (EVar "row") (EBin Add (EVar "j") (EConst I32 0x18))) (EVar "a3"));
        SExpr (EAssign (EIndex (EVar "row") (EBin Add (EVar "j") (EConst I32 0x20))) (EVar "b0"));
        SExpr (EAssign (EIndex (EVar "row") (EBin Add (EVar "j") (EConst I32 0x28))) (EVar "b1"));
        SExpr (EAssign (EIndex (EVar "row") (EBin Add (EVar "j") (EConst I32 0x30))) (EVar "b2"));
        SExpr (EAssign (EIndex (EVar "row") (EBin Add (EVar "j") (EConst I32 0x38))) (EVar "b3"))])].

Definition bs_matrix_transpose_64x_8 (c : build) : fundef := mk_fun "dvbcsa_bs_matrix_transpose_64x" (TVoid) [("row", TPtr (TWord))] [
    SDecl (TInt I32) "j" None;
    SFor (Some (EAssign (EVar "j") (EConst I32 0))) (EBin Lt (EVar "j") (EConst I32 0x10)) (Some (EPost Add (EVar "j")))
      (SBlock [
        SDecl (TWord) "a0" None;
        SDecl (TWord) "a1" None;
        SDecl (TWord) "a2" None;
        SDecl (TWord) "a3" None;
        SExpr (EAssign (EVar "a0") (EIndex (EVar "row") (EBin Add (EVar "j") (EConst I32 0))));
        SExpr (EAssign (EVar "a1") (EIndex (EVar "row") (EBin Add (EVar "j") (EConst I32 0x10))));
        SExpr (EAssign (EVar "a2") (EIndex (EVar "row") (EBin Add (EVar "j") (EConst I32 0x20))));
        SExpr (EAssign (EVar "a3") (EIndex (EVar "row") (EBin Add (EVar "j") (EConst I32 0x30))));
        SSwap 16 (EVar "a0") (EVar "a1");
        SSwap 16 (EVar "a2") (EVar "a3");
        SSwap 32 (EVar "a0") (EVar "a2");
        SSwap 32 (EVar "a1") (EVar "a3");
        SExpr (EAssign (EIndex (EVar "row") (EBin Add (EVar "j") (EConst I32 0))) (EVar "a0"));
        SExpr (EAssign (EIndex (EVar "row") (EBin Add (EVar "j") (EConst I32 0x10))) (EVar "a1"));
        SExpr (EAssign (EIndex (EVar "row") (EBin Add (EVar "j") (EConst I32 0x20))) (EVar "a2"));
        SExpr (EAssign (EIndex (EVar "row") (EBin Add (EVar "j") (EConst I32 0x30))) (EVar "a3"))]);
    SFor (Some (EAssign (EVar "j") (EConst I32 0))) (EBin Lt (EVar "j") (EConst I32 0x40)) (Some (EOpAssign Add (EVar "j") (EConst I32 0x10)))
      (SBlock [
        SDecl (TInt I32) "i" None;
        SFor (Some (EAssign (EVar "i") (EConst I32 0))) (EBin Lt (EVar "i") (EConst I32 4)) (Some (EPost Add (EVar "i")))
          (SBlock [
            SDecl (TWord) "a0" None;
            SDecl (TWord) "a1" None;
            SDecl (TWord) "a2" None;
            SDecl (TWord) "a3" None;
            SExpr (EAssign (EVar "a0") (EIndex (EVar "row") (EBin Add (EBin Add (EVar "j") (EVar "i")) (EConst I32 0))));
            SExpr (EAssign (EVar "a1") (EIndex (EVar "row") (EBin Add (EBin Add (EVar "j") (EVar "i")) (EConst I32 4))));
            SExpr (EAssign (EVar "a2") (EIndex (EVar "row") (EBin Add (EBin Add (EVar "j") (EVar "i")) (EConst I32 8))));
            SExpr (EAssign (EVar "a3") (EIndex (EVar "row") (EBin Add (EBin Add (EVar "j") (EVar "i")) (EConst I32 0xc))));
            SBlock [
              SDecl (TWord) "tmp" None;
              SExpr (EAssign (EVar "tmp") (EWop WAnd (EWop WXor (EWShr (EVar "a0") (EConst I32 4)) (EVar "a1")) (EWVal 1 0xf)));
              SExpr (EAssign (EVar "a1") (EWop WXor (EVar "a1") (EVar "tmp")));
              SExpr (EAssign (EVar "a0") (EWop WXor (EVar "a0") (EWShl (EVar "tmp") (EConst I32 4))))];
            SBlock [
              SDecl (TWord) "tmp" None;
              SExpr (EAssign (EVar "tmp") (EWop WAnd (EWop WXor (EWShr (EVar "a2") (EConst I32 4)) (EVar "a3")) (EWVal 1 0xf)));
              SExpr (EAssign (EVar "a3") (EWop WXor (EVar "a3") (EVar "tmp")));
              SExpr (EAssign (EVar "a2") (EWop WXor (EVar "a2") (EWShl (EVar "tmp") (EConst I32 4))))];
            SSwap 8 (EVar "a0") (EVar "a2");
            SSwap 8 (EVar "a1") (EVar "a3");
            SExpr (EAssign (EIndex (EVar "row") (EBin Add (EBin Add (EVar "j") (EVar "i")) (EConst I32 0))) (EVar "a0"));
            SExpr (EAssign (EIndex (EVar "row") (EBin Add (EBin Add (EVar "j") (EVar "i")) (EConst I32 4))) (EVar "a1"));
            SExpr (EAssign (EIndex (EVar "row") (EBin Add (EBin Add (EVar "j") (EVar "i")) (EConst I32 8))) (EVar "a2"));
            SExpr (EAssign (EIndex (EVar "row") (EBin Add (EBin Add (EVar "j") (EVar "i")) (EConst I32 0xc))) (EVar "a3"))])]);
    SFor (Some (EAssign (EVar "j") (EConst I32 0))) (EBin Lt (EVar "j") (EConst I32 0x40)) (Some (EOpAssign Add (EVar "j") (EConst I32 4)))
      (SBlock [
        SDecl (TWord) "a0" None;
        SDecl (TWord) "a1" None;
        SDecl (TWord) "a2" None;
        SDecl (TWord) "a3" None;
        SExpr (EAssign (EVar "a0") (EIndex (EVar "row") (EBin Add (EVar "j") (EConst I32 0))));
        SExpr (EAssign (EVar "a1") (EIndex (EVar "row") (EBin Add (EVar "j") (EConst I32 1))));
        SExpr (EAssign (EVar "a2") (EIndex (EVar "row") (EBin Add (EVar "j") (EConst I32 2))));
        SExpr (EAssign (EVar "a3") (EIndex (EVar "row") (EBin Add (EVar "j") (EConst I32 3))));
        SBlock [
          SDecl (TWord) "tmp" None;
          SExpr (EAssign (EVar "tmp") (EWop WAnd (EWop WXor (EWShr (EVar "a0") (EConst I32 1)) (EVar "a1")) (EWVal 1 0x55)));
          SExpr (EAssign (EVar "a1") (EWop WXor (EVar "a1") (EVar "tmp")));
          SExpr (EAssign (EVar "a0") (EWop WXor (EVar "a0") (EWShl (EVar "tmp") (EConst I32 1))))];
        SBlock [
          SDecl (TWord) "tmp" None;
          SExpr (EAssign (EVar "tmp") (EWop WAnd (EWop WXor (EWShr (EVar "a2") (EConst I32 1)) (EVar "a3")) (EWVal 1 0x55)));
          SExpr (EAssign (EVar "a3") (EWop WXor (EVar "a3") (EVar "tmp")));
          SExpr (EAssign (EVar "a2") (EWop WXor (EVar "a2") (EWShl (EVar "tmp") (EConst I32 1))))];
        SBlock [
          SDecl (TWord) "tmp" None;
          SExpr (EAssign (EVar "tmp") (EWop WAnd (EWop WXor (EWShr (EVar "a0") (EConst I32 2)) (EVar "a2")) (EWVal 1 0x33)));
          SExpr (EAssign (EVar "a2") (EWop WXor (EVar "a2") (EVar "tmp")));
          SExpr (EAssign (EVar "a0") (EWop WXor (EVar "a0") (EWShl (EVar "tmp") (EConst I32 2))))];
        SBlock [
          SDecl (TWord) "tmp" None;
          SExpr (EAssign (EVar "tmp") (EWop WAnd (EWop WXor (EWShr (EVar "a1") (EConst I32 2)) (EVar "a3")) (EWVal 1 0x33)));
          SExpr (EAssign (EVar "a3") (EWop WXor (EVar "a3") (EVar "tmp")));
          SExpr (EAssign (EVar "a1") (EWop WXor (EVar "a1") (EWShl (EVar "tmp") (EConst I32 2))))];
        SExpr (EAssign (EIndex (EVar "row") (EBin Add (EVar "j") (EConst I32 0))) (EVar "a0"));
        SExpr (EAssign (EIndex (EVar "row") (EBin Add (EVar "j") (EConst I32 1))) (EVar "a1"));
        SExpr (EAssign (EIndex (EVar "row") (EBin Add (EVar "j") (EConst I32 2))) (EVar "a2"));
        SExpr (EAssign (EIndex (EVar "row") (EBin Add (EVar "j") (EConst I32 3))) (EVar "a3"))])].

Definition bs_matrix_transpose_64x_9 (c : build) : fundef := mk_fun "dvbcsa_bs_matrix_transpose_64x" (TVoid) [("row", TPtr (TWord))] [
    SDecl (TInt I32) "j" None;
    SFor (Some (EAssign (EVar "j") (EConst I32 0))) (EBin Lt (EVar "j") (EConst I32 0x40)) (Some (EOpAssign Add (EVar "j") (EConst I32 8)))
      (SBlock [
        SDecl (TWord) "a0" None;
        SDecl (TWord) "a1" None;
        SDecl (TWord) "a2" None;
        SDecl (TWord) "a3" None;
        SDecl (TWord) "b0" None;
        SDecl (TWord) "b1" None;
        SDecl (TWord) "b2" None;
        SDecl (TWord) "b3" None;
        SExpr (EAssign (EVar "a0") (EIndex (EVar "row") (EBin Add (EVar "j") (EConst I32 0))));
        SExpr (EAssign (EVar "a1") (EIndex (EVar "row") (EBin Add (EVar "j") (EConst I32 1))));
        SExpr (EAssign (EVar "a2") (EIndex (EVar "row") (EBin Add (EVar "j") (EConst I32 2))));
        SExpr (EAssign (EVar "a3") (EIndex (EVar "row") (EBin Add (EVar "j") (EConst I32 3))));
        SExpr (EAssign (EVar "b0") (EIndex (EVar "row") (EBin Add (EVar "j") (EConst I32 4))));
        SExpr (EAssign (EVar "b1") (EIndex (EVar "row") (EBin Add (EVar "j") (EConst I32 5))));
        SExpr (EAssign (EVar "b2") (EIndex (EVar "row") (EBin Add (EVar "j") (EConst I32 6))));
        SExpr (EAssign (EVar "b3") (EIndex (EVar "row") (EBin Add (EVar "j") (EConst I32 7))));
        SBlock [
          SDecl (TWord) "tmp" None;
          SExpr (EAssign (EVar "tmp") (EWop WAnd (EWop WXor (EWShr (EVar "a0") (EConst I32 1)) (EVar "a1")) (EWVal 1 0x55)));
          SExpr (EAssign (EVar "a1") (EWop WXor (EVar "a1") (EVar "tmp")));
          SExpr (EAssign (EVar "a0") (EWop WXor (EVar "a0") (EWShl (EVar "tmp") (EConst I32 1))))];
        SBlock [
          SDecl (TWord) "tmp" None;
          SExpr (EAssign (EVar "tmp") (EWop WAnd (EWop WXor (EWShr (EVar "a2") (EConst I32 1)) (EVar "a3")) (EWVal 1 0x55)));
          SExpr (EAssign (EVar "a3") (EWop WXor (EVar "a3") (EVar "tmp")));
          SExpr (EAssign (EVar "a2") (EWop WXor (EVar "a2") (EWShl (EVar "tmp") (EConst I32 1))))];
        SBlock [
          SDecl (TWord) "tmp" None;
          SExpr (EAssign (EVar "tmp") (EWop WAnd (EWop WXor (EWShr (EVar "b0") (EConst I32 1)) (EVar "b1")) (EWVal 1 0x55)));
          SExpr (EAssign (EVar "b1") (EWop WXor (EVar "b1") (EVar "tmp")));
          SExpr (EAssign (EVar "b0") (EWop WXor (EVar "b0") (EWShl (EVar "tmp") (EConst I32 1))))];
        SBlock [
          SDecl (TWord) "tmp" None;
          SExpr (EAssign (EVar "tmp") (EWop WAnd (EWop WXor (EWShr (EVar "b2") (EConst I32 1)) (EVar "b3")) (EWVal 1 0x55)));
          SExpr (EAssign (EVar "b3") (EWop WXor (EVar "b3") (EVar "tmp")));
          SExpr (EAssign (EVar "b2") (EWop WXor (EVar "b2") (EWShl (EVar "tmp") (EConst I32 1))))];
        SBlock [
          SDecl (TWord) "tmp" None;
          SExpr (EAssign (EVar "tmp") (EWop WAnd (EWop WXor (EWShr (EVar "a0") (EConst I32 2)) (EVar "a2")) (EWVal 1 0x33)));
          SExpr (EAssign (EVar "a2") (EWop WXor (EVar "a2") (EVar "tmp")));
          SExpr (EAssign (EVar "a0") (EWop WXor (EVar "a0") (EWShl (EVar "tmp") (EConst I32 2))))];
        SBlock [
          SDecl (TWord) "tmp" None;
          SExpr (EAssign (EVar "tmp") (EWop WAnd (EWop WXor (EWShr (EVar "a1") (EConst I32 2)) (EVar "a3")) (EWVal 1 0x33)));
          SExpr (EAssign (EVar "a3") (EWop WXor (EVar "a3") (EVar "tmp")));
          SExpr (EAssign (EVar "a1") (EWop WXor (EVar "a1") (EWShl (EVar "tmp") (EConst I32 2))))];
        SBlock [
          SDecl (TWord) "tmp" None;
          SExpr (EAssign (EVar "tmp") (EWop WAnd (EWop WXor (EWShr (EVar "b0") (EConst I32 2)) (EVar "b2")) (EWVal 1 0x33)));
          SExpr (EAssign (EVar "b2") (EWop WXor (EVar "b2") (EVar "tmp")));
          SExpr (EAssign (EVar "b0") (EWop WXor (EVar "b0") (EWShl (EVar "tmp") (EConst I32 2))))];
        SBlock [
          SDecl (TWord) "tmp" None;
          SExpr (EAssign (EVar "tmp") (EWop WAnd (EWop WXor (EWShr (EVar "b1") (EConst I32 2)) (EVar "b3")) (EWVal 1 0x33)));
          SExpr (EAssign (EVar "b3") (EWop WXor (EVar "b3") (EVar "tmp")));
          SExpr (EAssign (EVar "b1") (EWop WXor (EVar "b1") (EWShl (EVar "tmp") (EConst I32 2))))];
        SBlock [
          SDecl (TWord) "tmp" None;
          SExpr (EAssign (EVar "tmp") (EWop WAnd (EWop WXor (EWShr (EVar "a0") (EConst I32 4)) (EVar "b0")) (EWVal 1 0xf)));
          SExpr (EAssign (EVar "b0") (EWop WXor (EVar "b0") (EVar "tmp")));
          SExpr (EAssign (EVar "a0") (EWop WXor (EVar "a0") (EWShl (EVar "tmp") (EConst I32 4))))];
        SBlock [
          SDecl (TWord) "tmp" None;
          SExpr (EAssign (EVar "tmp") (EWop WAnd (EWop WXor (EWShr (EVar "a1") (EConst I32 4)) (EVar "b1")) (EWVal 1 0xf)));
          SExpr (EAssign (EVar "b1") (EWop WXor (EVar "b1") (EVar "tmp")));
          SExpr (EAssign (EVar "a1") (EWop WXor (EVar "a1") (EWShl (EVar "tmp") (EConst I32 4))))];
        SBlock [
          SDecl (TWord) "tmp" None;
          SExpr (EAssign (EVar "tmp") (EWop WAnd (EWop WXor (EWShr (EVar "a2") (EConst I32 4)) (EVar "b2")) (EWVal 1 0xf)));
          SExpr (EAssign (EVar "b2") (EWop WXor (EVar "b2") (EVar "tmp")));
          SExpr (EAssign (EVar "a2") (EWop WXor (EVar "a2") (EWShl (EVar "tmp") (EConst I32 4))))];
        SBlock [
          SDecl (TWord) "tmp" None;
          SExpr (EAssign (EVar "tmp") (EWop WAnd (EWop WXor (EWShr (EVar "a3") (EConst I32 4)) (EVar "b3")) (EWVal 1 0xf)));
          SExpr (EAssign (EVar "b3") (EWop WXor (EVar "b3") (EVar "tmp")));
          SExpr (EAssign (EVar "a3") (EWop WXor (EVar "a3") (EWShl (EVar "tmp") (EConst I32 4))))];
        SExpr (EAssign (EIndex (EVar "row") (EBin Add (EVar "j") (EConst I32 0))) (EVar "a0"));
        SExpr (EAssign (EIndex (EVar "row") (EBin Add (EVar "j") (EConst I32 1))) (EVar "a1"));
        SExpr (EAssign (EIndex (EVar "row") (EBin Add (EVar "j") (EConst I32 2))) (EVar "a2"));
        SExpr (EAssign (EIndex (EVar "row") (EBin Add (EVar "j") (EConst I32 3))) (EVar "a3"));
        SExpr (EAssign (EIndex (EVar "row") (EBin Add (EVar "j") (EConst I32 4))) (EVar "b0"));
        SExpr (EAssign (EIndex (EVar "row") (EBin Add (EVar "j") (EConst I32 5))) (EVar "b1"));
        SExpr (EAssign (EIndex (EVar "row") (EBin Add (EVar "j") (EConst I32 6))) (EVar "b2"));
        SExpr (EAssign (EIndex (EVar "row") (EBin Add (EVar "j") (EConst I32 7))) (EVar "b3"))]);
    SFor (Some (EAssign (EVar "j") (EConst I32 0))) (EBin Lt (EVar "j") (EConst I32 8)) (Some (EPost Add (EVar "j")))
      (SBlock [
        SDecl (TWord) "a0" None;
        SDecl (TWord) "a1" None;
        SDecl (TWord) "a2" None;
        SDecl (TWord) "a3" None;
        SDecl (TWord) "b0" None;
        SDecl (TWord) "b1" None;
        SDecl (TWord) "b2" None;
        SDecl (TWord) "b3" None;
        SExpr (EAssign (EVar "a0") (EIndex (EVar "row") (EBin Add (EVar "j") (EConst I32 0))));
        SExpr (EAssign (EVar "a1") (EIndex (EVar "row") (EBin Add (EVar "j") (EConst I32 8))));
        SExpr (EAssign (EVar "a2") (EIndex (EVar "row") (EBin Add (EVar "j") (EConst I32 0x10))));
        SExpr (EAssign (EVar "a3") (EIndex (EVar "row") (EBin Add (EVar "j") (EConst I32 0x18))));
        SExpr (EAssign (EVar "b0") (EIndex (EVar "row") (EBin Add (EVar "j") (EConst I32 0x20))));
        SExpr (EAssign (EVar "b1") (EIndex (EVar "row") (EBin Add (EVar "j") (EConst I32 0x28))));
        SExpr (EAssign (EVar "b2") (EIndex (EVar "row") (EBin Add (EVar "j") (EConst I32 0x30))));
        SExpr (EAssign (EVar "b3") (EIndex (EVar "row") (EBin Add (EVar "j") (EConst I32 0x38))));
        SSwap 8 (EVar "a0") (EVar "a1");
        SSwap 8 (EVar "a2") (EVar "a3");
        SSwap 8 (EVar "b0") (EVar "b1");
        SSwap 8 (EVar "b2") (EVar "b3");
        SSwap 16 (EVar "a0") (EVar "a2");
        SSwap 16 (EVar "a1") (EVar "a3");
        SSwap 16 (EVar "b0") (EVar "b2");
        SSwap 16 (EVar "b1") (EVar "b3");
        SSwap 32 (EVar "a0") (EVar "b0");
        SSwap 32 (EVar "a1") (EVar "b1");
        SSwap 32 (EVar "a2") (EVar "b2");
        SSwap 32 (EVar "a3") (EVar "b3");
        SExpr (EAssign (EIndex (EVar "row") (EBin Add (EVar "j") (EConst I32 0))) (EVar "a0"));
        SExpr (EAssign (EIndex (EVar "row") (EBin Add (EVar "j") (EConst I32 8))) (EVar "a1"));
        SExpr (EAssign (EIndex (EVar "row") (EBin Add (EVar "j") (EConst I32 0x10))) (EVar "a2"));
        SExpr (EAssign (EIndex (EVar "row") (EBin Add (EVar "j") (EConst I32 0x18))) (EVar "a3"));
        SExpr (EAssign (EIndex (EVar "row") (EBin Add (EVar "j") (EConst I32 0x20))) (EVar "b0"));
        SExpr (EAssign (EIndex (EVar "row") (EBin Add (EVar "j") (EConst I32 0x28))) (EVar "b1"));
        SExpr (EAssign (EIndex (EVar "row") (EBin Add (EVar "j") (EConst I32 0x30))) (EVar "b2"));
        SExpr (EAssign (EIndex (EVar "row") (EBin Add (EVar "j") (EConst I32 0x38))) (EVar "b3"))])].

Definition bs_matrix_transpose_64x (c : build) : fundef := match tgt c with UINT32 => bs_matrix_transpose_64x_1 c | UINT64 | MMX | SSE2 | SSSE3 | AVX2 => (if big_endian c then (if i386 c then bs_matrix_transpose_64x_2 c else bs_matrix_transpose_64x_3 c) else (if i386 c then bs_matrix_transpose_64x_4 c else bs_matrix_transpose_64x_5 c)) | NEON => (if big_endian c then (if i386 c then bs_matrix_transpose_64x_6 c else bs_matrix_transpose_64x_7 c) else (if i386 c then bs_matrix_transpose_64x_8 c else bs_matrix_transpose_64x_9 c)) end.

Definition bs_matrix_transpose_64x32_1 (c : build) : fundef := mk_fun "dvbcsa_bs_matrix_transpose_64x32" (TVoid) [("row", TPtr (TWord))] [
    SDecl (TInt I32) "j" None;
    SFor (Some (EAssign (EVar "j") (EConst I32 0))) (EBin Lt (EVar "j") (EConst I32 0x10)) (Some (EPost Add (EVar "j")))
      (SBlock [
        SDecl (TWord) "a0" None;
        SDecl (TWord) "a1" None;
        SDecl (TWord) "a2" None;
        SDecl (TWord) "a3" None;
        SExpr (EAssign (EVar "a0") (EIndex (EVar "row") (EBin Add (EVar "j") (EConst I32 0))));
        SExpr (EAssign (EVar "a1") (EIndex (EVar "row") (EBin Add (EVar "j") (EConst I32 0x10))));
        SExpr (EAssign (EVar "a2") (EIndex (EVar "row") (EBin Add (EVar "j") (EConst I32 0x20))));
        SExpr (EAssign (EVar "a3") (EIndex (EVar "row") (EBin Add (EVar "j") (EConst I32 0x30))));
        SBlock [
          SDecl (TWord) "tmp" None;
          SExpr (EAssign (EVar "tmp") (EWop WAnd (EWop WXor (EWShr (EVar "a1") (EConst I32 0x10)) (EVar "a0")) (EWVal 4 0xffff)));
          SExpr (EAssign (EVar "a0") (EWop WXor (EVar "a0") (EVar "tmp")));
          SExpr (EAssign (EVar "a1") (EWop WXor (EVar "a1") (EWShl (EVar "tmp") (EConst I32 0x10))))];
        SBlock [
          SDecl (TWord) "tmp" None;
          SExpr (EAssign (EVar "tmp") (EWop WAnd (EWop WXor (EWShr (EVar "a3") (EConst I32 0x10)) (EVar "a2")) (EWVal 4 0xffff)));
          SExpr (EAssign (EVar "a2") (EWop WXor (EVar "a2") (EVar "tmp")));
          SExpr (EAssign (EVar "a3") (EWop WXor (EVar "a3") (EWShl (EVar "tmp") (EConst I32 0x10))))];
        SExpr (EAssign (EIndex (EVar "row") (EBin Add (EVar "j") (EConst I32 0))) (EVar "a0"));
        SExpr (EAssign (EIndex (EVar "row") (EBin Add (EVar "j") (EConst I32 0x10))) (EVar "a1"));
        SExpr (EAssign (EIndex (EVar "row") (EBin Add (EVar "j") (EConst I32 0x20))) (EVar "a2"));
        SExpr (EAssign (EIndex (EVar "row") (EBin Add (EVar "j") (EConst I32 0x30))) (EVar "a3"))]);
    SFor (Some (EAssign (EVar "j") (EConst I32 0))) (EBin Lt (EVar "j") (EConst I32 0x40)) (Some (EOpAssign Add (EVar "j") (EConst I32 0x10)))
      (SBlock [
        SDecl (TInt I32) "i" None;
        SFor (Some (EAssign (EVar "i") (EConst I32 0))) (EBin Lt (EVar "i") (EConst I32 4)) (Some (EPost Add (EVar "i")))
          (SBlock [
            SDecl (TWord) "a0" None;
            SDecl (TWord) "a1" None;
            SDecl (TWord) "a2" None;
            SDecl (TWord) "a3" None;
            SExpr (EAssign (EVar "a0") (EIndex (EVar "row") (EBin Add (EBin Add (EVar "j") (EVar "i")) (EConst I32 0))));
            SExpr (EAssign (EVar "a1") (EIndex (EVar "row") (EBin Add (EBin Add (EVar "j") (EVar "i")) (EConst I32 4))));
            SExpr (EAssign (EVar "a2") (EIndex (EVar "row") (EBin Add (EBin Add (EVar "j") (EVar "i")) (EConst I32 8))));
            SExpr (EAssign (EVar "a3") (EIndex (EVar "row") (EBin Add (EBin Add (EVar "j") (EVar "i")) (EConst I32 0xc))));
            SBlock [
              SDecl (TWord) "tmp" None;
              SExpr (EAssign (EVar "tmp") (EWop WAnd (EWop WXor (EWShr (EVar "a0") (EConst I32 4)) (EVar "a1")) (EWVal 1 0xf)));
              SExpr (EAssign (EVar "a1") (EWop WXor (EVar "a1") (EVar "tmp")));
              SExpr (EAssign (EVar "a0") (EWop WXor (EVar "a0") (EWShl (EVar "tmp") (EConst I32 4))))];
            SBlock [
              SDecl (TWord) "tmp" None;
              SExpr (EAssign (EVar "tmp") (EWop WAnd (EWop WXor (EWShr (EVar "a2") (EConst I32 4)) (EVar "a3")) (EWVal 1 0xf)));
              SExpr (EAssign (EVar "a3") (EWop WXor (EVar "a3") (EVar "tmp")));
              SExpr (EAssign (EVar "a2") (EWop WXor (EVar "a2") (EWShl (EVar "tmp") (EConst I32 4))))];
            SBlock [
              SDecl (TWord) "tmp" None;
              SExpr (EAssign (EVar "tmp") (EWop WAnd (EWop WXor (EWShr (EVar "a2") (EConst I32 8)) (EVar "a0")) (EWVal 2 0xff)));
              SExpr (EAssign (EVar "a0") (EWop WXor (EVar "a0") (EVar "tmp")));
              SExpr (EAssign (EVar "a2") (EWop WXor (EVar "a2") (EWShl (EVar "tmp") (EConst I32 8))))];
            SBlock [
              SDecl (TWord) "tmp" None;
              SExpr (EAssign (EVar "tmp") (EWop WAnd (EWop WXor (EWShr (EVar "a3") (EConst I32 8)) (EVar "a1")) (EWVal 2 0xff)));
              SExpr (EAssign (EVar "a1") (EWop WXor (EVar "a1") (EVar "tmp")));
              SExpr (EAssign (EVar "a3") (EWop WXor (EVar "a3") (EWShl (EVar "tmp") (EConst I32 8))))];
            SExpr (EAssign (EIndex (EVar "row") (EBin Add (EBin Add (EVar "j") (EVar "i")) (EConst I32 0))) (EVar "a0"));
            SExpr (EAssign (EIndex (EVar "row") (EBin Add (EBin Add (EVar "j") (EVar "i")) (EConst I32 4))) (EVar "a1"));
            SExpr (EAssign (EIndex (EVar "row") (EBin Add (EBin Add (EVar "j") (EVar "i")) (EConst I32 8))) (EVar "a2"));
            SExpr (EAssign (EIndex (EVar "row") (EBin Add (EBin Add (EVar "j") (EVar "i")) (EConst I32 0xc))) (EVar "a3"))])]);
    SFor (Some (EAssign (EVar "j") (EConst I32 0))) (EBin Lt (EVar "j") (EConst I32 0x40)) (Some (EOpAssign Add (EVar "j") (EConst I32 4)))
      (SBlock [
        SDecl (TWord) "a0" None;
        SDecl (TWord) "a1" None;
        SDecl (TWord) "a2" None;
        SDecl (TWord) "a3" None;
        SExpr (EAssign (EVar "a0") (EIndex (EVar "row") (EBin Add (EVar "j") (EConst I32 0))));
        SExpr (EAssign (EVar "a1") (EIndex (EVar "row") (EBin Add (EVar "j") (EConst I32 1))));
        SExpr (EAssign (EVar "a2") (EIndex (EVar "row") (EBin Add (EVar "j") (EConst I32 2))));
        SExpr (EAssign (EVar "a3") (EIndex (EVar "row") (EBin Add (EVar "j") (EConst I32 3))));
        SBlock [
          SDecl (TWord) "tmp" None;
          SExpr (EAssign (EVar "tmp") (EWop WAnd (EWop WXor (EWShr (EVar "a0") (EConst I32 1)) (EVar "a1")) (EWVal 1 0x55)));
          SExpr (EAssign (EVar "a1") (EWop WXor (EVar "a1") (EVar "tmp")));
          SExpr (EAssign (EVar "a0") (EWop WXor (EVar "a0") (EWShl (EVar "tmp") (EConst I32 1))))];
        SBlock [
          SDecl (TWord) "tmp" None;
          SExpr (EAssign (EVar "tmp") (EWop WAnd (EWop WXor (EWShr (EVar "a2") (EConst I32 1)) (EVar "a3")) (EWVal 1 0x55)));
          SExpr (EAssign (EVar "a3") (EWop WXor (EVar "a3") (EVar "tmp")));
          SExpr (EAssign (EVar "a2") (EWop WXor (EVar "a2") (EWShl (EVar "tmp") (EConst I32 1))))];
        SBlock [
          SDecl (TWord) "tmp" None;
          SExpr (EAssign (EVar "tmp") (EWop WAnd (EWop WXor (EWShr (EVar "a0") (EConst I32 2)) (EVar "a2")) (EWVal 1 0x33)));
          SExpr (EAssign (EVar "a2") (EWop WXor (EVar "a2") (EVar "tmp")));
          SExpr (EAssign (EVar "a0") (EWop WXor (EVar "a0") (EWShl (EVar "tmp") (EConst I32 2))))];
        SBlock [
          SDecl (TWord) "tmp" None;
          SExpr (EAssign (EVar "tmp") (EWop WAnd (EWop WXor (EWShr (EVar "a1") (EConst I32 2)) (EVar "a3")) (EWVal 1 0x33)));
          SExpr (EAssign (EVar "a3") (EWop WXor (EVar "a3") (EVar "tmp")));
          SExpr (EAssign (EVar "a1") (EWop WXor (EVar "a1") (EWShl (EVar "tmp") (EConst I32 2))))];
        SExpr (EAssign (EIndex (EVar "row") (EBin Add (EVar "j") (EConst I32 0))) (EVar "a0"));
        SExpr (EAssign (EIndex (EVar "row") (EBin Add (EVar "j") (EConst I32 1))) (EVar "a1"));
        SExpr (EAssign (EIndex (EVar "row") (EBin Add (EVar "j") (EConst I32 2))) (EVar "a2"));
        SExpr (EAssign (EIndex (EVar "row") (EBin Add (EVar "j") (EConst I32 3))) (EVar "a3"))])].

Definition bs_matrix_transpose_64x32_2 (c : build) : fundef := mk_fun "dvbcsa_bs_matrix_transpose_64x32" (TVoid) [("row", TPtr (TWord))] [
    SDecl (TInt I32) "j" None;
    SFor (Some (EAssign (EVar "j") (EConst I32 0))) (EBin Lt (EVar "j") (EConst I32 0x10)) (Some (EPost Add (EVar "j")))
      (SBlock [
        SDecl (TWord) "a0" None;
        SDecl (TWord) "a1" None;
        SDecl (TWord) "a2" None;
        SDecl (TWord) "a3" None;
        SExpr (EAssign (EVar "a0") (EIndex (EVar "row") (EBin Add (EVar "j") (EConst I32 0))));
        SExpr (EAssign (EVar "a1") (EIndex (EVar "row") (EBin Add (EVar "j") (EConst I32 0x10))));
        SExpr (EAssign (EVar "a2") (EIndex (EVar "row") (EBin Add (EVar "j") (EConst I32 0x20))));
        SExpr (EAssign (EVar "a3") (EIndex (EVar "row") (EBin Add (EVar "j") (EConst I32 0x30))));
        SBlock [
          SDecl (TWord) "tmp" None;
          SExpr (EAssign (EVar "tmp") (EWop WAnd (EWop WXor (EWShr (EVar "a0") (EConst I32 0x10)) (EVar "a1")) (EWVal 4 0xffff)));
          SExpr (EAssign (EVar "a1") (EWop WXor (EVar "a1") (EVar "tmp")));
          SExpr (EAssign (EVar "a0") (EWop WXor (EVar "a0") (EWShl (EVar "tmp") (EConst I32 0x10))))];
        SBlock [
          SDecl (TWord) "tmp" None;
          SExpr (EAssign (EVar "tmp") (EWop WAnd (EWop WXor (EWShr (EVar "a2") (EConst I32 0x10)) (EVar "a3")) (EWVal 4 0xffff)));
          SExpr (EAssign (EVar "a3") (EWop WXor (EVar "a3") (EVar "tmp")));
          SExpr (EAssign (EVar "a2") (EWop WXor (EVar "a2") (EWShl (EVar "tmp") (EConst I32 0x10))))];
        SExpr (EAssign (EIndex (EVar "row") (EBin Add (EVar "j") (EConst I32 0))) (EVar "a0"));
        SExpr (EAssign (EIndex (EVar "row") (EBin Add (EVar "j") (EConst I32 0x10))) (EVar "a1"));
        SExpr (EAssign (EIndex (EVar "row") (EBin Add (EVar "j") (EConst I32 0x20))) (EVar "a2"));
        SExpr (EAssign (EIndex (EVar "row") (EBin Add (EVar "j") (EConst I32 0x30))) (EVar "a3"))]);
    SFor (Some (EAssign (EVar "j") (EConst I32 0))) (EBin Lt (EVar "j") (EConst I32 0x40)) (Some (EOpAssign Add (EVar "j") (EConst I32 0x10)))
      (SBlock [
        SDecl (TInt I32) "i" None;
        SFor (Some (EAssign (EVar "i") (EConst I32 0))) (EBin Lt (EVar "i") (EConst I32 4)) (Some (EPost Add (EVar "i")))
          (SBlock [
            SDecl (TWord) "a0" None;
            SDecl (TWord) "a1" None;
            SDecl (TWord) "a2" None;
            SDecl (TWord) "a3" None;
            SExpr (EAssign (EVar "a0") (EIndex (EVar "row") (EBin Add (EBin Add (EVar "j") (EVar "i")) (EConst I32 0))));
            SExpr (EAssign (EVar "a1") (EIndex (EVar "row") (EBin Add (EBin Add (EVar "j") (EVar "i")) (EConst I32 4))));
            SExpr (EAssign (EVar "a2") (EIndex (EVar "row") (EBin Add (EBin Add (EVar "j") (EVar "i")) (EConst I32 8))));
            SExpr (EAssign (EVar "a3") (EIndex (EVar "row") (EBin Add (EBin Add (EVar "j") (EVar "i")) (EConst I32 0xc))));
            SBlock [
              SDecl (TWord) "tmp" None;
              SExpr (EAssign (EVar "tmp") (EWop WAnd (EWop WXor (EWShr (EVar "a0") (EConst I32 4)) (EVar "a1")) (EWVal 1 0xf)));
              SExpr (EAssign (EVar "a1") (EWop WXor (EVar "a1") (EVar "tmp")));
              SExpr (EAssign (EVar "a0") (EWop WXor (EVar "a0") (EWShl (EVar "tmp") (EConst I32 4))))];
            SBlock [
              SDecl (TWord) "tmp" None;
              SExpr (EAssign (EVar "tmp") (EWop WAnd (EWop WXor (EWShr (EVar "a2") (EConst I32 4)) (EVar "a3")) (EWVal 1 0xf)));
              SExpr (EAssign (EVar "a3") (EWop WXor (EVar "a3") (EVar "tmp")));
              SExpr (EAssign (EVar "a2") (EWop WXor (EVar "a2") (EWShl (EVar "tmp") (EConst I32 4))))];
            SBlock [
              SDecl (TWord) "tmp" None;
              SExpr (EAssign (EVar "tmp") (EWop WAnd (EWop WXor (EWShr (EVar "a0") (EConst I32 8)) (EVar "a2")) (EWVal 2 0xff)));
              SExpr (EAssign (EVar "a2") (EWop WXor (EVar "a2") (EVar "tmp")));
              SExpr (EAssign (EVar "a0") (EWop WXor (EVar "a0") (EWShl (EVar "tmp") (EConst I32 8))))];
            SBlock [
              SDecl (TWord) "tmp" None;
              SExpr (EAssign (EVar "tmp") (EWop WAnd (EWop WXor (EWShr (EVar "a1") (EConst I32 8)) (EVar "a3")) (EWVal 2 0xff)));
              SExpr (EAssign (EVar "a3") (EWop WXor (EVar "a3") (EVar "tmp")));
              SExpr (EAssign (EVar "a1") (EWop WXor (EVar "a1") (EWShl (EVar "tmp") (EConst I32 8))))];
            SExpr (EAssign (EIndex (EVar "row") (EBin Add (EBin Add (EVar "j") (EVar "i")) (EConst I32 0))) (EVar "a0"));
            SExpr (EAssign (EIndex (EVar "row") (EBin Add (EBin Add (EVar "j") (EVar "i")) (EConst I32 4))) (EVar "a1"));
            SExpr (EAssign (EIndex (EVar "row") (EBin Add (EBin Add (EVar "j") (EVar "i")) (EConst I32 8))) (EVar "a2"));
            SExpr (EAssign (EIndex (EVar "row") (EBin Add (EBin Add (EVar "j") (EVar "i")) (EConst I32 0xc))) (EVar "a3"))])]);
    SFor (Some (EAssign (EVar "j") (EConst I32 0))) (EBin Lt (EVar "j") (EConst I32 0x40)) (Some (EOpAssign Add (EVar "j") (EConst I32 4)))
      (SBlock [
        SDecl (TWord) "a0" None;
        SDecl (TWord) "a1" None;
        SDecl (TWord) "a2" None;
        SDecl (TWord) "a3" None;
        SExpr (EAssign (EVar "a0") (EIndex (EVar "row") (EBin Add (EVar "j") (EConst I32 0))));
        SExpr (EAssign (EVar "a1") (EIndex (EVar "row") (EBin Add (EVar "j") (EConst I32 1))));
        SExpr (EAssign (EVar "a2") (EIndex (EVar "row") (EBin Add (EVar "j") (EConst I32 2))));
        SExpr (EAssign (EVar "a3") (EIndex (EVar "row") (EBin Add (EVar "j") (EConst I32 3))));
        SBlock [
          SDecl (TWord) "tmp" None;
          SExpr (EAssign (EVar "tmp") (EWop WAnd (EWop WXor (EWShr (EVar "a0") (EConst I32 1)) (EVar "a1")) (EWVal 1 0x55)));
          SExpr (EAssign (EVar "a1") (EWop WXor (EVar "a1") (EVar "tmp")));
          SExpr (EAssign (EVar "a0") (EWop WXor (EVar "a0") (EWShl (EVar "tmp") (EConst I32 1))))];
        SBlock [
          SDecl (TWord) "tmp" None;
          SExpr (EAssign (EVar "tmp") (EWop WAnd (EWop WXor (EWShr (EVar "a2") (EConst I32 1)) (EVar "a3")) (EWVal 1 0x55)));
          SExpr (EAssign (EVar "a3") (EWop WXor (EVar "a3") (EVar "tmp")));
          SExpr (EAssign (EVar "a2") (EWop WXor (EVar "a2") (EWShl (EVar "tmp") (EConst I32 1))))];
        SBlock [
          SDecl (TWord) "tmp" None;
          SExpr (EAssign (EVar "tmp") (EWop WAnd (EWop WXor (EWShr (EVar "a0") (EConst I32 2)) (EVar "a2")) (EWVal 1 0x33)));
          SExpr (EAssign (EVar "a2") (EWop WXor (EVar "a2") (EVar "tmp")));
          SExpr (EAssign (EVar "a0") (EWop WXor (EVar "a0") (EWShl (EVar "tmp") (EConst I32 2))))];
        SBlock [
          SDecl (TWord) "tmp" None;
          SExpr (EAssign (EVar "tmp") (EWop WAnd (EWop WXor (EWShr (EVar "a1") (EConst I32 2)) (EVar "a3")) (EWVal 1 0x33)));
          SExpr (EAssign (EVar "a3") (EWop WXor (EVar "a3") (EVar "tmp")));
          SExpr (EAssign (EVar "a1") (EWop WXor (EVar "a1") (EWShl (EVar "tmp") (EConst I32 2))))];
        SExpr (EAssign (EIndex (EVar "row") (EBin Add (EVar "j") (EConst I32 0))) (EVar "a0"));
        SExpr (EAssign (EIndex (EVar "row") (EBin Add (EVar "j") (EConst I32 1))) (EVar "a1"));
        SExpr (EAssign (EIndex (EVar "row") (EBin Add (EVar "j") (EConst I32 2))) (EVar "a2"));
        SExpr (EAssign (EIndex (EVar "row") (EBin Add (EVar "j") (EConst I32 3))) (EVar "a3"))])].

Definition bs_matrix_transpose_64x32_3 (c : build) : fundef := mk_fun "" TVoid [] [].

Definition bs_matrix_transpose_64x32 (c : build) : fundef := match tgt c with UINT32 => (if big_endian c then bs_matrix_transpose_64x32_1 c else bs_matrix_transpose_64x32_2 c) | UINT64 | MMX | SSE2 | SSSE3 | AVX2 | NEON => bs_matrix_transpose_64x32_3 c end.

Definition bs_stream_transpose_in_1 (c : build) : fundef := mk_fun "dvbcsa_bs_stream_transpose_in" (TVoid) [("pkt_buf", TPtr (TStruct "dvbcsa_bs_pkt_buf")); ("row", TPtr (TWord))] [
    SDecl (TPtr (TInt U32)) "p" (Some (ECast (TPtr (TInt U32)) (EVar "row")));
    SDecl (TPtr (TStruct "dvbcsa_bs_block8_t")) "block" (Some (EField (EDeref (EVar "pkt_buf")) "data"));
    SDecl (TInt I32) "i" None;
    SFor (Some (EAssign (EVar "i") (EConst I32 0))) (EBin Lt (EVar "i") (EField (EDeref (EVar "pkt_buf")) "n_packets")) (Some (EPost Add (EVar "i")))
      (SBlock [
        SExpr (EAssign (EIndex (EVar "p") (EVar "i")) (EIndex (EField (EDeref (EVar "block")) "u32") (EConst I32 0)));
        SExpr (EAssign (EIndex (EVar "p") (EBin Add (EVar "i") (EConst I32 0x20))) (EIndex (EField (EDeref (EVar "block")) "u32") (EConst I32 1)));
        SExpr (EOpAssign Add (EVar "block") (EBin Div (EConst I32 0xb8) (EConst I32 8)))]);
    SExpr (ECall "dvbcsa_bs_matrix_transpose_64x32" [(EVar "row")])].

Definition bs_stream_transpose_in_2 (c : build) : fundef := mk_fun "dvbcsa_bs_stream_transpose_in" (TVoid) [("pkt_buf", TPtr (TStruct "dvbcsa_bs_pkt_buf")); ("row", TPtr (TWord))] [
    SDecl (TPtr (TInt U64)) "p" (Some (ECast (TPtr (TInt U64)) (EVar "row")));
    SDecl (TPtr (TStruct "dvbcsa_bs_block8_t")) "block" (Some (EField (EDeref (EVar "pkt_buf")) "data"));
    SDecl (TInt I32) "i" None;
    SFor (Some (EAssign (EVar "i") (EConst I32 0))) (EBin Lt (EVar "i") (EField (EDeref (EVar "pkt_buf")) "n_packets")) (Some (EPost Add (EVar "i")))
      (SBlock [
        SExpr (EAssign (EDeref (EPost Add (EVar "p"))) (EField (EDeref (EVar "block")) "u64"));
        SExpr (EOpAssign Add (EVar "block") (EBin Div (EConst I32 0xb8) (EConst I32 8)))]);
    SExpr (ECall "dvbcsa_bs_matrix_transpose_64x" [(EVar "row")])].

Definition bs_stream_transpose_in (c : build) : fundef := match tgt c with UINT32 => bs_stream_transpose_in_1 c | UINT64 | MMX | SSE2 | SSSE3 | AVX2 | NEON => bs_stream_transpose_in_2 c end.

Definition bs_stream_transpose_out_1 (c : build) : fundef := mk_fun "dvbcsa_bs_stream_transpose_out" (TVoid) [("pkt_buf", TPtr (TStruct "dvbcsa_bs_pkt_buf")); ("index", TInt U32); ("row", TPtr (TWord))] [
    SDecl (TPtr (TInt U32)) "p" (Some (ECast (TPtr (TInt U32)) (EVar "row")));
    SDecl (TPtr (TStruct "dvbcsa_bs_block8_t")) "block" (Some (EBin Add (EField (EDeref (EVar "pkt_buf")) "data") (EBin Div (EVar "index") (EConst I32 8))));
    SDecl (TInt I32) "i" None;
    SExpr (ECall "dvbcsa_bs_matrix_transpose_64x32" [(EVar "row")]);
    SFor (Some (EAssign (EVar "i") (EConst I32 0))) (EBin Lt (EVar "i") (EField (EDeref (EVar "pkt_buf")) "n_packets")) (Some (EPost Add (EVar "i")))
      (SBlock [
        SExpr (EOpAssign Xor (EIndex (EField (EDeref (EVar "block")) "u32") (EConst I32 0)) (EIndex (EVar "p") (EVar "i")));
        SExpr (EOpAssign Xor (EIndex (EField (EDeref (EVar "block")) "u32") (EConst I32 1)) (EIndex (EVar "p") (EBin Add (EVar "i") (EConst I32 0x20))));
        SExpr (EOpAssign Add (EVar "block") (EBin Div (EConst I32 0xb8) (EConst I32 8)))])].

Definition bs_stream_transpose_out_2 (c : build) : fundef := mk_fun "dvbcsa_bs_stream_transpose_out" (TVoid) [("pkt_buf", TPtr (TStruct "dvbcsa_bs_pkt_buf")); ("index", TInt U32); ("row", TPtr (TWord))] [
    SDecl (TPtr (TInt U64)) "p" (Some (ECast (TPtr (TInt U64)) (EVar "row")));
    SDecl (TPtr (TStruct "dvbcsa_bs_block8_t")) "block" (Some (EBin Add (EField (EDeref (EVar "pkt_buf")) "data") (EBin Div (EVar "index") (EConst I32 8))));
    SDecl (TInt I32) "i" None;
    SDecl (TInt I32) "n_pkt2" None;
    SExpr (ECall "dvbcsa_bs_matrix_transpose_64x" [(EVar "row")]);
    SExpr (EAssign (EVar "n_pkt2") (EBin And (EField (EDeref (EVar "pkt_buf")) "n_packets") (ECast (TInt U32) (EUn Not (EConst I32 1)))));
    SFor (Some (EAssign (EVar "i") (EConst I32 0))) (EBin Lt (EVar "i") (EVar "n_pkt2")) None
      (SBlock [
        SDecl (TInt U64) "a" None;
        SDecl (TInt U64) "b" None;
        SDecl (TInt U64) "c" None;
        SDecl (TInt U64) "d" None;
        SExpr (EAssign (EVar "a") (EField (EIndex (EVar "block") (EConst I32 0)) "u64"));
        SExpr (EAssign (EVar "b") (EIndex (EVar "p") (EBin Add (EVar "i") (EConst I32 0))));
        SExpr (EAssign (EVar "c") (EField (EIndex (EVar "block") (EBin Div (EConst I32 0xb8) (EConst I32 8))) "u64"));
        SExpr (EAssign (EVar "d") (EIndex (EVar "p") (EBin Add (EVar "i") (EConst I32 1))));
        SExpr (EAssign (EField (EIndex (EVar "block") (EConst I32 0)) "u64") (EBin Xor (EVar "a") (EVar "b")));
        SExpr (EAssign (EField (EIndex (EVar "block") (EBin Div (EConst I32 0xb8) (EConst I32 8))) "u64") (EBin Xor (EVar "c") (EVar "d")));
        SExpr (EOpAssign Add (EVar "block") (EBin Mul (EBin Div (EConst I32 0xb8) (EConst I32 8)) (EConst I32 2)));
        SExpr (EOpAssign Add (EVar "i") (EConst I32 2))]);
    SFor None (EBin Lt (EVar "i") (EField (EDeref (EVar "pkt_buf")) "n_packets")) (Some (EPost Add (EVar "i")))
      (SBlock [
        SExpr (EOpAssign Xor (EField (EDeref (EVar "block")) "u64") (EIndex (EVar "p") (EVar "i")));
        SExpr (EOpAssign Add (EVar "block") (EBin Div (EConst I32 0xb8) (EConst I32 8)))])].

Definition bs_stream_transpose_out (c : build) : fundef := match tgt c with UINT32 => bs_stream_transpose_out_1 c | UINT64 | MMX | SSE2 | SSSE3 | AVX2 | NEON => bs_stream_transpose_out_2 c end.

Definition bs_block_decrypt_register_1 (c : build) : fundef := mk_fun "dvbcsa_bs_block_decrypt_register" (TVoid) [("block", TPtr (TWord)); ("r", TPtr (TWord))] [
    SDecl (TArr (TWord) 8) "scratch1" None;
    SDecl (TArr (TWord) 8) "scratch2" None;
    SDecl (TInt I32) "i" None;
    SDecl (TInt I32) "g" None;
    SExpr (EOpAssign Add (EVar "r") (EBin Mul (EConst I32 8) (EConst I32 0x38)));
    SFor (Some (EAssign (EVar "i") (EConst I32 0x37))) (EBin Ge (EVar "i") (EConst I32 0)) (Some (EPost Sub (EVar "i")))
      (SBlock [
        SDecl (TPtr (TWord)) "r6_N" (Some (EBin Add (EVar "r") (EBin Mul (EConst I32 8) (EConst I32 6))));
        SExpr (EOpAssign Sub (EVar "r") (EConst I32 8));
        SFor (Some (EAssign (EVar "g") (EConst I32 0))) (EBin Lt (EVar "g") (EConst I32 8)) (Some (EPost Add (EVar "g")))
          (SBlock [
            SExpr (EAssign (EIndex (EVar "scratch1") (EVar "g")) (EWop WXor (EIndex (EVar "block") (EVar "i")) (EIndex (EVar "r6_N") (EVar "g"))))]);
        SBlock [
          SDecl (TPtr (TInt U32)) "src" (Some (ECast (TPtr (TInt U32)) (EVar "scratch1")));
          SDecl (TPtr (TInt U8)) "dst" (Some (ECast (TPtr (TInt U8)) (EVar "scratch2")));
          SDecl (TInt U32) "a" None;
          SDecl (TInt U32) "b" None;
          SDecl (TInt U32) "c" None;
          SDecl (TInt U32) "d" None;
          SDecl (TInt U32) "s" None;
          SDecl (TInt I32) "j" None;
          SExpr (EAssign (EVar "s") (EDeref (EVar "src")));
          SFor (Some (EAssign (EVar "j") (EConst I32 0))) (EBin Lt (EVar "j") (EBin Sub (EBin Mul (EBin Div (EConst I32 (N.of_nat (word_bytes c))) (EConst I32 4)) (EConst I32 8)) (EConst I32 1))) None
            (SBlock [
              SExpr (EPost Add (EVar "j"));
              SExpr (EAssign (EVar "a") (EBin And (EBin Shr (EVar "s") (EConst I32 0x18)) (EConst I32 0xff)));
              SExpr (EAssign (EVar "b") (EBin And (EBin Shr (EVar "s") (EConst I32 0x10)) (EConst I32 0xff)));
              SExpr (EAssign (EVar "c") (EBin And (EBin Shr (EVar "s") (EConst I32 8)) (EConst I32 0xff)));
              SExpr (EAssign (EVar "d") (EBin And (EVar "s") (EConst I32 0xff)));
              SExpr (EAssign (EVar "s") (EIndex (EVar "src") (EVar "j")));
              SExpr (EAssign (EIndex (EVar "dst") (EConst I32 0)) (EIndex (EVar "dvbcsa_block_sbox") (EVar "a")));
              SExpr (EAssign (EIndex (EVar "dst") (EConst I32 1)) (EIndex (EVar "dvbcsa_block_sbox") (EVar "b")));
              SExpr (EAssign (EIndex (EVar "dst") (EConst I32 2)) (EIndex (EVar "dvbcsa_block_sbox") (EVar "c")));
              SExpr (EAssign (EIndex (EVar "dst") (EConst I32 3)) (EIndex (EVar "dvbcsa_block_sbox") (EVar "d")));
              SExpr (EOpAssign Add (EVar "dst") (EConst I32 4))]);
          SExpr (EAssign (EVar "a") (EBin And (EBin Shr (EVar "s") (EConst I32 0x18)) (EConst I32 0xff)));
          SExpr (EAssign (EVar "b") (EBin And (EBin Shr (EVar "s") (EConst I32 0x10)) (EConst I32 0xff)));
          SExpr (EAssign (EVar "c") (EBin And (EBin Shr (EVar "s") (EConst I32 8)) (EConst I32 0xff)));
          SExpr (EAssign (EVar "d") (EBin And (EVar "s") (EConst I32 0xff)));
          SExpr (EAssign (EIndex (EVar "dst") (EConst I32 0)) (EIndex (EVar "dvbcsa_block_sbox") (EVar "a")));
          SExpr (EAssign (EIndex (EVar "dst") (EConst I32 1)) (EIndex (EVar "dvbcsa_block_sbox") (EVar "b")));
          SExpr (EAssign (EIndex (EVar "dst") (EConst I32 2)) (EIndex (EVar "dvbcsa_block_sbox") (EVar "c")));
          SExpr (EAssign (EIndex (EVar "dst") (EConst I32 3)) (EIndex (EVar "dvbcsa_block_sbox") (EVar "d")))];
        SFor (Some (EAssign (EVar "g") (EConst I32 0))) (EBin Lt (EVar "g") (EConst I32 8)) (Some (EPost Add (EVar "g")))
          (SBlock [
            SDecl (TWord) "sbox_out" None;
            SDecl (TWord) "perm_out" None;
            SDecl (TWord) "w" None;
            SDecl (TWord) "tmp1" None;
            SDecl (TWord) "tmp2" None;
            SDecl (TWord) "tmp3" None;
            SDecl (TWord) "tmp4" None;
            SExpr (EAssign (EVar "sbox_out") (EIndex (EVar "scratch2") (EVar "g")));
            SBlock [
              SExpr (EAssign (EVar "perm_out") (EWop WOr (EWop WOr (EWop WOr (EWShl (EWop WAnd (EVar "sbox_out") (EWVal 1 0x29)) (EConst I32 1)) (EWShl (EWop WAnd (EVar "sbox_out") (EWVal 1 0x2)) (EConst I32 6))) (EWop WOr (EWShl (EWop WAnd (EVar "sbox_out") (EWVal 1 0x4)) (EConst I32 3)) (EWShr (EWop WAnd (EVar "sbox_out") (EWVal 1 0x10)) (EConst I32 2)))) (EWop WOr (EWShr (EWop WAnd (EVar "sbox_out") (EWVal 1 0x40)) (EConst I32 6)) (EWShr (EWop WAnd (EVar "sbox_out") (EWVal 1 0x80)) (EConst I32 4)))))];
            SExpr (EAssign (EVar "w") (EIndex (EVar "r") (EBin Add (EBin Mul (EConst I32 8) (EConst I32 8)) (EVar "g"))));
            SExpr (EAssign (EVar "tmp1") (EIndex (EVar "r") (EBin Add (EBin Mul (EConst I32 8) (EConst I32 2)) (EVar "g"))));
            SExpr (EAssign (EVar "tmp2") (EIndex (EVar "r") (EBin Add (EBin Mul (EConst I32 8) (EConst I32 3)) (EVar "g"))));
            SExpr (EAssign (EVar "tmp3") (EIndex (EVar "r") (EBin Add (EBin Mul (EConst I32 8) (EConst I32 4)) (EVar "g"))));
            SExpr (EAssign (EVar "w") (EWop WXor (EVar "w") (EVar "sbox_out")));
            SExpr (EAssign (EVar "tmp4") (EIndex (EVar "r") (EBin Add (EBin Mul (EConst I32 8) (EConst I32 6)) (EVar "g"))));
            SExpr (EAssign (EVar "tmp1") (EWop WXor (EVar "tmp1") (EVar "w")));
            SExpr (EAssign (EVar "tmp2") (EWop WXor (EVar "tmp2") (EVar "w")));
            SExpr (EAssign (EVar "tmp3") (EWop WXor (EVar "tmp3") (EVar "w")));
            SExpr (EAssign (EIndex (EVar "r") (EBin Add (EBin Mul (EConst I32 8) (EConst I32 0)) (EVar "g"))) (EVar "w"));
            SExpr (EAssign (EIndex (EVar "r") (EBin Add (EBin Mul (EConst I32 8) (EConst I32 2)) (EVar "g"))) (EVar "tmp1"));
            SExpr (EAssign (EVar "tmp4") (EWop WXor (EVar "tmp4") (EVar "perm_out")));
            SExpr (EAssign (EIndex (EVar "r") (EBin Add (EBin Mul (EConst I32 8) (EConst I32 3)) (EVar "g"))) (EVar "tmp2"));
            SExpr (EAssign (EIndex (EVar "r") (EBin Add (EBin Mul (EConst I32 8) (EConst I32 4)) (EVar "g"))) (EVar "tmp3"));
            SExpr (EAssign (EIndex (EVar "r") (EBin Add (EBin Mul (EConst I32 8) (EConst I32 6)) (EVar "g"))) (EVar "tmp4"))])])].

Definition bs_block_decrypt_register_2 (c : build) : fundef := mk_fun "dvbcsa_bs_block_decrypt_register" (TVoid) [("block", TPtr (TWord)); ("r", TPtr (TWord))] [
    SDecl (TArr (TWord) 8) "scratch1" None;
    SDecl (TArr (TWord) 8) "scratch2" None;
    SDecl (TInt I32) "i" None;
    SDecl (TInt I32) "g" None;
    SExpr (EOpAssign Add (EVar "r") (EBin Mul (EConst I32 8) (EConst I32 0x38)));
    SFor (Some (EAssign (EVar "i") (EConst I32 0x37))) (EBin Ge (EVar "i") (EConst I32 0)) (Some (EPost Sub (EVar "i")))
      (SBlock [
        SDecl (TPtr (TWord)) "r6_N" (Some (EBin Add (EVar "r") (EBin Mul (EConst I32 8) (EConst I32 6))));
        SExpr (EOpAssign Sub (EVar "r") (EConst I32 8));
        SFor (Some (EAssign (EVar "g") (EConst I32 0))) (EBin Lt (EVar "g") (EConst I32 8)) (Some (EPost Add (EVar "g")))
          (SBlock [
            SExpr (EAssign (EIndex (EVar "scratch1") (EVar "g")) (EWop WXor (EIndex (EVar "block") (EVar "i")) (EIndex (EVar "r6_N") (EVar "g"))))]);
        SBlock [
          SDecl (TPtr (TInt U8)) "src" (Some (ECast (TPtr (TInt U8)) (EVar "scratch1")));
          SDecl (TPtr (TInt U8)) "dst" (Some (ECast (TPtr (TInt U8)) (EVar "scratch2")));
          SDecl (TInt U8) "a" None;
          SDecl (TInt U8) "b" None;
          SDecl (TInt U8) "c" None;
          SDecl (TInt U8) "d" None;
          SDecl (TInt I32) "j" None;
          SFor (Some (EAssign (EVar "j") (EConst I32 0))) (EBin Lt (EVar "j") (EBin Mul (EConst I32 (N.of_nat (word_bytes c))) (EConst I32 8))) (Some (EOpAssign Add (EVar "j") (EConst I32 4)))
            (SBlock [
              SExpr (EAssign (EVar "a") (EIndex (EVar "src") (EBin Add (EVar "j") (EConst I32 0))));
              SExpr (EAssign (EVar "b") (EIndex (EVar "src") (EBin Add (EVar "j") (EConst I32 1))));
              SExpr (EAssign (EVar "c") (EIndex (EVar "src") (EBin Add (EVar "j") (EConst I32 2))));
              SExpr (EAssign (EVar "d") (EIndex (EVar "src") (EBin Add (EVar "j") (EConst I32 3))));
              SExpr (EAssign (EIndex (EVar "dst") (EBin Add (EVar "j") (EConst I32 0))) (EIndex (EVar "dvbcsa_block_sbox") (EVar "a")));
              SExpr (EAssign (EIndex (EVar "dst") (EBin Add (EVar "j") (EConst I32 1))) (EIndex (EVar "dvbcsa_block_sbox") (EVar "b")));
              SExpr (EAssign (EIndex (EVar "dst") (EBin Add (EVar "j") (EConst I32 2))) (EIndex (EVar "dvbcsa_block_sbox") (EVar "c")));
              SExpr (EAssign (EIndex (EVar "dst") (EBin Add (EVar "j") (EConst I32 3))) (EIndex (EVar "dvbcsa_block_sbox") (EVar "d")))])];
        SFor (Some (EAssign (EVar "g") (EConst I32 0))) (EBin Lt (EVar "g") (EConst I32 8)) (Some (EPost Add (EVar "g")))
          (SBlock [
            SDecl (TWord) "sbox_out" None;
            SDecl (TWord) "perm_out" None;
            SDecl (TWord) "w" None;
            SDecl (TWord) "tmp1" None;
            SDecl (TWord) "tmp2" None;
            SDecl (TWord) "tmp3" None;
            SDecl (TWord) "tmp4" None;
            SExpr (EAssign (EVar "sbox_out") (EIndex (EVar "scratch2") (EVar "g")));
            SBlock [
              SExpr (EAssign (EVar "perm_out") (EWop WOr (EWop WOr (EWop WOr (EWShl (EWop WAnd (EVar "sbox_out") (EWVal 1 0x29)) (EConst I32 1)) (EWShl (EWop WAnd (EVar "sbox_out") (EWVal 1 0x2)) (EConst I32 6))) (EWop WOr (EWShl (EWop WAnd (EVar "sbox_out") (EWVal 1 0x4)) (EConst I32 3)) (EWShr (EWop WAnd (EVar "sbox_out") (EWVal 1 0x10)) (EConst I32 2)))) (EWop WOr (EWShr (EWop WAnd (EVar "sbox_out") (EWVal 1 0x40)) (EConst I32 6)) (EWShr (EWop WAnd (EVar "sbox_out") (EWVal 1 0x80)) (EConst I32 4)))))];
            SExpr (EAssign (EVar "w") (EIndex (EVar "r") (EBin Add (EBin Mul (EConst I32 8) (EConst I32 8)) (EVar "g"))));
            SExpr (EAssign (EVar "tmp1") (EIndex (EVar "r") (EBin Add (EBin Mul (EConst I32 8) (EConst I32 2)) (EVar "g"))));
            SExpr (EAssign (EVar "tmp2") (EIndex (EVar "r") (EBin Add (EBin Mul (EConst I32 8) (EConst I32 3)) (EVar "g"))));
            SExpr (EAssign (EVar "tmp3") (EIndex (EVar "r") (EBin Add (EBin Mul (EConst I32 8) (EConst I32 4)) (EVar "g"))));
            SExpr (EAssign (EVar "w") (EWop WXor (EVar "w") (EVar "sbox_out")));
            SExpr (EAssign (EVar "tmp4") (EIndex (EVar "r") (EBin Add (EBin Mul (EConst I32 8) (EConst I32 6)) (EVar "g"))));
            SExpr (EAssign (EVar "tmp1") (EWop WXor (EVar "tmp1") (EVar "w")));
            SExpr (EAssign (EVar "tmp2") (EWop WXor (EVar "tmp2") (EVar "w")));
            SExpr (EAssign (EVar "tmp3") (EWop WXor (EVar "tmp3") (EVar "w")));
            SExpr (EAssign (EIndex (EVar "r") (EBin Add (EBin Mul (EConst I32 8) (EConst I32 0)) (EVar "g"))) (EVar "w"));
            SExpr (EAssign (EIndex (EVar "r") (EBin Add (EBin Mul (EConst I32 8) (EConst I32 2)) (EVar "g"))) (EVar "tmp1"));
            SExpr (EAssign (EVar "tmp4") (EWop WXor (EVar "tmp4") (EVar "perm_out")));
            SExpr (EAssign (EIndex (EVar "r") (EBin Add (EBin Mul (EConst I32 8) (EConst I32 3)) (EVar "g"))) (EVar "tmp2"));
            SExpr (EAssign (EIndex (EVar "r") (EBin Add (EBin Mul (EConst I32 8) (EConst I32 4)) (EVar "g"))) (EVar "tmp3"));
            SExpr (EAssign (EIndex (EVar "r") (EBin Add (EBin Mul (EConst I32 8) (EConst I32 6)) (EVar "g"))) (EVar "tmp4"))])])].

Definition bs_block_decrypt_register_3 (c : build) : fundef := mk_fun "dvbcsa_bs_block_decrypt_register" (TVoid) [("block", TPtr (TWord)); ("r", TPtr (TWord))] [
    SDecl (TArr (TWord) 8) "scratch1" None;
    SDecl (TArr (TWord) 8) "scratch2" None;
    SDecl (TInt I32) "i" None;
    SDecl (TInt I32) "g" None;
    SExpr (EOpAssign Add (EVar "r") (EBin Mul (EConst I32 8) (EConst I32 0x38)));
    SFor (Some (EAssign (EVar "i") (EConst I32 0x37))) (EBin Ge (EVar "i") (EConst I32 0)) (Some (EPost Sub (EVar "i")))
      (SBlock [
        SDecl (TPtr (TWord)) "r6_N" (Some (EBin Add (EVar "r") (EBin Mul (EConst I32 8) (EConst I32 6))));
        SExpr (EOpAssign Sub (EVar "r") (EConst I32 8));
        SFor (Some (EAssign (EVar "g") (EConst I32 0))) (EBin Lt (EVar "g") (EConst I32 8)) (Some (EPost Add (EVar "g")))
          (SBlock [
            SExpr (EAssign (EIndex (EVar "scratch1") (EVar "g")) (EWop WXor (EIndex (EVar "block") (EVar "i")) (EIndex (EVar "r6_N") (EVar "g"))))]);
        SBlock [
          SDecl (TPtr (TInt U32)) "src" (Some (ECast (TPtr (TInt U32)) (EVar "scratch1")));
          SDecl (TPtr (TInt U8)) "dst" (Some (ECast (TPtr (TInt U8)) (EVar "scratch2")));
          SDecl (TInt U32) "a" None;
          SDecl (TInt U32) "b" None;
          SDecl (TInt U32) "c" None;
          SDecl (TInt U32) "d" None;
          SDecl (TInt U32) "s" None;
          SDecl (TInt I32) "j" None;
          SExpr (EAssign (EVar "s") (EDeref (EVar "src")));
          SFor (Some (EAssign (EVar "j") (EConst I32 0))) (EBin Lt (EVar "j") (EBin Sub (EBin Mul (EBin Div (EConst I32 (N.of_nat (word_bytes c))) (EConst I32 4)) (EConst I32 8)) (EConst I32 1))) None
            (SBlock [
              SExpr (EPost Add (EVar "j"));
              SExpr (EAssign (EVar "a") (EBin And (EVar "s") (EConst I32 0xff)));
              SExpr (EAssign (EVar "b") (EBin And (EBin Shr (EVar "s") (EConst I32 8)) (EConst I32 0xff)));
              SExpr (EAssign (EVar "c") (EBin And (EBin Shr (EVar "s") (EConst I32 0x10)) (EConst I32 0xff)));
              SExpr (EAssign (EVar "d") (EBin And (EBin Shr (EVar "s") (EConst I32 0x18)) (EConst I32 0xff)));
              SExpr (EAssign (EVar "s") (EIndex (EVar "src") (EVar "j")));
              SExpr (EAssign (EIndex (EVar "dst") (EConst I32 0)) (EIndex (EVar "dvbcsa_block_sbox") (EVar "a")));
              SExpr (EAssign (EIndex (EVar "dst") (EConst I32 1)) (EIndex (EVar "dvbcsa_block_sbox") (EVar "b")));
              SExpr (EAssign (EIndex (EVar "dst") (EConst I32 2)) (EIndex (EVar "dvbcsa_block_sbox") (EVar "c")));
              SExpr (EAssign (EIndex (EVar "dst") (EConst I32 3)) (EIndex (EVar "dvbcsa_block_sbox") (EVar "d")));
              SExpr (EOpAssign Add (EVar "dst") (EConst I32 4))]);
          SExpr (EAssign (EVar "a") (EBin And (EVar "s") (EConst I32 0xff)));
          SExpr (EAssign (EVar "b") (EBin And (EBin Shr (EVar "s") (EConst I32 8)) (EConst I32 0xff)));
          SExpr (EAssign (EVar "c") (EBin And (EBin Shr (EVar "s") (EConst I32 0x10)) (EConst I32 0xff)));
          SExpr (EAssign (EVar "d") (EBin And (EBin Shr (EVar "s") (EConst I32 0x18)) (EConst I32 0xff)));
          SExpr (EAssign (EIndex (EVar "dst") (EConst I32 0)) (EIndex (EVar "dvbcsa_block_sbox") (EVar "a")));
          SExpr (EAssign (EIndex (EVar "dst") (EConst I32 1)) (EIndex (EVar "dvbcsa_block_sbox") (EVar "b")));
          SExpr (EAssign (EIndex (EVar "dst") (EConst I32 2)) (EIndex (EVar "dvbcsa_block_sbox") (EVar "c")));
          SExpr (EAssign (EIndex (EVar "dst") (EConst I32 3)) (EIndex (EVar "dvbcsa_block_sbox") (EVar "d")))];
        SFor (Some (EAssign (EVar "g") (EConst I32 0))) (EBin Lt (EVar "g") (EConst I32 8)) (Some (EPost Add (EVar "g")))
          (SBlock [
            SDecl (TWord) "sbox_out" None;
            SDecl (TWord) "perm_out" None;
            SDecl (TWord) "w" None;
            SDecl (TWord) "tmp1" None;
            SDecl (TWord) "tmp2" None;
            SDecl (TWord) "tmp3" None;
            SDecl (TWord) "tmp4" None;
            SExpr (EAssign (EVar "sbox_out") (EIndex (EVar "scratch2") (EVar "g")));
            SBlock [
              SExpr (EAssign (EVar "perm_out") (EWop WOr (EWop WOr (EWop WOr (EWShl (EWop WAnd (EVar "sbox_out") (EWVal 1 0x29)) (EConst I32 1)) (EWShl (EWop WAnd (EVar "sbox_out") (EWVal 1 0x2)) (EConst I32 6))) (EWop WOr (EWShl (EWop WAnd (EVar "sbox_out") (EWVal 1 0x4)) (EConst I32 3)) (EWShr (EWop WAnd (EVar "sbox_out") (EWVal 1 0x10)) (EConst I32 2)))) (EWop WOr (EWShr (EWop WAnd (EVar "sbox_out") (EWVal 1 0x40)) (EConst I32 6)) (EWShr (EWop WAnd (EVar "sbox_out") (EWVal 1 0x80)) (EConst I32 4)))))];
            SExpr (EAssign (EVar "w") (EIndex (EVar "r") (EBin Add (EBin Mul (EConst I32 8) (EConst I32 8)) (EVar "g"))));
            SExpr (EAssign (EVar "tmp1") (EIndex (EVar "r") (EBin Add (EBin Mul (EConst I32 8) (EConst I32 2)) (EVar "g"))));
            SExpr (EAssign (EVar "tmp2") (EIndex (EVar "r") (EBin Add (EBin Mul (EConst I32 8) (EConst I32 3)) (EVar "g"))));
            SExpr (EAssign (EVar "tmp3") (EIndex (EVar "r") (EBin Add (EBin Mul (EConst I32 8) (EConst I32 4)) (EVar "g"))));
            SExpr (EAssign (EVar "w") (EWop WXor (EVar "w") (EVar "sbox_out")));
            SExpr (EAssign (EVar "tmp4") (EIndex (EVar "r") (EBin Add (EBin Mul (EConst I32 8) (EConst I32 6)) (EVar "g"))));
            SExpr (EAssign (EVar "tmp1") (EWop WXor (EVar "tmp1") (EVar "w")));
            SExpr (EAssign (EVar "tmp2") (EWop WXor (EVar "tmp2") (EVar "w")));
            SExpr (EAssign (EVar "tmp3") (EWop WXor (EVar "tmp3") (EVar "w")));
            SExpr (EAssign (EIndex (EVar "r") (EBin Add (EBin Mul (EConst I32 8) (EConst I32 0)) (EVar "g"))) (EVar "w"));
            SExpr (EAssign (EIndex (EVar "r") (EBin Add (EBin Mul (EConst I32 8) (EConst I32 2)) (EVar "g"))) (EVar "tmp1"));
            SExpr (EAssign (EVar "tmp4") (EWop WXor (EVar "tmp4") (EVar "perm_out")));
            SExpr (EAssign (EIndex (EVar "r") (EBin Add (EBin Mul (EConst I32 8) (EConst I32 3)) (EVar "g"))) (EVar "tmp2"));
            SExpr (EAssign (EIndex (EVar "r") (EBin Add (EBin Mul (EConst I32 8) (EConst I32 4)) (EVar "g"))) (EVar "tmp3"));
            SExpr (EAssign (EIndex (EVar "r") (EBin Add (EBin Mul (EConst I32 8) (EConst I32 6)) (EVar "g"))) (EVar "tmp4"))])])].

Definition bs_block_decrypt_register_4 (c : build) : fundef := mk_fun "dvbcsa_bs_block_decrypt_register" (TVoid) [("block", TPtr (TWord)); ("r", TPtr (TWord))] [
    SDecl (TArr (TWord) 8) "scratch1" None;
    SDecl (TArr (TWord) 16) "scratch2" None;
    SDecl (TInt I32) "i" None;
    SDecl (TInt I32) "g" None;
    SExpr (EOpAssign Add (EVar "r") (EBin Mul (EConst I32 8) (EConst I32 0x38)));
    SFor (Some (EAssign (EVar "i") (EConst I32 0x37))) (EBin Ge (EVar "i") (EConst I32 0)) (Some (EPost Sub (EVar "i")))
      (SBlock [
        SDecl (TPtr (TWord)) "r6_N" (Some (EBin Add (EVar "r") (EBin Mul (EConst I32 8) (EConst I32 6))));
        SExpr (EOpAssign Sub (EVar "r") (EConst I32 8));
        SFor (Some (EAssign (EVar "g") (EConst I32 0))) (EBin Lt (EVar "g") (EConst I32 8)) (Some (EPost Add (EVar "g")))
          (SBlock [
            SExpr (EAssign (EIndex (EVar "scratch1") (EVar "g")) (EWop WXor (EIndex (EVar "block") (EVar "i")) (EIndex (EVar "r6_N") (EVar "g"))))]);
        SBlock [
          SDecl (TPtr (TInt U32)) "src" (Some (ECast (TPtr (TInt U32)) (EVar "scratch1")));
          SDecl (TPtr (TInt U16)) "dst" (Some (ECast (TPtr (TInt U16)) (EVar "scratch2")));
          SDecl (TInt U32) "a" None;
          SDecl (TInt U32) "b" None;
          SDecl (TInt U32) "c" None;
          SDecl (TInt U32) "d" None;
          SDecl (TInt U32) "s" None;
          SDecl (TInt I32) "j" None;
          SExpr (EAssign (EVar "s") (EDeref (EVar "src")));
          SFor (Some (EAssign (EVar "j") (EConst I32 0))) (EBin Lt (EVar "j") (EBin Sub (EBin Mul (EBin Div (EConst I32 (N.of_nat (word_bytes c))) (EConst I32 4)) (EConst I32 8)) (EConst I32 1))) None
            (SBlock [
              SExpr (EPost Add (EVar "j"));
              SExpr (EAssign (EVar "a") (EBin And (EBin Shr (EVar "s") (EConst I32 0x18)) (EConst I32 0xff)));
              SExpr (EAssign (EVar "b") (EBin And (EBin Shr (EVar "s") (EConst I32 0x10)) (EConst I32 0xff)));
              SExpr (EAssign (EVar "c") (EBin And (EBin Shr (EVar "s") (EConst I32 8)) (EConst I32 0xff)));
              SExpr (EAssign (EVar "d") (EBin And (EVar "s") (EConst I32 0xff)));
              SExpr (EAssign (EVar "s") (EIndex (EVar "src") (EVar "j")));
              SExpr (EAssign (EIndex (EVar "dst") (EConst I32 0)) (EIndex (EVar "dvbcsa_block_sbox_perm") (EVar "a")));
              SExpr (EAssign (EIndex (EVar "dst") (EConst I32 1)) (EIndex (EVar "dvbcsa_block_sbox_perm") (EVar "b")));
              SExpr (EAssign (EIndex (EVar "dst") (EConst I32 2)) (EIndex (EVar "dvbcsa_block_sbox_perm") (EVar "c")));
              SExpr (EAssign (EIndex (EVar "dst") (EConst I32 3)) (EIndex (EVar "dvbcsa_block_sbox_perm") (EVar "d")));
              SExpr (EOpAssign Add (EVar "dst") (EConst I32 4))]);
          SExpr (EAssign (EVar "a") (EBin And (EBin Shr (EVar "s") (EConst I32 0x18)) (EConst I32 0xff)));
          SExpr (EAssign (EVar "b") (EBin And (EBin Shr (EVar "s") (EConst I32 0x10)) (EConst I32 0xff)));
          SExpr (EAssign (EVar "c") (EBin And (EBin Shr (EVar "s") (EConst I32 8)) (EConst I32 0xff)));
          SExpr (EAssign (EVar "d") (EBin And (EVar "s") (EConst I32 0xff)));
          SExpr (EAssign (EIndex (EVar "dst") (EConst I32 0)) (EIndex (EVar "dvbcsa_block_sbox_perm") (EVar "a")));
          SExpr (EAssign (EIndex (EVar "dst") (EConst I32 1)) (EIndex (EVar "dvbcsa_block_sbox_perm") (EVar "b")));
          SExpr (EAssign (EIndex (EVar "dst") (EConst I32 2)) (EIndex (EVar "dvbcsa_block_sbox_perm") (EVar "c")));
          SExpr (EAssign (EIndex (EVar "dst") (EConst I32 3)) (EIndex (EVar "dvbcsa_block_sbox_perm") (EVar "d")))];
        SFor (Some (EAssign (EVar "g") (EConst I32 0))) (EBin Lt (EVar "g") (EConst I32 8)) (Some (EPost Add (EVar "g")))
          (SBlock [
            SDecl (TWord) "sbox_out" None;
            SDecl (TWord) "perm_out" None;
            SDecl (TWord) "w" None;
            SDecl (TWord) "tmp1" None;
            SDecl (TWord) "tmp2" None;
            SDecl (TWord) "tmp3" None;
            SDecl (TWord) "tmp4" None;
            SDeint (EBin Add (EVar "scratch2") (EBin Mul (EVar "g") (EConst I32 2))) (EVar "sbox_out") (EVar "perm_out");
            SExpr (EAssign (EVar "w") (EIndex (EVar "r") (EBin Add (EBin Mul (EConst I32 8) (EConst I32 8)) (EVar "g"))));
            SExpr (EAssign (EVar "tmp1") (EIndex (EVar "r") (EBin Add (EBin Mul (EConst I32 8) (EConst I32 2)) (EVar "g"))));
            SExpr (EAssign (EVar "tmp2") (EIndex (EVar "r") (EBin Add (EBin Mul (EConst I32 8) (EConst I32 3)) (EVar "g"))));
            SExpr (EAssign (EVar "tmp3") (EIndex (EVar "r") (EBin Add (EBin Mul (EConst I32 8) (EConst I32 4)) (EVar "g"))));
            SExpr (EAssign (EVar "w") (EWop WXor (EVar "w") (EVar "sbox_out")));
            SExpr (EAssign (EVar "tmp4") (EIndex (EVar "r") (EBin Add (EBin Mul (EConst I32 8) (EConst I32 6)) (EVar "g"))));
            SExpr (EAssign (EVar "tmp1") (EWop WXor (EVar "tmp1") (EVar "w")));
            SExpr (EAssign (EVar "tmp2") (EWop WXor (EVar "tmp2") (EVar "w")));
            SExpr (EAssign (EVar "tmp3") (EWop WXor (EVar "tmp3") (EVar "w")));
            SExpr (EAssign (EIndex (EVar "r") (EBin Add (EBin Mul (EConst I32 8) (EConst I32 0)) (EVar "g"))) (EVar "w"));
            SExpr (EAssign (EIndex (EVar "r") (EBin Add (EBin Mul (EConst I32 8) (EConst I32 2)) (EVar "g"))) (EVar "tmp1"));
            SExpr (EAssign (EVar "tmp4") (EWop WXor (EVar "tmp4") (EVar "perm_out")));
            SExpr (EAssign (EIndex (EVar "r") (EBin Add (EBin Mul (EConst I32 8) (EConst I32 3)) (EVar "g"))) (EVar "tmp2"));
            SExpr (EAssign (EIndex (EVar "r") (EBin Add (EBin Mul (EConst I32 8) (EConst I32 4)) (EVar "g"))) (EVar "tmp3"));
            SExpr (EAssign (EIndex (EVar "r") (EBin Add (EBin Mul (EConst I32 8) (EConst I32 6)) (EVar "g"))) (EVar "tmp4"))])])].

Definition bs_block_decrypt_register_5 (c : build) : fundef := mk_fun "dvbcsa_bs_block_decrypt_register" (TVoid) [("block", TPtr (TWord)); ("r", TPtr (TWord))] [
    SDecl (TArr (TWord) 8) "scratch1" None;
    SDecl (TArr (TWord) 16) "scratch2" None;
    SDecl (TInt I32) "i" None;
    SDecl (TInt I32) "g" None;
    SExpr (EOpAssign Add (EVar "r") (EBin Mul (EConst I32 8) (EConst I32 0x38)));
    SFor (Some (EAssign (EVar "i") (EConst I32 0x37))) (EBin Ge (EVar "i") (EConst I32 0)) (Some (EPost Sub (EVar "i")))
      (SBlock [
        SDecl (TPtr (TWord)) "r6_N" (Some (EBin Add (EVar "r") (EBin Mul (EConst I32 8) (EConst I32 6))));
        SExpr (EOpAssign Sub (EVar "r") (EConst I32 8));
        SFor (Some (EAssign (EVar "g") (EConst I32 0))) (EBin Lt (EVar "g") (EConst I32 8)) (Some (EPost Add (EVar "g")))
          (SBlock [
            SExpr (EAssign (EIndex (EVar "scratch1") (EVar "g")) (EWop WXor (EIndex (EVar "block") (EVar "i")) (EIndex (EVar "r6_N") (EVar "g"))))]);
        SBlock [
          SDecl (TPtr (TInt U8)) "src" (Some (ECast (TPtr (TInt U8)) (EVar "scratch1")));
          SDecl (TPtr (TInt U16)) "dst" (Some (ECast (TPtr (TInt U16)) (EVar "scratch2")));
          SDecl (TInt U8) "a" None;
          SDecl (TInt U8) "b" None;
          SDecl (TInt U8) "c" None;
          SDecl (TInt U8) "d" None;
          SDecl (TInt I32) "j" None;
          SFor (Some (EAssign (EVar "j") (EConst I32 0))) (EBin Lt (EVar "j") (EBin Mul (EConst I32 (N.of_nat (word_bytes c))) (EConst I32 8))) (Some (EOpAssign Add (EVar "j") (EConst I32 4)))
            (SBlock [
              SExpr (EAssign (EVar "a") (EIndex (EVar "src") (EBin Add (EVar "j") (EConst I32 0))));
              SExpr (EAssign (EVar "b") (EIndex (EVar "src") (EBin Add (EVar "j") (EConst I32 1))));
              SExpr (EAssign (EVar "c") (EIndex (EVar "src") (EBin Add (EVar "j") (EConst I32 2))));
              SExpr (EAssign (EVar "d") (EIndex (EVar "src") (EBin Add (EVar "j") (EConst I32 3))));
              SExpr (EAssign (EIndex (EVar "dst") (EBin Add (EVar "j") (EConst I32 0))) (EIndex (EVar "dvbcsa_block_sbox_perm") (EVar "a")));
              SExpr (EAssign (EIndex (EVar "dst") (EBin Add (EVar "j") (EConst I32 1))) (EIndex (EVar "dvbcsa_block_sbox_perm") (EVar "b")));
              SExpr (EAssign (EIndex (EVar "dst") (EBin Add (EVar "j") (EConst I32 2))) (EIndex (EVar "dvbcsa_block_sbox_perm") (EVar "c")));
              SExpr (EAssign (EIndex (EVar "dst") (EBin Add (EVar "j") (EConst I32 3))) (EIndex (EVar "dvbcsa_block_sbox_perm") (EVar "d")))])];
        SFor (Some (EAssign (EVar "g") (EConst I32 0))) (EBin Lt (EVar "g") (EConst I32 8)) (Some (EPost Add (EVar "g")))
          (SBlock [
            SDecl (TWord) "sbox_out" None;
            SDecl (TWord) "perm_out" None;
            SDecl (TWord) "w" None;
            SDecl (TWord) "tmp1" None;
            SDecl (TWord) "tmp2" None;
            SDecl (TWord) "tmp3" None;
            SDecl (TWord) "tmp4" None;
            SDeint (EBin Add (EVar "scratch2") (EBin Mul (EVar "g") (EConst I32 2))) (EVar "sbox_out") (EVar "perm_out");
            SExpr (EAssign (EVar "w") (EIndex (EVar "r") (EBin Add (EBin Mul (EConst I32 8) (EConst I32 8)) (EVar "g"))));
            SExpr (EAssign (EVar "tmp1") (EIndex (EVar "r") (EBin Add (EBin Mul (EConst I32 8) (EConst I32 2)) (EVar "g"))));
            SExpr (EAssign (EVar "tmp2") (EIndex (EVar "r") (EBin Add (EBin Mul (EConst I32 8) (EConst I32 3)) (EVar "g"))));
            SExpr (EAssign (EVar "tmp3") (EIndex (EVar "r") (EBin Add (EBin Mul (EConst I32 8) (EConst I32 4)) (EVar "g"))));
            SExpr (EAssign (EVar "w") (EWop WXor (EVar "w") (EVar "sbox_out")));
            SExpr (EAssign (EVar "tmp4") (EIndex (EVar "r") (EBin Add (EBin Mul (EConst I32 8) (EConst I32 6)) (EVar "g"))));
            SExpr (EAssign (EVar "tmp1") (EWop WXor (EVar "tmp1") (EVar "w")));
            SExpr (EAssign (EVar "tmp2") (EWop WXor (EVar "tmp2") (EVar "w")));
            SExpr (EAssign (EVar "tmp3") (EWop WXor (EVar "tmp3") (EVar "w")));
            SExpr (EAssign (EIndex (EVar "r") (EBin Add (EBin Mul (EConst I32 8) (EConst I32 0)) (EVar "g"))) (EVar "w"));
            SExpr (EAssign (EIndex (EVar "r") (EBin Add (EBin Mul (EConst I32 8) (EConst I32 2)) (EVar "g"))) (EVar "tmp1"));
            SExpr (EAssign (EVar "tmp4") (EWop WXor (EVar "tmp4") (EVar "perm_out")));
            SExpr (EAssign (EIndex (EVar "r") (EBin Add (EBin Mul (EConst I32 8) (EConst I32 3)) (EVar "g"))) (EVar "tmp2"));
            SExpr (EAssign (EIndex (EVar "r") (EBin Add (EBin Mul (EConst I32 8) (EConst I32 4)) (EVar "g"))) (EVar "tmp3"));
            SExpr (EAssign (EIndex (EVar "r") (EBin Add (EBin Mul (EConst I32 8) (EConst I32 6)) (EVar "g"))) (EVar "tmp4"))])])].

Definition bs_block_decrypt_register_6 (c : build) : fundef := mk_fun "dvbcsa_bs_block_decrypt_register" (TVoid) [("block", TPtr (TWord)); ("r", TPtr (TWord))] [
    SDecl (TArr (TWord) 8) "scratch1" None;
    SDecl (TArr (TWord) 16) "scratch2" None;
    SDecl (TInt I32) "i" None;
    SDecl (TInt I32) "g" None;
    SExpr (EOpAssign Add (EVar "r") (EBin Mul (EConst I32 8) (EConst I32 0x38)));
    SFor (Some (EAssign (EVar "i") (EConst I32 0x37))) (EBin Ge (EVar "i") (EConst I32 0)) (Some (EPost Sub (EVar "i")))
      (SBlock [
        SDecl (TPtr (TWord)) "r6_N" (Some (EBin Add (EVar "r") (EBin Mul (EConst I32 8) (EConst I32 6))));
        SExpr (EOpAssign Sub (EVar "r") (EConst I32 8));
        SFor (Some (EAssign (EVar "g") (EConst I32 0))) (EBin Lt (EVar "g") (EConst I32 8)) (Some (EPost Add (EVar "g")))
          (SBlock [
            SExpr (EAssign (EIndex (EVar "scratch1") (EVar "g")) (EWop WXor (EIndex (EVar "block") (EVar "i")) (EIndex (EVar "r6_N") (EVar "g"))))]);
        SBlock [
          SDecl (TPtr (TInt U32)) "src" (Some (ECast (TPtr (TInt U32)) (EVar "scratch1")));
          SDecl (TPtr (TInt U16)) "dst" (Some (ECast (TPtr (TInt U16)) (EVar "scratch2")));
          SDecl (TInt U32) "a" None;
          SDecl (TInt U32) "b" None;
          SDecl (TInt U32) "c" None;
          SDecl (TInt U32) "d" None;
          SDecl (TInt U32) "s" None;
          SDecl (TInt I32) "j" None;
          SExpr (EAssign (EVar "s") (EDeref (EVar "src")));
          SFor (Some (EAssign (EVar "j") (EConst I32 0))) (EBin Lt (EVar "j") (EBin Sub (EBin Mul (EBin Div (EConst I32 (N.of_nat (word_bytes c))) (EConst I32 4)) (EConst I32 8)) (EConst I32 1))) None
            (SBlock [
              SExpr (EPost Add (EVar "j"));
              SExpr (EAssign (EVar "a") (EBin And (EVar "s") (EConst I32 0xff)));
              SExpr (EAssign (EVar "b") (EBin And (EBin Shr (EVar "s") (EConst I32 8)) (EConst I32 0xff)));
              SExpr (EAssign (EVar "c") (EBin And (EBin Shr (EVar "s") (EConst I32 0x10)) (EConst I32 0xff)));
              SExpr (EAssign (EVar "d") (EBin And (EBin Shr (EVar "s") (EConst I32 0x18)) (EConst I32 0xff)));
              SExpr (EAssign (EVar "s") (EIndex (EVar "src") (EVar "j")));
              SExpr (EAssign (EIndex (EVar "dst") (EConst I32 0)) (EIndex (EVar "dvbcsa_block_sbox_perm") (EVar "a")));
              SExpr (EAssign (EIndex (EVar "dst") (EConst I32 1)) (EIndex (EVar "dvbcsa_block_sbox_perm") (EVar "b")));
              SExpr (EAssign (EIndex (EVar "dst") (EConst I32 2)) (EIndex (EVar "dvbcsa_block_sbox_perm") (EVar "c")));
              SExpr (EAssign (EIndex (EVar "dst") (EConst I32 3)) (EIndex (EVar "dvbcsa_block_sbox_perm") (EVar "d")));
              SExpr (EOpAssign Add (EVar "dst") (EConst I32 4))]);
          SExpr (EAssign (EVar "a") (EBin And (EVar "s") (EConst I32 0xff)));
          SExpr (EAssign (EVar "b") (EBin And (EBin Shr (EVar "s") (EConst I32 8)) (EConst I32 0xff)));
          SExpr (EAssign (EVar "c") (EBin And (EBin Shr (EVar "s") (EConst I32 0x10)) (EConst I32 0xff)));
          SExpr (EAssign (EVar "d") (EBin And (EBin Shr (EVar "s") (EConst I32 0x18)) (EConst I32 0xff)));
          SExpr (EAssign (EIndex (EVar "dst") (EConst I32 0)) (EIndex (EVar "dvbcsa_block_sbox_perm") (EVar "a")));
          SExpr (EAssign (EIndex (EVar "dst") (EConst I32 1)) (EIndex (EVar "dvbcsa_block_sbox_perm") (EVar "b")));
          SExpr (EAssign (EIndex (EVar "dst") (EConst I32 2)) (EIndex (EVar "dvbcsa_block_sbox_perm") (EVar "c")));
          SExpr (EAssign (EIndex (EVar "dst") (EConst I32 3)) (EIndex (EVar "dvbcsa_block_sbox_perm") (EVar "d")))];
        SFor (Some (EAssign (EVar "g") (EConst I32 0))) (EBin Lt (EVar "g") (EConst I32 8)) (Some (EPost Add (EVar "g")))
          (SBlock [
            SDecl (TWord) "sbox_out" None;
            SDecl (TWord) "perm_out" None;
            SDecl (TWord) "w" None;
            SDecl (TWord) "tmp1" None;
            SDecl (TWord) "tmp2" None;
            SDecl (TWord) "tmp3" None;
            SDecl (TWord) "tmp4" None;
            SDeint (EBin Add (EVar "scratch2") (EBin Mul (EVar "g") (EConst I32 2))) (EVar "sbox_out") (EVar "perm_out");
            SExpr (EAssign (EVar "w") (EIndex (EVar "r") (EBin Add (EBin Mul (EConst I32 8) (EConst I32 8)) (EVar "g"))));
            SExpr (EAssign (EVar "tmp1") (EIndex (EVar "r") (EBin Add (EBin Mul (EConst I32 8) (EConst I32 2)) (EVar "g"))));
            SExpr (EAssign (EVar "tmp2") (EIndex (EVar "r") (EBin Add (EBin Mul (EConst I32 8) (EConst I32 3)) (EVar "g"))));
            SExpr (EAssign (EVar "tmp3") (EIndex (EVar "r") (EBin Add (EBin Mul (EConst I32 8) (EConst I32 4)) (EVar "g"))));
            SExpr (EAssign (EVar "w") (EWop WXor (EVar "w") (EVar "sbox_out")));
            SExpr (EAssign (EVar "tmp4") (EIndex (EVar "r") (EBin Add (EBin Mul (EConst I32 8) (EConst I32 6)) (EVar "g"))));
            SExpr (EAssign (EVar "tmp1") (EWop WXor (EVar "tmp1") (EVar "w")));
            SExpr (EAssign (EVar "tmp2") (EWop WXor (EVar "tmp2") (EVar "w")));
            SExpr (EAssign (EVar "tmp3") (EWop WXor (EVar "tmp3") (EVar "w")));
            SExpr (EAssign (EIndex (EVar "r") (EBin Add (EBin Mul (EConst I32 8) (EConst I32 0)) (EVar "g"))) (EVar "w"));
            SExpr (EAssign (EIndex (EVar "r") (EBin Add (EBin Mul (EConst I32 8) (EConst I32 2)) (EVar "g"))) (EVar "tmp1"));
            SExpr (EAssign (EVar "tmp4") (EWop WXor (EVar "tmp4") (EVar "perm_out")));
            SExpr (EAssign (EIndex (EVar "r") (EBin Add (EBin Mul (EConst I32 8) (EConst I32 3)) (EVar "g"))) (EVar "tmp2"));
            SExpr (EAssign (EIndex (EVar "r") (EBin Add (EBin Mul (EConst I32 8) (EConst I32 4)) (EVar "g"))) (EVar "tmp3"));
            SExpr (EAssign (EIndex (EVar "r") (EBin Add (EBin Mul (EConst I32 8) (EConst I32 6)) (EVar "g"))) (EVar "tmp4"))])])].

Definition bs_block_decrypt_register_7 (c : build) : fundef := mk_fun "dvbcsa_bs_block_decrypt_register" (TVoid) [("block", TPtr (TWord)); ("r", TPtr (TWord))] [
    SDecl (TArr (TWord) 8) "scratch1" None;
    SDecl (TArr (TWord) 16) "scratch2" None;
    SDecl (TInt I32) "i" None;
    SDecl (TInt I32) "g" None;
    SExpr (EOpAssign Add (EVar "r") (EBin Mul (EConst I32 8) (EConst I32 0x38)));
    SFor (Some (EAssign (EVar "i") (EConst I32 0x37))) (EBin Ge (EVar "i") (EConst I32 0)) (Some (EPost Sub (EVar "i")))
      (SBlock [
        SDecl (TPtr (TWord)) "r6_N" (Some (EBin Add (EVar "r") (EBin Mul (EConst I32 8) (EConst I32 6))));
        SExpr (EOpAssign Sub (EVar "r") (EConst I32 8));
        SFor (Some (EAssign (EVar "g") (EConst I32 0))) (EBin Lt (EVar "g") (EConst I32 8)) (Some (EPost Add (EVar "g")))
          (SBlock [
            SExpr (EAssign (EIndex (EVar "scratch1") (EVar "g")) (EWop WXor (EIndex (EVar "block") (EVar "i")) (EIndex (EVar "r6_N") (EVar "g"))))]);
        SExpr (ECall "BLOCK_SBOX_PERMUTE" [(EVar "scratch1"); (EVar "scratch2")]);
        SFor (Some (EAssign (EVar "g") (EConst I32 0))) (EBin Lt (EVar "g") (EConst I32 8)) (Some (EPost Add (EVar "g")))
          (SBlock [
            SDecl (TWord) "sbox_out" None;
            SDecl (TWord) "perm_out" None;
            SDecl (TWord) "w" None;
            SDecl (TWord) "tmp1" None;
            SDecl (TWord) "tmp2" None;
            SDecl (TWord) "tmp3" None;
            SDecl (TWord) "tmp4" None;
            SDeint (EBin Add (EVar "scratch2") (EBin Mul (EVar "g") (EConst I32 2))) (EVar "sbox_out") (EVar "perm_out");
            SExpr (EAssign (EVar "w") (EIndex (EVar "r") (EBin Add (EBin Mul (EConst I32 8) (EConst I32 8)) (EVar "g"))));
            SExpr (EAssign (EVar "tmp1") (EIndex (EVar "r") (EBin Add (EBin Mul (EConst I32 8) (EConst I32 2)) (EVar "g"))));
            SExpr (EAssign (EVar "tmp2") (EIndex (EVar "r") (EBin Add (EBin Mul (EConst I32 8) (EConst I32 3)) (EVar "g"))));
            SExpr (EAssign (EVar "tmp3") (EIndex (EVar "r") (EBin Add (EBin Mul (EConst I32 8) (EConst I32 4)) (EVar "g"))));
            SExpr (EAssign (EVar "w") (EWop WXor (EVar "w") (EVar "sbox_out")));
            SExpr (EAssign (EVar "tmp4") (EIndex (EVar "r") (EBin Add (EBin Mul (EConst I32 8) (EConst I32 6)) (EVar "g"))));
            SExpr (EAssign (EVar "tmp1") (EWop WXor (EVar "tmp1") (EVar "w")));
            SExpr (EAssign (EVar "tmp2") (EWop WXor (EVar "tmp2") (EVar "w")));
            SExpr (EAssign (EVar "tmp3") (EWop WXor (EVar "tmp3") (EVar "w")));
            SExpr (EAssign (EIndex (EVar "r") (EBin Add (EBin Mul (EConst I32 8) (EConst I32 0)) (EVar "g"))) (EVar "w"));
            SExpr (EAssign (EIndex (EVar "r") (EBin Add (EBin Mul (EConst I32 8) (EConst I32 2)) (EVar "g"))) (EVar "tmp1"));
            SExpr (EAssign (EVar "tmp4") (EWop WXor (EVar "tmp4") (EVar "perm_out")));
            SExpr (EAssign (EIndex (EVar "r") (EBin Add (EBin Mul (EConst I32 8) (EConst I32 3)) (EVar "g"))) (EVar "tmp2"));
            SExpr (EAssign (EIndex (EVar "r") (EBin Add (EBin Mul (EConst I32 8) (EConst I32 4)) (EVar "g"))) (EVar "tmp3"));
            SExpr (EAssign (EIndex (EVar "r") (EBin Add (EBin Mul (EConst I32 8) (EConst I32 6)) (EVar "g"))) (EVar "tmp4"))])])].

Definition bs_block_decrypt_register (c : build) : fundef := match tgt c with UINT32 | UINT64 | MMX | SSE2 => (if big_endian c then (if use_alt_sbox c then bs_block_decrypt_register_1 c else bs_block_decrypt_register_2 c) else (if use_alt_sbox c then bs_block_decrypt_register_3 c else bs_block_decrypt_register_2 c)) | SSSE3 | NEON => (if big_endian c then (if use_alt_sbox c then bs_block_decrypt_register_4 c else bs_block_decrypt_register_5 c) else (if use_alt_sbox c then bs_block_decrypt_register_6 c else bs_block_decrypt_register_5 c)) | AVX2 => (if big_endian c then (if use_alt_sbox c then bs_block_decrypt_register_4 c else bs_block_decrypt_register_7 c) else (if use_alt_sbox c then bs_block_decrypt_register_6 c else bs_block_decrypt_register_7 c)) end.

Definition bs_block_decrypt_block (c : build) : fundef := mk_fun "dvbcsa_bs_block_decrypt_block" (TVoid) [("key", TPtr (TStruct "dvbcsa_bs_key_s")); ("pkt_buf", TPtr (TStruct "dvbcsa_bs_pkt_buf")); ("offset", TInt U32)] [
    SDecl (TArr (TWord) 512) "r" None;
    SExpr (ECall "dvbcsa_bs_block_transpose_in" [(EBin Add (EVar "r") (EBin Mul (EConst I32 8) (EConst I32 0x38))); (EVar "pkt_buf"); (EVar "offset")]);
    SExpr (ECall "dvbcsa_bs_block_decrypt_register" [(EField (EDeref (EVar "key")) "block"); (EVar "r")]);
    SExpr (ECall "dvbcsa_bs_block_transpose_out_and_xor" [(EVar "r"); (EVar "pkt_buf"); (EVar "offset"); (EConst I32 0)])].

Definition bs_block_decrypt_batch (c : build) : fundef := mk_fun "dvbcsa_bs_block_decrypt_batch" (TVoid) [("key", TPtr (TStruct "dvbcsa_bs_key_s")); ("pkt_buf", TPtr (TStruct "dvbcsa_bs_pkt_buf")); ("maxlen", TInt U32)] [
    SDecl (TInt U32) "i" None;
    SFor (Some (EAssign (EVar "i") (EConst I32 0))) (EBin Lt (EVar "i") (EVar "maxlen")) (Some (EOpAssign Add (EVar "i") (EConst I32 8)))
      (SBlock [
        SExpr (ECall "dvbcsa_bs_block_decrypt_block" [(EVar "key"); (EVar "pkt_buf"); (EVar "i")])])].

Definition bs_block_encrypt_register_1 (c : build) : fundef := mk_fun "dvbcsa_bs_block_encrypt_register" (TVoid) [("block", TPtr (TWord)); ("r", TPtr (TWord))] [
    SDecl (TArr (TWord) 8) "scratch1" None;
    SDecl (TArr (TWord) 8) "scratch2" None;
    SDecl (TInt I32) "i" None;
    SDecl (TInt I32) "g" None;
    SFor (Some (EAssign (EVar "i") (EConst I32 0))) (EBin Lt (EVar "i") (EConst I32 0x38)) (Some (EPost Add (EVar "i")))
      (SBlock [
        SDecl (TPtr (TWord)) "r7_N" (Some (EBin Add (EVar "r") (EBin Mul (EConst I32 8) (EConst I32 7))));
        SExpr (EOpAssign Add (EVar "r") (EConst I32 8));
        SFor (Some (EAssign (EVar "g") (EConst I32 0))) (EBin Lt (EVar "g") (EConst I32 8)) (Some (EPost Add (EVar "g")))
          (SBlock [
            SExpr (EAssign (EIndex (EVar "scratch1") (EVar "g")) (EWop WXor (EIndex (EVar "block") (EVar "i")) (EIndex (EVar "r7_N") (EVar "g"))))]);
        SBlock [
          SDecl (TPtr (TInt U32)) "src" (Some (ECast (TPtr (TInt U32)) (EVar "scratch1")));
          SDecl (TPtr (TInt U8)) "dst" (Some (ECast (TPtr (TInt U8)) (EVar "scratch2")));
          SDecl (TInt U32) "a" None;
          SDecl (TInt U32) "b" None;
          SDecl (TInt U32) "c" None;
          SDecl (TInt U32) "d" None;
          SDecl (TInt U32) "s" None;
          SDecl (TInt I32) "j" None;
          SExpr (EAssign (EVar "s") (EDeref (EVar "src")));
          SFor (Some (EAssign (EVar "j") (EConst I32 0))) (EBin Lt (EVar "j") (EBin Sub (EBin Mul (EBin Div (EConst I32 (N.of_nat (word_bytes c))) (EConst I32 4)) (EConst I32 8)) (EConst I32 1))) None
            (SBlock [
              SExpr (EPost Add (EVar "j"));
              SExpr (EAssign (EVar "a") (EBin And (EBin Shr (EVar "s") (EConst I32 0x18)) (EConst I32 0xff)));
              SExpr (EAssign (EVar "b") (EBin And (EBin Shr (EVar "s") (EConst I32 0x10)) (EConst I32 0xff)));
              SExpr (EAssign (EVar "c") (EBin And (EBin Shr (EVar "s") (EConst I32 8)) (EConst I32 0xff)));
              SExpr (EAssign (EVar "d") (EBin And (EVar "s") (EConst I32 0xff)));
              SExpr (EAssign (EVar "s") (EIndex (EVar "src") (EVar "j")));
              SExpr (EAssign (EIndex (EVar "dst") (EConst I32 0)) (EIndex (EVar "dvbcsa_block_sbox") (EVar "a")));
              SExpr (EAssign (EIndex (EVar "dst") (EConst I32 1)) (EIndex (EVar "dvbcsa_block_sbox") (EVar "b")));
              SExpr (EAssign (EIndex (EVar "dst") (EConst I32 2)) (EIndex (EVar "dvbcsa_block_sbox") (EVar "c")));
              SExpr (EAssign (EIndex (EVar "dst") (EConst I32 3)) (EIndex (EVar "dvbcsa_block_sbox") (EVar "d")));
              SExpr (EOpAssign Add (EVar "dst") (EConst I32 4))]);
          SExpr (EAssign (EVar "a") (EBin And (EBin Shr (EVar "s") (EConst I32 0x18)) (EConst I32 0xff)));
          SExpr (EAssign (EVar "b") (EBin And (EBin Shr (EVar "s") (EConst I32 0x10)) (EConst I32 0xff)));
          SExpr (EAssign (EVar "c") (EBin And (EBin Shr (EVar "s") (EConst I32 8)) (EConst I32 0xff)));
          SExpr (EAssign (EVar "d") (EBin And (EVar "s") (EConst I32 0xff)));
          SExpr (EAssign (EIndex (EVar "dst") (EConst I32 0)) (EIndex (EVar "dvbcsa_block_sbox") (EVar "a")));
          SExpr (EAssign (EIndex (EVar "dst") (EConst I32 1)) (EIndex (EVar "dvbcsa_block_sbox") (EVar "b")));
          SExpr (EAssign (EIndex (EVar "dst") (EConst I32 2)) (EIndex (EVar "dvbcsa_block_sbox") (EVar "c")));
          SExpr (EAssign (EIndex (EVar "dst") (EConst I32 3)) (EIndex (EVar "dvbcsa_block_sbox") (EVar "d")))];
        SFor (Some (EAssign (EVar "g") (EConst I32 0))) (EBin Lt (EVar "g") (EConst I32 8)) (Some (EPost Add (EVar "g")))
          (SBlock [
            SDecl (TWord) "sbox_out" None;
            SDecl (TWord) "perm_out" None;
            SDecl (TWord) "w" None;
            SDecl (TWord) "tmp1" None;
            SDecl (TWord) "tmp2" None;
            SDecl (TWord) "tmp3" None;
            SDecl (TWord) "tmp4" None;
            SExpr (EAssign (EVar "sbox_out") (EIndex (EVar "scratch2") (EVar "g")));
            SBlock [
              SExpr (EAssign (EVar "perm_out") (EWop WOr (EWop WOr (EWop WOr (EWShl (EWop WAnd (EVar "sbox_out") (EWVal 1 0x29)) (EConst I32 1)) (EWShl (EWop WAnd (EVar "sbox_out") (EWVal 1 0x2)) (EConst I32 6))) (EWop WOr (EWShl (EWop WAnd (EVar "sbox_out") (EWVal 1 0x4)) (EConst I32 3)) (EWShr (EWop WAnd (EVar "sbox_out") (EWVal 1 0x10)) (EConst I32 2)))) (EWop WOr (EWShr (EWop WAnd (EVar "sbox_out") (EWVal 1 0x40)) (EConst I32 6)) (EWShr (EWop WAnd (EVar "sbox_out") (EWVal 1 0x80)) (EConst I32 4)))))];
            SExpr (EAssign (EVar "w") (EIndex (EVar "r") (EBin Add (EBin Mul (EUn Neg (EConst I32 8)) (EConst I32 1)) (EVar "g"))));
            SExpr (EAssign (EVar "tmp1") (EIndex (EVar "r") (EBin Add (EBin Mul (EConst I32 8) (EConst I32 1)) (EVar "g"))));
            SExpr (EAssign (EVar "tmp2") (EIndex (EVar "r") (EBin Add (EBin Mul (EConst I32 8) (EConst I32 2)) (EVar "g"))));
            SExpr (EAssign (EVar "tmp3") (EIndex (EVar "r") (EBin Add (EBin Mul (EConst I32 8) (EConst I32 3)) (EVar "g"))));
            SExpr (EAssign (EVar "sbox_out") (EWop WXor (EVar "sbox_out") (EVar "w")));
            SExpr (EAssign (EVar "tmp4") (EIndex (EVar "r") (EBin Add (EBin Mul (EConst I32 8) (EConst I32 5)) (EVar "g"))));
            SExpr (EAssign (EVar "tmp1") (EWop WXor (EVar "tmp1") (EVar "w")));
            SExpr (EAssign (EVar "tmp2") (EWop WXor (EVar "tmp2") (EVar "w")));
            SExpr (EAssign (EVar "tmp3") (EWop WXor (EVar "tmp3") (EVar "w")));
            SExpr (EAssign (EIndex (EVar "r") (EBin Add (EBin Mul (EConst I32 8) (EConst I32 7)) (EVar "g"))) (EVar "sbox_out"));
            SExpr (EAssign (EIndex (EVar "r") (EBin Add (EBin Mul (EConst I32 8) (EConst I32 1)) (EVar "g"))) (EVar "tmp1"));
            SExpr (EAssign (EVar "tmp4") (EWop WXor (EVar "tmp4") (EVar "perm_out")));
            SExpr (EAssign (EIndex (EVar "r") (EBin Add (EBin Mul (EConst I32 8) (EConst I32 2)) (EVar "g"))) (EVar "tmp2"));
            SExpr (EAssign (EIndex (EVar "r") (EBin Add (EBin Mul (EConst I32 8) (EConst I32 3)) (EVar "g"))) (EVar "tmp3"));
            SExpr (EAssign (EIndex (EVar "r") (EBin Add (EBin Mul (EConst I32 8) (EConst I32 5)) (EVar "g"))) (EVar "tmp4"))])])].

Definition bs_block_encrypt_register_2 (c : build) : fundef := mk_fun "dvbcsa_bs_block_encrypt_register" (TVoid) [("block", TPtr (TWord)); ("r", TPtr (TWord))] [
    SDecl (TArr (TWord) 8) "scratch1" None;
    SDecl (TArr (TWord) 8) "scratch2" None;
    SDecl (TInt I32) "i" None;
    SDecl (TInt I32) "g" None;
    SFor (Some (EAssign (EVar "i") (EConst I32 0))) (EBin Lt (EVar "i") (EConst I32 0x38)) (Some (EPost Add (EVar "i")))
      (SBlock [
        SDecl (TPtr (TWord)) "r7_N" (Some (EBin Add (EVar "r") (EBin Mul (EConst I32 8) (EConst I32 7))));
        SExpr (EOpAssign Add (EVar "r") (EConst I32 8));
        SFor (Some (EAssign (EVar "g") (EConst I32 0))) (EBin Lt (EVar "g") (EConst I32 8)) (Some (EPost Add (EVar "g")))
          (SBlock [
            SExpr (EAssign (EIndex (EVar "scratch1") (EVar "g")) (EWop WXor (EIndex (EVar "block") (EVar "i")) (EIndex (EVar "r7_N") (EVar "g"))))]);
        SBlock [
          SDecl (TPtr (TInt U8)) "src" (Some (ECast (TPtr (TInt U8)) (EVar "scratch1")));
          SDecl (TPtr (TInt U8)) "dst" (Some (ECast (TPtr (TInt U8)) (EVar "scratch2")));
          SDecl (TInt U8) "a" None;
          SDecl (TInt U8) "b" None;
          SDecl (TInt U8) "c" None;
          SDecl (TInt U8) "d" None;
          SDecl (TInt I32) "j" None;
          SFor (Some (EAssign (EVar "j") (EConst I32 0))) (EBin Lt (EVar "j") (EBin Mul (EConst I32 (N.of_nat (word_bytes c))) (EConst I32 8))) (Some (EOpAssign Add (EVar "j") (EConst I32 4)))
            (SBlock [
              SExpr (EAssign (EVar "a") (EIndex (EVar "src") (EBin Add (EVar "j") (EConst I32 0))));
              SExpr (EAssign (EVar "b") (EIndex (EVar "src") (EBin Add (EVar "j") (EConst I32 1))));
              SExpr (EAssign (EVar "c") (EIndex (EVar "src") (EBin Add (EVar "j") (EConst I32 2))));
              SExpr (EAssign (EVar "d") (EIndex (EVar "src") (EBin Add (EVar "j") (EConst I32 3))));
              SExpr (EAssign (EIndex (EVar "dst") (EBin Add (EVar "j") (EConst I32 0))) (EIndex (EVar "dvbcsa_block_sbox") (EVar "a")));
              SExpr (EAssign (EIndex (EVar "dst") (EBin Add (EVar "j") (EConst I32 1))) (EIndex (EVar "dvbcsa_block_sbox") (EVar "b")));
              SExpr (EAssign (EIndex (EVar "dst") (EBin Add (EVar "j") (EConst I32 2))) (EIndex (EVar "dvbcsa_block_sbox") (EVar "c")));
              SExpr (EAssign (EIndex (EVar "dst") (EBin Add (EVar "j") (EConst I32 3))) (EIndex (EVar "dvbcsa_block_sbox") (EVar "d")))])];
        SFor (Some (EAssign (EVar "g") (EConst I32 0))) (EBin Lt (EVar "g") (EConst I32 8)) (Some (EPost Add (EVar "g")))
          (SBlock [
            SDecl (TWord) "sbox_out" None;
            SDecl (TWord) "perm_out" None;
            SDecl (TWord) "w" None;
            SDecl (TWord) "tmp1" None;
            SDecl (TWord) "tmp2" None;
            SDecl (TWord) "tmp3" None;
            SDecl (TWord) "tmp4" None;
            SExpr (EAssign (EVar "sbox_out") (EIndex (EVar "scratch2") (EVar "g")));
            SBlock [
              SExpr (EAssign (EVar "perm_out") (EWop WOr (EWop WOr (EWop WOr (EWShl (EWop WAnd (EVar "sbox_out") (EWVal 1 0x29)) (EConst I32 1)) (EWShl (EWop WAnd (EVar "sbox_out") (EWVal 1 0x2)) (EConst I32 6))) (EWop WOr (EWShl (EWop WAnd (EVar "sbox_out") (EWVal 1 0x4)) (EConst I32 3)) (EWShr (EWop WAnd (EVar "sbox_out") (EWVal 1 0x10)) (EConst I32 2)))) (EWop WOr (EWShr (EWop WAnd (EVar "sbox_out") (EWVal 1 0x40)) (EConst I32 6)) (EWShr (EWop WAnd (EVar "sbox_out") (EWVal 1 0x80)) (EConst I32 4)))))];
            SExpr (EAssign (EVar "w") (EIndex (EVar "r") (EBin Add (EBin Mul (EUn Neg (EConst I32 8)) (EConst I32 1)) (EVar "g"))));
            SExpr (EAssign (EVar "tmp1") (EIndex (EVar "r") (EBin Add (EBin Mul (EConst I32 8) (EConst I32 1)) (EVar "g"))));
            SExpr (EAssign (EVar "tmp2") (EIndex (EVar "r") (EBin Add (EBin Mul (EConst I32 8) (EConst I32 2)) (EVar "g"))));
            SExpr (EAssign (EVar "tmp3") (EIndex (EVar "r") (EBin Add (EBin Mul (EConst I32 8) (EConst I32 3)) (EVar "g"))));
            SExpr (EAssign (EVar "sbox_out") (EWop WXor (EVar "sbox_out") (EVar "w")));
            SExpr (EAssign (EVar "tmp4") (EIndex (EVar "r") (EBin Add (EBin Mul (EConst I32 8) (EConst I32 5)) (EVar "g"))));
            SExpr (EAssign (EVar "tmp1") (EWop WXor (EVar "tmp1") (EVar "w")));
            SExpr (EAssign (EVar "tmp2") (EWop WXor (EVar "tmp2") (EVar "w")));
            SExpr (EAssign (EVar "tmp3") (EWop WXor (EVar "tmp3") (EVar "w")));
            SExpr (EAssign (EIndex (EVar "r") (EBin Add (EBin Mul (EConst I32 8) (EConst I32 7)) (EVar "g"))) (EVar "sbox_out"));
            SExpr (EAssign (EIndex (EVar "r") (EBin Add (EBin Mul (EConst I32 8) (EConst I32 1)) (EVar "g"))) (EVar "tmp1"));
            SExpr (EAssign (EVar "tmp4") (EWop WXor (EVar "tmp4") (EVar "perm_out")));
            SExpr (EAssign (EIndex (EVar "r") (EBin Add (EBin Mul (EConst I32 8) (EConst I32 2)) (EVar "g"))) (EVar "tmp2"));
            SExpr (EAssign (EIndex (EVar "r") (EBin Add (EBin Mul (EConst I32 8) (EConst I32 3)) (EVar "g"))) (EVar "tmp3"));
            SExpr (EAssign (EIndex (EVar "r") (EBin Add (EBin Mul (EConst I32 8) (EConst I32 5)) (EVar "g"))) (EVar "tmp4"))])])].

Definition bs_block_encrypt_register_3 (c : build) : fundef := mk_fun "dvbcsa_bs_block_encrypt_register" (TVoid) [("block", TPtr (TWord)); ("r", TPtr (TWord))] [
    SDecl (TArr (TWord) 8) "scratch1" None;
    SDecl (TArr (TWord) 8) "scratch2" None;
    SDecl (TInt I32) "i" None;
    SDecl (TInt I32) "g" None;
    SFor (Some (EAssign (EVar "i") (EConst I32 0))) (EBin Lt (EVar "i") (EConst I32 0x38)) (Some (EPost Add (EVar "i")))
      (SBlock [
        SDecl (TPtr (TWord)) "r7_N" (Some (EBin Add (EVar "r") (EBin Mul (EConst I32 8) (EConst I32 7))));
        SExpr (EOpAssign Add (EVar "r") (EConst I32 8));
        SFor (Some (EAssign (EVar "g") (EConst I32 0))) (EBin Lt (EVar "g") (EConst I32 8)) (Some (EPost Add (EVar "g")))
          (SBlock [
            SExpr (EAssign (EIndex (EVar "scratch1") (EVar "g")) (EWop WXor (EIndex (EVar "block") (EVar "i")) (EIndex (EVar "r7_N") (EVar "g"))))]);
        SBlock [
          SDecl (TPtr (TInt U32)) "src" (Some (ECast (TPtr (TInt U32)) (EVar "scratch1")));
          SDecl (TPtr (TInt U8)) "dst" (Some (ECast (TPtr (TInt U8)) (EVar "scratch2")));
          SDecl (TInt U32) "a" None;
          SDecl (TInt U32) "b" None;
          SDecl (TInt U32) "c" None;
          SDecl (TInt U32) "d" None;
          SDecl (TInt U32) "s" None;
          SDecl (TInt I32) "j" None;
          SExpr (EAssign (EVar "s") (EDeref (EVar "src")));
          SFor (Some (EAssign (EVar "j") (EConst I32 0))) (EBin Lt (EVar "j") (EBin Sub (EBin Mul (EBin Div (EConst I32 (N.of_nat (word_bytes c))) (EConst I32 4)) (EConst I32 8)) (EConst I32 1))) None
            (SBlock [
              SExpr (EPost Add (EVar "j"));
              SExpr (EAssign (EVar "a") (EBin And (EVar "s") (EConst I32 0xff)));
              SExpr (EAssign (EVar "b") (EBin And (EBin Shr (EVar "s") (EConst I32 8)) (EConst I32 0xff)));
              SExpr (EAssign (EVar "c") (EBin And (EBin Shr (EVar "s") (EConst I32 0x10)) (EConst I32 0xff)));
              SExpr (EAssign (EVar "d") (EBin And (EBin Shr (EVar "s") (EConst I32 0x18)) (EConst I32 0xff)));
              SExpr (EAssign (EVar "s") (EIndex (EVar "src") (EVar "j")));
              SExpr (EAssign (EIndex (EVar "dst") (EConst I32 0)) (EIndex (EVar "dvbcsa_block_sbox") (EVar "a")));
              SExpr (EAssign (EIndex (EVar "dst") (EConst I32 1)) (EIndex (EVar "dvbcsa_block_sbox") (EVar "b")));
              SExpr (EAssign (EIndex (EVar "dst") (EConst I32 2)) (EIndex (EVar "dvbcsa_block_sbox") (EVar "c")));
              SExpr (EAssign (EIndex (EVar "dst") (EConst I32 3)) (EIndex (EVar "dvbcsa_block_sbox") (EVar "d")));
              SExpr (EOpAssign Add (EVar "dst") (EConst I32 4))]);
          SExpr (EAssign (EVar "a") (EBin And (EVar "s") (EConst I32 0xff)));
          SExpr (EAssign (EVar "b") (EBin And (EBin Shr (EVar "s") (EConst I32 8)) (EConst I32 0xff)));
          SExpr (EAssign (EVar "c") (EBin And (EBin Shr (EVar "s") (EConst I32 0x10)) (EConst I32 0xff)));
          SExpr (EAssign (EVar "d") (EBin And (EBin Shr (EVar "s") (EConst I32 0x18)) (EConst I32 0xff)));
          SExpr (EAssign (EIndex (EVar "dst") (EConst I32 0)) (EIndex (EVar "dvbcsa_block_sbox") (EVar "a")));
          SExpr (EAssign (EIndex (EVar "dst") (EConst I32 1)) (EIndex (EVar "dvbcsa_block_sbox") (EVar "b")));
          SExpr (EAssign (EIndex (EVar "dst") (EConst I32 2)) (EIndex (EVar "dvbcsa_block_sbox") (EVar "c")));
          SExpr (EAssign (EIndex (EVar "dst") (EConst I32 3)) (EIndex (EVar "dvbcsa_block_sbox") (EVar "d")))];
        SFor (Some (EAssign (EVar "g") (EConst I32 0))) (EBin Lt (EVar "g") (EConst I32 8)) (Some (EPost Add (EVar "g")))
          (SBlock [
            SDecl (TWord) "sbox_out" None;
            SDecl (TWord) "perm_out" None;
            SDecl (TWord) "w" None;
            SDecl (TWord) "tmp1" None;
            SDecl (TWord) "tmp2" None;
            SDecl (TWord) "tmp3" None;
            SDecl (TWord) "tmp4" None;
            SExpr (EAssign (EVar "sbox_out") (EIndex (EVar "scratch2") (EVar "g")));
            SBlock [
              SExpr (EAssign (EVar "perm_out") (EWop WOr (EWop WOr (EWop WOr (EWShl (EWop WAnd (EVar "sbox_out") (EWVal 1 0x29)) (EConst I32 1)) (EWShl (EWop WAnd (EVar "sbox_out") (EWVal 1 0x2)) (EConst I32 6))) (EWop WOr (EWShl (EWop WAnd (EVar "sbox_out") (EWVal 1 0x4)) (EConst I32 3)) (EWShr (EWop WAnd (EVar "sbox_out") (EWVal 1 0x10)) (EConst I32 2)))) (EWop WOr (EWShr (EWop WAnd (EVar "sbox_out") (EWVal 1 0x40)) (EConst I32 6)) (EWShr (EWop WAnd (EVar "sbox_out") (EWVal 1 0x80)) (EConst I32 4)))))];
            SExpr (EAssign (EVar "w") (EIndex (EVar "r") (EBin Add (EBin Mul (EUn Neg (EConst I32 8)) (EConst I32 1)) (EVar "g"))));
            SExpr (EAssign (EVar "tmp1") (EIndex (EVar "r") (EBin Add (EBin Mul (EConst I32 8) (EConst I32 1)) (EVar "g"))));
            SExpr (EAssign (EVar "tmp2") (EIndex (EVar "r") (EBin Add (EBin Mul (EConst I32 8) (EConst I32 2)) (EVar "g"))));
            SExpr (EAssign (EVar "tmp3") (EIndex (EVar "r") (EBin Add (EBin Mul (EConst I32 8) (EConst I32 3)) (EVar "g"))));
            SExpr (EAssign (EVar "sbox_out") (EWop WXor (EVar "sbox_out") (EVar "w")));
            SExpr (EAssign (EVar "tmp4") (EIndex (EVar "r") (EBin Add (EBin Mul (EConst I32 8) (EConst I32 5)) (EVar "g"))));
            SExpr (EAssign (EVar "tmp1") (EWop WXor (EVar "tmp1") (EVar "w")));
            SExpr (EAssign (EVar "tmp2") (EWop WXor (EVar "tmp2") (EVar "w")));
            SExpr (EAssign (EVar "tmp3") (EWop WXor (EVar "tmp3") (EVar "w")));
            SExpr (EAssign (EIndex (EVar "r") (EBin Add (EBin Mul (EConst I32 8) (EConst I32 7)) (EVar "g"))) (EVar "sbox_out"));
            SExpr (EAssign (EIndex (EVar "r") (EBin Add (EBin Mul (EConst I32 8) (EConst I32 1)) (EVar "g"))) (EVar "tmp1"));
            SExpr (EAssign (EVar "tmp4") (EWop WXor (EVar "tmp4") (EVar "perm_out")));
            SExpr (EAssign (EIndex (EVar "r") (EBin Add (EBin Mul (EConst I32 8) (EConst I32 2)) (EVar "g"))) (EVar "tmp2"));
            SExpr (EAssign (EIndex (EVar "r") (EBin Add (EBin Mul (EConst I32 8) (EConst I32 3)) (EVar "g"))) (EVar "tmp3"));
            SExpr (EAssign (EIndex (EVar "r") (EBin Add (EBin Mul (EConst I32 8) (EConst I32 5)) (EVar "g"))) (EVar "tmp4"))])])].

Definition bs_block_encrypt_register_4 (c : build) : fundef := mk_fun "dvbcsa_bs_block_encrypt_register" (TVoid) [("block", TPtr (TWord)); ("r", TPtr (TWord))] [
    SDecl (TArr (TWord) 8) "scratch1" None;
    SDecl (TArr (TWord) 16) "scratch2" None;
    SDecl (TInt I32) "i" None;
    SDecl (TInt I32) "g" None;
    SFor (Some (EAssign (EVar "i") (EConst I32 0))) (EBin Lt (EVar "i") (EConst I32 0x38)) (Some (EPost Add (EVar "i")))
      (SBlock [
        SDecl (TPtr (TWord)) "r7_N" (Some (EBin Add (EVar "r") (EBin Mul (EConst I32 8) (EConst I32 7))));
        SExpr (EOpAssign Add (EVar "r") (EConst I32 8));
        SFor (Some (EAssign (EVar "g") (EConst I32 0))) (EBin Lt (EVar "g") (EConst I32 8)) (Some (EPost Add (EVar "g")))
          (SBlock [
            SExpr (EAssign (EIndex (EVar "scratch1") (EVar "g")) (EWop WXor (EIndex (EVar "block") (EVar "i")) (EIndex (EVar "r7_N") (EVar "g"))))]);
        SBlock [
          SDecl (TPtr (TInt U32)) "src" (Some (ECast (TPtr (TInt U32)) (EVar "scratch1")));
          SDecl (TPtr (TInt U16)) "dst" (Some (ECast (TPtr (TInt U16)) (EVar "scratch2")));
          SDecl (TInt U32) "a" None;
          SDecl (TInt U32) "b" None;
          SDecl (TInt U32) "c" None;
          SDecl (TInt U32) "d" None;
          SDecl (TInt U32) "s" None;
          SDecl (TInt I32) "j" None;
          SExpr (EAssign (EVar "s") (EDeref (EVar "src")));
          SFor (Some (EAssign (EVar "j") (EConst I32 0))) (EBin Lt (EVar "j") (EBin Sub (EBin Mul (EBin Div (EConst I32 (N.of_nat (word_bytes c))) (EConst I32 4)) (EConst I32 8)) (EConst I32 1))) None
            (SBlock [
              SExpr (EPost Add (EVar "j"));
              SExpr (EAssign (EVar "a") (EBin And (EBin Shr (EVar "s") (EConst I32 0x18)) (EConst I32 0xff)));
              SExpr (EAssign (EVar "b") (EBin And (EBin Shr (EVar "s") (EConst I32 0x10)) (EConst I32 0xff)));
              SExpr (EAssign (EVar "c") (EBin And (EBin Shr (EVar "s") (EConst I32 8)) (EConst I32 0xff)));
              SExpr (EAssign (EVar "d") (EBin And (EVar "s") (EConst I32 0xff)));
              SExpr (EAssign (EVar "s") (EIndex (EVar "src") (EVar "j")));
              SExpr (EAssign (EIndex (EVar "dst") (EConst I32 0)) (EIndex (EVar "dvbcsa_block_sbox_perm") (EVar "a")));
              SExpr (EAssign (EIndex (EVar "dst") (EConst I32 1)) (EIndex (EVar "dvbcsa_block_sbox_perm") (EVar "b")));
              SExpr (EAssign (EIndex (EVar "dst") (EConst I32 2)) (EIndex (EVar "dvbcsa_block_sbox_perm") (EVar "c")));
              SExpr (EAssign (EIndex (EVar "dst") (EConst I32 3)) (EIndex (EVar "dvbcsa_block_sbox_perm") (EVar "d")));
              SExpr (EOpAssign Add (EVar "dst") (EConst I32 4))]);
          SExpr (EAssign (EVar "a") (EBin And (EBin Shr (EVar "s") (EConst I32 0x18)) (EConst I32 0xff)));
          SExpr (EAssign (EVar "b") (EBin And (EBin Shr (EVar "s") (EConst I32 0x10)) (EConst I32 0xff)));
          SExpr (EAssign (EVar "c") (EBin And (EBin Shr (EVar "s") (EConst I32 8)) (EConst I32 0xff)));
          SExpr (EAssign (EVar "d") (EBin And (EVar "s") (EConst I32 0xff)));
          SExpr (EAssign (EIndex (EVar "dst") (EConst I32 0)) (EIndex (EVar "dvbcsa_block_sbox_perm") (EVar "a")));
          SExpr (EAssign (EIndex (EVar "dst") (EConst I32 1)) (EIndex (EVar "dvbcsa_block_sbox_perm") (EVar "b")));
          SExpr (EAssign (EIndex (EVar "dst") (EConst I32 2)) (EIndex (EVar "dvbcsa_block_sbox_perm") (EVar "c")));
          SExpr (EAssign (EIndex (EVar "dst") (EConst I32 3)) (EIndex (EVar "dvbcsa_block_sbox_perm") (EVar "d")))];
        SFor (Some (EAssign (EVar "g") (EConst I32 0))) (EBin Lt (EVar "g") (EConst I32 8)) (Some (EPost Add (EVar "g")))
          (SBlock [
            SDecl (TWord) "sbox_out" None;
            SDecl (TWord) "perm_out" None;
            SDecl (TWord) "w" None;
            SDecl (TWord) "tmp1" None;
            SDecl (TWord) "tmp2" None;
            SDecl (TWord) "tmp3" None;
            SDecl (TWord) "tmp4" None;
            SDeint (EBin Add (EVar "scratch2") (EBin Mul (EVar "g") (EConst I32 2))) (EVar "sbox_out") (EVar "perm_out");
            SExpr (EAssign (EVar "w") (EIndex (EVar "r") (EBin Add (EBin Mul (EUn Neg (EConst I32 8)) (EConst I32 1)) (EVar "g"))));
            SExpr (EAssign (EVar "tmp1") (EIndex (EVar "r") (EBin Add (EBin Mul (EConst I32 8) (EConst I32 1)) (EVar "g"))));
            SExpr (EAssign (EVar "tmp2") (EIndex (EVar "r") (EBin Add (EBin Mul (EConst I32 8) (EConst I32 2)) (EVar "g"))));
            SExpr (EAssign (EVar "tmp3") (EIndex (EVar "r") (EBin Add (EBin Mul (EConst I32 8) (EConst I32 3)) (EVar "g"))));
            SExpr (EAssign (EVar "sbox_out") (EWop WXor (EVar "sbox_out") (EVar "w")));
            SExpr (EAssign (EVar "tmp4") (EIndex (EVar "r") (EBin Add (EBin Mul (EConst I32 8) (EConst I32 5)) (EVar "g"))));
            SExpr (EAssign (EVar "tmp1") (EWop WXor (EVar "tmp1") (EVar "w")));
            SExpr (EAssign (EVar "tmp2") (EWop WXor (EVar "tmp2") (EVar "w")));
            SExpr (EAssign (EVar "tmp3") (EWop WXor (EVar "tmp3") (EVar "w")));
            SExpr (EAssign (EIndex (EVar "r") (EBin Add (EBin Mul (EConst I32 8) (EConst I32 7)) (EVar "g"))) (EVar "sbox_out"));
            SExpr (EAssign (EIndex (EVar "r") (EBin Add (EBin Mul (EConst I32 8) (EConst I32 1)) (EVar "g"))) (EVar "tmp1"));
            SExpr (EAssign (EVar "tmp4") (EWop WXor (EVar "tmp4") (EVar "perm_out")));
            SExpr (EAssign (EIndex (EVar "r") (EBin Add (EBin Mul (EConst I32 8) (EConst I32 2)) (EVar "g"))) (EVar "tmp2"));
            SExpr (EAssign (EIndex (EVar "r") (EBin Add (EBin Mul (EConst I32 8) (EConst I32 3)) (EVar "g"))) (EVar "tmp3"));
            SExpr (EAssign (EIndex (EVar "r") (EBin Add (EBin Mul (EConst I32 8) (EConst I32 5)) (EVar "g"))) (EVar "tmp4"))])])].

Definition bs_block_encrypt_register_5 (c : build) : fundef := mk_fun "dvbcsa_bs_block_encrypt_register" (TVoid) [("block", TPtr (TWord)); ("r", TPtr (TWord))] [
    SDecl (TArr (TWord) 8) "scratch1" None;
    SDecl (TArr (TWord) 16) "scratch2" None;
    SDecl (TInt I32) "i" None;
    SDecl (TInt I32) "g" None;
    SFor (Some (EAssign (EVar "i") (EConst I32 0))) (EBin Lt (EVar "i") (EConst I32 0x38)) (Some (EPost Add (EVar "i")))
      (SBlock [
        SDecl (TPtr (TWord)) "r7_N" (Some (EBin Add (EVar "r") (EBin Mul (EConst I32 8) (EConst I32 7))));
        SExpr (EOpAssign Add (EVar "r") (EConst I32 8));
        SFor (Some (EAssign (EVar "g") (EConst I32 0))) (EBin Lt (EVar "g") (EConst I32 8)) (Some (EPost Add (EVar "g")))
          (SBlock [
            SExpr (EAssign (EIndex (EVar "scratch1") (EVar "g")) (EWop WXor (EIndex (EVar "block") (EVar "i")) (EIndex (EVar "r7_N") (EVar "g"))))]);
        SBlock [
          SDecl (TPtr (TInt U8)) "src" (Some (ECast (TPtr (TInt U8)) (EVar "scratch1")));
          SDecl (TPtr (TInt U16)) "dst" (Some (ECast (TPtr (TInt U16)) (EVar "scratch2")));
          SDecl (TInt U8) "a" None;
          SDecl (TInt U8) "b" None;
          SDecl (TInt U8) "c" None;
          SDecl (TInt U8) "d" None;
          SDecl (TInt I32) "j" None;
          SFor (Some (EAssign (EVar "j") (EConst I32 0))) (EBin Lt (EVar "j") (EBin Mul (EConst I32 (N.of_nat (word_bytes c))) (EConst I32 8))) (Some (EOpAssign Add (EVar "j") (EConst I32 4)))
            (SBlock [
              SExpr (EAssign (EVar "a") (EIndex (EVar "src") (EBin Add (EVar "j") (EConst I32 0))));
              SExpr (EAssign (EVar "b") (EIndex (EVar "src") (EBin Add (EVar "j") (EConst I32 1))));
              SExpr (EAssign (EVar "c") (EIndex (EVar "src") (EBin Add (EVar "j") (EConst I32 2))));
              SExpr (EAssign (EVar "d") (EIndex (EVar "src") (EBin Add (EVar "j") (EConst I32 3))));
              SExpr (EAssign (EIndex (EVar "dst") (EBin Add (EVar "j") (EConst I32 0))) (EIndex (EVar "dvbcsa_block_sbox_perm") (EVar "a")));
              SExpr (EAssign (EIndex (EVar "dst") (EBin Add (EVar "j") (EConst I32 1))) (EIndex (EVar "dvbcsa_block_sbox_perm") (EVar "b")));
              SExpr (EAssign (EIndex (EVar "dst") (EBin Add (EVar "j") (EConst I32 2))) (EIndex (EVar "dvbcsa_block_sbox_perm") (EVar "c")));
              SExpr (EAssign (EIndex (EVar "dst") (EBin Add (EVar "j") (EConst I32 3))) (EIndex (EVar "dvbcsa_block_sbox_perm") (EVar "d")))])];
        SFor (Some (EAssign (EVar "g") (EConst I32 0))) (EBin Lt (EVar "g") (EConst I32 8)) (Some (EPost Add (EVar "g")))
          (SBlock [
            SDecl (TWord) "sbox_out" None;
            SDecl (TWord) "perm_out" None;
            SDecl (TWord) "w" None;
            SDecl (TWord) "tmp1" None;
            SDecl (TWord) "tmp2" None;
            SDecl (TWord) "tmp3" None;
            SDecl (TWord) "tmp4" None;
            SDeint (EBin Add (EVar "scratch2") (EBin Mul (EVar "g") (EConst I32 2))) (EVar "sbox_out") (EVar "perm_out");
            SExpr (EAssign (EVar "w") (EIndex (EVar "r") (EBin Add (EBin Mul (EUn Neg (EConst I32 8)) (EConst I32 1)) (EVar "g"))));
            SExpr (EAssign (EVar "tmp1") (EIndex (EVar "r") (EBin Add (EBin Mul (EConst I32 8) (EConst I32 1)) (EVar "g"))));
            SExpr (EAssign (EVar "tmp2") (EIndex (EVar "r") (EBin Add (EBin Mul (EConst I32 8) (EConst I32 2)) (EVar "g"))));
            SExpr (EAssign (EVar "tmp3") (EIndex (EVar "r") (EBin Add (EBin Mul (EConst I32 8) (EConst I32 3)) (EVar "g"))));
            SExpr (EAssign (EVar "sbox_out") (EWop WXor (EVar "sbox_out") (EVar "w")));
            SExpr (EAssign (EVar "tmp4") (EIndex (EVar "r") (EBin Add (EBin Mul (EConst I32 8) (EConst I32 5)) (EVar "g"))));
            SExpr (EAssign (EVar "tmp1") (EWop WXor (EVar "tmp1") (EVar "w")));
            SExpr (EAssign (EVar "tmp2") (EWop WXor (EVar "tmp2") (EVar "w")));
            SExpr (EAssign (EVar "tmp3") (EWop WXor (EVar "tmp3") (EVar "w")));
            SExpr (EAssign (EIndex (EVar "r") (EBin Add (EBin Mul (EConst I32 8) (EConst I32 7)) (EVar "g"))) (EVar "sbox_out"));
            SExpr (EAssign (EIndex (EVar "r") (EBin Add (EBin Mul (EConst I32 8) (EConst I32 1)) (EVar "g"))) (EVar "tmp1"));
            SExpr (EAssign (EVar "tmp4") (EWop WXor (EVar "tmp4") (EVar "perm_out")));
            SExpr (EAssign (EIndex (EVar "r") (EBin Add (EBin Mul (EConst I32 8) (EConst I32 2)) (EVar "g"))) (EVar "tmp2"));
            SExpr (EAssign (EIndex (EVar "r") (EBin Add (EBin Mul (EConst I32 8) (EConst I32 3)) (EVar "g"))) (EVar "tmp3"));
            SExpr (EAssign (EIndex (EVar "r") (EBin Add (EBin Mul (EConst I32 8) (EConst I32 5)) (EVar "g"))) (EVar "tmp4"))])])].

Definition bs_block_encrypt_register_6 (c : build) : fundef := mk_fun "dvbcsa_bs_block_encrypt_register" (TVoid) [("block", TPtr (TWord)); ("r", TPtr (TWord))] [
    SDecl (TArr (TWord) 8) "scratch1" None;
    SDecl (TArr (TWord) 16) "scratch2" None;
    SDecl (TInt I32) "i" None;
    SDecl (TInt I32) "g" None;
    SFor (Some (EAssign (EVar "i") (EConst I32 0))) (EBin Lt (EVar "i") (EConst I32 0x38)) (Some (EPost Add (EVar "i")))
      (SBlock [
        SDecl (TPtr (TWord)) "r7_N" (Some (EBin Add (EVar "r") (EBin Mul (EConst I32 8) (EConst I32 7))));
        SExpr (EOpAssign Add (EVar "r") (EConst I32 8));
        SFor (Some (EAssign (EVar "g") (EConst I32 0))) (EBin Lt (EVar "g") (EConst I32 8)) (Some (EPost Add (EVar "g")))
          (SBlock [
            SExpr (EAssign (EIndex (EVar "scratch1") (EVar "g")) (EWop WXor (EIndex (EVar "block") (EVar "i")) (EIndex (EVar "r7_N") (EVar "g"))))]);
        SBlock [
          SDecl (TPtr (TInt U32)) "src" (Some (ECast (TPtr (TInt U32)) (EVar "scratch1")));
          SDecl (TPtr (TInt U16)) "dst" (Some (ECast (TPtr (TInt U16)) (EVar "scratch2")));
          SDecl (TInt U32) "a" None;
          SDecl (TInt U32) "b" None;
          SDecl (TInt U32) "c" None;
          SDecl (TInt U32) "d" None;
          SDecl (TInt U32) "s" None;
          SDecl (TInt I32) "j" None;
          SExpr (EAssign (EVar "s") (EDeref (EVar "src")));
          SFor (Some (EAssign (EVar "j") (EConst I32 0))) (EBin Lt (EVar "j") (EBin Sub (EBin Mul (EBin Div (EConst I32 (N.of_nat (word_bytes c))) (EConst I32 4)) (EConst I32 8)) (EConst I32 1))) None
            (SBlock [
              SExpr (EPost Add (EVar "j"));
              SExpr (EAssign (EVar "a") (EBin And (EVar "s") (EConst I32 0xff)));
              SExpr (EAssign (EVar "b") (EBin And (EBin Shr (EVar "s") (EConst I32 8)) (EConst I32 0xff)));
              SExpr (EAssign (EVar "c") (EBin And (EBin Shr (EVar "s") (EConst I32 0x10)) (EConst I32 0xff)));
              SExpr (EAssign (EVar "d") (EBin And (EBin Shr (EVar "s") (EConst I32 0x18)) (EConst I32 0xff)));
              SExpr (EAssign (EVar "s") (EIndex (EVar "src") (EVar "j")));
              SExpr (EAssign (EIndex (EVar "dst") (EConst I32 0)) (EIndex (EVar "dvbcsa_block_sbox_perm") (EVar "a")));
              SExpr (EAssign (EIndex (EVar "dst") (EConst I32 1)) (EIndex (EVar "dvbcsa_block_sbox_perm") (EVar "b")));
              SExpr (EAssign (EIndex (EVar "dst") (EConst I32 2)) (EIndex (EVar "dvbcsa_block_sbox_perm") (EVar "c")));
              SExpr (EAssign (EIndex (EVar "dst") (EConst I32 3)) (EIndex (EVar "dvbcsa_block_sbox_perm") (EVar "d")));
              SExpr (EOpAssign Add (EVar "dst") (EConst I32 4))]);
          SExpr (EAssign (EVar "a") (EBin And (EVar "s") (EConst I32 0xff)));
          SExpr (EAssign (EVar "b") (EBin And (EBin Shr (EVar "s") (EConst I32 8)) (EConst I32 0xff)));
          SExpr (EAssign (EVar "c") (EBin And (EBin Shr (EVar "s") (EConst I32 0x10)) (EConst I32 0xff)));
          SExpr (EAssign (EVar "d") (EBin And (EBin Shr (EVar "s") (EConst I32 0x18)) (EConst I32 0xff)));
          SExpr (EAssign (EIndex (EVar "dst") (EConst I32 0)) (EIndex (EVar "dvbcsa_block_sbox_perm") (EVar "a")));
          SExpr (EAssign (EIndex (EVar "dst") (EConst I32 1)) (EIndex (EVar "dvbcsa_block_sbox_perm") (EVar "b")));
          SExpr (EAssign (EIndex (EVar "dst") (EConst I32 2)) (EIndex (EVar "dvbcsa_block_sbox_perm") (EVar "c")));
          SExpr (EAssign (EIndex (EVar "dst") (EConst I32 3)) (EIndex (EVar "dvbcsa_block_sbox_perm") (EVar "d")))];
        SFor (Some (EAssign (EVar "g") (EConst I32 0))) (EBin Lt (EVar "g") (EConst I32 8)) (Some (EPost Add (EVar "g")))
          (SBlock [
            SDecl (TWord) "sbox_out" None;
            SDecl (TWord) "perm_out" None;
            SDecl (TWord) "w" None;
            SDecl (TWord) "tmp1" None;
            SDecl (TWord) "tmp2" None;
            SDecl (TWord) "tmp3" None;
            SDecl (TWord) "tmp4" None;
            SDeint (EBin Add (EVar "scratch2") (EBin Mul (EVar "g") (EConst I32 2))) (EVar "sbox_out") (EVar "perm_out");
            SExpr (EAssign (EVar "w") (EIndex (EVar "r") (EBin Add (EBin Mul (EUn Neg (EConst I32 8)) (EConst I32 1)) (EVar "g"))));
            SExpr (EAssign (EVar "tmp1") (EIndex (EVar "r") (EBin Add (EBin Mul (EConst I32 8) (EConst I32 1)) (EVar "g"))));
            SExpr (EAssign (EVar "tmp2") (EIndex (EVar "r") (EBin Add (EBin Mul (EConst I32 8) (EConst I32 2)) (EVar "g"))));
            SExpr (EAssign (EVar "tmp3") (EIndex (EVar "r") (EBin Add (EBin Mul (EConst I32 8) (EConst I32 3)) (EVar "g"))));
            SExpr (EAssign (EVar "sbox_out") (EWop WXor (EVar "sbox_out") (EVar "w")));
            SExpr (EAssign (EVar "tmp4") (EIndex (EVar "r") (EBin Add (EBin Mul (EConst I32 8) (EConst I32 5)) (EVar "g"))));
            SExpr (EAssign (EVar "tmp1") (EWop WXor (EVar "tmp1") (EVar "w")));
            SExpr (EAssign (EVar "tmp2") (EWop WXor (EVar "tmp2") (EVar "w")));
            SExpr (EAssign (EVar "tmp3") (EWop WXor (EVar "tmp3") (EVar "w")));
            SExpr (EAssign (EIndex (EVar "r") (EBin Add (EBin Mul (EConst I32 8) (EConst I32 7)) (EVar "g"))) (EVar "sbox_out"));
            SExpr (EAssign (EIndex (EVar "r") (EBin Add (EBin Mul (EConst I32 8) (EConst I32 1)) (EVar "g"))) (EVar "tmp1"));
            SExpr (EAssign (EVar "tmp4") (EWop WXor (EVar "tmp4") (EVar "perm_out")));
            SExpr (EAssign (EIndex (EVar "r") (EBin Add (EBin Mul (EConst I32 8) (EConst I32 2)) (EVar "g"))) (EVar "tmp2"));
            SExpr (EAssign (EIndex (EVar "r") (EBin Add (EBin Mul (EConst I32 8) (EConst I32 3)) (EVar "g"))) (EVar "tmp3"));
            SExpr (EAssign (EIndex (EVar "r") (EBin Add (EBin Mul (EConst I32 8) (EConst I32 5)) (EVar "g"))) (EVar "tmp4"))])])].

Definition bs_block_encrypt_register_7 (c : build) : fundef := mk_fun "dvbcsa_bs_block_encrypt_register" (TVoid) [("block", TPtr (TWord)); ("r", TPtr (TWord))] [
    SDecl (TArr (TWord) 8) "scratch1" None;
    SDecl (TArr (TWord) 16) "scratch2" None;
    SDecl (TInt I32) "i" None;
    SDecl (TInt I32) "g" None;
    SFor (Some (EAssign (EVar "i") (EConst I32 0))) (EBin Lt (EVar "i") (EConst I32 0x38)) (Some (EPost Add (EVar "i")))
      (SBlock [
        SDecl (TPtr (TWord)) "r7_N" (Some (EBin Add (EVar "r") (EBin Mul (EConst I32 8) (EConst I32 7))));
        SExpr (EOpAssign Add (EVar "r") (EConst I32 8));
        SFor (Some (EAssign (EVar "g") (EConst I32 0))) (EBin Lt (EVar "g") (EConst I32 8)) (Some (EPost Add (EVar "g")))
          (SBlock [
            SExpr (EAssign (EIndex (EVar "scratch1") (EVar "g")) (EWop WXor (EIndex (EVar "block") (EVar "i")) (EIndex (EVar "r7_N") (EVar "g"))))]);
        SExpr (ECall "BLOCK_SBOX_PERMUTE" [(EVar "scratch1"); (EVar "scratch2")]);
        SFor (Some (EAssign (EVar "g") (EConst I32 0))) (EBin Lt (EVar "g") (EConst I32 8)) (Some (EPost Add (EVar "g")))
          (SBlock [
            SDecl (TWord) "sbox_out" None;
            SDecl (TWord) "perm_out" None;
            SDecl (TWord) "w" None;
            SDecl (TWord) "tmp1" None;
            SDecl (TWord) "tmp2" None;
            SDecl (TWord) "tmp3" None;
            SDecl (TWord) "tmp4" None;
            SDeint (EBin Add (EVar "scratch2") (EBin Mul (EVar "g") (EConst I32 2))) (EVar "sbox_out") (EVar "perm_out");
            SExpr (EAssign (EVar "w") (EIndex (EVar "r") (EBin Add (EBin Mul (EUn Neg (EConst I32 8)) (EConst I32 1)) (EVar "g"))));
            SExpr (EAssign (EVar "tmp1") (EIndex (EVar "r") (EBin Add (EBin Mul (EConst I32 8) (EConst I32 1)) (EVar "g"))));
            SExpr (EAssign (EVar "tmp2") (EIndex (EVar "r") (EBin Add (EBin Mul (EConst I32 8) (EConst I32 2)) (EVar "g"))));
            SExpr (EAssign (EVar "tmp3") (EIndex (EVar "r") (EBin Add (EBin Mul (EConst I32 8) (EConst I32 3)) (EVar "g"))));
            SExpr (EAssign (EVar "sbox_out") (EWop WXor (EVar "sbox_out") (EVar "w")));
            SExpr (EAssign (EVar "tmp4") (EIndex (EVar "r") (EBin Add (EBin Mul (EConst I32 8) (EConst I32 5)) (EVar "g"))));
            SExpr (EAssign (EVar "tmp1") (EWop WXor (EVar "tmp1") (EVar "w")));
            SExpr (EAssign (EVar "tmp2") (EWop WXor (EVar "tmp2") (EVar "w")));
            SExpr (EAssign (EVar "tmp3") (EWop WXor (EVar "tmp3") (EVar "w")));
            SExpr (EAssign (EIndex (EVar "r") (EBin Add (EBin Mul (EConst I32 8) (EConst I32 7)) (EVar "g"))) (EVar "sbox_out"));
            SExpr (EAssign (EIndex (EVar "r") (EBin Add (EBin Mul (EConst I32 8) (EConst I32 1)) (EVar "g"))) (EVar "tmp1"));
            SExpr (EAssign (EVar "tmp4") (EWop WXor (EVar "tmp4") (EVar "perm_out")));
            SExpr (EAssign (EIndex (EVar "r") (EBin Add (EBin Mul (EConst I32 8) (EConst I32 2)) (EVar "g"))) (EVar "tmp2"));
            SExpr (EAssign (EIndex (EVar "r") (EBin Add (EBin Mul (EConst I32 8) (EConst I32 3)) (EVar "g"))) (EVar "tmp3"));
            SExpr (EAssign (EIndex (EVar "r") (EBin Add (EBin Mul (EConst I32 8) (EConst I32 5)) (EVar "g"))) (EVar "tmp4"))])])].

Definition bs_block_encrypt_register (c : build) : fundef := match tgt c with UINT32 | UINT64 | MMX | SSE2 => (if big_endian c then (if use_alt_sbox c then bs_block_encrypt_register_1 c else bs_block_encrypt_register_2 c) else (if use_alt_sbox c then bs_block_encrypt_register_3 c else bs_block_encrypt_register_2 c)) | SSSE3 | NEON => (if big_endian c then (if use_alt_sbox c then bs_block_encrypt_register_4 c else bs_block_encrypt_register_5 c) else (if use_alt_sbox c then bs_block_encrypt_register_6 c else bs_block_encrypt_register_5 c)) | AVX2 => (if big_endian c then (if use_alt_sbox c then bs_block_encrypt_register_4 c else bs_block_encrypt_register_7 c) else (if use_alt_sbox c then bs_block_encrypt_register_6 c else bs_block_encrypt_register_7 c)) end.

Definition bs_block_encrypt_block (c : build) : fundef := mk_fun "dvbcsa_bs_block_encrypt_block" (TVoid) [("key", TPtr (TStruct "dvbcsa_bs_key_s")); ("pkt_buf", TPtr (TStruct "dvbcsa_bs_pkt_buf")); ("offset", TInt U32)] [
    SDecl (TArr (TWord) 512) "r" None;
    SExpr (ECall "dvbcsa_bs_block_transpose_in" [(EVar "r"); (EVar "pkt_buf"); (EVar "offset")]);
    SExpr (ECall "dvbcsa_bs_block_encrypt_register" [(EField (EDeref (EVar "key")) "block"); (EVar "r")]);
    SExpr (ECall "dvbcsa_bs_block_transpose_out_and_xor" [(EBin Add (EVar "r") (EBin Mul (EConst I32 8) (EConst I32 0x38))); (EVar "pkt_buf"); (EVar "offset"); (EConst I32 1)])].

Definition bs_block_encrypt_batch (c : build) : fundef := mk_fun "dvbcsa_bs_block_encrypt_batch" (TVoid) [("key", TPtr (TStruct "dvbcsa_bs_key_s")); ("pkt_buf", TPtr (TStruct "dvbcsa_bs_pkt_buf")); ("maxlen", TInt U32)] [
    SDecl (TInt I32) "i" None;
    SFor (Some (EAssign (EVar "i") (EBin Sub (EVar "maxlen") (EConst I32 8)))) (EBin Ge (EVar "i") (EConst I32 0)) (Some (EOpAssign Sub (EVar "i") (EConst I32 8)))
      (SBlock [
        SExpr (ECall "dvbcsa_bs_block_encrypt_block" [(EVar "key"); (EVar "pkt_buf"); (EVar "i")])])].

Definition bs_stream_sbox1 (c : build) : fundef := mk_fun "dvbcsa_bs_stream_sbox1" (TVoid) [("fa", TWord); ("fb", TWord); ("fc", TWord); ("fd", TWord); ("fe", TWord); ("sa", TPtr (TWord)); ("sb", TPtr (TWord))] [
    SDecl (TWord) "tmp0" None;
    SDecl (TWord) "tmp1" None;
    SDecl (TWord) "tmp2" None;
    SDecl (TWord) "tmp3" None;
    SExpr (EAssign (EVar "tmp0") (EWop WXor (EVar "fa") (EWop WXor (EVar "fb") (EWNot (EWop WOr (EWop WXor (EWop WOr (EVar "fa") (EVar "fb")) (EVar "fc")) (EWop WXor (EVar "fc") (EVar "fd")))))));
    SExpr (EAssign (EVar "tmp1") (EWop WXor (EWop WOr (EVar "fa") (EVar "fb")) (EWNot (EWop WAnd (EVar "fc") (EWop WOr (EVar "fa") (EWop WXor (EVar "fb") (EVar "fd")))))));
    SExpr (EAssign (EVar "tmp2") (EWop WXor (EVar "fa") (EWop WXor (EWop WAnd (EVar "fb") (EVar "fd")) (EWop WOr (EWop WAnd (EVar "fa") (EVar "fd")) (EVar "fc")))));
    SExpr (EAssign (EVar "tmp3") (EWop WXor (EWop WAnd (EVar "fa") (EVar "fc")) (EWop WXor (EVar "fa") (EWop WOr (EWop WAnd (EVar "fa") (EVar "fb")) (EVar "fd")))));
    SExpr (EAssign (EDeref (EVar "sa")) (EWop WXor (EVar "tmp0") (EWop WAnd (EVar "fe") (EVar "tmp1"))));
    SExpr (EAssign (EDeref (EVar "sb")) (EWop WXor (EVar "tmp2") (EWop WAnd (EVar "fe") (EVar "tmp3"))))].

Definition bs_stream_sbox2 (c : build) : fundef := mk_fun "dvbcsa_bs_stream_sbox2" (TVoid) [("fa", TWord); ("fb", TWord); ("fc", TWord); ("fd", TWord); ("fe", TWord); ("sa", TPtr (TWord)); ("sb", TPtr (TWord))] [
    SDecl (TWord) "tmp0" None;
    SDecl (TWord) "tmp1" None;
    SDecl (TWord) "tmp2" None;
    SDecl (TWord) "tmp3" None;
    SExpr (EAssign (EVar "tmp0") (EWop WXor (EVar "fa") (EWop WXor (EWop WAnd (EVar "fb") (EWop WOr (EVar "fc") (EVar "fd"))) (EWop WXor (EVar "fc") (EWNot (EVar "fd"))))));
    SExpr (EAssign (EVar "tmp1") (EWop WOr (EWop WAnd (EVar "fa") (EWop WXor (EVar "fb") (EVar "fd"))) (EWop WAnd (EWop WOr (EVar "fa") (EVar "fb")) (EVar "fc"))));
    SExpr (EAssign (EVar "tmp2") (EWop WXor (EWop WAnd (EVar "fb") (EVar "fd")) (EWop WOr (EWop WAnd (EVar "fa") (EVar "fd")) (EWop WXor (EVar "fb") (EWNot (EVar "fc"))))));
    SExpr (EAssign (EVar "tmp3") (EWop WOr (EWop WAnd (EVar "fa") (EVar "fd")) (EWop WXor (EVar "fa") (EWop WXor (EVar "fb") (EWop WAnd (EVar "fc") (EVar "fd"))))));
    SExpr (EAssign (EDeref (EVar "sa")) (EWop WXor (EVar "tmp0") (EWop WAnd (EVar "fe") (EVar "tmp1"))));
    SExpr (EAssign (EDeref (EVar "sb")) (EWop WXor (EVar "tmp2") (EWop WAnd (EVar "fe") (EVar "tmp3"))))].

Definition bs_stream_sbox3 (c : build) : fundef := mk_fun "dvbcsa_bs_stream_sbox3" (TVoid) [("fa", TWord); ("fb", TWord); ("fc", TWord); ("fd", TWord); ("fe", TWord); ("sa", TPtr (TWord)); ("sb", TPtr (TWord))] [
    SDecl (TWord) "tmp0" None;
    SDecl (TWord) "tmp1" None;
    SDecl (TWord) "tmp2" None;
    SExpr (EAssign (EVar "tmp0") (EWop WXor (EVar "fa") (EWop WXor (EVar "fb") (EWop WXor (EWop WAnd (EVar "fc") (EWop WOr (EVar "fa") (EVar "fd"))) (EVar "fd")))));
    SExpr (EAssign (EVar "tmp1") (EWop WXor (EWop WAnd (EVar "fa") (EVar "fc")) (EWop WOr (EWop WXor (EVar "fa") (EVar "fd")) (EWop WXor (EWop WOr (EVar "fb") (EVar "fc")) (EWNot (EVar "fd"))))));
    SExpr (EAssign (EVar "tmp2") (EWop WXor (EVar "fa") (EWop WXor (EWop WAnd (EWop WXor (EVar "fb") (EVar "fc")) (EVar "fd")) (EVar "fc"))));
    SExpr (EAssign (EDeref (EVar "sa")) (EWop WXor (EVar "tmp0") (EWop WAnd (EWNot (EVar "fe")) (EVar "tmp1"))));
    SExpr (EAssign (EDeref (EVar "sb")) (EWop WXor (EVar "tmp2") (EVar "fe")))].

Definition bs_stream_sbox4 (c : build) : fundef := mk_fun "dvbcsa_bs_stream_sbox4" (TVoid) [("fa", TWord); ("fb", TWord); ("fc", TWord); ("fd", TWord); ("fe", TWord); ("sa", TPtr (TWord)); ("sb", TPtr (TWord))] [
    SDecl (TWord) "tmp0" None;
    SDecl (TWord) "tmp1" None;
    SDecl (TWord) "tmp2" None;
    SExpr (EAssign (EVar "tmp0") (EWop WXor (EVar "fa") (EWop WOr (EWop WAnd (EVar "fc") (EWop WXor (EVar "fa") (EVar "fd"))) (EWop WXor (EVar "fb") (EWop WOr (EVar "fc") (EWNot (EVar "fd")))))));
    SExpr (EAssign (EVar "tmp1") (EWop WXor (EWop WAnd (EVar "fa") (EVar "fb")) (EWop WXor (EVar "fb") (EWop WXor (EWop WAnd (EWop WOr (EVar "fa") (EVar "fc")) (EVar "fd")) (EVar "fc")))));
    SExpr (EAssign (EVar "tmp2") (EWop WXor (EVar "fa") (EWop WOr (EWop WAnd (EVar "fb") (EVar "fc")) (EWop WXor (EWop WOr (EWop WAnd (EVar "fa") (EWop WXor (EVar "fb") (EVar "fd"))) (EVar "fc")) (EVar "fd")))));
    SExpr (EAssign (EDeref (EVar "sa")) (EWop WXor (EVar "tmp0") (EWop WAnd (EVar "fe") (EWop WXor (EVar "tmp1") (EVar "tmp0")))));
    SExpr (EAssign (EDeref (EVar "sb")) (EWop WXor (EWop WXor (EDeref (EVar "sa")) (EVar "tmp2")) (EVar "fe")))].

Definition bs_stream_sbox5 (c : build) : fundef := mk_fun "dvbcsa_bs_stream_sbox5" (TVoid) [("fa", TWord); ("fb", TWord); ("fc", TWord); ("fd", TWord); ("fe", TWord); ("sa", TPtr (TWord)); ("sb", TPtr (TWord))] [
    SDecl (TWord) "tmp0" None;
    SDecl (TWord) "tmp1" None;
    SDecl (TWord) "tmp2" None;
    SDecl (TWord) "tmp3" None;
    SExpr (EAssign (EVar "tmp0") (EWop WOr (EWop WXor (EWop WAnd (EVar "fa") (EWop WOr (EVar "fb") (EVar "fc"))) (EVar "fb")) (EWop WXor (EWop WOr (EWop WXor (EVar "fa") (EVar "fc")) (EVar "fd")) (EWVal 1 0xff))));
    SExpr (EAssign (EVar "tmp1") (EWop WXor (EVar "fb") (EWop WAnd (EWop WXor (EVar "fc") (EVar "fd")) (EWop WXor (EVar "fc") (EWop WOr (EVar "fb") (EWop WXor (EVar "fa") (EVar "fd")))))));
    SExpr (EAssign (EVar "tmp2") (EWop WXor (EWop WAnd (EVar "fa") (EVar "fc")) (EWop WXor (EVar "fb") (EWop WAnd (EWop WOr (EVar "fb") (EWop WXor (EVar "fa") (EVar "fc"))) (EVar "fd")))));
    SExpr (EAssign (EVar "tmp3") (EWop WOr (EWop WAnd (EWop WXor (EVar "fa") (EVar "fb")) (EWop WXor (EVar "fc") (EWVal 1 0xff))) (EVar "fd")));
    SExpr (EAssign (EDeref (EVar "sa")) (EWop WXor (EVar "tmp0") (EWop WAnd (EVar "fe") (EVar "tmp1"))));
    SExpr (EAssign (EDeref (EVar "sb")) (EWop WXor (EVar "tmp2") (EWop WAnd (EVar "fe") (EVar "tmp3"))))].

Definition bs_stream_sbox6 (c : build) : fundef := mk_fun "dvbcsa_bs_stream_sbox6" (TVoid) [("fa", TWord); ("fb", TWord); ("fc", TWord); ("fd", TWord); ("fe", TWord); ("sa", TPtr (TWord)); ("sb", TPtr (TWord))] [
    SDecl (TWord) "tmp0" None;
    SDecl (TWord) "tmp1" None;
    SDecl (TWord) "tmp2" None;
    SDecl (TWord) "tmp3" None;
    SExpr (EAssign (EVar "tmp0") (EWop WXor (EWop WAnd (EWop WAnd (EVar "fa") (EVar "fc")) (EVar "fd")) (EWop WXor (EWop WAnd (EVar "fb") (EWop WOr (EVar "fa") (EVar "fd"))) (EVar "fc"))));
    SExpr (EAssign (EVar "tmp1") (EWNot (EWop WAnd (EWop WXor (EVar "fa") (EVar "fc")) (EVar "fd"))));
    SExpr (EAssign (EVar "tmp2") (EWop WXor (EWop WAnd (EVar "fa") (EWop WOr (EVar "fb") (EVar "fc"))) (EWop WXor (EVar "fb") (EWop WOr (EWop WAnd (EVar "fb") (EVar "fc")) (EVar "fd")))));
    SExpr (EAssign (EVar "tmp3") (EWop WAnd (EVar "fc") (EWop WXor (EWop WAnd (EVar "fa") (EWop WXor (EVar "fb") (EVar "fd"))) (EWop WOr (EVar "fb") (EVar "fd")))));
    SExpr (EAssign (EDeref (EVar "sa")) (EWop WXor (EVar "tmp0") (EWop WAnd (EVar "fe") (EVar "tmp1"))));
    SExpr (EAssign (EDeref (EVar "sb")) (EWop WXor (EVar "tmp2") (EWop WAnd (EVar "fe") (EVar "tmp3"))))].

Definition bs_stream_sbox7 (c : build) : fundef := mk_fun "dvbcsa_bs_stream_sbox7" (TVoid) [("fa", TWord); ("fb", TWord); ("fc", TWord); ("fd", TWord); ("fe", TWord); ("sa", TPtr (TWord)); ("sb", TPtr (TWord))] [
    SDecl (TWord) "tmp0" None;
    SDecl (TWord) "tmp1" None;
    SDecl (TWord) "tmp2" None;
    SDecl (TWord) "tmp3" None;
    SExpr (EAssign (EVar "tmp0") (EWop WXor (EVar "fb") (EWop WOr (EWop WAnd (EVar "fc") (EVar "fd")) (EWop WXor (EVar "fa") (EWop WXor (EVar "fc") (EVar "fd"))))));
    SExpr (EAssign (EVar "tmp1") (EWop WAnd (EWop WOr (EVar "fb") (EVar "fd")) (EWop WOr (EWop WAnd (EVar "fa") (EVar "fc")) (EWop WXor (EVar "fb") (EWop WXor (EVar "fc") (EVar "fd"))))));
    SExpr (EAssign (EVar "tmp2") (EWop WXor (EWop WOr (EVar "fa") (EVar "fb")) (EWop WXor (EWop WAnd (EVar "fc") (EWop WOr (EVar "fb") (EVar "fd"))) (EVar "fd"))));
    SExpr (EAssign (EVar "tmp3") (EWop WOr (EVar "fd") (EWop WXor (EWop WAnd (EVar "fa") (EVar "fc")) (EWVal 1 0xff))));
    SExpr (EAssign (EDeref (EVar "sa")) (EWop WXor (EVar "tmp0") (EWop WAnd (EVar "fe") (EVar "tmp1"))));
    SExpr (EAssign (EDeref (EVar "sb")) (EWop WXor (EVar "tmp2") (EWop WAnd (EVar "fe") (EVar "tmp3"))))].

Definition bs_stream_cipher_kernel_init (c : build) : fundef := mk_fun "dvbcsa_bs_stream_cipher_kernel_init" (TVoid) [("regs", TPtr (TStruct "dvbcsa_bs_stream_regs_s"))] [
    SDecl (TArr (TWord) 4) "extra_B" None;
    SDecl (TPtr (TArr (TWord) 4)) "A" None;
    SDecl (TPtr (TArr (TWord) 4)) "B" None;
    SDecl (TInt I32) "i" None;
    SDecl (TInt I32) "j" None;
    SDecl (TInt I32) "b" None;
    SExpr (EAssign (EVar "A") (EBin Add (EField (EDeref (EVar "regs")) "A") (EConst I32 0x20)));
    SExpr (EAssign (EVar "B") (EBin Add (EField (EDeref (EVar "regs")) "B") (EConst I32 0x20)));
    SFor (Some (EAssign (EVar "i") (EConst I32 0))) (EBin Lt (EVar "i") (EConst I32 8)) (Some (EPost Add (EVar "i")))
      (SBlock [
        SFor (Some (EAssign (EVar "j") (EConst I32 0))) (EBin Lt (EVar "j") (EConst I32 4)) (Some (EPost Add (EVar "j")))
          (SBlock [
            SExpr (EAssign (EIndex (EVar "extra_B") (EConst I32 3)) (EWop WXor (EWop WXor (EWop WXor (EIndex (EIndex (EVar "B") (EConst I32 2)) (EConst I32 0)) (EIndex (EIndex (EVar "B") (EConst I32 5)) (EConst I32 1))) (EIndex (EIndex (EVar "B") (EConst I32 6)) (EConst I32 2))) (EIndex (EIndex (EVar "B") (EConst I32 8)) (EConst I32 3))));
            SExpr (EAssign (EIndex (EVar "extra_B") (EConst I32 2)) (EWop WXor (EWop WXor (EWop WXor (EIndex (EIndex (EVar "B") (EConst I32 5)) (EConst I32 0)) (EIndex (EIndex (EVar "B") (EConst I32 7)) (EConst I32 1))) (EIndex (EIndex (EVar "B") (EConst I32 2)) (EConst I32 3))) (EIndex (EIndex (EVar "B") (EConst I32 3)) (EConst I32 2))));
            SExpr (EAssign (EIndex (EVar "extra_B") (EConst I32 1)) (EWop WXor (EWop WXor (EWop WXor (EIndex (EIndex (EVar "B") (EConst I32 4)) (EConst I32 3)) (EIndex (EIndex (EVar "B") (EConst I32 7)) (EConst I32 2))) (EIndex (EIndex (EVar "B") (EConst I32 3)) (EConst I32 0))) (EIndex (EIndex (EVar "B") (EConst I32 4)) (EConst I32 1))));
            SExpr (EAssign (EIndex (EVar "extra_B") (EConst I32 0)) (EWop WXor (EWop WXor (EWop WXor (EIndex (EIndex (EVar "B") (EConst I32 8)) (EConst I32 2)) (EIndex (EIndex (EVar "B") (EConst I32 5)) (EConst I32 3))) (EIndex (EIndex (EVar "B") (EConst I32 2)) (EConst I32 1))) (EIndex (EIndex (EVar "B") (EConst I32 7)) (EConst I32 0))));
            SFor (Some (EAssign (EVar "b") (EConst I32 0))) (EBin Lt (EVar "b") (EConst I32 4)) (Some (EPost Add (EVar "b")))
              (SBlock [
                SExpr (EAssign (EIndex (EIndex (EVar "A") (EUn Neg (EConst I32 1))) (EVar "b")) (EWop WXor (EIndex (EIndex (EVar "A") (EConst I32 9)) (EVar "b")) (EIndex (EField (EDeref (EVar "regs")) "X") (EVar "b"))));
                SExpr (EAssign (EIndex (EIndex (EVar "A") (EUn Neg (EConst I32 1))) (EVar "b")) (EWop WXor (EWop WXor (EIndex (EIndex (EVar "A") (EUn Neg (EConst I32 1))) (EVar "b")) (EIndex (EField (EDeref (EVar "regs")) "D") (EVar "b"))) (ECond (EBin Mod (EVar "j") (EConst I32 2)) (EIndex (EField (EDeref (EVar "regs")) "sb") (EBin Add (EBin Mul (EConst I32 8) (EVar "i")) (EVar "b"))) (EIndex (EField (EDeref (EVar "regs")) "sb") (EBin Add (EBin Add (EBin Mul (EConst I32 8) (EVar "i")) (EConst I32 4)) (EVar "b"))))))]);
            SFor (Some (EAssign (EVar "b") (EConst I32 0))) (EBin Lt (EVar "b") (EConst I32 4)) (Some (EPost Add (EVar "b")))
              (SBlock [
                SExpr (EAssign (EIndex (EIndex (EVar "B") (EUn Neg (EConst I32 1))) (EVar "b")) (EWop WXor (EWop WXor (EIndex (EIndex (EVar "B") (EConst I32 6)) (EVar "b")) (EIndex (EIndex (EVar "B") (EConst I32 9)) (EVar "b"))) (EIndex (EField (EDeref (EVar "regs")) "Y") (EVar "b"))));
                SExpr (EAssign (EIndex (EIndex (EVar "B") (EUn Neg (EConst I32 1))) (EVar "b")) (EWop WXor (EIndex (EIndex (EVar "B") (EUn Neg (EConst I32 1))) (EVar "b")) (ECond (EBin Mod (EVar "j") (EConst I32 2)) (EIndex (EField (EDeref (EVar "regs")) "sb") (EBin Add (EBin Add (EBin Mul (EConst I32 8) (EVar "i")) (EConst I32 4)) (EVar "b"))) (EIndex (EField (EDeref (EVar "regs")) "sb") (EBin Add (EBin Mul (EConst I32 8) (EVar "i")) (EVar "b"))))))]);
            SBlock [
              SDecl (TWord) "tmp0" None;
              SDecl (TWord) "tmp1" None;
              SDecl (TWord) "tmp2" None;
              SDecl (TWord) "tmp3" None;
              SDecl (TWord) "tmp4" None;
              SExpr (EAssign (EVar "tmp3") (EIndex (EIndex (EVar "B") (EUn Neg (EConst I32 1))) (EConst I32 3)));
              SExpr (EAssign (EVar "tmp2") (EIndex (EIndex (EVar "B") (EUn Neg (EConst I32 1))) (EConst I32 2)));
              SExpr (EAssign (EVar "tmp4") (EField (EDeref (EVar "regs")) "p"));
              SExpr (EAssign (EVar "tmp1") (EIndex (EIndex (EVar "B") (EUn Neg (EConst I32 1))) (EConst I32 1)));
              SExpr (EAssign (EVar "tmp0") (EIndex (EIndex (EVar "B") (EUn Neg (EConst I32 1))) (EConst I32 0)));
              SExpr (EAssign (EIndex (EIndex (EVar "B") (EUn Neg (EConst I32 1))) (EConst I32 3)) (EWop WXor (EVar "tmp3") (EWop WAnd (EWop WXor (EVar "tmp3") (EVar "tmp2")) (EVar "tmp4"))));
              SExpr (EAssign (EIndex (EIndex (EVar "B") (EUn Neg (EConst I32 1))) (EConst I32 2)) (EWop WXor (EVar "tmp2") (EWop WAnd (EWop WXor (EVar "tmp2") (EVar "tmp1")) (EVar "tmp4"))));
              SExpr (EAssign (EIndex (EIndex (EVar "B") (EUn Neg (EConst I32 1))) (EConst I32 1)) (EWop WXor (EVar "tmp1") (EWop WAnd (EWop WXor (EVar "tmp1") (EVar "tmp0")) (EVar "tmp4"))));
              SExpr (EAssign (EIndex (EIndex (EVar "B") (EUn Neg (EConst I32 1))) (EConst I32 0)) (EWop WXor (EVar "tmp0") (EWop WAnd (EWop WXor (EVar "tmp0") (EVar "tmp3")) (EVar "tmp4"))))];
            SBlock [
              SDecl (TWord) "tmp0" None;
              SDecl (TWord) "tmp1" None;
              SDecl (TWord) "tmp2" None;
              SDecl (TWord) "tmp3" None;
              SDecl (TWord) "tmp4" None;
              SExpr (EAssign (EVar "tmp0") (EWop WXor (EIndex (EField (EDeref (EVar "regs")) "Z") (EConst I32 0)) (EIndex (EField (EDeref (EVar "regs")) "E") (EConst I32 0))));
              SExpr (EAssign (EVar "tmp1") (EWop WAnd (EIndex (EField (EDeref (EVar "regs")) "Z") (EConst I32 0)) (EIndex (EField (EDeref (EVar "regs")) "E") (EConst I32 0))));
              SExpr (EAssign (EVar "tmp2") (EIndex (EField (EDeref (EVar "regs")) "F") (EConst I32 0)));
              SExpr (EAssign (EIndex (EField (EDeref (EVar "regs")) "F") (EConst I32 0)) (EWop WXor (EIndex (EField (EDeref (EVar "regs")) "E") (EConst I32 0)) (EWop WAnd (EField (EDeref (EVar "regs")) "q") (EWop WXor (EIndex (EField (EDeref (EVar "regs")) "Z") (EConst I32 0)) (EField (EDeref (EVar "regs")) "r")))));
              SExpr (EAssign (EIndex (EField (EDeref (EVar "regs")) "D") (EConst I32 0)) (EWop WXor (EIndex (EVar "extra_B") (EConst I32 0)) (EVar "tmp0")));
              SExpr (EAssign (EVar "tmp3") (EWop WAnd (EVar "tmp0") (EField (EDeref (EVar "regs")) "r")));
              SExpr (EAssign (EIndex (EField (EDeref (EVar "regs")) "E") (EConst I32 0)) (EVar "tmp2"));
              SExpr (EAssign (EVar "tmp4") (EWop WOr (EVar "tmp1") (EVar "tmp3")));
              SExpr (EAssign (EVar "tmp0") (EWop WXor (EIndex (EField (EDeref (EVar "regs")) "Z") (EConst I32 1)) (EIndex (EField (EDeref (EVar "regs")) "E") (EConst I32 1))));
              SExpr (EAssign (EVar "tmp1") (EWop WAnd (EIndex (EField (EDeref (EVar "regs")) "Z") (EConst I32 1)) (EIndex (EField (EDeref (EVar "regs")) "E") (EConst I32 1))));
              SExpr (EAssign (EVar "tmp2") (EIndex (EField (EDeref (EVar "regs")) "F") (EConst I32 1)));
              SExpr (EAssign (EIndex (EField (EDeref (EVar "regs")) "F") (EConst I32 1)) (EWop WXor (EIndex (EField (EDeref (EVar "regs")) "E") (EConst I32 1)) (EWop WAnd (EField (EDeref (EVar "regs")) "q") (EWop WXor (EIndex (EField (EDeref (EVar "regs")) "Z") (EConst I32 1)) (EVar "tmp4")))));
              SExpr (EAssign (EIndex (EField (EDeref (EVar "regs")) "D") (EConst I32 1)) (EWop WXor (EIndex (EVar "extra_B") (EConst I32 1)) (EVar "tmp0")));
              SExpr (EAssign (EVar "tmp3") (EWop WAnd (EVar "tmp0") (EVar "tmp4")));
              SExpr (EAssign (EIndex (EField (EDeref (EVar "regs")) "E") (EConst I32 1)) (EVar "tmp2"));
              SExpr (EAssign (EVar "tmp4") (EWop WOr (EVar "tmp1") (EVar "tmp3")));
              SExpr (EAssign (EVar "tmp0") (EWop WXor (EIndex (EField (EDeref (EVar "regs")) "Z") (EConst I32 2)) (EIndex (EField (EDeref (EVar "regs")) "E") (EConst I32 2))));
              SExpr (EAssign (EVar "tmp1") (EWop WAnd (EIndex (EField (EDeref (EVar "regs")) "Z") (EConst I32 2)) (EIndex (EField (EDeref (EVar "regs")) "E") (EConst I32 2))));
              SExpr (EAssign (EVar "tmp2") (EIndex (EField (EDeref (EVar "regs")) "F") (EConst I32 2)));
              SExpr (EAssign (EIndex (EField (EDeref (EVar "regs")) "F") (EConst I32 2)) (EWop WXor (EIndex (EField (EDeref (EVar "regs")) "E") (EConst I32 2)) (EWop WAnd (EField (EDeref (EVar "regs")) "q") (EWop WXor (EIndex (EField (EDeref (EVar "regs")) "Z") (EConst I32 2)) (EVar "tmp4")))));
              SExpr (EAssign (EIndex (EField (EDeref (EVar "regs")) "D") (EConst I32 2)) (EWop WXor (EIndex (EVar "extra_B") (EConst I32 2)) (EVar "tmp0")));
              SExpr (EAssign (EVar "tmp3") (EWop WAnd (EVar "tmp0") (EVar "tmp4")));
              SExpr (EAssign (EIndex (EField (EDeref (EVar "regs")) "E") (EConst I32 2)) (EVar "tmp2"));
              SExpr (EAssign (EVar "tmp4") (EWop WOr (EVar "tmp1") (EVar "tmp3")));
              SExpr (EAssign (EVar "tmp0") (EWop WXor (EIndex (EField (EDeref (EVar "regs")) "Z") (EConst I32 3)) (EIndex (EField (EDeref (EVar "regs")) "E") (EConst I32 3))));
              SExpr (EAssign (EVar "tmp1") (EWop WAnd (EIndex (EField (EDeref (EVar "regs")) "Z") (EConst I32 3)) (EIndex (EField (EDeref (EVar "regs")) "E") (EConst I32 3))));
              SExpr (EAssign (EVar "tmp2") (EIndex (EField (EDeref (EVar "regs")) "F") (EConst I32 3)));
              SExpr (EAssign (EIndex (EField (EDeref (EVar "regs")) "F") (EConst I32 3)) (EWop WXor (EIndex (EField (EDeref (EVar "regs")) "E") (EConst I32 3)) (EWop WAnd (EField (EDeref (EVar "regs")) "q") (EWop WXor (EIndex (EField (EDeref (EVar "regs")) "Z") (EConst I32 3)) (EVar "tmp4")))));
              SExpr (EAssign (EIndex (EField (EDeref (EVar "regs")) "D") (EConst I32 3)) (EWop WXor (EIndex (EVar "extra_B") (EConst I32 3)) (EVar "tmp0")));
              SExpr (EAssign (EVar "tmp3") (EWop WAnd (EVar "tmp0") (EVar "tmp4")));
              SExpr (EAssign (EIndex (EField (EDeref (EVar "regs")) "E") (EConst I32 3)) (EVar "tmp2"));
              SExpr (EAssign (EField (EDeref (EVar "regs")) "r") (EWop WXor (EField (EDeref (EVar "regs")) "r") (EWop WAnd (EField (EDeref (EVar "regs")) "q") (EWop WXor (EWop WOr (EVar "tmp1") (EVar "tmp3")) (EField (EDeref (EVar "regs")) "r")))))];
            SExpr (ECall "dvbcsa_bs_stream_sbox1" [(EIndex (EIndex (EVar "A") (EConst I32 0)) (EConst I32 2)); (EIndex (EIndex (EVar "A") (EConst I32 5)) (EConst I32 1)); (EIndex (EIndex (EVar "A") (EConst I32 6)) (EConst I32 3)); (EIndex (EIndex (EVar "A") (EConst I32 8)) (EConst I32 0)); (EIndex (EIndex (EVar "A") (EConst I32 3)) (EConst I32 0)); (EAddr (EIndex (EField (EDeref (EVar "regs")) "X") (EConst I32 0))); (EAddr (EIndex (EField (EDeref (EVar "regs")) "Z") (EConst I32 2)))]);
            SExpr (ECall "dvbcsa_bs_stream_sbox2" [(EIndex (EIndex (EVar "A") (EConst I32 2)) (EConst I32 2)); (EIndex (EIndex (EVar "A") (EConst I32 5)) (EConst I32 3)); (EIndex (EIndex (EVar "A") (EConst I32 6)) (EConst I32 0)); (EIndex (EIndex (EVar "A") (EConst I32 8)) (EConst I32 1)); (EIndex (EIndex (EVar "A") (EConst I32 1)) (EConst I32 1)); (EAddr (EIndex (EField (EDeref (EVar "regs")) "X") (EConst I32 1))); (EAddr (EIndex (EField (EDeref (EVar "regs")) "Z") (EConst I32 3)))]);
            SExpr (ECall "dvbcsa_bs_stream_sbox3" [(EIndex (EIndex (EVar "A") (EConst I32 1)) (EConst I32 0)); (EIndex (EIndex (EVar "A") (EConst I32 4)) (EConst I32 1)); (EIndex (EIndex (EVar "A") (EConst I32 4)) (EConst I32 3)); (EIndex (EIndex (EVar "A") (EConst I32 5)) (EConst I32 2)); (EIndex (EIndex (EVar "A") (EConst I32 0)) (EConst I32 3)); (EAddr (EIndex (EField (EDeref (EVar "regs")) "Y") (EConst I32 0))); (EAddr (EIndex (EField (EDeref (EVar "regs")) "X") (EConst I32 2)))]);
            SExpr (ECall "dvbcsa_bs_stream_sbox4" [(EIndex (EIndex (EVar "A") (EConst I32 0)) (EConst I32 1)); (EIndex (EIndex (EVar "A") (EConst I32 1)) (EConst I32 3)); (EIndex (EIndex (EVar "A") (EConst I32 3)) (EConst I32 2)); (EIndex (EIndex (EVar "A") (EConst I32 7)) (EConst I32 0)); (EIndex (EIndex (EVar "A") (EConst I32 2)) (EConst I32 3)); (EAddr (EIndex (EField (EDeref (EVar "regs")) "Y") (EConst I32 1))); (EAddr (EIndex (EField (EDeref (EVar "regs")) "X") (EConst I32 3)))]);
            SExpr (ECall "dvbcsa_bs_stream_sbox5" [(EIndex (EIndex (EVar "A") (EConst I32 3)) (EConst I32 3)); (EIndex (EIndex (EVar "A") (EConst I32 5)) (EConst I32 0)); (EIndex (EIndex (EVar "A") (EConst I32 7)) (EConst I32 1)); (EIndex (EIndex (EVar "A") (EConst I32 8)) (EConst I32 2)); (EIndex (EIndex (EVar "A") (EConst I32 4)) (EConst I32 2)); (EAddr (EIndex (EField (EDeref (EVar "regs")) "Z") (EConst I32 0))); (EAddr (EIndex (EField (EDeref (EVar "regs")) "Y") (EConst I32 2)))]);
            SExpr (ECall "dvbcsa_bs_stream_sbox6" [(EIndex (EIndex (EVar "A") (EConst I32 3)) (EConst I32 1)); (EIndex (EIndex (EVar "A") (EConst I32 4)) (EConst I32 0)); (EIndex (EIndex (EVar "A") (EConst I32 6)) (EConst I32 2)); (EIndex (EIndex (EVar "A") (EConst I32 8)) (EConst I32 3)); (EIndex (EIndex (EVar "A") (EConst I32 2)) (EConst I32 1)); (EAddr (EIndex (EField (EDeref (EVar "regs")) "Z") (EConst I32 1))); (EAddr (EIndex (EField (EDeref (EVar "regs")) "Y") (EConst I32 3)))]);
            SExpr (ECall "dvbcsa_bs_stream_sbox7" [(EIndex (EIndex (EVar "A") (EConst I32 2)) (EConst I32 0)); (EIndex (EIndex (EVar "A") (EConst I32 6)) (EConst I32 1)); (EIndex (EIndex (EVar "A") (EConst I32 7)) (EConst I32 2)); (EIndex (EIndex (EVar "A") (EConst I32 7)) (EConst I32 3)); (EIndex (EIndex (EVar "A") (EConst I32 1)) (EConst I32 2)); (EAddr (EField (EDeref (EVar "regs")) "p")); (EAddr (EField (EDeref (EVar "regs")) "q"))]);
            SExpr (EPost Sub (EVar "A"));
            SExpr (EPost Sub (EVar "B"))])]);
    SFor (Some (EAssign (EVar "i") (EConst I32 0))) (EBin Lt (EVar "i") (EConst I32 0xa)) (Some (EPost Add (EVar "i")))
      (SBlock [
        SFor (Some (EAssign (EVar "b") (EConst I32 0))) (EBin Lt (EVar "b") (EConst I32 4)) (Some (EPost Add (EVar "b")))
          (SBlock [
            SExpr (EAssign (EIndex (EIndex (EField (EDeref (EVar "regs")) "A") (EBin Add (EConst I32 0x20) (EVar "i"))) (EVar "b")) (EIndex (EIndex (EField (EDeref (EVar "regs")) "A") (EVar "i")) (EVar "b")))])]);
    SFor (Some (EAssign (EVar "i") (EConst I32 0))) (EBin Lt (EVar "i") (EConst I32 0xa)) (Some (EPost Add (EVar "i")))
      (SBlock [
        SFor (Some (EAssign (EVar "b") (EConst I32 0))) (EBin Lt (EVar "b") (EConst I32 4)) (Some (EPost Add (EVar "b")))
          (SBlock [
            SExpr (EAssign (EIndex (EIndex (EField (EDeref (EVar "regs")) "B") (EBin Add (EConst I32 0x20) (EVar "i"))) (EVar "b")) (EIndex (EIndex (EField (EDeref (EVar "regs")) "B") (EVar "i")) (EVar "b")))])])].

Definition bs_stream_cipher_kernel (c : build) : fundef := mk_fun "dvbcsa_bs_stream_cipher_kernel" (TVoid) [("regs", TPtr (TStruct "dvbcsa_bs_stream_regs_s"))] [
    SDecl (TArr (TWord) 4) "extra_B" None;
    SDecl (TPtr (TArr (TWord) 4)) "A" None;
    SDecl (TPtr (TArr (TWord) 4)) "B" None;
    SDecl (TInt I32) "i" None;
    SDecl (TInt I32) "j" None;
    SDecl (TInt I32) "b" None;
    SExpr (EAssign (EVar "A") (EBin Add (EField (EDeref (EVar "regs")) "A") (EConst I32 0x20)));
    SExpr (EAssign (EVar "B") (EBin Add (EField (EDeref (EVar "regs")) "B") (EConst I32 0x20)));
    SFor (Some (EAssign (EVar "i") (EConst I32 0))) (EBin Lt (EVar "i") (EConst I32 8)) (Some (EPost Add (EVar "i")))
      (SBlock [
        SFor (Some (EAssign (EVar "j") (EConst I32 0))) (EBin Lt (EVar "j") (EConst I32 4)) (Some (EPost Add (EVar "j")))
          (SBlock [
            SExpr (EAssign (EIndex (EVar "extra_B") (EConst I32 3)) (EWop WXor (EWop WXor (EWop WXor (EIndex (EIndex (EVar "B") (EConst I32 2)) (EConst I32 0)) (EIndex (EIndex (EVar "B") (EConst I32 5)) (EConst I32 1))) (EIndex (EIndex (EVar "B") (EConst I32 6)) (EConst I32 2))) (EIndex (EIndex (EVar "B") (EConst I32 8)) (EConst I32 3))));
            SExpr (EAssign (EIndex (EVar "extra_B") (EConst I32 2)) (EWop WXor (EWop WXor (EWop WXor (EIndex (EIndex (EVar "B") (EConst I32 5)) (EConst I32 0)) (EIndex (EIndex (EVar "B") (EConst I32 7)) (EConst I32 1))) (EIndex (EIndex (EVar "B") (EConst I32 2)) (EConst I32 3))) (EIndex (EIndex (EVar "B") (EConst I32 3)) (EConst I32 2))));
            SExpr (EAssign (EIndex (EVar "extra_B") (EConst I32 1)) (EWop WXor (EWop WXor (EWop WXor (EIndex (EIndex (EVar "B") (EConst I32 4)) (EConst I32 3)) (EIndex (EIndex (EVar "B") (EConst I32 7)) (EConst I32 2))) (EIndex (EIndex (EVar "B") (EConst I32 3)) (EConst I32 0))) (EIndex (EIndex (EVar "B") (EConst I32 4)) (EConst I32 1))));
            SExpr (EAssign (EIndex (EVar "extra_B") (EConst I32 0)) (EWop WXor (EWop WXor (EWop WXor (EIndex (EIndex (EVar "B") (EConst I32 8)) (EConst I32 2)) (EIndex (EIndex (EVar "B") (EConst I32 5)) (EConst I32 3))) (EIndex (EIndex (EVar "B") (EConst I32 2)) (EConst I32 1))) (EIndex (EIndex (EVar "B") (EConst I32 7)) (EConst I32 0))));
            SFor (Some (EAssign (EVar "b") (EConst I32 0))) (EBin Lt (EVar "b") (EConst I32 4)) (Some (EPost Add (EVar "b")))
              (SBlock [
                SExpr (EAssign (EIndex (EIndex (EVar "A") (EUn Neg (EConst I32 1))) (EVar "b")) (EWop WXor (EIndex (EIndex (EVar "A") (EConst I32 9)) (EVar "b")) (EIndex (EField (EDeref (EVar "regs")) "X") (EVar "b"))))]);
            SFor (Some (EAssign (EVar "b") (EConst I32 0))) (EBin Lt (EVar "b") (EConst I32 4)) (Some (EPost Add (EVar "b")))
              (SBlock [
                SExpr (EAssign (EIndex (EIndex (EVar "B") (EUn Neg (EConst I32 1))) (EVar "b")) (EWop WXor (EWop WXor (EIndex (EIndex (EVar "B") (EConst I32 6)) (EVar "b")) (EIndex (EIndex (EVar "B") (EConst I32 9)) (EVar "b"))) (EIndex (EField (EDeref (EVar "regs")) "Y") (EVar "b"))))]);
            SBlock [
              SDecl (TWord) "tmp0" None;
              SDecl (TWord) "tmp1" None;
              SDecl (TWord) "tmp2" None;
              SDecl (TWord) "tmp3" None;
              SDecl (TWord) "tmp4" None;
              SExpr (EAssign (EVar "tmp3") (EIndex (EIndex (EVar "B") (EUn Neg (EConst I32 1))) (EConst I32 3)));
              SExpr (EAssign (EVar "tmp2") (EIndex (EIndex (EVar "B") (EUn Neg (EConst I32 1))) (EConst I32 2)));
              SExpr (EAssign (EVar "tmp4") (EField (EDeref (EVar "regs")) "p"));
              SExpr (EAssign (EVar "tmp1") (EIndex (EIndex (EVar "B") (EUn Neg (EConst I32 1))) (EConst I32 1)));
              SExpr (EAssign (EVar "tmp0") (EIndex (EIndex (EVar "B") (EUn Neg (EConst I32 1))) (EConst I32 0)));
              SExpr (EAssign (EIndex (EIndex (EVar "B") (EUn Neg (EConst I32 1))) (EConst I32 3)) (EWop WXor (EVar "tmp3") (EWop WAnd (EWop WXor (EVar "tmp3") (EVar "tmp2")) (EVar "tmp4"))));
              SExpr (EAssign (EIndex (EIndex (EVar "B") (EUn Neg (EConst I32 1))) (EConst I32 2)) (EWop WXor (EVar "tmp2") (EWop WAnd (EWop WXor (EVar "tmp2") (EVar "tmp1")) (EVar "tmp4"))));
              SExpr (EAssign (EIndex (EIndex (EVar "B") (EUn Neg (EConst I32 1))) (EConst I32 1)) (EWop WXor (EVar "tmp1") (EWop WAnd (EWop WXor (EVar "tmp1") (EVar "tmp0")) (EVar "tmp4"))));
              SExpr (EAssign (EIndex (EIndex (EVar "B") (EUn Neg (EConst I32 1))) (EConst I32 0)) (EWop WXor (EVar "tmp0") (EWop WAnd (EWop WXor (EVar "tmp0") (EVar "tmp3")) (EVar "tmp4"))))];
            SBlock [
              SDecl (TWord) "tmp0" None;
              SDecl (TWord) "tmp1" None;
              SDecl (TWord) "tmp2" None;
              SDecl (TWord) "tmp3" None;
              SDecl (TWord) "tmp4" None;
              SExpr (EAssign (EVar "tmp0") (EWop WXor (EIndex (EField (EDeref (EVar "regs")) "Z") (EConst I32 0)) (EIndex (EField (EDeref (EVar "regs")) "E") (EConst I32 0))));
              SExpr (EAssign (EVar "tmp1") (EWop WAnd (EIndex (EField (EDeref (EVar "regs")) "Z") (EConst I32 0)) (EIndex (EField (EDeref (EVar "regs")) "E") (EConst I32 0))));
              SExpr (EAssign (EVar "tmp2") (EIndex (EField (EDeref (EVar "regs")) "F") (EConst I32 0)));
              SExpr (EAssign (EIndex (EField (EDeref (EVar "regs")) "F") (EConst I32 0)) (EWop WXor (EIndex (EField (EDeref (EVar "regs")) "E") (EConst I32 0)) (EWop WAnd (EField (EDeref (EVar "regs")) "q") (EWop WXor (EIndex (EField (EDeref (EVar "regs")) "Z") (EConst I32 0)) (EField (EDeref (EVar "regs")) "r")))));
              SExpr (EAssign (EIndex (EField (EDeref (EVar "regs")) "D") (EConst I32 0)) (EWop WXor (EIndex (EVar "extra_B") (EConst I32 0)) (EVar "tmp0")));
              SExpr (EAssign (EVar "tmp3") (EWop WAnd (EVar "tmp0") (EField (EDeref (EVar "regs")) "r")));
              SExpr (EAssign (EIndex (EField (EDeref (EVar "regs")) "E") (EConst I32 0)) (EVar "tmp2"));
              SExpr (EAssign (EVar "tmp4") (EWop WOr (EVar "tmp1") (EVar "tmp3")));
              SExpr (EAssign (EVar "tmp0") (EWop WXor (EIndex (EField (EDeref (EVar "regs")) "Z") (EConst I32 1)) (EIndex (EField (EDeref (EVar "regs")) "E") (EConst I32 1))));
              SExpr (EAssign (EVar "tmp1") (EWop WAnd (EIndex (EField (EDeref (EVar "regs")) "Z") (EConst I32 1)) (EIndex (EField (EDeref (EVar "regs")) "E") (EConst I32 1))));
              SExpr (EAssign (EVar "tmp2") (EIndex (EField (EDeref (EVar "regs")) "F") (EConst I32 1)));
              SExpr (EAssign (EIndex (EField (EDeref (EVar "regs")) "F") (EConst I32 1)) (EWop WXor (EIndex (EField (EDeref (EVar "regs")) "E") (EConst I32 1)) (EWop WAnd (EField (EDeref (EVar "regs")) "q") (EWop WXor (EIndex (EField (EDeref (EVar "regs")) "Z") (EConst I32 1)) (EVar "tmp4")))));
              SExpr (EAssign (EIndex (EField (EDeref (EVar "regs")) "D") (EConst I32 1)) (EWop WXor (EIndex (EVar "extra_B") (EConst I32 1)) (EVar "tmp0")));
              SExpr (EAssign (EVar "tmp3") (EWop WAnd (EVar "tmp0") (EVar "tmp4")));
              SExpr (EAssign (EIndex (EField (EDeref (EVar "regs")) "E") (EConst I32 1)) (EVar "tmp2"));
              SExpr (EAssign (EVar "tmp4") (EWop WOr (EVar "tmp1") (EVar "tmp3")));
              SExpr (EAssign (EVar "tmp0") (EWop WXor (EIndex (EField (EDeref (EVar "regs")) "Z") (EConst I32 2)) (EIndex (EField (EDeref (EVar "regs")) "E") (EConst I32 2))));
              SExpr (EAssign (EVar "tmp1") (EWop WAnd (EIndex (EField (EDeref (EVar "regs")) "Z") (EConst I32 2)) (EIndex (EField (EDeref (EVar "regs")) "E") (EConst I32 2))));
              SExpr (EAssign (EVar "tmp2") (EIndex (EField (EDeref (EVar "regs")) "F") (EConst I32 2)));
              SExpr (EAssign (EIndex (EField (EDeref (EVar "regs")) "F") (EConst I32 2)) (EWop WXor (EIndex (EField (EDeref (EVar "regs")) "E") (EConst I32 2)) (EWop WAnd (EField (EDeref (EVar "regs")) "q") (EWop WXor (EIndex (EField (EDeref (EVar "regs")) "Z") (EConst I32 2)) (EVar "tmp4")))));
              SExpr (EAssign (EIndex (EField (EDeref (EVar "regs")) "D") (EConst I32 2)) (EWop WXor (EIndex (EVar "extra_B") (EConst I32 2)) (EVar "tmp0")));
              SExpr (EAssign (EVar "tmp3") (EWop WAnd (EVar "tmp0") (EVar "tmp4")));
              SExpr (EAssign (EIndex (EField (EDeref (EVar "regs")) "E") (EConst I32 2)) (EVar "tmp2"));
              SExpr (EAssign (EVar "tmp4") (EWop WOr (EVar "tmp1") (EVar "tmp3")));
              SExpr (EAssign (EVar "tmp0") (EWop WXor (EIndex (EField (EDeref (EVar "regs")) "Z") (EConst I32 3)) (EIndex (EField (EDeref (EVar "regs")) "E") (EConst I32 3))));
              SExpr (EAssign (EVar "tmp1") (EWop WAnd (EIndex (EField (EDeref (EVar "regs")) "Z") (EConst I32 3)) (EIndex (EField (EDeref (EVar "regs")) "E") (EConst I32 3))));
              SExpr (EAssign (EVar "tmp2") (EIndex (EField (EDeref (EVar "regs")) "F") (EConst I32 3)));
              SExpr (EAssign (EIndex (EField (EDeref (EVar "regs")) "F") (EConst I32 3)) (EWop WXor (EIndex (EField (EDeref (EVar "regs")) "E") (EConst I32 3)) (EWop WAnd (EField (EDeref (EVar "regs")) "q") (EWop WXor (EIndex (EField (EDeref (EVar "regs")) "Z") (EConst I32 3)) (EVar "tmp4")))));
              SExpr (EAssign (EIndex (EField (EDeref (EVar "regs")) "D") (EConst I32 3)) (EWop WXor (EIndex (EVar "extra_B") (EConst I32 3)) (EVar "tmp0")));
              SExpr (EAssign (EVar "tmp3") (EWop WAnd (EVar "tmp0") (EVar "tmp4")));
              SExpr (EAssign (EIndex (EField (EDeref (EVar "regs")) "E") (EConst I32 3)) (EVar "tmp2"));
              SExpr (EAssign (EField (EDeref (EVar "regs")) "r") (EWop WXor (EField (EDeref (EVar "regs")) "r") (EWop WAnd (EField (EDeref (EVar "regs")) "q") (EWop WXor (EWop WOr (EVar "tmp1") (EVar "tmp3")) (EField (EDeref (EVar "regs")) "r")))))];
            SExpr (ECall "dvbcsa_bs_stream_sbox1" [(EIndex (EIndex (EVar "A") (EConst I32 0)) (EConst I32 2)); (EIndex (EIndex (EVar "A") (EConst I32 5)) (EConst I32 1)); (EIndex (EIndex (EVar "A") (EConst I32 6)) (EConst I32 3)); (EIndex (EIndex (EVar "A") (EConst I32 8)) (EConst I32 0)); (EIndex (EIndex (EVar "A") (EConst I32 3)) (EConst I32 0)); (EAddr (EIndex (EField (EDeref (EVar "regs")) "X") (EConst I32 0))); (EAddr (EIndex (EField (EDeref (EVar "regs")) "Z") (EConst I32 2)))]);
            SExpr (ECall "dvbcsa_bs_stream_sbox2" [(EIndex (EIndex (EVar "A") (EConst I32 2)) (EConst I32 2)); (EIndex (EIndex (EVar "A") (EConst I32 5)) (EConst I32 3)); (EIndex (EIndex (EVar "A") (EConst I32 6)) (EConst I32 0)); (EIndex (EIndex (EVar "A") (EConst I32 8)) (EConst I32 1)); (EIndex (EIndex (EVar "A") (EConst I32 1)) (EConst I32 1)); (EAddr (EIndex (EField (EDeref (EVar "regs")) "X") (EConst I32 1))); (EAddr (EIndex (EField (EDeref (EVar "regs")) "Z") (EConst I32 3)))]);
            SExpr (ECall "dvbcsa_bs_stream_sbox3" [(EIndex (EIndex (EVar "A") (EConst I32 1)) (EConst I32 0)); (EIndex (EIndex (EVar "A") (EConst I32 4)) (EConst I32 1)); (EIndex (EIndex (EVar "A") (EConst I32 4)) (EConst I32 3)); (EIndex (EIndex (EVar "A") (EConst I32 5)) (EConst I32 2)); (EIndex (EIndex (EVar "A") (EConst I32 0)) (EConst I32 3)); (EAddr (EIndex (EField (EDeref (EVar "regs")) "Y") (EConst I32 0))); (EAddr (EIndex (EField (EDeref (EVar "regs")) "X") (EConst I32 2)))]);
            SExpr (ECall "dvbcsa_bs_stream_sbox4" [(EIndex (EIndex (EVar "A") (EConst I32 0)) (EConst I32 1)); (EIndex (EIndex (EVar "A") (EConst I32 1)) (EConst I32 3)); (EIndex (EIndex (EVar "A") (EConst I32 3)) (EConst I32 2)); (EIndex (EIndex (EVar "A") (EConst I32 7)) (EConst I32 0)); (EIndex (EIndex (EVar "A") (EConst I32 2)) (EConst I32 3)); (EAddr (EIndex (EField (EDeref (EVar "regs")) "Y") (EConst I32 1))); (EAddr (EIndex (EField (EDeref (EVar "regs")) "X") (EConst I32 3)))]);
            SExpr (ECall "dvbcsa_bs_stream_sbox5" [(EIndex (EIndex (EVar "A") (EConst I32 3)) (EConst I32 3)); (EIndex (EIndex (EVar "A") (EConst I32 5)) (EConst I32 0)); (EIndex (EIndex (EVar "A") (EConst I32 7)) (EConst I32 1)); (EIndex (EIndex (EVar "A") (EConst I32 8)) (EConst I32 2)); (EIndex (EIndex (EVar "A") (EConst I32 4)) (EConst I32 2)); (EAddr (EIndex (EField (EDeref (EVar "regs")) "Z") (EConst I32 0))); (EAddr (EIndex (EField (EDeref (EVar "regs")) "Y") (EConst I32 2)))]);
            SExpr (ECall "dvbcsa_bs_stream_sbox6" [(EIndex (EIndex (EVar "A") (EConst I32 3)) (EConst I32 1)); (EIndex (EIndex (EVar "A") (EConst I32 4)) (EConst I32 0)); (EIndex (EIndex (EVar "A") (EConst I32 6)) (EConst I32 2)); (EIndex (EIndex (EVar "A") (EConst I32 8)) (EConst I32 3)); (EIndex (EIndex (EVar "A") (EConst I32 2)) (EConst I32 1)); (EAddr (EIndex (EField (EDeref (EVar "regs")) "Z") (EConst I32 1))); (EAddr (EIndex (EField (EDeref (EVar "regs")) "Y") (EConst I32 3)))]);
            SExpr (ECall "dvbcsa_bs_stream_sbox7" [(EIndex (EIndex (EVar "A") (EConst I32 2)) (EConst I32 0)); (EIndex (EIndex (EVar "A") (EConst I32 6)) (EConst I32 1)); (EIndex (EIndex (EVar "A") (EConst I32 7)) (EConst I32 2)); (EIndex (EIndex (EVar "A") (EConst I32 7)) (EConst I32 3)); (EIndex (EIndex (EVar "A") (EConst I32 1)) (EConst I32 2)); (EAddr (EField (EDeref (EVar "regs")) "p")); (EAddr (EField (EDeref (EVar "regs")) "q"))]);
            SExpr (EPost Sub (EVar "A"));
            SExpr (EPost Sub (EVar "B"));
            SExpr (EAssign (EIndex (EField (EDeref (EVar "regs")) "sb") (EBin Sub (EBin Add (EBin Mul (EVar "i") (EConst I32 8)) (EConst I32 7)) (EBin Mul (EConst I32 2) (EVar "j")))) (EWop WXor (EIndex (EField (EDeref (EVar "regs")) "D") (EConst I32 2)) (EIndex (EField (EDeref (EVar "regs")) "D") (EConst I32 3))));
            SExpr (EAssign (EIndex (EField (EDeref (EVar "regs")) "sb") (EBin Sub (EBin Add (EBin Mul (EVar "i") (EConst I32 8)) (EConst I32 6)) (EBin Mul (EConst I32 2) (EVar "j")))) (EWop WXor (EIndex (EField (EDeref (EVar "regs")) "D") (EConst I32 0)) (EIndex (EField (EDeref (EVar "regs")) "D") (EConst I32 1))))])]);
    SFor (Some (EAssign (EVar "i") (EConst I32 0))) (EBin Lt (EVar "i") (EConst I32 0xa)) (Some (EPost Add (EVar "i")))
      (SBlock [
        SFor (Some (EAssign (EVar "b") (EConst I32 0))) (EBin Lt (EVar "b") (EConst I32 4)) (Some (EPost Add (EVar "b")))
          (SBlock [
            SExpr (EAssign (EIndex (EIndex (EField (EDeref (EVar "regs")) "A") (EBin Add (EConst I32 0x20) (EVar "i"))) (EVar "b")) (EIndex (EIndex (EField (EDeref (EVar "regs")) "A") (EVar "i")) (EVar "b")))])]);
    SFor (Some (EAssign (EVar "i") (EConst I32 0))) (EBin Lt (EVar "i") (EConst I32 0xa)) (Some (EPost Add (EVar "i")))
      (SBlock [
        SFor (Some (EAssign (EVar "b") (EConst I32 0))) (EBin Lt (EVar "b") (EConst I32 4)) (Some (EPost Add (EVar "b")))
          (SBlock [
            SExpr (EAssign (EIndex (EIndex (EField (EDeref (EVar "regs")) "B") (EBin Add (EConst I32 0x20) (EVar "i"))) (EVar "b")) (EIndex (EIndex (EField (EDeref (EVar "regs")) "B") (EVar "i")) (EVar "b")))])])].

Definition bs_stream_cipher_batch (c : build) : fundef := mk_fun "dvbcsa_bs_stream_cipher_batch" (TVoid) [("key", TPtr (TStruct "dvbcsa_bs_key_s")); ("pkt_buf", TPtr (TStruct "dvbcsa_bs_pkt_buf")); ("maxlen", TInt U32)] [
    SDecl (TStruct "dvbcsa_bs_stream_regs_s") "regs" None;
    SDecl (TInt I32) "i" None;
    SDecl (TInt I32) "b" None;
    SDecl (TInt U32) "h" None;
    SExpr (ECall "dvbcsa_bs_stream_transpose_in" [(EVar "pkt_buf"); (EField (EVar "regs") "sb")]);
    SFor (Some (EAssign (EVar "b") (EConst I32 0))) (EBin Lt (EVar "b") (EConst I32 4)) (Some (EPost Add (EVar "b")))
      (SBlock [
        SFor (Some (EAssign (EVar "i") (EConst I32 0))) (EBin Lt (EVar "i") (EConst I32 8)) (Some (EPost Add (EVar "i")))
          (SBlock [
            SExpr (EAssign (EIndex (EIndex (EField (EVar "regs") "A") (EBin Add (EConst I32 0x20) (EVar "i"))) (EVar "b")) (EIndex (EField (EDeref (EVar "key")) "stream") (EBin Add (EVar "b") (EBin Mul (EVar "i") (EConst I32 4)))));
            SExpr (EAssign (EIndex (EIndex (EField (EVar "regs") "B") (EBin Add (EConst I32 0x20) (EVar "i"))) (EVar "b")) (EIndex (EField (EDeref (EVar "key")) "stream") (EBin Add (EBin Add (EVar "b") (EBin Mul (EVar "i") (EConst I32 4))) (EConst I32 0x20))))]);
        SExpr (EAssign (EIndex (EIndex (EField (EVar "regs") "A") (EBin Add (EConst I32 0x20) (EConst I32 8))) (EVar "b")) (EWVal 1 0x0));
        SExpr (EAssign (EIndex (EIndex (EField (EVar "regs") "A") (EBin Add (EConst I32 0x20) (EConst I32 9))) (EVar "b")) (EWVal 1 0x0));
        SExpr (EAssign (EIndex (EIndex (EField (EVar "regs") "B") (EBin Add (EConst I32 0x20) (EConst I32 8))) (EVar "b")) (EWVal 1 0x0));
        SExpr (EAssign (EIndex (EIndex (EField (EVar "regs") "B") (EBin Add (EConst I32 0x20) (EConst I32 9))) (EVar "b")) (EWVal 1 0x0));
        SExpr (EAssign (EIndex (EField (EVar "regs") "X") (EVar "b")) (EWVal 1 0x0));
        SExpr (EAssign (EIndex (EField (EVar "regs") "Y") (EVar "b")) (EWVal 1 0x0));
        SExpr (EAssign (EIndex (EField (EVar "regs") "Z") (EVar "b")) (EWVal 1 0x0));
        SExpr (EAssign (EIndex (EField (EVar "regs") "D") (EVar "b")) (EWVal 1 0x0));
        SExpr (EAssign (EIndex (EField (EVar "regs") "E") (EVar "b")) (EWVal 1 0x0));
        SExpr (EAssign (EIndex (EField (EVar "regs") "F") (EVar "b")) (EWVal 1 0x0))]);
    SExpr (EAssign (EField (EVar "regs") "p") (EWVal 1 0x0));
    SExpr (EAssign (EField (EVar "regs") "q") (EWVal 1 0x0));
    SExpr (EAssign (EField (EVar "regs") "r") (EWVal 1 0x0));
    SExpr (ECall "dvbcsa_bs_stream_cipher_kernel_init" [(EAddr (EVar "regs"))]);
    SFor (Some (EAssign (EVar "h") (EConst I32 8))) (EBin Lt (EVar "h") (EVar "maxlen")) (Some (EOpAssign Add (EVar "h") (EConst I32 8)))
      (SBlock [
        SExpr (ECall "dvbcsa_bs_stream_cipher_kernel" [(EAddr (EVar "regs"))]);
        SExpr (ECall "dvbcsa_bs_stream_transpose_out" [(EVar "pkt_buf"); (EVar "h"); (EField (EVar "regs") "sb")])])].

Definition bs_dvbcsa_pkt_buf_load (c : build) : fundef := mk_fun "dvbcsa_pkt_buf_load" (TVoid) [("pkt_buf", TPtr (TStruct "dvbcsa_bs_pkt_buf")); ("pcks", TPtr (TStruct "dvbcsa_bs_batch_s")); ("maxlen", TInt U32)] [
    SDecl (TInt I32) "i" None;
    SDecl (TPtr (TStruct "dvbcsa_bs_block8_t")) "block" (Some (EField (EDeref (EVar "pkt_buf")) "data"));
    SFor (Some (EAssign (EVar "i") (EConst I32 0))) (EField (EIndex (EVar "pcks") (EVar "i")) "data") (Some (EComma (EPost Add (EVar "i")) (EOpAssign Add (EVar "block") (EBin Div (EConst I32 0xb8) (EConst I32 8)))))
      (SBlock [
        SExpr (EAssign (EIndex (EField (EDeref (EVar "pkt_buf")) "len8") (EVar "i")) (EBin And (EField (EIndex (EVar "pcks") (EVar "i")) "len") (ECast (TInt U32) (EUn Not (EConst I32 7)))));
        SExpr (ECall "memcpy" [(EVar "block"); (EField (EIndex (EVar "pcks") (EVar "i")) "data"); (EField (EIndex (EVar "pcks") (EVar "i")) "len")])]);
    SExpr (EAssign (EField (EDeref (EVar "pkt_buf")) "n_packets") (EVar "i"));
    SExpr (EAssign (EField (EDeref (EVar "pkt_buf")) "maxlen") (EVar "maxlen"))].

Definition bs_dvbcsa_pkt_buf_store (c : build) : fundef := mk_fun "dvbcsa_pkt_buf_store" (TVoid) [("pkt_buf", TPtr (TStruct "dvbcsa_bs_pkt_buf")); ("pcks", TPtr (TStruct "dvbcsa_bs_batch_s"))] [
    SDecl (TInt I32) "i" None;
    SDecl (TPtr (TStruct "dvbcsa_bs_block8_t")) "block" (Some (EField (EDeref (EVar "pkt_buf")) "data"));
    SFor (Some (EAssign (EVar "i") (EConst I32 0))) (EField (EIndex (EVar "pcks") (EVar "i")) "data") (Some (EComma (EPost Add (EVar "i")) (EOpAssign Add (EVar "block") (EBin Div (EConst I32 0xb8) (EConst I32 8)))))
      (SBlock [
        SExpr (ECall "memcpy" [(EField (EIndex (EVar "pcks") (EVar "i")) "data"); (EVar "block"); (EField (EIndex (EVar "pcks") (EVar "i")) "len")])])].

Definition bs_decrypt_1 (c : build) : fundef := mk_fun "dvbcsa_bs_decrypt" (TVoid) [("key", TPtr (TStruct "dvbcsa_bs_key_s")); ("pcks", TPtr (TStruct "dvbcsa_bs_batch_s")); ("maxlen", TInt U32)] [
    SDecl (TStruct "dvbcsa_bs_pkt_buf") "pbuf" None;
    SAssert (EBin Eq (EBin Mod (EVar "maxlen") (EConst I32 8)) (EConst I32 0));
    SAssert (EBin Le (EVar "maxlen") (EConst I32 0xb8));
    SExpr (ECall "dvbcsa_pkt_buf_load" [(EAddr (EVar "pbuf")); (EVar "pcks"); (EVar "maxlen")]);
    SExpr (ECall "dvbcsa_bs_stream_cipher_batch" [(EVar "key"); (EAddr (EVar "pbuf")); (EVar "maxlen")]);
    SExpr (ECall "dvbcsa_bs_block_decrypt_batch" [(EVar "key"); (EAddr (EVar "pbuf")); (EVar "maxlen")]);
    SExpr (ECall "dvbcsa_pkt_buf_store" [(EAddr (EVar "pbuf")); (EVar "pcks")])].

Definition bs_decrypt_2 (c : build) : fundef := mk_fun "dvbcsa_bs_decrypt" (TVoid) [("key", TPtr (TStruct "dvbcsa_bs_key_s")); ("pcks", TPtr (TStruct "dvbcsa_bs_batch_s")); ("maxlen", TInt U32)] [
    SDecl (TStruct "dvbcsa_bs_pkt_buf") "pbuf" None;
    SExpr (ECall "dvbcsa_pkt_buf_load" [(EAddr (EVar "pbuf")); (EVar "pcks"); (EVar "maxlen")]);
    SExpr (ECall "dvbcsa_bs_stream_cipher_batch" [(EVar "key"); (EAddr (EVar "pbuf")); (EVar "maxlen")]);
    SExpr (ECall "dvbcsa_bs_block_decrypt_batch" [(EVar "key"); (EAddr (EVar "pbuf")); (EVar "maxlen")]);
    SExpr (ECall "dvbcsa_pkt_buf_store" [(EAddr (EVar "pbuf")); (EVar "pcks")])].

Definition bs_decrypt (c : build) : fundef := (if have_assert c then bs_decrypt_1 c else bs_decrypt_2 c).

Definition bs_encrypt_1 (c : build) : fundef := mk_fun "dvbcsa_bs_encrypt" (TVoid) [("key", TPtr (TStruct "dvbcsa_bs_key_s")); ("pcks", TPtr (TStruct "dvbcsa_bs_batch_s")); ("maxlen", TInt U32)] [
    SDecl (TStruct "dvbcsa_bs_pkt_buf") "pbuf" None;
    SAssert (EBin Eq (EBin Mod (EVar "maxlen") (EConst I32 8)) (EConst I32 0));
    SAssert (EBin Le (EVar "maxlen") (EConst I32 0xb8));
    SExpr (ECall "dvbcsa_pkt_buf_load" [(EAddr (EVar "pbuf")); (EVar "pcks"); (EVar "maxlen")]);
    SExpr (ECall "dvbcsa_bs_block_encrypt_batch" [(EVar "key"); (EAddr (EVar "pbuf")); (EVar "maxlen")]);
    SExpr (ECall "dvbcsa_bs_stream_cipher_batch" [(EVar "key"); (EAddr (EVar "pbuf")); (EVar "maxlen")]);
    SExpr (ECall "dvbcsa_pkt_buf_store" [(EAddr (EVar "pbuf")); (EVar "pcks")])].

Definition bs_encrypt_2 (c : build) : fundef := mk_fun "dvbcsa_bs_encrypt" (TVoid) [("key", TPtr (TStruct "dvbcsa_bs_key_s")); ("pcks", TPtr (TStruct "dvbcsa_bs_batch_s")); ("maxlen", TInt U32)] [
    SDecl (TStruct "dvbcsa_bs_pkt_buf") "pbuf" None;
    SExpr (ECall "dvbcsa_pkt_buf_load" [(EAddr (EVar "pbuf")); (EVar "pcks"); (EVar "maxlen")]);
    SExpr (ECall "dvbcsa_bs_block_encrypt_batch" [(EVar "key"); (EAddr (EVar "pbuf")); (EVar "maxlen")]);
    SExpr (ECall "dvbcsa_bs_stream_cipher_batch" [(EVar "key"); (EAddr (EVar "pbuf")); (EVar "maxlen")]);
    SExpr (ECall "dvbcsa_pkt_buf_store" [(EAddr (EVar "pbuf")); (EVar "pcks")])].

Definition bs_encrypt (c : build) : fundef := (if have_assert c then bs_encrypt_1 c else bs_encrypt_2 c).

Definition bs_key_set_1 (c : build) : fundef := mk_fun "dvbcsa_bs_key_set" (TVoid) [("cw", TPtr (TInt U8)); ("key", TPtr (TStruct "dvbcsa_bs_key_s"))] [
    SDecl (TArr (TInt U8) 56) "kk" None;
    SDecl (TInt I32) "i" None;
    SDecl (TInt U64) "ck" (Some (ECall "dvbcsa_load_le64" [(EVar "cw")]));
    SFor (Some (EAssign (EVar "i") (EConst I32 0))) (EBin Lt (EVar "i") (EConst I32 0x40)) (Some (EPost Add (EVar "i")))
      (SBlock [
        SExpr (EAssign (EIndex (EField (EDeref (EVar "key")) "stream") (EVar "i")) (ECond (EBin And (EBin Shr (EVar "ck") (EBin Xor (EVar "i") (EConst I32 4))) (EConst I32 1)) (EWVal 1 0xff) (EWVal 1 0x0)))]);
    SExpr (ECall "dvbcsa_key_schedule_block" [(EVar "cw"); (EVar "kk")]);
    SFor (Some (EAssign (EVar "i") (EConst I32 0))) (EBin Lt (EVar "i") (EConst I32 0x38)) (Some (EPost Add (EVar "i")))
      (SBlock [
        SExpr (EAssign (EDeref (ECast (TPtr (TInt U32)) (EBin Add (EField (EDeref (EVar "key")) "block") (EVar "i")))) (EBin Mul (EIndex (EVar "kk") (EVar "i")) (EConst I32 0x1010101)))])].

Definition bs_key_set_2 (c : build) : fundef := mk_fun "dvbcsa_bs_key_set" (TVoid) [("cw", TPtr (TInt U8)); ("key", TPtr (TStruct "dvbcsa_bs_key_s"))] [
    SDecl (TArr (TInt U8) 56) "kk" None;
    SDecl (TInt I32) "i" None;
    SDecl (TInt U64) "ck" (Some (ECall "dvbcsa_load_le64" [(EVar "cw")]));
    SFor (Some (EAssign (EVar "i") (EConst I32 0))) (EBin Lt (EVar "i") (EConst I32 0x40)) (Some (EPost Add (EVar "i")))
      (SBlock [
        SExpr (EAssign (EIndex (EField (EDeref (EVar "key")) "stream") (EVar "i")) (ECond (EBin And (EBin Shr (EVar "ck") (EBin Xor (EVar "i") (EConst I32 4))) (EConst I32 1)) (EWVal 1 0xff) (EWVal 1 0x0)))]);
    SExpr (ECall "dvbcsa_key_schedule_block" [(EVar "cw"); (EVar "kk")]);
    SFor (Some (EAssign (EVar "i") (EConst I32 0))) (EBin Lt (EVar "i") (EConst I32 0x38)) (Some (EPost Add (EVar "i")))
      (SBlock [
        SExpr (EAssign (EDeref (ECast (TPtr (TInt U64)) (EBin Add (EField (EDeref (EVar "key")) "block") (EVar "i")))) (EBin Mul (EIndex (EVar "kk") (EVar "i")) (EConst U64 0x101010101010101)))])].

Definition bs_key_set_3 (c : build) : fundef := mk_fun "dvbcsa_bs_key_set" (TVoid) [("cw", TPtr (TInt U8)); ("key", TPtr (TStruct "dvbcsa_bs_key_s"))] [
    SDecl (TArr (TInt U8) 56) "kk" None;
    SDecl (TInt I32) "i" None;
    SDecl (TInt U64) "ck" (Some (ECall "dvbcsa_load_le64" [(EVar "cw")]));
    SFor (Some (EAssign (EVar "i") (EConst I32 0))) (EBin Lt (EVar "i") (EConst I32 0x40)) (Some (EPost Add (EVar "i")))
      (SBlock [
        SExpr (EAssign (EIndex (EField (EDeref (EVar "key")) "stream") (EVar "i")) (ECond (EBin And (EBin Shr (EVar "ck") (EBin Xor (EVar "i") (EConst I32 4))) (EConst I32 1)) (EWVal 1 0xff) (EWVal 1 0x0)))]);
    SExpr (ECall "dvbcsa_key_schedule_block" [(EVar "cw"); (EVar "kk")]);
    SFor (Some (EAssign (EVar "i") (EConst I32 0))) (EBin Lt (EVar "i") (EConst I32 0x38)) (Some (EPost Add (EVar "i")))
      (SBlock [
        SDecl (TInt U64) "v" (Some (EBin Mul (EIndex (EVar "kk") (EVar "i")) (EConst U64 0x101010101010101)));
        SDecl (TInt I32) "j" None;
        SFor (Some (EAssign (EVar "j") (EConst I32 0))) (EBin Lt (EVar "j") (EBin Div (EConst I32 (N.of_nat (word_bytes c))) (EConst I32 8))) (Some (EPost Add (EVar "j")))
          (SBlock [
            SExpr (EAssign (EDeref (EBin Add (ECast (TPtr (TInt U64)) (EBin Add (EField (EDeref (EVar "key")) "block") (EVar "i"))) (EVar "j"))) (EVar "v"))])])].

Definition bs_key_set (c : build) : fundef := match tgt c with UINT32 => bs_key_set_1 c | UINT64 | MMX => bs_key_set_2 c | SSE2 | SSSE3 | AVX2 | NEON => bs_key_set_3 c end.

(* later functions first *)
Definition src_bs_program (c : build) : list fundef :=
  [bs_key_set c;
   bs_encrypt c;
   bs_decrypt c;
   bs_dvbcsa_pkt_buf_store c;
   bs_dvbcsa_pkt_buf_load c;
   bs_stream_cipher_batch c;
   bs_stream_cipher_kernel c;
   bs_stream_cipher_kernel_init c;
   bs_stream_sbox7 c;
   bs_stream_sbox6 c;
   bs_stream_sbox5 c;
   bs_stream_sbox4 c;
   bs_stream_sbox3 c;
   bs_stream_sbox2 c;
   bs_stream_sbox1 c;
   bs_block_encrypt_batch c;
   bs_block_encrypt_block c;
   bs_block_encrypt_register c;
   bs_block_decrypt_batch c;
   bs_block_decrypt_block c;
   bs_block_decrypt_register c;
   bs_stream_transpose_out c;
   bs_stream_transpose_in c;
   bs_matrix_transpose_64x32 c;
   bs_matrix_transpose_64x c;
   bs_block_transpose_out_and_xor c;
   bs_block_transpose_in c;
   bs_matrix_transpose_block c].
