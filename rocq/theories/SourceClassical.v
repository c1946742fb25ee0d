(* GENERATED by tools/gen_source.py from the C text of /repo/src (dvbcsa_pv.h, dvbcsa_key.c, dvbcsa_block.c, dvbcsa_stream.c, dvbcsa_algo.c):
   the syntax trees of the functions, for MiniC.v. *)
From Coq Require Import String.
From Verif Require Import Base MiniC.
Local Open Scope N_scope.
Local Open Scope string_scope.
Import ListNotations.

Definition src_tab_kperm : list N := [
   0x0; 0x80000; 0x8000000; 0x8080000; 0x80000000000000; 0x80000000080000; 0x80000008000000; 0x80000008080000;
   0x400000000000; 0x400000080000; 0x400008000000; 0x400008080000; 0x80400000000000; 0x80400000080000; 0x80400008000000; 0x80400008080000;
   0x2; 0x80002; 0x8000002; 0x8080002; 0x80000000000002; 0x80000000080002; 0x80000008000002; 0x80000008080002;
   0x400000000002; 0x400000080002; 0x400008000002; 0x400008080002; 0x80400000000002; 0x80400000080002; 0x80400008000002; 0x80400008080002;
   0x8000; 0x88000; 0x8008000; 0x8088000; 0x80000000008000; 0x80000000088000; 0x80000008008000; 0x80000008088000;
   0x400000008000; 0x400000088000; 0x400008008000; 0x400008088000; 0x80400000008000; 0x80400000088000; 0x80400008008000; 0x80400008088000;
   0x8002; 0x88002; 0x8008002; 0x8088002; 0x80000000008002; 0x80000000088002; 0x80000008008002; 0x80000008088002;
   0x400000008002; 0x400000088002; 0x400008008002; 0x400008088002; 0x80400000008002; 0x80400000088002; 0x80400008008002; 0x80400008088002;
   0x1000000000; 0x1000080000; 0x1008000000; 0x1008080000; 0x80001000000000; 0x80001000080000; 0x80001008000000; 0x80001008080000;
   0x401000000000; 0x401000080000; 0x401008000000; 0x401008080000; 0x80401000000000; 0x80401000080000; 0x80401008000000; 0x80401008080000;
   0x1000000002; 0x1000080002; 0x1008000002; 0x1008080002; 0x80001000000002; 0x80001000080002; 0x80001008000002; 0x80001008080002;
   0x401000000002; 0x401000080002; 0x401008000002; 0x401008080002; 0x80401000000002; 0x80401000080002; 0x80401008000002; 0x80401008080002;
   0x1000008000; 0x1000088000; 0x1008008000; 0x1008088000; 0x80001000008000; 0x80001000088000; 0x80001008008000; 0x80001008088000;
   0x401000008000; 0x401000088000; 0x401008008000; 0x401008088000; 0x80401000008000; 0x80401000088000; 0x80401008008000; 0x80401008088000;
   0x1000008002; 0x1000088002; 0x1008008002; 0x1008088002; 0x80001000008002; 0x80001000088002; 0x80001008008002; 0x80001008088002;
   0x401000008002; 0x401000088002; 0x401008008002; 0x401008088002; 0x80401000008002; 0x80401000088002; 0x80401008008002; 0x80401008088002;
   0x400000; 0x480000; 0x8400000; 0x8480000; 0x80000000400000; 0x80000000480000; 0x80000008400000; 0x80000008480000;
   0x400000400000; 0x400000480000; 0x400008400000; 0x400008480000; 0x80400000400000; 0x80400000480000; 0x80400008400000; 0x80400008480000;
   0x400002; 0x480002; 0x8400002; 0x8480002; 0x80000000400002; 0x80000000480002; 0x80000008400002; 0x80000008480002;
   0x400000400002; 0x400000480002; 0x400008400002; 0x400008480002; 0x80400000400002; 0x80400000480002; 0x80400008400002; 0x80400008480002;
   0x408000; 0x488000; 0x8408000; 0x8488000; 0x80000000408000; 0x80000000488000; 0x80000008408000; 0x80000008488000;
   0x400000408000; 0x400000488000; 0x400008408000; 0x400008488000; 0x80400000408000; 0x80400000488000; 0x80400008408000; 0x80400008488000;
   0x408002; 0x488002; 0x8408002; 0x8488002; 0x80000000408002; 0x80000000488002; 0x80000008408002; 0x80000008488002;
   0x400000408002; 0x400000488002; 0x400008408002; 0x400008488002; 0x80400000408002; 0x80400000488002; 0x80400008408002; 0x80400008488002;
   0x1000400000; 0x1000480000; 0x1008400000; 0x1008480000; 0x80001000400000; 0x80001000480000; 0x80001008400000; 0x80001008480000;
   0x401000400000; 0x401000480000; 0x401008400000; 0x401008480000; 0x80401000400000; 0x80401000480000; 0x80401008400000; 0x80401008480000;
   0x1000400002; 0x1000480002; 0x1008400002; 0x1008480002; 0x80001000400002; 0x80001000480002; 0x80001008400002; 0x80001008480002;
   0x401000400002; 0x401000480002; 0x401008400002; 0x401008480002; 0x80401000400002; 0x80401000480002; 0x80401008400002; 0x80401008480002;
   0x1000408000; 0x1000488000; 0x1008408000; 0x1008488000; 0x80001000408000; 0x80001000488000; 0x80001008408000; 0x80001008488000;
   0x401000408000; 0x401000488000; 0x401008408000; 0x401008488000; 0x80401000408000; 0x80401000488000; 0x80401008408000; 0x80401008488000;
   0x1000408002; 0x1000488002; 0x1008408002; 0x1008488002; 0x80001000408002; 0x80001000488002; 0x80001008408002; 0x80001008488002;
   0x401000408002; 0x401000488002; 0x401008408002; 0x401008488002; 0x80401000408002; 0x80401000488002; 0x80401008408002; 0x80401008488002;
   0x0; 0x100000000000000; 0x2000000000000000; 0x2100000000000000; 0x8000000000; 0x100008000000000; 0x2000008000000000; 0x2100008000000000;
   0x200000; 0x100000000200000; 0x2000000000200000; 0x2100000000200000; 0x8000200000; 0x100008000200000; 0x2000008000200000; 0x2100008000200000;
   0x40000000000000; 0x140000000000000; 0x2040000000000000; 0x2140000000000000; 0x40008000000000; 0x140008000000000; 0x2040008000000000; 0x2140008000000000;
   0x40000000200000; 0x140000000200000; 0x2040000000200000; 0x2140000000200000; 0x40008000200000; 0x140008000200000; 0x2040008000200000; 0x2140008000200000;
   0x400000000000000; 0x500000000000000; 0x2400000000000000; 0x2500000000000000; 0x400008000000000; 0x500008000000000; 0x2400008000000000; 0x2500008000000000;
   0x400000000200000; 0x500000000200000; 0x2400000000200000; 0x2500000000200000; 0x400008000200000; 0x500008000200000; 0x2400008000200000; 0x2500008000200000;
   0x440000000000000; 0x540000000000000; 0x2440000000000000; 0x2540000000000000; 0x440008000000000; 0x540008000000000; 0x2440008000000000; 0x2540008000000000;
   0x440000000200000; 0x540000000200000; 0x2440000000200000; 0x2540000000200000; 0x440008000200000; 0x540008000200000; 0x2440008000200000; 0x2540008000200000;
   0x4000000000000; 0x104000000000000; 0x2004000000000000; 0x2104000000000000; 0x4008000000000; 0x104008000000000; 0x2004008000000000; 0x2104008000000000;
   0x4000000200000; 0x104000000200000; 0x2004000000200000; 0x2104000000200000; 0x4008000200000; 0x104008000200000; 0x2004008000200000; 0x2104008000200000;
   0x44000000000000; 0x144000000000000; 0x2044000000000000; 0x2144000000000000; 0x44008000000000; 0x144008000000000; 0x2044008000000000; 0x2144008000000000;
   0x44000000200000; 0x144000000200000; 0x2044000000200000; 0x2144000000200000; 0x44008000200000; 0x144008000200000; 0x2044008000200000; 0x2144008000200000;
   0x404000000000000; 0x504000000000000; 0x2404000000000000; 0x2504000000000000; 0x404008000000000; 0x504008000000000; 0x2404008000000000; 0x2504008000000000;
   0x404000000200000; 0x504000000200000; 0x2404000000200000; 0x2504000000200000; 0x404008000200000; 0x504008000200000; 0x2404008000200000; 0x2504008000200000;
   0x444000000000000; 0x544000000000000; 0x2444000000000000; 0x2544000000000000; 0x444008000000000; 0x544008000000000; 0x2444008000000000; 0x2544008000000000;
   0x444000000200000; 0x544000000200000; 0x2444000000200000; 0x2544000000200000; 0x444008000200000; 0x544008000200000; 0x2444008000200000; 0x2544008000200000;
   0x10000000; 0x100000010000000; 0x2000000010000000; 0x2100000010000000; 0x8010000000; 0x100008010000000; 0x2000008010000000; 0x2100008010000000;
   0x10200000; 0x100000010200000; 0x2000000010200000; 0x2100000010200000; 0x8010200000; 0x100008010200000; 0x2000008010200000; 0x2100008010200000;
   0x40000010000000; 0x140000010000000; 0x2040000010000000; 0x2140000010000000; 0x40008010000000; 0x140008010000000; 0x2040008010000000; 0x2140008010000000;
   0x40000010200000; 0x140000010200000; 0x2040000010200000; 0x2140000010200000; 0x40008010200000; 0x140008010200000; 0x2040008010200000; 0x2140008010200000;
   0x400000010000000; 0x500000010000000; 0x2400000010000000; 0x2500000010000000; 0x400008010000000; 0x500008010000000; 0x2400008010000000; 0x2500008010000000;
   0x400000010200000; 0x500000010200000; 0x2400000010200000; 0x2500000010200000; 0x400008010200000; 0x500008010200000; 0x2400008010200000; 0x2500008010200000;
   0x440000010000000; 0x540000010000000; 0x2440000010000000; 0x2540000010000000; 0x440008010000000; 0x540008010000000; 0x2440008010000000; 0x2540008010000000;
   0x440000010200000; 0x540000010200000; 0x2440000010200000; 0x2540000010200000; 0x440008010200000; 0x540008010200000; 0x2440008010200000; 0x2540008010200000;
   0x4000010000000; 0x104000010000000; 0x2004000010000000; 0x2104000010000000; 0x4008010000000; 0x104008010000000; 0x2004008010000000; 0x2104008010000000;
   0x4000010200000; 0x104000010200000; 0x2004000010200000; 0x2104000010200000; 0x4008010200000; 0x104008010200000; 0x2004008010200000; 0x2104008010200000;
   0x44000010000000; 0x144000010000000; 0x2044000010000000; 0x2144000010000000; 0x44008010000000; 0x144008010000000; 0x2044008010000000; 0x2144008010000000;
   0x44000010200000; 0x144000010200000; 0x2044000010200000; 0x2144000010200000; 0x44008010200000; 0x144008010200000; 0x2044008010200000; 0x2144008010200000;
   0x404000010000000; 0x504000010000000; 0x2404000010000000; 0x2504000010000000; 0x404008010000000; 0x504008010000000; 0x2404008010000000; 0x2504008010000000;
   0x404000010200000; 0x504000010200000; 0x2404000010200000; 0x2504000010200000; 0x404008010200000; 0x504008010200000; 0x2404008010200000; 0x2504008010200000;
   0x444000010000000; 0x544000010000000; 0x2444000010000000; 0x2544000010000000; 0x444008010000000; 0x544008010000000; 0x2444008010000000; 0x2544008010000000;
   0x444000010200000; 0x544000010200000; 0x2444000010200000; 0x2544000010200000; 0x444008010200000; 0x544008010200000; 0x2444008010200000; 0x2544008010200000;
   0x0; 0x80; 0x20000000; 0x20000080; 0x8000000000000; 0x8000000000080; 0x8000020000000; 0x8000020000080;
   0x40; 0xc0; 0x20000040; 0x200000c0; 0x8000000000040; 0x80000000000c0; 0x8000020000040; 0x80000200000c0;
   0x200000000; 0x200000080; 0x220000000; 0x220000080; 0x8000200000000; 0x8000200000080; 0x8000220000000; 0x8000220000080;
   0x200000040; 0x2000000c0; 0x220000040; 0x2200000c0; 0x8000200000040; 0x80002000000c0; 0x8000220000040; 0x80002200000c0;
   0x800000000; 0x800000080; 0x820000000; 0x820000080; 0x8000800000000; 0x8000800000080; 0x8000820000000; 0x8000820000080;
   0x800000040; 0x8000000c0; 0x820000040; 0x8200000c0; 0x8000800000040; 0x80008000000c0; 0x8000820000040; 0x80008200000c0;
   0xa00000000; 0xa00000080; 0xa20000000; 0xa20000080; 0x8000a00000000; 0x8000a00000080; 0x8000a20000000; 0x8000a20000080;
   0xa00000040; 0xa000000c0; 0xa20000040; 0xa200000c0; 0x8000a00000040; 0x8000a000000c0; 0x8000a20000040; 0x8000a200000c0;
   0x100000; 0x100080; 0x20100000; 0x20100080; 0x8000000100000; 0x8000000100080; 0x8000020100000; 0x8000020100080;
   0x100040; 0x1000c0; 0x20100040; 0x201000c0; 0x8000000100040; 0x80000001000c0; 0x8000020100040; 0x80000201000c0;
   0x200100000; 0x200100080; 0x220100000; 0x220100080; 0x8000200100000; 0x8000200100080; 0x8000220100000; 0x8000220100080;
   0x200100040; 0x2001000c0; 0x220100040; 0x2201000c0; 0x8000200100040; 0x80002001000c0; 0x8000220100040; 0x80002201000c0;
   0x800100000; 0x800100080; 0x820100000; 0x820100080; 0x8000800100000; 0x8000800100080; 0x8000820100000; 0x8000820100080;
   0x800100040; 0x8001000c0; 0x820100040; 0x8201000c0; 0x8000800100040; 0x80008001000c0; 0x8000820100040; 0x80008201000c0;
   0xa00100000; 0xa00100080; 0xa20100000; 0xa20100080; 0x8000a00100000; 0x8000a00100080; 0x8000a20100000; 0x8000a20100080;
   0xa00100040; 0xa001000c0; 0xa20100040; 0xa201000c0; 0x8000a00100040; 0x8000a001000c0; 0x8000a20100040; 0x8000a201000c0;
   0x10000; 0x10080; 0x20010000; 0x20010080; 0x8000000010000; 0x8000000010080; 0x8000020010000; 0x8000020010080;
   0x10040; 0x100c0; 0x20010040; 0x200100c0; 0x8000000010040; 0x80000000100c0; 0x8000020010040; 0x80000200100c0;
   0x200010000; 0x200010080; 0x220010000; 0x220010080; 0x8000200010000; 0x8000200010080; 0x8000220010000; 0x8000220010080;
   0x200010040; 0x2000100c0; 0x220010040; 0x2200100c0; 0x8000200010040; 0x80002000100c0; 0x8000220010040; 0x80002200100c0;
   0x800010000; 0x800010080; 0x820010000; 0x820010080; 0x8000800010000; 0x8000800010080; 0x8000820010000; 0x8000820010080;
   0x800010040; 0x8000100c0; 0x820010040; 0x8200100c0; 0x8000800010040; 0x80008000100c0; 0x8000820010040; 0x80008200100c0;
   0xa00010000; 0xa00010080; 0xa20010000; 0xa20010080; 0x8000a00010000; 0x8000a00010080; 0x8000a20010000; 0x8000a20010080;
   0xa00010040; 0xa000100c0; 0xa20010040; 0xa200100c0; 0x8000a00010040; 0x8000a000100c0; 0x8000a20010040; 0x8000a200100c0;
   0x110000; 0x110080; 0x20110000; 0x20110080; 0x8000000110000; 0x8000000110080; 0x8000020110000; 0x8000020110080;
   0x110040; 0x1100c0; 0x20110040; 0x201100c0; 0x8000000110040; 0x80000001100c0; 0x8000020110040; 0x80000201100c0;
   0x200110000; 0x200110080; 0x220110000; 0x220110080; 0x8000200110000; 0x8000200110080; 0x8000220110000; 0x8000220110080;
   0x200110040; 0x2001100c0; 0x220110040; 0x2201100c0; 0x8000200110040; 0x80002001100c0; 0x8000220110040; 0x80002201100c0;
   0x800110000; 0x800110080; 0x820110000; 0x820110080; 0x8000800110000; 0x8000800110080; 0x8000820110000; 0x8000820110080;
   0x800110040; 0x8001100c0; 0x820110040; 0x8201100c0; 0x8000800110040; 0x80008001100c0; 0x8000820110040; 0x80008201100c0;
   0xa00110000; 0xa00110080; 0xa20110000; 0xa20110080; 0x8000a00110000; 0x8000a00110080; 0x8000a20110000; 0x8000a20110080;
   0xa00110040; 0xa001100c0; 0xa20110040; 0xa201100c0; 0x8000a00110040; 0x8000a001100c0; 0x8000a20110040; 0x8000a201100c0;
   0x0; 0x800000000000; 0x40000000; 0x800040000000; 0x100000000; 0x800100000000; 0x140000000; 0x800140000000;
   0x8000000000000000; 0x8000800000000000; 0x8000000040000000; 0x8000800040000000; 0x8000000100000000; 0x8000800100000000; 0x8000000140000000; 0x8000800140000000;
   0x400; 0x800000000400; 0x40000400; 0x800040000400; 0x100000400; 0x800100000400; 0x140000400; 0x800140000400;
   0x8000000000000400; 0x8000800000000400; 0x8000000040000400; 0x8000800040000400; 0x8000000100000400; 0x8000800100000400; 0x8000000140000400; 0x8000800140000400;
   0x800; 0x800000000800; 0x40000800; 0x800040000800; 0x100000800; 0x800100000800; 0x140000800; 0x800140000800;
   0x8000000000000800; 0x8000800000000800; 0x8000000040000800; 0x8000800040000800; 0x8000000100000800; 0x8000800100000800; 0x8000000140000800; 0x8000800140000800;
   0xc00; 0x800000000c00; 0x40000c00; 0x800040000c00; 0x100000c00; 0x800100000c00; 0x140000c00; 0x800140000c00;
   0x8000000000000c00; 0x8000800000000c00; 0x8000000040000c00; 0x8000800040000c00; 0x8000000100000c00; 0x8000800100000c00; 0x8000000140000c00; 0x8000800140000c00;
   0x10; 0x800000000010; 0x40000010; 0x800040000010; 0x100000010; 0x800100000010; 0x140000010; 0x800140000010;
   0x8000000000000010; 0x8000800000000010; 0x8000000040000010; 0x8000800040000010; 0x8000000100000010; 0x8000800100000010; 0x8000000140000010; 0x8000800140000010;
   0x410; 0x800000000410; 0x40000410; 0x800040000410; 0x100000410; 0x800100000410; 0x140000410; 0x800140000410;
   0x8000000000000410; 0x8000800000000410; 0x8000000040000410; 0x8000800040000410; 0x8000000100000410; 0x8000800100000410; 0x8000000140000410; 0x8000800140000410;
   0x810; 0x800000000810; 0x40000810; 0x800040000810; 0x100000810; 0x800100000810; 0x140000810; 0x800140000810;
   0x8000000000000810; 0x8000800000000810; 0x8000000040000810; 0x8000800040000810; 0x8000000100000810; 0x8000800100000810; 0x8000000140000810; 0x8000800140000810;
   0xc10; 0x800000000c10; 0x40000c10; 0x800040000c10; 0x100000c10; 0x800100000c10; 0x140000c10; 0x800140000c10;
   0x8000000000000c10; 0x8000800000000c10; 0x8000000040000c10; 0x8000800040000c10; 0x8000000100000c10; 0x8000800100000c10; 0x8000000140000c10; 0x8000800140000c10;
   0x4000000000; 0x804000000000; 0x4040000000; 0x804040000000; 0x4100000000; 0x804100000000; 0x4140000000; 0x804140000000;
   0x8000004000000000; 0x8000804000000000; 0x8000004040000000; 0x8000804040000000; 0x8000004100000000; 0x8000804100000000; 0x8000004140000000; 0x8000804140000000;
   0x4000000400; 0x804000000400; 0x4040000400; 0x804040000400; 0x4100000400; 0x804100000400; 0x4140000400; 0x804140000400;
   0x8000004000000400; 0x8000804000000400; 0x8000004040000400; 0x8000804040000400; 0x8000004100000400; 0x8000804100000400; 0x8000004140000400; 0x8000804140000400;
   0x4000000800; 0x804000000800; 0x4040000800; 0x804040000800; 0x4100000800; 0x804100000800; 0x4140000800; 0x804140000800;
   0x8000004000000800; 0x8000804000000800; 0x8000004040000800; 0x8000804040000800; 0x8000004100000800; 0x8000804100000800; 0x8000004140000800; 0x8000804140000800;
   0x4000000c00; 0x804000000c00; 0x4040000c00; 0x804040000c00; 0x4100000c00; 0x804100000c00; 0x4140000c00; 0x804140000c00;
   0x8000004000000c00; 0x8000804000000c00; 0x8000004040000c00; 0x8000804040000c00; 0x8000004100000c00; 0x8000804100000c00; 0x8000004140000c00; 0x8000804140000c00;
   0x4000000010; 0x804000000010; 0x4040000010; 0x804040000010; 0x4100000010; 0x804100000010; 0x4140000010; 0x804140000010;
   0x8000004000000010; 0x8000804000000010; 0x8000004040000010; 0x8000804040000010; 0x8000004100000010; 0x8000804100000010; 0x8000004140000010; 0x8000804140000010;
   0x4000000410; 0x804000000410; 0x4040000410; 0x804040000410; 0x4100000410; 0x804100000410; 0x4140000410; 0x804140000410;
   0x8000004000000410; 0x8000804000000410; 0x8000004040000410; 0x8000804040000410; 0x8000004100000410; 0x8000804100000410; 0x8000004140000410; 0x8000804140000410;
   0x4000000810; 0x804000000810; 0x4040000810; 0x804040000810; 0x4100000810; 0x804100000810; 0x4140000810; 0x804140000810;
   0x8000004000000810; 0x8000804000000810; 0x8000004040000810; 0x8000804040000810; 0x8000004100000810; 0x8000804100000810; 0x8000004140000810; 0x8000804140000810;
   0x4000000c10; 0x804000000c10; 0x4040000c10; 0x804040000c10; 0x4100000c10; 0x804100000c10; 0x4140000c10; 0x804140000c10;
   0x8000004000000c10; 0x8000804000000c10; 0x8000004040000c10; 0x8000804040000c10; 0x8000004100000c10; 0x8000804100000c10; 0x8000004140000c10; 0x8000804140000c10;
   0x0; 0x4000000000000000; 0x4000000; 0x4000000004000000; 0x10000000000; 0x4000010000000000; 0x10004000000; 0x4000010004000000;
   0x40000; 0x4000000000040000; 0x4040000; 0x4000000004040000; 0x10000040000; 0x4000010000040000; 0x10004040000; 0x4000010004040000;
   0x1000; 0x4000000000001000; 0x4001000; 0x4000000004001000; 0x10000001000; 0x4000010000001000; 0x10004001000; 0x4000010004001000;
   0x41000; 0x4000000000041000; 0x4041000; 0x4000000004041000; 0x10000041000; 0x4000010000041000; 0x10004041000; 0x4000010004041000;
   0x10000000000000; 0x4010000000000000; 0x10000004000000; 0x4010000004000000; 0x10010000000000; 0x4010010000000000; 0x10010004000000; 0x4010010004000000;
   0x10000000040000; 0x4010000000040000; 0x10000004040000; 0x4010000004040000; 0x10010000040000; 0x4010010000040000; 0x10010004040000; 0x4010010004040000;
   0x10000000001000; 0x4010000000001000; 0x10000004001000; 0x4010000004001000; 0x10010000001000; 0x4010010000001000; 0x10010004001000; 0x4010010004001000;
   0x10000000041000; 0x4010000000041000; 0x10000004041000; 0x4010000004041000; 0x10010000041000; 0x4010010000041000; 0x10010004041000; 0x4010010004041000;
   0x2000000000; 0x4000002000000000; 0x2004000000; 0x4000002004000000; 0x12000000000; 0x4000012000000000; 0x12004000000; 0x4000012004000000;
   0x2000040000; 0x4000002000040000; 0x2004040000; 0x4000002004040000; 0x12000040000; 0x4000012000040000; 0x12004040000; 0x4000012004040000;
   0x2000001000; 0x4000002000001000; 0x2004001000; 0x4000002004001000; 0x12000001000; 0x4000012000001000; 0x12004001000; 0x4000012004001000;
   0x2000041000; 0x4000002000041000; 0x2004041000; 0x4000002004041000; 0x12000041000; 0x4000012000041000; 0x12004041000; 0x4000012004041000;
   0x10002000000000; 0x4010002000000000; 0x10002004000000; 0x4010002004000000; 0x10012000000000; 0x4010012000000000; 0x10012004000000; 0x4010012004000000;
   0x10002000040000; 0x4010002000040000; 0x10002004040000; 0x4010002004040000; 0x10012000040000; 0x4010012000040000; 0x10012004040000; 0x4010012004040000;
   0x10002000001000; 0x4010002000001000; 0x10002004001000; 0x4010002004001000; 0x10012000001000; 0x4010012000001000; 0x10012004001000; 0x4010012004001000;
   0x10002000041000; 0x4010002000041000; 0x10002004041000; 0x4010002004041000; 0x10012000041000; 0x4010012000041000; 0x10012004041000; 0x4010012004041000;
   0x20000000000000; 0x4020000000000000; 0x20000004000000; 0x4020000004000000; 0x20010000000000; 0x4020010000000000; 0x20010004000000; 0x4020010004000000;
   0x20000000040000; 0x4020000000040000; 0x20000004040000; 0x4020000004040000; 0x20010000040000; 0x4020010000040000; 0x20010004040000; 0x4020010004040000;
   0x20000000001000; 0x4020000000001000; 0x20000004001000; 0x4020000004001000; 0x20010000001000; 0x4020010000001000; 0x20010004001000; 0x4020010004001000;
   0x20000000041000; 0x4020000000041000; 0x20000004041000; 0x4020000004041000; 0x20010000041000; 0x4020010000041000; 0x20010004041000; 0x4020010004041000;
   0x30000000000000; 0x4030000000000000; 0x30000004000000; 0x4030000004000000; 0x30010000000000; 0x4030010000000000; 0x30010004000000; 0x4030010004000000;
   0x30000000040000; 0x4030000000040000; 0x30000004040000; 0x4030000004040000; 0x30010000040000; 0x4030010000040000; 0x30010004040000; 0x4030010004040000;
   0x30000000001000; 0x4030000000001000; 0x30000004001000; 0x4030000004001000; 0x30010000001000; 0x4030010000001000; 0x30010004001000; 0x4030010004001000;
   0x30000000041000; 0x4030000000041000; 0x30000004041000; 0x4030000004041000; 0x30010000041000; 0x4030010000041000; 0x30010004041000; 0x4030010004041000;
   0x20002000000000; 0x4020002000000000; 0x20002004000000; 0x4020002004000000; 0x20012000000000; 0x4020012000000000; 0x20012004000000; 0x4020012004000000;
   0x20002000040000; 0x4020002000040000; 0x20002004040000; 0x4020002004040000; 0x20012000040000; 0x4020012000040000; 0x20012004040000; 0x4020012004040000;
   0x20002000001000; 0x4020002000001000; 0x20002004001000; 0x4020002004001000; 0x20012000001000; 0x4020012000001000; 0x20012004001000; 0x4020012004001000;
   0x20002000041000; 0x4020002000041000; 0x20002004041000; 0x4020002004041000; 0x20012000041000; 0x4020012000041000; 0x20012004041000; 0x4020012004041000;
   0x30002000000000; 0x4030002000000000; 0x30002004000000; 0x4030002004000000; 0x30012000000000; 0x4030012000000000; 0x30012004000000; 0x4030012004000000;
   0x30002000040000; 0x4030002000040000; 0x30002004040000; 0x4030002004040000; 0x30012000040000; 0x4030012000040000; 0x30012004040000; 0x4030012004040000;
   0x30002000001000; 0x4030002000001000; 0x30002004001000; 0x4030002004001000; 0x30012000001000; 0x4030012000001000; 0x30012004001000; 0x4030012004001000;
   0x30002000041000; 0x4030002000041000; 0x30002004041000; 0x4030002004041000; 0x30012000041000; 0x4030012000041000; 0x30012004041000; 0x4030012004041000;
   0x0; 0x800000; 0x800000000000000; 0x800000000800000; 0x20000000000; 0x20000800000; 0x800020000000000; 0x800020000800000;
   0x20000; 0x820000; 0x800000000020000; 0x800000000820000; 0x20000020000; 0x20000820000; 0x800020000020000; 0x800020000820000;
   0x80000000; 0x80800000; 0x800000080000000; 0x800000080800000; 0x20080000000; 0x20080800000; 0x800020080000000; 0x800020080800000;
   0x80020000; 0x80820000; 0x800000080020000; 0x800000080820000; 0x20080020000; 0x20080820000; 0x800020080020000; 0x800020080820000;
   0x1; 0x800001; 0x800000000000001; 0x800000000800001; 0x20000000001; 0x20000800001; 0x800020000000001; 0x800020000800001;
   0x20001; 0x820001; 0x800000000020001; 0x800000000820001; 0x20000020001; 0x20000820001; 0x800020000020001; 0x800020000820001;
   0x80000001; 0x80800001; 0x800000080000001; 0x800000080800001; 0x20080000001; 0x20080800001; 0x800020080000001; 0x800020080800001;
   0x80020001; 0x80820001; 0x800000080020001; 0x800000080820001; 0x20080020001; 0x20080820001; 0x800020080020001; 0x800020080820001;
   0x2000000; 0x2800000; 0x800000002000000; 0x800000002800000; 0x20002000000; 0x20002800000; 0x800020002000000; 0x800020002800000;
   0x2020000; 0x2820000; 0x800000002020000; 0x800000002820000; 0x20002020000; 0x20002820000; 0x800020002020000; 0x800020002820000;
   0x82000000; 0x82800000; 0x800000082000000; 0x800000082800000; 0x20082000000; 0x20082800000; 0x800020082000000; 0x800020082800000;
   0x82020000; 0x82820000; 0x800000082020000; 0x800000082820000; 0x20082020000; 0x20082820000; 0x800020082020000; 0x800020082820000;
   0x2000001; 0x2800001; 0x800000002000001; 0x800000002800001; 0x20002000001; 0x20002800001; 0x800020002000001; 0x800020002800001;
   0x2020001; 0x2820001; 0x800000002020001; 0x800000002820001; 0x20002020001; 0x20002820001; 0x800020002020001; 0x800020002820001;
   0x82000001; 0x82800001; 0x800000082000001; 0x800000082800001; 0x20082000001; 0x20082800001; 0x800020082000001; 0x800020082800001;
   0x82020001; 0x82820001; 0x800000082020001; 0x800000082820001; 0x20082020001; 0x20082820001; 0x800020082020001; 0x800020082820001;
   0x80000000000; 0x80000800000; 0x800080000000000; 0x800080000800000; 0xa0000000000; 0xa0000800000; 0x8000a0000000000; 0x8000a0000800000;
   0x80000020000; 0x80000820000; 0x800080000020000; 0x800080000820000; 0xa0000020000; 0xa0000820000; 0x8000a0000020000; 0x8000a0000820000;
   0x80080000000; 0x80080800000; 0x800080080000000; 0x800080080800000; 0xa0080000000; 0xa0080800000; 0x8000a0080000000; 0x8000a0080800000;
   0x80080020000; 0x80080820000; 0x800080080020000; 0x800080080820000; 0xa0080020000; 0xa0080820000; 0x8000a0080020000; 0x8000a0080820000;
   0x80000000001; 0x80000800001; 0x800080000000001; 0x800080000800001; 0xa0000000001; 0xa0000800001; 0x8000a0000000001; 0x8000a0000800001;
   0x80000020001; 0x80000820001; 0x800080000020001; 0x800080000820001; 0xa0000020001; 0xa0000820001; 0x8000a0000020001; 0x8000a0000820001;
   0x80080000001; 0x80080800001; 0x800080080000001; 0x800080080800001; 0xa0080000001; 0xa0080800001; 0x8000a0080000001; 0x8000a0080800001;
   0x80080020001; 0x80080820001; 0x800080080020001; 0x800080080820001; 0xa0080020001; 0xa0080820001; 0x8000a0080020001; 0x8000a0080820001;
   0x80002000000; 0x80002800000; 0x800080002000000; 0x800080002800000; 0xa0002000000; 0xa0002800000; 0x8000a0002000000; 0x8000a0002800000;
   0x80002020000; 0x80002820000; 0x800080002020000; 0x800080002820000; 0xa0002020000; 0xa0002820000; 0x8000a0002020000; 0x8000a0002820000;
   0x80082000000; 0x80082800000; 0x800080082000000; 0x800080082800000; 0xa0082000000; 0xa0082800000; 0x8000a0082000000; 0x8000a0082800000;
   0x80082020000; 0x80082820000; 0x800080082020000; 0x800080082820000; 0xa0082020000; 0xa0082820000; 0x8000a0082020000; 0x8000a0082820000;
   0x80002000001; 0x80002800001; 0x800080002000001; 0x800080002800001; 0xa0002000001; 0xa0002800001; 0x8000a0002000001; 0x8000a0002800001;
   0x80002020001; 0x80002820001; 0x800080002020001; 0x800080002820001; 0xa0002020001; 0xa0002820001; 0x8000a0002020001; 0x8000a0002820001;
   0x80082000001; 0x80082800001; 0x800080082000001; 0x800080082800001; 0xa0082000001; 0xa0082800001; 0x8000a0082000001; 0x8000a0082800001;
   0x80082020001; 0x80082820001; 0x800080082020001; 0x800080082820001; 0xa0082020001; 0xa0082820001; 0x8000a0082020001; 0x8000a0082820001;
   0x0; 0x100000000000; 0x4000; 0x100000004000; 0x4; 0x100000000004; 0x4004; 0x100000004004;
   0x2000; 0x100000002000; 0x6000; 0x100000006000; 0x2004; 0x100000002004; 0x6004; 0x100000006004;
   0x200000000000; 0x300000000000; 0x200000004000; 0x300000004000; 0x200000000004; 0x300000000004; 0x200000004004; 0x300000004004;
   0x200000002000; 0x300000002000; 0x200000006000; 0x300000006000; 0x200000002004; 0x300000002004; 0x200000006004; 0x300000006004;
   0x1000000000000; 0x1100000000000; 0x1000000004000; 0x1100000004000; 0x1000000000004; 0x1100000000004; 0x1000000004004; 0x1100000004004;
   0x1000000002000; 0x1100000002000; 0x1000000006000; 0x1100000006000; 0x1000000002004; 0x1100000002004; 0x1000000006004; 0x1100000006004;
   0x1200000000000; 0x1300000000000; 0x1200000004000; 0x1300000004000; 0x1200000000004; 0x1300000000004; 0x1200000004004; 0x1300000004004;
   0x1200000002000; 0x1300000002000; 0x1200000006000; 0x1300000006000; 0x1200000002004; 0x1300000002004; 0x1200000006004; 0x1300000006004;
   0x8; 0x100000000008; 0x4008; 0x100000004008; 0xc; 0x10000000000c; 0x400c; 0x10000000400c;
   0x2008; 0x100000002008; 0x6008; 0x100000006008; 0x200c; 0x10000000200c; 0x600c; 0x10000000600c;
   0x200000000008; 0x300000000008; 0x200000004008; 0x300000004008; 0x20000000000c; 0x30000000000c; 0x20000000400c; 0x30000000400c;
   0x200000002008; 0x300000002008; 0x200000006008; 0x300000006008; 0x20000000200c; 0x30000000200c; 0x20000000600c; 0x30000000600c;
   0x1000000000008; 0x1100000000008; 0x1000000004008; 0x1100000004008; 0x100000000000c; 0x110000000000c; 0x100000000400c; 0x110000000400c;
   0x1000000002008; 0x1100000002008; 0x1000000006008; 0x1100000006008; 0x100000000200c; 0x110000000200c; 0x100000000600c; 0x110000000600c;
   0x1200000000008; 0x1300000000008; 0x1200000004008; 0x1300000004008; 0x120000000000c; 0x130000000000c; 0x120000000400c; 0x130000000400c;
   0x1200000002008; 0x1300000002008; 0x1200000006008; 0x1300000006008; 0x120000000200c; 0x130000000200c; 0x120000000600c; 0x130000000600c;
   0x1000000000000000; 0x1000100000000000; 0x1000000000004000; 0x1000100000004000; 0x1000000000000004; 0x1000100000000004; 0x1000000000004004; 0x1000100000004004;
   0x1000000000002000; 0x1000100000002000; 0x1000000000006000; 0x1000100000006000; 0x1000000000002004; 0x1000100000002004; 0x1000000000006004; 0x1000100000006004;
   0x1000200000000000; 0x1000300000000000; 0x1000200000004000; 0x1000300000004000; 0x1000200000000004; 0x1000300000000004; 0x1000200000004004; 0x1000300000004004;
   0x1000200000002000; 0x1000300000002000; 0x1000200000006000; 0x1000300000006000; 0x1000200000002004; 0x1000300000002004; 0x1000200000006004; 0x1000300000006004;
   0x1001000000000000; 0x1001100000000000; 0x1001000000004000; 0x1001100000004000; 0x1001000000000004; 0x1001100000000004; 0x1001000000004004; 0x1001100000004004;
   0x1001000000002000; 0x1001100000002000; 0x1001000000006000; 0x1001100000006000; 0x1001000000002004; 0x1001100000002004; 0x1001000000006004; 0x1001100000006004;
   0x1001200000000000; 0x1001300000000000; 0x1001200000004000; 0x1001300000004000; 0x1001200000000004; 0x1001300000000004; 0x1001200000004004; 0x1001300000004004;
   0x1001200000002000; 0x1001300000002000; 0x1001200000006000; 0x1001300000006000; 0x1001200000002004; 0x1001300000002004; 0x1001200000006004; 0x1001300000006004;
   0x1000000000000008; 0x1000100000000008; 0x1000000000004008; 0x1000100000004008; 0x100000000000000c; 0x100010000000000c; 0x100000000000400c; 0x100010000000400c;
   0x1000000000002008; 0x1000100000002008; 0x1000000000006008; 0x1000100000006008; 0x100000000000200c; 0x100010000000200c; 0x100000000000600c; 0x100010000000600c;
   0x1000200000000008; 0x1000300000000008; 0x1000200000004008; 0x1000300000004008; 0x100020000000000c; 0x100030000000000c; 0x100020000000400c; 0x100030000000400c;
   0x1000200000002008; 0x1000300000002008; 0x1000200000006008; 0x1000300000006008; 0x100020000000200c; 0x100030000000200c; 0x100020000000600c; 0x100030000000600c;
   0x1001000000000008; 0x1001100000000008; 0x1001000000004008; 0x1001100000004008; 0x100100000000000c; 0x100110000000000c; 0x100100000000400c; 0x100110000000400c;
   0x1001000000002008; 0x1001100000002008; 0x1001000000006008; 0x1001100000006008; 0x100100000000200c; 0x100110000000200c; 0x100100000000600c; 0x100110000000600c;
   0x1001200000000008; 0x1001300000000008; 0x1001200000004008; 0x1001300000004008; 0x100120000000000c; 0x100130000000000c; 0x100120000000400c; 0x100130000000400c;
   0x1001200000002008; 0x1001300000002008; 0x1001200000006008; 0x1001300000006008; 0x100120000000200c; 0x100130000000200c; 0x100120000000600c; 0x100130000000600c;
   0x0; 0x2000000000000; 0x100; 0x2000000000100; 0x400000000; 0x2000400000000; 0x400000100; 0x2000400000100;
   0x20; 0x2000000000020; 0x120; 0x2000000000120; 0x400000020; 0x2000400000020; 0x400000120; 0x2000400000120;
   0x200; 0x2000000000200; 0x300; 0x2000000000300; 0x400000200; 0x2000400000200; 0x400000300; 0x2000400000300;
   0x220; 0x2000000000220; 0x320; 0x2000000000320; 0x400000220; 0x2000400000220; 0x400000320; 0x2000400000320;
   0x40000000000; 0x2040000000000; 0x40000000100; 0x2040000000100; 0x40400000000; 0x2040400000000; 0x40400000100; 0x2040400000100;
   0x40000000020; 0x2040000000020; 0x40000000120; 0x2040000000120; 0x40400000020; 0x2040400000020; 0x40400000120; 0x2040400000120;
   0x40000000200; 0x2040000000200; 0x40000000300; 0x2040000000300; 0x40400000200; 0x2040400000200; 0x40400000300; 0x2040400000300;
   0x40000000220; 0x2040000000220; 0x40000000320; 0x2040000000320; 0x40400000220; 0x2040400000220; 0x40400000320; 0x2040400000320;
   0x200000000000000; 0x202000000000000; 0x200000000000100; 0x202000000000100; 0x200000400000000; 0x202000400000000; 0x200000400000100; 0x202000400000100;
   0x200000000000020; 0x202000000000020; 0x200000000000120; 0x202000000000120; 0x200000400000020; 0x202000400000020; 0x200000400000120; 0x202000400000120;
   0x200000000000200; 0x202000000000200; 0x200000000000300; 0x202000000000300; 0x200000400000200; 0x202000400000200; 0x200000400000300; 0x202000400000300;
   0x200000000000220; 0x202000000000220; 0x200000000000320; 0x202000000000320; 0x200000400000220; 0x202000400000220; 0x200000400000320; 0x202000400000320;
   0x200040000000000; 0x202040000000000; 0x200040000000100; 0x202040000000100; 0x200040400000000; 0x202040400000000; 0x200040400000100; 0x202040400000100;
   0x200040000000020; 0x202040000000020; 0x200040000000120; 0x202040000000120; 0x200040400000020; 0x202040400000020; 0x200040400000120; 0x202040400000120;
   0x200040000000200; 0x202040000000200; 0x200040000000300; 0x202040000000300; 0x200040400000200; 0x202040400000200; 0x200040400000300; 0x202040400000300;
   0x200040000000220; 0x202040000000220; 0x200040000000320; 0x202040000000320; 0x200040400000220; 0x202040400000220; 0x200040400000320; 0x202040400000320;
   0x1000000; 0x2000001000000; 0x1000100; 0x2000001000100; 0x401000000; 0x2000401000000; 0x401000100; 0x2000401000100;
   0x1000020; 0x2000001000020; 0x1000120; 0x2000001000120; 0x401000020; 0x2000401000020; 0x401000120; 0x2000401000120;
   0x1000200; 0x2000001000200; 0x1000300; 0x2000001000300; 0x401000200; 0x2000401000200; 0x401000300; 0x2000401000300;
   0x1000220; 0x2000001000220; 0x1000320; 0x2000001000320; 0x401000220; 0x2000401000220; 0x401000320; 0x2000401000320;
   0x40001000000; 0x2040001000000; 0x40001000100; 0x2040001000100; 0x40401000000; 0x2040401000000; 0x40401000100; 0x2040401000100;
   0x40001000020; 0x2040001000020; 0x40001000120; 0x2040001000120; 0x40401000020; 0x2040401000020; 0x40401000120; 0x2040401000120;
   0x40001000200; 0x2040001000200; 0x40001000300; 0x2040001000300; 0x40401000200; 0x2040401000200; 0x40401000300; 0x2040401000300;
   0x40001000220; 0x2040001000220; 0x40001000320; 0x2040001000320; 0x40401000220; 0x2040401000220; 0x40401000320; 0x2040401000320;
   0x200000001000000; 0x202000001000000; 0x200000001000100; 0x202000001000100; 0x200000401000000; 0x202000401000000; 0x200000401000100; 0x202000401000100;
   0x200000001000020; 0x202000001000020; 0x200000001000120; 0x202000001000120; 0x200000401000020; 0x202000401000020; 0x200000401000120; 0x202000401000120;
   0x200000001000200; 0x202000001000200; 0x200000001000300; 0x202000001000300; 0x200000401000200; 0x202000401000200; 0x200000401000300; 0x202000401000300;
   0x200000001000220; 0x202000001000220; 0x200000001000320; 0x202000001000320; 0x200000401000220; 0x202000401000220; 0x200000401000320; 0x202000401000320;
   0x200040001000000; 0x202040001000000; 0x200040001000100; 0x202040001000100; 0x200040401000000; 0x202040401000000; 0x200040401000100; 0x202040401000100;
   0x200040001000020; 0x202040001000020; 0x200040001000120; 0x202040001000120; 0x200040401000020; 0x202040401000020; 0x200040401000120; 0x202040401000120;
   0x200040001000200; 0x202040001000200; 0x200040001000300; 0x202040001000300; 0x200040401000200; 0x202040401000200; 0x200040401000300; 0x202040401000300;
   0x200040001000220; 0x202040001000220; 0x200040001000320; 0x202040001000320; 0x200040401000220; 0x202040401000220; 0x200040401000320; 0x202040401000320].
Definition src_tab_csa_block_perm : list N := [
   0x0; 0x2; 0x80; 0x82; 0x20; 0x22; 0xa0; 0xa2;
   0x10; 0x12; 0x90; 0x92; 0x30; 0x32; 0xb0; 0xb2;
   0x4; 0x6; 0x84; 0x86; 0x24; 0x26; 0xa4; 0xa6;
   0x14; 0x16; 0x94; 0x96; 0x34; 0x36; 0xb4; 0xb6;
   0x40; 0x42; 0xc0; 0xc2; 0x60; 0x62; 0xe0; 0xe2;
   0x50; 0x52; 0xd0; 0xd2; 0x70; 0x72; 0xf0; 0xf2;
   0x44; 0x46; 0xc4; 0xc6; 0x64; 0x66; 0xe4; 0xe6;
   0x54; 0x56; 0xd4; 0xd6; 0x74; 0x76; 0xf4; 0xf6;
   0x1; 0x3; 0x81; 0x83; 0x21; 0x23; 0xa1; 0xa3;
   0x11; 0x13; 0x91; 0x93; 0x31; 0x33; 0xb1; 0xb3;
   0x5; 0x7; 0x85; 0x87; 0x25; 0x27; 0xa5; 0xa7;
   0x15; 0x17; 0x95; 0x97; 0x35; 0x37; 0xb5; 0xb7;
   0x41; 0x43; 0xc1; 0xc3; 0x61; 0x63; 0xe1; 0xe3;
   0x51; 0x53; 0xd1; 0xd3; 0x71; 0x73; 0xf1; 0xf3;
   0x45; 0x47; 0xc5; 0xc7; 0x65; 0x67; 0xe5; 0xe7;
   0x55; 0x57; 0xd5; 0xd7; 0x75; 0x77; 0xf5; 0xf7;
   0x8; 0xa; 0x88; 0x8a; 0x28; 0x2a; 0xa8; 0xaa;
   0x18; 0x1a; 0x98; 0x9a; 0x38; 0x3a; 0xb8; 0xba;
   0xc; 0xe; 0x8c; 0x8e; 0x2c; 0x2e; 0xac; 0xae;
   0x1c; 0x1e; 0x9c; 0x9e; 0x3c; 0x3e; 0xbc; 0xbe;
   0x48; 0x4a; 0xc8; 0xca; 0x68; 0x6a; 0xe8; 0xea;
   0x58; 0x5a; 0xd8; 0xda; 0x78; 0x7a; 0xf8; 0xfa;
   0x4c; 0x4e; 0xcc; 0xce; 0x6c; 0x6e; 0xec; 0xee;
   0x5c; 0x5e; 0xdc; 0xde; 0x7c; 0x7e; 0xfc; 0xfe;
   0x9; 0xb; 0x89; 0x8b; 0x29; 0x2b; 0xa9; 0xab;
   0x19; 0x1b; 0x99; 0x9b; 0x39; 0x3b; 0xb9; 0xbb;
   0xd; 0xf; 0x8d; 0x8f; 0x2d; 0x2f; 0xad; 0xaf;
   0x1d; 0x1f; 0x9d; 0x9f; 0x3d; 0x3f; 0xbd; 0xbf;
   0x49; 0x4b; 0xc9; 0xcb; 0x69; 0x6b; 0xe9; 0xeb;
   0x59; 0x5b; 0xd9; 0xdb; 0x79; 0x7b; 0xf9; 0xfb;
   0x4d; 0x4f; 0xcd; 0xcf; 0x6d; 0x6f; 0xed; 0xef;
   0x5d; 0x5f; 0xdd; 0xdf; 0x7d; 0x7f; 0xfd; 0xff].
Definition src_tab_dvbcsa_block_sbox : list N := [
   0x3a; 0xea; 0x68; 0xfe; 0x33; 0xe9; 0x88; 0x1a;
   0x83; 0xcf; 0xe1; 0x7f; 0xba; 0xe2; 0x38; 0x12;
   0xe8; 0x27; 0x61; 0x95; 0xc; 0x36; 0xe5; 0x70;
   0xa2; 0x6; 0x82; 0x7c; 0x17; 0xa3; 0x26; 0x49;
   0xbe; 0x7a; 0x6d; 0x47; 0xc1; 0x51; 0x8f; 0xf3;
   0xcc; 0x5b; 0x67; 0xbd; 0xcd; 0x18; 0x8; 0xc9;
   0xff; 0x69; 0xef; 0x3; 0x4e; 0x48; 0x4a; 0x84;
   0x3f; 0xb4; 0x10; 0x4; 0xdc; 0xf5; 0x5c; 0xc6;
   0x16; 0xab; 0xac; 0x4c; 0xf1; 0x6a; 0x2f; 0x3c;
   0x3b; 0xd4; 0xd5; 0x94; 0xd0; 0xc4; 0x63; 0x62;
   0x71; 0xa1; 0xf9; 0x4f; 0x2e; 0xaa; 0xc5; 0x56;
   0xe3; 0x39; 0x93; 0xce; 0x65; 0x64; 0xe4; 0x58;
   0x6c; 0x19; 0x42; 0x79; 0xdd; 0xee; 0x96; 0xf6;
   0x8a; 0xec; 0x1e; 0x85; 0x53; 0x45; 0xde; 0xbb;
   0x7e; 0xa; 0x9a; 0x13; 0x2a; 0x9d; 0xc2; 0x5e;
   0x5a; 0x1f; 0x32; 0x35; 0x9c; 0xa8; 0x73; 0x30;
   0x29; 0x3d; 0xe7; 0x92; 0x87; 0x1b; 0x2b; 0x4b;
   0xa5; 0x57; 0x97; 0x40; 0x15; 0xe6; 0xbc; 0xe;
   0xeb; 0xc3; 0x34; 0x2d; 0xb8; 0x44; 0x25; 0xa4;
   0x1c; 0xc7; 0x23; 0xed; 0x90; 0x6e; 0x50; 0x0;
   0x99; 0x9e; 0x4d; 0xd9; 0xda; 0x8d; 0x6f; 0x5f;
   0x3e; 0xd7; 0x21; 0x74; 0x86; 0xdf; 0x6b; 0x5;
   0x8e; 0x5d; 0x37; 0x11; 0xd2; 0x28; 0x75; 0xd6;
   0xa7; 0x77; 0x24; 0xbf; 0xf0; 0xb0; 0x2; 0xb7;
   0xf8; 0xfc; 0x81; 0x9; 0xb1; 0x1; 0x76; 0x91;
   0x7d; 0xf; 0xc8; 0xa0; 0xf2; 0xcb; 0x78; 0x60;
   0xd1; 0xf7; 0xe0; 0xb5; 0x98; 0x22; 0xb3; 0x20;
   0x1d; 0xa6; 0xdb; 0x7b; 0x59; 0x9f; 0xae; 0x31;
   0xfb; 0xd3; 0xb6; 0xca; 0x43; 0x72; 0x7; 0xf4;
   0xd8; 0x41; 0x14; 0x55; 0xd; 0x54; 0x8b; 0xb9;
   0xad; 0x46; 0xb; 0xaf; 0x80; 0x52; 0x2c; 0xfa;
   0x8c; 0x89; 0x66; 0xfd; 0xb2; 0xa9; 0x9b; 0xc0].
Definition src_tab_sbox : list N := [
   0x1; 0x0; 0x400; 0x400; 0x1; 0x401; 0x401; 0x0;
   0x401; 0x1; 0x1; 0x0; 0x400; 0x400; 0x0; 0x401;
   0x0; 0x401; 0x401; 0x0; 0x1; 0x1; 0x400; 0x400;
   0x1; 0x1; 0x0; 0x401; 0x400; 0x400; 0x401; 0x0;
   0x802; 0x800; 0x2; 0x800; 0x802; 0x2; 0x2; 0x800;
   0x800; 0x802; 0x0; 0x2; 0x0; 0x0; 0x0; 0x802;
   0x802; 0x800; 0x800; 0x2; 0x2; 0x802; 0x800; 0x802;
   0x0; 0x0; 0x0; 0x802; 0x800; 0x2; 0x2; 0x0;
   0x10; 0x0; 0x10; 0x10; 0x10; 0x14; 0x0; 0x4;
   0x4; 0x14; 0x14; 0x14; 0x14; 0x0; 0x4; 0x0;
   0x14; 0x0; 0x4; 0x10; 0x4; 0x14; 0x14; 0x4;
   0x0; 0x4; 0x0; 0x4; 0x10; 0x0; 0x10; 0x10;
   0x28; 0x8; 0x20; 0x28; 0x20; 0x0; 0x20; 0x8;
   0x8; 0x20; 0x0; 0x8; 0x0; 0x28; 0x28; 0x0;
   0x8; 0x0; 0x28; 0x8; 0x28; 0x20; 0x28; 0x0;
   0x0; 0x28; 0x20; 0x0; 0x20; 0x8; 0x8; 0x20;
   0x100; 0x0; 0x0; 0x40; 0x140; 0x100; 0x140; 0x100;
   0x140; 0x140; 0x0; 0x40; 0x100; 0x40; 0x40; 0x0;
   0x140; 0x100; 0x0; 0x100; 0x140; 0x0; 0x40; 0x40;
   0x100; 0x140; 0x0; 0x40; 0x100; 0x0; 0x40; 0x140;
   0x0; 0x80; 0x200; 0x280; 0x80; 0x200; 0x200; 0x0;
   0x0; 0x80; 0x280; 0x0; 0x200; 0x280; 0x80; 0x280;
   0x200; 0x280; 0x0; 0x200; 0x280; 0x0; 0x80; 0x80;
   0x200; 0x80; 0x80; 0x200; 0x0; 0x280; 0x280; 0x0;
   0x0; 0x0; 0x1000; 0x2000; 0x3000; 0x3000; 0x0; 0x1000;
   0x3000; 0x1000; 0x2000; 0x2000; 0x2000; 0x0; 0x1000; 0x3000;
   0x3000; 0x1000; 0x2000; 0x2000; 0x2000; 0x3000; 0x0; 0x0;
   0x2000; 0x1000; 0x1000; 0x3000; 0x0; 0x0; 0x1000; 0x3000].
Definition src_tab_csa_stream_cdef : list N := [
   0x0; 0x101; 0x202; 0x303; 0x404; 0x505; 0x606; 0x707;
   0x808; 0x909; 0xa0a; 0xb0b; 0xc0c; 0xd0d; 0xe0e; 0xf0f;
   0x1; 0x100; 0x203; 0x302; 0x405; 0x504; 0x607; 0x706;
   0x809; 0x908; 0xa0b; 0xb0a; 0xc0d; 0xd0c; 0xe0f; 0xf0e;
   0x2; 0x103; 0x200; 0x301; 0x406; 0x507; 0x604; 0x705;
   0x80a; 0x90b; 0xa08; 0xb09; 0xc0e; 0xd0f; 0xe0c; 0xf0d;
   0x3; 0x102; 0x201; 0x300; 0x407; 0x506; 0x605; 0x704;
   0x80b; 0x90a; 0xa09; 0xb08; 0xc0f; 0xd0e; 0xe0d; 0xf0c;
   0x4; 0x105; 0x206; 0x307; 0x400; 0x501; 0x602; 0x703;
   0x80c; 0x90d; 0xa0e; 0xb0f; 0xc08; 0xd09; 0xe0a; 0xf0b;
   0x5; 0x104; 0x207; 0x306; 0x401; 0x500; 0x603; 0x702;
   0x80d; 0x90c; 0xa0f; 0xb0e; 0xc09; 0xd08; 0xe0b; 0xf0a;
   0x6; 0x107; 0x204; 0x305; 0x402; 0x503; 0x600; 0x701;
   0x80e; 0x90f; 0xa0c; 0xb0d; 0xc0a; 0xd0b; 0xe08; 0xf09;
   0x7; 0x106; 0x205; 0x304; 0x403; 0x502; 0x601; 0x700;
   0x80f; 0x90e; 0xa0d; 0xb0c; 0xc0b; 0xd0a; 0xe09; 0xf08;
   0x8; 0x109; 0x20a; 0x30b; 0x40c; 0x50d; 0x60e; 0x70f;
   0x800; 0x901; 0xa02; 0xb03; 0xc04; 0xd05; 0xe06; 0xf07;
   0x9; 0x108; 0x20b; 0x30a; 0x40d; 0x50c; 0x60f; 0x70e;
   0x801; 0x900; 0xa03; 0xb02; 0xc05; 0xd04; 0xe07; 0xf06;
   0xa; 0x10b; 0x208; 0x309; 0x40e; 0x50f; 0x60c; 0x70d;
   0x802; 0x903; 0xa00; 0xb01; 0xc06; 0xd07; 0xe04; 0xf05;
   0xb; 0x10a; 0x209; 0x308; 0x40f; 0x50e; 0x60d; 0x70c;
   0x803; 0x902; 0xa01; 0xb00; 0xc07; 0xd06; 0xe05; 0xf04;
   0xc; 0x10d; 0x20e; 0x30f; 0x408; 0x509; 0x60a; 0x70b;
   0x804; 0x905; 0xa06; 0xb07; 0xc00; 0xd01; 0xe02; 0xf03;
   0xd; 0x10c; 0x20f; 0x30e; 0x409; 0x508; 0x60b; 0x70a;
   0x805; 0x904; 0xa07; 0xb06; 0xc01; 0xd00; 0xe03; 0xf02;
   0xe; 0x10f; 0x20c; 0x30d; 0x40a; 0x50b; 0x608; 0x709;
   0x806; 0x907; 0xa04; 0xb05; 0xc02; 0xd03; 0xe00; 0xf01;
   0xf; 0x10e; 0x20d; 0x30c; 0x40b; 0x50a; 0x609; 0x708;
   0x807; 0x906; 0xa05; 0xb04; 0xc03; 0xd02; 0xe01; 0xf00;
   0x1000; 0x1101; 0x1202; 0x1303; 0x1404; 0x1505; 0x1606; 0x1707;
   0x1808; 0x1909; 0x1a0a; 0x1b0b; 0x1c0c; 0x1d0d; 0x1e0e; 0x1f0f;
   0x1001; 0x1100; 0x1203; 0x1302; 0x1405; 0x1504; 0x1607; 0x1706;
   0x1809; 0x1908; 0x1a0b; 0x1b0a; 0x1c0d; 0x1d0c; 0x1e0f; 0x1f0e;
   0x1002; 0x1103; 0x1200; 0x1301; 0x1406; 0x1507; 0x1604; 0x1705;
   0x180a; 0x190b; 0x1a08; 0x1b09; 0x1c0e; 0x1d0f; 0x1e0c; 0x1f0d;
   0x1003; 0x1102; 0x1201; 0x1300; 0x1407; 0x1506; 0x1605; 0x1704;
   0x180b; 0x190a; 0x1a09; 0x1b08; 0x1c0f; 0x1d0e; 0x1e0d; 0x1f0c;
   0x1004; 0x1105; 0x1206; 0x1307; 0x1400; 0x1501; 0x1602; 0x1703;
   0x180c; 0x190d; 0x1a0e; 0x1b0f; 0x1c08; 0x1d09; 0x1e0a; 0x1f0b;
   0x1005; 0x1104; 0x1207; 0x1306; 0x1401; 0x1500; 0x1603; 0x1702;
   0x180d; 0x190c; 0x1a0f; 0x1b0e; 0x1c09; 0x1d08; 0x1e0b; 0x1f0a;
   0x1006; 0x1107; 0x1204; 0x1305; 0x1402; 0x1503; 0x1600; 0x1701;
   0x180e; 0x190f; 0x1a0c; 0x1b0d; 0x1c0a; 0x1d0b; 0x1e08; 0x1f09;
   0x1007; 0x1106; 0x1205; 0x1304; 0x1403; 0x1502; 0x1601; 0x1700;
   0x180f; 0x190e; 0x1a0d; 0x1b0c; 0x1c0b; 0x1d0a; 0x1e09; 0x1f08;
   0x1008; 0x1109; 0x120a; 0x130b; 0x140c; 0x150d; 0x160e; 0x170f;
   0x1800; 0x1901; 0x1a02; 0x1b03; 0x1c04; 0x1d05; 0x1e06; 0x1f07;
   0x1009; 0x1108; 0x120b; 0x130a; 0x140d; 0x150c; 0x160f; 0x170e;
   0x1801; 0x1900; 0x1a03; 0x1b02; 0x1c05; 0x1d04; 0x1e07; 0x1f06;
   0x100a; 0x110b; 0x1208; 0x1309; 0x140e; 0x150f; 0x160c; 0x170d;
   0x1802; 0x1903; 0x1a00; 0x1b01; 0x1c06; 0x1d07; 0x1e04; 0x1f05;
   0x100b; 0x110a; 0x1209; 0x1308; 0x140f; 0x150e; 0x160d; 0x170c;
   0x1803; 0x1902; 0x1a01; 0x1b00; 0x1c07; 0x1d06; 0x1e05; 0x1f04;
   0x100c; 0x110d; 0x120e; 0x130f; 0x1408; 0x1509; 0x160a; 0x170b;
   0x1804; 0x1905; 0x1a06; 0x1b07; 0x1c00; 0x1d01; 0x1e02; 0x1f03;
   0x100d; 0x110c; 0x120f; 0x130e; 0x1409; 0x1508; 0x160b; 0x170a;
   0x1805; 0x1904; 0x1a07; 0x1b06; 0x1c01; 0x1d00; 0x1e03; 0x1f02;
   0x100e; 0x110f; 0x120c; 0x130d; 0x140a; 0x150b; 0x1608; 0x1709;
   0x1806; 0x1907; 0x1a04; 0x1b05; 0x1c02; 0x1d03; 0x1e00; 0x1f01;
   0x100f; 0x110e; 0x120d; 0x130c; 0x140b; 0x150a; 0x1609; 0x1708;
   0x1807; 0x1906; 0x1a05; 0x1b04; 0x1c03; 0x1d02; 0x1e01; 0x1f00;
   0x0; 0x101; 0x202; 0x303; 0x404; 0x505; 0x606; 0x707;
   0x808; 0x909; 0xa0a; 0xb0b; 0xc0c; 0xd0d; 0xe0e; 0xf0f;
   0x101; 0x200; 0x303; 0x402; 0x505; 0x604; 0x707; 0x806;
   0x909; 0xa08; 0xb0b; 0xc0a; 0xd0d; 0xe0c; 0xf0f; 0x100e;
   0x202; 0x303; 0x400; 0x501; 0x606; 0x707; 0x804; 0x905;
   0xa0a; 0xb0b; 0xc08; 0xd09; 0xe0e; 0xf0f; 0x100c; 0x110d;
   0x303; 0x402; 0x501; 0x600; 0x707; 0x806; 0x905; 0xa04;
   0xb0b; 0xc0a; 0xd09; 0xe08; 0xf0f; 0x100e; 0x110d; 0x120c;
   0x404; 0x505; 0x606; 0x707; 0x800; 0x901; 0xa02; 0xb03;
   0xc0c; 0xd0d; 0xe0e; 0xf0f; 0x1008; 0x1109; 0x120a; 0x130b;
   0x505; 0x604; 0x707; 0x806; 0x901; 0xa00; 0xb03; 0xc02;
   0xd0d; 0xe0c; 0xf0f; 0x100e; 0x1109; 0x1208; 0x130b; 0x140a;
   0x606; 0x707; 0x804; 0x905; 0xa02; 0xb03; 0xc00; 0xd01;
   0xe0e; 0xf0f; 0x100c; 0x110d; 0x120a; 0x130b; 0x1408; 0x1509;
   0x707; 0x806; 0x905; 0xa04; 0xb03; 0xc02; 0xd01; 0xe00;
   0xf0f; 0x100e; 0x110d; 0x120c; 0x130b; 0x140a; 0x1509; 0x1608;
   0x808; 0x909; 0xa0a; 0xb0b; 0xc0c; 0xd0d; 0xe0e; 0xf0f;
   0x1000; 0x1101; 0x1202; 0x1303; 0x1404; 0x1505; 0x1606; 0x1707;
   0x909; 0xa08; 0xb0b; 0xc0a; 0xd0d; 0xe0c; 0xf0f; 0x100e;
   0x1101; 0x1200; 0x1303; 0x1402; 0x1505; 0x1604; 0x1707; 0x1806;
   0xa0a; 0xb0b; 0xc08; 0xd09; 0xe0e; 0xf0f; 0x100c; 0x110d;
   0x1202; 0x1303; 0x1400; 0x1501; 0x1606; 0x1707; 0x1804; 0x1905;
   0xb0b; 0xc0a; 0xd09; 0xe08; 0xf0f; 0x100e; 0x110d; 0x120c;
   0x1303; 0x1402; 0x1501; 0x1600; 0x1707; 0x1806; 0x1905; 0x1a04;
   0xc0c; 0xd0d; 0xe0e; 0xf0f; 0x1008; 0x1109; 0x120a; 0x130b;
   0x1404; 0x1505; 0x1606; 0x1707; 0x1800; 0x1901; 0x1a02; 0x1b03;
   0xd0d; 0xe0c; 0xf0f; 0x100e; 0x1109; 0x1208; 0x130b; 0x140a;
   0x1505; 0x1604; 0x1707; 0x1806; 0x1901; 0x1a00; 0x1b03; 0x1c02;
   0xe0e; 0xf0f; 0x100c; 0x110d; 0x120a; 0x130b; 0x1408; 0x1509;
   0x1606; 0x1707; 0x1804; 0x1905; 0x1a02; 0x1b03; 0x1c00; 0x1d01;
   0xf0f; 0x100e; 0x110d; 0x120c; 0x130b; 0x140a; 0x1509; 0x1608;
   0x1707; 0x1806; 0x1905; 0x1a04; 0x1b03; 0x1c02; 0x1d01; 0x1e00;
   0x100; 0x201; 0x302; 0x403; 0x504; 0x605; 0x706; 0x807;
   0x908; 0xa09; 0xb0a; 0xc0b; 0xd0c; 0xe0d; 0xf0e; 0x100f;
   0x201; 0x300; 0x403; 0x502; 0x605; 0x704; 0x807; 0x906;
   0xa09; 0xb08; 0xc0b; 0xd0a; 0xe0d; 0xf0c; 0x100f; 0x110e;
   0x302; 0x403; 0x500; 0x601; 0x706; 0x807; 0x904; 0xa05;
   0xb0a; 0xc0b; 0xd08; 0xe09; 0xf0e; 0x100f; 0x110c; 0x120d;
   0x403; 0x502; 0x601; 0x700; 0x807; 0x906; 0xa05; 0xb04;
   0xc0b; 0xd0a; 0xe09; 0xf08; 0x100f; 0x110e; 0x120d; 0x130c;
   0x504; 0x605; 0x706; 0x807; 0x900; 0xa01; 0xb02; 0xc03;
   0xd0c; 0xe0d; 0xf0e; 0x100f; 0x1108; 0x1209; 0x130a; 0x140b;
   0x605; 0x704; 0x807; 0x906; 0xa01; 0xb00; 0xc03; 0xd02;
   0xe0d; 0xf0c; 0x100f; 0x110e; 0x1209; 0x1308; 0x140b; 0x150a;
   0x706; 0x807; 0x904; 0xa05; 0xb02; 0xc03; 0xd00; 0xe01;
   0xf0e; 0x100f; 0x110c; 0x120d; 0x130a; 0x140b; 0x1508; 0x1609;
   0x807; 0x906; 0xa05; 0xb04; 0xc03; 0xd02; 0xe01; 0xf00;
   0x100f; 0x110e; 0x120d; 0x130c; 0x140b; 0x150a; 0x1609; 0x1708;
   0x908; 0xa09; 0xb0a; 0xc0b; 0xd0c; 0xe0d; 0xf0e; 0x100f;
   0x1100; 0x1201; 0x1302; 0x1403; 0x1504; 0x1605; 0x1706; 0x1807;
   0xa09; 0xb08; 0xc0b; 0xd0a; 0xe0d; 0xf0c; 0x100f; 0x110e;
   0x1201; 0x1300; 0x1403; 0x1502; 0x1605; 0x1704; 0x1807; 0x1906;
   0xb0a; 0xc0b; 0xd08; 0xe09; 0xf0e; 0x100f; 0x110c; 0x120d;
   0x1302; 0x1403; 0x1500; 0x1601; 0x1706; 0x1807; 0x1904; 0x1a05;
   0xc0b; 0xd0a; 0xe09; 0xf08; 0x100f; 0x110e; 0x120d; 0x130c;
   0x1403; 0x1502; 0x1601; 0x1700; 0x1807; 0x1906; 0x1a05; 0x1b04;
   0xd0c; 0xe0d; 0xf0e; 0x100f; 0x1108; 0x1209; 0x130a; 0x140b;
   0x1504; 0x1605; 0x1706; 0x1807; 0x1900; 0x1a01; 0x1b02; 0x1c03;
   0xe0d; 0xf0c; 0x100f; 0x110e; 0x1209; 0x1308; 0x140b; 0x150a;
   0x1605; 0x1704; 0x1807; 0x1906; 0x1a01; 0x1b00; 0x1c03; 0x1d02;
   0xf0e; 0x100f; 0x110c; 0x120d; 0x130a; 0x140b; 0x1508; 0x1609;
   0x1706; 0x1807; 0x1904; 0x1a05; 0x1b02; 0x1c03; 0x1d00; 0x1e01;
   0x100f; 0x110e; 0x120d; 0x130c; 0x140b; 0x150a; 0x1609; 0x1708;
   0x1807; 0x1906; 0x1a05; 0x1b04; 0x1c03; 0x1d02; 0x1e01; 0x1f00].
Definition src_tab_csa_stream_out : list N := [
   0x0; 0x55; 0x55; 0x0; 0xaa; 0xff; 0xff; 0xaa;
   0xaa; 0xff; 0xff; 0xaa; 0x0; 0x55; 0x55; 0x0].
Definition src_tables (x : string) : option (ctype * list N) :=
  if String.eqb x "kperm" then Some (TArr (TArr (TInt U64) 256) 8, src_tab_kperm) else
  if String.eqb x "csa_block_perm" then Some (TArr (TInt U8) 256, src_tab_csa_block_perm) else
  if String.eqb x "dvbcsa_block_sbox" then Some (TArr (TInt U8) 256, src_tab_dvbcsa_block_sbox) else
  if String.eqb x "csa_stream_sboxes.sbox" then Some (TArr (TArr (TInt U16) 32) 7, src_tab_sbox) else
  if String.eqb x "csa_stream_cfed.csa_stream_cdef" then Some (TArr (TInt U16) 1024, src_tab_csa_stream_cdef) else
  if String.eqb x "dvbcsa_stream_xor.csa_stream_out" then Some (TArr (TInt U8) 16, src_tab_csa_stream_out) else
  None.

Definition src_structs (s : string) : list (string * ctype) :=
  if String.eqb s "dvbcsa_key_s" then [("cw", TArr (TInt U8) 8); ("cws", TArr (TInt U8) 8); ("sch", TArr (TInt U8) 56)] else [].

Definition src_dvbcsa_xor_64 : fundef := mk_fun "dvbcsa_xor_64" (TVoid) [("b", TPtr (TInt U8)); ("a", TPtr (TInt U8))] [
    SDecl (TInt U64) "ia" None;
    SDecl (TInt U64) "ib" None;
    SExpr (ECall "memcpy" [(EAddr (EVar "ia")); (EVar "a"); (EConst I32 8)]);
    SExpr (ECall "memcpy" [(EAddr (EVar "ib")); (EVar "b"); (EConst I32 8)]);
    SExpr (EOpAssign Xor (EVar "ib") (EVar "ia"));
    SExpr (ECall "memcpy" [(EVar "b"); (EAddr (EVar "ib")); (EConst I32 8)])].

Definition src_dvbcsa_load_le32_le : fundef := mk_fun "dvbcsa_load_le32" (TInt U32) [("p", TPtr (TInt U8))] [
    SDecl (TInt U32) "i" None;
    SExpr (ECall "memcpy" [(EAddr (EVar "i")); (EVar "p"); (EConst I32 4)]);
    SReturn (Some (EVar "i"))].

Definition src_dvbcsa_load_le32_be : fundef := mk_fun "dvbcsa_load_le32" (TInt U32) [("p", TPtr (TInt U8))] [
    SReturn (Some (EBin Or (EBin Or (EBin Or (EBin Shl (ECast (TInt U32) (EIndex (EVar "p") (EConst I32 3))) (EConst I32 0x18)) (EBin Shl (ECast (TInt U32) (EIndex (EVar "p") (EConst I32 2))) (EConst I32 0x10))) (EBin Shl (ECast (TInt U32) (EIndex (EVar "p") (EConst I32 1))) (EConst I32 8))) (ECast (TInt U32) (EIndex (EVar "p") (EConst I32 0)))))].

Definition src_dvbcsa_load_le32 (be : bool) : fundef := if be then src_dvbcsa_load_le32_be else src_dvbcsa_load_le32_le.

Definition src_dvbcsa_load_le64_le : fundef := mk_fun "dvbcsa_load_le64" (TInt U64) [("p", TPtr (TInt U8))] [
    SDecl (TInt U64) "i" None;
    SExpr (ECall "memcpy" [(EAddr (EVar "i")); (EVar "p"); (EConst I32 8)]);
    SReturn (Some (EVar "i"))].

Definition src_dvbcsa_load_le64_be : fundef := mk_fun "dvbcsa_load_le64" (TInt U64) [("p", TPtr (TInt U8))] [
    SReturn (Some (ECast (TInt U64) (EBin Or (EBin Or (EBin Or (EBin Or (EBin Or (EBin Or (EBin Or (EBin Shl (ECast (TInt U64) (EIndex (EVar "p") (EConst I32 7))) (EConst I32 0x38)) (EBin Shl (ECast (TInt U64) (EIndex (EVar "p") (EConst I32 6))) (EConst I32 0x30))) (EBin Shl (ECast (TInt U64) (EIndex (EVar "p") (EConst I32 5))) (EConst I32 0x28))) (EBin Shl (ECast (TInt U64) (EIndex (EVar "p") (EConst I32 4))) (EConst I32 0x20))) (EBin Shl (ECast (TInt U64) (EIndex (EVar "p") (EConst I32 3))) (EConst I32 0x18))) (EBin Shl (ECast (TInt U64) (EIndex (EVar "p") (EConst I32 2))) (EConst I32 0x10))) (EBin Shl (ECast (TInt U64) (EIndex (EVar "p") (EConst I32 1))) (EConst I32 8))) (ECast (TInt U64) (EIndex (EVar "p") (EConst I32 0))))))].

Definition src_dvbcsa_load_le64 (be : bool) : fundef := if be then src_dvbcsa_load_le64_be else src_dvbcsa_load_le64_le.

Definition src_dvbcsa_store_le64_le : fundef := mk_fun "dvbcsa_store_le64" (TVoid) [("p", TPtr (TInt U8)); ("w", TInt U64)] [
    SExpr (ECall "memcpy" [(EVar "p"); (EAddr (EVar "w")); (EConst I32 8)])].

Definition src_dvbcsa_store_le64_be : fundef := mk_fun "dvbcsa_store_le64" (TVoid) [("p", TPtr (TInt U8)); ("w", TInt U64)] [
    SExpr (EAssign (EIndex (EVar "p") (EConst I32 7)) (EBin Shr (EVar "w") (EConst I32 0x38)));
    SExpr (EAssign (EIndex (EVar "p") (EConst I32 6)) (EBin Shr (EVar "w") (EConst I32 0x30)));
    SExpr (EAssign (EIndex (EVar "p") (EConst I32 5)) (EBin Shr (EVar "w") (EConst I32 0x28)));
    SExpr (EAssign (EIndex (EVar "p") (EConst I32 4)) (EBin Shr (EVar "w") (EConst I32 0x20)));
    SExpr (EAssign (EIndex (EVar "p") (EConst I32 3)) (EBin Shr (EVar "w") (EConst I32 0x18)));
    SExpr (EAssign (EIndex (EVar "p") (EConst I32 2)) (EBin Shr (EVar "w") (EConst I32 0x10)));
    SExpr (EAssign (EIndex (EVar "p") (EConst I32 1)) (EBin Shr (EVar "w") (EConst I32 8)));
    SExpr (EAssign (EIndex (EVar "p") (EConst I32 0)) (EVar "w"))].

Definition src_dvbcsa_store_le64 (be : bool) : fundef := if be then src_dvbcsa_store_le64_be else src_dvbcsa_store_le64_le.

Definition src_dvbcsa_key_permute_block : fundef := mk_fun "dvbcsa_key_permute_block" (TInt U64) [("k", TInt U64)] [
    SDecl (TInt U64) "n" (Some (EConst I32 0));
    SDecl (TInt I32) "i" None;
    SFor (Some (EAssign (EVar "i") (EConst I32 0))) (EBin Lt (EVar "i") (EConst I32 8)) (Some (EPost Add (EVar "i")))
      (SBlock [
        SExpr (EOpAssign Or (EVar "n") (EIndex (EIndex (EVar "kperm") (EVar "i")) (EBin And (EVar "k") (EConst I32 0xff))));
        SExpr (EOpAssign Shr (EVar "k") (EConst I32 8))]);
    SReturn (Some (EVar "n"))].

Definition src_dvbcsa_key_schedule_block : fundef := mk_fun "dvbcsa_key_schedule_block" (TVoid) [("cw", TPtr (TInt U8)); ("kk", TPtr (TInt U8))] [
    SDecl (TArr (TInt U64) 7) "k" None;
    SDecl (TInt I32) "i" None;
    SDecl (TInt I32) "j" None;
    SExpr (EAssign (EIndex (EVar "k") (EConst I32 6)) (ECall "dvbcsa_load_le64" [(EVar "cw")]));
    SFor (Some (EAssign (EVar "i") (EConst I32 6))) (EBin Gt (EVar "i") (EConst I32 0)) (Some (EPost Sub (EVar "i")))
      (SBlock [
        SExpr (EAssign (EIndex (EVar "k") (EBin Sub (EVar "i") (EConst I32 1))) (ECall "dvbcsa_key_permute_block" [(EIndex (EVar "k") (EVar "i"))]))]);
    SFor (Some (EAssign (EVar "i") (EConst I32 0))) (EBin Lt (EVar "i") (EConst I32 7)) (Some (EPost Add (EVar "i")))
      (SBlock [
        SFor (Some (EAssign (EVar "j") (EConst I32 0))) (EBin Lt (EVar "j") (EConst I32 8)) (Some (EPost Add (EVar "j")))
          (SBlock [
            SExpr (EAssign (EIndex (EVar "kk") (EBin Add (EBin Mul (EVar "i") (EConst I32 8)) (EVar "j"))) (EBin Xor (EBin Shr (EIndex (EVar "k") (EVar "i")) (EBin Mul (EVar "j") (EConst I32 8))) (EVar "i")))])])].

Definition src_dvbcsa_key_set : fundef := mk_fun "dvbcsa_key_set" (TVoid) [("cw", TPtr (TInt U8)); ("key", TPtr (TStruct "dvbcsa_key_s"))] [
    SDecl (TInt U64) "a" (Some (ECall "dvbcsa_load_le64" [(EVar "cw")]));
    SExpr (ECall "dvbcsa_store_le64" [(EField (EDeref (EVar "key")) "cw"); (EVar "a")]);
    SExpr (ECall "dvbcsa_store_le64" [(EField (EDeref (EVar "key")) "cws"); (EBin Or (EBin Shr (EBin And (EVar "a") (EConst U64 0xf0f0f0f0f0f0f0f0)) (EConst I32 4)) (EBin Shl (EBin And (EVar "a") (EConst U64 0xf0f0f0f0f0f0f0f)) (EConst I32 4)))]);
    SExpr (ECall "dvbcsa_key_schedule_block" [(EVar "cw"); (EField (EDeref (EVar "key")) "sch")])].

Definition src_dvbcsa_block_decrypt : fundef := mk_fun "dvbcsa_block_decrypt" (TVoid) [("key", TPtr (TInt U8)); ("in", TPtr (TInt U8)); ("out", TPtr (TInt U8))] [
    SDecl (TInt U32) "i" (Some (EConst I32 0x38));
    SDecl (TArr (TInt U8) 8) "W" None;
    SExpr (ECall "memcpy" [(EVar "W"); (EVar "in"); (ESizeof (EVar "W"))]);
    SWhile (EPost Sub (EVar "i"))
      (SBlock [
        SDecl (TInt U8) "L" None;
        SDecl (TInt U8) "S" None;
        SExpr (EAssign (EVar "S") (EIndex (EVar "dvbcsa_block_sbox") (EBin Xor (EIndex (EVar "key") (EVar "i")) (EIndex (EVar "W") (EConst I32 6)))));
        SExpr (EAssign (EVar "L") (EBin Xor (EIndex (EVar "W") (EConst I32 7)) (EVar "S")));
        SExpr (EAssign (EIndex (EVar "W") (EConst I32 7)) (EIndex (EVar "W") (EConst I32 6)));
        SExpr (EAssign (EIndex (EVar "W") (EConst I32 6)) (EBin Xor (EIndex (EVar "W") (EConst I32 5)) (EIndex (EVar "csa_block_perm") (EVar "S"))));
        SExpr (EAssign (EIndex (EVar "W") (EConst I32 5)) (EIndex (EVar "W") (EConst I32 4)));
        SExpr (EAssign (EIndex (EVar "W") (EConst I32 4)) (EBin Xor (EIndex (EVar "W") (EConst I32 3)) (EVar "L")));
        SExpr (EAssign (EIndex (EVar "W") (EConst I32 3)) (EBin Xor (EIndex (EVar "W") (EConst I32 2)) (EVar "L")));
        SExpr (EAssign (EIndex (EVar "W") (EConst I32 2)) (EBin Xor (EIndex (EVar "W") (EConst I32 1)) (EVar "L")));
        SExpr (EAssign (EIndex (EVar "W") (EConst I32 1)) (EIndex (EVar "W") (EConst I32 0)));
        SExpr (EAssign (EIndex (EVar "W") (EConst I32 0)) (EVar "L"))]);
    SExpr (ECall "memcpy" [(EVar "out"); (EVar "W"); (ESizeof (EVar "W"))])].

Definition src_dvbcsa_block_encrypt : fundef := mk_fun "dvbcsa_block_encrypt" (TVoid) [("key", TPtr (TInt U8)); ("in", TPtr (TInt U8)); ("out", TPtr (TInt U8))] [
    SDecl (TInt U32) "i" (Some (EConst I32 0));
    SDecl (TArr (TInt U8) 8) "W" None;
    SExpr (ECall "memcpy" [(EVar "W"); (EVar "in"); (ESizeof (EVar "W"))]);
    SWhile (EBin Lt (EVar "i") (EConst I32 0x38))
      (SBlock [
        SDecl (TInt U8) "L" None;
        SDecl (TInt U8) "S" None;
        SExpr (EAssign (EVar "S") (EIndex (EVar "dvbcsa_block_sbox") (EBin Xor (EIndex (EVar "key") (EVar "i")) (EIndex (EVar "W") (EConst I32 7)))));
        SExpr (EAssign (EVar "L") (EIndex (EVar "W") (EConst I32 1)));
        SExpr (EAssign (EIndex (EVar "W") (EConst I32 1)) (EBin Xor (EIndex (EVar "W") (EConst I32 2)) (EIndex (EVar "W") (EConst I32 0))));
        SExpr (EAssign (EIndex (EVar "W") (EConst I32 2)) (EBin Xor (EIndex (EVar "W") (EConst I32 3)) (EIndex (EVar "W") (EConst I32 0))));
        SExpr (EAssign (EIndex (EVar "W") (EConst I32 3)) (EBin Xor (EIndex (EVar "W") (EConst I32 4)) (EIndex (EVar "W") (EConst I32 0))));
        SExpr (EAssign (EIndex (EVar "W") (EConst I32 4)) (EIndex (EVar "W") (EConst I32 5)));
        SExpr (EAssign (EIndex (EVar "W") (EConst I32 5)) (EBin Xor (EIndex (EVar "W") (EConst I32 6)) (EIndex (EVar "csa_block_perm") (EVar "S"))));
        SExpr (EAssign (EIndex (EVar "W") (EConst I32 6)) (EIndex (EVar "W") (EConst I32 7)));
        SExpr (EAssign (EIndex (EVar "W") (EConst I32 7)) (EBin Xor (EIndex (EVar "W") (EConst I32 0)) (EVar "S")));
        SExpr (EAssign (EIndex (EVar "W") (EConst I32 0)) (EVar "L"));
        SExpr (EPost Add (EVar "i"))]);
    SExpr (ECall "memcpy" [(EVar "out"); (EVar "W"); (ESizeof (EVar "W"))])].

Definition src_swap_nbl : fundef := mk_fun "swap_nbl" (TInt U8) [("byte", TInt U8)] [
    SReturn (Some (EBin Or (EBin Shr (EVar "byte") (EConst I32 4)) (EBin Shl (EVar "byte") (EConst I32 4))))].

Definition src_csa_stream_rotate : fundef := mk_fun "csa_stream_rotate" (TInt U8) [("pqzyx", TInt U32); ("x", TInt U32)] [
    SReturn (Some (ECond (EBin And (EVar "pqzyx") (EConst I32 0x1000)) (EBin And (EBin Or (EBin Shl (EVar "x") (EConst I32 1)) (EBin And (EBin Shr (EVar "x") (EConst I32 3)) (EConst I32 1))) (EConst I32 0xf)) (EVar "x")))].

Definition src_csa_stream_sboxes : fundef := mk_fun "csa_stream_sboxes" (TInt U32) [("A", TInt U64)] [
    SDecl (TInt U32) "res" None;
    SDecl (TInt U64) "t" None;
    SExpr (EAssign (EVar "t") (EBin And (EVar "A") (EConst I64 0x2018004200)));
    SExpr (EAssign (EVar "res") (EIndex (EIndex (EVar "csa_stream_sboxes.sbox") (EConst I32 1)) (EBin And (EBin Xor (EBin Xor (EBin Xor (EBin Xor (EBin Shr (EVar "t") (EConst I32 0x25)) (EBin Shr (EVar "t") (EConst I32 0x1b))) (EBin Shr (EVar "t") (EConst I32 0x19))) (EBin Shr (EVar "t") (EConst I32 0xb))) (EBin Shr (EVar "t") (EConst I32 5))) (EConst I32 0x1f))));
    SExpr (EAssign (EVar "t") (EBin And (EVar "A") (EConst I64 0x4201480000)));
    SExpr (EOpAssign Or (EVar "res") (EIndex (EIndex (EVar "csa_stream_sboxes.sbox") (EConst I32 4)) (EBin And (EBin Xor (EBin Xor (EBin Xor (EBin Xor (EBin Shr (EVar "t") (EConst I32 0x26)) (EBin Shr (EVar "t") (EConst I32 0x20))) (EBin Shr (EVar "t") (EConst I32 0x16))) (EBin Shr (EVar "t") (EConst I32 0x10))) (EBin Shr (EVar "t") (EConst I32 0x12))) (EConst I32 0x1f))));
    SExpr (EAssign (EVar "t") (EBin And (EVar "A") (EConst I64 0x8040122000)));
    SExpr (EOpAssign Or (EVar "res") (EIndex (EIndex (EVar "csa_stream_sboxes.sbox") (EConst I32 5)) (EBin And (EBin Xor (EBin Xor (EBin Xor (EBin Xor (EBin Shr (EVar "t") (EConst I32 0x27)) (EBin Shr (EVar "t") (EConst I32 0x1d))) (EBin Shr (EVar "t") (EConst I32 0x12))) (EBin Shr (EVar "t") (EConst I32 0xe))) (EBin Shr (EVar "t") (EConst I32 9))) (EConst I32 0x1f))));
    SExpr (EAssign (EVar "t") (EBin And (EVar "A") (EConst I64 0x1082010040)));
    SExpr (EOpAssign Or (EVar "res") (EIndex (EIndex (EVar "csa_stream_sboxes.sbox") (EConst I32 0)) (EBin And (EBin Xor (EBin Xor (EBin Xor (EBin Xor (EBin Shr (EVar "t") (EConst I32 0x24)) (EBin Shr (EVar "t") (EConst I32 0x1e))) (EBin Shr (EVar "t") (EConst I32 0x17))) (EBin Shr (EVar "t") (EConst I32 3))) (EBin Shr (EVar "t") (EConst I32 0xc))) (EConst I32 0x1f))));
    SExpr (EAssign (EVar "t") (EBin And (EVar "A") (EConst I64 0x4a00180)));
    SExpr (EOpAssign Or (EVar "res") (EIndex (EIndex (EVar "csa_stream_sboxes.sbox") (EConst I32 2)) (EBin And (EBin Xor (EBin Xor (EBin Xor (EBin Xor (EBin Shr (EVar "t") (EConst I32 0x1a)) (EBin Shr (EVar "t") (EConst I32 0x16))) (EBin Shr (EVar "t") (EConst I32 0x13))) (EBin Shr (EVar "t") (EConst I32 5))) (EBin Shr (EVar "t") (EConst I32 3))) (EConst I32 0x1f))));
    SExpr (EAssign (EVar "t") (EBin And (EVar "A") (EConst I64 0x100048820)));
    SExpr (EOpAssign Or (EVar "res") (EIndex (EIndex (EVar "csa_stream_sboxes.sbox") (EConst I32 3)) (EBin And (EBin Xor (EBin Xor (EBin Xor (EBin Xor (EBin Shr (EVar "t") (EConst I32 0x20)) (EBin Shr (EVar "t") (EConst I32 0x11))) (EBin Shr (EVar "t") (EConst I32 9))) (EBin Shr (EVar "t") (EConst I32 2))) (EBin Shr (EVar "t") (EConst I32 0xb))) (EConst I32 0x1f))));
    SExpr (EAssign (EVar "t") (EBin And (EVar "A") (EConst I64 0xc20001400)));
    SExpr (EOpAssign Or (EVar "res") (EIndex (EIndex (EVar "csa_stream_sboxes.sbox") (EConst I32 6)) (EBin And (EBin Xor (EBin Xor (EBin Xor (EBin Xor (EBin Shr (EVar "t") (EConst I32 0x23)) (EBin Shr (EVar "t") (EConst I32 0x21))) (EBin Shr (EVar "t") (EConst I32 0x1b))) (EBin Shr (EVar "t") (EConst I32 9))) (EBin Shr (EVar "t") (EConst I32 6))) (EConst I32 0x1f))));
    SReturn (Some (EVar "res"))].

Definition src_csa_stream_B_sel : fundef := mk_fun "csa_stream_B_sel" (TInt U32) [("B", TInt U64)] [
    SDecl (TInt U32) "t" (Some (EBin Shr (EVar "B") (EConst I32 9)));
    SReturn (Some (EBin Xor (EBin Xor (EBin Xor (EBin Xor (EBin Xor (EBin Xor (EBin And (EBin Xor (EVar "t") (EBin Shr (EVar "t") (EConst I32 0x1b))) (EConst I32 8)) (EBin And (EBin Shr (EVar "t") (EConst I32 0x12)) (EConst I32 9))) (EBin And (EBin Xor (EBin Shr (EVar "t") (EConst I32 0x16)) (EBin Shr (EVar "t") (EConst I32 7))) (EConst I32 4))) (EBin And (EBin Shr (EVar "t") (EConst I32 4)) (EConst I32 5))) (EBin And (EBin Xor (EBin Xor (EBin Shr (EVar "t") (EConst I32 0x18)) (EBin Shr (EVar "t") (EConst I32 6))) (EBin Shr (EVar "t") (EConst I32 0xb))) (EConst I32 2))) (EBin And (EBin Xor (EBin Shr (EVar "t") (EConst I32 0x1d)) (EBin Shr (EVar "t") (EConst I32 0x17))) (EConst I32 1))) (EBin And (EBin Shr (EVar "t") (EConst I32 0xd)) (EConst I32 0xe))))].

Definition src_csa_stream_cfed : fundef := mk_fun "csa_stream_cfed" (TInt U32) [("pqzyx", TInt U32); ("cfed", TInt U32)] [
    SReturn (Some (EBin Or (EBin Shr (EBin And (EVar "cfed") (EConst I32 0xf00)) (EConst I32 4)) (EIndex (EVar "csa_stream_cfed.csa_stream_cdef") (EBin Shr (EBin Or (EBin And (EVar "cfed") (EConst I32 0x10ff)) (EBin And (EVar "pqzyx") (EConst I32 0x2f00))) (EConst I32 4)))))].

Definition src_csa_stream_init_round : fundef := mk_fun "csa_stream_init_round" (TVoid) [("iv", TInt U32); ("A", TPtr (TInt U64)); ("B", TPtr (TInt U64)); ("pqzyx", TPtr (TInt U32)); ("cfed", TPtr (TInt U32))] [
    SDecl (TInt U32) "tmp" None;
    SExpr (EOpAssign Shl (EDeref (EVar "A")) (EConst I32 4));
    SExpr (EOpAssign Or (EDeref (EVar "A")) (EBin And (EBin Xor (EBin Xor (EBin Xor (EBin Shr (EDeref (EVar "A")) (EBin Mul (EConst I32 0xa) (EConst I32 4))) (EDeref (EVar "pqzyx"))) (EDeref (EVar "cfed"))) (EBin Shr (EVar "iv") (EConst I32 4))) (EConst I32 0xf)));
    SExpr (EAssign (EVar "tmp") (EBin And (EBin Xor (EBin Xor (EBin Xor (EBin Shr (EDeref (EVar "B")) (EBin Mul (EConst I32 6) (EConst I32 4))) (EBin Shr (EDeref (EVar "B")) (EBin Mul (EConst I32 9) (EConst I32 4)))) (EBin Shr (EDeref (EVar "pqzyx")) (EConst I32 4))) (EVar "iv")) (EConst I32 0xf)));
    SExpr (EAssign (EVar "tmp") (ECall "csa_stream_rotate" [(EDeref (EVar "pqzyx")); (EVar "tmp")]));
    SExpr (EOpAssign Shl (EDeref (EVar "B")) (EConst I32 4));
    SExpr (EOpAssign Or (EDeref (EVar "B")) (EVar "tmp"));
    SExpr (EAssign (EDeref (EVar "cfed")) (EBin Xor (ECall "csa_stream_cfed" [(EDeref (EVar "pqzyx")); (EDeref (EVar "cfed"))]) (ECall "csa_stream_B_sel" [(EDeref (EVar "B"))])));
    SExpr (EAssign (EDeref (EVar "pqzyx")) (ECall "csa_stream_sboxes" [(EDeref (EVar "A"))]))].

Definition src_csa_stream_round : fundef := mk_fun "csa_stream_round" (TVoid) [("A", TPtr (TInt U64)); ("B", TPtr (TInt U64)); ("pqzyx", TPtr (TInt U32)); ("cfed", TPtr (TInt U32))] [
    SDecl (TInt U32) "tmp" None;
    SExpr (EOpAssign Shl (EDeref (EVar "A")) (EConst I32 4));
    SExpr (EOpAssign Or (EDeref (EVar "A")) (EBin And (EBin Xor (EBin Shr (EDeref (EVar "A")) (EBin Mul (EConst I32 0xa) (EConst I32 4))) (EDeref (EVar "pqzyx"))) (EConst I32 0xf)));
    SExpr (EAssign (EVar "tmp") (EBin And (EBin Xor (EBin Xor (EBin Shr (EDeref (EVar "B")) (EBin Mul (EConst I32 6) (EConst I32 4))) (EBin Shr (EDeref (EVar "B")) (EBin Mul (EConst I32 9) (EConst I32 4)))) (EBin Shr (EDeref (EVar "pqzyx")) (EConst I32 4))) (EConst I32 0xf)));
    SExpr (EOpAssign Shl (EDeref (EVar "B")) (EConst I32 4));
    SExpr (EOpAssign Or (EDeref (EVar "B")) (ECall "csa_stream_rotate" [(EDeref (EVar "pqzyx")); (EVar "tmp")]));
    SExpr (EAssign (EDeref (EVar "cfed")) (EBin Xor (ECall "csa_stream_cfed" [(EDeref (EVar "pqzyx")); (EDeref (EVar "cfed"))]) (ECall "csa_stream_B_sel" [(EDeref (EVar "B"))])));
    SExpr (EAssign (EDeref (EVar "pqzyx")) (ECall "csa_stream_sboxes" [(EDeref (EVar "A"))]))].

Definition src_dvbcsa_stream_xor : fundef := mk_fun "dvbcsa_stream_xor" (TVoid) [("cw", TPtr (TInt U8)); ("iv", TPtr (TInt U8)); ("data", TPtr (TInt U8)); ("len", TInt U32)] [
    SDecl (TInt U32) "i" None;
    SDecl (TInt U64) "A" None;
    SDecl (TInt U64) "B" None;
    SDecl (TInt U32) "pqzyx" (Some (EConst I32 0));
    SDecl (TInt U32) "cfed" (Some (EConst I32 0));
    SExpr (EAssign (EVar "A") (ECall "dvbcsa_load_le32" [(EVar "cw")]));
    SExpr (EAssign (EVar "B") (ECall "dvbcsa_load_le32" [(EBin Add (EVar "cw") (EConst I32 4))]));
    SFor (Some (EAssign (EVar "i") (EConst I32 0))) (EBin Lt (EVar "i") (EConst I32 8)) (Some (EPost Add (EVar "i")))
      (SBlock [
        SExpr (ECall "csa_stream_init_round" [(EIndex (EVar "iv") (EVar "i")); (EAddr (EVar "A")); (EAddr (EVar "B")); (EAddr (EVar "pqzyx")); (EAddr (EVar "cfed"))]);
        SExpr (ECall "csa_stream_init_round" [(ECall "swap_nbl" [(EIndex (EVar "iv") (EVar "i"))]); (EAddr (EVar "A")); (EAddr (EVar "B")); (EAddr (EVar "pqzyx")); (EAddr (EVar "cfed"))]);
        SExpr (ECall "csa_stream_init_round" [(EIndex (EVar "iv") (EVar "i")); (EAddr (EVar "A")); (EAddr (EVar "B")); (EAddr (EVar "pqzyx")); (EAddr (EVar "cfed"))]);
        SExpr (ECall "csa_stream_init_round" [(ECall "swap_nbl" [(EIndex (EVar "iv") (EVar "i"))]); (EAddr (EVar "A")); (EAddr (EVar "B")); (EAddr (EVar "pqzyx")); (EAddr (EVar "cfed"))])]);
    SFor (Some (EAssign (EVar "i") (EConst I32 0))) (EBin Lt (EVar "i") (EVar "len")) (Some (EPost Add (EVar "i")))
      (SBlock [
        SExpr (ECall "csa_stream_round" [(EAddr (EVar "A")); (EAddr (EVar "B")); (EAddr (EVar "pqzyx")); (EAddr (EVar "cfed"))]);
        SExpr (EOpAssign Xor (EIndex (EVar "data") (EVar "i")) (EBin And (EIndex (EVar "dvbcsa_stream_xor.csa_stream_out") (EBin And (EVar "cfed") (EConst I32 0xf))) (EConst I32 0xc0)));
        SExpr (ECall "csa_stream_round" [(EAddr (EVar "A")); (EAddr (EVar "B")); (EAddr (EVar "pqzyx")); (EAddr (EVar "cfed"))]);
        SExpr (EOpAssign Xor (EIndex (EVar "data") (EVar "i")) (EBin And (EIndex (EVar "dvbcsa_stream_xor.csa_stream_out") (EBin And (EVar "cfed") (EConst I32 0xf))) (EConst I32 0x30)));
        SExpr (ECall "csa_stream_round" [(EAddr (EVar "A")); (EAddr (EVar "B")); (EAddr (EVar "pqzyx")); (EAddr (EVar "cfed"))]);
        SExpr (EOpAssign Xor (EIndex (EVar "data") (EVar "i")) (EBin And (EIndex (EVar "dvbcsa_stream_xor.csa_stream_out") (EBin And (EVar "cfed") (EConst I32 0xf))) (EConst I32 0xc)));
        SExpr (ECall "csa_stream_round" [(EAddr (EVar "A")); (EAddr (EVar "B")); (EAddr (EVar "pqzyx")); (EAddr (EVar "cfed"))]);
        SExpr (EOpAssign Xor (EIndex (EVar "data") (EVar "i")) (EBin And (EIndex (EVar "dvbcsa_stream_xor.csa_stream_out") (EBin And (EVar "cfed") (EConst I32 0xf))) (EConst I32 3)))])].

Definition src_dvbcsa_decrypt : fundef := mk_fun "dvbcsa_decrypt" (TVoid) [("key", TPtr (TStruct "dvbcsa_key_s")); ("data", TPtr (TInt U8)); ("len", TInt U32)] [
    SDecl (TInt U32) "alen" (Some (EBin And (EVar "len") (ECast (TInt U32) (EUn Not (EConst I32 7)))));
    SDecl (TInt U32) "i" None;
    SIf (EBin Lt (EVar "len") (EConst I32 8))
      (SBlock [
        SReturn None])
      (SBlock []);
    SExpr (ECall "dvbcsa_stream_xor" [(EField (EDeref (EVar "key")) "cws"); (EVar "data"); (EBin Add (EVar "data") (EConst I32 8)); (EBin Sub (EVar "len") (EConst I32 8))]);
    SExpr (ECall "dvbcsa_block_decrypt" [(EField (EDeref (EVar "key")) "sch"); (EVar "data"); (EVar "data")]);
    SFor (Some (EAssign (EVar "i") (EConst I32 8))) (EBin Lt (EVar "i") (EVar "alen")) (Some (EOpAssign Add (EVar "i") (EConst I32 8)))
      (SBlock [
        SExpr (ECall "dvbcsa_xor_64" [(EBin Sub (EBin Add (EVar "data") (EVar "i")) (EConst I32 8)); (EBin Add (EVar "data") (EVar "i"))]);
        SExpr (ECall "dvbcsa_block_decrypt" [(EField (EDeref (EVar "key")) "sch"); (EBin Add (EVar "data") (EVar "i")); (EBin Add (EVar "data") (EVar "i"))])])].

Definition src_dvbcsa_encrypt : fundef := mk_fun "dvbcsa_encrypt" (TVoid) [("key", TPtr (TStruct "dvbcsa_key_s")); ("data", TPtr (TInt U8)); ("len", TInt U32)] [
    SDecl (TInt U32) "alen" (Some (EBin And (EVar "len") (ECast (TInt U32) (EUn Not (EConst I32 7)))));
    SDecl (TInt I32) "i" None;
    SIf (EBin Lt (EVar "len") (EConst I32 8))
      (SBlock [
        SReturn None])
      (SBlock []);
    SExpr (ECall "dvbcsa_block_encrypt" [(EField (EDeref (EVar "key")) "sch"); (EBin Sub (EBin Add (EVar "data") (EVar "alen")) (EConst I32 8)); (EBin Sub (EBin Add (EVar "data") (EVar "alen")) (EConst I32 8))]);
    SFor (Some (EAssign (EVar "i") (EBin Sub (EVar "alen") (EConst I32 0x10)))) (EBin Ge (EVar "i") (EConst I32 0)) (Some (EOpAssign Sub (EVar "i") (EConst I32 8)))
      (SBlock [
        SExpr (ECall "dvbcsa_xor_64" [(EBin Add (EVar "data") (EVar "i")); (EBin Add (EBin Add (EVar "data") (EVar "i")) (EConst I32 8))]);
        SExpr (ECall "dvbcsa_block_encrypt" [(EField (EDeref (EVar "key")) "sch"); (EBin Add (EVar "data") (EVar "i")); (EBin Add (EVar "data") (EVar "i"))])]);
    SExpr (ECall "dvbcsa_stream_xor" [(EField (EDeref (EVar "key")) "cws"); (EVar "data"); (EBin Add (EVar "data") (EConst I32 8)); (EBin Sub (EVar "len") (EConst I32 8))])].

(* later functions first *)
Definition src_program (be : bool) : list fundef :=
  [src_dvbcsa_encrypt;
   src_dvbcsa_decrypt;
   src_dvbcsa_stream_xor;
   src_csa_stream_round;
   src_csa_stream_init_round;
   src_csa_stream_cfed;
   src_csa_stream_B_sel;
   src_csa_stream_sboxes;
   src_csa_stream_rotate;
   src_swap_nbl;
   src_dvbcsa_block_encrypt;
   src_dvbcsa_block_decrypt;
   src_dvbcsa_key_set;
   src_dvbcsa_key_schedule_block;
   src_dvbcsa_key_permute_block;
   src_dvbcsa_store_le64 be;
   src_dvbcsa_load_le64 be;
   src_dvbcsa_load_le32 be;
   src_dvbcsa_xor_64].
