# Formal model of glenvt18/libdvbcsa in Coq 8.16

## Layers (rocq/theories)

| layer | file(s) | contents |
|---|---|---|
| base | `Base.v`, `Mem.v` | result type `res` (`Ok` / `UB kind` / `Abort` / `Fuel`), checked arrays, byte memory `N -> option N`, loops, a small wp logic; the memory predicates of the statements (`holds`, `mapped`, `disjoint`, `same_outside`, `same_inside`) |
| spec | `Spec.v` | the CSA definition, from the published description (nibble registers A1..A10, B1..B10, X Y Z D E F p q r c; 5->2 S-boxes; 64-bit key permutation; 56-round block cipher; reverse CBC), independent of the code's packed registers and tables. `KnownAnswers.v` runs it on the vectors of /repo/test (tests of the transcription) |
| tables | `Tables.v` | constant tables, copied textually from /repo by `tools/gen_tables.py` |
| model | `ModelClassical.v`, `ModelBsWord.v`, `ModelBsTranspose.v`, `ModelBsStream.v`, `ModelBsBlock.v`, `ModelBsAlgo.v`, `ModelAlloc.v`, `ModelSteps.v` | the C code, function by function, each definition citing file:lines |
| vocabulary | `ApiSpec.v`, `BsApiSpec.v`, `HistorySpec.v`, `ThreadSpec.v`, `StepsSpec.v`, `PlanSpec.v`, `TraceSpec.v` | what a reader needs, besides Spec.v and the API functions, to read the statements |
| proofs | `Classical*.v`, `Spec*.v`, `Bs*.v`, `History.v`, `Threads.v`, `Plans.v`, `Steps*.v` | refinement lemmas |
| source text | `SourceClassical.v`, `MiniC.v`, `MiniCFrame.v`, `MiniCRun.v`, `SourceSpec.v`, `SourceRun.v`, `SourceStream.v`, `SourceAlgo.v`, `SourceFacts.v` | the classical C files as syntax trees, a semantics of the C subset they use, and the proof that they do what the model does |
| properties | `Properties_Classical.v`, `Properties_Bitslice.v`, `Properties_AnyKey.v`, `Properties_More.v`, `Properties_History.v`, `Properties_Steps.v`, `Properties_Trace.v`, `Properties_Switches.v`, `Properties_Overlap.v`, `Properties_Heap.v`, `Properties_Maxlen.v`, `Properties_Source.v` | the property theorems, each with `Print Assumptions` and a concrete case |

Undefined behaviour is an explicit outcome: out-of-bounds access of a local array, a table or
memory, signed overflow, misaligned word access, invalid free give `UB kind`; a failing `assert`
gives `Abort`; loops with a data-dependent bound run on fuel and give `Fuel` when exhausted (the
theorems state that the result is `Ok`).  Uninitialised locals are universally quantified
parameters (`junk`, `kj`).  Pointers are unbounded naturals; memory is a partial map, one entry per byte.

## Build configurations

`build` (ModelBsWord.v) ranges over: target word (uint32, uint64, MMX, SSE2, SSSE3, AVX2, NEON),
byte order, `--enable-alt-sbox`, `__i386__` (the 32-bit stream transposition), pointer size,
asserts on/off, whether signed overflow wraps, what follows the S-box table in memory.
`platform` (ModelAlloc.v): which allocators exist.  Theorems quantify over all of them; `supported`
excludes only AVX2 with alt-sbox and AVX2 without readable bytes after the table, both of which
are refuted (C23, C32).

## How each property is proved

* C01 C02 C12: block rounds are mutually inverse (XOR algebra), reverse CBC inverse by induction on
  blocks, the stream XOR is involutive because the IV is the same; lifted to memory through C03/C04.
* C03 C04: refinement of the packed 64-bit/32-bit registers to the nibble spec: bit-level relation,
  sweeps of the S-box and adder tables, key tables by OR-linearity; loops in memory by invariants.
* C05: symbolic refutation for every len >= 2^31+16 (the signed conversion disables the CBC loop).
* C06-C11, C13-C16, C38: corollaries of C03/C04 and lemmas about the spec.
* C17-C19, C21-C26, C29, C30, C36, C37: the bitslice code over words given as their bytes, for
  every target; a logical relation between bit lanes (stream) / byte lanes (block) and the spec;
  the transposition networks are run once on symbolic labels and transferred by parametricity (BsRel).
* C41, and C25/C26 for arbitrary contexts: the relation between lanes and the spec is proved with a
  separate key per bit lane (stream) and per byte lane (block); the keyed context is the instance with
  equal keys (BsAnyKey.v).
* C42: every list of jobs ends in the memory with all packets rewritten; rewriting separate packets
  commutes, so it is invariant under permutation (Plans.v).
* C43, C10 (bit positions): the block cipher is injective, so a difference in one block survives the
  chaining down to the first block (SpecMore.v).
* C20, C27, C31, C32, C35 (fallback), C23 (AVX2 alt): general refutations / witnesses on the same model.
* C28: the model of the asserts.
* C33: refinement of call sequences to an abstract machine (contexts -> control word, program bytes).
* C34: any interleaving of the calls of two threads, by framing of that machine.
* C39: `ModelSteps.v` writes every call as a tree of byte accesses; StepsFacts.v proves that, run
  without interference, the tree is the call of the other model files (same memory, same failures, all
  arguments).  An invariant of the machine that interleaves such trees: each thread writes inside its
  addresses, reads nothing the others own, and would end in its result if it ran alone from here.
* C40: write sets of the trees by structural rules; for batches the exact sequence of writes.
  Key functions: the addresses written are pairwise different (StepsOnce.v), so every byte is old or new.
* C44: an explicit list of accesses for each program of `ModelSteps.v`, proved for all values read
  (`shape` in StepsTrace.v); for batches, given the array.  Lookups in constant tables (S-boxes, key
  permutation) are not accesses of this model; they depend on the data in every build.
* C45: `ModelSwitches.v` (the packet functions under DVBCSA_DISABLE_STREAM / _BLOCK), `SwitchSpec.v`
  (the remaining layers of `Spec.v`); the layer lemmas of C03/C04 and C17/C18 are composed layer by layer.
* C46: `OverlapSpec.v` gives the bytes of the second reading explicitly; `Overlap.v` re-proves the key
  set functions without the no-overlap hypothesis and uses the arbitrary-context results (C08, C41).
  C11_one_keystream is stated with the same vocabulary: one keystream function per control word.
* C47: `HeapSpec.v` writes a thread's program as a possibly infinite tree (`code`: library call or store, look at a byte,
  allocate a context, get or give back memory) and says what it may do on its own (`lstep`, any
  placement of new memory).  The machine interleaves the byte accesses of `ModelSteps.v`; allocations
  and releases are single steps.  Invariant (`HeapMachine.v`): each byte and each context has at most
  one owner or is read-only for all; each thread, with its call in progress run to the end alone, is in
  a state of its own abstract machine.  `Buf`/`Drop` are the program's own memory: malloc'd buffers and
  stack frames (a call's automatic variables are in its frame, see `zero_stack`).
* C48: `BsMaxlen.v`: the loops that count up visit the same states for maxlen and for maxlen rounded up
  (`while_agree`), on any state; out of bounds is proved with a logic for "returns or leaves an array"
  (`wob`), by running up to the first access outside.  Left out: a multiple of 8 above 184 that still
  fits the internal buffer.
* C49: `tools/gen_source.py` preprocesses and parses dvbcsa_pv.h, dvbcsa_key.c, dvbcsa_block.c,
  dvbcsa_stream.c, dvbcsa_algo.c and prints syntax trees and tables (`SourceClassical.v`).  `MiniC.v`
  defines what they mean: expressions with side effects, integer promotions and conversions, signed
  overflow, shifts, automatic objects with lifetimes and indeterminate values, pointers to the caller's
  memory, to automatic objects and to tables, memcpy, loops, calls.  `MiniCFrame.v`: a call does not
  depend on what is below it on the stack.  `MiniCRun.v`: one lemma per construct, with tactics.  Each
  function is then shown to return what the model returns whenever the model returns; composed with
  C03, C04, C07, C08.  For this part of the code the transcription by hand is no longer trusted.
  Not included: dvbcsa_key_alloc/free (malloc, free).
* C50: the same for the bitslice files.  `tools/gen_source_bs.py` preprocesses dvbcsa_bs_algo.c,
  dvbcsa_bs_stream.c (with the kernel), dvbcsa_bs_block.c, dvbcsa_bs_key.c and the transpositions once for
  each word type, pointer size, byte order, S-box variant and assert setting, and prints syntax trees with
  the differences as conditionals on the build (`SourceBitslice.v`).  `BsC.v` defines their meaning: as
  MiniC.v, plus words as values, arrays and structures as automatic objects with members that are words,
  integers or bytes (an object of words may be accessed as bytes or narrower integers and the other way
  round), flat pointers with alignment checks, assert, and indeterminate initial contents given by [rnd].
  `BsCRun.v` has one lemma per construct; `BsCKernel.v` ... `BsCApi.v` show function by function that the
  source returns what the model returns; the results of C17-C28, C41 are then those of the source.
  dvbcsa_bs_key_set calls dvbcsa_load_le64 and dvbcsa_key_schedule_block; their sources are run by MiniC.v
  (`classical_calls`), with the local array lent to the callee at address 0 of a memory moved up by 56 bytes.
* C51: the abstract machine of C33 again, with each API call replaced by the run of the parsed source
  (C49, C50); simulation by `SourceHistory.v`, which adds the invariant that memory contains bytes.  A
  batch call is compared with a loop of classical source calls by induction on the batch.
* C52: `tools/gen_header.py` parses the macros and inline functions of the six word-type headers into
  `HeaderSource.v`; `Header.v` defines C's integer operations on them and every vector intrinsic as an
  operation on bytes, from the vendors' manuals.  Each macro is run symbolically for all words
  (`HeaderFacts.v`, `HeaderAvx2.v` for the AVX2 S-box loop with its gathers, packs and shuffles) and
  compared with bits, lanes and bytes stated independently, and with the operations used by `BsC.v`.
  That the sources use nothing else of the headers, and pass to macros with statements only arguments
  without side effects or captured names, is computed from their syntax trees (C52_uses); that no
  macro's precedence depends on its arguments is checked by the parser (`hygienic`).
* C35: decision logic of the allocator wrappers against the allocators' contracts.

## Trusted base

* Coq 8.16.1's kernel, including `vm_compute`.  No axioms: `Print Assumptions` says "Closed under the
  global context" for every theorem of the `Properties_*.v` files.  (`vcheck` lists
  `Coq.ssr.ssrunder.Under_rel.*`: the fields of a module type in Coq's own ssr library that is
  loaded, not used by any theorem.)
* That the model transcribes the C code.  For the classical files this is replaced (C49) by trust in
  the parser `tools/gen_source.py` and in the semantics `MiniC.v`, whose simplifications are listed at
  its top (evaluation from left to right, the right side of an assignment first; tables bounded as a
  whole; automatic objects hold values of their type).  For the bitslice files it is replaced (C50) by
  trust in `tools/gen_source_bs.py` and `BsC.v`; and the macros of the word headers
  (dvbcsa_bs_{uint32,...}.h), which `BsC.v` takes from `ModelBsWord.v`, are tied to the headers' text (C52)
  by trust in `tools/gen_header.py` and in the meaning that `Header.v` gives to each vector intrinsic
  (alignment of vector loads and stores and `_m_empty` have no meaning there; BS_EXTRACT8, which no
  function calls, is left out).  For the rest, each definition cites its lines; `Tables.v` is generated
  from the sources.  Simplifications are said in the comments of the definitions.
* That `Spec.v` is the published cipher (it reproduces the repository's vectors).
* For C39, C47: sequential consistency of byte accesses (a C11 compiler guarantees it to race-free
  programs, and race freedom is part of the theorem); within a call the order of accesses is that of
  the source text.  For C40 the latter is a real assumption: a compiler may reorder plain stores.
* For C33-C35, C47: the contracts of malloc, posix_memalign, _mm_malloc in `HistorySpec.v`.

### Modelled

All of src/: dvbcsa_pv.h (endian helpers, xor), dvbcsa_block.c, dvbcsa_key.c, dvbcsa_stream.c,
dvbcsa_algo.c, dvbcsa_bs.h, dvbcsa_bs_{uint32,uint64,mmx,sse,avx2,neon}.h, dvbcsa_bs_transpose.h,
dvbcsa_bs_transpose_{block,stream,stream32}.c, dvbcsa_bs_stream_kernel.{h,inc}, dvbcsa_bs_stream.c,
dvbcsa_bs_block.c, dvbcsa_bs_key.c, dvbcsa_bs_algo.c, and the public functions of dvbcsa/dvbcsa.h.

### Not modelled

* dvbcsa_bs_altivec.h (it does not define BS_SHL/SHR by 8, 16, 32 through SHVAL constants the
  transpositions use, so that build does not compile as it stands); the debug helper `worddump`;
  test/ and the build system.
* Intrinsics are modelled by their documented effect on bytes, not by the compiler's output.
* Timing, caches, stack consumption, a finite address space (no wrap-around of pointers).
* Strict-aliasing and pointer-provenance rules, e.g. forming a pointer past one-past-the-end
  (`block += BS_PKT_BLOCKS8` after the last packet) is not treated as undefined.
* The alignment of the caller's batch array and of the stack locals is assumed to be what the ABI gives.

## Findings about the code

1. `dvbcsa_encrypt`: `int i = alen - 16` overflows for len >= 2^31+16; encryption is then wrong and
   does not invert decryption (C05).
2. Packets longer than 184 bytes are copied into the batch buffer without a check: they spill into the
   next slot, and the last slot overruns the buffer; README says otherwise (C20).
3. More packets than the batch size: out-of-bounds write (C27).
4. uint32 build: `kk[i] * 0x01010101` is a signed overflow for kk[i] >= 128 (C31).
5. AVX2: the 32-bit gather reads 2 bytes past `dvbcsa_block_sbox_perm` for index 255; harmless value (C32).
6. AVX2 with --enable-alt-sbox (accepted by configure): wrong results (C23).
7. `dvbcsa_bs_key_alloc` without _mm_malloc, posix_memalign and asserts may return a misaligned context (C35).
8. The key set functions read the control word again after writing part of the context: if it
   overlaps that part, stream cipher and block cipher get different keys (C46).
9. Without assert, a maxlen that is not a multiple of 8 makes encryption write before the start of
   an array, while decryption silently rounds it up; one above 184 overruns the buffer (C48).
10. Observations outside the model: out-of-range pointer formation in the batch transposition loops;
   the Altivec header misses macros; with an empty batch and maxlen > 2^32 - 8 (no assert) the unsigned
   loop counter wraps around and the call does not return.
