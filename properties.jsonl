{"id": "C01", "title": "Classical decrypt undoes encrypt", "statement": "For any control word, after dvbcsa_key_set, dvbcsa_encrypt(key,data,len) followed by dvbcsa_decrypt(key,data,len) leaves the len payload bytes exactly as they were, for every len below 2^31+16.", "quantifier": "every control word, every payload content, every payload length 0 <= len < 2^31+16", "why_tests_cant": "2^64 keys times 2^(8 len) payloads; the test-suite uses two keys and one length", "anchors": ["src/dvbcsa_algo.c:dvbcsa_encrypt", "src/dvbcsa_algo.c:dvbcsa_decrypt", "src/dvbcsa_block.c:dvbcsa_block_encrypt", "src/dvbcsa_block.c:dvbcsa_block_decrypt"]}
{"id": "C02", "title": "Classical encrypt undoes decrypt", "statement": "dvbcsa_decrypt followed by dvbcsa_encrypt with the same key context restores the payload, for every len below 2^31+16.", "quantifier": "every control word, payload content and length 0 <= len < 2^31+16", "why_tests_cant": "the domain is astronomically large; no test runs this direction on odd lengths", "anchors": ["src/dvbcsa_algo.c:dvbcsa_encrypt", "src/dvbcsa_algo.c:dvbcsa_decrypt"]}
{"id": "C03", "title": "dvbcsa_decrypt implements the DVB Common Scrambling Algorithm", "statement": "dvbcsa_decrypt replaces the payload by its descrambling under the CSA definition (56-round block cipher in reverse CBC, nibble-register stream cipher seeded with the first ciphertext block, residue only stream-ciphered), for every key, content and every unsigned 32-bit length.", "quantifier": "every control word, payload content and length 0 <= len < 2^32", "why_tests_cant": "conformance is a statement about all keys and payloads; two known-answer vectors cannot establish the packed-register, table-driven implementation equals the definition everywhere", "anchors": ["src/dvbcsa_algo.c:dvbcsa_decrypt", "src/dvbcsa_stream.c:dvbcsa_stream_xor", "src/dvbcsa_stream.c:csa_stream_sboxes", "src/dvbcsa_stream.c:csa_stream_cfed", "src/dvbcsa_stream.c:csa_stream_B_sel", "src/dvbcsa_block.c:dvbcsa_block_decrypt", "src/dvbcsa_key.c:dvbcsa_key_schedule_block"]}
{"id": "C04", "title": "dvbcsa_encrypt implements the DVB Common Scrambling Algorithm", "statement": "dvbcsa_encrypt replaces the payload by its scrambling under the CSA definition for every key, content and length below 2^31+16.", "quantifier": "every control word, payload content and length 0 <= len < 2^31+16", "why_tests_cant": "same as C03", "anchors": ["src/dvbcsa_algo.c:dvbcsa_encrypt", "src/dvbcsa_block.c:dvbcsa_block_encrypt", "src/dvbcsa_stream.c:dvbcsa_stream_xor"]}
{"id": "C05", "title": "Round trip over the full unsigned length range", "statement": "The round trip of C01 would hold for every length the prototype admits (unsigned int). It does not: dvbcsa_encrypt stores alen-16 in a signed int, so for len >= 2^31+16 the chaining loop is skipped and decrypt(encrypt(data)) differs from data.", "quantifier": "every len in the unsigned int range (refuted for every len >= 2^31+16, with witness payloads)", "why_tests_cant": "no test allocates a 2 GiB packet", "anchors": ["src/dvbcsa_algo.c:dvbcsa_encrypt"]}
{"id": "C06", "title": "Packets shorter than one block are left alone", "statement": "dvbcsa_encrypt, dvbcsa_decrypt, dvbcsa_bs_encrypt and dvbcsa_bs_decrypt leave every payload of fewer than 8 bytes unchanged.", "quantifier": "every key, every payload of length 0..7, every batch containing it", "why_tests_cant": "must hold for all contents and, in the batch API, whatever the other packets are", "anchors": ["src/dvbcsa_algo.c:dvbcsa_encrypt", "src/dvbcsa_algo.c:dvbcsa_decrypt", "src/dvbcsa_bs_transpose_block.c:dvbcsa_bs_block_transpose_out_and_xor"]}
{"id": "C07", "title": "Classical calls write only the payload", "statement": "dvbcsa_encrypt and dvbcsa_decrypt change no byte outside data[0..len); the key context, the bytes before data and after data+len keep their values. dvbcsa_key_set changes nothing outside the key context.", "quantifier": "every key, pointer, length, memory content and every address outside the payload", "why_tests_cant": "a test can only look at a few guard bytes", "anchors": ["src/dvbcsa_algo.c:dvbcsa_encrypt", "src/dvbcsa_algo.c:dvbcsa_decrypt", "src/dvbcsa_block.c:dvbcsa_key_set"]}
{"id": "C08", "title": "Classical calls never execute undefined behaviour", "statement": "With a key context of 72 readable bytes and a payload of len readable and writable bytes, no call of dvbcsa_key_set/encrypt/decrypt indexes a table or the memory out of bounds, and every call terminates.", "quantifier": "every key context content (even never set), payload content and length 0 <= len < 2^32", "why_tests_cant": "undefined behaviour may have no visible effect in a test run, and table indices are data dependent", "anchors": ["src/dvbcsa_algo.c", "src/dvbcsa_block.c", "src/dvbcsa_stream.c", "src/dvbcsa_key.c"]}
{"id": "C09", "title": "Residue bytes are only stream-ciphered", "statement": "The last len mod 8 payload bytes (len >= 8) are XORed with a keystream which depends only on the control word and on the first 8 ciphertext bytes, and the whole blocks of the result do not depend on the residue bytes.", "quantifier": "every key, payload and length >= 8 that is not a multiple of 8", "why_tests_cant": "non-interference quantifies over pairs of payloads", "anchors": ["src/dvbcsa_algo.c:dvbcsa_encrypt", "src/dvbcsa_algo.c:dvbcsa_decrypt", "src/dvbcsa_stream.c:dvbcsa_stream_xor"]}
{"id": "C10", "title": "Ciphertext errors propagate to at most two blocks", "statement": "If two ciphertexts of equal length differ only inside 8-byte block k >= 1 then their decryptions can differ only inside blocks k-1 and k, and if block k is a whole block, block k-1 of the results differs in exactly the bit positions in which block k of the ciphertexts differs.", "quantifier": "every key, every pair of equal-length ciphertexts differing in one block other than the first", "why_tests_cant": "relational property over all pairs of inputs", "anchors": ["src/dvbcsa_algo.c:dvbcsa_decrypt"]}
{"id": "C11", "title": "Keystream depends only on key and first ciphertext block, and is length-extensible", "statement": "Two packets whose ciphertexts start with the same 8 bytes are stream-ciphered with the same keystream; the keystream for a shorter packet is a prefix of that for a longer one.", "quantifier": "every key, every pair of packets sharing the first ciphertext block, any lengths", "why_tests_cant": "relational property over all pairs of inputs and lengths", "anchors": ["src/dvbcsa_stream.c:dvbcsa_stream_xor"]}
{"id": "C12", "title": "Encryption is a length-preserving bijection", "statement": "For a fixed key and a fixed len < 2^31+16, distinct payloads have distinct encryptions and every len-byte string is the encryption of some payload.", "quantifier": "every key, length, pair of payloads", "why_tests_cant": "injectivity quantifies over all pairs", "anchors": ["src/dvbcsa_algo.c:dvbcsa_encrypt", "src/dvbcsa_algo.c:dvbcsa_decrypt"]}
{"id": "C13", "title": "Re-keying forgets the past", "statement": "After dvbcsa_key_set (resp. dvbcsa_bs_key_set) the behaviour of the context depends only on the control word given, not on what the context (freshly malloc'ed, or previously keyed) contained.", "quantifier": "every previous content of the context, every control word, every later payload", "why_tests_cant": "freshly allocated memory content is arbitrary; tests see one", "anchors": ["src/dvbcsa_block.c:dvbcsa_key_set", "src/dvbcsa_bs_key.c:dvbcsa_bs_key_set", "src/dvbcsa_algo.c:dvbcsa_key_alloc"]}
{"id": "C14", "title": "All 64 control-word bits are used, each exactly once per round-key group", "statement": "The expanded key is an injective function of the control word: each of the seven 8-byte groups of the block key is a fixed bit permutation of the control word (XORed with a constant), so two different control words always give different contexts; no bit is ignored or treated as checksum.", "quantifier": "every pair of control words", "why_tests_cant": "2^128 pairs", "anchors": ["src/dvbcsa_key.c:kperm", "src/dvbcsa_key.c:dvbcsa_key_permute_block", "src/dvbcsa_key.c:dvbcsa_key_schedule_block"]}
{"id": "C15", "title": "Key schedule equals the published 64-bit permutation", "statement": "The 56 block-cipher key bytes computed from the 8 precomputed 256-entry tables equal those of the CSA definition by iterated bit permutation.", "quantifier": "every control word", "why_tests_cant": "2^64 control words; 2048 table entries", "anchors": ["src/dvbcsa_key.c:dvbcsa_key_schedule_block", "src/dvbcsa_key.c:kperm"]}
{"id": "C16", "title": "Results do not depend on host byte order (classical)", "statement": "dvbcsa_key_set, dvbcsa_encrypt and dvbcsa_decrypt compute the same memory contents in little-endian and in big-endian builds.", "quantifier": "every key, payload, length", "why_tests_cant": "tests run on one host", "anchors": ["src/dvbcsa_pv.h:dvbcsa_load_le64", "src/dvbcsa_pv.h:dvbcsa_load_le32", "src/dvbcsa_pv.h:dvbcsa_store_le64", "src/dvbcsa_pv.h:dvbcsa_xor_64"]}
{"id": "C17", "title": "Bitslice decryption agrees with the definition on every packet of every batch", "statement": "dvbcsa_bs_decrypt with maxlen a multiple of 8 up to 184 turns each packet (len <= 184) of the batch into the CSA descrambling of its first min(len,maxlen) bytes followed by its untouched tail; hence it gives exactly what dvbcsa_decrypt gives on that prefix.", "quantifier": "every build target, control word, batch of up to dvbcsa_bs_batch_size() packets, lengths 0..184, contents, maxlen", "why_tests_cant": "the equality of two very different implementations on all inputs and all batch shapes", "anchors": ["src/dvbcsa_bs_algo.c:dvbcsa_bs_decrypt", "src/dvbcsa_bs_block.c", "src/dvbcsa_bs_stream.c", "src/dvbcsa_bs_stream_kernel.inc", "src/dvbcsa_bs_transpose_block.c", "src/dvbcsa_bs_transpose_stream.c", "src/dvbcsa_bs_transpose_stream32.c"]}
{"id": "C18", "title": "Bitslice encryption agrees with the definition on every packet of every batch", "statement": "dvbcsa_bs_encrypt with maxlen a multiple of 8 up to 184 turns each packet (len <= 184) of the batch into the CSA scrambling of its first min(len,maxlen) bytes followed by its untouched tail; hence it gives exactly what dvbcsa_encrypt gives on that prefix.", "quantifier": "every build target, control word, batch of up to dvbcsa_bs_batch_size() packets, lengths 0..184, contents, maxlen", "why_tests_cant": "same as C17", "anchors": ["src/dvbcsa_bs_algo.c:dvbcsa_bs_encrypt", "src/dvbcsa_bs_block.c", "src/dvbcsa_bs_stream.c", "src/dvbcsa_bs_stream_kernel.inc", "src/dvbcsa_bs_transpose_block.c", "src/dvbcsa_bs_transpose_stream.c", "src/dvbcsa_bs_transpose_stream32.c"]}
{"id": "C19", "title": "Packets longer than maxlen are partially processed (len <= 184)", "statement": "Bytes of a packet at offset >= maxlen keep their value and the first maxlen bytes are processed exactly as a packet of length maxlen (README).", "quantifier": "every target, key, batch, maxlen in {0,8,..,184}, len in maxlen..184", "why_tests_cant": "all combinations of lengths and contents; the test-suite only ever uses maxlen = 184", "anchors": ["src/dvbcsa_bs_algo.c", "README"]}
{"id": "C20", "title": "Packets longer than 184 bytes would be partially processed too", "statement": "README: 'Packet greater than this limit will only be partially processed'. False for len > 184 (DVBCSA_BS_MAX_PACKET_LEN): bytes at offset >= 184 are overwritten with the next packet's processed bytes, and in the last slot the internal buffer is overrun.", "quantifier": "every batch containing a packet with len > 184 (refuted with a two-packet batch; overrun for every full batch whose last packet is too long)", "why_tests_cant": "needs an adversarial length; the corruption is silent", "anchors": ["src/dvbcsa_bs_algo.c:dvbcsa_pkt_buf_load", "src/dvbcsa_bs_algo.c:dvbcsa_pkt_buf_store", "README"]}
{"id": "C21", "title": "Packets of a batch do not influence each other", "statement": "The result for a packet depends only on the control word, its own bytes, its length and maxlen: not on the number of packets, on its position, nor on the other packets' contents and lengths.", "quantifier": "every pair of batches sharing a packet (possibly at different positions)", "why_tests_cant": "relational property over all pairs of batches", "anchors": ["src/dvbcsa_bs_algo.c", "src/dvbcsa_bs_transpose_block.c", "src/dvbcsa_bs_transpose_stream.c", "src/dvbcsa_bs_transpose_stream32.c"]}
{"id": "C22", "title": "Uninitialised scratch memory never reaches the output", "statement": "dvbcsa_bs_encrypt/decrypt read uninitialised stack memory (unused lanes, bytes beyond each packet's end); the bytes they store do not depend on its content.", "quantifier": "every content of the uninitialised locals", "why_tests_cant": "a test run sees one stack content", "anchors": ["src/dvbcsa_bs_algo.c:dvbcsa_pkt_buf_load", "src/dvbcsa_bs_block.c", "src/dvbcsa_bs_stream.c:dvbcsa_bs_stream_cipher_batch"]}
{"id": "C23", "title": "All build targets compute the same function", "statement": "uint32, uint64 (both little- and big-endian), MMX, SSE2, SSSE3, AVX2 and NEON builds, with or without --enable-alt-sbox, on i386 or not, give identical results, except AVX2 with --enable-alt-sbox (accepted by configure), which computes something else (refuted).", "quantifier": "every pair of build configurations, every key, every batch that fits both", "why_tests_cant": "needs many machines and all inputs", "anchors": ["src/dvbcsa_bs_uint32.h", "src/dvbcsa_bs_uint64.h", "src/dvbcsa_bs_mmx.h", "src/dvbcsa_bs_sse.h", "src/dvbcsa_bs_avx2.h", "src/dvbcsa_bs_neon.h", "src/dvbcsa_bs_transpose.h", "src/dvbcsa_bs_block.c"]}
{"id": "C24", "title": "Bitslice and cross round trips", "statement": "bs_decrypt(bs_encrypt(batch)) = batch, bs_encrypt(bs_decrypt(batch)) = batch; a packet encrypted by one API is decrypted by the other.", "quantifier": "every target, key, batch, maxlen", "why_tests_cant": "same as C01, times batch shapes", "anchors": ["src/dvbcsa_bs_algo.c", "src/dvbcsa_algo.c"]}
{"id": "C25", "title": "Bitslice calls write only the payloads", "statement": "dvbcsa_bs_encrypt/decrypt change no byte outside the union of data[i][0..len_i); the batch array and the key context keep their values.", "quantifier": "every target, batch, key-context content, memory content and address outside the payloads", "why_tests_cant": "a test can only look at a few guard bytes", "anchors": ["src/dvbcsa_bs_algo.c:dvbcsa_pkt_buf_store"]}
{"id": "C26", "title": "Bitslice calls never execute undefined behaviour when the documented limits hold", "statement": "With at most dvbcsa_bs_batch_size() packets of at most 184 bytes, a terminated batch array, maxlen a multiple of 8 up to 184 and an aligned key context (whatever its content, even uninitialised or half-keyed), no call indexes any array, table or buffer out of bounds, and every call returns.", "quantifier": "every target (other than AVX2, see C32), key, batch and maxlen in the limits", "why_tests_cant": "out-of-bounds accesses may be silent", "anchors": ["src/dvbcsa_bs_algo.c", "src/dvbcsa_bs_block.c", "src/dvbcsa_bs_stream.c", "src/dvbcsa_bs_stream_kernel.inc", "src/dvbcsa_bs_transpose_block.c", "src/dvbcsa_bs_transpose_stream.c"]}
{"id": "C27", "title": "The batch-size limit is tight", "statement": "A batch array with more than dvbcsa_bs_batch_size() packets makes the library write past its internal buffer: it is neither rejected nor truncated.", "quantifier": "every target, every batch with more packets than the limit", "why_tests_cant": "undefined behaviour; a test may crash or pass", "anchors": ["src/dvbcsa_bs_algo.c:dvbcsa_pkt_buf_load"]}
{"id": "C28", "title": "Bad maxlen is rejected before anything is touched", "statement": "When assertions are enabled, a maxlen that is not a multiple of 8 or exceeds 184 aborts before any packet is read or written.", "quantifier": "every maxlen outside {0,8,...,184}, every batch and key", "why_tests_cant": "all 2^32 values of maxlen", "anchors": ["src/dvbcsa_bs_algo.c:dvbcsa_bs_decrypt", "src/dvbcsa_bs_algo.c:dvbcsa_bs_encrypt"]}
{"id": "C29", "title": "The NULL entry terminates the batch", "statement": "Entries after the first NULL data pointer are never read or written, and a batch whose first entry is NULL changes nothing.", "quantifier": "every batch prefix, every array content after the terminator", "why_tests_cant": "content after the terminator is arbitrary memory", "anchors": ["src/dvbcsa_bs_algo.c:dvbcsa_pkt_buf_load", "src/dvbcsa_bs_algo.c:dvbcsa_pkt_buf_store"]}
{"id": "C30", "title": "Bitslice key contexts key all lanes identically and interoperate with classical ones", "statement": "dvbcsa_bs_key_set writes, for every lane of every batch position, the same control-word bits and the same 56 round-key bytes as dvbcsa_key_set derives from that control word.", "quantifier": "every target, control word, batch position", "why_tests_cant": "all control words and lanes", "anchors": ["src/dvbcsa_bs_key.c:dvbcsa_bs_key_set"]}
{"id": "C31", "title": "dvbcsa_bs_key_set is free of undefined behaviour on every target", "statement": "False for the uint32 build: kk[i] * 0x01010101 multiplies in signed int and overflows whenever a round-key byte is >= 0x80. True for all other targets.", "quantifier": "every control word, every target (refuted on uint32 with a witness control word)", "why_tests_cant": "signed overflow usually wraps silently", "anchors": ["src/dvbcsa_bs_key.c:dvbcsa_bs_key_set"]}
{"id": "C32", "title": "AVX2 table lookups stay inside the table", "statement": "False: the 32-bit gather used for the 16-bit sbox/permutation table reads two bytes past the end of the table whenever a lane looks up entry 255. The value read there never influences the result.", "quantifier": "every key and batch in the AVX2 build (refuted with a witness; result independence for every value of the two stray bytes)", "why_tests_cant": "the stray read is invisible unless the table is the last object of a mapped page", "anchors": ["src/dvbcsa_bs_avx2.h:avx2_block_sbox_permute", "src/dvbcsa_bs_block.c:dvbcsa_block_sbox_perm"]}
{"id": "C33", "title": "Any history of API calls behaves like the abstract cipher", "statement": "For any sequence of key_set / encrypt / decrypt calls, classical and bitslice, on any number of contexts and buffers, each buffer's content is what the CSA definition gives for the control words last set in the contexts used.", "quantifier": "every finite sequence of well-formed API calls, every number of contexts and buffers", "why_tests_cant": "unbounded histories", "anchors": ["src/dvbcsa/dvbcsa.h"]}
{"id": "C34", "title": "Calls on disjoint buffers commute (re-entrancy)", "statement": "Two threads calling the library on disjoint buffers, sharing key contexts that nobody re-keys meanwhile, get the results they would get running alone, whatever the interleaving of their calls (allocation, keying and freeing of private contexts included): the library keeps no hidden mutable state.", "quantifier": "every interleaving of two finite call sequences with disjoint write footprints", "why_tests_cant": "unbounded number of schedules", "anchors": ["src/dvbcsa/dvbcsa.h", "src/dvbcsa_algo.c", "src/dvbcsa_bs_algo.c"]}
{"id": "C35", "title": "Bitslice contexts are allocated with the alignment the target needs and released by the matching function", "statement": "A non-NULL context returned by dvbcsa_bs_key_alloc is aligned to the bitslice word size, is large enough for all key words, and dvbcsa_bs_key_free uses the deallocator of the same family; alignment arguments given to posix_memalign are legal. Exception (proved): where malloc is the only allocator and asserts are off, the context may be misaligned.", "quantifier": "every combination of target, pointer size and available allocators; every allocator result meeting its contract", "why_tests_cant": "each test build exercises one combination", "anchors": ["src/dvbcsa_bs_algo.c:dvbcsa_bs_key_alloc", "src/dvbcsa_bs_algo.c:dvbcsa_bs_key_free"]}
{"id": "C36", "title": "A batch call reads every packet before writing any", "statement": "If packets of a batch overlap in memory, the result is as if all were read first and then written back in array order; in particular listing the same packet twice processes it once.", "quantifier": "every batch, with arbitrary overlaps", "why_tests_cant": "all overlap patterns", "anchors": ["src/dvbcsa_bs_algo.c:dvbcsa_pkt_buf_load", "src/dvbcsa_bs_algo.c:dvbcsa_pkt_buf_store"]}
{"id": "C37", "title": "dvbcsa_bs_batch_size is the number of independent lanes of the build target", "statement": "dvbcsa_bs_batch_size() returns 32, 64, 128 or 256 according to the target, a batch of exactly that many packets is processed correctly, and each position is mapped to its own bit lane and its own byte lane.", "quantifier": "every target, every position below the batch size", "why_tests_cant": "lane maps must be injective for all positions", "anchors": ["src/dvbcsa_bs_algo.c:dvbcsa_bs_batch_size", "src/dvbcsa_bs_transpose_block.c", "src/dvbcsa_bs_transpose_stream.c", "src/dvbcsa_bs_transpose_stream32.c"]}
{"id": "C38", "title": "In-place and unaligned payloads", "statement": "The classical functions impose no alignment on data and give the same result at every address: moving a payload moves the result.", "quantifier": "every pair of addresses, every payload", "why_tests_cant": "all addresses", "anchors": ["src/dvbcsa_algo.c", "src/dvbcsa_pv.h:dvbcsa_xor_64"]}
{"id": "C39", "title": "Concurrent calls are race-free at the granularity of single memory accesses", "statement": "Any number of threads whose calls touch disjoint buffers, sharing contexts that nobody re-keys, may be interleaved at every single byte access: no data race ever occurs, every thread makes progress and finishes, and each finds in its buffers what it would have got running alone.", "quantifier": "every number of threads, every finite sequence of calls in each, every interleaving of their byte accesses", "why_tests_cant": "astronomically many schedules; a race need not show in any test run", "anchors": ["src/dvbcsa/dvbcsa.h", "src/dvbcsa_algo.c", "src/dvbcsa_bs_algo.c"]}
{"id": "C40", "title": "An interrupted call leaves only its own buffers changed", "statement": "Whenever a call is stopped (process killed, memory shared with a reader), after however many memory accesses, only bytes of its packets (its context, for the key functions) differ from before. A batch call writes the results packet by packet in array order, each byte once: at every moment each byte has its old or its final value. The same holds of the context during the key functions, and a context whose keying was interrupted can still be used without undefined behaviour.", "quantifier": "every crash point of every call, every key, batch, length and maxlen", "why_tests_cant": "all intermediate moments of a call", "anchors": ["src/dvbcsa_algo.c", "src/dvbcsa_bs_algo.c:dvbcsa_pkt_buf_store", "src/dvbcsa_bs_algo.c"]}
{"id": "C41", "title": "Whatever a bitslice context contains, each packet position uses its own key lanes", "statement": "Position i of a batch is processed with the stream-cipher key found in its own bit lane of the context and the round keys found in its own byte lane, whatever the other lanes contain; a context keyed by dvbcsa_bs_key_set has the same key in all lanes; decryption undoes encryption under any context content.", "quantifier": "every target, every context content (also one no dvbcsa_bs_key_set produces), batch, maxlen", "why_tests_cant": "contexts with different keys in different lanes are not reachable in a test of the API, and there are 256^(120 * word size) of them", "anchors": ["src/dvbcsa_bs_algo.c", "src/dvbcsa_bs_block.c", "src/dvbcsa_bs_stream.c", "src/dvbcsa_bs_stream_kernel.inc"]}
{"id": "C42", "title": "Grouping and order of packets do not matter", "statement": "Any two lists of calls with the same key that process the same (separate) packets once each - one full batch, several smaller batches, any order of the packets, any mixture of build targets, dvbcsa_decrypt per packet - end with the same memory.", "quantifier": "every way of cutting and ordering a set of packets into calls, every key, every build", "why_tests_cant": "factorially many plans for one set of packets", "anchors": ["src/dvbcsa_bs_algo.c", "src/dvbcsa_algo.c", "src/dvbcsa/dvbcsa.h"]}
{"id": "C43", "title": "Changing a whole block of plaintext always changes the first ciphertext block", "statement": "Two payloads of the same length under one key that differ in exactly one whole 8-byte block have different first ciphertext blocks (the chaining runs from the last block to the first).", "quantifier": "every key, every length, every block position, every two block values", "why_tests_cant": "2^128 pairs of block values per position", "anchors": ["src/dvbcsa_algo.c:dvbcsa_encrypt"]}
{"id": "C44", "title": "The memory accesses of a call depend on addresses and lengths only", "statement": "Given the addresses and lengths passed to a call (for a batch: where the packets lie and how long they are, and maxlen), the sequence of bytes of the caller's memory that it reads and writes, and so the number of accesses, is the same whatever the key, the payloads and the uninitialised stack contain, and its length is an explicit linear function of the lengths. (Lookups in the library's constant tables are not counted: they do depend on the data.)", "quantifier": "every call of the four processing and two key functions, every pair of memory contents", "why_tests_cant": "a relation between all pairs of executions", "anchors": ["src/dvbcsa_algo.c", "src/dvbcsa_bs_algo.c", "src/dvbcsa_bs_block.c", "src/dvbcsa_bs_stream.c"]}
{"id": "C45", "title": "Compiling one layer out leaves exactly the other layer", "statement": "A library compiled with DVBCSA_DISABLE_BLOCK or DVBCSA_DISABLE_STREAM (or both) computes, in the classical and in the batch functions alike, the cipher without that layer: with the block layer out, encryption and decryption both XOR the keystream seeded by the unchanged first 8 bytes; with the stream layer out, they are reverse chaining of the block cipher and leave the trailing bytes alone; with both out, nothing changes. Each such build inverts itself, and with neither macro defined it is the ordinary library.", "quantifier": "every combination of the two macros, key, payload, length, batch and build", "why_tests_cant": "four builds of the library, all inputs", "anchors": ["src/dvbcsa_algo.c:dvbcsa_decrypt", "src/dvbcsa_algo.c:dvbcsa_encrypt", "src/dvbcsa_bs_algo.c:dvbcsa_bs_decrypt", "src/dvbcsa_bs_algo.c:dvbcsa_bs_encrypt"]}
{"id": "C46", "title": "A control word that overlaps the context", "statement": "dvbcsa_key_set and dvbcsa_bs_key_set read the 8 bytes of the control word twice, and write to the context in between. For every address of the control word, overlapping the context in any way, the call returns and writes only the context; afterwards the stream cipher works with the control word as it was at entry and the block cipher with the round keys of the bytes that the second reading finds, which are given explicitly. They are the control word itself when it lies outside the first 16 bytes of the context (bitslice: outside the stream words) or is the copy at its start, so that the context is the proper one; otherwise the cipher is in general not CSA with any single control word, but decryption still inverts encryption.", "quantifier": "every address, control word, context content and build, both key functions", "why_tests_cant": "every possible overlap, all control words; tests never let them overlap", "anchors": ["src/dvbcsa_block.c:dvbcsa_key_set", "src/dvbcsa_bs_key.c:dvbcsa_bs_key_set", "src/dvbcsa_key.c:dvbcsa_key_schedule_block"]}
{"id": "C47", "title": "Whole multi-threaded programs", "statement": "Any number of threads run programs whose control flow may depend on the bytes they read and on the addresses they are given; they allocate, key, use and release contexts and buffers, share contexts that nobody sets or releases, and share bytes that nobody writes. If each program is correct on its own, wherever its memory happens to be placed and also when an allocation fails, then running them together, interleaved access by access, with an allocator that may hand one thread the memory another has released: no data race and no undefined behaviour ever occurs, no thread is ever stuck, a call ends after a bounded number of its own steps whatever the others do, each thread finds in its bytes something it could also have found running alone, and everything that no thread may change stays as it was; and if each program ends when run alone, every execution ends.", "quantifier": "every number of threads, every program (also ones that never end), every placement and failure of allocations, every interleaving of byte accesses", "why_tests_cant": "programs, schedules and allocator behaviours are unbounded; races and stale pointers need not show in any run", "anchors": ["src/dvbcsa/dvbcsa.h", "src/dvbcsa_algo.c", "src/dvbcsa_bs_algo.c", "src/dvbcsa_key.c:dvbcsa_key_alloc,dvbcsa_key_free", "src/dvbcsa_bs_key.c:dvbcsa_bs_key_alloc,dvbcsa_bs_key_free"]}
{"id": "C48", "title": "A bad maxlen in a library compiled without assertions", "statement": "With assertions a maxlen that is not a multiple of 8 or exceeds 184 stops the program (C28). Without them: decryption with maxlen <= 184 works exactly as if maxlen were rounded up to a multiple of 8, so that it processes up to 7 bytes more than asked; encryption with maxlen below 8 leaves all packets unchanged; encryption with any other maxlen that is not a multiple of 8 accesses memory before the start of an internal array as soon as the first packet has 8 bytes; and both directions access memory beyond the end of the internal packet buffer if maxlen exceeds 184 bytes for each slot of the batch from the last packet's on, in particular for a full batch and every maxlen above 184.", "quantifier": "every build without assertions, key, batch and maxlen in the ranges named", "why_tests_cant": "all 2^32 values of maxlen with all batches; out-of-bounds accesses need not show", "anchors": ["src/dvbcsa_bs_algo.c:dvbcsa_bs_decrypt", "src/dvbcsa_bs_algo.c:dvbcsa_bs_encrypt", "src/dvbcsa_bs_block.c:dvbcsa_bs_block_encrypt_batch", "src/dvbcsa_bs_stream.c:dvbcsa_bs_stream_cipher_batch"]}
{"id": "C49", "title": "The source text itself is CSA", "statement": "Running the C source text of dvbcsa_key_set, dvbcsa_encrypt and dvbcsa_decrypt (with all the functions and tables they use, exactly as they stand in the files) according to the rules of C for integer types, promotions, conversions, wrap-around, signed overflow, shifts, objects, pointers and memcpy, on a little- or big-endian machine: after dvbcsa_key_set with any control word, in every later memory that still has the key context, the two packet functions replace any packet by its CSA scrambling or descrambling (below 2^31+16 bytes for encryption) and change nothing else; with any context contents they end without undefined behaviour and write nothing outside the packet.", "quantifier": "every memory, control word, context, packet, length, address and byte order", "why_tests_cant": "unbounded inputs; that no operation of the source overflows, shifts too far, or leaves its object for any input is not visible in test runs", "anchors": ["src/dvbcsa_algo.c", "src/dvbcsa_stream.c:dvbcsa_stream_xor", "src/dvbcsa_block.c", "src/dvbcsa_key.c", "src/dvbcsa_pv.h"]}
{"id": "C50", "title": "The source text of the batch functions is CSA", "statement": "Running the C source text of dvbcsa_bs_key_set, dvbcsa_bs_encrypt and dvbcsa_bs_decrypt (all functions of the bitslice files they reach, exactly as they stand after preprocessing for each of the word types uint32, uint64, MMX, SSE2, AVX2 and NEON) according to the rules of C: dvbcsa_bs_key_set with any control word writes the key context and nothing else (in a uint32 build under ISO C, for control words without a large round key, see C31); in every later memory that still has the context, for any batch within the documented limits, the packet functions end, every payload is replaced by its CSA scrambling or descrambling up to maxlen and nothing else changes, whatever the automatic objects contain when they come into existence. On a context with any content it ends without undefined behaviour and without a write outside the payloads, the result does not depend on uninitialised storage, and the opposite call restores the memory. With assertions any other maxlen aborts.", "quantifier": "every supported build, memory, key context, batch, maxlen and initial content of automatic storage", "why_tests_cant": "unbounded inputs and builds; reads of indeterminate values, out-of-object accesses and misaligned words need not show in test runs", "anchors": ["src/dvbcsa_bs_algo.c", "src/dvbcsa_bs_block.c", "src/dvbcsa_bs_stream.c", "src/dvbcsa_bs_key.c:dvbcsa_bs_key_set", "src/dvbcsa_bs_stream_kernel.inc", "src/dvbcsa_bs_transpose_block.c", "src/dvbcsa_bs_transpose_stream.c", "src/dvbcsa_bs_transpose_stream32.c"]}
{"id": "C51", "title": "Whole histories of source-level calls, and batch calls as loops of single calls", "statement": "Take the C source text of the library, both halves. Any sequence of stores by the program and API calls (allocate, set a control word, encrypt, decrypt, batch encrypt, batch decrypt, free), in any order and with any number of contexts, that respects the documented limits runs to its end without undefined behaviour, and the program's own bytes are then what the Common Scrambling Algorithm with the control words last set says, whatever uninitialised locals contained. In particular one batch call leaves memory exactly as a loop of dvbcsa_encrypt or dvbcsa_decrypt over its packets (at most maxlen bytes of each) does.", "quantifier": "all build targets and byte orders, all histories, all contents of memory, all control words, all batches within the limits, all contents of automatic objects", "why_tests_cant": "a test runs one compiled program on some histories; the claim quantifies over every history and every build, and is about the text of the source rather than one compilation of it", "anchors": ["src/dvbcsa_algo.c: dvbcsa_encrypt, dvbcsa_decrypt", "src/dvbcsa_key.c: dvbcsa_key_set", "src/dvbcsa_bs_algo.c: dvbcsa_bs_encrypt, dvbcsa_bs_decrypt", "src/dvbcsa_bs_key.c: dvbcsa_bs_key_set"]}
{"id": "C52", "title": "Every word-type header implements the word operations", "statement": "For each of the word types (uint32, uint64, MMX, SSE2, SSSE3, AVX2, NEON), running the header's own text with the documented meaning of the vector intrinsics, on all words: BS_AND, BS_OR, BS_XOR, BS_NOT act on each bit; BS_SHL and BS_SHR by any count from 1 to below the lane size shift each lane as an unsigned number; each constant BS_VALn(v) used in the sources is the n-bit number repeated over the word; BS_BATCH_SIZE is the number of bits of a word; the interleaved loads give the even and the odd bytes (AVX2: the two words); NEON's BS_SWAPn_LE exchange odd elements of the first word with even elements of the second; AVX2's own S-box loop followed by its loads gives the S-box of every byte and its bit permutation. The sources use the headers in no other way.", "quantifier": "every build, all word values, shift counts, constants in the sources, destinations' old contents", "why_tests_cant": "2^(2*256) pairs of words for AVX2 alone; targets that the testing machine does not have", "anchors": ["src/dvbcsa_bs_uint32.h", "src/dvbcsa_bs_uint64.h", "src/dvbcsa_bs_mmx.h", "src/dvbcsa_bs_sse.h", "src/dvbcsa_bs_avx2.h", "src/dvbcsa_bs_neon.h"]}
