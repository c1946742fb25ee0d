{
 "claims": [
  {
   "property": "C01",
   "status": "proved",
   "theorems": [
    "C01_decrypt_after_encrypt"
   ],
   "note": "All contexts keyed by dvbcsa_key_set, all payloads, len < 2^31+16, both byte orders; all of memory is restored."
  },
  {
   "property": "C02",
   "status": "proved",
   "theorems": [
    "C02_encrypt_after_decrypt"
   ],
   "note": "As C01, other order."
  },
  {
   "property": "C03",
   "status": "proved",
   "theorems": [
    "C03_decrypt_is_csa"
   ],
   "note": "All 32-bit lengths."
  },
  {
   "property": "C04",
   "status": "proved",
   "theorems": [
    "C04_encrypt_is_csa"
   ],
   "note": "len < 2^31+16 (see C05 for the rest)."
  },
  {
   "property": "C05",
   "status": "proved",
   "theorems": [
    "C05_round_trip_refuted",
    "C05_large_packet_behaviour",
    "C05_source_large_packet",
    "C05_source_refuted"
   ],
   "note": "The full-range round trip is false of the code; refutation for every len in [2^31+16, 2^32) plus the exact first block for every packet; the last two theorems say the same of the C source text (C49)."
  },
  {
   "property": "C07",
   "status": "proved",
   "theorems": [
    "C07_only_payload_written",
    "C07_C08_C15_key_set"
   ],
   "note": "Any context contents, all 32-bit lengths."
  },
  {
   "property": "C08",
   "status": "proved",
   "theorems": [
    "C08_no_undefined_behaviour",
    "C07_C08_C15_key_set"
   ],
   "note": "Any context contents, all 32-bit lengths; unbounded address space."
  },
  {
   "property": "C09",
   "status": "proved",
   "theorems": [
    "C09_residue_encrypt",
    "C09_residue_decrypt"
   ],
   "note": ""
  },
  {
   "property": "C10",
   "status": "proved",
   "theorems": [
    "C10_error_propagation",
    "C10_bit_flips"
   ],
   "note": ""
  },
  {
   "property": "C11",
   "status": "proved",
   "theorems": [
    "C11_one_keystream",
    "C11_same_keystream",
    "C11_prefix_decryption"
   ],
   "note": ""
  },
  {
   "property": "C12",
   "status": "proved",
   "theorems": [
    "C12_encryption_injective",
    "C12_encryption_surjective"
   ],
   "note": ""
  },
  {
   "property": "C14",
   "status": "proved",
   "theorems": [
    "C14_schedule_is_bit_permutation",
    "C14_all_bits_used"
   ],
   "note": ""
  },
  {
   "property": "C15",
   "status": "proved",
   "theorems": [
    "C07_C08_C15_key_set"
   ],
   "note": ""
  },
  {
   "property": "C16",
   "status": "proved",
   "theorems": [
    "C16_endian_independent_packets",
    "C16_endian_independent_key_set"
   ],
   "note": ""
  },
  {
   "property": "C33",
   "status": "proved",
   "theorems": [
    "C33_history",
    "C33_every_prefix",
    "C33_deterministic"
   ],
   "note": ""
  },
  {
   "property": "C34",
   "status": "proved",
   "theorems": [
    "C34_threads"
   ],
   "note": "interleavings of whole calls of two threads; C39 and C47 interleave single accesses of any number of threads"
  },
  {
   "property": "C35",
   "status": "proved",
   "theorems": [
    "C35_bs_key_alloc",
    "C35_key_alloc",
    "C35_free_null",
    "C35_fallback_refuted"
   ],
   "note": "the alignment claim is false for the plain malloc fallback without asserts: C35_fallback_refuted"
  },
  {
   "property": "C38",
   "status": "proved",
   "theorems": [
    "C38_address_independent"
   ],
   "note": ""
  },
  {
   "property": "C06",
   "status": "proved",
   "theorems": [
    "C06_short_packets_classical",
    "C06_short_packets_bitslice"
   ],
   "note": ""
  },
  {
   "property": "C13",
   "status": "proved",
   "theorems": [
    "C13_rekeying_forgets",
    "C13_bs_rekeying_forgets",
    "C13_C31_bs_key_set"
   ],
   "note": ""
  },
  {
   "property": "C17",
   "status": "proved",
   "theorems": [
    "C17_bs_decrypt_is_csa",
    "C17_matches_classical"
   ],
   "note": "All targets, both byte orders; AVX2 with the default S-box and readable bytes after the table (see C23, C32)."
  },
  {
   "property": "C18",
   "status": "proved",
   "theorems": [
    "C18_bs_encrypt_is_csa",
    "C18_matches_classical"
   ],
   "note": "As C17."
  },
  {
   "property": "C19",
   "status": "proved",
   "theorems": [
    "C19_partial_processing"
   ],
   "note": ""
  },
  {
   "property": "C20",
   "status": "proved",
   "theorems": [
    "C20_long_packets_spill",
    "C20_long_packet_overruns",
    "C20_readme_refuted"
   ],
   "note": "The README's promise is false of the code: refuted on every target, and the exact effect proved for every batch."
  },
  {
   "property": "C21",
   "status": "proved",
   "theorems": [
    "C21_packets_independent"
   ],
   "note": ""
  },
  {
   "property": "C22",
   "status": "proved",
   "theorems": [
    "C22_uninitialised_memory_harmless"
   ],
   "note": ""
  },
  {
   "property": "C23",
   "status": "proved",
   "theorems": [
    "C23_targets_agree",
    "C23_avx2_alt_sbox_refuted"
   ],
   "note": "True for all builds except AVX2 with --enable-alt-sbox, which is refuted with a witness."
  },
  {
   "property": "C24",
   "status": "proved",
   "theorems": [
    "C24_bs_round_trip",
    "C24_classical_then_bitslice",
    "C24_bitslice_then_classical"
   ],
   "note": ""
  },
  {
   "property": "C25",
   "status": "proved",
   "theorems": [
    "C25_only_payloads_written",
    "C25_any_context"
   ],
   "note": ""
  },
  {
   "property": "C26",
   "status": "proved",
   "theorems": [
    "C26_no_undefined_behaviour",
    "C26_any_context"
   ],
   "note": ""
  },
  {
   "property": "C27",
   "status": "proved",
   "theorems": [
    "C27_batch_limit_tight"
   ],
   "note": ""
  },
  {
   "property": "C28",
   "status": "proved",
   "theorems": [
    "C28_bad_maxlen_rejected"
   ],
   "note": ""
  },
  {
   "property": "C29",
   "status": "proved",
   "theorems": [
    "C29_entries_after_null_ignored",
    "C29_empty_batch"
   ],
   "note": ""
  },
  {
   "property": "C30",
   "status": "proved",
   "theorems": [
    "C30_all_lanes_keyed"
   ],
   "note": ""
  },
  {
   "property": "C31",
   "status": "proved",
   "theorems": [
    "C13_C31_bs_key_set",
    "C31_uint32_overflow",
    "C31_key_set_refuted",
    "C31_uint32_exact",
    "C31_source_overflow",
    "C31_source_exact"
   ],
   "note": "False of the uint32 build under ISO C (refuted, for every control word with a round-key byte >= 128); proved for all others. The last two theorems say it of the C source text (C50)."
  },
  {
   "property": "C32",
   "status": "proved",
   "theorems": [
    "C32_avx2_reads_past_table",
    "C32_stays_in_table_refuted",
    "C32_stray_bytes_harmless"
   ],
   "note": "The in-bounds claim is false of the code (refuted); the stray bytes never reach the result (proved)."
  },
  {
   "property": "C36",
   "status": "proved",
   "theorems": [
    "C36_read_all_then_write",
    "C36_last_packet_wins",
    "C36_same_packet_twice"
   ],
   "note": ""
  },
  {
   "property": "C37",
   "status": "proved",
   "theorems": [
    "C37_batch_size",
    "C37_full_batch",
    "C37_own_lanes"
   ],
   "note": ""
  },
  {
   "property": "C39",
   "status": "proved",
   "theorems": [
    "C39_accesses_are_the_call",
    "C39_byte_threads"
   ],
   "note": "Sequentially consistent byte accesses (enough, since the program is proved race-free); for allocation and free see C47."
  },
  {
   "property": "C40",
   "status": "proved",
   "theorems": [
    "C40_classical",
    "C40_key_set",
    "C40_bs_key_set",
    "C40_bitslice",
    "C40_bitslice_in_order",
    "C40_bitslice_old_or_new",
    "C40_key_set_old_or_new",
    "C40_bs_key_set_old_or_new",
    "C40_half_keyed_context_usable"
   ],
   "note": ""
  },
  {
   "property": "C41",
   "status": "proved",
   "theorems": [
    "C41_each_lane_its_own_key",
    "C41_keyed_context",
    "C41_round_trip_any_context"
   ],
   "note": ""
  },
  {
   "property": "C42",
   "status": "proved",
   "theorems": [
    "C42_any_grouping",
    "C42_each_packet_once"
   ],
   "note": ""
  },
  {
   "property": "C43",
   "status": "proved",
   "theorems": [
    "C43_first_block_changes"
   ],
   "note": ""
  },
  {
   "property": "C44",
   "status": "proved",
   "theorems": [
    "C44_classical",
    "C44_key_set",
    "C44_bs_key_set",
    "C44_bitslice"
   ],
   "note": "Accesses to the caller's memory in the order of the source text; lookups in the library's constant tables are not part of the model of accesses."
  },
  {
   "property": "C45",
   "status": "proved",
   "theorems": [
    "C45_no_switch",
    "C45_classical",
    "C45_classical_round_trip",
    "C45_bitslice",
    "C45_bitslice_round_trip",
    "C45_stream_only",
    "C45_block_only",
    "C45_nothing_left"
   ],
   "note": "For the bitslice functions under call_ready, which asks for a supported build even where the missing layer would make that unnecessary."
  },
  {
   "property": "C46",
   "status": "proved",
   "theorems": [
    "C46_any_control_word_address",
    "C46_round_trip",
    "C46_safe_sources",
    "C46_harmful_sources",
    "C46_bs_any_control_word_address",
    "C46_bs_safe_sources"
   ],
   "note": "'In general not CSA with any single control word' is shown by C46_case for one of them; the other statements are for all. On uint32 without -fwrapv the bitslice statement asks for round keys below 0x80 (see C31)."
  },
  {
   "property": "C47",
   "status": "proved",
   "theorems": [
    "C47_programs"
   ],
   "note": "An allocation or release is one step (the C library synchronises them); a release counts as a write to the whole block in the race statement."
  },
  {
   "property": "C48",
   "status": "proved",
   "theorems": [
    "C48_decrypt_rounds_up",
    "C48_decrypt_result",
    "C48_encrypt_below_8",
    "C48_encrypt_uneven_undefined",
    "C48_too_long_undefined",
    "C48_full_batch_undefined"
   ],
   "note": "Nothing is claimed for a multiple of 8 above 184 that stays within the internal buffer."
  },
  {
   "property": "C49",
   "status": "proved",
   "theorems": [
    "C49_source_is_csa",
    "C49_source_no_undefined_behaviour",
    "C49_model_is_source",
    "C49_source_round_trip"
   ],
   "note": "The sources are parsed by tools/gen_source.py (preprocessor and grammar only); what the syntax means is defined in MiniC.v. SourceRun.v, SourceStream.v and SourceAlgo.v run the syntax trees symbolically."
  },
  {
   "property": "C50",
   "status": "proved",
   "theorems": [
    "C50_source_is_csa",
    "C50_batch_is_csa",
    "C50_key_set_model_is_source",
    "C50_source_no_undefined_behaviour",
    "C50_model_is_source",
    "C50_source_deterministic",
    "C50_source_round_trip",
    "C50_source_asserts"
   ],
   "note": "The sources are parsed by tools/gen_source_bs.py for each word type; what the syntax means is defined in BsC.v, where the words' operations (the macros of the word headers, intrinsics) are those of ModelBsWord.v (tied to the headers' text by C52). dvbcsa_load_le64 and dvbcsa_key_schedule_block, which dvbcsa_bs_key_set calls, are run by MiniC.v (classical_calls in SourceBsSpec.v)."
  },
  {
   "property": "C51",
   "status": "proved",
   "theorems": [
    "C51_history",
    "C51_batch_is_a_loop"
   ],
   "note": "The calls are runs of the parsed source (C49, C50); dvbcsa_key_alloc, dvbcsa_bs_key_alloc and the two free functions are those of ModelAlloc.v. uint32 builds: with -fwrapv (C31). Concrete cases: C51_case, C51_loop_case."
  },
  {
   "property": "C52",
   "status": "proved",
   "theorems": [
    "C52_bits",
    "C52_shifts",
    "C52_constants",
    "C52_sizes",
    "C52_deinterleave",
    "C52_swaps",
    "C52_avx2_permute",
    "C52_semantics",
    "C52_uses"
   ],
   "note": "The headers are parsed by tools/gen_header.py; the intrinsics' meaning is in Header.v. C52_avx2_permute is for supported builds (reads past the table tolerated, see C32; no alternative S-box table, see C23). Alignment of vector accesses is not part of Header.v."
  }
 ]
}