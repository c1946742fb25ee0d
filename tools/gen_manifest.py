#!/usr/bin/env python3
"""Writes MANIFEST.json."""
import json
C=[]
def c(p,st,th,note): C.append({"property":p,"status":st,"theorems":th.split(),"note":note})
c("C01","proved","C01_decrypt_after_encrypt","All contexts keyed by dvbcsa_key_set, all payloads, len < 2^31+16, both byte orders; all of memory is restored.")
c("C02","proved","C02_encrypt_after_decrypt","As C01, other order.")
c("C03","proved","C03_decrypt_is_csa","All 32-bit lengths.")
c("C04","proved","C04_encrypt_is_csa","len < 2^31+16 (see C05 for the rest).")
c("C05","proved","C05_round_trip_refuted C05_large_packet_behaviour C05_source_large_packet C05_source_refuted","The full-range round trip is false of the code; refutation for every len in [2^31+16, 2^32) plus the exact first block for every packet; the last two theorems say the same of the C source text (C49).")
c("C07","proved","C07_only_payload_written C07_C08_C15_key_set","Any context contents, all 32-bit lengths.")
c("C08","proved","C08_no_undefined_behaviour C07_C08_C15_key_set","Any context contents, all 32-bit lengths; unbounded address space.")
c("C09","proved","C09_residue_encrypt C09_residue_decrypt","")
c("C10","proved","C10_error_propagation C10_bit_flips","")
c("C11","proved","C11_one_keystream C11_same_keystream C11_prefix_decryption","")
c("C12","proved","C12_encryption_injective C12_encryption_surjective","")
c("C14","proved","C14_schedule_is_bit_permutation C14_all_bits_used","")
c("C15","proved","C07_C08_C15_key_set","")
c("C16","proved","C16_endian_independent_packets C16_endian_independent_key_set","")
c("C33","proved","C33_history C33_every_prefix C33_deterministic","")
c("C34","proved","C34_threads","interleavings of whole calls of two threads; C39 and C47 interleave single accesses of any number of threads")
c("C35","proved","C35_bs_key_alloc C35_key_alloc C35_free_null C35_fallback_refuted","the alignment claim is false for the plain malloc fallback without asserts: C35_fallback_refuted")
c("C38","proved","C38_address_independent","")
c("C06","proved","C06_short_packets_classical C06_short_packets_bitslice","")
c("C13","proved","C13_rekeying_forgets C13_bs_rekeying_forgets C13_C31_bs_key_set","")
c("C17","proved","C17_bs_decrypt_is_csa C17_matches_classical","All targets, both byte orders; AVX2 with the default S-box and readable bytes after the table (see C23, C32).")
c("C18","proved","C18_bs_encrypt_is_csa C18_matches_classical","As C17.")
c("C19","proved","C19_partial_processing","")
c("C20","proved","C20_long_packets_spill C20_long_packet_overruns C20_readme_refuted","The README's promise is false of the code: refuted on every target, and the exact effect proved for every batch.")
c("C21","proved","C21_packets_independent","")
c("C22","proved","C22_uninitialised_memory_harmless","")
c("C23","proved","C23_targets_agree C23_avx2_alt_sbox_refuted","True for all builds except AVX2 with --enable-alt-sbox, which is refuted with a witness.")
c("C24","proved","C24_bs_round_trip C24_classical_then_bitslice C24_bitslice_then_classical","")
c("C25","proved","C25_only_payloads_written C25_any_context","")
c("C26","proved","C26_no_undefined_behaviour C26_any_context","")
c("C27","proved","C27_batch_limit_tight","")
c("C28","proved","C28_bad_maxlen_rejected","")
c("C29","proved","C29_entries_after_null_ignored C29_empty_batch","")
c("C30","proved","C30_all_lanes_keyed","")
c("C31","proved","C13_C31_bs_key_set C31_uint32_overflow C31_key_set_refuted C31_uint32_exact C31_source_overflow C31_source_exact","False of the uint32 build under ISO C (refuted, for every control word with a round-key byte >= 128); proved for all others. The last two theorems say it of the C source text (C50).")
c("C32","proved","C32_avx2_reads_past_table C32_stays_in_table_refuted C32_stray_bytes_harmless","The in-bounds claim is false of the code (refuted); the stray bytes never reach the result (proved).")
c("C36","proved","C36_read_all_then_write C36_last_packet_wins C36_same_packet_twice","")
c("C37","proved","C37_batch_size C37_full_batch C37_own_lanes","")
c("C39","proved","C39_accesses_are_the_call C39_byte_threads","Sequentially consistent byte accesses (enough, since the program is proved race-free); for allocation and free see C47.")
c("C40","proved","C40_classical C40_key_set C40_bs_key_set C40_bitslice C40_bitslice_in_order C40_bitslice_old_or_new C40_key_set_old_or_new C40_bs_key_set_old_or_new C40_half_keyed_context_usable","")
c("C41","proved","C41_each_lane_its_own_key C41_keyed_context C41_round_trip_any_context","")
c("C42","proved","C42_any_grouping C42_each_packet_once","")
c("C43","proved","C43_first_block_changes","")
c("C44","proved","C44_classical C44_key_set C44_bs_key_set C44_bitslice","Accesses to the caller's memory in the order of the source text; lookups in the library's constant tables are not part of the model of accesses.")
c("C45","proved","C45_no_switch C45_classical C45_classical_round_trip C45_bitslice C45_bitslice_round_trip C45_stream_only C45_block_only C45_nothing_left","For the bitslice functions under call_ready, which asks for a supported build even where the missing layer would make that unnecessary.")
c("C46","proved","C46_any_control_word_address C46_round_trip C46_safe_sources C46_harmful_sources C46_bs_any_control_word_address C46_bs_safe_sources","'In general not CSA with any single control word' is shown by C46_case for one of them; the other statements are for all. On uint32 without -fwrapv the bitslice statement asks for round keys below 0x80 (see C31).")
c("C47","proved","C47_programs","An allocation or release is one step (the C library synchronises them); a release counts as a write to the whole block in the race statement.")
c("C48","proved","C48_decrypt_rounds_up C48_decrypt_result C48_encrypt_below_8 C48_encrypt_uneven_undefined C48_too_long_undefined C48_full_batch_undefined","Nothing is claimed for a multiple of 8 above 184 that stays within the internal buffer.")
c("C49","proved","C49_source_is_csa C49_source_no_undefined_behaviour C49_model_is_source C49_source_round_trip","The sources are parsed by tools/gen_source.py (preprocessor and grammar only); what the syntax means is defined in MiniC.v. SourceRun.v, SourceStream.v and SourceAlgo.v run the syntax trees symbolically.")
c("C50","proved","C50_source_is_csa C50_batch_is_csa C50_key_set_model_is_source C50_source_no_undefined_behaviour C50_model_is_source C50_source_deterministic C50_source_round_trip C50_source_asserts","The sources are parsed by tools/gen_source_bs.py for each word type; what the syntax means is defined in BsC.v, where the words' operations (the macros of the word headers, intrinsics) are those of ModelBsWord.v (tied to the headers' text by C52). dvbcsa_load_le64 and dvbcsa_key_schedule_block, which dvbcsa_bs_key_set calls, are run by MiniC.v (classical_calls in SourceBsSpec.v).")
c("C51","proved","C51_history C51_batch_is_a_loop",
  "The calls are runs of the parsed source (C49, C50); dvbcsa_key_alloc, dvbcsa_bs_key_alloc and the two free functions are those of ModelAlloc.v. uint32 builds: with -fwrapv (C31). Concrete cases: C51_case, C51_loop_case.")
c("C52","proved","C52_bits C52_shifts C52_constants C52_sizes C52_deinterleave C52_swaps C52_avx2_permute C52_semantics C52_uses",
  "The headers are parsed by tools/gen_header.py; the intrinsics' meaning is in Header.v. C52_avx2_permute is for supported builds (reads past the table tolerated, see C32; no alternative S-box table, see C23). Alignment of vector accesses is not part of Header.v.")
json.dump({"claims":C},open("/verif/MANIFEST.json","w"),indent=1)
