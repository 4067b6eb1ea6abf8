{
 "claims": [
  {
   "property": "C01",
   "status": "proved",
   "theorems": [
    "C01_md5_calculate"
   ],
   "note": "All messages, memories, allocation patterns, both builds and platforms."
  },
  {
   "property": "C02",
   "status": "proved",
   "theorems": [
    "C02_sha1_calculate"
   ],
   "note": "All messages, memories, allocation patterns, both builds and platforms."
  },
  {
   "property": "C03",
   "status": "proved",
   "theorems": [
    "C03_sha224_calculate"
   ],
   "note": "All messages, memories, allocation patterns, both builds and platforms."
  },
  {
   "property": "C04",
   "status": "proved",
   "theorems": [
    "C04_sha256_calculate"
   ],
   "note": "All messages, memories, allocation patterns, both builds and platforms."
  },
  {
   "property": "C05",
   "status": "partial",
   "theorems": [
    "C05_sha512_calculate_partial",
    "C05_sha512_calculate_32bit",
    "C05_sha512_total",
    "C05_sha512_padding_refuted"
   ],
   "note": "Proved below 2^61 bytes and on 32-bit platforms without bound; for 2^61 bytes and more on 64-bit platforms the library pads with the length modulo 2^64 (exact characterisation proved), so the property is false there."
  },
  {
   "property": "C06",
   "status": "partial",
   "theorems": [
    "C06_hmac",
    "C06_hmac_sha512_partial",
    "C06_hmac_sha512_32bit",
    "C06_hmac_total"
   ],
   "note": "Proved without bound for MD5, SHA-1, SHA-224, SHA-256; SHA-512 has the length limitation of C05."
  },
  {
   "property": "C07",
   "status": "proved",
   "theorems": [
    "C07_pieces",
    "C07_same_split",
    "C07_one_shot"
   ],
   "note": ""
  },
  {
   "property": "C08",
   "status": "proved",
   "theorems": [
    "C08_run",
    "C08_calculate",
    "C08_calculate_hmac",
    "C08_update",
    "C08_finalize"
   ],
   "note": "Equality of whole outcomes for any arguments on any well-formed memory."
  },
  {
   "property": "C09",
   "status": "proved",
   "theorems": [
    "C09_C15_any_program",
    "reachable_states"
   ],
   "note": ""
  },
  {
   "property": "C10",
   "status": "proved",
   "theorems": [
    "C10_C11_C12_update",
    "C10_C11_C12_finalize",
    "C10_C12_initialize",
    "C10_C12_free"
   ],
   "note": ""
  },
  {
   "property": "C11",
   "status": "proved",
   "theorems": [
    "C10_C11_C12_update",
    "C10_C11_C12_finalize"
   ],
   "note": "Memory, allocation counter and stack residue are equal to those before the call; only error entries differ."
  },
  {
   "property": "C12",
   "status": "proved",
   "theorems": [
    "C10_C11_C12_update",
    "C10_C11_C12_finalize",
    "C10_C12_initialize",
    "C10_C12_free",
    "C12_calculate",
    "C12_hmac"
   ],
   "note": ""
  },
  {
   "property": "C13",
   "status": "proved",
   "theorems": [
    "C13_C22_finalize_writes",
    "C13_update_writes",
    "C13_calculate_writes",
    "C13_hmac_writes"
   ],
   "note": ""
  },
  {
   "property": "C14",
   "status": "proved",
   "theorems": [
    "C14_calculate_in_place",
    "C14_hmac_in_place"
   ],
   "note": ""
  },
  {
   "property": "C15",
   "status": "proved",
   "theorems": [
    "C09_C15_any_program",
    "C16_calculate_alloc",
    "C16_hmac_alloc"
   ],
   "note": ""
  },
  {
   "property": "C16",
   "status": "proved",
   "theorems": [
    "C16_calculate_alloc",
    "C16_hmac_alloc",
    "C06_hmac_total"
   ],
   "note": ""
  },
  {
   "property": "C17",
   "status": "partial",
   "theorems": [
    "C17_failing_hmac_partial",
    "C17_failing_hmac_refuted"
   ],
   "note": "False: when the allocation of the second context fails, the inner hash is left in the output buffer. Proved: this is the only thing a failing call can leave."
  },
  {
   "property": "C18",
   "status": "proved",
   "theorems": [
    "C18_hmac_heap_cleared"
   ],
   "note": ""
  },
  {
   "property": "C19",
   "status": "partial",
   "theorems": [
    "C19_hmac_contexts_cleared_partial",
    "C19_context_refuted"
   ],
   "note": "Proved for successful calls; false for failing ones: a NULL message leaves the keyed chaining value in a freed context."
  },
  {
   "property": "C20",
   "status": "partial",
   "theorems": [
    "C20_update_scratch_partial",
    "C20_finalize_scratch_partial",
    "C20_calculate_scratch_partial",
    "C20_hmac_scratch_partial",
    "C20_sha1_scratch_partial",
    "C20_sha1_scratch_refuted"
   ],
   "note": "Proved for the four other algorithms; false for SHA-1: 64 of 80 schedule words stay."
  },
  {
   "property": "C21",
   "status": "partial",
   "theorems": [
    "C21_key_hash_refuted"
   ],
   "note": "False: the hash of a long key always stays in the stack array (proved for every successful call)."
  },
  {
   "property": "C22",
   "status": "proved",
   "theorems": [
    "C13_C22_finalize_writes"
   ],
   "note": ""
  },
  {
   "property": "C23",
   "status": "partial",
   "theorems": [
    "C23_reuse_refuted",
    "C09_C15_any_program"
   ],
   "note": "False: a finalized context is accepted and hashes from a zero chaining value; any_program says exactly what it computes."
  },
  {
   "property": "C24",
   "status": "proved",
   "theorems": [
    "C24_independence",
    "C09_C15_any_program"
   ],
   "note": ""
  },
  {
   "property": "C25",
   "status": "proved",
   "theorems": [
    "C25_initialize",
    "C25_free"
   ],
   "note": ""
  },
  {
   "property": "C26",
   "status": "proved",
   "theorems": [
    "C26_update",
    "C26_finalize",
    "C26_initialize",
    "C26_free"
   ],
   "note": ""
  },
  {
   "property": "C27",
   "status": "proved",
   "theorems": [
    "C27_length",
    "C07_pieces"
   ],
   "note": ""
  },
  {
   "property": "C28",
   "status": "proved",
   "theorems": [
    "C28_key_zero_padding",
    "C28_long_key"
   ],
   "note": ""
  },
  {
   "property": "C29",
   "status": "proved",
   "theorems": [
    "C29_md5_sines",
    "C29_spec_md5_sines",
    "C29_sha224_cube_roots",
    "C29_sha256_cube_roots",
    "C29_sha512_cube_roots",
    "C29_sha256_square_roots",
    "C29_sha512_square_roots",
    "C29_sha224_square_roots",
    "C29_primes_and_roots",
    "C29_sha1_round_constants",
    "C29_start_values"
   ],
   "note": "Uses the axioms of the standard library's real numbers (sig_forall_dec, sig_not_dec, functional_extensionality_dep, classic)."
  },
  {
   "property": "C30",
   "status": "partial",
   "theorems": [
    "C30_read_big",
    "C30_read_little_partial",
    "C30_read48_little_partial",
    "C30_read48_little_refuted",
    "C30_read64_little_refuted",
    "C30_write_big",
    "C30_write_little",
    "C30_number_round_trip_big",
    "C30_number_round_trip_little",
    "C30_bytes_round_trip_big",
    "C30_bytes_round_trip_little"
   ],
   "note": "Proved for all macros but two that are wrong: the 48-bit little endian reader needs a zeroed variable, the 64-bit little endian reader of libhmac_byte_stream.h (unused) drops four bytes."
  },
  {
   "property": "C31",
   "status": "proved",
   "theorems": [
    "C31_hexadecimal",
    "C31_rejected",
    "C31_different",
    "C31_characters",
    "C31_text_hexadecimal"
   ],
   "note": ""
  },
  {
   "property": "C32",
   "status": "partial",
   "theorems": [
    "C32_units_1000",
    "C32_units_1024_partial",
    "C32_rounds_down_1024_refuted",
    "C32_no_point",
    "C32_other_units_refuted",
    "C32_rejected",
    "C32_text_units_1000"
   ],
   "note": "Fits, is terminated and is rounded down for units of 1000; for units of 1024 the printed tenth may be one too many (1124 gives 1.1 KiB), which is proved to be the largest error. Without a locale decimal point only texts with no fraction are written. Units other than 1000 and 1024 are undefined (shift or table access), proved with all of 3..999 as witnesses."
  },
  {
   "property": "C33",
   "status": "partial",
   "theorems": [
    "C33_accepted_partial",
    "C33_value",
    "C33_every_text",
    "C33_rejected",
    "C33_kilo_refuted",
    "C33_wraps_refuted",
    "C33_text_value",
    "C33_text_kilo_refuted"
   ],
   "note": "False for the letter k, which is never accepted, and for values of 2^64 and more, which wrap; every other text is characterised."
  },
  {
   "property": "C34",
   "status": "partial",
   "theorems": [
    "C34_round_trip_partial",
    "C34_kilo_refuted"
   ],
   "note": "False for sizes printed with the letter K (never accepted); proved for all others, with a bound on the difference."
  },
  {
   "property": "C35",
   "status": "proved",
   "theorems": [
    "C35_returns",
    "C35_digests",
    "C35_independent",
    "C35_succeeds",
    "C35_printed",
    "C35_program",
    "C35_program_succeeds",
    "C35_text",
    "C35_main"
   ],
   "note": "For the handle and for the whole program after option parsing."
  },
  {
   "property": "C36",
   "status": "proved",
   "theorems": [
    "C36_not_success",
    "C36_no_strings",
    "C35_text"
   ],
   "note": "A file that is truncated and aborted before the end is noticed ends with 1 and the abort flag set (C38_marked)."
  },
  {
   "property": "C37",
   "status": "proved",
   "theorems": [
    "C37_reads",
    "C35_returns"
   ],
   "note": ""
  },
  {
   "property": "C38",
   "status": "proved",
   "theorems": [
    "C38_marked",
    "C35_program"
   ],
   "note": "The program prints the digests of the whole file or none."
  },
  {
   "property": "C39",
   "status": "partial",
   "theorems": [
    "C39_several_inputs_refuted"
   ],
   "note": "False: the second call always returns -1, with the strings of the first input kept."
  },
  {
   "property": "C40",
   "status": "partial",
   "theorems": [
    "C40_selected_partial",
    "C40_any",
    "C40_unknown_refuted"
   ],
   "note": "The names add to what is selected, in any order; MD5 and earlier types stay selected, and unknown names are ignored without an error."
  },
  {
   "property": "C41",
   "status": "partial",
   "theorems": [
    "C41_stored_partial",
    "C41_parsed",
    "C41_any",
    "C41_wraps_refuted",
    "C41_zero_refuted"
   ],
   "note": "False for numbers of 2^64 and more, which wrap; a size of 0 is stored and makes processing fail."
  },
  {
   "property": "C42",
   "status": "partial",
   "theorems": [
    "C42_free",
    "C42_initialize_partial",
    "C42_initialize_refuted",
    "C42_null",
    "C42_process_null",
    "C42_initialize_used"
   ],
   "note": "Freeing is complete; initialization leaks the input handle when its third allocation fails."
  },
  {
   "property": "C43",
   "status": "partial",
   "theorems": [
    "C43_options_partial",
    "C43_unique",
    "C43_dash_refuted",
    "C43_ends_refuted",
    "C43_program_partial",
    "C43_no_program_refuted",
    "C43_text_dash_refuted",
    "C43_text_program_partial",
    "C43_text_program_refuted"
   ],
   "note": "Proved for all arguments but a single dash, which is read past its end; an unknown letter inside a group is returned again and again, so that only a caller that stops there (main does) ends."
  },
  {
   "property": "C44",
   "status": "proved",
   "theorems": [
    "C44_same_function_calculate",
    "C44_same_function_hmac",
    "C44_same_function_context",
    "C44_calculate",
    "C44_hmac",
    "C44_context",
    "C44_blocks_calculate",
    "C44_blocks_hmac"
   ],
   "note": "For the conditions, places and calls of the C text, in every build variant and for every outcome of the allocations. What a compiler or a processor makes of the text is outside."
  },
  {
   "property": "C45",
   "status": "partial",
   "theorems": [
    "C45_built_in",
    "C45_calculate",
    "C45_hmac",
    "C45_pieces",
    "C45_calculate_succeeds",
    "C45_hmac_succeeds",
    "C45_same_calculate",
    "C45_same_hmac",
    "C45_same_calculate_sha512_partial",
    "C45_same_hmac_sha512_partial",
    "C45_same_range_refuted",
    "C45_silent_refuted",
    "C45_text_pieces",
    "C45_text_calculate",
    "C45_text_hmac",
    "C45_both_texts_pieces",
    "C45_both_texts_calculate",
    "C45_both_texts_hmac"
   ],
   "note": "For every provider that keeps its contract and all three forms of the code. The theorems C45_text are about the text of the context functions in place of their model, C45_both_texts about the text of libhmac_X.c as well. The digests are the same wherever both builds accept the sizes, but for SHA-512 from about 2^61 bytes, where the built-in functions are wrong; the EVP forms refuse a digest place of 2^32 bytes or more."
  },
  {
   "property": "C46",
   "status": "partial",
   "theorems": [
    "C46_same_calls_alone",
    "C46_separate_contexts_partial",
    "C46_separate_digests_partial",
    "C46_shared_context_refuted",
    "C46_lost_update_refuted",
    "C46_overflow_refuted"
   ],
   "note": "False for one context: a schedule loses a byte, another one writes beyond the end of the context, for every algorithm. Proved for threads on contexts of their own under every schedule. The library calls are interleaved; the code of the binding around them runs under the interpreter lock."
  },
  {
   "property": "C47",
   "status": "partial",
   "theorems": [
    "C47_program",
    "C47_released_partial",
    "C47_leftovers",
    "C47_references_partial",
    "C47_reinit_refuted",
    "C47_failed_new_refuted",
    "C47_references_refuted"
   ],
   "note": "False in three ways: __init__ called again loses the context, an object whose context cannot be allocated is not released, and every calculation keeps a reference to None. What happens is described for every program; the released part is proved without these two causes."
  },
  {
   "property": "C48",
   "status": "proved",
   "theorems": [
    "C48_rotate_left",
    "C48_rotate_right",
    "C48_rotate_back"
   ],
   "note": ""
  },
  {
   "property": "C49",
   "status": "proved",
   "theorems": [
    "C49_calculate",
    "C49_hmac",
    "C49_session"
   ],
   "note": "For SHA-512 below about 2^61 bytes, as C05."
  },
  {
   "property": "C50",
   "status": "proved",
   "theorems": [
    "C50_calculate"
   ],
   "note": "No bound on the lengths; the case of lengths that differ by a multiple of 2^61 bytes has its own reason."
  },
  {
   "property": "C51",
   "status": "proved",
   "theorems": [
    "C51_hmac",
    "C51_keys"
   ],
   "note": ""
  },
  {
   "property": "C52",
   "status": "partial",
   "theorems": [
    "C52_raise",
    "C52_no_message",
    "C52_one_line",
    "C52_fetch_and_raise_partial",
    "C52_fetch_partial",
    "C52_references_refuted",
    "C52_repr_refuted"
   ],
   "note": "Texts and array bounds are proved; false for the references: the fetching functions keep those of PyErr_Fetch, and fetch_and_raise the bytes object; NULL from PyObject_Repr is passed on."
  },
  {
   "property": "C53",
   "status": "partial",
   "theorems": [
    "C53_names",
    "C53_version",
    "C53_calculate",
    "C53_hmac",
    "C53_refused",
    "C53_methods",
    "C53_methods_refused",
    "C53_init",
    "C53_init_refuted"
   ],
   "note": "False only for the reference to the module that a failed initialisation keeps."
  },
  {
   "property": "C54",
   "status": "partial",
   "theorems": [
    "C54_safe_partial",
    "C54_window",
    "C54_refuted",
    "C54_exit",
    "C54_noticed",
    "C54_input_closed",
    "C54_not_killed"
   ],
   "note": "False after an error and when the handler cannot be detached: a signal in the window between the release of the handle and the assignment of NULL uses it; this is proved to be the only window."
  },
  {
   "property": "C55",
   "status": "proved",
   "theorems": [
    "C55_any_inputs",
    "C55_hashed"
   ],
   "note": ""
  },
  {
   "property": "C56",
   "status": "proved",
   "theorems": [
    "C56_initialize",
    "C56_free",
    "C56_update",
    "C56_finalize",
    "C56_calculate",
    "C56_hmac",
    "C56_copy_to_string",
    "C56_size_to_text",
    "C56_text_to_size",
    "C56_one_answer"
   ],
   "note": "The builds on libcrypto are in C59, the functions of hmacsum in C58. byte_size_string_create for units 1000 and 1024 (other units are undefined, see C32)."
  },
  {
   "property": "C57",
   "status": "proved",
   "theorems": [
    "C57_update",
    "C57_finalize",
    "C57_initialize",
    "C57_free",
    "C57_calculate",
    "C57_hmac"
   ],
   "note": "Counts allocations and their sizes; stack use and the error object are not counted."
  },
  {
   "property": "C58",
   "status": "proved",
   "theorems": [
    "C58_initialize",
    "C58_free",
    "C58_signal_abort",
    "C58_open",
    "C58_close",
    "C58_read",
    "C58_process",
    "C58_types",
    "C58_buffer_size",
    "C58_print",
    "C58_program",
    "C58_prepare_digests",
    "C58_feed_digests",
    "C58_end_digests"
   ],
   "note": "Without libcrypto. That the functions return at all, without undefined behaviour, is C35 to C42. The program theorem says that there is an error to print, the functions say which."
  },
  {
   "property": "C59",
   "status": "proved",
   "theorems": [
    "C59_initialize",
    "C59_update",
    "C59_finalize",
    "C59_free",
    "C59_calculate",
    "C59_hmac",
    "C59_calculate_cleared",
    "C59_hmac_cleared",
    "C59_text_initialize",
    "C59_text_free",
    "C59_text_update",
    "C59_text_finalize",
    "C59_text_calculate",
    "C59_text_hmac"
   ],
   "note": "The theorems C59_text are about the text of libhmac_X.c and libhmac_X_context.c. About runs that are defined; that the functions return is C45, for providers that keep its contract. The local array key_hash of calculate_hmac is on the stack and is not cleared in any build (C21)."
  },
  {
   "property": "C60",
   "status": "proved",
   "theorems": [
    "C60_initialize",
    "C60_free",
    "C60_update",
    "C60_finalize",
    "C60_hash_initialize",
    "C60_hash_free",
    "C60_hash_update",
    "C60_hash_finalize",
    "C60_calculate",
    "C60_calculate_hmac",
    "C60_digest",
    "C60_hmac",
    "C60_copy_to_string",
    "C60_text_to_size",
    "C60_size_to_text",
    "C60_getopt",
    "C60_sum_initialize",
    "C60_sum_free",
    "C60_sum_signal_abort",
    "C60_sum_open_input",
    "C60_sum_close",
    "C60_sum_prepare",
    "C60_sum_feed",
    "C60_sum_read_buffer",
    "C60_sum_set_digest_types",
    "C60_sum_set_process_buffer_size",
    "C60_sum_print",
    "C60_sum_end",
    "C60_sum_process_input",
    "C60_main",
    "C60_program",
    "C60_evp_initialize",
    "C60_evp_free",
    "C60_evp_update",
    "C60_evp_finalize",
    "C60_evp_hash_initialize",
    "C60_evp_hash_free",
    "C60_evp_hash_update",
    "C60_evp_hash_finalize",
    "C60_evp_calculate",
    "C60_evp_hmac"
   ],
   "note": "Of libhmac_X_context.c and libhmac_X.c, both with and without libcrypto, and of digest_hash.c, byte_size_string.c, hmactools_getopt.c and sum_handle.c, and of main of hmacsum.c (of what sum_handle_process_input leaves, the offset in the file is not compared); context_transform is called by update and finalize. The text is that of tools/ctext.py, the meaning of C that of CText.v."
  }
 ]
}