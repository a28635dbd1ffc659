{
 "claims": [
  {
   "property": "C01",
   "status": "proved",
   "theorems": [
    "haszero_exact",
    "hasbyte_exact"
   ],
   "note": "for every 64-bit word and byte"
  },
  {
   "property": "C02",
   "status": "proved",
   "theorems": [
    "memchr8_first",
    "bit_scans"
   ],
   "note": "both readings of C; memchr8k with an absent byte is __builtin_ctz of 0 (BadBuiltin)"
  },
  {
   "property": "C03",
   "status": "partial",
   "theorems": [
    "cast8_prefix",
    "cast8_refuted"
   ],
   "note": "exact for 0..7 with 8 readable bytes, and for 8 when a 64-bit shift is masked (x86-64); cast8_refuted: undefined at length 8 and over-reads short blocks in ISO C"
  },
  {
   "property": "C04",
   "status": "partial",
   "theorems": [
    "simd_memchr_partial",
    "simd_memchr_short_never_finds",
    "simd_memchr_refuted",
    "simd_memchr_absent_refuted",
    "simd_memchr_overread_refuted",
    "simd_memchr_small_exact",
    "simd_memchr_small_found",
    "simd_memchr_small_strict"
   ],
   "note": "right for lengths >= 9 when the byte is present; refuted: lengths 1..7 never find the byte, length 8 runs past the end, NULL is never returned; for 1..8 bytes the exact outcome is given in both readings"
  },
  {
   "property": "C05",
   "status": "partial",
   "theorems": [
    "simd_memrchr_partial",
    "simd_memrchr_any",
    "simd_memrchr_behind",
    "simd_memrchr_short",
    "memrchr_reads_past_end",
    "simd_memrchr_refuted"
   ],
   "note": "refuted: always reads 8 bytes past the range, first word never searched, pointer 3 too low, a match behind the range is reported as if inside; the exact answer is given for every length from 9 on with a clean or a matching word behind it, and for lengths 1 to 8"
  },
  {
   "property": "C06",
   "status": "proved",
   "theorems": [
    "utoap_padded",
    "utoa2p_two_digits"
   ],
   "note": ""
  },
  {
   "property": "C07",
   "status": "proved",
   "theorems": [
    "itoa8_decimal"
   ],
   "note": ""
  },
  {
   "property": "C08",
   "status": "partial",
   "theorems": [
    "simd_itoa_exact",
    "simd_itoa_int_min",
    "simd_itoa_partial",
    "simd_itoa_overreads",
    "simd_itoa_refuted"
   ],
   "note": "exact for every 64-bit x on the machine reading: sign of x, then the magnitude of the signed low 32 bits, so the text is right exactly for |x| < 2^31 (refuted beyond, abs() takes an int); undefined when the low word is 0x80000000; always over-reads its local array in ISO C"
  },
  {
   "property": "C09",
   "status": "proved",
   "theorems": [
    "simd_atou_exact",
    "atou8_exact",
    "simd_atou_strict_refuted",
    "simd_atou_overread_refuted"
   ],
   "note": "preconditions stated: 8 readable bytes; 16 digits need the masked-shift reading (strict reading undefined, shown by simd_atou_strict_refuted)"
  },
  {
   "property": "C10",
   "status": "proved",
   "theorems": [
    "simd_atoi_exact",
    "simd_atoi_minimum"
   ],
   "note": "preconditions as C09; INT64_MIN needs the machine reading of its negation (simd_atoi_minimum: otherwise undefined)"
  },
  {
   "property": "C11",
   "status": "partial",
   "theorems": [
    "itoa8_roundtrip",
    "simd_itoa_roundtrip_exact",
    "simd_itoa_roundtrip_partial",
    "simd_itoa_roundtrip_refuted"
   ],
   "note": "itoa8 complete; simd_itoa: the magnitude of the low 32 bits with the sign of x comes back, for every x whose low word is not 0x80000000; so x comes back exactly for |x| < 2^31, refuted beyond"
  },
  {
   "property": "C12",
   "status": "proved",
   "theorems": [
    "simd_htou_exact",
    "htou8_exact"
   ],
   "note": "8 readable bytes required"
  },
  {
   "property": "C13",
   "status": "partial",
   "theorems": [
    "simd_atod_integer_partial",
    "simd_atod_fraction_value",
    "simd_atod_signed_value",
    "simd_atod_right_iff",
    "simd_atod_refuted",
    "simd_atod_short_undefined",
    "simd_atod_short_overreads",
    "simd_atod_long_fraction_undefined"
   ],
   "note": "over exact rationals; right for integers of 9..20 characters; a fraction is read right exactly when it is zero (value computed is i - f/10^(m+1), or i + f/10^(m+1) for negative i); texts of 1..7 characters, texts of 8 characters without a dot, and fractions of 20 or more digits, are undefined"
  },
  {
   "property": "C14",
   "status": "proved",
   "theorems": [
    "simd_strlen_exact",
    "c_strlen_exact"
   ],
   "note": "aligned words may extend past the terminator: stated for readings where that is defined, or with 8 bytes of slack"
  },
  {
   "property": "C15",
   "status": "partial",
   "theorems": [
    "simd_strcmp_value",
    "simd_strcmp_partial",
    "simd_strcmp_refuted",
    "simd_strcmp_strict_refuted"
   ],
   "note": "right unless the first string has 8 characters or is a proper prefix of the second (refuted: both give 0); over-reads in ISO C"
  },
  {
   "property": "C16",
   "status": "partial",
   "theorems": [
    "is_str_eq_value",
    "is_str_eq_partial",
    "is_str_empty_value",
    "is_str_eq_refuted",
    "is_str_empty_refuted"
   ],
   "note": "inherits C15: every 8 character string equals everything, a prefix equals its extensions"
  },
  {
   "property": "C17",
   "status": "proved",
   "theorems": [
    "strpos_first",
    "is_str_in_iff",
    "unterminated_undefined"
   ],
   "note": "text shorter than 2^31"
  },
  {
   "property": "C18",
   "status": "partial",
   "theorems": [
    "str_split_partial",
    "splits_words",
    "str_split_eight",
    "str_split_refuted",
    "str_split_empty_delim"
   ],
   "note": "right for every length except 8; every 8 character string gives NULL"
  },
  {
   "property": "C19",
   "status": "proved",
   "theorems": [
    "str_concat_exact"
   ],
   "note": ""
  },
  {
   "property": "C20",
   "status": "proved",
   "theorems": [
    "str_replace_exact",
    "substituted_unique",
    "str_replace_empty_needle"
   ],
   "note": "result size below 2^64; the empty needle (outside the property) never terminates"
  },
  {
   "property": "C21",
   "status": "proved",
   "theorems": [
    "encode64_rfc4648"
   ],
   "note": ""
  },
  {
   "property": "C22",
   "status": "partial",
   "theorems": [
    "decode64_encode64_partial",
    "decode64_encode64_refuted"
   ],
   "note": "every non-empty string; refuted for the empty string (decoding gives NULL)"
  },
  {
   "property": "C23",
   "status": "proved",
   "theorems": [
    "decode64_safe",
    "base64_part_total",
    "decode64_ignores_others",
    "is_base64_iff"
   ],
   "note": ""
  },
  {
   "property": "C24",
   "status": "proved",
   "theorems": [
    "str_copy_exact",
    "str_memdup_exact"
   ],
   "note": ""
  },
  {
   "property": "C25",
   "status": "proved",
   "theorems": [
    "release_lifo",
    "release_lifo_all",
    "delete_lifo",
    "delete_own_or_made",
    "entry_written"
   ],
   "note": "byte-level model of the array; allocation failures included: rejected defers return (size_t)-1"
  },
  {
   "property": "C26",
   "status": "proved",
   "theorems": [
    "release_idempotent",
    "delete_again"
   ],
   "note": ""
  },
  {
   "property": "C27",
   "status": "partial",
   "theorems": [
    "released_scope_loses_defers",
    "release_reuse_refuted",
    "release_reuse_partial"
   ],
   "note": "refuted: after the first release the type tag stays 0, so nothing deferred later is ever called; holds only if the scope is initialised again"
  },
  {
   "property": "C28",
   "status": "partial",
   "theorems": [
    "cancel_partial",
    "cancel_writes",
    "cancel_refuted",
    "cancel_wrong_one_refuted"
   ],
   "note": "index arithmetic uses the element count as base and the wrong stride: right only when the count is k+1 rounded up to a multiple of 8; otherwise wild call or another function cancelled"
  },
  {
   "property": "C29",
   "status": "partial",
   "theorems": [
    "fire_partial",
    "fire_reads",
    "last_mid_exact",
    "fire_refuted"
   ],
   "note": "same arithmetic as C28: fire_reads gives the exact function and argument called while the array has not moved since"
  },
  {
   "property": "C30",
   "status": "partial",
   "theorems": [
    "alloc_release_partial",
    "alloc_release_refuted"
   ],
   "note": "every history in which the deferred array could grow; refuted when it cannot (block returned but never released)"
  },
  {
   "property": "C31",
   "status": "proved",
   "theorems": [
    "array_within_block",
    "umull_overflow_exact",
    "add_overflow_exact"
   ],
   "note": ""
  },
  {
   "property": "C32",
   "status": "partial",
   "theorems": [
    "nested_never_called",
    "nested_lost_in_room",
    "nested_moves_array",
    "nested_defer_refuted",
    "nested_defer_dangles_refuted"
   ],
   "note": "Refuted: nested defers are dropped, and with 16 entries the loop uses the moved array. For every set of functions and everything they defer during the release: no nested function is ever called; the release completes when the nested ones fit in the array and otherwise uses the freed array once the allocator moves it."
  },
  {
   "property": "C66",
   "status": "partial",
   "theorems": [
    "protector_exact",
    "protector_cycle",
    "protector_dangles_refuted",
    "protector_restored_partial"
   ],
   "note": "exact for every history: restored with at most one allocation, always left on the freed protector with two or more (the protector becomes its own successor)"
  },
  {
   "property": "C60",
   "status": "proved",
   "theorems": [
    "spinlock_exclusion",
    "spinlock_updates",
    "spinlock_progress",
    "spinlock_release"
   ],
   "note": "Any number of threads, every schedule, sequentially consistent memory."
  },
  {
   "property": "C61",
   "status": "proved",
   "theorems": [
    "cas_loops_atomic",
    "cas_loops_complete",
    "cas_failure_means_progress",
    "cas_alone_completes"
   ],
   "note": "Any number of threads and calls, all four widths; holds even when the plain read is torn. Sequentially consistent memory."
  },
  {
   "property": "C62",
   "status": "proved",
   "theorems": [
    "tag_groups_cover",
    "tags_classified",
    "tags_exclusive",
    "is_type_exact",
    "is_instance_of_exact",
    "is_guard_exact",
    "null_has_no_type",
    "empty_zero",
    "foreign_tags"
   ],
   "note": "The tags used by exception records (3, 4) overlap value tags: shown in foreign_tags."
  },
  {
   "property": "C64",
   "status": "partial",
   "theorems": [
    "page_protection_partial",
    "page_protection_refuted",
    "view_access",
    "mmap_split64",
    "mmap_split32_partial",
    "mmap_split32_refuted",
    "mmap_overflow_refuted",
    "mmap_rejects"
   ],
   "note": "Refuted for PROT_NONE (becomes 0, no page protection), for 32-bit Windows sizes above 4 GiB, and near INT64_MAX (signed overflow); proved otherwise."
  },
  {
   "property": "C65",
   "status": "partial",
   "theorems": [
    "encode64_first_call",
    "calls_after_init_partial",
    "decode64_first_call_null",
    "decode64_fresh_thread_refuted",
    "defer_fresh_thread_null"
   ],
   "note": "Refuted: raii_decode64 as first call dereferences NULL. Proved: raii_encode64 may come first, and every history after it is defined."
  },
  {
   "property": "C45",
   "status": "proved",
   "theorems": [
    "arena_blocks_disjoint",
    "arena_history_defined",
    "arena_alloc_largest_refuted",
    "arena_negative_size",
    "arena_negative_overlap_refuted"
   ],
   "note": "Proved for every history and every honest system allocator, sizes below 2^63 - 1; arena_history_defined adds that the history is defined while the memory asked for stays below 2^63. The refutations show that the excluded sizes really fail: 2^63 - 1 is rounded to a negative number, and a size that is not positive is accepted and gives handed-out memory back (arena_negative_size says what happens for every such size, also in arena_calloc)."
  },
  {
   "property": "C46",
   "status": "partial",
   "theorems": [
    "arena_clear_once_partial",
    "arena_clear_leaks",
    "arena_clear_overlap_refuted",
    "arena_clear_outside_refuted",
    "arena_clear_leak_refuted",
    "arena_clear_twice_refuted"
   ],
   "note": "Refuted: after a clear two allocations of one arena overlap, an allocation lands outside the arena's chunks, older chunks leak, and allocate/clear/allocate/clear reads released memory. Proved: one allocation, one clear, then any allocations that fit the chunk; and for every arena that only the newest chunk is recycled and every other chunk leaks (arena_clear_leaks)."
  },
  {
   "property": "C47",
   "status": "partial",
   "theorems": [
    "arena_free_releases_partial",
    "arena_free_uses_released",
    "arena_free_use_after_free_refuted",
    "arena_free_miscounts_refuted"
   ],
   "note": "Refuted: arena_free reads every chunk it has just released (proved for every arena with a chunk). Proved: if released memory keeps its contents, every chunk and the arena are released exactly once and nothing else is touched."
  },
  {
   "property": "C48",
   "status": "partial",
   "theorems": [
    "arenas_independent_partial",
    "arenas_share_chunk_refuted",
    "arena_hands_out_released_refuted"
   ],
   "note": "Refuted: a cleared chunk is shared by two arenas; released memory is handed out. Proved: with arena_init and arena_alloc only, distinct arenas never share a chunk."
  },
  {
   "property": "C49",
   "status": "partial",
   "theorems": [
    "arena_alloc_failure_partial",
    "arena_alloc_failure_effect",
    "arena_alloc_failure_refuted",
    "arena_calloc_null_refuted",
    "arena_alloc_total_wraps_refuted"
   ],
   "note": "Refuted: failure is a NULL result, not the documented panic, it changes the arena's total, arena_calloc writes to NULL, repeated failures wrap the total. Proved: a failing arena_alloc hands out nothing, keeps all blocks in place and changes nothing but the arena's total (arena_alloc_failure_effect)."
  },
  {
   "property": "C42",
   "status": "proved",
   "theorems": [
    "signal_latest",
    "signal_table_full",
    "signal_outlook"
   ],
   "note": "Registrations that sigaction refuses leave no trace; a 33rd distinct signal is reported (fprintf) and otherwise ignored."
  },
  {
   "property": "C43",
   "status": "partial",
   "theorems": [
    "default_signals_partial",
    "signal_outlook",
    "default_signals_refuted",
    "default_signals_reset_refuted",
    "default_signals_full_refuted"
   ],
   "note": "Refuted: one ex_signal call before the first block (or after a reset) sets exception_signal_set, so the default set is never installed; a table full of other signals also leaves no room. Holds when the last call before the block is a reset or there is none, with at most 20 other signals; signal_outlook says for every history what a raised signal does."
  },
  {
   "property": "C44",
   "status": "partial",
   "theorems": [
    "is_caught_value",
    "caught_value",
    "caught_exact_partial",
    "caught_refuted",
    "caught_prefix_refuted"
   ],
   "note": "Refuted through is_str_eq: a name of eight characters (sig_segv, panicked) matches every pending exception, and a proper prefix matches. Exact for every other name."
  },
  {
   "property": "C33",
   "status": "partial",
   "theorems": [
    "try_structured_partial",
    "try_structured_refuted"
   ],
   "note": "All programs of try, catch, catch_any, throw, panic, finally, and rethrow directly in a handler, any depth and any junk. Refuted for rethrow inside a further try block of the handler: it throws the inner block's empty exception."
  },
  {
   "property": "C34",
   "status": "proved",
   "theorems": [
    "finally_once",
    "balanced_count"
   ],
   "note": "Also with guards, deferred functions and panics in the program."
  },
  {
   "property": "C35",
   "status": "proved",
   "theorems": [
    "context_restored",
    "no_dead_jump"
   ],
   "note": "Every statement of the modelled language (also catch_if, guards, allocation, protected pointers), from any state."
  },
  {
   "property": "C36",
   "status": "partial",
   "theorems": [
    "catch_if_throw_diverges",
    "catch_if_throw_refuted",
    "catch_if_caught_partial"
   ],
   "note": "Refuted: a throw in a catch_if block re-enters the block for ever, for every such program. Holds once a caught() test has matched."
  },
  {
   "property": "C37",
   "status": "partial",
   "theorems": [
    "protected_exact",
    "unwinding_ends",
    "protected_released_partial",
    "protected_null_refuted",
    "protected_equal_refuted"
   ],
   "note": "Refuted: a NULL newest pointer or two equal neighbours stop the releases. protected_exact says for every list of protected pointers which ones are released; protected_released_partial: all of them when none is NULL and no two neighbours are equal."
  },
  {
   "property": "C38",
   "status": "proved",
   "theorems": [
    "guards_structured",
    "guard_unwinds",
    "guard_scope_gone"
   ],
   "note": "Bodies without _malloc (C39, C40, C68 show what allocation changes); deferred functions do not throw."
  },
  {
   "property": "C39",
   "status": "partial",
   "theorems": [
    "recover_stops_partial",
    "recover_never_stops",
    "recover_never_stops_run",
    "recover_stops_refuted"
   ],
   "note": "Without _malloc in the guard: proved. With: refuted, and recover_never_stops shows for every list of deferred functions, blocks and actions containing at least one _malloc that the panic always goes on, after everything has been released once. The middle ground (a try block, or a guard, between the _malloc and the panic) is covered by the single-guard case only."
  },
  {
   "property": "C40",
   "status": "partial",
   "theorems": [
    "handled_keeps_guard_partial",
    "handled_releases_guard",
    "handled_keeps_guard_refuted",
    "handled_then_panic_refuted"
   ],
   "note": "Without _malloc in the guard: proved. With: refuted; handled_releases_guard shows for every list with at least one _malloc that a caught exception releases everything at once, and what is deferred afterwards in the guard is never released; a later panic is a use after free (witness)."
  },
  {
   "property": "C41",
   "status": "partial",
   "theorems": [
    "hooks_restored_partial",
    "hooks_one_thread_partial",
    "hooks_threads_exact",
    "hooks_accesses_partial",
    "hooks_threads_refuted",
    "hooks_enter_race_refuted",
    "hooks_torn_refuted",
    "stale_hook_crash"
   ],
   "note": "One thread: proved for every statement. Any number of threads: hooks_threads_exact says that the hooks are right at every moment exactly when the thread that opened the first guard stays in it until no other is open; hooks_accesses_partial the same direction with every load and store a separate step. Refuted otherwise."
  },
  {
   "property": "C67",
   "status": "partial",
   "theorems": [
    "context_junk_partial",
    "context_junk_refuted"
   ],
   "note": "Refuted: is_raii of the local context is never initialised and decides when thread-level allocations are released."
  },
  {
   "property": "C68",
   "status": "partial",
   "theorems": [
    "unwind_frees_wild_refuted",
    "unwind_frees_block_partial",
    "unwind_exact",
    "unwind_frees_each_once",
    "unwind_wild_iff"
   ],
   "note": "Refuted: free is called on the first word stored in the user's block. For any blocks obtained before and inside a try block the outcome is given exactly: the wild free happens iff memory was obtained before, the uninitialised is_raii of the block's context is even and the newest inner block starts with a nonzero word; otherwise every block is freed once."
  },
  {
   "property": "C69",
   "status": "partial",
   "theorems": [
    "caught_current_partial",
    "caught_otherwise",
    "caught_stale_refuted",
    "caught_fresh_thread_refuted"
   ],
   "note": "Exact in every state of a thread that has used the library: caught answers about the error on the thread's scope if there is one (caught_otherwise), else about the current exception. Refuted: an older error hides the current one; NULL dereference in a fresh thread."
  },
  {
   "property": "C50",
   "status": "partial",
   "theorems": [
    "args_roundtrip_partial",
    "args_pointer_refuted",
    "args_pointer_shift_refuted",
    "args_long_string",
    "args_long_string_refuted",
    "args_pointer_exact",
    "args_unknown",
    "args_index_outside",
    "args_mismatch_undefined"
   ],
   "note": "All letters but p, strings up to 272 characters: proved for every descriptor. Refuted: p falls through and consumes another argument (args_pointer_exact: exact effect for every use); a longer string is copied to NULL."
  },
  {
   "property": "C51",
   "status": "partial",
   "theorems": [
    "args_freed_once_partial",
    "args_freed_any",
    "args_never_freed",
    "args_freed_once_refuted",
    "args_grow_refuted"
   ],
   "note": "Proved for a scope never released before, any history over any number of packs: exactly once if the deferred array could grow, and whatever the allocator does exactly once for the packs whose registration succeeded, never for the others (args_freed_any). Refuted: on a scope released once, and when growing fails, packs are never freed."
  },
  {
   "property": "C52",
   "status": "partial",
   "theorems": [
    "get_value_partial",
    "futures_progress",
    "get_strict",
    "get_value_refuted",
    "get_twice_refuted"
   ],
   "note": "Every program of the creator and every schedule, reading the freed future's field as still intact. Refuted by the rules of C: thrd_get always reads the future after freeing it."
  },
  {
   "property": "C53",
   "status": "partial",
   "theorems": [
    "null_result_crashes",
    "null_result_refuted",
    "nonnull_result_partial",
    "sync_null_refuted"
   ],
   "note": "Refuted: NULL results are dereferenced. Every other value comes back."
  },
  {
   "property": "C54",
   "status": "partial",
   "theorems": [
    "one_at_a_time_partial",
    "exception_lost_refuted",
    "exception_misreported_refuted",
    "own_exception_again_refuted"
   ],
   "note": "Proved when each future is collected before the next is started. Refuted with two futures at once: the exception is kept in the creator's scope."
  },
  {
   "property": "C55",
   "status": "proved",
   "theorems": [
    "done_stable",
    "done_means_finished",
    "get_after_done"
   ],
   "note": "Every program and schedule."
  },
  {
   "property": "C56",
   "status": "partial",
   "theorems": [
    "spawn_tables",
    "spawn_no_cpu_refuted",
    "sync_in_order_partial",
    "sync_strict_refuted",
    "sync_again_refuted"
   ],
   "note": "Tables proved for every count and processor count. Collection in order proved for non-NULL results, reading the freed future's field as intact; refuted by the rules of C, and for a pool used again."
  },
  {
   "property": "C57",
   "status": "proved",
   "theorems": [
    "then_folds",
    "then_skips"
   ],
   "note": "Every callback and number of results."
  },
  {
   "property": "C58",
   "status": "partial",
   "theorems": [
    "pool_worker_crashes",
    "pool_refuted"
   ],
   "note": "Refuted: every worker of every pool dereferences NULL."
  },
  {
   "property": "C59",
   "status": "partial",
   "theorems": [
    "serial_defers_partial",
    "defer_race_refuted",
    "defer_race_uninit_refuted",
    "defer_race_double_free_refuted",
    "defer_race_after_free_refuted"
   ],
   "note": "Refuted: concurrent deferrals lose entries or release the array twice. Proved when they do not overlap, any number of threads."
  },
  {
   "property": "C70",
   "status": "partial",
   "theorems": [
    "argument_partial",
    "argument_value_refuted",
    "argument_null_refuted",
    "argument_confused_refuted"
   ],
   "note": "Refuted for NULL and for objects whose first word is 43; otherwise proved."
  },
  {
   "property": "C71",
   "status": "partial",
   "theorems": [
    "get_blocks_partial",
    "get_blocks_refuted"
   ],
   "note": "Refuted: thrd_get joins a worker that still has to run raii_destroy."
  },
  {
   "property": "C72",
   "status": "partial",
   "theorems": [
    "sync_frees_others_refuted",
    "sync_frees_all",
    "sync_keeps_partial"
   ],
   "note": "Refuted: the final raii_deferred_clean releases every promise of the thread."
  },
  {
   "property": "C63",
   "status": "partial",
   "theorems": [
    "item_twice_refuted",
    "item_twice_late_refuted",
    "item_lost_refuted",
    "take_fresh_refuted",
    "exactly_once_partial",
    "drained_partial",
    "pushes_only_partial",
    "size_zero"
   ],
   "note": "Refuted: take loads top before it stores bottom, so an item can be given twice and a later one lost; take on a fresh deque returns an unwritten word. Proved for executions in which thieves do not empty the deque down to the owner's item inside that window, and for every schedule of an owner that only pushes."
  },
  {
   "property": "C73",
   "status": "proved",
   "theorems": [
    "native_isolated",
    "native_private",
    "native_plain_refuted",
    "native_plain_exact"
   ],
   "note": "for thrd_local and thrd_static, any threads and interleaving; the unused *_plain forms store the address of their buffer in the variable (native_plain_refuted)"
  },
  {
   "property": "C74",
   "status": "partial",
   "theorems": [
    "emulated_private_partial",
    "emulated_race_refuted",
    "emulated_lost_refuted",
    "emulated_empty_refuted",
    "emulated_first_refuted",
    "emulated_exit_refuted",
    "emulated_initial_refuted",
    "emulated_delete",
    "emulated_update",
    "emulated_deleted_refuted"
   ],
   "note": "holds for all schedules once one thread alone has used every variable; refuted: concurrent first use, emptiness test before the first use, exit inside a try block, initial contents"
  },
  {
   "property": "C75",
   "status": "partial",
   "theorems": [
    "emulated_throw_exits",
    "emulated_throw_refuted"
   ],
   "note": "refuted: except.c 404 compares the context with the current one, which it always is, so every throw ends the program"
  },
  {
   "property": "C76",
   "status": "partial",
   "theorems": [
    "exit_runs_deferred_partial",
    "exit_other_thread_refuted",
    "exit_during_init_refuted",
    "exit_table_full_refuted"
   ],
   "note": "holds for the scope of the thread that exits while no thread is inside raii_init; refuted: scopes of other threads, exit during another thread's raii_init, a full exit-handler table"
  },
  {
   "property": "C77",
   "status": "partial",
   "theorems": [
    "return_effect",
    "return_from_guard_partial",
    "return_in_try_refuted",
    "return_in_guard_refuted"
   ],
   "note": "holds directly in the only guard of the function; exact effect for every nesting in return_effect; refuted inside a further block: the context of a finished function stays current, outer guards are skipped"
  },
  {
   "property": "C78",
   "status": "partial",
   "theorems": [
    "current_pool_partial",
    "guard_restores_pool",
    "spawn_after_destroy",
    "throw_after_scope_in_guard",
    "spawn_no_pool_refuted",
    "spawn_outer_pool_refuted",
    "spawn_in_guard_refuted",
    "spawn_after_guard_refuted",
    "throw_in_worker_refuted",
    "throw_after_destroy_in_guard",
    "pool_layout"
   ],
   "note": "Holds from a thrd_scope on while no guard is entered or left and no pool destroyed. Refuted: the field raii_local()->arena is shared with guards and never reset: after thrd_destroy every thrd_spawn reads released memory, in a guard the outer pool is not seen, an exception in a guard after thrd_scope stores past the end of the pool, and without a pool NULL is dereferenced."
  },
  {
   "property": "C79",
   "status": "partial",
   "theorems": [
    "destroy_releases",
    "spawn_failure_partial",
    "scope_hides_protected",
    "throw_after_spawn",
    "throw_after_destroy",
    "exception_in_pool_refuted"
   ],
   "note": "thrd_destroy releases each block once, for every number of threads; a failing thrd_spawn releases its future (its argument block leaks). Exceptions: thrd_scope hides all pointers protected before, after a thrd_spawn free is called on a tag, after thrd_destroy released memory is read. One pool per thread; the context is that of a try block."
  },
  {
   "property": "C80",
   "status": "partial",
   "theorems": [
    "finish_before_sync",
    "finish_after_sync",
    "result_of_thread",
    "finish_after_sync_refuted"
   ],
   "note": "thrd_result and, before thrd_sync, thrd_is_finish are exact. After thrd_sync thrd_is_finish reads freed futures for every non-empty pool."
  },
  {
   "property": "C81",
   "status": "partial",
   "theorems": [
    "scope_release_partial",
    "scope_release_uses_released",
    "scope_release_refuted"
   ],
   "note": "Order, multiplicity and the set of released blocks are exact for every history. The clause on released memory fails: once a single block was obtained, arena_free walks through chunks it has freed (as in C47), so the order is proved for a memory that still holds the old header."
  },
  {
   "property": "C82",
   "status": "partial",
   "theorems": [
    "scope_blocks_partial",
    "scope_blocks_huge_refuted",
    "scope_calloc_overflow",
    "arena_shortcuts"
   ],
   "note": "Holds for sizes and products below 2^63 - 1. Refuted beyond: malloc_by(2^64 - 16) becomes -16, returns a pointer and makes later blocks overlap earlier ones; calloc_by overflows a long."
  },
  {
   "property": "C83",
   "status": "proved",
   "theorems": [
    "arena_capacity_decides",
    "arena_null"
   ],
   "note": "Both directions, for every arena that was created and allocated from. An arena whose chunk size wrapped around reports a number of 2^63 or more, which is excluded."
  },
  {
   "property": "C84",
   "status": "partial",
   "theorems": [
    "defer_throw_exact",
    "defer_throw_never_ends",
    "defer_throw_skips",
    "defer_throw_refuted",
    "defer_throw_malloc_refuted"
   ],
   "note": "Refuted. Exact for every guard body without _malloc: unless a function called before recovers, the guard calls its newest functions for ever; otherwise the exception leaves, functions may be called twice (the second time with NULL) and older ones are never called. With _malloc the program ends although a handler encloses the guard."
  },
  {
   "property": "C85",
   "status": "partial",
   "theorems": [
    "message_in_guard_partial",
    "message_during_release",
    "message_handled_refuted",
    "message_outside_refuted"
   ],
   "note": "Exact wherever a throw lands inside a guard, also during the release. Refuted: an exception handled inside the guard stays its message, and in a handler outside guards NULL is dereferenced."
  },
  {
   "property": "C86",
   "status": "partial",
   "theorems": [
    "message_current_partial",
    "message_otherwise",
    "message_panic_refuted",
    "message_stale_refuted",
    "message_fresh_refuted",
    "message_too_early"
   ],
   "note": "message_otherwise says what is reported in all other cases. Refuted: a panic in a guard is reported as the word panic, an older exception is reported for the current one, NULL dereference in a fresh thread."
  },
  {
   "property": "C87",
   "status": "partial",
   "theorems": [
    "generic_exact",
    "generic_wide_partial",
    "generic_neighbours_partial",
    "generic_overrun",
    "generic_cas_exact",
    "generic_store_neighbour_refuted",
    "generic_bool_refuted",
    "generic_bool_load_refuted",
    "generic_cas_refuted"
   ],
   "note": "Exact effect for every object size. Holds for objects of eight bytes. Refuted for smaller ones: the macros always access eight bytes, so a store overwrites the neighbours or leaves the block, a load of an atomic_bool returns them, compare-exchange fails for them."
  },
  {
   "property": "C88",
   "status": "partial",
   "theorems": [
    "float_add_partial",
    "float_add_negative",
    "float_add_signs_partial",
    "float_cancel_partial",
    "float_sub_partial",
    "float_cas_values",
    "float_add_f32_refuted",
    "float_add_f64_refuted",
    "float_sub_f32_refuted",
    "float_cas_zero_refuted"
   ],
   "note": "Refuted: bit patterns are added as integers, 1.0f + 1.0f is 2^127. For non-negative numbers the theorems say exactly when the exact sum or difference results. Two negative numbers never add correctly; x + (-x) is 0 only for 0 and 2.0; numbers of different sign are exact when the patterns add without a carry. Missing: different signs with a carry."
  },
  {
   "property": "C89",
   "status": "partial",
   "theorems": [
    "join_once_partial",
    "join_completes_partial",
    "join_truncation_refuted"
   ],
   "note": "Proved for up to 2^32 tasks. Refuted beyond: the old count is truncated to int."
  },
  {
   "property": "C90",
   "status": "partial",
   "theorems": [
    "last_words_partial",
    "last_words_inside_try",
    "last_words_refuted"
   ],
   "note": "Proved when raii_init first ran outside try blocks (owned). When it first ran inside one, the root context's is_raii stays false: the functions run only in exit, and not at all when a signal is pending."
  },
  {
   "property": "C91",
   "status": "proved",
   "theorems": [
    "callbacks_once"
   ],
   "note": "For every behaviour, at every moment."
  },
  {
   "property": "C92",
   "status": "partial",
   "theorems": [
    "deferred_least",
    "deferred_again",
    "deferred_forever",
    "deferred_at_most_once_refuted"
   ],
   "note": "Each is called at least once before the program ends, whatever happens. Not at most once: when one throws, the newer ones are called again with NULL and it again with its data; if it always throws the program never ends."
  },
  {
   "property": "C93",
   "status": "partial",
   "theorems": [
    "handlers_skipped_partial",
    "handlers_skipped_refuted"
   ],
   "note": "Exactly: skipped when any signal was ever handled since the flags were last reset, and nothing in the library resets them."
  },
  {
   "property": "C94",
   "status": "proved",
   "theorems": [
    "handler_mask",
    "convert_again"
   ],
   "note": "All programs of the model's language."
  },
  {
   "property": "C95",
   "status": "partial",
   "theorems": [
    "exception_kept_partial",
    "exception_replaced",
    "signal_delivered",
    "exception_kept_refuted"
   ],
   "note": "Proved when no signal is sent. A signal that arrives while release functions run is delivered when the mask comes back and replaces the exception; exception_replaced says exactly when."
  },
  {
   "property": "C96",
   "status": "partial",
   "theorems": [
    "release_fault_kills",
    "killed_by_fault",
    "release_fault_refuted"
   ],
   "note": "The fault's signal is blocked, so the kernel kills the process; killed_by_fault: nothing but a fault kills."
  },
  {
   "property": "C97",
   "status": "partial",
   "theorems": [
    "break_effect_partial",
    "break_in_blocks",
    "break_throw_refuted"
   ],
   "note": "For every list of try blocks inside the guard, every list of deferred functions that return normally, and every state (break_in_blocks: inside any blocks): effect is as claimed. Missing: deferred functions that throw; break_throw_refuted shows one for which the claim is false, since break leaves the contexts of the try blocks on the list and the throw jumps back into a block already left."
  },
  {
   "property": "C98",
   "status": "partial",
   "theorems": [
    "return_value_partial",
    "return_released",
    "return_value_refuted",
    "return_value_changed_refuted"
   ],
   "note": "Expressions are constants, variables, loads and sums; the value is kept if the expression reads nothing the deferred functions release or change (return_value_partial). False in general: contents of memory released with the guard are always read after free (return_released, return_value_refuted) and a deferred function can change the value (return_value_changed_refuted)."
  },
  {
   "property": "C99",
   "status": "partial",
   "theorems": [
    "strings_registered",
    "strings_released_partial",
    "strings_released_refuted",
    "strings_null_scope"
   ],
   "note": "Proved whenever the array of deferred functions could grow; refuted otherwise: str_concat_ex returns a block that nobody releases (the same for the others, C30). A text with a bad padding leaves its block with the scope although the result is NULL. With a NULL scope the first three functions leave the block to the caller, the other three dereference NULL (strings_null_scope)."
  },
  {
   "property": "C100",
   "status": "partial",
   "theorems": [
    "malloc_loses",
    "exhaustion_exact",
    "pair_loses",
    "async_loses",
    "scope_loses",
    "array_structure_lost",
    "failed_request_refuted"
   ],
   "note": "False: the first block of a scope is lost when the protector cannot be had, later blocks when the array of deferred functions cannot grow, and the functions with several requests lose the blocks of the earlier ones. The theorems give the exact set of lost blocks for every pattern of failures; exhaustion_exact for a program of any number of allocations when memory runs out for good. array_structure_lost: raii_array_new loses its structure even when nothing fails."
  },
  {
   "property": "C101",
   "status": "partial",
   "theorems": [
    "signals_exact",
    "signal_between_partial",
    "signal_in_release",
    "signal_twice_refuted",
    "signal_undefined_refuted",
    "signal_loses_refuted"
   ],
   "note": "signals_exact gives the exact outcome for every body, every number of signals and all instants (guards without _malloc, signals not inside the allocator, stores in source order). The claim holds between deferrals. False elsewhere: the entry is counted before it is written, the old array is used after realloc released it, data is cleared only after the call, the array is forgotten only after its release. signal_in_release: exactly which instants of a release are safe."
  },
  {
   "property": "C102",
   "status": "partial",
   "theorems": [
    "enter_exact",
    "leave_exact",
    "guard_steady",
    "throw_steady_partial",
    "throw_told",
    "entry_refuted",
    "exit_refuted"
   ],
   "note": "Exact outcome for every nesting, every instant and every handling block (guards without _malloc, no thread pool). Holds for signals between statements (throw_steady_partial). False: in the outermost guard a NULL pointer is dereferenced between the store of the hook and that of the arena, and again when leaving; the jump buffer is used before it is filled; the new scope is lost and the hooks stay set unless another guard is left on the way."
  },
  {
   "property": "C103",
   "status": "partial",
   "theorems": [
    "thread_reports",
    "thread_deferred_exact",
    "recovered_reported_refuted",
    "recovered_exits_refuted",
    "jump_agrees"
   ],
   "note": "Proved for every thread function that defers only in guards of its own (thread_reports). With functions deferred in the thread's own guard (reached through raii_local()->arena) the outcome is exact (thread_deferred_exact), and the property is false: a recovered exception is still reported when an older deferred function runs after the recovering one; with a block of memory in that guard the recovered exception ends the process. Functions without memory of the thread's scope (C68); the order of threads is C54."
  },
  {
   "property": "C104",
   "status": "proved",
   "theorems": [
    "tail_queues_are_lists",
    "tail_insert_twice_never_ends"
   ],
   "note": "tail_insert_twice_never_ends shows that the precondition is needed: an element inserted a second time at the head makes every loop endless."
  },
  {
   "property": "C105",
   "status": "partial",
   "theorems": [
    "simple_queues_are_lists",
    "xor_queues_are_lists",
    "xor_queues_are_lists_refuted"
   ],
   "note": "Proved where an unsigned long is as wide as a pointer. False on 64-bit Windows (unsigned long of 32 bits): XSIMPLEQ_XOR cuts the addresses, and the first insertion at the tail writes to memory that is not the queue's."
  },
  {
   "property": "C106",
   "status": "proved",
   "theorems": [
    "linked_lists_are_lists",
    "singly_linked_lists_are_lists",
    "remove_cleared"
   ],
   "note": "The last clause of singly_linked_lists_are_lists: SLIST_REMOVE of an absent element reads through NULL, always."
  },
  {
   "property": "C107",
   "status": "proved",
   "theorems": [
    "tail_safe_loops",
    "list_safe_loops",
    "plain_loop_reads_freed",
    "plain_list_loops_read_freed"
   ],
   "note": "plain_loop_reads_freed, plain_list_loops_read_freed: the plain loops with such a body are undefined at the first element dropped, always."
  },
  {
   "property": "C108",
   "status": "proved",
   "theorems": [
    "red_black_trees_are_ordered_sets",
    "removing_a_stranger_empties"
   ],
   "note": "removing_a_stranger_empties shows that the precondition of RB_REMOVE is needed: an element that never was inserted, with a zeroed entry, empties the tree."
  },
  {
   "property": "C109",
   "status": "proved",
   "theorems": [
    "red_black_trees_stay_balanced"
   ],
   "note": "The bound holds in the number of elements that are in the tree, not of those that ever were."
  },
  {
   "property": "C110",
   "status": "proved",
   "theorems": [
    "tree_safe_loops",
    "plain_tree_loops_read_freed"
   ],
   "note": "plain_tree_loops_read_freed: the plain loops with such a body are undefined at the first element dropped, always."
  },
  {
   "property": "C111",
   "status": "proved",
   "theorems": [
    "splay_trees_are_ordered_sets",
    "splay_next_preconditions"
   ],
   "note": "Histories of any length on any elements with a comparison that comes from keys; SPLAY_NEXT of an element in the tree. What the code relies on is stated: SPLAY_NEXT on an empty tree is a NULL dereference, on a freed element a read of freed memory."
  },
  {
   "property": "C112",
   "status": "partial",
   "theorems": [
    "splay_costs_amortised",
    "splay_next_alone_is_linear",
    "splay_next_amortised_refuted"
   ],
   "note": "The bound is proved for all calls other than SPLAY_NEXT by itself (the steps of SPLAY_FOREACH, which splay the successor next, are covered). For SPLAY_NEXT by itself it is refuted: repeated calls take n/2 rounds each."
  },
  {
   "property": "C113",
   "status": "partial",
   "theorems": [
    "splay_foreach_reads_freed",
    "splay_foreach_remove_last",
    "splay_foreach_remove_refuted"
   ],
   "note": "Refuted: with freeing, the loop reads the freed element on every tree with elements; without freeing, it dereferences NULL on every tree with one element, and can pass over elements (witness)."
  },
  {
   "property": "C114",
   "status": "partial",
   "theorems": [
    "mmap_keeps_handles",
    "mmap_errno_exact",
    "mmap_errno_refuted",
    "mman_calls_exact",
    "getpagesize_once",
    "munmap_exact"
   ],
   "note": "handles, views, results and the exact value of errno are proved for all answers of Windows; that errno is an errno value naming the failure is refuted: it is the Windows error number, and 0 when CloseHandle resets the last error"
  },
  {
   "property": "C115",
   "status": "partial",
   "theorems": [
    "mmap_flags_ignored",
    "mmap_writes_file",
    "mmap_anonymous_no_file",
    "mmap_private_refuted"
   ],
   "note": "refuted: the flags are never looked at, so every writable private mapping changes the file and every writable mapping past the end extends it; both proved in general"
  },
  {
   "property": "C116",
   "status": "partial",
   "theorems": [
    "munmap_exact",
    "munmap_part_refuted"
   ],
   "note": "refuted: the length is never looked at; exactly what is unmapped is proved for all mappings"
  },
  {
   "property": "C117",
   "status": "proved",
   "theorems": [
    "exchange_swaps_blocks"
   ],
   "note": ""
  },
  {
   "property": "C118",
   "status": "proved",
   "theorems": [
    "getopt_scans",
    "getopt_scans_prefixed",
    "getopt_permutes"
   ],
   "note": "preconditions stated in usable: long_only off (C121), no \"W;\" (C120), no letter (char) -1 (C122), strings shorter than 4 GB"
  },
  {
   "property": "C119",
   "status": "partial",
   "theorems": [
    "getopt_scans_prefixed",
    "getopt_prefix_refuted"
   ],
   "note": "refuted: the prefix is passed over in the first call only; getopt_scans_prefixed says exactly what every call takes"
  },
  {
   "property": "C120",
   "status": "partial",
   "theorems": [
    "getopt_w_exact",
    "getopt_w_null",
    "getopt_w_refuted",
    "getopt_w_arg_refuted"
   ],
   "note": "refuted: an ambiguous name counts one element too many and reads beyond argv, an optional argument that is missing is the name itself, without a table NULL is dereferenced; what -W gives instead is proved exactly for all tables and names"
  },
  {
   "property": "C121",
   "status": "partial",
   "theorems": [
    "getopt_long_only_exact",
    "getopt_long_only_off",
    "getopt_long_only_refuted"
   ],
   "note": "refuted for long_only, whose answers are proved exactly for all elements and tables; without it no short element is looked up"
  },
  {
   "property": "C122",
   "status": "partial",
   "theorems": [
    "getopt_scans_prefixed",
    "getopt_minus_one_refuted"
   ],
   "note": "refuted for the letter (char) -1; for every other option string C118 gives the whole run to the end"
  },
  {
   "property": "C123",
   "status": "partial",
   "theorems": [
    "waitpid_exact",
    "waitpid_number_refuted",
    "waitpid_number_exact"
   ],
   "note": "refuted: the number returned is the parent's; the status is proved for every process that ends, and the number is right only for a process that is its own parent"
  },
  {
   "property": "C124",
   "status": "partial",
   "theorems": [
    "waitpid_handles",
    "poll_leaks",
    "waitpid_handles_refuted"
   ],
   "note": "refuted: WNOHANG on a running process leaks the snapshot and the process handle, n polls leak 2n; every other path closes both (proved)"
  },
  {
   "property": "C125",
   "status": "partial",
   "theorems": [
    "wait_first_child",
    "wait_any_refuted",
    "wait_no_child",
    "wait_not_opened",
    "wait_is_waitpid"
   ],
   "note": "refuted: only the first child in the snapshot is looked at (proved: the answer depends on nothing else), and processes that are no children are waited for"
  },
  {
   "property": "C126",
   "status": "partial",
   "theorems": [
    "waitid_exited_fails",
    "waitpid_options_exact",
    "wait_groups_abort",
    "waitid_refuted"
   ],
   "note": "refuted: WEXITED is rejected, errno is set to -EINVAL, groups and P_ALL abort, *infop is zeroed"
  },
  {
   "property": "C127",
   "status": "proved",
   "theorems": [
    "status_tests"
   ],
   "note": ""
  },
  {
   "property": "C128",
   "status": "proved",
   "theorems": [
    "dir_lists",
    "wide_names"
   ],
   "note": "for names that can be converted or have an alternate name, and fit the entry; otherwise C131"
  },
  {
   "property": "C129",
   "status": "proved",
   "theorems": [
    "dir_resources",
    "dir_null",
    "dir_after_close"
   ],
   "note": ""
  },
  {
   "property": "C130",
   "status": "partial",
   "theorems": [
    "pattern_built",
    "pattern_exact",
    "opendir_race_exact",
    "opendir_race_refuted"
   ],
   "note": "proved when the second answer of GetFullPathNameW fits the length asked for (exactly then); refuted when the full path has become longer"
  },
  {
   "property": "C131",
   "status": "partial",
   "theorems": [
    "read_error_silent",
    "read_error_refuted",
    "empty_root_refuted"
   ],
   "note": "refuted: an error of FindNextFileW ends the stream like the end of the directory with errno unchanged; names over 259 bytes end the program; an empty root gives ENOENT"
  },
  {
   "property": "C132",
   "status": "proved",
   "theorems": [
    "timersub_ok",
    "timersub_exact"
   ],
   "note": ""
  },
  {
   "property": "C133",
   "status": "partial",
   "theorems": [
    "be64_ok",
    "be64_twice",
    "be64_int_undefined",
    "be64_refuted"
   ],
   "note": "proved for arguments of 64 bits; refuted for arguments of 32 bits, which are shifted by 32"
  },
  {
   "property": "C134",
   "status": "partial",
   "theorems": [
    "file_types",
    "no_type_is_link",
    "iftodt_type",
    "link_macros_refuted"
   ],
   "note": "refuted: S_ISBLK, S_ISLNK and S_ISSOCK hold for exactly the modes without a type, and DT_LNK is DT_UNKNOWN"
  },
  {
   "property": "C135",
   "status": "partial",
   "theorems": [
    "fits_range",
    "align_up_least",
    "align_up_cut",
    "align_up_overflow",
    "align_up_refuted"
   ],
   "note": "proved when the alignment is signed or as wide as the result, as in src/arena.c; refuted for a 64-bit number with an alignment of type unsigned int, whose mask clears the high half"
  },
  {
   "property": "C136",
   "status": "partial",
   "theorems": [
    "size_macro_exact",
    "size_macro_ok",
    "size_macro_sum",
    "size_macro_refuted"
   ],
   "note": "exact for every type; refuted: the product is formed in the type of the argument, so Gb(2) overflows int, and the argument is not in parentheses, so Kb(1 + 1) is 1025"
  },
  {
   "property": "C137",
   "status": "proved",
   "theorems": [
    "seh_registry",
    "seh_defaults"
   ],
   "note": ""
  },
  {
   "property": "C138",
   "status": "partial",
   "theorems": [
    "win_refines",
    "win_filter_search",
    "win_lost",
    "win_catch_refuted"
   ],
   "note": "proved for programs in which every exception that leaves a body is for the handler of that body; refuted: an exception for another handler is lost, since the filter asks for the handler without setting the state"
  },
  {
   "property": "C139",
   "status": "partial",
   "theorems": [
    "fault_lost",
    "fault_any_name",
    "fault_positive",
    "fault_catch_any",
    "fault_unknown",
    "fault_refuted"
   ],
   "note": "exact for ex_catch: the fault is lost or goes to the handler of any name, depending on the uninitialised member panic; proved for ex_catch_any when the uninitialised member caught is no code of the table; refuted"
  },
  {
   "property": "C140",
   "status": "partial",
   "theorems": [
    "win_place_lost",
    "win_place_kept",
    "win_place_refuted"
   ],
   "note": "proved for ex_catch_any; refuted for ex_catch, where the place is always unknown, line 0, because the code of a throw counts as a signal"
  },
  {
   "property": "C141",
   "status": "partial",
   "theorems": [
    "win_inner_lost",
    "win_handler_throw",
    "win_rethrow_fault",
    "win_rethrow_any",
    "win_rethrow_name",
    "win_panic_renamed",
    "win_handler_refuted"
   ],
   "note": "rethrow() in the handler of ex_catch(E) is delivered (win_refines of C138); refuted for a throw in a handler, for rethrow() in ex_catch_any when the uninitialised member caught is negative, and for ex_catch(panic), which renames the exception"
  },
  {
   "property": "C142",
   "status": "partial",
   "theorems": [
    "win_guard_throw",
    "win_guard_body",
    "win_guard_fault",
    "win_guard_fault_caught",
    "win_guard_refuted"
   ],
   "note": "A throw passes the section unchanged, a registered fault leaves it with its name; refuted for the fault at the enclosing ex_catch: the block for it gets the first name of the table, a block for another name loses it. The deferred functions are any handler that ends normally"
  },
  {
   "property": "C143",
   "status": "partial",
   "theorems": [
    "unwinding_reported",
    "message_exact",
    "message_right_partial",
    "message_releases",
    "message_refuted"
   ],
   "note": "An exception out of a release function is always reported as such. Otherwise message_exact says when the message is wrong: the flag is set by a NULL pointer in the first place or a repeated value, also during an exception that was handled, and refutes the claim; message_right_partial gives the condition under which it is right"
  },
  {
   "property": "C144",
   "status": "proved",
   "theorems": [
    "cas_atomic",
    "cas_counter",
    "cas_alone"
   ],
   "note": "Linearizability at the compare-and-swap, under sequential consistency, for expected variables that are the caller's own; the TinyCC variants are left out"
  },
  {
   "property": "C145",
   "status": "proved",
   "theorems": [
    "weak_spinlock",
    "weak_spinlock_progress"
   ],
   "note": "Release/acquire memory with modification order, release sequences and race detection on one lock and one protected variable"
  },
  {
   "property": "C146",
   "status": "partial",
   "theorems": [
    "promise_done",
    "promise_published",
    "promise_relaxed",
    "thrd_wait_refuted"
   ],
   "note": "Proved for promise_get, hence thrd_get; refuted for thrd_wait and thrd_is_done alone: their load is relaxed, so using what the function stored is a data race. Full statement: also after thrd_wait and thrd_is_done"
  },
  {
   "property": "C147",
   "status": "partial",
   "theorems": [
    "tcc_load_wrong",
    "tcc_fetch_exact",
    "tcc_fetch_right_partial",
    "tcc_exchange_exact",
    "tcc_exchange_wrong",
    "tcc_win_exact",
    "tcc_swap_exact",
    "tcc_refuted"
   ],
   "note": "Refuted: compare-and-swap returns whether it succeeded instead of the value found, so loads never return the value, fetch loops repeat the operation and compare-exchange does not store; the Windows forms pass the address of a parameter. The fetch operations are right only for a variable that is 1"
  },
  {
   "property": "C148",
   "status": "partial",
   "theorems": [
    "setup_alone",
    "setup_handlers_partial",
    "setup_names_partial",
    "setup_before",
    "setup_flag_stays",
    "setup_early_refuted",
    "setup_window_refuted",
    "setup_name_refuted",
    "setup_lost_refuted"
   ],
   "note": "proved: a thread alone does what the sequential model does, a thread that did the set-up has handlers for all default signals as long as the table is not full, the table holds default names only, and threads started behind a first block change nothing; refuted: the flag is set behind the first signal, and two threads can take the same slot, so that one signal is thrown under the name of another or has no slot for good"
  },
  {
   "property": "C149",
   "status": "partial",
   "theorems": [
    "value_exact",
    "value_member_partial",
    "value_int_refuted",
    "value_null_refuted"
   ],
   "note": "proved for objects of at least 256 bytes, such as slots of argument packs; refuted: the whole 256-byte union is copied, so the documented use with the address of an int reads behind it, and for NULL the function ends without a value"
  },
  {
   "property": "C150",
   "status": "partial",
   "theorems": [
    "err_text_partial",
    "err_name_missing",
    "err_name_refuted"
   ],
   "note": "proved: the text behind the name of the program, from the errno of the call, and the status; refuted: the name of the program is never printed"
  },
  {
   "property": "C151",
   "status": "partial",
   "theorems": [
    "getopt_opterr_partial",
    "getopt_opterr_plain",
    "getopt_opterr_refuted"
   ],
   "note": "refuted for an ambiguous name behind the last -W: the message reads the NULL behind argv; every outcome with opterr set is the one without it, and without \"W;\" in the option string they are always equal"
  }
 ]
}