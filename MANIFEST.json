{
 "claims": [
  {
   "property": "C01",
   "status": "proved",
   "theorems": [
    "C01_strlen",
    "C01_strnlen",
    "C01_strnlen_of_string"
   ],
   "note": ""
  },
  {
   "property": "C02",
   "status": "proved",
   "theorems": [
    "C02_memcpy",
    "C02_memmove",
    "C02_memset"
   ],
   "note": ""
  },
  {
   "property": "C03",
   "status": "proved",
   "theorems": [
    "C03_memcmp"
   ],
   "note": ""
  },
  {
   "property": "C04",
   "status": "proved",
   "theorems": [
    "C04_memchr",
    "C04_memrchr",
    "C04_memccpy"
   ],
   "note": ""
  },
  {
   "property": "C05",
   "status": "partial",
   "theorems": [
    "C05_memmem",
    "C05_strstr_partial",
    "C05_strstr_empty_needle_partial",
    "C05_strstr_refuted"
   ],
   "note": "memmem is proved in full; strstr(\"\",\"\") returns NULL (C05_strstr_refuted), every other strstr input is proved."
  },
  {
   "property": "C06",
   "status": "proved",
   "theorems": [
    "C06_strcpy",
    "C06_stpcpy",
    "C06_stpncpy",
    "C06_strncpy"
   ],
   "note": ""
  },
  {
   "property": "C07",
   "status": "proved",
   "theorems": [
    "C07_strncat",
    "C07_strcat",
    "C07_strlcpy",
    "C07_strlcat"
   ],
   "note": ""
  },
  {
   "property": "C08",
   "status": "proved",
   "theorems": [
    "C08_strncmp",
    "C08_strcmp",
    "C08_strcmp_total_order"
   ],
   "note": ""
  },
  {
   "property": "C09",
   "status": "partial",
   "theorems": [
    "C09_strchr",
    "C09_strchrnul",
    "C09_strrchr_partial",
    "C09_strrchr_refuted"
   ],
   "note": "strchr/strchrnul in full; strrchr(s, 0) returns NULL for every s (C09_strrchr_refuted), proved for every other c."
  },
  {
   "property": "C10",
   "status": "proved",
   "theorems": [
    "C10_strspn",
    "C10_strcspn",
    "C10_strpbrk",
    "C10_strsep"
   ],
   "note": ""
  },
  {
   "property": "C11",
   "status": "proved",
   "theorems": [
    "C11_strtok_r"
   ],
   "note": ""
  },
  {
   "property": "C12",
   "status": "partial",
   "theorems": [
    "C12_strcasestr_partial",
    "C12_strcasestr_refuted_wrong_match",
    "C12_strcasestr_refuted_overread"
   ],
   "note": "Proved for non-empty needles made of letters over any haystack; the code folds with `& !32`, which mismatches non-letters and can read past the terminator (two refutations)."
  },
  {
   "property": "C13",
   "status": "proved",
   "theorems": [
    "C13_strndup",
    "C13_strdup",
    "C13_strxfrm",
    "C13_strerror_r"
   ],
   "note": ""
  },
  {
   "property": "C14",
   "status": "partial",
   "theorems": [
    "C14_classes",
    "C14_tolower",
    "C14_toupper",
    "C14_strncasecmp_partial",
    "C14_strcasecmp_partial",
    "C14_strcasecmp_refuted"
   ],
   "note": "Predicates and case mapping in full; strcasecmp/strncasecmp equality for all strings, sign for 7-bit strings; the sign is wrong for bytes >= 128 (signed char comparison, C14_strcasecmp_refuted)."
  },
  {
   "property": "C15",
   "status": "partial",
   "theorems": [
    "C15_subject_exists",
    "C15_strtol_partial",
    "C15_strtoll_partial",
    "C15_strtoul_partial",
    "C15_strtoull_partial",
    "C15_no_conversion",
    "C15_bad_base",
    "C15_strtol_refuted_octal",
    "C15_strtol_refuted_bare_0x",
    "C15_strtol_refuted_long_min"
   ],
   "note": "Proved for every string and base except three deviations, each refuted by a witness: base 8 without leading 0, bare 0x, and the spurious ERANGE for LONG_MIN."
  },
  {
   "property": "C16",
   "status": "proved",
   "theorems": [
    "C16_atoi",
    "C16_atol"
   ],
   "note": ""
  },
  {
   "property": "C17",
   "status": "proved",
   "theorems": [
    "C17_roundtrip",
    "C17_l64a_shape"
   ],
   "note": ""
  },
  {
   "property": "C18",
   "status": "proved",
   "theorems": [
    "C18_qsort"
   ],
   "note": ""
  },
  {
   "property": "C19",
   "status": "proved",
   "theorems": [
    "C19_bsearch"
   ],
   "note": ""
  },
  {
   "property": "C20",
   "status": "proved",
   "theorems": [
    "C20_history",
    "C20_double_value"
   ],
   "note": "Histories of all nine functions; the double is characterised with Flocq's binary64 (standard-library Reals axioms). The locks are not modelled."
  },
  {
   "property": "C21",
   "status": "proved",
   "theorems": [
    "C21_history",
    "C21_range",
    "C21_resume",
    "C21_reseed"
   ],
   "note": "From process start, with all initialised state buffers; locks not modelled."
  },
  {
   "property": "C22",
   "status": "partial",
   "theorems": [
    "C22_history_partial",
    "C22_progress_partial",
    "C22_unsetenv_refuted",
    "C22_setenv_alias_refuted"
   ],
   "note": "Any history over an environment with distinct names; duplicate inherited names and self-aliasing values refuted; allocation failure and the Vec behind environ not modelled."
  },
  {
   "property": "C23",
   "status": "partial",
   "theorems": [
    "C23_atexit_results",
    "C23_exit_partial",
    "C23_quick_exit_partial",
    "C23_exit_refuted"
   ],
   "note": "Handlers registered before exit: exactly once each, in reverse order, whatever handlers register meanwhile; handlers registered during exit are never called (refuted)."
  },
  {
   "property": "C24",
   "status": "proved",
   "theorems": [
    "C24_calloc_overflow",
    "C24_calloc",
    "C24_reallocarray"
   ],
   "note": "dlmalloc is an arbitrary parameter."
  },
  {
   "property": "C25",
   "status": "proved",
   "theorems": [
    "C25_wcrtomb",
    "C25_wcrtomb_error",
    "C25_wctomb",
    "C25_mbrtowc",
    "C25_round_trip",
    "C25_mblen",
    "C25_encoded_length",
    "C25_btowc",
    "C25_wctob"
   ],
   "note": "All scalar values and byte strings; core::str::from_utf8 and char::from_u32 are modelled from their documentation."
  },
  {
   "property": "C26",
   "status": "partial",
   "theorems": [
    "C26_add_partial",
    "C26_add_fails",
    "C26_add_carry_wraps_refuted",
    "C26_subtract_partial",
    "C26_subtract_fails_on_negative",
    "C26_subtract_borrow_refuted",
    "C26_deadline_partial",
    "C26_deadline_exact_refuted"
   ],
   "note": "add exact unless the carry wraps at the end of time_t (refuted); subtract exact without borrow, borrow case refuted; deadlines never early, at most 2 s late."
  },
  {
   "property": "C27",
   "status": "proved",
   "theorems": [
    "C27_strftime",
    "C27_strftime_standard",
    "C27_empty_output_stores_nothing"
   ],
   "note": "Every format, struct and buffer size; mktime (for %s) is a parameter; output assumed shorter than 2^64 bytes. Empty output stores no NUL (recorded, not part of the claim)."
  },
  {
   "property": "C28",
   "status": "partial",
   "theorems": [
    "C28_strftime_fields_partial",
    "C28_week_number_refuted",
    "C28_week_one_refuted",
    "C28_week_padding_refuted",
    "C28_century_refuted",
    "C28_two_digit_year_refuted",
    "C28_date_and_time_refuted",
    "C28_round_trip_partial",
    "C28_space_padded_day_refuted",
    "C28_am_pm_refuted",
    "C28_white_space_refuted"
   ],
   "note": "All agreeing conversions and the strptime round trip over arbitrary item sequences; %V %U %W %C %y(<1900) %c and strptime %e, %p order refuted. ASCII strings only."
  },
  {
   "property": "C29",
   "status": "proved",
   "theorems": [
    "C29_mutual_exclusion",
    "C29_try_lock",
    "C29_sleeper_is_covered",
    "C29_free_mutex_is_obtainable"
   ],
   "note": "Transition system over any number of threads, SC interleaving of atomic accesses, spurious wakes and CAS failures; safety and no-stranding."
  },
  {
   "property": "C30",
   "status": "partial",
   "theorems": [
    "C30_mutual_exclusion",
    "C30_recursive_relock",
    "C30_unlock_by_owner",
    "C30_unlock_not_owner",
    "C30_errorcheck_relock_partial",
    "C30_errorcheck_relock_error_refuted",
    "C30_trylock_busy_partial",
    "C30_errorcheck_trylock_error_refuted",
    "C30_sleeper_is_covered",
    "C30_free_mutex_is_obtainable"
   ],
   "note": "All four types, robust or not. ERRORCHECK relock returns EAGAIN and own trylock EDEADLK instead of the documented codes (refuted)."
  },
  {
   "property": "C31",
   "status": "partial",
   "theorems": [
    "C31_reowns_the_mutex",
    "C31_no_lost_wakeup_partial",
    "C31_waiter_returns_partial",
    "C31_holding_the_mutex_partial",
    "C31_overlapping_signals_refuted"
   ],
   "note": "Proved with signallers that hold the mutex or at least do not overlap one another, and fewer than 2^32 - 1 waits in progress; refuted for overlapping signallers without the mutex: both read the same sequence number and store the same next one, a waiter in between sleeps on. The mutex is abstract (owner), which C29/C30 justify."
  },
  {
   "property": "C32",
   "status": "partial",
   "theorems": [
    "C32_return",
    "C32_arrivals_are_distinct",
    "C32_all_return_partial",
    "C32_all_return",
    "C32_sleeper_is_covered_partial"
   ],
   "note": "Proved without bounds for at most n participating threads; for more threads than the count, a thread must not sleep through 2^32 - 2 cycles (gen_id wraps). The mutex and condition variable inside the barrier are abstract steps as justified by C29 and C31."
  },
  {
   "property": "C33",
   "status": "proved",
   "theorems": [
    "C33_exclusion",
    "C33_trywrlock",
    "C33_tryrdlock",
    "C33_try_does_not_block",
    "C33_sleeper_is_covered",
    "C33_wrlock_completes",
    "C33_rdlock_completes"
   ],
   "note": "All interleavings of any number of threads with spurious futex wake-ups and CAS failures. A reader arriving when 2^31 - 2 readers hold the lock panics in the code's own assertion."
  },
  {
   "property": "C34",
   "status": "partial",
   "theorems": [
    "C34_waits_bounded",
    "C34_trywait",
    "C34_value_partial",
    "C34_post_overflow_refuted",
    "C34_sleeper_is_covered",
    "C34_wait_completes_partial",
    "C34_wait_fails_only_there_partial",
    "C34_wait_fails_because_of_a_post_refuted"
   ],
   "note": "sem_wait can fail with EAGAIN when a post races with it, and sem_post wraps at 2^32 (both refuted); the rest is proved."
  },
  {
   "property": "C35",
   "status": "proved",
   "theorems": [
    "C35_runs_at_most_once",
    "C35_returns_after_completion",
    "C35_one_value",
    "C35_no_call_is_stranded",
    "C35_never_panics"
   ],
   "note": "call_once as used by pthread_once; a constructor that unwinds or is cancelled is not modelled."
  },
  {
   "property": "C36",
   "status": "proved",
   "theorems": [
    "C36_value",
    "C36_one_post",
    "C36_no_waiter_is_stranded"
   ],
   "note": "Waitval with its one-post contract; any number of waiters."
  },
  {
   "property": "C37",
   "status": "proved",
   "theorems": [
    "C37_mutual_exclusion",
    "C37_trylock",
    "C37_lock"
   ],
   "note": "All interleavings incl. spurious compare-exchange failure."
  },
  {
   "property": "C38",
   "status": "proved",
   "theorems": [
    "C38_getspecific",
    "C38_setspecific",
    "C38_key_delete",
    "C38_key_create",
    "C38_destructor_call",
    "C38_destructors_done"
   ],
   "note": "Each API call is one step; destructors may call anything and are interleaved with other threads."
  },
  {
   "property": "C39",
   "status": "proved",
   "theorems": [
    "C39_in_order",
    "C39_flush",
    "C39_lines"
   ],
   "note": "FILE output through BufWriter/LineWriter/unbuffered with write(2) an arbitrary oracle (errors and short counts), for every buffer size and every sequence of fwrite, fputs, putc, puts and fflush: content and order, fflush, line buffering, totality. Not modelled: seeking, setvbuf after I/O (drops pending data), fwrite sizes whose product wraps, concurrent use (the FILE lock is C29's mutex)."
  },
  {
   "property": "C40",
   "status": "partial",
   "theorems": [
    "C40_once_partial",
    "C40_eof_partial",
    "C40_unbuffered_refuted",
    "C40_setvbuf_refuted",
    "C40_unget_eof_refuted"
   ],
   "note": "FILE input with read(2) an arbitrary oracle (errors, any chunking, spurious end of file), every buffer size, every sequence of getc, fread, ungetc (and clearerr). Refuted: unbuffered streams (setvbuf _IONBF) report end of file at once; setvbuf after reading corrupts the input or panics; ungetc(EOF) pushes back 255."
  },
  {
   "property": "C41",
   "status": "partial",
   "theorems": [
    "C41_fgets_partial",
    "C41_fgets_fits",
    "C41_getdelim_partial",
    "C41_pushback_refuted"
   ],
   "note": "fgets and getdelim/getline after any calls, with read(2) an oracle; partial because it needs a stream without pushed-back bytes (C41_fgets_fits does not); with pushed-back bytes the claim is refuted. realloc is taken to succeed."
  },
  {
   "property": "C42",
   "status": "partial",
   "theorems": [
    "C42_snprintf_partial",
    "C42_snprintf_zero",
    "C42_sprintf_partial",
    "C42_no_nul_refuted"
   ],
   "note": "Relative to whatever inner_printf writes (any format incl. %n, any slices): first n-1 bytes and a NUL for n > 1 and non-empty output, full length returned, nothing stored for n <= 1, sprintf likewise; outputs below 2^31 bytes. Refuted: n = 1 and empty outputs leave no NUL. Floats are not modelled."
  },
  {
   "property": "C43",
   "status": "partial",
   "theorems": [
    "C43_printf_partial",
    "C43_quirks_refuted",
    "C43_zero_width_refuted",
    "C43_others_refuted"
   ],
   "note": "Formats of text, %% and d i u o x X b B s c with flags, width, precision, '*', length modifiers: the output is exactly the one the C standard prescribes, except for the combinations of no_quirk, each refuted by a concrete call. Not covered: positional arguments (modelled, unproved), floats, %p, %n, %m, wide conversions."
  },
  {
   "property": "C44",
   "status": "partial",
   "theorems": [
    "C44_scanf_partial",
    "C44_end_refuted",
    "C44_no_failure_refuted",
    "C44_sign_refuted",
    "C44_prefix_refuted",
    "C44_width_refuted",
    "C44_others_refuted",
    "C44_strings_refuted"
   ],
   "note": "Formats of ordinary characters, spaces, %%, d i u o x X with '*', width and length modifier, and %s %c %[ with '*' and width, on every ASCII input that matches them: values stored in order, nothing else changed, count returned. Excluded and refuted by concrete calls: input ending before the last directive, matching failures (none exist), signs, 0x with %x, 0x0 with %i, some widths. %n %p are modelled but not proved; floats are not modelled."
  },
  {
   "property": "C45",
   "status": "partial",
   "theorems": [
    "C45_getopt_partial",
    "C45_report",
    "C45_silent",
    "C45_colon_refuted",
    "C45_byte255_refuted",
    "C45_message_refuted"
   ],
   "note": "The whole history of calls equals the report of POSIX rules for every argument list of ASCII options (every such list has a report); no access beyond argc; opterr = 0 prints nothing. Refuted: ':' as an option letter, byte 0xFF, message although optstring begins with ':'. argv is a list of pointers; optind overflow not modelled."
  },
  {
   "property": "C46",
   "status": "partial",
   "theorems": [
    "C46_getopt_long_partial",
    "C46_exact_refuted",
    "C46_ambiguous_refuted",
    "C46_value_refuted",
    "C46_unknown_refuted",
    "C46_message_refuted"
   ],
   "note": "The whole history of calls, for names that begin no earlier table entry and select one, with values by = or next argument. Refuted: exact match after a longer entry, ambiguous prefix accepted, value for a no_argument option dropped, unknown long option read as letters, message with opterr = 0."
  },
  {
   "property": "C47",
   "status": "partial",
   "theorems": [
    "C47_ntop_partial",
    "C47_pton_partial",
    "C47_round_trip",
    "C47_aton_partial",
    "C47_addr_partial",
    "C47_small_refuted",
    "C47_plus_refuted",
    "C47_touched_refuted"
   ],
   "note": "inet_ntop writes the canonical text inside the buffer for size >= 16; inet_pton accepts exactly the dotted quads and inet_aton/inet_addr/inet_network exactly the one- to four-part forms, with the address they denote, for strings without '+'; the round trip is the identity. Refuted: buffers of 8..15 bytes, '+' signs, destination of a failed inet_pton. IPv6 not modelled."
  },
  {
   "property": "C48",
   "status": "proved",
   "theorems": [
    "C48_byte_order"
   ],
   "note": "All widths n, on a little-endian host (every relibc target); swap_bytes is modelled as reversing the n bytes."
  },
  {
   "property": "C49",
   "status": "proved",
   "theorems": [
    "C49_basename",
    "C49_dirname",
    "C49_null"
   ],
   "note": "Every path string; NULL separately. Static results are represented by their text."
  },
  {
   "property": "C50",
   "status": "partial",
   "theorems": [
    "C50_fnmatch_partial",
    "C50_period_partial",
    "C50_escape_refuted",
    "C50_pathname_refuted",
    "C50_period_refuted",
    "C50_bracket_refuted",
    "C50_overread_refuted"
   ],
   "note": "Decided exactly for patterns of literals, ?, *, bracket expressions with characters and ranges, with any flags except FNM_CASEFOLD, provided the pattern has no backslash, no negated bracket under FNM_PATHNAME, and the string has no period under FNM_PERIOD (or: with FNM_PERIOD and any string, the pattern has neither * nor a negated bracket); the excluded cases are refuted, as are ']' first and '-' last in brackets, and an over-read. The regular-expression crate (posix_regex) is external and trusted to decide a sequence of tokens."
  },
  {
   "property": "C51",
   "status": "proved",
   "theorems": [
    "C51_sigprocmask",
    "C51_delivery",
    "C51_query"
   ],
   "note": "sigprocmask / pthread_sigmask on Redox, all masks and states, arrivals between any two atomic accesses. Signals 33 and 34 are reserved by the library and never change; delivery itself (the trampoline) is not modelled, only that it is entered."
  },
  {
   "property": "C52",
   "status": "partial",
   "theorems": [
    "C52_disjoint_partial",
    "C52_partition",
    "C52_alloc_partial",
    "C52_size_refuted",
    "C52_align_refuted",
    "C52_offset_refuted",
    "C52_free_sized_refuted"
   ],
   "note": "Chunk pools: every history of allocations of at most the chunk size and frees by offset. Refuted: the requested size and alignment are ignored, offsets above 2^31 come back negative, redox_ring_free_buf_sized always frees offset 0. The Dynamic pool (external crate) is not modelled."
  },
  {
   "property": "C53",
   "status": "proved",
   "theorems": [
    "C53_ffs"
   ],
   "note": ""
  },
  {
   "property": "C54",
   "status": "partial",
   "theorems": [
    "C54_strtoumax_partial",
    "C54_strtoimax_refuted",
    "C54_strtoimax_partial"
   ],
   "note": "strtoumax as strtoull; strtoimax wraps values >= 2^63 (refuted), exact below."
  },
  {
   "property": "C55",
   "status": "proved",
   "theorems": [
    "C55_memalign",
    "C55_aligned_alloc",
    "C55_posix_memalign"
   ],
   "note": "dlmalloc is an arbitrary parameter."
  },
  {
   "property": "C56",
   "status": "partial",
   "theorems": [
    "C56_incomplete_partial",
    "C56_invalid_reported_incomplete_refuted",
    "C56_reads_beyond_n_refuted",
    "C56_mbsrtowcs",
    "C56_mbstowcs_count",
    "C56_mbsrtowcs_error_refuted",
    "C56_measure_keeps_source_refuted",
    "C56_wcsrtombs",
    "C56_wcsrtombs_error"
   ],
   "note": "Proved: truncated characters give -2, whole-string conversions in both directions, wcsrtombs errors. Refuted: invalid bytes reported as incomplete, mbrtowc(n=0) reads, mbsnrtowcs returns 1 on error, *src clobbered when dst is NULL."
  },
  {
   "property": "C57",
   "status": "partial",
   "theorems": [
    "C57_suspend_partial",
    "C57_timedwait_partial",
    "C57_timedwait_refuted",
    "C57_suspend_refuted",
    "C57_pwait_refuted"
   ],
   "note": "Restores the mask for sigsuspend/ppoll/pselect masks without SIGKILL and SIGSTOP and for sigwait sets containing both. Refuted otherwise: the restoring subtraction uses the requested set although SIGKILL and SIGSTOP were added to the stored one, so unrelated signals change. Sleeping and handlers are an arbitrary function that keeps the mask."
  },
  {
   "property": "C58",
   "status": "partial",
   "theorems": [
    "C58_handler_mask_partial",
    "C58_ucontext_refuted"
   ],
   "note": "The mask during and after the handler, every handler. Refuted: uc_sigmask holds the set of unblocked signals."
  },
  {
   "property": "C59",
   "status": "proved",
   "theorems": [
    "C59_sets",
    "C59_empty_full",
    "C59_sigpending"
   ],
   "note": "All functions; BitSet (external crate) is modelled as the bits of a u64."
  },
  {
   "property": "C60",
   "status": "partial",
   "theorems": [
    "C60_sigaction_partial",
    "C60_query",
    "C60_signal",
    "C60_resethand",
    "C60_nocldwait_refuted",
    "C60_default_refuted",
    "C60_siginterrupt_refuted"
   ],
   "note": "Dispositions of all signals, SIG_DFL, SIG_IGN and handlers below 2^57 with the flags SA_SIGINFO, SA_ONSTACK, SA_RESTART, SA_NODEFER, SA_RESETHAND, SA_NOCLDSTOP. Refuted: SA_NOCLDWAIT is dropped, flags given with SIG_DFL are not reported back, siginterrupt with a non-zero flag panics."
  },
  {
   "property": "C61",
   "status": "proved",
   "theorems": [
    "C61_hold",
    "C61_errors",
    "C61_sigset"
   ],
   "note": "All signals except the two reserved ones (33, 34)."
  },
  {
   "property": "C62",
   "status": "proved",
   "theorems": [
    "C62_exec"
   ],
   "note": "For every state reached by sigaction calls."
  },
  {
   "property": "C63",
   "status": "partial",
   "theorems": [
    "C63_wcslen",
    "C63_wcsnlen",
    "C63_wcschr",
    "C63_wcsrchr_partial",
    "C63_wcsrchr_refuted",
    "C63_wmemchr",
    "C63_wcsspn",
    "C63_wcscspn",
    "C63_wcspbrk",
    "C63_wcsstr",
    "C63_wcstok"
   ],
   "note": "All functions, every string. Refuted: wcsrchr(s, 0) returns NULL instead of the terminator; proved for every other character. Set and delimiter arguments have non-null addresses."
  },
  {
   "property": "C64",
   "status": "proved",
   "theorems": [
    "C64_wcscpy",
    "C64_wcpcpy",
    "C64_wcsncpy",
    "C64_wcpncpy",
    "C64_wcsncat",
    "C64_wcscat",
    "C64_wmemcpy",
    "C64_wmemmove",
    "C64_wmemset"
   ],
   "note": "All functions; wmemcpy and wmemmove for fewer than 2^62 characters (n * 4 wraps beyond)."
  },
  {
   "property": "C65",
   "status": "partial",
   "theorems": [
    "C65_wcsncmp_partial",
    "C65_wcscmp_partial",
    "C65_wcscoll_partial",
    "C65_wmemcmp_partial",
    "C65_wcscmp_refuted",
    "C65_wmemcmp_refuted"
   ],
   "note": "Proved for non-negative characters, which covers every Unicode character. Refuted for arbitrary wchar_t values: the difference wraps."
  },
  {
   "property": "C66",
   "status": "partial",
   "theorems": [
    "C66_select_partial",
    "C66_wait_partial",
    "C66_pselect_partial",
    "C66_file_count_refuted",
    "C66_hangup_refuted",
    "C66_foreign_refuted",
    "C66_many_refuted",
    "C66_failure_refuted",
    "C66_timeout_refuted"
   ],
   "note": "Proved for any epoll that succeeds, sets whose descriptors are open, each regular file in one set only, no urgent data, hang-ups and errors that also make reading possible, and at most 32 ready descriptors; the wait is the timeout rounded down to a millisecond, for at most 2147482 s. Refuted: file in two sets, hang-up, error bit in a set without the descriptor, 33 ready descriptors, sets on failure, rounding and long timeouts. epoll_create1 and the signal mask are not modelled."
  },
  {
   "property": "C67",
   "status": "partial",
   "theorems": [
    "C67_poll_partial",
    "C67_wait_partial",
    "C67_failure_refuted",
    "C67_closed_waits_refuted",
    "C67_many_refuted",
    "C67_timeout_refuted"
   ],
   "note": "Proved for any epoll that succeeds, distinct descriptors, no regular files, at most 32 answered entries; the wait for open descriptors, ppoll's rounded down. Refuted: duplicate descriptors, regular files, waiting in spite of a closed descriptor, 33 ready, ppoll timeouts."
  },
  {
   "property": "C68",
   "status": "partial",
   "theorems": [
    "C68_getpwnam_partial",
    "C68_getpwnam_r_partial",
    "C68_getpwuid_partial",
    "C68_getpwuid_r_partial",
    "C68_getpwent_partial",
    "C68_setpwent",
    "C68_large_id_refuted",
    "C68_malformed_refuted",
    "C68_range_refuted",
    "C68_stale_refuted",
    "C68_short_line_refuted"
   ],
   "note": "Proved for databases of well-formed lines (the last newline optional) with ids below 2^31, all of which fit the buffer. Refuted: ids of 2^31 and more, malformed, blank and comment lines, buffers too small for an earlier line and -1 instead of ERANGE, fields completed from old buffer contents, a shell pointer behind the box."
  },
  {
   "property": "C69",
   "status": "partial",
   "theorems": [
    "C69_getgrgid_partial",
    "C69_getgrgid_r_partial",
    "C69_getgrnam_partial",
    "C69_getgrnam_r_partial",
    "C69_getgrent_partial",
    "C69_setgrent",
    "C69_getgrouplist_partial",
    "C69_prefix_refuted",
    "C69_missing_refuted",
    "C69_range_refuted",
    "C69_large_id_refuted",
    "C69_malformed_refuted",
    "C69_getgrouplist_refuted"
   ],
   "note": "Proved for databases of well-formed UTF-8 lines with ids below 2^31, at most 4096 members, all of which fit the buffer; lookup by name when no group's name is a proper prefix or an extension of the one asked for; getgrnam_r when the group exists; getgrouplist without its second argument. Refuted: prefixes, getgrnam_r's result and errors, large ids, malformed lines, getgrouplist's missing group and panics."
  },
  {
   "property": "C70",
   "status": "partial",
   "theorems": [
    "C70_getspnam_partial",
    "C70_getspnam_r_partial",
    "C70_getspent",
    "C70_setspent",
    "C70_prefix_refuted",
    "C70_missing_refuted"
   ],
   "note": "getspent, setspent and endspent in full for well-formed files; getspnam and getspnam_r when every line that begins with the name is an entry for it (other lines may be anything), getspnam_r when the entry exists. Refuted: prefixes of names, ENOENT when there is no entry."
  },
  {
   "property": "C71",
   "status": "proved",
   "theorems": [
    "C71_create",
    "C71_create_progress",
    "C71_join_value",
    "C71_exit_value",
    "C71_join_progress",
    "C71_exit_progress",
    "C71_self_join"
   ],
   "note": "For every client that joins or detaches each thread at most once, after its creation has returned. Mapping and cloning succeed in the model; Redox."
  },
  {
   "property": "C72",
   "status": "partial",
   "theorems": [
    "C72_no_stale_use_partial",
    "C72_join_frees",
    "C72_detached_frees_partial",
    "C72_late_detach_refuted",
    "C72_registry_refuted",
    "C72_user_stack_refuted"
   ],
   "note": "No use after unmapping for clients that create no detached threads or do not call exit; unmapping on join in full, and at the end of a thread that was detached while running. Refuted: detaching after the end leaks, a detached thread that ends before it is registered is used by exit, caller-supplied stacks are unmapped."
  },
  {
   "property": "C73",
   "status": "partial",
   "theorems": [
    "C73_cancel_partial",
    "C73_cancel_returns",
    "C73_testcancel_partial",
    "C73_value",
    "C73_spared",
    "C73_disabled",
    "C73_own_state",
    "C73_setcancelstate_partial",
    "C73_initial_refuted",
    "C73_setcancelstate_refuted"
   ],
   "note": "pthread_testcancel and the states; blocking calls and asynchronous cancellation are not modelled. Refuted: cancellation is disabled at first; pthread_setcancelstate is a cancellation point."
  },
  {
   "property": "C74",
   "status": "partial",
   "theorems": [
    "C74_indicators_partial",
    "C74_clearerr",
    "C74_ungetc_refuted"
   ],
   "note": "For streams whose buffer is not changed after the first read, call by call, including getdelim, which rewrites all flags. Refuted: ungetc does not clear the end-of-file indicator."
  },
  {
   "property": "C75",
   "status": "partial",
   "theorems": [
    "C75_fork_partial",
    "C75_one_thread_partial",
    "C75_prepare_refuted",
    "C75_thread_refuted",
    "C75_failure_refuted"
   ],
   "note": "Proved: exactly the handlers registered by the forking thread run, once each, parent and child handlers in order. Refuted: prepare handlers run oldest first; handlers registered by other threads are ignored; when fork fails the parent handlers do not run."
  },
  {
   "property": "C76",
   "status": "partial",
   "theorems": [
    "C76_handlers_partial",
    "C76_cancel_refuted"
   ],
   "note": "For threads whose handlers pass no cancellation point; the linked list in the caller's frames is modelled. Refuted: a cancelled thread whose handler reaches a cancellation point starts over for ever."
  },
  {
   "property": "C77",
   "status": "partial",
   "theorems": [
    "C77_finalize_partial",
    "C77_thread_partial",
    "C77_nested_refuted",
    "C77_thread_nested_refuted"
   ],
   "note": "For functions that register nothing while they run. Refuted: __cxa_finalize spins for ever, and __cxa_thread_finalize panics, when they do. Not modelled: whether exit calls __cxa_finalize."
  },
  {
   "property": "C78",
   "status": "partial",
   "theorems": [
    "C78_timegm_partial",
    "C78_gmtime_partial",
    "C78_unique",
    "C78_gmtime_zone_refuted",
    "C78_overflow_refuted",
    "C78_normal_refuted"
   ],
   "note": "For members in range, and gmtime while the local zone is UTC; relative to chrono's calendar (Cal_model). Refuted: gmtime uses the local time zone; out of range it returns the buffer unchanged; timegm does not normalize (the second 60 included)."
  },
  {
   "property": "C79",
   "status": "partial",
   "theorems": [
    "C79_localtime_partial",
    "C79_mktime_partial",
    "C79_inverse_partial",
    "C79_half_hour_refuted",
    "C79_gap_refuted",
    "C79_normal_refuted",
    "C79_posix_refuted",
    "C79_timelocal_refuted"
   ],
   "note": "For members in range, local times that exist, and zones of the database whose daylight saving is at least an hour; relative to chrono-tz ([zone_ok]). Refuted: half-hour daylight saving; skipped local times; no normalization; POSIX TZ strings are taken for UTC; timelocal ignores tm_isdst."
  },
  {
   "property": "C80",
   "status": "proved",
   "theorems": [
    "C80_asctime",
    "C80_asctime_bounds"
   ],
   "note": ""
  },
  {
   "property": "C81",
   "status": "partial",
   "theorems": [
    "C81_tzset_partial",
    "C81_sign_refuted",
    "C81_quoted_refuted"
   ],
   "note": "Refuted: the sign of an offset with hour 0 is lost; names in angle brackets are not understood."
  },
  {
   "property": "C82",
   "status": "partial",
   "theorems": [
    "C82_position_partial",
    "C82_seek_clears",
    "C82_unget_refuted",
    "C82_append_refuted",
    "C82_sync_refuted",
    "C82_error_refuted"
   ],
   "note": "For files not opened to append, getc, fread, ungetc, clearerr, the writing calls, fflush, ftell and fseek except SEEK_CUR after ungetc, with no failing system call and off_t unbounded. Refuted: ftell in append mode with unwritten output; SEEK_CUR after ungetc; fflush of a stream being read does not move the offset; fseek clears the error indicator."
  },
  {
   "property": "C83",
   "status": "partial",
   "theorems": [
    "C83_lookup_partial",
    "C83_weak_refuted",
    "C83_binding_refuted"
   ],
   "note": "Global and weak symbols; if only weak definitions exist, one of them is found. Refuted: it is the last one, not the first; other bindings (STB_GNU_UNIQUE) reach unreachable!()."
  },
  {
   "property": "C84",
   "status": "partial",
   "theorems": [
    "C84_start_partial",
    "C84_dlopen_partial",
    "C84_cycle_refuted",
    "C84_name_refuted",
    "C84_order_refuted",
    "C84_fini_refuted",
    "C84_dlsym_refuted",
    "C84_fail_refuted"
   ],
   "note": "Which objects are loaded, that each is once, and the order of initializers, for acyclic DT_NEEDED graphs, files found under their SONAME, and states without dlclose after a dlopen with RTLD_GLOBAL. Refuted: cycles recurse without end; a name other than the SONAME loads the file again at each dlopen; scope order is depth first; finalizers run by object id; dlsym(handle) misses indirect dependencies (all, with RTLD_GLOBAL); a failed RTLD_GLOBAL dlopen leaves dead entries that make dlsym(RTLD_DEFAULT) panic. Not modelled: search paths, relocation, thread-local storage."
  },
  {
   "property": "C85",
   "status": "partial",
   "theorems": [
    "C85_handles_partial",
    "C85_close_partial",
    "C85_deps_partial",
    "C85_deps_refuted",
    "C85_noload_refuted"
   ],
   "note": "Handles, finalizers and unloading for every history over acyclic graphs and files named by SONAME; that dependencies stay loaded only without dlclose after RTLD_GLOBAL. Refuted: with RTLD_GLOBAL shared dependencies are unloaded while needed; RTLD_NOLOAD|RTLD_NOW panics."
  },
  {
   "property": "C86",
   "status": "proved",
   "theorems": [
    "C86_relr"
   ],
   "note": "64-bit words, non-overlapping; wrapping addition."
  },
  {
   "property": "C87",
   "status": "partial",
   "theorems": [
    "C87_thread_partial",
    "C87_create_partial",
    "C87_align_partial",
    "C87_offset_refuted",
    "C87_align_refuted"
   ],
   "note": "x86_64, dynamically linked programs: location, contents, disjointness, agreement of __tls_get_addr and TPOFF for the threads of a program without dlopen; alignment if it divides 16 and the sizes. Refuted: sizes that are no multiple of the alignment (also breaks the offsets of the static linker), alignment above 16."
  },
  {
   "property": "C88",
   "status": "partial",
   "theorems": [
    "C88_first_partial",
    "C88_other_refuted",
    "C88_later_refuted",
    "C88_create_refuted",
    "C88_failed_refuted"
   ],
   "note": "The first thread of the program, no failing dlopen, an allocator that gives fresh memory. Refuted: existing other threads get NULL; in threads created later, or that call dlopen before their first access, the blocks of different modules overlap; a large module makes pthread_create panic; a failed dlopen shifts module numbers, so the next module gets NULL."
  },
  {
   "property": "C89",
   "status": "partial",
   "theorems": [
    "C89_lnaof_partial",
    "C89_makeaddr_partial",
    "C89_netof_refuted",
    "C89_order_refuted"
   ],
   "note": "inet_lnaof and inet_makeaddr, if s_addr is read as a number in host byte order. Refuted: inet_netof returns the local part; the byte order of s_addr on little-endian hosts."
  },
  {
   "property": "C90",
   "status": "proved",
   "theorems": [
    "C90_getsubopt"
   ],
   "note": "The key list and the pointers *optionp and *valuep are values; keys must not overlap the option string."
  },
  {
   "property": "C91",
   "status": "proved",
   "theorems": [
    "C91_fopen",
    "C91_invalid"
   ],
   "note": "Over a small model of files and descriptors (no permissions, directories or I/O errors)."
  },
  {
   "property": "C92",
   "status": "partial",
   "theorems": [
    "C92_freopen_partial",
    "C92_append_refuted",
    "C92_input_refuted",
    "C92_cloexec_refuted"
   ],
   "note": "Modes r and w without e, streams without unread input. Refuted: mode a (O_APPEND is cleared), unread buffered input of the old file, mode e."
  },
  {
   "property": "C93",
   "status": "partial",
   "theorems": [
    "C93_exit_partial",
    "C93_other_refuted"
   ],
   "note": "stdout and stderr. Refuted: every other stream."
  },
  {
   "property": "C94",
   "status": "partial",
   "theorems": [
    "C94_getcwd_partial",
    "C94_getcwd_null_partial",
    "C94_gethostname",
    "C94_ttyname_partial",
    "C94_realpath",
    "C94_getcwd_exact_refuted",
    "C94_getcwd_zero_refuted",
    "C94_getcwd_long_refuted",
    "C94_ttyname_refuted"
   ],
   "note": "gethostname and realpath in full; getcwd except for size = length of the path, size 0 and paths of PATH_MAX bytes with a null buffer; ttyname_r if the name fits. The rest is refuted. The names themselves are parameters."
  },
  {
   "property": "C95",
   "status": "partial",
   "theorems": [
    "C95_readdir_partial",
    "C95_error_refuted"
   ],
   "note": "For a kernel whose getdents fails only with EINVAL for a buffer that is too small. Refuted: after any other failure readdir fails with EIO until the stream is repositioned. Records are not bytes in the model."
  },
  {
   "property": "C96",
   "status": "partial",
   "theorems": [
    "C96_scandir_partial",
    "C96_error",
    "C96_errno_refuted"
   ],
   "note": "For filters that leave errno at 0; refuted otherwise. qsort is a parameter (C18)."
  },
  {
   "property": "C97",
   "status": "partial",
   "theorems": [
    "C97_glob_partial",
    "C97_period_refuted",
    "C97_dots_refuted",
    "C97_slash_refuted",
    "C97_err_refuted"
   ],
   "note": "Patterns of components other than . and .. without escapes, names without leading period, without GLOB_ERR and error function, composed with the model of fnmatch of C50. Refuted: GLOB_PERIOD is inverted, components . and .., the pattern /, trailing slash, GLOB_ERR. Not covered: GLOB_NOSPACE, globfree."
  },
  {
   "property": "C98",
   "status": "partial",
   "theorems": [
    "C98_search_partial",
    "C98_slash",
    "C98_execl",
    "C98_empty_refuted",
    "C98_colon_refuted",
    "C98_shell_refuted"
   ],
   "note": "execv is an arbitrary function of the pathname. Refuted: an empty prefix means the root directory, names with a colon are not searched for on Redox, no shell for files of unknown format. ENOENT without PATH."
  },
  {
   "property": "C99",
   "status": "partial",
   "theorems": [
    "C99_execve_partial",
    "C99_tab_refuted",
    "C99_line_refuted",
    "C99_eof_refuted",
    "C99_ids_refuted",
    "C99_errno_refuted"
   ],
   "note": "Contents and modes of the files are arbitrary; reads are not short. Refuted: tab after the interpreter, empty first line, end of file instead of end of line, real instead of effective ids, EPERM and ENOENT instead of the due errors. Supplementary groups are ignored by the code. What fexec_impl does with the image is not modelled."
  },
  {
   "property": "C100",
   "status": "partial",
   "theorems": [
    "C100_actions_partial",
    "C100_negative",
    "C100_copied_refuted",
    "C100_dup2_refuted",
    "C100_fchdir_refuted",
    "C100_chdir_refuted",
    "C100_cloexec_refuted"
   ],
   "note": "Opening a path and the path of a directory are arbitrary functions; the kernel's table verbs are taken to do what they say. Refuted: paths are not copied, O_CLOEXEC is dropped, open and dup2 onto a descriptor close-on-exec in the parent, fchdir to a descriptor opened by the actions, relative chdir. Failing actions are modelled but nothing is proved of them."
  },
  {
   "property": "C101",
   "status": "partial",
   "theorems": [
    "C101_attributes_partial",
    "C101_spawnp_partial",
    "C101_both_refuted",
    "C101_sigdef_refuted",
    "C101_pgroup_refuted",
    "C101_priority_refuted",
    "C101_caller_refuted",
    "C101_setuid_refuted",
    "C101_argv_refuted"
   ],
   "note": "Proved for no flags, RESETIDS alone and SETSIGMASK alone. Refuted: SETSIGDEF (value 3) resets the ids and not the signals, SETSIGDEF|SETSIGMASK panics, SETPGROUP and SETSCHEDPARAM name a process by a descriptor number, the caller's cached ids change, set-user-ID is ignored without attributes, argv[0] is replaced."
  },
  {
   "property": "C102",
   "status": "partial",
   "theorems": [
    "C102_descriptors_partial",
    "C102_dup2_refuted",
    "C102_same_refuted",
    "C102_minimum_refuted"
   ],
   "note": "Descriptors are naturals; the upper table and running out of descriptors are left out, resizing the kernel's table is taken to succeed, the kernel's calls to do what they are called. Refuted: a failing dup2 marks its target free, dup2 of a descriptor onto itself clears close-on-exec, F_DUPFD ignores its minimum."
  },
  {
   "property": "C103",
   "status": "partial",
   "theorems": [
    "C103_readv",
    "C103_writev",
    "C103_count",
    "C103_negative_refuted"
   ],
   "note": "What the file gives is arbitrary. Refuted: writev on a negative descriptor answers EBADFD. That the bytes beyond those read are written back unchanged is not visible here, only to another thread."
  },
  {
   "property": "C104",
   "status": "partial",
   "theorems": [
    "C104_setlk_partial",
    "C104_getlk_partial",
    "C104_whence_refuted",
    "C104_lockf_refuted",
    "C104_start_refuted",
    "C104_ofd_refuted",
    "C104_flock_refuted"
   ],
   "note": "What the file system answers is arbitrary; a length of 0 means to the end to it. Proved for SEEK_SET, and F_GETLK only if the lock begins with the section. Refuted: SEEK_CUR, SEEK_END and lockf mean the whole file, F_GETLK reports the start of the request, F_OFD_GETLK a negative one, flock does nothing. F_SETLKW is not implemented."
  },
  {
   "property": "C105",
   "status": "partial",
   "theorems": [
    "C105_query_partial",
    "C105_numeric",
    "C105_four_labels_refuted",
    "C105_trailing_dot_refuted",
    "C105_long_label_refuted"
   ],
   "note": "The socket calls are left out: the response is an arbitrary function of the query. The name is not limited to 255 bytes. Refuted: a name of four labels is taken for the address 0.0.0.0, a trailing dot gives a malformed question, a label of 64 bytes is sent."
  },
  {
   "property": "C106",
   "status": "partial",
   "theorems": [
    "C106_addresses_partial",
    "C106_parse_partial",
    "C106_safe",
    "C106_loop_refuted",
    "C106_compression_refuted",
    "C106_unrelated_refuted"
   ],
   "note": "Proved for messages whose names are either without pointer or nothing but a pointer to a name that ends before it, and whatever the identifier and the record's owner. Fuel stands for time. Refuted: a pointer to itself loops for ever, labels before a pointer lose the place in the message, the identifier and owner are not looked at."
  },
  {
   "property": "C107",
   "status": "partial",
   "theorems": [
    "C107_query",
    "C107_names_partial",
    "C107_crash_refuted",
    "C107_compressed_refuted"
   ],
   "note": "Names without pointers; otherwise as C106. Refuted: a length beyond the record crashes, a pointer gives the empty name."
  },
  {
   "property": "C108",
   "status": "partial",
   "theorems": [
    "C108_scan_partial",
    "C108_name_partial",
    "C108_number_partial",
    "C108_rewind_refuted",
    "C108_stayopen_refuted",
    "C108_newline_refuted",
    "C108_close_refuted",
    "C108_comment_refuted",
    "C108_crash_refuted"
   ],
   "note": "Bytes count as ASCII; reading does not fail; what the freed alias vector points to is an argument of the model. Proved for files whose lines all end in a newline and whose comments have lines of their own, and the searches for states after which setprotoent rewinds, which they themselves leave. Refuted: setprotoent does not rewind after getprotoent has closed the file, getprotobyname never ends after setprotoent(1), a last line without newline comes for ever, endprotoent closes descriptor 0, words of comments are aliases, an entry of one word crashes."
  },
  {
   "property": "C109",
   "status": "partial",
   "theorems": [
    "C109_scan_partial",
    "C109_name_partial",
    "C109_port_partial",
    "C109_alias_refuted",
    "C109_comment_refuted",
    "C109_hang_refuted"
   ],
   "note": "As C108, and no comment has a second word with a slash. Refuted: aliases are ignored, services commented out are found, a last line without newline hangs."
  },
  {
   "property": "C110",
   "status": "partial",
   "theorems": [
    "C110_scan_partial",
    "C110_name_partial",
    "C110_addr_partial",
    "C110_terminator_refuted",
    "C110_ipv6_refuted"
   ],
   "note": "As C108, addresses without '+'. What an uninitialised address holds is an argument. gethostbyaddr when the file lacks the address is C107. Refuted: the name got from the name server is not terminated, IPv6 lines have an arbitrary address."
  },
  {
   "property": "C111",
   "status": "partial",
   "theorems": [
    "C111_numeric_partial",
    "C111_null_partial",
    "C111_names_partial",
    "C111_numerichost_partial",
    "C111_fails_partial",
    "C111_service_refuted",
    "C111_family_refuted",
    "C111_empty_refuted",
    "C111_numerichost_refuted"
   ],
   "note": "Allocation does not fail; the name server is an argument of the model, with the responses of C106. Proved for numeric and null nodes, for names asked for, for services that are numbers. Refuted: names of services give port 0, the family of the hints is ignored, an answer without addresses is a success with a null list, AI_NUMERICHOST takes any four labels for 0.0.0.0. /etc/hosts is not read."
  },
  {
   "property": "C112",
   "status": "partial",
   "theorems": [
    "C112_free_partial",
    "C112_leak_refuted"
   ],
   "note": "Every call but those with a null node and AI_CANONNAME, which leaks a sockaddr (refuted). Allocation gives blocks that are not in use and does not fail."
  },
  {
   "property": "C113",
   "status": "partial",
   "theorems": [
    "C113_bounds",
    "C113_numeric_partial",
    "C113_name_partial",
    "C113_fallback_partial",
    "C113_errors_partial",
    "C113_exact_refuted",
    "C113_untouched_refuted",
    "C113_service_refuted"
   ],
   "note": "C113_bounds holds for all arguments and responses (a response may still end the program, C107). Proved for numeric hosts and for names with one byte of room to spare, with numeric services. Refuted: the buffer that just fits is refused, with EAI_MEMORY; without a name the buffer is left as it was; names of services are not looked up."
  },
  {
   "property": "C114",
   "status": "partial",
   "theorems": [
    "C114_mkostemps_partial",
    "C114_created_partial",
    "C114_mkdtemp_partial",
    "C114_template_partial",
    "C114_errno_refuted",
    "C114_suffix_refuted"
   ],
   "note": "For any sequence of letters and digits (what the generator of the rand crate draws), any file system, templates below 2^31 bytes. Refuted: every failure is reported as EEXIST after a hundred attempts; negative lengths of the suffix write behind the template."
  },
  {
   "property": "C115",
   "status": "partial",
   "theorems": [
    "C115_tmpnam_partial",
    "C115_overrun_refuted",
    "C115_tempnam_partial",
    "C115_tmpfile_partial"
   ],
   "note": "tmpnam with L_tmpnam + 1 bytes; access as an arbitrary function. Refuted: an array of L_tmpnam (7) bytes is overrun by one. fdopen in tmpfile is not modelled."
  },
  {
   "property": "C116",
   "status": "partial",
   "theorems": [
    "C116_asprintf_partial",
    "C116_refused_partial",
    "C116_memory_refuted"
   ],
   "note": "Relative to what printf prints (C43), outputs below 2^31 bytes, an allocator that has memory. Refuted: without memory the program panics. A format that is refused gives -1 and an empty string."
  },
  {
   "property": "C117",
   "status": "partial",
   "theorems": [
    "C117_wcstol_partial",
    "C117_wcstoul_partial",
    "C117_range_partial",
    "C117_none_partial",
    "C117_overflow_refuted",
    "C117_no_digits_refuted",
    "C117_bare_0x_refuted",
    "C117_base_refuted"
   ],
   "note": "All numbers in range, in every base, LONG_MIN included, with the right end; out of range errno is ERANGE and the unsigned value is right. Refuted: out of range the signed functions return -1 and none stores the end; without digits the end is after the sign; a bare 0x is consumed; an invalid base panics."
  },
  {
   "property": "C118",
   "status": "partial",
   "theorems": [
    "C118_decimal_partial",
    "C118_decimal_float_partial",
    "C118_hexadecimal_partial",
    "C118_hexadecimal_float_partial",
    "C118_special_partial",
    "C118_negative_exponent_refuted",
    "C118_fraction_refuted",
    "C118_exponent_refuted",
    "C118_end_refuted"
   ],
   "note": "Decimal: integers up to 2^53 with exponents 0 to 22 (float: 2^24, 10) are correctly rounded; hexadecimal: exact with fraction and exponent up to 127 when the digits fit the precision; inf and nan. Flocq's binary64/binary32 is the arithmetic. Refuted: fractions (0.12), negative exponents (3e-1), exponents from 39 on (the power wraps in a u128: 1e128 is 0, 1e-128 infinite), infinity, nan(1), 0X, no digits."
  },
  {
   "property": "C119",
   "status": "partial",
   "theorems": [
    "C119_wcstod_partial",
    "C119_syntax_refuted",
    "C119_fraction_refuted"
   ],
   "note": "Integers up to 2^53 without a plus sign. Refuted: plus sign, exponent, hexadecimal, infinity, -0, fractions (0.3)."
  },
  {
   "property": "C120",
   "status": "partial",
   "theorems": [
    "C120_total",
    "C120_fgetwc_partial",
    "C120_weof_partial",
    "C120_fgetws_partial",
    "C120_ungetwc_partial",
    "C120_ungetwc_illegal",
    "C120_orientation_refuted",
    "C120_malformed_refuted",
    "C120_fgetws_sticky_refuted",
    "C120_fwide"
   ],
   "note": "On streams not oriented wide: fgetwc, fgetws and ungetwc for all files, buffers, short reads and sequences of calls. Refuted: on a stream oriented wide every read is WEOF at once; malformed bytes are read as character 0 without the error indicator; a character cut off by the end is a plain end; fgetws returns NULL for a line read while the error indicator was set before."
  },
  {
   "property": "C121",
   "status": "partial",
   "theorems": [
    "C121_fputwc_partial",
    "C121_fputws_partial",
    "C121_round_trip_partial",
    "C121_orientation_refuted",
    "C121_illegal_refuted",
    "C121_write_error_refuted"
   ],
   "note": "On streams not oriented wide and without failing writes: fputwc, fputws for all strings, buffering modes and short writes, and the round trip through a file. Refuted: on a stream oriented wide nothing is written and success reported; a value that is no character is written as four NULs; a failing write is not reported."
  },
  {
   "property": "C122",
   "status": "proved",
   "theorems": [
    "C122_total",
    "C122_inside",
    "C122_apart",
    "C122_outside",
    "C122_ascii",
    "C122_names",
    "C122_unknown"
   ],
   "note": ""
  },
  {
   "property": "C123",
   "status": "proved",
   "theorems": [
    "C123_unicode",
    "C123_idempotent",
    "C123_cased",
    "C123_trans"
   ],
   "note": ""
  },
  {
   "property": "C124",
   "status": "proved",
   "theorems": [
    "C124_wcscasecmp",
    "C124_wcsncasecmp"
   ],
   "note": ""
  },
  {
   "property": "C125",
   "status": "partial",
   "theorems": [
    "C125_wcswidth_partial",
    "C125_terminator_refuted"
   ],
   "note": "Proved for n equal to the number of characters. Refuted otherwise: the loop over 0..n does not look for the terminator, so wcswidth(L\"a\", 9) adds the terminator's width, reads past the array or returns -1."
  },
  {
   "property": "C126",
   "status": "partial",
   "theorems": [
    "C126_upper_partial",
    "C126_kernel",
    "C126_start",
    "C126_reuse_partial",
    "C126_reuse_refuted",
    "C126_bulk_remove_refuted",
    "C126_insert_at_refuted"
   ],
   "note": "Proved for insert_upper, override_at, bulk_insert (both kinds), remove, get_fd_flags, set_fd_flags and from_binary_fd over every reachable table. Refuted: free slots are forgotten once slot 65536 is closed, bulk_remove panics on tagged handles, insert_at_upper counts an overwritten descriptor twice. The kernel is taken to answer EINVAL only when its table has the size already."
  },
  {
   "property": "C127",
   "status": "partial",
   "theorems": [
    "C127_main_partial",
    "C127_argv0_refuted",
    "C127_environ",
    "C127_auxv"
   ],
   "note": "Proved for every first argument that does not end with a slash; one that does is cut in place by basename (refuted). Modelled: Stack, copy_string_array, the argv, name and environ part of relibc_start_v1, get_auxv_raw. Not modelled: thread setup, constructors, get_auxvs' sort."
  },
  {
   "property": "C128",
   "status": "partial",
   "theorems": [
    "C128_history_partial",
    "C128_codes",
    "C128_guard_refuted",
    "C128_create_partial",
    "C128_stack_end_refuted",
    "C128_unmap_refuted",
    "C128_getattr"
   ],
   "note": "Proved for guard sizes below 2^31 and for stacks of the caller of whole pages. Refuted: larger guard sizes (the setter takes an int), words written past a caller's stack of another size, a caller's stack unmapped when clone fails. Not modelled: that no guard area is ever made (read), the new thread's own steps (C71)."
  },
  {
   "property": "C129",
   "status": "partial",
   "theorems": [
    "C129_open_partial",
    "C129_openat_partial",
    "C129_loop_partial",
    "C129_relative_refuted"
   ],
   "note": "Proved except for a first link that is relative and not in the current directory (or dirfd), which is refuted: its target is seen from there. The scheme is an oracle that answers EXDEV for a link; the canonicalisation of the crate redox_path is taken to be the textual one of the specification."
  },
  {
   "property": "C130",
   "status": "partial",
   "theorems": [
    "C130_fallocate_partial",
    "C130_shrinks_refuted"
   ],
   "note": "Proved when nobody else changes the size of the file meanwhile. Refuted: bytes appended by another process between fstat and ftruncate are cut off (the lock taken is a no-op on Redox). Content beyond sizes is the kernel's ftruncate, taken to zero-extend."
  },
  {
   "property": "C131",
   "status": "proved",
   "theorems": [
    "C131_all",
    "C131_error",
    "C131_total"
   ],
   "note": "Over every directory whose positions are below 2^63 and record lengths below 2^16; the kernel's getdents and lseek are parameters. The layout of DirentHeader is that of the crate redox_syscall."
  },
  {
   "property": "C132",
   "status": "partial",
   "theorems": [
    "C132_bounds",
    "C132_text_partial",
    "C132_grouping_refuted",
    "C132_left_precision_partial",
    "C132_left_precision_refuted",
    "C132_flags_refuted",
    "C132_utf8_refuted"
   ],
   "note": "The bounds are proved for all formats. The text is proved for formats of ASCII characters and conversions %[+!][width][.precision]i or n, amounts whose integer part has at most three digits or a multiple of three. Refuted: grouping counts from the left (1234 is 123,4), the flags ( - = and #, characters outside ASCII. The rounding of the double is a parameter (integer part and fraction)."
  },
  {
   "property": "C133",
   "status": "partial",
   "theorems": [
    "C133_message_partial",
    "C133_trailing_refuted"
   ],
   "note": "Proved for severities 0 to 4 and every value of MSGVERB but a list followed by a colon, which is refuted: it selects the list instead of all components. The dprintf and open calls are parameters."
  },
  {
   "property": "C134",
   "status": "partial",
   "theorems": [
    "C134_setlogmask",
    "C134_stderr_partial",
    "C134_records_partial",
    "C134_lost_refuted",
    "C134_facility_filter_refuted",
    "C134_default_facility_refuted",
    "C134_nul_refuted"
   ],
   "note": "setlogmask is proved over every history with masks and facilities below 1024. Standard error is proved over histories with facilities that are multiples of 32; the bytes sent or buffered, NULs apart, are the records of the messages in order while no closelog or openlog(LOG_NDELAY) drops the buffer. Refuted: messages arrive in the log (the BufWriter is never flushed and has no Drop), the filter for other facilities, the default facility, records without NUL bytes. The log device takes every write; identities are UTF-8."
  },
  {
   "property": "C135",
   "status": "partial",
   "theorems": [
    "C135_success",
    "C135_exclusion",
    "C135_recursive",
    "C135_busy_refuted",
    "C135_timedout_refuted",
    "C135_reasons_refuted",
    "C135_join_partial",
    "C135_exit",
    "C135_join_null",
    "C135_join_fails",
    "C135_join_overwrites_refuted",
    "C135_sleep_refuted"
   ],
   "note": "thrd_success exactly on success, exclusion and recursive relocking (over every interleaving of the pthread mutex model of C30), thrd_exit and thrd_join values are proved. Refuted: thrd_busy, thrd_timedout and thrd_nomem are never returned (errno is looked at, which the pthread functions do not set), thrd_join stores eight bytes, thrd_sleep panics. Condition variables, keys and call_once themselves are in C31, C38 and C35."
  },
  {
   "property": "C136",
   "status": "partial",
   "theorems": [
    "C136_bind_connect",
    "C136_errors",
    "C136_inet_name_partial",
    "C136_unix_name_partial",
    "C136_bind_path",
    "C136_connect_path_partial",
    "C136_inet_length_refuted",
    "C136_unix_overrun_refuted",
    "C136_beyond_refuted"
   ],
   "note": "Proved for IPv4 (whole path from sockaddr_in to the text given to the network stack, and from the name text back to memory) and for AF_UNIX names that fit the caller's buffer. Refuted: the reported length of an IPv4 address cut, AF_UNIX names are written beyond the buffer, connect reads the path beyond the given length, bind with a length below 2. The kernel calls and the texts of fpath and GetPeerName are parameters; a name that is not of the form address:port makes the code panic and is outside the theorem."
  },
  {
   "property": "C137",
   "status": "partial",
   "theorems": [
    "C137_send_partial",
    "C137_receive_partial",
    "C137_name_ignored_refuted",
    "C137_no_ctrunc_refuted",
    "C137_lost_refuted",
    "C137_stale_refuted",
    "C137_no_areas_refuted"
   ],
   "note": "Proved: the stream and the queue of descriptors of sendmsg for messages with at least one area; recvmsg for streams without a source address into any areas and any non-empty control buffer, with frame. Refuted: msg_name of sendmsg is ignored, no MSG_CTRUNC without control buffer, descriptors of a message that does not fit are lost, a refused message leaves its descriptors for the next one, a message without areas lacks the length of its data. Only SCM_RIGHTS messages are covered by the positive theorems (SCM_CREDENTIALS is modelled). The scheme is a parameter: it passes streams and descriptors in order."
  },
  {
   "property": "C138",
   "status": "partial",
   "theorems": [
    "C138_create",
    "C138_runs_partial",
    "C138_gettime_partial",
    "C138_delete",
    "C138_unknown",
    "C138_disarm_refuted",
    "C138_rearm_refuted",
    "C138_lost_refuted",
    "C138_start_race_refuted",
    "C138_disarmed_shown_refuted",
    "C138_remaining_refuted",
    "C138_drift_refuted",
    "C138_queue_full_refuted",
    "C138_arguments_refuted"
   ],
   "note": "Proved over all interleavings of calls, clock ticks and thread steps: creation, deletion (no later notification) and unknown timers in full; for a timer that rests when it is armed, every run notifies once per expiry and on time, with progress, and timer_gettime is exact unless the nanoseconds borrow. Refuted: disarming a periodic timer, arming anew a timer that runs (old time kept, new one lost), disarm before the thread starts, timer_gettime of a disarmed timer and with a borrow, drift of the intervals, a failing sigqueue, real-time signals but the first and nanoseconds out of range. The kernel's timers and event queues are modelled as stated in Timer_model.v."
  },
  {
   "property": "C139",
   "status": "partial",
   "theorems": [
    "C139_alarm_partial",
    "C139_cancelled_refuted",
    "C139_replaced_refuted",
    "C139_lost_refuted"
   ],
   "note": "Proved: an alarm set when none is outstanding comes once, on time, with progress, and the next call returns the seconds left rounded up (or 0), over all interleavings. Refuted: an alarm that was cancelled is still reported, a replaced alarm comes at the old time and the new one not, and after alarm(0) the next alarm is lost. ualarm does nothing on Redox (setitimer is not implemented)."
  },
  {
   "property": "C140",
   "status": "partial",
   "theorems": [
    "C140_wait_partial",
    "C140_timeout_partial",
    "C140_interest_partial",
    "C140_arguments",
    "C140_errors",
    "C140_exist_refuted",
    "C140_flags_refuted",
    "C140_stale_refuted"
   ],
   "note": "Proved: the rewriting in place of any records delivered (order, conditions, word, count, nothing outside), the interest list after any sequence of calls that are in order with EPOLLIN and EPOLLOUT, the time of return when no timeout of an earlier call is left, and the refused arguments. Refuted: EEXIST (for every kernel: add and modify write the same record), EPOLLONESHOT, EPOLLET and EPOLLPRI, and a timeout left by a call that returned early. The kernel's event queue (last record counts, timeouts stay until read) is an assumption stated in Epoll_model.v; the wait under a signal mask is C57."
  },
  {
   "property": "C141",
   "status": "partial",
   "theorems": [
    "C141_share_partial",
    "C141_progress_partial",
    "C141_key_refuted",
    "C141_private_refuted",
    "C141_readonly_refuted",
    "C141_existing",
    "C141_unknown"
   ],
   "note": "Proved for a segment created by the process, over every sequence of attaching, storing and detaching: all attachments read the same bytes, each step is possible, and detaching takes away that attachment alone. Refuted: finding a segment by its key (for all keys and flags, the name is unlinked by shmget itself), IPC_PRIVATE without IPC_CREAT, and SHM_RDONLY (for every segment, shmat stores its header and faults). The shm scheme and shared mappings are assumptions stated in Sysvshm_model.v; shmctl is not modelled."
  },
  {
   "property": "C142",
   "status": "partial",
   "theorems": [
    "C142_set_get_partial",
    "C142_errors",
    "C142_nice_errors",
    "C142_nice",
    "C142_groups_refuted"
   ],
   "note": "Proved: set, get, nice and errors for processes. Refuted: PRIO_PGRP and PRIO_USER, which are refused with EINVAL."
  },
  {
   "property": "C143",
   "status": "proved",
   "theorems": [
    "C143_swab",
    "C143_none"
   ],
   "note": ""
  },
  {
   "property": "C144",
   "status": "partial",
   "theorems": [
    "C144_sleep",
    "C144_usleep",
    "C144_nanosleep_partial",
    "C144_errors",
    "C144_range_refuted"
   ],
   "note": "Proved: sleep and usleep in full and nanosleep for valid requests, for any kernel that sleeps as asked or is interrupted. Refuted: nanoseconds are cut to 32 bits before the kernel sees them, so 2^32 is taken for 0. clock_nanosleep is unimplemented in the code."
  },
  {
   "property": "C145",
   "status": "partial",
   "theorems": [
    "C145_macros",
    "C145_reported",
    "C145_results",
    "C145_options",
    "C145_nohang_partial",
    "C145_returns",
    "C145_others_partial",
    "C145_nohang_refuted",
    "C145_stop_lost_refuted",
    "C145_eintr_refuted"
   ],
   "note": "Proved: what is reported is true, of a child meant and of a kind asked for; results and errors; the macros; invalid options; the call returns when a child meant has ended. Partial: WNOHANG and the reports of the other children, for WUNTRACED or without stopped children. Refuted otherwise: waitpid(pid, .., WNOHANG) on a stopped child never returns (for every child and signal), the report of a stop is lost by waiting for something else, EINTR is lost after a stop. The process manager is an assumption stated in Waitpid_model.v; ptrace is left out."
  },
  {
   "property": "C146",
   "status": "partial",
   "theorems": [
    "C146_mode",
    "C146_open_partial",
    "C146_pclose_partial",
    "C146_pclose_returns",
    "C146_pclose_other",
    "C146_system_partial",
    "C146_closed_refuted",
    "C146_earlier_refuted",
    "C146_leak_refuted",
    "C146_eintr_refuted",
    "C146_twice_refuted"
   ],
   "note": "Proved: the modes; the tables of caller and command when 0 and 1 are open in the caller; what pclose and system return and that pclose returns once the command has ended; streams that are not of popen. Refuted: with 0 or 1 closed in the caller the command has no standard input or output (for all such tables), streams of earlier calls stay open in the command, both ends of the pipe are left when fork fails, a handler without SA_RESTART ends pclose and system with EINTR, unwritten output is written twice when the shell cannot be run. Signals SIGINT, SIGQUIT and SIGCHLD, which system should ignore and block, are not modelled; the code does neither."
  },
  {
   "property": "C147",
   "status": "partial",
   "theorems": [
    "C147_ptsname_r",
    "C147_ptsname_errors",
    "C147_ptsname",
    "C147_openpty_partial",
    "C147_openpty_errors",
    "C147_name_refuted",
    "C147_login",
    "C147_forkpty_partial"
   ],
   "note": "Proved: ptsname_r and ptsname in full, login_tty, openpty when the name can be had, forkpty for every table of the caller and every failure. Refuted: openpty takes no notice of the positive error of ptsname_r and opens what the caller's buffer held before. The controlling terminal is not modelled: ioctl TIOCSCTTY does nothing in the code."
  },
  {
   "property": "C148",
   "status": "partial",
   "theorems": [
    "C148_raw",
    "C148_attr_partial",
    "C148_size",
    "C148_pgrp_partial",
    "C148_told",
    "C148_arguments",
    "C148_nonblock",
    "C148_actions_refuted",
    "C148_speed_refuted",
    "C148_pgrp_refuted"
   ],
   "note": "Proved: cfmakeraw bit by bit for all structures, attributes, size and process group got as set, the requests sent to the terminal, refusals and EINVAL, FIONBIO. Refuted: TCSADRAIN and TCSAFLUSH are the same as TCSANOW for every terminal, no speed can be set and 0 is got, tcsetpgrp returns the process group. Assumed: the driver keeps what was written last. tcgetsid is not modelled."
  },
  {
   "property": "C149",
   "status": "partial",
   "theorems": [
    "C149_strerror",
    "C149_strerror_known",
    "C149_strerror_unknown",
    "C149_threads_refuted",
    "C149_strsignal",
    "C149_psignal_partial",
    "C149_psignal_refuted",
    "C149_perror_partial",
    "C149_perror_unknown_refuted",
    "C149_perror_prefix_refuted",
    "C149_warn",
    "C149_err_partial",
    "C149_file",
    "C149_callback_refuted"
   ],
   "note": "Proved: strerror for all ints (texts of 28 named errors, the number in the text of unknown ones, nothing cut off by STRERROR_MAX), strsignal, psignal with no or a non-empty prefix, perror for known errors and UTF-8 prefixes when write takes all bytes, the six err.h functions and err_set_file. Refuted: strerror_r goes through the buffer all threads share; psignal with an empty prefix writes the colon; perror's text for unknown errors is not strerror's, and it leaves out a prefix that is not UTF-8; the function set by err_set_exit gets the error instead of the exit status. Assumed: what vfprintf prints, is UTF-8 or not."
  },
  {
   "property": "C150",
   "status": "partial",
   "theorems": [
    "C150_initially",
    "C150_setlocale_partial",
    "C150_query",
    "C150_file_partial",
    "C150_uselocale",
    "C150_duplocale_partial",
    "C150_newlocale_partial",
    "C150_newlocale_fails",
    "C150_decimal_point_refuted",
    "C150_all_refuted",
    "C150_frac_digits_refuted",
    "C150_base_refuted",
    "C150_global_refuted",
    "C150_blank_refuted"
   ],
   "note": "Proved: the initial values, setlocale for all categories except for frac_digits, the names got back, definition files whose values have no blanks (last value of each keyword, values continued after backslashes, other keywords, strings, groupings, numbers), uselocale and localeconv, duplocale of a locale and freelocale, newlocale on a base except for frac_digits. Refuted: the C locale of setlocale and newlocale has no decimal point; after setlocale(LC_ALL) the other categories keep their old names; frac_digits is set with LC_NUMERIC; newlocale with no base ignores the mask; duplocale of the global locale gives the C locale; values with blanks are cut. The pointers in lconv are modelled by what they point to."
  },
  {
   "property": "C151",
   "status": "partial",
   "theorems": [
    "C151_md5_partial",
    "C151_sha_partial",
    "C151_rounds_partial",
    "C151_argon2",
    "C151_scrypt_refuted",
    "C151_pbkdf2_refuted",
    "C151_blowfish_refuted",
    "C151_crash_refuted",
    "C151_letters_refuted"
   ],
   "note": "Proved, for ASCII settings and any hash functions whose texts are ASCII and as long as those of MD5 and SHA: MD5, SHA-256 and SHA-512 with and without rounds (stored rounds are the clamped ones and read back), and Argon2 settings that fit. Refuted: no scrypt or PBKDF2 text ever verifies a password; a Blowfish text lacks the salt; a long salt writes beyond crypt_data; a setting with a letter beyond ASCII panics. The hash functions are parameters; how crypt's text is returned (a leaked copy) is not modelled."
  },
  {
   "property": "C152",
   "status": "partial",
   "theorems": [
    "C152_regexec_partial",
    "C152_null",
    "C152_nosub_refuted",
    "C152_negative_refuted",
    "C152_regerror_partial",
    "C152_messages",
    "C152_end_refuted",
    "C152_regcomp_errors"
   ],
   "note": "Proved for patterns compiled without REG_NOSUB, -1 read as the largest size_t, and texts that fit; the size returned and the bytes of cut texts always. Refuted: with REG_NOSUB pmatch is written (the flag is looked for in regexec's flags); offsets are unsigned, so that rm_so < 0 never holds; a text cut is not terminated. Matching itself is in the crate posix-regex, a parameter here."
  },
  {
   "property": "C153",
   "status": "partial",
   "theorems": [
    "C153_mmap_partial",
    "C153_munmap",
    "C153_mprotect",
    "C153_errors",
    "C153_not_open_partial",
    "C153_descriptor_refuted",
    "C153_populate_refuted",
    "C153_shm",
    "C153_cloexec_refuted"
   ],
   "note": "Proved: munmap, mprotect, errors for lengths, and mmap with MAP_SHARED or MAP_PRIVATE and any of MAP_FIXED, MAP_ANONYMOUS, MAP_STACK, for descriptors other than -1; the names of shared memory. Refuted: mmap of descriptor -1 without MAP_ANONYMOUS maps fresh memory; MAP_POPULATE is the bits of MAP_SHARED, MAP_FIXED and MAP_FIXED_NOREPLACE; shm_open does not set FD_CLOEXEC. The kernel's fmap, mprotect and funmap are modelled from the documentation of redox_syscall. msync, mremap and madvise are ENOSYS in the code and not modelled."
  },
  {
   "property": "C154",
   "status": "partial",
   "theorems": [
    "C154_utimensat_partial",
    "C154_invalid_partial",
    "C154_link_refuted",
    "C154_wide_refuted",
    "C154_futimens_partial",
    "C154_futimens_invalid_partial",
    "C154_descriptor_refuted",
    "C154_utimes_partial",
    "C154_microseconds_partial",
    "C154_microseconds_refuted",
    "C154_utime_partial",
    "C154_utime_refuted",
    "C154_empty",
    "C154_clock"
   ],
   "note": "Proved: utimensat without AT_SYMLINK_NOFOLLOW, futimens for descriptors other than -100, utimes, utime with times, their errors, no descriptor left open, EINVAL for wrong fractions of a second that fit in 32 bits, and that no number of microseconds is taken for UTIME_NOW or UTIME_OMIT; the clock functions. Refuted: AT_SYMLINK_NOFOLLOW is passed as a flag of open and lost, so the target's times are set; utime with a null pointer dereferences it; tv_nsec is cut to 32 bits, so 2^32+5 is 5 and 4294968 microseconds are 704 nanoseconds; futimens(AT_FDCWD) sets the times of the current directory. How the kernel finds files, and what a file system does with the two stamps, are parameters."
  },
  {
   "property": "C155",
   "status": "partial",
   "theorems": [
    "C155_once",
    "C155_pending_partial",
    "C155_arrives_partial",
    "C155_timeout",
    "C155_sigwait_partial",
    "C155_sigwait_refuted",
    "C155_early_refuted",
    "C155_interrupt_refuted",
    "C155_sender_refuted"
   ],
   "note": "Proved for every interference: exactly one instance of a signal of the set is taken on success and nothing on failure. Proved without interference: the lowest pending is taken at once, queued ones oldest first, the sender reported, arrivals end the wait, EAGAIN at the end of the time. Refuted: sigwait returns -1 for errors; EAGAIN before the time is over if another thread takes the signal that ended the sleep; unblocked signals outside the set do not interrupt the wait (the set becomes the whole set of allowed signals); the sender of a real-time signal sent to a thread is not reported. The mask is the matter of C57; si_code and si_value of standard signals are always 0 in the code. The kernel's Sigdeq and nanosleep are modelled."
  },
  {
   "property": "C156",
   "status": "partial",
   "theorems": [
    "C156_sbrk_partial",
    "C156_areas_partial",
    "C156_brk_partial",
    "C156_back_refuted",
    "C156_null_refuted",
    "C156_nothing"
   ],
   "note": "Proved: any number of sbrk calls with increments that are not negative, their areas, brk upwards, failures that leave the break, no memory at all. Refuted: the break cannot be moved back (brk and sbrk fail with ENOMEM); sbrk(0) returns a null pointer if nothing can be mapped. The limit is the 4 megabytes of the code. Threads calling at the same time are not modelled (the variables are not protected)."
  },
  {
   "property": "C157",
   "status": "partial",
   "theorems": [
    "C157_items_partial",
    "C157_no_item",
    "C157_names",
    "C157_formats",
    "C157_conversions_partial",
    "C157_localeconv",
    "C157_date_and_time_refuted",
    "C157_currency_refuted",
    "C157_locale_refuted"
   ],
   "note": "Proved: the strings of every item but CODESET (up to the implementation) and CRNCYSTR, the empty string for other numbers, the names strftime prints, that each of the four formats prints what the standard says of the conversion it stands for, that %x, %X and %r print the same as the items for any struct, and agreement with localeconv before setlocale. Refuted: %c (strftime does not know it), CRNCYSTR is \".\" and not \"-\", no locale but \"C\" is followed. Not modelled: that the strings may not be written to."
  },
  {
   "property": "C158",
   "status": "partial",
   "theorems": [
    "C158_uname",
    "C158_errors",
    "C158_newline_refuted"
   ],
   "note": "Proved for every content of the files, valid or not, and every split of the reads: success exactly stores the host name (64 bytes at most) and the four lines, failure is -1 with EIO, nothing outside changes; success if the files are in order. Refuted: a newline at the end of /etc/hostname becomes part of nodename. Not modelled: which byte strings are UTF-8 (a parameter), errors while the second file is read, the closing of the files."
  },
  {
   "property": "C159",
   "status": "partial",
   "theorems": [
    "C159_chdir",
    "C159_fchdir_partial",
    "C159_relative",
    "C159_history",
    "C159_file_refuted"
   ],
   "note": "Proved: chdir in full, with its errors; fchdir but for the kind of the object; relative names after chdir; any history leaves the program's descriptors as they were and closes all but the last of its own. Refuted: fchdir accepts a file that is no directory. The kernel's opening of names and the canonical forms of the crate redox_path are parameters: that the name stored is a name of the directory opened is not proved (with symbolic links it need not be). Threads are not modelled; a lock protects the directory in the code."
  },
  {
   "property": "C160",
   "status": "partial",
   "theorems": [
    "C160_set_partial",
    "C160_history",
    "C160_dropped_refuted",
    "C160_saved_refuted",
    "C160_real_refuted",
    "C160_minus_one_refuted"
   ],
   "note": "Proved for every policy: setresuid, seteuid and their counterparts for groups in full (but for -1 in seteuid), the ids that setreuid and setuid set besides the saved one, failures that change nothing, and that the library's copy of the ids is the manager's after any history. Refuted: setuid and setreuid leave the saved id, so a process that gave up user 0 with setuid can become it again; setuid without privileges changes the real id as well; setuid(-1) and seteuid(-1) succeed. Which requests are allowed is the process manager's affair (a parameter); that it takes 2^32-1 for an id to be left is assumed. Threads, posix_spawn and setgroups are not modelled here."
  },
  {
   "property": "C161",
   "status": "partial",
   "theorems": [
    "C161_repeatable",
    "C161_unseeded",
    "C161_range",
    "C161_rand_r",
    "C161_seeds_partial",
    "C161_seeds_refuted"
   ],
   "note": "Proved for every history: range, repeatability, the numbers without srand, rand_r, and that seeds that differ in the low eight bits give different first numbers. Refuted: the upper bits of the seed are ignored, so there are 256 different sequences. The crates rand and rand_xorshift are modelled as published, not from source (they are not in the repository). Threads are not modelled."
  },
  {
   "property": "C162",
   "status": "partial",
   "theorems": [
    "C162_function_walk",
    "C162_macro_walk_partial",
    "C162_data",
    "C162_sizes",
    "C162_inside_partial",
    "C162_last_refuted",
    "C162_stuck_refuted",
    "C162_macro_stuck_refuted"
   ],
   "note": "Proved: the functions walk through every well-formed buffer, the macros through those whose last message has data (or that hold one message), data and sizes; whatever the buffer holds, the walk with the macros ends and stays in it if the lengths in it are below 2^63. Refuted: the macro misses a last message without data, which the function finds; the function returns the same header for ever on a length of 0, the macro on one of 2^64-1. msg_control and msg_controllen are arguments, 64-bit."
  },
  {
   "property": "C163",
   "status": "partial",
   "theorems": [
    "C163_getgroups_partial",
    "C163_negative",
    "C163_position_refuted",
    "C163_euid_refuted",
    "C163_broken_refuted"
   ],
   "note": "Proved for every group file all of whose lines can be read: the ids, their number, the array, size 0, too little room, negative size. Refuted: getgroups ends the caller's walk with getgrent, so that a loop that does both never ends; the groups are looked up for the effective user, so seteuid changes them; a line that cannot be read hides the groups after it. Lines are taken as already read (Grp_model reads them); getpwuid is a parameter. setgroups is not implemented (ENOSYS)."
  },
  {
   "property": "C164",
   "status": "partial",
   "theorems": [
    "C164_resume_partial",
    "C164_rcx_refuted",
    "C164_r11_refuted",
    "C164_ymm_refuted"
   ],
   "note": "Proved for x86_64, every state and every handler: the general registers but for rcx (and r11 for a dequeued realtime signal), the stack and instruction pointers, the flags, the lower halves of the vector registers and the upper halves of ymm0 and ymm1. Refuted: rcx is overwritten with the signal's number before it is saved; r11 is overwritten by the system call that dequeues a realtime signal; the upper half of ymm2 becomes that of ymm15 and those of ymm3 to ymm15 are left as the handler left them, since every vinsertf128 from the third on names ymm2. Registers only; the choice of the signal, the handler and the kernel's part are arbitrary within stated limits; x87 state and arch_pre are not modelled."
  },
  {
   "property": "C165",
   "status": "partial",
   "theorems": [
    "C165_history_partial",
    "C165_switch",
    "C165_stay",
    "C165_aligned_refuted",
    "C165_nested_refuted",
    "C165_flags_refuted"
   ],
   "note": "Proved: every history of calls with stacks that are neither at address 0 nor reach the end of the address space gives the results and reports described (SS_ONSTACK being accepted), the switch to the alternate stack, and staying on the current one with at least 144 bytes left. Refuted: SS_ONSTACK is accepted as a flag; a stack whose end is no multiple of 16 is accepted and the handler starts there, misaligned; with less than 128 bytes left on the alternate stack a second signal starts again at its end, over the frames in use. One thread, x86_64."
  },
  {
   "property": "C166",
   "status": "partial",
   "theorems": [
    "C166_arm_partial",
    "C166_exchanged_refuted",
    "C166_lost_refuted",
    "C166_x86_partial",
    "C166_x87_refuted",
    "C166_upper_refuted"
   ],
   "note": "Proved: on aarch64 all of x0 to x30 but x1, x2 and x18, sp, pc and the flags; on i686 the general purpose registers, eip, eflags, xmm0 to xmm7, and the x87 state for dequeued realtime signals. Refuted: on aarch64 x1 and x2 come back exchanged, x18 holds the address resumed at, and no vector register is saved; on i686 reading the sender with mm0 marks all x87 registers as in use (no emms), and the upper halves of ymm are not saved. riscv64 and spurious signals are not modelled."
  },
  {
   "property": "C167",
   "status": "partial",
   "theorems": [
    "C167_process_partial",
    "C167_mask_refuted",
    "C167_blocked_refuted",
    "C167_realtime_refuted",
    "C167_sender_refuted"
   ],
   "note": "Proved: without an allowed standard signal pending for the thread, one pending for the process and allowed is handled, only its bit is cleared and the mask stays. Refuted: for a standard signal of the thread the number of the signal is stored in place of the word, so that none of the 32 is allowed afterwards, and of several pending a blocked one is handled; for a realtime signal of the thread the number handled is no signal's and the signal stays pending; the sender of a signal for the process is not recorded. Exclusive stores succeed; process-directed realtime signals are left out."
  },
  {
   "property": "C168",
   "status": "proved",
   "theorems": [
    "C168_choice",
    "C168_thread_first",
    "C168_process_first"
   ],
   "note": "C168_choice holds for every state of the words, on both architectures. A realtime signal pending for thread and process is the thread's first on x86_64 (C168_thread_first), the process' on i686 (C168_process_first), although both comments have it the thread's. For realtime signals of the thread the code reads the sender behind the end of the array of senders; the model takes what it finds there as the sender. Other threads do not take the process' signal meanwhile; the system call that dequeues is left out."
  }
 ]
}