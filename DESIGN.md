# Formal model of relibc in Rocq — design

Source: `/repo` (redox-os/relibc, pinned). The code is read as text; nothing of it
is compiled or run. Every model definition cites file and lines.

## Trusted base

* Coq 8.16.1's kernel (and `vm_compute` for concrete witnesses and table checks).
* Axioms: what `Print Assumptions` prints under each property theorem
  (`theories/Prop_*.v`). Goal: "Closed under the global context" everywhere; every
  exception is listed in the table at the end.
* The hand translation Rust -> Gallina. Each definition is a small total function;
  the correspondence is by reading, line by line, against the cited source.
* Modelling conventions (common to all files):
  * Memory is a partial map from addresses (Z) to bytes (Z). Reading or writing an
    address that is not mapped yields `Fault`; hence a theorem of the form
    "... = Ok ..." is also a statement that only mapped bytes named in the
    hypotheses are touched. Pointers are Z; address-space wrap-around is excluded by
    the hypotheses that regions lie where they lie (Rust's `ptr::add` may not wrap).
  * Loops that terminate only thanks to data (NUL terminators) take fuel; theorems
    say which fuel suffices and that the result is then independent of the fuel, so
    termination is part of the statement.
  * Machine integers are Z with explicit wrapping (`wrapu`/`wraps`); Rust release
    semantics (wrapping) is used unless the code uses checked/overflowing ops.
    x86_64: usize = c_ulong = 64 bit, c_char = i8, little endian.
  * A Rust panic is an explicit result value.
  * System calls and allocator are universally quantified oracles or explicit
    nondeterministic steps.
  * Concurrency: transition systems over an arbitrary set of threads,
    interleaving (sequentially consistent) semantics of atomic operations.
    Weak-memory effects of Acquire/Release orderings are NOT modelled. The futex is:
    wait = atomically compare and sleep; wake = wake up to n sleepers, any choice;
    spurious wake-ups at any time.
* Not modelled: the Rust standard/core library itself (slices, iterators, `memchr`
  crate, `cbitset`, `posix_regex`, `chrono`, `chrono-tz`: their documented behaviour is what the model uses), floating
  point, locale, the kernel, dynamic linker, assembly stubs.

## Files

`theories/Base.v` (results, memory, machine integers), `X_model.v` (model),
`X_spec.v` (independent specification), `X_proofs.v` (lemmas), `Prop_X.v`
(property theorems only, each with `Print Assumptions` and a non-vacuity Example).

## Plan per property

| id | what is modelled | how it is proved |
|----|------------------|------------------|
| C01 | strlen, strnlen over faulting memory | induction on the string; prefix-only mapping hypothesis gives the no-over-read part |
| C02 | memcpy/memmove/memset byte loops | induction on n with pointwise description of the final memory |
| C03 | memcmp word loop + tail | word equality <-> byte equality; induction on words |
| C04 | memchr/memrchr/memccpy | induction; first/last occurrence spec |
| C05 | memmem windows search, inner_strstr | induction on haystack; refutation for empty/empty strstr |
| C06 | stpcpy, strcpy, stpncpy, strncpy | induction |
| C07 | strncat, strcat, strlcpy, strlcat | induction |
| C08 | strncmp, strcmp | induction; order laws derived from the lexicographic spec |
| C09 | strchr, strchrnul, strrchr | induction; strrchr(s,0) refuted |
| C10 | inner_strspn with 256-bit set, strpbrk, strsep | bit-set lemma + induction |
| C11 | strtok_r, iterated | refinement to a functional tokenizer |
| C12 | inner_strstr with mask !32 | refuted by witness; correct on letter-only strings (partial) |
| C13 | strdup/strndup with allocator oracle, strxfrm, strerror_r | induction |
| C14 | ctype predicates, tolower/toupper, strcasecmp | lia / induction |
| C15 | strto_impl and helpers | numeral-value induction; base 8, "0x" and LONG_MIN deviations refuted |
| C16 | dec_num_from_ascii macros | induction with overflow invariant |
| C17 | a64l, l64a | positional arithmetic |
| C18 | insertion_sort and chunked swap on byte arrays | sortedness/permutation/stability induction |
| C19 | bsearch | strong induction on n |
| C20 | rand48 state machine | arithmetic mod 2^48, per-op refinement |
| C21 | random.rs state machine | simulation |
| C22 | environment operations | refinement to a finite map, history induction |
| C23 | atexit/exit | history induction; re-entrant registration refuted |
| C24 | calloc/reallocarray | case analysis with explicit bounds |
| C25 | utf8.rs | arithmetic on code points; round trip both ways |
| C26 | timespec add/subtract | lia; subtract refuted |
| C27 | strftime writer | invariant on writer |
| C28 | strftime fields / strptime | per-conversion; several refuted |
| C29 | sync/mutex.rs, wait_until_generic: transition system, n threads, one atomic access per step | inductive invariant; explicit continuation for progress |
| C30 | sync/pthread_mutex.rs all types, n threads, lock counts as ghost | inductive invariant; error codes refuted by trace |
| C31 | sync/cond.rs wait/timedwait/signal/broadcast with an abstract mutex, n threads, spurious wake-ups, time-outs | inductive invariant; progress by exhibited runs when signals do not overlap; refuted by trace otherwise |
| C32 | sync/barrier.rs wait, n threads, generations, gen_id modulo 2^32 | inductive invariant with ghost arrival numbers; progress by exhibited runs |
| C33 | sync/rwlock.rs all functions, word-level state and futex, n threads | inductive invariant on counts; progress by exhibited runs |
| C34 | sync/semaphore.rs, n threads, posts/waits as ghost counters | counting invariant; spurious EAGAIN and overflow refuted |
| C35 | sync/once.rs over wait_until_generic, n threads | inductive invariant; explicit continuation |
| C36 | sync/waitval.rs, one poster, n waiters | inductive invariant; explicit continuation |
| C37 | header/pthread/spin.rs, n threads | inductive invariant |
| C38 | header/pthread/tls.rs all functions and run_all_destructors, n threads, re-entrant destructors | history refinement: state equals spec functions of the event log |
| C39 | Ostream_model: BufWriter, LineWriter, FILE::write/flush, fwrite/fputs/putc/puts/fflush over a write(2) oracle | invariant descriptor ++ buffer = accepted; theorems C39_in_order, C39_flush, C39_lines |
| C40 | Istream_model: FILE::read/fill_buf/consume, getc, fread, ungetc, setvbuf over a read(2) oracle | invariant pushed back ++ buffered ++ file = unread; C40_once_partial, C40_eof_partial, C40_unbuffered_refuted, C40_setvbuf_refuted, C40_unget_eof_refuted |
| C41 | Istream_model: fgets, read_until, getdelim | same invariant; C41_fgets_partial, C41_fgets_fits, C41_getdelim_partial, C41_pushback_refuted |
| C42 | Printf_model: inner_printf's parser, argument cache and conversions; StringWriter/CountingWriter | induction on the slices; C42_snprintf_partial, C42_snprintf_zero, C42_sprintf_partial, C42_no_nul_refuted |
| C43 | Printf_model; Printf_spec gives the standard's rules for flags, width, precision, numerals | parsing lemma (format_of l parses to its directives), argument cache lemma, one lemma per conversion; C43_printf_partial, C43_quirks_refuted, C43_zero_width_refuted, C43_others_refuted |
| C44 | Scanf_model: inner_scanf on a string reader; Scanf_spec: matching in the sense of the C standard | induction on the match with an invariant on the pushed-back character; C44_scanf_partial, C44_{end,no_failure,sign,prefix,width,others,strings}_refuted |
| C45 | Getopt_model: getopt_long, parse_arg, find_option; Getopt_spec: rules for reports, histories of calls | one lemma per rule, induction on the report; C45_getopt_partial, C45_report, C45_silent, C45_{colon,byte255,message}_refuted |
| C46 | Getopt_model: long_loop, take_long over strncmp; Getopt_spec: selects | C46_getopt_long_partial, C46_{exact,ambiguous,value,unknown,message}_refuted |
| C47 | Inet_model: split, from_str_radix, inet_aton/addr/network/ntop/pton (IPv4); Inet_spec: dotted quads, C integer constants | equivalence between the parser and the grammar; C47_ntop_partial, C47_pton_partial, C47_round_trip, C47_aton_partial, C47_addr_partial, C47_{small,plus,touched}_refuted |
| C48 | Inet_model: swap_bytes; Inet_spec: bytes by division | C48_byte_order |
| C49 | Libgen_model: basename, dirname; Libgen_spec: splitting of a path | one lemma for the backward loops; C49_basename, C49_dirname, C49_null |
| C50 | fnmatch | tokens of the pattern decided against an inductive pattern relation; escape, negated bracket, FNM_PERIOD, bracket syntax and over-read refuted; posix_regex trusted |
| C51 | Signal_model: the two Sigcontrol words, get/set_allowset_raw, modify_sigmask, sigprocmask; arrivals before each access | word-update lemma, bit by bit; C51_sigprocmask, C51_delivery, C51_query |
| C52 | Ring_model: ShmAllocator, alloc_buf_sized, free_buf; Ring_spec: histories of a pool | permutation invariant; C52_disjoint_partial, C52_partition, C52_alloc_partial, C52_{size,align,offset,free_sized}_refuted |
| C53 | ffs/ffsl/ffsll | bit arithmetic |
| C54 | strtoimax/strtoumax via strto_impl | as C15; clamp of strtoimax refuted |
| C55 | memalign, aligned_alloc, posix_memalign | case analysis; popcount = 1 iff power of two |
| C56 | mbrtowc, mbsnrtowcs, wcsnrtombs and callers; wide strings live in a separate cell memory | induction on the list of characters; four deviations refuted |
| C57 | Signal_model: await_signal_async/sync, callback_or_signal_async | C57_suspend_partial, C57_timedwait_partial, C57_{timedwait,suspend,pwait}_refuted |
| C58 | Signal_model: deliver (mask changes of `inner`) | C58_handler_mask_partial, C58_ucontext_refuted |
| C59 | Signal_model: set functions, currently_pending_blocked | C59_sets, C59_empty_full, C59_sigpending |
| C60 | Sigaction_model: sigaction_inner, convert_old, signal, siginterrupt, SA_RESETHAND | packing lemma; C60_sigaction_partial, C60_query, C60_signal, C60_resethand, C60_{nocldwait,default,siginterrupt}_refuted |
| C61 | Sigaction_model: sighold, sigrelse, sigset | C61_hold, C61_errors, C61_sigset |
| C62 | Sigaction_model: sigignmask_to_inherit, apply_inherited_sigignmask | C62_exec |
| C63 | Wcs_model (one cell per wchar_t): wcslen, wcsnlen, wcschr, wcsrchr, wmemchr, wcsspn, wcscspn, wcspbrk, wcsstr, wcstok | same predicates as C01-C11; C63_*, C63_wcsrchr_partial, C63_wcsrchr_refuted |
| C64 | Wcs_model: wcscpy, wcpcpy, wcsncpy, wcpncpy, wcsncat, wcscat, wmem* | `stored`; C64_* |
| C65 | Wcs_model: wcsncmp, wcscmp, wcscoll, wmemcmp | sign of `lex`; C65_*_partial, C65_{wcscmp,wmemcmp}_refuted |
| C66 | Select_model: add_all, report, select_epoll, pselect over epoll as a parameter | `selected`, `bits`, `waits_for` over a state of descriptors; C66_{select,wait,pselect}_partial, C66_*_refuted |
| C67 | Select_model: poll_add, poll_report, poll, ppoll | `poll_answer`; C67_{poll,wait}_partial, C67_*_refuted |
| C68 | Pwd_model: split, getpwent_r, pwd_lookup, getpwnam(_r), getpwuid(_r), getpwent, setpwent, endpwent, for Linux and Redox separators | `database`, `describes`, `first_user`, `walk`; C68_{getpwnam,getpwnam_r,getpwuid,getpwuid_r,getpwent}_partial, C68_setpwent, C68_*_refuted |
| C69 | Grp_model: encode, split_group, parse_grp, getgrgid(_r), getgrnam(_r), getgrent, setgrent, endgrent, getgrouplist | `gdatabase`, `shows`, `first_group`, `groups_of`; C69_*_partial, C69_setgrent, C69_*_refuted |
| C70 | Shadow_model: parse_spwd, getspnam, getspnam_r, getspent, setspent, endspent | `sline`, `tells`, `lookup`, `swalk`; C70_getspnam(_r)_partial, C70_{getspent,setspent}, C70_*_refuted |
| C71 | Thread_model: create, new_thread_shim, join, exit_current_thread, Waitval, one shared access per step | `allowed`, `reached`, `later`, `alone`; C71_* |
| C72 | Thread_model: dealloc_thread, detach, terminate_from_main_thread | C72_{no_stale_use,detached_frees}_partial, C72_join_frees, C72_*_refuted |
| C73 | Thread_model: cancel, testcancel, set_cancel_state | C73_{cancel,testcancel,setcancelstate}_partial, C73_{value,spared,disabled,own_state,cancel_returns}, C73_*_refuted |
| C74 | Istream_model (C40) | `err`, `eof`, `tells`; C74_indicators_partial, C74_clearerr, C74_ungetc_refuted |
| C75 | Hooks_model: pthread_atfork, fork | `wanted`; C75_fork_partial, C75_one_thread_partial, C75_*_refuted |
| C76 | Hooks_model: the list of cleanup handlers | `sthread` (a stack); C76_handlers_partial, C76_cancel_refuted |
| C77 | Hooks_model: src/cxa.rs | `xwanted`; C77_*_partial, C77_*_refuted |
| C78 | Cal_model: gmtime, timegm | POSIX's formula `since_epoch`, `consistent`; C78_*_partial, C78_unique, C78_*_refuted |
| C79 | Cal_model: localtime, mktime, timelocal; zones as oracle | `zone_ok`, `local_time`; C79_*_partial, C79_*_refuted |
| C80 | Cal_model: asctime_r on memory | `asc_text`; C80_asctime |
| C81 | Tz_model: posix_tz.rs | grammar `offset`, `rest`; C81_tzset_partial, C81_*_refuted |
| C82 | Fpos_model: fseek, ftell over Istream_model and Ostream_model on one file | `astep` on contents, position, pushed-back bytes, `allowed_run`; C82_position_partial, C82_*_refuted |
| C83 | Ld_model: get_sym, resolve_sym | `first_def`, `plain`; C83_lookup_partial, C83_*_refuted |
| C84 | Ld_model: load_object, dlopen, dlsym, fini | `reach`, `loads`, `tame`; C84_start_partial, C84_dlopen_partial, C84_*_refuted |
| C85 | Ld_model: dlopen, unload, dlclose | `history`, `tame`; C85_handles_partial, C85_close_partial, C85_deps_partial, C85_*_refuted |
| C86 | Relr_model: apply_relr | `decode` (gABI); C86_relr |
| C87 | Dtls_model: static layout, Tcb::new, copy_masters, setup_dtv, __tls_get_addr, thread creation | `thread`, `gets`, `disjoint`; C87_*_partial, C87_*_refuted |
| C88 | Dtls_model with dlopen | `life`, `fresh`; C88_first_partial, C88_*_refuted |
| C89 | Inet_model: inet_lnaof, inet_netof, inet_makeaddr | `class` (RFC 791); C89_*_partial, C89_netof_refuted, C89_order_refuted |
| C90 | Subopt_model: getsubopt | `first`, `answers`, `picks`; C90_getsubopt |
| C91 | Fopen_model: fopen, parse_mode_flags, _fdopen over a kernel of files and descriptors | `opens`, `descriptor`, `fresh`; C91_fopen, C91_invalid |
| C92 | Fopen_model: freopen, fclose | as C91; C92_freopen_partial, C92_*_refuted |
| C93 | Fopen_model: flush_io_streams | `flushed`; C93_exit_partial, C93_other_refuted |
| C94 | Names_model: getcwd, gethostname, ttyname_r, realpath | `delivered`, `only_in`; C94_*, C94_*_refuted |
| C95 | Dirent_model: DIR::next_dirent, readdir, telldir, seekdir, rewinddir | `does`, `serves`; C95_readdir_partial, C95_error_refuted |
| C96 | Dirent_model: scandir | C96_scandir_partial, C96_error, C96_errno_refuted |
| C97 | Glob_model: glob, inner_glob; with Fnmatch_model | `walk`, `answer`, `means`; C97_glob_partial, C97_period/dots/slash/err_refuted |
| C98 | Exec_model: execvp, PathSearchIter, with_argv | `finds`, `joined`; C98_search_partial, C98_slash, C98_execl, C98_empty/colon/shell_refuted |
| C99 | Exec_model: execve, parse_interpreter, permission check | `script`, `permitted`; C99_execve_partial, C99_tab/line/eof/ids/errno_refuted |
| C100 | Spawn_model: add_all, perform, spawn_files | `acts`, `execs`; C100_actions_partial, C100_negative, C100_copied/dup2/fchdir/chdir/cloexec_refuted |
| C101 | Spawn_model: spawn_attrs, spawn_args, spawnp | `child_mask`, `child_id`, `finds`; C101_attributes_partial, C101_spawnp_partial, C101_both/sigdef/pgroup/priority/caller/setuid/argv_refuted |
| C102 | Fdtbl_model: PosixFdTbl, open/dup/dup2/fcntl/close/pipe2, from_kernel, exec | `does`, `runs`, `kept`; C102_descriptors_partial, C102_dup2/same/minimum_refuted |
| C103 | Uio_model: gather, scatter, readv, writev | `places`, `holds`, `spread`; C103_readv, C103_writev, C103_count, C103_negative_refuted |
| C104 | Reclock_model: setlk, getlk, lockf, flock | `section`; C104_setlk_partial, C104_getlk_partial, C104_whence/lockf/start/ofd/flock_refuted |
| C105 | Dns_model: compile, parse_ipv4_string, host_query, lookup_host | `name_at`, `message_at`, `dotted`; C105_query_partial, C105_numeric, C105_four_labels/trailing_dot/long_label_refuted |
| C106 | Dns_model: pop_name, pop_data, parse, lookup_host | `message_at easy_at`, `addresses`; C106_addresses_partial, C106_parse_partial, C106_safe, C106_loop/compression/unrelated_refuted |
| C107 | Dns_model: addr_query, parse_revdns, lookup_addr | as before; C107_query, C107_names_partial, C107_crash/compressed_refuted |
| C108 | Netdb_model: rlb next, getent, setent, find_ent, parse_proto | `words`, `database`, `protocol_line`; C108_scan_partial, C108_name_partial, C108_number_partial, C108_rewind/stayopen/newline/close/comment/crash_refuted |
| C109 | Netdb_model: parse_serv, getservbyname, getservbyport | `service_line`; C109_scan_partial, C109_name_partial, C109_port_partial, C109_alias/comment/hang_refuted |
| C110 | Netdb_model: parse_host, gethostbyname, gethostbyaddr | `host_line`; C110_scan_partial, C110_name_partial, C110_addr_partial, C110_terminator/ipv6_refuted |
| C111 | Gai_model: getaddrinfo, fill, append | `linked`, `entries`, `inet_sockaddr`; C111_numeric/null/names/numerichost_partial, C111_service/family/empty/numerichost_refuted |
| C112 | Gai_model: heap, freeaddrinfo | C112_free_partial, C112_leak_refuted |
| C113 | Gai_model: getnameinfo | C113_bounds, C113_numeric/name_partial, C113_exact/untouched/service_refuted |
| C114 | Mktemp_model: inner_mktemp, mkostemps, mkdtemp | `six`, `failed`; C114_mkostemps/created/mkdtemp/template_partial, C114_errno/suffix_refuted |
| C115 | Mktemp_model: mktemp, tmpnam, tempnam, tmpfile | C115_tmpnam/tempnam/tmpfile_partial, C115_overrun_refuted |
| C116 | Cvec_model: CVec, vasprintf | `good_allocator`; C116_asprintf/refused_partial, C116_memory_refuted |
| C117 | Wcsto_model: skipws!, wcsto_impl! | `subject` of Strto_spec; C117_wcstol/wcstoul/range/none_partial, C117_overflow/no_digits/bare_0x/base_refuted |
| C118 | Strtod_model: strto_float_impl!, over Flocq floats | `nearest`, `decimal`, `hexadecimal`; C118_decimal/decimal_float/hexadecimal/hexadecimal_float/special_partial, C118_negative_exponent/fraction/exponent/end_refuted |
| C119 | Strtod_model: wcstod | C119_wcstod_partial, C119_syntax/fraction_refuted |
| C120 | Wstdio_model over Istream_model and Utf8_model: getc/ungetc with orientation, fgetwc, fgetws, ungetwc, fwide | `utf8`, `starts_with_char`, `healthy`; C120_total, C120_fgetwc/weof/fgetws/ungetwc_partial, C120_ungetwc_illegal, C120_orientation/malformed/fgetws_sticky_refuted |
| C121 | Wstdio_model over Ostream_model and Utf8_model: fputc with orientation, fputwc, fputws | `utf8_str`, `accepted`, `fine`; C121_fputwc/fputws/round_trip_partial, C121_orientation/illegal/write_error_refuted |
| C122 | Wctype_tables.v, Wctype_model.v: the tables copied, alpha::is, punct::is, casemap with its search loop, all isw*, wctype, iswctype | inclusions and exclusions stated as such; every value below 2^18 is run in the kernel on search trees proved equal to the lists (Wctype_proofs.v), the rest by the range tests; C122_total, C122_inside, C122_apart, C122_outside, C122_ascii, C122_names, C122_unknown |
| C123 | Wctype_model.v: casemap, towlower, towupper, wctrans, towctrans | Wctype_spec.v lists Unicode's simple mappings as runs, taken from a Unicode database and not from the code; C123_unicode, C123_idempotent, C123_cased, C123_trans |
| C124 | Wctype_model.v: wcscasecmp, wcsncasecmp | lex of the mapped strings; C124_wcscasecmp, C124_wcsncasecmp |
| C125 | Wctype_model.v: wcwidth over any width function (the unicode-width crate is a parameter), wcswidth | columns; C125_wcswidth_partial, C125_terminator_refuted |
| C126 | Upperfd_model: UpperFdTbl and FdTbl's upper half | `does`, `counts`, `same`; C126_upper_partial, C126_kernel, C126_start, C126_reuse_partial, C126_reuse/bulk_remove/insert_at_refuted |
| C127 | Start_model: initial stack, argv and environ copies, auxiliary vector | `stack`, `points`, `places`, `flat`; C127_main_partial, C127_environ, C127_auxv, C127_argv0_refuted |
| C128 | Pattr_model: the attribute object, the stack part of pthread::create, pthread_getattr_np | `has`, `accepted`, `sets`; C128_history_partial, C128_codes, C128_create_partial, C128_getattr, C128_guard/stack_end/unmap_refuted |
| C129 | Symlink_model: open, openat, resolve_sym_links | `links`, `from`, `final`; C129_open/openat/loop_partial, C129_relative_refuted |
| C130 | Falloc_model: posix_fallocate | `grown`; C130_fallocate_partial, C130_shrinks_refuted |
| C131 | Getdents_model: posix_getdents, dent_reclen_offset | `encode`, `position`, `kernel_ok`; C131_all, C131_error, C131_total |
| C132 | Strfmon_model: strfmon, format_monetary, apply_grouping | `money`, `grouped`, `in_field`, `item`; C132_bounds, C132_text_partial, C132_grouping/flags/utf8_refuted |
| C133 | Fmtmsg_model: fmtmsg, strcolcmp | `a_list`, `selected`, `the_message`, `the_result`; C133_message_partial, C133_trailing_refuted |
| C134 | Syslog_model: openlog, closelog, setlogmask, syslog, write_log, BufWriter::write | `settings`, `passes`, `record_of`; C134_setlogmask, C134_stderr/records_partial, C134_lost/facility_filter/default_facility/nul_refuted |
| C135 | C11threads_model: mtx_*, cnd_*, thrd_* over Pmutex_model | `result_for`, `int_at`, `only_changes`; C135_success, C135_exclusion, C135_recursive, C135_exit, C135_join_partial, C135_busy/timedout/reasons/join_overwrites/sleep_refuted |
| C136 | Sockaddr_model: bind_or_connect, inner_af_inet, inner_af_unix, inner_get_name_inner, paths of bind and connect | `sin`, `shown`, `sun`, `delivered`; C136_bind_connect, C136_errors, C136_bind_path, C136_inet_name/unix_name/connect_path_partial, C136_inet_length/unix_overrun/beyond_refuted |
| C137 | Sockmsg_model: CMSG macros, sendmsg, recvmsg, serialisation of payload and control messages, descriptors in flight | `spots`, `controls`, `payload_stream`, `rights_stream`, `fitting`; C137_send_partial, C137_receive_partial, C137_name_ignored/no_ctrunc/lost/stale/no_areas_refuted |
| C138 | Timer_model: table of timers, timer_create/delete/gettime/settime, the thread of a timer, clocks and pending wake-ups as a transition system | `on_time`, `due`, `hands_off`; C138_create, C138_delete, C138_unknown, C138_runs_partial, C138_gettime_partial, C138_disarm/rearm/lost/start_race/disarmed_shown/remaining/drift/queue_full/arguments_refuted |
| C139 | Timer_model: alarm_timespec, alarm | `ready`, `seconds_up`; C139_alarm_partial, C139_cancelled/replaced/lost_refuted |
| C140 | Epoll_model: ctl_record, epoll_ctl, register_timeout, translate, epoll_pwait; the kernel's queue and registrations as stated assumptions | `entries_at`, `conditions`, `asked`, `accepted`; C140_arguments, C140_wait/timeout/interest_partial, C140_exist/flags/stale_refuted |
| C141 | Sysvshm_model: shmget, shmat, shmdt, mmap/munmap and the shm scheme | `life`, `unused`, `set_byte`; C141_share/progress_partial, C141_key/private/readonly_refuted |
| C142 | Priority_model: getpriority, setpriority, nice, posix_*priority | `nearest`; C142_errors, C142_nice, C142_set_get_partial, C142_groups_refuted |
| C143 | Swab_model: swab | `exchanged`; C143_swab, C143_none |
| C144 | Sleep_model: nanosleep, sleep, usleep | `sound`; C144_sleep, C144_usleep, C144_nanosleep_partial, C144_range_refuted |
| C145 | Waitpid_model: waitpid, sys_waitpid, wrapper, WaitpidTarget, the W macros, over a process manager | `meant`, `wanted`, `latest`, `told`; C145_macros/reported/results/options/returns, C145_nohang/others_partial, C145_nohang/stop_lost/eintr_refuted |
| C146 | Popen_model: popen, pclose, system over descriptor tables and Waitpid_model | `good_mode`, `new_pipe`, `callers`, `commands`; C146_mode, C146_open_partial, C146_pclose_partial/returns/other, C146_system_partial, C146_closed/earlier/leak/eintr/twice_refuted |
| C147 | Pty_model: ptsname_r, ptsname, openpty, login_tty, forkpty over the tables of Popen_model | `terminal`, `with_file`, `on_terminal`, `lowest`; C147_ptsname_r/ptsname/ptsname_errors/openpty_errors/login, C147_openpty/forkpty_partial, C147_name_refuted |
| C148 | Termios_model: termios functions, tcgetpgrp, tcsetpgrp, ioctl requests for terminals, FIONBIO | `switched`, `raw` (bits); C148_raw/size/told/arguments/nonblock, C148_attr/pgrp_partial, C148_actions/speed/pgrp_refuted |
| C149 | Diag_model: STR_ERROR, strerror, strsignal, psignal, perror, err.h | `meanings`, `signals`, `joined`, `told`; C149_strerror/strerror_known/strerror_unknown/strsignal/warn/file, C149_psignal/perror/err_partial, C149_threads/psignal/perror_unknown/perror_prefix/callback_refuted |
| C150 | Locale_model: setlocale, localeconv, uselocale, newlocale, duplocale, freelocale, PosixLocaleDef::parse | `c_locale`, `of_category`, `item`/`last_value`; C150_initially/query/uselocale/newlocale_fails, C150_setlocale/file/duplocale/newlocale_partial, C150_decimal_point/all/frac_digits/base/global/blank_refuted |
| C151 | Crypt_model: crypt_r, crypt_md5, crypt_sha, crypt_blowfish, crypt_pbkdf2, crypt_scrypt, crypt_argon2 | `salt_of`, `written`, `ascii`; C151_argon2, C151_md5/sha/rounds_partial, C151_scrypt/pbkdf2/blowfish/crash/letters_refuted |
| C152 | Regex_model: regcomp, regexec, regerror (the engine given) | flags as bits, `nth_error`; C152_null/messages/regcomp_errors, C152_regexec/regerror_partial, C152_nosub/negative/end_refuted |
| C153 | Mman_model: mmap, munmap, mprotect, round_up_to_page_size, shm_path, shm_open; the kernel's page table | `shows` (bytes), `apart`, `names`; C153_munmap/mprotect/errors/shm, C153_mmap/not_open_partial, C153_descriptor/populate/cloexec_refuted |
| C154 | Filetimes_model: utimensat, futimens, utimes, utime, Sys::utimensat, libredox::futimens, gettimeofday, ftime; files found and refused by parameters | `valid`, `wanted`, `touched`, `outcome`; C154_empty/clock, C154_utimensat/invalid/futimens/futimens_invalid/utimes/microseconds/utime_partial, C154_link/wide/descriptor/microseconds/utime_refuted |
| C155 | Sigwait_model: await_signal_sync, try_claim_multiple, try_claim_single, sigtimedwait, sigwait, with changes by others between any two accesses | `evolves`, `takes`, `first`; C155_once/timeout, C155_pending/arrives/sigwait_partial, C155_sigwait/early/interrupt/sender_refuted |
| C156 | Brk_model: brk, sbrk, Sys::brk | `grants`; C156_nothing, C156_sbrk/areas/brk_partial, C156_back/null_refuted |
| C157 | Langinfo_model: nl_langinfo, nl_langinfo_l and their table (with Time_model and Locale_model) | `c_value`, `stands_for`, `prints`; C157_no_item, C157_names, C157_formats, C157_localeconv, C157_items/conversions_partial, C157_date_and_time/currency/locale_refuted |
| C158 | Uname_model: Sys::uname, its gethostname and read_line, Lines::next | `first_lines`, `known`, `named`; C158_uname, C158_errors, C158_newline_refuted |
| C159 | Cwd_model: chdir, fchdir, set_cwd_manual, opening relative to the working directory | `resolves`, `called`, `same_files`, `only_own`; C159_chdir, C159_relative, C159_history, C159_fchdir_partial, C159_file_refuted |
| C160 | Ugid_model: set*id, get*id, posix_setresugid, cvt_uid | `becomes`, `request`, `unix`; C160_history, C160_set_partial, C160_dropped/saved/real/minus_one_refuted |
| C161 | Randc_model: rand, srand, rand_r | `numbers`, `numbers_r`; C161_repeatable, C161_unseeded, C161_range, C161_rand_r, C161_seeds_partial, C161_seeds_refuted |
| C162 | Cmsg_model: CMSG macros of the header; functions from Sockmsg_model | `buffer`, `places`, `header_in`; C162_function_walk, C162_macro_walk_partial, C162_data, C162_sizes, C162_inside_partial, C162_last/stuck/macro_stuck_refuted |
| C163 | Getgroups_model: getgroups, setgrent, getgrent, endgrent over lines | `groups_of`, `answer`, `filled`, `rounds`; C163_getgroups_partial, C163_negative, C163_position/euid/broken_refuted |
| C164 | Sigentry_model: __relibc_internal_sigentry (x86_64), registers | `resumed`, `same_registers`; C164_resume_partial, C164_rcx/r11/ymm_refuted |
| C165 | Altstack_model: sigaltstack, get_sigaltstack, stack choice in sigentry | `effect`, `report`, `expected`; C165_history_partial, C165_switch, C165_stay, C165_aligned/nested/flags_refuted |
| C166 | Sigother_model: the trampolines of aarch64 and i686, registers | `resumed_arm`, `resumed_x86`; C166_arm_partial, C166_x86_partial, C166_exchanged/lost/x87/upper_refuted |
| C167 | Sigpick_model: the choice of a signal in aarch64's sigentry | `handled_right`; C167_process_partial, C167_mask/blocked/realtime/sender_refuted |
| C168 | Sigbit_model: the choice of a signal in sigentry of x86_64 and i686 | `right_choice`; C168_choice, C168_thread_first, C168_process_first |

## Axioms used

Every theorem is closed under the global context except:

| theorem | axioms (all from Coq's standard library) |
|---------|------------------------------------------|
| C20_double_value, C118_decimal_partial, C118_decimal_float_partial, C118_hexadecimal_partial, C118_hexadecimal_float_partial, C118_special_partial, C118_*_refuted, C119_* | ClassicalDedekindReals.sig_not_dec, ClassicalDedekindReals.sig_forall_dec, FunctionalExtensionality.functional_extensionality_dep, Classical_Prop.classic (Coq's Reals, through Flocq's binary64) |

## Deviations found in the code (each a `_refuted` theorem)

* strstr("", "") is NULL; strrchr(s, 0) is NULL; strcasestr folds with `& !32`
  (wrong matches and an over-read); strcasecmp compares signed chars.
* strtol family: base 8 rejects numbers without a leading 0; bare "0x"; LONG_MIN
  reports ERANGE; strtoimax wraps instead of clamping.
* unsetenv removes only the first of two inherited entries with the same name;
  setenv(k, getenv(k), 1) runs copy_nonoverlapping on overlapping ranges.
* A handler registered by atexit while exit is running is accepted but never called.
* mbrtowc answers "incomplete" (-2) for bytes that are already invalid and reads
  one byte even when n = 0; mbsnrtowcs returns 1 instead of -1 on an encoding
  error and overwrites *src when dst is NULL.
* timespec::subtract with a borrow gives 1e9 + |d| instead of 1e9 - |d| nanoseconds (too long by up to 2 s, not normalised); timespec::add wraps on the carry at the end of time_t.
* strftime: %V off by one on every day of years starting on a Thursday, wrong on Sundays and in week 1; %U %W unpadded; %C rounds up; %y negative before 1900; %c %g %G unsupported; empty output leaves the buffer without NUL.
* strptime: %e does not accept a leading space; %p misreads after %H and before %I; white space in the format matches only itself.
* pthread_mutex: an ERRORCHECK mutex relocked by its owner gives EAGAIN (EDEADLK expected); trylock by the owner gives EDEADLK (EBUSY expected).
* sem_wait fails with EAGAIN when a post comes between its check and its futex_wait; sem_post on 2^32-1 wraps the value to 0.
* pthread_cond_signal/broadcast called by two threads at once without holding the mutex both store the same sequence number (load then store): a waiter that began in between can sleep through the second one.
* pthread_rwlock_rdlock panics (assertion) when 2^31 - 2 readers hold the lock.
* pthread_rwlockattr_setpshared assigns to a temporary copy and has no effect; pthread_barrierattr_setpshared accepts any value.
* A barrier's generation counter wraps: with more threads than the count, one that sleeps through exactly 2^32 cycles would not notice that its own is over.
* C39 (stdio output): a write(2) interrupted by a signal (EINTR) is an error for every output function (io/error.rs never yields kind Interrupted, so no retry happens). puts returns 0 although its newline was lost if an unbuffered write(2) of the newline returns 0. putc returns its argument, not the unsigned char written. fwrite multiplies size by count with wrap-around. setvbuf after output drops pending bytes; fflush(NULL) flushes stdout and stderr only.
* C40/C41 (stdio input): with _IONBF the read buffer is an empty slice, so every read reports end of file and sets the indicator. setvbuf keeps read_pos/read_size, so buffered input is replaced by the new buffer's bytes, or the next read panics. ungetc(EOF) pushes back 255 and ungetc never clears the end-of-file indicator. fgets takes pushed-back bytes without looking for a newline and does not count them as read; getdelim passes over them. getdelim masks the stream's flags with F_EOF (delimiter found or end) or F_ERR (error), clearing every other flag, F_PERM included; an error loses the bytes read so far. gets keeps the newline (it is fgets).
* C42/C43 (printf): snprintf with n = 1 and any call with empty output (sprintf(buf, "")) store no NUL. '0' is not ignored with '-'; "%0*d" with a negative width prints 2^64-|w| characters; '0' is dropped with a negative '*' precision; ' ' wins over '+'; a negative number's precision counts the '-'; '0' with '+', ' ' or '#' prints the prefix outside the width; "%+5.0d" of 0 is six wide; "%#.2o" of 8 lacks the leading 0 and "%#.0o" of 0 prints nothing; "%.d" is an error; "%.3s" reads the byte after the precision; a null %s ignores the width; %p pads by the number of decimal digits; %ls precision is off by one. Read, not modelled: on aarch64/riscv64 c_char is u8 so %hhd prints unsigned; "%*%" shifts later arguments; "%0$d" makes the cache loop to index 2^64-1.
* C44 (scanf): at the end of the input the last character is read again (sscanf("12", "%d%d") returns 2); a conversion that finds no digits stores 0 and counts as a match; signs are not read; "%x" reads 0x1F as 0 and "%i" reads 0x0F as 0 and 00x10 as 16; a width-limited conversion after another conversion makes the next one read a character twice ("1 23456" with "%d%2d%d" gives 3456); "%1i%d" of "0123" loses a character; overflow makes sscanf return 0; "%d%n" counts one too many; "%2s%s" of "abcd" gives "ab" and "d"; only ' ' is a white-space directive; blank input returns 0 instead of EOF; bytes 0x85 and 0xA0 count as white space, which breaks %s on UTF-8; an unterminated "%[abc" loops for ever.
* C47 (arpa/inet.h): inet_pton and inet_aton accept '+' before a part ("+1.2.3.4", "0x+1"); inet_ntop wants 16 bytes even for short addresses and supports only AF_INET; a failing inet_pton leaves the octets read so far in the destination. Read, modelled but not stated: inet_netof is a copy of inet_lnaof, and both (and inet_makeaddr) treat the network-order s_addr as host order. IPv6 inet_pton (not modelled) accepts an embedded IPv4 address before other groups and spread over groups ("::1.2:3.4.5").
* C45/C46 (getopt.h): ':' in the option string is accepted as an option letter; an option byte 0xFF returns -1; an unknown option prints a message although the option string begins with ':'. getopt_long takes the first table entry the name begins (even if a later one matches exactly or the name is ambiguous), ignores "=value" for options without argument, reads an unknown "--name" as the letters '-', 'n', 'a', ..., and prints about a missing long argument even if opterr is 0 (optopt is not set then).
* C52 (platform/redox/ring.rs): in a chunk pool redox_ring_alloc_sized ignores size and alignment, so a buffer larger than a chunk overlaps the next; redox_ring_free_buf_sized(ptr) releases the chunk at offset 0 whatever ptr is, so a live chunk is handed out again; offsets of 2 GiB and more are returned as negative numbers.
* C57 (redox-rt/src/signal.rs): sigtimedwait/sigwait on a set without SIGKILL or SIGSTOP, and sigsuspend, ppoll and pselect with a mask containing one of them (sigfillset), corrupt the caller's mask on return: set_allowset_raw adds SIGKILL and SIGSTOP to the temporary set, but the restoring call subtracts the set without them. sigwait({SIGUSR1}) with SIGUSR1 blocked leaves SIGUSR1 unblocked and SIGKILL, SIGSTOP and the signals 20 to 32 blocked.
* C58: uc_sigmask is the set of unblocked signals.
* C60 (signal.h): SA_NOCLDWAIT is not stored; flags and mask given with SIG_DFL or SIG_IGN are not reported back; siginterrupt(sig, nonzero) always panics (c_int::try_from(!SA_RESTART)). Read, not modelled: sigwait returns -1 instead of an error number; on delivery with SA_RESETHAND the nested sigaction re-enables delivery before the handler's mask is set; pthread_kill passes a negative signal as a large usize.
* C50 (fnmatch.h): FNM_NOESCAPE is inverted (a backslash escapes only when it is set; inside brackets it always escapes); a negated bracket matches a slash under FNM_PATHNAME (and a leading period under FNM_PERIOD); under FNM_PERIOD a leading '*' matches no period anywhere, and "*?" matches "."; ']' first and '-' last in a bracket expression do not stand for themselves, and character classes are not recognised; a pattern ending in '[', backslash (e.g. "[\\") is read past its terminating NUL.
* C63 (src/header/wchar/mod.rs): wcsrchr(s, L'\\0') returns NULL; the terminator is part of the string, so it should return a pointer to it. wcslen(NULL), wcsstr with NULL and wcscat to NULL panic.
* C65 (src/header/wchar/mod.rs): wcscmp, wcsncmp and wmemcmp return the i32 difference of the first differing characters, which overflows for values of opposite sign (a panic with overflow checks, the wrong sign without).
* C66 (src/header/sys_select/mod.rs): a regular file in two sets counts once in the return value; a hang-up without data (a pipe whose writers are gone) makes select return 0 with empty sets at once, even without a timeout; an error sets the descriptor's bit in exceptfds although it was not there; at most 32 ready descriptors are reported; when a descriptor is closed (EBADF) the sets have already been modified; the timeout is rounded down to milliseconds, tv_sec is truncated to 32 bits (2^32 s does not wait) and anything over 24 days is cut short; urgent data never sets exceptfds (EPOLLPRI is not asked for).
* C67 (src/header/poll/mod.rs): the same descriptor in two entries fails with EEXIST, a regular file with EPERM; a closed descriptor sets POLLNVAL but poll still waits for the others unless every entry is closed; at most 32 ready entries are reported; ppoll rounds down, and tv_sec = 2147483 with tv_nsec >= 648000000 wraps to a negative timeout, that is for ever.
* C68 (src/header/pwd/mod.rs): an id of 2^31 or more (uid_t is c_int) makes its line malformed, and a malformed, blank or comment line ends every lookup with an error; getpwnam_r and getpwuid_r return -1 and not ERANGE, and an earlier longer line that does not fit fails the lookup; with a caller's buffer, missing fields are taken from the old contents of the buffer ("bob:x:12" after root's line gets gid 0 and /root); a line with six fields gives a pw_shell one behind the end of its box.
* C69 (src/header/grp/mod.rs): names are compared up to the shorter length, so getgrnam("ro"), getgrnam("rootless") and getgrnam("") find root's group; getgrnam_r returns ENOENT and leaves *result untouched when there is no such group, and EINVAL for a short buffer; ids of 2^31 and more and malformed lines hide all later groups; the member pointers are adjusted for at most 4096 members (offsets remain behind that), and the pointer array in the buffer is not aligned; getgrouplist ignores its group argument and panics on a line whose id is no number (or is 2^31 or more).
* C70 (src/header/shadow/mod.rs): a line is taken when it starts with the name, so getspnam("ro") and getspnam("") return root's password entry; getspnam_r returns ENOENT instead of 0 when there is no entry.
* C72 (src/pthread/mod.rs): pthread_detach only sets a flag, so a thread that has already ended is never unmapped; a detached thread can end before its creator enters it in OS_TID_TO_PTHREAD, and exit() then calls cancel on unmapped memory; a stack given with pthread_attr_setstack is unmapped when the thread ends. Read, not modelled: dealloc_thread unmaps one page of the control block, not the ABI page and the TLS after it, and loops forever on an error other than EINTR.
* C73 (src/pthread/mod.rs): has_enabled_cancelation starts false, so a cancelled thread that has not called pthread_setcancelstate is not cancelled; pthread_setcancelstate(PTHREAD_CANCEL_ENABLE) ends a cancelled thread. Read, not modelled: signal 33 is sent but cancel_sighandler is never installed, pthread_setcanceltype has no effect.
* C74 (src/header/stdio/mod.rs): ungetc leaves the end-of-file indicator set; getdelim then refuses to read the pushed-back byte. Read, not modelled: getdelim's `flags &= F_EOF` and `flags &= F_ERR` also drop F_NORD, F_NOWR and F_APP.
* C75 (src/header/unistd/mod.rs fork, src/header/pthread/mod.rs fork_hooks): prepare handlers run in order of registration instead of the reverse; the lists are thread-local, so handlers registered by another thread are not run; the parent handlers are not run if fork fails.
* C76 (src/header/pthread/mod.rs run_destructor_stack): the handlers are not removed before they run, and cancellation stays enabled, so a cancelled thread whose handler reaches a cancellation point runs its handlers from the start again, for ever. __cxa_thread_finalize runs before the cleanup handlers.
* C77 (src/cxa.rs): the handlers run with CXA_ATEXIT_FUNCS locked (a nested __cxa_atexit spins for ever) and with DTORS borrowed (a nested __cxa_thread_atexit_impl panics).
* C78 (src/header/time/mod.rs): gmtime and gmtime_r call get_localtime and so return local time; for instants out of chrono's range gmtime_r and localtime_r return `result` without writing it; timegm returns -1 for members out of range, without setting errno.
* C79 (src/header/time/mod.rs): mktime fails for members out of range and for skipped local times; tm_isdst is the daylight saving in whole hours, 0 for half an hour; a TZ value that is not a zone name (a POSIX TZ string) gives UTC in localtime and mktime; timelocal takes the earlier of two instants whatever tm_isdst. Read, not modelled: tm_zone is the zone's name and not the abbreviation; localtime and mktime always set daylight to 0, since timestamp_opt is never ambiguous.
* C81 (src/header/time/posix_tz.rs): time_to_seconds takes the sign from the hours, so "-0:30" is positive; angle brackets.
* C82 (src/header/stdio/mod.rs): fseek with SEEK_CUR ignores pushed-back bytes (ftell counts them); ftell in append mode adds unwritten output to the offset although it will go to the end; fflush does not move the offset of the descriptor back when reading; fseek clears the error indicator.
* C83 (src/ld_so/linker.rs `_get_sym`, dso.rs `get_sym`): among weak definitions the last one wins; bindings other than global and weak reach `unreachable!`.
* C84 (src/ld_so/linker.rs): `load_objects_recursive` looks for an object among the finished ones only, so objects that need each other recurse without end; objects are registered under their SONAME but looked up by the name given, so dlopen of a path loads the file anew each time; scopes are filled depth first (the comment says breadth first); `fini` runs in the order of the object ids, so a library can be finalized before one that uses it; the scope of a handle holds only the direct dependencies, and none with RTLD_GLOBAL; a failing dlopen with RTLD_GLOBAL leaves dead weak references in the global scope, which `upgrade().unwrap()` turns into a panic. Read, not modelled: `relocate(..).unwrap()` and `panic!(\"unresolved symbol\")` stop the process when dlopen meets an unresolved symbol.
* C85 (src/ld_so/linker.rs `unload`): with RTLD_GLOBAL nothing holds a reference to the dependencies, so closing one library unloads dependencies another one still needs; with RTLD_LOCAL dependencies are never unloaded (`obj` still holds them); dlopen with RTLD_NOLOAD|RTLD_NOW is `todo!`.
* C87 (src/ld_so/dso.rs): the offset of a module is align16(previous) + p_memsz, not rounded to p_align, so a segment whose size is no multiple of its alignment is misaligned and not where local-exec code looks for it; alignments above 16 are ignored.
* C88 (src/ld_so/linker.rs, tcb.rs, header/dl-tls/mod.rs): dlopen appends the TLS masters only to the calling thread's TCB, so other threads get NULL from __tls_get_addr; all dlopened modules get offsets from the same tls_size, and setup_dtv/copy_masters in later threads use these offsets, so modules overlap or copy_masters fails and `unwrap` panics; a failed dlopen consumes module numbers without appending masters.
* C89 (src/header/arpa_inet/mod.rs): inet_netof is a copy of inet_lnaof and returns the local part; inet_lnaof and inet_makeaddr do not convert s_addr from and to network byte order.
* C92 (src/header/stdio/mod.rs: freopen): after dup2, F_SETFL with only O_CLOEXEC clears O_APPEND, so mode a does not append; FD_CLOEXEC is not set on the kept descriptor for mode e; read_pos, read_size and unget are not reset, so unread input of the old file is read from the new stream.
* C93 (flush_io_streams): exit flushes only stdout and stderr; output buffered in a stream from fopen is lost unless fclose or fflush was called.
* C94: getcwd succeeds without a terminator if size is the length of the path (path.rs: split_at_checked of the length without the NUL); size 0 gives ERANGE, not EINVAL; a path of PATH_MAX bytes and a null buffer panic. ttyname_r returns the negated errno (-ENAMETOOLONG for a small buffer instead of ERANGE), and does not check for a terminal.
* readdir: when getdents fails (other than with EINVAL), the buffer is left full of zeros and not empty, so all further calls fail with EIO until seekdir or rewinddir (C95_error_refuted).
* scandir takes an errno left behind by the filter for a failure of readdir (C96_errno_refuted).
* glob: FNM_PERIOD is passed when GLOB_PERIOD is given instead of when it is not, so `*` matches hidden files (C97_period_refuted); no slash is put before a component `.` or `..`, so `a/../b` looks in `a..`, and `.` and `/` alone match nothing (C97_dots_refuted); a trailing slash is ignored (C97_slash_refuted); GLOB_ERR aborts when a directory component has no match (C97_err_refuted).
* C44, string conversions: a %[ that matches nothing is no matching failure; %1c after a conversion that left a character pending returns that character twice (C44_strings_refuted).
* execvp and posix_spawnp put `/` after an empty PATH prefix, so it means the root directory instead of the current one (C98_empty_refuted). A name with a colon is not searched for on Redox (C98_colon_refuted). ENOEXEC does not lead to the shell (C98_shell_refuted).
* parse_interpreter: a tab does not end the interpreter's name (C99_tab_refuted); newlines after `#!` are skipped, so the second line can name the interpreter, contrary to the unit test in the file (C99_line_refuted); without a newline the argument is dropped or the script refused (C99_eof_refuted).
* execve checks the execute permission with the real ids (C99_ids_refuted), answers EPERM instead of EACCES and ENOENT for every failing open (C99_errno_refuted).
* posix_spawn_file_actions_addopen and addchdir take ownership of the caller's array (CString::from_raw) instead of copying it: later changes show (C100_copied_refuted), and destroying the actions frees it.
* Descriptors close-on-exec in the parent are closed in the child after the actions, whatever the actions put there (C100_dup2_refuted); O_CLOEXEC of an open action has no effect (C100_cloexec_refuted); fchdir looks the descriptor up in the parent (C100_fchdir_refuted); chdir to a relative path fails (C100_chdir_refuted).
* The POSIX_SPAWN flags are numbered 1 to 7 instead of being distinct bits (C101_both/sigdef_refuted; SETSCHEDULER is todo!()). SETPGROUP and SETSCHEDPARAM pass the number of a descriptor as process id (C101_pgroup/priority_refuted). posix_setresugid on the child overwrites the caller's cached ids (C101_caller_refuted). argv[0] is replaced by the path (C101_argv_refuted).
* dup2 with a closed first descriptor marks the second free in relibc's table though it stays open, so the next open is given it (C102_dup2_refuted). dup2(fd, fd) clears close-on-exec (C102_same_refuted). F_DUPFD and F_DUPFD_CLOEXEC ignore their minimum (C102_minimum_refuted).
* write and writev answer EBADFD for a negative descriptor (C103_negative_refuted).
* Record locks relative to the offset or the end of the file apply to the whole file (C104_whence_refuted), so lockf always does (C104_lockf_refuted). F_GETLK returns the start of the request instead of the lock's (C104_start_refuted), F_OFD_GETLK with bit 63 set (C104_ofd_refuted). flock always succeeds (C104_flock_refuted).
* gethostbyname and getaddrinfo take every name of four labels for 0.0.0.0 without asking (C105_four_labels_refuted). A trailing dot and a label over 63 bytes give malformed questions (C105_trailing_dot_refuted, C105_long_label_refuted).
* A response with a compression pointer to itself hangs the lookup (C106_loop_refuted); labels followed by a pointer, as name servers commonly send, make it refuse the response (C106_compression_refuted); identifier and owner of a response are not checked (C106_unrelated_refuted).
* A PTR record whose label length is too large crashes gethostbyaddr (C107_crash_refuted), a compressed one gives an empty name (C107_compressed_refuted).
* setprotoent and setservent do not rewind if getprotoent has closed the file, so getprotobyname after getprotoent misses entries (C108_rewind_refuted). After setprotoent(1) getprotobyname of any but the first entry never returns (C108_stayopen_refuted). p_aliases and n_aliases point to freed memory.
* The last line of /etc/protocols, /etc/services and /etc/hosts, if it lacks its newline, is returned for ever or hangs the call (C108_newline_refuted, C109_hang_refuted). endprotoent and endservent close descriptor 0 if the file is not open (C108_close_refuted). An entry of one word crashes (C108_crash_refuted), a comment behind an entry gives aliases (C108_comment_refuted).
* Aliases of services are ignored (C109_alias_refuted), services commented out are found (C109_comment_refuted).
* gethostbyname returns an unterminated name for a host from the name server (C110_terminator_refuted), an uninitialised address for an IPv6 line of /etc/hosts (C110_ipv6_refuted).
* getaddrinfo: a service that is not a number gives port 0 (C111_service_refuted); the family asked for is ignored (C111_family_refuted); no address is success with a null list (C111_empty_refuted); AI_NUMERICHOST accepts any name of four labels (C111_numerichost_refuted); a null node with AI_CANONNAME leaks (C112_leak_refuted). /etc/hosts is not consulted. (Not modelled: lookup_host and lookup_addr never close their sockets.)
* getnameinfo needs a byte more than the name and its terminator, and says EAI_MEMORY instead of EAI_OVERFLOW (C113_exact_refuted); leaves the buffer as it was if there is no name (C113_untouched_refuted); gives an empty service name (C113_service_refuted).
* L_tmpnam is 7, but tmpnam writes "/XXXXXX" and a terminator: 8 bytes (C115_overrun_refuted).
* mkstemp and its kin try a hundred names whatever the error, and then report EEXIST (C114_errno_refuted); a negative length of the suffix is not refused and lets them write behind the template (C114_suffix_refuted).
* asprintf panics without memory (C116_memory_refuted). (Not modelled: CVec::append adds 0 to the length; it is not used. CVec's drop does not free the block.)
* strtod computes the power of ten in a wrapping u128: 1e39 is wrong by a factor of three, 1e128 is 0, 1e-128 is infinity (C118_exponent_refuted); 3e-1 and 0.12 are not the nearest doubles (C118_negative_exponent_refuted, C118_fraction_refuted); "infinity", "nan(1)", "0X10" and texts without digits end in the wrong place (C118_end_refuted).
* wcstod knows no plus sign, exponent, hexadecimal number or infinity and loses the sign of -0 (C119_syntax_refuted).
* wcstol returns -1 on overflow and does not store the end pointer; without digits it stores the address after the sign; a base above 36, of 1 or below 0 panics (C117_*_refuted).
* fgetwc, ungetwc and fputwc go through the byte functions, which fail on a stream oriented wide: after fwide(f, 1) or fwprintf, fgetwc reports the end at once and fputwc loses the character but returns it (C120_orientation_refuted, C121_orientation_refuted).
* fgetwc ignores the result of mbrtowc: malformed bytes are read as character 0 (C120_malformed_refuted); fgetws returns NULL for a line if the error indicator was set before (C120_fgetws_sticky_refuted).
* fputwc writes four NULs for a value that is no character and ignores failing writes (C121_illegal_refuted, C121_write_error_refuted).
* `wcswidth` (src/header/wchar/mod.rs 953-963) runs over exactly `n` wide characters and does not stop at the terminator (C125_terminator_refuted).
* `mbsinit` (src/header/wchar/mod.rs 208-211) answers 0 for every non-null state, although every state is initial (read, not modelled).
* The upper table's end-of-list mark, 65536, is also a slot number: closing slot 65536 forgets every free slot (C126_reuse_refuted).
* UpperFdTbl::bulk_remove validates its handles without the tag and removes them with it, so it panics on the descriptors that were handed out (C126_bulk_remove_refuted). FdTbl::insert_at_upper over a descriptor in use counts it twice (C126_insert_at_refuted). Neither is called in the tree.
* sync_size ignores EINVAL from the kernel and UpperFdTbl::insert_at has no upper bound, so dup2(fd, -1), which reaches it before any check, relies on the kernel refusing the size with another error (read, not modelled).
* relibc_start_v1 calls basename on the copy of argv[0] that main gets, and basename writes into its argument: a first argument `x/` reaches main as `x` (C127_argv0_refuted).
* pthread_attr_setguardsize takes an int where POSIX has size_t: 2^32 becomes 0 and 2^31 becomes 2^64 - 2^31 (C128_guard_refuted). pthread::create makes no guard area at all (read, not modelled).
* pthread::create rounds the size of a caller's stack up to whole pages and puts the first words at the rounded end, past the caller's area (C128_stack_end_refuted); when the thread cannot be started it unmaps the caller's stack (C128_unmap_refuted).
* open and openat (path.rs 243, 284) see a relative target of the first link from the current directory or dirfd instead of the directory the link is in (C129_relative_refuted); from the second link on it is done right.
* posix_fallocate sizes the file with ftruncate after fstat without an effective lock, so that data appended in between is cut off (C130_shrinks_refuted). FileLock::drop sets the descriptor to -1 before unlocking it, so the lock would never be released if flock did anything (read, not modelled).
* strfmon's apply_grouping (monetary/mod.rs 64-85) counts the groups of three from the left: 1234 becomes "$123,4.00" (C132_grouping_refuted). The flag '(' is parsed and ignored, '-' is unknown and '=' taken for left-justification without its fill character, '#n' smaller than the number of digits makes the call fail (C132_flags_refuted); characters of the format outside ASCII are cut to a byte (C132_utf8_refuted).
* fmtmsg takes "label:" for a list of keywords although it is not of the format (C133_trailing_refuted). An unknown severity passes a null pointer to %s.
* syslog writes to a BufWriter that is never flushed and has no Drop: records are sent only when 8192 bytes are exceeded, and closelog discards those waiting (C134_lost_refuted). FacilityMask is 0x3ff and should_log shifts by the whole priority, so that LOG_USER, LOG_MAIL and LOG_DAEMON messages that name their facility are dropped under every mask (C134_facility_filter_refuted); the facility of openlog is masked away (C134_default_facility_refuted); the identity is kept with its NUL, which lands inside each record (C134_nul_refuted).
* threads.h: mtx_trylock, mtx_timedlock, cnd_timedwait and thrd_create look for the reason of a failure in errno, but the pthread functions return it and leave errno alone: they return thrd_error instead of thrd_busy, thrd_timedout, thrd_nomem (C135_busy_refuted, C135_timedout_refuted, C135_reasons_refuted). thrd_join passes its int pointer to pthread_join as a pointer to a pointer: eight bytes are stored (C135_join_overwrites_refuted). thrd_sleep panics, clock_nanosleep being unimplemented (C135_sleep_refuted).
* getpeername, getsockname, accept and recvfrom of an AF_UNIX socket ignore the length of the caller's buffer and write up to 110 bytes (C136_unix_overrun_refuted); those of an IPv4 socket report the length cut, not the true one (C136_inet_length_refuted), and panic when the scheme's text is malformed. connect to an AF_UNIX address ignores address_len (the length it computes is unused) and bind computes address_len - 2 without a check (C136_beyond_refuted).
* sendmsg ignores msg_name (C137_name_ignored_refuted), a failing sendmsg leaves the descriptors it already sent in the socket and the next message's receiver gets them (C137_stale_refuted), and one without iovecs omits the length of the data (C137_no_areas_refuted). recvmsg does not report MSG_CTRUNC when there is no control buffer (C137_no_ctrunc_refuted), and takes and drops the descriptors of a control message that does not fit (C137_lost_refuted). With msg_namelen = 0 the name in the stream is not skipped, and a stream shorter than the lengths in it panics.
* timer_settime with a zero value only increments the timer's version: the old value is still shown by timer_gettime (C138_disarmed_shown_refuted) and the thread of a periodic timer resynchronises with the version and goes on (C138_disarm_refuted). Arming a running timer does not change the version, so it notifies at the old time and its thread ends (C138_rearm_refuted); after a disarm the thread ends at the old time and the new arming is lost (C138_lost_refuted). A thread that starts after the disarm takes the new version for its own (C138_start_race_refuted). The next wake-up is computed from the time the thread runs (C138_drift_refuted). A failing sigqueue ends the thread while the field thread stays set (C138_queue_full_refuted). RT_MAX is SIGRTMIN (C138_arguments_refuted). The function of SIGEV_THREAD runs with the table locked.
* alarm inherits these: alarm(0) does not clear what the next call reports (C139_cancelled_refuted), alarm(1), alarm(100) sends SIGALRM after one second only (C139_replaced_refuted), alarm(10), alarm(0), alarm(20) sends none (C139_lost_refuted).
* epoll_ctl writes the same record for EPOLL_CTL_ADD and EPOLL_CTL_MOD, so that no kernel can answer EEXIST to the one and accept the other (C140_exist_refuted); flags but EPOLLIN and EPOLLOUT are dropped, and an event with none of the two is the record of a removal (C140_flags_refuted). epoll_pwait does not withdraw its timeout when it returns early: if the kernel keeps it until it is read, as the model assumes, a later call returns 0 too early (C140_stale_refuted).
* shmget unlinks the object it has just opened, so that no later call can find it by its key: a second process gets ENOENT or another segment (C141_key_refuted, for every key but IPC_PRIVATE). IPC_PRIVATE without IPC_CREAT fails with ENOENT (C141_private_refuted). shmat stores the size into the mapping even when it is read-only, and faults (C141_readonly_refuted). The address asked for is ignored.
* setpriority and getpriority refuse PRIO_PGRP and PRIO_USER (C142_groups_refuted).
* nanosleep cuts tv_nsec to 32 bits (C144_range_refuted).
* waitpid always adds WUNTRACED and, when the caller did not ask for it, calls again while the status is that of a stop. The status is not cleared in between: with WNOHANG the next answer is 0 and the old status is looked at again, for ever (C145_nohang_refuted); an EINTR is dropped the same way (C145_eintr_refuted). The report of the stop has been taken from the process manager and no later waitpid with WUNTRACED gets it (C145_stop_lost_refuted).
* popen's child calls dup2(r, 0) (or dup2(w, 1)) and then closes r and w. If the caller had its standard input (output) closed, r is 0 (w, or r, is 1): the dup2 does nothing or is undone, and the command runs without standard input (output) (C146_closed_refuted). Streams of earlier popen calls are not closed in the command (C146_earlier_refuted), so a writer's reader may never see the end. The pipe is not closed when fork fails (C146_leak_refuted).
* pclose and system return -1 with EINTR after a handler without SA_RESTART; the stream is closed and the child is left (C146_eintr_refuted). If the shell cannot be run the child calls exit, not _exit, and writes the caller's unwritten output once more (C146_twice_refuted).
* openpty tests ptsname_r's result for being negative, but errors of ptsname_r are positive: when the name of the master cannot be had, the contents of the caller's buffer are opened as the slave (C147_name_refuted). ioctl TIOCSCTTY does nothing, so login_tty and forkpty set no controlling terminal.
* tcsetattr with TCSADRAIN or TCSAFLUSH neither waits nor discards (C148_actions_refuted); cfsetispeed and cfsetospeed refuse every speed and the speeds got are 0 (C148_speed_refuted); tcsetpgrp returns the process group where 0 is due (C148_pgrp_refuted). ioctl TIOCSCTTY and SIOCATMARK report success and do nothing; FIONREAD is EINVAL.
* strerror_r copies from the static buffer of strerror, so two threads calling it at once can get each other's text (C149_threads_refuted). psignal with an empty prefix writes ": " before the text (C149_psignal_refuted). perror writes "Unknown error" without the number strerror gives (C149_perror_unknown_refuted), leaves out a prefix that is not UTF-8 (C149_perror_prefix_refuted), and takes no notice of partial writes. The function set by err_set_exit gets the error number (for errx: errno) instead of the exit status (C149_callback_refuted).
* LocaleData::posix() has an empty decimal_point: after setlocale(LC_ALL, "C") localeconv()->decimal_point is "" and not "." (C150_decimal_point_refuted). setlocale(LC_ALL, name) changes only the name of LC_ALL (C150_all_refuted). copy_category copies frac_digits with LC_NUMERIC (C150_frac_digits_refuted). newlocale with base 0 takes every category from the locale named (C150_base_refuted). duplocale(LC_GLOBAL_LOCALE) gives the C locale whatever was set (C150_global_refuted). PosixLocaleDef::parse cuts values at blanks, so int_curr_symbol loses its separator (C150_blank_refuted).
* crypt_scrypt and crypt_pbkdf2 do not find the hash at the end of their own texts: a stored text is parsed with the hash as part of the salt (scrypt) or refused (PBKDF2), so no password ever verifies (C151_scrypt_refuted, C151_pbkdf2_refuted). crypt_blowfish's text has no salt (C151_blowfish_refuted). crypt_r copies the text to the 256 bytes of crypt_data whatever its length (C151_crash_refuted). crypt_md5 and crypt_sha slice a str at byte indices counted in characters (C151_letters_refuted).
* regexec looks for REG_NOSUB in its own flags and not in those of regcomp, and so writes pmatch, which the caller may leave uninitialized (C152_nosub_refuted). regoff_t is size_t: offsets of subexpressions not taking part are 2^64 - 1 (C152_negative_refuted). regerror does not terminate a text that it cuts (C152_end_refuted).
* Sys::mmap turns the descriptor -1 into usize::MAX, which fmap takes as fresh memory: mapping a file that could not be opened succeeds (C153_descriptor_refuted). MAP_POPULATE on Redox is 0x1F, which has the bits of MAP_SHARED and MAP_FIXED_NOREPLACE (C153_populate_refuted). shm_open does not add O_CLOEXEC (C153_cloexec_refuted).
* utimensat gives AT_SYMLINK_NOFOLLOW (0x200) to openat as an open flag, whose low 16 bits libredox::openat replaces: the link is followed (C154_link_refuted). utime dereferences a null times pointer (C154_utime_refuted). The conversion to the kernel's TimeSpec cuts tv_nsec to 32 bits (C154_wide_refuted, C154_microseconds_refuted). futimens(-100) is taken for the current directory (C154_descriptor_refuted).
* sigwait returns -1 instead of an error number (C155_sigwait_refuted). await_signal_sync fails with EAGAIN when its sleep was interrupted but another thread claimed the signal (C155_early_refuted). While it waits, only the signals of the set are allowed, so that others the thread does not block neither run their handlers nor interrupt it (C155_interrupt_refuted). Real-time signals sent to a thread have no sender (C155_sender_refuted).
* Sys::brk accepts only addresses not below the break: memory is never given back and sbrk of a negative number fails (C156_back_refuted). sbrk(0) returns NULL instead of -1 when mmap fails (C156_null_refuted).
* nl_langinfo and nl_langinfo_l know the "C" locale only: after setlocale RADIXCHAR is still "." while localeconv has the locale's (C157_locale_refuted). CRNCYSTR is "." instead of "-" (C157_currency_refuted). strftime prints nothing for %c though D_T_FMT is there (C157_date_and_time_refuted).
* uname takes /etc/hostname as it is: with a newline at its end the name of the node has one too, and gethostname gives it so (C158_newline_refuted).
* fchdir does not ask whether the descriptor is a directory's: with a file it succeeds, where POSIX says ENOTDIR (C159_file_refuted).
* setuid asks for the real and effective id only and leaves the saved one: a privileged process that calls setuid(1000) can call seteuid(0) and is privileged again (C160_dropped_refuted). setreuid leaves the saved id as well (C160_saved_refuted); setuid without privileges changes the real id too (C160_real_refuted); -1 is accepted by setuid and seteuid (C160_minus_one_refuted).
* srand keeps only the low eight bits of its seed (`[seed as u8; 16]`), so that srand(1) and srand(257) give the same numbers and there are 256 sequences in all (C161_seeds_refuted). The generator itself (XorShiftRng, Uniform) is in crates outside the repository and modelled as published: trusted.
* The macro CMSG_NXTHDR requires more than 16 bytes after the current message, so that a last message without data is missed; the function of the same name, used in the library, finds it (C162_last_refuted). The function does not look at cmsg_len < 16 and returns the same header for ever on a length of 0 (C162_stuck_refuted); the macro does on one of 2^64-1, where the rounding wraps (C162_macro_stuck_refuted).
* getgroups walks the group file with setgrent, getgrent and endgrent, the same state that the program uses: a program that calls it in a loop over getgrent starts from the first group each time and never ends (C163_position_refuted). It looks up the effective user, so that seteuid changes the supplementary groups (C163_euid_refuted), and stops at the first line that is no group (C163_broken_refuted).
* The signal trampoline for x86_64 uses rcx (`mov ecx, eax`) before pushing it, so that the interrupted program finds the number of the signal there (C164_rcx_refuted); dequeuing a realtime signal with `syscall` destroys r11 likewise (C164_r11_refuted). When it restores the upper halves of the vector registers, all vinsertf128 from the third on name ymm2: ymm2 gets the upper half of ymm15, ymm3 to ymm15 keep what the handler left (C164_ymm_refuted).
* The trampoline aligns the stack pointer before it switches to the alternate stack, whose end is taken as it is: with ss_sp + ss_size no multiple of 16 the handler's stack is misaligned and fxsave64 faults (C165_aligned_refuted). On the alternate stack with less than 128 bytes left a second signal starts again at the end, over frames in use (C165_nested_refuted). SS_ONSTACK is accepted (C165_flags_refuted).
* The aarch64 trampoline stores x1 and x2 in one order and loads them in the other: they come back exchanged after every handler (C166_exchanged_refuted). It saves no vector registers, and x18 is lost (C166_lost_refuted; the code takes x18 to be reserved). The i686 trampoline reads the sender's ids through mm0 without emms, before fxsave: all x87 registers are marked in use when the program resumes (C166_x87_refuted; what MMX instructions do to the tags is taken from Intel's manual).
* On aarch64 a standard signal directed at the thread leaves its number in place of the thread's word of pending and allowed signals (C167_mask_refuted); the number is that of the highest pending signal, blocked or not (C167_blocked_refuted). A realtime signal directed at the thread is handled under a number computed from the shifted word (C167_realtime_refuted). The sender of a signal for the process is loaded and dropped (C167_sender_refuted).
* On i686 a realtime signal pending for thread and process is dequeued from the process first, contrary to the comment (C168_process_first). On x86_64 and i686 the sender of a realtime signal of the thread is read behind the array of senders, which redox-rt/src/signal.rs 936-941 takes to end before them (the array's type is in a crate that is not in the repository).
