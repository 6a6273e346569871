{
 "C05": "memmem is proved in full; strstr(\"\",\"\") returns NULL (C05_strstr_refuted), every other strstr input is proved.",
 "C09": "strchr/strchrnul in full; strrchr(s, 0) returns NULL for every s (C09_strrchr_refuted), proved for every other c.",
 "C12": "Proved for non-empty needles made of letters over any haystack; the code folds with `& !32`, which mismatches non-letters and can read past the terminator (two refutations).",
 "C14": "Predicates and case mapping in full; strcasecmp/strncasecmp equality for all strings, sign for 7-bit strings; the sign is wrong for bytes >= 128 (signed char comparison, C14_strcasecmp_refuted).",
 "C15": "Proved for every string and base except three deviations, each refuted by a witness: base 8 without leading 0, bare 0x, and the spurious ERANGE for LONG_MIN.",
 "C54": "strtoumax as strtoull; strtoimax wraps values >= 2^63 (refuted), exact below.",
 "C20": "Histories of all nine functions; the double is characterised with Flocq's binary64 (standard-library Reals axioms). The locks are not modelled.",
 "C21": "From process start, with all initialised state buffers; locks not modelled.",
 "C22": "Any history over an environment with distinct names; duplicate inherited names and self-aliasing values refuted; allocation failure and the Vec behind environ not modelled.",
 "C23": "Handlers registered before exit: exactly once each, in reverse order, whatever handlers register meanwhile; handlers registered during exit are never called (refuted).",
 "C24": "dlmalloc is an arbitrary parameter.",
 "C55": "dlmalloc is an arbitrary parameter.",
 "C25": "All scalar values and byte strings; core::str::from_utf8 and char::from_u32 are modelled from their documentation.",
 "C56": "Proved: truncated characters give -2, whole-string conversions in both directions, wcsrtombs errors. Refuted: invalid bytes reported as incomplete, mbrtowc(n=0) reads, mbsnrtowcs returns 1 on error, *src clobbered when dst is NULL.",
 "C26": "add exact unless the carry wraps at the end of time_t (refuted); subtract exact without borrow, borrow case refuted; deadlines never early, at most 2 s late.",
 "C27": "Every format, struct and buffer size; mktime (for %s) is a parameter; output assumed shorter than 2^64 bytes. Empty output stores no NUL (recorded, not part of the claim).",
 "C28": "All agreeing conversions and the strptime round trip over arbitrary item sequences; %V %U %W %C %y(<1900) %c and strptime %e, %p order refuted. ASCII strings only.",
 "C29": "Transition system over any number of threads, SC interleaving of atomic accesses, spurious wakes and CAS failures; safety and no-stranding.",
 "C30": "All four types, robust or not. ERRORCHECK relock returns EAGAIN and own trylock EDEADLK instead of the documented codes (refuted).",
 "C34": "sem_wait can fail with EAGAIN when a post races with it, and sem_post wraps at 2^32 (both refuted); the rest is proved.",
 "C35": "call_once as used by pthread_once; a constructor that unwinds or is cancelled is not modelled.",
 "C36": "Waitval with its one-post contract; any number of waiters.",
 "C37": "All interleavings incl. spurious compare-exchange failure.",
 "C31": "Proved with signallers that hold the mutex or at least do not overlap one another, and fewer than 2^32 - 1 waits in progress; refuted for overlapping signallers without the mutex: both read the same sequence number and store the same next one, a waiter in between sleeps on. The mutex is abstract (owner), which C29/C30 justify.",
 "C32": "Proved without bounds for at most n participating threads; for more threads than the count, a thread must not sleep through 2^32 - 2 cycles (gen_id wraps). The mutex and condition variable inside the barrier are abstract steps as justified by C29 and C31.",
 "C33": "All interleavings of any number of threads with spurious futex wake-ups and CAS failures. A reader arriving when 2^31 - 2 readers hold the lock panics in the code's own assertion.",
 "C38": "Each API call is one step; destructors may call anything and are interleaved with other threads.",
 "C39": "FILE output through BufWriter/LineWriter/unbuffered with write(2) an arbitrary oracle (errors and short counts), for every buffer size and every sequence of fwrite, fputs, putc, puts and fflush: content and order, fflush, line buffering, totality. Not modelled: seeking, setvbuf after I/O (drops pending data), fwrite sizes whose product wraps, concurrent use (the FILE lock is C29's mutex).",
 "C40": "FILE input with read(2) an arbitrary oracle (errors, any chunking, spurious end of file), every buffer size, every sequence of getc, fread, ungetc (and clearerr). Refuted: unbuffered streams (setvbuf _IONBF) report end of file at once; setvbuf after reading corrupts the input or panics; ungetc(EOF) pushes back 255.",
 "C41": "fgets and getdelim/getline after any calls, with read(2) an oracle; partial because it needs a stream without pushed-back bytes (C41_fgets_fits does not); with pushed-back bytes the claim is refuted. realloc is taken to succeed.",
 "C42": "Relative to whatever inner_printf writes (any format incl. %n, any slices): first n-1 bytes and a NUL for n > 1 and non-empty output, full length returned, nothing stored for n <= 1, sprintf likewise; outputs below 2^31 bytes. Refuted: n = 1 and empty outputs leave no NUL. Floats are not modelled.",
 "C43": "Formats of text, %% and d i u o x X b B s c with flags, width, precision, '*', length modifiers: the output is exactly the one the C standard prescribes, except for the combinations of no_quirk, each refuted by a concrete call. Not covered: positional arguments (modelled, unproved), floats, %p, %n, %m, wide conversions.",
 "C44": "Formats of ordinary characters, spaces, %%, d i u o x X with '*', width and length modifier, and %s %c %[ with '*' and width, on every ASCII input that matches them: values stored in order, nothing else changed, count returned. Excluded and refuted by concrete calls: input ending before the last directive, matching failures (none exist), signs, 0x with %x, 0x0 with %i, some widths. %n %p are modelled but not proved; floats are not modelled.",
 "C47": "inet_ntop writes the canonical text inside the buffer for size >= 16; inet_pton accepts exactly the dotted quads and inet_aton/inet_addr/inet_network exactly the one- to four-part forms, with the address they denote, for strings without '+'; the round trip is the identity. Refuted: buffers of 8..15 bytes, '+' signs, destination of a failed inet_pton. IPv6 not modelled.",
 "C48": "All widths n, on a little-endian host (every relibc target); swap_bytes is modelled as reversing the n bytes.",
 "C49": "Every path string; NULL separately. Static results are represented by their text.",
 "C45": "The whole history of calls equals the report of POSIX rules for every argument list of ASCII options (every such list has a report); no access beyond argc; opterr = 0 prints nothing. Refuted: ':' as an option letter, byte 0xFF, message although optstring begins with ':'. argv is a list of pointers; optind overflow not modelled.",
 "C46": "The whole history of calls, for names that begin no earlier table entry and select one, with values by = or next argument. Refuted: exact match after a longer entry, ambiguous prefix accepted, value for a no_argument option dropped, unknown long option read as letters, message with opterr = 0.",
 "C52": "Chunk pools: every history of allocations of at most the chunk size and frees by offset. Refuted: the requested size and alignment are ignored, offsets above 2^31 come back negative, redox_ring_free_buf_sized always frees offset 0. The Dynamic pool (external crate) is not modelled.",
 "C51": "sigprocmask / pthread_sigmask on Redox, all masks and states, arrivals between any two atomic accesses. Signals 33 and 34 are reserved by the library and never change; delivery itself (the trampoline) is not modelled, only that it is entered.",
 "C57": "Restores the mask for sigsuspend/ppoll/pselect masks without SIGKILL and SIGSTOP and for sigwait sets containing both. Refuted otherwise: the restoring subtraction uses the requested set although SIGKILL and SIGSTOP were added to the stored one, so unrelated signals change. Sleeping and handlers are an arbitrary function that keeps the mask.",
 "C58": "The mask during and after the handler, every handler. Refuted: uc_sigmask holds the set of unblocked signals.",
 "C59": "All functions; BitSet (external crate) is modelled as the bits of a u64.",
 "C60": "Dispositions of all signals, SIG_DFL, SIG_IGN and handlers below 2^57 with the flags SA_SIGINFO, SA_ONSTACK, SA_RESTART, SA_NODEFER, SA_RESETHAND, SA_NOCLDSTOP. Refuted: SA_NOCLDWAIT is dropped, flags given with SIG_DFL are not reported back, siginterrupt with a non-zero flag panics.",
 "C61": "All signals except the two reserved ones (33, 34).",
 "C62": "For every state reached by sigaction calls.",
 "C50": "Decided exactly for patterns of literals, ?, *, bracket expressions with characters and ranges, with any flags except FNM_CASEFOLD, provided the pattern has no backslash, no negated bracket under FNM_PATHNAME, and the string has no period under FNM_PERIOD (or: with FNM_PERIOD and any string, the pattern has neither * nor a negated bracket); the excluded cases are refuted, as are ']' first and '-' last in brackets, and an over-read. The regular-expression crate (posix_regex) is external and trusted to decide a sequence of tokens.",
 "C63": "All functions, every string. Refuted: wcsrchr(s, 0) returns NULL instead of the terminator; proved for every other character. Set and delimiter arguments have non-null addresses.",
 "C64": "All functions; wmemcpy and wmemmove for fewer than 2^62 characters (n * 4 wraps beyond).",
 "C65": "Proved for non-negative characters, which covers every Unicode character. Refuted for arbitrary wchar_t values: the difference wraps.",
 "C66": "Proved for any epoll that succeeds, sets whose descriptors are open, each regular file in one set only, no urgent data, hang-ups and errors that also make reading possible, and at most 32 ready descriptors; the wait is the timeout rounded down to a millisecond, for at most 2147482 s. Refuted: file in two sets, hang-up, error bit in a set without the descriptor, 33 ready descriptors, sets on failure, rounding and long timeouts. epoll_create1 and the signal mask are not modelled.",
 "C67": "Proved for any epoll that succeeds, distinct descriptors, no regular files, at most 32 answered entries; the wait for open descriptors, ppoll's rounded down. Refuted: duplicate descriptors, regular files, waiting in spite of a closed descriptor, 33 ready, ppoll timeouts.",
 "C68": "Proved for databases of well-formed lines (the last newline optional) with ids below 2^31, all of which fit the buffer. Refuted: ids of 2^31 and more, malformed, blank and comment lines, buffers too small for an earlier line and -1 instead of ERANGE, fields completed from old buffer contents, a shell pointer behind the box.",
 "C69": "Proved for databases of well-formed UTF-8 lines with ids below 2^31, at most 4096 members, all of which fit the buffer; lookup by name when no group's name is a proper prefix or an extension of the one asked for; getgrnam_r when the group exists; getgrouplist without its second argument. Refuted: prefixes, getgrnam_r's result and errors, large ids, malformed lines, getgrouplist's missing group and panics.",
 "C70": "getspent, setspent and endspent in full for well-formed files; getspnam and getspnam_r when every line that begins with the name is an entry for it (other lines may be anything), getspnam_r when the entry exists. Refuted: prefixes of names, ENOENT when there is no entry.",
 "C71": "For every client that joins or detaches each thread at most once, after its creation has returned. Mapping and cloning succeed in the model; Redox.",
 "C72": "No use after unmapping for clients that create no detached threads or do not call exit; unmapping on join in full, and at the end of a thread that was detached while running. Refuted: detaching after the end leaks, a detached thread that ends before it is registered is used by exit, caller-supplied stacks are unmapped.",
 "C73": "pthread_testcancel and the states; blocking calls and asynchronous cancellation are not modelled. Refuted: cancellation is disabled at first; pthread_setcancelstate is a cancellation point.",
 "C74": "For streams whose buffer is not changed after the first read, call by call, including getdelim, which rewrites all flags. Refuted: ungetc does not clear the end-of-file indicator.",
 "C75": "Proved: exactly the handlers registered by the forking thread run, once each, parent and child handlers in order. Refuted: prepare handlers run oldest first; handlers registered by other threads are ignored; when fork fails the parent handlers do not run.",
 "C76": "For threads whose handlers pass no cancellation point; the linked list in the caller's frames is modelled. Refuted: a cancelled thread whose handler reaches a cancellation point starts over for ever.",
 "C77": "For functions that register nothing while they run. Refuted: __cxa_finalize spins for ever, and __cxa_thread_finalize panics, when they do. Not modelled: whether exit calls __cxa_finalize.",
 "C78": "For members in range, and gmtime while the local zone is UTC; relative to chrono's calendar (Cal_model). Refuted: gmtime uses the local time zone; out of range it returns the buffer unchanged; timegm does not normalize (the second 60 included).",
 "C79": "For members in range, local times that exist, and zones of the database whose daylight saving is at least an hour; relative to chrono-tz ([zone_ok]). Refuted: half-hour daylight saving; skipped local times; no normalization; POSIX TZ strings are taken for UTC; timelocal ignores tm_isdst.",
 "C81": "Refuted: the sign of an offset with hour 0 is lost; names in angle brackets are not understood.",
 "C82": "For files not opened to append, getc, fread, ungetc, clearerr, the writing calls, fflush, ftell and fseek except SEEK_CUR after ungetc, with no failing system call and off_t unbounded. Refuted: ftell in append mode with unwritten output; SEEK_CUR after ungetc; fflush of a stream being read does not move the offset; fseek clears the error indicator.",
 "C83": "Global and weak symbols; if only weak definitions exist, one of them is found. Refuted: it is the last one, not the first; other bindings (STB_GNU_UNIQUE) reach unreachable!().",
 "C84": "Which objects are loaded, that each is once, and the order of initializers, for acyclic DT_NEEDED graphs, files found under their SONAME, and states without dlclose after a dlopen with RTLD_GLOBAL. Refuted: cycles recurse without end; a name other than the SONAME loads the file again at each dlopen; scope order is depth first; finalizers run by object id; dlsym(handle) misses indirect dependencies (all, with RTLD_GLOBAL); a failed RTLD_GLOBAL dlopen leaves dead entries that make dlsym(RTLD_DEFAULT) panic. Not modelled: search paths, relocation, thread-local storage.",
 "C85": "Handles, finalizers and unloading for every history over acyclic graphs and files named by SONAME; that dependencies stay loaded only without dlclose after RTLD_GLOBAL. Refuted: with RTLD_GLOBAL shared dependencies are unloaded while needed; RTLD_NOLOAD|RTLD_NOW panics.",
 "C86": "64-bit words, non-overlapping; wrapping addition.",
 "C87": "x86_64, dynamically linked programs: location, contents, disjointness, agreement of __tls_get_addr and TPOFF for the threads of a program without dlopen; alignment if it divides 16 and the sizes. Refuted: sizes that are no multiple of the alignment (also breaks the offsets of the static linker), alignment above 16.",
 "C88": "The first thread of the program, no failing dlopen, an allocator that gives fresh memory. Refuted: existing other threads get NULL; in threads created later, or that call dlopen before their first access, the blocks of different modules overlap; a large module makes pthread_create panic; a failed dlopen shifts module numbers, so the next module gets NULL.",
 "C89": "inet_lnaof and inet_makeaddr, if s_addr is read as a number in host byte order. Refuted: inet_netof returns the local part; the byte order of s_addr on little-endian hosts.",
 "C90": "The key list and the pointers *optionp and *valuep are values; keys must not overlap the option string.",
 "C91": "Over a small model of files and descriptors (no permissions, directories or I/O errors).",
 "C92": "Modes r and w without e, streams without unread input. Refuted: mode a (O_APPEND is cleared), unread buffered input of the old file, mode e.",
 "C93": "stdout and stderr. Refuted: every other stream.",
 "C94": "gethostname and realpath in full; getcwd except for size = length of the path, size 0 and paths of PATH_MAX bytes with a null buffer; ttyname_r if the name fits. The rest is refuted. The names themselves are parameters.",
 "C95": "For a kernel whose getdents fails only with EINVAL for a buffer that is too small. Refuted: after any other failure readdir fails with EIO until the stream is repositioned. Records are not bytes in the model.",
 "C96": "For filters that leave errno at 0; refuted otherwise. qsort is a parameter (C18).",
 "C97": "Patterns of components other than . and .. without escapes, names without leading period, without GLOB_ERR and error function, composed with the model of fnmatch of C50. Refuted: GLOB_PERIOD is inverted, components . and .., the pattern /, trailing slash, GLOB_ERR. Not covered: GLOB_NOSPACE, globfree.",
 "C98": "execv is an arbitrary function of the pathname. Refuted: an empty prefix means the root directory, names with a colon are not searched for on Redox, no shell for files of unknown format. ENOENT without PATH.",
 "C99": "Contents and modes of the files are arbitrary; reads are not short. Refuted: tab after the interpreter, empty first line, end of file instead of end of line, real instead of effective ids, EPERM and ENOENT instead of the due errors. Supplementary groups are ignored by the code. What fexec_impl does with the image is not modelled.",
 "C100": "Opening a path and the path of a directory are arbitrary functions; the kernel's table verbs are taken to do what they say. Refuted: paths are not copied, O_CLOEXEC is dropped, open and dup2 onto a descriptor close-on-exec in the parent, fchdir to a descriptor opened by the actions, relative chdir. Failing actions are modelled but nothing is proved of them.",
 "C101": "Proved for no flags, RESETIDS alone and SETSIGMASK alone. Refuted: SETSIGDEF (value 3) resets the ids and not the signals, SETSIGDEF|SETSIGMASK panics, SETPGROUP and SETSCHEDPARAM name a process by a descriptor number, the caller's cached ids change, set-user-ID is ignored without attributes, argv[0] is replaced.",
 "C102": "Descriptors are naturals; the upper table and running out of descriptors are left out, resizing the kernel's table is taken to succeed, the kernel's calls to do what they are called. Refuted: a failing dup2 marks its target free, dup2 of a descriptor onto itself clears close-on-exec, F_DUPFD ignores its minimum.",
 "C103": "What the file gives is arbitrary. Refuted: writev on a negative descriptor answers EBADFD. That the bytes beyond those read are written back unchanged is not visible here, only to another thread.",
 "C104": "What the file system answers is arbitrary; a length of 0 means to the end to it. Proved for SEEK_SET, and F_GETLK only if the lock begins with the section. Refuted: SEEK_CUR, SEEK_END and lockf mean the whole file, F_GETLK reports the start of the request, F_OFD_GETLK a negative one, flock does nothing. F_SETLKW is not implemented.",
 "C105": "The socket calls are left out: the response is an arbitrary function of the query. The name is not limited to 255 bytes. Refuted: a name of four labels is taken for the address 0.0.0.0, a trailing dot gives a malformed question, a label of 64 bytes is sent.",
 "C106": "Proved for messages whose names are either without pointer or nothing but a pointer to a name that ends before it, and whatever the identifier and the record's owner. Fuel stands for time. Refuted: a pointer to itself loops for ever, labels before a pointer lose the place in the message, the identifier and owner are not looked at.",
 "C107": "Names without pointers; otherwise as C106. Refuted: a length beyond the record crashes, a pointer gives the empty name.",
 "C108": "Bytes count as ASCII; reading does not fail; what the freed alias vector points to is an argument of the model. Proved for files whose lines all end in a newline and whose comments have lines of their own, and the searches for states after which setprotoent rewinds, which they themselves leave. Refuted: setprotoent does not rewind after getprotoent has closed the file, getprotobyname never ends after setprotoent(1), a last line without newline comes for ever, endprotoent closes descriptor 0, words of comments are aliases, an entry of one word crashes.",
 "C109": "As C108, and no comment has a second word with a slash. Refuted: aliases are ignored, services commented out are found, a last line without newline hangs.",
 "C110": "As C108, addresses without '+'. What an uninitialised address holds is an argument. gethostbyaddr when the file lacks the address is C107. Refuted: the name got from the name server is not terminated, IPv6 lines have an arbitrary address.",
 "C111": "Allocation does not fail; the name server is an argument of the model, with the responses of C106. Proved for numeric and null nodes, for names asked for, for services that are numbers. Refuted: names of services give port 0, the family of the hints is ignored, an answer without addresses is a success with a null list, AI_NUMERICHOST takes any four labels for 0.0.0.0. /etc/hosts is not read.",
 "C112": "Every call but those with a null node and AI_CANONNAME, which leaks a sockaddr (refuted). Allocation gives blocks that are not in use and does not fail.",
 "C113": "C113_bounds holds for all arguments and responses (a response may still end the program, C107). Proved for numeric hosts and for names with one byte of room to spare, with numeric services. Refuted: the buffer that just fits is refused, with EAI_MEMORY; without a name the buffer is left as it was; names of services are not looked up.",
 "C114": "For any sequence of letters and digits (what the generator of the rand crate draws), any file system, templates below 2^31 bytes. Refuted: every failure is reported as EEXIST after a hundred attempts; negative lengths of the suffix write behind the template.",
 "C115": "tmpnam with L_tmpnam + 1 bytes; access as an arbitrary function. Refuted: an array of L_tmpnam (7) bytes is overrun by one. fdopen in tmpfile is not modelled.",
 "C116": "Relative to what printf prints (C43), outputs below 2^31 bytes, an allocator that has memory. Refuted: without memory the program panics. A format that is refused gives -1 and an empty string.",
 "C117": "All numbers in range, in every base, LONG_MIN included, with the right end; out of range errno is ERANGE and the unsigned value is right. Refuted: out of range the signed functions return -1 and none stores the end; without digits the end is after the sign; a bare 0x is consumed; an invalid base panics.",
 "C118": "Decimal: integers up to 2^53 with exponents 0 to 22 (float: 2^24, 10) are correctly rounded; hexadecimal: exact with fraction and exponent up to 127 when the digits fit the precision; inf and nan. Flocq's binary64/binary32 is the arithmetic. Refuted: fractions (0.12), negative exponents (3e-1), exponents from 39 on (the power wraps in a u128: 1e128 is 0, 1e-128 infinite), infinity, nan(1), 0X, no digits.",
 "C119": "Integers up to 2^53 without a plus sign. Refuted: plus sign, exponent, hexadecimal, infinity, -0, fractions (0.3).",
 "C120": "On streams not oriented wide: fgetwc, fgetws and ungetwc for all files, buffers, short reads and sequences of calls. Refuted: on a stream oriented wide every read is WEOF at once; malformed bytes are read as character 0 without the error indicator; a character cut off by the end is a plain end; fgetws returns NULL for a line read while the error indicator was set before.",
 "C121": "On streams not oriented wide and without failing writes: fputwc, fputws for all strings, buffering modes and short writes, and the round trip through a file. Refuted: on a stream oriented wide nothing is written and success reported; a value that is no character is written as four NULs; a failing write is not reported.",
 "C125": "Proved for n equal to the number of characters. Refuted otherwise: the loop over 0..n does not look for the terminator, so wcswidth(L\"a\", 9) adds the terminator's width, reads past the array or returns -1.",
 "C126": "Proved for insert_upper, override_at, bulk_insert (both kinds), remove, get_fd_flags, set_fd_flags and from_binary_fd over every reachable table. Refuted: free slots are forgotten once slot 65536 is closed, bulk_remove panics on tagged handles, insert_at_upper counts an overwritten descriptor twice. The kernel is taken to answer EINVAL only when its table has the size already.",
 "C127": "Proved for every first argument that does not end with a slash; one that does is cut in place by basename (refuted). Modelled: Stack, copy_string_array, the argv, name and environ part of relibc_start_v1, get_auxv_raw. Not modelled: thread setup, constructors, get_auxvs' sort.",
 "C128": "Proved for guard sizes below 2^31 and for stacks of the caller of whole pages. Refuted: larger guard sizes (the setter takes an int), words written past a caller's stack of another size, a caller's stack unmapped when clone fails. Not modelled: that no guard area is ever made (read), the new thread's own steps (C71).",
 "C129": "Proved except for a first link that is relative and not in the current directory (or dirfd), which is refuted: its target is seen from there. The scheme is an oracle that answers EXDEV for a link; the canonicalisation of the crate redox_path is taken to be the textual one of the specification.",
 "C130": "Proved when nobody else changes the size of the file meanwhile. Refuted: bytes appended by another process between fstat and ftruncate are cut off (the lock taken is a no-op on Redox). Content beyond sizes is the kernel's ftruncate, taken to zero-extend.",
 "C131": "Over every directory whose positions are below 2^63 and record lengths below 2^16; the kernel's getdents and lseek are parameters. The layout of DirentHeader is that of the crate redox_syscall.",
 "C132": "The bounds are proved for all formats. The text is proved for formats of ASCII characters and conversions %[+!][width][.precision]i or n, amounts whose integer part has at most three digits or a multiple of three. Refuted: grouping counts from the left (1234 is 123,4), the flags ( - = and #, characters outside ASCII. The rounding of the double is a parameter (integer part and fraction).",
 "C133": "Proved for severities 0 to 4 and every value of MSGVERB but a list followed by a colon, which is refuted: it selects the list instead of all components. The dprintf and open calls are parameters.",
 "C134": "setlogmask is proved over every history with masks and facilities below 1024. Standard error is proved over histories with facilities that are multiples of 32; the bytes sent or buffered, NULs apart, are the records of the messages in order while no closelog or openlog(LOG_NDELAY) drops the buffer. Refuted: messages arrive in the log (the BufWriter is never flushed and has no Drop), the filter for other facilities, the default facility, records without NUL bytes. The log device takes every write; identities are UTF-8.",
 "C135": "thrd_success exactly on success, exclusion and recursive relocking (over every interleaving of the pthread mutex model of C30), thrd_exit and thrd_join values are proved. Refuted: thrd_busy, thrd_timedout and thrd_nomem are never returned (errno is looked at, which the pthread functions do not set), thrd_join stores eight bytes, thrd_sleep panics. Condition variables, keys and call_once themselves are in C31, C38 and C35.",
 "C136": "Proved for IPv4 (whole path from sockaddr_in to the text given to the network stack, and from the name text back to memory) and for AF_UNIX names that fit the caller's buffer. Refuted: the reported length of an IPv4 address cut, AF_UNIX names are written beyond the buffer, connect reads the path beyond the given length, bind with a length below 2. The kernel calls and the texts of fpath and GetPeerName are parameters; a name that is not of the form address:port makes the code panic and is outside the theorem.",
 "C137": "Proved: the stream and the queue of descriptors of sendmsg for messages with at least one area; recvmsg for streams without a source address into any areas and any non-empty control buffer, with frame. Refuted: msg_name of sendmsg is ignored, no MSG_CTRUNC without control buffer, descriptors of a message that does not fit are lost, a refused message leaves its descriptors for the next one, a message without areas lacks the length of its data. Only SCM_RIGHTS messages are covered by the positive theorems (SCM_CREDENTIALS is modelled). The scheme is a parameter: it passes streams and descriptors in order.",
 "C138": "Proved over all interleavings of calls, clock ticks and thread steps: creation, deletion (no later notification) and unknown timers in full; for a timer that rests when it is armed, every run notifies once per expiry and on time, with progress, and timer_gettime is exact unless the nanoseconds borrow. Refuted: disarming a periodic timer, arming anew a timer that runs (old time kept, new one lost), disarm before the thread starts, timer_gettime of a disarmed timer and with a borrow, drift of the intervals, a failing sigqueue, real-time signals but the first and nanoseconds out of range. The kernel's timers and event queues are modelled as stated in Timer_model.v.",
 "C139": "Proved: an alarm set when none is outstanding comes once, on time, with progress, and the next call returns the seconds left rounded up (or 0), over all interleavings. Refuted: an alarm that was cancelled is still reported, a replaced alarm comes at the old time and the new one not, and after alarm(0) the next alarm is lost. ualarm does nothing on Redox (setitimer is not implemented).",
 "C140": "Proved: the rewriting in place of any records delivered (order, conditions, word, count, nothing outside), the interest list after any sequence of calls that are in order with EPOLLIN and EPOLLOUT, the time of return when no timeout of an earlier call is left, and the refused arguments. Refuted: EEXIST (for every kernel: add and modify write the same record), EPOLLONESHOT, EPOLLET and EPOLLPRI, and a timeout left by a call that returned early. The kernel's event queue (last record counts, timeouts stay until read) is an assumption stated in Epoll_model.v; the wait under a signal mask is C57.",
 "C141": "Proved for a segment created by the process, over every sequence of attaching, storing and detaching: all attachments read the same bytes, each step is possible, and detaching takes away that attachment alone. Refuted: finding a segment by its key (for all keys and flags, the name is unlinked by shmget itself), IPC_PRIVATE without IPC_CREAT, and SHM_RDONLY (for every segment, shmat stores its header and faults). The shm scheme and shared mappings are assumptions stated in Sysvshm_model.v; shmctl is not modelled.",
 "C142": "Proved: set, get, nice and errors for processes. Refuted: PRIO_PGRP and PRIO_USER, which are refused with EINVAL.",
 "C144": "Proved: sleep and usleep in full and nanosleep for valid requests, for any kernel that sleeps as asked or is interrupted. Refuted: nanoseconds are cut to 32 bits before the kernel sees them, so 2^32 is taken for 0. clock_nanosleep is unimplemented in the code.",
 "C145": "Proved: what is reported is true, of a child meant and of a kind asked for; results and errors; the macros; invalid options; the call returns when a child meant has ended. Partial: WNOHANG and the reports of the other children, for WUNTRACED or without stopped children. Refuted otherwise: waitpid(pid, .., WNOHANG) on a stopped child never returns (for every child and signal), the report of a stop is lost by waiting for something else, EINTR is lost after a stop. The process manager is an assumption stated in Waitpid_model.v; ptrace is left out.",
 "C146": "Proved: the modes; the tables of caller and command when 0 and 1 are open in the caller; what pclose and system return and that pclose returns once the command has ended; streams that are not of popen. Refuted: with 0 or 1 closed in the caller the command has no standard input or output (for all such tables), streams of earlier calls stay open in the command, both ends of the pipe are left when fork fails, a handler without SA_RESTART ends pclose and system with EINTR, unwritten output is written twice when the shell cannot be run. Signals SIGINT, SIGQUIT and SIGCHLD, which system should ignore and block, are not modelled; the code does neither.",
 "C147": "Proved: ptsname_r and ptsname in full, login_tty, openpty when the name can be had, forkpty for every table of the caller and every failure. Refuted: openpty takes no notice of the positive error of ptsname_r and opens what the caller's buffer held before. The controlling terminal is not modelled: ioctl TIOCSCTTY does nothing in the code.",
 "C148": "Proved: cfmakeraw bit by bit for all structures, attributes, size and process group got as set, the requests sent to the terminal, refusals and EINVAL, FIONBIO. Refuted: TCSADRAIN and TCSAFLUSH are the same as TCSANOW for every terminal, no speed can be set and 0 is got, tcsetpgrp returns the process group. Assumed: the driver keeps what was written last. tcgetsid is not modelled.",
 "C149": "Proved: strerror for all ints (texts of 28 named errors, the number in the text of unknown ones, nothing cut off by STRERROR_MAX), strsignal, psignal with no or a non-empty prefix, perror for known errors and UTF-8 prefixes when write takes all bytes, the six err.h functions and err_set_file. Refuted: strerror_r goes through the buffer all threads share; psignal with an empty prefix writes the colon; perror's text for unknown errors is not strerror's, and it leaves out a prefix that is not UTF-8; the function set by err_set_exit gets the error instead of the exit status. Assumed: what vfprintf prints, is UTF-8 or not.",
 "C150": "Proved: the initial values, setlocale for all categories except for frac_digits, the names got back, definition files whose values have no blanks (last value of each keyword, values continued after backslashes, other keywords, strings, groupings, numbers), uselocale and localeconv, duplocale of a locale and freelocale, newlocale on a base except for frac_digits. Refuted: the C locale of setlocale and newlocale has no decimal point; after setlocale(LC_ALL) the other categories keep their old names; frac_digits is set with LC_NUMERIC; newlocale with no base ignores the mask; duplocale of the global locale gives the C locale; values with blanks are cut. The pointers in lconv are modelled by what they point to.",
 "C151": "Proved, for ASCII settings and any hash functions whose texts are ASCII and as long as those of MD5 and SHA: MD5, SHA-256 and SHA-512 with and without rounds (stored rounds are the clamped ones and read back), and Argon2 settings that fit. Refuted: no scrypt or PBKDF2 text ever verifies a password; a Blowfish text lacks the salt; a long salt writes beyond crypt_data; a setting with a letter beyond ASCII panics. The hash functions are parameters; how crypt's text is returned (a leaked copy) is not modelled.",
 "C152": "Proved for patterns compiled without REG_NOSUB, -1 read as the largest size_t, and texts that fit; the size returned and the bytes of cut texts always. Refuted: with REG_NOSUB pmatch is written (the flag is looked for in regexec's flags); offsets are unsigned, so that rm_so < 0 never holds; a text cut is not terminated. Matching itself is in the crate posix-regex, a parameter here.",
 "C153": "Proved: munmap, mprotect, errors for lengths, and mmap with MAP_SHARED or MAP_PRIVATE and any of MAP_FIXED, MAP_ANONYMOUS, MAP_STACK, for descriptors other than -1; the names of shared memory. Refuted: mmap of descriptor -1 without MAP_ANONYMOUS maps fresh memory; MAP_POPULATE is the bits of MAP_SHARED, MAP_FIXED and MAP_FIXED_NOREPLACE; shm_open does not set FD_CLOEXEC. The kernel's fmap, mprotect and funmap are modelled from the documentation of redox_syscall. msync, mremap and madvise are ENOSYS in the code and not modelled.",
 "C154": "Proved: utimensat without AT_SYMLINK_NOFOLLOW, futimens for descriptors other than -100, utimes, utime with times, their errors, no descriptor left open, EINVAL for wrong fractions of a second that fit in 32 bits, and that no number of microseconds is taken for UTIME_NOW or UTIME_OMIT; the clock functions. Refuted: AT_SYMLINK_NOFOLLOW is passed as a flag of open and lost, so the target's times are set; utime with a null pointer dereferences it; tv_nsec is cut to 32 bits, so 2^32+5 is 5 and 4294968 microseconds are 704 nanoseconds; futimens(AT_FDCWD) sets the times of the current directory. How the kernel finds files, and what a file system does with the two stamps, are parameters.",
 "C155": "Proved for every interference: exactly one instance of a signal of the set is taken on success and nothing on failure. Proved without interference: the lowest pending is taken at once, queued ones oldest first, the sender reported, arrivals end the wait, EAGAIN at the end of the time. Refuted: sigwait returns -1 for errors; EAGAIN before the time is over if another thread takes the signal that ended the sleep; unblocked signals outside the set do not interrupt the wait (the set becomes the whole set of allowed signals); the sender of a real-time signal sent to a thread is not reported. The mask is the matter of C57; si_code and si_value of standard signals are always 0 in the code. The kernel's Sigdeq and nanosleep are modelled.",
 "C156": "Proved: any number of sbrk calls with increments that are not negative, their areas, brk upwards, failures that leave the break, no memory at all. Refuted: the break cannot be moved back (brk and sbrk fail with ENOMEM); sbrk(0) returns a null pointer if nothing can be mapped. The limit is the 4 megabytes of the code. Threads calling at the same time are not modelled (the variables are not protected).",
 "C157": "Proved: the strings of every item but CODESET (up to the implementation) and CRNCYSTR, the empty string for other numbers, the names strftime prints, that each of the four formats prints what the standard says of the conversion it stands for, that %x, %X and %r print the same as the items for any struct, and agreement with localeconv before setlocale. Refuted: %c (strftime does not know it), CRNCYSTR is \".\" and not \"-\", no locale but \"C\" is followed. Not modelled: that the strings may not be written to.",
 "C158": "Proved for every content of the files, valid or not, and every split of the reads: success exactly stores the host name (64 bytes at most) and the four lines, failure is -1 with EIO, nothing outside changes; success if the files are in order. Refuted: a newline at the end of /etc/hostname becomes part of nodename. Not modelled: which byte strings are UTF-8 (a parameter), errors while the second file is read, the closing of the files.",
 "C159": "Proved: chdir in full, with its errors; fchdir but for the kind of the object; relative names after chdir; any history leaves the program's descriptors as they were and closes all but the last of its own. Refuted: fchdir accepts a file that is no directory. The kernel's opening of names and the canonical forms of the crate redox_path are parameters: that the name stored is a name of the directory opened is not proved (with symbolic links it need not be). Threads are not modelled; a lock protects the directory in the code.",
 "C160": "Proved for every policy: setresuid, seteuid and their counterparts for groups in full (but for -1 in seteuid), the ids that setreuid and setuid set besides the saved one, failures that change nothing, and that the library's copy of the ids is the manager's after any history. Refuted: setuid and setreuid leave the saved id, so a process that gave up user 0 with setuid can become it again; setuid without privileges changes the real id as well; setuid(-1) and seteuid(-1) succeed. Which requests are allowed is the process manager's affair (a parameter); that it takes 2^32-1 for an id to be left is assumed. Threads, posix_spawn and setgroups are not modelled here.",
 "C161": "Proved for every history: range, repeatability, the numbers without srand, rand_r, and that seeds that differ in the low eight bits give different first numbers. Refuted: the upper bits of the seed are ignored, so there are 256 different sequences. The crates rand and rand_xorshift are modelled as published, not from source (they are not in the repository). Threads are not modelled.",
 "C162": "Proved: the functions walk through every well-formed buffer, the macros through those whose last message has data (or that hold one message), data and sizes; whatever the buffer holds, the walk with the macros ends and stays in it if the lengths in it are below 2^63. Refuted: the macro misses a last message without data, which the function finds; the function returns the same header for ever on a length of 0, the macro on one of 2^64-1. msg_control and msg_controllen are arguments, 64-bit.",
 "C163": "Proved for every group file all of whose lines can be read: the ids, their number, the array, size 0, too little room, negative size. Refuted: getgroups ends the caller's walk with getgrent, so that a loop that does both never ends; the groups are looked up for the effective user, so seteuid changes them; a line that cannot be read hides the groups after it. Lines are taken as already read (Grp_model reads them); getpwuid is a parameter. setgroups is not implemented (ENOSYS).",
 "C164": "Proved for x86_64, every state and every handler: the general registers but for rcx (and r11 for a dequeued realtime signal), the stack and instruction pointers, the flags, the lower halves of the vector registers and the upper halves of ymm0 and ymm1. Refuted: rcx is overwritten with the signal's number before it is saved; r11 is overwritten by the system call that dequeues a realtime signal; the upper half of ymm2 becomes that of ymm15 and those of ymm3 to ymm15 are left as the handler left them, since every vinsertf128 from the third on names ymm2. Registers only; the choice of the signal, the handler and the kernel's part are arbitrary within stated limits; x87 state and arch_pre are not modelled.",
 "C165": "Proved: every history of calls with stacks that are neither at address 0 nor reach the end of the address space gives the results and reports described (SS_ONSTACK being accepted), the switch to the alternate stack, and staying on the current one with at least 144 bytes left. Refuted: SS_ONSTACK is accepted as a flag; a stack whose end is no multiple of 16 is accepted and the handler starts there, misaligned; with less than 128 bytes left on the alternate stack a second signal starts again at its end, over the frames in use. One thread, x86_64.",
 "C166": "Proved: on aarch64 all of x0 to x30 but x1, x2 and x18, sp, pc and the flags; on i686 the general purpose registers, eip, eflags, xmm0 to xmm7, and the x87 state for dequeued realtime signals. Refuted: on aarch64 x1 and x2 come back exchanged, x18 holds the address resumed at, and no vector register is saved; on i686 reading the sender with mm0 marks all x87 registers as in use (no emms), and the upper halves of ymm are not saved. riscv64 and spurious signals are not modelled.",
 "C167": "Proved: without an allowed standard signal pending for the thread, one pending for the process and allowed is handled, only its bit is cleared and the mask stays. Refuted: for a standard signal of the thread the number of the signal is stored in place of the word, so that none of the 32 is allowed afterwards, and of several pending a blocked one is handled; for a realtime signal of the thread the number handled is no signal's and the signal stays pending; the sender of a signal for the process is not recorded. Exclusive stores succeed; process-directed realtime signals are left out.",
 "C168": "C168_choice holds for every state of the words, on both architectures. A realtime signal pending for thread and process is the thread's first on x86_64 (C168_thread_first), the process' on i686 (C168_process_first), although both comments have it the thread's. For realtime signals of the thread the code reads the sender behind the end of the array of senders; the model takes what it finds there as the sender. Other threads do not take the process' signal meanwhile; the system call that dequeues is left out."
}