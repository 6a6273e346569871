#!/usr/bin/env python3
"""Regenerates /verif/properties.jsonl from the table below."""
import json, os
P = []
def p(title, statement, quantifier, why, anchors):
    P.append(dict(id="C%02d" % (len(P)+1), title=title, statement=statement,
                  quantifier=quantifier, why_tests_cant=why, anchors=anchors))
S="src/header/string/mod.rs"
p("strlen and strnlen count exactly the bytes before the terminator and never read past it",
  "strlen(s) returns the number of bytes before the first NUL. strnlen(s,n) returns the smaller of that number and n. Neither changes memory; strlen reads nothing after the NUL and strnlen reads no byte at offset n or beyond, so both are safe when the mapping ends right there.",
  "every memory, every string content and length, every n (including n larger than the string and n smaller than it with no NUL at all)",
  "lengths and contents are unbounded, and over-reads are silent in a test unless a guard page happens to follow",
  [S+": strlen, strnlen, strnlen_s", "src/iter.rs: NulTerminated"])
p("memcpy, memmove and memset write exactly the requested range",
  "After memcpy (disjoint ranges), memmove (arbitrarily overlapping ranges) or memset, bytes dst..dst+n hold what the source range held before the call (or the fill byte, converted to unsigned char), every other byte of memory is unchanged, nothing outside the two ranges is accessed, and dst is returned.",
  "every memory, every n, every pair of addresses (all overlap distances for memmove), every int fill value",
  "overlap distances times lengths times contents cannot be enumerated; a stray write shows up only in a byte nobody checks",
  [S+": memcpy, memmove, memset"])
p("memcmp orders by the first differing byte",
  "memcmp(a,b,n) is zero iff the n bytes agree, and otherwise has the sign of the difference of the first differing bytes taken as unsigned char, although the code compares machine words and ignores alignment; it reads nothing beyond n bytes.",
  "every pair of buffers, every n (multiple of the word size or not), every position of the first difference",
  "the word/tail split makes behaviour depend on n mod 8, the differing position and byte values jointly; host endianness hides ordering mistakes",
  [S+": memcmp"])
p("memchr, memrchr and memccpy find the first / last occurrence",
  "memchr returns the address of the first byte equal to (unsigned char)c in the n-byte range or NULL when there is none; memrchr the last one; memccpy copies up to and including the first occurrence and returns the address after it in the destination, or copies n bytes and returns NULL. Nothing else changes.",
  "every buffer, every n, every int c",
  "all buffers and positions of occurrences", [S+": memchr, memrchr, memccpy"])
p("strstr and memmem return the leftmost occurrence of the needle",
  "memmem / strstr return the address of the leftmost position at which the whole needle occurs, NULL if it occurs nowhere, and the haystack itself when the needle is empty (even when the haystack is empty too); strstr reads no byte past either terminator.",
  "every haystack and needle", "self-overlapping needles and near-matches at the end are unbounded families",
  [S+": memmem, inner_strstr, strstr"])
p("strcpy, stpcpy, strncpy and stpncpy copy and pad exactly",
  "strcpy/stpcpy copy the source including its NUL and return dst / the address of the written NUL; strncpy/stpncpy write exactly n bytes: the first min(n,strlen) source bytes followed by NULs, returning dst / the address of the first written NUL (or dst+n). Memory outside the written range is unchanged and no source byte after the NUL or beyond n is read.",
  "every source string, every n, every pair of non-overlapping regions",
  "n below, at and above the length with arbitrary contents, plus the frame condition over all other addresses",
  [S+": strcpy, stpcpy, strncpy, stpncpy", "src/iter.rs: SrcDstPtrIter"])
p("strcat, strncat, strlcpy and strlcat respect their bounds and always terminate",
  "strcat/strncat append the (at most n) source bytes and one NUL to the destination string. strlcpy/strlcat never write at or beyond dst+dstsize, NUL-terminate whenever dstsize>0 (strlcat: whenever the destination was terminated within dstsize), and return strlen(src) / min(dstsize,strlen(dst))+strlen(src), so truncation is detectable. Everything else in memory is unchanged.",
  "every source, destination, n and dstsize (0 included)", "off-by-one at every relation of the three lengths; frame over all addresses",
  [S+": strcat, strncat, strlcpy, strlcat"])
p("strcmp and strncmp give a consistent total order on byte strings",
  "strcmp/strncmp return a value whose sign is the lexicographic comparison of the strings (first n bytes for strncmp) as unsigned char; hence zero iff equal, antisymmetric and transitive, so they are safe as qsort/bsearch comparators. No byte after a difference, a terminator or n is read.",
  "every pair / triple of strings, every n", "order laws range over all triples of strings; bytes >= 0x80 are where signed comparison goes wrong",
  [S+": strcmp, strncmp, strcoll"])
p("strchr, strchrnul and strrchr locate characters, the terminator included",
  "strchr(s,c) returns the first occurrence of (char)c in the string, the terminating NUL being part of the string; strrchr(s,c) the last occurrence under the same convention; strchrnul returns the terminator's address instead of NULL.",
  "every string and every int c, including c == 0 and c whose low byte is 0", "all strings times all characters; c=0 is an easily missed convention",
  [S+": strchr, strchrnul, strrchr"])
p("strspn, strcspn, strpbrk and strsep split at the right byte",
  "strspn/strcspn return the length of the longest prefix made only of / of none of the given bytes; strpbrk returns the first byte in the set or NULL; strsep overwrites exactly that delimiter with NUL, advances the cursor past it (or sets it to NULL at the end) and returns the old cursor, so iterating strsep yields exactly the fields between delimiters, empty ones included.",
  "every string and every delimiter set", "sets range over all subsets of 255 byte values implemented with a bit array",
  [S+": inner_strspn, strspn, strcspn, strpbrk, strsep"])
p("strtok_r enumerates the tokens of a string, in order, exactly once",
  "Calling strtok_r(s,...) and then strtok_r(NULL,...) until NULL returns precisely the maximal delimiter-free non-empty substrings of the original string, left to right, each NUL-terminated in place; further calls keep returning NULL; bytes outside the string are never written.",
  "every string, every delimiter set, the whole history of calls", "the property is about whole call histories with state in *lasts, over unbounded strings",
  [S+": strtok_r, strtok"])
p("strcasestr matches ignoring letter case only",
  "strcasestr(h,n) returns the leftmost position where n occurs in h up to ASCII letter case (letters only), never matching distinct non-letters and never reading past the terminator.",
  "every haystack and needle", "the wrong matches are specific byte pairs in arbitrary context", [S+": strcasestr, inner_strstr"])
p("strdup, strndup and strxfrm produce faithful copies",
  "strdup/strndup return a freshly allocated NUL-terminated copy of the (first n bytes of the) string, allocating exactly one byte more than copied, or NULL with errno ENOMEM; strxfrm returns strlen(src) and copies iff it fits, and comparing transformed strings with strcmp is the same as strcoll of the originals. strerror_r never writes beyond buflen, terminates when buflen>0, and returns ERANGE iff the message was truncated.",
  "every string, every size, every allocator outcome", "allocation failure and all size relations", [S+": strdup, strndup, strxfrm, strerror_r"])
p("Character classification and case-insensitive comparison agree with the C locale",
  "isalpha, isdigit, isspace, ... accept exactly the C-locale ASCII sets for every int argument; tolower/toupper change only ASCII letters and are idempotent; strcasecmp/strncasecmp return 0 iff the strings are equal after tolower, and their sign is the lexicographic order of the lower-cased strings.",
  "every int argument; every pair of strings; every n", "2^32 arguments; the comparison order ranges over all string pairs",
  ["src/header/ctype/mod.rs", "src/header/strings/mod.rs: strcasecmp, strncasecmp"])
p("strtol and strtoul convert every numeral correctly in every base",
  "strtol/strtoll/strtoul/strtoull: after optional white space and sign, the longest prefix that is a numeral in the given base (2..36, or detected from 0/0x when base is 0; 0x allowed for base 16) is converted; the value is exact when it fits, clamped to the type's limit with errno ERANGE when it does not (errno untouched otherwise), *endptr points just after the numeral, or at nptr when there is none; base outside {0,2..36} gives EINVAL and 0.",
  "every string (any number of digits), every base, every endptr", "digit strings are unbounded and the overflow boundary differs per base and sign",
  ["src/macros.rs: strto_impl", "src/header/stdlib/mod.rs: strtol, strtoul, strtoll, strtoull, is_positive, detect_base, convert_octal, convert_hex, convert_integer", "src/header/inttypes/mod.rs: strtoimax, strtoumax"])
p("atoi, atol and atoll return the value of the leading decimal numeral",
  "atoi/atol/atoll skip white space, accept one optional sign and return exactly the value denoted by the following decimal digits whenever it is representable in the result type, including the most negative value, with no intermediate overflow.",
  "every string whose numeral is representable", "the accumulate-negatively trick matters only at the extreme value; digits unbounded (leading zeros)",
  ["src/header/stdlib/mod.rs: atoi, atol, atoll, dec_num_from_ascii, dec_num_int_from_ascii"])
p("a64l inverts l64a",
  "a64l(l64a(v)) equals v for every value representable in 32 bits, and l64a output contains only the 64 documented characters, at most six of them, most significant non-zero.",
  "all 2^32 values", "2^32 inputs; sign extension matters for half of them", ["src/header/stdlib/mod.rs: a64l, l64a"])
p("qsort produces a sorted permutation for any element size",
  "qsort(base,n,w,cmp) leaves the n records of w bytes a permutation of the original records, ordered by cmp whenever cmp is a total preorder, preserves the order of equal records, and touches no byte outside the array; the comparator is called only on array elements.",
  "every n, every w > 0 (larger than the internal swap buffer or not), every array and every consistent comparator", "all arrays x comparators; record sizes around the chunk size of the swap loop",
  ["src/header/stdlib/sort.rs: sort, insertion_sort, swap", "src/header/stdlib/mod.rs: qsort, qsort_r"])
p("bsearch finds a match iff one exists and only inspects array elements",
  "On an array partitioned consistently with the comparator, bsearch returns the address of an element comparing equal to the key iff one exists, NULL otherwise; it terminates, and the comparator only ever sees element addresses within the array.",
  "every n (0 included), every width, every sorted array and key", "midpoint arithmetic errors appear only for particular n and key positions", ["src/header/stdlib/mod.rs: bsearch"])
p("The drand48 family follows the documented recurrence",
  "Every drand48/lrand48/mrand48 call advances the shared 48-bit state by X' = (a X + c) mod 2^48 and returns its top 48/31/32 bits; erand48/nrand48/jrand48 do the same on the caller's array without touching the shared state; srand48 sets X to seed*2^16+0x330E and restores default a and c; seed48 installs a new X, restores default a and c and returns the old X; lcong48 sets X, a and c. Hence equal seeds give equal sequences.",
  "every sequence of calls from every state and seed", "histories of mixed calls over 2^48 states", ["src/header/stdlib/rand48.rs", "src/header/stdlib/mod.rs: drand48, erand48, jrand48, lcong48, lrand48, mrand48, nrand48, seed48, srand48"])
p("random() state can be saved, switched and restored",
  "srandom(seed) determines the whole future sequence of random(); initstate/setstate return the previous state so that switching back resumes the interrupted sequence exactly where it stopped, and every result is in [0,2^31).",
  "every interleaving of random, srandom, initstate, setstate", "history property over unbounded call sequences and five state sizes", ["src/header/stdlib/random.rs", "src/header/stdlib/mod.rs: random, srandom, initstate, setstate"])
p("getenv reflects the history of setenv, putenv and unsetenv",
  "After any sequence of setenv/putenv/unsetenv calls with valid names, getenv(name) returns the value most recently set for exactly that name (and NULL if unset since), for one name independently of all others; setenv with overwrite=0 never changes an existing value.",
  "every call history, every set of names (including names that are prefixes of each other) and values of any length", "histories are unbounded; in-place overwrites versus reallocations depend on previous value lengths",
  ["src/header/stdlib/mod.rs: getenv, setenv, putenv, unsetenv, find_env, put_new_env, copy_kv"])
p("exit runs atexit handlers once each, in reverse order of registration",
  "exit() calls every successfully registered handler exactly once in reverse order of registration (a handler registered twice runs twice); atexit fails cleanly when its table (at least 32 entries) is full, without disturbing earlier registrations.",
  "every sequence of registrations, including registrations made by handlers while exit is running", "re-entrant registration histories", ["src/header/stdlib/mod.rs: atexit, exit, ATEXIT_FUNCS"])
p("calloc and reallocarray never allocate less than requested through overflow",
  "calloc(n,size)/reallocarray(p,n,size) return NULL with ENOMEM whenever n*size exceeds SIZE_MAX, otherwise they request exactly n*size bytes (calloc zeroing all of them); on failure reallocarray leaves the old block untouched.",
  "every pair of size_t values, every allocator outcome", "2^128 argument pairs", ["src/header/stdlib/mod.rs: calloc, reallocarray, realloc"])
p("Multibyte conversion is an exact UTF-8 codec",
  "wcrtomb(c) produces the UTF-8 encoding for every Unicode scalar value and fails with EILSEQ otherwise; mbrtowc decodes exactly the well-formed sequences (no overlong forms, no surrogates, nothing above U+10FFFF), returns the number of bytes consumed, and mbrtowc(wcrtomb(c)) = c.",
  "every code point and every byte sequence", "1.1 million code points and all byte sequences, including every truncated or malformed one", ["src/header/wchar/utf8.rs: get_char_encoded_length, mbrtowc, wcrtomb", "src/header/wchar/mod.rs"])
p("Timespec arithmetic is exact or fails",
  "Adding two timespecs gives the exact sum with 0 <= tv_nsec < 10^9, or reports failure when it is not representable; subtracting gives the exact difference, clamped as documented when the result would be negative. Deadlines computed from them never wrap.",
  "all pairs of valid timespecs", "2^126 pairs; borrow and overflow corners", ["src/header/bits_timespec/mod.rs: timespec::add, timespec::subtract"])
p("strftime never overruns its buffer and reports truncation as 0",
  "strftime writes at most maxsize bytes including the NUL; when it returns n>0 the buffer holds a string of exactly n bytes; it returns 0 when the output does not fit.",
  "every format string, every struct tm, every maxsize", "format language times field values times buffer sizes", ["src/header/time/strftime.rs: strftime"])
p("strftime conversions denote the C-standard fields and strptime inverts them",
  "%Y %m %d %H %M %S %j %C %y %U %W %V... produce the value and width required by the C standard for every valid struct tm; parsing the output of strftime with the same separator-delimited format recovers the fields.",
  "every valid struct tm", "each field has its own off-by-one; weeks depend jointly on yday and wday", ["src/header/time/strftime.rs", "src/header/time/strptime.rs"])
p("A mutex is held by at most one thread and unlock never strands a waiter",
  "For pthread_mutex-style lock/trylock/unlock on the internal mutex: at no time do two threads hold it; when the holder unlocks, if any thread is blocked in lock then some thread becomes able to proceed - no state exists in which the mutex is free and every waiter sleeps forever.",
  "any number of threads, every interleaving of their atomic steps, spurious futex wake-ups included", "interleavings are unbounded; the lost wake-up window is a few instructions wide", ["src/sync/mutex.rs: manual_try_lock_generic, manual_lock_generic, manual_unlock_generic", "src/sync/mod.rs: wait_until_generic, AtomicLock"])
p("pthread_mutex types report misuse as documented",
  "PTHREAD_MUTEX_RECURSIVE is relockable by its owner and released after as many unlocks as locks; PTHREAD_MUTEX_ERRORCHECK relock by the owner fails with EDEADLK and trylock of a held mutex with EBUSY; unlock by a thread that does not own an errorcheck/recursive mutex fails with EPERM and changes nothing; mutual exclusion holds for all kinds.",
  "any number of threads, every interleaving, every nesting depth", "histories and interleavings", ["src/sync/pthread_mutex.rs: RlctMutex"])
p("Condition variables lose no wake-up",
  "If a thread blocks in pthread_cond_wait/timedwait before another thread calls signal or broadcast, the signal is not lost: at least one waiter (all, for broadcast) returns; the caller always re-owns the mutex on return.",
  "any number of waiters and signallers (holding the mutex or not), every interleaving", "the window between unlocking the mutex and futex_wait is a few instructions", ["src/sync/cond.rs: Cond"])
p("A barrier releases exactly its count of threads per cycle",
  "No thread returns from pthread_barrier_wait before count threads have called it in that cycle; all count then return and exactly one of them gets PTHREAD_BARRIER_SERIAL_THREAD; the barrier is immediately reusable for the next cycle, even if a fast thread re-enters before slow ones left.",
  "every count >= 1, any number of cycles, every interleaving", "re-use races need unlimited rounds and schedules", ["src/sync/barrier.rs"])
p("Read-write locks exclude writers from everyone",
  "At no time does a writer hold the lock together with a reader or another writer; try variants never block and succeed only if that is safe; when the last holder unlocks no sleeping waiter is left behind while the lock is free.",
  "any number of threads, every interleaving", "interleavings", ["src/sync/rwlock.rs"])
p("Semaphores never go below zero and every post admits one wait",
  "The number of completed waits never exceeds the initial value plus the number of posts; sem_trywait succeeds iff the value is positive at its linearisation point; a blocked sem_wait is released by a post and does not fail merely because another thread changed the value.",
  "any number of threads, every interleaving, every initial value", "interleavings; spurious failure window between load and futex_wait", ["src/sync/semaphore.rs", "src/header/semaphore/mod.rs"])
p("pthread_once runs the initialiser exactly once and nobody returns before it finished",
  "Among any number of concurrent pthread_once/call_once calls on one control, the init routine runs exactly once and every call returns only after it completed.",
  "any number of threads, every interleaving", "interleavings", ["src/sync/once.rs", "src/sync/waitval.rs"])
p("pthread_join style hand-off delivers the value once it is posted",
  "A waiter on a one-shot value returns only after the value was posted, obtains exactly the posted value, and never sleeps forever once it is posted.",
  "every interleaving of one poster and any number of waiters", "interleavings", ["src/sync/waitval.rs: Waitval"])
p("Spin locks exclude",
  "At most one thread holds a pthread_spinlock_t; pthread_spin_trylock returns EBUSY iff it did not acquire it.", "any number of threads, every interleaving, spurious compare-exchange failure included",
  "interleavings", ["src/header/pthread/spin.rs"])
p("Thread-specific data is per thread and destructors run as specified",
  "pthread_getspecific returns the value last set by the same thread for that key (NULL initially), independent of other threads and keys; keys returned by pthread_key_create are distinct from all live keys; at thread exit each non-NULL value of a key with a destructor is passed to it once per round with the slot already NULL, at most PTHREAD_DESTRUCTOR_ITERATIONS rounds.",
  "every history of key_create/key_delete/setspecific/exit over any number of threads, fewer than 2^64 - 1 key creations, destructors that set values again included", "histories and re-entrant destructors", ["src/header/pthread/tls.rs"])
p("Buffered output reaches the descriptor complete and in order",
  "For a fully buffered, line buffered or unbuffered FILE: at any time, the bytes written to the descriptor followed by the bytes still buffered equal the concatenation of the bytes accepted by fwrite/fputs/putc, in order, without loss or duplication, for any pattern of short writes and errors; after a successful fflush nothing is left in the buffer; line-buffered streams deliver every completed line.",
  "every sequence of writes and flushes, every behaviour of write(2) (short counts, EINTR, errors)", "environment behaviour is an unbounded oracle", ["src/io/buffered.rs: BufWriter, LineWriter", "src/io/mod.rs: write_all", "src/header/stdio/mod.rs: FILE::write, flush"])
p("Buffered input returns the file's bytes exactly once, after pushed-back ones",
  "The concatenation of what fread/getc return equals pushed-back bytes (last in first out) followed by the file's contents, no byte skipped or repeated, for any chunking by read(2) and any buffer size; EOF is reported only when the descriptor is at end.",
  "every interleaving of getc, fread, ungetc, setvbuf; every chunking by read(2)", "environment chunking is unbounded", ["src/header/stdio/mod.rs: FILE::read, fill_buf, consume, getc_unlocked, ungetc, fread, setvbuf"])
p("fgets and getdelim return whole lines without overrunning",
  "fgets(buf,n) stores at most n-1 bytes plus NUL, stops right after the first newline, returns NULL only if nothing was read; getdelim/getline return the line through the delimiter, growing the buffer as needed, and the stream position is just after what was returned.",
  "every stream contents, chunking, pushed-back bytes, every n", "unbounded contents and chunkings", ["src/header/stdio/mod.rs: fgets", "src/header/stdio/getdelim.rs"])
p("snprintf bounds, terminates and reports the full length",
  "snprintf(buf,n,fmt,...) writes at most n bytes, the result is the first n-1 bytes of the full output followed by a NUL for every n>0, and the return value is the length of the untruncated output; n == 0 writes nothing.",
  "every output produced in any pieces, every n", "all split points of the output across internal writes", ["src/platform/mod.rs: StringWriter, CountingWriter", "src/header/stdio/mod.rs: vsnprintf, vsprintf"])
p("printf integer conversions denote the right number with the right padding",
  "%d %i %u %x %X %o (with flags - + space 0 #, width and precision) print a numeral that denotes the argument, in the base of the conversion, with sign, prefix, minimum digits and padding as the C standard prescribes.",
  "every argument value, width, precision and flag combination", "flag combinations times 2^64 values times widths", ["src/header/stdio/printf.rs: fmt_int, pad, inner_printf"])
p("scanf integer and string conversions read the longest matching text and consume exactly it",
  "sscanf %d/%u/%x/%o/%i skip white space, read the longest prefix that is a (signed) numeral within the field width, store its value, fail to match when there are no digits, and leave the input just after the numeral; %s, %c and %[ store the longest matching text within the field width, terminated except for %c, and nothing else.",
  "every input string and field width", "unbounded inputs", ["src/header/stdio/scanf.rs: inner_scanf", "src/header/stdio/reader.rs"])
p("getopt visits every option and leaves optind at the first operand",
  "Repeated getopt calls report each option character of every option argument up to the first non-option or after --, with optarg set to the attached or following argument for options that take one, '?' or ':' for unknown options and missing arguments, then -1 with optind the index of the first operand; it never reads beyond argc.",
  "every argv and optstring, the whole history of calls", "histories over unbounded argv", ["src/header/getopt/mod.rs"])
p("getopt_long selects the option the user named",
  "A long option matching a name exactly selects it; an unambiguous prefix selects the only candidate; an ambiguous one is an error; values attach via = or the next argument according to has_arg.",
  "every option table and argv", "tables and arguments are unbounded; exact-versus-prefix conflicts depend on table order", ["src/header/getopt/mod.rs: getopt_long, parse_long_opt"])
p("IPv4 text conversions invert each other and reject malformed input",
  "inet_pton(AF_INET, inet_ntop(AF_INET,a)) = a for every address; inet_ntop never writes beyond size; inet_pton accepts exactly dotted decimal quads with octets 0..255 and leaves dst untouched otherwise; inet_aton accepts the 1..4 part forms and yields the address they denote.",
  "all 2^32 addresses, all strings", "2^32 addresses and unbounded malformed strings", ["src/header/arpa_inet/mod.rs", "src/header/bits_arpainet/mod.rs"])
p("Byte-order conversions are involutions with the documented layout",
  "htonl/htons/htobe*/be*toh produce the value whose in-memory bytes are most significant first, le variants least significant first, and each to/from pair composes to the identity.",
  "all 16/32/64-bit values", "2^64 values", ["src/header/bits_arpainet/mod.rs", "src/header/endian/mod.rs"])
p("basename and dirname split every path as POSIX prescribes",
  "basename returns the final component with trailing slashes removed, dirname the parent, for every path (NULL, empty, only slashes, repeated and trailing slashes), writing only inside the given string.",
  "every path string", "unbounded slash patterns", ["src/header/libgen/mod.rs"])
p("fnmatch decides the POSIX pattern relation",
  "fnmatch(pattern,string,flags) returns 0 exactly when the pattern (with ?, *, bracket expressions and backslash escapes) matches the whole string under FNM_PATHNAME, FNM_PERIOD, FNM_NOESCAPE.",
  "every pattern, string and flag set", "patterns with nested stars against unbounded strings", ["src/header/fnmatch/mod.rs"])
p("sigprocmask updates exactly the blocked set and never loses a pending signal",
  "SIG_BLOCK/SIG_UNBLOCK/SIG_SETMASK change the thread's blocked set to the union/difference/copy, returning the old set; SIGKILL and SIGSTOP can never be blocked; signals made pending concurrently with the update stay pending.",
  "every mask, every current state, every interleaving with concurrent delivery of pending bits", "2^64 masks and races on one word", ["redox-rt/src/signal.rs: modify_sigmask, set_allowset_raw, get_allowset_raw, set_sigmask, or_sigmask, andn_sigmask"])
p("Shared-memory ring buffers hand out disjoint live chunks",
  "The shared-memory allocator behind Redox ring I/O never returns a chunk overlapping one that is still allocated, returns only in-bounds aligned chunks, and after any history the free and allocated chunks partition the region.",
  "every history of allocations and releases", "histories", ["src/platform/redox/ring.rs: ShmAllocator"])
# --- appended as the model grew ---
p("ffs, ffsl and ffsll locate the lowest set bit",
  "ffs/ffsl/ffsll return 0 for 0 and otherwise the 1-based index of the least significant set bit of the two's complement argument, negative values included.",
  "all 2^32 / 2^64 values", "2^64 values", ["src/header/strings/mod.rs: ffs, ffsl, ffsll"])
p("strtoimax and strtoumax agree with strtoll and strtoull",
  "strtoimax/strtoumax convert exactly like strtoll/strtoull for the intmax_t/uintmax_t range: exact value when representable, clamped to INTMAX_MIN/INTMAX_MAX/UINTMAX_MAX with ERANGE otherwise.",
  "every string and base", "unbounded digit strings; only values with the top bit set expose a wrong clamp", ["src/header/inttypes/mod.rs: strtoimax, strtoumax", "src/macros.rs: strto_impl"])
p("aligned_alloc, memalign and posix_memalign validate alignments",
  "memalign fails with EINVAL exactly when the alignment is not a power of two, aligned_alloc exactly when it is not a power of two dividing the size, posix_memalign returns EINVAL exactly when it is not a power of two multiple of sizeof(void*); in those cases nothing is asked of the allocator, otherwise exactly the given size and alignment are; allocator failure is reported as ENOMEM.",
  "every size_t alignment and size, every allocator outcome",
  "2^128 argument pairs",
  ["src/header/stdlib/mod.rs: aligned_alloc, memalign, posix_memalign"])
p("Multibyte string conversions tell incomplete from invalid input and convert whole strings",
  "mbrtowc returns (size_t)-2 exactly when the n given bytes are a proper prefix of a character, (size_t)-1 for bytes that cannot start one, and never reads more than n bytes. mbsrtowcs/mbstowcs/wcsrtombs/wcstombs convert whole characters until the limit is reached or the terminator is converted, never write beyond the limit, store NULL in *src when the terminator was converted and leave *src alone when dst is NULL, and return (size_t)-1 on input that cannot be converted.",
  "every byte string, every wide string, every limit and buffer size",
  "unbounded strings, every truncation point of every character",
  ["src/header/wchar/mod.rs: mbrtowc, mbsnrtowcs, mbsrtowcs, wcsnrtombs, wcsrtombs", "src/header/stdlib/mod.rs: mbstowcs, wcstombs", "src/header/wchar/utf8.rs: mbrtowc"])
p("Waiting with a temporary signal mask restores the caller's mask",
  "When sigsuspend, sigwait/sigtimedwait/sigwaitinfo, ppoll, pselect or epoll_pwait returns, the calling thread's signal mask is what it was before the call, whatever set was passed; SIGKILL and SIGSTOP stay unblocked.",
  "every mask or set passed, every state, every interleaving with arriving signals", "2^64 sets times 2^64 masks; a wrong subtraction only shows in signals unrelated to the call",
  ["redox-rt/src/signal.rs: await_signal_async, await_signal_sync, callback_or_signal_async, set_allowset_raw", "src/platform/redox/signal.rs: sigsuspend, sigtimedwait", "src/platform/redox/epoll.rs: epoll_pwait"])
p("Signal handlers run with the documented mask and the mask is restored afterwards",
  "During a handler the thread blocks what it blocked before, the signals of sa_mask, and the signal itself unless SA_NODEFER; never SIGKILL or SIGSTOP. When the handler returns the earlier mask is back unless the handler changed uc_sigmask, which holds the set of blocked signals. Signals arriving meanwhile stay pending.",
  "every mask, sa_mask, flag, handler and arrival", "2^128 mask pairs and races", ["redox-rt/src/signal.rs: inner, set_allowset_raw", "src/header/signal/redox.rs: ucontext_t"])
p("Signal set functions behave as sets; sigpending reports the blocked pending signals",
  "sigemptyset, sigfillset, sigaddset, sigdelset and sigismember behave as operations on sets of the signals 1..64 and fail with EINVAL, changing nothing, for any other number. sigpending reports every signal blocked and pending (for the thread or the process) when it is called and no other than those that are by the time it returns.",
  "every set, every int signal number, every state and arrival", "2^64 sets", ["src/header/signal/mod.rs: sigaddset, sigdelset, sigemptyset, sigfillset, sigismember, sigpending", "redox-rt/src/signal.rs: currently_pending_blocked"])
p("sigaction installs and reports exactly the given action",
  "sigaction(sig, act, oact) stores the previous action in *oact and installs act for sig only: a later sigaction reports the same handler, flags and mask; setting SIG_IGN (or SIG_DFL where that means ignore) discards the pending signal and changes no mask; SA_RESETHAND resets the action to SIG_DFL on delivery; invalid numbers and changing SIGKILL or SIGSTOP fail with EINVAL. signal() does the same with SA_RESTART and returns the old handler; siginterrupt sets or clears SA_RESTART.",
  "every signal number, action and process state", "handlers and flags share one 64-bit word; 2^64 masks", ["redox-rt/src/signal.rs: sigaction_inner, convert_old, setup_sighandler, inner", "src/platform/redox/signal.rs: sigaction", "src/header/signal/mod.rs: signal, siginterrupt"])
p("The System V signal functions block, release and report",
  "sighold and sigrelse add and remove one signal to and from the mask; sigset with SIG_HOLD adds it and leaves the action alone, with another disposition installs it and unblocks the signal; sigset returns SIG_HOLD if the signal was blocked and the previous disposition otherwise. Other signals are unaffected; invalid numbers fail.",
  "every signal, disposition and state", "state spaces of masks and actions", ["src/header/signal/mod.rs: sighold, sigrelse, sigset, sigignore"])
p("Ignored signals stay ignored across exec and handlers are reset",
  "The set of ignored signals passed to a new program image makes it start with exactly the signals ignored that sigaction reported as SIG_IGN before, and all others at SIG_DFL.",
  "every history of sigaction calls before the exec", "all subsets of 62 signals", ["redox-rt/src/signal.rs: get_sigignmask_to_inherit, apply_inherited_sigignmask, setup_sighandler"])
p("Wide-string searching and splitting returns the position the standard asks for",
  "wcslen and wcsnlen return the number of wide characters before the terminator (bounded by maxlen); wcschr, wcsrchr and wmemchr return the first or last occurrence, the terminator counting as part of the string; wcsspn, wcscspn and wcspbrk find the longest prefix in or outside a set; wcsstr returns the leftmost occurrence; successive wcstok calls return exactly the maximal delimiter-free runs in order and then NULL, changing only bytes of the string.",
  "every wide string, character, set, needle and delimiter set, any length and placement", "unbounded strings; 2^32 characters", ["src/header/wchar/mod.rs: wcslen, wcsnlen, wcschr, wcsrchr, wmemchr, wcsspn, wcscspn, wcspbrk, wcsstr, wcstok", "src/iter.rs: NulTerminated"])
p("Wide-string copying and concatenation stores exactly the specified characters",
  "wcscpy, wcpcpy, wcsncpy, wcpncpy, wcsncat, wcscat, wmemcpy, wmemmove and wmemset store exactly the characters the standard specifies (with padding for the n-variants that pad, and a terminator for those that terminate), change no other memory and return the documented pointer; wmemmove also for overlapping ranges.",
  "every string, bound, placement and memory content", "unbounded strings; an out-of-bounds write shows only when something else lies there", ["src/header/wchar/mod.rs: wcscpy, wcpcpy, wcsncpy, wcpncpy, wcsncat, wcscat, wmemcpy, wmemmove, wmemset"])
p("Wide-string comparison gives the sign of the first difference",
  "wcscmp, wcsncmp, wcscoll and wmemcmp return a value less than, equal to or greater than zero as the first differing wide character (within the bound) is less or greater as a wchar_t, and zero when there is none.",
  "every pair of strings over all wchar_t values, every bound", "2^64 pairs of characters; overflow in the difference", ["src/header/wchar/mod.rs: wcscmp, wcsncmp, wcscoll, wmemcmp"])
p("select reports exactly the ready descriptors of its sets and waits as asked",
  "On success select and pselect leave in each set exactly the given descriptors below nfds that are ready for reading, ready for writing or have an exceptional condition (a regular file always counts, and so does a hung-up peer for reading), return the total number of bits left, and wait no less than the timeout when nothing is ready; on failure the sets are unchanged.",
  "every nfds up to FD_SETSIZE, triple of sets, state of the descriptors, timeout and epoll behaviour", "2^3072 set contents times descriptor states; 33 ready descriptors, hang-ups and long timeouts are rarely set up", ["src/header/sys_select/mod.rs: select_epoll, select, pselect"])
p("poll answers every entry with exactly the conditions that hold",
  "After poll or ppoll returns successfully, revents of each entry holds exactly the requested conditions that hold plus error, hang-up and invalid-descriptor indications, is zero for negative descriptors, the return value is the number of entries with non-zero revents, the same descriptor may occur in several entries, regular files are always ready, an entry with an immediate answer prevents waiting, and the time waited is no less than the timeout.",
  "every array of entries, state of the descriptors, timeout and epoll behaviour", "arrays of any length over 2^16 event masks; duplicates, closed descriptors and long timeouts", ["src/header/poll/mod.rs: poll_epoll, poll, ppoll"])
p("The user database functions return exactly the entry asked for",
  "For every well-formed user database, getpwnam, getpwnam_r, getpwuid and getpwuid_r return the first entry with the given name or id, with all seven fields as in the file, NULL (and 0) if there is none, ERANGE if the entry does not fit the buffer, and write nothing outside the given buffer; lines that are not entries are skipped; getpwent enumerates the entries in order, then NULL, and starts again after setpwent or endpwent.",
  "every database contents (any number of users, names, ids below 2^32), name, id, buffer size and previous buffer contents", "unbounded file contents; tests read the one /etc/passwd of the machine", ["src/header/pwd/mod.rs: split, getpwent_r, pwd_lookup, getpwnam, getpwnam_r, getpwuid, getpwuid_r, getpwent, setpwent, endpwent"])
p("The group database functions return exactly the entry asked for",
  "For every well-formed group database, getgrnam, getgrnam_r, getgrgid and getgrgid_r return the first entry with the given name or id, with name, password, id and the null-terminated array of all its members, NULL (and 0) if there is none, ERANGE if the entry does not fit, and write nothing outside the given buffer; lines that are not entries are skipped; getgrent enumerates the entries in order and starts again after setgrent or endgrent; getgrouplist yields the given group and every group that lists the user, and -1 with the needed count if there are more than fit.",
  "every database contents, name, id, buffer size, user and capacity", "unbounded file contents; names that are prefixes of one another, full buffers and long member lists are rarely in the test machine's /etc/group", ["src/header/grp/mod.rs: split, parse_grp, getgrgid, getgrnam, getgrgid_r, getgrnam_r, getgrent, setgrent, endgrent, getgrouplist"])
p("The shadow password functions return exactly the entry asked for",
  "For every shadow file, getspnam and getspnam_r return the first entry whose name is the given one, with its password and numbers (-1 for empty ones), no entry (and 0) if there is none, and ERANGE with nothing written if the strings do not fit; getspent enumerates the entries in order, then NULL, and starts again after setspent or endspent.",
  "every file contents, name and buffer size", "unbounded file contents; names that are prefixes of one another are rarely in a test's file", ["src/header/shadow/mod.rs: parse_spwd, getspnam, getspnam_r, getspent, setspent, endspent"])
p("pthread_create starts a thread, and pthread_join returns when it has ended, with its value",
  "Under every schedule, a thread whose pthread_create has returned has started; pthread_join of another thread returns only after that thread has ended and gives the value it ended with; it does return once the thread has ended (no wake-up is lost, whether the joiner slept before, or spurious wake-ups occur), joining oneself returns EDEADLK, and a thread's exit waits for nobody.",
  "every number of threads and every interleaving of their steps", "the window between reading the word and sleeping on it is a few instructions wide", ["src/pthread/mod.rs: create, new_thread_shim, join, exit_current_thread", "src/sync/waitval.rs: post, wait"])
p("The memory of a thread is released exactly once and not used afterwards",
  "Under every schedule, when each thread is joined or detached at most once, no thread's control block is used after it has been unmapped, by pthread_join, pthread_cancel, pthread_detach, the thread itself or exit(); it is unmapped when pthread_join returns and when a detached thread ends, whenever it was detached; a stack the caller supplied stays mapped.",
  "every number of threads, every interleaving and every moment of detaching", "leaks and uses after free depend on the order in which two threads run", ["src/pthread/mod.rs: create, join, detach, exit_current_thread, dealloc_thread, terminate_from_main_thread"])
p("A cancelled thread ends at its next cancellation point with PTHREAD_CANCELED, and no other does",
  "Threads start with cancellation enabled; a thread for which pthread_cancel has returned ends at its next cancellation point while it has cancellation enabled, and joining it gives PTHREAD_CANCELED; a thread that has it disabled, or that nobody has cancelled, does not; pthread_setcancelstate sets the caller's state and nobody else's, returns the old one, and is no cancellation point.",
  "every interleaving of cancelling, enabling, disabling and testing", "the flags are read and written without a lock by two threads", ["src/pthread/mod.rs: cancel, testcancel, set_cancel_state, cancel_current_thread"])
p("feof and ferror tell whether the stream met its end or an error",
  "For every sequence of read(2) results and of calls on a stream, ferror is nonzero exactly when a read of the stream has failed since it was opened or clearerr was last called; feof is nonzero exactly when one has reported end of file since then, or since the last successful ungetc; no call but these clears them.",
  "every file, every chunking and failure of the reads, every sequence of calls", "which of many reads fails is up to the kernel", ["src/header/stdio/mod.rs: feof, ferror, clearerr, ungetc, fill_buf", "src/header/stdio/getdelim.rs: getdelim"])
p("fork runs the pthread_atfork handlers of the process in the documented order",
  "Whatever calls of pthread_atfork the threads of a process have made, a call of fork by any of them runs every prepare handler once, newest first, before the fork; afterwards every parent handler once, oldest first, in the parent (also when fork failed, so that what prepare locked is unlocked), and every child handler once, oldest first, in the child.",
  "every history of registrations by any threads, with or without NULL handlers, every outcome of the system call", "order matters only when handlers of two libraries take nested locks; a wrong order deadlocks rarely", ["src/header/pthread/mod.rs: pthread_atfork, fork_hooks", "src/header/unistd/mod.rs: fork"])
p("Cleanup handlers run in reverse order of pushing, once each",
  "pthread_cleanup_pop removes the newest handler and runs it if asked to; when the thread exits, returns or is cancelled, the handlers still pushed run newest first, each exactly once, and handlers may themselves push and pop handlers and pass cancellation points.",
  "every program of a thread, every behaviour of the handlers, every moment of cancellation", "where the cancellation strikes decides which handlers are left", ["src/header/pthread/mod.rs: __relibc_internal_pthread_cleanup_push, __relibc_internal_pthread_cleanup_pop, run_destructor_stack", "src/pthread/mod.rs: testcancel, exit_current_thread"])
p("__cxa_finalize runs the destructors registered for an object once, in reverse order",
  "A function given to __cxa_atexit runs exactly once, at the first __cxa_finalize of its object or of NULL, newest first among those run; functions given to __cxa_thread_atexit_impl run once when the thread ends, newest first. The functions may register further ones while they run.",
  "every sequence of registrations and finalizations of any number of objects", "interleavings of several shared objects' destructors", ["src/cxa.rs: __cxa_atexit, __cxa_finalize, __cxa_thread_atexit_impl, __cxa_thread_finalize"])
p("gmtime and timegm convert between instants and UTC calendar dates exactly",
  "gmtime breaks any instant down into the UTC date and time that POSIX's formula for seconds since the Epoch maps back to it, with the right day of the week and of the year, whatever the local time zone, and returns a null pointer when the year does not fit; timegm returns that number of seconds for any members, normalizing those out of range, and so inverts gmtime.",
  "every instant, before and after 1970, every combination of members, every local time zone", "leap years, century rules, month ends and negative times combine in unbounded ways", ["src/header/time/mod.rs: gmtime_r, timegm, get_localtime, datetime_to_tm, convert_tm_generic"])
p("localtime and mktime convert between instants and local time and invert each other",
  "localtime gives the date and time of an instant in the zone selected by TZ, with its offset and daylight-saving flag; mktime returns an instant whose local time is the given one (normalizing members out of range, and moving times the clock skips), uses tm_isdst to choose where a local time occurs twice, fills in all members, and maps the result of localtime back to the instant. timelocal is mktime.",
  "every zone (any offsets and changes of the clock), every instant, every combination of members", "the hours around clock changes differ from zone to zone and year to year", ["src/header/time/mod.rs: localtime_r, mktime, timelocal, time_zone, datetime_to_tm"])
p("asctime writes the documented text in 26 bytes",
  "For broken-down times in range with a year of at most four characters asctime_r writes \"Www Mmm dd hh:mm:ss yyyy\\n\" with the day padded with a space, NUL-terminated, into the 26-byte buffer and returns it, and writes nothing else.",
  "every such broken-down time, every memory", "an overrun by one byte shows only for some widths of day and year", ["src/header/time/mod.rs: asctime_r", "src/platform/mod.rs: UnsafeStringWriter"])
p("tzset takes names and offset from a POSIX TZ string",
  "With TZ of the form std offset[dst[offset][,rule]] tzset sets tzname[0] to std, tzname[1] to dst, timezone to the offset in seconds west of UTC, sign included, and daylight to nonzero iff there is a dst. Names may be letters or quoted in angle brackets.",
  "every name, offset with or without minutes, seconds and sign, with or without daylight saving and rules", "the grammar has unboundedly many strings", ["src/header/time/posix_tz.rs: parse, collect_tz_and_offset, time_to_seconds", "src/header/time/mod.rs: tzset"])
p("A stream behaves as its file with a position, under any mix of reading, writing and seeking",
  "As long as no system call fails, every call on a stream opened on a regular file acts as if on the bare sequence of bytes with a position: reads deliver the bytes at the position, pushed-back ones first, writes store at the position (at the end in append mode), ftell reports the position, fseek moves it, and after fflush or fclose the file holds exactly what was written; whatever the buffers, the sizes of the single reads and writes, and the sequence of calls, if reading and writing are separated as C demands. fflush and fclose of a stream being read move the offset of the descriptor to the position. fseek clears the end-of-file indicator and leaves the error indicator.",
  "every contents of the file, every sequence of calls, every size of buffers, every pattern of short reads and writes", "bugs appear only for certain alignments of the position with the buffers", ["src/header/stdio/mod.rs: fseek_locked, ftell_locked, rewind, fsetpos, fgetpos, fflush", "src/io/buffered.rs: BufWriter"])
p("A symbol resolves to the first global definition in scope order",
  "Looking up a symbol in a scope, by the dynamic linker or by dlsym, gives the first global definition in the order of the objects of the scope, or else the first weak one, or else nothing if no object of the scope defines the symbol; undefined entries never count, and no binding of a symbol stops the process.",
  "every scope, every symbol table of every object", "interposition shows only with particular sets of libraries that define the same symbol", ["src/ld_so/linker.rs: Scope::_get_sym", "src/ld_so/dso.rs: DSO::get_sym, resolve_sym"])
p("Loading an object loads all it depends on, once, and initializes dependencies first",
  "Starting a program or opening a library with dlopen loads every object it depends on, directly or indirectly, each file once; runs the initializers of the objects newly loaded once each, those of the dependencies of an object before its own; puts them into the scope breadth first; dlsym on the handle finds the symbols of the object and of everything it depends on; the finalizers at exit run in the reverse order; dlopen returns NULL and leaves no trace if a needed file does not exist.",
  "every set of files with every dependency graph, every state of the process", "a test can only use a handful of dependency graphs", ["src/ld_so/linker.rs: load_library, load_object, load_objects_recursive, fini", "src/header/dlfcn/mod.rs: dlopen, dlsym"])
p("dlclose unloads an object when nothing uses it, and never before",
  "After any sequence of dlopen and dlclose the program and the libraries it was started with, every library with an open handle, and everything they depend on are loaded and not finalized. A library is finalized at most once, after its initializers; closing its last handle finalizes and unloads it if no other loaded library has it as a dependency. RTLD_NOLOAD never loads and never stops the process.",
  "every sequence of dlopen and dlclose, every dependency graph", "use after unload depends on the order of dlopen and dlclose of libraries that share dependencies", ["src/ld_so/linker.rs: unload, load_library", "src/header/dlfcn/mod.rs: dlclose"])
p("Packed relative relocations move exactly the words they name",
  "Applying a DT_RELR table adds the load address to every word the table names under the ELF gABI encoding, as often as it is named, and changes no other word; for every table that begins with an address entry.",
  "every table, every load address, every contents of memory", "an off-by-one in the bitmap decoding corrupts only words at particular distances", ["src/ld_so/dso.rs: apply_relr"])
p("Each thread has its own initialized block of thread-local variables for each module of the program",
  "In the first thread and in every thread created later, by whichever thread, each module loaded with the program has a block for its thread-local variables, within the thread's area, disjoint from the other blocks, holding the initial image followed by zeros, aligned as the segment demands. __tls_get_addr, offsets stored by TPOFF relocations and, for the program, the offsets the static linker computed all lead to the same addresses.",
  "every set of modules with every size, image and alignment, every thread", "overlap and misalignment depend on the sizes of the segments", ["src/ld_so/linker.rs: load_object, load_objects_recursive", "src/ld_so/tcb.rs: new, copy_masters, setup_dtv", "src/header/dl-tls/mod.rs: __tls_get_addr", "src/pthread/mod.rs: create, new_thread_shim"])
p("Thread-local variables of libraries opened with dlopen work in every thread",
  "After dlopen of a library with thread-local variables, in every thread, whether it existed before, called dlopen itself or is created later, __tls_get_addr gives for each module one fixed address of a block of its own that held the initial values when first given out; a dlopen that fails and the number and size of the modules make no difference.",
  "every sequence of dlopen, thread creation and access", "tests open one small library in a single thread", ["src/header/dl-tls/mod.rs: __tls_get_addr", "src/ld_so/tcb.rs: append_masters, setup_dtv, copy_masters", "src/ld_so/linker.rs: load_object"])
p("Classful network numbers and local parts are those of the address",
  "For every Internet address of class A, B or C (in network byte order, as everywhere in struct in_addr), inet_netof gives its network number and inet_lnaof its local part, in host byte order, and inet_makeaddr of the two is the address.",
  "every address", "2^32 addresses in three classes, results differ by byte order of the host", ["src/header/arpa_inet/mod.rs: inet_lnaof, inet_netof, inet_makeaddr"])
p("getsubopt takes suboptions apart one by one",
  "For every string of suboptions separated by commas, getsubopt returns the index of the first key that the next suboption is, alone or followed by =value; it points *valuep at the value, at the suboption itself if no key fits (returning -1), or sets it to null; it advances *optionp to the rest and changes nothing but the comma, which becomes a terminator.",
  "every string, every list of keys", "keys that are prefixes of one another, empty suboptions and values and their combinations", ["src/header/stdlib/mod.rs: getsubopt"])
p("fopen opens the file the mode asks for",
  "For every mode r, w or a followed by any of b, +, x, e, fopen fails exactly when the file is missing (r) or exists (x), leaving everything unchanged; otherwise the stream reads, writes, truncates, creates, appends and closes on exec as the mode says, and is in the initial state. Other modes are rejected without effect.",
  "every mode string, every state of the files", "combinations of mode letters and file states", ["src/header/stdio/mod.rs: fopen", "src/header/stdio/helpers.rs: parse_mode_flags, _fdopen"])
p("freopen makes the stream what fopen would have opened",
  "freopen with a file name writes pending output to the old file, closes it, and leaves the stream in the state fopen would have given it, on the same descriptor; nothing of the old file is read from it any more; on failure the stream is closed.",
  "every mode, every state of stream and files", "depends on what is buffered in the stream", ["src/header/stdio/mod.rs: freopen, fclose"])
p("Output is written at exit",
  "exit writes the pending output of every open stream to its file.",
  "every set of open streams", "the loss shows only for output still buffered", ["src/header/stdio/mod.rs: flush_io_streams", "src/header/stdlib/mod.rs: exit"])
p("Functions that copy a name fill the buffer with the whole name or report that it is too small",
  "getcwd, ttyname_r, gethostname and realpath store the whole name with its terminator if the buffer has room for both, and nothing outside the buffer. Otherwise getcwd fails with ERANGE (EINVAL for size 0), ttyname_r returns ERANGE, realpath fails with ENAMETOOLONG, gethostname truncates. getcwd with a null buffer allocates one.",
  "every name, every size of the buffer", "the boundary sizes matter", ["src/header/unistd/mod.rs: getcwd, gethostname, ttyname_r", "src/platform/redox/path.rs: getcwd", "src/header/stdlib/mod.rs: realpath"])
p("readdir delivers each entry of a directory once, in order",
  "Between opendir or rewinddir and the end, readdir delivers every entry of the directory once in the order of the directory, however the kernel splits them over buffers and whatever their sizes; telldir and seekdir return to the entry that followed; a failing read is reported once and the stream stays at its place.",
  "every directory, every way the kernel serves it, every sequence of calls", "depends on how entries fall into buffers", ["src/header/dirent/mod.rs: DIR, readdir, telldir, seekdir, rewinddir"])
p("scandir returns the accepted entries in order",
  "scandir returns exactly the entries the filter accepts, ordered by the comparison function, and fails only if reading the directory or an allocation fails.",
  "every directory, every filter and comparison function", "depends on what the filter does", ["src/header/dirent/mod.rs: scandir"])
p("glob finds exactly the pathnames the pattern matches",
  "For every pattern and file system, glob stores the existing pathnames that the pattern matches, each once, sorted unless GLOB_NOSORT, directories marked with a slash if GLOB_MARK; GLOB_APPEND keeps the earlier ones, GLOB_DOOFFS reserves null slots in front; without match it returns GLOB_NOMATCH, or the pattern if GLOB_NOCHECK; it is aborted only if a directory cannot be read and GLOB_ERR or the error function asks for that.",
  "every file system, every pattern, all flags", "unboundedly many directory trees and patterns", ["src/header/glob/mod.rs: glob, inner_glob, list_dir"])
p("execlp and execvp execute the first matching file of PATH",
  "For every name without a slash and every value of PATH, execvp and execlp execute the file in the first directory that has one that can be executed, an empty prefix being the current directory; a file of unknown format is run by the shell; if nothing can be executed, they fail with an error of one of the attempts, ENOENT only if there was no other. A name with a slash is the pathname. execl, execle and execlp pass exactly the arguments before the null pointer.",
  "every PATH, every name, every file system", "the result depends on which of the directories have the file and on what the attempts answer", ["src/header/unistd/mod.rs: execvp, execlp, with_argv", "src/header/unistd/path.rs: PathSearchIter"])
p("execve runs the file, or the interpreter its first line names, if it may be executed",
  "execve executes a file exactly if the mode of the file allows the effective user or groups to, and fails with EACCES otherwise. The program gets the given arguments; if the file begins with #!, the interpreter named on the first line gets its name, the rest of the line if there is any, the pathname of the script, and the arguments after argv[0].",
  "every file, every first line, every mode and ids", "first lines vary in spacing, end and length", ["src/platform/redox/exec.rs: execve, parse_interpreter"])
p("posix_spawn performs the file actions in the order they were added",
  "For every sequence of posix_spawn_file_actions_addopen, addclose, addchdir, addfchdir and adddup2 calls, each with a valid descriptor, returns 0 and copies its path; posix_spawn then starts the program with the descriptors and the working directory that performing the actions in that order in the child, and then closing the descriptors marked close-on-exec, leaves; it fails if one of the actions fails.",
  "every sequence of actions, every descriptor table of the parent", "the actions interact through the descriptors they assign", ["src/header/spawn/file_actions.rs", "src/platform/redox/mod.rs: Sys::spawn"])
p("posix_spawn applies the attributes asked for to the child and nothing else",
  "For every set of POSIX_SPAWN flags the child has the process group, signal mask, default signals, scheduling parameters and effective ids that the flags ask for, and otherwise the caller's, the set-user-ID and set-group-ID bits of the file being honoured; the caller and other processes are unchanged; the program gets argv as passed. posix_spawnp takes the file in the first directory of PATH that has it.",
  "every combination of flags, every file mode and caller ids", "flags combine, and most effects are on processes other than the caller", ["src/header/spawn/spawn_attr.rs", "src/header/spawn/mod.rs", "src/platform/redox/mod.rs: Sys::spawn"])
p("Descriptors are allocated lowest first, and the tables of relibc and the kernel agree",
  "For every sequence of open, dup, dup2, fcntl F_DUPFD, F_DUPFD_CLOEXEC, F_GETFD, F_SETFD, close and pipe2 calls: a new descriptor is the lowest that is not open (and not below the minimum for F_DUPFD); dup2 makes fildes2 refer to the file of fildes, changes nothing if fildes is closed or they are equal; close-on-exec is set exactly when asked for and not inherited by duplicates; exec closes exactly the descriptors that have it; calls on closed descriptors fail with EBADF and change nothing.",
  "every sequence of calls, from every initial set of descriptors", "an error in the table shows only after particular sequences of opening and closing", ["redox-rt/src/sys.rs: FdTbl, PosixFdTbl, openat, dup2, fcntl, close", "src/platform/redox/extra.rs: pipe2", "redox-rt/src/proc.rs: fexec_impl, closing O_CLOEXEC descriptors"])
p("readv and writev are one read or write of the areas in order",
  "readv reads once into the areas of iov, filling each before going to the next, and changes no other byte; if it fails it changes nothing. writev writes once, the bytes of the areas in order. Both return what the read or write returned. A count outside 0 to IOV_MAX fails with EINVAL, a bad descriptor with EBADF.",
  "every array of areas that do not overlap, every memory, every answer of the file", "areas and short counts combine freely", ["src/header/sys_uio/mod.rs", "src/header/bits_iovec/mod.rs"])
p("Record locks cover exactly the bytes asked for",
  "fcntl F_SETLK, F_SETLKW and F_GETLK and their OFD forms apply to exactly the bytes that l_whence, l_start and l_len name, a negative length being the bytes before the start and 0 reaching to the end of the file; F_GETLK describes the first lock in the way, or changes only l_type to F_UNLCK. lockf does the same from the file offset on. flock excludes other open files.",
  "every section, every file offset and size, every lock", "sections are given in three ways and the lock of another process has any extent", ["src/platform/redox/mod.rs: fcntl, relative_to_absolute_foffset, flock", "src/header/unistd/mod.rs: lockf"])
p("Looking up a host asks the name server for that host",
  "gethostbyname and getaddrinfo send the name server an RFC 1035 query with the recursion bit whose single question is type A, class IN for the labels of the host name, with or without a trailing dot, and refuse names with a label longer than 63 bytes; a host given as four decimal numbers from 0 to 255 separated by dots is that address, without a query, and every other name is looked up.",
  "every host name, every transaction identifier", "host names are arbitrary; tests use a few", ["src/header/netdb/lookup.rs: lookup_host, parse_ipv4_string", "src/header/netdb/dns/mod.rs: Dns::compile", "src/header/netdb/dns/query.rs"])
p("The addresses reported are those of the name server's response",
  "For every response that is a well-formed RFC 1035 message, with names compressed in any way, to the query sent: the lookup ends and reports exactly the IPv4 addresses of the answer records of type A and class IN that belong to the name asked for, in order; every other datagram makes the lookup fail or is ignored, and none makes it crash or run for ever.",
  "every response, of any bytes whatever", "responses come from the network, from anyone", ["src/header/netdb/dns/mod.rs: Dns::parse", "src/header/netdb/lookup.rs: lookup_host"])
p("The name of an address is the one in the response",
  "gethostbyaddr and getnameinfo ask for the PTR record of d.c.b.a.in-addr.arpa, and report the domain name of each PTR record of the response as text, its labels separated by dots; a malformed record makes the lookup fail, not crash.",
  "every address, every response", "responses come from the network, from anyone", ["src/header/netdb/lookup.rs: lookup_addr, parse_revdns_answer"])
p("getprotoent and its kin report the entries of /etc/protocols",
  "getprotoent returns the entries of the file in order and then null, whatever sizes the file is read in; setprotoent starts again from the first; endprotoent closes the file and nothing else. getprotobyname returns the first entry with that name or alias without regard to case, getprotobynumber the first with that number, or null. Comments, blank and malformed lines are ignored and the last line may lack its newline; no file makes the program crash or run for ever.",
  "every file, every sequence of calls, every way of reading", "depends on the file, on the read sizes and on the calls made before", ["src/header/netdb/mod.rs: getprotoent, setprotoent, endprotoent, getprotobyname, getprotobynumber", "src/platform/rlb.rs"])
p("getservent and its kin report the entries of /etc/services",
  "As for /etc/protocols: getservent returns the entries in order, with the port in network byte order, and then null; getservbyname returns the first entry with that name or alias (and protocol, if given), getservbyport the first with that port (and protocol).",
  "every file, every sequence of calls, every way of reading", "depends on the file, on the read sizes and on the calls made before", ["src/header/netdb/mod.rs: getservent, setservent, getservbyname, getservbyport", "src/platform/rlb.rs"])
p("Hosts are looked for in /etc/hosts and then asked for",
  "gethostent returns the entries of /etc/hosts in order and then null. gethostbyname returns the first entry with that name or alias without regard to case, otherwise what the name server says, gethostbyaddr the first entry with that address, otherwise what the name server says; the names in the result are strings.",
  "every file, every name and address, every way of reading, every response", "depends on the file and on the network", ["src/header/netdb/host.rs", "src/header/netdb/mod.rs: gethostbyname, gethostbyaddr"])
p("getaddrinfo gives the addresses of the node with the port of the service",
  "getaddrinfo returns 0 and a list with one sockaddr for each address of the node, in the order of their sources: the address itself for a numeric node, the loopback or (AI_PASSIVE) wildcard address for a null one, else the addresses from /etc/hosts and the name server, of the families the hints ask for; the port is that of the service, a number or a name of /etc/services, in network byte order; the first element alone has the canonical name, if asked for; ai_socktype is that of the hints. With AI_NUMERICHOST no name is looked up. If there is no address or no such service an error code is returned.",
  "every node, service and hints, every response of the name server, every state of the heap", "depends on the network and on pointers in the heap; the list is built by walking it", ["src/header/netdb/mod.rs: getaddrinfo"])
p("freeaddrinfo releases exactly what getaddrinfo allocated",
  "After a successful getaddrinfo, freeaddrinfo of the result releases every block that the call allocated, once, and no other; a getaddrinfo that fails leaves nothing allocated and the result null; neither disturbs other blocks.",
  "every call and every state of the heap", "leaks and double frees show only under an instrumented allocator, and only for the inputs tried", ["src/header/netdb/mod.rs: getaddrinfo, freeaddrinfo"])
p("getnameinfo writes the names within its buffers",
  "getnameinfo stores the name of the host, or its number with NI_NUMERICHOST or if it has no name, and the name or number of the service, each with its terminator, if they fit, and returns 0; it returns EAI_OVERFLOW if they do not fit and EAI_NONAME if there is no name and NI_NAMEREQD is set; it writes nowhere but in the buffers given and does not fault, whatever the name server answers.",
  "every address, buffers, flags and response", "over-long answers of a name server are an attack that tests do not cover", ["src/header/netdb/mod.rs: getnameinfo"])
p("mkstemp and mkdtemp create a new file exclusively under the name they return",
  "mkstemp, mkostemp, mkstemps, mkostemps and mkdtemp replace the six X before the suffix, and no other byte of memory, by letters and digits, such that the file or directory of that name did not exist before; they create it exclusively (O_CREAT|O_EXCL), readable and writable by the owner alone, and return the descriptor of that very file, or the name. A template without the six X in their place is refused with EINVAL and without any call. If the file cannot be created, the error is reported as the system gives it.",
  "every template and suffix, every file system and every sequence of random characters", "whether names collide is up to chance and to other programs; a race cannot be tested for", ["src/header/stdlib/mod.rs: inner_mktemp, mkostemps, mkdtemp"])
p("tmpnam, tempnam and tmpfile give new names within their buffers",
  "tmpnam, given a null pointer or an array of L_tmpnam bytes, and tempnam give a name under which there was no file when it was looked for, or a null pointer; they write to no other memory. The name of tempnam is in the first directory of $TMPDIR, the argument and /tmp that may be written in, begins with the first five bytes of the prefix, and is in a block of its own, which is freed on failure. tmpfile opens a file that did not exist before and removes its name.",
  "every directory, prefix, environment and file system", "a byte written beyond an array is seldom noticed", ["src/header/stdio/mod.rs: tmpnam, tempnam, tmpnam_inner, tmpfile", "src/header/stdlib/mod.rs: mktemp"])
p("asprintf allocates exactly the text it prints",
  "asprintf and vasprintf store the address of a newly allocated block, which holds what printf would print and a terminator and is of just that size, and return the length of the text; no other allocated block changes; without memory they return -1.",
  "every format, every length of its pieces, every behaviour of the allocator", "the growth of the buffer depends on the lengths of all the pieces and on where realloc moves the block", ["src/c_vec.rs", "src/header/stdio/mod.rs: vasprintf"])
p("wcstol and its kin convert wide strings as strtol does narrow ones",
  "wcstol, wcstoll, wcstoul and wcstoull skip white space, take an optional sign, a prefix when the base is 0 or 16, and as many digits of the base as follow, return that number (clamped with ERANGE when out of range, negated modulo 2^64 for the unsigned types) and store the address after the last digit; without digits they return 0 and store the argument; an invalid base gives 0 and EINVAL.",
  "every wide string and every base", "the boundary cases depend on base, sign, length and the characters after the number together", ["src/macros.rs: skipws!, wcsto_impl!", "src/header/wchar/mod.rs: wcstol, wcstoll, wcstoul, wcstoull"])
p("strtod gives the double nearest to the number and the place where it ends",
  "strtod, strtof and atof return the floating-point number nearest to the decimal or hexadecimal number at the start of the string (an infinity when it is out of range), with its sign, also for zero; they accept inf, infinity, nan and nan(...) in any case; the end pointer is set to the first character that is not part of the longest number, or to the argument when there is none.",
  "every string: every number of digits, every exponent", "there are 2^64 doubles and infinitely many texts; which of them round wrongly cannot be found by trying", ["src/macros.rs: strto_float_impl!", "src/header/stdlib/mod.rs: strtod, strtof, atof"])
p("wcstod converts wide strings as strtod does narrow ones",
  "wcstod returns the double nearest to the number at the start of the wide string, in every form that strtod accepts, and stores the address where it ends.",
  "every wide string", "as for strtod", ["src/header/wchar/mod.rs: wcstod"])
p("Wide-character input delivers the characters of the file, once and in order",
  "fgetwc (and getwc) returns the next character of the stream, decoded from UTF-8, whatever the buffering and the sizes of the reads below, and WEOF only at the end, after a failed read or on bytes that are no character, in which case errno is EILSEQ and the error indicator is set; fgetws stores characters up to and including a newline, at most n-1, with a terminator, and returns NULL only if nothing was read or an error occurred during the call; a character given to ungetwc is the next one read; all this on streams that fwide made wide-oriented and on others.",
  "every file contents, buffer size and sequence of read results, every sequence of calls", "a character of several bytes may be cut at any place by a buffer or a short read; tests see few of the ways", ["src/header/wchar/mod.rs: fgetwc_unlocked, fgetws, ungetwc, fwide", "src/header/stdio/mod.rs: getc_unlocked, ungetc, try_set_orientation_unlocked"])
p("Wide-character output writes the encoded characters or reports an error",
  "fputwc writes exactly the UTF-8 encoding of the character and returns it; it returns WEOF and sets errno if the value is no character (EILSEQ, nothing written) or a write fails; fputws does so for all characters of a string, and what it wrote is read back by fgetwc; all this also on streams that fwide made wide-oriented.",
  "every string, buffering mode, buffer size and sequence of write results", "needs every combination of character lengths, buffer boundaries and failing writes", ["src/header/wchar/mod.rs: fputwc, fputws, fwide", "src/header/stdio/mod.rs: fputc, putc_unlocked"])
p("Wide character classes keep the standard's inclusions and exclusions for every wint_t",
  "Every isw* function answers (no panic, no endless search) for every value of wint_t. Upper and lower case lie inside alpha, alpha and digit inside alnum, digit inside xdigit inside alnum, alnum and punct inside graph, graph inside print, blank inside space; cntrl and print, punct and alnum, punct and space, space and alnum, space and graph, digit and alpha have nothing in common. Surrogates, WEOF and values beyond U+10FFFF are in no class; on ASCII the classes are those of the POSIX locale. wctype finds each class by name and iswctype asks it.",
  "all 2^32 values of wint_t, all class functions, all class names", "The answers come from compressed tables of thousands of bytes indexed by arithmetic on the argument; an off-by-one or a wrong byte shows only at particular code points, and unit tests sample a handful.", ["src/header/wctype/mod.rs", "src/header/wctype/alpha.rs", "src/header/wctype/punct.rs", "src/header/wctype/casecmp.rs"])
p("towlower and towupper are Unicode's simple case mappings",
  "For every wint_t towlower and towupper return (no panic, the binary search ends) the simple case mapping of Unicode 12.1 for letters (sharp s has the capital sharp s), and leave everything else, WEOF included, alone. Mapping is idempotent; an upper-case letter maps to a different letter that is lower case and not upper case, and vice versa. wctrans and towctrans give the same two mappings by name.",
  "all 2^32 values of wint_t", "The mapping is decoded from a two-level base-6 table, block rules and an exception list searched by a loop that would not end for an entry that is missing; only the values that reach the exception path show it.", ["src/header/wctype/casecmp.rs", "src/header/wctype/mod.rs"])
p("wcscasecmp and wcsncasecmp order wide strings by their lower-case forms",
  "For wide strings of non-negative wchar_t values, wcscasecmp returns zero exactly when the strings are equal after mapping every character to lower case, and otherwise a number whose sign is the lexicographic order of the mapped strings; wcsncasecmp does the same for the first n characters, and reads no character past them or past a terminator.",
  "all wide strings, all n", "The result is the wrapped difference of two mapped characters; that it never wraps the wrong way and that no letter maps to the terminator depend on the whole case table.", ["src/header/wchar/mod.rs", "src/header/wctype/casecmp.rs"])
p("wcswidth tells the columns of the first n wide characters, stopping at the terminator",
  "wcswidth(s, n) is the sum of the column widths of the first n characters of s or of those before the terminating null, whichever is fewer; -1 if one of them is not printable. It reads nothing after the terminator.",
  "all wide strings, all n, all width tables", "Tests pass the exact length; a caller that passes the size of its array relies on the stop at the terminator.", ["src/header/wchar/mod.rs"])
p("Upper descriptors are never handed out twice",
  "In the table of descriptors relibc keeps for itself on Redox (the upper table), a descriptor handed out singly or in a block was not in use, carries the flags asked for and changes no other; closing, querying and setting flags act on exactly the descriptor named or answer EBADF; naming descriptors is refused when one is out of range, repeated or in use; an operation that fails changes nothing; at most 65536 descriptors are in use and the count kept is the number in use; every descriptor in use is one the kernel was asked to have room for; free slots are used again; nothing panics.",
  "every sequence of operations, every answer of the kernel, every memory limit below 2^32 entries", "The free list threads through the vacant entries and is rebuilt by some operations and pushed to by others; an error shows only after particular interleavings of frees, gaps and blocks, as a slot given out twice or an unreachable! reached.", ["redox-rt/src/sys.rs:919-1248", "redox-rt/src/sys.rs:1579-1924"])
p("main gets the arguments and environment of the process",
  "When a program starts, argv holds the arguments the kernel passed, in order and byte for byte, followed by a null, and argc is their number; environ holds the variables likewise, unless it was already set, which it then stays; the strings of each lie end to end in one block and nothing outside the two blocks is written; program_invocation_short_name is the last component of the first argument; getauxval's raw lookup gives the value of the first pair with the kind, or nothing.",
  "every initial stack, every list of arguments and variables, every address the allocator may give", "The start code runs before main and before any test harness; a wrong offset shows only with particular argument lists, as an argument cut short or run into the next.", ["src/start.rs:12-70", "src/start.rs:181-206", "src/platform/mod.rs:284-326"])
p("Thread attributes are those last set, and the thread created has them",
  "A thread attribute reads as the value last set successfully, or its default; a setter answers 0 exactly for the values POSIX allows and otherwise changes nothing; pthread_create starts the thread on the stack given, or on a new mapping of at least the size asked for, with its start routine and argument in place and without writing outside that stack, detached if asked to be; when it fails it undoes its mapping and leaves a stack of the caller alone; pthread_getattr_np reports the stack and detach state the thread was created with.",
  "every history of setter calls with any arguments, every page size, every outcome of mmap, of the allocation of the control block and of clone", "Sizes that are not whole pages, sizes above 2^31 and failing system calls are each rare, and writing past a stack goes unnoticed unless something else lives there.", ["src/header/pthread/attr.rs", "src/pthread/mod.rs:111-198"])
p("open follows symbolic links from the directory each is in",
  "On Redox, open and openat of a path whose last component is a symbolic link that its scheme leaves to the caller open the file at the end of the chain of links, a relative target being seen from the directory of its link; an error at the end of the chain is the error reported; up to SYMLOOP_MAX links are followed and more give ELOOP.",
  "every tree of files and links, every current directory, every path, chains of any length and cycles", "Only links that leave their scheme are resolved by relibc, and chains, relative targets and the place of the link relative to the current directory combine.", ["src/platform/redox/path.rs:133-289", "src/platform/redox/path.rs:345-379"])
p("posix_fallocate grows a file and never loses data",
  "When posix_fallocate succeeds the file reaches at least offset + len and every byte it had is still there, new bytes being zero; when it fails the file is unchanged; a negative offset or a length that is not positive gives EINVAL; what other processes write at the same time is kept.",
  "every file, offset and length, every refusal of the kernel, every change other processes make between the two system calls", "The loss needs another process to write between fstat and ftruncate.", ["src/header/fcntl/mod.rs:186-199", "src/platform/redox/mod.rs:972-1002"])
p("posix_getdents delivers each entry once, in order",
  "Repeated calls of posix_getdents deliver the records of the directory each once and in order, however many fit at a time; a call that fails leaves the position where it was; no answer of the scheme makes the call read outside the buffer, panic or run for ever.",
  "every directory, every number of records per call, every content of the rest of the buffer, every answer of the scheme", "The position is found by walking the records delivered; how they are split over calls is up to the scheme.", ["src/platform/redox/mod.rs:556-567", "src/platform/redox/mod.rs:1004-1027"])
p("strfmon writes the amounts, within the buffer",
  "strfmon writes the text of its format, each conversion replaced by its amount (sign or parentheses, currency symbol, integer digits in groups of three from the right, fraction, padded to the field width), terminates it and returns its length; when it does not fit in maxsize bytes it returns -1 and never writes beyond them.",
  "every format and list of amounts, every buffer size", "The groups depend on the number of digits, and the bounds on the sum of all the parts of the text.", ["src/header/monetary/mod.rs:64-85", "src/header/monetary/strfmon.rs:16-325"])
p("fmtmsg shows the components MSGVERB selects",
  "fmtmsg sends the message to standard error with exactly the components that MSGVERB names, all of them when MSGVERB is unset or not a colon-separated list of keywords, and to the console with all components, as the classification asks; the result tells which of the places asked for did not get it.",
  "every value of MSGVERB, every classification, every combination of components and of failures", "The values of MSGVERB are an infinite language; combinations of components and failures multiply.", ["src/header/fmtmsg/mod.rs:73-201"])
p("syslog delivers the messages the mask lets through",
  "After any sequence of openlog, setlogmask, closelog and syslog calls, the log has received, in order, one record per message whose severity is in the mask at the time, with its priority (the facility of openlog when it names none), identity and text; with LOG_PERROR standard error gets identity and text as well; setlogmask returns the previous mask and zero leaves it.",
  "every sequence of calls, identity, option, facility, mask, priority and text", "State carried from call to call; whether buffered records arrive depends on what comes later.", ["src/header/sys_syslog/mod.rs:73-145", "src/header/sys_syslog/logger.rs:33-290", "src/io/buffered.rs:340-513"])
p("threads.h tells why a call did not succeed and gives back results",
  "The threads.h functions return thrd_success exactly when the operation was done, thrd_busy when mtx_trylock finds the mutex held, thrd_timedout when the time of mtx_timedlock or cnd_timedwait has passed, thrd_nomem when there is no memory for a thread, else thrd_error; mutexes exclude, recursive ones can be locked again by their owner; thrd_join stores the int the thread returned or passed to thrd_exit, and nothing else; thrd_sleep sleeps.",
  "every mutex type, every interleaving of the threads on a mutex, every return value and memory", "Which code is returned depends on interleavings; what is overwritten next to an int depends on the layout of the caller's memory.", ["src/header/threads/mod.rs:39-325", "src/header/pthread/mod.rs:19-24", "src/header/pthread/mod.rs:218-228", "src/header/time/mod.rs:263-270"])
p("Socket addresses go out and come back unchanged",
  "bind, connect and sendto pass the address they are given, no more of it than the given length, to the network stack; getsockname, getpeername, accept and recvfrom store the socket's address in the caller's buffer, cut to the length the caller gave and never beyond it, and report its true length; malformed lengths and unknown families are refused with EINVAL and EAFNOSUPPORT.",
  "every address, port, path, buffer length and memory", "What lies behind a short buffer or an unterminated path varies; there are 2^48 addresses with ports.", ["src/platform/redox/socket.rs:40-202", "src/platform/redox/socket.rs:580-604", "src/platform/redox/socket.rs:651-675", "src/platform/redox/socket.rs:701-727"])
p("sendmsg and recvmsg deliver data, descriptors and truncation flags",
  "sendmsg passes the bytes of all areas in order, the destination address and the descriptors of all SCM_RIGHTS control messages in order, or fails and passes nothing; recvmsg spreads the data over the caller's areas, stores every control message that fits in the control buffer and nothing beyond it, sets MSG_TRUNC exactly when data and MSG_CTRUNC exactly when control data did not fit, and neither loses a descriptor nor hands out one that belongs to another message.",
  "every list of areas, every list of control messages, every control buffer length, every memory and every queue of descriptors in flight", "The number of areas, messages and descriptors and the lengths that cut them are unbounded; the effect of a failing message shows only in a later one.", ["src/platform/redox/socket.rs:239-534", "src/platform/redox/socket.rs:849-986", "src/header/sys_socket/mod.rs:118-169"])
p("A timer notifies when it is due, and not when it was disarmed, replaced or deleted",
  "timer_create gives a timer of its own, with any signal; a timer armed with timer_settime notifies exactly once per expiry, at its time and then at every interval, never before; arming it anew replaces what was set, disarming it or deleting it cancels it; timer_gettime tells the interval and the time that remains, zero when disarmed; malformed times and unknown timers are refused with EINVAL.",
  "every sequence of calls on any number of timers, every reading of the clocks and every schedule of the timers' threads", "The outcome depends on when the thread of a timer is started and scheduled relative to the calls and the clock; the interleavings are unbounded.", ["src/platform/redox/timer.rs:29-176", "src/platform/redox/mod.rs:1521-1649", "src/header/time/mod.rs:561-622"])
p("alarm sends SIGALRM once after the seconds asked for, and tells what remained",
  "alarm(n) replaces any outstanding alarm, has SIGALRM sent once n seconds later and not earlier, and returns the seconds left of the previous alarm, rounded up, or 0 if there is none; alarm(0) cancels.",
  "every sequence of calls, every reading of the clock and every schedule of the timer's thread", "Replaced and cancelled alarms show only in what happens, or does not happen, much later, and depend on the schedule.", ["src/header/unistd/alarm.rs:33-89", "src/header/unistd/mod.rs:166-173", "src/platform/redox/timer.rs:78-176"])
p("epoll keeps the interest list asked for and reports in time what happened",
  "epoll_ctl adds, changes and removes descriptors of the interest list, with EEXIST for one that is already there and ENOENT for one that is not; epoll_wait and epoll_pwait give, at most maxevents of them, exactly the descriptors for which a condition asked for holds, each with those conditions and the caller's word, honour EPOLLONESHOT and EPOLLET, write nothing outside the array, and return 0 only after the timeout of that call has passed, and then without delay.",
  "every sequence of calls, every array and number of records delivered, every timeout", "The records are rewritten in place in the caller's array, with the timeout's record anywhere among them, and what an earlier call left in the queue matters later; the sequences and arrays are unbounded.", ["src/platform/redox/epoll.rs:17-163", "src/header/sys_epoll/mod.rs:56-243"])
p("System V shared memory is shared by all who attach it, under its key",
  "shmget with IPC_CREAT or IPC_PRIVATE creates a zeroed segment of the size asked for, and with the key of an existing one gives that segment; shmat makes its bytes accessible, read-only if asked for, at an address of its own, so that what is stored through one attachment is read through all; shmdt ends that attachment and nothing else.",
  "every sequence of creating, attaching, storing and detaching, every size, key and placement by the kernel", "Aliased mappings with a hidden header in front interact with the page rounding and with the order of operations; the sequences and sizes are unbounded.", ["src/header/sys_shm/mod.rs:51-135", "src/platform/redox/mod.rs:828-858", "src/platform/redox/mod.rs:909-919"])
p("nice values are set, kept within the limits and read back",
  "setpriority gives the process, process group or user the nice value asked for, brought within -20 to 19; getpriority returns it, -1 being told from an error by errno; nice adds its argument within the limits and returns the new value; no other process changes; errors are reported with errno.",
  "every process, every nice value and every increment representable as int, every state of the process manager", "Three different scales are converted into each other, and the increments reach the limits of int; the values are too many to test with every earlier state.", ["src/header/sys_resource/mod.rs:191-212", "src/header/unistd/mod.rs:864-882", "src/platform/redox/mod.rs:645-653", "src/platform/redox/mod.rs:1159-1167", "redox-rt/src/sys.rs:115-144"])
p("swab exchanges the bytes of each pair",
  "swab copies nbytes bytes between areas that do not overlap, exchanging adjacent bytes, an odd last byte being left out; nothing else is changed and nothing is done when nbytes is not positive.",
  "every length, every content and every placement of the two areas", "Reads and writes outside the areas, and a wrong last pair, depend on the length and placement, of which there are unboundedly many.", ["src/header/unistd/mod.rs:1200-1213"])
p("sleep, usleep and nanosleep sleep as long as asked or tell what is left",
  "sleep, usleep and nanosleep return success only after the time asked for has passed; interrupted by a signal, sleep returns the whole seconds left, the others fail with EINTR and nanosleep stores the time left; nanosleep refuses nanoseconds outside 0 to 999999999 with EINVAL.",
  "every time asked for, every moment of interruption", "The moment of interruption is outside the test's control, and the conversions matter at the limits of the types.", ["src/header/unistd/mod.rs:1179-1196", "src/header/unistd/mod.rs:1386-1399", "src/platform/redox/mod.rs:932-950", "redox-rt/src/sys.rs:546-549"])
p("waitpid reports each change of a child asked for, once, and waits as the options say",
  "waitpid reports the last change of state of a child its first argument means (a process, a process group, the caller's group, any), of a kind the options ask for, and of no other; WIFEXITED and its kin tell what the change was; the end of a child is reported once; a call with WNOHANG returns at once, with 0 when there is nothing to report; otherwise the call waits until there is something to report, no child is left (ECHILD) or a handler without SA_RESTART has run (EINTR); what is not reported stays to be reported; options that do not exist are refused.",
  "every set of children, every argument and combination of options, every sequence of changes and signals while the call waits", "The order in which children change state and signals arrive is not under the control of a test; lost reports and endless loops show only for particular orders.", ["src/platform/redox/mod.rs:1746-1807", "redox-rt/src/sys.rs:29-49", "redox-rt/src/sys.rs:343-375", "src/header/sys_wait/cbindgen.toml:13-29"])
p("popen connects the command, pclose and system return how it ended",
  "popen takes the modes \"r\" and \"w\", with or without \"e\", and refuses others with EINVAL; the command's standard output or input is a pipe whose other end is the stream, the command gets the caller's other descriptors that are not close-on-exec and are not streams of popen, and the caller keeps its descriptors as they were; when it fails nothing is left behind. pclose closes the stream, waits for the command and returns its status, whatever handlers run; for a stream that is not of popen it fails and leaves the stream. system returns the status of the command, 127 if the shell cannot be run; output the caller has not written is written once.",
  "every descriptor table, mode and number the kernel gives, every set of children and sequence of changes and signals while the call waits", "Whether descriptor numbers collide with the standard ones and in which order children and signals come depends on the caller; tests run with 0, 1 and 2 open and no signals.", ["src/header/stdio/mod.rs:1055-1078", "src/header/stdio/mod.rs:1104-1189", "src/header/stdlib/mod.rs:1617-1656", "src/header/stdio/helpers.rs:52-95"])
p("pseudo-terminals are named, opened and given to a child without a descriptor lost",
  "ptsname_r stores the name of the terminal and its end in the buffer if both fit, and else returns ERANGE, storing nothing; ptsname has room for every name. openpty opens a master and the slave of this master, gives the slave's name and leaves nothing open when it fails. After forkpty the parent has the master, the child the slave as its three standard descriptors and controlling terminal, and otherwise both have the descriptors, signal mask and cancelability of before; when it fails nothing is left and no child runs.",
  "every terminal number, buffer size and memory, every descriptor table of the caller (standard descriptors open or not), every failure of the calls made", "Descriptor numbers that collide with the standard ones, buffers one byte short and failures of ioctl, pipe and fork are not produced by tests.", ["src/header/pty/mod.rs:18-165", "src/header/utmp/mod.rs:11-38", "src/header/stdlib/mod.rs:945-1027", "src/header/stdlib/mod.rs:1680-1689"])
p("terminal attributes, size and foreground group are what was set, and raw mode is raw",
  "cfmakeraw switches off the processing of input and output, echo, canonical mode, signals and parity, sets eight bits and reading byte by byte, and changes nothing else. tcsetattr sets the attributes that tcgetattr then gives, with TCSADRAIN after the output has gone and with TCSAFLUSH also discarding input. The speeds set are those got. tcsetpgrp returns 0 and sets the process group that tcgetpgrp gives; so for the window size. tcflush, tcflow, tcdrain and tcsendbreak do what they are asked. Arguments not known are refused with EINVAL; what the terminal refuses changes nothing. FIONBIO changes O_NONBLOCK alone.",
  "every attribute structure, argument, terminal and refusal by the terminal, every set of status flags", "A terminal is needed to test; the flags that must be kept are 2^128 sets, and refusals by the driver are not produced.", ["src/header/termios/mod.rs:100-390", "src/header/unistd/mod.rs:1253-1279", "src/header/sys_ioctl/redox/mod.rs:94-195"])
p("Diagnostics name the error or signal, with the prefix asked for, on one line",
  "strerror has a text for every int: that of the error, or one with the number in it; strerror_r called by one thread does not disturb another's call. strsignal has the text of the signal. perror and psignal write one line to standard error, of the prefix, if there is one and it is not empty, and strerror's or strsignal's text; errno is kept. err, errc, errx, warn, warnc and warnx write to the file chosen, or standard error, one line of the program's name, the message, if any, and, except for those ending in x, the text of the error that errno held at the call; the err functions then call the function set with the exit status, and exit with it.",
  "every int as error or signal number, every prefix and message, every value the printing leaves in errno, any two threads", "The texts for 2^32 numbers fit in a buffer computed from the table; races on the shared buffer and prefixes in other encodings are not met by tests.", ["src/header/errno/mod.rs:181-344", "src/header/string/mod.rs:386-423", "src/header/string/mod.rs:617-624", "src/header/signal/mod.rs:810-895", "src/header/stdio/mod.rs:1082-1102", "src/header/err/mod.rs:1-245"])
p("Locales: localeconv gives the values of the locale set, for the process or the thread",
  "localeconv gives the values of the C locale until setlocale, and again after setlocale with \"C\". setlocale sets exactly the fields of its category to those of the locale named, returns a name with which the category can be set again, and changes nothing when there is no such locale. The values of a locale are those in its definition file. uselocale sets the calling thread's locale and returns the one before, and localeconv follows it. newlocale takes the categories in its mask from the locale named and the others from the base, or from C if there is none; duplocale copies a locale, and freeing one leaves the others.",
  "every sequence of definition lines, every category, mask, state of the process and thread", "Definition files, masks and histories are unlimited; values of the C locale are seldom looked at after setlocale.", ["src/header/locale/mod.rs:24-183", "src/header/locale/data.rs:41-385"])
p("crypt: the text made of a password verifies this password and no other",
  "For every kind of setting crypt knows (MD5, Blowfish, SHA-256, SHA-512, scrypt, PBKDF2, Argon2), the text that crypt makes of a password and a setting can be stored and later verifies this password: crypt of the password with the stored text as setting gives the stored text again. Another password gives it only if the hash functions collide. No setting, however long and in whatever letters, makes crypt crash or write beyond its data.",
  "every password and other password, every setting, any hash functions", "Settings and passwords are unlimited; tests compare a few known hashes and do not verify with the result, nor with long salts or letters beyond ASCII.", ["src/header/crypt/mod.rs:64-120", "src/header/crypt/md5.rs:125-147", "src/header/crypt/sha.rs:55-140", "src/header/crypt/blowfish.rs:13-90", "src/header/crypt/pbkdf2.rs:38-64", "src/header/crypt/scrypt.rs:10-113"])
p("regexec reports the match and its subexpressions; regerror tells errors apart within its buffer",
  "regexec matches the input with the pattern as compiled with regcomp's flags and with its own flags: it returns 0 if there is a match and REG_NOMATCH if there is none. On a match the first nmatch entries of pmatch are the offsets of the subexpressions, -1 for those not taking part; nothing else is stored, and nothing at all if the pattern was compiled with REG_NOSUB or pmatch is null. regerror stores the text of an error, cut to the buffer and terminated, and returns the size the whole text needs; different errors have different texts.",
  "every pattern, input, combination of flags, nmatch, error code, buffer and size, any matching engine", "Flags, sizes and numbers of subexpressions combine without limit; the one test of regex.h uses two entries and no flags of regexec.", ["src/header/regex/mod.rs:14-178"])
p("mmap, munmap and mprotect act on exactly the pages of the bytes named",
  "After mmap of n bytes each of the n bytes from the address returned on is the byte of the object named at the offset plus its distance, with the protection asked for; no page without one of these bytes has changed. Without MAP_FIXED the bytes were free before, with it the address is the one given, and advice such as MAP_POPULATE changes nothing of this. A descriptor that is not open is EBADF. munmap unmaps exactly the pages with one of the n bytes named, and mprotect changes the protection of exactly these. shm_open opens the same object for the same name and different ones for different names, with a descriptor that exec closes.",
  "every address, length, protection, combination of flags, offset and state of the address space", "Lengths, addresses and spaces are unlimited; tests map a page or two and do not look at the neighbouring pages.", ["src/header/sys_mman/mod.rs:26-196", "src/header/sys_mman/redox.rs:3-11", "src/platform/redox/mod.rs:87-91", "src/platform/redox/mod.rs:828-919"])
p("utimensat, futimens, utimes and utime set exactly the times asked for",
  "A successful utimensat, futimens, utimes or utime sets the access and modification times of the file named to the two times given, or to the current time where there is no pointer or tv_nsec is UTIME_NOW, and leaves one with UTIME_OMIT as it was. No other file changes and no descriptor stays open. With AT_SYMLINK_NOFOLLOW the file is the link itself. Nanoseconds outside 0..999999999 and microseconds outside 0..999999 are EINVAL, a path that cannot be found is its error, a descriptor that is not open is EBADF; after an error nothing has changed. gettimeofday and ftime give the current time to the microsecond and millisecond.",
  "every path, descriptor, pair of times, flag and state of the files", "Times and file systems are unlimited; tests set one file's times and look at that file only.", ["src/header/sys_stat/mod.rs:175-276", "src/header/utime/mod.rs:49-65", "src/header/sys_time/mod.rs:87-150", "src/header/sys_timeb/mod.rs:48-75", "src/platform/redox/mod.rs:519-541", "src/platform/redox/mod.rs:746-761", "src/platform/redox/libredox.rs:194-219"])
p("sigwait, sigwaitinfo and sigtimedwait accept exactly one pending signal of the set",
  "The signal returned is in the set and was pending for the thread or the process, and this one instance of it is no longer pending afterwards; nothing else is taken, however other threads accept signals at the same time. If one of the set is pending the call returns at once, with the lowest, and tells who sent it; otherwise it waits until one is, and an unblocked signal outside the set interrupts it (EINTR). sigtimedwait fails with EAGAIN when the time is over, and only then; a failing call takes nothing. sigwait stores the number and returns 0, or returns the number of the error.",
  "every set, state of pending and queued signals, interleaving with other threads, and course of events while waiting", "Which thread gets a signal first depends on the interleaving of single instructions, which tests cannot choose.", ["redox-rt/src/signal.rs:840-963", "src/platform/redox/signal.rs:256-271", "src/header/signal/mod.rs:761-808"])
p("sbrk hands out adjacent areas of mapped memory, and brk sets where the next begins",
  "sbrk returns the break and moves it by the increment, back as well as forth; the areas of increments obtained one after the other are adjacent, do not overlap, and lie in memory mapped for the process. brk sets the break, which sbrk(0) then returns. A call that fails returns -1 (a pointer of -1 for sbrk) with ENOMEM and leaves the break as it was.",
  "every history of brk and sbrk calls and every answer of mmap", "Histories are unlimited; tests make one or two calls that succeed.", ["src/header/unistd/brk.rs:12-58", "src/platform/redox/mod.rs:151-185"])
p("nl_langinfo gives the strings of the locale, the same that strftime and localeconv use",
  "nl_langinfo returns for each item of langinfo.h the string of the current locale, nl_langinfo_l that of the locale given, and both the empty string for what is no item; in the \"C\" locale the strings are those of the standard. strftime prints them: %a, %A, %b, %B and %p the names, and %c, %x, %X and %r what the formats D_T_FMT, D_FMT, T_FMT and T_FMT_AMPM print. RADIXCHAR and THOUSEP are localeconv's.",
  "every item, every broken-down time, every buffer and size, every locale", "The broken-down times and buffers are unlimited; tests compare some strings of the table with themselves.", ["src/header/langinfo/mod.rs:19-227", "src/header/time/strftime.rs:32-40", "src/header/time/strftime.rs:108-273"])
p("uname stores the names of the system as strings in the structure, or fails with errno",
  "uname stores in the structure, each with its terminating null, the names of the system, the node, the release, the version and the machine, and returns 0; or it returns -1 and sets errno. It changes nothing outside the structure, whatever the files it reads contain and in whatever pieces they are read. The name of the node is the host name set for the system, cut off at 64 bytes.",
  "every content of the two files, every way reads split them or fail, every memory", "The files, the sizes of the pieces read and the failures are unlimited; tests see the one system they run on.", ["src/platform/redox/mod.rs:1656-1732", "src/header/sys_utsname/mod.rs:16-51", "src/out.rs:157-186", "src/io/mod.rs:2005-2024"])
p("chdir and fchdir change the working directory for relative names and getcwd, or change nothing",
  "After chdir or fchdir succeeds, the directory that the name or the descriptor stood for is the one in which relative names are looked up and whose name getcwd returns. A call that fails, as it does for a name that leads nowhere and for what is no directory (ENOTDIR), changes nothing. The program's descriptors are not touched, and none stay open but the one for the working directory, however many calls are made.",
  "every file system, every history of calls, succeeding or failing, every set of open descriptors", "Histories and file systems are unlimited, and a descriptor left open is seen only when there are no more; tests change to one directory.", ["src/platform/redox/path.rs:27-126", "src/platform/redox/mod.rs:187-191", "src/header/unistd/mod.rs:177-180", "src/header/unistd/mod.rs:418-420"])
p("The calls that set user and group ids set exactly those they are for, and giving privileges up with setuid is final",
  "getuid, geteuid, getresuid and their counterparts for groups return the ids the process has. A call that sets ids and returns 0 sets those it is for: setresuid the three given, -1 leaving one as it is; setreuid the real and the effective one, and the saved one to the effective one if the real one is set or the effective one becomes different from it; seteuid the effective one; setuid all three if the process is privileged, so that it cannot get its privileges back, else the effective one; and likewise for groups. Otherwise it returns -1, with EINVAL for values that are no ids and else with the system's error, and changes nothing.",
  "every history of calls, every ids, every policy of the process manager", "Histories and policies are unlimited, and that privileges can be regained shows only in what is not tried; tests run without privileges.", ["src/header/unistd/mod.rs:1066-1170", "src/header/unistd/mod.rs:577-760", "src/platform/redox/mod.rs:93-98", "src/platform/redox/mod.rs:1173-1201", "redox-rt/src/sys.rs:424-472"])
p("srand with the same seed makes rand return the same numbers, and different seeds different ones",
  "rand returns numbers from 0 to RAND_MAX. After srand with the same seed it returns the same numbers again, whatever was called before; without srand it returns those of srand(1); after srand with different seeds it returns different numbers. rand_r does so with the seed that its argument points to, which it replaces, and depends on nothing else.",
  "every seed, every history of calls, any count of numbers", "Seeds and histories are unlimited; a test with two small seeds does not show that only eight bits of the seed count.", ["src/header/stdlib/mod.rs:53-72", "src/header/stdlib/mod.rs:1113-1150", "src/header/stdlib/mod.rs:1369-1373"])
p("CMSG_FIRSTHDR and CMSG_NXTHDR walk through all control messages of a buffer, and never out of it",
  "For a buffer that holds control messages one after the other, each in CMSG_SPACE bytes with the length CMSG_LEN of its data (the last not necessarily padded), CMSG_FIRSTHDR and then CMSG_NXTHDR give each message once, in order, then NULL, and CMSG_DATA its data. Whatever the buffer holds, the walk ends and every header it gives lies in the buffer. The macros in the header and the functions of the library do the same.",
  "every list of messages with any data, every contents of the buffer", "Buffers and lengths are unlimited; tests pass one descriptor in one message.", ["src/header/sys_socket/cbindgen.toml:30-45", "src/header/sys_socket/mod.rs:99-169"])
p("getgroups returns the supplementary groups of the process and disturbs nothing else",
  "getgroups with room for them stores the ids of the supplementary groups of the process in the array, leaves the rest of the array and returns their number; with size 0 it returns the number only; with too little room, or a negative size, it fails with EINVAL. It has no other effect, not on a walk with getgrent either, and the groups do not change with the user ids.",
  "every group file, every user, every array", "Files and arrays are unlimited; that a walk in progress is restarted shows only in programs that do both.", ["src/header/unistd/mod.rs:587-601", "src/platform/redox/mod.rs:581-627", "src/header/grp/mod.rs:445-498"])
p("A signal handler that returns leaves the registers of the interrupted program as they were",
  "When a signal interrupts a program between any two instructions and its handler returns, the program goes on with the same instruction pointer, flags, general and vector registers, whatever the handler did with the registers that functions may change.",
  "every contents of the registers, every handler, every signal", "Where a signal interrupts the program is up to chance, and what registers are live there and what the handler leaves in them differs from build to build; tests raise signals with calls, across which these registers are not kept.", ["redox-rt/src/arch/x86_64.rs:178-396"])
p("sigaltstack sets and reports the alternate stack, and signals with SA_ONSTACK are handled on it",
  "sigaltstack reports the thread's alternate stack (SS_DISABLE without one, SS_ONSTACK while executing on it), sets the one given or disables it; it fails with EPERM while executing on it, with ENOMEM for one smaller than MINSIGSTKSZ and with EINVAL for flags other than SS_DISABLE, and then changes nothing. A signal with SA_ONSTACK is handled from the end of the alternate stack, or, on it already, below what is in use; others are handled on the current stack, below what is in use and the red zone. The handler's stack is aligned.",
  "every history of calls, every stack, every stack pointer", "Histories and addresses are unlimited; tests use a stack whose end happens to be aligned.", ["src/header/signal/mod.rs:346-352", "src/platform/redox/signal.rs:187-222", "redox-rt/src/signal.rs:64-90", "redox-rt/src/signal.rs:696-762", "redox-rt/src/arch/x86_64.rs:253-281"])
p("On aarch64 and i686, a signal handler that returns leaves the interrupted program's registers as they were",
  "A program that a signal interrupts at any instruction finds, once the handler has returned, every register as it was: the general purpose registers, the stack pointer, the flags, the vector registers and, on i686, which x87 registers are in use.",
  "every state of the registers, every signal source, everything the handler leaves in them", "The values and the point of interruption are unlimited; a test's compiler rarely has a live value in the registers concerned.", ["redox-rt/src/arch/aarch64.rs:157-390", "redox-rt/src/arch/i686.rs:142-281"])
p("On aarch64, the trampoline handles a signal that is pending and allowed, and takes just that one from those pending",
  "When the kernel jumps to the trampoline, the signal handled is one that is pending, for the thread or the process, and allowed by the thread's mask; its pending bit is cleared, all others and the mask stay as they were, and the sender recorded is that signal's.",
  "every set of pending and of allowed signals", "There are 2^192 states; tests have one signal pending and nothing blocked.", ["redox-rt/src/arch/aarch64.rs:174-313"])
p("On x86_64 and i686, the trampoline handles the first signal that is pending and allowed, and takes just that one from those pending",
  "When the kernel jumps to the trampoline, the signal handled is pending, for the thread or the process, and allowed by the thread's mask: the lowest standard signal of the thread, else the lowest standard signal of the process, else the lowest realtime signal. Its pending bit is cleared (a realtime signal of the process is dequeued), all others and the mask stay as they were, and for a standard signal the sender recorded is that signal's. The jump is taken for spurious only when no signal is pending and allowed.",
  "every set of pending and of allowed signals", "There are 2^192 states; tests have one signal pending and nothing blocked.", ["redox-rt/src/arch/x86_64.rs:189-252", "redox-rt/src/arch/i686.rs:151-222"])
if __name__ == "__main__":
    out = os.path.join(os.path.dirname(os.path.abspath(__file__)), "..", "properties.jsonl")
    with open(out, "w") as f:
        for x in P: f.write(json.dumps(x) + "\n")
    print(len(P))
