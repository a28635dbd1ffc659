{"id": "C01", "title": "Word-level byte presence tests are exact", "statement": "haszero(x) is true exactly when one of the eight bytes of x is 0, and hasbyte(x, c) exactly when one of the eight bytes of x equals c.", "quantifier": "every 64-bit word x and every byte c", "why_tests_cant": "2^64 words times 2^8 bytes; the subtraction borrow couples neighbouring bytes, so sampling misses rare carry patterns", "anchors": ["src/swar.c:haszero", "src/swar.c:hasbyte", "src/swar.c:extend"]}
{"id": "C02", "title": "memchr8 finds the first matching byte of an 8-byte window", "statement": "memchr8(s, c) returns the smallest index i < 8 with s[i] == c, and (uint32_t)-1 when there is none; memchr8k agrees with it whenever the byte is present and is undefined when it is absent.", "quantifier": "every 8 readable bytes at s and every byte c", "why_tests_cant": "2^72 input combinations", "anchors": ["src/swar.c:_memchr8", "src/swar.c:memchr8", "src/swar.c:memchr8k"]}
{"id": "C03", "title": "cast8 loads a short prefix as a little-endian integer", "statement": "cast8(s, len) equals the little-endian integer formed by the first len bytes of s, whatever bytes follow, for every length 0..8, without undefined behaviour.", "quantifier": "every length 0..8, every string and every trailing bytes", "why_tests_cant": "the bytes after the prefix are not under the control of a test, and shift-count undefined behaviour is invisible on one compiler", "anchors": ["src/swar.c:cast8"]}
{"id": "C04", "title": "Forward byte search agrees with memchr", "statement": "simd_memchr(s, c, len) returns a pointer to the first byte equal to c among s[0..len), NULL when there is none, and reads no byte outside s[0..len); memchrk/pmemchr/pmemchrk return the same index on their documented domains.", "quantifier": "every buffer, every length and every byte", "why_tests_cant": "the result depends on len mod 8 and on bytes after the range; tests use one 16 byte string", "anchors": ["src/swar.c:_memchr", "src/swar.c:simd_memchr", "src/swar.c:memchrk", "src/swar.c:pmemchr", "src/swar.c:pmemchrk"]}
{"id": "C05", "title": "Backward byte search agrees with memrchr", "statement": "simd_memrchr(s, c, len) returns a pointer to the last byte equal to c among s[0..len), NULL when there is none, and reads no byte outside the range; memrchrk returns the same index.", "quantifier": "every buffer, every length and every byte", "why_tests_cant": "depends on len mod 8 and on memory after the buffer that a test does not control", "anchors": ["src/swar.c:_memrchr", "src/swar.c:simd_memrchr", "src/swar.c:memrchrk"]}
{"id": "C06", "title": "Zero-padded formatting prints exactly the low N decimal digits", "statement": "utoap(N, x, s) leaves in s the NUL-terminated N digit decimal rendering of x modulo 10^N with leading zeros (%0Nu when x < 10^N), for 0 <= N <= 20, and writes no byte outside s[0..24); utoa2p(x) is the two digit rendering of x < 100.", "quantifier": "every N in 0..20, every 64-bit x and every prior buffer content", "why_tests_cant": "2^64 values times 21 widths", "anchors": ["src/swar.c:utoap", "src/swar.c:_utoap", "src/swar.c:utoa2p"]}
{"id": "C07", "title": "itoa8 prints every integer of at most eight digits", "statement": "For |x| < 10^8 itoa8(x, buf) leaves the canonical decimal rendering of x in buf, NUL-terminated, and returns its length; it writes only to buf[0..10).", "quantifier": "every 32-bit x of at most eight digits and every prior buffer content", "why_tests_cant": "2*10^8 values, plus footprint of the write", "anchors": ["src/swar.c:itoa8", "src/swar.c:utoa2p"]}
{"id": "C08", "title": "simd_itoa prints every 64-bit integer", "statement": "simd_itoa(x, buf) leaves the canonical decimal rendering of x in buf and returns its length, reads only its own memory and writes at most 22 bytes.", "quantifier": "every int64_t x", "why_tests_cant": "2^64 values; tests only use values below 2^31", "anchors": ["src/swar.c:simd_itoa", "src/swar.c:utoa2p_ex"]}
{"id": "C09", "title": "Decimal parsing is exact modulo 2^64", "statement": "For a string of 1..20 decimal digits simd_atou(s, len) returns its value modulo 2^64 (atou8 the exact value for 1..8 digits), whatever bytes follow the digits.", "quantifier": "every digit string of 1..20 characters and every following bytes", "why_tests_cant": "10^20 strings; correctness depends on carries between packed lanes", "anchors": ["src/swar.c:atou8", "src/swar.c:simd_atou"]}
{"id": "C10", "title": "Signed parsing is exact", "statement": "For an optional '-' followed by decimal digits (at most 20 characters in total) whose value fits in int64_t, simd_atoi returns that value.", "quantifier": "every such string and every following bytes", "why_tests_cant": "10^19 strings", "anchors": ["src/swar.c:simd_atoi", "src/swar.c:simd_atou"]}
{"id": "C11", "title": "Printing then parsing is the identity", "statement": "simd_atoi applied to the text that itoa8 (respectively simd_itoa) wrote for x, with the length it returned, gives back x.", "quantifier": "every x (itoa8: |x| < 10^8; simd_itoa: every int64_t)", "why_tests_cant": "every integer has to be tried; the two directions use unrelated bit tricks", "anchors": ["src/swar.c:itoa8", "src/swar.c:simd_itoa", "src/swar.c:simd_atoi"]}
{"id": "C12", "title": "Hexadecimal parsing is exact", "statement": "For a string of 1..16 hexadecimal digits in any mix of cases simd_htou returns its value, and htou8 does for 1..8 digits, whatever bytes follow.", "quantifier": "every hexadecimal string of 1..16 digits", "why_tests_cant": "22^16 strings", "anchors": ["src/swar.c:htou8", "src/swar.c:simd_htou"]}
{"id": "C13", "title": "simd_atod parses decimal fractions", "statement": "simd_atod(s, len) of a plain decimal string [-]d..d.d..d is the number it denotes up to floating-point rounding.", "quantifier": "every decimal string with at most 20 integer digits", "why_tests_cant": "unbounded input set; the functions it calls fail only for some lengths and signs", "anchors": ["src/swar.c:simd_atod", "src/swar.c:_copySign"]}
{"id": "C14", "title": "simd_strlen equals strlen", "statement": "simd_strlen(s) is the index of the first NUL byte of s for every alignment of s, and every word it loads is 8-byte aligned and contains at least one byte of the string or its terminator.", "quantifier": "every string, every alignment, every bytes beyond the terminator", "why_tests_cant": "length, alignment and trailing garbage are unbounded and the word test can fire spuriously", "anchors": ["src/swar.c:simd_strlen"]}
{"id": "C15", "title": "simd_strcmp orders strings like strcmp", "statement": "simd_strcmp(a, b) is zero exactly when the strings are equal and otherwise has the sign of the first differing byte, as strcmp does.", "quantifier": "every pair of strings, every trailing bytes", "why_tests_cant": "the word loop, tail loop and length special cases interact; tests use a few lengths", "anchors": ["src/swar.c:simd_strcmp"]}
{"id": "C16", "title": "is_str_eq decides string equality", "statement": "is_str_eq(a, b) is true exactly when the two strings have the same length and bytes; is_str_empty(s) exactly when s is \"\".", "quantifier": "every pair of strings", "why_tests_cant": "an equality test must be right for every pair; a failing length class is easily missed", "anchors": ["src/raii.c:is_str_eq", "src/raii.c:is_str_empty", "src/swar.c:simd_strcmp"]}
{"id": "C17", "title": "strpos returns the first occurrence", "statement": "strpos(text, pattern) is the smallest offset at which pattern occurs in text and -1 when it does not occur; is_str_in is true exactly when it occurs.", "quantifier": "every pair of strings", "why_tests_cant": "unbounded pairs of strings with arbitrary self-overlap", "anchors": ["src/swar.c:strpos", "src/raii.c:is_str_in"]}
{"id": "C18", "title": "raii_split cuts at every delimiter occurrence", "statement": "For a non-empty delimiter raii_split(s, delim, &n) returns a NULL-terminated array of n strings whose concatenation with delim between consecutive words is s, where no word contains an occurrence of delim; it writes only inside its own block.", "quantifier": "every non-empty string s and every non-empty delimiter", "why_tests_cant": "pointer arithmetic into a single block, overlapping delimiters, and an emptiness test that depends on the length of s", "anchors": ["src/swar.c:str_split_ex", "src/swar.c:str_copy", "src/raii.c:raii_split"]}
{"id": "C19", "title": "raii_concat concatenates its arguments", "statement": "raii_concat(n, s1, ..., sn) returns the NUL-terminated concatenation s1...sn in a block of exactly the needed size and writes nothing outside it.", "quantifier": "every list of strings", "why_tests_cant": "unbounded argument lists and lengths", "anchors": ["src/swar.c:str_concat_ex", "src/swar.c:str_copy"]}
{"id": "C20", "title": "raii_replace substitutes every occurrence", "statement": "For a non-empty needle that occurs in the haystack raii_replace returns the haystack with each leftmost non-overlapping occurrence replaced, in a block of exactly the needed size; it returns NULL when the needle does not occur.", "quantifier": "every haystack, needle and replacement", "why_tests_cant": "the size computation uses unsigned wrap-around when the replacement is shorter", "anchors": ["src/swar.c:str_replace_ex"]}
{"id": "C21", "title": "Base64 encoding follows RFC 4648 and never overruns its buffer", "statement": "str_encode64 of a byte string returns its RFC 4648 base64 text with padding, writing only inside the block it allocated; for inputs whose encoded length does not fit it returns NULL before writing.", "quantifier": "every byte string without NUL and every length below 2^62", "why_tests_cant": "every 3-byte group and tail length; the size formula mixes 32 and 64-bit arithmetic", "anchors": ["src/swar.c:str_encode64_ex", "src/swar.c:str_base64_len"]}
{"id": "C22", "title": "Base64 decoding inverts encoding", "statement": "Decoding the encoding of a string gives back the same bytes.", "quantifier": "every byte string without NUL", "why_tests_cant": "2^24 groups and unbounded lengths", "anchors": ["src/swar.c:str_decode64_ex", "src/swar.c:str_encode64_ex"]}
{"id": "C23", "title": "Base64 decoding is safe on arbitrary text", "statement": "For any input text str_decode64 terminates, writes only inside the block it allocated, and returns NULL when the number of alphabet or padding characters is zero, is not a multiple of four, or the first padded group has more than two '='; is_base64 is true exactly when every character is a letter, digit, '+', '/' or '='.", "quantifier": "every input string", "why_tests_cant": "adversarial inputs with characters outside the alphabet at every position", "anchors": ["src/swar.c:str_decode64_ex", "src/swar.c:is_base64"]}
{"id": "C24", "title": "Copies are exact", "statement": "str_memdup_ex(p, n) and str_copy produce exactly the n source bytes, the former in a block of n+1 bytes ending in NUL, and leave the rest of the destination unchanged.", "quantifier": "every source, length and destination", "why_tests_cant": "unbounded lengths; the zero length case means strlen", "anchors": ["src/swar.c:str_memdup_ex", "src/swar.c:str_copy"]}
{"id": "C25", "title": "Deferred functions run last-in first-out, exactly once", "statement": "When a scope is released (raii_deferred_free, raii_delete, raii_deferred_clean) every function deferred on it and not cancelled is called exactly once with its own argument, in reverse order of registration.", "quantifier": "every finite history of defer calls on a scope, for deferred functions that do not defer on the same scope themselves", "why_tests_cant": "unbounded histories; array growth points every 16 entries", "anchors": ["src/raii.c:raii_deferred", "src/raii.c:raii_deferred_run", "src/raii.c:raii_deferred_free", "src/raii.c:raii_delete"]}
{"id": "C26", "title": "Releasing a scope twice is harmless", "statement": "After a scope has been released, releasing it again calls no deferred function and frees nothing again.", "quantifier": "every history of defers followed by any number of releases", "why_tests_cant": "depends on state left behind by the first release", "anchors": ["src/raii.c:raii_deferred_free", "src/raii.c:raii_deferred_clean"]}
{"id": "C27", "title": "A released scope can be used again", "statement": "A function deferred after raii_deferred_clean (or raii_deferred_free) on a live scope is called at the next release of that scope.", "quantifier": "every interleaving of defer and release calls on one scope", "why_tests_cant": "needs histories with more than one release", "anchors": ["src/raii.c:raii_deferred_free", "src/raii.c:raii_deferred_array_reset", "src/raii.c:raii_deferred"]}
{"id": "C28", "title": "Cancelling a deferred function removes exactly that one", "statement": "raii_deferred_cancel(scope, i), where i was returned by raii_deferred, prevents exactly the i-th registered function from being called at release and leaves the others and their order unchanged.", "quantifier": "every history of defers and every returned index", "why_tests_cant": "depends on struct layout and on the number of later registrations", "anchors": ["src/raii.c:raii_deferred_cancel", "src/raii.c:raii_deferred_internal", "src/raii.c:raii_deferred_array_get_index", "src/raii.c:raii_deferred_array_get_element", "include/raii.h:defer_t"]}
{"id": "C29", "title": "Firing a deferred function runs exactly that one, once", "statement": "raii_deferred_fire(scope, i), where i was returned by raii_deferred, calls exactly the i-th registered function once with its argument, and it is not called again at release.", "quantifier": "every history of defers and every returned index", "why_tests_cant": "same index arithmetic as cancellation", "anchors": ["src/raii.c:raii_deferred_fire", "src/raii.c:raii_deferred_internal", "include/raii.h:defer_t"]}
{"id": "C30", "title": "Scope-bound allocations are released exactly once", "statement": "Every block obtained from malloc_full/calloc_full on a scope is passed to its own release function exactly once when the scope is released, in reverse order of allocation, whether or not the scope carries an error.", "quantifier": "every history of allocations and defers on a scope, with and without a pending error", "why_tests_cant": "two release paths (deferred list and protector) overlap", "anchors": ["src/raii.c:malloc_full", "src/raii.c:calloc_full", "src/raii.c:raii_deferred_run"]}
{"id": "C31", "title": "The growable array never overruns its block", "statement": "After any sequence of appends (and removals of the last element) the number of elements never exceeds the allocated capacity and each appended slot lies inside the current block and is distinct from earlier ones; the multiplication overflow test used for its size is exact.", "quantifier": "every history of appends/removals and every pair of 64-bit sizes", "why_tests_cant": "unbounded histories and 2^128 size pairs", "anchors": ["src/raii.c:raii_array_append", "src/raii.c:realloc_array", "src/raii.c:umull_overflow", "src/raii.c:add_overflow"]}
{"id": "C32", "title": "Functions deferred while a scope is being released are not lost", "statement": "If a deferred function itself defers another function on the scope being released, that function is also called before the release ends.", "quantifier": "every nesting of defers inside deferred functions", "why_tests_cant": "needs re-entrant histories", "anchors": ["src/raii.c:raii_deferred_run", "src/raii.c:raii_deferred"]}
{"id": "C33", "title": "try/catch/finally has structured exception semantics", "statement": "A program built from try, catch(E), catch_any, throw, rethrow and finally blocks performs the same sequence of visible actions and ends the same way (normally, or terminated by the same uncaught exception) as the usual structured semantics: the nearest enclosing handler that matches runs, then its finally, and unmatched exceptions propagate outward.", "quantifier": "every program over these constructs, any nesting depth, any uninitialised memory contents", "why_tests_cant": "unbounded nesting of blocks and of throws inside handlers and finally blocks", "anchors": ["include/exception.h:ex_try", "include/exception.h:ex_catch", "include/exception.h:ex_finally", "include/exception.h:ex_end_try", "src/except.c:ex_throw", "src/except.c:106-133"]}
{"id": "C34", "title": "finally runs exactly once", "statement": "Each time a try block with a finally part is entered the finally part is executed exactly once, whether the body ends normally, by an exception that is caught, by an uncaught one, or by an exception thrown inside a handler.", "quantifier": "every program over try/catch/finally and every exit path", "why_tests_cant": "exit paths multiply with nesting", "anchors": ["include/exception.h:ex_finally", "include/exception.h:ex_end_try", "src/except.c:ex_throw"]}
{"id": "C35", "title": "A completed try block restores the enclosing handler", "statement": "After a try block has finished, normally or by an exception leaving it, the current exception context is the one that was current before the block, so later throws reach the handler that lexically encloses them.", "quantifier": "every program over try/catch/finally", "why_tests_cant": "requires looking at the context chain after every path", "anchors": ["include/exception.h:ex_try", "include/exception.h:ex_finally", "include/exception.h:ex_end_try"]}
{"id": "C36", "title": "A throw inside a catch_if handler leaves the handler", "statement": "An exception thrown inside a catch_if block propagates to the enclosing handler; the block is not entered again for the same try.", "quantifier": "every catch_if body that throws", "why_tests_cant": "non-termination cannot be observed by a finite test", "anchors": ["include/exception.h:ex_catch_if", "src/except.c:ex_throw"]}
{"id": "C37", "title": "Protected pointers are released when an exception leaves the block", "statement": "When an exception is thrown, every non-NULL pointer protected in the current block is passed to its release function exactly once, most recently protected first, and NULL ones are skipped.", "quantifier": "every sequence of protected pointers (NULL or not, equal or not)", "why_tests_cant": "depends on which positions are NULL or repeated", "anchors": ["src/except.c:106-133", "src/except.c:89-104", "src/except.c:ex_unprotected_ptr"]}
{"id": "C38", "title": "A panic unwinds nested guards in order", "statement": "When a guard block ends, normally or because of a panic at any depth, the functions deferred in it run exactly once, last-in first-out, inner guards before outer ones, and then a panic that was not recovered continues outward.", "quantifier": "every program of nested guards, defers and panics, with non-throwing deferred functions", "why_tests_cant": "unbounded nesting and panic positions", "anchors": ["include/raii.h:531-543", "include/raii.h:guarded", "src/raii.c:524-531", "src/raii.c:guard_reset", "src/raii.c:raii_deferred_free", "src/except.c:ex_throw"]}
{"id": "C39", "title": "_recover stops the panic", "statement": "If a deferred function recovers the pending panic of its guard, the panic does not leave the guard.", "quantifier": "every guard body (with or without _malloc/_calloc) and every set of deferred functions one of which recovers", "why_tests_cant": "depends on which of two unwind paths the scope takes", "anchors": ["src/raii.c:raii_is_caught", "src/raii.c:raii_deferred_run", "include/raii.h:guarded", "src/except.c:ex_throw"]}
{"id": "C40", "title": "A handled exception does not release the surrounding guard", "statement": "If an exception is thrown and caught by a try/catch inside a guard block, no deferred function of the guard runs and no memory of the guard is released until the guard block ends.", "quantifier": "every guard body containing try/catch blocks", "why_tests_cant": "needs the combination of allocation, guard and inner try", "anchors": ["src/raii.c:524-531", "src/except.c:106-133", "src/except.c:ex_throw"]}
{"id": "C41", "title": "Guards restore the global unwind hooks", "statement": "After every guard block has ended the process-wide exception hooks are back to their values before the guard, and while a guard is active the hooks are those of a guard, so that a panic is recorded on its scope.", "quantifier": "every properly nested execution of one thread, and every interleaving of guards on several threads", "why_tests_cant": "schedules", "anchors": ["include/raii.h:531-543", "src/raii.c:guard_reset", "src/except.c:ex_swap_set"]}
{"id": "C42", "title": "Signal registration behaves as a finite map", "statement": "After any history of ex_signal(sig, name) registrations with at most 32 distinct signals, raising sig throws the exception most recently registered for it; a 33rd distinct signal is not registered and leaves the others unchanged.", "quantifier": "every history of registrations", "why_tests_cant": "unbounded histories including re-registration", "anchors": ["src/except.c:ex_signal", "src/except.c:ex_handler"]}
{"id": "C43", "title": "Default signals are converted once a try or guard is entered", "statement": "Inside any try or guard block each signal of the default set is converted to its exception, whatever ex_signal or ex_signal_reset calls were made before.", "quantifier": "every history of ex_signal, ex_signal_reset, ex_signal_default and try/guard entries", "why_tests_cant": "histories of calls on a global flag", "anchors": ["src/except.c:ex_signal_setup", "src/except.c:ex_signal", "src/except.c:ex_signal_reset", "src/except.c:ex_signal_default", "include/exception.h:ex_try"]}
{"id": "C44", "title": "caught/_recover match the exception name exactly", "statement": "raii_caught(name) and raii_is_caught(scope, name) return true exactly when name is the name of the pending exception or panic.", "quantifier": "every pair of names", "why_tests_cant": "equality over all strings; length-8 names are a special class", "anchors": ["src/raii.c:raii_caught", "src/raii.c:raii_is_caught", "src/raii.c:is_str_eq"]}
{"id": "C45", "title": "Arena allocations are disjoint and inside their chunk", "statement": "In any history of arena_init and arena_alloc calls on any number of arenas, every returned block lies inside a chunk owned by its arena, past the chunk header, is 2-byte aligned, and is disjoint from every other block returned.", "quantifier": "every history of arena_init/arena_alloc on any number of arenas, any positive sizes below 2^63 - 1 (the size rounded up to even must fit a long), with the system allocator returning disjoint blocks or failing", "why_tests_cant": "unbounded histories and sizes", "anchors": ["src/arena.c:arena_alloc", "src/arena.c:arena_init"]}
{"id": "C46", "title": "arena_clear recycles without aliasing", "statement": "After arena_clear, blocks allocated afterwards (from the same or another arena) do not overlap each other, and all chunks of the arena are either reused or released.", "quantifier": "every history of alloc and clear on several arenas", "why_tests_cant": "needs multi-step histories and address tracking", "anchors": ["src/arena.c:arena_clear", "src/arena.c:arena_alloc"]}
{"id": "C47", "title": "arena_free returns every chunk exactly once and touches nothing freed", "statement": "arena_free releases every chunk of the arena and the arena itself exactly once and does not access released memory.", "quantifier": "every arena built by any history of allocations", "why_tests_cant": "use after free is usually silent", "anchors": ["src/arena.c:arena_free", "src/arena.c:arena_clear"]}
{"id": "C48", "title": "Arenas are independent", "statement": "Operations on one arena never hand out memory that another arena owns or that has been released.", "quantifier": "every history of init/alloc/clear/free on several arenas", "why_tests_cant": "a global free list couples arenas only in some histories", "anchors": ["src/arena.c:free_list", "src/arena.c:arena_alloc", "src/arena.c:arena_clear", "src/arena.c:arena_free"]}
{"id": "C49", "title": "Arena allocation failure is reported", "statement": "When the system allocator fails arena_alloc panics as documented (\"memory allocation failed\") and the arena is left unchanged; arena_calloc never writes to NULL.", "quantifier": "every allocator failure point", "why_tests_cant": "failure injection at every call", "anchors": ["src/arena.c:arena_alloc", "src/arena.c:arena_calloc"]}
{"id": "C50", "title": "Argument packs return each argument", "statement": "raii_args_for/args_for_ex with a descriptor over the documented letters builds a pack of exactly that many values, and raii_get_args(pack, i) returns the i-th value for every valid index.", "quantifier": "every descriptor string and every argument list", "why_tests_cant": "unbounded descriptors and argument kinds", "anchors": ["src/raii.c:raii_args_ex", "src/raii.c:raii_get_args", "src/raii.c:args_in"]}
{"id": "C51", "title": "An argument pack is released exactly once", "statement": "However many times raii_get_args is called on a pack, the pack is released exactly once when the scope is released.", "quantifier": "every sequence of accesses", "why_tests_cant": "histories", "anchors": ["src/raii.c:raii_get_args", "src/raii.c:args_free", "src/raii.c:raii_deferred"]}
{"id": "C52", "title": "thrd_get returns what the thread function returned", "statement": "For every schedule, thrd_get(f) returns only after the thread function has finished, and yields the value it returned.", "quantifier": "every schedule of creator and worker", "why_tests_cant": "schedules", "anchors": ["src/future.c:thrd_async", "src/future.c:thrd_get", "src/future.c:promise_set", "src/future.c:promise_get", "src/future.c:thrd_raii_wrapper"]}
{"id": "C53", "title": "Falsy results can be retrieved", "statement": "A thread function may return thrd_value(0), thrd_value(false) or NULL and thrd_get/thrd_sync then yields that value.", "quantifier": "every returned value", "why_tests_cant": "depends on one value class, in every schedule", "anchors": ["src/future.c:promise_set", "src/future.c:thrd_get", "include/raii.h:thrd_value"]}
{"id": "C54", "title": "Exceptions are reported by the future that raised them", "statement": "thrd_get(f) throws the exception e exactly when the function of f ended with e, independently of the other futures of the same thread.", "quantifier": "every schedule of any number of futures created by one thread", "why_tests_cant": "schedules", "anchors": ["src/future.c:thrd_raii_wrapper", "src/future.c:promise_close", "src/future.c:thrd_get"]}
{"id": "C55", "title": "Completion is stable and observable", "statement": "Once thrd_is_done(f) has returned true it stays true until the result is collected, and thrd_get(f) then does not wait for the worker function.", "quantifier": "every schedule", "why_tests_cant": "schedules", "anchors": ["src/future.c:thrd_is_done", "src/future.c:promise_set", "src/future.c:promise_get"]}
{"id": "C56", "title": "thrd_spawn never writes outside its tables", "statement": "However many threads are spawned in one pool the future and result tables are written inside their allocated sizes, each thread gets its own slot, and thrd_sync collects the results in spawn order.", "quantifier": "every number of spawned threads and every processor count", "why_tests_cant": "unbounded spawn counts", "anchors": ["src/future.c:220-250", "src/future.c:261-286", "src/future.c:203-218"]}
{"id": "C57", "title": "thrd_then folds the results in order", "statement": "thrd_then(fn, results, x) calls fn on the collected results in spawn order, passing each call's result to the next.", "quantifier": "every number of results and every callback", "why_tests_cant": "unbounded", "anchors": ["src/future.c:thrd_then"]}
{"id": "C58", "title": "Threads started by thrd_pool are usable", "statement": "A worker started by thrd_pool does not access invalid memory before it receives work.", "quantifier": "every pool size of at least one", "why_tests_cant": "every schedule of the workers", "anchors": ["src/future.c:thrd_pool", "src/future.c:thrd_raii_wrapper"]}
{"id": "C59", "title": "Concurrent deferral on the creator's scope loses nothing", "statement": "Results stored by worker threads on the scope of the creating thread are all released when that scope is released, for every schedule.", "quantifier": "every schedule of two or more workers storing results", "why_tests_cant": "schedules", "anchors": ["src/future.c:promise_set", "src/raii.c:calloc_full", "src/raii.c:raii_array_append"]}
{"id": "C60", "title": "The spinlock provides mutual exclusion", "statement": "At most one thread is between c89atomic_spinlock_lock and c89atomic_spinlock_unlock, and when the lock is free a waiting thread can acquire it.", "quantifier": "every number of threads and every schedule (sequentially consistent)", "why_tests_cant": "schedules", "anchors": ["include/catomic.h:c89atomic_spinlock_lock", "include/catomic.h:c89atomic_spinlock_unlock"]}
{"id": "C61", "title": "CAS-loop read-modify-write operations are atomic", "statement": "The compare-and-swap loop implementations of fetch_sub/and/or/xor behave as one indivisible update: the history of their completed calls is a sequential history whose results are the values each call returned.", "quantifier": "every number of threads, calls and every schedule, any update function", "why_tests_cant": "schedules", "anchors": ["include/catomic.h:c89atomic_fetch_sub_explicit_64", "include/catomic.h:c89atomic_fetch_or_explicit_64"]}
{"id": "C62", "title": "Type predicates partition the type tags", "statement": "is_value, is_instance, is_instance_of, is_zero, is_empty and the tag ranges used by them classify every raii_type tag as documented, with no tag both a value and an instance.", "quantifier": "every tag", "why_tests_cant": "finite but all tags and both builds of the enumeration", "anchors": ["src/raii.c:is_value", "src/raii.c:is_instance", "include/raii.h:raii_type"]}
{"id": "C63", "title": "Work-stealing deque hands out each item exactly once", "statement": "In the work-stealing example, for one owner doing push/take and any number of thieves doing steal, every pushed item is returned by at most one take/steal, no call returns a value that was not pushed, and no item is lost.", "quantifier": "every number of thieves and every schedule (sequentially consistent), every history", "why_tests_cant": "schedules", "anchors": ["examples/work-steal.c:push", "examples/work-steal.c:take", "examples/work-steal.c:steal", "examples/work-steal.c:resize"]}
{"id": "C64", "title": "mmap emulation passes protection and offsets faithfully", "statement": "The Windows mmap emulation maps each protection mask to a page protection that allows exactly the requested accesses (with read implied), and splits 64-bit offsets and sizes into high and low halves without loss.", "quantifier": "every protection mask and every 64-bit offset/length", "why_tests_cant": "2^64 offsets; all masks", "anchors": ["src/mman.c:__map_mmap_prot_page", "src/mman.c:mmap"]}
{"id": "C65", "title": "raii_decode64 and raii_encode64 work on a fresh thread", "statement": "Either base64 call may be the first library call made by a thread.", "quantifier": "every order of first library calls on a thread", "why_tests_cant": "per-thread initialisation state is hidden from tests that call other functions first", "anchors": ["src/raii.c:raii_decode64", "src/raii.c:raii_encode64", "src/raii.c:raii_local", "src/raii.c:raii_init"]}
{"id": "C66", "title": "Releasing a scope leaves no freed protector behind", "statement": "After a scope with allocations has been released, the current exception context does not refer to the protector record that the release freed.", "quantifier": "every history of allocations on a scope followed by a release", "why_tests_cant": "the dangling pointer is only followed by a later throw on the same context", "anchors": ["src/raii.c:malloc_full", "src/raii.c:raii_deferred_run", "src/except.c:89-104", "src/except.c:ex_unprotected_ptr"]}
{"id": "C67", "title": "Uninitialised context fields do not matter", "statement": "What a program does (order of actions, releases and how it ends) does not depend on the values that the fields of the local exception context which ex_try leaves uninitialised happen to have.", "quantifier": "every program of try blocks, guards, allocations and protected pointers, any two contents of the uninitialised fields", "why_tests_cant": "a test sees one stack content, usually the same one each run", "anchors": ["include/exception.h:ex_try", "src/except.c:ex_throw", "src/raii.c:raii_unwind_set"]}
{"id": "C68", "title": "Unwinding an exception frees only allocated blocks", "statement": "When an exception leaves a block that allocated memory with the scoped allocators, every address passed to free is a block handed out by them.", "quantifier": "every program of try blocks and scoped allocations, any contents of the blocks", "why_tests_cant": "depends on the first word stored in a block and on which unwind path is taken", "anchors": ["src/raii.c:malloc_full", "src/except.c:106-133", "src/except.c:89-104"]}
{"id": "C69", "title": "caught names the exception being handled", "statement": "In a catch_if block, caught(E) is true exactly when E is the exception being handled.", "quantifier": "every sequence of earlier handled exceptions, any thread", "why_tests_cant": "depends on state left behind by earlier exceptions", "anchors": ["src/raii.c:raii_caught", "include/exception.h:ex_catch_if"]}
{"id": "C70", "title": "A thread function may be given any argument", "statement": "thrd_async(fn, args) hands fn's result to thrd_get whatever object args points to (thrd_data of an integer of any value, any structure, NULL).", "quantifier": "every argument object", "why_tests_cant": "the failure depends on one value of the first word of the argument", "anchors": ["src/future.c:thrd_raii_wrapper", "src/raii.c:is_type", "include/raii.h:thrd_data"]}
{"id": "C71", "title": "thrd_get is non-blocking once thrd_is_done", "statement": "If thrd_is_done(f) returned true, any later thrd_get(f) does not block (include/raii.h 273-274).", "quantifier": "every schedule", "why_tests_cant": "schedules", "anchors": ["src/future.c:thrd_get", "src/future.c:future_close", "src/future.c:thrd_raii_wrapper"]}
{"id": "C72", "title": "thrd_sync leaves other futures usable", "statement": "Collecting a pool with thrd_sync does not release the promises of the thread's other futures.", "quantifier": "every set of outstanding futures", "why_tests_cant": "needs histories mixing pools and futures", "anchors": ["src/future.c:261-286", "src/future.c:promise_create", "src/raii.c:raii_deferred_clean"]}
{"id": "C73", "title": "A thread-local variable is private to its thread", "statement": "With native thread-local storage, reading a variable made by thrd_local/thrd_static yields the value the same thread last wrote to it (zero before the first write), whatever other threads and other variables do; is_var_empty tells whether the thread has used it since the start or the last var_del.", "quantifier": "for all numbers of threads and variables, all operations and all interleavings", "why_tests_cant": "interleavings of any number of threads cannot be enumerated by tests", "anchors": ["include/cthread.h:499-540"]}
{"id": "C74", "title": "Emulated thread-local variables behave like native ones", "statement": "In the emulated build (thrd_local over tss_create/tss_get/tss_set) every thread gets from every variable what a private variable gives: first uses may happen in any thread at any time, the emptiness test may come first, and leaving the program releases only allocated objects.", "quantifier": "for all threads, variables, operations and schedules", "why_tests_cant": "the failures depend on the interleaving of first uses and on which key numbers the system hands out; the emulated build is not tested by the repository's own pipeline", "anchors": ["include/cthread.h:422-482", "src/except.c:318-329", "src/except.c:331-348", "src/raii.c:99-129"]}
{"id": "C75", "title": "A throw in a try block reaches its handler in the emulated build", "statement": "With emulated thread-local storage, as in the native build, an exception thrown inside a try block is delivered to that block.", "quantifier": "for all states, exceptions and nesting depths", "why_tests_cant": "only the native build is tested; the claim is about every program state", "anchors": ["src/except.c:379-415", "src/except.c:404-405"]}
{"id": "C76", "title": "Deferred functions run at exit", "statement": "When the program ends (exit, end of main, uncaught exception, in whatever thread), every function deferred on the scope of a thread runs exactly once, newest first.", "quantifier": "for all interleavings of scope creation, deferral and exit by any number of threads", "why_tests_cant": "the order of the exit handlers depends on how initialisations of several threads interleave", "anchors": ["src/raii.c:103-129", "src/raii.c:276-312", "src/except.c:354-377", "include/cthread.h:500-507"]}
{"id": "C77", "title": "_return leaves a function cleanly", "statement": "Leaving a function by _return from inside its guard blocks runs the functions deferred in all its guards exactly once, newest first, and restores the exception context, the unwind hooks and the scope pointer that were current when the function was called.", "quantifier": "for all nestings of guard and try blocks around the _return, all deferred functions that do not throw, all calling states", "why_tests_cant": "all nestings; the damage (a dangling context) shows only at a later throw", "anchors": ["include/raii.h:516-524", "include/raii.h:531-543", "src/raii.c:276-292", "src/raii.c:533-539", "include/exception.h:296-313"]}
{"id": "C78", "title": "A spawned thread joins the current pool", "statement": "thrd_spawn adds the thread to the pool most recently opened with thrd_scope on the calling thread and not yet destroyed, and panics when there is none; guards and exceptions in between make no difference.", "quantifier": "every program of thrd_scope, thrd_spawn, thrd_destroy, guards, try blocks and throws", "why_tests_cant": "needs all nestings of pools, guards and exceptions", "anchors": ["src/future.c:203-218", "src/future.c:220-250", "src/future.c:295-305", "src/raii.c:524-531", "include/raii.h:531-543"]}
{"id": "C79", "title": "Exceptions and pools release memory once", "statement": "An exception in a block that uses a pool has defined behaviour and releases every pointer protected in the block; a failing thrd_spawn releases what it allocated; thrd_destroy releases each block of the pool exactly once.", "quantifier": "every number of protected pointers and threads, collected or not", "why_tests_cant": "needs memory faults injected at every point and any number of threads", "anchors": ["src/future.c:203-218", "src/future.c:220-250", "src/future.c:261-286", "src/future.c:295-305", "src/except.c:89-104", "src/except.c:106-133"]}
{"id": "C80", "title": "Completion and results of a pool", "statement": "thrd_is_finish tells whether all threads of a pool are done, before and after thrd_sync; thrd_result throws before thrd_sync and afterwards gives the result of that thread.", "quantifier": "every number of threads, every processor count, every set of finished threads", "why_tests_cant": "unbounded thread counts", "anchors": ["src/future.c:307-315", "src/future.c:144-150", "src/future.c:261-286"]}
{"id": "C81", "title": "Releasing an arena scope", "statement": "free_arena on a scope made by unique_init_arena calls each deferred function once, newest first, then releases the array of deferred functions, the scope and every chunk of its arena exactly once, leaves every other arena as it was, and accesses no released memory.", "quantifier": "for all histories of allocation and deferral on the scope mixed with work on other arenas, all allocator answers, with or without a pending error", "why_tests_cant": "needs arbitrary histories and a check that released memory is not read", "anchors": ["src/raii.c:212-218", "src/raii.c:276-308", "src/arena.c:30-45", "src/arena.c:107-130"]}
{"id": "C82", "title": "Blocks of an arena scope", "statement": "Every block malloc_by or calloc_by returns from an arena scope lies in a live chunk of that scope's arena, past its header, and shares no byte with any other block handed out; a size that cannot be served gives no block.", "quantifier": "for all sizes, counts and histories, all allocator answers, with other arenas in use", "why_tests_cant": "sizes up to 2^64 and arbitrary histories", "anchors": ["src/raii.c:237-246", "src/raii.c:265-274", "src/arena.c:47-105"]}
{"id": "C83", "title": "arena_capacity is what fits", "statement": "The number arena_capacity returns decides whether the next allocation needs memory from the system: a size within it (rounded up to even) is served without a request and lowers it by that amount; a larger one makes a request.", "quantifier": "for all histories of arena_init and arena_alloc, all sizes, all allocator answers", "why_tests_cant": "all histories and sizes; the boundary is a single byte", "anchors": ["src/arena.c:47-98", "src/arena.c:136-140"]}
{"id": "C84", "title": "A deferred function may throw", "statement": "If a deferred function throws while its guard is being left, no deferred function is called a second time, those not yet called still run with their own argument, and the exception leaves the guard.", "quantifier": "every guard body, every list of deferred functions, any of which throws", "why_tests_cant": "depends on the position of the throwing function, on which functions recover, and includes non-termination", "anchors": ["include/raii.h:531-575", "src/raii.c:395-428", "src/except.c:379-415", "include/exception.h:ex_catch_if"]}
{"id": "C85", "title": "_get_message names the guard's exception", "statement": "In the handler and in the deferred functions of a guard, _get_message() is the text (or, without text, the name) of the exception being handled, and NULL if there is none; it may be called in any handler.", "quantifier": "every state inside a guard, every exception, every number of deferred functions already run", "why_tests_cant": "depends on what was raised and handled before", "anchors": ["include/raii.h:507", "src/raii.c:512-514", "src/raii.c:524-531"]}
{"id": "C86", "title": "raii_message names the exception being handled", "statement": "In a handler raii_message() is the text (or, without text, the name) of the exception being handled.", "quantifier": "every throw from every state, inside and outside guards, any history of earlier exceptions", "why_tests_cant": "depends on an uninitialised field and on earlier exceptions", "anchors": ["src/raii.c:506-510", "src/raii.c:91-97", "src/except.c:396-399"]}
{"id": "C87", "title": "Generic atomic operations act on their object only", "statement": "atomic_store, atomic_load, atomic_init, atomic_exchange, atomic_fetch_add/sub/or/xor/and and atomic_compare_exchange read and write exactly the object they are given: its new contents and the result are those of the operation at the object's size, and no other byte is read or written.", "quantifier": "every operation and argument, objects of 1 to 8 bytes at any offset of any block, any neighbouring bytes", "why_tests_cant": "the neighbouring bytes are usually padding or zero, so a test sees no difference", "anchors": ["include/catomic.h:2633-2644", "include/catomic.h:2733-2797", "examples/work-steal.c:157", "examples/work-steal.c:215", "examples/work-steal.c:239"]}
{"id": "C88", "title": "Atomic floating-point addition and subtraction add and subtract", "statement": "c89atomic_fetch_add_f32/f64 and c89atomic_fetch_sub_f32/f64 leave the sum or difference of the two numbers whenever it is a number of the format; compare-exchange succeeds just on equal numbers.", "quantifier": "every pair of finite numbers, every IEEE binary format with at least two exponent bits", "why_tests_cant": "the number of pairs of doubles", "anchors": ["include/catomic.h:2302-2548"]}
{"id": "C89", "title": "join_work starts the continuation once, after the last task", "statement": "For a group of n tasks the continuation is started exactly once, by the last task to join, whatever the order in which the threads run and join the tasks, and it is started once all have joined.", "quantifier": "every number of tasks and every interleaving", "why_tests_cant": "number of interleavings, and counts beyond 2^32", "anchors": ["examples/work-steal.c:36-42", "examples/work-steal.c:175-180", "examples/work-steal.c:222-241", "examples/work-steal.c:253-272"]}
{"id": "C90", "title": "The last calls of a program that ends with an exception", "statement": "When an exception nobody catches ends the program and nothing called on the way throws: the functions deferred on the thread's scope are called once each, newest first; then the Ctrl-C callback, if one is set and a SIGINT came since the flags were last reset; then the terminate callback, if set; then the program ends by _Exit when a signal came since the flags were last reset and by exit, with its exit handlers, otherwise.", "quantifier": "every list of deferred functions, every history of signals and resets, callbacks set or not", "why_tests_cant": "the order of last calls depends on the whole history of signals", "anchors": ["src/except.c:354-415", "src/except.c:520-530", "src/except.c:313-316", "src/raii.c:91-129", "src/raii.c:395-443"]}
{"id": "C91", "title": "Termination callbacks are called at most once", "statement": "exception_terminate_func and exception_ctrl_c_func are called at most once each, whatever they and the deferred functions do, including throwing exceptions at any moment; the Ctrl-C callback only after a SIGINT.", "quantifier": "every behaviour of every function called, every moment of the run", "why_tests_cant": "the behaviours of the callbacks are arbitrary and may depend on everything called before", "anchors": ["src/except.c:354-377", "src/except.c:379-415"]}
{"id": "C92", "title": "Deferred functions at the end of a program run exactly once", "statement": "When an exception nobody catches ends the program, each function deferred on the thread's scope is called with its own data exactly once, even when some of them throw.", "quantifier": "every list of functions and every behaviour", "why_tests_cant": "the failing behaviours are particular combinations of a throwing function and its position", "anchors": ["src/except.c:354-415", "src/raii.c:395-443"]}
{"id": "C93", "title": "Exit handlers are skipped only for signals", "statement": "When an uncaught exception ends the program its exit handlers run, unless that exception came from a signal.", "quantifier": "every history and every behaviour of the functions called at the end", "why_tests_cant": "a handled signal may lie arbitrarily far in the past", "anchors": ["src/except.c:61-64", "src/except.c:372-376", "src/except.c:520-530"]}
{"id": "C94", "title": "A handler runs under the signal mask of its try block", "statement": "Every handler is entered with exactly the signal mask in force when its try block was entered, whether the exception was thrown or came from a signal; release functions run with every signal blocked; so a signal can be converted and handled any number of times.", "quantifier": "every program built from try blocks, throws, faults, sent signals and mask changes, of any nesting and length", "why_tests_cant": "number of programs and masks", "anchors": ["include/exception.h:178-180", "include/exception.h:284-290", "include/exception.h:297-348", "src/except.c:379-415", "src/except.c:520-606"]}
{"id": "C95", "title": "A handler receives the exception that was thrown", "statement": "The exception that reaches a handler is the one thrown in its try block.", "quantifier": "every program and every sequence of signals sent to the thread", "why_tests_cant": "needs a signal to arrive in the window in which release functions run", "anchors": ["src/except.c:385-415", "src/except.c:520-547", "include/exception.h:284-290"]}
{"id": "C96", "title": "A fault during unwinding is reported like a throw there", "statement": "A fault in a release function while an exception is being unwound ends like a throw there does, in ex_terminate with its report and callbacks, and not by the kernel.", "quantifier": "every list of release functions and position of the fault", "why_tests_cant": "the failing position is any one release function", "anchors": ["src/except.c:106-134", "src/except.c:379-402", "include/exception.h:284-290"]}
{"id": "C97", "title": "break leaves a guard cleanly", "statement": "break inside a guard, documented as a way to exit early, from within any number of try blocks of that guard: the deferred functions run exactly once, newest first, and the current exception context, hooks and arena are those from before the guard.", "quantifier": "every nesting of guards and try blocks and every list of deferred functions", "why_tests_cant": "number of nestings", "anchors": ["include/raii.h:526-575", "include/exception.h:297-348"]}
{"id": "C98", "title": "A guard returns the value its result expression had", "statement": "_return(value) and unguarded(result) return the value the expression has at that point of the guard.", "quantifier": "every expression, state and list of deferred functions", "why_tests_cant": "combinations of expressions and deferred functions", "anchors": ["include/raii.h:516-524", "include/raii.h:546-560", "src/raii.c:276-292", "src/raii.c:403-443"]}
{"id": "C99", "title": "Strings made for a scope are released with it", "statement": "str_split_ex, str_concat_ex, str_replace_ex, str_memdup_ex, str_encode64_ex and str_decode64_ex called with a scope: each call obtains at most one block, of exactly the size its result needs, and every block is released exactly once, when the scope is released, newest first among everything else deferred there.", "quantifier": "every sequence of these calls with legal arguments, mixed with any other deferring and allocating on the scope, and every allocator behaviour", "why_tests_cant": "unbounded sequences, texts and allocator behaviours", "anchors": ["src/swar.c:627-742", "src/swar.c:789-875", "src/raii.c:248-259", "src/raii.c:169-198"]}
{"id": "C100", "title": "A failed allocation leaves no block behind", "statement": "When a request to the allocator fails inside malloc_full, calloc_full, unique_init_arena, raii_args, thrd_async or thrd_scope, every block these functions obtained before is released at once or is still owned by a scope that will release it; and the blocks of a scope are all released when the scope is.", "quantifier": "every pattern of failing requests, every scope and heap, every number of allocations", "why_tests_cant": "which request fails is any number; failures of the allocator are not provoked by tests", "anchors": ["src/raii.c:139-157", "src/raii.c:200-259", "src/raii.c:314-327", "src/raii.c:449-469", "src/raii.c:593-599", "src/future.c:13-21", "src/future.c:55-61", "src/future.c:93-109", "src/future.c:203-218"]}
{"id": "C101", "title": "A signal at any instant keeps the deferred functions", "statement": "The library turns signals into exceptions. Whenever a signal arrives while a guard defers functions or releases its scope, every function whose deferral was complete is called exactly once with its data, newest first, and the array of deferred functions is released exactly once.", "quantifier": "every list of deferred functions, every number of signals, every instant (between any two stores) of deferring and releasing", "why_tests_cant": "the instants are single stores; a test cannot hit them all, and arrays grow only every 16 entries", "anchors": ["src/raii.c:16-26", "src/raii.c:67-85", "src/raii.c:395-465", "src/except.c:520-547", "include/raii.h:531-560"]}
{"id": "C102", "title": "A signal while a guard is entered or left lands cleanly", "statement": "When a signal arrives at any instant while a guard is being entered or left, its exception lands in that guard or in the block around it; once it is handled, the hooks and the current arena are those of the place where it was handled, and no scope is lost.", "quantifier": "every nesting of guards and try blocks, every instant of entering and leaving, every try block that handles the exception", "why_tests_cant": "instants between single stores, any nesting", "anchors": ["include/raii.h:531-575", "include/exception.h:297-348", "src/raii.c:524-547", "src/except.c:379-416", "src/except.c:520-547"]}
{"id": "C103", "title": "A thread reports the exception that left its function", "statement": "The thread that thrd_async or thrd_spawn starts runs the function to its end; if an exception leaves the function, its name and message, and only they, are in the creator's scope before the promise is completed, and the thread goes on to complete it; if the function returns, or a function deferred in the thread's guard recovers the exception, no name is reported.", "quantifier": "every thread function over actions, try blocks, guards, deferred functions, throw, panic and recover, any nesting; any uninitialised memory, any hooks and any old contents of the creator's scope", "why_tests_cant": "number of programs; which deferred function recovers and how many run after it", "anchors": ["src/future.c:70-91", "include/raii.h:531-547", "include/raii.h:576-593", "src/raii.c:395-428", "src/raii.c:498-514"]}
{"id": "C104", "title": "Tail queues behave like lists", "statement": "The TAILQ macros of the bundled sys/queue.h: after any sequence of their calls on two queues over the same elements, TAILQ_FOREACH visits exactly the elements the calls mean, in order, TAILQ_FOREACH_REVERSE visits them in reverse, FIRST, LAST, EMPTY, NEXT and PREV agree with this, no memory beside the heads and the fields is changed, and there is no undefined behaviour.", "quantifier": "every number and position of elements, every offset of the field, every initial memory, every sequence of calls in which an element is inserted only while it is in no queue and a position named is in the queue", "why_tests_cant": "unbounded sequences; wrong links show only for particular shapes (empty, first, last, joined queues) and only when walked backwards", "anchors": ["include/compat/sys/queue.h:407-534"]}
{"id": "C105", "title": "Simple queues and XOR simple queues behave like lists", "statement": "The SIMPLEQ and XSIMPLEQ macros of the bundled sys/queue.h: after any sequence of their calls the loops visit exactly the elements the calls mean, in order, whatever cookie the random generator gives; no other memory is changed and there is no undefined behaviour, on every platform the library supports.", "quantifier": "every number and position of elements, every offset of the field, every initial memory, every cookie, every legal sequence of calls, unsigned long of 32 or 64 bits", "why_tests_cant": "cookies are random 64-bit numbers; the truncation shows only on platforms where long is narrower than a pointer", "anchors": ["include/compat/sys/queue.h:247-404"]}
{"id": "C106", "title": "Singly and doubly linked lists behave like lists", "statement": "The SLIST and LIST macros of the bundled sys/queue.h: after any sequence of their calls the loops visit exactly the elements the calls mean, in order; no other memory is changed and there is no undefined behaviour. SLIST_REMOVE of an element that is not in the list is undefined.", "quantifier": "every number and position of elements, every offset of the field, every initial memory, every legal sequence of calls", "why_tests_cant": "unbounded sequences and list lengths", "anchors": ["include/compat/sys/queue.h:91-245"]}
{"id": "C107", "title": "The safe loops allow the body to remove and free the element", "statement": "TAILQ_FOREACH_SAFE, TAILQ_FOREACH_REVERSE_SAFE, LIST_FOREACH_SAFE and SLIST_FOREACH_SAFE: when the body removes and frees any of the visited elements, every element is visited exactly once, the list afterwards is the elements kept, the other list and other memory stay, and nothing freed is read. The plain loops with such a body read the freed element.", "quantifier": "every list reached by legal calls, every choice of elements dropped", "why_tests_cant": "any subset of any list; reads of freed memory often go unnoticed", "anchors": ["include/compat/sys/queue.h:115-123", "include/compat/sys/queue.h:189-197", "include/compat/sys/queue.h:439-460", "include/compat/sys/queue.h:228-235", "include/compat/sys/queue.h:504-513"]}
{"id": "C108", "title": "Red-black trees are ordered sets", "statement": "The RB macros of the bundled sys/tree.h: after any history of RB_INSERT and RB_REMOVE the tree holds exactly the elements the history means, in the order of the comparison; RB_INSERT gives NULL or the element that compares equal; RB_FIND, RB_NFIND, RB_MIN, RB_MAX, RB_NEXT, RB_PREV, RB_FOREACH and RB_FOREACH_REVERSE answer for that set; there is no undefined behaviour.", "quantifier": "every comparison that follows an order, every number of elements, every initial contents of the entries, every history that removes only elements of the tree", "why_tests_cant": "rebalancing has many cases that only particular shapes of larger trees reach; histories are unbounded", "anchors": ["include/compat/sys/tree.h:292-749"]}
{"id": "C109", "title": "Red-black trees stay balanced", "statement": "After any history of RB_INSERT and RB_REMOVE the conditions the header states hold: every path from the root to NULL passes the same number of black elements, a red element has a black parent, and no path is longer than 2 lg(n+1); each further call therefore ends within that many rounds of its loops.", "quantifier": "every comparison that follows an order, every number of elements, every history that removes only elements of the tree", "why_tests_cant": "a tree with wrong colours still answers right; the error shows only as slowness for particular histories", "anchors": ["include/compat/sys/tree.h:44-56", "include/compat/sys/tree.h:292-749"]}
{"id": "C110", "title": "The safe loops over a tree allow the body to remove and free the element", "statement": "RB_FOREACH_SAFE and RB_FOREACH_REVERSE_SAFE: when the body removes and frees any of the visited elements, every element is visited exactly once, the tree afterwards holds the elements kept and is balanced, and nothing freed is read. The plain loops with such a body read the freed element.", "quantifier": "every tree reached by a legal history, every choice of elements dropped", "why_tests_cant": "any subset of any tree; reads of freed memory often go unnoticed", "anchors": ["include/compat/sys/tree.h:722-749"]}
{"id": "C111", "title": "Splay trees are ordered sets", "statement": "Every history of SPLAY_INSERT, SPLAY_REMOVE, SPLAY_FIND, SPLAY_NEXT (of an element in the tree), SPLAY_MIN, SPLAY_MAX and SPLAY_FOREACH on a tree initialised with SPLAY_INIT, whatever the elements and the consistent comparison, gives the results of a set ordered by the comparison: an insertion gives NULL, or the element already there with an equal key, which stays; a removal takes out the element equal to its argument and gives the argument (even when the two are different elements); the loop visits the elements in order. No call dereferences NULL or an element that is not there. SPLAY_NEXT on an empty tree dereferences NULL, on a freed element reads it.", "quantifier": "all histories of calls, all trees they make, all sets of elements and comparisons that come from keys", "why_tests_cant": "The shape of the tree depends on every earlier access, so the number of shapes grows with the history; no test covers the rotations and links for all of them.", "anchors": ["include/compat/sys/tree.h:59-290"]}
{"id": "C112", "title": "Splay trees cost O((m + n) lg n) for m accesses", "statement": "After any history on n elements, m further accesses (SPLAY_INSERT, SPLAY_REMOVE, SPLAY_FIND, SPLAY_MIN, SPLAY_MAX, and the steps of SPLAY_FOREACH) take all together no more rounds of the loops than 3 * (5 m + n) * lg (n + 2) (tree.h 44-46: \"The Balance Theorem bounds the total access time for m operations and n inserts on an initially empty tree as O((m + n)lg n)\"; 36-38: \"Every operation on the tree causes a splay to happen\"). SPLAY_NEXT called by itself is the exception: it walks to the successor without splaying it, so the same call can take n/2 rounds every time.", "quantifier": "all histories of calls, all trees they make", "why_tests_cant": "Amortised cost is a property of whole histories: single calls may take linear time, and only the sum over all histories of any length is bounded.", "anchors": ["include/compat/sys/tree.h:36-46", "include/compat/sys/tree.h:134-146", "include/compat/sys/tree.h:204-273"]}
{"id": "C113", "title": "Taking the elements out of a splay tree while looping over it", "statement": "A loop over a splay tree in which each element is taken out (and freed) as it is visited visits every element once and reads no freed memory, as the safe loops of the red-black trees do.", "quantifier": "all histories of calls that leave a tree with elements", "why_tests_cant": "Reading an element just freed mostly still finds the old contents, and whether an element is passed over depends on the shape of the tree.", "anchors": ["include/compat/sys/tree.h:134-146", "include/compat/sys/tree.h:183-202", "include/compat/sys/tree.h:287-290"]}
{"id": "C114", "title": "The mmap emulation leaves no handle open and reports its outcome", "statement": "Whatever Windows answers, mmap on Windows leaves no file mapping handle open and gives MAP_FAILED without a view or the base of the one view it made; munmap, mprotect, msync, mlock, munlock give 0, or -1 with nothing changed but errno; after a failure errno is an errno value that names the failure (at least not 0). getpagesize asks the system once.", "quantifier": "all arguments, all answers of the Windows calls", "why_tests_cant": "The failures come from the operating system (CreateFileMapping, MapViewOfFile, CloseHandle); a test cannot make each of them happen.", "anchors": ["src/mman.c:29-34", "src/mman.c:67-128", "src/mman.c:130-187"]}
{"id": "C115", "title": "MAP_PRIVATE and MAP_NOEXTEND are honoured", "statement": "A mapping made with MAP_PRIVATE (mman.h: \"Changes are private\") never changes the file, and one with MAP_NOEXTEND (\"don't change file size\") never makes the file longer.", "quantifier": "all files, lengths, offsets, protections and stores", "why_tests_cant": "Tests compare what is read through the mapping; whether the file changes is only seen when it is read again, and depends on flags and lengths.", "anchors": ["src/mman.c:67-128", "include/compat/sys/mman.h:57-66"]}
{"id": "C116", "title": "munmap unmaps the pages it is given", "statement": "munmap(addr, len) takes away the pages in [addr, addr+len) and no others (mmap(2), which the header of src/mman.c cites).", "quantifier": "all sets of mappings that do not overlap, all addresses and lengths", "why_tests_cant": "A test unmaps what it mapped; that the length is not looked at shows only with a part of a mapping.", "anchors": ["src/mman.c:130-137"]}
{"id": "C117", "title": "exchange swaps two adjacent blocks of argv", "statement": "exchange puts the options [last_nonopt,optind) before the non-options [first_nonopt,last_nonopt), keeps the order inside both blocks, changes nothing else, ends, and reads and writes only elements of argv; first_nonopt and last_nonopt are the new place of the non-options.", "quantifier": "all argv, all lengths of the two blocks and of what is around them", "why_tests_cant": "The loop swaps ever shorter pieces like Euclid's algorithm; which pieces depends on both lengths, and no finite set of lengths covers all of them.", "anchors": ["include/compat/getopt.c:286-379"]}
{"id": "C118", "title": "getopt scans the arguments as documented", "statement": "Calling _getopt_internal (getopt is the case without long options) until it gives -1 ends, stays inside argv and inside the strings, and gives the options in the order of the arguments with their arguments, optopt, *longind and flags as the comments of getopt.c say (letters, one and two colons, clusters, missing arguments, exact and abbreviated long names, ambiguous ones); then argv holds the options and their arguments in order, then the other elements in order, and optind is the index of the first of these (PERMUTE); the same with REQUIRE_ORDER and RETURN_IN_ORDER.", "quantifier": "all argument lists, all strings in them, all option strings without \"W;\" and (char) -1, all tables of long options, all treatments of non-options", "why_tests_cant": "The permutation depends on the interleaving of options and non-options of the whole command line, and every element can be cluster, argument, long option or non-option depending on the ones before it.", "anchors": ["include/compat/getopt.c:94-106", "include/compat/getopt.c:286-379", "include/compat/getopt.c:386-450", "include/compat/getopt.c:452-506", "include/compat/getopt.c:508-1178"]}
{"id": "C119", "title": "The answer to an option does not depend on which call meets it", "statement": "The '+' or '-' at the beginning of the option string only selects how non-options are treated: it is not itself an option letter, and ':' after it asks for ':' as the answer to a missing argument, in every call.", "quantifier": "all argument lists and option strings", "why_tests_cant": "The first call behaves as documented, and tests rarely use the prefix letters as options.", "anchors": ["include/compat/getopt.c:386-450", "include/compat/getopt.c:517-531"]}
{"id": "C120", "title": "-W name is the same as --name", "statement": "With \"W;\" in the option string, -W name gives what --name gives, and never reads outside argv.", "quantifier": "all argument lists, option strings with \"W;\" and tables", "why_tests_cant": "Only an ambiguous abbreviation goes wrong, and what is read beyond argv depends on what lies there.", "anchors": ["include/compat/getopt.c:915-1102"]}
{"id": "C121", "title": "With long_only the letters of a cluster stay letters", "statement": "In an element \"-abc\" that is not a long name, each letter is a short option (getopt.c 627-636 treats the whole element), also when the rest of the element is the beginning of a long name.", "quantifier": "all argument lists, tables and option strings with long_only", "why_tests_cant": "Whether a rest is the beginning of a long name depends on the table.", "anchors": ["include/compat/getopt.c:622-640", "include/compat/getopt.c:813-862"]}
{"id": "C122", "title": "-1 is given only when there are no more options", "statement": "_getopt_internal gives -1 only at the end of the options.", "quantifier": "all argument lists and option strings", "why_tests_cant": "The letter concerned is not in any usual option string.", "anchors": ["include/compat/getopt.c:866-873", "include/compat/getopt.c:1164"]}
{"id": "C123", "title": "waitpid returns the number and the status of the child", "statement": "waitpid(pid, &status, o) for a process that has ended, or without WNOHANG one that ends, returns its process number and a status from which WIFEXITED and WEXITSTATUS give its exit code.", "quantifier": "all process tables, process numbers, options and exit codes", "why_tests_cant": "The returned number is usually only compared with -1, and depends on who is the parent.", "anchors": ["include/compat/wait.h:345-459", "include/compat/wait.h:461-464"]}
{"id": "C124", "title": "The wait functions close what they open", "statement": "Every snapshot and process handle that __waitpid_internal opens is closed when it returns, with every option and on every path.", "quantifier": "all process tables, options and return paths, any number of calls", "why_tests_cant": "A leaked handle shows only after very many calls with WNOHANG.", "anchors": ["include/compat/wait.h:381-459"]}
{"id": "C125", "title": "Waiting for any child finds a child that has ended", "statement": "wait() and waitpid(-1, ...) return when any child of the caller has ended, and the functions wait for children only.", "quantifier": "all process tables and orders of the processes in them", "why_tests_cant": "It depends on the order in which the system lists the processes and on which child ends first.", "anchors": ["include/compat/wait.h:324-332", "include/compat/wait.h:394-458", "include/compat/wait.h:466-469"]}
{"id": "C126", "title": "waitid and the process groups work", "statement": "waitid with WEXITED, P_ALL and P_PGID, and waitpid with 0 and numbers below -1, wait for the processes they name; errno is a positive error number; *infop describes the child.", "quantifier": "all arguments of waitid and waitpid", "why_tests_cant": "Only the simplest calls are ever tried.", "anchors": ["include/compat/wait.h:345-379", "include/compat/wait.h:473-484"]}
{"id": "C127", "title": "The status macros classify every status", "statement": "WIFEXITED, WIFSIGNALED and WIFSTOPPED look at the low byte as documented, exactly one of them holds for every status whose low byte is not 255 and none for the others, WIFCONTINUED excludes them; WEXITSTATUS, WSTOPSIG and WTERMSIG give the bytes.", "quantifier": "all status values, of both signs", "why_tests_cant": "All 2^32 values, with a conversion to signed char in the middle.", "anchors": ["include/compat/wait.h:188-212", "include/compat/wait.h:287-291"]}
{"id": "C128", "title": "A directory stream lists the directory", "statement": "readdir gives the files of the directory in order, each once, with name, length and type, then NULL for ever; after rewinddir it starts again with the files there are now; _wreaddir does the same with the wide names.", "quantifier": "all directories, names and file attributes, all sequences of readdir and rewinddir, with the directory changing in between", "why_tests_cant": "The states of the stream (cached first entry, open search, closed search) combine with every sequence of calls.", "anchors": ["include/compat/dirent_msvc.h:142-232", "include/compat/dirent_msvc.h:240-292", "include/compat/dirent_msvc.h:333-405", "include/compat/dirent_msvc.h:410-464", "include/compat/dirent_msvc.h:479-556", "include/compat/dirent_msvc.h:587-592"]}
{"id": "C129", "title": "A directory stream releases everything once", "statement": "Whatever opendir allocates or opens is released exactly once: when it fails, or by closedir after any calls; NULL and empty names are reported.", "quantifier": "all directories and names, all failures of the calls to Windows and of malloc, all sequences of readdir and rewinddir", "why_tests_cant": "Every failing call is a different path through the clean-up code.", "anchors": ["include/compat/dirent_msvc.h:142-232", "include/compat/dirent_msvc.h:299-327", "include/compat/dirent_msvc.h:348-405", "include/compat/dirent_msvc.h:410-464", "include/compat/dirent_msvc.h:561-582"]}
{"id": "C130", "title": "The search pattern fits its buffer", "statement": "opendir builds the search pattern (full path, a separator if needed, an asterisk, NUL) inside its allocation.", "quantifier": "all names and all answers of GetFullPathNameW", "why_tests_cant": "It fails only when another thread changes the current directory between two calls.", "anchors": ["include/compat/dirent_msvc.h:163-202"]}
{"id": "C131", "title": "Errors are reported as errors", "statement": "readdir reports an error differently from the end of the directory, gives an entry for every file, and opendir can open every directory that exists.", "quantifier": "all directories, names and errors of FindNextFileW", "why_tests_cant": "Errors in the middle of a directory, very long names and empty roots are rare.", "anchors": ["include/compat/dirent_msvc.h:206-222", "include/compat/dirent_msvc.h:372-405", "include/compat/dirent_msvc.h:479-556"]}
{"id": "C132", "title": "timersub and timespecsub give the difference", "statement": "For normalised times whose difference in seconds fits, timersub and timespecsub store exactly the difference, normalised, also when the result is an operand, and change nothing else; otherwise the behaviour is undefined.", "quantifier": "all times, all ways in which the three pointers are equal, both units and all widths of the fields", "why_tests_cant": "Borrowing, aliasing and the limits of the type combine; the space is 2^256 values.", "anchors": ["include/compat/sys/time.h:17-25", "include/compat/time.h:47-55"]}
{"id": "C133", "title": "be64toh and htobe64 reverse the bytes", "statement": "be64toh(x) and htobe64(x) give the number whose eight bytes are those of x reversed, for x of every integer type; twice is the identity.", "quantifier": "all values, arguments of 32 and 64 bits", "why_tests_cant": "2^64 values; an argument of type int is undefined only at run time.", "anchors": ["include/compat/endian.h:69-79"]}
{"id": "C134", "title": "The file type macros recognise one type", "statement": "S_ISDIR, S_ISREG, S_ISCHR and S_ISFIFO hold for exactly the modes of that type; S_ISBLK, S_ISLNK and S_ISSOCK are always false, as their comment says; DT_LNK is not DT_UNKNOWN.", "quantifier": "all modes", "why_tests_cant": "A mode without a type bit is not produced by stat, but is what an entry that cannot be read carries.", "anchors": ["include/compat/sys/stat.h:39-117"]}
{"id": "C135", "title": "align_up rounds up to the alignment", "statement": "align_up(num, align) is the least multiple of align not below num, when align is a power of two and the sum of num and align - 1 fits.", "quantifier": "all pairs of integer types, all values that are not negative, all powers of two", "why_tests_cant": "A wrong result needs a number above 4 GiB and a mask of another type, or a number next to the limit.", "anchors": ["include/rtypes.h:86-92", "src/arena.c:52", "src/arena.c:61"]}
{"id": "C136", "title": "Kb, Mb and Gb give the number of bytes", "statement": "Kb(n), Mb(n) and Gb(n) are n times 1024, 1024^2 and 1024^3 as u64, for every argument whose product fits u64.", "quantifier": "all integer types and values of the argument, sums of any number of terms", "why_tests_cant": "Small literal arguments work; the overflow happens in int before the cast.", "anchors": ["include/rtypes.h:121-123"]}
{"id": "C137", "title": "A registered Windows exception code or signal is found under its last name", "statement": "After any calls of ex_signal_seh and ex_signal for up to 32 different codes and signals, the filters find every code and ex_handler every signal under the name registered last; codes and signals share one table and do not disturb each other.", "quantifier": "all sequences of registrations", "why_tests_cant": "The order of registrations decides which slot is used.", "anchors": ["src/except.c:76-87", "src/except.c:504-518", "src/except.c:567-588", "src/except.c:608-647"]}
{"id": "C138", "title": "Windows blocks have structured exception semantics", "statement": "With the Windows macros, the handler of ex_catch(E) runs for the exceptions named E and no others; others pass to the enclosing block after the finally block, and end the program when nothing takes them.", "quantifier": "all nestings of blocks, all names, all contents of the uninitialised members", "why_tests_cant": "Every test that throws what it catches passes; the number of programs is unbounded.", "anchors": ["include/exception.h:195-281", "src/except.c:379-415", "src/except.c:417-502"]}
{"id": "C139", "title": "A Windows fault reaches the handler for its name", "statement": "A fault with a registered code reaches the innermost handler for the name of that code and no other handler.", "quantifier": "all codes, tables, names and contents of the uninitialised members", "why_tests_cant": "The behaviour depends on what the stack contained before.", "anchors": ["src/except.c:418-440", "src/except.c:469-502", "include/exception.h:220-242"]}
{"id": "C140", "title": "A Windows handler gets the place of the throw", "statement": "err_file and err_line in a handler are the file and line of the throw.", "quantifier": "all throws, names and tables", "why_tests_cant": "A test that prints the place does not compare it.", "anchors": ["src/except.c:442-457", "include/exception.h:164-168", "include/exception.h:238-242"]}
{"id": "C141", "title": "On Windows an exception that leaves a handler reaches the enclosing block", "statement": "A throw and a rethrow() in a handler are delivered to the enclosing block with their name, after the finally block of the inner one.", "quantifier": "all nestings, kinds of handlers and contents of the uninitialised members", "why_tests_cant": "It needs nested blocks, and one outcome depends on uninitialised memory.", "anchors": ["include/exception.h:203-209", "include/exception.h:244-268", "src/except.c:418-502"]}
{"id": "C142", "title": "On Windows an exception passes a guard section", "statement": "With the Windows macros an exception or a registered fault inside a guard section runs the deferred functions and the end of the section and then reaches the enclosing block with its name; without enclosing block it ends the program.", "quantifier": "all names and places, all enclosing contexts, all contents of the uninitialised members", "why_tests_cant": "What a handler sees depends on stale stack contents and on the code of the fault; tests fix one build and one fault.", "anchors": ["include/exception.h:270-273", "include/exception.h:253-262", "include/raii.h:550-578", "src/except.c:417-502"]}
{"id": "C143", "title": "The last message tells an exception during unwinding from an uncaught one", "statement": "When an exception ends the program, the message says that it was thrown during stack unwinding exactly if a release function (deferred function or function of a protected pointer) threw it.", "quantifier": "all sequences of handled exceptions before, all protected pointers and their values, all release functions", "why_tests_cant": "The flag behind the message survives handled exceptions, so it depends on the whole history of the program.", "anchors": ["src/except.c:62", "src/except.c:106-134", "src/except.c:350-362", "src/except.c:379-415"]}
{"id": "C144", "title": "Compare and exchange built from compare-and-swap is atomic", "statement": "Without native compare-exchange, and in the Windows build, compare-exchange calls of any threads on one variable take place one after the other: each returns true and stores the desired value exactly if the variable has the expected value, otherwise it gives the caller the value found; no exchange is lost.", "quantifier": "any number of threads and calls, all interleavings, all values", "why_tests_cant": "Interleavings of any number of threads cannot be enumerated; the fallback is not compiled by the compilers the tests use.", "anchors": ["include/catomic.h:1915-1997", "include/catomic.h:2581-2620"]}
{"id": "C145", "title": "The spinlock works with the memory orders it asks for", "statement": "With release/acquire memory, where threads may see old values, the spinlock (acquire in test_and_set, relaxed in the inner loop, release in clear) lets at most one thread in, every access to the protected data is ordered after all earlier ones, no update is lost, and a thread that wants the free lock can get it.", "quantifier": "any number of threads, any updates, all executions of the release/acquire memory model", "why_tests_cant": "Reorderings of a weak memory model do not show up on the x86 machines the tests run on, and cannot be enumerated.", "anchors": ["include/catomic.h:2561-2577", "include/catomic.h:1137-1139"]}
{"id": "C146", "title": "Once a thread is seen to be done, what it stored may be used", "statement": "A thread that was told by promise_get, thrd_wait or thrd_is_done that the function of a future has ended can use what that function stored: it has the stored value and there is no data race.", "quantifier": "any number of waiting threads, all executions of the release/acquire memory model", "why_tests_cant": "The race has no visible effect on x86; a test cannot show the absence of a race.", "anchors": ["src/future.c:23-43", "src/future.c:125-132"]}
{"id": "C147", "title": "The atomic operations mean the same when TinyCC compiles them", "statement": "Loads return the value of the variable, fetch operations change it once and return the old value, and compare-exchange stores the desired value exactly if the expected value is there, also in the variants for TinyCC.", "quantifier": "all values, all widths, all operations", "why_tests_cant": "TinyCC for other processors is not among the compilers the tests use; the theorems give the results for every value.", "anchors": ["include/catomic.h:1360-1446", "include/catomic.h:1869-1891", "include/catomic.h:1915-1991", "include/catomic.h:2581-2620"]}
{"id": "C148", "title": "Threads that enter their first blocks at the same time get the default signals converted", "statement": "When several threads enter their first try or guard blocks concurrently, every one of them is in its block only when each default signal is handled and thrown under its own name.", "quantifier": "every schedule of any number of threads, every state of the signal table before them", "why_tests_cant": "The window lies between two stores of one thread; a test would have to stop a thread exactly there, and it runs once per process.", "anchors": ["include/exception.h:299-300", "include/raii.h:533-534", "src/raii.c:122-123", "src/except.c:70", "src/except.c:567-606", "src/except.c:608-675"]}
{"id": "C149", "title": "raii_value and get_arg give the value behind the pointer", "statement": "raii_value(data) and get_arg(params) return the object that the pointer names: the member of the type that was stored has the number that was stored, for an argument of a thread or a deferred function as documented, and a null pointer is reported without harm.", "quantifier": "every object of every size, every member of the union and every number of its type, NULL", "why_tests_cant": "Reading too far is invisible as long as the bytes behind the object are mapped.", "anchors": ["src/raii.c:549-555", "src/raii.c:579-581", "include/raii.h:98-131", "src/future.c:111-123", "README.md:45-54"]}
{"id": "C150", "title": "The err functions print what err(3) says", "statement": "err and warn print the name of the program, the message of the caller and the message of the error that errno held at the call, errx and warnx the first two; err and errx end the program with the status given, warn and warnx return.", "quantifier": "every message or NULL, every errno, whatever the printing functions leave in errno", "why_tests_cant": "errno is rarely changed by printing in a test; the set of messages is unbounded.", "anchors": ["include/compat/err.h:21-40", "include/compat/err.h:47-58", "include/compat/err.h:60-91"]}
{"id": "C151", "title": "opterr decides on messages only", "statement": "A call of getopt, getopt_long or getopt_long_only has the same outcome with opterr set as with opterr zero: the same value returned, the same optarg, optind, optopt and longind, the same order of argv, and no read outside argv in one case only.", "quantifier": "all argument lists, option strings, tables and states of the scanner", "why_tests_cant": "Tests look at stderr, and run with one value of opterr; the one message that reads too far is for an ambiguous name behind the last -W.", "anchors": ["include/compat/getopt.c:151", "include/compat/getopt.c:470-475", "include/compat/getopt.c:517-519", "include/compat/getopt.c:997-1025"]}
