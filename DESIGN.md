# Design: a Rocq model of c-raii

The proof plan was written before the proofs; the sections after it are kept current as the proofs land.
The table *Disagreements* lists what was found wrong in the code, the *Theorem index* what is proved for each property.

## Scope

The target is the 64-bit little-endian POSIX build (GCC/Clang, release: `RAII_ASSERT` compiled to
nothing, native thread-local storage except where C74/C75 look at the emulated one, `sizeof(size_t) = sizeof(void *) = 8`). The code is read as text;
nothing of `/repo` is compiled or executed.

### How C is represented

* **Integers** are `Z`. Every wrap-around the C code relies on is written out (`x mod 2^64`, `mod 2^32`);
  conversions to signed types are explicit.
* **Byte strings** are `list Z` with elements in `[0,256)`. A pointer is a block plus an offset. Words are
  loaded little-endian, byte by byte.
* **Undefined behaviour** is an outcome of its own (`Undef reason`), next to normal results (`Ok`),
  library panics (`Panic`) and running out of fuel (`NoFuel`; every theorem about a loop shows that enough
  fuel exists, so `NoFuel` never hides anything).
* **Two readings of C.** A record `sem` says what an out-of-bounds read does (undefined, or an arbitrary
  byte chosen by an arbitrary function) and what a shift by the full width does (undefined, or masked as on
  x86-64). Positive theorems are stated for every `sem` where the code is defined, or for every machine
  reading (all possible garbage bytes) where the code over-reads harmlessly. Refutations state which
  reading they use.
* **libc** (`memcpy`, `strstr`, `malloc`, `setjmp/longjmp`, `atexit`) and **cthread/rpmalloc** are not in the
  repository. They are modelled by their documented behaviour: `malloc` returns a fresh block or fails,
  `longjmp` returns control to the matching `setjmp`, thread join waits for the thread.
* **Concurrency** is interleaving of atomic steps under sequential consistency (all of the library's own
  atomics are seq_cst or are ordered by the join). Weak-memory effects are out of scope.

### Files

| files | content |
|---|---|
| `Base`, `BaseLemmas` | outcomes, the two readings of C, machine integers, blocks, little-endian words |
| `SwarModel`, `NumModel` | `src/swar.c` 11-601: word tricks, byte search, number printing and parsing, string comparison |
| `StrModel`, `Base64Model` | `src/swar.c` 603-875: split, concat, replace, copies, base64 |
| `StrScopeModel` | the same functions with the scope that owns their blocks: which call allocates how much, and what is registered |
| `LeakModel` | raii.c, future.c: which blocks are owned by whom when one of several requests to the allocator fails |
| `AsyncModel` | raii_deferred_any and raii_deferred_free store by store, with signals between any two stores |
| `EntryModel` | the macros guard and guarded store by store, with a signal between any two stores, in any nesting |
| `ThreadFnModel` | thrd_raii_wrapper with guard and guarded_exception around any thread function of `ExcModel` |
| `QueueModel` | the macros of include/compat/sys/queue.h (SLIST, LIST, SIMPLEQ, XSIMPLEQ, TAILQ and their loops); OpenBSD code shipped with the library for its users, not called by the library itself |
| `TreeModel` | the RB macros of include/compat/sys/tree.h (rotations, RB_INSERT, RB_REMOVE, RB_FIND, RB_NFIND, RB_MIN, RB_MAX, RB_NEXT, RB_PREV and the loops); shipped for users like queue.h. RB_AUGMENT is empty as in the header; the comparison is a pure function of two elements; an element is an address whose entry is four fields |
| `SplayModel` | the SPLAY macros of include/compat/sys/tree.h (rotate, link, assemble, SPLAY, SPLAY_MINMAX, SPLAY_INSERT, SPLAY_REMOVE, SPLAY_FIND, SPLAY_NEXT, SPLAY_MIN, SPLAY_MAX, SPLAY_FOREACH, and SPLAY_FOREACH with a body that removes and frees); the local `__node` has an address no element has; a counter of loop rounds, not in the header, states the cost |
| `DeferModel` | `src/raii.c` scopes, deferred functions, arrays, allocation; the raw memory layout of `defer_t` |
| `GetoptModel` | all of `include/compat/getopt.c` outside `_LIBC`: exchange, _getopt_initialize, _getopt_internal with short and long options, long_only and "W;", getopt; messages are not printed; the specification is `GetoptSpec` |
| `WaitModel` | all of `include/compat/wait.h` 180-494: the status macros, `__waitpid_internal`, waitpid, wait, waitid, wait3, wait4; Windows is a snapshot of processes, each with what becomes of it, and a set of open handles |
| `DirModel` | all of `include/compat/dirent_msvc.h` 142-609: opendir, readdir, closedir, rewinddir and their wide versions; Windows is a function from search patterns to files, a set of open searches and a set of allocated blocks, with an answer for every call that can fail |
| `CompatModel` | `timersub` (sys/time.h 17-25), `timespecsub` (time.h 47-55), `ntohll`/`be64toh`/`htobe64` (endian.h 70-79), the type macros of sys/stat.h 39-117 |
| `TypesModel` | `align_up` (rtypes.h 91) and `Kb`, `Mb`, `Gb` (rtypes.h 121-123) with the integer types, promotions and conversions of C |
| `CasModel` | compare-exchange from compare-and-swap, catomic.h 1915-1997 and 2581-2620, as a small-step machine of any number of threads; the TinyCC variants are in `TccModel` |
| `WeakModel` | the spinlock (catomic.h 2561-2577) and the flag of a promise (future.c 23-43, 125-132) on release/acquire memory: positions in the modification order, what each thread has seen and knows, release sequences, data races |
| `TccModel` | the TinyCC variants of compare-and-swap and what is built from it, catomic.h 1360-1446, 1642-1991, 2581-2620; one thread |
| `SetupModel` | threads entering their first blocks: the test of `exception_signal_set` (exception.h 299-300, raii.h 533-534, raii.c 122-123) and `ex_signal_setup`/`ex_signal` (except.c 567-675) one access at a time; sequentially consistent |
| `ValueModel` | `raii_value`, `get_arg` (raii.c 549-555, 579-581), the members of `values_type` (raii.h 98-125) and the value of `thrd_get` (future.c 116-119); objects are their bytes |
| `ErrModel` | `err`, `errx`, `warn`, `vwarnx`, `warnx` (compat/err.h 21-91); the formatted text is given, printing leaves any errno |
| `UnwindFlagModel` | `ex_unwind_stack` with the flag `got_uncaught_exception`, `ex_uncaught_exception`, `ex_throw` and `ex_terminate` up to its message (except.c 62, 106-134, 350-362, 379-415) over the history of a program; release functions handle no exceptions of their own, no signals |
| `SehModel` | the Windows exceptions: `ex_signal_seh`, `ex_signal`, `ex_signal_setup`, `catch_seh`, `catch_filter_seh`, `ex_throw` (except.c 379-518, 567-647) and the Windows forms of throw, rethrow, ex_try, ex_catch, ex_catch_any, ex_catch_if, ex_finally, ex_end_try (exception.h 195-281); uninitialised members have arbitrary values; protected pointers, hooks and `ex_finality` are left out |
| `MapModel` | all of `src/mman.c`: mmap with the Windows calls it makes, munmap, mprotect, msync, mlock, munlock, getpagesize; what Windows answers is an argument; a view is a window on a file, stores through it change the file (what `FILE_MAP_WRITE` means) |
| `MiscModel` | type predicates, `src/mman.c`, overflow helpers, first calls on a fresh thread |
| `AtomicModel` | spinlock and compare-and-swap loops of `include/catomic.h` |
| `ArenaModel` | `src/arena.c` |
| `ScopeArenaModel` | arena-backed scopes of `src/raii.c` (212-218, 237-246, 265-274, 294-308), on top of `DeferModel` and `ArenaModel` |
| `SignalModel` | `ex_signal*` of `src/except.c`, `raii_caught` |
| `ExcModel` | `src/except.c` and the macros of `include/exception.h` and `include/raii.h`: an interpreter for programs with try/catch/finally/guard/defer/throw/recover |
| `HookModel` | `include/raii.h` 536-539 and `guard_reset` (`src/raii.c` 537-538): the accesses to the two process-wide hooks, one by one, for any number of threads |
| `ArgsModel` | `raii_args*` of `src/raii.c` |
| `FutureModel`, `SpawnModel`, `RaceModel` | `src/future.c`: one future under all schedules; pools; deferral on one scope by several threads |
| `TlsModel` | thread-local variables of `include/cthread.h`, native and emulated |
| `ExitModel` | exit handlers and `raii_init` |
| `ReturnModel` | `_return` and `break` out of nested guards and try blocks |
| `ResultModel` | the value of the expression in `_return(value)` and `unguarded(result)` |
| `MsgModel` | `raii_message`, `raii_message_by`, `_get_message` |
| `PoolModel` | the pool functions of `src/future.c` on the creating thread: the current pool, protected pointers, the heap |
| `DequeModel` | the work-stealing deque of `examples/work-steal.c` |
| `GenericModel` | type-generic and floating-point atomics of `include/catomic.h`, `join_work` of `examples/work-steal.c` |
| `TermModel` | the end of a program by an uncaught exception: `ex_throw` in the outermost context, `ex_terminate`, callbacks and flags |
| `MaskModel` | signal masks and pending signals around `ex_try`, `ex_throw` and `ex_handler` |
| `Spec*` | independent specifications, not mentioning the model |
| `*Proofs`, `*Final`, `*Search`, … | lemmas |
| `Prop*` | the property theorems, their inhabitation examples, `Print Assumptions` |

## Per property: model and proof plan

| id | modelled | proof plan |
|---|---|---|
| C01 | `haszero`, `hasbyte`, `extend` on words mod 2^64 | borrow-tracking induction on byte lists; existence is exact both ways |
| C02 | `_memchr8` in all its modes | per-lane argument, then the 256 lane masks by computation |
| C03 | `cast8` | arithmetic on little-endian lists; strict reading fails at len 8 (refutation) |
| C04 | `_memchr` with its real masking | loop invariant for len >= 9; refutations for short lengths and for the not-found pointer |
| C05 | `_memrchr`, `simd_memrchr` | expected refutation (over-read, first word never searched, `- 3`); exact description of what is searched |
| C06 | `_utoap`, `utoap`, `utoa2p` | `utoa2p` by its 100 cases, rest by div/mod reasoning |
| C07 | `itoa8` with buffer writes | loop invariant on the packed word |
| C08 | `simd_itoa` | `abs` truncates to 32 bits: refutation; correctness for \|x\| < 2^31 |
| C09,C12 | `atou8`, `simd_atou`, `htou8`, `simd_htou` | lane arithmetic without carries |
| C10,C11 | `simd_atoi` and compositions | from C07-C09 |
| C13 | `simd_atod` over exact rationals | refutations (short strings, scale index, sign) |
| C14 | `simd_strlen` with address alignment | invariant: no NUL before the cursor |
| C15,C16 | `simd_strcmp`, `is_str_eq`, `is_str_empty` | refutations + exact characterisation for all inputs |
| C17 | `strpos` | loop invariant against a first-occurrence relation |
| C18-C20,C24 | split/concat/replace/copy on blocks with offsets; `strstr` trusted | loop invariants, block sizes tracked |
| C21-C23 | base64 with explicit block sizes | bit-string specification of RFC 4648; finite lane checks lifted to lists |
| C25-C27,C30,C32 | scopes as state machines over defer/alloc/release histories | induction over histories; refutations for reuse after release and re-entrant defers; what a release does with re-entrant defers in general (`DeferNested`) |
| C28,C29 | raw 32-byte layout of `defer_t` with its two overlapping views | the address actually used, for every history; right at one count only, refutations elsewhere |
| C31 | `raii_array_append` with capacity; overflow helpers | invariant; arithmetic |
| C33-C36 | interpreter of the try macros with explicit contexts, setjmp values and uninitialised fields | simulation against a structured reference semantics |
| C37 | the unwind loop over protected pointers | exact characterisation, refutation for NULL and repeated pointers |
| C38-C40 | same interpreter with guards, scopes and hooks | simulation on guard programs; refutations where `_malloc` is involved |
| C41 | hooks in the interpreter (one thread), as an interleaving of any number of threads with entering and leaving as single steps, and in `HookModel` with every load and store a step | invariant; equivalence with a condition on the schedule; refutation by schedule |
| C42,C43 | table of 32 slots, flag, dispositions | refinement to a finite map; refutation for the flag |
| C44 | `raii_caught`, `raii_is_caught` over C16 | refutation + characterisation |
| C45-C49 | arena with chunk headers, global free list, cumulative sizes | invariant over alloc histories; exact effect of a failed allocation; which chunks a clear loses; refutations for clear/free |
| C50,C51 | descriptor interpreter, accesses | induction; refutations for 'p' and long strings |
| C52-C59 | promise/future step machine | invariants over all schedules; refutations by schedule |
| C60,C61 | spinlock and CAS loop with any number of threads | invariants |
| C62 | enumeration of tags | arithmetic on the ranges, all tags |
| C63 | Chase-Lev deque steps | invariant over all schedules; refutation for take on a fresh deque |
| C64 | protection/offset mapping of `src/mman.c` | arithmetic, all masks |
| C65 | thread-local scope initialisation | refutation for decode as first call |
| C66 | protector chain of `malloc_full` with release | refutation; exact condition under which nothing dangles |
| C67 | the context fields `ex_try` leaves uninitialised, as an arbitrary function `junk` | two runs related for every pair of junk; refutation once the thread has a scope |
| C68 | what the unwind passes to `free`, for any lists of blocks obtained before and inside a try block | exact outcome of the program by induction on the lists; iff for the wild free; refutation |
| C69 | `caught` inside `catch_if` with a pending error on the scope | characterisation; refutations |
| C70 | `thrd_raii_wrapper` reading its argument as an `args_t` | characterisation; refutations |
| C71 | the wait after `thrd_is_done` | refutation by schedule |
| C72 | `thrd_sync`'s final release of the thread's scope | universal negative theorem |
| C73 | native thread-local variables, any threads | induction over histories |
| C74 | emulated thread-local variables, step by step | invariant once each variable exists; refutations by schedule |
| C75 | the test `ctx == ex_local()` in the emulated build | universal negative theorem |
| C76 | exit handlers, the lock held by `raii_init` | invariant over histories; refutations |
| C77 | the macro `_return` on the contexts and hooks of nested guards | exact effect for every nesting; refutation |
| C78 | the field `raii_local()->arena`, shared by pools and guards | simulation against a meaning function; refutations |
| C79 | heap and protected pointer chain of one pool | counting invariant over all blocks; refutations |
| C80 | `thrd_is_finish`, `thrd_result` on the tables of `SpawnModel` | induction on the number of threads |
| C81 | `unique_init_arena`, `free_arena` over histories on the scope and on other arenas | the history splits into a deferral history (C27) and an arena history (C47); reuse both invariants |
| C82 | `malloc_by`, `calloc_by`, `malloc_arena`, `calloc_arena` | the arena half keeps the invariant of C45; what the scope returned is a sublist of what the arenas handed out |
| C83 | `arena_capacity` | the request count is an explicit part of the memory; monotone through the growth loop |
| C84 | guards of `ExcModel` whose deferred functions throw | one pass over the functions up to the throwing one is an exact step; the landing at the guard's setjmp is iterated by induction on the fuel |
| C85 | `_get_message` after a throw from any state, and between deferred functions | the error is recorded before unwinding; unwinding and deferred functions that return leave the pending fields alone |
| C86 | `raii_message` after a throw from any state | as C85, split by which scope the throw records its error on |
| C87 | the macros of catomic.h 2733-2797 on blocks of bytes, an object being at any offset | the word read and written is split at the object's end; arithmetic modulo 2^p and 2^(p+q), bitwise operations bit by bit |
| C88 | `c89atomic_fetch_add/sub/compare_exchange_f32/f64` on bit patterns; the specification counts numbers in units of the least positive one and covers every binary format. Whether the *exact* sum results is decided; correctly rounded results of inexact sums are not specified. Store, load, exchange move bits and `fetch_or/xor/and` on floats have no arithmetic meaning: left out | the magnitude is increasing with non-decreasing steps, hence superadditive, strictly so beyond twice the least normal number |
| C89 | tasks as threads that run and join, in any interleaving | invariant: the counter is the number of tasks not joined; ranks of tasks for completion |
| C90 | `ex_throw` in the outermost context, `ex_terminate`, `raii_deferred_free`, flags, callbacks | exact run when nothing throws; flags characterised by the history; refutation |
| C91 | the same, every function being free to throw depending on everything called before | invariant kept by every step (events seen plus the flag still set) |
| C92 | the same | invariant for "at least once"; exact runs for a function that throws once or always; refutation |
| C93 | the same | invariant: exit handlers seen exactly when exit has begun; refutation |
| C94 | structured programs over masks and pending signals, `sigsetjmp`/`siglongjmp` with masks | induction on programs over the recorded events |
| C95 | the same | induction for programs without sent signals; exact replacement rule; refutation |
| C96 | the same | exact effect for every position of the fault; refutation |
| C97 | `ReturnModel` | exact effect of break out of any number of try blocks in a guard; refutation for a deferred function that throws |
| C98 | `ResultModel` | frame rule for the returned expression; exact for contents of released memory; two refutations |

Not expressible here: floating-point rounding of `simd_atod` (modelled over rationals, which is enough because the
errors found are larger than rounding); asynchronous signals other than those sent at the points of `MaskModel`; weak-memory behaviour other than in `WeakModel`; real heap fragmentation.

## Disagreements between code and properties

Each entry is a machine-checked witness (`…_refuted`, by `vm_compute`) or a universal negative theorem. In all of
them the model follows the code; the property is what the documentation, the function's name or its use in the
library promises. The positive part that does hold is in the theorem index below.

### `src/swar.c`

| property | code | what the code does | theorems |
|---|---|---|---|
| C03 | `cast8` 24-34 | length 8 shifts a 64-bit word by 64; any shorter length loads 8 bytes whatever the block's size | `cast8_refuted` |
| C04 | `_memchr` 174-202, `simd_memchr` 495-497 | the mask for short ranges is inverted (it removes the byte inside the range), so 1 to 7 bytes are never searched; with length 8 the loop loads the next word before it tests for the end; an absent byte gives `s + 0xFFFFFFFF`, never NULL | `simd_memchr_short_never_finds`, `simd_memchr_refuted` |
| C05 | `_memrchr` 144-172, `simd_memrchr` 499-502 | the first load is at `s + len`, so 8 bytes past the range are read; the first word is never searched unless the byte is known to exist; the pointer is 3 too low | `memrchr_reads_past_end`, `simd_memrchr_refuted` |
| C08, C11 | `simd_itoa` 265-293 | `abs` takes an `int`: magnitudes from 2^31 on are truncated; the copy out of the local array reads past it | `simd_itoa_refuted`, `simd_itoa_overreads`, `simd_itoa_roundtrip_refuted` |
| C09 | `simd_atou` 319-337 | 16 digits: shift by 64; short texts read 8 bytes (defined on x86-64 with slack, undefined in ISO C) | `simd_atou_strict_refuted` |
| C13 | `simd_atod` 537-564 | scale table index off by one and the fraction subtracted: `i - f/10^(m+1)` instead of `i + f/10^m` | `simd_atod_refuted`, `simd_atod_fraction_value` |
| C15, C16 | `simd_strcmp` 391-423, `is_str_eq` raii.c 742-744 | a first string of 8 characters compares equal to everything; a proper prefix compares equal; words read past both terminators | `simd_strcmp_refuted`, `simd_strcmp_strict_refuted`, `is_str_eq_refuted`, `is_str_empty_refuted` |
| C18 | `str_split_ex` 627-666 | uses `is_str_eq(s, "")`: every string of 8 characters gives NULL; an empty delimiter loops for ever | `str_split_refuted`, `str_split_eight`, `str_split_empty_delim` |
| C20 | `str_replace_ex` 694-732 | an empty needle loops for ever (outside the stated property) | `str_replace_empty_needle` |
| C22 | `str_decode64_ex` 825-875 | "" encodes to "", which decodes to NULL | `decode64_encode64_refuted` |

### `src/raii.c`

| property | code | what the code does | theorems |
|---|---|---|---|
| C27 | `raii_deferred_free` 436-443 | the type tag is cleared by the release and never set again, so nothing deferred later is ever called | `released_scope_loses_defers`, `release_reuse_refuted` |
| C28, C29 | `raii_deferred_array_get_index` 345-348, `…_get_element` 350-353 | pointer difference is taken from the element count instead of the array, with `sizeof(raii_array_t)` as stride: cancel and fire hit another entry or a wild address | `cancel_refuted`, `cancel_wrong_one_refuted`, `fire_refuted` |
| C30 | `malloc_full` 220-231 | the result of registering the release function is ignored: if the array cannot grow the block leaks | `alloc_release_refuted` |
| C32 | `raii_deferred_run` 395-428 | a function deferred while the scope is released is dropped; with 16 entries the loop keeps using the moved array | `nested_defer_refuted`, `nested_defer_dangles_refuted` |
| C65 | `raii_decode64` 196-198, `raii_defer` 471-473 | use `raii_local()` without `raii_init()`: NULL on a fresh thread | `decode64_first_call_null`, `decode64_fresh_thread_refuted`, `defer_fresh_thread_null` |
| C76 | `raii_init`, `raii_delete` at exit 103-129, 276-312 | only the exiting thread's scope is released; exit while another thread is in `raii_init`; a full handler table | `exit_other_thread_refuted`, `exit_during_init_refuted`, `exit_table_full_refuted` |
| C66 | `malloc_full` 220-231 with `ex_protect_ptr` | a second allocation links the protector to itself; after the release the exception context points to the freed protector | `protector_dangles_refuted` |
| C50 | `raii_args_ex` 593-670 | case `'p'` falls through into the next one and consumes another argument; a string longer than 272 bytes is copied to NULL | `args_pointer_refuted`, `args_pointer_shift_refuted`, `args_long_string_refuted` |
| C99 | `str_concat_ex` swar.c 688-689; `calloc_full` 248-259 | the result of `raii_deferred` is ignored: when the array cannot grow the string is never released; `str_memdup_ex`, `str_encode64_ex` and `str_decode64_ex` pass a NULL scope on, which is dereferenced | `strings_released_refuted`, `strings_null_scope` |
| C51 | `raii_get_args` 565-577 | on a scope released once (C27), or when the array cannot grow (the result of `raii_deferred` is ignored), packs are never freed | `args_freed_once_refuted`, `args_never_freed`, `args_grow_refuted` |
| C62 | tags of `include/exception.h` 140-146 | exception records carry tags 3 and 4, which `is_value` takes for values; an arena's tag is outside the enumeration | `foreign_tags` |

### `src/except.c`, the macros of `include/exception.h` and `include/raii.h`

| property | code | what the code does | theorems |
|---|---|---|---|
| C33 | `rethrow`, `ex_throw` 379-415 | `rethrow` in a try block inside a handler throws the inner block's empty exception | `try_structured_refuted` |
| C36 | `ex_catch_if` | the state is still "thrown" while the block runs: a throw in it re-enters the block for ever | `catch_if_throw_diverges`, `catch_if_throw_refuted` |
| C37 | `ex_unwind_stack` 106-133 | the loop stops at a NULL pointer or when two neighbours hold the same pointer | `protected_null_refuted`, `protected_equal_refuted` |
| C39, C40, C68 | `_malloc` (raii.h), `malloc_full`, `ex_unwind_stack` | a `_malloc` in a guard turns every throw inside into a release of the guard: deferred functions run at once, memory is freed while in use, a recovered panic goes on; `free` is called on the first word stored in the block | `recover_stops_refuted`, `handled_keeps_guard_refuted`, `handled_then_panic_refuted`, `unwind_frees_wild_refuted`, `recover_never_stops`, `handled_releases_guard` |
| C41 | `guard` / `guard_reset` 533-539 | the two hooks are plain globals: two threads restore each other's values | `hooks_threads_refuted`, `stale_hook_crash` |
| C42 | `ex_signal` 567-606 | (holds; a 33rd signal is ignored with a message) | `signal_table_full` |
| C43 | `ex_signal` 567-606, `ex_signal_setup` 608-675 | any `ex_signal` call sets `exception_signal_set`, so the default set is never installed; a full table leaves no room | `default_signals_refuted`, `default_signals_reset_refuted`, `default_signals_full_refuted` |
| C44 | `raii_caught` raii.c 483-496 | through `is_str_eq`: `caught("sig_segv")` matches any exception, a prefix matches | `caught_refuted`, `caught_prefix_refuted` |
| C67 | `ex_try` | `is_raii` of the local context is not initialised and is read by the unwind | `context_junk_refuted` |
| C69 | `raii_caught` 483-496 | an older error on the thread's scope hides the current one; NULL on a fresh thread | `caught_stale_refuted`, `caught_fresh_thread_refuted` |
| C77 | `_return` raii.h 516-524 | inside a further `try` or `guard` of the function only one context is taken off and only one guard released | `return_in_try_refuted`, `return_in_guard_refuted` |

### `src/arena.c`

| property | code | what the code does | theorems |
|---|---|---|---|
| C45 | `arena_alloc` 47-98 | holds for sizes from 1 to 2^63 - 2; 2^63 - 1 is rounded up to a negative number, and a size below 1 takes back memory already handed out | `arena_alloc_largest_refuted`, `arena_negative_size`, `arena_negative_overlap_refuted` |
| C46 | `arena_clear` 107-130 | blocks overlap after a clear, land outside the arena, older chunks leak, a second clear uses released memory | `arena_clear_overlap_refuted`, `arena_clear_outside_refuted`, `arena_clear_leaks`, `arena_clear_leak_refuted`, `arena_clear_twice_refuted` |
| C47 | `arena_free` 30-45 | reads every chunk after releasing it; miscounts the free list | `arena_free_uses_released`, `arena_free_use_after_free_refuted`, `arena_free_miscounts_refuted` |
| C48 | the global free list | one chunk serves two arenas; released memory is handed out | `arenas_share_chunk_refuted`, `arena_hands_out_released_refuted` |
| C49 | `arena_alloc`, `arena_calloc` 100-105 | failure is a NULL result that changes the arena, not the documented panic; `arena_calloc` clears NULL | `arena_alloc_failure_refuted`, `arena_calloc_null_refuted`, `arena_alloc_total_wraps_refuted` |
| C81 | `free_arena` raii.c 294-308 | any arena scope that was used makes `arena_free` access chunks it has released | `scope_release_uses_released`, `scope_release_refuted` |
| C82 | `malloc_by` raii.c 237-242, `calloc_by` 265-270 | a size of 2^63 or more becomes a negative long: a pointer is returned and later blocks overlap; the product of `calloc_by` overflows | `scope_blocks_huge_refuted`, `scope_calloc_overflow` |

### `src/future.c`

| property | code | what the code does | theorems |
|---|---|---|---|
| C52 | `thrd_get` 111-123 | reads the future after `future_close` freed it | `get_strict`, `get_value_refuted`, `get_twice_refuted` |
| C53 | `promise_set` 23-36, `thrd_get` | a NULL result stores nothing and is dereferenced | `null_result_crashes`, `null_result_refuted`, `sync_null_refuted` |
| C54 | `guarded_exception`, `thrd_get` | the exception is kept in the creator's scope: lost, misreported or thrown twice | `exception_lost_refuted`, `exception_misreported_refuted`, `own_exception_again_refuted` |
| C56 | `thrd_spawn` 220-250, `thrd_sync` 261-286 | a processor count of 0 divides by zero; collecting a pool again reads freed futures | `spawn_no_cpu_refuted`, `sync_strict_refuted`, `sync_again_refuted` |
| C58 | `thrd_pool` 178-201 | workers are started without a promise and dereference it in their first statement | `pool_worker_crashes`, `pool_refuted` |
| C59 | `promise_set` 23-36 with `raii_deferred` | workers defer on the creator's array without a lock that the creator takes | `defer_race_refuted`, `defer_race_uninit_refuted`, `defer_race_double_free_refuted`, `defer_race_after_free_refuted` |
| C70 | `thrd_raii_wrapper` 70-91 | the argument is read as an `args_t`: NULL crashes, a first word of 43 is taken for a pack | `argument_value_refuted`, `argument_null_refuted`, `argument_confused_refuted` |
| C71 | `thrd_get` 111-123 | after `thrd_is_done` it still joins a worker that has clean-up left | `get_blocks_refuted` |
| C72 | `thrd_sync` 261-286 | the final `raii_deferred_clean` releases every promise of the thread | `sync_frees_others_refuted`, `sync_frees_all` |
| C78 | `thrd_scope` 203-218, `thrd_spawn` 220-250, `thrd_destroy` 295-305, `guard` | the current pool is kept in `raii_local()->arena`, which guards overwrite and `thrd_destroy` does not reset: NULL dereferenced without a pool, released memory read after `thrd_destroy`, an exception in a guard stores past the end of the pool | `spawn_no_pool_refuted`, `spawn_outer_pool_refuted`, `spawn_in_guard_refuted`, `spawn_after_guard_refuted`, `throw_in_worker_refuted`, `spawn_after_destroy`, `throw_after_scope_in_guard` |
| C79 | `thrd_scope`, `thrd_spawn`, `thrd_destroy` with `ex_protect_ptr` except.c 89-104 | a pool hides the pointers protected before it; a throw after `thrd_spawn` frees a tag, after `thrd_destroy` it reads released memory; a failing `thrd_spawn` leaks its argument | `scope_hides_protected`, `throw_after_spawn`, `throw_after_destroy`, `exception_in_pool_refuted` |
| C80 | `thrd_is_finish` 307-315 | after `thrd_sync` it reads the freed futures | `finish_after_sync`, `finish_after_sync_refuted` |

### Others

| property | code | what the code does | theorems |
|---|---|---|---|
| C63 | work-stealing deque | `take` loads `top` before it stores `bottom`: an item twice, another lost; `take` on a fresh deque returns an unwritten word; a size hint of 0 divides by zero | `item_twice_refuted`, `item_twice_late_refuted`, `item_lost_refuted`, `take_fresh_refuted`, `size_zero` |
| C64 | `src/mman.c` 36-128 | PROT_NONE becomes 0; 32-bit Windows loses the carry of the size; signed overflow near INT64_MAX | `page_protection_refuted`, `mmap_split32_refuted`, `mmap_overflow_refuted` |
| C73 | `thrd_static_plain`, `thrd_local_plain` cthread.h 499-540 | the unused plain forms store the address of their buffer in the variable | `native_plain_refuted` |
| C74 | emulated thread-local storage, cthread.h 422-482 | concurrent first uses create two keys, the emptiness test before the first use reads key 0, exit inside a try block frees the stack | `emulated_race_refuted`, `emulated_lost_refuted`, `emulated_empty_refuted`, `emulated_first_refuted`, `emulated_exit_refuted`, `emulated_initial_refuted` |
| C75 | `ex_throw` except.c 404-405 (emulated) | compares the current context with itself: every throw ends the program | `emulated_throw_exits`, `emulated_throw_refuted` |
| C84 | `raii_deferred_run` raii.c 395-412 with `guarded` raii.h 564-575 | a throwing deferred function starts the release again from the newest function: for ever, or calling functions twice with NULL and never the older ones | `defer_throw_never_ends`, `defer_throw_refuted`, `defer_throw_malloc_refuted` |
| C85 | `_get_message` raii.h 507 | keeps an exception that was handled; NULL dereference outside guards | `message_handled_refuted`, `message_outside_refuted` |
| C86 | `raii_message` raii.c 506-510 | reads the thread's scope even inside a guard, stale errors win over the current one | `message_panic_refuted`, `message_stale_refuted`, `message_fresh_refuted` |
| C87 | generic atomics catomic.h 2733-2797 | always access eight bytes; `atomic_bool done` of examples/work-steal.c 157 is stored and loaded this way | `generic_overrun`, `generic_store_neighbour_refuted`, `generic_bool_refuted`, `generic_bool_load_refuted`, `generic_cas_refuted` |
| C88 | `c89atomic_fetch_add_f32` and others, catomic.h 2400-2435 | add bit patterns as integers | `float_add_f32_refuted`, `float_add_f64_refuted`, `float_sub_f32_refuted` |
| C89 | `join_work` work-steal.c 175-180 | truncates the old count to int | `join_truncation_refuted` |
| C90 | `raii_init` raii.c 118-121 with `ex_terminate` except.c 355 | inside a try block marks that block's context as owning the scope, not the outermost one: after a signal the scope's functions are never called | `last_words_inside_try`, `last_words_refuted` |
| C92 | `raii_deferred_run` raii.c 403-412 with `ex_throw` in the outermost context | a throwing function starts the list again: newer ones are called again with NULL, for ever if it always throws | `deferred_again`, `deferred_forever`, `deferred_at_most_once_refuted` |
| C93 | `got_signal`, except.c 61, 524, 372-376 | never reset by the library: after any handled signal every uncaught exception ends with `_Exit` | `handlers_skipped_partial`, `handlers_skipped_refuted` |
| C95 | `ex_throw` except.c 401-415 | a signal that arrived during unwinding is delivered before the jump and overwrites the exception | `exception_replaced`, `exception_kept_refuted` |
| C96 | `ex_throw` except.c 385 | blocks the fault signals too: a fault in a release function kills the process without report | `release_fault_kills`, `release_fault_refuted` |
| C97 | `guard`/`unguarded` raii.h 526-560 with `ex_try` | break out of a try block inside a guard leaves that block's context on the list: a deferred function that throws jumps back into the block | `break_throw_refuted` |
| C98 | `_return`, `unguarded` raii.h 518-560 | the expression is evaluated after the release: contents of memory of the guard are read after free | `return_released`, `return_value_refuted`, `return_value_changed_refuted` |
| C100 | `malloc_full` raii.c 220-231, `unique_init_arena` 212-218, `raii_args_ex` 593-599, `thrd_async` future.c 93-109, `thrd_scope` 203-218 | when a later request fails the blocks of the earlier ones are lost | `malloc_loses`, `exhaustion_exact`, `pair_loses`, `async_loses`, `scope_loses`, `failed_request_refuted` |
| C100 | `raii_array_free` raii.c 314-320 | clears the structure without releasing it | `array_structure_lost` |
| C101 | `raii_array_append` raii.c 77-84, `raii_deferred_any` 459-461, `raii_deferred_run` 410-411, `raii_array_reset` 20-21 | a signal between these stores: array used after free, entry called before it is written, function called twice, array released twice | `signals_exact`, `signal_in_release`, `signal_twice_refuted`, `signal_undefined_refuted`, `signal_loses_refuted` |
| C102 | `guard` raii.h 538-542, `ex_try` exception.h 308-310, `guard_reset` raii.c 533-539 | a signal between these stores: NULL dereferenced, jump through an unfilled buffer, scope lost and hooks left set | `enter_exact`, `leave_exact`, `entry_refuted`, `exit_refuted` |
| C103 | `guarded_exception` raii.h 583, `raii_deferred_run` raii.c 407-408 | an exception recovered by a deferred function is reported to the future when an older deferred function runs after it | `recovered_reported_refuted`, `recovered_exits_refuted` |
| C105 | `XSIMPLEQ_XOR` queue.h 345-346 | goes through unsigned long: on 64-bit Windows addresses are cut to 32 bits | `xor_queues_are_lists_refuted` |
| C112 | `SPLAY_NEXT` tree.h 134-146 | walks to the successor without splaying it: repeated calls take n/2 rounds each, so the bound of the header's comment (44-46) does not hold for it | `splay_next_alone_is_linear`, `splay_next_amortised_refuted` |
| C113 | `SPLAY_FOREACH` tree.h 287-290 | no safe variant; a body that removes and frees makes the step read the freed element; one that only removes dereferences NULL on the last element or passes over elements | `splay_foreach_reads_freed`, `splay_foreach_remove_last`, `splay_foreach_remove_refuted` |
| C114 | `__map_mman_error` mman.c 29-34 | errno is set to the Windows error number (access denied 5 is EIO), the default errno it is given is never used; CloseHandle before GetLastError can leave errno 0 after MAP_FAILED | `mmap_errno_exact`, `mmap_errno_refuted` |
| C115 | `mmap` mman.c 67-128 | MAP_PRIVATE and MAP_NOEXTEND are never looked at: a private mapping writes the file, and the file grows to the end of the mapping | `mmap_flags_ignored`, `mmap_writes_file`, `mmap_private_refuted` |
| C116 | `munmap` mman.c 130-137 | the length is never looked at: unmapping the first half unmaps all, unmapping the second half fails | `munmap_exact`, `munmap_part_refuted` |
| C119 | `_getopt_internal` getopt.c 525-531 | the '+' or '-' at the beginning of the option string is passed over in the first call only; later calls take it for a letter, and no longer see the ':' after it | `getopt_scans_prefixed`, `getopt_prefix_refuted` |
| C120 | `_getopt_internal` getopt.c 969-1020 | "-W" without long options dereferences NULL (976); an ambiguous "-W name" increments optind once more (1019): an element is lost, or argv[argc + 1] is read; optarg stays the name where there is no argument | `getopt_w_exact`, `getopt_w_null`, `getopt_w_refuted`, `getopt_w_arg_refuted` |
| C121 | `_getopt_internal` getopt.c 638-640 | long_only: the rest of a cluster is looked up as a long name in every call | `getopt_long_only_refuted` |
| C122 | `_getopt_internal` getopt.c 868, 1164 | a letter (char) -1 is returned as -1, the end of the options | `getopt_minus_one_refuted` |
| C123 | `__waitpid_internal` wait.h 447-458 | returns th32ParentProcessID, the number of the parent, not of the child; a crashed child looks like a normal exit | `waitpid_number_refuted`, `waitpid_number_exact` |
| C124 | `__waitpid_internal` wait.h 423-425 | WNOHANG on a running process returns without closing its two handles | `poll_leaks`, `waitpid_handles_refuted` |
| C125 | `__waitpid_internal` wait.h 324-332, 394-398 | waiting for any child waits for the first child listed only; with a number the process need not be a child | `wait_first_child`, `wait_any_refuted` |
| C126 | `waitid` wait.h 354-379, 473-484 | WEXITED is rejected with errno -EINVAL; P_ALL and groups abort | `waitid_exited_fails`, `wait_groups_abort`, `waitid_refuted` |
| C130 | `_wopendir` dirent_msvc.h 165-176 | the second answer of GetFullPathNameW is not compared with the size of the buffer | `pattern_exact`, `opendir_race_refuted` |
| C131 | `dirent_next`, `readdir` dirent_msvc.h 372-405, 479-556 | an error is reported as the end of the directory; a name over 259 bytes ends the program; an empty root cannot be opened | `read_error_refuted`, `empty_root_refuted` |
| C133 | `ntohll` endian.h 73 | an int argument is shifted by its width | `be64_int_undefined`, `be64_refuted` |
| C134 | sys/stat.h 66-74, 105-117 | the types said never to occur are 0, so that a mode without type is a link, socket and block device; DT_LNK is DT_UNKNOWN | `no_type_is_link`, `link_macros_refuted` |
| C135 | `align_up` rtypes.h 91 | the mask has the type of the alignment: unsigned int clears the high half of a 64-bit number | `align_up_cut`, `align_up_refuted` |
| C136 | `Gb`, `Mb`, `Kb` rtypes.h 121-123 | the cast to u64 comes after the product, and the argument is not in parentheses | `size_macro_exact`, `size_macro_sum`, `size_macro_refuted` |
| C138 | `catch_seh` except.c 425-440 | an exception for another handler executes the block without setting its state: it is lost, the program goes on | `win_lost`, `win_catch_refuted` |
| C139 | `catch_seh` except.c 425-437, `ex_try` exception.h 220-236 | the uninitialised `panic` decides whether a fault is lost or goes to the handler of any name | `fault_lost`, `fault_any_name`, `fault_refuted` |
| C140 | `catch_seh` except.c 449-456 | EXCEPTION_PANIC is negative, so every throw counts as a signal and its place is overwritten | `win_place_lost`, `win_place_refuted` |
| C141 | `catch_seh`, `catch_filter_seh`, `rethrow` exception.h 203-209 | the filters set the state of the inner context, which is still the current one: an exception from a handler is lost; `ex_catch(panic)` renames it to the first name of the table | `win_inner_lost`, `win_handler_throw`, `win_rethrow_any`, `win_panic_renamed`, `win_handler_refuted` |
| C142 | `catch_seh` except.c 442-464 | a fault rethrown by a guard section has no message, so an enclosing `ex_catch` for it renames it to the first name of the table and one for another name swallows it | `win_guard_fault_caught`, `win_guard_refuted` |
| C143 | `ex_unwind_stack` except.c 118 | a NULL or repeated protected pointer sets the flag of exceptions during unwinding, which stays set after the exception is handled: a later uncaught exception is reported as thrown during unwinding | `message_exact`, `message_refuted` |
| C146 | `thrd_is_done` future.c 126, `thrd_wait` 130 | the load of `done` is relaxed: leaving `thrd_wait` does not order what the function stored before its use by the waiting thread | `promise_relaxed`, `thrd_wait_refuted` |
| C147 | `c89atomic_compare_and_swap_*` catomic.h 1372, 1391, 1410, 1440; `c89atomic_cas_32`, `_64`, `c89atomic_swap` 2583, 2597, 2611 | TinyCC: the success of the exchange is returned instead of the value found; the address of the parameter is passed instead of the parameter | `tcc_load_wrong`, `tcc_fetch_exact`, `tcc_exchange_wrong`, `tcc_win_exact`, `tcc_refuted` |
| C148 | `ex_signal` except.c 567-606, `exception_signal_set` 70, 604 | the flag that says the set-up is done is set behind the first of twelve signals, and slots are taken without a lock: a second thread is in its block without handlers, or two threads take the same slot and SIGABRT is thrown as sig_segv, or as NULL for good | `setup_early_refuted`, `setup_window_refuted`, `setup_name_refuted`, `setup_lost_refuted` |
| C149 | `raii_value` raii.c 549-555, `get_arg` 579-581; `thrd_get` future.c 117 | 256 bytes are copied from the address of an int (README.md 45-54); for NULL `return;` without a value, or a read through NULL | `value_exact`, `value_int_refuted`, `value_null_refuted` |
| C150 | `err`, `errx`, `warn`, `warnx` compat/err.h 21-91 | the name of the program, which err(3) puts in front of every message, is not printed | `err_name_missing`, `err_name_refuted` |
| C151 | `_getopt_internal` compat/getopt.c 993-1020 | the message for an ambiguous `-W name` reads argv[optind] after optind was moved on, NULL behind the last element; with opterr zero the same call reports `?` | `getopt_opterr_refuted` |

## Theorem index

Generated from the comments beside the theorems. *partial* means that the full statement fails or is not proved in full; what is missing is said in the note and in the comment.

**C01** (proved) Word-level byte presence tests are exact. for every 64-bit word and byte
  - `haszero_exact` (PropSwar.v)
  - `hasbyte_exact` (PropSwar.v)

**C02** (proved) memchr8 finds the first matching byte of an 8-byte window. both readings of C; memchr8k with an absent byte is __builtin_ctz of 0 (BadBuiltin)
  - `memchr8_first` (PropSwar.v)
  - `bit_scans` (PropSwar.v): The bit scans under the search, for every word but 0: countr_zero counts the zero bits below the lowest bit set, countl_zero those above the highest; both are undefined for 0.

**C03** (partial) cast8 loads a short prefix as a little-endian integer. exact for 0..7 with 8 readable bytes, and for 8 when a 64-bit shift is masked (x86-64); cast8_refuted: undefined at length 8 and over-reads short blocks in ISO C
  - `cast8_prefix` (PropSwar.v)
  - `cast8_refuted` (PropSwar.v): The full claim ("for every length 0..8, without undefined behaviour") fails: length 8 shifts a 64-bit word by 64, and a short block is read past its end.

**C04** (partial) Forward byte search agrees with memchr. right for lengths >= 9 when the byte is present; refuted: lengths 1..7 never find the byte, length 8 runs past the end, NULL is never returned; for 1..8 bytes the exact outcome is given in both readings
  - `simd_memchr_partial` (PropSwar.v): Lengths of at least nine, any reading of C (so nothing outside the block is read).
  - `simd_memchr_short_never_finds` (PropSwar.v): For 1..7 bytes a non-NUL byte is never found inside the range, on any machine reading.
  - `simd_memchr_refuted` (PropSwar.v): The full claim fails: the byte is there but not found; nothing is never NULL; the range is left.
  - `simd_memchr_absent_refuted` (PropSwar.v)
  - `simd_memchr_overread_refuted` (PropSwar.v)
  - `simd_memchr_small_exact` (PropSwar.v)
  - `simd_memchr_small_found` (PropSwar.v): An occurrence the walk reaches is found, so the first case is not empty.
  - `simd_memchr_small_strict` (PropSwar.v): In ISO C, on a block that ends with the range: 1..7 bytes are always an out-of-bounds read, 8 bytes are one exactly when the byte is absent.

**C05** (partial) Backward byte search agrees with memrchr. refuted: always reads 8 bytes past the range, first word never searched, pointer 3 too low, a match behind the range is reported as if inside; the exact answer is given for every length from 9 on with a clean or a matching word behind it, and for lengths 1 to 8
  - `simd_memrchr_partial` (PropSwar.v): With eight clean bytes after the range and a length that is a multiple of eight: memrchrk and pmemrchrk give the index; the other two do not search the first word, and the pointer of simd_memrchr is three bytes too low.
  - `simd_memrchr_any` (PropSwar.v): Any length from 9 on, as long as the eight bytes behind the range are readable and free of the byte: memrchrk and pmemrchrk give the index; the other two do so from index 8 on and never search the first word; the pointer of simd_memrchr is three bytes too low.
  - `simd_memrchr_behind` (PropSwar.v): A match behind the range is reported as if it were inside: for every range of at least 8 bytes, [k] being the last of the eight bytes after it that is equal to [c], the answer is [k] counted from the start of the last word of the range.
  - `simd_memrchr_short` (PropSwar.v): Ranges of 1 to 7 bytes, a byte other than NUL. [k] is the last of the bytes [len] to 7 behind the range that is equal to [c]: the answer is [k]. If there is none, all eight bytes from the start of the range are searched, so that a byte after the range may be reported; if it is not among them either, the search goes on eight bytes before the range, which is undefined when they are not there. The same for 8 bytes, where all eight bytes behind the range count.
  - `memrchr_reads_past_end` (PropSwar.v): On a block that ends with the searched range the search is undefined, whatever the data.
  - `simd_memrchr_refuted` (PropSwar.v)

**C06** (proved) Zero-padded formatting prints exactly the low N decimal digits. 
  - `utoap_padded` (PropNum.v)
  - `utoa2p_two_digits` (PropNum.v)

**C07** (proved) itoa8 prints every integer of at most eight digits. 
  - `itoa8_decimal` (PropNum.v)

**C08** (partial) simd_itoa prints every 64-bit integer. exact for every 64-bit x on the machine reading: sign of x, then the magnitude of the signed low 32 bits, so the text is right exactly for |x| < 2^31 (refuted beyond, abs() takes an int); undefined when the low word is 0x80000000; always over-reads its local array in ISO C
  - `simd_itoa_exact` (PropNum.v)
  - `simd_itoa_int_min` (PropNum.v)
  - `simd_itoa_partial` (PropNum.v)
  - `simd_itoa_overreads` (PropNum.v): The copy out of the local array always leaves it (undefined in the ISO reading).
  - `simd_itoa_refuted` (PropNum.v): Not every int64_t is printed: the magnitude is cut to 32 bits.

**C09** (proved) Decimal parsing is exact modulo 2^64. preconditions stated: 8 readable bytes; 16 digits need the masked-shift reading (strict reading undefined, shown by simd_atou_strict_refuted)
  - `simd_atou_exact` (PropNum.v)
  - `atou8_exact` (PropNum.v)
  - `simd_atou_strict_refuted` (PropNum.v): Without the machine reading: sixteen digits shift by 64; short texts at the end of a block are over-read.
  - `simd_atou_overread_refuted` (PropNum.v)

**C10** (proved) Signed parsing is exact. preconditions as C09; INT64_MIN needs the machine reading of its negation (simd_atoi_minimum: otherwise undefined)
  - `simd_atoi_exact` (PropNum.v)
  - `simd_atoi_minimum` (PropNum.v): INT64_MIN itself: the machine gives the right answer, ISO C does not define it, however many zeros precede the digits.

**C11** (partial) Printing then parsing is the identity. itoa8 complete; simd_itoa: the magnitude of the low 32 bits with the sign of x comes back, for every x whose low word is not 0x80000000; so x comes back exactly for |x| < 2^31, refuted beyond
  - `itoa8_roundtrip` (PropNum.v)
  - `simd_itoa_roundtrip_exact` (PropNum.v): What comes back for every 64-bit x: the magnitude of its low 32 bits with the sign of x.
  - `simd_itoa_roundtrip_partial` (PropNum.v)
  - `simd_itoa_roundtrip_refuted` (PropNum.v)

**C12** (proved) Hexadecimal parsing is exact. 8 readable bytes required
  - `simd_htou_exact` (PropNum.v)
  - `htou8_exact` (PropNum.v)

**C13** (partial) simd_atod parses decimal fractions. over exact rationals; right for integers of 9..20 characters; a fraction is read right exactly when it is zero (value computed is i - f/10^(m+1), or i + f/10^(m+1) for negative i); texts of 1..7 characters, texts of 8 characters without a dot, and fractions of 20 or more digits, are undefined
  - `simd_atod_integer_partial` (PropNum.v): Texts of 9 to 20 characters without a fraction.
  - `simd_atod_fraction_value` (PropNum.v): With a fraction of m digits the result is i - f/10^(m+1), where the text denotes i + f/10^m: wrong for every non-zero fraction.
  - `simd_atod_signed_value` (PropNum.v): The same with a sign: a negative integer part is moved towards zero.
  - `simd_atod_right_iff` (PropNum.v): A text of at least 8 characters with 1..19 fraction digits is read right exactly when all fraction digits are zero.
  - `simd_atod_refuted` (PropNum.v)
  - `simd_atod_short_undefined` (PropNum.v)
  - `simd_atod_short_overreads` (PropNum.v): In ISO C a text with fewer than 8 bytes up to the end of its block is always an out-of-bounds read.
  - `simd_atod_long_fraction_undefined` (PropNum.v): Twenty or more characters behind the dot: the table of scales is overrun.

**C14** (proved) simd_strlen equals strlen. aligned words may extend past the terminator: stated for readings where that is defined, or with 8 bytes of slack
  - `simd_strlen_exact` (PropStr.v): For every address [A] of the block (alignment), every content of the bytes around the string, and a bound on the loop that the length meets: the result is the length, and each loaded word starts at an 8-aligned address that is a byte of the string or its terminator.
  - `c_strlen_exact` (PropStr.v): The byte-wise strlen used in the models of the other functions agrees.

**C15** (partial) simd_strcmp orders strings like strcmp. right unless the first string has 8 characters or is a proper prefix of the second (refuted: both give 0); over-reads in ISO C
  - `simd_strcmp_value` (PropStr.v): What simd_strcmp computes, for every content of the bytes after the two terminators: always 0 when the first string has 8 characters; otherwise 0 when the first string is a prefix of the second, and else strcmp.
  - `simd_strcmp_partial` (PropStr.v): C15 for first strings of a length other than 8 that are no proper prefix of the second string. Missing: those two classes, refuted below.
  - `simd_strcmp_refuted` (PropStr.v): Equal according to simd_strcmp, different strings: 8 characters; a proper prefix.
  - `simd_strcmp_strict_refuted` (PropStr.v): The word loop reads past the terminators: undefined when the blocks end there.

**C16** (partial) is_str_eq decides string equality. inherits C15: every 8 character string equals everything, a prefix equals its extensions
  - `is_str_eq_value` (PropStr.v): What is_str_eq decides.
  - `is_str_eq_partial` (PropStr.v): C16 for first strings of a length other than 8 that are no proper prefix of the second.
  - `is_str_empty_value` (PropStr.v): is_str_empty is true for "" and for every string of 8 characters.
  - `is_str_eq_refuted` (PropStr.v)
  - `is_str_empty_refuted` (PropStr.v)

**C17** (proved) strpos returns the first occurrence. text shorter than 2^31
  - `strpos_first` (PropStr.v)
  - `is_str_in_iff` (PropStr.v)
  - `unterminated_undefined` (PropStr.v): A block without terminator: the length, the comparison and the search are undefined, whatever the other argument is.

**C18** (partial) raii_split cuts at every delimiter occurrence. right for every length except 8; every 8 character string gives NULL
  - `str_split_partial` (PropStr.v): C18 for strings whose length is not 8 (missing: length 8, refuted below); a NULL delimiter means a blank. The table of pointers, here offsets into the text part of the block, has one entry per word and a final NULL.
  - `splits_words` (PropStr.v): The words determine the string again and none contains the delimiter.
  - `str_split_eight` (PropStr.v): Every string of 8 characters yields NULL, whatever the delimiter.
  - `str_split_refuted` (PropStr.v)
  - `str_split_empty_delim` (PropStr.v): An empty delimiter: the loop does not end, whatever the bound.

**C19** (proved) raii_concat concatenates its arguments. 
  - `str_concat_exact` (PropStr.v)

**C20** (proved) raii_replace substitutes every occurrence. result size below 2^64; the empty needle (outside the property) never terminates
  - `str_replace_exact` (PropStr.v)
  - `substituted_unique` (PropStr.v): The specification determines the result.
  - `str_replace_empty_needle` (PropStr.v): An empty needle: the counting loop does not end on any non-empty haystack.

**C21** (proved) Base64 encoding follows RFC 4648 and never overruns its buffer. 
  - `encode64_rfc4648` (PropBase64.v): Every write of the model is checked against the allocated block, so [Ok] also says that no write left it. The result is NULL exactly when the encoded length does not fit in 32 bits (the mask ~3u is 32 bits wide).

**C22** (partial) Base64 decoding inverts encoding. every non-empty string; refuted for the empty string (decoding gives NULL)
  - `decode64_encode64_partial` (PropBase64.v): C22 for non-empty strings that can be encoded. Missing: "" (refuted below).
  - `decode64_encode64_refuted` (PropBase64.v)

**C23** (proved) Base64 decoding is safe on arbitrary text. 
  - `decode64_safe` (PropBase64.v): [p] are the characters of [s] that belong to the alphabet or are '='.
  - `base64_part_total` (PropBase64.v)
  - `decode64_ignores_others` (PropBase64.v): Characters outside the alphabet make no difference to the decoded text.
  - `is_base64_iff` (PropBase64.v)

**C24** (proved) Copies are exact. 
  - `str_copy_exact` (PropStr.v)
  - `str_memdup_exact` (PropStr.v)

**C25** (proved) Deferred functions run last-in first-out, exactly once. byte-level model of the array; allocation failures included: rejected defers return (size_t)-1
  - `release_lifo` (PropDefer.v): Whatever the allocator does ([m] says which defers it allowed; the others returned (size_t)-1), with or without a pending error, the release calls the accepted functions once each, newest first, and then frees the block that held them, once.
  - `release_lifo_all` (PropDefer.v): When every defer was accepted: all of them.
  - `delete_lifo` (PropDefer.v): raii_delete: the same calls, and afterwards the scope object is freed (unless it is the thread's own).
  - `delete_own_or_made` (PropDefer.v): Which is which: the thread's own scope survives, one made by unique_init is freed as the last thing.
  - `entry_written` (PropDefer.v)

**C26** (proved) Releasing a scope twice is harmless. 
  - `release_idempotent` (PropDefer.v)
  - `delete_again` (PropDefer.v): raii_delete a second time: the thread's own scope is as it was, one made by unique_init has been freed and is used after that; so it is when a function is cancelled or fired afterwards.

**C27** (partial) A released scope can be used again. refuted: after the first release the type tag stays 0, so nothing deferred later is ever called; holds only if the scope is initialised again
  - `released_scope_loses_defers` (PropDefer.v): Nothing deferred on a scope after its first release is ever called: the type tag that raii_deferred_free tests is cleared and never set again.
  - `release_reuse_refuted` (PropDefer.v)
  - `release_reuse_partial` (PropDefer.v): C27 holds only if the scope is initialised again, which no function of the library does.

**C28** (partial) Cancelling a deferred function removes exactly that one. index arithmetic uses the element count as base and the wrong stride: right only when the count is k+1 rounded up to a multiple of 8; otherwise wild call or another function cancelled
  - `cancel_partial` (PropDefer.v): C28 restricted to the moments at which the index arithmetic comes out right: the number of functions registered when cancelling is the (k+1) rounded up to a multiple of 8. (The index is a difference from the element count instead of the array, and the division by 24 drops the remainder modulo 8.) Missing: every other moment, refuted below.
  - `cancel_writes` (PropDefer.v)
  - `cancel_refuted` (PropDefer.v): Cancelling the only registered function: the release calls a garbage address.
  - `cancel_wrong_one_refuted` (PropDefer.v)

**C29** (partial) Firing a deferred function runs exactly that one, once. same arithmetic as C28: fire_reads gives the exact function and argument called while the array has not moved since
  - `fire_partial` (PropDefer.v): C29 at the same moments as [cancel_partial].
  - `fire_reads` (PropDefer.v)
  - `last_mid_exact` (PropDefer.v): What raii_last_mid (raii.c 135-137) and raii_mid tell: nothing ((size_t)-1) in a new scope and after an allocation that could not be registered, and otherwise a number that raii_deferred_cancel and raii_deferred_fire turn into the address of the entry of the last allocation, moved by the distance of the count from the next multiple of 8: the entry itself only when the count is a multiple of 8. Deferring does not change it.
  - `fire_refuted` (PropDefer.v): Firing the only registered function calls a garbage address.

**C30** (partial) Scope-bound allocations are released exactly once. every history in which the deferred array could grow; refuted when it cannot (block returned but never released)
  - `alloc_release_partial` (PropDefer.v): C30 for histories in which every operation was accepted (the count equals their number). [r] pairs each block with its release function; after these calls the protector and the array are freed, once each. Missing: the case in which the deferred array could not grow, refuted below.
  - `alloc_release_refuted` (PropDefer.v)

**C31** (proved) The growable array never overruns its block. 
  - `array_within_block` (PropDefer.v)
  - `umull_overflow_exact` (PropDefer.v)
  - `add_overflow_exact` (PropDefer.v)

**C32** (partial) Functions deferred while a scope is being released are not lost. Refuted: nested defers are dropped, and with 16 entries the loop uses the moved array. For every set of functions and everything they defer during the release: no nested function is ever called; the release completes when the nested ones fit in the array and otherwise uses the freed array once the allocator moves it.
  - `nested_never_called` (PropDefer.v): What happens in general. [busy]: the functions can be called and may defer anything; [nested]: all that they defer during the release. However many releases follow, either the loop went on in an array that had been moved, or exactly the functions registered before the release were called, newest first: none of the nested ones ever is.
  - `nested_lost_in_room` (PropDefer.v): Which of the two: with room for all of them in the array's last sixteen slots the release completes ...
  - `nested_moves_array` (PropDefer.v): ... and without, if the allocator has memory for the larger array and does not give out the old block again ([ticks]: the requests made so far), the loop uses the freed block.
  - `nested_defer_refuted` (PropDefer.v)
  - `nested_defer_dangles_refuted` (PropDefer.v): With 16 functions registered the nested defer moves the array under the running loop.

**C33** (partial) try/catch/finally has structured exception semantics. All programs of try, catch, catch_any, throw, panic, finally, and rethrow directly in a handler, any depth and any junk. Refuted for rethrow inside a further try block of the handler: it throws the inner block's empty exception.
  - `try_structured_partial` (PropExc.v): Whole programs, any depth, any junk in the contexts. Missing for the full property: rethrow used inside a further block of the handler (next theorem) or in a finally part.
  - `try_structured_refuted` (PropExc.v): The full statement fails: rethrow in a try block inside the handler throws the inner block's own, empty exception, so the clause for the exception being handled does not match.

**C34** (proved) finally runs exactly once. Also with guards, deferred functions and panics in the program.
  - `finally_once` (PropExc.v)
  - `balanced_count` (PropExc.v): [balanced] means equally many entries and finally parts, and never more finally parts than entries so far.

**C35** (proved) A completed try block restores the enclosing handler. Every statement of the modelled language (also catch_if, guards, allocation, protected pointers), from any state.
  - `context_restored` (PropExc.v): Every statement of the language, in any state: however a statement ends, the current context is the one before it, the chain of contexts below is unchanged, and an exception leaving it goes to that context.
  - `no_dead_jump` (PropExc.v): In particular no jump ever goes to a block that has ended.

**C36** (partial) A throw inside a catch_if handler leaves the handler. Refuted: a throw in a catch_if block re-enters the block for ever, for every such program. Holds once a caught() test has matched.
  - `catch_if_throw_diverges` (PropExc.v): Whatever the body and the handler, if the body raises and the catch_if block throws, the block is entered again and again and the program never ends.
  - `catch_if_throw_refuted` (PropExc.v)
  - `catch_if_caught_partial` (PropExc.v): What holds: once a caught() test in the block has matched, the block is an ordinary catch clause (C33 covers it). The full statement would not need the test, nor the thread to be initialised and to have no older pending error.

**C37** (partial) Protected pointers are released when an exception leaves the block. Refuted: a NULL newest pointer or two equal neighbours stop the releases. protected_exact says for every list of protected pointers which ones are released; protected_released_partial: all of them when none is NULL and no two neighbours are equal.
  - `protected_exact` (PropExc.v): Any pointers. The releases end at the first pointer whose value is that of its predecessor (NULL, for the newest); everything is released just when only NULL pointers follow.
  - `unwinding_ends` (PropUnwind.v): Whatever the links between the protected pointers are (after a context was left they may form cycles), unwinding comes to an end, releases no pointer twice, and what it released is no longer protected; the others stay as they are.
  - `protected_released_partial` (PropExc.v): In particular any number of pointers, none NULL and no two neighbours equal.
  - `protected_null_refuted` (PropExc.v): A newest pointer that is NULL stops the loop at once: nothing is released.
  - `protected_equal_refuted` (PropExc.v): So do two neighbours with the same value.

**C38** (proved) A panic unwinds nested guards in order. Bodies without _malloc (C39, C40, C68 show what allocation changes); deferred functions do not throw.
  - `guards_structured` (PropExc.v): Every program of guards, deferred functions, panics and try blocks runs as the reference semantics says.
  - `guard_unwinds` (PropExc.v): One guard spelt out: the body, then its deferred functions newest first, each once; then what was not recovered goes on.
  - `guard_scope_gone` (PropUnwind.v): A guard that is left normally has released its scope, and the thread is back in the scope and with the hooks it had before, whatever the body did; any later use of that scope is undefined.

**C39** (partial) _recover stops the panic. Without _malloc in the guard: proved. With: refuted, and recover_never_stops shows for every list of deferred functions, blocks and actions containing at least one _malloc that the panic always goes on, after everything has been released once. The middle ground (a try block, or a guard, between the _malloc and the panic) is covered by the single-guard case only.
  - `recover_stops_partial` (PropExc.v): Bodies without _malloc: if a deferred function recovers what the body raised, execution goes on after the guard.
  - `recover_never_stops` (PropGuardMem.v): C39: a throw or panic inside a guard in which memory was obtained by _malloc always leaves the guard: the deferred functions and the blocks are released once each, newest first, and then the exception is thrown on in the context around the guard, whether or not a deferred function recovered it.
  - `recover_never_stops_run` (PropGuardMem.v): The same for a whole program: what follows the guard is never reached.
  - `recover_stops_refuted` (PropExc.v): With one _malloc in the body the same recover does not stop the panic.

**C40** (partial) A handled exception does not release the surrounding guard. Without _malloc in the guard: proved. With: refuted; handled_releases_guard shows for every list with at least one _malloc that a caught exception releases everything at once, and what is deferred afterwards in the guard is never released; a later panic is a use after free (witness).
  - `handled_keeps_guard_partial` (PropExc.v): Bodies without _malloc and without guards of their own: no deferred function runs before the end, whatever is thrown and caught inside; all run at the end.
  - `handled_releases_guard` (PropGuardMem.v): C40: an exception thrown and handled inside such a guard releases everything the guard holds at that moment, before the handler runs; and what is deferred or allocated in the guard afterwards is never released.
  - `handled_keeps_guard_refuted` (PropExc.v): With one _malloc before the try: the guard's memory is freed and its functions run at the throw, while the body goes on and uses the memory; what is deferred later never runs.
  - `handled_then_panic_refuted` (PropExc.v): A panic after that reads the freed protector.

**C41** (partial) Guards restore the global unwind hooks. One thread: proved for every statement. Any number of threads: hooks_threads_exact says that the hooks are right at every moment exactly when the thread that opened the first guard stays in it until no other is open; hooks_accesses_partial the same direction with every load and store a separate step. Refuted otherwise.
  - `hooks_restored_partial` (PropExc.v): One thread, every statement: the hooks and the arena are as before unless the process exits.
  - `hooks_one_thread_partial` (PropExc.v): One thread alone, any sequence of entries and exits: inside a guard the hooks are a guard's, outside they are as at the start.
  - `hooks_threads_exact` (PropHooks.v): For every interleaving of the guards of any number of threads: at every moment the hooks are a guard's iff a guard is open somewhere, exactly when the history is covered.
  - `hooks_accesses_partial` (PropHooks.v): Every covered interleaving of the single accesses, any number of threads: in a guard that has been entered both hooks are a guard's, and when no guard is open both are NULL again. Missing: interleavings that are not covered; [hooks_enter_race_refuted] shows one.
  - `hooks_threads_refuted` (PropExc.v): Two threads: one leaves while the other is inside, so the hooks are NULL during its guard; and in the end they are a guard's though no guard is open.
  - `hooks_enter_race_refuted` (PropHooks.v)
  - `hooks_torn_refuted` (PropHooks.v)
  - `stale_hook_crash` (PropExc.v): What a stale hook does: the next throw outside any guard writes through the NULL arena.

**C42** (proved) Signal registration behaves as a finite map. Registrations that sigaction refuses leave no trace; a 33rd distinct signal is reported (fprintf) and otherwise ignored.
  - `signal_latest` (PropSignal.v): C42. After any registrations for at most 32 distinct signals (the list [K]), raising a signal throws the exception most recently registered for it by a call sigaction accepted, and a signal never registered keeps its default action.
  - `signal_table_full` (PropSignal.v): C42. A further signal when 32 distinct ones are registered changes nothing.
  - `signal_outlook` (PropSignal.v): C42, C43. All histories of registrations, resets and blocks, with at most 20 distinct signals outside the default set: what a raised signal does is exactly what [outlook_of] says.

**C43** (partial) Default signals are converted once a try or guard is entered. Refuted: one ex_signal call before the first block (or after a reset) sets exception_signal_set, so the default set is never installed; a table full of other signals also leaves no room. Holds when the last call before the block is a reset or there is none, with at most 20 other signals; signal_outlook says for every history what a raised signal does.
  - `default_signals_partial` (PropSignal.v): C43, full statement: in every try or guard block each signal of the default set is converted to its exception, whatever calls were made before. What holds: when the last call before the block was a reset, or nothing was called, with at most 20 other signals registered.
  - `signal_outlook` (PropSignal.v): C42, C43. All histories of registrations, resets and blocks, with at most 20 distinct signals outside the default set: what a raised signal does is exactly what [outlook_of] says.
  - `default_signals_refuted` (PropSignal.v): C43 refuted: registering any handler before the first block switches the default set off; so does registering one after a reset; and with 32 signals registered there is no room for the default set.
  - `default_signals_reset_refuted` (PropSignal.v)
  - `default_signals_full_refuted` (PropSignal.v)

**C44** (partial) caught/_recover match the exception name exactly. Refuted through is_str_eq: a name of eight characters (sig_segv, panicked) matches every pending exception, and a proper prefix matches. Exact for every other name.
  - `is_caught_value` (PropSignal.v)
  - `caught_value` (PropSignal.v)
  - `caught_exact_partial` (PropSignal.v): C44, full statement: the result is true exactly when [name] is the name of the pending exception or panic. It holds for names whose length is not 8 and that are no proper prefix of the pending name.
  - `caught_refuted` (PropSignal.v): C44 refuted with exceptions of the library: caught("sig_segv") is true for every pending exception.
  - `caught_prefix_refuted` (PropSignal.v)

**C45** (proved) Arena allocations are disjoint and inside their chunk. Proved for every history and every honest system allocator, sizes below 2^63 - 1; arena_history_defined adds that the history is defined while the memory asked for stays below 2^63. The refutations show that the excluded sizes really fail: 2^63 - 1 is rounded to a negative number, and a size that is not positive is accepted and gives handed-out memory back (arena_negative_size says what happens for every such size, also in arena_calloc).
  - `arena_blocks_disjoint` (PropArena.v): C45. In every history of arena_init and arena_alloc calls with positive sizes below 2^63 - 1 and whatever the system allocator answers, every block handed out lies in a chunk of its arena past the header, is 2-byte aligned, and shares no byte with any other.
  - `arena_history_defined` (PropArena.v): C45. Such a history is defined (or ends in the panic of arena_init or of a missing arena) as long as all it could ask for together is below 2^63 bytes.
  - `arena_alloc_largest_refuted` (PropArena.v): C45 at the edge: a request of 2^63 - 1 bytes is rounded to a negative number, and an address without that room is handed out.
  - `arena_negative_size` (PropArena.v): A size that is not positive is not rejected (the assertions of arena.c 51 and 101 are empty): arena_alloc returns the start of the free space and gives memory that was handed out before back to it, and arena_calloc with a negative product clears memory far beyond the block.
  - `arena_negative_overlap_refuted` (PropArena.v): The block of 18 bytes is handed out a second time.

**C46** (partial) arena_clear recycles without aliasing. Refuted: after a clear two allocations of one arena overlap, an allocation lands outside the arena's chunks, older chunks leak, and allocate/clear/allocate/clear reads released memory. Proved: one allocation, one clear, then any allocations that fit the chunk; and for every arena that only the newest chunk is recycled and every other chunk leaks (arena_clear_leaks).
  - `arena_clear_once_partial` (PropArena.v): C46, full statement: in every history of arena_init, arena_alloc and arena_clear calls, blocks handed out after a clear do not overlap each other and lie inside live chunks, and a cleared arena's chunks are all reused or released. What holds: a new arena with one allocation, cleared once, then any allocations that together fit the chunk.
  - `arena_clear_leaks` (PropArena.v): C46, for every arena built by arena_init and arena_alloc: the first arena_clear puts exactly one chunk, the newest, on the list of free chunks. Every other chunk of the arena stays allocated and no arena and no list leads to it any more: it can never be released.
  - `arena_clear_overlap_refuted` (PropArena.v): C46 refuted: after one clear two later allocations of the same arena get the same bytes (the recycled chunk is also still the current one).
  - `arena_clear_outside_refuted` (PropArena.v): C46 refuted: after a clear an allocation lands outside the chunks of its arena, as the size of an allocation in an older chunk is subtracted from the address.
  - `arena_clear_leak_refuted` (PropArena.v): C46 refuted: clearing an arena with two chunks recycles the newest only; the older one is neither released nor reachable, even after arena_free.
  - `arena_clear_twice_refuted` (PropArena.v): C46 refuted: the documented round of allocate, clear, allocate, clear accesses released memory.

**C47** (partial) arena_free returns every chunk exactly once and touches nothing freed. Refuted: arena_free reads every chunk it has just released (proved for every arena with a chunk). Proved: if released memory keeps its contents, every chunk and the arena are released exactly once and nothing else is touched.
  - `arena_free_releases_partial` (PropArena.v): C47, full statement: arena_free releases every chunk of the arena and the arena exactly once and does not access released memory. What holds for arenas built by arena_init and arena_alloc: if released memory keeps its contents (the lenient reading), every chunk and the arena are released, once each (a second release would be DoubleFree), and nothing else is touched.
  - `arena_free_uses_released` (PropArena.v): C47 fails for every arena that ever got a chunk: arena_free reads a chunk it has just released.
  - `arena_free_use_after_free_refuted` (PropArena.v)
  - `arena_free_miscounts_refuted` (PropArena.v): arena_free raises the count of free chunks for good although the free list stays empty: from then on arena_clear of an arena with the default threshold releases instead of recycling.

**C48** (partial) Arenas are independent. Refuted: a cleared chunk is shared by two arenas; released memory is handed out. Proved: with arena_init and arena_alloc only, distinct arenas never share a chunk.
  - `arenas_independent_partial` (PropArena.v): C48, full statement: operations on one arena never hand out memory another arena owns or that has been released. What holds: with arena_init and arena_alloc only, distinct arenas never share a chunk.
  - `arenas_share_chunk_refuted` (PropArena.v): C48 refuted: a chunk given back by arena_clear is handed to a second arena while the first still allocates from it; both get the same address.
  - `arena_hands_out_released_refuted` (PropArena.v): C48 refuted: after another arena is freed and this one cleared, memory already released is handed out (released memory read as it was).

**C49** (partial) Arena allocation failure is reported. Refuted: failure is a NULL result, not the documented panic, it changes the arena's total, arena_calloc writes to NULL, repeated failures wrap the total. Proved: a failing arena_alloc hands out nothing, keeps all blocks in place and changes nothing but the arena's total (arena_alloc_failure_effect).
  - `arena_alloc_failure_partial` (PropArena.v): C49, full statement: when the system allocator fails arena_alloc panics and leaves the arena unchanged, and arena_calloc never writes to NULL. What holds: a failing arena_alloc returns NULL, hands out nothing, and every block handed out before or after stays in place and apart (C45 covers the later history).
  - `arena_alloc_failure_effect` (PropArena.v): C49, exactly what a failure leaves behind: of all the memory of all arenas only the member total of this one arena changes; it has grown by the size of the chunk that could not be had.
  - `arena_alloc_failure_refuted` (PropArena.v): C49 refuted: the failure is a NULL result, not a panic, and the arena is changed: its total counts the chunk that was never allocated.
  - `arena_calloc_null_refuted` (PropArena.v): C49 refuted: arena_calloc then clears memory at NULL.
  - `arena_alloc_total_wraps_refuted` (PropArena.v): C49 refuted: failed requests add up, the total wraps, and a later chunk is smaller than its own header.

**C50** (partial) Argument packs return each argument. All letters but p, strings up to 272 characters: proved for every descriptor. Refuted: p falls through and consumes another argument (args_pointer_exact: exact effect for every use); a longer string is copied to NULL.
  - `args_roundtrip_partial` (PropArgs.v): All letters except p, strings of at most 272 characters: the pack has one slot per letter and each argument is read back unchanged.
  - `args_pointer_refuted` (PropArgs.v): The letter p as last one: va_arg reads an argument that was not passed.
  - `args_pointer_shift_refuted` (PropArgs.v): Followed by other letters: the next argument is taken as a pointer whose target overwrites the user's object, and the remaining arguments are read one place too late.
  - `args_long_string` (PropArgs.v): A string longer than a slot is copied to NULL.
  - `args_long_string_refuted` (PropArgs.v)
  - `args_pointer_exact` (PropArgs.v): The letter p in general, followed by any descriptor: two arguments are consumed, the slot keeps the first and the first eight bytes of the object the second points to overwrite the object the first points to; a NULL first pointer, or an object that cannot be read or written, is undefined.
  - `args_unknown` (PropArgs.v): Any other character copies to the NULL pointer of its zeroed slot.
  - `args_index_outside` (PropArgs.v): An index outside the pack, negative ones included, reads through NULL.
  - `args_mismatch_undefined` (PropArgs.v): A letter that asks for a double where an integer or pointer was passed, the other way round, or with nothing left to read: undefined.

**C51** (partial) An argument pack is released exactly once. Proved for a scope never released before, any history over any number of packs: exactly once if the deferred array could grow, and whatever the allocator does exactly once for the packs whose registration succeeded, never for the others (args_freed_any). Refuted: on a scope released once, and when growing fails, packs are never freed.
  - `args_freed_once_partial` (PropArgs.v): Packs on a scope that has not been released before, any history of accesses to any number of packs, when the deferred array could grow: releasing the scope calls args_free exactly once for each pack accessed, and for no other.
  - `args_freed_any` (PropArgs.v): Whatever the allocator does: there is a set of packs ([m] marks them, in the order of first access) whose args_free is called exactly once; it is never called for the others, and those are packs whose raii_deferred returned (size_t)-1, which raii_get_args does not look at.
  - `args_never_freed` (PropArgs.v): A scope that was released before (C27): the packs accessed with it are never freed, whatever the history.
  - `args_freed_once_refuted` (PropArgs.v)
  - `args_grow_refuted` (PropArgs.v)

**C52** (partial) thrd_get returns what the thread function returned. Every program of the creator and every schedule, reading the freed future's field as still intact. Refuted by the rules of C: thrd_get always reads the future after freeing it.
  - `get_value_partial` (PropFuture.v): Whatever the creator's program and the schedule: a value obtained from a future is the one its function returned, and its worker has ended. Machine reading: the freed future still holds its promise.
  - `futures_progress` (PropFuture.v): Some thread can always go on until the creator has finished.
  - `get_strict` (PropFuture.v): By the rules of C thrd_get never returns normally: it reads the future after freeing it.
  - `get_value_refuted` (PropFuture.v)
  - `get_twice_refuted` (PropFuture.v): Collecting twice reads the freed future.

**C53** (partial) Falsy results can be retrieved. Refuted: NULL results are dereferenced. Every other value comes back.
  - `null_result_crashes` (PropFuture.v): A function that returned NULL: whenever thrd_get gets to its end and no exception is pending, it dereferences NULL.
  - `null_result_refuted` (PropFuture.v)
  - `nonnull_result_partial` (PropFuture.v): Every other value comes back: one future, any schedule (C54 has the exceptions).
  - `sync_null_refuted` (PropSpawn.v): A thread function that returned NULL or ended with an exception: NULL is dereferenced, even before the exception is looked at.

**C54** (partial) Exceptions are reported by the future that raised them. Proved when each future is collected before the next is started. Refuted with two futures at once: the exception is kept in the creator's scope.
  - `one_at_a_time_partial` (PropFuture.v): Any number of futures, each collected before the next is started, the creator handling exceptions of its own in between: in every schedule nothing undefined happens (machine reading), and each future gives its function's value or throws its function's exception.
  - `exception_lost_refuted` (PropFuture.v): Two futures at once: the function of the first ends with an exception, which the start of the second worker erases; thrd_get of the first then dereferences NULL.
  - `exception_misreported_refuted` (PropFuture.v): And thrd_get of the second, whose function returned, throws the exception of the first.
  - `own_exception_again_refuted` (PropFuture.v): Even with one future: an exception the creator threw and caught meanwhile is thrown again by thrd_get.

**C55** (proved) Completion is stable and observable. Every program and schedule.
  - `done_stable` (PropFuture.v): Once set, done stays until the creator closes the promise in thrd_get.
  - `done_means_finished` (PropFuture.v): When done is seen set the thread function has ended and its result is stored.
  - `get_after_done` (PropFuture.v): thrd_get on such a future does not wait for the function: its wait for done is over, and the worker it joins has only its own clean-up left, which it can always do.

**C56** (partial) thrd_spawn never writes outside its tables. Tables proved for every count and processor count. Collection in order proved for non-NULL results, reading the freed future's field as intact; refuted by the rules of C, and for a pool used again.
  - `spawn_tables` (PropSpawn.v): Any number of threads (an int), any processor count: nothing is written outside the tables, which hold each thread in its own place, in order.
  - `spawn_no_cpu_refuted` (PropSpawn.v): A failed thrd_cpu_count of 0 divides by zero.
  - `sync_in_order_partial` (PropSpawn.v): Machine reading, results non-NULL and no exception: thrd_sync stores the result of the i-th thread spawned in the i-th place.
  - `sync_strict_refuted` (PropSpawn.v): By the rules of C no non-empty pool can be collected: the future is read after it is freed.
  - `sync_again_refuted` (PropSpawn.v): Spawning again after thrd_sync and collecting again reads the futures freed the first time.

**C57** (proved) thrd_then folds the results in order. Every callback and number of results.
  - `then_folds` (PropSpawn.v)
  - `then_skips` (PropSpawn.v)

**C58** (partial) Threads started by thrd_pool are usable. Refuted: every worker of every pool dereferences NULL.
  - `pool_worker_crashes` (PropFuture.v): Every worker of every non-empty pool dereferences NULL in its first statement.
  - `pool_refuted` (PropFuture.v)

**C59** (partial) Concurrent deferral on the creator's scope loses nothing. Refuted: concurrent deferrals lose entries or release the array twice. Proved when they do not overlap, any number of threads.
  - `serial_defers_partial` (PropRace.v): Any number of threads on an array in order, with any contents: as long as the deferrals do not overlap nothing undefined happens, and once all have ended the array holds what it held before and exactly what they deferred.
  - `defer_race_refuted` (PropRace.v): Two workers store results at the same time: one of the two blocks is not deferred and never released.
  - `defer_race_uninit_refuted` (PropRace.v): Here an entry that was never written is called.
  - `defer_race_double_free_refuted` (PropRace.v): When the array has to grow: the old block is released twice, or written after it was released.
  - `defer_race_after_free_refuted` (PropRace.v)

**C60** (proved) The spinlock provides mutual exclusion. Any number of threads, every schedule, sequentially consistent memory.
  - `spinlock_exclusion` (PropAtomic.v): At most one thread is between lock and unlock, in every reachable state.
  - `spinlock_updates` (PropAtomic.v): No update made under the lock is lost: the variable holds the updates applied one after the other.
  - `spinlock_progress` (PropAtomic.v): When nobody holds the lock a waiting thread can take it, alone, in at most two steps.
  - `spinlock_release` (PropAtomic.v): A holder can always leave, so the lock is never stuck.

**C61** (proved) CAS-loop read-modify-write operations are atomic. Any number of threads and calls, all four widths; holds even when the plain read is torn. Sequentially consistent memory.
  - `cas_loops_atomic` (PropAtomic.v): The completed calls, in the order of their successful compare-and-swap (which lies between call and return), are a sequential history that ends in the variable's value, and each thread's calls appear in its program order.
  - `cas_loops_complete` (PropAtomic.v): When everything has returned, all calls of all threads are in the history.
  - `cas_failure_means_progress` (PropAtomic.v): Lock-freedom: with whole reads, a compare-and-swap only fails when another call completed after this thread's read.
  - `cas_alone_completes` (PropAtomic.v): A thread that is alone completes its call in at most three steps.

**C62** (proved) Type predicates partition the type tags. The tags used by exception records (3, 4) overlap value tags: shown in foreign_tags.
  - `tag_groups_cover` (PropMisc.v)
  - `tags_classified` (PropMisc.v): Every enumerator is classified as its group says.
  - `tags_exclusive` (PropMisc.v): No first word of any object is both a value and an instance, and nothing outside 1..49 is either.
  - `is_type_exact` (PropMisc.v): Tags are distinct numbers, so is_type and is_instance_of compare enumerators.
  - `is_instance_of_exact` (PropMisc.v)
  - `is_guard_exact` (PropMisc.v): is_guard recognises exactly the guard status.
  - `null_has_no_type` (PropMisc.v): The object predicates other than is_empty and is_guard need a non-NULL pointer.
  - `empty_zero` (PropMisc.v)
  - `foreign_tags` (PropMisc.v): The tags given to exception records (include/exception.h 140-146: ex_protected_st = 3 and ex_context_st = 4) and the tag of an arena (src/arena.c, RAII_ARENA + RAII_STRUCT) are not in the enumeration's own groups: an ex_ptr_t or ex_context_t counts as a value, and an arena as neither.

**C63** (partial) Work-stealing deque hands out each item exactly once. Refuted: take loads top before it stores bottom, so an item can be given twice and a later one lost; take on a fresh deque returns an unwritten word. Proved for executions in which thieves do not empty the deque down to the owner's item inside that window, and for every schedule of an owner that only pushes.
  - `item_twice_refuted` (PropDeque.v): An item is given twice. The owner pushes 10 and 20, and takes: it has read top = 0 and not yet stored bottom when a thief steals both.
  - `item_twice_late_refuted` (PropDeque.v): The item can also go out twice with only one other item stolen in between: a second thief that saw the old bottom takes it later.
  - `item_lost_refuted` (PropDeque.v): An item is lost: after that bottom is below top; the next item pushed is given to nobody, though the owner then takes until the deque says EMPTY, and so does the thief.
  - `take_fresh_refuted` (PropDeque.v): take on a deque nothing was pushed to returns a word of the array that was never written.
  - `exactly_once_partial` (PropDeque.v): In executions in which, between the load of top and the store to bottom of a take that saw more than one item, the thieves do not take all but the last ([calm]), for owners that do not begin with a take and push less than 2^63 times: no step is undefined, no call gives junk, the items given and some remaining ones are exactly those pushed, and while no take or push is under way the remaining ones are those between top and bottom.
  - `drained_partial` (PropDeque.v): At the end: all items have been given to exactly one call, if the deque is empty.
  - `pushes_only_partial` (PropDeque.v)
  - `size_zero` (PropDeque.v): A size hint of 0: the first push divides by zero.

**C64** (partial) mmap emulation passes protection and offsets faithfully. Refuted for PROT_NONE (becomes 0, no page protection), for 32-bit Windows sizes above 4 GiB, and near INT64_MAX (signed overflow); proved otherwise.
  - `page_protection_partial` (PropMisc.v): Every non-empty mask: the page may be read, and written or executed exactly when asked.
  - `page_protection_refuted` (PropMisc.v): The empty mask becomes 0, which is no page protection at all: CreateFileMapping and VirtualProtect reject it, so mmap and mprotect with PROT_NONE (allowed by POSIX) always fail.
  - `view_access` (PropMisc.v): The view's access rights are exactly the requested ones.
  - `mmap_split64` (PropMisc.v): 64-bit Windows: the two halves of offset and size are 32-bit numbers that make up the offset and the end of the mapping.
  - `mmap_split32_partial` (PropMisc.v): 32-bit Windows: the offset is exact, the size only below 4 GiB.
  - `mmap_split32_refuted` (PropMisc.v): A mapping of 2 GiB at offset 3 GiB loses the carry of the size: the mapping object is created 1 GiB long.
  - `mmap_overflow_refuted` (PropMisc.v): Near the end of the 64-bit range the sum itself is undefined, and it is computed before the length is looked at.
  - `mmap_rejects` (PropMisc.v)

**C65** (partial) raii_decode64 and raii_encode64 work on a fresh thread. Refuted: raii_decode64 as first call dereferences NULL. Proved: raii_encode64 may come first, and every history after it is defined.
  - `encode64_first_call` (PropMisc.v): On a thread that has a scope, raii_decode64 is str_decode64_ex; raii_encode64 is str_encode64_ex on every thread.
  - `calls_after_init_partial` (PropMisc.v): Any history whose first call is raii_encode64 or raii_init has no undefined behaviour (it can panic when memory runs out).
  - `decode64_first_call_null` (PropMisc.v): raii_decode64 as a thread's first call dereferences NULL for every text that decodes to something.
  - `decode64_fresh_thread_refuted` (PropMisc.v)
  - `defer_fresh_thread_null` (PropMisc.v): raii_defer and raii_mid have the same gap.

**C66** (partial) Releasing a scope leaves no freed protector behind. exact for every history: restored with at most one allocation, always left on the freed protector with two or more (the protector becomes its own successor)
  - `protector_exact` (PropProtector.v): Whatever was deferred and allocated, whatever the allocator does and whatever the deferred functions do: after the release the context is as it was before iff at most one block was allocated; with two or more it points to the protector that the release has freed.
  - `protector_cycle` (PropProtector.v): The context points to the protector, not to the user's older entries, from the first allocation to the release, and two allocations make the record its own successor: the older entries cannot be reached.
  - `protector_dangles_refuted` (PropDefer.v): After two allocations on a scope the protector is linked to itself, and releasing the scope leaves the exception context pointing to the freed protector.
  - `protector_restored_partial` (PropDefer.v): With a single allocation the context is restored.

**C67** (partial) Uninitialised context fields do not matter. Refuted: is_raii of the local context is never initialised and decides when thread-level allocations are released.
  - `context_junk_partial` (PropExc.v): ex_try leaves is_raii, data, prev, panic and is_unwind of the context uninitialised. Programs without allocation, protected pointers and caught() do not depend on them.
  - `context_junk_refuted` (PropExc.v): Others do: a block allocated on the thread's scope is released at the first handled exception or only at exit.

**C68** (partial) Unwinding an exception frees only allocated blocks. Refuted: free is called on the first word stored in the user's block. For any blocks obtained before and inside a try block the outcome is given exactly: the wild free happens iff memory was obtained before, the uninitialised is_raii of the block's context is even and the newest inner block starts with a nonzero word; otherwise every block is freed once.
  - `unwind_frees_wild_refuted` (PropExc.v): The protector of _malloc holds the block itself as the address of the pointer to free: unwinding calls free on the first word stored in the block.
  - `unwind_frees_block_partial` (PropExc.v): With one allocation made in the block itself the block is freed, once.
  - `unwind_exact` (PropUnwind.v)
  - `unwind_frees_each_once` (PropUnwind.v)
  - `unwind_wild_iff` (PropUnwind.v): Exactly when an address that is no block is freed: the thread has memory from before the block, the block's context happens to say the library is not in use, and the first word of the newest block obtained inside is not 0.

**C69** (partial) caught names the exception being handled. Exact in every state of a thread that has used the library: caught answers about the error on the thread's scope if there is one (caught_otherwise), else about the current exception. Refuted: an older error hides the current one; NULL dereference in a fresh thread.
  - `caught_current_partial` (PropExc.v)
  - `caught_otherwise` (PropExc.v): With an error still on the thread's scope, caught answers about that one, whatever is being handled.
  - `caught_stale_refuted` (PropExc.v): An error left on the thread's scope by an earlier, handled exception hides the current one.
  - `caught_fresh_thread_refuted` (PropExc.v): In a thread that has not used the library before, caught() reads through NULL.

**C70** (partial) A thread function may be given any argument. Refuted for NULL and for objects whose first word is 43; otherwise proved.
  - `argument_partial` (PropFuture.v)
  - `argument_value_refuted` (PropFuture.v): An integer passed with thrd_data whose value is 43 is taken for an argument pack: the worker reads past it. NULL is dereferenced.
  - `argument_null_refuted` (PropFuture.v)
  - `argument_confused_refuted` (PropFuture.v): Larger objects that start with that number: the result is taken for a raii_values_t.

**C71** (partial) thrd_get is non-blocking once thrd_is_done. Refuted: thrd_get joins a worker that still has to run raii_destroy.
  - `get_blocks_partial` (PropFuture.v): What it waits for is the worker's raii_destroy and exit only.
  - `get_blocks_refuted` (PropFuture.v)

**C72** (partial) thrd_sync leaves other futures usable. Refuted: the final raii_deferred_clean releases every promise of the thread.
  - `sync_frees_others_refuted` (PropSpawn.v): A future started before thrd_sync and not yet collected: its promise has been released.
  - `sync_frees_all` (PropSpawn.v)
  - `sync_keeps_partial` (PropSpawn.v): From the second call on nothing is released any more: whatever was usable after the first call, and every promise made since, whichever they are, stays usable.

**C73** (proved) A thread-local variable is private to its thread. for thrd_local and thrd_static, any threads and interleaving; the unused *_plain forms store the address of their buffer in the variable (native_plain_refuted)
  - `native_isolated` (PropTls.v): What a thread gets does not depend on what the other threads do, whatever the operations (also redirections) and the interleaving.
  - `native_private` (PropTls.v): Whatever all threads did before, an operation yields what a private variable starting at zero would.
  - `native_plain_refuted` (PropTls.v): The two "plain" forms: a variable that holds its initial value is read as the (truncated) address of a buffer.
  - `native_plain_exact` (PropTls.v): Exactly: what is read is always a value of the type, and the first read is right only for a buffer whose truncated address is the initial value.

**C74** (partial) Emulated thread-local variables behave like native ones. holds for all schedules once one thread alone has used every variable; refuted: concurrent first use, emptiness test before the first use, exit inside a try block, initial contents
  - `emulated_private_partial` (PropTls.v): Thread 0 first uses every variable once ([first]) while the other threads wait; from then on, under every schedule, each thread gets from every variable what a private one gives (with indeterminate contents before the first write). Missing from the full claim: first uses by several threads at a time, tests for emptiness before the first use, redirections, deletion (all refuted below).
  - `emulated_race_refuted` (PropTls.v): Two threads use variable 1 for the first time together: thread 1 finds the flag set but no key yet, so it uses key 0, which is that of variable 0: its write to variable 1 changes variable 0.
  - `emulated_lost_refuted` (PropTls.v): The same race when key 0 belongs to somebody else: thread 1 stores its object there and loses it.
  - `emulated_empty_refuted` (PropTls.v): One thread: after variable 0 was used, the test whether variable 1 has been used (raii_init after ex_init) answers yes and yields the object of variable 0; as the first call of the program the test uses a key that does not exist.
  - `emulated_first_refuted` (PropTls.v)
  - `emulated_exit_refuted` (PropTls.v): Leaving the program inside a try block (ex_update has stored the address of the local context): except_del passes that address to free.
  - `emulated_initial_refuted` (PropTls.v): The first read: zero in the native build, indeterminate in this one.
  - `emulated_delete` (PropTls.v): v_del by one thread: its own object is released, and only that one; the key is gone for every thread.
  - `emulated_update` (PropTls.v): v_update: the thread that stored the address of a local object reads that object next, and no other thread's object changes.
  - `emulated_deleted_refuted` (PropTls.v): After a deletion, the test whether a variable has been used is undefined for every variable that holds that key: the other one that was never used.

**C75** (partial) A throw in a try block reaches its handler in the emulated build. refuted: except.c 404 compares the context with the current one, which it always is, so every throw ends the program
  - `emulated_throw_exits` (PropTls.v): In the emulated build no throw ever reaches a handler: whatever the state (any number of enclosing try blocks and guards), if ex_throw ends at all it ends the program.
  - `emulated_throw_refuted` (PropTls.v): A try block in main with a throw in it: the native build jumps to the block's handler, the emulated one exits.

**C76** (partial) Deferred functions run at exit. holds for the scope of the thread that exits while no thread is inside raii_init; refuted: scopes of other threads, exit during another thread's raii_init, a full exit-handler table
  - `exit_runs_deferred_partial` (PropExit.v): When thread [t] leaves the program (exit, end of main, uncaught exception) while no thread is inside raii_init, the functions it has deferred on its own scope run once each, newest first. Missing from the full claim: the functions of other threads, an exit during another thread's raii_init, a full table of exit handlers (all refuted below).
  - `exit_other_thread_refuted` (PropExit.v): A worker calls exit (or ends with an uncaught exception): main's functions never run; when main exits, the worker's do not.
  - `exit_during_init_refuted` (PropExit.v): Main exits while a worker is between raii() and the end of raii_init: the worker's raii_del, registered last, clears main's scope pointer before main's raii_destroy runs.
  - `exit_table_full_refuted` (PropExit.v): The results of atexit are ignored: with the table of 32 that ISO C guarantees and 30 handlers of the program, raii_destroy is not registered.

**C77** (partial) _return leaves a function cleanly. holds directly in the only guard of the function; exact effect for every nesting in return_effect; refuted inside a further block: the context of a finished function stays current, outer guards are skipped
  - `return_effect` (PropReturn.v): What _return does from inside any blocks [bs] of a function (outermost first) with at least one guard, whatever the state in which the function was called: only the functions of the innermost guard run; the current context becomes that before the innermost block, hooks and arena pointer those before the innermost guard.
  - `return_from_guard_partial` (PropReturn.v): The documented use, _return directly in a guard: everything as before the function was called, its deferred functions run once, newest first. Missing from the full claim: _return inside a further block of the same function.
  - `return_in_try_refuted` (PropReturn.v): _return inside a try block in a guard: the context of the guard, an object of the function that has returned, stays current; the next throw jumps into that function.
  - `return_in_guard_refuted` (PropReturn.v): _return inside a guard in a guard: the functions of the outer one are not called; its hooks stay.

**C78** (partial) A spawned thread joins the current pool. Holds from a thrd_scope on while no guard is entered or left and no pool destroyed. Refuted: the field raii_local()->arena is shared with guards and never reset: after thrd_destroy every thrd_spawn reads released memory, in a guard the outer pool is not seen, an exception in a guard after thrd_scope stores past the end of the pool, and without a pool NULL is dereferenced.
  - `current_pool_partial` (PropPool.v): What holds: from a thrd_scope on, and as long as no guard is entered or left and no pool destroyed, every thread joins the pool opened last, whatever was open before; also inside a guard as long as nothing is thrown.
  - `guard_restores_pool` (PropPool.v): The current pool after a guard is the one before it, whatever happened inside.
  - `spawn_after_destroy` (PropPool.v): After thrd_destroy the thread still points at the pool: every later thrd_spawn reads released memory, instead of panicking or going back to the pool opened before.
  - `throw_after_scope_in_guard` (PropPool.v): In a guard, an exception after thrd_scope: the guard's error is stored 72 bytes into the pool, which has 64.
  - `spawn_no_pool_refuted` (PropPool.v): Without a pool the promised panic is a NULL dereference.
  - `spawn_outer_pool_refuted` (PropPool.v): Two pools, the inner one destroyed: the next thread should join the outer one.
  - `spawn_in_guard_refuted` (PropPool.v): In a guard the pool opened before it is not seen: panic.
  - `spawn_after_guard_refuted` (PropPool.v): A pool opened in a guard is forgotten at its end: the thread joins the older one.
  - `throw_in_worker_refuted` (PropPool.v): A worker (whose function runs in a guard) opens a pool and throws: a store past the end of the pool.
  - `throw_after_destroy_in_guard` (PropPool.v): In a guard, an exception after thrd_destroy: the guard's error is stored in the released pool.
  - `pool_layout` (PropPool.v): Why: both words that guard_set writes lie wholly behind the pool's block. (Each member lies at the least multiple of its alignment that is free.)

**C79** (partial) Exceptions and pools release memory once. thrd_destroy releases each block once, for every number of threads; a failing thrd_spawn releases its future (its argument block leaks). Exceptions: thrd_scope hides all pointers protected before, after a thrd_spawn free is called on a tag, after thrd_destroy released memory is read. One pool per thread; the context is that of a try block.
  - `destroy_releases` (PropPool.v): thrd_destroy, after any number of threads, collected or not: each block of the pool is released once; what is left are the caller's blocks, the argument blocks that the workers release and, when not collected, the futures and the thread's own scope.
  - `spawn_failure_partial` (PropPool.v): When thrd_create fails, future_error is thrown inside thrd_spawn: the future just made is released and nothing else; in particular the argument block, which no scope knows, stays.
  - `scope_hides_protected` (PropPool.v): A thrd_scope hides everything protected before it: an exception right after it releases nothing.
  - `throw_after_spawn` (PropPool.v): After one thrd_spawn or more an exception calls free on the number 49, the tag of the last result, before anything else.
  - `throw_after_destroy` (PropPool.v): But it leaves the context with a protector that is released, or one that points into a finished call of thrd_spawn: any exception in the same block afterwards reads released memory.
  - `exception_in_pool_refuted` (PropPool.v): A pointer protected before the pool was opened is not released.

**C80** (partial) Completion and results of a pool. thrd_result and, before thrd_sync, thrd_is_finish are exact. After thrd_sync thrd_is_finish reads freed futures for every non-empty pool.
  - `finish_before_sync` (PropPool.v): Before thrd_sync, thrd_is_finish says whether all promises are done, for every number of threads.
  - `finish_after_sync` (PropPool.v): After it, thrd_is_finish reads the futures that thrd_sync has freed, for every pool with a thread in it; thrd_result gives the i-th result.
  - `result_of_thread` (PropPool.v)
  - `finish_after_sync_refuted` (PropPool.v)

**C81** (partial) Releasing an arena scope. Order, multiplicity and the set of released blocks are exact for every history. The clause on released memory fails: once a single block was obtained, arena_free walks through chunks it has freed (as in C47), so the order is proved for a memory that still holds the old header.
  - `scope_release_partial` (PropScopeArena.v): C81, full statement: free_arena on an arena scope calls each deferred function once, newest first, then releases the array that held them, the scope, and the arena with all its chunks, each exactly once, touches no other arena, and accesses no released memory. What holds, for every history and whatever the allocators answered: all of it but the last point ([true]: reading the header of a released chunk gives what it contained).
  - `scope_release_uses_released` (PropScopeArena.v): C81 counterpart: as soon as the history obtained one block from the scope, free_arena reads and writes a released chunk.
  - `scope_release_refuted` (PropScopeArena.v): C81 refuted: one block from the scope is enough.

**C82** (partial) Blocks of an arena scope. Holds for sizes and products below 2^63 - 1. Refuted beyond: malloc_by(2^64 - 16) becomes -16, returns a pointer and makes later blocks overlap earlier ones; calloc_by overflows a long.
  - `scope_blocks_partial` (PropScopeArena.v): C82. Whatever the system allocator answers and whatever happens on other arenas in between, each block obtained from the scope by malloc_by or calloc_by lies in a live chunk of the scope's own arena past its header, and no two blocks handed out, by this scope or by another arena, share a byte.
  - `scope_blocks_huge_refuted` (PropScopeArena.v): C82 refuted: a size of 2^64 - 16 becomes the long -16, so the request succeeds, moves the arena's position back, and the next block overlaps an earlier one.
  - `scope_calloc_overflow` (PropScopeArena.v): C82, counterpart: calloc_by on an arena scope with a product of 2^63 or more is a signed overflow (the heap version panics).
  - `arena_shortcuts` (PropScopeArena.v): malloc_arena and calloc_arena, the functions that take the arena of a scope directly: on an arena scope they do what malloc_by and calloc_by do, so that C82 covers them too.

**C83** (proved) arena_capacity is what fits. Both directions, for every arena that was created and allocated from. An arena whose chunk size wrapped around reports a number of 2^63 or more, which is excluded.
  - `arena_capacity_decides` (PropArena.v): C83. Arenas that were only created and allocated from. What arena_capacity returns (when it is not the wrapped-around negative number of an arena whose chunk size overflowed) decides exactly whether the next allocation needs the system: a size that, rounded up to even, is within it succeeds without a request; a larger one makes at least one.
  - `arena_null` (PropArena.v): The NULL arena: it has no capacity, clearing and freeing do nothing, allocating from it panics.

**C84** (partial) A deferred function may throw. Refuted. Exact for every guard body without _malloc: unless a function called before recovers, the guard calls its newest functions for ever; otherwise the exception leaves, functions may be called twice (the second time with NULL) and older ones are never called. With _malloc the program ends although a handler encloses the guard.
  - `defer_throw_exact` (PropThrow.v): A guard whose body defers, newest first, [pre], then [f] with [d], then [old], where [f] is the first one called that throws: exactly what is called, and whether the program ends.
  - `defer_throw_never_ends` (PropThrow.v): The program never gets out of the guard when none of the functions called so far recovers the pending error or the new one.
  - `defer_throw_skips` (PropThrow.v): Functions deferred before the one that throws are not called at all, unless they are also among the newer ones.
  - `defer_throw_refuted` (PropThrow.v): A function is called twice, the second time with NULL, and an older one never.
  - `defer_throw_malloc_refuted` (PropThrow.v): With _malloc in the guard the second round happens inside ex_throw and the exception ends the program although it would have been caught outside.

**C85** (partial) _get_message names the guard's exception. Exact wherever a throw lands inside a guard, also during the release. Refuted: an exception handled inside the guard stays its message, and in a handler outside guards NULL is dereferenced.
  - `message_in_guard_partial` (PropMessage.v): Inside a guard whose scope is live, wherever a throw lands.
  - `message_during_release` (PropMessage.v): Every deferred function called after that, until one throws, is given the same message: running any number of them does not change it.
  - `message_handled_refuted` (PropMessage.v): An exception caught inside the guard stays its message: at the end of the guard no exception is pending and the deferred functions are given the old one.
  - `message_outside_refuted` (PropMessage.v): In the handler around a guard whose exception it receives there is no guard: NULL is dereferenced.

**C86** (partial) raii_message names the exception being handled. message_otherwise says what is reported in all other cases. Refuted: a panic in a guard is reported as the word panic, an older exception is reported for the current one, NULL dereference in a fresh thread.
  - `message_current_partial` (PropMessage.v): Outside guards, when the context is that of the thread or is_raii of the local one happens to be set.
  - `message_otherwise` (PropMessage.v): In every other case: the error last recorded for the thread, and if there is none the name of the exception, never its text.
  - `message_panic_refuted` (PropMessage.v): A panic in a guard is reported as the word "panic", not as its text.
  - `message_stale_refuted` (PropMessage.v): The first exception of the thread is reported for a later one: try { guard{} throw 10 } catch_any; try { throw 11 } catch_any, the uninitialised is_raii being 0.
  - `message_fresh_refuted` (PropMessage.v): In a thread that has not used the library before, NULL is dereferenced.
  - `message_too_early` (PropMessage.v): Before raii_init both are undefined, and the message of a scope that was released is too.

**C87** (partial) Generic atomic operations act on their object only. Exact effect for every object size. Holds for objects of eight bytes. Refuted for smaller ones: the macros always access eight bytes, so a store overwrites the neighbours or leaves the block, a load of an atomic_bool returns them, compare-exchange fails for them.
  - `generic_exact` (PropGeneric.v): Exact effect on an object of any size up to eight bytes and on the bytes behind it.
  - `generic_wide_partial` (PropGeneric.v): An object of eight bytes: the operation is exact and touches nothing else.
  - `generic_neighbours_partial` (PropGeneric.v)
  - `generic_overrun` (PropGeneric.v)
  - `generic_cas_exact` (PropGeneric.v): Compare and exchange: what is compared and, on failure, written to *expected are the object's bytes and those behind it.
  - `generic_store_neighbour_refuted` (PropGeneric.v): C87 asks that an operation on an object changes nothing but the object and depends on nothing but it.
  - `generic_bool_refuted` (PropGeneric.v): examples/work-steal.c 157, 239, 253: atomic_bool done, one byte.
  - `generic_bool_load_refuted` (PropGeneric.v): 215: a false atomic_bool followed by another object reads as true.
  - `generic_cas_refuted` (PropGeneric.v): A four-byte compare and exchange fails although the values agree, and overwrites four bytes behind *expected.

**C88** (partial) Atomic floating-point addition and subtraction add and subtract. Refuted: bit patterns are added as integers, 1.0f + 1.0f is 2^127. For non-negative numbers the theorems say exactly when the exact sum or difference results. Two negative numbers never add correctly; x + (-x) is 0 only for 0 and 2.0; numbers of different sign are exact when the patterns add without a carry. Missing: different signs with a carry.
  - `float_add_partial` (PropFloatAtomic.v): Addition of two non-negative numbers gives their exact sum just when one is zero or the sum is at most twice the least normal number.
  - `float_add_negative` (PropFloatAtomic.v): Two negative numbers (or -0) are never added correctly, unless both are -0: the sign bits cancel.
  - `float_add_signs_partial` (PropFloatAtomic.v): A non-negative and a negative number whose patterns add up without a carry into the sign: right just when the first one is 0.
  - `float_cancel_partial` (PropFloatAtomic.v): x + (-x) is 0 for two numbers x only: 0 and the number with the pattern 2^(eb+mb-1), which is 2.0 in every IEEE format.
  - `float_sub_partial` (PropFloatAtomic.v): Subtraction of the smaller of two non-negative numbers.
  - `float_cas_values` (PropFloatAtomic.v): Compare and exchange succeeds on equal patterns, for finite numbers not both zero on equal numbers.
  - `float_add_f32_refuted` (PropFloatAtomic.v): The property: the number stored is the sum, whenever that is a number of the format. 1.0f + 1.0f.
  - `float_add_f64_refuted` (PropFloatAtomic.v): 1.0 + 1.0 in double.
  - `float_sub_f32_refuted` (PropFloatAtomic.v): 3.0f - 1.0f is not 2.0f, 1.0f + -1.0f is not 0, 1.0f - 2.0f is no number.
  - `float_cas_zero_refuted` (PropFloatAtomic.v): Two zeros are equal numbers, yet compare and exchange fails.

**C89** (partial) join_work starts the continuation once, after the last task. Proved for up to 2^32 tasks. Refuted beyond: the old count is truncated to int.
  - `join_once_partial` (PropJoin.v): At most 2^32 tasks: whatever the schedule, the continuation was started (once) just when every task has joined.
  - `join_completes_partial` (PropJoin.v)
  - `join_truncation_refuted` (PropJoin.v): One task more: the int that receives the old count holds 1 at the first join.

**C90** (partial) The last calls of a program that ends with an exception. Proved when raii_init first ran outside try blocks (owned). When it first ran inside one, the root context's is_raii stays false: the functions run only in exit, and not at all when a signal is pending.
  - `last_words_partial` (PropTerm.v): The program's last calls: the functions of the scope newest first, the Ctrl-C callback when a SIGINT is pending, the terminate callback, then _Exit when a signal is pending and otherwise exit, with the program's exit handlers.
  - `last_words_inside_try` (PropTerm.v): raii_init first ran inside a try block: the scope's functions run only in exit, after the callbacks, and with a signal pending not at all.
  - `last_words_refuted` (PropTerm.v): So there is a program whose deferred function is never called.

**C91** (proved) Termination callbacks are called at most once. For every behaviour, at every moment.
  - `callbacks_once` (PropTerm.v): Whatever the functions and callbacks do, at every moment of the run.

**C92** (partial) Deferred functions at the end of a program run exactly once. Each is called at least once before the program ends, whatever happens. Not at most once: when one throws, the newer ones are called again with NULL and it again with its data; if it always throws the program never ends.
  - `deferred_least` (PropTerm.v): Every function deferred on the thread's scope is called with its own data before the program ends, whatever it and the others do.
  - `deferred_again` (PropTerm.v): One that throws once: the newer ones are called again, with NULL, and it is called again with its own data.
  - `deferred_forever` (PropTerm.v): One that always throws: the program never ends.
  - `deferred_at_most_once_refuted` (PropTerm.v): A program in which a deferred function that never throws is called twice because another one threw.

**C93** (partial) Exit handlers are skipped only for signals. Exactly: skipped when any signal was ever handled since the flags were last reset, and nothing in the library resets them.
  - `handlers_skipped_partial` (PropTerm.v): The program's exit handlers are skipped exactly when some signal was handled since the flags were last reset, however long ago and whatever exception ends the program.
  - `handlers_skipped_refuted` (PropTerm.v): A signal handled long ago: an ordinary exception ends the program without its exit handlers.

**C94** (proved) A handler runs under the signal mask of its try block. All programs of the model's language.
  - `handler_mask` (PropMask.v): For every program and every mask to begin with (signals 9 and 19, SIGKILL and SIGSTOP, cannot be blocked).
  - `convert_again` (PropMask.v): So a signal can be turned into an exception and handled any number of times.

**C95** (partial) A handler receives the exception that was thrown. Proved when no signal is sent. A signal that arrives while release functions run is delivered when the mask comes back and replaces the exception; exception_replaced says exactly when.
  - `exception_kept_partial` (PropMask.v): Without sent signals what reaches a handler, or leaves the program, is an exception its own try block throws.
  - `exception_replaced` (PropMask.v): Exactly which: the signals the thrower's mask lets through are delivered first, then those that only the mask of the try block lets through, and the one delivered last is the exception. The exception thrown stays only when both masks block every pending signal.
  - `signal_delivered` (PropMask.v): What a signal does to a thread that does not block it: it enters the handler as its own exception, with itself blocked in addition and no longer pending, and nothing else changes; a part of the program that goes on leaves no signal pending that is not blocked.
  - `exception_kept_refuted` (PropMask.v): A signal sent while a release function runs replaces the exception that was thrown.

**C96** (partial) A fault during unwinding is reported like a throw there. The fault's signal is blocked, so the kernel kills the process; killed_by_fault: nothing but a fault kills.
  - `release_fault_kills` (PropMask.v): A fault in a release function kills the process: no further release function and no handler.
  - `killed_by_fault` (PropMask.v): Nothing but a fault gets the process killed.
  - `release_fault_refuted` (PropMask.v): ex_throw's test for a throw during unwinding (except.c 382-383) is not reached by a fault there: the process dies with functions unreleased.

**C97** (partial) break leaves a guard cleanly. For every list of try blocks inside the guard, every list of deferred functions that return normally, and every state (break_in_blocks: inside any blocks): effect is as claimed. Missing: deferred functions that throw; break_throw_refuted shows one for which the claim is false, since break leaves the contexts of the try blocks on the list and the throw jumps back into a block already left.
  - `break_effect_partial` (PropReturn.v): break inside any number of try blocks in a guard, in any state (inside whatever blocks): the functions deferred in the guard run once, newest first; the current context, the hooks and the arena pointer are those before the guard.
  - `break_in_blocks` (PropReturn.v): The same with blocks [pre] of the function around: as if the function had been called in the state after entering them.
  - `break_throw_refuted` (PropReturn.v): break inside a try block in a guard, the guard's deferred function throwing: control jumps back into the try block that was left.

**C98** (partial) A guard returns the value its result expression had. Expressions are constants, variables, loads and sums; the value is kept if the expression reads nothing the deferred functions release or change (return_value_partial). False in general: contents of memory released with the guard are always read after free (return_released, return_value_refuted) and a deferred function can change the value (return_value_changed_refuted).
  - `return_value_partial` (PropResult.v): The value is the one the expression had before the release if it reads nothing the deferred functions release or change. The full claim has no such condition.
  - `return_released` (PropResult.v): Returning the contents of memory obtained in the guard is always undefined.
  - `return_value_refuted` (PropResult.v): So there are an expression with a value and a guard from which returning it is undefined; and one that returns another value.
  - `return_value_changed_refuted` (PropResult.v)

**C99** (partial) Strings made for a scope are released with it. Proved whenever the array of deferred functions could grow; refuted otherwise: str_concat_ex returns a block that nobody releases (the same for the others, C30). A text with a bad padding leaves its block with the scope although the result is NULL. With a NULL scope the first three functions leave the block to the caller, the other three dereference NULL (strings_null_scope).
  - `strings_registered` (PropStrScope.v): Whatever strings are made for a scope, in whatever order and mixed with other uses of it: nothing undefined happens (only a failing allocator ends in a panic), every call that needs memory registers exactly one block of the size it needs, and the others register nothing.
  - `strings_released_partial` (PropStrScope.v): Each of these blocks is released once with the scope, newest first, among the other functions deferred on it, then the protector and the array. Missing: the case in which the array of deferred functions could not grow, refuted below.
  - `strings_released_refuted` (PropStrScope.v)
  - `strings_null_scope` (PropStrScope.v): With a NULL scope the first three functions leave the block to the caller (it is the result); the other three, whenever they need memory, dereference NULL.

**C100** (partial) A failed allocation leaves no block behind. False: the first block of a scope is lost when the protector cannot be had, later blocks when the array of deferred functions cannot grow, and the functions with several requests lose the blocks of the earlier ones. The theorems give the exact set of lost blocks for every pattern of failures; exhaustion_exact for a program of any number of allocations when memory runs out for good. array_structure_lost: raii_array_new loses its structure even when nothing fails.
  - `malloc_loses` (PropLeak.v): One call of malloc_full, for every scope and every pattern of failures: if the block cannot be had nothing is lost; if the block was had and the protector was not, the block is lost; otherwise the call returns the block, which the scope owns unless the array of deferred functions was full and could not grow.
  - `exhaustion_exact` (PropLeak.v): Memory runs out after [N] requests, during any number [k] of allocations on a new scope; then the scope is released. All memory obtained is released except that one block is lost if the first request to fail was for the protector or for a larger array: that is, if [N] is 1 or 2 more than a multiple of 17, and enough calls are made to get there.
  - `pair_loses` (PropLeak.v): unique_init_arena and raii_args_ex make two requests: when the second fails, the block of the first is lost.
  - `async_loses` (PropLeak.v): thrd_async, once the promise was made (which loses what malloc_full loses): a failing request for the future loses nothing; one for the block of the new thread loses the future; a thread that cannot be created loses the future and that block. When it succeeds the two belong to the caller and to the new thread.
  - `scope_loses` (PropLeak.v): thrd_scope: without memory for the pool the new scope is lost, without memory for its protector the pool too; without memory for its array the pool is handed out but thrd_destroy, which releases what the new scope holds, will not release it.
  - `array_structure_lost` (PropLeak.v): The structure made by raii_array_new is lost in every case, also when no request fails: nothing ever releases it.
  - `failed_request_refuted` (PropLeak.v): The full claim is false: the very first allocation of a guard can lose its block.

**C101** (partial) A signal at any instant keeps the deferred functions. signals_exact gives the exact outcome for every body, every number of signals and all instants (guards without _malloc, signals not inside the allocator, stores in source order). The claim holds between deferrals. False elsewhere: the entry is counted before it is written, the old array is used after realloc released it, data is cleared only after the call, the array is forgotten only after its release. signal_in_release: exactly which instants of a release are safe.
  - `signals_exact` (PropAsync.v): Every life: any body, any number of signals at any instants.
  - `signal_between_partial` (PropAsync.v): Without signals, and with one that arrives between two deferrals: everything deferred before is called once, newest first, with its data, and the array is released.
  - `signal_in_release` (PropAsync.v): One signal during the release of [n] functions, after [j] of its steps: the claim holds exactly if the signal arrives before the first call, or after the number of entries was set to 0 but not between the release of the array and the store that forgets it.
  - `signal_twice_refuted` (PropAsync.v): The claim is false: a function called twice with the same data, a function pointer that was never written, the old array used after its release, the array released twice, the array lost.
  - `signal_undefined_refuted` (PropAsync.v)
  - `signal_loses_refuted` (PropAsync.v)

**C102** (partial) A signal while a guard is entered or left lands cleanly. Exact outcome for every nesting, every instant and every handling block (guards without _malloc, no thread pool). Holds for signals between statements (throw_steady_partial). False: in the outermost guard a NULL pointer is dereferenced between the store of the hook and that of the arena, and again when leaving; the jump buffer is used before it is filled; the new scope is lost and the hooks stay set unless another guard is left on the way.
  - `enter_exact` (PropEntry.v): A signal after [j] steps of entering a guard, anywhere: undefined if the context is current but not yet filled; a NULL pointer is dereferenced if this is the outermost guard and its hook is set but its arena is not; otherwise the exception lands where it should, but the new scope is lost from the moment it exists to the moment the context is complete, and unless a guard is left on the way the hooks and the arena stay those of the guard never entered.
  - `leave_exact` (PropEntry.v): A signal after [j] steps of leaving a guard whose scope has been released: right before the context is left and after the last step; in between the scope is lost, a NULL pointer is dereferenced if this is the outermost guard and its arena is restored but its hook is not, and unless another guard is left on the way the hooks and the arena not yet restored stay.
  - `guard_steady` (PropEntry.v): Steps that are finished leave a steady state again: the theorems apply to every further guard and signal.
  - `throw_steady_partial` (PropEntry.v): A steady state in which an exception is thrown: it lands where it should and everything is as it was there.
  - `throw_told` (PropEntry.v): The scopes whose err is set are those of the guards around the places where the exception is thrown.
  - `entry_refuted` (PropEntry.v): The claim is false: entering and leaving the outermost guard.
  - `exit_refuted` (PropEntry.v)

**C103** (partial) A thread reports the exception that left its function. Proved for every thread function that defers only in guards of its own (thread_reports). With functions deferred in the thread's own guard (reached through raii_local()->arena) the outcome is exact (thread_deferred_exact), and the property is false: a recovered exception is still reported when an older deferred function runs after the recovering one; with a block of memory in that guard the recovered exception ends the process. Functions without memory of the thread's scope (C68); the order of threads is C54.
  - `thread_reports` (PropThreadFn.v): Every thread function of actions, try blocks, guards and functions deferred in those guards, whatever the uninitialised memory holds, whether or not a guard is open elsewhere in the process, and whatever the creator's scope held before: the function's events, then the thread goes on; the creator's scope holds the exception that left the function, name and message, or no name.
  - `thread_deferred_exact` (PropThreadFn.v): With functions [D] deferred in the thread's own guard (newest first): they run, and an exception is reported unless the one deferred first, which runs last, recovers it.
  - `recovered_reported_refuted` (PropThreadFn.v): Refuted: an exception that a deferred function recovered, as it would in any other guard, is reported all the same when an older deferred function runs after it: it resets is_recovered (raii.c 407-408).
  - `recovered_exits_refuted` (PropThreadFn.v): Refuted: with one block of memory in the thread's guard the recovered exception ends the whole process instead (C39).
  - `jump_agrees` (PropThreadFn.v): Why the name in the context can be trusted, for every program of the model: when an exception jumps out of a statement while a guard is open, the guard's scope and the context jumped to hold the same name and message.

**C104** (proved) Tail queues behave like lists. tail_insert_twice_never_ends shows that the precondition is needed: an element inserted a second time at the head makes every loop endless.
  - `tail_queues_are_lists` (PropQueue.v): From any memory that holds two heads and the elements, the two queues initialised: any calls that have a meaning run without undefined behaviour and leave exactly the lists the calls mean. TAILQ_FOREACH gives each list, TAILQ_FOREACH_REVERSE its reverse; FIRST, LAST, EMPTY, NEXT and PREV agree with it; no other memory changes.
  - `tail_insert_twice_never_ends` (PropQueue.v): The precondition that the element is in no queue matters: an element inserted a second time at the head of the queue is its own successor, so no loop over the queue ends.

**C105** (partial) Simple queues and XOR simple queues behave like lists. Proved where an unsigned long is as wide as a pointer. False on 64-bit Windows (unsigned long of 32 bits): XSIMPLEQ_XOR cuts the addresses, and the first insertion at the tail writes to memory that is not the queue's.
  - `simple_queues_are_lists` (PropQueue.v): Simple queues: the calls they provide leave exactly the lists they mean.
  - `xor_queues_are_lists` (PropQueue.v): XOR simple queues, where an unsigned long has 64 bits: the same, whatever cookies the random generator gives.
  - `xor_queues_are_lists_refuted` (PropQueue.v): Where an unsigned long has 32 bits and pointers 64 (64-bit Windows): the address of the last cell is stored cut to 32 bits, and the first insertion at the tail writes to memory that is not the queue's.

**C106** (proved) Singly and doubly linked lists behave like lists. The last clause of singly_linked_lists_are_lists: SLIST_REMOVE of an absent element reads through NULL, always.
  - `linked_lists_are_lists` (PropQueue.v): Doubly linked lists.
  - `singly_linked_lists_are_lists` (PropQueue.v): Singly linked lists; SLIST_REMOVE needs no more rounds than there are elements. It does not look for the end of the list: an element that is not in the list makes it read through NULL.
  - `remove_cleared` (PropQueue.v): C106, the precondition of LIST_REMOVE and TAILQ_REMOVE: an element with cleared links, one that was in no list, makes both write through NULL.

**C107** (proved) The safe loops allow the body to remove and free the element. plain_loop_reads_freed, plain_list_loops_read_freed: the plain loops with such a body are undefined at the first element dropped, always.
  - `tail_safe_loops` (PropQueue.v): Tail queues: TAILQ_FOREACH_SAFE and TAILQ_FOREACH_REVERSE_SAFE visit every element once and leave the elements that were not dropped; the other queue and the rest of memory stay.
  - `list_safe_loops` (PropQueue.v): Doubly and singly linked lists.
  - `plain_loop_reads_freed` (PropQueue.v): The plain loop with the same body is undefined as soon as an element is dropped: the successor is read from the freed element.
  - `plain_list_loops_read_freed` (PropQueue.v): The same for the plain loops over doubly and singly linked lists.

**C108** (proved) Red-black trees are ordered sets. removing_a_stranger_empties shows that the precondition of RB_REMOVE is needed: an element that never was inserted, with a zeroed entry, empties the tree.
  - `red_black_trees_are_ordered_sets` (PropTree.v): After any history of insertions and removals on an emptied tree, the tree is the list of its elements in the order of the keys: insertion gives NULL or the element with the same key, removal gives the element, and no call reads or writes anything but the entries of the [U] elements. RB_FIND, RB_NFIND, RB_MIN, RB_MAX, RB_NEXT, RB_PREV, RB_FOREACH and RB_FOREACH_REVERSE answer for that list; 2 lg (n + 1) rounds of each loop are enough.
  - `removing_a_stranger_empties` (PropTree.v): RB_REMOVE needs an element of the tree: with one whose entry is all zeroes, which never was inserted, it empties the tree, whatever is in it.

**C109** (proved) Red-black trees stay balanced. The bound holds in the number of elements that are in the tree, not of those that ever were.
  - `red_black_trees_stay_balanced` (PropTree.v): The header's conditions: after any history every way from the root to NULL passes the same number of black elements, a red element has a black parent, there is no other colour, and no way is longer than 2 lg (n + 1) of the [n] elements that are in the tree; so every further call needs no more rounds.

**C110** (proved) The safe loops over a tree allow the body to remove and free the element. plain_tree_loops_read_freed: the plain loops with such a body are undefined at the first element dropped, always.
  - `tree_safe_loops` (PropTree.v): RB_FOREACH_SAFE and RB_FOREACH_REVERSE_SAFE with a body that removes and frees the elements it does not keep: the kept ones stay, in order, the others are gone, nothing freed is read.
  - `plain_tree_loops_read_freed` (PropTree.v): The plain loops with the same body read an element after it was freed, as soon as one is not kept.

**C111** (proved) Splay trees are ordered sets. Histories of any length on any elements with a comparison that comes from keys; SPLAY_NEXT of an element in the tree. What the code relies on is stated: SPLAY_NEXT on an empty tree is a NULL dereference, on a freed element a read of freed memory.
  - `splay_trees_are_ordered_sets` (PropSplay.v): C111. Every history of calls of the macros on a tree initialised with SPLAY_INIT gives the results of a set in the order of the keys, never dereferences NULL or an element that is not there, and leaves every element where it was. [U] are the elements that there are.
  - `splay_next_preconditions` (PropSplay.v): C111, what SPLAY_NEXT relies on: on an empty tree it dereferences NULL, with an element that has been freed it reads that element.

**C112** (partial) Splay trees cost O((m + n) lg n) for m accesses. The bound is proved for all calls other than SPLAY_NEXT by itself (the steps of SPLAY_FOREACH, which splay the successor next, are covered). For SPLAY_NEXT by itself it is refuted: repeated calls take n/2 rounds each.
  - `splay_costs_amortised` (PropSplay.v): C112. After any history on elements [U], calls other than SPLAY_NEXT by itself cost, all together, no more rounds than a constant times (m + n) lg n.
  - `splay_next_alone_is_linear` (PropSplay.v): C112. SPLAY_NEXT by itself walks down the left edge of the right subtree without splaying it, so the same call can cost half the elements every time: after 1 to n have been inserted and SPLAY_NEXT(1) has been called once, each further SPLAY_NEXT(1) takes n/2 rounds.
  - `splay_next_amortised_refuted` (PropSplay.v): C112. With SPLAY_NEXT among the calls the bound of [splay_costs_amortised] does not hold.

**C113** (partial) Taking the elements out of a splay tree while looping over it. Refuted: with freeing, the loop reads the freed element on every tree with elements; without freeing, it dereferences NULL on every tree with one element, and can pass over elements (witness).
  - `splay_foreach_reads_freed` (PropSplay.v): C113. SPLAY_FOREACH over a tree with elements, with a body that takes each element out of the tree and frees it, reads the freed element: its step is SPLAY_NEXT of the element just freed. (There is no SPLAY_FOREACH_SAFE.)
  - `splay_foreach_remove_last` (PropSplay.v): C113. Taking the element out without freeing it does not help: on a tree with one element the step of the loop dereferences NULL.
  - `splay_foreach_remove_refuted` (PropSplay.v): C113. With more elements such a loop may visit them out of order, or end normally without having visited them all: with 1, 3, 4 and 5 in the tree it visits 1, 3 and 5, and 4 stays.

**C114** (partial) The mmap emulation leaves no handle open and reports its outcome. handles, views, results and the exact value of errno are proved for all answers of Windows; that errno is an errno value naming the failure is refuted: it is the Windows error number, and 0 when CloseHandle resets the last error
  - `mmap_keeps_handles` (PropMap.v): C114. Whatever Windows answers: mmap leaves no file mapping handle open; it gives MAP_FAILED and makes no view, or gives the base of the one view it has made.
  - `mmap_errno_exact` (PropMap.v): C114. What errno is after each outcome.
  - `mmap_errno_refuted` (PropMap.v): C114. errno is the Windows error number: access denied (5) is reported as 5, which is EIO, and not as EPERM, the default the code names; if CloseHandle resets the last error, a failing call leaves errno 0.
  - `mman_calls_exact` (PropMap.v): C114. The other functions give 0 or -1 with the Windows error in errno, and change nothing else.
  - `getpagesize_once` (PropMap.v): C114. getpagesize asks the system once, and gives the same value every time.
  - `munmap_exact` (PropMap.v): C116. munmap does not look at its length: called with the base of a mapping it takes away all of it, whatever part was named; called with any other address it fails and takes away nothing.

**C115** (partial) MAP_PRIVATE and MAP_NOEXTEND are honoured. refuted: the flags are never looked at, so every writable private mapping changes the file and every writable mapping past the end extends it; both proved in general
  - `mmap_flags_ignored` (PropMap.v): C115. mmap looks at MAP_FIXED and MAP_ANONYMOUS only: MAP_PRIVATE (mman.h 59, "Changes are private") and MAP_NOEXTEND (66, "don't change file size") make no difference.
  - `mmap_writes_file` (PropMap.v): C115. After every successful mmap of a file with PROT_WRITE, private or not, a load through the mapping gives the byte of the file, a store changes that byte of the file and no other, and the file is at least as long as the mapping reaches.
  - `mmap_anonymous_no_file` (PropMap.v): C115. An anonymous mapping (MAP_ANONYMOUS) never touches a file, whatever descriptor is given: neither mmap nor a store through the mapping changes the length or a byte of any file.
  - `mmap_private_refuted` (PropMap.v): C115. With MAP_PRIVATE and MAP_NOEXTEND the store is seen in the file, and the file has grown.

**C116** (partial) munmap unmaps the pages it is given. refuted: the length is never looked at; exactly what is unmapped is proved for all mappings
  - `munmap_exact` (PropMap.v): C116. munmap does not look at its length: called with the base of a mapping it takes away all of it, whatever part was named; called with any other address it fails and takes away nothing.
  - `munmap_part_refuted` (PropMap.v): C116. Unmapping the first half of a mapping takes the second half too; unmapping the second half fails (mmap(2): the pages named are unmapped).

**C117** (proved) exchange swaps two adjacent blocks of argv. 
  - `exchange_swaps_blocks` (PropGetopt.v): C117. exchange puts the block [last_nonopt,optind) before the block [first_nonopt,last_nonopt), keeps the order inside both, touches nothing else and reads and writes argv only.

**C118** (proved) getopt scans the arguments as documented. preconditions stated in usable: long_only off (C121), no "W;" (C120), no letter (char) -1 (C122), strings shorter than 4 GB
  - `getopt_scans` (PropGetopt.v): C118. The same for an option string that does not begin with '+' or '-': all calls take it as it is.
  - `getopt_scans_prefixed` (PropGetopt.v): C118. Every run of getopt to its -1, whatever the elements, the option string, the long options and the treatment of non-options: the calls answer as the specification [scan] says; then argv holds the elements that were passed (the options with their arguments, and "--") in their order, then the others in their order, and optind is the index of the first of these. With a '+' or '-' at its beginning, the option string is taken without it in the first call only.
  - `getopt_permutes` (PropGetopt.v): C118. The arguments are only reordered: none is lost and none appears twice; optind stays within argv.

**C119** (partial) The answer to an option does not depend on which call meets it. refuted: the prefix is passed over in the first call only; getopt_scans_prefixed says exactly what every call takes
  - `getopt_scans_prefixed` (PropGetopt.v): C118. Every run of getopt to its -1, whatever the elements, the option string, the long options and the treatment of non-options: the calls answer as the specification [scan] says; then argv holds the elements that were passed (the options with their arguments, and "--") in their order, then the others in their order, and optind is the index of the first of these. With a '+' or '-' at its beginning, the option string is taken without it in the first call only.
  - `getopt_prefix_refuted` (PropGetopt.v): C119. The '+' or '-' that selects the treatment of non-options is passed over in the first call only: later calls take it for an option letter, and a ':' after it (asking for ':' as the answer to a missing argument) is seen by the first call only.

**C120** (partial) -W name is the same as --name. refuted: an ambiguous name counts one element too many and reads beyond argv, an optional argument that is missing is the name itself, without a table NULL is dereferenced; what -W gives instead is proved exactly for all tables and names
  - `getopt_w_exact` (PropGetoptLong.v): C120. What "-W name" gives, for all tables and names: an unknown name is left to the caller as 'W'; a name that two options begin with is rejected and passes over one element more; otherwise the option of that name, as with "--name", except that optarg is the name itself where there is no argument, and optopt is not set.
  - `getopt_w_null` (PropGetopt.v): C120. With "W;" in the option string and no long options, every -W that has an argument dereferences NULL.
  - `getopt_w_refuted` (PropGetopt.v): C120. An ambiguous "-W name" counts one element too many: the element after it is lost, and when it is the last, the next call reads beyond the end of argv.
  - `getopt_w_arg_refuted` (PropGetoptLong.v): C120. An option with an optional argument, given by -W without one, gets its own name as its argument; an ambiguous abbreviation of options that do the same is rejected, and with "--" it is not.

**C121** (partial) With long_only the letters of a cluster stay letters. refuted for long_only, whose answers are proved exactly for all elements and tables; without it no short element is looked up
  - `getopt_long_only_exact` (PropGetoptLong.v): C121. With long_only, for every table and element: what is looked up, and what the answer is: the option of that name; a name that two options begin with is rejected; an unknown name goes on as short options if the element begins with one '-' and its next letter is in the option string, and is rejected otherwise.
  - `getopt_long_only_off` (PropGetopt.v): C121. Without long_only a short option letter is never taken for a long name: no element but one that begins "--" is looked up.
  - `getopt_long_only_refuted` (PropGetopt.v): C121. With long_only, what follows a letter inside an element is taken for a long name: "-av" is 'a' and then "verbose"; an unknown letter there is reported without its letter.

**C122** (partial) -1 is given only when there are no more options. refuted for the letter (char) -1; for every other option string C118 gives the whole run to the end
  - `getopt_scans_prefixed` (PropGetopt.v): C118. Every run of getopt to its -1, whatever the elements, the option string, the long options and the treatment of non-options: the calls answer as the specification [scan] says; then argv holds the elements that were passed (the options with their arguments, and "--") in their order, then the others in their order, and optind is the index of the first of these. With a '+' or '-' at its beginning, the option string is taken without it in the first call only.
  - `getopt_minus_one_refuted` (PropGetopt.v): C122. An option letter with the code of (char) -1 ends the scan although more options follow.

**C123** (partial) waitpid returns the number and the status of the child. refuted: the number returned is the parent's; the status is proved for every process that ends, and the number is right only for a process that is its own parent
  - `waitpid_exact` (PropWait.v): C123. Waiting for a process by its number, when it has ended or the caller may wait and it does end: the status is the low byte of its exit code, as a normal exit - also for the codes of a crash - and the value is the number of the process that created it.
  - `waitpid_number_refuted` (PropWait.v): C123. A process waits for its child 5, which ended with 7: the value is not 5 but the number of the caller itself; for a crashed child (0xC0000005) the status says it exited with 5.
  - `waitpid_number_exact` (PropWait.v): C123. So the value is the number asked for only if the process created itself.

**C124** (partial) The wait functions close what they open. refuted: WNOHANG on a running process leaks the snapshot and the process handle, n polls leak 2n; every other path closes both (proved)
  - `waitpid_handles` (PropWait.v): C124. The handles a call leaves open: none, except that a call that gives 0 (WNOHANG, still running) leaves both of them.
  - `poll_leaks` (PropWait.v): C124. Polling a process that is still running, however often: every call leaves two handles open.
  - `waitpid_handles_refuted` (PropWait.v): C124. One poll of a running child: two handles stay open.

**C125** (partial) Waiting for any child finds a child that has ended. refuted: only the first child in the snapshot is looked at (proved: the answer depends on nothing else), and processes that are no children are waited for
  - `wait_first_child` (PropWait.v): C125. Waiting for any child looks at the first child of the snapshot and at nothing else; whether the others have ended makes no difference.
  - `wait_any_refuted` (PropWait.v): C125. The second child has ended, the first runs for ever: wait() does not come back, a poll says that none has ended. And a process that is no child is waited for like one.
  - `wait_no_child` (PropWait.v): C125. No process of that number in the snapshot, or no child: ECHILD.
  - `wait_not_opened` (PropWait.v): C125. A process that may not be opened: ECHILD, though it is in the snapshot, and a child as well; nothing stays open.
  - `wait_is_waitpid` (PropWait.v): C125, as POSIX says: wait(status) is waitpid(-1, status, 0), and wait4 without a place for the usage is waitpid.

**C126** (partial) waitid and the process groups work. refuted: WEXITED is rejected, errno is set to -EINVAL, groups and P_ALL abort, *infop is zeroed
  - `waitid_exited_fails` (PropWait.v): C126. waitid with WEXITED (wait.h 303), which says that ends of processes are waited for, is turned down in every case, with a negative errno.
  - `waitpid_options_exact` (PropWait.v): C126. Options the code does not know give -1 with errno set to minus EINVAL, whatever the process; the known ones never do.
  - `wait_groups_abort` (PropWait.v): C126. Process groups are not provided: the program is ended by abort(), and so is every waitid(P_ALL) with options the code knows.
  - `waitid_refuted` (PropWait.v): C126. The usual call, waitid(P_PID, 5, &info, WEXITED), for the child 5 that has ended: -1 and errno -22, which is no error number; without WEXITED it gives the caller's number instead of 0, and zeros in the structure, the number of the child and its status among them.

**C127** (proved) The status macros classify every status. 
  - `status_tests` (PropWait.v): C127. The status tests of wait.h as arithmetic: exactly one of them holds for a status whose low byte is not 255, none for 65535 (__W_CONTINUED), and the parts are the bytes.

**C128** (proved) A directory stream lists the directory. for names that can be converted or have an alternate name, and fit the entry; otherwise C131
  - `dir_lists` (PropDir.v): C128. A stream that opendir gives shows the files the directory has: every program that reads, goes back to the beginning and reads on, any number of times while the disk changes, is given the files in order, then NULL for ever, and from the beginning the files there are at that time. Names of at most 259 bytes, or a handler that comes back.
  - `wide_names` (PropDir.v): C128. The wide stream gives the name as it is, with its length and type, for a name as Windows has them (at most 259 characters).

**C129** (proved) A directory stream releases everything once. 
  - `dir_resources` (PropDir.v): C129. A failing opendir gives back all it has taken, and whatever is done with a stream, closing it does; no block or search is released twice or used after it. The only outcomes besides are the end of the program by the handler of the C library, and those of C130.
  - `dir_null` (PropDir.v): C129. NULL is turned down by closedir, and with ENOENT by opendir for an empty name.
  - `dir_after_close` (PropDir.v): C129, the precondition: a stream that has been closed is not used again; each of the functions uses released memory, also through the wide stream alone.

**C130** (partial) The search pattern fits its buffer. proved when the second answer of GetFullPathNameW fits the length asked for (exactly then); refuted when the full path has become longer
  - `pattern_built` (PropDir.v): C130. When the full path still fits the size asked for, the pattern is built inside the buffer, whatever the path.
  - `pattern_exact` (PropDir.v): C130. And only then: if the directory has become longer between the two calls of GetFullPathNameW (another thread has changed the current directory), the code reads what was never stored, or outside the buffer.
  - `opendir_race_exact` (PropDir.v): C130, exactly when opening goes wrong: when the second full path is longer than the first was (or the first call failed and the second did not), with memory at hand.
  - `opendir_race_refuted` (PropDir.v): C130. The current directory becomes longer between the two calls: the buffer is read before anything was stored in it; if it becomes eight characters longer, behind its end.

**C131** (partial) Errors are reported as errors. refuted: an error of FindNextFileW ends the stream like the end of the directory with errno unchanged; names over 259 bytes end the program; an empty root gives ENOENT
  - `read_error_silent` (PropDir.v): C131. Whatever error ends a search (any number, not only 18, no more files), readdir gives NULL and leaves errno as it was: a caller cannot tell an error from the end.
  - `read_error_refuted` (PropDir.v): C131. A directory of two files whose search fails with 5 (access denied) after the first: the stream ends after it, like one that has one file. A name whose bytes are more than 259 ends the program, though it has a short name that would do.
  - `empty_root_refuted` (PropDir.v): C131. A directory in which nothing is found (an empty root directory has no "." entry) cannot be opened: ENOENT, as if it was not there.

**C132** (proved) timersub and timespecsub give the difference. 
  - `timersub_ok` (PropCompat.v): C132. For normal structures whose difference can be represented, timersub and timespecsub store the difference, as a normal structure, also when the result is one of the operands, and change nothing else.
  - `timersub_exact` (PropCompat.v): C132. The precondition on the seconds is needed: where the difference of the seconds, or it less the borrowed one, does not fit, the behaviour is undefined.

**C133** (partial) be64toh and htobe64 reverse the bytes. proved for arguments of 64 bits; refuted for arguments of 32 bits, which are shifted by 32
  - `be64_ok` (PropCompat.v): C133. be64toh and htobe64 of a 64-bit value, of either sign, give the number with the bytes reversed.
  - `be64_twice` (PropCompat.v): C133. Converting twice gives the value again.
  - `be64_int_undefined` (PropCompat.v): C133. The same for an argument of 32 bits is undefined, whatever its value: it is shifted by its width.
  - `be64_refuted` (PropCompat.v): C133. htobe64(1) with an int constant: undefined; with a uint64_t: 2^56.

**C134** (partial) The file type macros recognise one type. refuted: S_ISBLK, S_ISLNK and S_ISSOCK hold for exactly the modes without a type, and DT_LNK is DT_UNKNOWN
  - `file_types` (PropCompat.v): C134. S_ISDIR, S_ISREG, S_ISCHR and S_ISFIFO look at the type of a mode, its bits 12 to 15: 4, 8, 2 and 1; so that no two of them hold.
  - `no_type_is_link` (PropCompat.v): C134. S_ISBLK, S_ISSOCK and S_ISLNK, said to be false always, are true for exactly the modes without a type.
  - `iftodt_type` (PropCompat.v): C134. The type of a directory entry, IFTODT of a mode, is the mode without its other bits.
  - `link_macros_refuted` (PropCompat.v): C134. A mode of 0 is a link, a socket and a block device at once; and the type of an entry that could not be converted (0, DT_UNKNOWN) is DT_LNK.

**C135** (partial) align_up rounds up to the alignment. proved when the alignment is signed or as wide as the result, as in src/arena.c; refuted for a 64-bit number with an alignment of type unsigned int, whose mask clears the high half
  - `fits_range` (PropTypes.v): C135, what fitting a type means: N2176 6.2.5 and 6.2.6.2, two's complement; the least value of a signed type fits.
  - `align_up_least` (PropTypes.v): C135: with an alignment that is a power of two, a number that is not negative, and a sum that fits the type of the result, align_up gives the least multiple not below the number - if the alignment is signed after promotion or as wide as the result.
  - `align_up_cut` (PropTypes.v): C135: otherwise, a number of 64 bits and an unsigned alignment of 32 bits, the multiple is cut to its low 32 bits.
  - `align_up_overflow` (PropTypes.v): C135: a sum that does not fit is undefined in a signed type and gives 0 in an unsigned one.
  - `align_up_refuted` (PropTypes.v): C135 is refuted: a 64-bit size of 4 GiB and 1 rounded up to 8 of type unsigned int gives 8.

**C136** (partial) Kb, Mb and Gb give the number of bytes. exact for every type; refuted: the product is formed in the type of the argument, so Gb(2) overflows int, and the argument is not in parentheses, so Kb(1 + 1) is 1025
  - `size_macro_exact` (PropTypes.v): C136: Kb, Mb and Gb of one number, of any type: the product is formed in the promoted type of the number. In a signed type it must fit, or the behaviour is undefined; in an unsigned type it is cut to the width.
  - `size_macro_ok` (PropTypes.v): C136: so a number that is not negative and whose product fits its promoted type gives the size.
  - `size_macro_sum` (PropTypes.v): C136: of a sum written without parentheses only the last term is multiplied.
  - `size_macro_refuted` (PropTypes.v): C136 is refuted: Gb(2) overflows int, Gb(4u) is 0, Kb(-1) is nearly 2^64 and Kb(1 + 1) is 1025.

**C137** (proved) A registered Windows exception code or signal is found under its last name. 
  - `seh_registry` (PropSeh.v): C137: however codes and signals are registered, up to 32 different ones, each is found under the name registered last.
  - `seh_defaults` (PropSeh.v): C137, the registrations of ex_signal_setup: the codes of winnt.h have different names, the signals of signal.h too; where a signal and a code say the same, they are thrown under the same name.

**C138** (partial) Windows blocks have structured exception semantics. proved for programs in which every exception that leaves a body is for the handler of that body; refuted: an exception for another handler is lost, since the filter asks for the handler without setting the state
  - `win_refines` (PropSeh.v): C138: a tame program does on Windows what structured exceptions should do: the same steps, handlers with the same names and finally blocks; an exception that nothing takes ends the program.
  - `win_filter_search` (PropSeh.v): C138, when the filter of ex_catch(E) passes an exception on to the enclosing block: only when the panic text is E, the name is not, and neither the code nor the one caught last is in the table. (In every other case it asks for the handler.)
  - `win_lost` (PropSeh.v): C138: an exception that is not for the handler of the block in which it is thrown is lost: the program goes on behind the block as if nothing was thrown.
  - `win_catch_refuted` (PropSeh.v): C138 is refuted: the outer block for 50 does not get the exception 50 that passes the inner block for 51, and without an outer block the program does not end.

**C139** (partial) A Windows fault reaches the handler for its name. exact for ex_catch: the fault is lost or goes to the handler of any name, depending on the uninitialised member panic; proved for ex_catch_any when the uninitialised member caught is no code of the table; refuted
  - `fault_lost` (PropSeh.v): C139: a fault in the body of an ex_catch block is lost when the uninitialised member panic of the block is NULL, whatever its code and the name of the handler.
  - `fault_any_name` (PropSeh.v): C139: when that member is not NULL, the handler gets the fault, if its code is registered, whatever the name of the handler; if the code is not registered, it is lost.
  - `fault_positive` (PropSeh.v): C139: a code that is not negative (an information of Windows) is lost in an ex_catch block.
  - `fault_catch_any` (PropSeh.v): C139: ex_catch_any gets every registered fault with its name, if the uninitialised member caught is no code of the table.
  - `fault_unknown` (PropSeh.v): C139: a fault that is not registered passes ex_catch_any, without its finally block; the enclosing ex_catch_any lets it pass, too, and an enclosing ex_catch loses it, unless the member panic of the inner block is left with a value.
  - `fault_refuted` (PropSeh.v): C139 is refuted: a division by zero (code 0xC0000094, name 5) is lost in a block for it, given to a block for the name 77, and a code that is not registered is taken for an access violation by ex_catch_any when the uninitialised member caught is 0.

**C140** (partial) A Windows handler gets the place of the throw. proved for ex_catch_any; refuted for ex_catch, where the place is always unknown, line 0, because the code of a throw counts as a signal
  - `win_place_lost` (PropSeh.v): C140: ex_catch forgets where the exception was thrown: the handler gets the place "unknown", line 0, for every throw.
  - `win_place_kept` (PropSeh.v): C140: ex_catch_any keeps the name and the place of every throw.
  - `win_place_refuted` (PropSeh.v): C140 is refuted: thrown at 7, handled with place unknown.

**C141** (partial) On Windows an exception that leaves a handler reaches the enclosing block. rethrow() in the handler of ex_catch(E) is delivered (win_refines of C138); refuted for a throw in a handler, for rethrow() in ex_catch_any when the uninitialised member caught is negative, and for ex_catch(panic), which renames the exception
  - `win_inner_lost` (PropSeh.v): C141: an exception that is raised while the context of an inner block is the current one, as in its handler, is lost in the enclosing block: neither handler of it runs, and the program goes on behind it.
  - `win_handler_throw` (PropSeh.v): C141: so a throw in a handler never reaches the enclosing block, of whatever kind, and the finally block of the inner one is not run.
  - `win_rethrow_fault` (PropSeh.v): C141, after a fault whose code is in the table, rethrow() in the handler of ex_catch_any jumps, whatever the uninitialised members hold.
  - `win_rethrow_any` (PropSeh.v): C141: rethrow() in the handler of an ex_catch_any reaches the enclosing block, with name and place, exactly when the uninitialised member caught is not negative; otherwise it is lost there.
  - `win_rethrow_name` (PropSeh.v): C141: rethrow() in the handler of another ex_catch(x) reaches the enclosing block with the message x, without its place, under the name of the first slot of the table whose code is that of a throw or equals the uninitialised member caught.
  - `win_panic_renamed` (PropSeh.v): C141: ex_catch(panic) takes every throw, and its rethrow() gives the exception the first name of the table instead of panic.
  - `win_handler_refuted` (PropSeh.v): C141 is refuted: a throw in a handler, a rethrow() in a handler of ex_catch_any and a rethrow() through two blocks for panic do not reach the enclosing handler.

**C142** (partial) On Windows an exception passes a guard section. A throw passes the section unchanged, a registered fault leaves it with its name; refuted for the fault at the enclosing ex_catch: the block for it gets the first name of the table, a block for another name loses it. The deferred functions are any handler that ends normally
  - `win_guard_throw` (PropSeh.v): C142: a guard section (ex_catch_if) is transparent for a throw: after its handler and its finally block everything is as if the exception had been thrown behind it, with the same name and place; without enclosing block the program ends with that name.
  - `win_guard_body` (PropSeh.v): C142: so it is for every body that ends with an exception, for example in another guard section inside of it.
  - `win_guard_fault` (PropSeh.v): C142: a registered fault leaves a guard section as an exception with its name, without place.
  - `win_guard_fault_caught` (PropSeh.v): C142: an enclosing ex_catch for that name gets it, but under the first name of the table; one for another name loses it.
  - `win_guard_refuted` (PropSeh.v): C142 is refuted: a division by zero that passes a guard section is handled by a block for it as an access violation, and lost in a block for another name instead of passing on.

**C143** (partial) The last message tells an exception during unwinding from an uncaught one. An exception out of a release function is always reported as such. Otherwise message_exact says when the message is wrong: the flag is set by a NULL pointer in the first place or a repeated value, also during an exception that was handled, and refutes the claim; message_right_partial gives the condition under which it is right
  - `unwinding_reported` (PropUnwindFlag.v): C143, first half: an exception out of a release function always ends the program with the message about unwinding.
  - `message_exact` (PropUnwindFlag.v): C143, the other exceptions exactly: when an exception that nothing takes ends the program, and no release function throws, the message is about unwinding if and only if the last exception of the program that found a protected pointer met one that is NULL in the first place or has the value of the variable released before it.
  - `message_right_partial` (PropUnwindFlag.v): C143: with protected pointers that are all different from the one before, and the first one not NULL, the message is right.
  - `message_releases` (PropUnwindFlag.v): C143, what is released: under the same conditions on the pointers the exceptions of a program, handled or not, release every pointer that is not NULL, each once and in order, up to the exception that ends the program.
  - `message_refuted` (PropUnwindFlag.v): C143 is refuted: no release function throws, but a NULL pointer was protected when an earlier exception was thrown and handled (or when the last one was), and the program says that an exception was thrown during unwinding; the other protected pointer is not released.

**C144** (proved) Compare and exchange built from compare-and-swap is atomic. Linearizability at the compare-and-swap, under sequential consistency, for expected variables that are the caller's own; the TinyCC variants are left out
  - `cas_atomic` (PropCas.v): C144: whatever the threads do, the calls take place one after the other: there is an order of them in which each finds the value of the variable and exchanges it exactly if it is the expected one, which leaves the variable as it is; each thread's calls that have returned are those of the order, in its order and with its results, except for at most one that has failed and not returned; and when a thread is between calls its expected value is what its last call found.
  - `cas_counter` (PropCas.v): C144: no exchange is lost: when every call wants to add D to the value it expects, modulo the size M of the type, the variable has grown by D for each call that returned true.
  - `cas_alone` (PropCas.v): C144: a call that runs alone from its load on returns whether the variable has the expected value, and leaves the value found as the expected one.

**C145** (proved) The spinlock works with the memory orders it asks for. Release/acquire memory with modification order, release sequences and race detection on one lock and one protected variable
  - `weak_spinlock` (PropWeak.v): C145: with the memory orders of the code, for any number of threads and any updates, at most one thread is between lock and unlock, no access to the protected variable is a data race, and no update is lost.
  - `weak_spinlock_progress` (PropWeak.v): C145, progress: when no thread has the lock, a thread in its loop can take it with two steps of its own, though it may see old values first.

**C146** (partial) Once a thread is seen to be done, what it stored may be used. Proved for promise_get, hence thrd_get; refuted for thrd_wait and thrd_is_done alone: their load is relaxed, so using what the function stored is a data race. Full statement: also after thrd_wait and thrd_is_done
  - `promise_done` (PropWeak.v): C146, no thread leaves its loop before the function has ended and the result is stored, whichever loop it is.
  - `promise_published` (PropWeak.v): C146: a thread that leaves the loop of promise_get finds the result that the thread of the promise stored, and that use is not a data race, whatever the other threads do and however old the values are that they see.
  - `promise_relaxed` (PropWeak.v): C146, the loop of thrd_wait and thrd_is_done, whose load is relaxed: a thread that goes by them alone never has the result without a data race.
  - `thrd_wait_refuted` (PropWeak.v): C146 is refuted for thrd_wait: the function has stored its result and set done, thread 1 leaves thrd_wait, uses what the function stored, and that is a data race.

**C147** (partial) The atomic operations mean the same when TinyCC compiles them. Refuted: compare-and-swap returns whether it succeeded instead of the value found, so loads never return the value, fetch loops repeat the operation and compare-exchange does not store; the Windows forms pass the address of a parameter. The fetch operations are right only for a variable that is 1
  - `tcc_load_wrong` (PropTcc.v): C147, loads: they leave the variable as it is but never return its value: 1 for 0, and 0 for everything else.
  - `tcc_fetch_exact` (PropTcc.v): C147, fetch_sub, fetch_and, fetch_xor, fetch_or: the operation is repeated until the variable is 1, done once more, and 1 is returned; if the variable never is 1, the loop does not end.
  - `tcc_fetch_right_partial` (PropTcc.v): C147, so the fetch operations are right for a variable that is 1, and the result is the old value only then.
  - `tcc_exchange_exact` (PropTcc.v): C147, compare_exchange exactly: it works as if the expected value were 0, if it is not, and 1, if it is 0; and with a success and a failure exchanged in the first case.
  - `tcc_exchange_wrong` (PropTcc.v): C147, so when the expected value is the one of the variable, the desired value is never stored; the answer is that it was stored, if the value is not 0.
  - `tcc_win_exact` (PropTcc.v): C147, the three functions of the Windows build: what decides is the address of the expected value; the expected value is never updated.
  - `tcc_swap_exact` (PropTcc.v): C147, c89atomic_swap, in addition: what it stores is the address of its parameter.
  - `tcc_refuted` (PropTcc.v): C147 is refuted: a promise that is not done is read as done and one that is done as not done; the mask 4 on the value 6 never returns; 5 with expected value 5 is not replaced by 9, although the answer is yes; with an expected value at address 4096 the Windows form does not replace 5 by 9 and answers no.

**C148** (partial) Threads that enter their first blocks at the same time get the default signals converted. proved: a thread alone does what the sequential model does, a thread that did the set-up has handlers for all default signals as long as the table is not full, the table holds default names only, and threads started behind a first block change nothing; refuted: the flag is set behind the first signal, and two threads can take the same slot, so that one signal is thrown under the name of another or has no slot for good
  - `setup_alone` (PropSetup.v): C148, a thread whose entry does not overlap with that of another thread does what the sequential model (SignalModel.v, C42 and C43) says, for every state of the table.
  - `setup_handlers_partial` (PropSetup.v): C148, what holds however the threads interleave: a thread that did the set-up itself is in its block only when the action of every default signal is the handler (as long as the table is not full).
  - `setup_names_partial` (PropSetup.v): C148, from program start, however the threads interleave: every slot is free or holds a default name, and its number, once stored, is one of a default signal; so a signal whose number is in the table is thrown under a default name, if not always its own.
  - `setup_before` (PropSetup.v): C148, threads that start when a block has been entered before: none of them touches the table, whatever the schedule.
  - `setup_flag_stays` (PropSetup.v): C148, the flag is not cleared again: a thread that comes behind a set flag skips the set-up, whatever the other threads still do.
  - `setup_early_refuted` (PropSetup.v): C148 is refuted: exception_signal_set is stored behind the first signal, so thread 2 enters its block while thread 1 has registered SIGSEGV only: SIGABRT still ends the program.
  - `setup_window_refuted` (PropSetup.v): C148, the window in between: thread 2 is in its block, thread 1 has called sigaction for SIGABRT and not yet stored its slot; the handler finds no slot and throws NULL.
  - `setup_name_refuted` (PropSetup.v): C148, the names are refuted too: two threads that look for a free slot at the same time both take slot 1, thread 2 for SIGSEGV (the slot of thread 1 for it is only half stored) and thread 1 for SIGABRT; with both in their blocks, SIGABRT is thrown under the name of SIGSEGV.
  - `setup_lost_refuted` (PropSetup.v): C148, and for good: two threads overwrite each other's slots twice (slot 1: SIGABRT of thread 1 by SIGSEGV of thread 2; slot 2: SIGABRT of thread 2 by SIGFPE of thread 1); with both in their blocks SIGABRT has a handler and no slot, and is thrown as NULL whatever the threads do afterwards.

**C149** (partial) raii_value and get_arg give the value behind the pointer. proved for objects of at least 256 bytes, such as slots of argument packs; refuted: the whole 256-byte union is copied, so the documented use with the address of an int reads behind it, and for NULL the function ends without a value
  - `value_exact` (PropValue.v): C149: the outcome for every object: the first 256 bytes if it has that many, undefined behaviour for a smaller object and for NULL; get_arg is the same function, and thrd_get differs for NULL only.
  - `value_member_partial` (PropValue.v): C149, where it holds: the union has a signed and an unsigned member of one, two, four and eight bytes, and of an object of at least 256 bytes that begins with a number of that type (a slot of an argument pack, a result, which have 272), the member is that number, for every number.
  - `value_int_refuted` (PropValue.v): C149 is refuted for the documented use (README.md 45-54, examples/thrd_async.c, tests/test-defer.c): the argument is the address of an int, and get_arg reads 256 bytes from it.
  - `value_null_refuted` (PropValue.v): C149, NULL is refuted: the message is logged and then there is no value to return.

**C150** (partial) The err functions print what err(3) says. proved: the text behind the name of the program, from the errno of the call, and the status; refuted: the name of the program is never printed
  - `err_text_partial` (PropErr.v): C150: whatever the printing functions leave in errno, err and warn print the message of the error at the call, errx and warnx none; warn and warnx return, err and errx end the program with the low byte of the status. The name of the program is not printed.
  - `err_name_missing` (PropErr.v): C150, the text of err(3): refuted, the name of the program is missing from every message, whatever it is.
  - `err_name_refuted` (PropErr.v): C150 is refuted: "prog: f: no such file".

**C151** (partial) opterr decides on messages only. refuted for an ambiguous name behind the last -W: the message reads the NULL behind argv; every outcome with opterr set is the one without it, and without "W;" in the option string they are always equal
  - `getopt_opterr_partial` (PropOpterr.v): C151. Whatever a call of getopt, getopt_long or getopt_long_only gives with opterr set, it gives without it too: the value, every variable and the order of argv. The property says equal outcomes; missing is the converse, which getopt_opterr_refuted shows to be false.
  - `getopt_opterr_plain` (PropOpterr.v): C151. Without "W;" in the option string opterr makes no difference at all, whatever the call does.
  - `getopt_opterr_refuted` (PropOpterr.v): C151. An ambiguous name behind the last -W: with opterr set the message reads the element behind it, which is NULL; without it the call reports '?'.

## Trusted base

* **Coq 8.16.1's kernel** (with `vm_compute`, which is part of it).
* **Print Assumptions.** Every theorem named in `MANIFEST.json` is followed by `Print Assumptions` in its `Prop*` file. The answer is
  "Closed under the global context" for all of them: no axiom of our own and none of the standard library. (A scan of the
  *loaded modules* lists the seven parameters of `Coq.ssr.ssrunder`'s module type, which the standard library's own files load; no
  theorem here depends on them.)
* **The transcription** of the C code into the model. Each definition cites its file and lines, the simplifications are in the
  header of each model file. The most important ones:
  * allocation succeeds unless the model of that function has an explicit failure parameter (base64, arenas, `raii_deferred`);
  * sequential consistency (except in `WeakModel`); one shared access per step, `realloc`, `malloc` and a lock operation each being one step;
  * blocks have identities, so two live blocks never overlap and a released block is recognised as such;
  * exception names are compared by identity in `ExcModel`, as `catch` does (it compares addresses of the global name arrays); the comparison by content that `caught` makes is in `SignalModel`;
  * `setjmp`/`longjmp`: control returns to the matching frame; local variables of the frame are taken to keep their values.
* **Preconditions the code relies on** are hypotheses of the theorems: zero-terminated strings without inner NUL, lengths below
  2^31 where an `int` holds them, buffers of the documented size, an argument that is a live object of the right type.

### Not modelled

* `include/rpmalloc.h`, `include/cthread.h`'s wrappers around pthreads (its thread-local macros are in `TlsModel`) and `src/rpmalloc.c`: external code, only their documented
  behaviour is used.
* Of the Windows-only structured exception handling (`SehModel`) the macro `ex_finality`, statements in finally blocks, and the delivery of faults that no filter takes.
* Printing: `ex_trace`, `ex_backtrace`, `ex_print` beyond the error they name.
* The other bundled compatibility files of `include/compat` (sys/queue.h, sys/tree.h, getopt.c, wait.h, dirent_msvc.h and some macros of sys/time.h, time.h, endian.h and sys/stat.h are modelled; `getopt_long` and `getopt_long_only`, declared in getopt.h, are defined nowhere).
* The C++ build.
* Asynchronous delivery of signals at arbitrary instructions other than in `AsyncModel` and `EntryModel` (elsewhere a raise is a throw at a statement; `MaskModel` has pending signals), weak-memory behaviour other than that of the spinlock and the promise (`WeakModel`), floating-point rounding
  (`simd_atod` is computed over the rationals; the errors found are far larger than rounding).
* Real time: `thrd_sleep`, timeouts, fairness of the scheduler.
