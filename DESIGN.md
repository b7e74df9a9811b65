# Formal model of scanoss/wayuu in Rocq (Coq 8.16.1)

## 1. What is modelled, and how

The C sources are modelled function by function as total, executable Gallina
functions.  Nothing is assumed about memory: **undefined behaviour is a result**.

* `outcome A` is `Ok a | UB reason`; every read or write outside an object, read of
  an uninitialised byte, NULL dereference, bad free, negative copy size and
  declared-array overrun is a `UB` result and stops the function.
* A C array is a `buf` = list of cells (`Some byte | None` = indeterminate) whose
  length is the size of the allocation.  In-place functions take and return a `buf`.
  Stale bytes after a terminator are therefore visible to code that reads them.
* Where stale bytes cannot be observed (an array only ever used as the C string last
  written into it), the array is modelled by its string content and a capacity
  check (`fits cap s`).  Each such simplification is noted at the definition.
* `char` is signed (x86-64 Linux), `isspace`/`isalnum`/`strcasecmp` are the
  C-locale ones (the program never calls `setlocale`).
* libc, OpenSSL digest, the file system, the peer's byte stream, application
  handlers/filters and uninitialised stack contents are parameters or small explicit
  models (`CLib.v`); their assumed behaviour is part of the trusted base.
* Concurrency (`Queue.v`, `Races.v`) is a small-step transition system over an
  arbitrary schedule; the mutex/condition variable are modelled explicitly.

Files (all under `rocq/theories`):

| file | what it models |
|------|----------------|
| `Base.v`, `CLib.v` | bytes, outcomes, buffers; the libc functions used |
| `StringUtils.v`, `JsonUtils.v`, `ConfParser.v`, `FileUtils.v`, `HttpUtils.v`, `Router.v`, `LogMain.v` | the C file of that name (`HttpUtils.v` also `log_access`, `FileUtils.v` also `allowed_address`, `LogMain.v` log.c and the options of main.c) |
| `WsConn.v`, `WsMultipart.v`, `WsRequest.v` | ws.c: connection table and limits; multipart decoder; reading and dispatching a request |
| `Queue.v`, `Races.v`, `Server.v` | ws.c with several threads: work queue; the connection table and strtok without a lock; the life of descriptors |
| `Reads.v` | the handling of a request when single reads fail |
| `Memory.v` | the handling of a request when the blocks whose size the client chooses are refused |
| `LogLine.v` | the bytes `__logger` writes for a message, and what several threads write together |
| `Trace.v` | the handling of a request with the messages it gives to the logger; `http_log_headers` |
| `Sends.v` | what of a response reaches the peer when sends are partial or fail |
| `Workers.v`, `Splits.v` | ws.c:463-656, 697-704: requests handled by several threads, cut at their uses of the connection table; the same cut at the calls of strtok as well (http_utils.c:450-470, string_utils.c:171-191) |
| `ConfHeap.v`, `ReqHeap.v`, `JsonHeap.v` | which heap blocks the configuration code, the handling of a connection and the JSON functions allocate, free and leave behind |
| `Time.v` | time stamps, gmtime's shared result, response times |
| `Start.v` | from main to the accept loop; the text of a peer's address |
| `Program.v` | main.c:45-109 and ws.c:697-704, 713-809 put together: the whole program from its command line to its answers |
| `Mutex.v` | not in the code: the threads of `Workers.v` with a mutex over ws.c:424-456 |
| `Scarce.v` | the handling of a request when any block it asks for may be refused |
| `ScarceStart.v` | the start, the accept loop and the workers' use of the tables when any of those blocks may be refused |
| `ScarceText.v` | `join`, the builders of JSON texts and the registration of routes when any of their blocks may be refused |
| `ScarceConf.v` | reading and writing configuration files when any block may be refused |
| `ScarceItems.v` | items made by a program and the text of a serializable when any block may be refused |
| `ScarceLog.v` | the start when the time stamp of any message may be refused |
| `FailFiles.v` | the address lists, a page, configurations and limits and the two ways of writing a file, when files do not open or are only partly read or written |
| `FailUpload.v` | the multipart decoder when the files of uploads cannot be stored, or only in part |
| `Conformance.v` | tests of the model, not properties: every expectation of /repo/test stated of the model |
| `Spec*.v` | what the properties mean, independent of the model (from the model only record types and, where said, an observation function) |
| `*_proofs.v`, `Lemmas.v` | lemmas |
| `Properties_*.v` | the property theorems only, each followed by `Print Assumptions`, and a concrete case |

## 2. Plan per property

| id | model | proof idea |
|----|-------|-----------|
| C01 | `trim` on buffers (two scans, memmove, two NUL writes) | decompose the buffer as blanks/core/blanks/NUL/rest; show the result buffer; idempotence as corollary |
| C02 | `chop_string` on buffers | induction on the scan |
| C03 | `rtrim`, `ltrim` | induction; characterise by decomposition at first separator |
| C04 | `split` with strtok, 50 slots, 1024-byte uninitialised entries | tokens spec by maximal runs; induction on tokens |
| C05 | `split_once` | from C01, C03 |
| C06 | `join` with allocation check | invariant on the accumulated buffer |
| C07 | `split` o `join` | from C04, C06 |
| C08 | lockstep `strncasecmp` | induction on the prefix |
| C09 | `text_find_after` double loop on a buffer | induction; leftmost occurrence spec |
| C10 | `string_isalnum` | induction |
| C11 | `md5sum`, digest function as parameter, chunk loop | induction on chunks |
| C12-C16 | JSON printers with allocation checks; independent JSON reader in `Spec.v` | round trip by induction; witnesses for injection |
| C17 | `return_response` with uninitialised pointers | case analysis |
| C18-C21 | `conf_parse_first_pass`, `conf_parse_multi`, `conf_item_to_string` | from the trim/strtok characterisations |
| C22-C23 | `parse` over a file (fgets 512), `write_conf` | induction on lines |
| C24 | `write_conf` as a sequence of file-system events, crash = prefix | prefix lemma + witness |
| C25-C28 | file system as a finite-support function; `read_file`, `write_file`, `find_in_file`, `allowed_address` | direct + substring spec |
| C29-C36 | `HttpUtils.v`, bytes sent recorded in the request | computation with exact byte counts; independent response parser |
| C37-C45 | `Router.v`; handlers/filters are parameters, calls recorded in a trace | induction on the route table |
| C46-C51 | `get_line`, `accept_request` on the real 1024-byte buffer | induction on stream |
| C52-C53 | `multipart_parse`, `part_parse`, `save_tmp_file` on buffers | invariant on the reused part buffer |
| C54-C56 | dispatch part of `accept_request`, `handle_static_routes` with stack garbage as parameter | case analysis; path resolution spec |
| C57-C62 | live-connection table; histories as operation lists | invariants by induction on histories |
| C59, C66 | interleaving models without locks | witness schedules; sequential isolation proved |
| C63-C65 | queue with explicit mutex and condition variable | inductive invariants over all schedules |
| C67-C69 | `LogMain.v` | direct |

| C70-C72 | `accept_request` on a whole stream, static files | composition of C46-C56; the 1024-byte line buffer is carried along |
| C73 | `check_createdir` | case analysis |
| C74 | `save_tmp_file` with a 129-byte digest array | what C53 leaves undefined, repaired |
| C75 | all fuel-driven loops | a measure per loop: never `OutOfFuel` |
| C76, C77 | `Server.v`: acceptor, queue, workers, descriptors | inductive invariants over all schedules |
| C78, C79 | `ConfHeap.v`: heap with addresses, allocation and free | the live blocks as a permutation of a list |
| C80 | `accept_request` with routes | composition of C37-C51, C62 |
| C81 | log lines of `accept_request` | no header value holds a line feed; injectivity by cutting |
| C82 | `ReqHeap.v`: heap of one connection | as C78; the leak count as a function of the stream |
| C83, C84 | `Time.v` | calendar by induction on days over 400-year periods; rounding to a double by bounds |
| C85 | `Start.v`: answers of the system calls as a parameter | case analysis by the first failure |
| C86 | `inet_ntoa`, `allowed_address` | cutting at dots; octets by a complete check of the 256 * 256 pairs |
| C87 | `JsonHeap.v`: heap of the JSON functions, serializer as a parameter | as C78 |
| C88 | `Sends.v`: each `send`/`SSL_write` of a response as one call with an arbitrary result (part of the data, or broken connection) | the network's answer may depend on the calls before it, not on time |
| C89 | `Reads.v`: the reads of `accept_request` as a list of bytes and failures | conservative over C46-C56; two lists that leave the same headers and body are handled alike |
| C90 | `Trace.v`: the functions of the request path again, each also returning its messages; `C90_same_result` ties it to `WsRequest.v` | messages of the application's own handlers are not part of it; a message is its level and text; the prefix that log.c writes before it (time, level, file, line) is in C91 |
| C91 | `LogLine.v`: `log_bytes` (the three stdio calls of log.c:79-83, one writer) and `lrun` (any interleaving of the calls of several threads) | a stdio call is one step (POSIX locks the stream); the time, thread id, file, function and line are arguments; the text is what vfprintf has formatted; `C91_tame` is about the messages of `Trace.v`, so the application's own are not included |
| C92 | `accept_request` of `WsRequest.v`; `in_sequence` (`SpecEffects.v`) handles requests in a row with the file system and connection table each leaves | an application's own effects on files are not modelled; one worker at a time (several: `Queue.v`, `Races.v`, `Server.v`); a request whose handling is undefined has no result and is not covered |
| C93 | `Memory.v`: an answer for every allocation whose size comes from Content-Length; a refused block is NULL and its first use undefined | only the five blocks sized by the client; refusal of small blocks is not modelled; without tmpfields the result is undefined at once, although the loop before the first use may run |
| C94 | `Queue.v` as for C63-C65 | a measure on states that every step of a thread lowers; the scheduler may be unfair, so nothing is said about a worker that never gets the mutex while connections keep arriving |
| C95 | `Workers.v`: accept_request cut at its uses of the live-connection table, run by any number of threads | each use of the table and the file work of a request take one instant; splitting the URL is not interrupted (C66, C102); the cut is proved equal to `accept_request` |
| C96 | `Gate.v`: the accept loop with the address lists in front of `Server.v`, getpeername in accept_request | the steps of `Server.v`; a reset is noticed from some moment on; getpeername and the taking of a connection are one step; everywhere else getpeername succeeds |
| C97 | `AccessLog.v`: log_access as open, one buffered fprintf, close; `lrun` of `LogLine.v` for the threads | the stream's buffer has 4096 bytes; a text below that is one write(2), which appends all of it in one step (O_APPEND on a local file system); a longer text is cut anywhere |
| C98 | nothing new: `accept_request` with all it calls outside the API; `SpecDefined.v` says which requests are `wrong` from the bytes | peer addresses of at most 15 bytes, paths of root, index and favicon that fit, files below 2^31 - 2048 bytes; the bytes on the stack where an uninitialised path is printed (`v_stk`) are a non-empty string |
| C99 | nothing new: `accept_request` for API URLs, `Router.v`, and `Workers.v` for the schedules; `SpecDefinedApi.v` says which requests are `api_wrong` | handlers and filters always return and do nothing undefined; `atoi` is glibc's (the C standard leaves numbers beyond int undefined) |
| C100 | nothing new: `WsMultipart.v`; `SpecDecode.v` says which text a body has | the MD5 of a file name has 36 bytes of room (as in the code); bodies below 2^31 bytes, boundaries of at least two |
| C101 | nothing new: C98, C99 and C95 put together | as C98, C99 and C95 (so splitting the URL is not interrupted; C102 is about that); the second part for servers without limits, because a limit can refuse the harmful request |
| C102 | `Splits.v`: the threads of `Workers.v` with one step for each call of strtok, the blocks its copies live in and the static pointer; the same with a lock over `split` | the storing of a token goes with its call of strtok, so a copy freed in between is not seen; simultaneous access below a call is not modelled; the server with the lock is not the code, it states what would repair it. Simulation: the pool of `Workers.v` is a component of the state |
| C103 | nothing new: `parse`, `load_limits`, `allowed_address`, `main_options` and `main_run`; `SpecSafe.v` says which files and arguments are bad | as C85 and C69; `atoi` is glibc's; fopen succeeds on every regular file and on directories; the file lists are those seen at one instant |
| C104 | `Program.v`: main, ws_launch, the accept loop with its lists and queue, and the worker threads, as one transition system from the command line on | as C85, C95 and C103; accept() succeeds, the lists are not edited while it runs (C76 and C96 have failures and edits), peers do not reset, with TLS the stream is the plaintext. A run of the program is a run of the pool of `Workers.v` with a longer queue (simulation); the undefined schedule lets the workers rest before the guilty connection is taken; non-interference by lockstep |
| C105 | `Workers.v` once more, with the slots each step reads and writes stated (`SpecMutex.v`); `Mutex.v`: the same threads with a mutex over connection_add and connection_del, which the code does not have | a race is two threads about to access one slot, one of them to write it; the reads of get_live_stats are listed in full if a rule in force is for the URL, and that each makes a difference is not claimed (the decision is made by counting); one_server: no two connections share a descriptor |
| C106 | `Scarce.v`: the request with an answer for each block it asks for, named by the place that asks (`place`) and, for header lines and URL pieces, by its number; a refused block is NULL and its first use undefined, an unused one is harmless | plain HTTP only; exactness outside the API (of the API branch that nothing changes if all blocks are given, the three first blocks, and that a request handled to the end is handled the same, unless the block of a form made from the path is refused; C107 has the exact blocks); a NULL form is a block of no bytes; the debug log level is off; `strdup(NULL)`, `strtok` and stores through NULL count as undefined; `send` of a NULL pointer is taken to fail with EFAULT and send nothing (http_utils.c ignores the result); blocks of stdio, OpenSSL, and the diagnostic log are always given |
| C107 | `Scarce.v`; which blocks the body, the route and the form want is stated in `SpecScarceApi.v` from the bytes | as for C106 and C99; streams ending with the bare name `Content-Length:` are left out, because then the length depends on the line before (the forms are then empty or fail, C99); what the application does with a NULL form is the application's function applied to a form of no bytes |
| C108 | `ScarceStart.v`: the program of C104 with an answer for each block the start and the accept loop ask for (`block`; those of the accept loop by how many connections are still to come); a refused block is NULL and its first use undefined (copying no bytes from NULL, when a list is empty, is not a use) | as for C104; the blocks of requests are given here (C106, C107 refuse them), and those of stdio, OpenSSL, pthreads and the application's routes; that the limits and the table are NULL is seen by a worker at the step that uses them |
| C109 | `ScarceText.v`: the functions of C06, C12-C15 and `router_add_route` with an answer for each block they ask for (`chunk`, those of elements by their index); a refused block is NULL, its first use undefined, and returned without use it is the NULL result | the blocks of the log lines are given; what the application does with a NULL result is not modelled; undefined means undefined, whatever the cause: the order of the first failing accesses is not part of the statement |
| C110 | `ScarceConf.v`: `parse`, `new_serializable` and `write_conf` with an answer for each block they ask for (`cblock`, by line or item and index); a refused block is NULL, its first use undefined; copies are stored unlooked at (`nitem`: an item whose strings may be NULL) | the items handed to `new_serializable` are given; without the copy of the value in `conf_parse_multi` the call is `strtok(NULL, ...)` on a freed string, undefined here; writing is stated for at most 20 items and a path that is not a directory |
| C111 | `ScarceItems.v`: an answer for each block new_conf_item_with_values, copy_conf_item, new_serializable and serializable_to_string ask for; refused strings are NULL (`nitem`), and strdup, strcmp and strlen of NULL are undefined | as for C110; the arguments of new_conf_item_with_values are strings |
| C112 | `ScarceLog.v`: the start of `Start.v` with an answer for the time stamp of each message, by the line of ws.c that logs | as for the start (C85); the other blocks are given (C108 refuses those); the messages of `-r` in main.c are left out |
| C113 | `FailFiles.v`: `read_file`, `find_in_file`, `allowed_address`, `direct_file`, `write_file`, `write_conf`, `parse` and `load_limits` with the answers of fopen, fread, remove and fwrite as parameters | fseek and ftell on an open file succeed; the file is the same at `is_file` and at fopen; blocks are given; after a read error glibc's fgets drops the line it has begun and getline hands it over |
| C114 | `FailUpload.v`: the multipart decoder of `WsMultipart.v` with `write_file_e` of `FailFiles.v`, the answers given by the position of the part in the body | as for the decoder (C52, C74): the size of the digest array is a parameter; `same_but_uploads` compares the files |

Statements that the unchanged code violates are proved as `..._refuted` theorems with
a witness, next to the strongest true statement.

## 3. Trusted base

* Coq 8.16.1's kernel (with its virtual machine, used by `vm_compute`).
* **No axioms.**  Every property theorem prints "Closed under the global context".  (Loading
  the standard library's `lia` brings seven functor parameters of `Coq.ssr.ssrunder` into the
  environment; no theorem depends on them.)
* The reading of the C code: each definition of a model file cites the lines it stands for and
  states its simplifications.
* The libc behaviour written down in `CLib.v` (glibc, C locale, x86-64: signed char, 32-bit
  int, 64-bit size_t), that of getopt in `LogMain.v`, of gmtime, strftime and `%.3f` in
  `Time.v`, of malloc and free in `ConfHeap.v` and of a mutex and a condition variable in
  `Queue.v`.

Parameters, over which the theorems quantify: the MD5 function, the file system, the peer's
bytes, the application's handlers and filters, the contents of uninitialised memory, the
answers of system calls at start-up and of the sends, the schedule of the threads.

## 4. What is not modelled

| what | where | consequence |
|------|-------|-------------|
| failing `malloc`/`calloc` | everywhere but for the five blocks of `Memory.v` (C93) and those of a request (`Scarce.v`, C106, C107), of the start and of the accept loop (`ScarceStart.v`, C108), of `join`, the JSON texts and routes (`ScarceText.v`, C109), and of the configuration files and items (`ScarceConf.v`, `ScarceItems.v`, C110, C111) and of the messages of the start (`ScarceLog.v`, C112); what is left is the time stamps of the accept loop and of `-r`, and `md5sum`, whose only call is undefined with any memory (C92) | allocations succeed |
| failing file operations | everywhere but in the functions of `FailFiles.v` (C113) and `FailUpload.v` (C114): files sent with `send_stream`, the log file once it is open | they succeed, and files are read and written whole |
| TLS records and handshake | ws.c:480-493, http_utils.c:45-57, 251-261 | a TLS connection is its plaintext; failed handshakes and reads are in `Reads.v` |
| what happens in the kernel after `send` took the data | http_utils.c:251-261 | `Sends.v` lets every call take any part of its data; outside C88 what is sent arrives |
| `init_openssl`, `cleanup_openssl`, `print_usage` | ws.c, main.c | no effect on the properties |
| code after the accept loop | ws.c:811-816 | unreachable |
| the memory model of the hardware | `Races.v`, `Queue.v`, `Server.v`, `Time.v` | interleavings of single steps; a data race is shown by its interleavings |
| int overflow of counters | loops over strings | strings are shorter than 2^31; the sums of response lengths for files and streams (http_utils.c:211, 227, 327-328) do overflow in the model (`int_add`) |
| `ws_cond` never passed to `pthread_cond_init` | ws.c:37, 678, 806 | a global of zero bytes, which is what PTHREAD_COND_INITIALIZER is in glibc; taken as initialised |
| `POSIXLY_CORRECT` and other settings of the environment | main.c | unset: getopt permutes its arguments |
| paths through other file names (links, missing parents, `..`) | `FileUtils.v` | a path is a key; whether fopen creates a file is `w_opens` in C113 and C114, elsewhere it fails only on a directory |
| application code in /repo/test and /repo/doc | | not part of the program |

Every other function of the ten C files has a definition of the same name in the model file of
its C file, or a definition whose comment names it.

## 5. Tests of the theorems

`seeded/LOG.jsonl` records wrong programs: a definition of the model was changed in a scratch
copy, and the theorems that no longer prove were noted.  Where every theorem still proved, a
theorem was tightened.

`Conformance.v` compares the model with the project's own unit tests (all of /repo/test): on each
of their inputs the model gives what the test expects.  The one exception is the upload test of
ws_test.c, which passes in C although it writes beyond an array; the model calls that undefined.
