# Formal model of booktest in Rocq (Coq 8.16.1)

## Layout

All Coq files are in `rocq/theories/` (logical name `Verif`) and are listed in `rocq/_CoqProject` in build order.

| suffix | contents |
|---|---|
| `XxxModel.v` | executable Gallina model of the Python code, each definition citing file and lines; no proofs. (`Section`, `Tset`, `Repeat`, `Info`, `Checked`, `Anchor` and `Table` model no code of their own: they hold vocabulary and proofs about the calls of `CaseRunModel`.) |
| `XxxSpec.v` (or the top of the property file) | small independent vocabulary used in statements |
| `XxxFacts.v`, `XxxLines.v`, `XxxProofs.v` | lemmas |
| `XxxProps.v` | the property theorems `Cnn_…`, each followed by `Print Assumptions`, and examples that meet the hypotheses |

Conventions: a Python `str` is a `list N` of code points; a loop is structural recursion or
recursion on explicit fuel with a distinguished out-of-fuel value that theorems exclude; an
exception is a value; the file system is an association list from paths to contents; a test
body is the trace of API calls it makes (any adaptive test yields some trace, and theorems
quantify over all traces).

Theorem names: `Cnn_name` proves a property; `Cnn_name_refuted` is a concrete counterexample to the property as stated;
`Cnn_name_partial` proves what remains true, its hypotheses say what is missing. `MANIFEST.json` maps properties to theorems.

## Areas

| area | Python | properties | method |
|---|---|---|---|
| `Tokenizer` | tokenizer.py | C01–C04 | strong induction on the text, declarative token grammar |
| `CaseRun` (+ `Reader`, `Section`, `Tset`, `Marks`, `Repeat`, `Info`, `Checked`, `Anchor`, `Point`, `Table`) | testcaserun.py: reader, output, report, all API calls | C05–C16, C72–C74, C81, C83, C91 | refinement to an abstract machine (`ast` in CaseRunProofs) whose state is "text written, mark of the line, snapshot line"; invariants over call sequences |
| `Fs` | the file operations used | (all file properties) | pointwise `lookup` equations |
| `Review` | review.py: interact, freeze_case, case_review, --review | C17–C20, C26 | case analysis, induction on the answers |
| `Crash` | review.py:85-98 freeze_case, killed between or inside its steps | C100 | cases of where it dies |
| `Reports` | reports.py: line files, cases.txt | C21, C22, C57, C99 | induction; prefix induction for crashes |
| `Runner` | testrun.py: run loop, --continue | C23–C25 | induction on the case list, histories of runs |
| `Select` | tests.py selection, run list; dependencies.py, testrun.py lookup | C27, C28, C30 | boolean reflection; post-order depth-first search with a rank |
| `Cache`, `CacheNone`, `Changed` | cache.py; stored results in testrun.py | C29, C31–C33, C61 | refinement to maps over histories |
| `Sched`, `SchedExact`, `SchedCrash` | runs.py: scheduler thread, workers, main thread, its `finally` block | C34–C41, C62–C64 | transition system; inductive invariants, measure, confluence |
| `Func`, `Http` | functions.py, requests.py, httpx.py | C42–C46, C71 | state machines over call sequences |
| `Bytes`, `HttpFiles`, `HttpExact`, `HttpxExact` | UTF-8, base64; the texts hashed and the JSON files of requests.py, httpx.py | C95–C97 | functions on lists of bytes and JSON values |
| `HttpList` | requests.py, httpx.py: t_snapshots | C101 | the hashes of a sequence of requests are a function of its multiset |
| `Env` | env.py | C47, C48, C65 | pointwise equality of environments |
| `Format`, `Tformat` | rel_path, index, clean; tformat (on `Json`) | C49, C50, C59, C60 | structural induction |
| `Config` | config.py, setup.py, exec_parsed | C51, C52, C58, C68, C69, C98 | pointwise last writer |
| `Suite` | naming.py, testsuite.py, testbook.py, detection.py | C53, C54, C66, C67 | induction |
| `Life` | open/close of a case, logger and stderr; utils.py, setup/teardown | C55, C56, C70 | state machine over histories |
| `RunCase` | testcaserun.py + testrun.py + review.py + reports.py + index on one file system | C75–C80 | exact effect of one case, then induction on the run |
| `Console` | review.py, testcaserun.py, testrun.py: what a sequential run and --review print | C84, C85 | the runs of `RunCase` and `Review` with their text; forgetting the text gives them back |
| `Commands` | tests.py exec_parsed: the commands of the command line, from the configuration and the selection to the exit code | C86–C90 | `--cov`, `--setup` and argparse left out (for the last two see `Args`); a parallel run and `os.system` are parameters (`shell`: what a command line prints and its status, it changes no file) |
| `Json`, `JsonText`, `JsonRead` | Python's json.dump and json.load (C source of CPython as specification); functions.py and env.py: their files and the call key | C92–C94, C146 | printer and reader with proof that reading a printed value gives it back; the files compose with `Func` |
| `Interleave`, `Par` | runs.py: workers on one file system, one file operation at a time; main thread before and after | C82 | processes with read and write sets; every interleaving agrees with running one after the other |
| `ParConsole` | runs.py:285-417: what the main thread of a parallel run prints | C102 | forgetting the text gives `Par`; blocks of the sequential run in another order |
| `Cli` | cli.py, detection.py detect_setup | C106, C107 | os.walk and import are parameters; composition with `Suite` and `Select` |
| `Shell` | os.system with `mkdir -p` and `rm -rf`: testcaserun.py, runs.py | C108 | word splitting; command lines with other shell syntax are a parameter |
| `Tmp` | tmp_path, tmp_dir, tmp_file and file, and the removal of old output: testcaserun.py | C142 | on the tree of `Shell`; no links, rights or names . and .. |
| `Image` | testcaserun.py: file, rename_file_to_hash, timage | C109 | induction on the items; composition with C11 and C60 |
| `Encode` | testcaserun.py:269-273, 417-547 and testrun.py:88-107 when a character cannot be encoded | C110 | every write may raise; invariant: storable lines and the current line |
| `Blocks` | env.py, requests.py, httpx.py, functions.py: several blocks in one test | C111 | composition of `Env`, `Http` and `Func` over the file they share |
| `It` | testcaserun.py TestIt, it: chains of assertions as the calls they make | C112 | the objects' comparisons, type and str() are arbitrary functions; a raising comparison is a raising test |
| `HttpTalk` | (no model of its own) | C113 | a test is a function of the outcomes so far; `Http` sends its requests |
| `HttpSession` | requests.py SnapshotAdapter.send, start, _fake_send, _set_method | C114 | Session.send and get_adapter of the requests library as described in the file; redirects are further requests of the test; one thread |
| `HttpThreads`, `HttpThreadsReplay` | requests.py _send_lock, threading_rlock, _fake_send, SnapshotAdapter.send, with the steps of several threads interleaved; the redirects that Session.send follows | C122 | what a redirect leads to is a parameter; the limit on redirects, cookies, and blocks that start or stop while a thread is in a request are not modelled; a thread that finds the lock taken may give up at any time |
| `Main` | cli.py main, __main__.py, from the command line to the exit status | C123 | what argparse rejects by itself and -h are left out (see `Args`), argcomplete is not modelled; what an exception prints is not modelled; the parallel runner is a parameter (see `ParMain`) |
| `ParMain` | tests.py:497-505, runs.py:154-158 and 285-417 as part of the command | C125 | any outcome that `ParConsole` allows; no abort |
| `ParRecord` | no code of its own: `Mix` and `Par` together | C126 | — |
| `ParAsk`, `ParStopProps`, `ParResume` | runs.py:178-283, 333-417 and review.py:85-125: the main thread asks, accepts, stops and is interrupted while the workers go on | C127, C128, C130, C131, C132 | the answers are given beforehand; one answer per question, read at the start of a review; a Ctrl-C reaches the main process only, at most once, in the loop of runs.py:335-357 (one that comes between the statements after a review counts as coming before them); which waiting test is handed to the pool next is left open |
| `Kill` | testrun.py:78-191: a sequential run that is killed or left with Ctrl-C | C133 | the files of the test that was running, metrics.json and index.md may have any content then; the report may end in the middle of a record; without -a and -u (what they write to the snapshots is not cut) |
| `ParKill` | runs.py:285-417: a parallel run that is killed | C134 | the workers are at any point of any interleaving (`psteps` of `ParModel`); on top of that the files of running tests may be half written, and the files of the run itself have any content; without questions, -a and -u |
| `AcceptKill` | testrun.py:78-107 with review.py:85-125: the process dies while a test runs that is accepted with -a or -u | C137 | one test; its output files may have any content before the review, freeze_case is cut as in `Crash`, the stored value may have any content; the test does not read files |
| `AcceptRun` | testrun.py:112-191 with `AcceptKill`: a sequential run, with or without -a, -u and -c, that is killed from the opening of cases.txt on | C140 | as `Kill`, with `AcceptKill` for the test that is running; records are flushed one by one (reports.py:158-164); metrics.json and the index may be left with any text |
| `Said` | no code of its own: what the recording blocks, the resources, --forget, --review and --setup say and write, from the models above | C52, C85, C87, C88, C118, C120, C121, C138 | as the models it speaks about |
| `Resource` | dependencies.py:7-36 Resource and port, the sets of resources in runs.py | C138 | identifiers are numbers, truth values or texts; that str of a number is injective is a hypothesis |
| `Cover`, `CoverExact` | tests.py:494-543: --cov | C139 | the library coverage, the listing of the working directory and the run itself are parameters |
| `Vocab` (only `VocabProps`) | no model of its own: small definitions of other files described by themselves | C26, C30, C52, C54, C56, C66, C85, C98 | |
| `SuiteExact` (only `…Props`) | no model of its own: which classes of a module share a path | C54 | as `Suite` |
| `ConfigExact` (only `…Props`) | no model of its own: when the configured number of processes is used | C68 | as `Config` |
| `Exact`, `Exact2`, `RepeatExact` (only `…Props`) | no model of their own: what the code does where C12, C44, C48, C52, C53, C57, C58, C65, C71 and C94 fail | C12, C44, C48, C52, C53, C57, C58, C65, C71, C94 | |
| `Args` | tests.py:125-344 setup_parser, cli.py:47-63, setup.py:73-114 | C135, C136 | argparse from its source (CPython 3.11), composed with `Main`; the grammar of accepted lines is in `ArgsSpec` |
| `ParAskConsole` | runs.py:309, 335-417 and review.py:28-82, 128-241: what a parallel run with questions prints | C129 | as `ParAsk` and `Console`; the report and the log of a test are read when its review begins; what the terminal echoes (the answers and their line ends) and what the tools print is left out |
| `Mix` | the recorders of env.py, functions.py, requests.py and httpx.py around one test, in any order | C124 | each recorder at most once, no block raises; of what the code of a recorded function does, only its requests with the library requests are modelled; requests of a kind that the test has no recorder for are not modelled |
| `Store` | testrun.py save_test_result, run_case, run_async when pickle.dump raises | C115 | only the result files and records; a new process looks up from the files |
| `Await` | coroutines.py, the async wrappers of the decorators, testrun.py:92-97 | C116 | a coroutine is what it does when awaited; no interleaving of tasks; the arguments are in `Decor` |
| `HttpOrderProofs`, `HttpOrderProps` | (uses `HttpModel`) | C117 | replays in any order; each request is one step |
| `HttpTest` | requests.py:283-380, httpx.py:183-321 as one run of a test: the file read, the conversation, the list printed, the file written | C118 | requests one after another; the directory of recordings of older versions is not read |
| `Legacy` | requests.py:297-320, httpx.py:198-219: recordings of older versions, one file each in a directory | C141 | as `HttpTest`; `HttpTestProofs` is about recordings from wherever |
| `Codec` (only `CodecProps`) | no model of its own: base64 of `Bytes` as RFC 4648 describes it | C118 | finite checks for single bytes |
| `RecordProofs`, `RecordProps` | (uses `RunCase` and `HttpTest`) | C119 | as `RunCase`; the code of a test depends on the files of its snapshot directory |
| `FuncTestModel`, `FuncTestProofs`, `FuncTestProps` | functions.py:15-26, 44-50, 59-77, 109-230 (a whole test inside snapshot_functions) | C120 | as `FuncModel`, `JsonFilesModel` and `RunCase`; patching is left out (C44); the test does not change arguments or results afterwards (C105) |
| `FuncFailModel`, `FailProps`, `NestedProps` | functions.py:175-204 with an unwritable result; testrun.py:88-107 for failing tests | C143, C144, C80 (nested names) | as `FuncTestModel` and `RunCase`; the text in the file of the unwritable call and the message of the TypeError are arbitrary |
| `OrderProps`, `AnyOrderProps` | testrun.py:112-191 in two orders | C145 | as `RunCase` |
| `PartsProps` | testrun.py:112-191 in two parts | C147 | as `RunCase` |
| `SubsetProps` | testrun.py:112-191 with more and fewer tests | C148 | as `RunCase` |
| `FailFastProps` | testrun.py:112-191 with --fail-fast | C149 | as `RunCase` |
| `ReviewTextProps` | no model of its own: exactly when --review prints what the run printed | C85 | as `Console` |
| `EnvTestModel`, `EnvTestProps` | env.py:10-91 (a whole test inside snapshot_env) | C121 | as `EnvModel`, `JsonFilesModel` and `RunCase`; runs in which start or stop raises are left out |
| `HttpAsync` | httpx.py:257-264: requests in flight at the same time | C103 | events sent/answered; without overlap of equal keys it is `Http` |
| `Decor` | dependencies.py:65-153: stacks of decorators around a test function | C104 | structural induction on the stack |
| `FuncHeap` | functions.py:131-190 with results as objects that can change | C105 | induction on prefixes of the run |

## Trusted base

* Coq 8.16.1's kernel (and `vm_compute`, used in examples and counterexamples).
* The reading of the Python code in each `XxxModel.v`. Nothing is extracted or executed; the comments cite the lines.
* No axioms: every property theorem prints `Closed under the global context`. The seven names
  `Coq.ssr.ssrunder.Under_rel.*` that a whole-library listing shows are parameters of a module type
  in Coq's own library; no theorem depends on them.

### Oracles

Parts of Python that the code calls and that are not modelled are explicit parameters of the
definitions; what is assumed of them is a hypothesis of the theorem.

| parameter | stands for | assumed |
|---|---|---|
| `cc : CharClass` | `isnumeric`, `isalnum`, `isspace`, `isupper`, `lower` of a character | `TokClassOK`: numeric characters are alphanumeric; NUL, tab, newline, space, `+`, `-`, `.` are not alphanumeric; `ascii_class` is a proved instance |
| `refloat` | `float(x)` and number formatting in ifloatln/tmsln | nothing |
| `show_dur`, `parse_dur` | printing and reading a duration | round trip where needed (C21, C23) |
| `show_ms`, `show_nat`, `read_took` | printing of milliseconds and counts, reading metrics.json | C85: metrics.json reads back |
| `dump`, `load` | pickle | round trip (C29); C115: reading a file that was not written to its end raises |
| `to_json`, `hash_of`, `sha` | JSON dump+load, SHA-1 | C42: keys are equal only for equal calls; C45: collision free on the objects at hand (`Json` instantiates `to_json` and the key of calls, `HttpFiles` instantiates `sha`) |
| `sha1`, `refloat` in `Json`, `HttpFiles` | hex SHA-1 of a text; `repr(float(text))` | C93, C95, C96: the texts at hand have different digests; floats print as texts that read back |
| module members, signatures | importing and inspecting test modules | none |
| `exec`, bodies | user code | arbitrary functions or traces |

### What is modelled, and where it is simplified

* **Text files.** Contents are texts. Universal newline translation on reading (`\r\n`, `\r`) is
  modelled for snapshots and reports. Encodings are a set of characters that can be stored (`Encode`); elsewhere every character can be.
* **File system.** Files only: a directory exists iff a file lies below it, so empty directories do
  not exist; parent directories always exist; no links, permissions, or full disks. Other
  programs do not write meanwhile. External viewers and diff tools change no project file. Hence the models of runs
  (C75–C90) are about root directories and test names that C108 calls plain; for others the code fails or runs other commands.
* **Test bodies.** The list of API calls made. Direct calls of the internal methods
  `feed_token`, `write_line`, `commit_line`, `reset_exp_reader` and direct writes to `output`
  are not calls. `RunCase` bodies additionally write files through `file`/`tmp_file`.
  `timage` is its tln call. A test that raises has its traceback as a text.
* **Snapshot while running.** The snapshot file does not change while the test runs.
* **Parallel runs.** `Sched` models the scheduling decisions and `Par` the file operations of the workers. In `Par` a run is any
  interleaving that respects dependencies (more than the scheduler allows), what user code reads it reads at one moment, a worker's
  `output.txt` is written at its end, and cases.txt is written once at the end instead of line by line.
* **Reports.** C22 crashes are at character granularity. In `RunCase` the report file is written at each
  record; a test named `cases` would write the same file through a second handle and is excluded.
* **Runner.** Sequential order of `all_names`; the clock is an arbitrary duration per case. Ctrl-C is modelled only for C55, C127 and C133, a killed process only for C100, C133 and C134.
* **Scheduler.** One transition per shared access of the scheduler thread, the workers and the main
  thread, in any interleaving. Durations are natural numbers. KeyboardInterrupt is not modelled here;
  the `finally` block after a crash of the main thread is in `SchedCrash`. Spawning of processes is not modelled; a worker leaves no
  report, an empty one or a record.
* **Configuration.** argparse, environment lookup and the text of `.booktest` are modelled as the
  lists of settings they yield; `int()` of a string is a parameter.
* **JSON.** A float is its `repr`; `JOther` is any object that json.dumps rejects; subclasses of the JSON types, circular values and
  limits on recursion and on the digits of an integer are left out. Characters are code points; C92 names the one case in which the file changes a text.
* **Function/HTTP snapshots.** Values are what comes back from JSON (C92 says what that is). Only `FuncHeap` knows that a recorded result can change after the call; streaming
  responses, timeouts and response classes are not modelled. `requests.py` and `httpx.py` share one model. Of a response, its status,
  headers, encoding and content are modelled; headers that the constructor of httpx.Response adds when they are missing are not.
* **Generators.** A teardown is the code from the first `yield` to the next or the end; closing by the garbage collector is not modelled.
* **Not modelled:** what tests and external tools print themselves, what coverage measures, `cli.py` argument help, what the
  viewers started by `--print` and `--view` do, `str.lower`'s final-sigma rule, process exit handlers,
  `run_tests_async` (runs.py:442-462; nothing calls it, and it would raise: it awaits a number).

## Checking the theorems themselves

`seeded/LOG.jsonl` has one line per deliberately wrong variant of a definition that was tried in a scratch copy: what was
edited, which claim the edit breaks, which theorems stopped being provable, and what was tightened.
