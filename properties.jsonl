{"id": "C01", "title": "Tokenization loses nothing", "statement": "Iterating TestTokenizer over a text that contains no NUL character terminates, never yields an empty token, and the concatenation of the yielded tokens is exactly the text.", "quantifier": "every text (any length, any Unicode code points) without NUL, for every classification of code points into numeric / alphanumeric that is consistent with Python's", "why_tests_cant": "infinitely many texts; tests sample a few strings", "anchors": ["booktest/tokenizer.py:TestTokenizer.__next__", "booktest/tokenizer.py:TestTokenizer.has_next"]}
{"id": "C02", "title": "Line breaks are tokens of their own", "statement": "A newline in the text is always a token by itself, and tokenizing is compositional at newlines: the tokens of a+'\\n'+b are the tokens of a, then '\\n', then the tokens of b. Feeding a multi-line text is therefore the same as feeding its lines one by one.", "quantifier": "every pair of NUL-free texts", "why_tests_cant": "unbounded inputs; interplay of number / word / whitespace scanning with the newline", "anchors": ["booktest/tokenizer.py:TestTokenizer.__next__", "booktest/testcaserun.py:TestCaseRun.feed_token"]}
{"id": "C03", "title": "Token classes are maximal", "statement": "Each yielded token is one of: a maximal run of blanks/tabs; an optional sign followed by a maximal digit run with an optional fractional part; a maximal alphanumeric run not starting with a digit; or one other character. The split is uniquely determined by this description (the first token of the rest is always the longest of its class).", "quantifier": "every text and every position", "why_tests_cant": "unbounded inputs and look-ahead combinations", "anchors": ["booktest/tokenizer.py:TestTokenizer.__next__"]}
{"id": "C04", "title": "Writing any text terminates", "statement": "t.t / t.i / t.tln / t.iln return for every text. (False of the code: a NUL character makes the tokenizer yield empty tokens forever. The exact set of non-terminating texts is characterised.)", "quantifier": "every text", "why_tests_cant": "non-termination on a single character value is not found by sampling", "anchors": ["booktest/tokenizer.py:TestTokenizer.__next__", "booktest/testcaserun.py:TestCaseRun.feed", "booktest/testcaserun.py:TestCaseRun.test_feed"]}
{"id": "C05", "title": "The result file is exactly what the test wrote", "statement": "After any sequence of API calls the text in the output .md file followed by the still uncommitted partial line is exactly the concatenation of the texts the test wrote, whatever the snapshot file contains; checking, seeking and anchoring never alter, drop or reorder output.", "quantifier": "every sequence of API calls, every snapshot file (present, absent, arbitrary content)", "why_tests_cant": "sequences and snapshots are unbounded", "anchors": ["booktest/testcaserun.py:TestCaseRun.feed_token", "booktest/testcaserun.py:TestCaseRun.write_line", "booktest/testcaserun.py:TestCaseRun.commit_line"]}
{"id": "C06", "title": "A checked line differs exactly when it differs from the snapshot line", "statement": "For a test that writes with t/tln/i/iln only, the n-th output line is counted as a difference iff some checked token of it differs from the token at the same position of the n-th snapshot line (the line end counting as a token, a missing snapshot line matching nothing); the number of differences reported is exactly the number of such lines.", "quantifier": "every sequence of t/tln/i/iln calls with any texts, every snapshot content", "why_tests_cant": "every alignment of two unbounded texts", "anchors": ["booktest/testcaserun.py:TestCaseRun.feed_token", "booktest/testcaserun.py:TestCaseRun.next_exp_token", "booktest/testcaserun.py:TestCaseRun.commit_line"]}
{"id": "C07", "title": "Unchecked content never breaks a test", "statement": "Text written with i/iln (and ifloatln, imsln below the limit) never marks a difference or an error: a test that writes only unchecked content, and calls neither fail() nor diff(), gets OK whenever a snapshot exists, whatever that snapshot contains.", "quantifier": "every sequence of unchecked writes and cursor movements, every snapshot", "why_tests_cant": "unbounded content", "anchors": ["booktest/testcaserun.py:TestCaseRun.feed", "booktest/testcaserun.py:TestCaseRun.i", "booktest/testcaserun.py:TestCaseRun.iln", "booktest/testcaserun.py:TestCaseRun.ifloatln", "booktest/testcaserun.py:TestCaseRun.imsln"]}
{"id": "C08", "title": "The verdict is FAIL, DIFF or OK by one rule", "statement": "The preliminary verdict is FAIL iff at least one finished line carries an error mark; otherwise DIFF iff at least one finished line carries a difference mark or the snapshot file does not exist at the end; otherwise OK. The counts never decrease.", "quantifier": "every sequence of API calls and every snapshot", "why_tests_cant": "histories are unbounded", "anchors": ["booktest/testcaserun.py:TestCaseRun.end", "booktest/testcaserun.py:TestCaseRun.commit_line"]}
{"id": "C09", "title": "A failed assertion or exception always fails the test", "statement": "If at any point assertln(False), must_apply/must_equal/must_contain/must_be_a with a false condition, tmsln over its limit, or fail() followed by a line end happens, or the test body raises an Exception, the verdict is FAIL whatever was written before or afterwards and whatever the snapshot contains.", "quantifier": "every prefix and suffix of API calls, every snapshot, every exception", "why_tests_cant": "the failing call may be embedded in any history", "anchors": ["booktest/testcaserun.py:TestCaseRun.assertln", "booktest/testcaserun.py:TestCaseRun.fail", "booktest/testcaserun.py:TestCaseRun.tmsln", "booktest/testrun.py:TestRun.run_case"]}
{"id": "C10", "title": "fail() and diff() are never lost", "statement": "A test that calls t.fail() is never reported OK or DIFF, and one that calls t.diff() or writes a differing checked token is never reported OK. (False of the code: marks on a last line that is never ended are dropped. Proved for tests whose last line is ended.)", "quantifier": "every sequence of API calls", "why_tests_cant": "depends on the exact end of an arbitrary history", "anchors": ["booktest/testcaserun.py:TestCaseRun.end", "booktest/testcaserun.py:TestCaseRun.fail", "booktest/testcaserun.py:TestCaseRun.diff"]}
{"id": "C11", "title": "OK means the output equals the snapshot", "statement": "A test that only writes checked lines is OK iff its lines equal the snapshot's lines. (False of the code in one direction: output that stops early is OK. Proved: OK iff the written lines are a prefix of the snapshot's lines.)", "quantifier": "every list of lines and every snapshot", "why_tests_cant": "unbounded inputs; the missing tail shows only for specific length relations", "anchors": ["booktest/testcaserun.py:TestCaseRun.end", "booktest/testcaserun.py:TestCaseRun.tln"]}
{"id": "C12", "title": "An accepted test passes when it is repeated", "statement": "If a test's output is accepted as snapshot and the test makes the same calls again, the second verdict is OK with zero differences and the second output is identical. (False in full: adjacent writes that glue two tokens together differ from their own output, so does output with a carriage return. Proved for calls whose pieces end on token boundaries.)", "quantifier": "every deterministic sequence of API calls", "why_tests_cant": "unbounded call sequences; depends on how text pieces abut", "anchors": ["booktest/testcaserun.py:TestCaseRun", "booktest/tokenizer.py:TestTokenizer", "booktest/review.py:freeze_case"]}
{"id": "C13", "title": "Seeking finds the next match, else wraps round, else stays", "statement": "seek_line / seek_prefix / anchor / anchorln / header always terminate and leave the snapshot cursor on the first matching line at or after the cursor; if there is none, on the first matching line before it; if there is none at all, on the original line. The snapshot and the output are not changed.", "quantifier": "every snapshot, every cursor position, every predicate", "why_tests_cant": "every position in every file", "anchors": ["booktest/testcaserun.py:TestCaseRun.seek", "booktest/testcaserun.py:TestCaseRun.jump", "booktest/testcaserun.py:TestCaseRun.next_exp_line", "booktest/testcaserun.py:TestCaseRun.reset_exp_reader"]}
{"id": "C14", "title": "Sections may come in any order", "statement": "If a snapshot was made of sections (a header, checked lines, then unchecked lines) with distinct header lines that occur nowhere else, a run that produces the same sections in any order, with any other unchecked lines (at least one where the snapshot has some), reports no difference.", "quantifier": "every list of sections, every permutation, every unchecked content", "why_tests_cant": "factorially many orders, unbounded sections", "anchors": ["booktest/testcaserun.py:TestCaseRun.header", "booktest/testcaserun.py:TestCaseRun.anchorln", "booktest/testcaserun.py:TestCaseRun.seek"]}
{"id": "C15", "title": "tset ignores order", "statement": "tset(items) against a snapshot whose lines at the cursor list the items of a set marks no difference for any order of exactly these items; it marks a difference if an item is not listed or a listed item is missing; afterwards the cursor is on the first line after the list.", "quantifier": "every item list without duplicates, every order, every snapshot", "why_tests_cant": "factorially many orders", "anchors": ["booktest/testcaserun.py:TestCaseRun.tset"]}
{"id": "C16", "title": "The report shows every line and flags exactly the bad ones", "statement": "The report .txt file has exactly one entry per finished output line, in order, containing that line; it is flagged '!' iff the line was counted as error, '?' iff it was counted only as difference, and unflagged otherwise.", "quantifier": "every sequence of API calls", "why_tests_cant": "unbounded histories", "anchors": ["booktest/testcaserun.py:TestCaseRun.commit_line", "booktest/testcaserun.py:TestCaseRun.report"]}
{"id": "C17", "title": "CI runs never touch snapshots", "statement": "Reviewing a result without -a, -u, -i, -I (config accept, update, interactive, always_interactive false) changes no file and returns the verdict unchanged.", "quantifier": "every file system, result and case name", "why_tests_cant": "unbounded file systems", "anchors": ["booktest/review.py:case_review", "booktest/review.py:interact"]}
{"id": "C18", "title": "A failed test can never be accepted", "statement": "If the result is FAIL, no combination of flags and no sequence of user answers makes the review return OK or change any snapshot file.", "quantifier": "every config, every finite or infinite answer sequence, every file system", "why_tests_cant": "unbounded interactions", "anchors": ["booktest/review.py:case_review", "booktest/review.py:interact"]}
{"id": "C19", "title": "Accepting replaces exactly this test's snapshot", "statement": "Accepting a case makes its snapshot .md equal to the output .md and the files under its snapshot directory equal to those under its output directory (stale ones are gone), the result becomes OK, and no file belonging to another test is changed. (The last part is false when one case name is a path prefix of another: accepting 'a' deletes the snapshots of 'a/b'.)", "quantifier": "every file system, every pair of case names", "why_tests_cant": "unbounded directory contents", "anchors": ["booktest/review.py:freeze_case", "booktest/testcaserun.py:TestCaseRun.__init__"]}
{"id": "C20", "title": "The user's answers are interpreted one way", "statement": "In interactive review 'a' accepts (only if offered), 'c' continues, 'q' aborts; any other answer changes nothing and asks again; a snapshot changes only if the deciding answer is 'a' or the automatic flags say so; quitting without automatic flags never changes a snapshot.", "quantifier": "every answer sequence", "why_tests_cant": "unbounded interaction sequences", "anchors": ["booktest/review.py:interact", "booktest/review.py:case_review"]}
{"id": "C21", "title": "Case reports survive being written and read", "statement": "Reading a cases.txt written by booktest gives back the same cases (name, result, duration) in the same order.", "quantifier": "every list of cases whose names contain no tab or line break", "why_tests_cant": "unbounded lists and names", "anchors": ["booktest/reports.py:CaseReports.of_file", "booktest/reports.py:CaseReports.write_case", "booktest/reports.py:read_lines"]}
{"id": "C22", "title": "A crash while writing the report never forges a result", "statement": "If the process dies at any byte while cases.txt is being written, reading the file yields a prefix of the cases that were being written with the right names and results; no test is ever shown with a result it did not have.", "quantifier": "every list of cases, every crash point (byte)", "why_tests_cant": "crash points are unbounded", "anchors": ["booktest/reports.py:CaseReports.of_file", "booktest/reports.py:CaseReports.write_case"]}
{"id": "C23", "title": "-c skips exactly the tests whose last result was OK", "statement": "With -c a selected case is skipped iff the report holds an OK for it; over any history of runs (with or without -c, of any selections, aborted or crashed at any case, followed by any reviews and forgets) a case is only skipped if its latest recorded execution ended OK; without -c nothing is skipped.", "quantifier": "every history of runs, selections, aborts and crashes", "why_tests_cant": "unbounded histories", "anchors": ["booktest/reports.py:CaseReports.cases_to_done_and_todo", "booktest/testrun.py:TestRun.run_async"]}
{"id": "C24", "title": "The report holds one, the latest, record per case", "statement": "After every run cases.txt has at most one record per case name; for every case executed in the run it is that run's result; records of cases that were not to be run are kept unchanged.", "quantifier": "every history of runs", "why_tests_cant": "unbounded histories", "anchors": ["booktest/testrun.py:TestRun.run_async", "booktest/reports.py:CaseReports"]}
{"id": "C25", "title": "Exit code 0 means everything that was run is OK", "statement": "A sequential run returns 0 iff every executed case ended OK, and -1 otherwise; the returned verdict is FAIL iff some case failed. With fail_fast nothing is executed after the first non-OK case; without abort and fail_fast every case is executed exactly once in the given order.", "quantifier": "every list of cases and every assignment of results and user requests", "why_tests_cant": "unbounded lists", "anchors": ["booktest/testrun.py:TestRun.run_async", "booktest/reports.py:test_result_to_exit_code"]}
{"id": "C26", "title": "--review changes only results, and only by acceptance", "statement": "--review keeps names, durations and order of the recorded cases; a recorded FAIL stays FAIL; a result changes only from DIFF to OK and only by acceptance; cases outside the selection or after an abort keep their result; the exit code is 0 iff all resulting records are OK.", "quantifier": "every report, selection, config and answers", "why_tests_cant": "unbounded reports and interactions", "anchors": ["booktest/review.py:review", "booktest/review.py:report_case"]}
{"id": "C27", "title": "Selection means path prefix, minus skips", "statement": "A test is selected iff no 'skip:p' with p a path prefix of its name is given and either only skips are given or some given path is '*' or a path prefix of the name (whole components only: 'a/b' selects 'a/b' and 'a/b/c', not 'a/bc').", "quantifier": "every name and selection list", "why_tests_cant": "unbounded names and lists", "anchors": ["booktest/tests.py:Tests.is_selected"]}
{"id": "C28", "title": "The run list is complete, minimal and dependency-ordered", "statement": "The list of cases to run contains no case twice, contains every selected case, contains every dependency of a listed case that is selected or has no cached result, contains nothing else, and every such dependency comes before the case that needs it.", "quantifier": "every acyclic dependency graph, every selection, every cache content", "why_tests_cant": "unbounded graphs", "anchors": ["booktest/tests.py:Tests.selected_names", "booktest/tests.py:Tests.all_method_dependencies", "booktest/tests.py:Tests.method_dependencies"]}
{"id": "C29", "title": "A dependent test gets the latest non-failed result of its dependency", "statement": "Whatever the sequence of test executions, cache evictions and restarts of the process, the value passed to a dependent test is the value returned by the most recent execution of the dependency that ended OK or DIFF (None results excepted, see C33).", "quantifier": "every history of saves, lookups and restarts, every cache capacity >= 1", "why_tests_cant": "unbounded histories; eviction order", "anchors": ["booktest/testrun.py:TestRun.get_test_result", "booktest/testrun.py:TestRun.save_test_result", "booktest/cache.py:LruCache"]}
{"id": "C30", "title": "The dependency that is scheduled is the one whose result is used", "statement": "The case a dependent waits for (and that is pulled into the run list) is the case whose result it is given; with several instances of one class it is the one of the same instance. (False for a class depending on a base class's method that it does not itself list; proved otherwise.)", "quantifier": "every set of cases, instances and class hierarchy", "why_tests_cant": "unbounded object graphs", "anchors": ["booktest/dependencies.py:bind_dependent_method_if_unbound", "booktest/dependencies.py:call_class_method_test", "booktest/testrun.py:match_method", "booktest/tests.py:Tests.case_by_method"]}
{"id": "C31", "title": "LruCache is a bounded map that forgets the least recently used", "statement": "A LruCache of size n never holds more than n entries, never returns a value other than the last one stored for the key, keeps the n most recently used distinct keys, and evicts only the least recently used one.", "quantifier": "every sequence of get/set/contains operations, every size", "why_tests_cant": "unbounded operation sequences", "anchors": ["booktest/cache.py:LruCache"]}
{"id": "C32", "title": "Every documented cache works", "statement": "Dependency lookup returns the stored value with any of the documented caches (dict, LruCache, NoCache). (False: 'in' on NoCache never terminates, and a LruCache of size 0 delivers None.)", "quantifier": "every cache and every stored value", "why_tests_cant": "non-termination cannot be observed by a test", "anchors": ["booktest/cache.py:NoCache", "booktest/testrun.py:TestRun.get_test_result"]}
{"id": "C33", "title": "Dependency values do not depend on where the dependency ran", "statement": "A dependent test gets the same value whether its dependency ran in this process or another. (False for a dependency returning None: same process gives None, another process raises. Proved for all other values.)", "quantifier": "every value, every placement of tests on processes", "why_tests_cant": "all placements", "anchors": ["booktest/testrun.py:TestRun.save_test_result", "booktest/testrun.py:TestRun.get_test_result"]}
{"id": "C34", "title": "Exclusive resources are never shared", "statement": "In a parallel run no two cases that use a common resource are in execution at the same time.", "quantifier": "every set of cases and resources, every scheduling order, every completion order and timing", "why_tests_cant": "interleavings are unbounded", "anchors": ["booktest/runs.py:ParallelRunner.plan", "booktest/runs.py:ParallelRunner.thread_function"]}
{"id": "C35", "title": "Dependencies finish first", "statement": "In a parallel run a case is started only after every one of its dependencies that is part of the run has finished.", "quantifier": "every dependency relation, every interleaving", "why_tests_cant": "interleavings are unbounded", "anchors": ["booktest/runs.py:ParallelRunner.plan", "booktest/runs.py:ParallelRunner.thread_function"]}
{"id": "C36", "title": "Every case is run and reported exactly once", "statement": "In a parallel run no case is started twice, and when the run ends without abort every case has been started exactly once and its report has been delivered to the reviewing thread exactly once, in completion order; no report is lost or duplicated between the two threads.", "quantifier": "every interleaving of scheduler thread, workers and main thread", "why_tests_cant": "interleavings are unbounded", "anchors": ["booktest/runs.py:ParallelRunner.thread_function", "booktest/runs.py:ParallelRunner.next_report", "booktest/runs.py:ParallelRunner.has_next"]}
{"id": "C37", "title": "Parallel runs do not deadlock", "statement": "If the dependencies are acyclic, then in every reachable state of a parallel run that is not finished or aborted, something is running or can be started; every run makes finitely many steps, so it ends when the tests end.", "quantifier": "every acyclic dependency relation, resources, interleaving", "why_tests_cant": "liveness over all schedules", "anchors": ["booktest/runs.py:ParallelRunner.plan", "booktest/runs.py:ParallelRunner.thread_function"]}
{"id": "C38", "title": "A crashed worker is reported as FAIL and the run goes on", "statement": "If a case's worker dies without a report the case is reported FAIL and the run continues. (False of the code: without report file the main thread crashes because the result is a string; with an empty report file the scheduler thread dies and the run hangs.)", "quantifier": "every set of cases and every crash point of a worker", "why_tests_cant": "crash points", "anchors": ["booktest/runs.py:ParallelRunner.thread_function", "booktest/reports.py:CaseReports.make_case", "booktest/runs.py:RunBatch.__call__"]}
{"id": "C39", "title": "Cases have separate batch directories", "statement": "Two different cases of a parallel run use different batch directories. (False when names contain dots: 'a/b' and 'a.b'. Proved for names without dots.)", "quantifier": "every pair of names", "why_tests_cant": "unbounded names", "anchors": ["booktest/runs.py:case_batch_dir_and_report_file", "booktest/runs.py:RunBatch.__call__"]}
{"id": "C40", "title": "Parallel and sequential runs give the same results", "statement": "If each test's outcome is a function of its dependencies' values and tests do not interfere otherwise, the results and stored values of a parallel run are those of the sequential run, for every schedule.", "quantifier": "every acyclic dependency graph, every behaviour, every schedule", "why_tests_cant": "all schedules", "anchors": ["booktest/runs.py:ParallelRunner", "booktest/testrun.py:TestRun.run_async"]}
{"id": "C41", "title": "-u works with -p", "statement": "Updating snapshots of passing tests (-u) works in parallel runs as in sequential ones. (False: worker and main thread both move the output file; the second move fails.)", "quantifier": "every passing case", "why_tests_cant": "needs the two-phase review", "anchors": ["booktest/review.py:case_review", "booktest/runs.py:parallel_run_tests"]}
{"id": "C42", "title": "Recorded function calls are replayed", "statement": "After capturing with -s/-S and accepting, a replay run returns for every call the last value captured for the same call (same function, arguments), without calling the function; with one call per key or a deterministic function all values are the same as in the capture.", "quantifier": "every sequence of calls, every function behaviour, every directory listing order", "why_tests_cant": "unbounded call sequences", "anchors": ["booktest/functions.py:SnapshotFunctions.snapshot", "booktest/functions.py:SnapshotFunctions.stop", "booktest/functions.py:SnapshotFunctions.start"]}
{"id": "C43", "title": "Without capture flags nothing real is called", "statement": "Without -s/-S a snapshotted function, request or httpx call either returns a recorded value or raises; the real function or network is never invoked.", "quantifier": "every call sequence and snapshot set", "why_tests_cant": "unbounded sequences", "anchors": ["booktest/functions.py:SnapshotFunctions.snapshot", "booktest/requests.py:SnapshotAdapter.lookup_snapshot", "booktest/httpx.py:SnapshotHttpx.lookup_snapshot"]}
{"id": "C44", "title": "Mocks are removed afterwards", "statement": "After leaving a snapshot_functions / mock_functions block, normally or by exception, every patched function is what it was before. (False for nested blocks on the same function: the inner block restores the original rather than the outer mock. Proved when the function was unpatched on entry.)", "quantifier": "every list of functions, every body", "why_tests_cant": "nestings and exception points", "anchors": ["booktest/functions.py:set_function", "booktest/functions.py:MockFunctions", "booktest/functions.py:SnapshotFunctions"]}
{"id": "C45", "title": "Repeated requests replay their responses in order", "statement": "Capturing a sequence of requests and replaying it gives each request the response it got in the capture, including different responses to repeated identical requests. (False for repeated requests with a custom json_to_hash; proved for the default hash.)", "quantifier": "every sequence of requests with any repetitions, every response sequence, every storage order", "why_tests_cant": "unbounded sequences and repetitions", "anchors": ["booktest/requests.py:SnapshotAdapter.mark_order", "booktest/requests.py:SnapshotAdapter.lookup_snapshot", "booktest/requests.py:RequestKey.increase_order", "booktest/httpx.py:SnapshotHttpx"]}
{"id": "C46", "title": "Ignored headers never reach the stored snapshot or its hash", "statement": "With ignore_headers the stored request contains no ignored header (compared case-insensitively) and its hash does not depend on ignored headers; with lose_request_details (default) neither headers nor body are stored.", "quantifier": "every request, header set and ignore list", "why_tests_cant": "unbounded header sets", "anchors": ["booktest/requests.py:RequestKey.__init__", "booktest/requests.py:RequestKey.to_json_object"]}
{"id": "C47", "title": "mock_env restores the environment", "statement": "After a mock_env block, whatever the body did and however it ended, every mocked variable has the value (or absence) it had before, and other variables are as the body left them; inside the block every mocked variable has the mocked value.", "quantifier": "every environment, mock table and body", "why_tests_cant": "unbounded environments", "anchors": ["booktest/env.py:MockEnv"]}
{"id": "C48", "title": "snapshot_env restores the environment and reproduces the captured values", "statement": "In a snapshot_env block the named variables have the captured values; afterwards the environment is as before. (False: unset variables raise KeyError, a missing snapshot leaves earlier variables changed. Proved when the variables are set and snapshots are complete.)", "quantifier": "every environment, name list and snapshot", "why_tests_cant": "unbounded environments and failure points", "anchors": ["booktest/env.py:SnapshotEnv", "booktest/env.py:MockMissingEnv"]}
{"id": "C49", "title": "The index lists every test in its place", "statement": "index.md contains exactly one link per case, in order, indented by its depth, and the headings above a link spell the directory of the case.", "quantifier": "every list of case names", "why_tests_cant": "unbounded trees", "anchors": ["booktest/review.py:create_index"]}
{"id": "C50", "title": "--clean never deletes a live snapshot", "statement": "--clean removes exactly the files --garbage lists; it never removes the .md file of an existing case, a file in an existing case's directory or the index; every other file below the root is removed.", "quantifier": "every file tree and case list", "why_tests_cant": "unbounded file trees", "anchors": ["booktest/tests.py:Tests.exec_parsed.garbage", "booktest/tests.py:Tests.exec_parsed.is_garbage"]}
{"id": "C51", "title": "Configuration layers override in the documented order", "statement": "A setting from a BOOKTEST_ environment variable overrides the project's .booktest, which overrides the home directory's .booktest; later lines override earlier ones; other keys are unaffected. (False for the home directory: '~' is not expanded.)", "quantifier": "every file content and environment", "why_tests_cant": "unbounded contents", "anchors": ["booktest/config.py:resolve_default_config", "booktest/config.py:parse_config_file"]}
{"id": "C52", "title": "--setup writes what it was told", "statement": "The .booktest written by --setup, when read back, gives exactly the answered values.", "quantifier": "every answer without line breaks or surrounding blanks", "why_tests_cant": "unbounded answers", "anchors": ["booktest/setup.py:setup_booktest", "booktest/config.py:parse_config_file"]}
{"id": "C53", "title": "Suite operations keep tests", "statement": "merge_tests keeps all cases in order; TestSuite prefixes every name; drop_prefix undoes the prefixing and keeps exactly the cases below the prefix.", "quantifier": "every nesting of suites and names", "why_tests_cant": "unbounded nestings", "anchors": ["booktest/testsuite.py:TestSuite", "booktest/testsuite.py:drop_prefix", "booktest/testsuite.py:merge_tests"]}
{"id": "C54", "title": "Test names are derived predictably", "statement": "Method test_x gives name x and distinct methods give distinct names; class names become lower snake case with the same letters; distinct classes of a module get distinct paths. (The last is false: FooTest and FooBook collide.)", "quantifier": "every identifier", "why_tests_cant": "unbounded identifiers", "anchors": ["booktest/naming.py:camel_case_to_snake_case", "booktest/naming.py:clean_test_postfix", "booktest/naming.py:class_to_test_path", "booktest/naming.py:clean_method_name"]}
{"id": "C55", "title": "Logging and stderr are restored after each test", "statement": "After any sequence of test executions the root logger's handlers and sys.stderr are what they were before. (True for the handlers, false for stderr: it is left pointing at a closed file.)", "quantifier": "every history of executions", "why_tests_cant": "histories", "anchors": ["booktest/testcaserun.py:TestCaseRun.open", "booktest/testcaserun.py:TestCaseRun.close", "booktest/testcaserun.py:TestCaseRun.__init__"]}
{"id": "C56", "title": "Teardown always follows setup", "statement": "If setup completes, teardown runs exactly once after the tests, also when they raise; if setup raises, neither the tests nor teardown run.", "quantifier": "every setup generator and body outcome", "why_tests_cant": "all exit paths", "anchors": ["booktest/utils.py:SetupTeardown", "booktest/detection.py:BookTestSetup"]}
{"id": "C57", "title": "Line files survive being written and read", "statement": "read_lines returns the lines given to write_lines. (False for the empty list, which reads back as one empty line.)", "quantifier": "every list of lines without line breaks", "why_tests_cant": "unbounded lists", "anchors": ["booktest/reports.py:write_lines", "booktest/reports.py:read_lines"]}
{"id": "C58", "title": "Command line flags affect only their own invocation", "statement": "Flags given to one exec() call do not influence a later exec() call in the same process. (False: the default configuration object is shared and modified.)", "quantifier": "every sequence of invocations", "why_tests_cant": "histories", "anchors": ["booktest/tests.py:Tests.exec_parsed", "booktest/config.py:get_default_config"]}
{"id": "C59", "title": "tformat shows structure, not values", "statement": "value_format keeps lists, dictionaries and keys and replaces every other value by its type name, so two values print the same iff they have the same structure and types.", "quantifier": "every nested value", "why_tests_cant": "unbounded nesting", "anchors": ["booktest/testcaserun.py:value_format", "booktest/testcaserun.py:TestCaseRun.tformat"]}
{"id": "C60", "title": "rel_path points at the file", "statement": "For a file below the output directory rel_path gives the path relative to that directory, and None for files elsewhere. (False for sibling directories sharing the prefix.)", "quantifier": "every absolute path", "why_tests_cant": "unbounded paths", "anchors": ["booktest/testcaserun.py:TestCaseRun.rel_path"]}
{"id": "C61", "title": "Dependents do not influence each other", "statement": "The value a test gets for a dependency is the value that was saved, even if another dependent changed the object it was given. (False for dependents in the same process, which share the cached object; holds for a reader in another process.)", "quantifier": "every sequence of saves, reads, in-place changes and process restarts", "why_tests_cant": "depends on the order of tests and on their distribution over processes", "anchors": ["booktest/cache.py:LruCache", "booktest/dependencies.py:call_class_method_test", "booktest/dependencies.py:call_function_test"]}
{"id": "C62", "title": "Aborted parallel runs keep finished results", "statement": "When a parallel run is aborted, every case that was seen to end is recorded in cases.txt. (False: a report handed over after the main thread's final pass is lost. Everything handed over before it is taken.)", "quantifier": "every interleaving of scheduler thread and main thread, every abort point", "why_tests_cant": "a race between two threads", "anchors": ["booktest/runs.py:ParallelRunner.done_reports", "booktest/runs.py:parallel_run_tests"]}
{"id": "C63", "title": "Parallel exit code reflects the records", "statement": "The exit code of a parallel run is 0 iff every recorded result is OK. (False after an abort: the remaining reports are recorded without changing the exit code. Proved for runs without abort.)", "quantifier": "every run and every abort point", "why_tests_cant": "unbounded runs, interleavings", "anchors": ["booktest/runs.py:parallel_run_tests"]}
{"id": "C64", "title": "Planning is greedy and slowest first", "statement": "One planning round lists the chosen jobs by decreasing duration of the last run, then by name, and leaves a candidate out only if one of its dependencies in the run is not done or it needs a resource that is reserved or taken by a chosen job.", "quantifier": "every set of cases, dependencies, resources, durations and every iteration order", "why_tests_cant": "unbounded inputs, set iteration order", "anchors": ["booktest/runs.py:ParallelRunner.plan"]}
{"id": "C65", "title": "mock_missing_env is off while capturing", "statement": "While snapshots are captured (-s or -S) a mock_missing_env block leaves the environment alone, so that captured responses come from real settings. (False: the flag is computed but never read. True when all variables are set.)", "quantifier": "every environment and mock table", "why_tests_cant": "unbounded environments", "anchors": ["booktest/env.py:MockMissingEnv"]}
{"id": "C66", "title": "A test book lists its tests once, in order", "statement": "A TestBook lists every test method exactly once, under its path, with its last definition and in the order in which the methods were first defined. (False for inherited test methods, which are not listed at all. Proved for the methods of the class itself.)", "quantifier": "every class body, with any redefinitions, and every base class", "why_tests_cant": "unbounded class bodies", "anchors": ["booktest/testbook.py:TestBook.__init__", "booktest/testbook.py:member_table"]}
{"id": "C67", "title": "Detection finds every test once", "statement": "detect_test_suite lists exactly the test functions, books and suites of the test files below the path, each under a name of its own. (The set is exact; names are not unique: a test book imported into another test file is listed twice. Proved unique for files with functions only and distinct suite paths.)", "quantifier": "every directory tree, module content and listing order", "why_tests_cant": "unbounded trees", "anchors": ["booktest/detection.py:detect_tests", "booktest/detection.py:parse_test_file"]}
{"id": "C68", "title": "The configured number of processes is used", "statement": "With parallel=N in the configuration or --parallel-count N (-p1 ... -p16) on the command line a parallel run uses N processes. (False for parallel=1 in a file or environment variable: it reads as True and gives one process per processor. Proved otherwise.)", "quantifier": "every configuration and flag", "why_tests_cant": "unbounded configurations, machine dependent", "anchors": ["booktest/runs.py:ParallelRunner.__init__", "booktest/config.py:parse_config_value", "booktest/tests.py:Tests.exec_parsed"]}
{"id": "C69", "title": "The command line accepts exactly what selects tests", "statement": "The accepted test arguments are '*', every whole-component path prefix of a case name, and skip: followed by one; every accepted argument without skip: selects some case.", "quantifier": "every list of case names", "why_tests_cant": "unbounded names", "anchors": ["booktest/tests.py:Tests.setup_parser", "booktest/tests.py:Tests.is_selected"]}
{"id": "C70", "title": "Combined setups nest", "statement": "With combine_decorators of several setup_teardown decorators the setups run from the last given to the first, the teardowns in the opposite order, however the test ends; if one setup raises, nothing further in is run and the outer teardowns still run.", "quantifier": "every list of decorators and every outcome of the test", "why_tests_cant": "unbounded nesting and all exit paths", "anchors": ["booktest/utils.py:combine_decorators", "booktest/utils.py:setup_teardown"]}
{"id": "C71", "title": "A snapshotted test lists the same calls in capture and replay", "statement": "The list of recorded calls that snapshot_functions prints at the end of a test is the same in the capture run and in the replay of the same calls. (False when a call is repeated: the capture lists it at its last position, the replay at its first. Proved when no call is repeated.)", "quantifier": "every call sequence", "why_tests_cant": "unbounded call sequences", "anchors": ["booktest/functions.py:SnapshotFunctions.snapshot", "booktest/functions.py:SnapshotFunctions.t_snapshots"]}
{"id": "C72", "title": "An OK verdict vouches for everything that was compared", "statement": "Every finished line was compared with one line of the snapshot, and an unmarked line has that line's tokens wherever a compared text was written. Hence after an OK verdict every line that tln, anchorln, header, h1-h3, keyvalueln, tlist and the rule of a table write is a line of the snapshot. Calls that move the cursor are made at the start of a line.", "quantifier": "all snapshots, all sequences of calls with cursor moves only at line starts, all texts without newlines", "why_tests_cant": "a call that feeds its text unchecked instead of checked passes every test whose output did not change", "anchors": ["booktest/testcaserun.py:523-762"]}
{"id": "C73", "title": "Each call is compared with the line its documentation names", "statement": "At the start of a line: tln and tlist are compared with the next lines in turn; anchorln and header go to the first equal line from here on, else the first in the snapshot, else stay; anchor and keyvalueln do so by prefix. The number of differences grows by exactly the number of those lines that are not the snapshot's.", "quantifier": "all snapshots, all preceding calls, all texts without newline and NUL", "why_tests_cant": "the target depends on all lines before and after the cursor, and on repeated lines", "anchors": ["booktest/testcaserun.py:384-470", "booktest/testcaserun.py:561-597", "booktest/testcaserun.py:700-762"]}
{"id": "C74", "title": "ifloatln reports the old value that stood at the same place", "statement": "ifloatln appends '(was x)' exactly when the snapshot's token at the line compared with, after as many tokens as were written on the line so far, is a number x.", "quantifier": "all snapshots, all preceding calls with cursor moves at line starts, all values and units", "why_tests_cant": "the token depends on how the earlier output of the line was split", "anchors": ["booktest/testcaserun.py:599-616"]}
{"id": "C75", "title": "A plain run changes only the output directory", "statement": "A sequential run without -a, -u and -i changes no file outside the output directory, except <books>/index.md, whatever the tests write, assert or raise (through the file API of the test case), and whether the run returns or raises.", "quantifier": "all test bodies, selections, configurations without -a/-u/-i, file systems, results of an earlier run", "why_tests_cant": "Tests look at the files they expect, never at every other file for every configuration.", "anchors": ["booktest/testrun.py:88-193", "booktest/testcaserun.py:189-316", "booktest/review.py:85-126", "booktest/review.py:244-272"]}
{"id": "C76", "title": "Exit code 0 means every selected test was compared with its snapshot", "statement": "If a run without -a/-u/-i/--continue ends with OK and the snapshots are not kept inside the output directory, then every selected test had a snapshot when the run started, all its calls were compared with that snapshot, there was no difference and no failed assertion, and every complete checked line it wrote is a line of the snapshot.", "quantifier": "all test bodies, selections, file systems", "why_tests_cant": "Needs all combinations of earlier outputs, missing snapshots and test results; a vacuous pass looks like a pass.", "anchors": ["booktest/testrun.py:88-193", "booktest/testcaserun.py:189-316", "booktest/testcaserun.py:428-547"]}
{"id": "C77", "title": "Exact effect of running one test", "statement": "Running one test (whose name has no dot and is neither 'cases' nor 'index', and where no directory stands in place of one of its files or conversely) in batch mode leaves: the snapshot and snapshot files replaced by the output exactly if auto-accepted (-u on OK, -a on DIFF), else untouched; the output, report, log, tmp files and return value as written by the test, the output moved away if accepted; and every other file unchanged.", "quantifier": "all test bodies, configurations, file systems", "why_tests_cant": "An exact frame condition over the whole file system.", "anchors": ["booktest/testrun.py:78-107", "booktest/testcaserun.py:23-104", "booktest/testcaserun.py:189-316", "booktest/review.py:85-126"]}
{"id": "C78", "title": "After an accepting run that ends OK, the next run is green", "statement": "If a run with any of -a/-u ends with OK and the selected tests are repeatable, then running them again, with any batch options, ends with OK and lists every test as OK.", "quantifier": "all selections, bodies, file systems and options", "why_tests_cant": "Quantifies over pairs of runs on all projects; interference between tests shows only for special names.", "anchors": ["booktest/testrun.py:88-193", "booktest/testcaserun.py:189-316", "booktest/review.py:85-126", "booktest/review.py:244-272"]}
{"id": "C79", "title": "Leftovers of earlier runs do not matter", "statement": "For selected tests with separate names (no dots, none a directory above another, not 'cases' or 'index') and no directory standing in place of a file of a test or conversely: two runs from file systems that agree on the snapshots of the selected tests and on cases.txt produce the same result, the same report, the same snapshots and the same output files of every test run, whatever else lies around.", "quantifier": "all pairs of file systems, bodies, selections and batch options", "why_tests_cant": "Depends on arbitrary garbage in the output directory.", "anchors": ["booktest/testrun.py:88-193", "booktest/testcaserun.py:23-104", "booktest/testcaserun.py:189-316"]}
{"id": "C80", "title": "After a run, the output of every selected test can be accepted", "statement": "After a plain run without fail-fast, the output of every selected test is still there, and accepting it later in review makes exactly that output the snapshot.", "quantifier": "all selections, bodies and file systems", "why_tests_cant": "A later test may destroy an earlier output; only special name combinations do.", "anchors": ["booktest/testcaserun.py:23-104", "booktest/testcaserun.py:189-316", "booktest/review.py:85-126"]}
{"id": "C81", "title": "Pointing at error positions only affects the report", "statement": "The option that points at error positions changes nothing but the text of the report: the output, the counts of differences and errors, the position in the snapshot and the verdict are the same.", "quantifier": "all snapshots and call sequences", "why_tests_cant": "A relation between two executions over all inputs.", "anchors": ["booktest/testcaserun.py:428-463"]}
{"id": "C82", "title": "A parallel run has the results of a sequential run and leaves the same files", "statement": "In batch mode without -u and --fail-fast (with or without -a and --continue): if the sequential run of some tests ends, then every parallel run of them in which each worker performs one file operation at a time, in any interleaving that starts a test only when the selected tests it depends on have ended, gives the same exit code, the same result for every test and the same contents of all files, except booktest's own notes (.batches, cases.txt, metrics.json, output.txt). No interleaving gets stuck or goes on for ever. Assumed: test names without dots, none of them 'cases', 'index' or 'output' and none a directory of another; the code of a test reads only its own files and the values of the tests it depends on; every test comes after its dependencies in the selection.", "quantifier": "all projects, selections, test bodies, file systems and interleavings", "why_tests_cant": "the number of interleavings grows exponentially; a test run sees one of them", "anchors": ["booktest/runs.py:42-98", "booktest/runs.py:101-260", "booktest/runs.py:285-417", "booktest/testrun.py:112-191"]}
{"id": "C83", "title": "A table reads back", "statement": "A table written at the start of a line (column names without line ends) adds exactly one line per row after a line with the names and a line of dashes, all of the same length. Cutting the lines at the widths given by the dashes gives back the names, up to trailing white space, and for every cell its text with line ends replaced by spaces and without white space at its ends.", "quantifier": "all previous calls, columns, cells and numbers of rows, all snapshots", "why_tests_cant": "All cell contents, including bars and line ends in them.", "anchors": ["booktest/testcaserun.py:705-742"]}
{"id": "C84", "title": "The printed result is the recorded result", "statement": "What a run prints ends with a summary that names exactly the tests of this run that were recorded as failed or different, with their number and the number of tests run; it says succeeded exactly if the run returns success. Before it, for each test run, stands its name and a verdict that is the recorded result, or one that is not FAIL and was then accepted. Without prompts the text is exactly determined: with -v it shows the report files and with -L the lines of the log files that the run leaves in the output directory.", "quantifier": "all test bodies, configurations, answers and previous files (names that do not clash for the exact text)", "why_tests_cant": "All combinations of flags, verdicts and contents of reports and logs.", "anchors": ["booktest/review.py:128-188", "booktest/review.py:229-241", "booktest/testcaserun.py:190-257", "booktest/testrun.py:112-191"]}
{"id": "C85", "title": "--review prints what the run printed", "statement": "After a run without prompts and without accepting, into an output directory without an earlier report, --review with the same options prints the same text as the run, reports the same success and changes no file.", "quantifier": "all test bodies, selections and project states (names that do not clash)", "why_tests_cant": "Both texts are made by different code from different sources: the state in memory and the files.", "anchors": ["booktest/review.py:191-226", "booktest/review.py:275-331", "booktest/testcaserun.py:108-113"]}
{"id": "C86", "title": "Only accepting changes snapshots", "statement": "--config, --garbage, --print, --path, --view and -l change no file. --forget, and --review when nothing is accepted, change only the report cases.txt. --clean removes only files below the root that are neither the index nor part of the snapshot of a test. A sequential run when nothing is accepted changes only files below .out and the index. Hence no sequence of such commands changes any file of the snapshot of any test, whatever the code of the tests writes through booktest.", "quantifier": "all projects whose test names do not clash, all command sequences without -a, -u, -i, -I, -p, all test bodies and project states", "why_tests_cant": "All sequences of commands over all project states; tests run single commands.", "anchors": ["booktest/tests.py:443-539", "booktest/review.py:275-331", "booktest/testrun.py:112-191"]}
{"id": "C87", "title": "-l lists what a run runs", "statement": "The names that -l prints are the tests that a sequential run with the same options on the same files runs, in the same order; --path prints the snapshot path of each of them and --print the existing snapshots, in this order. A run without prompts stops before the end of the list only with -f, after a test that did not end with OK; its exit code is 0 exactly if all tests it ran ended with OK and -1 otherwise.", "quantifier": "all projects whose test names do not clash, all options, selections and project states", "why_tests_cant": "Listing and running compute their lists at different places from files that change.", "anchors": ["booktest/tests.py:428-486", "booktest/testrun.py:112-191", "booktest/reports.py:110-123"]}
{"id": "C88", "title": "--forget makes exactly the forgotten tests run again", "statement": "After --forget with one selection, -l -c with another selection lists exactly those tests of its selection that --forget selected or that -l -c listed before. (Test names without line ends; the report is written and read back as in C21.)", "quantifier": "all projects whose test names do not clash, all pairs of selections, all reports", "why_tests_cant": "All pairs of selections and all histories of the report.", "anchors": ["booktest/tests.py:428-441", "booktest/tests.py:491-494", "booktest/reports.py:110-123"]}
{"id": "C89", "title": "--clean leaves a fresh project", "statement": "After --clean, --garbage prints nothing, no file below .out is left, and -l lists, with or without -c, exactly the selected tests and all tests they need, directly or through others. (Test names without line ends.)", "quantifier": "all projects whose test names do not clash, all project states, all options", "why_tests_cant": "All project states, with outputs and stored results of any earlier runs.", "anchors": ["booktest/tests.py:406-426", "booktest/tests.py:476-480", "booktest/tests.py:52-85"]}
{"id": "C90", "title": "A green run leaves nothing to do", "statement": "After a sequential run without -c and without prompts that ended with exit code 0, -l with -c and otherwise the same selection lists nothing, and a sequential run with -c runs no test, prints the summary of zero tests, ends with exit code 0 and changes only the report, the metrics and the index. (Test names without tabs and line ends; nothing of the wrong kind stands where the tests have their files.)", "quantifier": "all projects whose test names do not clash, all selections, test bodies and project states", "why_tests_cant": "The second selection depends on the results that the first run stored, over all dependency graphs.", "anchors": ["booktest/tests.py:428-441", "booktest/testrun.py:112-191", "booktest/reports.py:110-123"]}
{"id": "C91", "title": "Information may change from run to run", "statement": "If the output of a run is accepted and a second run makes the same calls except for its information - other text in i with as many tokens on the line, or any information (i, iln, ifloatln, tmsln below its limit, imsln, a fulfilled assertion) at the end of a line - then the second run is OK with zero differences and zero failures. (For calls that seek only the lines which they write there, first-run pieces that end on token boundaries, texts without NUL and carriage return; float() prints on one line. Tests that write whole lines satisfy the condition on pieces always.)", "quantifier": "all call sequences of this kind, all information, all earlier snapshots", "why_tests_cant": "The comparison is by token position, so whether changed information disturbs what is checked depends on every combination of texts on the line.", "anchors": ["booktest/testcaserun.py:510-559", "booktest/testcaserun.py:599-651", "booktest/testcaserun.py:915-932"]}
{"id": "C92", "title": "Recorded values survive their JSON file", "statement": "JSON data (None, booleans, integers, floats, texts, lists, dicts with distinct text keys) that snapshot_functions or snapshot_env writes to a file is read back unchanged by a later run, with every nesting and every character; other values are written iff every object in them is known to JSON and no key is a foreign object, and come back with tuples as lists and keys as their texts. The files contain only printable ASCII and line ends. Capturing calls, writing their files, listing the directory in any order and reading it back replays each call's last result and no other. (For texts without a high surrogate directly before a low one, and floats whose text float() reads back.)", "quantifier": "all values, nestings, texts, call sequences and directory orders", "why_tests_cant": "Escapes, surrogates, indentation and separators interact with every nesting of values; tests record a few small values.", "anchors": ["booktest/functions.py:9-77", "booktest/functions.py:79-190", "booktest/env.py:10-80"]}
{"id": "C93", "title": "The key of a function call is its name and its arguments as JSON", "statement": "Two recorded calls have the same key exactly if they have the same function name, the same positional arguments and the same keyword arguments in the same order, where values are the same if their JSON shows the same (tuples and lists alike, keys by their texts). (For texts without a high surrogate directly before a low one; SHA-1 gives the texts of the two calls different digests.)", "quantifier": "all names and all argument values", "why_tests_cant": "A key that confuses two calls replays a wrong result only for the pair of arguments it confuses.", "anchors": ["booktest/functions.py:9-77"]}
{"id": "C94", "title": "The order of keyword arguments does not matter for replay", "statement": "A call with the same keyword arguments written in another order has the key of the recorded call, so that its recorded result is replayed.", "quantifier": "all calls and all orders of their keyword arguments", "why_tests_cant": "Tests make the replayed call at the same place in the program as the recorded call.", "anchors": ["booktest/functions.py:9-77"]}
{"id": "C95", "title": "A recorded HTTP response survives its file", "statement": "After any capture in which every request got a response, the file of recorded requests is written and can be read, and a later run without network gives every request the status, the headers, the encoding and the content of the response that its counterpart got in the capture (with httpx, without the content-encoding header).", "quantifier": "all sequences of requests and responses, all earlier recordings, all contents and headers", "why_tests_cant": "Tests record a few textual responses; the claim covers every content and every text in headers and urls, through the escaping and parsing of JSON.", "anchors": ["booktest/requests.py:129-170", "booktest/requests.py:351-368", "booktest/httpx.py:123-172", "booktest/httpx.py:292-309"]}
{"id": "C96", "title": "The default key of a request is its url, method, body and kept headers", "statement": "With the default hash and the default encoding of the body, a request has a key unless its body is a text that can not be encoded as UTF-8, and two requests have the same key exactly when their urls, methods, the bytes of their bodies and their headers that are not ignored are the same, provided that SHA-1 gives different texts of these two requests different digests.", "quantifier": "all requests, text and bytes bodies, all settings of ignore_headers", "why_tests_cant": "Equality of keys is a claim on all pairs of requests, through JSON, base64 and UTF-8.", "anchors": ["booktest/requests.py:19-69", "booktest/requests.py:93-123", "booktest/httpx.py:26-117"]}
{"id": "C97", "title": "Headers of a replayed response are found as in the live response", "statement": "Looking up a header of a replayed response by any spelling of its name gives what the live response gave (with httpx, but for content-encoding).", "quantifier": "all responses and all spellings of header names", "why_tests_cant": "Spellings of headers differ from server to server; a test sees the servers it talks to.", "anchors": ["booktest/requests.py:140-164", "booktest/httpx.py:134-166"]}
{"id": "C98", "title": "The command line wins over program defaults and configuration", "statement": "Every option given on the command line has the value given there, whatever the program's extra defaults, the configuration files and the environment say; a key that no option sets has the last value of the extra defaults for it, else the configured one.", "quantifier": "all combinations of options, extra defaults, files and environments", "why_tests_cant": "There are 2^15 combinations of options with any configuration.", "anchors": ["booktest/tests.py:Tests.exec_parsed", "booktest/config.py:get_default_config"]}
{"id": "C99", "title": "Any report file is read line by line", "statement": "Whatever text is in cases.txt, the cases that are read from it are those of its lines, in order, that consist of a name, OK, DIFF or FAIL and a duration between tabs; every other line is skipped and has no effect on the others.", "quantifier": "all file contents", "why_tests_cant": "A damaged or merged report can have any text.", "anchors": ["booktest/reports.py:CaseReports.of_file", "booktest/reports.py:read_lines"]}
{"id": "C100", "title": "A crash while accepting can be repaired by accepting again", "statement": "If the process is killed at any moment while a test's output is accepted (freeze), the snapshot's text is the old or the new one, no file of the output is lost, the snapshot never mixes files of the old and the new version, no other file is touched, and accepting the test again completes the acceptance.", "quantifier": "all file systems, case names and moments of the crash", "why_tests_cant": "A test cannot kill the process between every two system calls for every state of the disk.", "anchors": ["booktest/review.py:freeze_case"]}
{"id": "C101", "title": "The printed list of requests does not depend on the order or the run", "statement": "After a test whose HTTP requests were captured (default hash, no hash collision, every request answered), the list printed by t_snapshots has exactly one line per request, sorted by URL and hash, and any replay that makes the same requests, in any order and with the files read back in any order, prints the same lines.", "quantifier": "all request sequences, their permutations and repetitions, all responses", "why_tests_cant": "The number of permutations and repetitions is unbounded.", "anchors": ["booktest/requests.py:SnapshotRequests.t_snapshots", "booktest/httpx.py:SnapshotHttpx.t_snapshots", "booktest/requests.py:SnapshotAdapter.mark_order"]}
{"id": "C102", "title": "A parallel run prints what a sequential run prints", "statement": "A run with -p prints the same heading, for every test the same block, and the same summary as the sequential run of the same tests, except for the order of the blocks and the durations.", "quantifier": "all sets of tests with dependencies, outputs, snapshots, schedules and interleavings of the workers", "why_tests_cant": "The interleavings of worker processes cannot be enumerated by tests.", "anchors": ["booktest/runs.py:parallel_run_tests", "booktest/review.py:report_case", "booktest/review.py:end_report"]}
{"id": "C103", "title": "Requests made at the same time replay", "statement": "A test that has several httpx requests in flight at the same time while capturing gets, in its replay, for every request the response that it got in the capture, whatever the order in which the answers arrived.", "quantifier": "all sequences of requests and all orders of answers", "why_tests_cant": "The order in which concurrent requests are answered is not under the control of a test, and all orders have to be considered.", "anchors": ["booktest/httpx.py:SnapshotHttpx.handle_async_request", "booktest/httpx.py:SnapshotHttpx.lookup_snapshot", "booktest/httpx.py:SnapshotHttpx.mark_order"]}
{"id": "C104", "title": "A test gets the results of all its dependencies", "statement": "A test function decorated with depends_on, in any combination with other decorators, is called with the values of all its declared dependencies and resources in the order of declaration, and each dependency ran before it or is cached.", "quantifier": "all stacks of decorators, dependencies and schedules", "why_tests_cant": "Decorators can be stacked in any number and order.", "anchors": ["booktest/dependencies.py:depends_on", "booktest/dependencies.py:call_class_method_test", "booktest/dependencies.py:call_function_test", "booktest/tests.py:Tests.method_dependencies"]}
{"id": "C105", "title": "A recorded call returns in the replay what the test saw", "statement": "In the replay, a call of a recorded function returns what the last call with the same arguments returned to the test in the capture, whatever the test and the functions do with the objects in between; no call changes an object in the replay.", "quantifier": "all sequences of calls and changes of objects", "why_tests_cant": "It depends on the aliasing of objects between the recorder, the functions and the test.", "anchors": ["booktest/functions.py:SnapshotFunctions.snapshot", "booktest/functions.py:SnapshotFunctions.stop"]}
{"id": "C106", "title": "Without arguments the default tests are run", "statement": "Without test names on the command line, booktest runs exactly those tests detected below test_paths whose names are below a path in default_tests (or equal to it), and the tests they need; in particular every test function of a test file below a path that is in test_paths and in default_tests. (Test names are distinct, dependencies acyclic, default_tests has no skip: entry, and lower-casing does not introduce a slash.)", "quantifier": "all configurations, directory trees, modules and dependencies", "why_tests_cant": "The directory trees and configurations are unbounded.", "anchors": ["booktest/cli.py:setup_test_suite", "booktest/detection.py:detect_tests", "booktest/tests.py:Tests.exec_parsed"]}
{"id": "C107", "title": "Tests run inside the setup of their directory", "statement": "The process_setup_teardown of a file __booktest__.py is used for the tests below its directory.", "quantifier": "all configurations and directory trees", "why_tests_cant": "The number and places of setup files are unbounded.", "anchors": ["booktest/cli.py:setup_test_suite", "booktest/detection.py:detect_setup", "booktest/detection.py:parse_booktest_setup"]}
{"id": "C108", "title": "Preparing directories touches nothing else", "statement": "Before a test runs, the directories of its snapshot and output exist and no other directory was made and no file changed; before a parallel run, the directory of batches is emptied and nothing else is deleted.", "quantifier": "all root directories, test names and file trees", "why_tests_cant": "Paths become part of shell commands; tests use a few harmless paths.", "anchors": ["booktest/testcaserun.py:TestCaseRun.__init__", "booktest/runs.py:prepare_batch_dir"]}
{"id": "C109", "title": "An image breaks the test exactly when it changes", "statement": "A test that saves images with file, renames them with rename_file_to_hash and shows them with timage keeps every image under its hash with its content and changes no other file; and after its output was accepted, a run with the same calls is OK exactly when every image has the same content. (No two different images have the same hash, hashes have one length, the names the images are first saved under are not hashes of images, and there is no directory in place of an image.)", "quantifier": "all sequences of lines and images, contents, postfixes and alternative texts", "why_tests_cant": "The sequences and contents are unbounded.", "anchors": ["booktest/testcaserun.py:TestCaseRun.rename_file_to_hash", "booktest/testcaserun.py:TestCaseRun.timage", "booktest/testcaserun.py:TestCaseRun.file"]}
{"id": "C110", "title": "Text that cannot be stored fails its test only", "statement": "A test that writes a character its files cannot hold (such as a lone surrogate in UTF-8) is recorded as failed, and the tests after it run. (False: the handler of the exception first ends the line that cannot be written, which raises again and leaves the run; neither that test nor the ones after it are recorded. The exact condition: a line that the test ended holds such a character.)", "quantifier": "all encodings with ASCII, snapshots, sequences of calls, exceptions raised by the test, and lists of tests", "why_tests_cant": "depends on the encoding of the files and on which of all lines is ended; tests use ordinary text", "anchors": ["booktest/testrun.py:88-107", "booktest/testcaserun.py:417-463", "booktest/testcaserun.py:269-273"]}
{"id": "C111", "title": "Several recording blocks in one test", "statement": "A test may open several recording blocks of the same kind (snapshot_env decorators on top of each other, blocks of requests or httpx one after the other, blocks of recorded functions): what all of them recorded is replayed. (True for functions, one file per call. False for the others: all blocks write the same file, so only the recordings of the block that ends last are kept, and the replay of the others raises.)", "quantifier": "all lists of blocks, names, environments, requests, calls and answers", "why_tests_cant": "needs a capture, an accepted result and a replay of every combination of blocks", "anchors": ["booktest/env.py:54-91", "booktest/requests.py:352-369", "booktest/httpx.py:292-309", "booktest/functions.py:173-190"]}
{"id": "C112", "title": "Chains of assertions on an object count exactly the assertions that do not hold", "statement": "For a chain t.it(title, x).must_equal(..).must_contain(..).must_be_a(..).must_apply(..).member(..)...: each assertion is made on x with the members selected before it; the errors of the test grow by exactly the number of assertions that do not hold of their object (whatever was written before, as long as no fail() is pending in an unfinished line, and whatever the snapshot); so a test that is one chain fails iff one of its assertions does not hold; and its output is a heading, a heading with the path for each member, and one line for each assertion that says ok, FAILED or the type the object was.", "quantifier": "for all objects, comparisons, titles, chains of assertions, snapshots, and states of the test before the chain", "why_tests_cant": "chains, objects and the state of the test before them form an unbounded space; a failure that is lost in one position would need that position to be tested.", "anchors": ["booktest/testcaserun.py:800-871", "booktest/testcaserun.py:950-978"]}
{"id": "C113", "title": "A test whose requests depend on the answers has the same conversation in its replay", "statement": "A test that decides after each answer what to request next, or to stop, makes in every later run without network as many requests as in the capture, with the same keys, and gets the recorded answers. (False: a redirect is followed while capturing but not in the replay if the server spells the header Location. Proved for the default hash, for captures in which every request was answered, and tests that look at nothing of an answer that is lost in the file.)", "quantifier": "for all tests as functions of the answers so far, network answers, earlier recordings, ignored headers and orders of the file", "why_tests_cant": "the space of adaptive clients is unbounded, and a client that diverges from its recording does so only for some answers.", "anchors": ["booktest/requests.py:189-223", "booktest/requests.py:352-372", "booktest/httpx.py:221-264"]}
{"id": "C114", "title": "A block takes over the requests of a session and gives the session back", "statement": "Inside a snapshot_requests block the requests of every session, whatever adapters it mounts or get_adapter it overrides, are answered and recorded by the block, and without -s or -S none uses the network; while capturing, the request that is made is the one the session would have made (its adapter, its arguments); after the block the session finds the adapters it found before. (The last two are false: mounted adapters and arguments such as timeout, verify and proxies are not used, and a get_adapter of the session's class or object is lost. Proved for plain sessions.)", "quantifier": "for all sessions, adapters, arguments, requests, recordings and network answers", "why_tests_cant": "sessions can be subclassed and configured in arbitrary ways; a leaked attribute shows only after the block, in a session that outlives it.", "anchors": ["booktest/requests.py:213-223", "booktest/requests.py:226", "booktest/requests.py:252-277", "booktest/requests.py:316-350"]}
{"id": "C115", "title": "A result that cannot be stored never leaves an older one in its place", "statement": "When a test returns a value that pickle cannot store, only this test fails; and over any history of runs a dependent in a new process gets the value of the last execution of its dependency that did not fail, or an exception, but never an older value. (The first part is false: the run raises, the test is not recorded and the tests after it are not run. Proved: the run gets to its end iff all values to be stored can be; the tests before the failing one are recorded, and the failing one is not.)", "quantifier": "for all values, verdicts, lists of tests, and histories of runs", "why_tests_cant": "it takes a history of several runs, some of which died, to see a stale value.", "anchors": ["booktest/testrun.py:59-86", "booktest/testrun.py:88-107", "booktest/testrun.py:143-181"]}
{"id": "C116", "title": "Sync and async tests are run to their end inside their decorators", "statement": "Whether a test function is async or not makes no difference: under any stack of decorators of the package the blocks are entered from the outermost in, the body is run to its end, and the blocks are left from the innermost out; the test's value or exception is the body's unless a block raises. (False for a function that returns a coroutine without being a coroutine function: its body is not run and the blocks are left. Proved for def and async def.)", "quantifier": "for all stacks of decorators, blocks that may raise on entering or leaving, bodies and states", "why_tests_cant": "stacks, blocks and bodies are unbounded.", "anchors": ["booktest/coroutines.py:4-8", "booktest/testrun.py:88-100", "booktest/env.py:77-92", "booktest/functions.py:207-226", "booktest/requests.py:384-410", "booktest/httpx.py:325-351", "booktest/utils.py:26-47"]}
{"id": "C117", "title": "Replayed requests may come in another order", "statement": "With the default hash of requests, provided that SHA-1 has no collision among the requests made and that every request of the capture got an answer: in a replay of any requests in any order, the n-th request with a given key gets the answer that the n-th request with that key got in the capture, or the missing-snapshot error when the capture had fewer such requests, and the network is never used.", "quantifier": "all captured sequences of requests and answers, all replayed sequences (any order, number and repetition), all orders in which the stored snapshots are read back", "why_tests_cant": "There are unboundedly many sequences of requests and reorderings, such as those that threads produce.", "anchors": ["booktest/requests.py:SnapshotAdapter.send", "booktest/requests.py:SnapshotAdapter.lookup_snapshot", "booktest/requests.py:SnapshotAdapter.mark_order", "booktest/httpx.py:SnapshotHttpx.lookup_snapshot"]}
{"id": "C118", "title": "A recorded test runs offline exactly as it was recorded", "statement": "Take a test inside snapshot_requests or snapshot_httpx (default hash and body encoding) that makes requests one after another, each chosen from the responses so far, and a run of it that records (-s or -S, with or without earlier recordings) in which every request gets a response with UTF-8 content. Then a later run that finds the recordings of that run in the snapshot directory and does not record, with any network: sends requests with the same keys in the same order, gets the same responses (httpx: without the content-encoding header), never uses the network, makes the same calls on its TestCaseRun including the printed list of requests, and writes the same file of recordings byte for byte. The later test may send other ignored headers; it must otherwise look at nothing that is lost in the file, and SHA-1 must not collide on the requests.", "quantifier": "all adaptive tests, all requests, responses and earlier recordings, all ignore_headers and lose_request_details settings, all later networks", "why_tests_cant": "a test suite records a few fixed conversations; the claim is about every conversation, every way to choose the next request, and equality of whole runs and files", "anchors": ["booktest/requests.py:SnapshotRequests", "booktest/httpx.py:SnapshotHttpx"]}
{"id": "C119", "title": "Tests recorded with -a and -u pass from then on", "statement": "A run with -a and -u (no -i, no -c) of tests whose code reads the files of their snapshot directory, in which every result is OK, leaves the files of each test in its snapshot directory; and a later run, in any mode without -i, of tests that do the same again when they find those files, is all OK and leaves the files as they are. Tests inside snapshot_requests that were recorded in the first run are such tests, with any network in the second (C118). The names are distinct, do not nest, have no dots and are not index or cases; C12 applies to what the tests write. Without -u this is false: if the snapshot fits and the recordings were lost, a run that records them again is OK but does not accept them, and the next run fails.", "quantifier": "all sets of tests, all recordings and contents of the file system, all flags of the later run", "why_tests_cant": "it composes recording, acceptance by moving directories, reading the file back and comparison over two whole runs of arbitrary tests", "anchors": ["booktest/testrun.py:TestRun.run_async", "booktest/testcaserun.py:TestCaseRun.start", "booktest/review.py:freeze_case", "booktest/requests.py:SnapshotRequests"]}
{"id": "C120", "title": "A test of recorded functions replays identically and passes after acceptance", "statement": "A test inside snapshot_functions whose calls depend on what earlier calls returned, recorded with -s or -S, is run again with what it left in .functions, listed in any order: the later run makes the same calls (by their hash), gets the same results, calls no function, and prints and leaves the same files. Recorded with -a and -u in a run without differences, such tests are all OK in every later run, and their recordings stay. It is assumed that no call is repeated, all calls returned, results are JSON data, arguments can be written to JSON without two keys becoming the same text, texts have no surrogate pairs, floats read as they are written, hashes have no slash, and the test changes neither arguments nor results afterwards and writes no own file under .functions. If a call is repeated this is false: a test that calls f(1), f(2), f(1), recorded and accepted, has differences in the next run, because the list of calls is printed in another order.", "quantifier": "all tests, all functions, all earlier recordings, all orders of os.listdir, all flags of the later run", "why_tests_cant": "it composes recording, files, acceptance and replay over two whole runs of arbitrary adaptive tests; the order of os.listdir depends on the platform", "anchors": ["booktest/functions.py:SnapshotFunctions", "booktest/functions.py:FunctionCall", "booktest/testrun.py:TestRun.run_async", "booktest/review.py:freeze_case"]}
{"id": "C121", "title": "A test of recorded environment variables replays identically in every environment", "statement": "A test inside snapshot_env that depends on no other variables and does not remove these, recorded with -s or -S without an exception in start or stop, leaves the values that it saw in .env.json. Run again with that file, in every environment in which the variables recorded as not set are set, it sees the same values, prints and leaves the same files, and the environment has its old values afterwards. Recorded with -a and -u in a run without differences, such tests are all OK in every later run. The names are distinct, names and values have no surrogate pairs. Where a variable that was recorded as not set is not set, this is false: start raises.", "quantifier": "all tests, all names, all environments of both runs, all earlier recordings, all flags of the later run", "why_tests_cant": "it quantifies over the environments of both runs and composes recording, the JSON file, acceptance and replay", "anchors": ["booktest/env.py:SnapshotEnv", "booktest/testrun.py:TestRun.run_async", "booktest/review.py:freeze_case"]}
{"id": "C122", "title": "Requests of several threads in one block are answered one at a time", "statement": "Threads that make requests, each with any session, in one snapshot_requests block interleave in any way. The block answers and records as if the requests, including the redirects that requests follows, had been made one after another in the order in which they were answered; no request inside the block bypasses it; the redirects of a request are not interrupted by other threads; every thread gets what it would get alone from these answers, or the exception of the lock, which occurs only while another thread is inside; some thread can always go on; and the sessions keep their adapters. If no two threads make requests with the same key, the responses survive their file and no thread waits too long, a replay, in any other interleaving and without the network, gives every thread the results it got, and prints the same list when all have ended. Threads that make the same request can get each other's answer.", "quantifier": "all threads and what they do after any results, all sessions, all interleavings of capture and replay, all answers of the network, all redirects", "why_tests_cant": "it quantifies over all interleavings of two runs; a test sees the one that the scheduler chose", "anchors": ["booktest/requests.py:threading_rlock", "booktest/requests.py:SnapshotRequests._fake_send", "booktest/requests.py:SnapshotAdapter.send"]}
{"id": "C123", "title": "The exit status of the command tells whether it succeeded", "statement": "From the command line, the environment, the configuration files and the test files to the exit status: a name that is no test and no directory of tests ends the command with status 2 and changes nothing; the status of a run is 0 exactly if no test that was run failed, and then every selected test, and everything it needs that had no result yet, was run and is OK (or, with -c, was OK by the report of the runs before), otherwise it is 255 (or 1 after an exception); --review ends with 0 exactly if all records that it leaves are OK; --view ends with 0 exactly if the viewer did.", "quantifier": "all environments, configuration files, test files, options and arguments, all test bodies, all file systems, all viewers", "why_tests_cant": "the status is what CI systems rely on; the tests of the project never look at the status of a whole process", "anchors": ["booktest/cli.py:main", "booktest/cli.py:exec_parsed", "booktest/__main__.py", "booktest/tests.py:Tests.exec_parsed", "booktest/runs.py:run_tests"]}
{"id": "C124", "title": "A test under several recorders at once replays identically and passes after acceptance", "statement": "A test under any of snapshot_env, snapshot_functions, snapshot_requests and snapshot_httpx, each at most once and in any order, whose calls and requests depend on the variables and on how the earlier ones ended, is recorded with -s or -S and run again with what it left in its directory. In every environment in which the variables recorded as not set are set, the later run exists, makes the same calls and requests (by their hash), gets the same results, calls no function and does not ask the network, prints the same lists, leaves the same files and restores the variables. Recorded with -a and -u in a run without differences, such tests are all OK in every later run, and their recordings stay. It is assumed what C118, C120 and C121 assume of each recorder (among it: all calls returned, no function call is repeated, contents are UTF-8, no hash collides, the test does not look at content-encoding of httpx responses), that without snapshot_env the test does not depend on the environment, and that the code of recorded functions makes no recorded requests. If it does, this is false: the function is not called in the later run, the list of requests is shorter, and the test has differences.", "quantifier": "all tests, all sets and orders of decorators, all earlier recordings, all environments, networks and functions of the later run, all flags of the later run", "why_tests_cant": "the recorders interact through the order of what they print and write, for every test and every order of decorators", "anchors": ["booktest/env.py:SnapshotEnv", "booktest/functions.py:SnapshotFunctions", "booktest/requests.py:SnapshotRequests", "booktest/httpx.py:SnapshotHttpx"]}
{"id": "C125", "title": "With -p the command ends with the same status", "statement": "Take the same command line with and without -p (any number of processes), the same environment, configuration files, test files and snapshots, in batch mode without -u and --fail-fast (with or without -a, -c, -r and with any selection). If the sequential command ends without an exception, then the parallel command, whatever the interleaving of its workers, ends with the same status, leaves the same files apart from booktest's own notes, and its report has the same result for every test. The scheduler's dependencies are those that the code computes from the declarations of the tests, and the selected tests are always in an order that it can run. Assumed as in C82: test names without dots or tabs, none a directory of another and none 'output'; the code of a test reads only its own files and the values of the tests it depends on, and does the same in both configurations; nothing aborts the parallel run.", "quantifier": "all environments, configuration files, test files, options and arguments, all test bodies, file systems and interleavings", "why_tests_cant": "the command is an entry point that reads its environment, and the interleavings of the workers cannot be enumerated by tests", "anchors": ["booktest/cli.py:main", "booktest/tests.py:496-539", "booktest/runs.py:101-260", "booktest/runs.py:285-417"]}
{"id": "C126", "title": "Recorded and accepted tests also pass in parallel", "statement": "Tests are run with -a and -u in a sequential run without questions in which nothing fails, under any of the recorders as in C124 (or with any code that, given the files it left, does the same again). Then every parallel run of the same tests after it, however the steps of its processes interleave, returns success, reports every test as OK (without -c), and leaves all recordings as they were, with any network, functions and environment as in C124. It is assumed what C124 assumes of the tests and what C82 assumes of a parallel run: no -u, no fail-fast, tests read only their own files and the values of the tests they depend on and come after them, names do not overlap and none is 'output', durations are printed and read back.", "quantifier": "all tests, all sets of recorders, all earlier files, all interleavings of the processes", "why_tests_cant": "recordings are read by processes in any order, next to processes that write", "anchors": ["booktest/runs.py:101-260", "booktest/testcaserun.py", "booktest/env.py:SnapshotEnv", "booktest/functions.py:SnapshotFunctions", "booktest/requests.py:SnapshotRequests", "booktest/httpx.py:SnapshotHttpx"]}
{"id": "C127", "title": "Questions, 'q', fail-fast and Ctrl-C in a parallel run", "statement": "In a parallel run (-p) that asks the user, with or without -I and fail-fast, without -u and not with -I and -a together, the main thread asks and accepts while the workers of other tests are still running. However these steps interleave: every test has the result that it has in a sequential run in which nobody is asked; the reviews come one after the other, each with the answers that the one before left, and each asks, accepts and stops exactly as in a sequential review; only the last review is one with 'q' or, with fail-fast, one that is not OK. The run ends because of this review, because all tests were reviewed, because of Ctrl-C, or with an exception when the user gives no answer that decides. The status is 0 iff all reviewed tests are OK after their reviews; the report file contains the reviewed tests with their new results and the tests that were finished but not reviewed with their own, but not the test whose review was interrupted by Ctrl-C or the exception. The files of a test that was not started are unchanged, those of a started test are as after the sequential run, and those of a test accepted by the user are as after accepting it there; those of a test whose review was interrupted are as if it had not been reviewed or, if the user had accepted it, as after an acceptance that was killed at some point; no other file changes except booktest's own. Every run is finite, and until it is over something can be done. Assumed as in C82: tests read only their own files and the values of the tests they depend on and come after them, names do not overlap and none is 'output', durations are printed and read back.", "quantifier": "all tests, all configurations without -u and without -I and -a together, all answers, all earlier files, all interleavings of the workers and the main thread, all moments of a Ctrl-C", "why_tests_cant": "the moments at which the user answers and the workers write can only be sampled", "anchors": ["booktest/runs.py:101-417", "booktest/review.py:85-125"]}
{"id": "C128", "title": "Answering does not crash a parallel run", "statement": "A parallel run ends with an exception only if the user gives no answer that decides about a test.", "quantifier": "all tests, all configurations without -u, all answers, all interleavings", "why_tests_cant": "the combination of options is rarely tried", "anchors": ["booktest/runs.py:138-145", "booktest/runs.py:333-360", "booktest/review.py:85-125"]}
{"id": "C130", "title": "Status 0 of a parallel run means that every selected test is OK", "statement": "If a parallel run (-p, without -u) ends with status 0, every selected test is recorded as OK. (False of the code: Ctrl-C is swallowed, tests that did not run and the test whose question was interrupted count for nothing, and with -I a 'q' at an OK test ends the run with status 0.)", "quantifier": "all tests, all configurations without -u, all answers, all interleavings, all moments of a Ctrl-C", "why_tests_cant": "the moment of the interrupt can only be sampled", "anchors": ["booktest/runs.py:333-417"]}
{"id": "C131", "title": "-c after a stopped parallel run runs exactly what is not OK", "statement": "However a parallel run as in C127 ended (all tests reviewed, 'q', fail-fast, Ctrl-C, no more answers): a run with -c after it runs, of the tests that were selected both times, exactly those that the first run had to run and whose review did not end with OK, or that were finished with another result but not reviewed, or that have no record because they were not run or their review was interrupted. At most one review is interrupted.", "quantifier": "all tests, all configurations without -u and without -I and -a together, all answers, all earlier reports, all interleavings, all moments of a Ctrl-C", "why_tests_cant": "the moment of the interrupt can only be sampled", "anchors": ["booktest/runs.py:333-417", "booktest/reports.py:110-123"]}
{"id": "C129", "title": "What a parallel run with questions prints", "statement": "A parallel run as in C127 prints the heading; for every reviewed test, in the order of the reviews, its name, with -v its report and with -L its log as they are after the sequential run, its result and the time, and, if the user is asked, one prompt per answer until an answer decides, after each answer that names a tool which is not defined two lines about it; of a review that was interrupted or ran out of answers a first part of this; after Ctrl-C one line '..interrupted' for each of the tests that had not ended by then; one line for each test that was finished but not reviewed; and the summary, which counts the tests of the report that this run wrote and names those that are not recorded as OK. At most one review is not finished; no test is printed by two reviews; after Ctrl-C every test of the run is reviewed, named as interrupted or printed as finished. Assumed as in C127.", "quantifier": "all tests, all configurations without -u and without -I and -a together, all answers, all tool settings, all interleavings, all moments of a Ctrl-C", "why_tests_cant": "the answers, the moments and the interleavings can only be sampled", "anchors": ["booktest/runs.py:309", "booktest/runs.py:335-417", "booktest/review.py:28-82", "booktest/review.py:128-241"]}
{"id": "C132", "title": "A batch run that was not finished and is continued ends like a run to the end", "statement": "Take a parallel run without questions, without -a and -u, that was interrupted with Ctrl-C at any moment, or stopped by fail-fast, or ran to the end. Continue it with -c, without fail-fast, one test after the other or in parallel. The second run ends; it has the exit status of one sequential run of all selected tests to the end from the same files; afterwards the report holds for every test exactly the results that it holds after that run; and all files are the same except .batches, cases.txt, metrics.json and output.txt of the output directory. Assumed as in C82, and that the code of a test reads only its own files, without the value it returned in an earlier run, and the values of the tests it depends on.", "quantifier": "all tests, all configurations without questions, -a and -u, all interleavings, all moments of a Ctrl-C, all earlier runs", "why_tests_cant": "the moments and the interleavings can only be sampled", "anchors": ["booktest/runs.py:285-417", "booktest/reports.py:110-123", "booktest/testrun.py:112-191"]}
{"id": "C133", "title": "A sequential run that is killed and continued ends like a run to the end", "statement": "Take a sequential run without questions, without -a and -u, that is killed or left with Ctrl-C at any moment: in the middle of a test, with any of the test's files missing, old or half written, in the middle of a record in cases.txt, or in the middle of metrics.json or index.md. Continue it with -c, without fail-fast, one test after the other or in parallel. The second run ends; it has the exit status of one run of all selected tests to the end from the same files; the report holds for every test exactly the results that it holds after that run; and all files are the same except .batches, cases.txt, metrics.json and output.txt of the output directory. Assumed as in C132.", "quantifier": "all tests, all configurations without questions, -a and -u, all moments, all earlier runs", "why_tests_cant": "the moments and the states of half written files can only be sampled", "anchors": ["booktest/testrun.py:78-191", "booktest/reports.py:110-182", "booktest/testcaserun.py:23-125", "booktest/testcaserun.py:269-316"]}
{"id": "C134", "title": "A parallel run that is killed and continued ends like a sequential run to the end", "statement": "Take a parallel run without questions, without -a and -u, that is killed at any moment after it has opened cases.txt: with any number of tests running in any interleaving, with any of the files of the running tests missing, old or half written, with the records of any of the tests that have ended written, the last one possibly in part, and with any content in .batches, output.txt, metrics.json and index.md. Continue it with -c, without fail-fast, one test after the other or in parallel; the runs that continue it may themselves be killed, sequential or parallel, any number of times. The last run ends; it has the exit status of one sequential run of all selected tests to the end from the same files; the report holds for every selected test exactly the results that it holds after that run, and no results that it does not hold; and all files are the same except .batches, cases.txt, metrics.json and output.txt of the output directory. The results of tests that were not selected are still there, too, unless the first run was killed while it filled cases.txt with them again. A run with -c must not be killed while it fills cases.txt. Assumed as in C132.", "quantifier": "all tests, all configurations without questions, -a and -u, all interleavings, all moments, all numbers of killed runs", "why_tests_cant": "interleavings, moments and half written files can only be sampled", "anchors": ["booktest/runs.py:285-417", "booktest/runs.py:61-98", "booktest/testrun.py:78-191", "booktest/reports.py:110-182"]}
{"id": "C135", "title": "The command line is read as its grammar says", "statement": "A command line is accepted exactly if it consists of options, one block of test names, and options again (or options, test names, \"--\" and further test names). An option may be written out or shortened as far as it stays unique, a value may follow it as the next word or (the option written out, or of two dashes) after \"=\", and options of one letter may be joined in one word; test names have to be a test, a directory of tests, one of these after \"skip:\", or \"*\". An accepted line has the effect of its options: a switch is on exactly if it is given, of -p and its relatives, the command, the viewer and the diff tool the last one given counts, so the order of options does not matter unless two set the same thing to different values; and the command runs with exactly these options and names, as in C123. Any other line changes no file and ends with status 2, or, if a word of it asks for help, possibly with the help and status 0.", "quantifier": "all command lines, all test suites, all ways to read numbers (without a sign); \\d matches neither \".\" nor a line break", "why_tests_cant": "command lines are unbounded lists of unbounded words; abbreviations, joined letters and values that look like options interact", "anchors": ["booktest/tests.py:125-344", "booktest/cli.py:47-63"]}
{"id": "C136", "title": "--setup configures the next command", "statement": "If the configuration can be read, the suite can be set up and the selection can be resolved, --setup with seven answers ends with status 0 and changes only .booktest. The next command in this directory works with exactly the answers, or, for empty answers, with what --setup itself worked with (its own options included) or the default, except where the environment sets something else; everything else comes from the environment and from the file ~/.booktest alone, so what .booktest set before and --setup does not ask for is gone. With fewer answers the status is 1 and no file changes. Assumed: the values hold no line break, do not end in a blank and are not 0 or 1 (see C52).", "quantifier": "all answers, command lines, environments, configuration files, test suites", "why_tests_cant": "answers, earlier files and environments are unbounded; the effect shows only in the next process", "anchors": ["booktest/setup.py:73-114", "booktest/config.py:30-50", "booktest/tests.py:369-446"]}
{"id": "C137", "title": "A test that is accepted while the process dies can be run again", "statement": "Run a test without questions whose output is accepted (-a on a difference, -u on a match) and let the process die at any moment: while the code of the test runs, with any of its output files missing or half written, while freeze_case removes the old files of the snapshot, between its two renames, or while the value of the test is written. Run the test again with the same options: it ends OK, and the snapshot (its text and the files in its directory) is the one that a run without the accident leaves. Assumed: the test writes the same text and files every time, raises no exception, seeks only lines that it writes itself, and every piece of text that it writes ends on a token boundary (as in C12 and C78); its name has no dot; nothing of the wrong kind stands at its paths.", "quantifier": "all such tests, options without questions, files, moments", "why_tests_cant": "the moment of death and the order of the removals can only be sampled", "anchors": ["booktest/review.py:85-125", "booktest/testrun.py:78-107", "booktest/testcaserun.py:23-125", "booktest/testcaserun.py:222-316"]}
{"id": "C138", "title": "Equal resources exclude each other and different ones do not", "statement": "Two resources are the same exactly if their identifiers are equal in python, where a resource without an identifier is identified by its value. So two ports are the same exactly if their numbers are equal, and a port is never the same as a resource that is named with a number. Two tests that run at the same time in a parallel run never have a resource in common in this sense, and the sets of resources that the scheduler keeps hold a resource as reserved exactly if an equal one was added and not taken away. Identifiers are numbers, truth values or texts.", "quantifier": "all resources, all tests, all executions of the parallel runner", "why_tests_cant": "executions and combinations of resources can only be sampled", "anchors": ["booktest/dependencies.py:7-36", "booktest/runs.py:153-190", "booktest/runs.py:205-231"]}
{"id": "C139", "title": "Measuring coverage does not change how a run ends", "statement": "A run with --cov starts with all files but .coverage and the files of the working directory whose names begin with .coverage. , and ends like the run without --cov: with the same exit status, or with an exception as well, and with the same files but for .coverage, .coverage.* and coverage.xml in the working directory. Assumed: the library coverage raises no exception and writes only these files, and the run does not depend on them.", "quantifier": "all runs, all files, all orders of the directory listing", "why_tests_cant": "runs and directory contents can only be sampled", "anchors": ["booktest/tests.py:494-543"]}
{"id": "C140", "title": "A run with -a or -u that is killed can be repeated or continued", "statement": "Take tests and files from which a run with -a or -u (no questions) ends OK for all tests. Instead let the run be killed at any moment from the opening of the report on (while the report is refilled, in a test, while a snapshot is replaced, in the middle of a record, in metrics.json, in the index), and let any number of further runs of the same tests, each with or without -c, be killed likewise; the first one is without -c. The next run that is not killed, with or without -c, ends OK and leaves every snapshot, text and files, as the run without accidents does; and every later run of these tests, also one without -a and -u, is OK. Assumed: the tests write the same text and files every time, raise no exception, seek only lines that they write, and their pieces of text end on token boundaries (as in C12 and C78); their names have no dot and do not clash; nothing of the wrong kind stands at their paths.", "quantifier": "all such tests, options without questions, files, numbers and moments of accidents", "why_tests_cant": "moments of death, and sequences of them, can only be sampled", "anchors": ["booktest/testrun.py:88-191", "booktest/review.py:85-125", "booktest/reports.py:110-165"]}
{"id": "C141", "title": "Recordings of older versions are taken over", "statement": "A test inside snapshot_requests or snapshot_httpx may find, besides .requests.json (.httpx.json), a directory .requests (.httpx) with one file per request, as older versions wrote them, with or without a hash. What C118 says holds for a run that finds such recordings: a later run that finds only the file which that run wrote, and does not record, sends the same requests, gets the same responses (httpx: without content-encoding), never uses the network, does the same on its TestCaseRun and writes the same file. Recordings in .requests.json win over those of the directory for the same request (by hash), and if no two files of the directory are for the same request, the order in which the directory is listed does not matter. After a run with -a and -u in which every test is OK (as in C119) the directory is gone, the recordings are in .requests.json, and every later run that does not record is OK. The assumptions are those of C118 and C119; the files of the directory have the entries and types that the code writes.", "quantifier": "all adaptive tests, all files in the directory and in .requests.json, all listing orders, all flags of the later run", "why_tests_cant": "current versions never write such directories, so tests hold at most one old sample; the claim is about every mixture of old and new recordings and the runs after it", "anchors": ["booktest/requests.py:SnapshotRequests.__init__", "booktest/httpx.py:SnapshotHttpx.__init__", "booktest/requests.py:RequestKey.__init__"]}
{"id": "C142", "title": "Files and temporary files of a test", "statement": "A test case starts with neither its directory D (out/\u2026/name) nor its temporary directory T (out/\u2026/name.tmp): whatever earlier runs left there is gone and nothing else is touched. Then let the test call tmp_dir, tmp_file (writing to the path) and file (writing to the path) any number of times. file(n) always gives D/n. tmp_dir(n) gives the new directory T/n if no tmp_dir(n) and no written tmp_file(n) came before, and raises otherwise. Writing to tmp_file(n) works, and the path is T/n, unless the first of these calls for n was a tmp_dir(n). In the end D exists iff file was called, T iff one of the other two was, T/n is a directory iff the first call for n was tmp_dir(n), every written file has its last text, and there is nothing else in D and T and no change outside of them. So what a test is told about its files, and what is in D and T in the end, does not depend on what earlier runs left. Assumed: the names are those of entries of a directory (not empty, no slash, not . or ..), out/\u2026 is a directory whose path does not end in a slash, and D and T are not themselves files.", "quantifier": "all trees of files, all names and texts, all sequences of calls", "why_tests_cant": "tests try a few calls in a directory that starts out empty; the claim is about every sequence of calls and everything that may have been left behind", "anchors": ["booktest/testcaserun.py:58-62", "booktest/testcaserun.py:97-104", "booktest/testcaserun.py:127-156"]}
{"id": "C143", "title": "A failing test changes nothing but its own output", "statement": "Whatever the flags (-a, -u, -i, -I) and the user's answers, a test that ends with FAIL changes only its .md, .txt and .log file, its directory and its temporary directory in the output directory: no snapshot, no recording, no file of another test and no value stored for its dependents changes, and it is never frozen. A test that raises (with texts without the NUL character) ends with FAIL, unless its files cannot be opened or the input of the questions ends. A test inside snapshot_functions that recorded a result which cannot be written as JSON raises, so this holds for it.", "quantifier": "every test body, configuration, file system and sequence of answers", "why_tests_cant": "unbounded bodies, file systems and dialogues", "anchors": ["booktest/testrun.py:TestRun.run_case", "booktest/testcaserun.py:TestCaseRun.end", "booktest/review.py:case_review", "booktest/functions.py:SnapshotFunctions.stop"]}
{"id": "C144", "title": "A dependent never gets a value from before its dependency failed", "statement": "After a test has been executed, the value stored for its dependents is the value that this execution returned, and there is none if the execution failed.", "quantifier": "every test body, configuration, file system and sequence of answers", "why_tests_cant": "needs failing dependencies with the files of earlier runs", "anchors": ["booktest/testrun.py:TestRun.run_case", "booktest/testrun.py:TestRun.save_test_result"]}
{"id": "C145", "title": "The order of the selected tests does not matter", "statement": "Take two sequential runs of the same selected tests from the same files, in two orders, each of which has every test after the selected tests it depends on. If one run ends, so does the other, and they have the same result (exit code), the same tests with the same results in their reports, in the order of each run, and the same files apart from cases.txt (the report) and metrics.json (the time it took). Assumed: nobody is asked (no -i, -I), no --fail-fast, the code of a test reads only files of the test and the stored values of its dependencies, the names are separate (no test inside another, no two that differ only by an extension booktest uses), and no file stands where a test needs a directory or the other way round.", "quantifier": "all selections, orders, test bodies, files, with and without -a, -u and --continue", "why_tests_cant": "a test suite runs in one order; the claim is about every pair of orders, all bodies and all files", "anchors": ["booktest/testrun.py:TestRun.run_async", "booktest/testrun.py:TestRun.run_case", "booktest/reports.py:CaseReports"]}
{"id": "C146", "title": "A file of recordings is read exactly if it is JSON, as the value that JSON gives it", "statement": "json.load, with which booktest reads recorded functions, environment variables and requests, accepts a text exactly if it is a document of the JSON grammar (one value with white space around it: null, true, false, numbers without leading zeros, quoted texts with the eight short escapes and \\u with four hex digits in either case, arrays, objects) or of Python's extensions of it (NaN, Infinity, -Infinity, escapes of halves of surrogate pairs), and gives the value that the grammar assigns: two escapes of a high and a low surrogate that follow each other are one character, and of members of an object with the same key the last counts and stands where the key was first. Every text has at most one value. This includes files that were edited or merged by hand. Not considered: the limits on recursion and on the number of digits of an integer; which float a text of a number stands for is a parameter.", "quantifier": "all texts", "why_tests_cant": "there are infinitely many texts; a test reads back a few files that booktest itself wrote", "anchors": ["booktest/env.py:30", "booktest/functions.py:162", "booktest/requests.py:304-310", "booktest/httpx.py:204-210"]}
{"id": "C147", "title": "Running the tests in parts gives the same as running them together", "statement": "In a run without questions and without --fail-fast, take tests whose names stay apart, that read no files but their own and the return values of their dependencies, and whose own paths are files or missing. Run a selection s1 ++ s2 without repetitions from some files, and also s1 from these files and s2 after it. The whole run returns exactly if both parts do, and then the result of the whole run is the worse of the results of the two parts (so it is OK exactly if both are), the report after the second part has the same tests with the same results in the same order as the report of the whole run (and the same report if the durations are the same), and every file other than cases.txt and metrics.json is the same both ways. This holds with and without --continue, -a and -u.", "quantifier": "all directories, configurations without questions, tests, dependencies, selections split in two, earlier reports, durations and starting files", "why_tests_cant": "the two ways of running can be compared only for finitely many test suites, earlier reports and files", "anchors": ["booktest/testrun.py:68-191", "booktest/reports.py:45-118"]}
{"id": "C148", "title": "What a test does does not depend on which other tests are selected with it", "statement": "In a run without questions and without --fail-fast, take tests whose names stay apart, that read no files but their own and the return values of their dependencies, and whose own paths are files or missing. Take any set of tests that holds the dependencies of its members. If a run of a selection without repetitions returns, then the run, from the same files, of those selected tests that are in the set returns; every test of the set has the same records with the same results in the same order in both reports; every file of a test of the set, in both directories, is the same after both runs; and if the larger run is OK, so is the smaller. This holds with and without --continue, -a and -u.", "quantifier": "all directories, configurations without questions, tests, dependencies, selections, sets closed under dependencies, earlier reports, durations and starting files", "why_tests_cant": "the two runs can be compared only for finitely many suites, subsets, earlier reports and files", "anchors": ["booktest/testrun.py:68-191", "booktest/testcaserun.py:40-130", "booktest/reports.py:45-118"]}
{"id": "C149", "title": "--fail-fast does what the run without it does, up to the first test that is not OK", "statement": "Take a run with --fail-fast that asks nothing, of tests whose names stay apart, that read no files but their own and the return values of their dependencies, and whose own paths are files or missing. If it returns, the tests to run split into those that were run and the rest: either all were run and all are OK, or the last one run is not OK and all before it are. The result of the run is OK exactly in the first case. The run without --fail-fast of exactly the tests that were run has the same result, the same results of tests, and leaves the same files except cases.txt and metrics.json. The report differs in one thing: it has no records of the tests that were to be run and were not, even if they had some before.", "quantifier": "all directories, configurations with --fail-fast and without questions (with and without --continue, -a, -u), tests, dependencies, selections, earlier reports and starting files", "why_tests_cant": "the two runs can be compared only for finitely many suites, results and earlier reports", "anchors": ["booktest/testrun.py:112-191"]}
