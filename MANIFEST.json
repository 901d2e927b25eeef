{
 "claims": [
  {
   "property": "C01",
   "status": "proved",
   "theorems": [
    "C01_tokenize_lossless",
    "C01_iterator_lossless"
   ],
   "note": "For every classification of code points satisfying TokClassOK."
  },
  {
   "property": "C02",
   "status": "proved",
   "theorems": [
    "C02_newline_compositional",
    "C02_newline_token"
   ],
   "note": ""
  },
  {
   "property": "C03",
   "status": "proved",
   "theorems": [
    "C03_token_classes",
    "C03_tokenization_unique"
   ],
   "note": "Declarative token description in TokenizerSpec."
  },
  {
   "property": "C04",
   "status": "partial",
   "theorems": [
    "C04_terminates_refuted",
    "C04_terminates_partial",
    "C04_write_returns_iff_no_nul",
    "C04_api_total_partial"
   ],
   "note": "False of the code: a NUL character is never consumed. The exact set of non-terminating texts is characterised, for the tokenizer and for t/i/tln/iln; every API call returns on NUL-free texts."
  },
  {
   "property": "C05",
   "status": "proved",
   "theorems": [
    "C05_output_is_what_was_written",
    "C05_output_independent_of_snapshot"
   ],
   "note": "ifloatln/tmsln write the old value from the snapshot, so the second theorem excludes them."
  },
  {
   "property": "C06",
   "status": "proved",
   "theorems": [
    "C06_line_differs_iff",
    "C06_no_snapshot_no_difference"
   ],
   "note": ""
  },
  {
   "property": "C07",
   "status": "proved",
   "theorems": [
    "C07_unchecked_ok"
   ],
   "note": ""
  },
  {
   "property": "C08",
   "status": "proved",
   "theorems": [
    "C08_verdict_rule",
    "C08_counts_never_decrease"
   ],
   "note": ""
  },
  {
   "property": "C09",
   "status": "proved",
   "theorems": [
    "C09_failed_assertion_fails",
    "C09_exception_fails"
   ],
   "note": "Exceptions: message and traceback free of NUL, otherwise the run does not end (C04). fail() followed by a line end: C10_marks_kept_partial."
  },
  {
   "property": "C10",
   "status": "partial",
   "theorems": [
    "C10_marks_never_lost_refuted",
    "C10_marks_kept_partial",
    "C10_difference_kept_partial",
    "C10_open_marks_kept_partial",
    "C10_marks_exact",
    "C10_open_marks_exact"
   ],
   "note": "False of the code: marks on a last line that is never ended are dropped. Proved when a line is finished afterwards. C10_marks_exact and C10_open_marks_exact: a mark reaches the result if and only if a line is ended afterwards; otherwise the result is that of the test before the mark."
  },
  {
   "property": "C100",
   "status": "partial",
   "theorems": [
    "C100_accept_again_refuted",
    "C100_crash_partial"
   ],
   "note": "False: killed between the two renames, the snapshot has the new text without its files and accepting again raises. The rest is proved, and accepting again completes unless the .md file had already been moved; a rename and the removal of one file are atomic, hypotheses as C19."
  },
  {
   "property": "C101",
   "status": "proved",
   "theorems": [
    "C101_lines",
    "C101_same_list"
   ],
   "note": ""
  },
  {
   "property": "C102",
   "status": "partial",
   "theorems": [
    "C102_same_text_refuted",
    "C102_parallel_prints_partial",
    "C102_files_as_modelled"
   ],
   "note": "False of the code with -a (the sequential run prints DIFFERED for a test it has just accepted, the parallel run prints ok) and with -L (the line after the log has the short name in the sequential run and the whole name in the parallel one). Otherwise the two texts are the same up to the order of the blocks and the durations, for every interleaving of the workers; proved without -u and without fail-fast, for tests that only read their dependencies, and with -v for reports without carriage returns. C102_files_as_modelled: printing changes nothing else, so what C82 says of the files holds of this run."
  },
  {
   "property": "C103",
   "status": "partial",
   "theorems": [
    "C103_concurrent_refuted",
    "C103_concurrent_partial"
   ],
   "note": "False when two requests with the same key are in flight together: both are recorded under one number. Proved when no two requests of one key are in flight at the same time."
  },
  {
   "property": "C104",
   "status": "partial",
   "theorems": [
    "C104_all_refuted",
    "C104_stacked_partial",
    "C104_one_partial"
   ],
   "note": "False when depends_on is stacked: the test gets the values of the innermost, the scheduler knows the outermost. C104_stacked_partial says exactly what happens for every stack; C104_one_partial is the claim for one depends_on, under the condition of C30 on the case that the value is read from."
  },
  {
   "property": "C105",
   "status": "partial",
   "theorems": [
    "C105_replay_refuted",
    "C105_replay_partial",
    "C105_functions_do_not_run"
   ],
   "note": "False when a returned object is changed before the end of the test, in the capture or in the replay: the recorder keeps the object and not its content. Proved when no returned object is changed; no function runs in any replay."
  },
  {
   "property": "C106",
   "status": "proved",
   "theorems": [
    "C106_default_tests",
    "C106_run_is_not_a_default",
    "C106_test_paths"
   ],
   "note": "The second theorem: with the default configuration tests below run/ are detected but not run. C106_test_paths: which paths the configuration gives, and that a value that is not a text raises."
  },
  {
   "property": "C107",
   "status": "partial",
   "theorems": [
    "C107_setup_refuted",
    "C107_setup_partial"
   ],
   "note": "False with two setup files: one setup, of the file found last, is used for all tests. C107_setup_partial says exactly which one; with one file it is the claim."
  },
  {
   "property": "C108",
   "status": "partial",
   "theorems": [
    "C108_directories_refuted",
    "C108_directories_partial"
   ],
   "note": "False for paths with blanks or shell characters: with a blank in the root directory a parallel run deletes a file elsewhere and keeps the old batches, and a test's directory is not made. Proved for paths of letters, digits and _-./,+:@% that do not start with a dash. Paths are compared as texts."
  },
  {
   "property": "C109",
   "status": "proved",
   "theorems": [
    "C109_images_are_kept",
    "C109_image_changes_break",
    "C109_alt_text"
   ],
   "note": "SHA-1 is a parameter. Names are single path components; lines have no CR, NL or NUL. C109_alt_text: the alternative text that is used when none is given."
  },
  {
   "property": "C11",
   "status": "partial",
   "theorems": [
    "C11_ok_means_equal_refuted",
    "C11_ok_iff_prefix_partial",
    "C11_ok_iff_equal_partial"
   ],
   "note": "False of the code: output that stops early is OK. Proved: OK iff prefix."
  },
  {
   "property": "C110",
   "status": "partial",
   "theorems": [
    "C110_refuted",
    "C110_partial",
    "C110_run_partial"
   ],
   "note": "False of the code: an unstorable character in an ended line raises again in the exception handler and ends the whole run. Proved: exactly when it happens, that every other run is that of CaseRunModel, and which tests of a run are recorded."
  },
  {
   "property": "C111",
   "status": "partial",
   "theorems": [
    "C111_refuted",
    "C111_env_partial",
    "C111_http_partial",
    "C111_functions"
   ],
   "note": "True for functions (C111_functions). False for environment variables and HTTP: only the file of the block that ends last is kept; proved: what that file holds, and exactly which environment blocks (which requests) a replay serves."
  },
  {
   "property": "C112",
   "status": "proved",
   "theorems": [
    "C112_chain_counts",
    "C112_chain_verdict",
    "C112_chain_text"
   ],
   "note": "The comparisons, the test of membership, type and str of objects are arbitrary functions; a comparison that raises is the test raising (C01)."
  },
  {
   "property": "C113",
   "status": "partial",
   "theorems": [
    "C113_refuted",
    "C113_partial"
   ],
   "note": "Refuted by a redirect. Missing in C113_partial: tests that look at what is lost in the file, custom hashes, and captures with requests that raised (C45_raised_refuted)."
  },
  {
   "property": "C114",
   "status": "partial",
   "theorems": [
    "C114_taken_over",
    "C114_replay_offline",
    "C114_request_refuted",
    "C114_session_refuted",
    "C114_session_partial",
    "C114_request_partial"
   ],
   "note": "Taking over and staying offline are proved for all sessions. False of sessions with mounted adapters, arguments, or their own get_adapter; the partial theorems cover plain sessions."
  },
  {
   "property": "C115",
   "status": "partial",
   "theorems": [
    "C115_refuted",
    "C115_run_partial",
    "C115_never_stale"
   ],
   "note": "False that only the test itself fails. C115_run_partial says exactly how far the run gets; C115_never_stale is the second part in full, given that pickle reads back what it wrote completely and raises on what it did not."
  },
  {
   "property": "C116",
   "status": "partial",
   "theorems": [
    "C116_refuted",
    "C116_partial",
    "C116_order_partial",
    "C116_returns_coroutine_exact"
   ],
   "note": "False for callables that return a coroutine but are not coroutine functions; proved for def and async def. C116_returns_coroutine_exact: for the others the body is never run, the decorators are entered and left without it, and the value is the coroutine."
  },
  {
   "property": "C117",
   "status": "proved",
   "theorems": [
    "C117_order"
   ],
   "note": "Generalises C45 to replays in any order. Requests are the atomic steps of the model (in requests.py a lock is held around each one). The hypotheses on hashes and on the capture are in the statement; for custom hashes see C45_refuted, for requests that raise C45_raised_refuted."
  },
  {
   "property": "C118",
   "status": "proved",
   "theorems": [
    "C118_requests",
    "C118_httpx",
    "C118_requests_said",
    "C118_base64"
   ],
   "note": "Whole runs of a test (HttpTestModel): reading the file, the conversation, the printed list and the written file together. Example: C118_example in RecordProps."
  },
  {
   "property": "C119",
   "status": "proved",
   "theorems": [
    "C119_recorded_then_green",
    "C119_requests",
    "C119_needs_update"
   ],
   "note": "Two whole runs on the file system; C119_needs_update is the counterexample without -u. Example: C119_example."
  },
  {
   "property": "C12",
   "status": "partial",
   "theorems": [
    "C12_refuted",
    "C12_repeat_partial",
    "C12_abutting_partial",
    "C12_whole_lines_partial",
    "C12_floats_partial",
    "C12_simple_exact",
    "C12_checked_exact"
   ],
   "note": "False in full: C12_refuted lists tests that differ from their own accepted output (glued pieces, carriage return, anchor in mid-line, tset with a duplicate or two tsets with one prefix in a row, a seek or jump away from the line that is written next). Proved for t, tln, i, iln, anchor, anchorln, header, h, keyvalueln, tlist, tset, tdf, successful assertln and must, whose pieces end on token boundaries; whole-line calls satisfy that always. With ifloatln, imsln and tmsln below its limit the second run is OK too (C12_floats_partial), but its output differs: it adds what the value was. Explicit seek and jump are included when they lead to the line that is being written, or find nothing at the start of a line. C12_simple_exact and C12_checked_exact say exactly which tests of t, tln, i and iln calls pass against their own output."
  },
  {
   "property": "C120",
   "status": "proved",
   "theorems": [
    "C120_functions",
    "C120_recorded_then_green",
    "C120_repeated_refuted",
    "C120_functions_said"
   ],
   "note": "The hypotheses are those of the statement (record recorded_functions). C120_repeated_refuted is the counterexample when a call is repeated."
  },
  {
   "property": "C121",
   "status": "proved",
   "theorems": [
    "C121_env",
    "C121_recorded_then_green",
    "C121_null_refuted",
    "C121_env_said"
   ],
   "note": "The hypotheses are those of the statement (record recorded_env_test). C121_null_refuted is the counterexample for variables recorded as not set."
  },
  {
   "property": "C122",
   "status": "proved",
   "theorems": [
    "C122_one_at_a_time",
    "C122_no_deadlock",
    "C122_replay",
    "C122_same_request_swapped"
   ],
   "note": "All interleavings of the threads' steps (acquire, replace get_adapter, choose the adapter, look up, wait for the network, record, restore, release). C122_same_request_swapped shows why different threads need different keys. That the body hash does not collide is a hypothesis of C122_replay, as in C117."
  },
  {
   "property": "C123",
   "status": "partial",
   "theorems": [
    "C123_view_refuted",
    "C123_quit_refuted",
    "C123_run_partial",
    "C123_run_prints",
    "C123_rejected",
    "C123_commands_partial",
    "C123_broken"
   ],
   "note": "False of --view: os.system returns 256 times the exit status of the viewer, so that a viewer that fails gives status 0 (C123_view_refuted). False if the user quits: with -I and q after a test that is OK the status is 0, and the other selected tests were not run (C123_quit_refuted). C123_run_partial is for all sequential runs, interactive or not, with or without -c, if q is not typed; C123_run_prints adds what is printed in batch mode; that parallel runs end with the same status is C125."
  },
  {
   "property": "C124",
   "status": "proved",
   "theorems": [
    "C124_mixed",
    "C124_recorded_then_green",
    "C124_nested_refuted"
   ],
   "note": "Whole runs with stacked decorators (MixModel). The nested case, excluded in the statement, is refuted by C124_nested_refuted. Examples: C124_example, C124_run_example."
  },
  {
   "property": "C125",
   "status": "proved",
   "theorems": [
    "C125_same_status"
   ],
   "note": "parallel_call says which outcomes of parallel_run_tests are possible, with the dependencies of runs.py:154-158; one_by_one_is_parallel and C125_example show that there are such runs, for a test that uses the value of another."
  },
  {
   "property": "C126",
   "status": "proved",
   "theorems": [
    "C126_recorded_then_parallel",
    "C126_recorded_tests"
   ],
   "note": "From C119, C124 and C82. Examples: C126_example, C126_tests_example (two tests under four recorders)."
  },
  {
   "property": "C127",
   "status": "proved",
   "theorems": [
    "C127_asking_in_parallel",
    "C127_asking_ends"
   ],
   "note": "The results are those of a sequential run of the same tests with the same configuration, unattended; its existence is a hypothesis (a run that ends). Ctrl-C reaches the main process only. C127_example: the user accepts one of two tests, or quits; C131_example: the user interrupts a question."
  },
  {
   "property": "C128",
   "status": "partial",
   "theorems": [
    "C128_parallel_answers_refuted",
    "C128_parallel_answers_partial"
   ],
   "note": "Refuted: with -p -I -a the worker has already accepted a changed output when the user is asked about the test, and the answer 'a' raises FileNotFoundError in the main thread; the same answers in a sequential run are fine. Proved for all configurations but -I with -a (and -u, see C82)."
  },
  {
   "property": "C129",
   "status": "proved",
   "theorems": [
    "C129_asking_prints",
    "C129_files_as_modelled"
   ],
   "note": "C129_example_interrupted, C129_example_answers: the texts of two runs. A test may be named as interrupted and printed as finished, too, if it ends in between."
  },
  {
   "property": "C13",
   "status": "proved",
   "theorems": [
    "C13_seek",
    "C13_seek_without_snapshot"
   ],
   "note": "seek with begin 0 and no end, which is what seek_line, seek_prefix, anchor, anchorln and header use."
  },
  {
   "property": "C130",
   "status": "partial",
   "theorems": [
    "C130_status_of_stopped_runs_refuted",
    "C130_status_of_stopped_runs_partial"
   ],
   "note": "Refuted: Ctrl-C at the question about a test that differs; the status is 0 and the test is not in the report. Proved for runs without -I that were not interrupted (with 'q', fail-fast and -c)."
  },
  {
   "property": "C131",
   "status": "proved",
   "theorems": [
    "C131_continuing_stopped_runs"
   ],
   "note": "C131_example: after Ctrl-C at the question about the second test, -c runs the second test."
  },
  {
   "property": "C132",
   "status": "proved",
   "theorems": [
    "C132_continuing_finishes",
    "C132_continuing_in_parallel"
   ],
   "note": "Both runs on the file system of the model; the second run one after the other (C132_continuing_finishes) and in parallel (C132_continuing_in_parallel). C132_example: Ctrl-C before the second test of the demo project."
  },
  {
   "property": "C133",
   "status": "partial",
   "theorems": [
    "C133_killed_and_continued_refuted",
    "C133_killed_and_continued_partial",
    "C133_killed_and_continued_in_parallel_partial",
    "C133_killed_again_and_again_partial"
   ],
   "note": "Refuted: cases.txt is opened with \"w\" and empty until the earlier records are written again; a run of one test that is killed there loses the results of all other tests. Proved for every other moment, and for that moment except for the results of tests that were not selected (and then only if the killed run was not itself started with -c); also for any number of killed runs with -c in between."
  },
  {
   "property": "C134",
   "status": "proved",
   "theorems": [
    "C134_killed_parallel_run",
    "C134_killed_again_and_again"
   ],
   "note": "The same moment as in C133 (while cases.txt is filled again) is excepted in the statement; C133_killed_and_continued_refuted shows what happens there."
  },
  {
   "property": "C135",
   "status": "proved",
   "theorems": [
    "C135_accepted",
    "C135_others",
    "C135_says",
    "C135_order",
    "C135_options",
    "C135_names_apart",
    "C135_main"
   ],
   "note": "argparse follows the source of CPython 3.11; argcomplete and numbers below zero are not modelled"
  },
  {
   "property": "C136",
   "status": "proved",
   "theorems": [
    "C136_setup",
    "C136_unanswered"
   ],
   "note": "what the terminal echoes is not modelled"
  },
  {
   "property": "C137",
   "status": "partial",
   "theorems": [
    "C137_accept_killed_refuted",
    "C137_accept_killed_partial",
    "C137_accept_killed_often_partial"
   ],
   "note": "Refuted: if the process dies between the two renames of freeze_case, the new text is in place and the files of the snapshot are not; the second run finds the text equal, is OK, and with -a alone accepts nothing, so the files of the snapshot are lost without a word. Proved for every other moment, and with -u for every moment, also for any number of deaths; the text, the result and the stored value are right at every moment, and no other file is touched."
  },
  {
   "property": "C138",
   "status": "proved",
   "theorems": [
    "C138_resources",
    "C138_exclusive",
    "C138_sets",
    "C138_python_equal"
   ],
   "note": "The scheduler of SchedModel has numbers for resources; C138_sets shows that with the place of a resource among all resources as its number, the python sets and the lists of numbers agree. A text can be named like a port (\"port=80\") and then is the same resource."
  },
  {
   "property": "C139",
   "status": "partial",
   "theorems": [
    "C139_coverage_refuted",
    "C139_coverage_partial",
    "C139_library_raises_partial",
    "C139_no_run_exact"
   ],
   "note": "Refuted: a directory whose name begins with .coverage. makes os.remove raise before any test runs. Proved when no directory has such a name; and if the library raises at the end, the status of the run is lost whatever it was. C139_no_run_exact: the exception before any test happens exactly if such a directory (or one named .coverage) exists, and then at most old data is gone."
  },
  {
   "property": "C14",
   "status": "proved",
   "theorems": [
    "C14_snapshot_of_sections",
    "C14_sections_any_order",
    "C14_permutation"
   ],
   "note": "Sections of header, checked and unchecked lines; also any repetition or omission of sections."
  },
  {
   "property": "C140",
   "status": "partial",
   "theorems": [
    "C140_accept_run_killed_refuted",
    "C140_accept_run_killed_partial",
    "C140_killed_then_green_partial"
   ],
   "note": "Refuted for the files of a snapshot: a run that dies between the two renames of freeze_case loses them, and the next run with -a is OK without them. Proved otherwise: result, text of every snapshot, and the files of all tests that did not die at that moment, and of all with -u."
  },
  {
   "property": "C141",
   "status": "proved",
   "theorems": [
    "C141_requests",
    "C141_httpx",
    "C141_any_order",
    "C141_newer_first",
    "C141_then_green",
    "C141_file_requests",
    "C141_file_httpx"
   ],
   "note": "Listing of the directory is any list of its files; files with entries of other types than the code writes are not modelled."
  },
  {
   "property": "C142",
   "status": "proved",
   "theorems": [
    "C142_exact",
    "C142_leftovers"
   ],
   "note": "Model: TmpModel.v (on the tree of ShellModel.v). Paths are compared as texts; symbolic links and rights are not modelled."
  },
  {
   "property": "C143",
   "status": "proved",
   "theorems": [
    "C143_failing_test",
    "C143_raising_test",
    "C143_unwritable_result"
   ],
   "note": "whole cases on the file system; json.dump leaves an arbitrary beginning of the unwritable file"
  },
  {
   "property": "C144",
   "status": "partial",
   "theorems": [
    "C144_no_stale_value_refuted",
    "C144_no_stale_value_partial",
    "C144_stored_value_exact"
   ],
   "note": "false: after FAIL the .bin of the latest execution that did not fail stays and is passed to dependents (testrun.py:103-105); exact: after OK or DIFF the value of this execution, after FAIL the old one"
  },
  {
   "property": "C145",
   "status": "proved",
   "theorems": [
    "C145_any_order",
    "C145_order_does_not_matter"
   ],
   "note": "C145_any_order is the statement in full; C145_order_does_not_matter compares two runs that return, by way of a parallel run. C145_needs_deps_first: an example where the order of a dependency is turned round and the files differ."
  },
  {
   "property": "C146",
   "status": "proved",
   "theorems": [
    "C146_read_exact",
    "C146_one_value"
   ],
   "note": "The grammar is stated as inductive relations, without the constants and functions of the model of json."
  },
  {
   "property": "C147",
   "status": "proved",
   "theorems": [
    "C147_in_parts",
    "C147_returns"
   ],
   "note": "hypotheses as in the statement; C147_example runs a test and then, in a second run, the one that reads its value"
  },
  {
   "property": "C148",
   "status": "proved",
   "theorems": [
    "C148_other_tests_do_not_matter"
   ],
   "note": "hypotheses as in the statement; C148_example runs a test alone and with one that reads its value"
  },
  {
   "property": "C149",
   "status": "proved",
   "theorems": [
    "C149_fail_fast"
   ],
   "note": "hypotheses as in the statement; C149_example stops at the first of two tests, C149_records_lost shows a record that is lost"
  },
  {
   "property": "C15",
   "status": "partial",
   "theorems": [
    "C15_after_the_end_refuted",
    "C15_tset_partial",
    "C15_any_order_partial",
    "C15_other_set_partial",
    "C15_no_line_exact"
   ],
   "note": "False of the code after the last snapshot line: tset compares nothing there. Proved with the cursor on a snapshot line: exact condition for no mark. C15_no_line_exact: without a snapshot line tset is iln of every item and marks nothing."
  },
  {
   "property": "C16",
   "status": "proved",
   "theorems": [
    "C16_report_entries",
    "C16_flags"
   ],
   "note": ""
  },
  {
   "property": "C17",
   "status": "proved",
   "theorems": [
    "C17_ci_review_changes_nothing",
    "C17_ci_review_command"
   ],
   "note": "Review of one case, and the whole --review command (which rewrites only the report file)."
  },
  {
   "property": "C18",
   "status": "proved",
   "theorems": [
    "C18_fail_never_accepted"
   ],
   "note": ""
  },
  {
   "property": "C19",
   "status": "partial",
   "theorems": [
    "C19_accept_replaces_snapshot",
    "C19_accepted_result",
    "C19_others_untouched_refuted",
    "C19_others_untouched_partial"
   ],
   "note": "False of the code: accepting 'a' deletes the snapshots of 'a/b'. The rest of the property is proved in full; 'no other test is touched' when neither name is a path prefix of the other (and not 'm' vs 'm.md')."
  },
  {
   "property": "C20",
   "status": "proved",
   "theorems": [
    "C20_answers",
    "C20_only_accept_changes",
    "C20_quit_changes_nothing"
   ],
   "note": "The external viewers started by v, l, d, D are assumed to change no project file."
  },
  {
   "property": "C21",
   "status": "proved",
   "theorems": [
    "C21_report_roundtrip"
   ],
   "note": "For any float printing/reading that round-trips; names without tab, newline, carriage return."
  },
  {
   "property": "C22",
   "status": "proved",
   "theorems": [
    "C22_crash_never_forges"
   ],
   "note": "At character granularity."
  },
  {
   "property": "C23",
   "status": "proved",
   "theorems": [
    "C23_skip_iff_recorded_ok",
    "C23_skipped_were_ok",
    "C23_run_is_event",
    "C23_review_is_event"
   ],
   "note": ""
  },
  {
   "property": "C24",
   "status": "proved",
   "theorems": [
    "C24_one_latest_record"
   ],
   "note": ""
  },
  {
   "property": "C25",
   "status": "proved",
   "theorems": [
    "C25_sequential_run",
    "C25_all_executed"
   ],
   "note": ""
  },
  {
   "property": "C26",
   "status": "proved",
   "theorems": [
    "C26_review_command",
    "C26_passed"
   ],
   "note": ""
  },
  {
   "property": "C27",
   "status": "proved",
   "theorems": [
    "C27_selection",
    "C27_selection_any_name"
   ],
   "note": "exact characterisation of is_selected; the general version covers names starting with skip: too"
  },
  {
   "property": "C28",
   "status": "proved",
   "theorems": [
    "C28_run_list",
    "C28_run_list_any_fuel"
   ],
   "note": "run list: no duplicates, selected cases and what they need, dependencies first; cyclic dependencies are outside (python recursion error)"
  },
  {
   "property": "C29",
   "status": "proved",
   "theorems": [
    "C29_latest_value"
   ],
   "note": "one process, cache of any size; pickle round trip is a hypothesis"
  },
  {
   "property": "C30",
   "status": "partial",
   "theorems": [
    "C30_dependency_used_refuted",
    "C30_dependency_used_partial",
    "C30_dependency_used_exact_partial",
    "C30_same_instance",
    "C30_bound",
    "C30_bind",
    "C30_self_type"
   ],
   "note": "scheduled and used case can differ (refuted); exact condition and sufficient conditions proved"
  },
  {
   "property": "C31",
   "status": "proved",
   "theorems": [
    "C31_lru"
   ],
   "note": "contents, order and size of the LRU cache over all histories"
  },
  {
   "property": "C32",
   "status": "partial",
   "theorems": [
    "C32_caches_refuted",
    "C32_caches_partial",
    "C32_caches_exact"
   ],
   "note": "NoCache hangs and capacity 0 loses the value (refuted); every dict or LRU cache of capacity >= 1 works. C32_caches_exact: for every cache in any state, which of the three happens."
  },
  {
   "property": "C33",
   "status": "partial",
   "theorems": [
    "C33_placement_refuted",
    "C33_placement_partial",
    "C33_stored_first_coherent_partial",
    "C33_none_exact"
   ],
   "note": "None results are not stored in files (refuted); other values are the same in every process under coherence. C33_none_exact: after a None every other process and every restarted one finds nothing, the process itself gets None while its cache keeps the entry."
  },
  {
   "property": "C34",
   "status": "proved",
   "theorems": [
    "C34_exclusive_resources"
   ],
   "note": "over all reachable interleavings of scheduler thread, workers and main thread"
  },
  {
   "property": "C35",
   "status": "proved",
   "theorems": [
    "C35_dependencies_first"
   ],
   "note": "trace property over all interleavings"
  },
  {
   "property": "C36",
   "status": "proved",
   "theorems": [
    "C36_started_at_most_once",
    "C36_nothing_invented",
    "C36_exactly_once"
   ],
   "note": "at most once always; exactly once, in completion order, when the run ends without abort"
  },
  {
   "property": "C37",
   "status": "proved",
   "theorems": [
    "C37_progress",
    "C37_terminates",
    "C37_ends"
   ],
   "note": "progress, a linear bound on the number of steps (polls that find nothing are not steps), and: a run that cannot go on is finished"
  },
  {
   "property": "C38",
   "status": "partial",
   "theorems": [
    "C38_crashed_worker_refuted",
    "C38_recorded_results_partial",
    "C38_no_file_scheduler_survives_partial",
    "C38_report_exact"
   ],
   "note": "False of the code; proved for workers that leave a record. C38_report_exact says exactly what is in the report of every run in which workers leave no file, with the finally block of the main thread: the results before the first such case, those that wait behind it up to the next such case, and nothing else."
  },
  {
   "property": "C39",
   "status": "partial",
   "theorems": [
    "C39_batch_dirs_refuted",
    "C39_batch_dirs_exact_partial",
    "C39_batch_dirs_partial"
   ],
   "note": "collision iff names differ only in / and . (exact); injective for names without dots"
  },
  {
   "property": "C40",
   "status": "proved",
   "theorems": [
    "C40_same_results",
    "C40_same_results_so_far",
    "C40_order_irrelevant"
   ],
   "note": "tests as functions of their dependencies' values, read at any time while running"
  },
  {
   "property": "C41",
   "status": "partial",
   "theorems": [
    "C41_update_refuted",
    "C41_update_always_raises",
    "C41_without_update_partial"
   ],
   "note": "-u -p always raises; without -u the parallel review equals the sequential one"
  },
  {
   "property": "C42",
   "status": "partial",
   "theorems": [
    "C42_partial",
    "C42_same_values_partial",
    "C42_refuted"
   ],
   "note": "Proved for calls with the same key (qualified name and arguments); refuted across modules: functions with the same qualified name in two modules share a key, so one answers for the other. Values are compared as they come back from JSON."
  },
  {
   "property": "C43",
   "status": "proved",
   "theorems": [
    "C43_functions",
    "C43_http",
    "C43_http_all"
   ],
   "note": "functions, requests and httpx (the last two share one model)"
  },
  {
   "property": "C44",
   "status": "partial",
   "theorems": [
    "C44_restored_partial",
    "C44_nested_refuted",
    "C44_failed_start_refuted",
    "C44_method_refuted",
    "C44_saved_nested",
    "C44_restored_exact"
   ],
   "note": "Proved when the functions are unpatched on entry and every one can be set; refuted for nested blocks, for a block whose start fails half way, and for methods inherited rather than defined by the class. C44_saved_nested: requests/httpx save and restore the previous value, so they do nest. C44_restored_exact says exactly when it holds."
  },
  {
   "property": "C45",
   "status": "partial",
   "theorems": [
    "C45_partial",
    "C45_custom_hash",
    "C45_refuted",
    "C45_raised_refuted"
   ],
   "note": "Proved for the default hash (SHA-1 collision free on the JSON objects that are hashed for the requests at hand, as an explicit hypothesis) and, with a custom json_to_hash, for replays of the same requests; refuted for requests that a custom hash identifies, and for requests that raised in the capture. C95 takes it through the JSON file."
  },
  {
   "property": "C46",
   "status": "proved",
   "theorems": [
    "C46_stored",
    "C46_kept",
    "C46_hash"
   ],
   "note": "hash part for any hash function of the JSON object"
  },
  {
   "property": "C47",
   "status": "proved",
   "theorems": [
    "C47_mock_env_restores",
    "C47_reuse"
   ],
   "note": "The body is an arbitrary function on the environment; how it ends does not matter since __exit__ always runs."
  },
  {
   "property": "C48",
   "status": "partial",
   "theorems": [
    "C48_snapshot_env_refuted",
    "C48_snapshot_env_partial",
    "C48_capture_replay_partial",
    "C48_mock_missing_partial",
    "C48_nested_env_partial",
    "C48_nested_env_refuted",
    "C48_snapshot_env_exact",
    "C48_mock_missing_exact"
   ],
   "note": "False: unset variables raise KeyError at start or stop, a missing snapshot leaves earlier variables changed, a repeated name is not restored. Proved for distinct names when variables are recorded and those that were unset are set when the body ends. These theorems are about the table; that .env.json keeps the table is C92_env_file. C48_nested_env_*: the same for blocks on top of each other. C48_snapshot_env_exact says exactly when it holds."
  },
  {
   "property": "C49",
   "status": "proved",
   "theorems": [
    "C49_index_structure",
    "C49_index_readable"
   ],
   "note": "For every list of names the index is a document whose links are those of the names with the headings above spelling the directory; reading it back as text additionally assumes names without line breaks and directories not starting with '['."
  },
  {
   "property": "C50",
   "status": "proved",
   "theorems": [
    "C50_clean"
   ],
   "note": "For a root that does not end in a slash and non-empty relative case names. Files below the root include those in .out; the walk is in the order of the listing of the modelled file system."
  },
  {
   "property": "C51",
   "status": "partial",
   "theorems": [
    "C51_lines",
    "C51_home_refuted",
    "C51_layers_partial",
    "C51_malformed"
   ],
   "note": "Environment over project file over a file literally named ~/.booktest in the working directory; the home directory's file is never read."
  },
  {
   "property": "C52",
   "status": "partial",
   "theorems": [
    "C52_setup_reads_back_refuted",
    "C52_setup_reads_back_partial",
    "C52_asked",
    "C52_setup_exact",
    "C52_setup_said"
   ],
   "note": "False for the values 0 and 1 (read back as False/True) and for values that were read as booleans; proved for all others. C52_setup_exact says what is read back for every answer of one line: white space at the end is lost too."
  },
  {
   "property": "C53",
   "status": "partial",
   "theorems": [
    "C53_merge_keeps_all",
    "C53_decorate_keeps_names",
    "C53_drop_prefix_exact",
    "C53_drop_prefix_order",
    "C53_drop_prefix_twice",
    "C53_drop_undoes_refuted",
    "C53_drop_undoes_partial",
    "C53_drop_undoes_exact"
   ],
   "note": "Everything holds except that drop_prefix does not undo an empty prefix or names starting with a slash (exactly these: C53_drop_undoes_exact)."
  },
  {
   "property": "C54",
   "status": "partial",
   "theorems": [
    "C54_method_name",
    "C54_method_name_distinct",
    "C54_snake_case",
    "C54_same_letters",
    "C54_snake_is_lower",
    "C54_class_paths_distinct_refuted",
    "C54_class_paths_distinct_partial",
    "C54_class_paths_exact",
    "C54_stem",
    "C54_test_ending",
    "C54_class_path"
   ],
   "note": "Distinct paths are false (FooTest/FooBook, foo_test.py/foo_book.py); proved for class names that differ beyond case and underscores and do not end in test or book. C54_class_paths_exact: two classes of a module share a path exactly if their snake case names without test ending are the same, or both are that of the file but for underscores."
  },
  {
   "property": "C55",
   "status": "partial",
   "theorems": [
    "C55_refuted",
    "C55_stderr_lost",
    "C55_interrupt_refuted",
    "C55_handlers_partial",
    "C55_own_log"
   ],
   "note": "False for stderr (left at the closed file of the last test after every history) and, for the handlers too, when a test is interrupted; proved for the handlers with any other bodies. Bodies are arbitrary functions on the modelled globals that do not alter the saved list object."
  },
  {
   "property": "C56",
   "status": "proved",
   "theorems": [
    "C56_teardown_follows_setup",
    "C56_any_code",
    "C56_worker",
    "C56_no_setup"
   ],
   "note": "Teardown is the code of the generator from its first yield to the next or its end; closing of a generator that yields again (garbage collection) is not modelled."
  },
  {
   "property": "C57",
   "status": "partial",
   "theorems": [
    "C57_lines_roundtrip_refuted",
    "C57_lines_roundtrip_partial",
    "C57_lines_exact"
   ],
   "note": "False for the empty list and for lines with a newline or carriage return; C57_lines_exact: true for all others."
  },
  {
   "property": "C58",
   "status": "partial",
   "theorems": [
    "C58_flags_are_local_refuted",
    "C58_flags_are_local_partial",
    "C58_flags_exact"
   ],
   "note": "False: DEFAULT_CONFIG is modified. Proved for settings no earlier invocation touched. C58_flags_exact says what every setting is in every invocation."
  },
  {
   "property": "C59",
   "status": "partial",
   "theorems": [
    "C59_format_is_structure",
    "C59_text",
    "C59_text_refuted",
    "C59_text_partial"
   ],
   "note": "The format determines structure, keys (in order) and types exactly. The printed text shows keys by their JSON text, so the statement is false for keys that are not strings (1 and \"1\" print alike); C59_text says exactly what the text shows for all keys, C59_text_partial gives the property for text keys. JSON is the model of JsonModel."
  },
  {
   "property": "C60",
   "status": "partial",
   "theorems": [
    "C60_refuted",
    "C60_partial",
    "C60_places_partial",
    "C60_exact"
   ],
   "note": "False for siblings sharing the prefix (and with the file system root as output directory); proved for files below the directory, and None exactly for paths without the textual prefix; C60_places_partial says the same in terms of where paths lead, component by component; C60_exact says what rel_path gives for every file and every output directory."
  },
  {
   "property": "C61",
   "status": "partial",
   "theorems": [
    "C61_isolation_refuted",
    "C61_isolation_partial",
    "C61_changed_kept",
    "C61_evicted",
    "C61_stored_kept"
   ],
   "note": "False for dependents in the same process, which share the cached object (refuted). Proved with arbitrary changes: a process gets the saved value unless one of its own tests changed the object of the very same case since the process was started. In that case it gets the changed value, whatever was saved, until the process is started anew, a test of it stores the case or changes the object again, or the entry leaves an LruCache (C61_changed_kept). Once the entry is not in the cache, it gets the saved value again until the next change (C61_evicted). After its own test stored the case again it gets that value, under the same conditions (C61_stored_kept). Isolation itself does not hold, hence partial."
  },
  {
   "property": "C62",
   "status": "partial",
   "theorems": [
    "C62_abort_records_refuted",
    "C62_abort_records_partial",
    "C62_abort_records_exact"
   ],
   "note": "Reports handed over after the final pass are lost; C62_abort_records_exact: the report holds exactly those handed over before it, in order."
  },
  {
   "property": "C63",
   "status": "partial",
   "theorems": [
    "C63_exit_code_refuted",
    "C63_exit_code_partial",
    "C63_exit_code_exact"
   ],
   "note": "Exact without abort; C63_exit_code_exact says exactly when the status agrees with the report for all runs: unless all that was reviewed is OK and something added in the final pass is not."
  },
  {
   "property": "C64",
   "status": "proved",
   "theorems": [
    "C64_slowest_first",
    "C64_no_idle"
   ],
   "note": ""
  },
  {
   "property": "C65",
   "status": "partial",
   "theorems": [
    "C65_mock_missing_off_refuted",
    "C65_mock_missing_off_partial",
    "C65_mock_missing_exact"
   ],
   "note": "False: _do_mock is never read. True when every variable is set. C65_mock_missing_exact says exactly when it holds."
  },
  {
   "property": "C66",
   "status": "partial",
   "theorems": [
    "C66_book_lists_own_tests",
    "C66_inherited_tests_refuted",
    "C66_book_path"
   ],
   "note": "Proved for the methods defined in the class itself; inherited test methods are not listed."
  },
  {
   "property": "C67",
   "status": "partial",
   "theorems": [
    "C67_detection_exact",
    "C67_detected_once_refuted",
    "C67_detected_once_partial"
   ],
   "note": "Importing modules and signature inspection are parameters (module members)."
  },
  {
   "property": "C68",
   "status": "partial",
   "theorems": [
    "C68_parallel_count_refuted",
    "C68_parallel_count_partial",
    "C68_parallel_count_exact"
   ],
   "note": "False for parallel=1 in a file or environment variable. int() of a string is a parameter. C68_parallel_count_exact: for a number in a file or variable, used exactly if it is not written 0 or 1, or is 1 on a machine with one processor; a zero written otherwise (00) gives a parallel run with no process."
  },
  {
   "property": "C69",
   "status": "proved",
   "theorems": [
    "C69_choices",
    "C69_choice_selects"
   ],
   "note": "For names that are not empty and do not start with a slash. argparse itself is not modelled, only the list of choices."
  },
  {
   "property": "C70",
   "status": "proved",
   "theorems": [
    "C70_nesting",
    "C70_failed_setup"
   ],
   "note": "Setups and teardowns that only record that they ran."
  },
  {
   "property": "C71",
   "status": "partial",
   "theorems": [
    "C71_refuted",
    "C71_partial",
    "C71_listed_exact",
    "C71_same_exact"
   ],
   "note": "Refuted when a call is repeated; proved otherwise. C71_listed_exact, C71_same_exact say exactly when it holds."
  },
  {
   "property": "C72",
   "status": "proved",
   "theorems": [
    "C72_lines_compared",
    "C72_ok_vouches"
   ],
   "note": "For calls that move the cursor only at line starts (placed). The cells of a table are covered by C72_lines_compared: their padding is unchecked."
  },
  {
   "property": "C73",
   "status": "proved",
   "theorems": [
    "C73_tln",
    "C73_anchorln",
    "C73_anchor",
    "C73_keyvalueln",
    "C73_header",
    "C73_tlist"
   ],
   "note": "Per call, from the start of a line without marks. keyvalueln's converse needs key and value to be split into tokens as the line is (C12)."
  },
  {
   "property": "C74",
   "status": "proved",
   "theorems": [
    "C74_ifloatln_was"
   ],
   "note": "float() and the number format are an oracle (refloat)."
  },
  {
   "property": "C75",
   "status": "proved",
   "theorems": [
    "C75_plain_run_only_writes_outputs"
   ],
   "note": "Sequential runs; test bodies act on files only through the test case API."
  },
  {
   "property": "C76",
   "status": "proved",
   "theorems": [
    "C76_green_run_compared",
    "C76_green_run_vouches"
   ],
   "note": "The snapshot path must not lie in the output directory."
  },
  {
   "property": "C77",
   "status": "proved",
   "theorems": [
    "C77_one_case"
   ],
   "note": "For names without dots other than cases and index, and where no directory stands in place of a file of the case or conversely (ready)."
  },
  {
   "property": "C78",
   "status": "partial",
   "theorems": [
    "C78_accept_then_green_refuted",
    "C78_nested_refuted",
    "C78_accept_then_green_partial"
   ],
   "note": "False for a test named index: create_index overwrites its snapshot. Proved for separate names and tests to which C12 applies. C78_nested_refuted: false of nested names as well, since accepting a test removes the snapshots in its directory."
  },
  {
   "property": "C79",
   "status": "proved",
   "theorems": [
    "C79_leftovers_do_not_matter"
   ],
   "note": "For separate names and ready file systems."
  },
  {
   "property": "C80",
   "status": "partial",
   "theorems": [
    "C80_outputs_reviewable_refuted",
    "C80_outputs_reviewable_partial",
    "C80_outputs_exact"
   ],
   "note": "False when one test name is a directory prefix of another: running a purges the output of a/b. Proved for separate names. C80_outputs_exact says for all names, nested ones too, what is there at the end: the output of a test is its own unless a test that has it in its directory ran later."
  },
  {
   "property": "C81",
   "status": "proved",
   "theorems": [
    "C81_point_error_pos_only_in_report"
   ],
   "note": ""
  },
  {
   "property": "C82",
   "status": "proved",
   "theorems": [
    "C82_parallel_like_sequential",
    "C82_parallel_run_ends"
   ],
   "note": "Workers are processes whose file operations interleave arbitrarily (InterleaveModel); the main thread's reviews do not write in this mode. What the code of a test reads, it reads at one moment. That no test may be named output is necessary: C82_output_clash."
  },
  {
   "property": "C83",
   "status": "proved",
   "theorems": [
    "C83_table"
   ],
   "note": "Assumes that the space is white space for str.strip (hypothesis on the character tables)."
  },
  {
   "property": "C84",
   "status": "proved",
   "theorems": [
    "C84_summary_is_right",
    "C84_run_prints"
   ],
   "note": "Sequential runs. Text printed by the tests themselves and by external tools is left out."
  },
  {
   "property": "C85",
   "status": "partial",
   "theorems": [
    "C85_review_prints_the_run_refuted",
    "C85_review_prints_the_run_partial",
    "C85_review_prints_the_run_exact",
    "C85_metrics",
    "C85_took",
    "C85_review_summary"
   ],
   "note": "With -L the run gives the last part of the name after the log, --review the whole name (refuted); partial: true for names without a slash or without -L, and with -v if the reports contain no carriage return. The exact theorem drops the restriction on names: the review's text is never shorter than the run's, and equal exactly if -L is absent or no recorded test with a slash in its name has a non-empty log file."
  },
  {
   "property": "C86",
   "status": "proved",
   "theorems": [
    "C86_commands_change_only",
    "C86_snapshots_kept"
   ],
   "note": "project: root without trailing slash, names that do not clash (separate) and are distinct. hands_off: no -a, -u, -i, -I; is_parallel = false for runs. The code of the tests may differ between commands; the shell commands of --print and --view are assumed to change no file."
  },
  {
   "property": "C87",
   "status": "proved",
   "theorems": [
    "C87_list_is_what_runs",
    "C87_selection",
    "C87_raises"
   ],
   "note": "For runs: batch mode, not parallel, all_ready (no file where a test needs a directory or vice versa). --print is what the shell prints for cat."
  },
  {
   "property": "C88",
   "status": "proved",
   "theorems": [
    "C88_forget",
    "C88_forget_with_continue"
   ],
   "note": "durations_ok, space_ok as in C21; names without line ends so that the listing can be read."
  },
  {
   "property": "C89",
   "status": "proved",
   "theorems": [
    "C89_clean"
   ],
   "note": "Names without line ends so that the listing can be read."
  },
  {
   "property": "C90",
   "status": "proved",
   "theorems": [
    "C90_green_run_leaves_nothing"
   ],
   "note": "durations_ok, space_ok as in C21; names are fields (no tab or line end); all_ready."
  },
  {
   "property": "C91",
   "status": "proved",
   "theorems": [
    "C91_information_may_change",
    "C91_whole_lines",
    "C91_floats_written_out"
   ],
   "note": "The first run may have had any snapshot. Floats of the first run are written out as i and iln (C91_floats_written_out shows that this is always possible). C91_example_misaligned shows that the number of tokens matters in mid-line."
  },
  {
   "property": "C92",
   "status": "proved",
   "theorems": [
    "C92_json_data",
    "C92_other_values",
    "C92_ascii",
    "C92_function_file",
    "C92_env_file",
    "C92_replay",
    "C92_text"
   ],
   "note": "json.dump and json.load are modelled in JsonModel. Hypotheses as in the statement: texts without a high surrogate directly before a low one (C92_surrogates shows that such a pair comes back as one character), floats whose repr reads back. C92_text gives the text of every file character by character, without the constants of the model."
  },
  {
   "property": "C93",
   "status": "proved",
   "theorems": [
    "C93_call_key",
    "C93_replay_key"
   ],
   "note": "The function's name is what str() of it gives; that the first call has a key at all means that its arguments are writable. SHA-1 must give the two texts at hand different digests."
  },
  {
   "property": "C94",
   "status": "partial",
   "theorems": [
    "C94_keyword_order_refuted",
    "C94_keyword_order_partial",
    "C94_keyword_order_exact"
   ],
   "note": "False: kwargs are hashed in call order, so f(a=1, b=2) and f(b=2, a=1) have different keys and the replay raises. Proved when the order is the same. C94_keyword_order_exact says exactly when it holds."
  },
  {
   "property": "C95",
   "status": "partial",
   "theorems": [
    "C95_requests_partial",
    "C95_httpx_partial",
    "C95_requests_refuted",
    "C95_httpx_refuted",
    "C95_requests_exact",
    "C95_httpx_exact"
   ],
   "note": "Proved, through the text of the JSON file, for responses whose content is UTF-8 and whose headers are texts (SHA-1 collision free on the texts that are hashed, its digest a text; default hash). False otherwise: with requests the exit of the snapshot raises UnicodeDecodeError and nothing is recorded; with httpx a file is written that no later run can read. C95_requests_exact: with requests the file is written exactly when the content of every recorded response is UTF-8. C95_httpx_exact: with httpx the file is always written, and can be read exactly when the last response of every hash is UTF-8; it then has exactly these responses without their header content-encoding."
  },
  {
   "property": "C96",
   "status": "proved",
   "theorems": [
    "C96_key"
   ],
   "note": "for urls, methods and headers that are texts (no split surrogate pairs) and header dicts without repeated names"
  },
  {
   "property": "C97",
   "status": "partial",
   "theorems": [
    "C97_requests_refuted",
    "C97_requests_partial",
    "C97_httpx",
    "C97_requests_exact"
   ],
   "note": "False for requests: the replayed response has a plain dict, in which 'location' does not find 'Location'. Proved for requests with the spelling of the server, and for httpx. C97_requests_exact: found as live exactly with the spelling of the server or for names it did not send."
  },
  {
   "property": "C98",
   "status": "proved",
   "theorems": [
    "C98_flags_win",
    "C98_setting_on",
    "C98_options_reach_the_run"
   ],
   "note": ""
  },
  {
   "property": "C99",
   "status": "proved",
   "theorems": [
    "C99_any_report"
   ],
   "note": "float() of the duration is a parameter; printable ASCII is not white space"
  }
 ]
}
