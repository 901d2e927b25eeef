(** What a run should print, line by line. *)
From Verif Require Export ConsoleModel CaseRunSpec RunCaseSpec.

(** how the result of a test is told *)
Definition result_words (v : bool) (res : result) (ms : str) : str :=
  match res, v with
  | OK, true => lit "ok in " ++ ms ++ lit " ms."
  | OK, false => ms ++ lit " ms"
  | DIFF, _ => lit "DIFFERED in " ++ ms ++ lit " ms"
  | FAIL, _ => lit "FAILED in " ++ ms ++ lit " ms"
  end.

(** One test: its name, with -v its report, with -L its log (under the name [short]), its result. *)
Definition case_shown (sh : shown) (name short report : str) (log : list str) (res : result) (ms : str) : str :=
  let logged := print_logs sh && match log with [] => false | _ => true end in
  if verbose sh then
    lines_text [lit "test " ++ name ++ lit "..."; []] ++ report ++
    (if logged then lines_text ([[]; short ++ lit " logs:"; []] ++ map (fun l => lit "  " ++ l) log) else []) ++
    lines_text [[]; name ++ lit " " ++ result_words true res ms; []]
  else if logged then
    lines_text ([lit "  " ++ name ++ lit ".."] ++ map (fun l => lit "    log: " ++ l) log ++ [lit "  " ++ short ++ lit ".." ++ result_words false res ms])
  else lines_text [lit "  " ++ name ++ lit ".." ++ result_words false res ms].

Definition heading_shown : str := lines_text [[]; lit "# test results:"; []].

(** The last lines: how many tests, which of them failed. *)
Definition summary_shown (n : nat -> str) (fails : list str) (tests : nat) (took : str) : str :=
  lines_text ([[]] ++
    (match fails with
     | [] => [n tests ++ lit "/" ++ n tests ++ lit " test succeeded in " ++ took ++ lit " ms"]
     | _ => [n (length fails) ++ lit "/" ++ n tests ++ lit " test failed in " ++ took ++ lit " ms:"; []] ++ map (fun x => lit "  " ++ x) fails
     end) ++ [[]]).

(** the part of a name after its last slash *)
Definition last_part (n short : str) : Prop := ~ In SLASH short /\ (n = short \/ exists d, n = d ++ SLASH :: short).

(** The lines of a text file, with universal newlines; the last one may lack its line end. *)
Definition lines_in (text : str) (lines : list str) : Prop :=
  Forall (fun l => ~ In NL l) lines /\
  (univ_newlines text = lines_text lines \/ (last lines [] <> [] /\ univ_newlines text ++ [NL] = lines_text lines)).

(** A test that was run: its name, the verdict that was printed, the result that was recorded. *)
Record ran_case := { rc_name : str; rc_verdict : result; rc_result : result }.
Definition not_ok (r : ran_case) : bool := match rc_result r with OK => false | _ => true end.
Definition failing (rs : list ran_case) : list str := map rc_name (filter not_ok rs).
