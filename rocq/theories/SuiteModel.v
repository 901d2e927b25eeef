(** booktest/naming.py, testsuite.py, testbook.py and detection.py: where the cases of a run
    and their names come from. *)
From Verif Require Export FsModel.

(** ** naming.py *)
Section Naming.
  Variable cc : CharClass.

  (** naming.py:9-19 camel_case_to_snake_case; [prev_lower]: is_prev_lower_case *)
  Fixpoint camel (prev_lower : bool) (name : str) : str :=
    match name with
    | [] => []
    | c :: rest =>
        let upper := cc_upper cc c in
        (if prev_lower && upper then [USCORE] else []) ++ cc_lower cc c ++ camel (negb upper) rest
    end.
  Definition camel_case_to_snake_case (name : str) : str := camel false name.

  (** name[0:len(name)-len(s)] *)
  Definition cut_end (s name : str) : str := firstn (length name - length s) name.

  (** naming.py:22-40 *)
  Definition clean_test_postfix (name : str) : str :=
    let name := str_lower cc name in
    if ends_with (lit "_testbook") name then cut_end (lit "_testbook") name
    else if ends_with (lit "testbook") name then cut_end (lit "testbook") name
    else if ends_with (lit "_test_book") name then cut_end (lit "_test_book") name
    else if ends_with (lit "test_book") name then cut_end (lit "test_book") name
    else if ends_with (lit "_book") name then cut_end (lit "_book") name
    else if ends_with (lit "book") name then cut_end (lit "book") name
    else if ends_with (lit "_test") name then cut_end (lit "_test") name
    else if ends_with (lit "test") name then cut_end (lit "test") name
    else name.

  (** naming.py:43-44 *)
  Definition clean_class_name (name : str) : str := clean_test_postfix (camel_case_to_snake_case name).

  (** naming.py:47-51 *)
  Definition clean_method_name (name : str) : option str :=
    if starts_with (lit "test_") name then Some (skipn (length (lit "test_")) name) else None.

  (** naming.py:54-69; [modname]: inspect.getmodule(clazz).__name__ *)
  Definition class_to_test_path (modname classname : str) : str :=
    let path_and_file := split_on DOT modname in
    let path := firstn (length path_and_file - 1) path_and_file in
    let file_name := nth (length path_and_file - 1) path_and_file [] in
    let cleaned_file_name := clean_test_postfix file_name in
    let cleaned_class_name := clean_class_name classname in
    join_with [SLASH]
      (path ++ [cleaned_file_name] ++
       if str_eqb (remove_char USCORE cleaned_file_name) (remove_char USCORE cleaned_class_name)
       then [] else [cleaned_class_name]).
End Naming.

(** ** testsuite.py *)
Section Suites.
  Context {M : Type}.                                (* test methods *)
  Definition cases := list (str * M).

  (** testsuite.py:5-9 *)
  Definition test_suite (suite_name : str) (cs : cases) : cases :=
    map (fun c => (path_join suite_name (fst c), snd c)) cs.

  (** testsuite.py:17-31 *)
  Definition full_prefix (prefix : str) : str :=
    if ends_with [SLASH] prefix then prefix else prefix ++ [SLASH].
  Definition drop_prefix (prefix : str) (cs : cases) : cases :=
    flat_map (fun c => if starts_with (full_prefix prefix) (fst c)
                       then [(skipn (length (full_prefix prefix)) (fst c), snd c)] else []) cs.

  (** what merge_tests and decorate_tests take: an object with cases, or a list of such *)
  Inductive tests := Tests (cs : cases) | Several (l : list tests).

  (** testsuite.py:34-41. (A tuple instead of a list raises; not modelled.) *)
  Fixpoint cases_of (t : tests) : cases :=
    match t with
    | Tests cs => cs
    | Several l => flat_map cases_of l
    end.

  (** testsuite.py:44-52 and 55-60; merge_tests decorates with nothing *)
  Definition merge_tests (t : tests) : cases := map (fun c => (fst c, snd c)) (cases_of t).
  Definition decorate_tests (d : M -> M) (t : tests) : cases := map (fun c => (fst c, d (snd c))) (cases_of t).

  (** ** testbook.py *)

  (** testbook.py:14-25: the class body as the sequence of assignments to names; the names in
      order of first assignment, and the value of a name: the last one *)
  Definition class_body := list (str * M).
  Definition member_names (b : class_body) : list str :=
    fold_left (fun names kv => if str_mem (fst kv) names then names else names ++ [fst kv]) b [].
  Fixpoint member (name : str) (b : class_body) : option M :=
    match b with
    | [] => None
    | (k, v) :: rest => match member name rest with
                        | Some w => Some w
                        | None => if str_eqb name k then Some v else None
                        end
    end.

  (** getattr over a class and its bases, most derived first *)
  Fixpoint get_member (name : str) (mro : list class_body) : option M :=
    match mro with
    | [] => None
    | b :: bases => match member name b with Some v => Some v | None => get_member name bases end
    end.

  (** testbook.py:66-72: the path of a book from the path of its class *)
  Definition book_path (class_path : str) (name : option str) : str :=
    match name with
    | None => class_path
    | Some n => let parts := split_on SLASH class_path in
                join_with [SLASH] (firstn (length parts - 1) parts ++ [n])
    end.

  (** testbook.py:73-85. self.member_names is the list of the most derived class. Members are
      taken to be methods (a static method or a value has no __func__ and raises). *)
  Definition test_book (full_path : str) (mro : list class_body) : cases :=
    test_suite full_path
      (flat_map (fun name =>
         match clean_method_name name, get_member name mro with
         | Some n, Some m => [(n, m)]
         | _, _ => []
         end)
       (match mro with [] => [] | b :: _ => member_names b end)).

  (** ** detection.py *)

  (** a member of a module as far as parse_test_file tells them apart *)
  Inductive mod_member :=
  | MClass (needed : nat) (book : cases)     (* a TestBook class; cases of the instance made from it *)
  | MTests (t : cases)                       (* a TestBook or Tests object *)
  | MFunc (f : M)
  | MOther.

  (** detection.py:61-92; [members]: dir(module) with the values. (Importing is not modelled.) *)
  Definition file_function (suite : str) (nm : str * mod_member) : cases :=
    match snd nm with
    | MFunc f => match clean_method_name (fst nm) with Some n => [(path_join suite n, f)] | None => [] end
    | _ => []
    end.
  Definition file_object (nm : str * mod_member) : list tests :=
    match snd nm with
    | MClass 0 book => [Tests book]
    | MTests t => [Tests t]
    | _ => []
    end.
  Definition parse_test_file (cc : CharClass) (root f : str) (members : list (str * mod_member)) : list tests :=
    let suite := path_join root (clean_test_postfix cc (firstn (length f - 3) f)) in
    let test_cases := flat_map (file_function suite) members in
    flat_map file_object members ++ match test_cases with [] => [] | _ => [Tests test_cases] end.

  (** detection.py:116-117 *)
  Definition is_test_file (f : str) : bool :=
    ends_with (lit "_test.py") f || ends_with (lit "_book.py") f || ends_with (lit "_suite.py") f
    || (starts_with (lit "test_") f && ends_with (lit ".py") f).

  (** detection.py:111-126: [walk] is what os.walk lists, files with the members of the module *)
  Definition detect_tests (cc : CharClass) (walk : list (str * list (str * list (str * mod_member)))) : list tests :=
    flat_map (fun d => flat_map (fun f => if is_test_file (fst f) then parse_test_file cc (fst d) (fst f) (snd f) else [])
                         (snd d)) walk.
  Definition detect_test_suite (cc : CharClass) walk : cases := merge_tests (Several (detect_tests cc walk)).
End Suites.
Arguments cases : clear implicits.
Arguments tests : clear implicits.
Arguments class_body : clear implicits.
Arguments mod_member : clear implicits.
