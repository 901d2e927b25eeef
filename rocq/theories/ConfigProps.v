(** Configuration layers, --setup, invocations and the command line. *)
From Verif Require Import PyStrFacts SelectModel SelectSpec SelectProps ConfigModel ConfigProofs.

(** ** C51 *)

(** the lines of a file: together they are the text, and only the last may lack a line break *)
Theorem C51_lines s : concat (file_lines s) = s /\
  Forall (fun l => exists x, ~ In NL x /\ (l = x ++ [NL] \/ (l = x /\ x <> []))) (file_lines s) /\
  (forall a l b, file_lines s = a ++ l :: b -> b <> [] -> exists x, ~ In NL x /\ l = x ++ [NL]).
Proof. split; [apply file_lines_concat|apply file_lines_shape]. Qed.
Print Assumptions C51_lines.

(** The home directory's file is not read: open() does not expand "~". *)
Theorem C51_home_refuted : exists home f c,
  lookup (home ++ lit "/.booktest") f = Some (lit "md_viewer=less") /\ lookup (lit ".booktest") f = None /\
  resolve_default_config ascii_class f [(lit "HOME", home)] (lit ".booktest") = Some c /\
  dget (lit "md_viewer") c = None.
Proof.
  exists (lit "/home/u"), [(lit "/home/u/.booktest", lit "md_viewer=less")]. eexists.
  split; [reflexivity|]. split; [reflexivity|]. split; vm_compute; reflexivity.
Qed.
Print Assumptions C51_home_refuted.

(** What the code does: the value of a key is that of the last environment variable for it, else of
    the last line for it in the project's file, else of the last line for it in the file named "~/.booktest"
    in the working directory. [last_of], [line_sets], [env_sets] (ConfigProofs.v): the last element that sets
    the key; a line that is no comment, is key, "=" and value after stripping; a variable named
    BOOKTEST_ and something whose lower case is the key. *)
Definition value_read (v : str) (x : cval) : Prop :=
  (v = lit "1" /\ x = VBool true) \/ (v = lit "0" /\ x = VBool false) \/ (v <> lit "0" /\ v <> lit "1" /\ x = VStr v).
Lemma parse_value_read v : value_read v (parse_config_value v).
Proof.
  unfold value_read, parse_config_value. destruct (str_eqb_spec v (lit "1")) as [->|N1]; [auto|].
  destruct (str_eqb_spec v (lit "0")) as [->|N0]; [auto|]. auto.
Qed.
Theorem C51_layers_partial cc f environ config_file c k :
  resolve_default_config cc f environ config_file = Some c ->
  exists e p h,
    last_of (env_sets cc k) environ e /\
    last_of (line_sets cc k) (text_lines (lookup config_file f)) p /\
    last_of (line_sets cc k) (text_lines (lookup (lit "~/.booktest") f)) h /\
    match (match e, p, h with Some v, _, _ => Some v | None, Some v, _ => Some v | None, None, o => o end) with
    | Some v => exists x, value_read v x /\ dget k c = Some x
    | None => dget k c = None
    end.
Proof.
  intros H. destruct (resolve_spec cc f environ config_file c k H) as (e & p & h & E & P & HH & D). exists e, p, h. repeat (split; [assumption|]).
  destruct e as [v|]; [|destruct p as [v|]; [|destruct h as [v|]]]; try exact D; exists (parse_config_value v); (split; [apply parse_value_read|exact D]).
Qed.
Print Assumptions C51_layers_partial.

(** reading a file raises iff a line is no comment, not blank and has no "=" *)
Theorem C51_malformed cc text c : parse_config_file cc (Some text) c = None <->
  exists l, In l (file_lines (univ_newlines text)) /\ starts_with (lit "#") l = false /\
    strip (cc_space cc) l <> [] /\ ~ In EQS (strip (cc_space cc) l).
Proof. exact (parse_lines_none cc (file_lines (univ_newlines text)) c). Qed.
Print Assumptions C51_malformed.

Definition NLs : str := [NL].
Definition ex_text : str := lit "# tools" ++ NLs ++ lit "a=1" ++ NLs ++ NLs ++ lit "b=x=y " ++ NLs ++ lit "a=two".
Example C51_ex : exists c,
  resolve_default_config ascii_class [(lit ".booktest", ex_text); (lit "~/.booktest", lit "a=h" ++ NLs ++ lit "h=0")]
    [(lit "BOOKTEST_B", lit "env"); (lit "PATH", lit "/bin")] (lit ".booktest") = Some c /\
  map (fun k => dget k c) [lit "a"; lit "b"; lit "h"; lit "c"] = [Some (VStr (lit "two")); Some (VStr (lit "env")); Some (VBool false); None].
Proof. eexists. split; vm_compute; reflexivity. Qed.

(** ** C52 *)

(** The answers 0 and 1 are read back as False and True; pressing enter on a value that was read as
    True writes "True". *)
Theorem C52_setup_reads_back_refuted :
  (exists answers c, length answers = 7 /\ nth_error answers 0 = Some (lit "1") /\
     (forall show, parse_config_file ascii_class (Some (setup_file show [] answers)) [] = Some c) /\
     dget (lit "diff_tool") c <> Some (VStr (lit "1"))) /\
  (exists old c, dget (lit "diff_tool") old = Some (VBool true) /\
     (forall show, parse_config_file ascii_class (Some (setup_file show old (repeat [] 7))) [] = Some c) /\
     dget (lit "diff_tool") c <> dget (lit "diff_tool") old).
Proof.
  split.
  - exists (lit "1" :: repeat [] 6). eexists. split; [reflexivity|]. split; [reflexivity|].
    split; [intros show; vm_compute; reflexivity|]. vm_compute. discriminate.
  - exists [(lit "diff_tool", VBool true)]. eexists. split; [reflexivity|].
    split; [intros show; vm_compute; reflexivity|]. vm_compute. discriminate.
Qed.
Print Assumptions C52_setup_reads_back_refuted.

(** Any other values without line breaks and blanks at the end are read back, and nothing else is
    set. The value for a key is the answer, or if that is empty the present value or default. *)
Theorem C52_setup_reads_back_partial cc show old answers :
  cc_space cc NL = true -> (forall c, In c (lit "abcdefghijklmnopqrstuvwxyz_=") -> cc_space cc c = false) ->
  length answers = length setup_keys ->
  let value key answer := match answer with
                          | [] => match dget key old with Some v => show_cval show v | None => config_defaults key end
                          | _ => answer end in
  (forall key answer, In (key, answer) (combine setup_keys answers) ->
     let v := value key answer in
     ~ In NL v /\ ~ In CR v /\ v <> lit "0" /\ v <> lit "1" /\ (forall w s, v = w ++ [s] -> cc_space cc s = false)) ->
  exists c, parse_config_file cc (Some (setup_file show old answers)) [] = Some c /\
    (forall key answer, In (key, answer) (combine setup_keys answers) -> dget key c = Some (VStr (value key answer))) /\
    (forall key, ~ In key setup_keys -> dget key c = None).
Proof.
  intros SN SL LN value HV.
  set (items := map (fun ka => (fst ka, prompt_value show old (fst ka) (snd ka))) (combine setup_keys answers)).
  assert (PV : forall k a, prompt_value show old k a = value k a) by (intros k [|? ?]; reflexivity).
  assert (KEYS : map fst items = setup_keys).
  { unfold items. rewrite map_map. cbn [fst]. clear -LN. revert LN. generalize setup_keys.
    induction answers as [|a answers IH]; intros [|k ks]; try discriminate; [reflexivity|].
    cbn. intros [= L]. f_equal. now apply IH. }
  assert (OK : Forall (item_ok cc) items).
  { apply Forall_forall. intros [k v] I. assert (IK : In k setup_keys) by (rewrite <- KEYS; apply in_map_iff; now exists (k, v)).
    unfold items in I. apply in_map_iff in I. destruct I as ([k' a] & [= -> <-] & I).
    destruct (HV k a I) as (N1 & N2 & _ & _ & NS). rewrite <- PV in N1, N2, NS. cbn [fst snd] in *.
    set (v := prompt_value show old k a) in *. clearbody v.
    assert (K : forallb (fun c => existsb (N.eqb c) (lit "abcdefghijklmnopqrstuvwxyz_")) k = true /\ k <> [] /\ starts_with [HASH] k = false).
    { clear -IK. repeat (destruct IK as [<-|IK]; [repeat split; discriminate|]). destruct IK. }
    destruct K as (K & KN & KH). rewrite forallb_forall in K.
    assert (KC : forall c, In c k -> In c (lit "abcdefghijklmnopqrstuvwxyz_")).
    { intros c Ic. apply K in Ic. apply existsb_exists in Ic. destruct Ic as (d & Id & E). apply N.eqb_eq in E. now subst. }
    assert (NO : forall x, ~ In x (lit "abcdefghijklmnopqrstuvwxyz_") -> ~ In x k) by (intros x H X; now apply H, KC).
    unfold item_ok. cbn [fst snd]. split; [|split; [|split; [|split]]].
    - split; [destruct k; discriminate|]. split.
      + destruct k as [|c k]; [congruence|]. cbn [app hd]. apply SL. change (lit "abcdefghijklmnopqrstuvwxyz_=") with (lit "abcdefghijklmnopqrstuvwxyz_" ++ lit "=").
        rewrite in_app_iff. left. apply KC. now left.
      + destruct v as [|c0 v0] eqn:EV.
        * rewrite app_nil_r, last_last. apply SL. cbn. tauto.
        * rewrite <- EV in *. assert (VN : v <> []) by (subst; discriminate). destruct (exists_last VN) as (w & s & EW).
          rewrite EW, !app_assoc, last_last. now apply (NS w s).
    - rewrite !in_app_iff. intros [I2|[I2|I2]]; [revert I2; apply NO; cbn; intuition discriminate|cbn in I2; intuition discriminate|contradiction].
    - rewrite !in_app_iff. intros [I2|[I2|I2]]; [revert I2; apply NO; cbn; intuition discriminate|cbn in I2; intuition discriminate|contradiction].
    - apply NO. cbn. intuition discriminate.
    - destruct k as [|c k]; [congruence|]. exact KH. }
  assert (ND : NoDup (map fst items)).
  { rewrite KEYS. repeat constructor; cbn; intuition discriminate. }
  destruct (put_items items [] ND) as [A B].
  eexists. split; [exact (parse_setup cc SN items OK [])|]. split.
  - intros key answer I. rewrite (A key (value key answer)).
    + f_equal. unfold parse_config_value. destruct (HV key answer I) as (_ & _ & N0 & N1 & _).
      apply str_eqb_neq in N0, N1. now rewrite N0, N1.
    + unfold items. apply in_map_iff. exists (key, answer). cbn [fst snd]. now rewrite PV.
  - intros key NK. rewrite B; [reflexivity|]. now rewrite KEYS.
Qed.
Print Assumptions C52_setup_reads_back_partial.

Example C52_ex : exists c, parse_config_file ascii_class
    (Some (setup_file (fun _ => []) [(lit "books_path", VStr (lit "my books"))]
            [lit " kdiff3 --auto=x"; []; []; []; lit "t"; []; []])) [] = Some c /\
  map (fun k => dget k c) setup_keys =
  map (fun s => Some (VStr s)) [lit " kdiff3 --auto=x"; lit "diff"; lit "retext --preview"; lit "less"; lit "t"; lit "test,book"; lit "my books"].
Proof. eexists. split; vm_compute; reflexivity. Qed.

(** ** C58 *)

Definition no_flags : flags := {| f_i := false; f_I := false; f_v := false; f_L := false; f_f := false; f_c := false;
  f_r := false; f_u := false; f_a := false; f_p := VBool false; f_s := false; f_S := false; f_cov := false;
  f_md_viewer := []; f_diff_tool := [] |}.
Definition accept_flag : flags := {| f_i := false; f_I := false; f_v := false; f_L := false; f_f := false; f_c := false;
  f_r := false; f_u := false; f_a := true; f_p := VBool false; f_s := false; f_S := false; f_cov := false;
  f_md_viewer := []; f_diff_tool := [] |}.

(** An invocation with -a makes a later one without it accept as well. *)
Theorem C58_flags_are_local_refuted : exists c c0,
  exec_many ascii_class None [] [] [([], accept_flag); ([], no_flags)] = [Some c; Some c] /\
  exec_config ascii_class None [] [] [] no_flags = Some c0 /\
  dget (lit "accept") c = Some (VBool true) /\ dget (lit "accept") c0 = None.
Proof. eexists. eexists. split; [|split; [|split]]; vm_compute; reflexivity. Qed.
Print Assumptions C58_flags_are_local_refuted.

(** A setting that no earlier invocation of the process changed has the value it has in a fresh
    process. *)
Theorem C58_flags_are_local_partial cc f environ calls n extra p c c0 k :
  nth_error calls n = Some (extra, p) ->
  nth_error (exec_many cc None f environ calls) n = Some (Some c) ->
  exec_config cc None f environ extra p = Some c0 ->
  (forall j extra' p', j < n -> nth_error calls j = Some (extra', p') -> ~ In k (map fst (extra' ++ flag_settings p'))) ->
  dget k c = dget k c0.
Proof.
  intros HC HN HX HE. unfold exec_config in HX. destruct (get_default_config cc None f environ) as [d|] eqn:G; [|discriminate].
  injection HX as <-. apply (exec_many_get cc f environ k calls None d G n (extra, p) c HC HN).
  intros j [e q] Hj Hn. exact (HE j e q Hj Hn).
Qed.
Print Assumptions C58_flags_are_local_partial.

Example C58_ex : exists c c0,
  nth_error (exec_many ascii_class None [] [] [([], accept_flag); ([(lit "x", VInt 3)], no_flags)]) 1 = Some (Some c) /\
  exec_config ascii_class None [] [] [(lit "x", VInt 3)] no_flags = Some c0 /\
  dget (lit "x") c = Some (VInt 3) /\ ~ In (lit "x") (map fst (flag_settings accept_flag)).
Proof.
  eexists. eexists. split; [vm_compute; reflexivity|]. split; [vm_compute; reflexivity|]. split; [vm_compute; reflexivity|].
  vm_compute. intuition discriminate.
Qed.

(** ** C68 *)

(** "parallel=1" in the configuration runs as many processes as there are processors. *)
Theorem C68_parallel_count_refuted : exists f c int_of,
  lookup (lit ".booktest") f = Some (lit "parallel=1") /\
  exec_config ascii_class None f [] [] no_flags = Some c /\
  int_of (lit "1") = Some 1 /\ is_parallel c = true /\
  forall cpus, process_count cpus int_of c = Some cpus.
Proof.
  exists [(lit ".booktest", lit "parallel=1")]. eexists. exists (fun _ => Some 1).
  split; [reflexivity|]. split; [vm_compute; reflexivity|]. split; [reflexivity|]. split; [vm_compute; reflexivity|].
  intros cpus. vm_compute. reflexivity.
Qed.
Print Assumptions C68_parallel_count_refuted.

(** A number given on the command line, or another number in the configuration, is used; without a number, there are as many
    processes as processors. *)
Theorem C68_parallel_count_partial cpus int_of c :
  (forall p, truthy (f_p p) = true -> forall n, (f_p p = VInt n \/ (exists s, f_p p = VStr s /\ s <> lit "True" /\ int_of s = Some n)) ->
     is_parallel (put_all (flag_settings p) c) = true /\ process_count cpus int_of (put_all (flag_settings p) c) = Some n) /\
  (forall s x n, dget (lit "parallel") c = Some x -> value_read s x -> s <> [] -> s <> lit "0" -> s <> lit "1" -> s <> lit "True" ->
     int_of s = Some n -> is_parallel c = true /\ process_count cpus int_of c = Some n) /\
  (forall x, dget (lit "parallel") c = Some x -> value_read (lit "0") x -> is_parallel c = false) /\
  (forall x, dget (lit "parallel") c = Some x -> value_read (lit "1") x \/ value_read (lit "True") x ->
     is_parallel c = true /\ process_count cpus int_of c = Some cpus) /\
  (forall p, f_p p = VBool true ->
     is_parallel (put_all (flag_settings p) c) = true /\ process_count cpus int_of (put_all (flag_settings p) c) = Some cpus).
Proof.
  assert (G : forall p, truthy (f_p p) = true -> dget (lit "parallel") (put_all (flag_settings p) c) = Some (f_p p)).
  { intros p T. assert (PA : forall a b d, put_all (a ++ b) d = put_all b (put_all a d)) by (intros; apply fold_left_app).
    unfold flag_settings. cbv zeta. rewrite T, !PA.
    rewrite put_all_get by (destruct (f_diff_tool p); cbn; intuition discriminate).
    rewrite put_all_get by (destruct (f_md_viewer p); cbn; intuition discriminate).
    rewrite put_all_get by (destruct (f_cov p); cbn; intuition discriminate).
    rewrite put_all_get by (destruct (f_S p); cbn; intuition discriminate).
    rewrite put_all_get by (destruct (f_s p); cbn; intuition discriminate).
    apply dget_dput_same. }
  unfold is_parallel, process_count. split; [|split; [|split; [|split]]].
  - intros p T n HP. rewrite (G p T). split; [exact T|].
    destruct HP as [->|(s & -> & NT & HI)]; [reflexivity|]. apply str_eqb_neq in NT. now rewrite NT.
  - intros s x n D V NE N0 N1 NT HI. rewrite D. destruct V as [[E _]|[[E _]|(_ & _ & ->)]]; [contradiction|contradiction|].
    apply str_eqb_neq in NT. rewrite NT. split; [now destruct s|exact HI].
  - intros x D V. rewrite D. destruct V as [[E _]|[[_ ->]|(E & _ & _)]]; [discriminate|reflexivity|now contradiction E].
  - intros x D V. rewrite D. destruct V as [[[_ ->]|[[E _]|(_ & E & _)]]|[[E _]|[[E _]|(_ & _ & ->)]]]; try discriminate; try (now contradiction E); split; reflexivity.
  - intros p EP. assert (T : truthy (f_p p) = true) by (now rewrite EP). rewrite (G p T), EP. split; reflexivity.
Qed.
Print Assumptions C68_parallel_count_partial.
Example C68_ex : exists c, let int_of s := if str_eqb s (lit "3") then Some 3 else None in
  exec_config ascii_class None [(lit ".booktest", lit "parallel=3")] [] [] no_flags = Some c /\ is_parallel c = true /\ process_count 8 int_of c = Some 3 /\
  exists c', exec_config ascii_class None [(lit ".booktest", lit "parallel=True")] [] [] no_flags = Some c' /\ process_count 8 int_of c' = Some 8.
Proof. eexists. split; [vm_compute; reflexivity|]. split; [reflexivity|]. split; [reflexivity|]. eexists. split; vm_compute; reflexivity. Qed.

(** ** C98 *)

(** what the command line sets *)
Inductive flag_sets (p : flags) : str -> cval -> Prop :=
| set_i : f_i p = true -> flag_sets p (lit "interactive") (VBool true)
| set_I : f_I p = true -> flag_sets p (lit "always_interactive") (VBool true)
| set_v : f_v p = true -> flag_sets p (lit "verbose") (VBool true)
| set_L : f_L p = true -> flag_sets p (lit "print_logs") (VBool true)
| set_f : f_f p = true -> flag_sets p (lit "fail_fast") (VBool true)
| set_c : f_c p = true -> flag_sets p (lit "continue") (VBool true)
| set_r : f_r p = true -> flag_sets p (lit "refresh_sources") (VBool true)
| set_u : f_u p = true -> flag_sets p (lit "update") (VBool true)
| set_a : f_a p = true -> flag_sets p (lit "accept") (VBool true)
| set_p : truthy (f_p p) = true -> flag_sets p (lit "parallel") (f_p p)
| set_s : f_s p = true -> flag_sets p (lit "complete_snapshots") (VBool true)
| set_S : f_S p = true -> flag_sets p (lit "refresh_snapshots") (VBool true)
| set_cov : f_cov p = true -> flag_sets p (lit "coverage") (VBool true)
| set_md_viewer : f_md_viewer p <> [] -> flag_sets p (lit "md_viewer") (VStr (f_md_viewer p))
| set_diff_tool : f_diff_tool p <> [] -> flag_sets p (lit "diff_tool") (VStr (f_diff_tool p)).

Lemma flag_sets_In p k v : flag_sets p k v <-> In (k, v) (flag_settings p).
Proof.
  unfold flag_settings. cbv zeta. rewrite !in_app_iff. split.
  - intros H. inversion H as [E|E|E|E|E|E|E|E|E|E|E|E|E|E|E]; subst; try rewrite E; cbn [In];
      try (destruct (f_md_viewer p); [congruence|]); try (destruct (f_diff_tool p); [congruence|]); cbn [In]; tauto.
  - intros H. repeat (destruct H as [H|H]);
      match type of H with
      | In _ (if ?b then _ else _) => destruct b eqn:E; [|destruct H]; destruct H as [H|[]]; injection H as <- <-; constructor; assumption
      | In _ (match ?s with [] => _ | _ :: _ => _ end) => destruct s eqn:E; [destruct H|]; destruct H as [H|[]]; injection H as <- <-; rewrite <- E; constructor; congruence
      end.
Qed.
Lemma flag_sets_fun p k v w : flag_sets p k v -> flag_sets p k w -> v = w.
Proof.
  assert (F : forall u, flag_sets p k u -> u = if str_eqb k (lit "parallel") then f_p p else if str_eqb k (lit "md_viewer") then VStr (f_md_viewer p)
                                          else if str_eqb k (lit "diff_tool") then VStr (f_diff_tool p) else VBool true).
  { intros u H. destruct H; reflexivity. }
  intros H1 H2. now rewrite (F v H1), (F w H2).
Qed.
Lemma put_all_last settings : forall c k, exists r, last_of (fun kv v => fst kv = k /\ snd kv = v) settings r /\
  dget k (put_all settings c) = match r with Some v => Some v | None => dget k c end.
Proof.
  unfold put_all. induction settings as [|[n v] settings IH]; intros c k; cbn [fold_left fst snd].
  - exists None. split; [intros ? ? []|reflexivity].
  - destruct (IH (dput n v c) k) as (r & L & D). pose proof (last_of_cons _ (n, v) _ _ L) as LC.
    destruct r as [w|]; [exists (Some w); now split|]. destruct LC as [LA LB]. rewrite dget_dput in D. destruct (str_eqb_spec k n) as [->|NE].
    + exists (Some v). split; [now apply LA|exact D].
    + exists None. split; [|exact D]. apply LB. intros w [E _]. cbn [fst] in E. congruence.
Qed.

(** The command line wins over the defaults given by the program, these over the configuration, and nothing else is set. *)
Theorem C98_flags_win cc global f environ extra p c0 c :
  get_default_config cc global f environ = Some c0 -> exec_config cc global f environ extra p = Some c ->
  (forall k v, flag_sets p k v -> dget k c = Some v) /\
  (forall k, (forall v, ~ flag_sets p k v) ->
     exists r, last_of (fun kv v => fst kv = k /\ snd kv = v) extra r /\ dget k c = match r with Some v => Some v | None => dget k c0 end).
Proof.
  intros E0 E. unfold exec_config in E. rewrite E0 in E. injection E as <-. split.
  - intros k v S. destruct (put_all_last (flag_settings p) (put_all extra c0) k) as (r & L & D). rewrite D. destruct r as [w|].
    + destruct L as (l1 & [k' w'] & l2 & EL & [EK EW] & _). cbn [fst snd] in EK, EW. subst k' w'. f_equal. apply (flag_sets_fun p k w v); [|exact S].
      apply flag_sets_In. rewrite EL. apply in_or_app. right. now left.
    + apply flag_sets_In in S. now destruct (L (k, v) v S).
  - intros k N. rewrite put_all_get; [apply put_all_last|]. intros I. apply in_map_iff in I. destruct I as ([k' v] & EK & I). cbn [fst] in EK. subst k'.
    apply flag_sets_In in I. now apply (N v).
Qed.
Print Assumptions C98_flags_win.
Example C98_ex : exists c, let p := {| f_i := false; f_I := false; f_v := true; f_L := false; f_f := false; f_c := false; f_r := false; f_u := false;
    f_a := false; f_p := VInt 4; f_s := false; f_S := false; f_cov := false; f_md_viewer := []; f_diff_tool := lit "meld" |} in
  exec_config ascii_class None [(lit ".booktest", lit "diff_tool=diff" ++ NLs ++ lit "md_viewer=less")] [(lit "BOOKTEST_PARALLEL", lit "2")]
    [(lit "verbose", VBool false); (lit "parallel", VInt 3); (lit "timeout", VInt 9)] p = Some c /\
  flag_sets p (lit "parallel") (VInt 4) /\
  map (fun k => dget k c) [lit "verbose"; lit "parallel"; lit "diff_tool"; lit "timeout"; lit "md_viewer"; lit "accept"] =
    [Some (VBool true); Some (VInt 4); Some (VStr (lit "meld")); Some (VInt 9); Some (VStr (lit "less")); None].
Proof. eexists. cbv zeta. split; [vm_compute; reflexivity|]. split; [|vm_compute; reflexivity].
  match goal with |- flag_sets ?p _ _ => exact (set_p p eq_refl) end.
Qed.

(** ** C69 *)

(** Apart from "*", the arguments are path prefixes of case names and these after "skip:". *)
Theorem C69_choices names a : Forall (fun n => n <> [] /\ starts_with (lit "/") n = false) names ->
  (In a (test_choices names) ->
     a = lit "*" \/ exists name p, In name names /\ (name = p \/ exists r, name = p ++ lit "/" ++ r) /\ (a = p \/ a = lit "skip:" ++ p)) /\
  In (lit "*") (test_choices names) /\
  (forall name p, In name names -> (name = p \/ exists r, name = p ++ lit "/" ++ r) ->
     In p (test_choices names) /\
     (p <> lit "*" -> (forall q, p <> lit "skip:" ++ q) -> In (lit "skip:" ++ p) (test_choices names))).
Proof.
  intros HN. rewrite Forall_forall in HN.
  assert (SK : skips [lit "*"]) by (intros p [<-|[]] N; congruence).
  assert (PX : forall name p, In name names -> (In p (prefixes [] (split_on SLASH name)) <-> name = p \/ exists r, name = p ++ lit "/" ++ r)).
  { intros name p I. destruct (HN name I) as [NE NS]. now rewrite prefixes_split. }
  split; [|split].
  - intros I. destruct (choices_In names [lit "*"] a SK) as (_ & A & _). destruct (A I) as [[<-|[]]|(name & p & IN & IP & H)]; [now left|].
    right. exists name, p. apply PX in IP; auto.
  - destruct (choices_In names [lit "*"] (lit "*") SK) as (_ & _ & B & _). apply B. now left.
  - intros name p I H. assert (IP : In p (test_choices names)).
    { destruct (choices_In names [lit "*"] p SK) as (_ & _ & _ & C). apply (C name I). now apply PX. }
    split; [exact IP|]. intros N1 N2. destruct (choices_In names [lit "*"] p SK) as (S & _). apply (S p IP N1).
    apply not_true_is_false. intros X. apply starts_with_iff in X. destruct X as [q X]. exact (N2 q X).
Qed.
Print Assumptions C69_choices.

(** With an accepted argument that does not start with "skip:" some case is selected. *)
Theorem C69_choice_selects names a : Forall (fun n => n <> [] /\ starts_with (lit "/") n = false) names -> names <> [] ->
  In a (test_choices names) -> ~ is_skip a -> exists name, In name names /\ is_selected name [a] = true.
Proof.
  intros HN NE I NS. destruct (C69_choices names a HN) as (A & _). destruct (A I) as [->|(name & p & IN & HP & [->|E])].
  - destruct names as [|n names]; [congruence|]. exists n. split; [now left|]. apply C27_selection_any_name. split.
    + intros p [E|[]]. discriminate.
    + right. exists (lit "*"). split; [now left|now left].
  - exists name. split; [exact IN|]. apply C27_selection_any_name. split.
    + intros q [E|[]]. destruct NS. now exists q.
    + right. exists p. split; [now left|]. right. right. exact HP.
  - destruct NS. now exists p.
Qed.
Print Assumptions C69_choice_selects.

Example C69_ex : test_choices [lit "a/b"; lit "a/c"; lit "d"] =
  [lit "*"; lit "a"; lit "skip:a"; lit "a/b"; lit "skip:a/b"; lit "a/c"; lit "skip:a/c"; lit "d"; lit "skip:d"].
Proof. vm_compute. reflexivity. Qed.
