(** C68: exactly when the configured number of processes is used. *)
From Verif Require Import PyStr PyStrFacts ConfigModel ConfigProofs ConfigProps.
From Coq Require Import List Lia.
Import ListNotations.

(** [s]: the text after parallel= in a file or environment variable, a number [n]. The run uses [n] processes exactly if the text is neither 0 nor 1, or is 1
    on a machine with one processor. With 0 the run is not parallel. A number that is zero but not written 0, as in 00, gives a parallel run with no process. *)
Theorem C68_parallel_count_exact cpus int_of c s x n :
  dget (lit "parallel") c = Some x -> value_read s x -> s <> [] -> int_of s = Some n -> int_of (lit "True") = None -> int_of (lit "1") = Some 1 ->
  (is_parallel c = true /\ process_count cpus int_of c = Some n <-> s <> lit "0" /\ (s = lit "1" -> cpus = 1)) /\
  (is_parallel c = false <-> s = lit "0") /\
  (is_parallel c = true -> n = 0 -> process_count cpus int_of c = Some 0).
Proof.
  intros G V NE I IT I1. unfold is_parallel, process_count. rewrite G. destruct V as [[-> ->]|[[-> ->]|(N0 & N1 & ->)]]; cbn [truthy].
  - rewrite I1 in I. assert (n = 1) by congruence. subst n. split; [|split; [split; discriminate|discriminate]]. split.
    + intros [_ E]. split; [discriminate|]. intros _. congruence.
    + intros [_ E]. split; [reflexivity|]. now rewrite E.
  - split; [split; [intros [E _]; discriminate|intros [E _]; now destruct E]|]. split; [tauto|discriminate].
  - assert (T : (match s with [] => false | _ => true end) = true) by (destruct s; [easy|reflexivity]). rewrite T.
    assert (P : str_eqb s (lit "True") = false) by (destruct (str_eqb_spec s (lit "True")) as [->|_]; [congruence|reflexivity]). rewrite P, I.
    split; [split; [intros _; split; [exact N0|intros ->; contradiction]|intros _; split; reflexivity]|]. split; [split; [discriminate|intros ->; contradiction]|]. now intros _ ->.
Qed.
Print Assumptions C68_parallel_count_exact.

(** parallel=1 with 8 processors, parallel=2 and parallel=00 *)
Example C68_exact_example :
  let int_of s := if str_eqb s (lit "1") then Some 1 else if str_eqb s (lit "2") then Some 2 else if str_eqb s (lit "0") || str_eqb s (lit "00") then Some 0 else None in
  let go t := option_map (fun c => (is_parallel c, process_count 8 int_of c)) (exec_config ascii_class None [(lit ".booktest", lit "parallel=" ++ t)] [] [] no_flags) in
  go (lit "1") = Some (true, Some 8) /\ go (lit "2") = Some (true, Some 2) /\ go (lit "00") = Some (true, Some 0) /\ option_map fst (go (lit "0")) = Some false.
Proof. vm_compute. repeat split. Qed.
