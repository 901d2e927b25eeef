(** Properties of booktest/tokenizer.py. *)
From Verif Require Import PyStrFacts TokenizerModel TokenizerSpec TokenizerProofs.

(** The hypothesis on the Unicode tables is satisfiable: ASCII. *)
Example ascii_TokClassOK : TokClassOK ascii_class.
Proof.
  constructor; try reflexivity.
  intros c. cbn. intros ->. reflexivity.
Qed.

(** C01. Tokenization terminates on NUL-free texts, yields no empty token and loses nothing. *)
Theorem C01_tokenize_lossless :
  forall cc, TokClassOK cc -> forall s, ~ In NUL s ->
  exists ts, tokenize cc s = Some ts /\ concat ts = s /\ Forall (fun t => t <> []) ts.
Proof.
  intros cc OK s Hs. destruct (tokenization_exists cc OK s Hs) as [ts Hts].
  exists ts. split; [now apply tokenize_iff|]. split; [eapply tokenization_concat; eauto|].
  eapply Forall_impl; [|apply (tokenization_tokens cc OK s ts Hts)]. cbn; tauto.
Qed.
Print Assumptions C01_tokenize_lossless.

(** The same for the iterator protocol: [next] called often enough has delivered the tokens
    and consumed the buffer, and the buffering iterator in front of it delivers the same. *)
Theorem C01_iterator_lossless :
  forall cc, TokClassOK cc -> forall s, ~ In NUL s ->
  exists ts, concat ts = s /\
    (forall n, length ts <= n -> tok_iter cc n s = (ts, [])) /\
    (forall n, length ts <= n -> bi_drain cc n (bi_init cc s) = ts).
Proof.
  intros cc OK s Hs. destruct (tokenization_exists cc OK s Hs) as [ts Hts].
  exists ts. split; [eapply tokenization_concat; eauto|].
  split; intros n Hn; [eapply tok_iter_end|eapply bi_drain_tokens]; eauto.
Qed.
Print Assumptions C01_iterator_lossless.

Example C01_example :
  tokenize ascii_class (lit "ab +1.5 x") =
  Some [lit "ab"; lit " "; lit "+1.5"; lit " "; lit "x"].
Proof. reflexivity. Qed.

(** C02. Newlines are tokens of their own and tokenization is compositional there. *)
Theorem C02_newline_compositional :
  forall cc, TokClassOK cc -> forall a b ta tb,
  tokenize cc a = Some ta -> tokenize cc b = Some tb ->
  tokenize cc (a ++ NL :: b) = Some (ta ++ [NL] :: tb).
Proof. exact tokenize_app_nl. Qed.
Print Assumptions C02_newline_compositional.

Theorem C02_newline_token :
  forall cc, TokClassOK cc -> forall s ts, tokenize cc s = Some ts ->
  forall t, In t ts -> In NL t -> t = [NL].
Proof.
  intros cc OK s ts H t Ht Hn. apply tokenize_iff, tokenization_tokens in H; auto.
  rewrite Forall_forall in H. now apply H.
Qed.
Print Assumptions C02_newline_token.

Example C02_example :
  tokenize ascii_class (lit "1.") = Some [lit "1"; lit "."] /\
  tokenize ascii_class (lit "5") = Some [lit "5"] /\
  tokenize ascii_class (lit "1." ++ NL :: lit "5") = Some [lit "1"; lit "."; [NL]; lit "5"].
Proof. repeat split. Qed.

(** C03. The tokens are exactly those of the declarative description, which determines them. *)
Theorem C03_token_classes :
  forall cc, TokClassOK cc -> forall s ts,
  tokenize cc s = Some ts <-> tokenization cc s ts.
Proof. exact tokenize_iff. Qed.
Print Assumptions C03_token_classes.

Theorem C03_tokenization_unique :
  forall cc, TokClassOK cc -> forall s ts1 ts2,
  tokenization cc s ts1 -> tokenization cc s ts2 -> ts1 = ts2.
Proof. exact tokenization_det. Qed.
Print Assumptions C03_tokenization_unique.

Example C03_example :
  tokenize ascii_class (lit "a1-2.5.x  +") =
  Some [lit "a1"; lit "-2.5"; lit "."; lit "x"; lit "  "; lit "+"].
Proof. reflexivity. Qed.

(** C04 is false of the code: a text with a NUL is never tokenized to the end. *)
Theorem C04_terminates_refuted :
  exists s, tokenize ascii_class s = None /\
            forall n, length (fst (tok_iter ascii_class n s)) = n.
Proof.
  exists [NUL]. split; [reflexivity|]. intros n.
  apply (tok_iter_nul ascii_class ascii_TokClassOK n [NUL]). now left.
Qed.
Print Assumptions C04_terminates_refuted.

(** The exact set of texts on which it does not terminate. *)
Theorem C04_terminates_partial :
  forall cc, TokClassOK cc -> forall s,
  (In NUL s -> tokenize cc s = None /\ forall n, length (fst (tok_iter cc n s)) = n) /\
  (~ In NUL s -> exists n, snd (tok_iter cc n s) = [] /\
                           tokenize cc s = Some (fst (tok_iter cc n s))).
Proof.
  intros cc OK s. split; intros H.
  - split; [now apply tokenize_none_iff|]. intros n. now apply tok_iter_nul.
  - destruct (tokenization_exists cc OK s H) as [ts Hts]. exists (length ts).
    rewrite (tok_iter_end cc OK s ts Hts) by lia. split; [reflexivity|]. now apply tokenize_iff.
Qed.
Print Assumptions C04_terminates_partial.
Example C04_example : ~ In NUL (lit "a 1.5") /\ tokenize ascii_class (lit "a 1.5") = Some [lit "a"; lit " "; lit "1.5"] /\
  In NUL (lit "a" ++ NUL :: lit "b") /\ tokenize ascii_class (lit "a" ++ NUL :: lit "b") = None.
Proof. vm_compute. intuition discriminate. Qed.
