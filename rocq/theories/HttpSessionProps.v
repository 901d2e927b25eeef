(** C114: a block takes over the requests of a session, and what it leaves behind. *)
From Verif Require Import PyStrFacts HttpModel HttpSessionModel HttpHash HttpProps TokenizerProps.

Section Proofs.
Variable cc : CharClass.
Variable sha : obj -> str.
Variables R X A K Q : Type.
Variable url_of : Q -> str.
Variable kof : Q -> key.
Variable net : A -> K -> Q -> R + X.
Variable http_adapter : A.
Variable defaults : K.
Notation run := (fake_send_all cc sha R X A K Q url_of kof net http_adapter defaults).

(** Inside of a block, whatever adapters are mounted and whatever get_adapter is overridden: the recordings and the outcomes are
    those of the recording adapter (which C43 and C45 describe), and the network is used for those requests that it records. *)
Lemma taken_over capture snapshots : forall qs requests s s' requests' os us,
  run capture snapshots requests s qs = (s', requests', os, us) ->
  send_all cc sha R X capture snapshots requests (map (fun c => (kof (fst c), net http_adapter defaults (fst c))) qs) =
    (requests', os, map (fun u => match u with Some _ => true | None => false end) us) /\
  (forall a k q, In (Some (a, k, q)) us -> a = http_adapter /\ k = defaults /\ In q (map fst qs)).
Proof.
  induction qs as [|[q k] qs IH]; intros requests s s' requests' os us; cbn [fake_send_all map send_all fst snd].
  - intros [= <- <- <- <-]. split; [reflexivity|]. intros a k q [].
  - unfold fake_send, original_send. cbn [get_adapter set_own s_own].
    destruct (send cc sha R X capture snapshots requests (kof q) (net http_adapter defaults q)) as [[requests1 o] n].
    destruct (run capture snapshots requests1 (set_own OfSession (set_own OfBlock s)) qs) as [[[s2 requests2] os2] us2] eqn:E.
    intros [= <- <- <- <-]. destruct (IH _ _ _ _ _ _ E) as [E1 U]. rewrite E1. cbn [map]. split; [now destruct n|].
    intros a k' q' [I|I].
    + destruct n; [|discriminate]. injection I as <- <- <-. split; [reflexivity|]. split; [reflexivity|now left].
    + destruct (U _ _ _ I) as (-> & -> & I'). split; [reflexivity|]. split; [reflexivity|now right].
Qed.

Lemma left_behind capture snapshots : forall qs requests s s' requests' os us,
  run capture snapshots requests s qs = (s', requests', os, us) ->
  s_class s' = s_class s /\ s_mounted s' = s_mounted s /\ s_own s' = match qs with [] => s_own s | _ => Some OfSession end.
Proof.
  induction qs as [|[q k] qs IH]; intros requests s s' requests' os us; cbn [fake_send_all].
  - now intros [= <- <- <- <-].
  - destruct (fake_send cc sha R X A K Q url_of kof net http_adapter defaults capture snapshots requests s q k) as [s1 [[requests1 o] u]] eqn:F.
    destruct (run capture snapshots requests1 s1 qs) as [[[s2 requests2] os2] us2] eqn:E. intros [= <- <- <- <-].
    unfold fake_send in F. injection F as <- _. destruct (IH _ _ _ _ _ _ E) as (A1 & A2 & A3). rewrite A1, A2, A3.
    repeat split. now destruct qs.
Qed.
End Proofs.

(** ** C114 *)
Theorem C114_taken_over : forall cc sha R X A K Q url_of key_of net http_adapter defaults capture snapshots qs requests s s' requests' os us,
  fake_send_all cc sha R X A K Q url_of key_of net http_adapter defaults capture snapshots requests s qs = (s', requests', os, us) ->
  exists network,
  send_all cc sha R X capture snapshots requests (map (fun c => (key_of (fst c), net http_adapter defaults (fst c))) qs) = (requests', os, network) /\
  Forall2 (fun u n => u <> None <-> n = true) us network.
Proof.
  intros cc sha R X A K Q url_of kof net http_adapter defaults capture snapshots qs requests s s' requests' os us H.
  destruct (taken_over _ _ _ _ _ _ _ _ _ _ _ _ _ _ _ _ _ _ _ _ _ H) as [E _]. eexists. split; [exact E|].
  clear. induction us as [|[u|] us IH]; constructor; auto; split; congruence.
Qed.
Print Assumptions C114_taken_over.

(** Without capturing, no session uses the network in a block. *)
Theorem C114_replay_offline : forall cc sha R X A K Q url_of key_of net http_adapter defaults snapshots qs requests s s' requests' os us,
  fake_send_all cc sha R X A K Q url_of key_of net http_adapter defaults false snapshots requests s qs = (s', requests', os, us) ->
  Forall (fun u => u = None) us.
Proof.
  intros cc sha R X A K Q url_of kof net http_adapter defaults snapshots qs requests s s' requests' os us H.
  destruct (taken_over _ _ _ _ _ _ _ _ _ _ _ _ _ _ _ _ _ _ _ _ _ H) as [E _]. clear H.
  assert (N : forall cs reqs r o i, send_all cc sha R X false snapshots reqs cs = (r, o, i) -> Forall (fun b => b = false) i).
  { induction cs as [|[k n] cs IH]; intros reqs r o i; cbn [send_all]; [intros [= <- <- <-]; constructor|].
    unfold send. destruct (find _ _) as [sn|].
    - destruct (send_all cc sha R X false snapshots _ cs) as [[a b] c] eqn:F. intros [= <- <- <-]. constructor; [reflexivity|]. now apply IH in F.
    - destruct (send_all cc sha R X false snapshots _ cs) as [[a b] c] eqn:F. intros [= <- <- <-]. constructor; [reflexivity|]. now apply IH in F. }
  apply N in E. clear N. induction us as [|[u|] us IH]; inversion_clear E; constructor; auto; discriminate.
Qed.
Print Assumptions C114_replay_offline.

(** False: the request that is captured need not be the one that the session would have made, as the mounted adapter (with its
    retries, say) and the arguments (a proxy, say) are not used ... *)
Theorem C114_request_refuted : exists s q kwargs s' requests o,
  get_adapter s (r_url q) = Some 7 /\
  fake_send_all ascii_class demo_sha str unit nat nat request r_url (HttpProps.key_of ascii_class demo_sha IgnoreAll None)
    (fun a k q => if Nat.eqb a 7 && Nat.eqb k 3 then inl (lit "answer") else inr tt) 0 0 true [] [] s [(q, kwargs)] = (s', requests, [o], [Some (0, 0, q)]) /\
  plain_send str unit nat nat request r_url (fun a k q => if Nat.eqb a 7 && Nat.eqb k 3 then inl (lit "answer") else inr tt) s q kwargs =
    Some (Returned (lit "answer"), Some (7, 3, q)) /\
  o = Raised tt.
Proof.
  exists {| s_own := None; s_class := OfSession; s_mounted := fun _ => 7 |}, (get "a"), 3. do 3 eexists.
  split; [reflexivity|]. split; [vm_compute; reflexivity|]. split; reflexivity.
Qed.
Print Assumptions C114_request_refuted.

(** ... and a session whose class has its own get_adapter loses it, for the time after the block. *)
Theorem C114_session_refuted : exists s q s' requests os us,
  fake_send_all ascii_class demo_sha nat unit nat unit request r_url (HttpProps.key_of ascii_class demo_sha IgnoreAll None)
    (fun _ _ _ => inl 5) 0 tt true [] [] s [(q, tt)] = (s', requests, os, us) /\
  get_adapter s (r_url q) = Some 8 /\ get_adapter s' (r_url q) = Some 0.
Proof.
  exists {| s_own := None; s_class := OfUser (fun _ => 8); s_mounted := fun _ => 0 |}, (get "a"). do 4 eexists.
  split; [vm_compute; reflexivity|]. split; reflexivity.
Qed.
Print Assumptions C114_session_refuted.

(** A session of requests that does not override get_adapter finds the same adapters after the block. *)
Theorem C114_session_partial : forall cc sha R X A K Q url_of key_of net http_adapter defaults capture snapshots qs requests s s' requests' os us,
  s_own s = None \/ s_own s = Some OfSession -> s_class s = OfSession ->
  fake_send_all cc sha R X A K Q url_of key_of net http_adapter defaults capture snapshots requests s qs = (s', requests', os, us) ->
  forall url, get_adapter s' url = get_adapter s url.
Proof.
  intros cc sha R X A K Q url_of kof net http_adapter defaults capture snapshots qs requests s s' requests' os us O C H url.
  destruct (left_behind _ _ _ _ _ _ _ _ _ _ _ _ _ _ _ _ _ _ _ _ _ H) as (A1 & A2 & A3).
  unfold get_adapter. rewrite A1, A2, A3, C. destruct qs; [reflexivity|]. now destruct O as [-> | ->].
Qed.
Print Assumptions C114_session_partial.

(** If moreover it mounts nothing but plain adapters and the requests give no arguments, then while everything is captured afresh
    each request gets what the session would have got, from the same use of the network. *)
Theorem C114_request_partial : forall cc sha R X A K Q url_of key_of net http_adapter defaults requests s q requests' o u s',
  (forall url, get_adapter s url = Some http_adapter) ->
  fake_send cc sha R X A K Q url_of key_of net http_adapter defaults true [] requests s q defaults = (s', (requests', o, u)) ->
  plain_send R X A K Q url_of net s q defaults = Some (o, u).
Proof.
  intros cc sha R X A K Q url_of kof net http_adapter defaults requests s q requests' o u s' G H.
  unfold fake_send, original_send in H. cbn [get_adapter set_own s_own] in H. unfold plain_send. rewrite G. unfold send in H. cbn [rev find] in H.
  destruct (net http_adapter defaults q) as [r|x]; now injection H as <- <- <- <-.
Qed.
Print Assumptions C114_request_partial.

Example C114_example :
  let s := {| s_own := None; s_class := OfSession; s_mounted := fun _ => 0 |} in
  exists s' requests,
  fake_send_all ascii_class demo_sha nat unit nat nat request r_url (HttpProps.key_of ascii_class demo_sha IgnoreAll None)
    (fun _ k q => inl (k + length (r_url q))) 0 2 true [] [] s [(get "a", 9); (get "a", 2)] =
    (s', requests, [Returned 10; Returned 10], [Some (0, 2, get "a"); Some (0, 2, get "a")]) /\
  length requests = 2 /\ s_own s' = Some OfSession /\ get_adapter s' (lit "http://y") = get_adapter s (lit "http://y").
Proof. cbn zeta. do 2 eexists. split; [vm_compute; reflexivity|]. now repeat split. Qed.
