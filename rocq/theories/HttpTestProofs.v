From Coq Require Import Lia Permutation.
From Verif Require Import HttpTestModel RunCaseSpec.
From Verif Require Import PyStrFacts HttpModel HttpProofs HttpHash HttpProps HttpListModel HttpListProofs HttpListProps HttpFilesModel HttpFilesProofs HttpFilesProps HttpTalkProps JsonFacts BytesFacts.

(** ** The keys of the recorded requests have no ignored headers *)
Lemma strip_idem cc ign o : strip_headers cc ign (strip_headers cc ign o) = strip_headers cc ign o.
Proof.
  destruct ign as [| |l]; try reflexivity. unfold strip_headers. cbn [o_url o_method o_headers o_body o_order]. f_equal.
  destruct (o_headers o) as [h|]; [|reflexivity]. cbn [option_map]. f_equal. induction h as [|x h IH]; [reflexivity|]. cbn [filter].
  destruct (negb (is_ignored cc l (fst x))) eqn:F; [|exact IH]. cbn [filter]. rewrite F. now rewrite IH.
Qed.
Lemma strip_marked cc sha R ign (l : list (snap R)) : forall k, strip_headers cc ign (k_obj k) = k_obj k -> strip_headers cc ign (k_obj (mark_order cc sha R l k)) = k_obj (mark_order cc sha R l k).
Proof.
  unfold mark_order. induction l as [|s l IH]; intros k H; [exact H|]. cbn [fold_left]. apply IH. destruct (str_eqb _ _); [|exact H].
  unfold increase_order, request_key. cbn [k_obj strip_headers]. destruct ign as [| |il]; unfold strip_headers in *; cbn [o_url o_method o_headers o_body o_order]; [reflexivity| |].
  - f_equal. rewrite <- H. reflexivity.
  - f_equal. rewrite <- H at 2. reflexivity.
Qed.

Section Stripped.
  Variable cc : CharClass.
  Variable sha : obj -> str.
  Variable ign : ignore.
  Variables R X : Type.
  Definition bare (s : snap R) : Prop := strip_headers cc ign (k_obj (fst s)) = k_obj (fst s).
  Lemma recorded_bare capture files refresh cs reqs os is :
    send_all cc sha R X capture (load cc sha R ign None files refresh) [] (keyed cc sha ign None cs) = (reqs, os, is) -> Forall bare reqs.
  Proof.
    intros E. eapply (send_all_recorded cc sha R X bare); [|constructor| |exact E].
    - unfold load. destruct refresh; [constructor|]. apply Forall_map, Forall_forall. intros [n [[o h] r]] _. unfold bare. cbn. apply strip_idem.
    - intros k r l I. apply in_map_iff in I. destruct I as ([q real] & EQ & I). cbn [fst snd] in EQ. injection EQ as <- ->.
      unfold bare. cbn [fst]. apply strip_marked. unfold key_of, from_request, request_key. cbn [k_obj]. apply strip_idem.
  Qed.

  (** what is in the table was stored for a request of the capture *)
  Lemma table_json (response_json : R -> option jv) (to_disk : R -> option R) (ok : R -> Prop) hide reqs stored :
    (forall r r', ok r -> to_disk r = Some r' -> response_json r' = response_json r) ->
    Forall bare reqs -> Forall (fun s => ok (snd s)) reqs ->
    Forall2 (fun s e => fst e = k_hash (fst s) /\ snd (fst (snd e)) = k_hash (fst s) /\ fst (fst (snd e)) = fst (to_json_object hide (fst s)) /\ to_disk (snd s) = Some (snd (snd e))) reqs stored ->
    Forall2 (fun s t => k_hash (fst t) = k_hash (fst s) /\ snap_json R response_json hide t = snap_json R response_json hide s) reqs (load cc sha R ign None stored false).
  Proof.
    intros AG B RO F. unfold load. induction F as [|s e reqs stored (H1 & H2 & H3 & H4) F IH]; cbn [map]; [constructor|].
    inversion B as [|? ? Bs B']; subst. inversion RO as [|? ? Os RO']; subst. constructor; [|now apply IH].
    destruct e as [nm [[o h] r']]. destruct s as [k r]. cbn [fst snd] in *. subst. split; [reflexivity|].
    unfold snap_json. cbn [fst snd]. rewrite (AG r r' Os H4). unfold bare in Bs. cbn [fst] in Bs.
    assert (EO : to_json_object hide (request_key cc sha ign None (Some (k_hash k)) (fst (to_json_object hide k))) = to_json_object hide k).
    { unfold to_json_object, request_key. cbn [k_obj k_hash fst]. f_equal. destruct hide; [|exact Bs].
      destruct ign as [| |l]; reflexivity. }
    now rewrite EO.
  Qed.
End Stripped.

Lemma same_by_hash {A B} (h : A -> str) (g : A -> B) : forall (l l' t : list A),
  Forall2 (fun s x => h x = h s /\ g x = g s) l t -> NoDup (map h l) -> incl l' t -> map h l' = map h l -> map g l' = map g l.
Proof.
  intros l l' t F ND I E.
  assert (K : forall x, In x l' -> exists s, In s l /\ h x = h s /\ g x = g s).
  { intros x Hx. apply I in Hx. clear - F Hx. induction F as [|s y l t H F IH]; [destruct Hx|]. destruct Hx as [<-|Hx]; [exists s; split; [now left|exact H]|].
    destruct (IH Hx) as (s' & A1 & A2). exists s'. split; [now right|exact A2]. }
  assert (U : forall a b, In a l -> In b l -> h a = h b -> a = b).
  { clear - ND. induction l as [|x l IH]; intros a b Ha Hb E; [destruct Ha|]. cbn [map] in ND. apply NoDup_cons_iff in ND as [N ND].
    destruct Ha as [<-|Ha], Hb as [<-|Hb]; auto.
    - exfalso. apply N. rewrite E. now apply in_map.
    - exfalso. apply N. rewrite <- E. now apply in_map. }
  assert (G : forall m l2, (forall s, In s m -> In s l) -> (forall x, In x l2 -> exists s, In s l /\ h x = h s /\ g x = g s) -> map h l2 = map h m -> map g l2 = map g m).
  { clear - U. induction m as [|s m IH]; intros [|x l2] L K E; try discriminate; [reflexivity|]. cbn [map] in *. injection E as E1 E2. f_equal.
    - destruct (K x (or_introl eq_refl)) as (s' & A1 & A2 & A3). rewrite A3. f_equal. apply U; [exact A1|apply L; now left|]. congruence.
    - apply IH; [intros y Hy; apply L; now right|intros y Hy; apply K; now right|exact E2]. }
  apply G; auto.
Qed.

(** ** The run of the capture, again *)
Lemma replay_same (cc : CharClass) (sha : obj -> str) (ign : ignore) (R X : Type) (response_json : R -> option jv) (to_disk : R -> option R) (ok : R -> Prop)
    capture files refresh cs reqs os is hide stored cs'
    (no_collision : forall a b, asked cc ign (map fst (cs ++ cs')) (length cs) a -> asked cc ign (map fst (cs ++ cs')) (length cs) b -> (sha a = sha b <-> same a b))
    (again : forall r r', ok r -> to_disk r = Some r' -> response_json r' = response_json r) :
  send_all cc sha R X capture (load cc sha R ign None files refresh) [] (keyed cc sha ign None cs) = (reqs, os, is) ->
  Forall (fun o => exists r, o = Returned r) os ->
  Forall (fun s => ok (snd s)) reqs ->
  stop R to_disk hide reqs [] = Some stored ->
  Forall2 (fun c c' => k_hash (key_of cc sha ign None (fst c)) = k_hash (key_of cc sha ign None (fst c'))) cs cs' ->
  exists reqs' os' is', send_all cc sha R X false (load cc sha R ign None stored false) [] (keyed cc sha ign None cs') = (reqs', os', is') /\
    HttpFilesModel.write_file R response_json hide reqs' = HttpFilesModel.write_file R response_json hide reqs /\
    snapshot_lines reqs' = snapshot_lines reqs.
Proof.
  intros E HR RO ES EQ.
  set (ok' := fun o => exists q, In q (map fst (cs ++ cs')) /\ o = asked_obj cc ign q).
  set (most := length cs).
  assert (sha_inj : forall a b n m, ok' a -> ok' b -> n <= most -> m <= most -> sha (with_order n a) = sha (with_order m b) -> same (with_order n a) (with_order m b)).
  { intros a b n m (q & I & ->) (q' & I' & ->) LN LM. apply no_collision; [exists q, (Some n)|exists q', (Some m)]; split; auto. }
  assert (sha_same : forall a b n, ok' a -> ok' b -> n <= most -> same a b -> sha (with_order n a) = sha (with_order n b)).
  { intros a b n (q & I & ->) (q' & I' & ->) LN S. apply no_collision; [exists q, (Some n); split; auto|exists q', (Some n); split; auto|now apply same_order]. }
  assert (h0_iff : forall a b, ok' a -> ok' b -> sha a = sha b <-> same a b).
  { intros a b (q & I & ->) (q' & I' & ->). apply no_collision; [exists q, None; split; auto|exists q', None; split; auto]. }
  assert (h0_same : forall a b, ok' a -> ok' b -> same a b -> sha a = sha b) by (intros a b A B; now apply h0_iff).
  assert (h0_order : forall a b n, ok' a -> ok' b -> n <= most -> sha a <> sha (with_order n b)).
  { intros a b n (q & I & ->) (q' & I' & ->) LN EQ'. apply no_collision in EQ'; [|exists q, None; split; auto|exists q', (Some n); split; auto].
    destruct EQ' as (_ & _ & _ & EO & _). rewrite asked_order in EO. discriminate. }
  assert (BASE : forall l : list (request * (R + X)), incl l (cs ++ cs') -> Forall (fun c => base sha ok' (fst c)) (keyed cc sha ign None l)).
  { intros l EL. apply Forall_forall. intros c C. apply in_map_iff in C as (d & <- & D). cbn [fst]. apply key_of_base; [reflexivity|].
    exists (fst d). split; [apply in_map; now apply EL|reflexivity]. }
  set (objs := fun l : list (request * (R + X)) => map (fun c => k_obj (key_of cc sha ign None (fst c))) l).
  assert (OB : forall l, map (fun c => k_obj (fst c)) (keyed cc sha ign None l) = objs l) by (intros l; unfold keyed, objs; rewrite map_map; reflexivity).
  assert (LC : length cs' = length cs) by (clear - EQ; induction EQ; cbn [length]; congruence).
  assert (I1 : incl cs (cs ++ cs')) by (now apply incl_appl, incl_refl).
  assert (I2 : incl cs' (cs ++ cs')) by (now apply incl_appr, incl_refl).
  assert (OKS : forall l, incl l (cs ++ cs') -> Forall ok' (objs l)).
  { intros l I. apply Forall_forall. intros o C. apply in_map_iff in C as (d & <- & D). exists (fst d). split; [apply in_map; now apply I|reflexivity]. }
  assert (EG : gets sha [] (objs cs) = gets sha [] (objs cs')).
  { apply (gets_same sha ok' most sha_same h0_same).
    - clear - EQ h0_iff OKS I1 I2. specialize (OKS) as O2. specialize (OKS cs I1). specialize (O2 cs' I2). unfold objs in *. clear objs I1 I2. clearbody ok'.
      induction EQ as [|c c' l l' S F IH]; cbn [map] in *; constructor.
      + apply h0_iff; [exact (Forall_inv OKS)|exact (Forall_inv O2)|exact S].
      + apply IH; [exact (Forall_inv_tail OKS)|exact (Forall_inv_tail O2)].
    - now apply OKS.
    - now apply OKS.
    - unfold objs. rewrite map_length. apply le_n. }
  assert (LK : length (@nil (snap R)) + length (keyed cc sha ign None cs) <= most) by (unfold keyed, most; rewrite map_length; apply le_n).
  assert (LK' : length (@nil (snap R)) + length (keyed cc sha ign None cs') <= most) by (unfold keyed, most; rewrite map_length, LC; apply le_n).
  pose proof (capture_gets cc sha ok' most sha_inj sha_same h0_same h0_order R X _ _ _ [] _ _ _ (valid_nil sha sha ok') LK (BASE cs I1) E HR) as HC.
  rewrite OB in HC. change (hashes R []) with (@nil str) in HC.
  destruct (capture_all cc sha sha ok' most sha_inj sha_same h0_same h0_order R X _ _ _ [] _ _ _ (valid_nil sha sha ok') LK (BASE cs I1) E HR) as (V & _).
  assert (LR : length (hashes R reqs) = length cs).
  { rewrite HC, gets_length. unfold objs. rewrite map_length. reflexivity. }
  assert (ND : NoDup (hashes R reqs)) by (apply (valid_nodup sha sha ok' most sha_inj sha_same h0_same h0_order _ V); rewrite LR; apply le_n).
  destruct (stop_spec R to_disk hide reqs [] stored ES ND) as (new & EN & FS). cbn [app] in EN. subst new.
  pose proof (table_json cc sha ign R response_json to_disk ok hide reqs stored again (recorded_bare cc sha ign R X _ _ _ _ _ _ _ E) RO FS) as TJ.
  set (table := load cc sha R ign None stored false) in *.
  assert (HT : hashes R table = hashes R reqs).
  { clear - TJ. unfold hashes. induction TJ as [|s t l l' [H _] TJ IH]; cbn [map]; [reflexivity|]. f_equal; [exact H|exact IH]. }
  assert (KEYS : Forall2 (fun s t => k_hash (fst t) = k_hash (fst s) /\ list_key t = list_key s) reqs table).
  { clear - FS. unfold table, load. induction FS as [|s e reqs' stored' (_ & A & B & _) FS IH]; cbn [map]; constructor; [|exact IH].
    destruct e as [h [[o h'] r]]. cbn [fst snd] in *. subst. split; [reflexivity|]. unfold list_key. cbn. f_equal. destruct ign; cbn; unfold to_json_object; destruct hide; reflexivity. }
  destruct (replay_gets cc sha ok' most sha_inj sha_same h0_same h0_order R X table (keyed cc sha ign None cs') [] (valid_nil sha sha ok') LK' (BASE cs' I2))
    as (reqs' & os' & is' & E' & _ & _ & A3 & A4).
  { rewrite OB. change (hashes R []) with (@nil str). rewrite <- EG, <- HC, HT. apply incl_refl. }
  rewrite OB in A4. change (hashes R []) with (@nil str) in A4. rewrite <- EG, <- HC in A4. cbn [app] in *.
  exists reqs', os', is'. split; [exact E'|]. split.
  - assert (M : map (snap_json R response_json hide) reqs' = map (snap_json R response_json hide) reqs) by exact (same_by_hash (fun s : snap R => k_hash (fst s)) (snap_json R response_json hide) reqs reqs' table TJ ND A3 A4).
    unfold HttpFilesModel.write_file. now rewrite M.
  - apply lines_same. rewrite (same_by_hash (fun s : snap R => k_hash (fst s)) list_key reqs reqs' table KEYS ND A3 A4). apply Permutation_refl.
Qed.

(** ** The whole test, again *)
Lemma conversation_shown {R X} (S : outcome R X -> outcome R X -> Prop) (P : HttpProps.request -> HttpProps.request -> Prop) : forall qs (test test' : list (outcome R X) -> option HttpProps.request) os os',
  (forall h h', Forall2 S h h' -> match test h, test' h' with None, None => True | Some q, Some q' => P q q' | _, _ => False end) ->
  conversation test qs os -> Forall2 S os os' ->
  exists qs', conversation test' qs' os' /\ Forall2 P qs qs'.
Proof.
  induction qs as [|q qs IH]; intros test test' os os' H C F.
  - destruct C as (L & _ & E). destruct os; [|discriminate]. inversion_clear F. exists []. split; [|constructor].
    split; [reflexivity|]. split; [now intros [|i] ?|]. specialize (H [] [] (Forall2_nil _)). rewrite E in H. now destruct (test' []).
  - destruct os as [|o os]; [destruct C as (L & _); discriminate|]. inversion F as [|? o' ? os1 F1 F2]; subst.
    apply conversation_cons in C as [T C].
    destruct (IH (fun h => test (o :: h)) (fun h => test' (o' :: h)) os os1) as (qs' & C' & FP); auto.
    { intros h h' Fh. apply H. now constructor. }
    pose proof (H [] [] (Forall2_nil _)) as H0. rewrite T in H0. destruct (test' []) as [q'|] eqn:T'; [|easy].
    exists (q' :: qs'). split; [|now constructor]. destruct C' as (L & N & E). split; [cbn; now rewrite L|]. split; [|exact E].
    intros [|i] p Hp; [cbn in *; congruence|exact (N i p Hp)].
Qed.
Section TestAgain.
  Variable cc : CharClass.
  Variable sha1 : str -> str.
  Hypothesis sha1_text : forall t, text (sha1 t).
  Variable jfloat : str -> str.
  Variable R X : Type.
  Variable response_json : R -> option jv.
  Variable response_of : jv -> option R.
  Variable response_ok : R -> Prop.
  Variable seen : R -> R.
  Hypothesis json_ok : forall r v, response_ok r -> response_json r = Some v -> plain v /\ value_ok jfloat v.
  Hypothesis disk : forall r, response_ok r -> response_disk R response_json response_of r = Some (seen r).
  Hypothesis seen_json : forall r, response_ok r -> response_json (seen r) = response_json r.
  Variable ign : ignore.
  Variable hide : bool.
  Variables (title fname : str).
  Notation sha := (json_to_sha1 sha1).
  Notation to_disk := (response_disk R response_json response_of).
  (** what a request returned, and what it returns in a replay *)
  Definition shown (o o' : outcome R X) : Prop := exists r, o = Returned r /\ response_ok r /\ o' = Returned (seen r).
  Notation run := (http_run cc sha1 jfloat R X response_json response_of ign hide title fname).

  Variables (capture refresh : bool) (file : option str) (T T' : http_test R X) (cs : list (HttpProps.request * (R + X))) (os : list (outcome R X)) (b : body_run) (used : list bool).
  Hypothesis earlier_ok : forall files, recordings jfloat R response_of refresh file = Some files -> Forall (entry_ok R response_ok) files.
  Definition may_ask (q : HttpProps.request) : Prop := In q (map fst cs) \/ exists i h, Forall2 shown (firstn i os) h /\ t_next T' h = Some q.
  Hypothesis requests_ok : forall q, may_ask q -> request_ok q.
  Hypothesis no_collision : forall qs, (forall q, In q qs -> may_ask q) -> forall x y, asked cc ign qs (length cs) x -> asked cc ign qs (length cs) y ->
    sha1 (request_text x) = sha1 (request_text y) -> request_text x = request_text y.
  Hypothesis responses_ok : forall q r, In (q, inl r) cs -> response_ok r.
  Hypothesis returned : Forall (fun o => exists r, o = Returned r) os.
  Hypothesis alike : forall h h', Forall2 shown h h' ->
    t_does T' h' = t_does T h /\
    match t_next T h, t_next T' h' with
    | None, None => True
    | Some q, Some q' => k_hash (key_of cc sha ign None q) = k_hash (key_of cc sha ign None q')
    | _, _ => False
    end.

  Lemma collision_free qs : (forall q, In q qs -> may_ask q) -> forall x y, asked cc ign qs (length cs) x -> asked cc ign qs (length cs) y -> (sha x = sha y <-> same x y).
  Proof.
    intros M x y A B. assert (QO : Forall request_ok qs) by (apply Forall_forall; intros q I; apply requests_ok; now apply M).
    rewrite <- (request_text_same x y (asked_ok _ _ _ _ _ QO A) (asked_ok _ _ _ _ _ QO B)). unfold json_to_sha1. split; [now apply (no_collision qs M)|now intros ->].
  Qed.

  Lemma keyed_offline table (cs1 cs2 : list (HttpProps.request * (R + X))) : map fst cs1 = map fst cs2 -> forall reqs,
    send_all cc sha R X false table reqs (keyed cc sha ign None cs1) = send_all cc sha R X false table reqs (keyed cc sha ign None cs2).
  Proof.
    revert cs2. induction cs1 as [|[q1 n1] cs1 IH]; intros [|[q2 n2] cs2] EQ reqs; try discriminate; [reflexivity|]. cbn [map fst] in EQ. injection EQ as <- EQ.
    cbn [keyed map fst snd send_all].
    assert (ES : send cc sha R X false table reqs (key_of cc sha ign None q1) n1 = send cc sha R X false table reqs (key_of cc sha ign None q1) n2) by reflexivity.
    rewrite ES. destruct (send cc sha R X false table reqs (key_of cc sha ign None q1) n2) as [[reqs1 o] u]. fold (keyed cc sha ign None cs1) (keyed cc sha ign None cs2). now rewrite (IH cs2 EQ).
  Qed.

  (** [files]: the recordings that were found, wherever they came from *)
  Lemma http_again_from files : Forall (entry_ok R response_ok) files ->
    (exists reqs text, send_all cc sha R X capture (load cc sha R ign None files refresh) [] (keyed cc sha ign None cs) = (reqs, os, used) /\
       conversation (t_next T) (map fst cs) os /\ HttpFilesModel.write_file R response_json hide reqs = Some text /\
       b = with_snapshots R title fname (t_does T os) text reqs) ->
    exists saved, last_write fname (b_files b) = Some saved /\
    (exists qs, forall cs', map fst cs' = qs -> exists os' used', run false false (Some saved) T' cs' os' b used') /\
    (forall cs' os' b' used', run false false (Some saved) T' cs' os' b' used' ->
       b' = b /\ Forall (fun u => u = false) used' /\
       Forall2 shown os os' /\
       Forall2 (fun c c' => k_hash (key_of cc sha ign None (fst c)) = k_hash (key_of cc sha ign None (fst c'))) cs cs').
  Proof.
    intros earlier (reqs & saved & E & C & EW & ->). clear earlier_ok.
    assert (QO : Forall request_ok (map fst cs)) by (apply Forall_forall; intros q I; apply requests_ok; now left).
    assert (OKR : Forall (snap_ok R response_ok) reqs) by (eapply (run_ok cc sha1 sha1_text R X response_ok); eassumption).
    destruct (stop_some R response_json response_of response_ok seen disk hide reqs OKR []) as [stored ES].
    destruct (file_back jfloat R response_json response_of response_ok json_ok hide reqs stored OKR ES) as (saved' & EW' & ER).
    rewrite EW in EW'. apply some_inv in EW'. subst saved'. exists saved. split.
    { unfold with_snapshots, last_write. cbn [b_files]. rewrite rev_app_distr. cbn [rev app lookup]. now rewrite str_eqb_refl. }
    assert (HT : forall h h', Forall2 shown h h' ->
      match t_next T h, t_next T' h' with None, None => True | Some q, Some q' => k_hash (key_of cc sha ign None q) = k_hash (key_of cc sha ign None q') | _, _ => False end).
    { intros h h' F. apply alike in F. apply F. }
    assert (again : forall r r', response_ok r -> to_disk r = Some r' -> response_json r' = response_json r).
    { intros r r' OK ED. rewrite (disk r OK) in ED. apply some_inv in ED. subst r'. now apply seen_json. }
    assert (RO : Forall (fun s => response_ok (snd s)) reqs) by (eapply Forall_impl; [|exact OKR]; intros s (_ & _ & H); exact H).
    assert (OKO : Forall (fun o => forall r, o = Returned r -> response_ok r) os).
    { eapply (send_all_returned cc sha R X response_ok capture); [| |exact E].
      - eapply Forall_impl; [|exact (load_ok cc sha1 R response_ok ign files refresh earlier)]. intros s OS. apply OS.
      - intros k r I. apply in_map_iff in I. destruct I as ([q real] & EQ & I). cbn [fst snd] in EQ. injection EQ as _ ->. exact (responses_ok _ _ I). }
    (* every run that asks with the same keys *)
    assert (KEY : forall cs', Forall2 (fun c c' => k_hash (key_of cc sha ign None (fst c)) = k_hash (key_of cc sha ign None (fst c'))) cs cs' ->
      (forall q, In q (map fst cs') -> may_ask q) ->
      exists reqs' os' is', send_all cc sha R X false (load cc sha R ign None stored false) [] (keyed cc sha ign None cs') = (reqs', os', is') /\
        HttpFilesModel.write_file R response_json hide reqs' = Some saved /\ snapshot_lines reqs' = snapshot_lines reqs /\
        Forall2 shown os os' /\ Forall (fun i => i = false) is').
    { intros cs' F M.
      assert (NC : forall x y, asked cc ign (map fst (cs ++ cs')) (length cs) x -> asked cc ign (map fst (cs ++ cs')) (length cs) y -> (sha x = sha y <-> same x y)).
      { apply collision_free. intros q I. rewrite map_app, in_app_iff in I. destruct I as [I|I]; [now left|now apply M]. }
      destruct (replay_same cc sha ign R X response_json to_disk response_ok capture files refresh cs reqs os used hide stored cs' NC again E returned RO ES F)
        as (reqs' & os' & is' & E' & W' & L').
      pose proof (C45_partial cc sha ign R X to_disk capture files refresh cs reqs os used hide stored stored cs' NC E returned ES (Permutation_refl _) F) as K.
      rewrite E' in K. exists reqs', os', is'. rewrite W'. destruct K as [K0 K2].
      assert (K1 : Forall2 shown os os').
      { clear - K0 OKO disk. induction K0 as [|o o' l l' (r & r' & -> & D & ->) K0 IH]; constructor; [|apply IH; exact (Forall_inv_tail OKO)].
        pose proof (Forall_inv OKO r eq_refl) as OR. exists r. split; [reflexivity|]. split; [exact OR|]. rewrite (disk _ OR) in D. apply some_inv in D. now subst r'. } split; [exact E'|]. split; [exact EW|]. split; [exact L'|]. split; [exact K1|exact K2]. }
    (* the conversation of the later test *)
    assert (exists os1, Forall2 shown os os1) as [os1 F1].
    { destruct (KEY cs) as (_ & os1 & _ & _ & _ & _ & F & _); [clear; induction cs; constructor; auto|intros q I; now left|]. now exists os1. }
    destruct (conversation_shown shown _ _ _ _ _ _ HT C F1) as (qs & C1 & FP).
    assert (MQ : forall q, In q qs -> may_ask q).
    { intros q I. right. apply In_nth_error in I as [i I]. destruct C1 as (_ & N & _). apply N in I. exists i, (firstn i os1). split; [|exact I].
      clear - F1. revert i. induction F1; intros [|i]; cbn; constructor; auto. }
    assert (KQ : forall cs', map fst cs' = qs -> exists reqs' is',
      send_all cc sha R X false (load cc sha R ign None stored false) [] (keyed cc sha ign None cs') = (reqs', os1, is') /\
      HttpFilesModel.write_file R response_json hide reqs' = Some saved /\ snapshot_lines reqs' = snapshot_lines reqs /\ Forall (fun i => i = false) is' /\
      Forall2 (fun c c' => k_hash (key_of cc sha ign None (fst c)) = k_hash (key_of cc sha ign None (fst c'))) cs cs').
    { intros cs' EQ. assert (F : Forall2 (fun c c' => k_hash (key_of cc sha ign None (fst c)) = k_hash (key_of cc sha ign None (fst c'))) cs cs').
      { clear - FP EQ. subst qs. revert cs' FP. induction cs as [|c l IH]; intros [|c' cs'] FP; cbn [map] in FP; inversion FP; subst; constructor; auto. }
      destruct (KEY cs' F) as (reqs' & os2 & is' & E' & W' & L' & F2 & NI); [rewrite EQ; exact MQ|]. exists reqs', is'.
      assert (os2 = os1) as ->; [|split; [exact E'|]; split; [exact W'|]; split; [exact L'|]; split; [exact NI|exact F]].
      clear - F1 F2. revert os2 F2. induction F1 as [|o o1 l l1 H F1 IH]; intros os2 F2; inversion F2 as [|? o2 ? l2 H2 F3]; subst; [reflexivity|].
      f_equal; [|now apply IH]. destruct H as (r & -> & D & ->). destruct H2 as (q & Q & D2 & ->). injection Q as <-. reflexivity. }
    assert (WS : forall reqs', snapshot_lines reqs' = snapshot_lines reqs ->
      with_snapshots R title fname (t_does T' os1) saved reqs' = with_snapshots R title fname (t_does T os) saved reqs).
    { intros reqs' L. unfold with_snapshots. rewrite L. destruct (alike os os1 F1) as [-> _]. reflexivity. }
    split.
    - exists qs. intros cs' EQ. destruct (KQ cs' EQ) as (reqs' & is' & E' & W' & L' & NI & _). exists os1, is'. exists stored, reqs', saved.
      split; [exact ER|]. split; [exact E'|]. split; [rewrite EQ; exact C1|]. split; [exact W'|]. symmetry. now apply WS.
    - intros cs' os' b' used' (files' & reqs' & saved' & ER' & E' & C' & W' & ->). unfold recordings in ER'. rewrite ER in ER'. apply some_inv in ER'. subst files'.
      destruct (Forall2_pair _ cs qs FP) as (cs1 & EQ1 & _).
      destruct (KQ cs1 EQ1) as (reqs1 & is1 & E1 & W1 & L1 & NI & F). rewrite <- EQ1 in C1.
      destruct (one_conversation cc sha ign _ _ _ _ _ _ _ _ _ _ _ E1 C1 E' C') as (A & <- & <-).
      assert (ER1 : reqs1 = reqs') by (rewrite (keyed_offline _ cs1 cs' A) in E1; congruence). subst reqs1. rewrite W1 in W'. apply some_inv in W'. subst saved'.
      split; [now apply WS|]. split; [exact NI|]. split; [exact F1|].
      clear - F A. revert cs' A. induction F as [|c c1 l l1 H FC IH]; intros [|c' cs'] A; cbn in A; try discriminate; constructor.
      + injection A as A0 _. rewrite <- A0. exact H.
      + apply IH. now injection A.
  Qed.
  Lemma http_again : run capture refresh file T cs os b used ->
    exists saved, last_write fname (b_files b) = Some saved /\
    (exists qs, forall cs', map fst cs' = qs -> exists os' used', run false false (Some saved) T' cs' os' b used') /\
    (forall cs' os' b' used', run false false (Some saved) T' cs' os' b' used' ->
       b' = b /\ Forall (fun u => u = false) used' /\
       Forall2 shown os os' /\
       Forall2 (fun c c' => k_hash (key_of cc sha ign None (fst c)) = k_hash (key_of cc sha ign None (fst c'))) cs cs').
  Proof. intros (files & reqs & text & EF & H). apply (http_again_from files); [now apply earlier_ok|]. exists reqs, text. exact H. Qed.
End TestAgain.
