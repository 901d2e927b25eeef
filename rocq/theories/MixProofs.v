(** Lemmas for C124: the blocks of a test with several recorders do not get in each other's way. *)
From Coq Require Import Lia.
From Verif Require Import HttpTestModel RunCaseSpec MixModel.
From Verif Require Import PyStrFacts HttpModel HttpFilesModel HttpListModel HttpProps HttpTalkProps BytesFacts.
From Verif Require FuncModel FuncTestModel EnvModel EnvTestModel JsonFilesModel JsonModel.

(** ** One kind of actions *)
Section Projections.
Context {X : Type}.
Fixpoint funcs (cs : list (step X)) : list (FuncTestModel.fcall * (jv + X)) :=
  match cs with [] => [] | SFunc q _ v :: r => (q, v) :: funcs r | _ :: r => funcs r end.
Fixpoint reqs (cs : list (step X)) : list (request * (rq_response + X)) :=
  match cs with [] => [] | SReq q v :: r => (q, v) :: reqs r | _ :: r => reqs r end.
Fixpoint hxs (cs : list (step X)) : list (request * (hx_response + X)) :=
  match cs with [] => [] | SHx q v :: r => (q, v) :: hxs r | _ :: r => hxs r end.
Fixpoint dfuncs (os : list (did X)) : list (FuncModel.outcome jv X) := match os with [] => [] | DFunc o :: r => o :: dfuncs r | _ :: r => dfuncs r end.
Fixpoint dreqs (os : list (did X)) : list (outcome rq_response X) := match os with [] => [] | DReq o :: r => o :: dreqs r | _ :: r => dreqs r end.
Fixpoint dhxs (os : list (did X)) : list (outcome hx_response X) := match os with [] => [] | DHx o :: r => o :: dhxs r | _ :: r => dhxs r end.
Fixpoint afuncs (qs : list action) : list FuncTestModel.fcall := match qs with [] => [] | AFunc q :: r => q :: afuncs r | _ :: r => afuncs r end.
Fixpoint areqs (qs : list action) : list request := match qs with [] => [] | AReq q :: r => q :: areqs r | _ :: r => areqs r end.
Fixpoint ahxs (qs : list action) : list request := match qs with [] => [] | AHx q :: r => q :: ahxs r | _ :: r => ahxs r end.
Definition same_kind (q : action) (o : did X) : Prop :=
  match q, o with AFunc _, DFunc _ | AReq _, DReq _ | AHx _, DHx _ => True | _, _ => False end.

Lemma funcs_fst cs : map fst (funcs cs) = afuncs (map action_of cs).
Proof. induction cs as [|[q i v|q v|q v] cs IH]; cbn; congruence. Qed.
Lemma reqs_fst cs : map fst (reqs cs) = areqs (map action_of cs).
Proof. induction cs as [|[q i v|q v|q v] cs IH]; cbn; congruence. Qed.
Lemma hxs_fst cs : map fst (hxs cs) = ahxs (map action_of cs).
Proof. induction cs as [|[q i v|q v|q v] cs IH]; cbn; congruence. Qed.
Lemma funcs_in q v cs : In (q, v) (funcs cs) -> exists i, In (SFunc q i v) cs.
Proof. induction cs as [|[q' i v'|q' v'|q' v'] cs IH]; cbn; [tauto| | |]; [intros [E|I]; [injection E as -> ->; eauto|]| |]; try intros I; destruct (IH I) as [j J]; eauto. Qed.
Lemma reqs_in q v cs : In (q, v) (reqs cs) -> In (SReq q v) cs.
Proof. induction cs as [|[q' i v'|q' v'|q' v'] cs IH]; cbn; [tauto|auto| |auto]. intros [E|I]; [injection E as -> ->; auto|auto]. Qed.
Lemma hxs_in q v cs : In (q, v) (hxs cs) -> In (SHx q v) cs.
Proof. induction cs as [|[q' i v'|q' v'|q' v'] cs IH]; cbn; [tauto|auto|auto|]. intros [E|I]; [injection E as -> ->; auto|auto]. Qed.
Lemma areqs_in q qs : In q (areqs qs) <-> In (AReq q) qs.
Proof. induction qs as [|[p|p|p] qs IH]; cbn; [tauto| | |]; rewrite IH; intuition congruence. Qed.
Lemma ahxs_in q qs : In q (ahxs qs) <-> In (AHx q) qs.
Proof. induction qs as [|[p|p|p] qs IH]; cbn; [tauto| | |]; rewrite IH; intuition congruence. Qed.
Lemma afuncs_in q qs : In q (afuncs qs) <-> In (AFunc q) qs.
Proof. induction qs as [|[p|p|p] qs IH]; cbn; [tauto| | |]; rewrite IH; intuition congruence. Qed.

(** the outcomes of each kind determine all outcomes *)
Lemma same_dids qs : forall os os', Forall2 same_kind qs os -> Forall2 same_kind qs os' -> dfuncs os = dfuncs os' -> dreqs os = dreqs os' -> dhxs os = dhxs os' -> os = os'.
Proof.
  induction qs as [|q qs IH]; intros os os' F F'; inversion F as [|? o ? os1 K F1]; subst; inversion F' as [|? o' ? os2 K' F2]; subst; [reflexivity|].
  destruct q, o; try contradiction; destruct o'; try contradiction; cbn [dfuncs dreqs dhxs]; intros A B C; try injection A as -> A; try injection B as -> B; try injection C as -> C; f_equal; now apply IH.
Qed.
End Projections.

Section Acts.
Variable cc : CharClass.
Variable sha1 : str -> str.
Variable X : Type.
Variables ign_rq ign_hx : ignore.
Notation sha := (json_to_sha1 sha1).
Notation acts := (acts cc sha1 X ign_rq ign_hx).
Notation act := (act cc sha1 X ign_rq ign_hx).

(** all actions, seen by each recorder *)
Lemma acts_each capture L cs : forall st st' os us, acts capture L st cs = Some (st', os, us) ->
  Forall2 same_kind (map action_of cs) os /\ length us = length cs /\
  (exists ks hos fus, JsonModel.all_of (map (FuncTestModel.hashed sha1 X) (funcs cs)) = Some ks /\
     FuncModel.run_calls FuncTestModel.held X capture (l_calls L) (s_calls st) ks = (s_calls st', hos, fus) /\ dfuncs os = map (FuncTestModel.result_of X) hos) /\
  (capture = false \/ (forall q i v, In (SFunc q i v) cs -> i = []) ->
   exists rus, send_all cc sha rq_response X capture (l_rq L) (s_rq st) (keyed cc sha ign_rq None (reqs cs)) = (s_rq st', dreqs os, rus)) /\
  (exists hus, send_all cc sha hx_response X capture (l_hx L) (s_hx st) (keyed cc sha ign_hx None (hxs cs)) = (s_hx st', dhxs os, hus)).
Proof.
  induction cs as [|c cs IH]; intros st st' os us; cbn [MixModel.acts].
  - intros [= <- <- <-]. split; [constructor|]. split; [reflexivity|]. split; [exists [], [], []; repeat split|]. split; [intros _|]; now exists [].
  - destruct c as [q i v|q v|q v]; cbn [MixModel.act].
    + destruct (FuncTestModel.key_of sha1 q) as [h|] eqn:EK; [|discriminate].
      destruct (FuncModel.snapshot _ _ _ _ _ _ _) as [[calls o] u] eqn:ES.
      destruct (acts capture L _ cs) as [[[st2 os2] us2]|] eqn:EA; [|discriminate]. intros [= <- <- <-].
      destruct (IH _ _ _ _ EA) as (A & B & (ks & hos & fus & C1 & C2 & C3) & D & (hus & E)). cbn [s_calls s_rq s_hx] in *.
      split; [constructor; [exact I|exact A]|]. split; [cbn; now rewrite B|]. split; [|split].
      * cbn [funcs map JsonModel.all_of]. unfold FuncTestModel.hashed at 1. cbn [fst snd]. rewrite EK. cbn [option_map]. rewrite C1.
        do 3 eexists. split; [reflexivity|]. cbn [FuncModel.run_calls fst snd]. split; [match goal with |- context [FuncModel.snapshot ?a ?b ?c ?d ?e ?f ?g] => replace (FuncModel.snapshot a b c d e f g) with (calls, o, u) by (symmetry; exact ES) end; rewrite C2; reflexivity|].  cbn [dfuncs map]. now rewrite C3.
      * intros Q. cbn [reqs dreqs]. destruct D as (rus & D); [destruct Q as [Q|Q]; [now left|right; intros; eapply Q; right; eassumption]|]. exists rus.
        destruct u; [|exact D]. destruct Q as [-> |Q]; [exfalso|].
        -- unfold FuncModel.snapshot in ES. destruct (FuncModel.assoc _ _ _); discriminate ES.
        -- rewrite (Q q i v (or_introl eq_refl)) in D. exact D.
      * cbn [hxs dhxs]. exists hus. exact E.
    + destruct (send _ _ _ _ _ _ _ _ _) as [[rq o] u] eqn:ES. destruct (acts capture L _ cs) as [[[st2 os2] us2]|] eqn:EA; [|discriminate]. intros [= <- <- <-].
      destruct (IH _ _ _ _ EA) as (A & B & (ks & hos & fus & C1 & C2 & C3) & D & (hus & E)). cbn [s_calls s_rq s_hx] in *.
      split; [constructor; [exact I|exact A]|]. split; [cbn; now rewrite B|]. split; [|split].
      * cbn [funcs dfuncs]. exists ks, hos, fus. auto.
      * intros Q. cbn [reqs dreqs keyed map send_all fst snd]. rewrite ES. destruct D as (rus & D); [destruct Q as [Q|Q]; [now left|right; intros; eapply Q; right; eassumption]|].
        unfold keyed in D. rewrite D. now eexists.
      * cbn [hxs dhxs]. exists hus. exact E.
    + destruct (send _ _ _ _ _ _ _ _ _) as [[hx o] u] eqn:ES. destruct (acts capture L _ cs) as [[[st2 os2] us2]|] eqn:EA; [|discriminate]. intros [= <- <- <-].
      destruct (IH _ _ _ _ EA) as (A & B & (ks & hos & fus & C1 & C2 & C3) & D & (hus & E)). cbn [s_calls s_rq s_hx] in *.
      split; [constructor; [exact I|exact A]|]. split; [cbn; now rewrite B|]. split; [|split].
      * cbn [funcs dfuncs]. exists ks, hos, fus. auto.
      * intros Q. cbn [reqs dreqs]. apply D. destruct Q as [Q|Q]; [now left|right; intros; eapply Q; right; eassumption].
      * cbn [hxs dhxs keyed map send_all fst snd]. rewrite ES. unfold keyed in E. rewrite E. now eexists.
Qed.
Lemma acts_total capture L cs : (forall q, In (AFunc q) (map action_of cs) -> FuncTestModel.key_of sha1 q <> None) ->
  forall st, exists st' os us, acts capture L st cs = Some (st', os, us).
Proof.
  induction cs as [|c cs IH]; intros K st; cbn [MixModel.acts]; [now do 3 eexists|].
  assert (A : exists st1 o u, act capture L st c = Some (st1, o, u)).
  { destruct c as [q i v|q v|q v]; cbn [MixModel.act].
    - destruct (FuncTestModel.key_of sha1 q) as [h|] eqn:EK; [|elim (K q); [now left|exact EK]]. destruct (FuncModel.snapshot _ _ _ _ _ _ _) as [[calls o] u]. now do 3 eexists.
    - destruct (send _ _ _ _ _ _ _ _ _) as [[rq o] u]. now do 3 eexists.
    - destruct (send _ _ _ _ _ _ _ _ _) as [[hx o] u]. now do 3 eexists. }
  destruct A as (st1 & o & u & ->). destruct (IH (fun q I => K q (or_intror I)) st1) as (st2 & os & us & ->). now do 3 eexists.
Qed.

(** without recording, an action does not depend on the world, and uses nothing of it *)
Lemma act_offline L st c c' : action_of c = action_of c' -> act false L st c = act false L st c'.
Proof.
  destruct c as [q i v|q v|q v], c' as [q' i' v'|q' v'|q' v']; intros [= <-]; cbn [MixModel.act]; [|reflexivity|reflexivity].
  destruct (FuncTestModel.key_of sha1 q) as [h|]; [|reflexivity]. unfold FuncModel.snapshot. destruct (FuncModel.assoc _ _ _); reflexivity.
Qed.
Lemma acts_offline L cs : forall st st' os us, acts false L st cs = Some (st', os, us) -> Forall (fun u => u = false) us.
Proof.
  induction cs as [|c cs IH]; intros st st' os us; cbn [MixModel.acts]; [intros [= <- <- <-]; constructor|].
  destruct (act false L st c) as [[[st1 o] u]|] eqn:EA; [|discriminate]. destruct (acts false L st1 cs) as [[[st2 os2] us2]|] eqn:ES; [|discriminate]. intros [= <- <- <-].
  constructor; [|exact (IH _ _ _ _ ES)]. destruct c as [q i v|q v|q v]; cbn [MixModel.act] in EA.
  - destruct (FuncTestModel.key_of sha1 q) as [h|]; [|discriminate]. unfold FuncModel.snapshot in EA. destruct (FuncModel.assoc _ _ _); now injection EA.
  - unfold send in EA. destruct (find _ _); now injection EA.
  - unfold send in EA. destruct (find _ _); now injection EA.
Qed.
Lemma acting_cons (next : list (did X) -> option action) q qs o os :
  acting next (q :: qs) (o :: os) -> next [] = Some q /\ acting (fun h => next (o :: h)) qs os.
Proof.
  intros (L & N & E). split; [exact (N 0 q eq_refl)|]. split; [now injection L|]. split; [|exact E]. intros i p I. exact (N (S i) p I).
Qed.
Lemma cons_acting (next : list (did X) -> option action) q qs o os :
  next [] = Some q -> acting (fun h => next (o :: h)) qs os -> acting next (q :: qs) (o :: os).
Proof.
  intros Q (L & N & E). split; [cbn; now rewrite L|]. split; [|exact E]. intros [|i] p I; [now injection I as <-|]. exact (N i p I).
Qed.
(** so a test has one run *)
Lemma acts_once L cs : forall cs' (next : list (did X) -> option action) st st1 os us st1' os' us',
  acts false L st cs = Some (st1, os, us) -> acting next (map action_of cs) os ->
  acts false L st cs' = Some (st1', os', us') -> acting next (map action_of cs') os' ->
  map action_of cs' = map action_of cs /\ st1' = st1 /\ os' = os /\ us' = us.
Proof.
  induction cs as [|c cs IH]; intros [|c' cs'] next st st1 os us st1' os' us' E C E' C'; cbn [MixModel.acts map] in *.
  - injection E as <- <- <-. injection E' as <- <- <-. auto.
  - injection E as <- <- <-. exfalso. destruct (act false L st c') as [[[? ?] ?]|]; [|discriminate]. destruct (acts false L _ cs') as [[[? ?] ?]|]; [|discriminate]. injection E' as <- <- <-.
    apply acting_cons in C' as [N _]. destruct C as (_ & _ & C). congruence.
  - injection E' as <- <- <-. exfalso. destruct (act false L st c) as [[[? ?] ?]|]; [|discriminate]. destruct (acts false L _ cs) as [[[? ?] ?]|]; [|discriminate]. injection E as <- <- <-.
    apply acting_cons in C as [N _]. destruct C' as (_ & _ & C'). congruence.
  - assert (AC : action_of c' = action_of c).
    { destruct C as (_ & C & _). destruct C' as (_ & C' & _). specialize (C 0 _ eq_refl). specialize (C' 0 _ eq_refl). cbn in C, C'. congruence. }
    rewrite (act_offline L st c' c AC) in E'. destruct (act false L st c) as [[[st2 o] u]|]; [|discriminate].
    destruct (acts false L st2 cs) as [[[a1 a2] a3]|] eqn:EA; [|discriminate]. destruct (acts false L st2 cs') as [[[b1 b2] b3]|] eqn:EB; [|discriminate].
    injection E as <- <- <-. injection E' as <- <- <-. apply acting_cons in C as [_ C]. apply acting_cons in C' as [_ C'].
    destruct (IH cs' _ _ _ _ _ _ _ _ EA C EB C') as (-> & -> & -> & ->). rewrite AC. auto.
Qed.

(** a test that sees the same takes the same actions *)
Lemma acting_alike (S : did X -> did X -> Prop) (P : action -> action -> Prop) qs : forall (next next' : list (did X) -> option action) os os',
  (forall h h', Forall2 S h h' -> match next h, next' h' with None, None => True | Some q, Some q' => P q q' | _, _ => False end) ->
  acting next qs os -> Forall2 S os os' ->
  exists qs', acting next' qs' os' /\ Forall2 P qs qs' /\
    forall q, In q qs' -> exists i h, Forall2 S (firstn i os) h /\ next' h = Some q.
Proof.
  induction qs as [|q qs IH]; intros next next' os os' AL C F.
  - exists []. destruct C as (L & _ & E). destruct os; [|discriminate]. inversion_clear F. split; [|split; [constructor|intros q []]]. split; [reflexivity|]. split; [intros [|i] p I; discriminate|].
    specialize (AL [] [] (Forall2_nil _)). rewrite E in AL. destruct (next' []); [contradiction|reflexivity].
  - destruct os as [|o os]; [destruct C; discriminate|]. inversion F as [|? o' ? os1 S1 F1]; subst. apply acting_cons in C as [N C].
    destruct (IH (fun h => next (o :: h)) (fun h => next' (o' :: h)) os os1) as (qs' & C' & FP & IN); [intros h h' Fh; apply AL; now constructor|exact C|exact F1|].
    pose proof (AL [] [] (Forall2_nil _)) as A0. rewrite N in A0. destruct (next' []) as [q'|] eqn:N'; [|contradiction]. exists (q' :: qs'). split; [now apply cons_acting|]. split; [now constructor|].
    intros p [<-|I]; [exists 0, []; split; [constructor|exact N']|]. destruct (IN p I) as (i & h & Fh & NH). exists (Datatypes.S i), (o' :: h). split; [now constructor|exact NH].
Qed.
End Acts.

(** ** Scripts *)
(** a list of requests or calls that does not depend on anything *)
Definition script {Q O : Type} (l : list Q) (h : list O) : option Q := nth_error l (length h).
Lemma script_follows {Q O} (l : list Q) (os : list O) : length l = length os ->
  length l = length os /\ (forall i q, nth_error l i = Some q -> script l (firstn i os) = Some q) /\ script l os = None.
Proof.
  intros L. split; [exact L|]. split.
  - intros i q H. unfold script. assert (i < length l) by (apply nth_error_Some; congruence). rewrite firstn_length. replace (Nat.min i (length os)) with i by lia. exact H.
  - unfold script. apply nth_error_None. lia.
Qed.
Lemma script_followed {Q O} (l qs : list Q) (os : list O) :
  length qs = length os -> (forall i q, nth_error qs i = Some q -> script l (firstn i os) = Some q) -> script l os = None -> qs = l.
Proof.
  intros L N E. unfold script in *. apply nth_error_None in E.
  assert (A : forall i q, nth_error qs i = Some q -> nth_error l i = Some q).
  { intros i q H. pose proof (N i q H) as K. assert (i < length qs) by (apply nth_error_Some; congruence). rewrite firstn_length in K. now replace (Nat.min i (length os)) with i in K by lia. }
  clear N. assert (E2 : length l <= length qs) by lia. clear E L os. revert l A E2. induction qs as [|q qs IH]; intros l A E.
  - destruct l; [reflexivity|cbn in E; lia].
  - destruct l as [|q' l]; [specialize (A 0 q eq_refl); discriminate|]. pose proof (A 0 q eq_refl) as H. injection H as ->. f_equal. apply IH; [intros i p H; exact (A (S i) p H)|cbn in E; lia].
Qed.
Lemma script_alike {Q} (P : Q -> Q -> Prop) (l l' : list Q) : Forall2 P l l' -> forall n,
  match nth_error l n, nth_error l' n with None, None => True | Some q, Some q' => P q q' | _, _ => False end.
Proof. induction 1 as [|q q' l l' H F IH]; intros [|n]; cbn [nth_error]; [exact I|exact I|exact H|apply IH]. Qed.
