(** Consequences of [Detect/Proofs.v], and facts about every storage. *)
From Coq Require Import List NArith ZArith Lia Bool Sorted Permutation Strings.String.
From Verif Require Import Lib.Res Lib.Bytes Lib.Text Common.Model Common.Spec Common.Fields Ole.Model Ole.Spec Ole.Statements
     Vba.Analyze Vba.Output Vba.FileSpec Propset.Model Docs.Model Media.WordPerfect Detect.Model Detect.Spec Detect.Statements Detect.TreeProofs Detect.Proofs.
Import ListNotations.
Local Open Scope N_scope.

(** ** Every entry has one outcome *)
Lemma yields_total pl excel current s v : exists r, yields pl excel current s v r.
Proof.
  destruct v as [names|names b].
  - destruct (vba_storage (last names []) (path_text names)) eqn:V.
    + apply vba_storage_iff in V. destruct (Analyze pl (path_text names) s) as [p|x| |] eqn:E; eexists.
      * apply y_project; eassumption.
      * apply y_project_error; eassumption.
      * eapply y_project_stop; [exact V|exact E|left; reflexivity].
      * eapply y_project_stop; [exact V|exact E|right; reflexivity].
    + eexists. apply y_storage. intros M. apply vba_storage_iff in M. congruence.
  - destruct (property_stream (last names [])) eqn:P.
    + apply property_stream_iff in P. destruct (ParseBytes pl b) as [ps|x| |] eqn:E.
      * eexists. apply y_props; eassumption.
      * destruct x; try (eexists; apply y_props_short; eassumption); (eexists; eapply y_props_stop; [exact P|exact E|discriminate|discriminate]).
      * eexists; eapply y_props_stop; [exact P|exact E|discriminate|discriminate].
      * eexists; eapply y_props_stop; [exact P|exact E|discriminate|discriminate].
    + assert (N : ~ In (last names []) property_names) by (intros I; apply property_stream_iff in I; congruence).
      destruct (existsb (fun k => matches (row_of k) (path_text names)) kinds) eqn:K.
      * apply existsb_exists in K. destruct K as (k & Ik & Mk). eexists. eapply y_kind; [exact N|exact Ik|]. apply matches_tells. exact Mk.
      * eexists. apply y_stream; [exact N|]. intros k Ik T. apply matches_tells in T.
        assert (existsb (fun k => matches (row_of k) (path_text names)) kinds = true) by (apply existsb_exists; exists k; split; assumption). congruence.
Qed.
Lemma table_itself : from_table ole_list.
Proof. intros m. reflexivity. Qed.
Lemma yields_fun pl excel current s v r1 r2 : yields pl excel current s v r1 -> yields pl excel current s v r2 -> r1 = r2.
Proof. intros Y1 Y2. apply (yields_inspect _ _ ole_list) in Y1; [|exact table_itself]. apply (yields_inspect _ _ ole_list) in Y2; [|exact table_itself]. congruence. Qed.

(** All entries have an outcome that is not a failure, or there is a first that has not. *)
Lemma all_or_first pl excel current s l :
  (exists outs, Forall2 (fun v o => yields pl excel current s v (Ok o)) l outs) \/
  (exists before v after outs r, l = before ++ v :: after /\ Forall2 (fun v o => yields pl excel current s v (Ok o)) before outs /\
     yields pl excel current s v r /\ (forall o, r <> Ok o)).
Proof.
  induction l as [|v l IH]; [left; exists []; constructor|]. destruct (yields_total pl excel current s v) as [r Y].
  assert (D : (exists o, r = Ok o) \/ (forall o, r <> Ok o)) by (destruct r; [left; eexists; reflexivity|right; discriminate..]).
  destruct D as [[o ->]|D].
  - destruct IH as [[outs F]|(before & v' & after & outs & r & -> & F & Y' & D)].
    + left. exists (o :: outs). constructor; assumption.
    + right. exists (v :: before), v', after, (o :: outs), r. split; [reflexivity|]. split; [constructor; assumption|]. split; assumption.
  - right. exists [], v, l, [], r. split; [reflexivity|]. split; [constructor|]. split; assumption.
Qed.

Lemma text_lt_irrefl x : ~ text_lt x x.
Proof. induction x as [|p x IH]; cbn [text_lt]; [tauto|]. intros [L|[_ L]]; [lia|auto]. Qed.
Lemma sorted_unique {V} (g : list (list N * V)) : forall h, StronglySorted text_lt (map fst g) -> StronglySorted text_lt (map fst h) -> Permutation g h -> g = h.
Proof.
  induction g as [|x g IH]; intros h S T P.
  - apply Permutation_nil in P. subst h. reflexivity.
  - destruct h as [|y h]; [apply Permutation_sym, Permutation_nil in P; discriminate P|]. cbn [map] in S, T.
    inversion S as [|? ? S1 S2]; subst. inversion T as [|? ? T1 T2]; subst.
    assert (E : x = y).
    { assert (Ix : In x (y :: h)) by (eapply Permutation_in; [exact P|left; reflexivity]).
      assert (Iy : In y (x :: g)) by (eapply Permutation_in; [apply Permutation_sym; exact P|left; reflexivity]).
      destruct Ix as [E|Ix]; [congruence|]. destruct Iy as [E|Iy]; [exact E|]. exfalso.
      rewrite Forall_forall in S2, T2. pose proof (S2 (fst y) (in_map fst _ _ Iy)) as L1. pose proof (T2 (fst x) (in_map fst _ _ Ix)) as L2.
      apply (text_lt_irrefl (fst x)). eapply text_lt_trans; eassumption. }
    subst y. f_equal. apply IH; [assumption..|]. eapply Permutation_cons_inv. exact P.
Qed.
Lemma assigned_fun paths g l m : assigned paths g l m -> forall m', assigned paths g l m' -> m = m'.
Proof. induction 1; intros m' A'; inversion A'; subst; try reflexivity; f_equal; auto. Qed.
Lemma reported_fun paths g l m m' : reported paths g l m -> reported paths g l m' -> m = m'.
Proof.
  intros R R'. inversion R as [|? ? N A]; subst; inversion R' as [|? ? N' A']; subst; try reflexivity; try (exfalso; auto; fail).
  eapply assigned_fun; eassumption.
Qed.

Lemma assigned_in paths g l m x : assigned paths g l m -> In x l -> exists z, alike x z /\ In z m.
Proof.
  induction 1 as [|e l|w l|i l m A IH|e p l m A IH]; cbn [In]; try tauto.
  - intros [<-|I]; eexists; (split; [constructor|]); [left; reflexivity|right; exact I].
  - intros [<-|I]; eexists; (split; [constructor|]); [left; reflexivity|right; exact I].
  - intros [<-|I]; [eexists; split; [constructor|left; reflexivity]|]. destruct (IH I) as (z & Al & Iz). exists z. auto.
  - intros [<-|I]; [eexists; split; [constructor|left; reflexivity]|]. destruct (IH I) as (z & Al & Iz). exists z. auto.
Qed.
Lemma assigned_from paths g l m z : assigned paths g l m -> In z m -> exists x, In x l /\ alike x z.
Proof.
  induction 1 as [|e l|w l|i l m A IH|e p l m A IH]; cbn [In]; try tauto.
  - intros [<-|I]; eexists; (split; [|constructor]); [left; reflexivity|right; exact I].
  - intros [<-|I]; eexists; (split; [|constructor]); [left; reflexivity|right; exact I].
  - intros [<-|I]; [eexists; split; [left; reflexivity|constructor]|]. destruct (IH I) as (x & Ix & Al). exists x. auto.
  - intros [<-|I]; [eexists; split; [left; reflexivity|constructor]|]. destruct (IH I) as (x & Ix & Al). exists x. auto.
Qed.
Lemma reported_in paths g l m x : reported paths g l m -> In x l -> exists z, alike x z /\ In z m.
Proof. intros R I. inversion R as [|? ? N A]; subst; [destruct I|]. eapply assigned_in; eassumption. Qed.

Section File.
Variables (f : bytes) (c : compound) (s : storage) (items : list item) (excel : bytes -> res workbook) (rows : list OlessInfo).
Hypothesis St : stored_as f c.
Hypothesis Cl : clean c.
Hypothesis Eo : storage_load windows (Some f) = Ok (Opened s).
Hypothesis Hi : holds f c 0 items.
Hypothesis Tb : from_table rows.
Notation y := (yields windows excel (root_stream (a "Current User") items) s).

Lemma guess_answers l : Guess windows excel rows (Some f) = Ok l <->
  exists outs g, Forall2 (fun v o => y v (Ok o)) (all_visits items) outs /\ sorted_by_key (groups_of outs) g /\ reported (all_paths items) g (results_of outs) l.
Proof.
  split.
  - intros E. destruct (all_or_first windows excel (root_stream (a "Current User") items) s (all_visits items)) as [[outs F]|(before & v & after & outs & r & Ev & F & Y & D)].
    + destruct (guess_ok f c s items excel rows outs St Cl Eo Hi Tb F) as (g & l' & Hg & Hr & E'). rewrite E in E'. injection E' as <-.
      exists outs, g. auto.
    + rewrite (guess_stops f c s items excel rows before v after outs r St Cl Eo Hi Tb Ev F Y D) in E. destruct r; [edestruct D; reflexivity|discriminate E..].
  - intros (outs & g & F & Hg & Hr). destruct (guess_ok f c s items excel rows outs St Cl Eo Hi Tb F) as (g' & l' & Hg' & Hr' & E').
    rewrite E'. f_equal.
    assert (Eg : g = g').
    { destruct Hg as [P S]. destruct Hg' as [P' S']. apply sorted_unique; [exact S|exact S'|]. eapply Permutation_trans; [apply Permutation_sym; exact P|exact P']. }
    subst g'. eapply reported_fun; eassumption.
Qed.


Lemma outs_in v outs : Forall2 (fun v o => y v (Ok o)) (all_visits items) outs -> In v (all_visits items) -> exists o, In o outs /\ y v (Ok o).
Proof.
  induction 1 as [|v' o l outs Y F IH]; cbn [In]; [tauto|]. intros [<-|I]; [exists o; split; [left; reflexivity|exact Y]|].
  destruct (IH I) as (o' & I' & Y'). exists o'. split; [right; exact I'|exact Y'].
Qed.
Lemma outs_from o outs : Forall2 (fun v o => y v (Ok o)) (all_visits items) outs -> In o outs -> exists v, In v (all_visits items) /\ y v (Ok o).
Proof.
  induction 1 as [|v o' l outs Y F IH]; cbn [In]; [tauto|]. intros [<-|I]; [exists v; split; [left; reflexivity|exact Y]|].
  destruct (IH I) as (v' & I' & Y'). exists v'. split; [right; exact I'|exact Y'].
Qed.
Lemma kind_reported l names b k : Guess windows excel rows (Some f) = Ok l -> In (VStream names b) (all_visits items) ->
  ~ In (last names []) property_names -> In k kinds -> tells_low (path_text names) k ->
  exists x z, read_kind windows excel (root_stream (a "Current User") items) k b = Ok x /\ alike x z /\ In z l.
Proof.
  intros E I N Ik T. apply guess_answers in E. destruct E as (outs & g & F & _ & R). destruct (outs_in _ _ F I) as (o & Io & Y).
  pose proof (yields_fun _ _ _ _ _ _ _ Y (y_kind _ _ _ _ names b k N Ik T)) as Eo'.
  destruct (read_kind windows excel (root_stream (a "Current User") items) k b) as [x| | |]; cbn [bind] in Eo'; try discriminate Eo'. injection Eo' as ->.
  assert (Ix : In x (results_of outs)) by (unfold results_of; apply in_flat_map; exists (OFound x); split; [exact Io|left; reflexivity]).
  destruct (reported_in _ _ _ _ x R Ix) as (z & A & Iz). exists x, z. auto.
Qed.
Lemma project_reported l names p : Guess windows excel rows (Some f) = Ok l -> In (VStorage names) (all_visits items) -> macro_storage names ->
  Analyze windows (path_text names) s = Ok p -> In (FVba (vba_base p) p) l.
Proof.
  intros E I M A. apply guess_answers in E. destruct E as (outs & g & F & _ & R). destruct (outs_in _ _ F I) as (o & Io & Y).
  pose proof (yields_fun _ _ _ _ _ _ _ Y (y_project _ _ _ _ names p M A)) as Eo'. injection Eo' as ->.
  assert (Ix : In (FVba (vba_base p) p) (results_of outs)) by (unfold results_of; apply in_flat_map; eexists; split; [exact Io|left; reflexivity]).
  destruct (reported_in _ _ _ _ _ R Ix) as (z & Al & Iz). inversion Al; subst. exact Iz.
Qed.
Lemma result_origin l z : Guess windows excel rows (Some f) = Ok l -> In z l ->
  l = [z] /\ (exists g, z = FOless (mkExt (B "oless") [] [] 0 (B "OLE Structured Storage")) (all_paths items) g) /\
     (forall v r, In v (all_visits items) -> ~ y v (Ok (OFound r))) \/
  exists v x, In v (all_visits items) /\ y v (Ok (OFound x)) /\ alike x z.
Proof.
  intros E I. apply guess_answers in E. destruct E as (outs & g & F & _ & R). inversion R as [Er|? ? Nl A]; subst.
  - left. destruct I as [<-|[]]. split; [reflexivity|]. split; [eexists; reflexivity|]. intros v r Iv Y. destruct (outs_in _ _ F Iv) as (o & Io & Y').
    pose proof (yields_fun _ _ _ _ _ _ _ Y Y') as Eo'. injection Eo' as <-.
    assert (Ix : In r (results_of outs)) by (unfold results_of; apply in_flat_map; eexists; split; [exact Io|left; reflexivity]). rewrite <- Er in Ix. destruct Ix.
  - right. destruct (assigned_from _ _ _ _ z A I) as (x & Ix & Al). unfold results_of in Ix. apply in_flat_map in Ix. destruct Ix as (o & Io & Ix).
    destruct o as [|r|]; try (destruct Ix; fail). destruct Ix as [->|[]]. destruct (outs_from _ _ F Io) as (v & Iv & Y). exists v, x. auto.
Qed.
End File.

(** ** The table any number of times *)
Section Twice.
Variables (pl : platform) (excel : bytes -> res workbook) (s : storage).
Lemma guess_rows_app l1 l2 name : forall ei, guess_rows pl excel s (l1 ++ l2) name ei = (r <- guess_rows pl excel s l1 name ei ;; guess_rows pl excel s l2 name r).
Proof.
  induction l1 as [|m l1 IH]; intros ei; cbn [app guess_rows bind]; [reflexivity|]. destruct (matches m name); [|apply IH].
  destruct (match oi_extraFunc m with Some d => _ | None => _ end) as [x| | |]; cbn [bind]; [apply IH|reflexivity..].
Qed.
Lemma guess_rows_again l name : forall ei r, guess_rows pl excel s l name ei = Ok r ->
  (existsb (fun m => matches m name) l = false /\ r = ei) \/ (forall ej, guess_rows pl excel s l name ej = Ok r).
Proof.
  induction l as [|m l IH]; intros ei r; cbn [guess_rows existsb]; [intros H; injection H as <-; left; split; reflexivity|].
  destruct (matches m name) eqn:M; cbn [orb]; intros H.
  - right. intros ej. destruct (match oi_extraFunc m with Some d => _ | None => _ end) as [x| | |]; cbn [bind] in *; exact H.
  - destruct (IH ei r H) as [[E ->]|A]; [left; split; [exact E|reflexivity]|right; exact A].
Qed.
Lemma guess_rows_none l name : forall ei, existsb (fun m => matches m name) l = false -> guess_rows pl excel s l name ei = Ok ei.
Proof. induction l as [|m l IH]; intros ei H; cbn [guess_rows existsb] in *; [reflexivity|]. apply orb_false_iff in H. destruct H as [-> H]. apply IH. exact H. Qed.
Lemma guess_rows_twice l name ei : guess_rows pl excel s (l ++ l) name ei = guess_rows pl excel s l name ei.
Proof.
  rewrite guess_rows_app. destruct (guess_rows pl excel s l name ei) as [r| | |] eqn:E; cbn [bind]; [|reflexivity..].
  destruct (guess_rows_again l name ei r E) as [[N ->]|A]; [apply guess_rows_none; exact N|apply A].
Qed.
(** Rows with the same effect lead to the same results. *)
Lemma recurse_ext r1 r2 : (forall name, guess_rows pl excel s r1 name None = guess_rows pl excel s r2 name None) ->
  forall fuel path t, recurse pl excel r1 s fuel path t = recurse pl excel r2 s fuel path t.
Proof.
  intros H. assert (G : forall name full t, guessStreamInfo pl excel r1 s name full t = guessStreamInfo pl excel r2 s name full t).
  { intros name full t. unfold guessStreamInfo. destruct (isDirectory pl s full) as [[]| | |]; cbn [bind]; [reflexivity| |reflexivity..]. rewrite H. reflexivity. }
  induction fuel as [|k IH]; intros path t; cbn [recurse]; [reflexivity|]. destruct (storage_entries pl s path) as [names| | |]; cbn [bind]; [|reflexivity..].
  generalize (push_path path t). induction names as [|name names IHn]; intros u; [reflexivity|]. rewrite G.
  destruct (guessStreamInfo pl excel r2 s name (path ++ name) u) as [u'| | |]; cbn [bind]; [|reflexivity..].
  destruct (isDirectory pl s (path ++ name)) as [[]| | |]; cbn [bind]; [|apply IHn|reflexivity..].
  rewrite IH. destruct (recurse pl excel r2 s k ((path ++ name) ++ [slash]) u') as [u2| | |]; cbn [bind]; [apply IHn|reflexivity..].
Qed.
End Twice.
Lemma guess_ext pl excel r1 r2 file : (forall s name, guess_rows pl excel s r1 name None = guess_rows pl excel s r2 name None) ->
  Guess pl excel r1 file = Guess pl excel r2 file.
Proof.
  intros H. unfold Guess. destruct (storage_load pl file) as [o| | |]; cbn [bind]; [|reflexivity..]. destruct o as [| | |s]; try reflexivity. rewrite (recurse_ext pl excel s r1 r2 (H s)). reflexivity.
Qed.
(** The table a number of times. *)
Fixpoint copies (n : nat) : list OlessInfo := match n with O => [] | S k => copies k ++ ole_list end.
Lemma rows_copies pl excel s n name : guess_rows pl excel s (copies (S n)) name None = guess_rows pl excel s ole_list name None.
Proof.
  induction n as [|n IH]; [reflexivity|]. change (copies (S (S n))) with (copies (S n) ++ ole_list). rewrite guess_rows_app, IH, <- guess_rows_app.
  apply guess_rows_twice.
Qed.
Lemma calls_alike pl excel files : forall n, calls pl excel (copies n) files = map (Guess pl excel ole_list) files.
Proof.
  induction files as [|f files IH]; intros n; cbn [calls map]; [reflexivity|]. unfold Detailer. change (copies n ++ ole_list) with (copies (S n)).
  rewrite IH. f_equal. apply guess_ext. intros s name. apply rows_copies.
Qed.
