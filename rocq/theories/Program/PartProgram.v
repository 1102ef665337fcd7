(** Proofs: what the whole program prints for a compound file. *)
From Coq Require Import List NArith ZArith Lia Bool Sorted Permutation Strings.String ZifyBool ZifyNat ZifyN.
From Verif Require Import Lib.Res Lib.Bytes Lib.BytesFacts Lib.Text Common.Model Common.Spec Common.Utf8 Common.EscapeProofs Magic.Table Magic.Model Magic.GuessProofs
     Ole.Model Ole.Spec Ole.Statements Vba.Analyze Propset.Model Propset.Spec Docs.Model Docs.Spec Zip.Model Detect.Model Media.WordPerfect Vba.FileSpec Vba.ProjectLemmas Detect.Output Detect.Spec Detect.Proofs Detect.OutputProofs Program.Model.
From Verif Require Excel.Engine Docs.PropertyLemmas Docs.Statements Detect.MoreProofs Detect.PropertyLemmas Detect.Proofs Magic.DocUnique Magic.PropertyLemmas.
From Verif Require Import Magic.Spec Magic.DocProofs Magic.DocBase Vba.Statements Propset.Statements Detect.Statements.
From Verif Require Import Program.Statements Program.ScanProofs Program.SafetyProofs Program.DocProofs Program.CompoundProofs Program.PartStatements Program.PartProofs Program.PartDocs.
Import Magic.Table.
Import ListNotations.
Local Open Scope N_scope.

(** ** The rows of the table *)
Lemma rows_split l : existsb is_oless l = true -> exists mi, is_oless mi = true /\ l = rows_before l ++ mi :: rows_behind l.
Proof.
  induction l as [|m l IH]; [discriminate|]. cbn [existsb rows_before rows_behind]. destruct (is_oless m) eqn:E; [intros _; exists m; auto|].
  cbn [orb]. intros H. destruct (IH H) as (mi & Em & El). exists mi. split; [exact Em|]. cbn [app]. rewrite <- El. reflexivity.
Qed.
Lemma before_not l mi : In mi (rows_before l) -> is_oless mi = false.
Proof. induction l as [|m l IH]; [intros []|]. cbn [rows_before]. destruct (is_oless m) eqn:E; [intros []|]. intros [<-|I]; [exact E|exact (IH I)]. Qed.
Lemma table_one : existsb is_oless table = true /\ forallb (fun m => negb (is_oless m)) (rows_behind table) = true.
Proof. split; vm_compute; reflexivity. Qed.
Lemma carried_in f l r : carried f l r -> forall mi, In mi r -> In mi l.
Proof. induction 1 as [|m l r C K IH|m l r C K IH]; intros mi I; [exact I| |right; exact (IH mi I)]. destruct I as [<-|I]; [left; reflexivity|right; exact (IH mi I)]. Qed.

Section File.
Variables (f : bytes) (says : parser -> res (list Program.Model.object)).
Notation reported_rows := (reports f row_says says).
Lemma plain_reports l rs : (forall mi p, In mi l -> mi_func mi = Some p -> ~ carries f mi) -> reported_rows l rs ->
  exists cs, carried f l cs /\ rs = map row_says cs /\ Forall (fun mi => mi_func mi = None) cs.
Proof.
  intros N R. induction R as [|mi l rs NC R IH|mi l rs C F R IH|mi p x l rs C F E R IH].
  - exists []. repeat split; constructor.
  - destruct IH as (cs & K & -> & A); [intros m p I; apply N; right; exact I|]. exists cs. repeat split; [|exact A]. apply ca_no; assumption.
  - destruct IH as (cs & K & -> & A); [intros m p I; apply N; right; exact I|]. exists (mi :: cs). repeat split; [|constructor; assumption]. apply ca_yes; assumption.
  - exfalso. exact (N mi p (or_introl eq_refl) F C).
Qed.
Lemma reports_app l1 : forall l2 rs, reported_rows (l1 ++ l2) rs -> exists r1 r2, reported_rows l1 r1 /\ reported_rows l2 r2 /\ rs = r1 ++ r2.
Proof.
  induction l1 as [|mi l1 IH]; intros l2 rs R; [exists [], rs; repeat split; [constructor|exact R]|]. cbn [app] in R.
  inversion R as [|m l x NC R'|m l x C F R'|m p x l y C F E R']; subst; destruct (IH _ _ R') as (r1 & r2 & A & C' & ->).
  - exists r1, r2. repeat split; [|exact C']. apply rp_absent; assumption.
  - exists (row_says mi :: r1), r2. repeat split; [|exact C']. apply rp_plain; assumption.
  - exists (x ++ r1), r2. split; [eapply rp_parsed; eassumption|]. split; [exact C'|]. apply app_assoc.
Qed.
End File.

Section Compound.
Variables (f : bytes) (msg : exn -> bytes) (archive : option bytes -> res (list zentry)).
Hypothesis small : lenN f < 2 ^ 32.
Hypothesis compound_file : starts f [xd0; xcf; x11; xe0].
Hypothesis no_movie : ~ occurs_at (B "ftyp") f 4.
Lemma only_compound mi p : In mi table -> mi_func mi = Some p -> carries f mi -> p = POless.
Proof.
  intros I F C. assert (K : called f p) by (apply called_row; exists mi; auto). destruct (called_compound f compound_file p K) as [E| ->]; [exact E|].
  exfalso. apply no_movie. apply called_mp4. exact K.
Qed.
Lemma split_results pl l : Guess pl (read_workbook pl msg) ole_list (Some f) = Ok l ->
  exists before after, carried f (rows_before table) before /\ carried f (rows_behind table) after /\
    Forall (fun mi => In mi table /\ mi_func mi = None) (before ++ after) /\
    (l <> [] -> results pl msg archive (Some f) = Ok (map row_says before ++ map OFile l ++ map row_says after)).
Proof.
  intros G. assert (M : movie_ok f) by (intros H; contradiction).
  destruct (compound_results pl msg archive f small compound_file l G M) as (rs & E & _ & _). pose proof E as E0. apply results_ok in E; [|exact small]. destruct E as (found & R & Ers).
  destruct table_one as (T1 & T2). destruct (rows_split table T1) as (mi & Em & Et). rewrite Et in R. apply reports_app in R. destruct R as (r1 & r2 & R1 & R2 & Ef).
  assert (Tb : forall m, In m (rows_before table) -> In m table) by (intros m I; rewrite Et; apply in_or_app; left; exact I).
  assert (Ta : forall m, In m (rows_behind table) -> In m table) by (intros m I; rewrite Et; apply in_or_app; right; right; exact I).
  destruct (plain_reports f (parser_says pl msg archive f) (rows_before table) r1) as (before & K1 & -> & A1).
  { intros m p I F C. pose proof (only_compound m p (Tb m I) F C). subst p. pose proof (before_not table m I) as N. unfold is_oless in N. rewrite F in N. discriminate N. }
  { exact R1. }
  assert (Fm : mi_func mi = Some POless) by (unfold is_oless in Em; destruct (mi_func mi) as [[]|]; congruence || reflexivity).
  assert (Cm : carries f mi).
  { assert (C : called f POless) by (apply called_ole; exact compound_file). apply called_row in C. destruct C as (m & I & F & C). rewrite Et in I. apply in_app_or in I. destruct I as [I|[<-|I]].
    - pose proof (before_not table m I) as N. unfold is_oless in N. rewrite F in N. discriminate N.
    - exact C.
    - rewrite forallb_forall in T2. specialize (T2 m I). unfold is_oless in T2. rewrite F in T2. discriminate T2. }
  inversion R2 as [|m x y NC R'|m x y C F R'|m p x s y C F E R']; subst; [contradiction|congruence|]. rewrite Fm in F. injection F as <-.
  unfold parser_says in E. rewrite G in E. cbn [bind] in E. injection E as <-.
  destruct (plain_reports f (parser_says pl msg archive f) (rows_behind table) y) as (after & K2 & -> & A2).
  { intros m p I F C'. pose proof (only_compound m p (Ta m I) F C'). subst p. rewrite forallb_forall in T2. specialize (T2 m I). unfold is_oless in T2. rewrite F in T2. discriminate T2. }
  { exact R'. }
  exists before, after. split; [exact K1|]. split; [exact K2|]. split.
  - apply Forall_app. split.
    + rewrite Forall_forall in *. intros m I. split; [apply Tb; exact (carried_in f _ _ K1 m I)|exact (A1 m I)].
    + rewrite Forall_forall in *. intros m I. split; [apply Ta; exact (carried_in f _ _ K2 m I)|exact (A2 m I)].
  - intros N. rewrite E0. f_equal. destruct l as [|x l]; [contradiction|]. unfold or_unknown. destruct (map row_says before ++ map OFile (x :: l) ++ map row_says after) as [|o os] eqn:Eo; [|reflexivity].
    apply app_eq_nil in Eo. destruct Eo as (_ & Eo). discriminate Eo.
Qed.
End Compound.
Lemma no_movie f c : stored_as f c -> ~ occurs_at (B "ftyp") f 4.
Proof.
  intros (_ & _ & (_ & pre & post & E & L) & _). apply lenN_0 in L. subst pre. cbn [app cfb_magic] in E.
  intros (pre & post' & E' & L). rewrite E in E'. destruct pre as [|p0 [|p1 [|p2 [|p3 [|p4 pre]]]]]; rewrite ?lenN_cons in L; cbn [lenN] in L; cbn [app] in E'; try discriminate E'; try lia.
  all: try (cbn in L; lia).
Qed.
Lemma mapM_app {X Y} (h : X -> res Y) a : forall b r s, mapM h a = Ok r -> mapM h b = Ok s -> mapM h (a ++ b) = Ok (r ++ s).
Proof.
  induction a as [|x a IH]; intros b r s E1 E2; [injection E1 as <-; exact E2|]. cbn [mapM app] in *. apply bind_ok in E1. destruct E1 as (y & Ey & E1).
  apply bind_ok in E1. destruct E1 as (r' & Er & E1). injection E1 as <-. rewrite Ey, (IH b r' s Er E2). reflexivity.
Qed.
Lemma reported_some paths g l m : reported paths g l m -> m <> [].
Proof. intros [|x y N A] E; [discriminate E|]. subst y. inversion A; subst. contradiction. Qed.

Lemma other_format format : format <> B "xml" -> format <> B "csv" -> format <> B "json" -> ParseOutputFormat format = TEXT.
Proof.
  intros Nx Nc Nj. unfold ParseOutputFormat. destruct (bytes_eqb format (B "xml")) eqn:Ex; [apply bytes_eqb_eq in Ex; contradiction|].
  destruct (bytes_eqb format (B "csv")) eqn:Ec; [apply bytes_eqb_eq in Ec; contradiction|]. destruct (bytes_eqb format (B "txt")); [reflexivity|].
  destruct (bytes_eqb format (B "json")) eqn:Ej; [apply bytes_eqb_eq in Ej; contradiction|reflexivity].
Qed.
Section Whole.
Variables (f : bytes) (c : compound) (s : storage) (items : list item) (msg : exn -> bytes) (parts : list part).
Variables (archive : option bytes -> res (list zentry)) (fs : bytes -> option bytes) (file : bytes).
Hypothesis stored : stored_as f c.
Hypothesis is_clean : clean c.
Hypothesis loaded : storage_load windows (Some f) = Ok (Opened s).
Hypothesis entries : holds f c 0 items.
Hypothesis all_parts : Forall2 (holds_part f c msg (root_stream (a "Current User") items)) (all_visits items) parts.
Hypothesis in_fs : fs file = Some f.
Hypothesis small : lenN f < 2 ^ 32.
Lemma whole_results : exists outs g l before after, Forall2 (outcome_of msg) parts outs /\ sorted_by_key (groups_of outs) g /\ reported (all_paths items) g (results_of outs) l /\
  carried f (rows_before table) before /\ carried f (rows_behind table) after /\ Forall (fun mi => In mi table /\ mi_func mi = None) (before ++ after) /\
  results windows msg archive (fs file) = Ok (map row_says before ++ map OFile l ++ map row_says after).
Proof.
  destruct (parts_guessed f c s items msg parts stored is_clean loaded entries all_parts) as (outs & g & l & F & S & R & G).
  destruct (stored_starts f c stored) as (St & _).
  destruct (split_results f msg archive small St (no_movie f c stored) windows l G) as (before & after & K1 & K2 & A & E). exists outs, g, l, before, after. rewrite in_fs.
  repeat (split; [assumption|]). apply E. exact (reported_some _ _ _ _ R).
Qed.
Lemma rows_json l : Forall (fun mi => In mi table /\ mi_func mi = None) l ->
  exists ts, mapM (show windows JSON) (map row_says l) = Ok ts /\ Forall2 json_value ts (map row_object l).
Proof.
  induction 1 as [|mi l (I & F) K (ts & E & V)]; [exists []; repeat split; constructor|]. cbn [map mapM]. unfold row_says at 1. cbn [show bind]. rewrite E. cbn [bind].
  eexists. split; [reflexivity|]. constructor; [|exact V]. apply item_json. exact (Magic.PropertyLemmas.row_plain mi I F).
Qed.
Lemma rows_xml l : Forall (fun mi => In mi table /\ mi_func mi = None) l ->
  exists ts, mapM (show windows XML) (map row_says l) = Ok ts /\ Forall2 written ts (map row_element l).
Proof.
  induction 1 as [|mi l (I & F) K (ts & E & V)]; [exists []; repeat split; constructor|]. cbn [map mapM]. unfold row_says at 1. cbn [show bind]. rewrite E. cbn [bind].
  eexists. split; [reflexivity|]. constructor; [|exact V]. unfold written. apply item_xml. exact (Magic.PropertyLemmas.row_plain mi I F).
Qed.
Lemma sets_ok outs g : Forall2 (outcome_of msg) parts outs -> sorted_by_key (groups_of outs) g -> Forall unicode (all_paths items) ->
  Forall (fun x => unicode (fst x) /\ Forall (fun p => value_ok (p_value p)) (snd x)) g.
Proof.
  intros F (P & _) U. unfold all_paths in U. inversion U as [|? ? _ U2]; subst. pose proof (sets_paths f c msg _ _ parts outs all_parts F U2) as W.
  eapply Permutation_Forall; [exact P|]. clear - F W. unfold groups_of in *. induction F as [|p o parts outs H F IH]; [constructor|]. cbn [flat_map] in *.
  destruct p as [|e|i| |q|path sets]; cbn [outcome_of] in H.
  - subst o. exact (IH W).
  - destruct H as (_ & ->). exact (IH W).
  - destruct H as (b & _ & _ & ->). exact (IH W).
  - subst o. exact (IH W).
  - destruct H as (_ & ->). exact (IH W).
  - destruct H as (ps & (_ & V) & ->). cbn [app map fst] in *. inversion W; subst. constructor; [split; assumption|]. apply IH. assumption.
Qed.
Theorem parts_json : Forall unicode (all_paths items) -> ~ In x00 file -> Forall json_part parts ->
  exists out before after ms objs, program windows msg archive fs [file; B "json"] = Ok out /\
    carried f (rows_before table) before /\ carried f (rows_behind table) after /\ part_members items parts ms /\ shown_objects ms parts objs /\
    (forall d, json_value out d <->
       d = JObj [(map b2n (B "name"), JStr (map b2n file)); (map b2n (B "extensions"), JArr (map row_object before ++ objs ++ map row_object after))]).
Proof.
  intros U Nf J. destruct whole_results as (outs & g & l & before & after & F & S & R & K1 & K2 & A & E). apply Forall_app in A. destruct A as (A1 & A2).
  assert (P : jpaths (all_paths items) g).
  { split; [exact U|]. unfold all_paths in U. inversion U as [|? ? _ U2]; subst. exact (sets_finite parts msg outs g J F (proj1 S) (sets_paths f c msg _ _ parts outs all_parts F U2)). }
  destruct (reported_json msg _ g parts outs l P F J R) as (ms & ts & vs & M & Et & V & O).
  destruct (rows_json before A1) as (t1 & E1 & V1). destruct (rows_json after A2) as (t2 & E2 & V2).
  pose proof (mapM_app _ _ _ _ _ E1 (mapM_app _ _ _ _ _ Et E2)) as T. eexists. exists before, after, ms, vs.
  split; [apply (program_shown windows msg archive fs file (B "json") _ _ E T)|]. split; [exact K1|]. split; [exact K2|]. split; [exact (members_of_parts parts outs g msg items ms J F S M)|].
  split; [exact O|]. change (ParseOutputFormat (B "json")) with JSON. destruct (as_exts JSON (t1 ++ ts ++ t2)) as (es & Es). rewrite Es, layout_output.
  assert (V3 : Forall2 json_value (t1 ++ ts ++ t2) (map row_object before ++ vs ++ map row_object after)) by (apply Forall2_app; [exact V1|apply Forall2_app; assumption]).
  assert (Jv : json_value (Output JSON file (B "extensions") es)
    (JObj [(map b2n (B "name"), JStr (map b2n file)); (map b2n (B "extensions"), JArr (map row_object before ++ vs ++ map row_object after))])).
  { apply output_json; [exact Nf| |cbn beta iota in Es; rewrite Es in V3; exact V3]. intros ->. cbn [map] in Es. rewrite Es in T. clear - T E.
    destruct (map row_says before ++ map OFile l ++ map row_says after) as [|o os]; [exact (results_nonempty _ _ _ _ E)|]. cbn [mapM] in T. apply bind_ok in T. destruct T as (x & _ & T).
    apply bind_ok in T. destruct T as (xs & _ & T). discriminate T. }
  intros d. split; [|intros ->; exact Jv]. intros D. eapply Magic.DocUnique.json_value_fun; eassumption.
Qed.
Theorem parts_xml : Forall unicode (all_paths items) -> Forall xml_part parts ->
  exists out shown before after ms objs, program windows msg archive fs [file; B "xml"] = Ok out /\
    carried f (rows_before table) before /\ carried f (rows_behind table) after /\ part_elements items parts ms /\ shown_elements ms parts objs /\
    (forall d, xml_document out d <->
       d = XElem (B "file") [XElem (B "name") shown; XElem (B "extensions") (map row_element before ++ objs ++ map row_element after)]) /\
    (shown = xtext file <-> ~ In x3c file /\ ~ In x3e file).
Proof.
  intros U J. destruct whole_results as (outs & g & l & before & after & F & S & R & K1 & K2 & A & E). apply Forall_app in A. destruct A as (A1 & A2).
  assert (P : xpaths (all_paths items) g) by (split; [exact U|exact (sets_ok outs g F S U)]).
  destruct (reported_xml msg _ g parts outs l P F J R) as (ms & ts & vs & M & Et & V & O).
  destruct (rows_xml before A1) as (t1 & E1 & V1). destruct (rows_xml after A2) as (t2 & E2 & V2).
  pose proof (mapM_app _ _ _ _ _ E1 (mapM_app _ _ _ _ _ Et E2)) as T. destruct (Magic.PropertyLemmas.shown_name_spec file) as (nodes & Hn & Hs). eexists. exists nodes, before, after, ms, vs.
  split; [apply (program_shown windows msg archive fs file (B "xml") _ _ E T)|]. split; [exact K1|]. split; [exact K2|]. split; [exact (elements_of_parts parts outs g msg items ms F S M)|].
  split; [exact O|]. split; [|exact Hs]. change (ParseOutputFormat (B "xml")) with XML. destruct (as_exts XML (t1 ++ ts ++ t2)) as (es & Es). rewrite Es, layout_output.
  assert (V3 : xml_content (List.concat (t1 ++ ts ++ t2)) (map row_element before ++ vs ++ map row_element after))
    by (apply written_all; apply Forall2_app; [exact V1|apply Forall2_app; assumption]).
  assert (Jv : xml_document (Output XML file (B "extensions") es)
    (XElem (B "file") [XElem (B "name") nodes; XElem (B "extensions") (map row_element before ++ vs ++ map row_element after)])).
  { rewrite <- Hn. apply output_xml. cbn beta iota in Es. rewrite Es in V3. exact V3. }
  intros d. split; [|intros ->; exact Jv]. intros D. eapply Magic.DocUnique.xml_document_fun; eassumption.
Qed.
Lemma rows_rows fmt sep l : row_format fmt sep -> mapM (show windows fmt) (map row_says l) = Ok (map (fun mi => five sep (row_info mi)) l).
Proof. intros R. induction l as [|mi l IH]; [reflexivity|]. cbn [map mapM]. rewrite (signature_columns fmt sep mi R), IH. reflexivity. Qed.
Lemma all_rows fmt sep : row_format fmt sep -> exists rs before after, results windows msg archive (fs file) = Ok rs /\ carried f (rows_before table) before /\ carried f (rows_behind table) after /\
  mapM (show windows fmt) rs = Ok (map (fun mi => five sep (row_info mi)) before ++ part_rows sep parts ++ map (fun mi => five sep (row_info mi)) after).
Proof.
  intros Rf. destruct whole_results as (outs & g & l & before & after & F & S & R & K1 & K2 & _ & E). eexists. exists before, after. split; [exact E|]. split; [exact K1|]. split; [exact K2|].
  apply mapM_app; [apply rows_rows; exact Rf|]. apply mapM_app; [exact (reported_rows fmt sep msg _ g parts outs l Rf F R)|apply rows_rows; exact Rf].
Qed.
Theorem parts_text : exists before after, carried f (rows_before table) before /\ carried f (rows_behind table) after /\
  forall args, args = [] \/ (exists format, args = [format] /\ format <> B "xml" /\ format <> B "csv" /\ format <> B "json") ->
  program windows msg archive fs (file :: args) = Ok (file ++ [x0a] ++ List.concat (map (fun row => [x09] ++ row ++ [x0a])
    (map (fun mi => five [x09] (row_info mi)) before ++ part_rows [x09] parts ++ map (fun mi => five [x09] (row_info mi)) after))).
Proof.
  destruct (all_rows TEXT [x09] (or_introl (conj eq_refl eq_refl))) as (rs & before & after & E & K1 & K2 & T). exists before, after. split; [exact K1|]. split; [exact K2|].
  intros args [-> |(format & -> & Nx & Nc & Nj)]; unfold program; rewrite E; cbn [bind]; rewrite ?(other_format format Nx Nc Nj), T; reflexivity.
Qed.
Theorem parts_csv : exists before after, carried f (rows_before table) before /\ carried f (rows_behind table) after /\
  program windows msg archive fs [file; B "csv"] = Ok (List.concat (map (fun row => row ++ [x0a])
    (map (fun mi => five [x2c] (row_info mi)) before ++ part_rows [x2c] parts ++ map (fun mi => five [x2c] (row_info mi)) after))).
Proof.
  destruct (all_rows CSV [x2c] (or_intror (conj eq_refl eq_refl))) as (rs & before & after & E & K1 & K2 & T). exists before, after. split; [exact K1|]. split; [exact K2|].
  unfold program. rewrite E. cbn [bind]. change (ParseOutputFormat (B "csv")) with CSV. rewrite T. reflexivity.
Qed.
End Whole.

(** ** Failures *)
Lemma names_plain f c items : holds f c 0 items -> Forall (fun v => Forall plain_name (visit_names v)) (all_visits items).
Proof.
  intros H. destruct (proj1 (Detect.Proofs.visits_distinct f c) 0 items H [] (Forall_nil _)) as [_ K]. eapply Forall_impl; [|exact K]. cbn beta. intros v (x & rest & _ & P). exact P.
Qed.
Lemma spoils_yields f c s msg current v r : stored_as f c -> clean c -> storage_load windows (Some f) = Ok (Opened s) -> Forall plain_name (visit_names v) -> spoils f c msg v r ->
  exists r', yields windows (read_workbook windows msg) current s v r' /\ fails r' /\ (_ <- r' ;; Ok []) = r.
Proof.
  intros St Cl Eo P H. assert (Sw : supported windows) by (right; reflexivity).
  assert (K : forall names b k r0, ~ In (last names []) property_names -> In k kinds -> tells (path_text names) k -> read_kind windows (read_workbook windows msg) current k b = r0 ->
    yields windows (read_workbook windows msg) current s (VStream names b) (x <- r0 ;; Ok (OFound x))).
  { intros names b k r0 Np Ik T <-. exact (y_kind windows _ current s names b k Np Ik (Detect.PropertyLemmas.tells_low_of _ _ T)). }
  destruct H as [names b k Np Ik T R L|names b k Np Ik T R L|names b k r Np Ik T R D N|names M L].
  - exists UB. split; [|split; [intros x E; discriminate E|reflexivity]]. apply (K names b k UB Np Ik T). unfold read_kind. rewrite R.
    rewrite (proj2 (Docs.PropertyLemmas.C72_visio_short (kind_ext k) b) L). reflexivity.
  - exists UB. split; [|split; [intros x E; discriminate E|reflexivity]]. apply (K names b k UB Np Ik T). unfold read_kind. rewrite R.
    rewrite (proj2 (Docs.PropertyLemmas.C72_publisher_short windows (kind_ext k) b Sw) L). reflexivity.
  - exists (_ <- r ;; Ok ONothing). split; [|split].
    + pose proof (K names b k _ Np Ik T eq_refl) as Y. unfold read_kind in Y. rewrite R in Y. unfold read_workbook in Y. rewrite D in Y. destruct r as [i| | |]; [destruct (N i eq_refl)|exact Y..].
    + intros x E. destruct r as [i| | |]; [destruct (N i eq_refl)|discriminate E..].
    + destruct r; reflexivity.
  - exists UB. split; [|split; [intros x E; discriminate E|reflexivity]]. apply (y_project_stop _ _ _ _ names UB M); [|left; reflexivity].
    exact (C65_no_version f c s names St Cl Eo P L).
Qed.
Section Failures.
Variables (f : bytes) (c : compound) (s : storage) (items : list item) (msg : exn -> bytes) (parts : list part).
Variables (archive : option bytes -> res (list zentry)) (fs : bytes -> option bytes) (file : bytes).
Hypothesis stored : stored_as f c.
Hypothesis is_clean : clean c.
Hypothesis loaded : storage_load windows (Some f) = Ok (Opened s).
Hypothesis entries : holds f c 0 items.
Hypothesis in_fs : fs file = Some f.
Hypothesis small : lenN f < 2 ^ 32.
Theorem parts_spoiled before v after r format : all_visits items = before ++ v :: after ->
  Forall2 (holds_part f c msg (root_stream (a "Current User") items)) before parts -> spoils f c msg v r ->
  program windows msg archive fs [file; format] = r.
Proof.
  intros V F H. pose proof (names_plain f c items entries) as P. rewrite V in P. apply Forall_app in P. destruct P as (P1 & P2). inversion P2 as [|? ? Pv _]; subst.
  destruct (parts_yield f c s items msg stored is_clean loaded before parts F P1) as (outs & Y & _).
  destruct (spoils_yields f c s msg (root_stream (a "Current User") items) v r stored is_clean loaded Pv H) as (r' & Yv & N & E).
  pose proof (Detect.PropertyLemmas.C75_failure f c s items (read_workbook windows msg) before v after outs r' stored is_clean loaded entries V Y Yv N) as G.
  destruct (stored_starts f c stored) as (St & M).
  rewrite (compound_stops windows msg archive f small St fs file in_fs format _ G); [|destruct r' as [o| | |]; [destruct (N o eq_refl)|intros x Ex; discriminate Ex..]|exact M].
  rewrite <- E. destruct r'; reflexivity.
Qed.
(** ** WordPerfect *)
Hypothesis all_parts : Forall2 (holds_part f c msg (root_stream (a "Current User") items)) (all_visits items) parts.
Definition ok_or_ub {X} (r : res X) : Prop := (exists x, r = Ok x) \/ r = UB.
Lemma mapM_or {X Y} (h : X -> res Y) l : Forall (fun x => ok_or_ub (h x)) l -> ok_or_ub (mapM h l).
Proof.
  induction 1 as [|x l [(y & E)|E] F IH]; [left; exists []; reflexivity|..]; cbn [mapM]; rewrite E; cbn [bind]; [|right; reflexivity].
  destruct IH as [(ys & ->)| ->]; [left; eexists; reflexivity|right; reflexivity].
Qed.
Lemma mapM_ub {X Y} (h : X -> res Y) l1 x l2 : Forall (fun y => ok_or_ub (h y)) l1 -> h x = UB -> mapM h (l1 ++ x :: l2) = UB.
Proof.
  intros F E. induction F as [|y l1 [(z & K)|K] F IH]; cbn [app mapM]; [rewrite E; reflexivity|..]; rewrite K; cbn [bind]; [rewrite IH|]; reflexivity.
Qed.
Lemma base_ok e paths g : Forall unicode paths -> Forall (fun x : list N * list property => unicode (fst x)) g ->
  (exists t, oless_base_json windows e paths g = Ok t) /\ (exists t, oless_base_xml windows e paths g = Ok t).
Proof.
  intros U G. destruct (paths_convert paths U) as (us & Eu & _).
  assert (K : (exists js, mapM (group_json windows) g = Ok js) /\ (exists xs, mapM (group_xml windows) g = Ok xs)).
  { clear - G. induction G as [|x g H G ((js & Ej) & (xs & Ex))]; [split; exists []; reflexivity|]. destruct (unicode_convert (fst x) H) as (u & Eu & _).
    cbn [mapM]. unfold group_json at 1, group_xml at 1. rewrite Eu, Ej, Ex. cbn [bind]. split; eexists; reflexivity. }
  destruct K as ((js & Ej) & (xs & Ex)). unfold oless_base_json, oless_base_xml. rewrite Eu, Ej, Ex. cbn [bind]. split; eexists; reflexivity.
Qed.
Definition document_format (fmt : OutputFormat) (contents : Engine.excel_info -> res bytes) : Prop :=
  (fmt = JSON /\ contents = Engine.contents_json windows) \/ (fmt = XML /\ contents = Engine.contents_xml windows).
Lemma found_shown fmt contents p x paths g : document_format fmt contents -> outcome_of msg p (OFound x) -> (forall i, p = PWorkbook i -> exists t, contents i = Ok t) ->
  Forall unicode paths -> Forall (fun y : list N * list property => unicode (fst y)) g ->
  match x with
  | FOless e _ _ => ok_or_ub (show windows fmt (OFile (FOless e paths g)))
  | FExcel w _ _ => ok_or_ub (show windows fmt (OFile (FExcel w paths g)))
  | _ => ok_or_ub (show windows fmt (OFile x))
  end.
Proof.
  intros Df O W U G. destruct p as [|e|i| |q|path sets]; cbn [outcome_of] in O.
  - discriminate O.
  - destruct O as (_ & O). injection O as ->. destruct (base_ok e paths g U G) as ((t & Et) & (t' & Et')). left.
    destruct Df as [(-> & _)|(-> & _)]; cbn [show render]; unfold oless_render; rewrite ?Et, ?Et'; eexists; reflexivity.
  - destruct O as (b & _ & _ & O). injection O as ->. destruct (W i eq_refl) as (w & Ew). destruct (base_ok (Engine.x_ext i) paths g U G) as ((t & Et) & (t' & Et')). left.
    destruct Df as [(-> & ->)|(-> & ->)]; cbn [show render]; unfold excel_render, workbook_of; cbn [wb_ext wb_json wb_xml]; rewrite ?Et, ?Et', Ew; eexists; reflexivity.
  - injection O as ->. right. destruct Df as [(-> & _)|(-> & _)]; reflexivity.
  - destruct O as (_ & O). injection O as ->. left. eexists. reflexivity.
  - destruct O as (ps & _ & O). discriminate O.
Qed.
Lemma assigned_split paths g fmt contents : document_format fmt contents -> Forall unicode paths -> Forall (fun y : list N * list property => unicode (fst y)) g ->
  forall ps1 outs1, Forall2 (outcome_of msg) ps1 outs1 -> (forall i, In (PWorkbook i) ps1 -> exists t, contents i = Ok t) ->
  forall rest l, assigned paths g (results_of outs1 ++ FWordPerfect (mkWp wp_ext None) :: rest) l ->
  exists l1 l2, l = l1 ++ FWordPerfect (mkWp wp_ext None) :: l2 /\ Forall (fun x => ok_or_ub (show windows fmt (OFile x))) l1.
Proof.
  intros Df U G ps1 outs1 F W rest.
  assert (A : forall parts outs, Forall2 (outcome_of msg) parts outs -> (forall i, In (PWorkbook i) parts -> exists t, contents i = Ok t) ->
    Forall (fun x => exists p, outcome_of msg p (OFound x) /\ forall i, p = PWorkbook i -> exists t, contents i = Ok t) (results_of outs)).
  { clear - Df. unfold results_of. induction 1 as [|p o parts outs H F IH]; intros W; [constructor|]. cbn [flat_map]. apply Forall_app. split.
    - destruct o as [|x|]; constructor; [|constructor]. exists p. split; [exact H|]. intros i ->. apply W. left. reflexivity.
    - apply IH. intros i I. apply W. right. exact I. }
  specialize (A ps1 outs1 F W). clear W F. induction A as [|x l0 (p & O & W) A IH]; intros l H; cbn [app] in H.
  - inversion H; subst. exists [], m. split; [reflexivity|constructor].
  - assert (K : forall l0', Forall (fun x => exists p, outcome_of msg p (OFound x) /\ forall i, p = PWorkbook i -> exists t, contents i = Ok t) l0' ->
      Forall (fun x => ok_or_ub (show windows fmt (OFile x))) l0').
    { intros l0' B0. eapply Forall_impl; [|exact B0]. cbn beta. intros y (p' & O' & W'). pose proof (found_shown fmt contents p' y [] [] Df O' W' (Forall_nil _) (Forall_nil _)) as S.
      destruct p' as [|e'|i'| |q'|path' sets']; cbn [outcome_of] in O'.
      - discriminate O'.
      - destruct O' as (_ & O'). injection O' as ->. exact S.
      - destruct O' as (b' & _ & _ & O'). injection O' as ->. exact S.
      - injection O' as ->. exact S.
      - destruct O' as (_ & O'). injection O' as ->. exact S.
      - destruct O' as (ps' & _ & O'). discriminate O'. }
    pose proof (found_shown fmt contents p x paths g Df O W U G) as S. pose proof (found_shown fmt contents p x [] [] Df O W (Forall_nil _) (Forall_nil _)) as S0.
    inversion H as [|e l' E1|w l' E1|i l' m H' E1|e q l' m H' E1]; subst.
    + exists (FOless e paths g :: l0), rest. split; [reflexivity|]. constructor; [exact S|apply K; exact A].
    + exists (FExcel w paths g :: l0), rest. split; [reflexivity|]. constructor; [exact S|apply K; exact A].
    + destruct (IH m H') as (l1 & l2 & -> & B0). exists (FWordPerfect i :: l1), l2. split; [reflexivity|]. constructor; [exact S0|exact B0].
    + destruct (IH m H') as (l1 & l2 & -> & B0). exists (FVba e q :: l1), l2. split; [reflexivity|]. constructor; [exact S0|exact B0].
Qed.
Theorem parts_perfect fmt contents format ps1 ps2 : ParseOutputFormat format = fmt -> document_format fmt contents -> parts = ps1 ++ PPerfect :: ps2 ->
  (forall i, In (PWorkbook i) ps1 -> exists t, contents i = Ok t) -> Forall unicode (all_paths items) ->
  program windows msg archive fs [file; format] = UB.
Proof.
  intros Ef Df Ep W U.
  destruct (whole_results f c s items msg parts archive fs file stored is_clean loaded entries all_parts in_fs small) as (outs & g & l & before & after & F & S & R & _ & _ & _ & E).
  assert (G : Forall (fun y : list N * list property => unicode (fst y)) g).
  { eapply Forall_impl; [|exact (sets_ok f c items msg parts all_parts outs g F S U)]. cbn beta. intros y H. apply H. }
  rewrite Ep in F. apply Forall2_app_inv_l in F. destruct F as (o1 & o2 & F1 & F2 & ->). inversion F2 as [|? o ? o2' H2 _]; subst. cbn [outcome_of] in H2. subst o.
  unfold results_of in R. rewrite flat_map_app in R. cbn [flat_map app] in R. fold (results_of o1) in R. fold (results_of o2') in R.
  inversion R as [X|? ? _ A]; subst; [destruct (results_of o1); discriminate X|].
  destruct (assigned_split _ g (ParseOutputFormat format) contents Df U G ps1 o1 F1 W _ l A) as (l1 & l2 & -> & K).
  unfold program. rewrite E. cbn [bind]. rewrite map_app. cbn [map]. rewrite <- !app_assoc. cbn [app]. rewrite (app_assoc (map row_says before)). rewrite mapM_ub; [reflexivity| |].
  - apply Forall_app. split; [apply Forall_forall; intros o I; apply in_map_iff in I; destruct I as (mi & <- & _); left; eexists; reflexivity|].
    apply Forall_forall. intros o I. apply in_map_iff in I. destruct I as (x & <- & I). rewrite Forall_forall in K. exact (K x I).
  - destruct Df as [(-> & _)|(-> & _)]; reflexivity.
Qed.
End Failures.
