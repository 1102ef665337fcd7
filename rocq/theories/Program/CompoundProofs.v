(** Proofs: compound files. *)
From Coq Require Import List NArith ZArith Lia Bool Strings.String ZifyBool ZifyNat ZifyN.
From Verif Require Import Lib.Res Lib.Bytes Lib.BytesFacts Lib.Text Common.Model Common.Spec Common.EscapeProofs Magic.Table Magic.Model Magic.GuessProofs
     Common.ReadProofs Ole.Model Ole.Spec Vba.Analyze Vba.Output Propset.Model Propset.Statements Docs.Model Media.Model Media.WordPerfect Zip.Model
     Detect.Model Detect.Output Detect.Spec Detect.Statements Detect.OutputProofs Program.Model.
From Verif Require Excel.Engine Excel.DocStatements Excel.FineProofs Excel.DocProofs Excel.DocXml.
From Verif Require Import Magic.Spec Magic.DocProofs Magic.DocBase Vba.Statements.
From Verif Require Import Program.Statements Program.ScanProofs Program.SafetyProofs Program.DocProofs Program.ArchiveProofs.
Import ListNotations.
Local Open Scope N_scope.

(** ** Where the results come from *)
Definition origin (pl : platform) (msg : exn -> bytes) (x : found) : Prop :=
  match x with
  | FOless e _ _ => info_plain e = true
  | FExcel w _ _ => exists (S : bytes) i, Engine.Detailer pl msg S = Ok i /\ w = workbook_of pl i
  | FWordPerfect i => True
  | FVba e _ => info_plain e = true
  end.
Section Origin.
Variables (pl : platform) (msg : exn -> bytes) (s : storage).
Notation excel := (read_workbook pl msg).
Lemma rows_plain m : In m ole_list -> info_plain (row_ext m) = true.
Proof. intros I. assert (H : forallb (fun m => info_plain (row_ext m)) ole_list = true) by (vm_compute; reflexivity). rewrite forallb_forall in H. exact (H m I). Qed.
Lemma details_origin d e fullname x : info_plain e = true -> details pl excel s d e fullname = Ok x -> origin pl msg x.
Proof.
  intros H E. unfold details in E. apply bind_ok in E. destruct E as (b & _ & E). destruct d.
  - apply bind_ok in E. destruct E as (e' & E' & E). injection E as <-. unfold word_Detailer in E'. apply bind_ok in E'. destruct E' as (v & _ & E'). injection E' as <-.
    apply set_version_plain; [exact H|]. unfold GetVersion_Word. apply named_plain. vm_compute. reflexivity.
  - apply bind_ok in E. destruct E as (w & Ew & E). injection E as <-. unfold read_workbook in Ew. apply bind_ok in Ew. destruct Ew as (i & Ei & Ew). injection Ew as <-.
    exists b, i. auto.
  - apply bind_ok in E. destruct E as (c & _ & E). apply bind_ok in E. destruct E as (e' & E' & E). injection E as <-. unfold powerpoint_Detailer in E'. apply bind_ok in E'.
    destruct E' as (v & _ & E'). injection E' as <-. apply set_version_plain; [exact H|]. unfold GetVersion_Powerpoint. destruct (v =? 0); [reflexivity|]. apply within_plain. vm_compute. reflexivity.
  - apply bind_ok in E. destruct E as (e' & E' & E). injection E as <-. unfold publisher_Detailer in E'. apply bind_ok in E'. destruct E' as (v & _ & E'). injection E' as <-.
    apply set_version_plain; [exact H|]. unfold GetVersion_Publisher. apply named_plain. vm_compute. reflexivity.
  - apply bind_ok in E. destruct E as (e' & E' & E). injection E as <-. unfold visio_Detailer in E'. apply bind_ok in E'. destruct E' as (v & _ & E'). injection E' as <-.
    apply set_version_plain; [exact H|]. unfold GetVersion_Visio. apply named_plain. vm_compute. reflexivity.
  - injection E as <-. exact I.
  - injection E as <-. apply msi_plain. exact H.
Qed.
Definition origin_opt (x : option found) : Prop := match x with Some x => origin pl msg x | None => True end.
Lemma guess_origin rest fullname : forall ei x, (forall m, In m rest -> info_plain (row_ext m) = true) -> origin_opt ei ->
  guess_rows pl excel s rest fullname ei = Ok x -> origin_opt x.
Proof.
  induction rest as [|m rest IH]; intros ei x Hr He E; cbn [guess_rows] in E; [injection E as <-; exact He|].
  assert (Hr' : forall m0, In m0 rest -> info_plain (row_ext m0) = true) by (intros m0 I0; apply Hr; right; exact I0).
  destruct (matches m fullname); [|exact (IH ei x Hr' He E)]. apply bind_ok in E. destruct E as (f & Ef & E). refine (IH (Some f) x Hr' _ E). cbn [origin_opt].
  assert (Hm : info_plain (row_ext m) = true) by (apply Hr; left; reflexivity).
  destruct (oi_extraFunc m) as [d|]; [exact (details_origin d _ _ _ Hm Ef)|injection Ef as <-; exact Hm].
Qed.
Lemma stream_origin name fullname t t' : Forall (origin pl msg) (st_results t) -> guessStreamInfo pl excel ole_list s name fullname t = Ok t' -> Forall (origin pl msg) (st_results t').
Proof.
  intros F E. unfold guessStreamInfo in E. apply bind_ok in E. destruct E as (dir & _ & E). destruct dir.
  - destruct (vba_storage name fullname); [|injection E as <-; exact F]. destruct (Analyze pl fullname s) as [p|x| |]; try discriminate E; injection E as <-;
      (cbn [push_result st_results]; apply Forall_app; split; [exact F|]; constructor; [|constructor]); reflexivity.
  - destruct (property_stream name).
    + destruct (parse_stream pl s fullname) as [ps|x| |]; try discriminate E; [injection E as <-; exact F|]. destruct x; try discriminate E. injection E as <-. exact F.
    + apply bind_ok in E. destruct E as (ei & Ei & E). injection E as <-. apply (guess_origin ole_list fullname None ei rows_plain I) in Ei.
      destruct ei as [x|]; [|exact F]. cbn [push_result st_results]. apply Forall_app. split; [exact F|]. constructor; [exact Ei|constructor].
Qed.
Lemma recurse_origin fuel : forall path t t', Forall (origin pl msg) (st_results t) -> recurse pl excel ole_list s fuel path t = Ok t' -> Forall (origin pl msg) (st_results t').
Proof.
  induction fuel as [|fuel IH]; intros path t t' F E; cbn [recurse] in E; [discriminate E|]. apply bind_ok in E. destruct E as (names & _ & E).
  assert (F1 : Forall (origin pl msg) (st_results (push_path path t))) by exact F. clear F. revert F1 E. generalize (push_path path t). clear t.
  induction names as [|name names IHn]; intros t F E; [injection E as <-; exact F|].
  apply bind_ok in E. destruct E as (t1 & E1 & E). apply bind_ok in E. destruct E as (dir & _ & E). apply bind_ok in E. destruct E as (t2 & E2 & E).
  apply (IHn t2); [|exact E]. pose proof (stream_origin _ _ _ _ F E1) as F1. destruct dir; [exact (IH _ _ _ F1 E2)|injection E2 as <-; exact F1].
Qed.
Lemma attach_origin paths props l : Forall (origin pl msg) l -> Forall (origin pl msg) (attach paths props l).
Proof.
  induction 1 as [|x l H F IH]; [constructor|]. destruct x; cbn [attach]; (constructor; [exact H|]); assumption.
Qed.
End Origin.
Lemma Guess_origin pl msg file l : Guess pl (read_workbook pl msg) ole_list file = Ok l -> Forall (origin pl msg) l.
Proof.
  intros E. unfold Guess in E. apply bind_ok in E. destruct E as (o & _ & E). apply bind_ok in E. destruct E as (t & Et & E).
  assert (F : Forall (origin pl msg) (st_results t)).
  { destruct o; try (injection Et as <-; constructor). eapply recurse_origin; [|exact Et]. constructor. }
  destruct (st_results t) as [|x r] eqn:Er; [injection E as <-; constructor; [reflexivity|constructor]|].
  assert (El : l = attach (st_paths t) (st_props t) (x :: r)) by congruence. rewrite El. apply attach_origin. exact F.
Qed.

(** ** Results that can be written *)
Lemma found_json pl msg x : origin pl msg x -> json_found pl msg x -> exists v, json_of pl msg (OFile x) v.
Proof.
  destruct x as [e paths props|w paths props|i|e p]; cbn [origin json_found].
  - intros He P. destruct (oless_members pl e paths props He (proj1 P) (proj2 P)) as (t & us & gs & _ & A & C & _). eexists. eapply jo_oless; [exact He|exact P|].
    exists us, gs. split; [exact A|]. split; [exact C|reflexivity].
  - intros _ (P & S & i & t & L & D & -> & C & R). assert (He : info_plain (Engine.x_ext i) = true) by (apply (Excel.FineProofs.all_fine pl msg S i L D)).
    destruct (oless_members pl (Engine.x_ext i) paths props He (proj1 P) (proj2 P)) as (u & us & gs & _ & A & G & _).
    destruct (Excel.DocProofs.contents_json_ok pl msg S i t L D R C) as (ws & W & _).
    eexists. eapply jo_excel; [exact L|exact D|exact C|exact R|exact P| |exact W]. exists us, gs. split; [exact A|]. split; [exact G|reflexivity].
  - intros _ [].
  - intros He R. eexists. apply jo_vba; assumption.
Qed.
Lemma found_xml pl msg x : origin pl msg x -> xml_found pl msg x -> exists v, xml_of pl msg (OFile x) v.
Proof.
  destruct x as [e paths props|w paths props|i|e p]; cbn [origin xml_found].
  - intros He P. destruct (oless_elements pl e paths props [] [] He (proj1 P) (proj2 P) xc_nil) as (t & us & gs & _ & A & C & _). eexists. eapply xo_oless; [exact He|exact P|].
    exists us, gs. split; [exact A|]. split; [exact C|reflexivity].
  - intros _ (P & S & i & t & L & D & -> & C & R). assert (He : info_plain (Engine.x_ext i) = true) by (apply (Excel.FineProofs.all_fine pl msg S i L D)).
    destruct (oless_elements pl (Engine.x_ext i) paths props [] [] He (proj1 P) (proj2 P) xc_nil) as (u & us & gs & _ & A & G & _).
    destruct (Excel.DocXml.contents_xml_ok pl msg S i t L D R C) as (ws & W & _).
    eexists. eapply xo_excel; [exact L|exact D|exact C|exact R|exact P| |exact W]. exists us, gs. split; [exact A|]. split; [exact G|reflexivity].
  - intros _ [].
  - intros He (R & M). eexists. apply xo_vba; assumption.
Qed.

(** ** The program *)
Section File.
Variables (pl : platform) (msg : exn -> bytes) (archive : option bytes -> res (list zentry)) (content : bytes).
Hypothesis small : lenN content < 2 ^ 32.
Hypothesis compound_file : starts content [xd0; xcf; x11; xe0].
Notation says := (parser_says pl msg archive content).
Notation guessed := (Guess pl (read_workbook pl msg) ole_list (Some content)).

Lemma called_compound p : called content p -> p = POless \/ p = PMp4.
Proof.
  intros (m & o & I & H). unfold parser_rows in I. cbn [In] in I.
  repeat (destruct I as [I|I]; [injection I as <- <- <-; first [left; reflexivity|right; reflexivity|exfalso; pose proof (one_start _ _ _ _ _ H compound_file) as K; discriminate K]|]).
  destruct I.
Qed.
Lemma in_found p a found o : reports content row_says says table found -> called content p -> says p = Ok a -> In o a -> In o found.
Proof.
  intros R C E Io. apply called_row in C. destruct C as (mi & I & F & C). clear - R I F C E Io.
  induction R as [|mi0 l rs NC R IH|mi0 l rs C0 F0 R IH|mi0 p0 x l rs C0 F0 E0 R IH]; [destruct I|..]; (destruct I as [<-|I]).
  - contradiction.
  - apply IH; exact I.
  - congruence.
  - right. apply IH. exact I.
  - rewrite F in F0. injection F0 as <-. rewrite E in E0. injection E0 as <-. apply in_or_app. left. exact Io.
  - apply in_or_app. right. apply IH. exact I.
Qed.
Definition compound_simple (l : list found) (o : object) : Prop :=
  (exists e, info_plain e = true /\ o = OResult (plain_result e)) \/ (exists s, o = OResult (unknown_result s)) \/ (exists x, In x l /\ o = OFile x).
Lemma compound_results l : guessed = Ok l -> movie_ok content ->
  exists rs, results pl msg archive (Some content) = Ok rs /\ Forall (compound_simple l) rs /\ (forall x, In x l -> In (OFile x) rs).
Proof.
  intros G M. destruct (results_all pl msg archive content small (compound_simple l)) as (rs & E & F).
  - intros e He. left. exists e. auto.
  - intros s. right. left. exists s. reflexivity.
  - intros p C. destruct (called_compound p C) as [->| ->].
    + exists (map OFile l). split; [unfold parser_says; rewrite G; reflexivity|]. apply Forall_forall. intros o I. apply in_map_iff in I. destruct I as (x & <- & I).
      right. right. exists x. auto.
    + apply called_mp4 in C. specialize (M C). pose proof (says_mp4 pl msg archive content small) as S. destruct (N.ltb_spec (lenN content) 15); [lia|].
      destruct (N.eqb_spec (lenN content) 15); [lia|]. destruct S as (e & He & ->). eexists. split; [reflexivity|]. constructor; [|constructor]. left. exists e. auto.
  - exists rs. split; [exact E|]. split; [exact F|]. intros x I. apply results_ok in E; [|exact small]. destruct E as (found & R & ->).
    assert (K : In (OFile x) found).
    { apply (in_found POless (map OFile l) found (OFile x) R); [apply called_ole; exact compound_file|unfold parser_says; rewrite G; reflexivity|apply in_map; exact I]. }
    destruct found; [destruct K|exact K].
Qed.
Variables (fs : bytes -> option bytes) (file : bytes).
Hypothesis stored : fs file = Some content.
Theorem compound_json l : guessed = Ok l -> movie_ok content -> ~ In x00 file -> Forall (json_found pl msg) l ->
  exists rs out vs, results pl msg archive (fs file) = Ok rs /\ program pl msg archive fs [file; B "json"] = Ok out /\ Forall2 (json_of pl msg) rs vs /\
    (forall x, In x l -> In (OFile x) rs) /\
    (forall d, json_value out d <-> d = JObj [(map b2n (B "name"), JStr (map b2n file)); (map b2n (B "extensions"), JArr vs)]).
Proof.
  intros G M Nf L. destruct (compound_results l G M) as (rs & E & F & In_rs). rewrite <- stored in E. destruct (program_json pl msg archive fs file rs E Nf) as (out & vs & P & A & D).
  - eapply Forall_impl; [|exact F]. intros o [(e & He & ->)|[(s & ->)|(x & Ix & ->)]].
    + eexists. apply jo_plain. exact He.
    + destruct (before_nul_exists s) as (t & Ht & _). eexists. apply jo_unknown; [exact Ht|apply bin2hex11_dump].
    + apply found_json; [|rewrite Forall_forall in L; exact (L x Ix)]. pose proof (Guess_origin _ _ _ _ G) as O. rewrite Forall_forall in O. exact (O x Ix).
  - exists rs, out, vs. auto.
Qed.
Theorem compound_xml l : guessed = Ok l -> movie_ok content -> Forall (xml_found pl msg) l ->
  exists rs out shown ns, results pl msg archive (fs file) = Ok rs /\ program pl msg archive fs [file; B "xml"] = Ok out /\ Forall2 (xml_of pl msg) rs ns /\
    (forall x, In x l -> In (OFile x) rs) /\
    (forall d, xml_document out d <-> d = XElem (B "file") [XElem (B "name") shown; XElem (B "extensions") ns]) /\
    (shown = xtext file <-> ~ In x3c file /\ ~ In x3e file).
Proof.
  intros G M L. destruct (compound_results l G M) as (rs & E & F & In_rs). rewrite <- stored in E. destruct (program_xml pl msg archive fs file rs E) as (out & shown & ns & P & A & D).
  - eapply Forall_impl; [|exact F]. intros o [(e & He & ->)|[(s & ->)|(x & Ix & ->)]].
    + eexists. apply xo_plain. exact He.
    + eexists. apply xo_unknown; [apply XmlEscape_text|apply bin2hex11_dump].
    + apply found_xml; [|rewrite Forall_forall in L; exact (L x Ix)]. pose proof (Guess_origin _ _ _ _ G) as O. rewrite Forall_forall in O. exact (O x Ix).
  - exists rs, out, shown, ns. auto.
Qed.
(** The outcome is that of the parser of compound files. *)
Theorem compound_answers f : (exists out, program pl msg archive fs [file; f] = Ok out) <->
  (exists l, guessed = Ok l /\ forall x, In x l -> exists t, render pl (ParseOutputFormat f) x = Ok t) /\ movie_ok content.
Proof.
  rewrite (program_eq pl msg archive content fs file f stored). split.
  - intros (out & E). apply bind_ok in E. destruct E as (rs & Er & E). apply bind_ok in E. destruct E as (ts & Et & _).
    apply results_ok in Er; [|exact small]. destruct Er as (found & R & ->).
    assert (K : forall p, called content p -> exists a, says p = Ok a).
    { intros p C. apply called_row in C. destruct C as (mi & I & F & C). clear - R I F C.
      induction R as [|mi0 l rs NC R IH|mi0 l rs C0 F0 R IH|mi0 p0 a l rs C0 F0 E R IH]; [destruct I|..]; (destruct I as [<-|I]; [|apply IH; exact I]).
      - contradiction.
      - congruence.
      - rewrite F in F0. injection F0 as <-. exists a. exact E. }
    assert (C : called content POless) by (apply called_ole; exact compound_file). destruct (K POless C) as (a & Ea). pose proof Ea as Ea'.
    unfold parser_says in Ea. apply bind_ok in Ea. destruct Ea as (l & G & Ea). injection Ea as <-. split.
    + exists l. split; [exact G|]. intros x I. assert (Ix : In (OFile x) found) by (apply (in_found POless (map OFile l) found (OFile x) R C Ea'); apply in_map; exact I).
      assert (Io : In (OFile x) (or_unknown content found)) by (destruct found; [destruct Ix|exact Ix]). clear - Et Io. revert ts Et.
      induction (or_unknown content found) as [|o rs IH]; [destruct Io|]. intros ts Et. cbn [mapM] in Et. apply bind_ok in Et. destruct Et as (t & E1 & Et).
      apply bind_ok in Et. destruct Et as (ts' & E2 & _). destruct Io as [->|Io]; [exists t; exact E1|exact (IH Io ts' E2)].
    + intros H. destruct (K PMp4) as (a & Ea); [apply called_mp4; exact H|]. pose proof (says_mp4 pl msg archive content small) as S.
      destruct (N.ltb_spec (lenN content) 15); [rewrite S in Ea; discriminate|]. destruct (N.eqb_spec (lenN content) 15); [rewrite S in Ea; discriminate|lia].
  - intros ((l & G & Sh) & M). destruct (compound_results l G M) as (rs & E & F & _). rewrite E. cbn [bind].
    assert (T : exists ts, mapM (show pl (ParseOutputFormat f)) rs = Ok ts).
    { clear - F Sh. induction F as [|o rs H F (ts & E)]; [exists []; reflexivity|]. cbn [mapM]. rewrite E. destruct H as [(e & _ & ->)|[(s & ->)|(x & I & ->)]]; try (eexists; reflexivity).
      destruct (Sh x I) as (t & Et). cbn [show]. rewrite Et. eexists. reflexivity. }
    destruct T as (ts & ->). eexists. reflexivity.
Qed.
(** A failure of that parser is the outcome. *)
Lemma compound_fails r : guessed = r -> fails r -> movie_ok content -> results pl msg archive (Some content) = (_ <- r ;; Ok []).
Proof.
  intros G N M. assert (K : says POless = (_ <- r ;; Ok [])).
  { unfold parser_says. rewrite G. destruct r as [l| | |]; [exfalso; exact (N l eq_refl)|reflexivity..]. }
  assert (Nk : fails (_ <- r ;; Ok ([] : list object))) by (destruct r as [l| | |]; [exfalso; exact (N l eq_refl)|intros a Ea; discriminate Ea..]).
  apply results_fail; [exact small|exact Nk|].
  destruct (rows_decided pl msg archive content table) as [(rs & R)|(r' & St)].
  - exfalso. assert (C : called content POless) by (apply called_ole; exact compound_file). apply called_row in C. destruct C as (mi & I & F & C).
    clear - R I F C K Nk. induction R as [|mi0 l rs NC R IH|mi0 l rs C0 F0 R IH|mi0 p0 a l rs C0 F0 E R IH]; [destruct I|..]; (destruct I as [<-|I]; [|apply IH; exact I]).
    + contradiction.
    + congruence.
    + rewrite F in F0. injection F0 as <-. rewrite K in E. exact (Nk _ E).
  - destruct St as (before & mi & after & p & found & Et & R & C & F & S & Nr). exists before, mi, after, p, found. split; [exact Et|]. split; [exact R|]. split; [exact C|].
    split; [exact F|]. assert (Cp : called content p). { apply called_row. exists mi. split; [rewrite Et; apply in_or_app; right; left; reflexivity|]. split; assumption. }
    destruct (called_compound p Cp) as [->| ->]; [split; [exact K|exact Nk]|]. exfalso. apply called_mp4 in Cp. specialize (M Cp).
    pose proof (says_mp4 pl msg archive content small) as Sm. destruct (N.ltb_spec (lenN content) 15); [lia|]. destruct (N.eqb_spec (lenN content) 15); [lia|].
    destruct Sm as (e & _ & Ee). rewrite S in Ee. exact (Nr _ Ee).
Qed.
Lemma compound_stops f r : guessed = r -> fails r -> movie_ok content -> program pl msg archive fs [file; f] = (_ <- r ;; Ok []).
Proof.
  intros G N M. rewrite (program_eq pl msg archive content fs file f stored), (compound_fails r G N M). destruct r as [l| | |]; [exfalso; exact (N l eq_refl)|reflexivity..].
Qed.
End File.
Lemma stored_starts f c : stored_as f c -> starts f [xd0; xcf; x11; xe0] /\ movie_ok f.
Proof.
  intros (_ & _ & (_ & pre & post & E & L) & _). apply lenN_0 in L. subst pre. cbn [app cfb_magic] in E. split.
  - exists [], (dropN 4 f). split; [rewrite E; reflexivity|reflexivity].
  - intros (pre & post' & E' & L). exfalso. rewrite E in E'. destruct pre as [|p0 [|p1 [|p2 [|p3 [|p4 pre]]]]]; rewrite ?lenN_cons in L; cbn [lenN] in L; cbn [app] in E'; try discriminate E'; try lia.
    all: try (cbn in L; lia).
Qed.
