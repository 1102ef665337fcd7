(** Proofs: a workbook in a compound file, from the bytes of the file to the documents. *)
From Coq Require Import List NArith ZArith Lia Bool Strings.String ZifyBool ZifyNat ZifyN.
From Verif Require Import Lib.Res Lib.Bytes Lib.BytesFacts Lib.Text Common.Model Common.Spec Common.EscapeProofs Magic.Table Magic.Model Ole.Model Ole.Spec Ole.Statements
     Vba.FileSpec Propset.Model Zip.Model Detect.Model Detect.Output Detect.Spec Detect.Statements Detect.OutputProofs Program.Model.
From Verif Require Excel.Engine Excel.DocStatements Excel.FineProofs Excel.DocProofs Excel.DocXml Detect.PropertyLemmas Detect.MoreProofs Magic.DocUnique Magic.PropertyLemmas.
From Verif Require Import Magic.Spec Magic.DocProofs Magic.DocBase Vba.Statements Asf.DocProofs.
From Verif Require Import Program.Statements Program.ScanProofs Program.SafetyProofs Program.DocProofs Program.ArchiveProofs Program.CompoundProofs.
Import ListNotations.
Local Open Scope N_scope.

Section Chosen.
Variables (pl : platform) (msg : exn -> bytes) (archive : option bytes -> res (list zentry)) (fs : bytes -> option bytes) (file : bytes).
Lemma program_json_by (Q : Program.Model.object -> jval -> Prop) rs : results pl msg archive (fs file) = Ok rs -> ~ In x00 file ->
  Forall (fun o => exists t v, show pl JSON o = Ok t /\ Q o v /\ json_value t v) rs ->
  exists out vs, program pl msg archive fs [file; B "json"] = Ok out /\ Forall2 Q rs vs /\
    (forall d, json_value out d <-> d = JObj [(map b2n (B "name"), JStr (map b2n file)); (map b2n (B "extensions"), JArr vs)]).
Proof.
  intros E Nf F. assert (X : exists ts vs, mapM (show pl JSON) rs = Ok ts /\ Forall2 Q rs vs /\ Forall2 json_value ts vs).
  { clear - F. induction F as [|o rs (t & v & Et & J & V) F (ts & vs & E & A & C)]; [exists [], []; repeat split; constructor|].
    cbn [mapM]. rewrite Et, E. cbn [bind]. exists (t :: ts), (v :: vs). repeat split; constructor; assumption. }
  destruct X as (ts & vs & T & A & V). eexists. exists vs. split; [apply (program_shown pl msg archive fs file (B "json") rs ts E T)|]. split; [exact A|].
  change (ParseOutputFormat (B "json")) with JSON. destruct (as_exts JSON ts) as (es & Es). rewrite Es, layout_output.
  assert (J : json_value (Output JSON file (B "extensions") es) (JObj [(map b2n (B "name"), JStr (map b2n file)); (map b2n (B "extensions"), JArr vs)])).
  { apply output_json; [exact Nf| |cbn beta iota in Es; rewrite Es in V; exact V]. intros ->. subst ts. inversion V; subst. inversion A; subst. exact (results_nonempty _ _ _ _ E). }
  intros d. split; [|intros ->; exact J]. intros D. eapply Magic.DocUnique.json_value_fun; eassumption.
Qed.
Lemma program_xml_by (Q : Program.Model.object -> xnode -> Prop) rs : results pl msg archive (fs file) = Ok rs ->
  Forall (fun o => exists t e, show pl XML o = Ok t /\ Q o e /\ forall rest l, xml_content rest l -> xml_content (t ++ rest) (e :: l)) rs ->
  exists out shown es, program pl msg archive fs [file; B "xml"] = Ok out /\ Forall2 Q rs es /\
    (forall d, xml_document out d <-> d = XElem (B "file") [XElem (B "name") shown; XElem (B "extensions") es]) /\
    (shown = xtext file <-> ~ In x3c file /\ ~ In x3e file).
Proof.
  intros E F. assert (X : exists ts es, mapM (show pl XML) rs = Ok ts /\ Forall2 Q rs es /\ xml_content (List.concat ts) es).
  { clear - F. induction F as [|o rs (t & v & Et & J & V) F (ts & vs & E & A & C)]; [exists [], []; repeat split; constructor|].
    cbn [mapM]. rewrite Et, E. cbn [bind]. exists (t :: ts), (v :: vs). split; [reflexivity|]. split; [constructor; assumption|]. cbn [List.concat]. apply V. exact C. }
  destruct X as (ts & es & T & A & V). destruct (Magic.PropertyLemmas.shown_name_spec file) as (nodes & Hn & Hs).
  eexists. exists nodes, es. split; [apply (program_shown pl msg archive fs file (B "xml") rs ts E T)|]. split; [exact A|]. split; [|exact Hs].
  change (ParseOutputFormat (B "xml")) with XML. destruct (as_exts XML ts) as (os & Es). rewrite Es, layout_output.
  assert (J : xml_document (Output XML file (B "extensions") os) (XElem (B "file") [XElem (B "name") nodes; XElem (B "extensions") es])).
  { rewrite <- Hn. apply output_xml. cbn beta iota in Es. rewrite Es in V. exact V. }
  intros d. split; [|intros ->; exact J]. intros D. eapply Magic.DocUnique.xml_document_fun; eassumption.
Qed.
End Chosen.

(** ** What is found in the file *)
Section Workbook.
Variables (f : bytes) (c : compound) (s : storage) (items : list item) (names : list (list N)) (b : bytes) (msg : exn -> bytes).
Hypothesis stored : stored_as f c.
Hypothesis is_clean : clean c.
Hypothesis loaded : storage_load windows (Some f) = Ok (Opened s).
Hypothesis entries : holds f c 0 items.
Hypothesis one : workbook_at items names b.
Notation excel := (read_workbook windows msg).
Lemma quiet_yields l : Forall quiet l -> Forall2 (fun v o => yields windows excel (root_stream (a "Current User") items) s v (Ok o)) l (map (fun _ => ONothing) l).
Proof.
  induction 1 as [|v l H F IH]; [constructor|]. cbn [map]. constructor; [|exact IH]. destruct v as [ns|ns b0]; cbn [quiet] in H; [apply y_storage; exact H|].
  apply y_stream; apply H.
Qed.
Lemma nothing_results (l : list visit) : results_of (map (fun _ => ONothing) l) = [].
Proof. induction l as [|v l IH]; [reflexivity|]. exact IH. Qed.
Lemma nothing_groups (l : list visit) : groups_of (map (fun _ => ONothing) l) = [].
Proof. induction l as [|v l IH]; [reflexivity|]. exact IH. Qed.
Lemma workbook_guessed i : Engine.Detailer windows msg b = Ok i ->
  Guess windows excel ole_list (Some f) = Ok [FExcel (workbook_of windows i) (all_paths items) []].
Proof.
  intros D. destruct one as (before & after & k & V & Qb & Qa & Np & Ik & T & Rk).
  apply (Detect.PropertyLemmas.C75_iff f c s items excel _ stored is_clean loaded entries).
  exists (map (fun _ => ONothing) before ++ OFound (FExcel (workbook_of windows i) [] []) :: map (fun _ => ONothing) after), [].
  split; [|split].
  - rewrite V. apply Forall2_app; [apply quiet_yields; exact Qb|]. constructor; [|apply quiet_yields; exact Qa].
    pose proof (y_kind windows excel (root_stream (a "Current User") items) s names b k Np Ik (Detect.PropertyLemmas.tells_low_of _ _ T)) as Y.
    unfold read_kind in Y. rewrite Rk in Y. unfold read_workbook in Y. rewrite D in Y. exact Y.
  - unfold groups_of. rewrite flat_map_app. cbn [flat_map]. fold (groups_of (map (fun _ => ONothing) before)). fold (groups_of (map (fun _ : visit => ONothing) after)).
    rewrite !nothing_groups. cbn [app]. split; constructor.
  - unfold results_of. rewrite flat_map_app. cbn [flat_map]. fold (results_of (map (fun _ => ONothing) before)). fold (results_of (map (fun _ : visit => ONothing) after)).
    rewrite !nothing_results. cbn [app]. apply rep_some; [discriminate|]. apply as_excel.
Qed.
(** A workbook that cannot be read decides the outcome of the file. *)
Lemma workbook_stops r : Engine.Detailer windows msg b = r -> (forall i, r <> Ok i) -> Guess windows excel ole_list (Some f) = (_ <- r ;; Ok []).
Proof.
  intros D N. destruct one as (before & after & k & V & Qb & Qa & Np & Ik & T & Rk).
  rewrite (Detect.PropertyLemmas.C75_failure f c s items excel before (VStream names b) after (map (fun _ => ONothing) before) (x <- r ;; Ok ONothing)); try assumption.
  - destruct r; reflexivity.
  - apply quiet_yields. exact Qb.
  - pose proof (y_kind windows excel (root_stream (a "Current User") items) s names b k Np Ik (Detect.PropertyLemmas.tells_low_of _ _ T)) as Y.
    unfold read_kind in Y. rewrite Rk in Y. unfold read_workbook in Y. rewrite D in Y. destruct r as [i| | |]; [exfalso; exact (N i eq_refl)|exact Y..].
  - intros o E. destruct r as [i| | |]; [exact (N i eq_refl)|discriminate E..].
Qed.

(** ** The documents *)
Variables (archive : option bytes -> res (list zentry)) (fs : bytes -> option bytes) (file : bytes).
Hypothesis in_fs : fs file = Some f.
Hypothesis small : lenN f < 2 ^ 32.
Hypothesis short : lenN b < 2 ^ 30.
Hypothesis names_ok : Forall unicode (all_paths items).
Theorem workbook_json i t : ~ In x00 file -> Engine.Detailer windows msg b = Ok i -> Engine.contents_json windows i = Ok t ->
  Forall json_literal (Excel.DocStatements.raw_of i) ->
  exists out vs ms ws, program windows msg archive fs [file; B "json"] = Ok out /\
    path_members windows (all_paths items) [] ms /\ Excel.DocStatements.workbook_members windows i ws /\
    In (JObj (item_members (Engine.x_ext i) ++ ms ++ ws)) vs /\
    (forall d, json_value out d <-> d = JObj [(map b2n (B "name"), JStr (map b2n file)); (map b2n (B "extensions"), JArr vs)]).
Proof.
  intros Nf D C R. pose proof (workbook_guessed i D) as G. destruct (stored_starts f c stored) as (St & M).
  destruct (compound_results windows msg archive f small St _ G M) as (rs & E & F & Ir). specialize (Ir _ (or_introl eq_refl)).
  assert (He : info_plain (Engine.x_ext i) = true) by (apply (Excel.FineProofs.all_fine windows msg b i short D)).
  destruct (Excel.DocProofs.contents_json_ok windows msg b i t short D R C) as (ws & W & K).
  destruct (oless_members windows (Engine.x_ext i) (all_paths items) [] He names_ok (Forall_nil _)) as (u & us & gs & Eu & A & Gs & J).
  set (ms := list_member (B "Paths") (map (fun u => JStr (map b2n u)) us) ++ list_member (B "properties") gs) in J.
  assert (Pm : path_members windows (all_paths items) [] ms) by (exists us, gs; auto).
  rewrite <- in_fs in E.
  destruct (program_json_by windows msg archive fs file (fun o v => match o with OFile _ => v = JObj (item_members (Engine.x_ext i) ++ ms ++ ws) | _ => True end) rs E Nf) as (out & vs & P & Q & U).
  - eapply Forall_impl; [|exact F]. intros o [(e & Hp & ->)|[(x & ->)|(x & Ix & ->)]].
    + destruct (object_json windows msg (OResult (plain_result e))) as (t0 & v & Et & _ & V); [eexists; apply jo_plain; exact Hp|]. exists t0, v. auto.
    + destruct (object_json windows msg (OResult (unknown_result x))) as (t0 & v & Et & _ & V).
      { destruct (before_nul_exists x) as (y & Hy & _). eexists. apply jo_unknown; [exact Hy|apply bin2hex11_dump]. }
      exists t0, v. auto.
    + destruct Ix as [<-|[]]. eexists. eexists. split; [cbn [show render]; unfold excel_render, workbook_of; cbn [wb_ext wb_json]; rewrite Eu, C; cbn [bind]; reflexivity|].
      split; [reflexivity|]. rewrite (app_assoc u). apply object. specialize (K _ _ J). rewrite <- !app_assoc in K. exact K.
  - exists out, vs, ms, ws. split; [exact P|]. split; [exact Pm|]. split; [exact W|]. split; [|exact U]. clear - Q Ir.
    induction Q as [|o v rs vs H Q IH]; [destruct Ir|]. destruct Ir as [->|Ir]; [left; exact H|right; exact (IH Ir)].
Qed.
Theorem workbook_xml i t : Engine.Detailer windows msg b = Ok i -> Engine.contents_xml windows i = Ok t -> Forall xml_literal (Excel.DocStatements.raw_of i) ->
  exists out shown es l ws, program windows msg archive fs [file; B "xml"] = Ok out /\
    path_elements (all_paths items) [] l /\ Excel.DocStatements.workbook_elements windows i ws /\
    In (XElem (B "item") (base_elements (Engine.x_ext i) ++ l ++ ws)) es /\
    (forall d, xml_document out d <-> d = XElem (B "file") [XElem (B "name") shown; XElem (B "extensions") es]) /\
    (shown = xtext file <-> ~ In x3c file /\ ~ In x3e file).
Proof.
  intros D C R. pose proof (workbook_guessed i D) as G. destruct (stored_starts f c stored) as (St & M).
  destruct (compound_results windows msg archive f small St _ G M) as (rs & E & F & Ir). specialize (Ir _ (or_introl eq_refl)).
  assert (He : info_plain (Engine.x_ext i) = true) by (apply (Excel.FineProofs.all_fine windows msg b i short D)).
  destruct (Excel.DocXml.contents_xml_ok windows msg b i t short D R C) as (ws & W & K).
  destruct (oless_elements windows (Engine.x_ext i) (all_paths items) [] t ws He names_ok (Forall_nil _) K) as (u & us & gs & Eu & A & Gs & J).
  set (l := list_element (B "Paths") (comma_separated (map (xescaped (B "Path")) us)) ++ list_element (B "properties") gs).
  assert (Pm : path_elements (all_paths items) [] l) by (exists us, gs; auto).
  assert (J' : xml_content (u ++ t) (base_elements (Engine.x_ext i) ++ l ++ ws)) by (subst l; rewrite <- app_assoc; exact J). clear J. clearbody l.
  rewrite <- in_fs in E.
  destruct (program_xml_by windows msg archive fs file (fun o v => match o with OFile _ => v = XElem (B "item") (base_elements (Engine.x_ext i) ++ l ++ ws) | _ => True end) rs E) as (out & shown & es & P & Q & U).
  - eapply Forall_impl; [|exact F]. intros o [(e & Hp & ->)|[(x & ->)|(x & Ix & ->)]].
    + destruct (object_xml windows msg (OResult (plain_result e))) as (t0 & v & Et & _ & V); [eexists; apply xo_plain; exact Hp|]. exists t0, v. auto.
    + destruct (object_xml windows msg (OResult (unknown_result x))) as (t0 & v & Et & _ & V).
      { eexists. apply xo_unknown; [apply XmlEscape_text|apply bin2hex11_dump]. }
      exists t0, v. auto.
    + destruct Ix as [<-|[]]. eexists. eexists. split; [cbn [show render]; unfold excel_render, workbook_of; cbn [wb_ext wb_xml]; rewrite Eu, C; cbn [bind]; reflexivity|].
      split; [reflexivity|]. replace (B "<item>" ++ u ++ t ++ B "</item>") with (xelem (B "item") (u ++ t)) by (unfold xelem; flat).
      intros rest l0 H. apply elem_cons; [apply letters_name; reflexivity|exact J'|exact H].
  - exists out, shown, es, l, ws. split; [exact P|]. split; [exact Pm|]. split; [exact W|]. split; [|exact U]. clear - Q Ir.
    induction Q as [|o v rs vs H Q IH]; [destruct Ir|]. destruct Ir as [->|Ir]; [left; exact H|right; exact (IH Ir)].
Qed.
End Workbook.
