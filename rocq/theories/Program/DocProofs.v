(** Proofs: the documents the whole program prints. *)
From Coq Require Import List NArith ZArith Lia Bool Strings.String ZifyBool ZifyNat ZifyN.
From Verif Require Import Lib.Res Lib.Bytes Lib.BytesFacts Lib.Text Common.Model Common.Spec Common.Utf8 Common.EscapeProofs Magic.Table Magic.Model Magic.GuessProofs
     Common.ReadProofs Exe.Tables Exe.Model Exe.Spec Exe.Proofs Media.Model Media.WordPerfect Asf.Model Zip.Model Vba.Analyze Vba.Output Propset.Model Propset.Statements
     Detect.Model Detect.Output Program.Model.
From Verif Require Excel.Engine Excel.FineProofs Excel.DocStatements Excel.DocProofs Excel.DocXml Zip.Statements Zip.DocProofs Asf.Statements Asf.PropertyLemmas Magic.DocUnique
     Magic.PropertyLemmas.
From Verif Require Import Magic.Spec Magic.DocProofs Magic.DocBase Asf.DocProofs Vba.Statements Vba.OutputProofs Detect.Statements Detect.OutputProofs.
From Verif Require Import Program.Statements Program.ScanProofs Program.SafetyProofs.
Import ListNotations.
Local Open Scope N_scope.

(** ** JSON *)
Lemma macho_json_value content i : lenN content < 2 ^ 32 -> macho_detail (Some content) = Ok i ->
  json_value (macho_ToJson i) (JObj (macho_members (VersionName (m_base i)) (m_CpuType i) (m_CpuSubType i) (dec (m_NumberLoadCommands i)) (dec (m_SizeLoadCommands i)))).
Proof.
  intros L E. destruct (macho_fields content i L E) as (magic & cpu & sub & ncmds & size & _ & _ & _ & _ & _ & ->). apply macho_json.
Qed.
Lemma macho_xml_value content i : lenN content < 2 ^ 32 -> macho_detail (Some content) = Ok i ->
  xml_document (macho_ToXml i)
    (XElem (B "item") (macho_children (if Version (m_base i) =? 0 then [] else dec (Version (m_base i))) (VersionName (m_base i))
                         (m_CpuType i) (m_CpuSubType i) (dec (m_NumberLoadCommands i)) (dec (m_SizeLoadCommands i)))).
Proof.
  intros L E. destruct (macho_fields content i L E) as (magic & cpu & sub & ncmds & size & _ & _ & _ & _ & _ & ->). apply macho_xml.
Qed.

Lemma object_json pl msg o : (exists v, json_of pl msg o v) -> exists t v, show pl JSON o = Ok t /\ json_of pl msg o v /\ json_value t v.
Proof.
  intros (v & J). destruct J as [e He|s shown hexed Hs Hh|content i L E|base hs Hb Hn Hp|es l Hl D|e paths props ms He (P1 & P2) _|S x t paths props ms ws L D C R (P1 & P2) _ _|e p He Hr].
  - eexists _, _. split; [reflexivity|]. split; [apply jo_plain; exact He|]. apply item_json. exact He.
  - eexists _, _. split; [reflexivity|]. split; [apply jo_unknown; [exact Hs|apply bin2hex11_dump]|]. apply unknown_json. exact Hs.
  - eexists _, _. split; [reflexivity|]. split; [eapply jo_macho; eassumption|]. eapply macho_json_value; eassumption.
  - eexists _, _. split; [reflexivity|]. split; [apply jo_asf; assumption|]. apply Asf.PropertyLemmas.C45_json; assumption.
  - eexists _, _. split; [reflexivity|]. split; [apply jo_zip; eassumption|]. apply Zip.DocProofs.zip_json_value; assumption.
  - destruct (oless_members pl e paths props He P1 P2) as (t & us & gs & E & A & C & J). cbn [show render]. unfold oless_render. rewrite E. cbn [bind].
    eexists _, _. split; [reflexivity|]. split; [eapply jo_oless; [exact He|split; assumption|exists us, gs; split; [exact A|]; split; [exact C|reflexivity]]|].
    apply object. exact J.
  - assert (He : info_plain (Engine.x_ext x) = true) by (apply (Excel.FineProofs.all_fine pl msg S x L D)).
    destruct (Excel.DocProofs.contents_json_ok pl msg S x t L D R C) as (ws' & W & K).
    destruct (oless_members pl (Engine.x_ext x) paths props He P1 P2) as (u & us & gs & E & A & G & J).
    eexists _, _. split; [cbn [show render]; unfold excel_render, workbook_of; cbn [wb_ext wb_json]; rewrite E, C; cbn [bind]; reflexivity|].
    split; [eapply jo_excel; [exact L|exact D|exact C|exact R|split; assumption|exists us, gs; split; [exact A|]; split; [exact G|reflexivity]|exact W]|].
    rewrite (app_assoc u). apply object. specialize (K _ _ J). rewrite <- !app_assoc in K. rewrite <- !app_assoc. exact K.
  - eexists _, _. split; [reflexivity|]. split; [apply jo_vba; assumption|]. apply vba_json_value; assumption.
Qed.

(** ** XML *)
Lemma document_cons t e : xml_document t e -> forall rest l, xml_content rest l -> xml_content (t ++ rest) (e :: l).
Proof.
  intros D rest l H. destruct e as [s|s|n ch]; [destruct D|destruct D|]. cbn [xml_document] in D.
  inversion D as [| | |n0 body ch0 rest0 l0 Hn Hb Hr]; subst. inversion Hr; subst.
  replace ((x3c :: n ++ x3e :: body ++ x3c :: x2f :: n ++ [x3e]) ++ rest) with (xelem n body ++ rest) by (unfold xelem; flat).
  apply elem_cons; assumption.
Qed.
Lemma object_xml pl msg o : (exists e, xml_of pl msg o e) ->
  exists t e, show pl XML o = Ok t /\ xml_of pl msg o e /\ forall rest l, xml_content rest l -> xml_content (t ++ rest) (e :: l).
Proof.
  intros (v & J). destruct J as [e He|s cdata hexed Hs Hh|content i L E|base hs Hb Hn Hp|es l Hl D|e paths props ms He (P1 & P2) _|S x t paths props ms ws L D C R (P1 & P2) _ _|e p He Hr Hm].
  - eexists _, _. split; [reflexivity|]. split; [apply xo_plain; exact He|]. apply item_xml. exact He.
  - eexists _, _. split; [reflexivity|]. split; [apply xo_unknown; [apply XmlEscape_text|apply bin2hex11_dump]|]. intros rest l. apply unknown_xml.
  - eexists _, _. split; [reflexivity|]. split; [eapply xo_macho; eassumption|]. apply document_cons. eapply macho_xml_value; eassumption.
  - eexists _, _. split; [reflexivity|]. split; [apply xo_asf; assumption|]. apply document_cons. apply Asf.PropertyLemmas.C45_xml; assumption.
  - eexists _, _. split; [reflexivity|]. split; [apply xo_zip; eassumption|]. apply document_cons. apply Zip.DocProofs.zip_xml_value; assumption.
  - destruct (oless_elements pl e paths props [] [] He P1 P2 xc_nil) as (t & us & gs & E & A & C & J). cbn [show render]. unfold oless_render. rewrite E. cbn [bind].
    eexists _, _. split; [reflexivity|]. split; [eapply xo_oless; [exact He|split; assumption|exists us, gs; split; [exact A|]; split; [exact C|reflexivity]]|].
    rewrite !app_nil_r in J. replace (B "<item>" ++ t ++ B "</item>") with (xelem (B "item") t) by (unfold xelem; flat).
    intros rest l H. apply elem_cons; [apply letters_name; reflexivity|exact J|exact H].
  - assert (He : info_plain (Engine.x_ext x) = true) by (apply (Excel.FineProofs.all_fine pl msg S x L D)).
    destruct (Excel.DocXml.contents_xml_ok pl msg S x t L D R C) as (ws' & W & K).
    destruct (oless_elements pl (Engine.x_ext x) paths props t ws' He P1 P2 K) as (u & us & gs & E & A & G & J).
    eexists _, _. split; [cbn [show render]; unfold excel_render, workbook_of; cbn [wb_ext wb_xml]; rewrite E, C; cbn [bind]; reflexivity|].
    split; [eapply xo_excel; [exact L|exact D|exact C|exact R|split; assumption|exists us, gs; split; [exact A|]; split; [exact G|reflexivity]|exact W]|].
    rewrite <- !app_assoc. replace (B "<item>" ++ u ++ t ++ B "</item>") with (xelem (B "item") (u ++ t)) by (unfold xelem; flat).
    intros rest l H. apply elem_cons; [apply letters_name; reflexivity|exact J|exact H].
  - eexists _, _. split; [reflexivity|]. split; [apply xo_vba; assumption|]. apply document_cons. apply vba_xml_value; assumption.
Qed.

(** ** The whole output *)
Lemma layout_output f file rs : layout f file (B "extensions") (map (fun r => match f with JSON => eJson r | XML => eXml r | TEXT => eText r | CSV => eCsv r end) rs)
  = Output f file (B "extensions") rs.
Proof. destruct f; unfold layout, Output; rewrite ?map_map; reflexivity. Qed.

Lemma results_nonempty pl msg archive content : results pl msg archive content <> Ok [].
Proof.
  unfold results. intros E. apply bind_ok in E. destruct E as ((l & g) & _ & E). cbn [fst] in E. destruct l; discriminate E.
Qed.
Lemma objects_json pl msg rs : Forall (fun o => exists v, json_of pl msg o v) rs ->
  exists ts vs, mapM (show pl JSON) rs = Ok ts /\ Forall2 (json_of pl msg) rs vs /\ Forall2 json_value ts vs.
Proof.
  induction 1 as [|o rs H F (ts & vs & E & A & C)]; [exists [], []; repeat split; constructor|]. destruct (object_json pl msg o H) as (t & v & Et & J & V).
  cbn [mapM]. rewrite Et, E. cbn [bind]. exists (t :: ts), (v :: vs). repeat split; constructor; assumption.
Qed.
Lemma objects_xml pl msg rs : Forall (fun o => exists v, xml_of pl msg o v) rs ->
  exists ts es, mapM (show pl XML) rs = Ok ts /\ Forall2 (xml_of pl msg) rs es /\ xml_content (List.concat ts) es.
Proof.
  induction 1 as [|o rs H F (ts & vs & E & A & C)]; [exists [], []; repeat split; constructor|]. destruct (object_xml pl msg o H) as (t & v & Et & J & V).
  cbn [mapM]. rewrite Et, E. cbn [bind]. exists (t :: ts), (v :: vs). split; [reflexivity|]. split; [constructor; assumption|]. cbn [List.concat]. apply V. exact C.
Qed.
(** An output whose renderings are given *)
Lemma as_exts f ts : exists es, ts = map (fun r => match f with JSON => eJson r | XML => eXml r | TEXT => eText r | CSV => eCsv r end) es.
Proof.
  exists (map (fun t => mkExp t t t t) ts). rewrite map_map. destruct f; cbn; symmetry; apply map_id.
Qed.

Section Output.
Variables (pl : platform) (msg : exn -> bytes) (archive : option bytes -> res (list zentry)) (fs : bytes -> option bytes) (file : bytes).
Lemma program_shown f rs ts : results pl msg archive (fs file) = Ok rs -> mapM (show pl (ParseOutputFormat f)) rs = Ok ts ->
  program pl msg archive fs [file; f] = Ok (layout (ParseOutputFormat f) file (B "extensions") ts).
Proof. intros E T. unfold program. rewrite E. cbn [bind]. rewrite T. reflexivity. Qed.

Theorem program_json rs : results pl msg archive (fs file) = Ok rs -> ~ In x00 file -> Forall (fun o => exists v, json_of pl msg o v) rs ->
  exists out vs, program pl msg archive fs [file; B "json"] = Ok out /\ Forall2 (json_of pl msg) rs vs /\
    (forall d, json_value out d <-> d = JObj [(map b2n (B "name"), JStr (map b2n file)); (map b2n (B "extensions"), JArr vs)]).
Proof.
  intros E Nf F. destruct (objects_json pl msg rs F) as (ts & vs & T & A & V). eexists. exists vs. split; [apply (program_shown (B "json") rs ts E T)|]. split; [exact A|].
  change (ParseOutputFormat (B "json")) with JSON. destruct (as_exts JSON ts) as (es & Es). rewrite Es, layout_output.
  assert (J : json_value (Output JSON file (B "extensions") es) (JObj [(map b2n (B "name"), JStr (map b2n file)); (map b2n (B "extensions"), JArr vs)])).
  { apply output_json; [exact Nf| |cbn beta iota in Es; rewrite Es in V; exact V]. intros ->. subst ts. inversion V; subst. inversion A; subst. exact (results_nonempty _ _ _ _ E). }
  intros d. split; [|intros ->; exact J]. intros D. eapply Magic.DocUnique.json_value_fun; eassumption.
Qed.
Theorem program_xml rs : results pl msg archive (fs file) = Ok rs -> Forall (fun o => exists v, xml_of pl msg o v) rs ->
  exists out shown es, program pl msg archive fs [file; B "xml"] = Ok out /\ Forall2 (xml_of pl msg) rs es /\
    (forall d, xml_document out d <-> d = XElem (B "file") [XElem (B "name") shown; XElem (B "extensions") es]) /\
    (shown = xtext file <-> ~ In x3c file /\ ~ In x3e file).
Proof.
  intros E F. destruct (objects_xml pl msg rs F) as (ts & es & T & A & V). destruct (Magic.PropertyLemmas.shown_name_spec file) as (nodes & Hn & Hs).
  eexists. exists nodes, es. split; [apply (program_shown (B "xml") rs ts E T)|]. split; [exact A|]. split; [|exact Hs].
  change (ParseOutputFormat (B "xml")) with XML. destruct (as_exts XML ts) as (os & Es). rewrite Es, layout_output.
  assert (J : xml_document (Output XML file (B "extensions") os) (XElem (B "file") [XElem (B "name") nodes; XElem (B "extensions") es])).
  { rewrite <- Hn. apply output_xml. cbn beta iota in Es. rewrite Es in V. exact V. }
  intros d. split; [|intros ->; exact J]. intros D. eapply Magic.DocUnique.xml_document_fun; eassumption.
Qed.
End Output.

(** ** Which results can be written *)
Lemma simple_json pl msg content o : lenN content < 2 ^ 32 -> ~ starts_one content wp_magics -> simple content o -> exists v, json_of pl msg o v.
Proof.
  intros L W [(e & He & ->)|[(i & Hi & ->)|[(s & ->)|(K & _)]]]; [..|contradiction].
  - eexists. apply jo_plain. exact He.
  - eexists. eapply jo_macho; eassumption.
  - destruct (Common.EscapeProofs.before_nul_exists s) as (t & Ht & _). eexists. apply jo_unknown; [exact Ht|apply bin2hex11_dump].
Qed.
Lemma simple_xml pl msg content o : lenN content < 2 ^ 32 -> ~ starts_one content wp_magics -> simple content o -> exists v, xml_of pl msg o v.
Proof.
  intros L W [(e & He & ->)|[(i & Hi & ->)|[(s & ->)|(K & _)]]]; [..|contradiction].
  - eexists. apply xo_plain. exact He.
  - eexists. eapply xo_macho; eassumption.
  - eexists. apply xo_unknown; [apply XmlEscape_text|apply bin2hex11_dump].
Qed.
