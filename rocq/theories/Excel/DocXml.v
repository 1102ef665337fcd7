(** The documents for workbooks in XML. *)
From Coq Require Import List NArith ZArith Bool Lia Strings.String Strings.Byte.
From Coq Require Import ZifyBool ZifyNat ZifyN.
From Verif Require Import Lib.Res Lib.Bytes Lib.BytesFacts Lib.Text Lib.NumSpec Lib.NumFacts Common.Model Common.Spec Common.ReadProofs
     Common.EscapeProofs Excel.Number Excel.NumberProofs Excel.Tables Excel.Model Excel.Records Excel.Engine Excel.Statements Excel.EngineProofs
     Magic.Spec Magic.DocProofs Magic.DocBase Asf.Model Asf.DocProofs Vba.Statements Vba.OutputProofs Propset.DocProofs Excel.DocStatements Excel.FineProofs
     Excel.DocProofs.
From Verif Require Propset.Statements.
Import ListNotations.
Local Open Scope N_scope.
Ltac Zify.zify_post_hook ::= Z.div_mod_to_equations.
Arguments N.pow : simpl never.
Arguments N.mul : simpl never.
Arguments N.add : simpl never.

Definition ok_x (v : value) : Prop := exists l, contents v l /\ xml_content (xml_value v) l.
Lemma dec_z_literal z : xml_literal (dec_z z).
Proof. apply plain_literal. destruct z as [|n|n]; cbn [dec_z]; [apply plain_dec..|]. change (plain_b x2d && plain (dec (N.pos n)) = true). rewrite plain_dec. reflexivity. Qed.
Lemma fine_xml v : fine v -> ok_x v.
Proof.
  destruct v as [n|z|s|s|t u|s]; cbn [fine]; intros F; unfold ok_x; cbn [contents xml_value].
  - eexists. split; [reflexivity|]. apply literal_content, plain_literal, plain_dec.
  - eexists. split; [reflexivity|]. apply literal_content, dec_z_literal.
  - eexists. split; [reflexivity|]. apply literal_content, plain_literal. exact F.
  - eexists. split; [reflexivity|]. apply escaped_content.
  - destruct F as [_ (l & H)]. exists l. auto.
  - destruct F as [_ H]. eexists. split; [reflexivity|]. apply literal_content. exact H.
Qed.
Lemma literal_xml s : xml_literal s -> ok_x (Str s).
Proof. intros H. eexists. split; [reflexivity|]. apply literal_content. exact H. Qed.
Lemma raw_elements l : Forall xml_literal l -> xml_content (List.concat (map (fun s => B "<string>" ++ s ++ B "</string>") l)) (map (xfield (B "string")) l).
Proof.
  induction 1 as [|s l K F IH]; [constructor|]. cbn [map List.concat].
  apply (literal_cons (B "string") s _ _ eq_refl K IH).
Qed.
Lemma strings_ok_x l : l <> [] -> Forall xml_literal l -> ok_x (Raw (B "[" ++ vector_join l (B ",") true ++ B "]")
                                                      (List.concat (map (fun s => B "<string>" ++ s ++ B "</string>") l))).
Proof. intros _ F. eexists. split; apply raw_elements; exact F. Qed.

(** ** Elements followed by [rest] *)
Lemma elem_rest n v ch rest l : letters (B n) = true -> xml_content v ch -> xml_content rest l -> xml_content (elem n v ++ rest) (xel n ch :: l).
Proof.
  intros N V R. replace (elem n v) with (xelem (B n) v) by (unfold elem, xelem; rewrite <- ?app_assoc; reflexivity).
  apply elem_cons; [apply letters_name; exact N|exact V|exact R].
Qed.
Lemma elem_end n v ch : letters (B n) = true -> xml_content v ch -> xml_content (elem n v) [xel n ch].
Proof. intros N V. rewrite <- (app_nil_r (elem n v)). apply elem_rest; [exact N|exact V|constructor]. Qed.
Lemma elem_number n k rest l : letters (B n) = true -> xml_content rest l -> xml_content (elem n (dec k) ++ rest) (xnum n k :: l).
Proof. intros N R. apply elem_rest; [exact N|apply literal_content, plain_literal, plain_dec|exact R]. Qed.
Lemma elem_plain n s rest l : letters (B n) = true -> plain s = true -> xml_content rest l -> xml_content (elem n s ++ rest) (xfield (B n) s :: l).
Proof. intros N K R. apply elem_rest; [exact N|apply literal_content, plain_literal, K|exact R]. Qed.
Lemma elem_text n s rest l : letters (B n) = true -> xml_content rest l -> xml_content (elem n (XmlEscape s) ++ rest) (xescaped (B n) s :: l).
Proof. intros N R. apply elem_rest; [exact N|apply escaped_content|exact R]. Qed.

Lemma fields_xml l rest lr : Forall (good ok_x) l -> xml_content rest lr ->
  exists es, Forall2 field_element l es /\ xml_content (List.concat (map xml_field l) ++ rest) (es ++ lr).
Proof.
  intros F R. induction F as [|f l [[_ N] (ch & D & C)] F (es & A & IH)].
  - exists []. split; [constructor|exact R].
  - exists (XElem (snd (fst f)) ch :: es). split; [constructor; [exists ch; auto|exact A]|].
    cbn [map List.concat]. rewrite <- !app_assoc. replace (xml_field f) with (xelem (snd (fst f)) (xml_value (snd f))) by (unfold xml_field, xelem; rewrite <- ?app_assoc; reflexivity).
    apply elem_cons; [apply letters_name; exact N|exact C|exact IH].
Qed.
Lemma flags_xml f : xml_content (elems (flag_list f)) (flag_nodes f).
Proof. unfold elems, flag_list. cbn [map List.concat fst snd]. repeat (apply elem_number; [reflexivity|]). constructor. Qed.
Lemma country_content n c rest l : letters (B n) = true -> xml_content rest l -> xml_content (country_xml n c ++ rest) (xel n (locale_nodes c) :: l).
Proof.
  intros N R. replace (country_xml n c) with (elem n (elem "Code" (dec c) ++ elem "Name" (GetCountryName c) ++ [])).
  2:{ unfold country_xml, elem. rewrite app_nil_r. rewrite <- !app_assoc. reflexivity. }
  apply elem_rest; [exact N| |exact R]. apply elem_number; [reflexivity|]. apply elem_rest; [reflexivity|apply literal_content, country_literal|constructor].
Qed.
Lemma rc4_xml major minor rest l : xml_content rest l ->
  xml_content (elem "EncryptionType" (B "RC4") ++ elem "RC4Version" (elem "Major" (dec major) ++ elem "Minor" (dec minor)) ++ rest) (rc4_nodes major minor ++ l).
Proof.
  intros R. unfold rc4_nodes. cbn [app]. apply elem_plain; [reflexivity..|]. apply elem_rest; [reflexivity| |exact R].
  apply elem_number; [reflexivity|]. rewrite <- (app_nil_r (elem _ _)). apply elem_number; [reflexivity|constructor].
Qed.
Lemma general_xml p r l rest lr : fine_rec r -> Forall xml_literal (raw_texts r) -> fields p r = Ok l -> xml_content rest lr ->
  exists es, (exists l, fields p r = Ok l /\ Forall2 field_element l es) /\ xml_content (List.concat (map xml_field l) ++ rest) (es ++ lr).
Proof.
  intros F R E H. destruct (fields_xml l rest lr) as (es & A & C).
  - eapply fields_all; [exact fine_xml|exact literal_xml|exact strings_ok_x|exact F|exact R|exact E].
  - exact H.
  - exists es. split; [exists l; split; assumption|exact C].
Qed.
Lemma rest_xml p r x : fine_rec r -> Forall xml_literal (raw_texts r) -> rest p r = Ok x ->
  exists es, record_elements p r es /\ xml_content (snd x) es.
Proof.
  intros F R E. unfold rest in E. unfold record_elements.
  assert (G : forall l, fields p r = Ok l -> exists es, (exists l0, fields p r = Ok l0 /\ Forall2 field_element l0 es) /\ xml_content (snd (of_fields l)) es).
  { intros l El. destruct (general_xml p r l [] [] F R El ltac:(constructor)) as (es & A & C). exists es. split; [exact A|].
    rewrite !app_nil_r in C. exact C. }
  destruct (r_body r) eqn:EB.
  all: try (let l0 := fresh "l0" in let El := fresh "El" in apply bind_ok in E; destruct E as (l0 & El & E); same E; apply G; exact El).
  - same E. eexists. split; [reflexivity|]. cbn [snd]. apply country_content; [reflexivity|].
    rewrite <- (app_nil_r (country_xml _ _)). apply country_content; [reflexivity|constructor].
  - same E. eexists. split; [reflexivity|]. cbn [snd]. apply elem_plain; [reflexivity..|]. apply elem_number; [reflexivity|].
    rewrite <- (app_nil_r (elem _ _)). apply elem_number; [reflexivity|constructor].
  - same E. eexists. split; [reflexivity|]. cbn [snd]. apply rc4_xml. do 2 (apply elem_plain; [reflexivity|apply bin2hex_plain|]).
    rewrite <- (app_nil_r (elem _ _)). apply elem_plain; [reflexivity|apply bin2hex_plain|constructor].
  - destruct (r_moved r) eqn:EM; [unfold over in E; rewrite EM in E; discriminate|]. unfold over in E. rewrite EM in E.
    apply bind_ok in E. destruct E as (f & Ef & E). apply bind_ok in E. destruct E as (e & Ee & E). apply bind_ok in E. destruct E as (n & En & E).
    cbv zeta in E. apply bind_ok in E. destruct E as (v & Ev & E). same E. cbn [snd].
    unfold enc_header in Ee. opened Ee. same Ee. unfold enc_verifier in Ev. opened Ev. same Ev.
    eexists. split; [do 13 eexists; unfold stored; repeat (split; [eassumption|]); reflexivity|].
    cbn [fst snd v_size v_salt v_verifier v_hash]. apply rc4_xml.
    apply elem_rest; [reflexivity|apply flags_xml|]. apply elem_rest; [reflexivity| |].
    { apply elem_rest; [reflexivity|apply flags_xml|]. unfold elems. cbn [map List.concat fst snd]. repeat (apply elem_number; [reflexivity|]). constructor. }
    apply elem_text; [reflexivity|]. apply elem_rest; [reflexivity| |].
    { apply elem_number; [reflexivity|]. do 2 (apply elem_plain; [reflexivity|apply bin2hex_plain|]). rewrite <- (app_nil_r (elem _ _)). apply elem_number; [reflexivity|constructor]. }
    rewrite <- (app_nil_r (elem _ _)). apply elem_plain; [reflexivity|apply bin2hex_plain|constructor].
  - discriminate.
  - same E. eexists. split; [reflexivity|]. cbn [snd]. rewrite <- (app_nil_r (elem _ _)). apply elem_number; [reflexivity|constructor].
Qed.
Lemma record_xml_ok p r t : fine_rec r -> Forall xml_literal (raw_texts r) -> record_xml p r = Ok t ->
  exists e, record_element p r e /\ forall rest l, xml_content rest l -> xml_content (t ++ rest) (e :: l).
Proof.
  intros F R E. unfold record_xml in E. apply bind_ok in E. destruct E as (x & Ex & E). same E.
  destruct (rest_xml p r x F R Ex) as (es & M & C). eexists. split; [exists es; split; [exact M|reflexivity]|]. intros w l W.
  match goal with |- xml_content ?u _ => replace u with (elem "Record" (elem "Type" (GetRecordTypeStr (r_type r)) ++ elem "Length" (dec (r_length r)) ++ snd x) ++ w)
    by (unfold elem; rewrite <- !app_assoc; reflexivity) end.
  apply elem_rest; [reflexivity| |exact W]. apply elem_plain; [reflexivity|apply type_plain|]. apply elem_number; [reflexivity|exact C].
Qed.
Lemma concat_content ts es : Forall2 (fun t e => forall rest l, xml_content rest l -> xml_content (t ++ rest) (e :: l)) ts es -> xml_content (List.concat ts) es.
Proof. induction 1 as [|t e ts es H F IH]; [constructor|]. cbn [List.concat]. apply H. exact IH. Qed.
Lemma substream_xml_ok p l t : Forall (writable p xml_literal) l -> substream_xml p l = Ok t ->
  exists e, records_element p l e /\ xml_content t [e].
Proof.
  intros F E. unfold substream_xml in E. apply bind_ok in E. destruct E as (ts & Et & E). same E.
  edestruct (mapM_each (record_xml p) (record_element p) (fun t e => forall rest l, xml_content rest l -> xml_content (t ++ rest) (e :: l)) l ts) as (es & A & C).
  { intros r u I Er. rewrite Forall_forall in F. destruct (F r I). apply record_xml_ok; assumption. }
  { exact Et. }
  eexists. split; [exists es; split; [exact A|reflexivity]|]. apply elem_end; [reflexivity|]. apply concat_content. exact C.
Qed.
Lemma sheet_xml_ok p x i s t : Forall (writable p xml_literal) (map fst (x_list x)) -> sheet_xml p x i s = Ok t ->
  exists e, sheet_element p (s, records_of x (Some i)) e /\ forall rest l, xml_content rest l -> xml_content (t ++ rest) (e :: l).
Proof.
  intros F E. unfold sheet_xml in E. apply bind_ok in E. destruct E as (u & Eu & E). same E.
  pose proof (records_of_all _ x (Some i) F) as K.
  assert (M : exists es, match records_of x (Some i) with [] => es = [] | l => exists m, records_element p l m /\ es = [m] end /\ xml_content u es).
  { destruct (records_of x (Some i)) as [|r l].
    - same Eu. exists []. split; [reflexivity|constructor].
    - destruct (substream_xml_ok p _ _ K Eu) as (m & A & C). exists [m]. split; [exists m; auto|exact C]. }
  destruct M as (es & A & C). eexists. split; [exists es; split; [exact A|reflexivity]|]. intros w l W.
  apply elem_rest; [reflexivity| |exact W]. cbn [fst snd app]. apply elem_text; [reflexivity|]. apply elem_plain; [reflexivity|apply sheet_type_plain|].
  apply elem_plain; [reflexivity|apply visibility_plain|]. apply elem_number; [reflexivity|exact C].
Qed.
Lemma contents_xml_ok p what (S : bytes) x t : lenN S < 2 ^ 30 -> Detailer p what S = Ok x -> Forall xml_literal (raw_of x) ->
  contents_xml p x = Ok t -> exists l, workbook_elements p x l /\ xml_content t l.
Proof.
  intros HS HD R E. destruct (all_fine p what S x HS HD) as [F I]. destruct (raw_each _ x R) as [Re Rr].
  assert (W : Forall (writable p xml_literal) (map fst (x_list x))).
  { rewrite Forall_forall in *. intros r Ir. split; [apply F|apply Rr]; exact Ir. }
  unfold contents_xml in E. apply bind_ok in E. destruct E as (g & Eg & E). apply bind_ok in E. destruct E as (s & Es & E). same E.
  destruct (substream_xml_ok p _ _ (records_of_all _ x None W) Eg) as (m & Gm & Cm).
  edestruct (mapM_each (fun e => sheet_xml p x (fst e) (snd e)) (fun e => sheet_element p (snd e, records_of x (Some (fst e))))
    (fun t e => forall rest l, xml_content rest l -> xml_content (t ++ rest) (e :: l)) (numbered 0 (x_sheets x)) s) as (es & A & C).
  { intros e u _ Eu. apply sheet_xml_ok; [exact W|exact Eu]. }
  { exact Es. }
  eexists. split.
  - exists m, es. split; [exact Gm|]. split; [|reflexivity]. unfold sheets_of. clear -A. induction A; cbn [map]; constructor; assumption.
  - apply elem_rest; [reflexivity|exact Cm|].
    assert (X : xml_content (if nonempty (x_error x) then elem "ERROR" (x_error x) else []) match x_error x with [] => [] | s => [xfield (B "ERROR") s] end).
    { destruct (x_error x) as [|c err]; cbn [nonempty negb]; [constructor|]. apply elem_end; [reflexivity|]. apply literal_content. exact Re. }
    destruct C as [|u e s es Cu Cs]; [exact X|]. apply elem_rest; [reflexivity| |exact X]. apply concat_content. constructor; assumption.
Qed.
Theorem excel_xml_ok p what (S : bytes) x t : lenN S < 2 ^ 30 -> Detailer p what S = Ok x -> Forall xml_literal (raw_of x) ->
  excel_xml p x = Ok t -> exists e, excel_element p x e /\ xml_document t e.
Proof.
  intros HS HD R E. unfold excel_xml in E. apply bind_ok in E. destruct E as (r & Er & E). same E.
  destruct (contents_xml_ok p what S x r HS HD R Er) as (l & M & J). eexists. split; [exists l; split; [exact M|reflexivity]|].
  match goal with |- xml_document ?u _ => replace u with (elem "item" (buildBaseXml (x_ext x) ++ r)) by (unfold elem; rewrite <- !app_assoc; reflexivity) end.
  apply elem_end; [reflexivity|]. apply base_xml; [apply (all_fine p what S x HS HD)|exact J].
Qed.
