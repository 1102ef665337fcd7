(** The documents for VBA projects. *)
From Coq Require Import List NArith ZArith Bool Lia Strings.String.
From Coq Require Import ZifyBool ZifyNat ZifyN.
From Verif Require Import Lib.Res Lib.Bytes Lib.BytesFacts Lib.Text Lib.NumSpec Lib.NumFacts
     Common.Model Common.Spec Common.EscapeProofs Magic.Spec Magic.Model Magic.DocProofs Magic.DocBase
     Asf.Model Asf.DocProofs Vba.Analyze Vba.Output Vba.Statements.
Import ListNotations.
Local Open Scope N_scope.

Lemma until_nul_escape s : JsonEscape s = JsonEscape (until_nul s) /\ ~ In x00 (until_nul s).
Proof.
  induction s as [|c s [IH1 IH2]]; [split; [reflexivity|intros []]|]. cbn [until_nul JsonEscape].
  destruct (byte_eqb c x00) eqn:E; [split; [reflexivity|intros []]|]. cbn [JsonEscape]. rewrite E. split; [rewrite IH1; reflexivity|].
  intros [K|K]; [|exact (IH2 K)]. subst c. discriminate E.
Qed.
Lemma jtext_one key s : jplain key = true -> json_members (js key (JsonEscape s)) [jtext key s].
Proof.
  intros K. destruct (until_nul_escape s) as [E N]. unfold jtext, jfield. rewrite E.
  apply (member key (JsonEscape (until_nul s)) _ [] [] K ws_nil ws_nil). apply JsonEscape_str. exact N.
Qed.
Lemma flag_dec b : flag b = dec (bit b).
Proof. destruct b; reflexivity. Qed.
Lemma module_json_value m : json_value (module_json m) (JObj (module_members m)).
Proof.
  unfold module_json, module_members. rewrite !flag_dec.
  match goal with |- json_value ?t (JObj ?l) =>
    replace t with (B "{" ++ (js (B "Name") (JsonEscape (md_Name m)) ++ B "," ++ js (B "StreamName") (JsonEscape (md_StreamName m)) ++ B "," ++
       jn (B "Offset") (md_Offset m) ++ B "," ++ jn (B "isPrivate") (bit (md_isPrivate m)) ++ B "," ++
       jn (B "isReadOnly") (bit (md_isReadOnly m)) ++ B "," ++ js (B "Code") (JsonEscape (md_Code m))) ++ B "}")
      by (unfold js, jn; rewrite <- !app_assoc; reflexivity) end.
  apply object. repeat (apply more; [first [apply jtext_one; reflexivity|apply jn_one; reflexivity]|]). apply jtext_one. reflexivity.
Qed.
Lemma literal_str s : json_literal s -> json_str s (map b2n s).
Proof. induction 1 as [|c s (A & B1 & C) F IH]; cbn [map]; constructor; auto; lia. Qed.
Lemma references_json l : l <> [] -> Forall json_literal l ->
  json_value (B "[" ++ vector_join l (B ",") true ++ B "]") (JArr (map (fun r => JStr (map b2n r)) l)).
Proof.
  intros N F. unfold vector_join. apply array; [|destruct l; [congruence|discriminate]].
  apply Forall2_map. eapply Forall_impl; [|exact F]. intros s Hs. apply jv_str. apply jquoted. apply literal_str. exact Hs.
Qed.
Lemma spaced_value key t v : jplain key = true -> json_value t v -> json_members (q ++ key ++ q ++ B " : " ++ t) [(map b2n key, v)].
Proof.
  intros Hk Hv.
  replace (q ++ key ++ q ++ B " : " ++ t) with ([] ++ (q ++ key ++ q) ++ [x20] ++ colon :: [x20] ++ t ++ [])
    by (unfold q, B; cbn; rewrite ?app_nil_r; flat).
  apply jm_one; auto using ws_nil, ws_space. apply (jstring key). apply jplain_str. exact Hk.
Qed.

Theorem vba_json_value e p : info_plain e = true -> Forall json_literal (pr_References p) ->
  json_value (vba_json e p) (JObj (item_members e ++ project_members p)).
Proof.
  intros Hb Hr. unfold vba_json, project_members. rewrite optional_if, !version_if.
  set (refs := match pr_References p with [] => [] | l => B ", " ++ q ++ B "References" ++ q ++ B " : [" ++ vector_join l (B ",") true ++ B "]" end).
  set (mods := match pr_Modules p with [] => [] | l => B ", " ++ q ++ B "Modules" ++ q ++ B " : [" ++ join (B ",") (map module_json l) ++ B "]" end).
  set (b1 := negb (match pr_References p with [] => true | _ => false end)).
  set (b2 := negb (match pr_Modules p with [] => true | _ => false end)).
  assert (R : refs = if b1 then B ", " ++ (q ++ B "References" ++ q ++ B " : " ++ (B "[" ++ vector_join (pr_References p) (B ",") true ++ B "]")) else []).
  { unfold refs, b1. destruct (pr_References p); reflexivity. }
  assert (M : mods = if b2 then B ", " ++ (q ++ B "Modules" ++ q ++ B " : " ++ (B "[" ++ join (B ",") (map module_json (pr_Modules p)) ++ B "]")) else []).
  { unfold mods, b2. destruct (pr_Modules p); reflexivity. }
  assert (R' : match pr_References p with [] => [] | l => [(map b2n (B "References"), JArr (map (fun r => JStr (map b2n r)) l))] end =
     if b1 then [(map b2n (B "References"), JArr (map (fun r => JStr (map b2n r)) (pr_References p)))] else []).
  { unfold b1. destruct (pr_References p); reflexivity. }
  assert (M' : match pr_Modules p with [] => [] | l => [(map b2n (B "Modules"), JArr (map (fun m => JObj (module_members m)) l))] end =
     if b2 then [(map b2n (B "Modules"), JArr (map (fun m => JObj (module_members m)) (pr_Modules p)))] else []).
  { unfold b2. destruct (pr_Modules p); reflexivity. }
  rewrite R, M, R', M'. clear R M R' M'.
  match goal with |- json_value (B "{" ++ ?a ++ ?b ++ ?c ++ ?d ++ ?f ++ ?g ++ B "}") (JObj (?h ++ ?i ++ ?j ++ ?k ++ ?l ++ ?m)) =>
    replace (B "{" ++ a ++ b ++ c ++ d ++ f ++ g ++ B "}") with (B "{" ++ (((((a ++ b) ++ c) ++ d) ++ f) ++ g) ++ B "}") by (rewrite <- !app_assoc; reflexivity);
    replace (h ++ i ++ j ++ k ++ l ++ m) with (((((h ++ i) ++ j) ++ k) ++ l) ++ m) by (rewrite <- !app_assoc; reflexivity)
  end.
  apply object. unfold b2 at 1 2. destruct (pr_Modules p) as [|m0 ms] eqn:Em.
  all: cbn [negb]; rewrite ?app_nil_r.
  all: try (apply (members_opt true)).
  all: try (apply spaced_value; [reflexivity|]; apply array; [|discriminate]; apply Forall2_map; rewrite Forall_forall; intros m _; apply module_json_value).
  all: unfold b1; destruct (pr_References p) as [|r0 rs] eqn:Er; cbn [negb]; rewrite ?app_nil_r.
  all: try (apply (members_opt true); [|apply spaced_value; [reflexivity|]; apply references_json; [discriminate|exact Hr]]).
  all: repeat apply members_opt.
  all: try (apply base_json; exact Hb).
  all: try (apply jtext_one; reflexivity).
  all: apply spaced_value; [reflexivity|]; apply jv_num; apply dec_number.
Qed.

(** ** XML *)
Lemma escaped_content s : xml_content (XmlEscape s) (optional s (XText (map exchanged (map b2n s)))).
Proof.
  pose proof (text_content _ _ (XmlEscape_text s)) as H. destruct s as [|c s]; [exact H|].
  destruct (XmlEscape (c :: s)) eqn:E; [apply (proj1 (XmlEscape_nil _)) in E; discriminate E|]. exact H.
Qed.
Lemma literal_content s : xml_literal s -> xml_content s (xtext s).
Proof.
  intros L. assert (T : xml_text s (map b2n s)) by (induction L as [|c s [A B1] F IH]; cbn [map]; constructor; auto).
  apply text_content in T. destruct s; exact T.
Qed.
Lemma escaped_cons n s rest l : letters n = true -> xml_content rest l -> xml_content (xs n (XmlEscape s) ++ rest) (xescaped n s :: l).
Proof. intros Hn Hr. rewrite xs_xelem. apply elem_cons; [apply letters_name; exact Hn|apply escaped_content|exact Hr]. Qed.

Lemma module_xml_value m rest l : ~ contains cdata_close (md_Code m) -> xml_content rest l -> xml_content (module_xml m ++ rest) (module_node m :: l).
Proof.
  intros Hc Hr.
  replace (module_xml m) with (xs (B "Module") (xs (B "Name") (XmlEscape (md_Name m)) ++ xs (B "StreamName") (XmlEscape (md_StreamName m)) ++
     xs (B "Offset") (dec (md_Offset m)) ++ xs (B "isPrivate") (dec (bit (md_isPrivate m))) ++ xs (B "isReadOnly") (dec (bit (md_isReadOnly m))) ++
     xs (B "Code") (cdata_open ++ md_Code m ++ cdata_close))).
  2:{ unfold module_xml, xs. rewrite !flag_dec. rewrite <- !app_assoc. unfold cdata_open, cdata_close. reflexivity. }
  rewrite (xs_xelem (B "Module")). apply elem_cons; [apply letters_name; reflexivity| |exact Hr].
  apply escaped_cons; [reflexivity|]. apply escaped_cons; [reflexivity|]. do 3 (apply xs_cons; [reflexivity|apply dec_plain|]).
  rewrite (xs_xelem (B "Code")). apply elem_one; [apply letters_name; reflexivity|]. apply cdata_body. exact Hc.
Qed.
Lemma modules_xml l : Forall (fun m => ~ contains cdata_close (md_Code m)) l ->
  xml_content (join (B ",") (map module_xml l)) (comma_separated (map module_node l)).
Proof.
  induction 1 as [|m l Hm F IH]; [constructor|]. destruct l as [|m2 l].
  - cbn [map join comma_separated]. rewrite <- (app_nil_r (module_xml m)). apply module_xml_value; [exact Hm|constructor].
  - change (join (B ",") (map module_xml (m :: m2 :: l))) with (module_xml m ++ [x2c] ++ join (B ",") (map module_xml (m2 :: l))).
    change (comma_separated (map module_node (m :: m2 :: l))) with (module_node m :: XText [44] :: comma_separated (map module_node (m2 :: l))).
    apply module_xml_value; [exact Hm|]. apply (xc_text [x2c] [44]); [discriminate| | |exact IH].
    + apply (xt_raw x2c [] []); [cbn; lia| |constructor]. intros [K|[K|K]]; discriminate K.
    + right. cbn [map join]. destruct (map module_xml l); eexists; reflexivity.
Qed.
Lemma reference_cons s rest l : xml_literal s -> xml_content rest l -> xml_content (B "<Reference>" ++ s ++ B "</Reference>" ++ rest) (xfield (B "Reference") s :: l).
Proof.
  intros L Hr. replace (B "<Reference>" ++ s ++ B "</Reference>" ++ rest) with (xelem (B "Reference") s ++ rest) by (unfold xelem; flat).
  apply elem_cons; [apply letters_name; reflexivity|apply literal_content; exact L|exact Hr].
Qed.
Lemma references_xml l : Forall xml_literal l ->
  xml_content (List.concat (map (fun r => B "<Reference>" ++ r ++ B "</Reference>") l)) (map (xfield (B "Reference")) l).
Proof.
  induction 1 as [|s l Hs F IH]; cbn [map List.concat]; [constructor|]. rewrite <- !app_assoc. apply reference_cons; assumption.
Qed.
Theorem vba_xml_value e p : info_plain e = true -> Forall xml_literal (pr_References p) ->
  Forall (fun m => ~ contains cdata_close (md_Code m)) (pr_Modules p) ->
  xml_document (vba_xml e p) (XElem (B "item") (base_elements e ++ project_nodes p)).
Proof.
  intros Hb Hr Hm. unfold vba_xml, project_nodes, xml_document. rewrite optional_if, !version_if.
  match goal with |- xml_content (_ ++ ?a ++ ?b ++ ?c ++ ?d ++ ?f ++ ?g ++ _) _ =>
    replace (B "<item>" ++ a ++ b ++ c ++ d ++ f ++ g ++ B "</item>") with (xelem (B "item") (a ++ b ++ c ++ d ++ f ++ g)) by (unfold xelem; flat) end.
  apply elem_one; [apply letters_name; reflexivity|]. apply base_xml; [exact Hb|].
  assert (O : forall (c : bool) n s, letters n = true -> forall rest l, xml_content rest l ->
    xml_content ((if c then xs n (XmlEscape s) else []) ++ rest) ((if c then [xescaped n s] else []) ++ l)).
  { intros [] n s Hn rest l Hl; [apply escaped_cons; assumption|exact Hl]. }
  apply (O (nonempty (pr_Name p)) (B "projectname") (pr_Name p) eq_refl).
  apply (field_opt (0 <? pr_Major p) (B "VBAVersionMajor")); [reflexivity|apply dec_plain|].
  apply (field_opt (0 <? pr_Minor p) (B "VBAVersionMinor")); [reflexivity|apply dec_plain|].
  match goal with |- xml_content (?f ++ ?g) (?x ++ ?y) => assert (Hmods : xml_content g y) end.
  { destruct (pr_Modules p) as [|m ms]; [constructor|].
    match goal with |- xml_content (B "<Modules>" ++ ?x ++ B "</Modules>") _ => replace (B "<Modules>" ++ x ++ B "</Modules>") with (xelem (B "Modules") x) by (unfold xelem; flat) end.
    apply elem_one; [apply letters_name; reflexivity|]. apply modules_xml. exact Hm. }
  destruct (pr_References p) as [|r rs]; [exact Hmods|].
  match goal with |- xml_content ((B "<References>" ++ ?x ++ B "</References>") ++ _) _ => replace (B "<References>" ++ x ++ B "</References>") with (xelem (B "References") x) by (unfold xelem; flat) end.
  apply elem_cons; [apply letters_name; reflexivity| |exact Hmods]. apply references_xml. exact Hr.
Qed.
