(** Proofs that the JSON, XML and CSV documents are well formed and say what they should. *)
From Coq Require Import List NArith ZArith Bool Lia Strings.String.
From Coq Require Import ZifyBool ZifyNat ZifyN.
From Verif Require Import Lib.Res Lib.Bytes Lib.BytesFacts Lib.Text Lib.NumSpec Lib.NumFacts
     Common.Model Common.Spec Common.EscapeProofs Magic.Table Magic.Model Magic.Spec.
Import ListNotations.
Local Open Scope N_scope.

(** Equality of two byte strings up to the grouping of appends. *)
Ltac flat := cbn [app]; repeat (rewrite <- app_assoc; cbn [app]); reflexivity.

(** ** JSON building blocks *)
Definition jplain_b (c : byte) : bool :=
  (32 <=? b2n c) && (b2n c <? 128) && negb (byte_eqb c x22) && negb (byte_eqb c x5c).
Definition jplain (s : bytes) : bool := forallb jplain_b s.

Lemma jplain_str s : jplain s = true -> json_str s (map b2n s).
Proof.
  induction s as [|c s IH]; cbn [jplain forallb map]; intros H; [constructor|].
  apply andb_true_iff in H. destruct H as [Hc H]. unfold jplain_b in Hc.
  rewrite !andb_true_iff, !negb_true_iff in Hc. destruct Hc as [[Hc H1] H2].
  apply js_raw; [lia| | |apply IH; exact H].
  - intros ->. discriminate H1.
  - intros ->. discriminate H2.
Qed.

Lemma jquoted t s : json_str t s -> json_string (q ++ t ++ q) s.
Proof. apply jstring. Qed.

Lemma ws_nil : json_ws [].
Proof. constructor. Qed.
Lemma ws_space : json_ws [x20].
Proof. repeat constructor. Qed.

Lemma members_ws w t ms : json_ws w -> json_members t ms -> json_members (w ++ t) ms.
Proof.
  intros Hw H. destruct H as [w1 k n w2 w3 t v w4 H1 H2 H3 H4 H5 H6|w1 k n w2 w3 t v w4 ts ms H1 H2 H3 H4 H5 H6 H7].
  - rewrite app_assoc. apply jm_one; auto. unfold json_ws in *. apply Forall_app; auto.
  - rewrite app_assoc. apply jm_more; auto. unfold json_ws in *. apply Forall_app; auto.
Qed.

Lemma members_app t1 m1 t2 m2 : json_members t1 m1 -> json_members t2 m2 ->
  json_members (t1 ++ comma :: t2) (m1 ++ m2).
Proof.
  intros H H2.
  induction H as [w1 k n w2 w3 t v w4 A1 A2 A3 A4 A5 A6|w1 k n w2 w3 t v w4 ts ms A1 A2 A3 A4 A5 A6 A7 IH].
  - replace ((w1 ++ k ++ w2 ++ colon :: w3 ++ t ++ w4) ++ comma :: t2)
      with (w1 ++ k ++ w2 ++ colon :: w3 ++ t ++ w4 ++ comma :: t2)
      by (rewrite <- !app_assoc; cbn [app]; rewrite <- !app_assoc; reflexivity).
    cbn [app]. apply jm_more; auto.
  - replace ((w1 ++ k ++ w2 ++ colon :: w3 ++ t ++ w4 ++ comma :: ts) ++ comma :: t2)
      with (w1 ++ k ++ w2 ++ colon :: w3 ++ t ++ w4 ++ comma :: (ts ++ comma :: t2))
      by (rewrite <- !app_assoc; cbn [app]; rewrite <- !app_assoc; cbn [app]; reflexivity).
    cbn [app]. apply jm_more; auto.
Qed.

Lemma member key t s w2 w3 : jplain key = true -> json_ws w2 -> json_ws w3 -> json_str t s ->
  json_members (q ++ key ++ q ++ w2 ++ [colon] ++ w3 ++ q ++ t ++ q) [(map b2n key, JStr s)].
Proof.
  intros Hk H2 H3 Hs.
  replace (q ++ key ++ q ++ w2 ++ [colon] ++ w3 ++ q ++ t ++ q)
    with ([] ++ (q ++ key ++ q) ++ w2 ++ colon :: w3 ++ (q ++ t ++ q) ++ [])
    by (rewrite app_nil_r, <- !app_assoc; reflexivity).
  apply jm_one; auto using ws_nil, jquoted, jplain_str.
  apply jv_str, jquoted, Hs.
Qed.

Lemma members_opt (c : bool) t m t2 m2 : json_members t m -> json_members t2 m2 ->
  json_members (t ++ (if c then B ", " ++ t2 else [])) (m ++ (if c then m2 else [])).
Proof.
  intros H H2. destruct c.
  - change (B ", " ++ t2) with (comma :: [x20] ++ t2).
    apply members_app; [exact H|]. apply members_ws; [apply ws_space|exact H2].
  - rewrite !app_nil_r. exact H.
Qed.


(** Characters that need no escaping anywhere: not special in JSON, XML or CSV. *)
Definition plain_b (c : byte) : bool :=
  (32 <=? b2n c) && (b2n c <? 127) && negb (byte_eqb c x22) && negb (byte_eqb c x5c) &&
  negb (byte_eqb c x26) && negb (byte_eqb c x27) && negb (byte_eqb c x3c) && negb (byte_eqb c x3e) &&
  negb (byte_eqb c x2c).
Definition plain (s : bytes) : bool := forallb plain_b s.

Lemma plain_jplain s : plain s = true -> jplain s = true.
Proof.
  unfold plain, jplain. rewrite !forallb_forall. intros H c Hc. specialize (H c Hc).
  revert H. assert (forall c, implb (plain_b c) (jplain_b c) = true) as K
    by (apply forall_bytes; vm_compute; reflexivity).
  specialize (K c). destruct (plain_b c), (jplain_b c); cbn in K; congruence.
Qed.

Lemma digit_plain c : is_digit 16 c -> plain_b c = true.
Proof.
  intros [v Hv].
  assert (forall c, implb (match digit_value 16 c with Some v => true | None => false end) (plain_b c) = true) as K
    by (apply forall_bytes; vm_compute; reflexivity).
  specialize (K c). rewrite Hv in K. exact K.
Qed.

Lemma digit10_16 c : is_digit 10 c -> is_digit 16 c.
Proof.
  unfold is_digit, digit_value. intros [v Hv]. exists v. revert Hv.
  match goal with |- (if ?a <? 10 then _ else _) = _ -> _ => set (x := a) end.
  destruct (N.ltb_spec x 10); [|discriminate]. destruct (N.ltb_spec x 16); [auto|lia].
Qed.

Lemma dec_plain n : plain (dec n) = true.
Proof.
  unfold plain. apply forallb_forall. intros c Hc. apply digit_plain, digit10_16.
  pose proof (dec_is_digit n) as H. rewrite Forall_forall in H. auto.
Qed.

Lemma bin2hex_plain l : plain (bin2hex11 l) = true.
Proof.
  unfold plain. apply forallb_forall. intros c Hc. unfold bin2hex11 in Hc.
  apply in_concat in Hc. destruct Hc as (x & Hx & Hc). apply in_map_iff in Hx.
  destruct Hx as (b & <- & _). apply digit_plain.
  pose proof (pad0_hex_is_digit 2 (b2n b)) as H. rewrite Forall_forall in H. auto.
Qed.

(** ** JSON documents *)
Definition info_plain (e : ExtensionInfo) : bool :=
  plain (Extension e) && plain (Name e) && plain (SubType e) && plain (VersionName e).

Lemma plain_no_nul s : plain s = true -> ~ In x00 s.
Proof. unfold plain. rewrite forallb_forall. intros H Hi. specialize (H _ Hi). discriminate H. Qed.

Lemma optional_if {A} v (x : A) : optional v x = if nonempty v then [x] else [].
Proof. destruct v; reflexivity. Qed.

Lemma version_if {A} n (x : list A) : (if n =? 0 then [] else x) = if 0 <? n then x else [].
Proof. destruct (N.eqb_spec n 0), (N.ltb_spec 0 n); try reflexivity; lia. Qed.

Lemma item_json e : info_plain e = true ->
  json_value (ext_ToJson e) (JObj (item_members e)).
Proof.
  unfold info_plain. rewrite !andb_true_iff. intros [[[He Hn] Hs] Hv].
  unfold ext_ToJson. change (B "{") with [x7b]. change (B "}") with [x7d].
  apply jv_obj. unfold buildBaseJson, item_members.
  rewrite !optional_if, version_if. rewrite !app_assoc.
  repeat (apply members_opt);
    repeat rewrite <- app_assoc.
  - apply (member (B "extension") (Extension e) _ [x20] [x20]);
      auto using ws_space, jplain_str, plain_jplain.
  - apply (member (B "name") (Name e) _ [] []);
      auto using ws_nil, jplain_str, plain_jplain.
  - apply (member (B "subtype") (JsonEscape (SubType e)) _ [] []); auto using ws_nil.
    apply JsonEscape_str. apply plain_no_nul. exact Hs.
  - apply (member (B "version") (dec (Version e)) _ [x20] [x20]);
      auto using ws_space, jplain_str, plain_jplain, dec_plain.
  - apply (member (B "versionname") (VersionName e) _ [x20] [x20]);
      auto using ws_space, jplain_str, plain_jplain.
Qed.

Lemma unknown_json sample shown : before_nul sample shown ->
  json_value (unknown_ToJson sample) (JObj (unknown_members shown (bin2hex11 sample))).
Proof.
  intros Hb. unfold unknown_ToJson. change (B "{") with [x7b]. change (B "}") with [x7d].
  cbn [Extension VersionName unknown_info].
  match goal with |- json_value ?t ?v =>
    replace t with (x7b :: ((q ++ B "extension" ++ q ++ B " : " ++ q ++ B "unknown" ++ q) ++
      comma :: [x20] ++ (q ++ B "name" ++ q ++ B " : " ++ q ++ B "Unknown File" ++ q) ++
      comma :: [x20] ++ (q ++ B "sampleStr" ++ q ++ B ":" ++ q ++ JsonEscape sample ++ q) ++
      comma :: [x20] ++ (q ++ B "sampleHex" ++ q ++ B ":" ++ q ++ bin2hex11 sample ++ q)) ++ [x7d])
    by flat
  end.
  apply jv_obj. unfold unknown_members.
  change ([?a; ?b; ?c; ?d]) with ([a] ++ [b] ++ [c] ++ [d]).
  repeat (apply members_app; [|apply members_ws; [apply ws_space|]]).
  - apply (member (B "extension") (B "unknown") _ [x20] [x20]); auto using ws_space, jplain_str.
  - apply (member (B "name") (B "Unknown File") _ [x20] [x20]); auto using ws_space, jplain_str.
  - apply (member (B "sampleStr") (JsonEscape sample) _ [] []); auto using ws_nil.
    rewrite (JsonEscape_before_nul _ _ Hb). apply JsonEscape_str.
    destruct Hb; assumption.
  - apply (member (B "sampleHex") (bin2hex11 sample) _ [] []); auto using ws_nil.
    apply jplain_str, plain_jplain, bin2hex_plain.
Qed.

Lemma elements_join ts vs : Forall2 json_value ts vs -> ts <> [] ->
  json_elements (join (B ",") ts) vs.
Proof.
  induction 1 as [|t v ts vs H Hr IH]; intros Hn; [congruence|].
  destruct Hr as [|t2 v2 ts vs H2 Hr].
  - cbn [join]. change t with ([] ++ t). rewrite <- (app_nil_r ([] ++ t)), <- app_assoc.
    apply je_one; auto using ws_nil.
  - change (join (B ",") (t :: t2 :: ts)) with ([] ++ t ++ [] ++ comma :: join (B ",") (t2 :: ts)).
    apply je_more; auto using ws_nil. apply IH. discriminate.
Qed.

Lemma output_json file rs vs :
  ~ In x00 file -> rs <> [] -> Forall2 json_value (map eJson rs) vs ->
  json_value (Output JSON file (B "extensions") rs)
    (JObj [(map b2n (B "name"), JStr (map b2n file)); (map b2n (B "extensions"), JArr vs)]).
Proof.
  intros Hf Hn Hv. unfold Output. change (B "{") with [x7b]. change (B "]}") with [x5d; x7d].
  match goal with |- json_value ?t ?v =>
    replace t with (x7b :: ((q ++ B "name" ++ q ++ B ":" ++ q ++ JsonEscape file ++ q) ++
      comma :: ([] ++ (q ++ B "extensions" ++ q) ++ [] ++ colon :: [] ++
        (x5b :: join (B ",") (map eJson rs) ++ [x5d]) ++ [])) ++ [x7d])
    by flat
  end.
  apply jv_obj.
  change ([(map b2n (B "name"), JStr (map b2n file)); (map b2n (B "extensions"), JArr vs)])
    with ([(map b2n (B "name"), JStr (map b2n file))] ++ [(map b2n (B "extensions"), JArr vs)]).
  apply members_app.
  - apply (member (B "name") (JsonEscape file) _ [] []); auto using ws_nil, JsonEscape_str.
  - apply jm_one; auto using ws_nil.
    + apply jquoted, jplain_str. reflexivity.
    + apply jv_arr, elements_join; [exact Hv|]. destruct rs; [congruence|discriminate].
Qed.

(** ** XML documents *)
Definition xelem (n body : bytes) : bytes := [x3c] ++ n ++ [x3e] ++ body ++ [x3c; x2f] ++ n ++ [x3e].

Lemma elem_cons n body ch rest l : xml_name n -> xml_content body ch -> xml_content rest l ->
  xml_content (xelem n body ++ rest) (XElem n ch :: l).
Proof.
  intros Hn Hb Hr. unfold xelem. repeat rewrite <- app_assoc. cbn [app]. apply xc_elem; assumption.
Qed.

Lemma elem_one n body ch : xml_name n -> xml_content body ch ->
  xml_content (xelem n body) [XElem n ch].
Proof. intros Hn Hb. rewrite <- (app_nil_r (xelem n body)). apply elem_cons; auto using xc_nil. Qed.

Definition letter_b (c : byte) : bool :=
  (65 <=? b2n c) && (b2n c <=? 90) || (97 <=? b2n c) && (b2n c <=? 122) || byte_eqb c x5f.
Definition letters (n : bytes) : bool :=
  match n with
  | [] => false
  | c :: t => letter_b c && forallb (fun c => letter_b c || (48 <=? b2n c) && (b2n c <=? 57)) t
  end.
Lemma letter_start c : letter_b c = true -> name_start c.
Proof.
  unfold letter_b, name_start. rewrite !orb_true_iff. intros [[H|H]|H]; [lia|lia|].
  right. right. apply byte_eqb_eq. exact H.
Qed.
Lemma letters_name n : letters n = true -> xml_name n.
Proof.
  destruct n as [|c n]; [discriminate|]. cbn [letters]. rewrite andb_true_iff. intros [Hc H].
  exists c, n. split; [reflexivity|]. split; [apply letter_start; exact Hc|].
  apply Forall_forall. intros x Hx. rewrite forallb_forall in H. specialize (H x Hx).
  rewrite orb_true_iff in H. destruct H as [H|H]; [left; apply letter_start; exact H|right; lia].
Qed.

Lemma plain_xml s : plain s = true -> xml_text s (map b2n s).
Proof.
  induction s as [|c s IH]; cbn [plain forallb map]; intros H; [constructor|].
  apply andb_true_iff in H. destruct H as [Hc H]. apply xt_raw; [| |apply IH; exact H].
  - unfold plain_b in Hc. rewrite !andb_true_iff in Hc. lia.
  - unfold xml_markup. intros K. unfold plain_b in Hc.
    destruct K as [->|[->| ->]]; discriminate Hc.
Qed.

Lemma text_content t s : xml_text t s ->
  xml_content t (match t with [] => [] | _ => [XText s] end).
Proof.
  intros H. destruct t as [|c t]; [constructor|].
  rewrite <- (app_nil_r (c :: t)). apply xc_text; auto using xc_nil. discriminate.
Qed.

Lemma plain_content s : plain s = true -> xml_content s (xtext s).
Proof. intros H. apply plain_xml, text_content in H. destruct s; exact H. Qed.

Lemma plain_XmlEscape s : plain s = true -> XmlEscape s = s.
Proof.
  unfold XmlEscape. induction s as [|c s IH]; cbn [plain forallb map List.concat]; intros H; [reflexivity|].
  apply andb_true_iff in H. destruct H as [Hc H]. rewrite IH by exact H.
  assert (forall c, implb (plain_b c) (bytes_eqb (xml_char c) [c]) = true) as K
    by (apply forall_bytes; vm_compute; reflexivity).
  specialize (K c). rewrite Hc in K. cbn [implb] in K. apply bytes_eqb_eq in K. rewrite K. reflexivity.
Qed.

Lemma field_cons n s rest l : letters n = true -> plain s = true -> xml_content rest l ->
  xml_content (xelem n s ++ rest) (xfield n s :: l).
Proof. intros Hn Hs Hr. apply elem_cons; auto using letters_name, plain_content. Qed.

Lemma field_opt (c : bool) n s rest l : letters n = true -> plain s = true -> xml_content rest l ->
  xml_content ((if c then xelem n s else []) ++ rest) ((if c then [xfield n s] else []) ++ l).
Proof. intros Hn Hs Hr. destruct c; [|exact Hr]. cbn [app]. apply field_cons; assumption. Qed.

Lemma item_xml e : info_plain e = true -> forall rest l, xml_content rest l ->
  xml_content (ext_ToXml e ++ rest) (item_element e :: l).
Proof.
  unfold info_plain. rewrite !andb_true_iff. intros [[[He Hn] Hs] Hv] rest l Hr.
  change (ext_ToXml e) with (B "<item>" ++ buildBaseXml e ++ B "</item>").
  replace (B "<item>" ++ buildBaseXml e ++ B "</item>") with (xelem (B "item") (buildBaseXml e))
    by (unfold xelem; flat).
  apply elem_cons; [apply letters_name; reflexivity| |exact Hr].
  rewrite !optional_if, version_if.
  unfold buildBaseXml. rewrite (plain_XmlEscape _ Hs).
  replace (if nonempty (VersionName e) then B "<versionname>" ++ VersionName e ++ B "</versionname>" else [])
    with ((if nonempty (VersionName e) then xelem (B "versionname") (VersionName e) else []) ++ [])
    by (rewrite app_nil_r; destruct (nonempty (VersionName e)); reflexivity).
  rewrite <- (app_nil_r (if nonempty (VersionName e) then [xfield _ _] else [])).
  repeat rewrite app_assoc. repeat rewrite <- app_assoc.
  change (B "<extension>" ++ Extension e ++ B "</extension>" ++ ?r)
    with (B "<extension>" ++ Extension e ++ B "</extension>" ++ r).
  match goal with |- xml_content (B "<extension>" ++ Extension e ++ B "</extension>" ++ ?r) _ =>
    replace (B "<extension>" ++ Extension e ++ B "</extension>" ++ r)
      with (xelem (B "extension") (Extension e) ++ r)
      by (unfold xelem; flat)
  end.
  apply field_cons; [reflexivity|exact He|].
  apply (field_opt (nonempty (Name e)) (B "name")); [reflexivity|exact Hn|].
  apply (field_opt (nonempty (SubType e)) (B "subtype")); [reflexivity|exact Hs|].
  apply (field_opt (0 <? Version e) (B "version")); [reflexivity|apply dec_plain|].
  apply (field_opt (nonempty (VersionName e)) (B "versionname")); [reflexivity|exact Hv|].
  constructor.
Qed.

Lemma XmlEscape_no_close s : ~ contains cdata_close (XmlEscape s).
Proof.
  intros (a & b & E). pose proof (XmlEscape_plain s) as H. rewrite E in H.
  rewrite Forall_forall in H. specialize (H x3e).
  destruct H as (_ & _ & _ & _ & H); [|congruence].
  apply in_or_app. right. apply in_or_app. left. right. right. left. reflexivity.
Qed.

Lemma cdata_body s : ~ contains cdata_close s ->
  xml_content (cdata_open ++ s ++ cdata_close) [XCData s].
Proof.
  intros H. rewrite <- (app_nil_r cdata_close). apply xc_cdata; auto using xc_nil.
Qed.

Lemma unknown_xml sample rest l : xml_content rest l ->
  xml_content (unknown_ToXml sample ++ rest)
              (unknown_element (XmlEscape sample) (bin2hex11 sample) :: l).
Proof.
  intros Hr.
  replace (unknown_ToXml sample)
    with (xelem (B "item")
            (xelem (B "extension") (B "unknown") ++ xelem (B "name") (B "Unknown File") ++
             xelem (B "sampleStr") (cdata_open ++ XmlEscape sample ++ cdata_close) ++
             xelem (B "sampleHex") (bin2hex11 sample) ++ [])).
  2:{ unfold xelem, unknown_ToXml, unknown_info, cdata_open, cdata_close. cbn [Extension VersionName].
      rewrite app_nil_r. flat. }
  apply elem_cons; [apply letters_name; reflexivity| |exact Hr].
  apply field_cons; [reflexivity|reflexivity|].
  apply field_cons; [reflexivity|reflexivity|].
  apply elem_cons; [apply letters_name; reflexivity|apply cdata_body, XmlEscape_no_close|].
  apply field_cons; [reflexivity|apply bin2hex_plain|]. constructor.
Qed.

Definition shown_name (file : bytes) : list xnode :=
  match file with [] => [] | _ => [XText (map swap_angle (map b2n file))] end.

Lemma XmlEscape_nil s : XmlEscape s = [] <-> s = [].
Proof.
  split; [|intros ->; reflexivity]. destruct s as [|c s]; [reflexivity|].
  unfold XmlEscape. cbn [map List.concat]. intros H. apply app_eq_nil in H. destruct H as [H _].
  exfalso. revert H.
  assert (forall c, negb (match xml_char c with [] => true | _ => false end) = true) as K
    by (apply forall_bytes; vm_compute; reflexivity).
  specialize (K c). destruct (xml_char c); [discriminate K|discriminate].
Qed.

Lemma output_xml file rs l :
  xml_content (List.concat (map eXml rs)) l ->
  xml_document (Output XML file (B "extensions") rs)
    (XElem (B "file") [XElem (B "name") (shown_name file); XElem (B "extensions") l]).
Proof.
  intros Hl. unfold xml_document.
  replace (Output XML file (B "extensions") rs)
    with (xelem (B "file") (xelem (B "name") (XmlEscape file) ++
                            xelem (B "extensions") (List.concat (map eXml rs)))).
  2:{ unfold xelem, Output. flat. }
  apply elem_one; [apply letters_name; reflexivity|].
  apply elem_cons; [apply letters_name; reflexivity| |].
  - pose proof (text_content _ _ (XmlEscape_text file)) as H.
    destruct file as [|c file]; [exact H|]. cbn [shown_name].
    destruct (XmlEscape (c :: file)) eqn:E; [apply (proj1 (XmlEscape_nil _)) in E; discriminate|exact H].
  - apply elem_one; [apply letters_name; reflexivity|exact Hl].
Qed.

(** ** CSV *)
Lemma columns_app a b : columns (a ++ comma :: b) = columns a + columns b.
Proof.
  induction a as [|c a IH]; cbn [app columns]; [reflexivity|].
  destruct (byte_eqb c comma); lia.
Qed.

Lemma columns_plain s : plain s = true -> columns s = 1.
Proof.
  induction s as [|c s IH]; cbn [plain forallb columns]; intros H; [reflexivity|].
  apply andb_true_iff in H. destruct H as [Hc H].
  destruct (byte_eqb c comma) eqn:E; [|auto]. apply byte_eqb_eq in E. subst. discriminate Hc.
Qed.

Lemma plain_no_nl s : plain s = true -> ~ In x0a s.
Proof. unfold plain. rewrite forallb_forall. intros H Hi. specialize (H _ Hi). discriminate H. Qed.

Lemma csv_columns e : info_plain e = true -> columns (ext_ToCsv e) = 5 /\ ~ In x0a (ext_ToCsv e).
Proof.
  unfold info_plain. rewrite !andb_true_iff. intros [[[He Hn] Hs] Hv].
  unfold ext_ToCsv. cbn [join]. change ([x2c] ++ ?r) with (comma :: r). cbn [app].
  rewrite !columns_app, !columns_plain; auto using dec_plain. split; [reflexivity|].
  assert (x2c <> x0a) by discriminate.
  pose proof (dec_plain (Version e)) as Hd.
  rewrite !in_app_iff; cbn [In]; rewrite !in_app_iff; cbn [In]; rewrite !in_app_iff; cbn [In]; rewrite !in_app_iff; cbn [In].
  pose proof (plain_no_nl _ He). pose proof (plain_no_nl _ Hn). pose proof (plain_no_nl _ Hs).
  pose proof (plain_no_nl _ Hv). pose proof (plain_no_nl _ Hd). intuition congruence.
Qed.

Lemma csv_output file rs : Forall (fun e => ~ In x0a (eCsv e)) rs ->
  csv_lines (Output CSV file (B "extensions") rs) (map eCsv rs).
Proof.
  intros H. unfold Output. induction H as [|e rs He H IH]; cbn [map List.concat]; [constructor|].
  unfold nl. rewrite <- app_assoc. cbn [app]. apply cl_line; assumption.
Qed.

(** ** The table *)
Lemma table_plain : forallb (fun mi => match mi_func mi with
                                      | None => plain (mi_ext mi) && plain (mi_name mi) && plain (mi_version mi)
                                      | Some _ => true end) table = true.
Proof. vm_compute. reflexivity. Qed.

Lemma signature_plain mi : In mi table -> mi_func mi = None -> info_plain (signature_info mi) = true.
Proof.
  intros Hi Hf. pose proof table_plain as T. rewrite forallb_forall in T. specialize (T mi Hi).
  cbv beta in T. rewrite Hf in T. rewrite !andb_true_iff in T. destruct T as [[T1 T2] T3].
  unfold info_plain, signature_info. cbn [Extension Name SubType VersionName].
  rewrite T1, T2. destruct (0 <? lenN (mi_version mi)); [rewrite T3|]; reflexivity.
Qed.
