(** Document building blocks for the content parsers: the inherited fields followed by more. *)
From Coq Require Import List NArith ZArith Bool Lia Strings.String.
From Coq Require Import ZifyBool ZifyNat ZifyN.
From Verif Require Import Lib.Res Lib.Bytes Lib.BytesFacts Lib.Text Lib.NumSpec Lib.NumFacts
     Common.Model Common.Spec Common.EscapeProofs Magic.Spec Magic.DocProofs.
Import ListNotations.
Local Open Scope N_scope.

Lemma member_plain key v w2 w3 : jplain key = true -> json_ws w2 -> json_ws w3 -> plain v = true ->
  json_members (q ++ key ++ q ++ w2 ++ [colon] ++ w3 ++ q ++ v ++ q) [jfield key v].
Proof. intros. apply member; auto using jplain_str, plain_jplain. Qed.

(** The inherited part of the objects and elements. *)
Lemma base_json e : info_plain e = true -> json_members (buildBaseJson e) (item_members e).
Proof.
  unfold info_plain. rewrite !andb_true_iff. intros [[[He Hn] Hs] Hv].
  unfold buildBaseJson, item_members.
  rewrite !optional_if, version_if. rewrite !app_assoc.
  repeat (apply members_opt);
    repeat rewrite <- app_assoc.
  - apply (member_plain (B "extension") (Extension e) [x20] [x20]); auto using ws_space.
  - apply (member_plain (B "name") (Name e) [] []); auto using ws_nil.
  - apply (member (B "subtype") (JsonEscape (SubType e)) _ [] []); auto using ws_nil.
    apply JsonEscape_str. apply plain_no_nul. exact Hs.
  - apply (member_plain (B "version") (dec (Version e)) [x20] [x20]); auto using ws_space, dec_plain.
  - apply (member_plain (B "versionname") (VersionName e) [x20] [x20]); auto using ws_space.
Qed.

Definition base_elements (e : ExtensionInfo) : list xnode :=
  [xfield (B "extension") (Extension e)] ++
  optional (Name e) (xfield (B "name") (Name e)) ++
  optional (SubType e) (xfield (B "subtype") (SubType e)) ++
  (if Version e =? 0 then [] else [xfield (B "version") (dec (Version e))]) ++
  optional (VersionName e) (xfield (B "versionname") (VersionName e)).

Lemma base_xml e rest l : info_plain e = true -> xml_content rest l ->
  xml_content (buildBaseXml e ++ rest) (base_elements e ++ l).
Proof.
  unfold info_plain. rewrite !andb_true_iff. intros [[[He Hn] Hs] Hv] Hr.
  unfold base_elements. rewrite !optional_if, version_if.
  unfold buildBaseXml. rewrite (plain_XmlEscape _ Hs).
  replace (B "<extension>" ++ Extension e ++ B "</extension>" ++
    (if nonempty (Name e) then B "<name>" ++ Name e ++ B "</name>" else []) ++
    (if nonempty (SubType e) then B "<subtype>" ++ SubType e ++ B "</subtype>" else []) ++
    (if 0 <? Version e then B "<version>" ++ dec (Version e) ++ B "</version>" else []) ++
    (if nonempty (VersionName e) then B "<versionname>" ++ VersionName e ++ B "</versionname>" else []))
  with (xelem (B "extension") (Extension e) ++
    (if nonempty (Name e) then xelem (B "name") (Name e) else []) ++
    (if nonempty (SubType e) then xelem (B "subtype") (SubType e) else []) ++
    (if 0 <? Version e then xelem (B "version") (dec (Version e)) else []) ++
    (if nonempty (VersionName e) then xelem (B "versionname") (VersionName e) else []))
  by (unfold xelem; flat).
  rewrite <- !app_assoc. cbn [app]. apply field_cons; [reflexivity|exact He|].
  apply (field_opt (nonempty (Name e)) (B "name")); [reflexivity|exact Hn|].
  apply (field_opt (nonempty (SubType e)) (B "subtype")); [reflexivity|exact Hs|].
  apply (field_opt (0 <? Version e) (B "version")); [reflexivity|apply dec_plain|].
  apply (field_opt (nonempty (VersionName e)) (B "versionname")); [reflexivity|exact Hv|].
  exact Hr.
Qed.

Lemma plain_app a b : plain (a ++ b) = plain a && plain b.
Proof. unfold plain. apply forallb_app. Qed.
Lemma int_to_hex_plain k n : plain (int_to_hex k n) = true.
Proof.
  unfold int_to_hex. rewrite plain_app. apply andb_true_iff. split; [reflexivity|].
  unfold plain. apply forallb_forall. intros c Hc. apply digit_plain.
  pose proof (pad0_hex_is_digit (k * 2) n) as H. rewrite Forall_forall in H. auto.
Qed.
