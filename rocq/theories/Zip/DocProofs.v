(** The documents with the details of an archive. *)
From Coq Require Import List NArith ZArith Bool Lia Strings.String.
From Coq Require Import ZifyBool ZifyNat ZifyN.
From Verif Require Import Lib.Res Lib.Bytes Lib.BytesFacts Lib.Text Lib.NumSpec Lib.NumFacts
     Common.Model Common.Spec Magic.Spec Magic.Model Magic.DocProofs Magic.DocBase
     Asf.Model Asf.DocProofs Vba.Statements Vba.OutputProofs Zip.Model Zip.Spec Zip.Statements.
Import ListNotations.
Local Open Scope N_scope.
Ltac Zify.zify_post_hook ::= Z.div_mod_to_equations.

Lemma int_as_int n : as_int n (int_text n).
Proof.
  unfold int_text. cbv zeta. change (2 ^ 32) with 4294967296. change (2 ^ 31) with 2147483648.
  destruct (N.ltb_spec (n mod 4294967296) 2147483648) as [L|L].
  - replace n with (n / 4294967296 * 2 ^ 32 + n mod 4294967296) at 1 by (change (2 ^ 32) with 4294967296; lia). apply ai_pos. exact L.
  - replace n with (n / 4294967296 * 2 ^ 32 + (2 ^ 32 - (4294967296 - n mod 4294967296))) at 1 by (change (2 ^ 32) with 4294967296; lia).
    apply ai_neg; [lia|change (2 ^ 31) with 2147483648; lia].
Qed.
Lemma as_int_fun n a b : as_int n a -> as_int n b -> a = b.
Proof.
  intros H. revert b. destruct H as [k n H|k n H1 H2]; intros b K; inversion K as [k' n' H' E1 E2|k' n' H1' H2' E1 E2]; subst;
    change (2 ^ 32) with 4294967296 in *; change (2 ^ 31) with 2147483648 in *.
  - assert (n = n') by lia. subst. reflexivity.
  - exfalso. lia.
  - exfalso. lia.
  - assert (n = n') by lia. subst. reflexivity.
Qed.
Lemma as_int_small n : n < 2 ^ 31 -> as_int n (dec n).
Proof. intros H. apply (ai_pos 0 n H). Qed.
Lemma literal_app a b : json_literal a -> json_literal b -> json_literal (a ++ b).
Proof. intros A C. apply Forall_app. split; assumption. Qed.
Lemma plain_literal s : plain s = true -> json_literal s.
Proof.
  intros H. apply Forall_forall. intros c Hc. unfold plain in H. rewrite forallb_forall in H. apply H in Hc.
  assert (A : forall c, plain [c] = true -> 32 <= b2n c < 128 /\ c <> x22 /\ c <> x5c).
  { clear. intros c. destruct c; vm_compute; try discriminate; intros _; repeat split; discriminate. }
  apply A. unfold plain. cbn [forallb]. rewrite Hc. reflexivity.
Qed.
Lemma plain_xml_literal s : plain s = true -> xml_literal s.
Proof.
  intros H. apply Forall_forall. intros c Hc. unfold plain in H. rewrite forallb_forall in H. apply H in Hc.
  assert (A : forall c, plain [c] = true -> 32 <= b2n c < 127 /\ ~ xml_markup c).
  { clear. intros c. destruct c; vm_compute; try discriminate; intros _; split; try (split; (reflexivity || discriminate)); intuition discriminate. }
  apply A. unfold plain. cbn [forallb]. rewrite Hc. reflexivity.
Qed.
Lemma int_plain n : plain (int_text n) = true.
Proof.
  unfold int_text. cbv zeta. destruct (_ <? _); [apply dec_plain|]. unfold plain. rewrite forallb_app.
  apply andb_true_iff. split; [reflexivity|apply dec_plain].
Qed.
Lemma described_int {A} (f : list (bytes * bytes) -> A) es : described f es (map (fun e => f (entry_fields e (int_text (z_csize e)))) es).
Proof. induction es as [|e es IH]; cbn [map]; constructor; [apply int_as_int|exact IH]. Qed.
Lemma described_fun {A} (f : list (bytes * bytes) -> A) es l : described f es l -> l = map (fun e => f (entry_fields e (int_text (z_csize e)))) es.
Proof. induction 1 as [|e es c l H D IH]; cbn [map]; [reflexivity|]. rewrite <- IH, (as_int_fun _ _ _ H (int_as_int _)). reflexivity. Qed.

Definition good_json (e : zentry) : Prop := json_literal (z_name e) /\ json_literal (z_comment e).
Definition good_xml (e : zentry) : Prop := xml_literal (z_name e) /\ xml_literal (z_comment e).
Lemma field_one k v : jplain k = true -> json_literal v -> json_members (js k v) [jfield k v].
Proof. intros Hk Hv. apply (member k v _ [] [] Hk ws_nil ws_nil). apply literal_str. exact Hv. Qed.
(** A member behind a comma and a space. *)
Lemma spaced t m : json_members t m -> json_members (B " " ++ t) m.
Proof.
  intros H. destruct H as [w1 k w2 w3 t s v w4 H1 Hk H2 H3 Hv H4|w1 k w2 w3 t s v w4 rest ms H1 Hk H2 H3 Hv H4 Hr].
  - apply (jm_one (x20 :: w1)); auto. constructor; [left; reflexivity|exact H1].
  - apply (jm_more (x20 :: w1)); auto. constructor; [left; reflexivity|exact H1].
Qed.
Lemma next_field t1 m1 t2 m2 : json_members t1 [m1] -> json_members t2 m2 -> json_members (t1 ++ B ", " ++ t2) (m1 :: m2).
Proof. intros H1 H2. replace (t1 ++ B ", " ++ t2) with (t1 ++ B "," ++ (B " " ++ t2)) by flat. apply more; [exact H1|apply spaced; exact H2]. Qed.
Lemma child_json_value e : good_json e -> json_value (child_json e) (json_fields (entry_fields e (int_text (z_csize e)))).
Proof.
  intros [Hn Hc]. unfold child_json, json_fields, entry_fields. cbn [map fst snd].
  match goal with |- json_value ?t (JObj ?l) =>
    replace t with (B "{" ++ (js (B "Name") (z_name e) ++ B ", " ++ js (B "Size") (dec (z_size e)) ++ B ", " ++
       js (B "CompressedSize") (int_text (z_csize e)) ++ B ", " ++ js (B "CompressionMethod") (method_name e) ++ B ", " ++
       js (B "IsPassworded") (digit_bit (z_password e)) ++ B ", " ++ js (B "Comment") (z_comment e) ++ B ", " ++ js (B "CRC32") (dec (z_crc e))) ++ B "}")
      by (unfold js; flat) end.
  apply object.
  apply next_field; [apply field_one; [reflexivity|exact Hn]|].
  apply next_field; [apply field_one; [reflexivity|apply plain_literal, dec_plain]|].
  apply next_field; [apply field_one; [reflexivity|apply plain_literal, int_plain]|].
  apply next_field; [apply field_one; [reflexivity|apply plain_literal; unfold method_name; destruct (z_deflate e); reflexivity]|].
  apply next_field; [apply field_one; [reflexivity|apply plain_literal; unfold digit_bit; destruct (z_password e); reflexivity]|].
  apply next_field; [apply field_one; [reflexivity|exact Hc]|].
  apply field_one; [reflexivity|apply plain_literal, dec_plain].
Qed.
Theorem zip_json_value es l : Forall good_json es -> described json_fields es l -> json_value (zip_json es) (zip_object l).
Proof.
  intros G D. apply described_fun in D. subst l. unfold zip_json, zip_object.
  assert (E1 : json_members (B " ""extension"" : ""zip""") [jfield (B "extension") (B "zip")]).
  { change (B " ""extension"" : ""zip""") with (B " " ++ (q ++ B "extension" ++ q ++ B " : " ++ (q ++ B "zip" ++ q))). apply spaced.
    apply spaced_value; [reflexivity|]. apply jv_str. apply jquoted. apply literal_str. apply plain_literal. reflexivity. }
  assert (E2 : json_members (js (B "name") (B "Zip File")) [jfield (B "name") (B "Zip File")]) by (apply field_one; [reflexivity|apply plain_literal; reflexivity]).
  destruct es as [|e es].
  - cbn [map app]. change (B "{ ""extension"" : ""zip""" ++ B ", ""name"":""Zip File""" ++ B "}") with
      (B "{" ++ (B " ""extension"" : ""zip""" ++ B ", " ++ js (B "name") (B "Zip File")) ++ B "}").
    apply object. apply next_field; assumption.
  - remember (e :: es) as all eqn:Ea.
    match goal with |- json_value ?t (JObj ?m) => replace t
      with (B "{" ++ (B " ""extension"" : ""zip""" ++ B ", " ++ js (B "name") (B "Zip File") ++ B ", " ++ (q ++ B "children" ++ q ++ B ":" ++ (B "[" ++ join (B ",") (map child_json all) ++ B "]"))) ++ B "}")
      by (subst all; unfold js; flat) end.
    match goal with |- json_value _ (JObj ?m) => replace m with (jfield (B "extension") (B "zip") :: jfield (B "name") (B "Zip File") ::
      [(map b2n (B "children"), JArr (map (fun e0 => json_fields (entry_fields e0 (int_text (z_csize e0)))) all))]) by (subst all; reflexivity) end.
    apply object. apply next_field; [exact E1|]. apply next_field; [exact E2|].
    replace (q ++ B "children" ++ q ++ B ":" ++ (B "[" ++ join (B ",") (map child_json all) ++ B "]"))
      with ([] ++ (q ++ B "children" ++ q) ++ [] ++ colon :: [] ++ (B "[" ++ join (B ",") (map child_json all) ++ B "]") ++ [])
      by (rewrite app_nil_r; flat).
    apply jm_one; auto using ws_nil.
    + apply (jstring (B "children")). apply jplain_str. reflexivity.
    + apply array; [|subst all; discriminate]. apply Forall2_map. eapply Forall_impl; [|exact G]. intros x Hx. apply child_json_value. exact Hx.
Qed.

Lemma xfield_cons n s rest l : letters n = true -> xml_literal s -> xml_content rest l -> xml_content (xs n s ++ rest) (xfield n s :: l).
Proof. intros Hn Hs Hr. rewrite xs_xelem. apply elem_cons; [apply letters_name; exact Hn|apply literal_content; exact Hs|exact Hr]. Qed.
Lemma children_xml es : Forall good_xml es ->
  xml_content (List.concat (map child_xml es)) (map (fun e => xml_fields (entry_fields e (int_text (z_csize e)))) es).
Proof.
  induction 1 as [|e es [Hn Hc] G IH]; cbn [map List.concat]; [constructor|].
  replace (child_xml e) with (xs (B "file") (xs (B "Name") (z_name e) ++ xs (B "Size") (dec (z_size e)) ++ xs (B "CompressedSize") (int_text (z_csize e)) ++
     xs (B "CompressionMethod") (method_name e) ++ xs (B "IsPassworded") (digit_bit (z_password e)) ++ xs (B "Comment") (z_comment e) ++ xs (B "CRC32") (dec (z_crc e)) ++ []))
    by (unfold xs, child_xml; flat).
  rewrite (xs_xelem (B "file")). apply elem_cons; [apply letters_name; reflexivity| |exact IH]. unfold entry_fields. cbn [map fst snd].
  apply xfield_cons; [reflexivity|exact Hn|].
  apply xfield_cons; [reflexivity|apply plain_xml_literal, dec_plain|].
  apply xfield_cons; [reflexivity|apply plain_xml_literal, int_plain|].
  apply xfield_cons; [reflexivity|apply plain_xml_literal; unfold method_name; destruct (z_deflate e); reflexivity|].
  apply xfield_cons; [reflexivity|apply plain_xml_literal; unfold digit_bit; destruct (z_password e); reflexivity|].
  apply xfield_cons; [reflexivity|exact Hc|].
  rewrite (xs_xelem (B "CRC32")). apply elem_cons; [|apply literal_content, plain_xml_literal, dec_plain|constructor].
  exists x43, (B "RC32"). split; [reflexivity|]. split; [left; split; discriminate|].
  do 4 (apply Forall_cons; [unfold name_char, name_start; vm_compute; intuition (discriminate || auto)|]). constructor.
Qed.
Theorem zip_xml_value es l : Forall good_xml es -> described xml_fields es l -> xml_document (zip_xml es) (zip_element l).
Proof.
  intros G D. apply described_fun in D. subst l. unfold zip_xml, zip_element, xml_document.
  replace (B "<item>" ++ B "<extension>zip</extension>" ++ B "<name>Zip File</name>" ++ match es with [] => [] | _ => B "<children>" ++ List.concat (map child_xml es) ++ B "</children>" end ++ B "</item>")
    with (xelem (B "item") (xs (B "extension") (B "zip") ++ xs (B "name") (B "Zip File") ++ match es with [] => [] | _ => xelem (B "children") (List.concat (map child_xml es)) end)).
  2:{ unfold xs, xelem. destruct es; flat. }
  apply elem_one; [apply letters_name; reflexivity|].
  apply xfield_cons; [reflexivity|apply plain_xml_literal; reflexivity|]. apply xfield_cons; [reflexivity|apply plain_xml_literal; reflexivity|].
  destruct es as [|e es]; [constructor|].
  change (match map (fun e0 => xml_fields (entry_fields e0 (int_text (z_csize e0)))) (e :: es) with [] => [] | _ =>
    [XElem (B "children") (map (fun e0 => xml_fields (entry_fields e0 (int_text (z_csize e0)))) (e :: es))] end)
    with [XElem (B "children") (map (fun e0 => xml_fields (entry_fields e0 (int_text (z_csize e0)))) (e :: es))].
  apply elem_one; [apply letters_name; reflexivity|]. apply children_xml. exact G.
Qed.
