(** The documents for a property. *)
From Coq Require Import List NArith ZArith Lia Bool Strings.String ZifyBool ZifyNat ZifyN.
From Verif Require Import Lib.Res Lib.Bytes Lib.BytesFacts Lib.Text Lib.NumSpec Lib.NumFacts Common.Model Common.Spec
  Common.EscapeProofs Common.Fields Common.TimeProofs Magic.Spec Magic.DocProofs Magic.DocBase Magic.DocUnique Asf.Model Asf.DocProofs Vba.Statements
  Vba.OutputProofs Propset.Model Propset.Output Propset.Spec Propset.Statements Propset.NumberProofs.
Import ListNotations.
Local Open Scope N_scope.
Ltac Zify.zify_post_hook ::= Z.div_mod_to_equations.
Arguments N.pow : simpl never.
Arguments Z.pow : simpl never.

Lemma digits_plain s : Forall (is_digit 10) s -> plain s = true.
Proof.
  intros H. unfold plain. apply forallb_forall. intros c Hc. rewrite Forall_forall in H. destruct (H c Hc) as [v Hv].
  revert Hv. assert (K : forall c, match digit_value 10 c with Some _ => plain_b c | None => true end = true)
    by (apply forall_bytes; vm_compute; reflexivity).
  intros Hv. specialize (K c). rewrite Hv in K. exact K.
Qed.
Lemma plain_dec n : plain (dec n) = true.
Proof. apply digits_plain, dec_is_digit. Qed.
Lemma plain_pad w n : plain (pad0 w (dec n)) = true.
Proof. apply digits_plain, pad0_dec_is_digit. Qed.
Ltac plains := rewrite ?plain_app, ?plain_dec, ?plain_pad; try reflexivity.

Lemma duration_plain n : plain (displayDuration n) = true.
Proof. unfold displayDuration. rewrite !plain_app, !plain_pad. destruct (_ || _); [rewrite !plain_app, !plain_pad|]; reflexivity. Qed.
Lemma moment_plain pl n : plain (FileTimeToString_on pl n) = true.
Proof.
  unfold FileTimeToString_on, FileTimeToString, strftime_FT. destruct (_ && _)%bool; [reflexivity|].
  destruct (_ <? _)%Z; [|reflexivity]. rewrite !plain_app, !plain_pad, plain_dec. reflexivity.
Qed.
Lemma moment_ok pl n : n < 2 ^ 64 -> moment_text pl n (FileTimeToString_on pl n).
Proof.
  intros Hn. unfold moment_text, FileTimeToString_on. destruct (N.lt_ge_cases n (unix_epoch_ticks + 10000000)) as [H|H].
  - left. split; [exact H|]. rewrite FileTimeToString_before by assumption.
    assert (C : (convertFILETIME n <= 0)%Z).
    { destruct (N.lt_ge_cases n unix_epoch_ticks) as [K|K]; [apply convertFILETIME_before; exact K|].
      rewrite convertFILETIME_after by assumption. unfold unix_epoch_ticks in *. lia. }
    destruct (Z.ltb_spec (32536850399 + 46800) (convertFILETIME n)) as [X|X]; [exfalso; lia|]. rewrite andb_false_r. reflexivity.
  - right. split; [exact H|]. cbn zeta. rewrite convertFILETIME_after by (unfold unix_epoch_ticks in *; lia).
    set (s := (n - unix_epoch_ticks) / 10000000). unfold last_second.
    destruct (N.eqb_spec (sizeof_wchar pl) 2) as [W|W]; cbn [andb].
    + destruct (Z.ltb_spec (32536850399 + 46800) (Z.of_N s)); [left; split; [exact W|split; [lia|reflexivity]]|].
      right. split; [lia|]. apply FileTimeToString_after; assumption.
    + right. split; [tauto|]. apply FileTimeToString_after; assumption.
Qed.

(** ** Names *)
Lemma lookup_in n t s : lookup n t = Some s -> In (n, s) t.
Proof.
  induction t as [|[k v] t IH]; cbn [lookup]; [discriminate|]. destruct (N.eqb_spec n k) as [->|_]; intros H.
  - injection H as ->. left. reflexivity.
  - right. apply IH. exact H.
Qed.
Lemma lookup_plain n t s : forallb (fun r => plain (snd r)) t = true -> lookup n t = Some s -> plain s = true.
Proof. intros H E. apply lookup_in in E. rewrite forallb_forall in H. exact (H _ E). Qed.
Lemma pid_plain f pid : plain (PropertyIdentifierToString f pid) = true.
Proof.
  unfold PropertyIdentifierToString.
  assert (U : plain (B "Unknown Property Identifier (" ++ dec pid ++ B ")") = true) by (rewrite !plain_app, plain_dec; reflexivity).
  destruct f; try exact U.
  - destruct (lookup pid summary_names) eqn:E; [|exact U]. eapply lookup_plain; [|exact E]. vm_compute; reflexivity.
  - destruct (lookup pid doc_names) eqn:E; [|exact U]. eapply lookup_plain; [|exact E]. vm_compute; reflexivity.
Qed.
Lemma type_plain t : plain (PropertyTypeToString t) = true.
Proof.
  unfold PropertyTypeToString. destruct (lookup t type_names) eqn:E.
  - eapply lookup_plain; [|exact E]. vm_compute; reflexivity.
  - rewrite !plain_app, plain_dec. reflexivity.
Qed.

(** ** JSON *)
Lemma plain_string s : plain s = true -> json_value (B """" ++ s ++ B """") (JStr (map b2n s)).
Proof. intros H. apply jv_str. apply (jstring s). apply jplain_str, plain_jplain, H. Qed.

Lemma value_json_ok pl p : value_ok (p_value p) -> is_finite (p_value p) ->
  exists j, json_value (value_json pl p) j /\ json_shows pl (p_pid p) (p_type p) (p_value p) j.
Proof.
  unfold value_json. intros Hv Hf. destruct (p_value p) as [s|[neg m e|neg|neg f]|n|b|]; cbn [json_shows value_ok is_finite] in *; try tauto.
  - eexists. split; [|reflexivity]. destruct (until_nul_escape s) as [-> H]. apply jv_str. apply (jstring (JsonEscape (until_nul s))).
    apply JsonEscape_str. exact H.
  - destruct (number_text pl neg m e Hv) as (j & Hj & Hn). exists j. split; assumption.
  - destruct (p_type p =? 64).
    + eexists. split; [|eexists; split; [reflexivity|]].
      * apply plain_string. destruct (p_pid p =? 10); [apply duration_plain|apply moment_plain].
      * destruct (p_pid p =? 10); [apply displayDuration_text|apply moment_ok; exact Hv].
    + exists (JNum n). split; [apply jv_num, dec_number|reflexivity].
  - eexists. split; [|reflexivity]. destruct b; constructor.
  - eexists. split; [|reflexivity]. apply (plain_string (B "unknown")). reflexivity.
Qed.

Theorem property_json pl p : value_ok (p_value p) -> is_finite (p_value p) ->
  exists j, json_value (ToJson pl p) (property_object (PropertyIdentifierToString (p_fmt p) (p_pid p)) (PropertyTypeToString (p_type p)) j) /\
    json_shows pl (p_pid p) (p_type p) (p_value p) j.
Proof.
  intros Hv Hf. destruct (value_json_ok pl p Hv Hf) as (j & Hj & Hs). exists j. split; [|exact Hs].
  pose proof (object _ _ (js_more (B "Property") (PropertyIdentifierToString (p_fmt p) (p_pid p)) _ _ eq_refl (pid_plain _ _)
    (js_more (B "Type") (PropertyTypeToString (p_type p)) _ _ eq_refl (type_plain _)
      (member_value (B "Value") [] _ _ eq_refl (Forall_nil _) Hj)))) as D.
  unfold ToJson, property_object. unfold js, q in D. rewrite <- ?app_assoc in D. cbn [app] in D |- *. rewrite <- ?app_assoc.
  exact D.
Qed.

(** ** What is not a number *)
Lemma special_value pl d : ~ is_finite (VFloat d) -> forall f r, DocUnique.p_value f (double_text pl d ++ r) = None.
Proof.
  destruct d as [neg m e|neg|neg x]; cbn [is_finite]; [tauto| |]; intros _ [|f] r; try reflexivity.
  - destruct neg; reflexivity.
  - cbn [double_text]. unfold nan_text.
    destruct neg, (sizeof_wchar pl =? 2), (x <? 2 ^ 51), (x =? 2 ^ 51); reflexivity.
Qed.
Lemma special_start pl d r : ~ is_finite (VFloat d) -> p_ws (double_text pl d ++ r) = double_text pl d ++ r.
Proof.
  destruct d as [neg m e|neg|neg x]; cbn [is_finite]; [tauto| |]; intros _.
  - destruct neg; reflexivity.
  - cbn [double_text]. unfold nan_text.
    destruct neg, (sizeof_wchar pl =? 2), (x <? 2 ^ 51), (x =? 2 ^ 51); reflexivity.
Qed.
Lemma member_parse f key v u : jplain key = true -> jplain v = true ->
  p_members (S (S f)) (x22 :: key ++ x22 :: x3a :: x22 :: v ++ x22 :: x2c :: u) =
  match p_members (S f) (p_ws u) with Some (l, u') => Some ((map b2n key, JStr (map b2n v)) :: l, u') | None => None end.
Proof.
  intros Hk Hv. pose proof (p_str_complete _ _ (jplain_str _ Hk)) as Pk. pose proof (p_str_complete _ _ (jplain_str _ Hv)) as Pv.
  assert (V : forall r, DocUnique.p_value (S f) (x22 :: v ++ x22 :: r) = Some (JStr (map b2n v), r)).
  { intros r. cbn [DocUnique.p_value]. change (byte_eqb x22 x22) with true. cbv iota. rewrite Pv. reflexivity. }
  generalize dependent (S f). intros g V. cbn [p_members]. rewrite Pk. cbn [p_ws ws_byte]. rewrite V. cbn [p_ws ws_byte]. reflexivity.
Qed.
Lemma special_json pl p : ~ is_finite (p_value p) -> forall j, ~ json_value (ToJson pl p) j.
Proof.
  intros Hf. apply json_reject. unfold json_parse.
  assert (Hl : exists f, (2 * List.length (ToJson pl p) = S (S (S (S f))))%nat).
  { assert (3 <= List.length (ToJson pl p))%nat; [|exists (2 * List.length (ToJson pl p) - 4)%nat; lia].
    unfold ToJson. rewrite app_length, (app_length (B """Property"":""")). change (List.length (B """Property"":""")) with 12%nat. lia. }
  destruct Hl as [f ->]. unfold value_json. destruct (p_value p) as [|d| | |] eqn:Ev; try (cbn in Hf; tauto).
  assert (Et : ToJson pl p = x7b :: x22 :: B "Property" ++ x22 :: x3a :: x22 :: PropertyIdentifierToString (p_fmt p) (p_pid p) ++
     x22 :: x2c :: x22 :: B "Type" ++ x22 :: x3a :: x22 :: PropertyTypeToString (p_type p) ++ x22 :: x2c :: x22 :: B "Value" ++ x22 :: x3a :: double_text pl d ++ B "}").
  { unfold ToJson, value_json. rewrite Ev. cbn [app B list_byte_of_string map]. reflexivity. }
  rewrite Et. clear Et.
  assert (Z : p_members (S (S f)) (x22 :: B "Value" ++ x22 :: x3a :: double_text pl d ++ B "}") = None).
  { pose proof (special_value pl d Hf (S f) (B "}")) as V. generalize dependent (S f). intros g V. cbn [p_members].
    rewrite (p_str_complete _ _ (jplain_str (B "Value") eq_refl)). cbn [p_ws ws_byte].
    rewrite special_start by exact Hf. rewrite V. reflexivity. }
  match goal with |- context [x7b :: ?t] => assert (M : p_members (S (S (S (S f)))) t = None) end.
  { rewrite member_parse; [|reflexivity|apply plain_jplain, pid_plain]. cbn [p_ws ws_byte].
    rewrite member_parse; [|reflexivity|apply plain_jplain, type_plain]. cbn [p_ws ws_byte]. rewrite Z. reflexivity. }
  generalize dependent (S (S (S (S f)))). intros g M. clear Z. cbn [DocUnique.p_value].
  change (byte_eqb x7b x22) with false. change (byte_eqb x7b x5b) with false. change (byte_eqb x7b x7b) with true.
  cbn [p_ws ws_byte]. rewrite M. reflexivity.
Qed.

(** ** XML *)
Lemma json_number_plain t j : json_value t j -> forall m e, is_number j m e -> xml_literal t /\ t <> [].
Proof.
  assert (D : forall d n, dec_num d = Some n -> xml_literal d /\ d <> []).
  { intros d n H. split; [|intros ->; discriminate H]. apply num_digits in H. eapply Forall_impl; [|exact H].
    intros c [v Hv]. revert Hv. assert (K : forall c, match digit_value 10 c with Some _ => (32 <=? b2n c) && (b2n c <? 127) && negb (byte_eqb c x26) && negb (byte_eqb c x3c) && negb (byte_eqb c x3e) && negb (byte_eqb c x22) && negb (byte_eqb c x27) | None => true end = true)
      by (apply forall_bytes; vm_compute; reflexivity).
    intros Hv. specialize (K c). rewrite Hv in K.
    rewrite !andb_true_iff, !negb_true_iff, !byte_eqb_neq in K. split; [lia|]. unfold xml_markup. tauto. }
  assert (S : forall c, In c [x2d; x2e; x65; x45; x2b] -> 32 <= b2n c < 127 /\ ~ xml_markup c).
  { intros c H. cbn [In] in H. unfold xml_markup.
    destruct H as [<-|[<-|[<-|[<-|[<-|[]]]]]]; (split; [vm_compute; split; congruence|]); intros X; decompose [or] X; discriminate. }
  intros H m e Hn. destruct H; cbn [is_number] in Hn; try contradiction.
  - exact (D _ _ (proj1 H)).
  - destruct H as [neg i k frac d ex x n Hi Hf Hx Hm _]. destruct (D _ _ (proj1 Hi)) as [Li Ni]. split.
    + apply Forall_app. split; [destruct neg; [constructor; [apply S; cbn; tauto|constructor]|constructor]|].
      apply Forall_app. split; [exact Li|]. apply Forall_app. split.
      * destruct Hf as [[-> _]|[-> [y Hy]]]; [constructor|]. constructor; [apply S; cbn; tauto|exact (proj1 (D _ _ Hy))].
      * destruct Hx as [[-> _]|(mk & sg & dd & y & -> & Hmk & Hd & Hs)]; [constructor|].
        constructor; [apply S; destruct Hmk; subst; cbn; tauto|]. apply Forall_app. split; [|exact (proj1 (D _ _ Hd))].
        destruct Hs as [[[->| ->] _]|[-> _]]; [constructor| |]; (constructor; [apply S; cbn; tauto|constructor]).
    + destruct neg; cbn; [discriminate|]. destruct i; [congruence|discriminate].
Qed.
Lemma literal_cons n s rest l : letters n = true -> xml_literal s -> xml_content rest l -> xml_content (xs n s ++ rest) (xfield n s :: l).
Proof.
  intros Hn Hs Hr. unfold xs, xfield. rewrite <- !app_assoc. apply (xc_elem n s (xtext s) rest l (letters_name n Hn) (literal_content s Hs) Hr).
Qed.
Lemma plain_literal s : plain s = true -> xml_literal s.
Proof.
  unfold plain, xml_literal. rewrite forallb_forall, Forall_forall. intros H c Hc. specialize (H c Hc). unfold plain_b in H.
  rewrite !andb_true_iff, !negb_true_iff, !byte_eqb_neq in H. split; [lia|]. unfold xml_markup. tauto.
Qed.

Lemma value_xml_ok pl p rest l : value_ok (p_value p) -> xml_content rest l ->
  exists x, xml_content (xs (B "Value") (value_xml pl p) ++ rest) (x :: l) /\ xml_shows (p_value p) x.
Proof.
  unfold value_xml. intros Hv Hr. destruct (p_value p) as [s|[neg m e|neg|neg f]|n|b|]; cbn [xml_shows value_ok] in *.
  - eexists. split; [|reflexivity]. apply escaped_cons; [reflexivity|exact Hr].
  - destruct (number_text pl neg m e Hv) as (j & Hj & Hn). eexists. split; [|exists (double_text pl (Num neg m e)), j; auto].
    apply literal_cons; [reflexivity| |exact Hr]. destruct Hn as (a & y & Hi & _). exact (proj1 (json_number_plain _ _ Hj _ _ Hi)).
  - eexists. split; [|reflexivity]. destruct neg; (apply literal_cons; [reflexivity|apply plain_literal; reflexivity|exact Hr]).
  - eexists. split; [|eexists; reflexivity]. apply literal_cons; [reflexivity| |exact Hr]. apply plain_literal.
    cbn [double_text]. rewrite plain_app. unfold nan_text. destruct neg, (sizeof_wchar pl =? 2), (f <? 2 ^ 51), (f =? 2 ^ 51); reflexivity.
  - eexists. split; [|reflexivity]. apply literal_cons; [reflexivity|apply plain_literal, plain_dec|exact Hr].
  - eexists. split; [|reflexivity]. destruct b; (apply literal_cons; [reflexivity|apply plain_literal; reflexivity|exact Hr]).
  - eexists. split; [|reflexivity]. apply literal_cons; [reflexivity|apply plain_literal; reflexivity|exact Hr].
Qed.
Theorem property_xml pl p rest l : value_ok (p_value p) -> xml_content rest l ->
  exists x, xml_content (ToXML pl p ++ rest)
      (property_element (PropertyIdentifierToString (p_fmt p) (p_pid p)) (PropertyTypeToString (p_type p)) x :: l) /\
    xml_shows (p_value p) x.
Proof.
  intros Hv Hr. destruct (value_xml_ok pl p [] [] Hv xc_nil) as (x & Hx & Hs). exists x. split; [|exact Hs].
  pose proof (literal_cons (B "Property") (PropertyIdentifierToString (p_fmt p) (p_pid p)) _ _ eq_refl (plain_literal _ (pid_plain _ _))
    (literal_cons (B "Type") (PropertyTypeToString (p_type p)) _ _ eq_refl (plain_literal _ (type_plain _)) Hx)) as D.
  pose proof (xc_elem (B "PropertyItem") _ _ rest l (letters_name (B "PropertyItem") eq_refl) D Hr) as E.
  unfold ToXML, property_element. unfold xs in E. rewrite app_nil_r in E. rewrite <- ?app_assoc in E. cbn [app] in E |- *. rewrite <- ?app_assoc.
  exact E.
Qed.
