(** The documents for the results. *)
From Coq Require Import List NArith ZArith Lia Bool Strings.String ZifyBool ZifyNat ZifyN.
From Verif Require Import Lib.Res Lib.Bytes Lib.BytesFacts Lib.Text Common.Model Common.Spec Common.Utf8 Common.Utf8Proofs Common.EscapeProofs
  Magic.Spec Magic.DocProofs Magic.DocBase Asf.Model Asf.DocProofs Vba.Statements Vba.OutputProofs
  Propset.Model Propset.Output Propset.Spec Propset.Statements Propset.DocProofs Docs.Model Media.WordPerfect
  Detect.Model Detect.Output Detect.Spec Detect.Statements.
Import ListNotations.
Local Open Scope N_scope.

(** ** Texts *)
Lemma utf8_no_nul s l : utf8 s l -> Forall (fun c => c <> 0) l -> ~ In x00 s.
Proof.
  induction 1 as [|s c t l Hc Hl IH]; intros F; [intros []|]. inversion F as [|? ? Nc F']; subst. intros I. apply in_app_or in I.
  destruct I as [I|I]; [|exact (IH F' I)].
  inversion Hc; subst; cbn [In] in I; repeat (destruct I as [I|I]; [subst; cbn in *; lia|]); destruct I.
Qed.
Lemma unicode_convert x : unicode x -> exists u, convert x = Ok u /\ utf8 u x /\ ~ In x00 u.
Proof.
  intros U. assert (S : Forall scalar x) by (eapply Forall_impl; [|exact U]; intros c H; apply H).
  destruct (convert_ok x (Forall_scalar_range x S)) as [u E]. exists u. pose proof (convert_utf8 x u E S) as H.
  split; [exact E|]. split; [exact H|]. eapply utf8_no_nul; [exact H|]. eapply Forall_impl; [|exact U]. intros c K. apply K.
Qed.
Lemma c_string_nonzero x : Forall (fun c => c <> 0) x -> c_string x = x.
Proof. induction 1 as [|c x H F IH]; cbn [c_string]; [reflexivity|]. destruct (N.eqb_spec c 0); [contradiction|]. rewrite IH. reflexivity. Qed.
Lemma paths_convert paths : Forall unicode paths ->
  exists us, mapM path_utf8 paths = Ok us /\ Forall2 (fun p u => utf8 u p) paths us /\ Forall (fun u => ~ In x00 u) us.
Proof.
  induction 1 as [|p paths U F (us & E & F2 & N)]; cbn [mapM]; [exists []; repeat split; constructor|].
  destruct (unicode_convert p U) as (u & Eu & Hu & Nu). unfold path_utf8 at 1. rewrite c_string_nonzero, Eu, E.
  - cbn [bind]. exists (u :: us). split; [reflexivity|]. split; constructor; assumption.
  - eapply Forall_impl; [|exact U]. intros c K. apply K.
Qed.

(** ** JSON *)
Definition shown (p : property) : Prop := value_ok (p_value p) /\ is_finite (p_value p).
Lemma group_json_ok pl g : unicode (fst g) -> Forall shown (snd g) -> exists t j, group_json pl g = Ok t /\ json_value t j /\ group_value pl g j.
Proof.
  intros U F. destruct (unicode_convert _ U) as (u & Eu & Hu & Nu). unfold group_json. rewrite Eu. cbn [bind]. eexists.
  assert (P : exists l, Forall2 json_value (map (ToJson pl) (snd g)) l /\ Forall2 (property_value pl) (snd g) l).
  { clear - F. induction F as [|p ps [Hv Hf] F (l & A & C)]; [exists []; split; constructor|]. destruct (property_json pl p Hv Hf) as (j & Hj & Hs).
    eexists (_ :: l). cbn [map]. split; constructor; [exact Hj|exact A| |exact C]. exists j. split; [reflexivity|exact Hs]. }
  destruct P as (l & A & C). exists (JObj [jfield (B "Group") u; (map b2n (B "properties"), JArr l)]). split; [reflexivity|]. split.
  - match goal with |- json_value ?t _ =>
      replace t with (B "{" ++ ((q ++ B "Group" ++ q ++ [] ++ [colon] ++ [] ++ q ++ JsonEscape u ++ q) ++ B "," ++
        (q ++ B "properties" ++ q ++ B ":" ++ [x20] ++ B "[" ++ join (B ",") (map (ToJson pl) (snd g)) ++ B "]")) ++ B "}") end.
    2:{ flat. }
    apply object. apply more.
    + apply (member (B "Group") (JsonEscape u) (map b2n u) [] []); [reflexivity|apply ws_nil|apply ws_nil|]. apply JsonEscape_str. exact Nu.
    + apply member_value; [reflexivity|apply ws_space|]. destruct (map (ToJson pl) (snd g)) as [|t ts] eqn:Em.
      * inversion A; subst. apply (jv_arr0 []). apply ws_nil.
      * rewrite <- Em in *. apply array; [exact A|rewrite Em; discriminate].
  - exists u, l. split; [exact Hu|]. split; [exact C|reflexivity].
Qed.
Lemma groups_json pl gs : Forall (fun g => unicode (fst g) /\ Forall shown (snd g)) gs ->
  exists ts js, mapM (group_json pl) gs = Ok ts /\ Forall2 json_value ts js /\ Forall2 (group_value pl) gs js.
Proof.
  induction 1 as [|g gs [U S] F (ts & js & E & A & C)]; cbn [mapM]; [exists [], []; repeat split; constructor|].
  destruct (group_json_ok pl g U S) as (t & j & Et & Hj & Hg). rewrite Et, E. cbn [bind]. exists (t :: ts), (j :: js). repeat split; constructor; assumption.
Qed.
Lemma paths_json us : us <> [] -> Forall (fun u => ~ In x00 u) us ->
  json_value (B "[" ++ join (B ",") (map (fun p => B """" ++ JsonEscape p ++ B """") us) ++ B "]") (JArr (map (fun u => JStr (map b2n u)) us)).
Proof.
  intros N F. apply array; [|destruct us; [contradiction|discriminate]]. apply Forall2_map. eapply Forall_impl; [|exact F]. intros u Hu.
  apply jv_str. apply jquoted. apply JsonEscape_str. exact Hu.
Qed.
Lemma oless_members pl e paths props : info_plain e = true -> Forall unicode paths -> Forall (fun g => unicode (fst g) /\ Forall shown (snd g)) props ->
  exists t us gs, oless_base_json pl e paths props = Ok t /\ Forall2 (fun p u => utf8 u p) paths us /\ Forall2 (group_value pl) props gs /\
    json_members t (item_members e ++ list_member (B "Paths") (map (fun u => JStr (map b2n u)) us) ++ list_member (B "properties") gs).
Proof.
  intros He Hp Hg. destruct (paths_convert paths Hp) as (us & Eu & Fu & Nu). destruct (groups_json pl props Hg) as (ts & js & Et & Fj & Fg).
  unfold oless_base_json. rewrite Eu, Et. cbn [bind]. eexists. exists us, js. split; [reflexivity|]. split; [exact Fu|]. split; [exact Fg|].
  assert (J1 : json_members (buildBaseJson e ++ match us with [] => [] | _ => B ", ""Paths"": [" ++ join (B ",") (map (fun p => B """" ++ JsonEscape p ++ B """") us) ++ B "]" end)
                            (item_members e ++ list_member (B "Paths") (map (fun u => JStr (map b2n u)) us))).
  { destruct us as [|u us]; [cbn [map list_member]; rewrite !app_nil_r; apply base_json; exact He|]. unfold list_member. cbn [map].
    apply (members_app (buildBaseJson e) (item_members e)); [apply base_json; exact He|]. apply members_ws with (w := [x20]); [apply ws_space|].
    apply (member_value (B "Paths") [x20]); [reflexivity|apply ws_space|]. apply (paths_json (u :: us)); [discriminate|exact Nu]. }
  rewrite !app_assoc. destruct ts as [|t ts].
  - inversion Fj; subst. cbn [list_member]. rewrite !app_nil_r. exact J1.
  - destruct js as [|j js]; [inversion Fj|]. unfold list_member at 2.
    apply (members_app _ _ _ _ J1). apply (member_value (B "properties") [x20]); [reflexivity|apply ws_space|]. apply array; [exact Fj|discriminate].
Qed.
Theorem oless_json pl e paths props : info_plain e = true -> Forall unicode paths -> Forall (fun g => unicode (fst g) /\ Forall shown (snd g)) props ->
  exists t us gs, oless_render pl JSON e paths props = Ok t /\ Forall2 (fun p u => utf8 u p) paths us /\ Forall2 (group_value pl) props gs /\
    json_value t (JObj (item_members e ++ list_member (B "Paths") (map (fun u => JStr (map b2n u)) us) ++ list_member (B "properties") gs)).
Proof.
  intros He Hp Hg. destruct (oless_members pl e paths props He Hp Hg) as (t & us & gs & E & A & C & J). unfold oless_render. rewrite E. cbn [bind].
  eexists. exists us, gs. split; [reflexivity|]. split; [exact A|]. split; [exact C|]. apply object. exact J.
Qed.

(** ** XML *)
Lemma properties_xml pl ps : Forall (fun p => value_ok (p_value p)) ps ->
  exists l, Forall2 property_node ps l /\ xml_content (List.concat (map (ToXML pl) ps)) l.
Proof.
  induction 1 as [|p ps Hp F (l & A & C)]; [exists []; split; constructor|]. cbn [map List.concat].
  destruct (property_xml pl p _ _ Hp C) as (x & Hx & Hs). eexists. split; [|exact Hx]. constructor; [|exact A]. exists x. split; [reflexivity|exact Hs].
Qed.
Lemma group_xml_ok pl g : unicode (fst g) -> Forall (fun p => value_ok (p_value p)) (snd g) ->
  exists t x, group_xml pl g = Ok t /\ group_node g x /\ forall rest l, xml_content rest l -> xml_content (t ++ rest) (x :: l).
Proof.
  intros U F. destruct (unicode_convert _ U) as (u & Eu & Hu & Nu). destruct (properties_xml pl _ F) as (l & A & C). unfold group_xml. rewrite Eu. cbn [bind].
  eexists. exists (XElem (B "Group") [xescaped (B "Name") u; XElem (B "properties") l]). split; [reflexivity|]. split; [exists u, l; auto|]. intros rest l' Hr.
  match goal with |- xml_content (?t ++ rest) _ =>
    replace t with (xelem (B "Group") (xs (B "Name") (XmlEscape u) ++ xelem (B "properties") (List.concat (map (ToXML pl) (snd g))))) end.
  2:{ unfold xelem, xs. flat. }
  apply elem_cons; [apply letters_name; reflexivity| |exact Hr]. apply escaped_cons; [reflexivity|]. apply elem_one; [apply letters_name; reflexivity|exact C].
Qed.
Lemma groups_xml pl gs : Forall (fun g => unicode (fst g) /\ Forall (fun p => value_ok (p_value p)) (snd g)) gs ->
  exists ts xs, mapM (group_xml pl) gs = Ok ts /\ lenN ts = lenN xs /\ Forall2 group_node gs xs /\ xml_content (List.concat ts) xs.
Proof.
  induction 1 as [|g gs [U S] F (ts & xs & E & L & A & C)]; cbn [mapM]; [exists [], []; repeat split; constructor|].
  destruct (group_xml_ok pl g U S) as (t & x & Et & Hg & Hx). rewrite Et, E. cbn [bind]. exists (t :: ts), (x :: xs). split; [reflexivity|].
  split; [rewrite !lenN_cons, L; reflexivity|]. split; [constructor; assumption|]. apply Hx. exact C.
Qed.
Lemma paths_xml us : xml_content (join (B ",") (map (fun p => B "<Path>" ++ XmlEscape p ++ B "</Path>") us)) (comma_separated (map (xescaped (B "Path")) us)).
Proof.
  induction us as [|u us IH]; [constructor|].
  assert (O : forall rest l, xml_content rest l -> xml_content ((B "<Path>" ++ XmlEscape u ++ B "</Path>") ++ rest) (xescaped (B "Path") u :: l)).
  { intros rest l Hr. apply (escaped_cons (B "Path") u rest l eq_refl Hr). }
  destruct us as [|u2 us].
  - cbn [map join comma_separated]. rewrite <- (app_nil_r (B "<Path>" ++ _)). apply O. constructor.
  - change (join (B ",") (map (fun p => B "<Path>" ++ XmlEscape p ++ B "</Path>") (u :: u2 :: us))) with
      ((B "<Path>" ++ XmlEscape u ++ B "</Path>") ++ [x2c] ++ join (B ",") (map (fun p => B "<Path>" ++ XmlEscape p ++ B "</Path>") (u2 :: us))).
    change (comma_separated (map (xescaped (B "Path")) (u :: u2 :: us))) with (xescaped (B "Path") u :: XText [44] :: comma_separated (map (xescaped (B "Path")) (u2 :: us))).
    apply O. apply (xc_text [x2c] [44]); [discriminate| | |exact IH].
    + apply (xt_raw x2c [] []); [cbn; lia| |constructor]. intros [K|[K|K]]; discriminate K.
    + right. cbn [map join]. destruct (map _ us); eexists; reflexivity.
Qed.
Lemma oless_elements pl e paths props rest l : info_plain e = true -> Forall unicode paths ->
  Forall (fun g => unicode (fst g) /\ Forall (fun p => value_ok (p_value p)) (snd g)) props -> xml_content rest l ->
  exists t us gs, oless_base_xml pl e paths props = Ok t /\ Forall2 (fun p u => utf8 u p) paths us /\ Forall2 group_node props gs /\
    xml_content (t ++ rest) (base_elements e ++ list_element (B "Paths") (comma_separated (map (xescaped (B "Path")) us)) ++
                             list_element (B "properties") gs ++ l).
Proof.
  intros He Hp Hg Hr. destruct (paths_convert paths Hp) as (us & Eu & Fu & Nu). destruct (groups_xml pl props Hg) as (ts & gs & Et & Lt & Fg & Cg).
  unfold oless_base_xml. rewrite Eu, Et. cbn [bind]. eexists. exists us, gs. split; [reflexivity|]. split; [exact Fu|]. split; [exact Fg|].
  rewrite <- !app_assoc. apply base_xml; [exact He|].
  match goal with |- xml_content (?x ++ ?y) (?v ++ ?w) => assert (G : xml_content y w) end.
  { destruct ts as [|t ts]; [destruct gs; [exact Hr|rewrite lenN_cons in Lt; cbn in Lt; lia]|]. destruct gs as [|g gs]; [rewrite lenN_cons in Lt; cbn in Lt; lia|].
    unfold list_element. match goal with |- xml_content ((B "<properties>" ++ ?b ++ B "</properties>") ++ _) _ => replace (B "<properties>" ++ b ++ B "</properties>") with (xelem (B "properties") b) by (unfold xelem; flat) end.
    apply elem_cons; [apply letters_name; reflexivity|exact Cg|exact Hr]. }
  destruct us as [|u us]; [exact G|].
  replace (list_element (B "Paths") (comma_separated (map (xescaped (B "Path")) (u :: us)))) with [XElem (B "Paths") (comma_separated (map (xescaped (B "Path")) (u :: us)))]
    by (cbn [map comma_separated]; destruct (map (xescaped (B "Path")) us); reflexivity).
  match goal with |- xml_content ((B "<Paths>" ++ ?b ++ B "</Paths>") ++ _) _ => replace (B "<Paths>" ++ b ++ B "</Paths>") with (xelem (B "Paths") b) by (unfold xelem; flat) end.
  apply elem_cons; [apply letters_name; reflexivity|apply paths_xml|exact G].
Qed.
Theorem oless_xml pl e paths props : info_plain e = true -> Forall unicode paths ->
  Forall (fun g => unicode (fst g) /\ Forall (fun p => value_ok (p_value p)) (snd g)) props ->
  exists t us gs, oless_render pl XML e paths props = Ok t /\ Forall2 (fun p u => utf8 u p) paths us /\ Forall2 group_node props gs /\
    xml_document t (XElem (B "item") (base_elements e ++ list_element (B "Paths") (comma_separated (map (xescaped (B "Path")) us)) ++
                                      list_element (B "properties") gs)).
Proof.
  intros He Hp Hg. destruct (oless_elements pl e paths props [] [] He Hp Hg xc_nil) as (t & us & gs & E & A & C & J). unfold oless_render. rewrite E. cbn [bind].
  eexists. exists us, gs. split; [reflexivity|]. split; [exact A|]. split; [exact C|]. rewrite !app_nil_r in J.
  unfold xml_document. replace (B "<item>" ++ t ++ B "</item>") with (xelem (B "item") t) by (unfold xelem; flat).
  apply elem_one; [apply letters_name; reflexivity|exact J].
Qed.

(** ** Texts that do not convert *)
Definition too_big (p : list N) : Prop := ~ Forall (fun c => c < 1114112) (c_string p).
Lemma c_string_before w : forall p, before_zero w p -> c_string w = p.
Proof.
  induction w as [|c w IH]; intros p (Nz & H); cbn [c_string].
  - destruct H as [<-|(r & H)]; [reflexivity|destruct p; discriminate H].
  - destruct (N.eqb_spec c 0) as [->|Nc].
    + destruct p as [|d p]; [reflexivity|]. exfalso. apply Nz. left. destruct H as [H|(r & H)]; injection H as <- _; reflexivity.
    + destruct p as [|d p]; [destruct H as [H|(r & H)]; [discriminate H|injection H as -> _; contradiction]|].
      destruct H as [H|(r & H)].
      * injection H as <- <-. rewrite (IH w); [reflexivity|]. split; [intros I; apply Nz; right; exact I|left; reflexivity].
      * injection H as <- H. rewrite (IH p); [reflexivity|]. split; [intros I; apply Nz; right; exact I|right; exists r; exact H].
Qed.
Lemma too_big_before w p : before_zero w p -> ~ Forall (fun c => c < 1114112) p -> too_big w.
Proof. intros Hb N. unfold too_big. rewrite (c_string_before w p Hb). exact N. Qed.
Lemma c_string_fix p : ~ In 0 p -> c_string p = p.
Proof. intros N. apply c_string_before. split; [exact N|left; reflexivity]. Qed.
Lemma path_before w p : before_zero w p -> path_utf8 w = path_utf8 p.
Proof. intros Hb. unfold path_utf8. rewrite (c_string_before w p Hb), c_string_fix; [reflexivity|apply Hb]. Qed.
Lemma paths_before ws ps : Forall2 before_zero ws ps -> mapM path_utf8 ws = mapM path_utf8 ps.
Proof. induction 1 as [|w p ws ps Hb F IH]; [reflexivity|]. cbn [mapM]. rewrite (path_before w p Hb), IH. reflexivity. Qed.
Lemma render_before pl f x ws ps props e : Forall2 before_zero ws ps ->
  render pl f (FOless e ws props) = render pl f (FOless e ps props) /\ render pl f (FExcel x ws props) = render pl f (FExcel x ps props).
Proof.
  intros F. pose proof (paths_before ws ps F) as E. split; cbn [render]; unfold excel_render, oless_render, oless_base_json, oless_base_xml; rewrite E; reflexivity.
Qed.
Lemma path_bad p : too_big p -> path_utf8 p = Throw RangeError.
Proof. intros H. unfold path_utf8. apply convert_bad. exact H. Qed.
Lemma convert_cases l : (exists u, convert l = Ok u) \/ convert l = Throw RangeError.
Proof.
  destruct (forallb (fun c => c <? 1114112) l) eqn:E; [left; apply convert_ok|right; apply convert_bad].
  - apply Forall_forall. intros c I. rewrite forallb_forall in E. specialize (E c I). cbn beta in E. lia.
  - intros F. assert (K : forallb (fun c => c <? 1114112) l = true) by (apply forallb_forall; intros c I; rewrite Forall_forall in F; specialize (F c I); cbn beta in F; lia).
    congruence.
Qed.
Lemma paths_bad paths : Exists too_big paths -> mapM path_utf8 paths = Throw RangeError.
Proof.
  induction paths as [|p paths IH]; intros H; [inversion H|]. cbn [mapM]. unfold path_utf8 at 1.
  destruct (convert_cases (c_string p)) as [[u E]|E]; rewrite E; cbn [bind]; [|reflexivity].
  inversion H as [? ? K|? ? K]; subst; [pose proof (path_bad p K) as K'; unfold path_utf8 in K'; congruence|]. rewrite (IH K). reflexivity.
Qed.
Theorem oless_throws pl e paths props : Exists too_big paths ->
  oless_render pl JSON e paths props = Throw RangeError /\ oless_render pl XML e paths props = Throw RangeError.
Proof. intros H. unfold oless_render, oless_base_json, oless_base_xml. rewrite (paths_bad paths H). split; reflexivity. Qed.

(** ** The fields of the results *)
Lemma named_plain t v : forallb (fun r => plain (snd r)) t = true -> plain (Docs.Model.named t v) = true.
Proof.
  intros H. unfold Docs.Model.named. destruct (Exe.Model.lookup t v) as [n|] eqn:E; [|reflexivity].
  revert E. induction t as [|[k x] t IH]; cbn [Exe.Model.lookup]; [discriminate|]. cbn [forallb snd] in H. apply andb_true_iff in H. destruct H as [H1 H2].
  destruct (_ =? _); intros E; [injection E as <-; exact H1|apply IH; assumption].
Qed.
Lemma within_plain t v : forallb (fun r => plain (snd r)) t = true -> plain (first_within t v) = true.
Proof.
  induction t as [|[k x] t IH]; cbn [first_within forallb snd]; [reflexivity|]. intros H. apply andb_true_iff in H. destruct H as [H1 H2]. destruct (withinCheck v k 10); [exact H1|apply IH; exact H2].
Qed.
Lemma kinds_plain k : In k kinds -> info_plain (kind_ext k) = true.
Proof. intros I. assert (H : forallb (fun k => info_plain (kind_ext k)) kinds = true) by (vm_compute; reflexivity). rewrite forallb_forall in H. exact (H k I). Qed.
Lemma set_version_plain e v n : info_plain e = true -> plain n = true -> info_plain (set_version e v n) = true.
Proof. unfold info_plain, set_version. cbn [Extension Name SubType VersionName]. rewrite !andb_true_iff. tauto. Qed.
Lemma msi_plain e b : info_plain e = true -> info_plain (msi_Detailer e b) = true.
Proof.
  intros H. unfold msi_Detailer. destruct (find _ _); [|destruct (find _ _); [exact H|destruct (find _ _); [|exact H]]];
    unfold info_plain in *; cbn [Extension Name SubType VersionName] in *; rewrite !andb_true_iff in *; intuition.
Qed.
Lemma read_kind_plain pl excel current k b e p g : In k kinds -> read_kind pl excel current k b = Ok (FOless e p g) -> info_plain e = true.
Proof.
  intros I. pose proof (kinds_plain k I) as H. unfold read_kind. destruct (k_reader k) as [[]|]; intros E.
  - unfold word_Detailer in E. destruct (GetnFib b) as [v| | |]; cbn [bind] in E; try discriminate E. injection E as <- _ _. apply set_version_plain; [exact H|].
    unfold GetVersion_Word. apply named_plain. vm_compute. reflexivity.
  - destruct (excel b); discriminate E.
  - unfold powerpoint_Detailer in E. destruct (PptVersion pl current b) as [v| | |]; cbn [bind] in E; try discriminate E. injection E as <- _ _. apply set_version_plain; [exact H|].
    unfold GetVersion_Powerpoint. destruct (v =? 0); [reflexivity|]. apply within_plain. vm_compute. reflexivity.
  - unfold publisher_Detailer in E. destruct (GetPubVersion pl b) as [v| | |]; cbn [bind] in E; try discriminate E. injection E as <- _ _. apply set_version_plain; [exact H|].
    unfold GetVersion_Publisher. apply named_plain. vm_compute. reflexivity.
  - unfold visio_Detailer in E. destruct (GetVisoVersion b) as [v| | |]; cbn [bind] in E; try discriminate E. injection E as <- _ _. apply set_version_plain; [exact H|].
    unfold GetVersion_Visio. apply named_plain. vm_compute. reflexivity.
  - discriminate E.
  - injection E as <- _ _. apply msi_plain. exact H.
  - injection E as <- _ _. exact H.
Qed.
