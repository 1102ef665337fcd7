(** Proofs: ASF files, from the bytes to what the program prints. *)
From Coq Require Import List NArith ZArith Lia Bool Strings.String ZifyBool ZifyNat ZifyN.
From Verif Require Import Lib.Res Lib.Bytes Lib.BytesFacts Lib.Text Common.Model Common.Spec Magic.Table Magic.Model Magic.GuessProofs Zip.Model Asf.Model Asf.Statements Program.Model.
From Verif Require Asf.PropertyLemmas Magic.DocUnique Magic.PropertyLemmas.
From Verif Require Import Magic.Spec Magic.DocProofs Magic.DocBase.
From Verif Require Import Program.Statements Program.ScanProofs Program.SafetyProofs Program.DocProofs Program.PartStatements Program.PartDocs Program.PartProgram Program.LinuxProofs
     Program.RowStatements Program.RowProofs.
Import Magic.Table.
Import ListNotations.
Local Open Scope N_scope.

(** ** The answer of the parser *)
Definition media_base (e : ExtensionInfo) : Prop := e = asf_base \/ e = wma_base \/ e = wmv_base.
Lemma classify_media e o : media_base e -> media_base (classify e o).
Proof.
  intros M. unfold classify. destruct o; try exact M.
  repeat match goal with |- media_base (match ?l with _ => _ end) => destruct l end; try exact M; unfold media_base; auto.
Qed.
Lemma loop_media fuel parse : forall number size i index e r, media_base e -> detail_loop fuel parse number size i index e = Ok r -> media_base (fst r).
Proof.
  induction fuel as [|fuel IH]; intros number size i index e r M E; [discriminate E|]. cbn [detail_loop] in E.
  destruct ((i <? number) && (index <? size)); [|injection E as <-; exact M]. apply bind_ok in E. destruct E as ([c|] & _ & E); [|injection E as <-; exact M].
  apply bind_ok in E. destruct E as (x & Ex & E). injection E as <-. cbn [fst]. eapply IH; [|exact Ex]. apply classify_media. exact M.
Qed.
Lemma answer_shape pl content l : asf_answer pl content = Ok l -> exists base hs, media_base base /\ l = [asf_result base hs].
Proof.
  unfold asf_answer, asf_Detailer. intros E. apply bind_ok in E. destruct E as ([[]|] & _ & E); try discriminate E.
  - apply bind_ok in E. destruct E as (r & Er & E). injection E as <-. eexists _, _. split; [|reflexivity]. eapply loop_media; [|exact Er]. left. reflexivity.
  - injection E as <-. eexists _, _. split; [|reflexivity]. left. reflexivity.
Qed.
Lemma media_plain e : media_base e -> info_plain e = true.
Proof. intros [-> |[-> | ->]]; reflexivity. Qed.
Lemma asf_doc_json base hs : media_base base -> forallb obj_plain hs = true -> json_value (asf_json base hs) (asf_value base hs).
Proof.
  intros M P. destruct hs as [|h hs]; [|apply Asf.PropertyLemmas.C45_json; [apply media_plain; exact M|discriminate|exact P]].
  unfold asf_value. rewrite app_nil_r. replace (asf_json base []) with (eJson (r_out (plain_result base))); [apply item_json; apply media_plain; exact M|].
  unfold asf_json. cbn [app]. reflexivity.
Qed.
Lemma asf_doc_xml base hs : media_base base -> forallb obj_plain hs = true -> written (asf_xml base hs) (asf_node base hs).
Proof.
  intros M P. unfold written. destruct hs as [|h hs]; [|apply document_cons; apply Asf.PropertyLemmas.C45_xml; [apply media_plain; exact M|discriminate|exact P]].
  unfold asf_node. rewrite app_nil_r. replace (asf_xml base []) with (eXml (r_out (plain_result base))); [apply item_xml; apply media_plain; exact M|].
  unfold asf_xml. rewrite app_nil_r. reflexivity.
Qed.

(** ** Rows of other signatures *)
Lemma others_json pl l : Forall (fun mi => In mi table /\ mi_func mi = None) l ->
  exists ts, mapM (show pl JSON) (map row_says l) = Ok ts /\ Forall2 json_value ts (map row_object l).
Proof.
  induction 1 as [|mi l (I & F) K (ts & E & V)]; [exists []; repeat split; constructor|]. cbn [map mapM]. unfold row_says at 1. cbn [show bind]. rewrite E. cbn [bind].
  eexists. split; [reflexivity|]. constructor; [|exact V]. apply item_json. exact (Magic.PropertyLemmas.row_plain mi I F).
Qed.
Lemma others_xml pl l : Forall (fun mi => In mi table /\ mi_func mi = None) l ->
  exists ts, mapM (show pl XML) (map row_says l) = Ok ts /\ Forall2 written ts (map row_element l).
Proof.
  induction 1 as [|mi l (I & F) K (ts & E & V)]; [exists []; repeat split; constructor|]. cbn [map mapM]. unfold row_says at 1. cbn [show bind]. rewrite E. cbn [bind].
  eexists. split; [reflexivity|]. constructor; [|exact V]. unfold written. apply item_xml. exact (Magic.PropertyLemmas.row_plain mi I F).
Qed.
Lemma others_rows pl fmt sep l : row_format fmt sep -> mapM (show pl fmt) (map row_says l) = Ok (map (fun mi => five sep (row_info mi)) l).
Proof. intros R. induction l as [|mi l IH]; [reflexivity|]. cbn [map mapM]. rewrite (signature_columns fmt sep mi R), IH. reflexivity. Qed.
(** Documents made of the values of the results *)
Lemma program_values pl msg archive fs file rs ts vs : results pl msg archive (fs file) = Ok rs -> mapM (show pl JSON) rs = Ok ts -> Forall2 json_value ts vs -> ~ In x00 file ->
  exists out, program pl msg archive fs [file; B "json"] = Ok out /\
    forall d, json_value out d <-> d = JObj [(map b2n (B "name"), JStr (map b2n file)); (map b2n (B "extensions"), JArr vs)].
Proof.
  intros E T V Nf. eexists. split; [apply (program_shown pl msg archive fs file (B "json") _ _ E T)|].
  change (ParseOutputFormat (B "json")) with JSON. destruct (as_exts JSON ts) as (es & Es). rewrite Es, layout_output.
  assert (Jv : json_value (Output JSON file (B "extensions") es) (JObj [(map b2n (B "name"), JStr (map b2n file)); (map b2n (B "extensions"), JArr vs)])).
  { apply output_json; [exact Nf| |cbn beta iota in Es; rewrite Es in V; exact V]. intros ->. cbn [map] in Es. rewrite Es in T. clear - T E.
    destruct rs as [|o os]; [exact (results_nonempty _ _ _ _ E)|]. cbn [mapM] in T. apply bind_ok in T. destruct T as (x & _ & T).
    apply bind_ok in T. destruct T as (xs & _ & T). discriminate T. }
  intros d. split; [|intros ->; exact Jv]. intros D. eapply Magic.DocUnique.json_value_fun; eassumption.
Qed.
Lemma program_nodes pl msg archive fs file rs ts vs : results pl msg archive (fs file) = Ok rs -> mapM (show pl XML) rs = Ok ts -> Forall2 written ts vs ->
  exists out shown, program pl msg archive fs [file; B "xml"] = Ok out /\
    (forall d, xml_document out d <-> d = XElem (B "file") [XElem (B "name") shown; XElem (B "extensions") vs]) /\
    (shown = xtext file <-> ~ In x3c file /\ ~ In x3e file).
Proof.
  intros E T V. destruct (Magic.PropertyLemmas.shown_name_spec file) as (nodes & Hn & Hs). eexists. exists nodes. split; [apply (program_shown pl msg archive fs file (B "xml") _ _ E T)|].
  split; [|exact Hs]. change (ParseOutputFormat (B "xml")) with XML. destruct (as_exts XML ts) as (es & Es). rewrite Es, layout_output.
  assert (V3 : xml_content (List.concat ts) vs) by (apply written_all; exact V).
  assert (Jv : xml_document (Output XML file (B "extensions") es) (XElem (B "file") [XElem (B "name") nodes; XElem (B "extensions") vs])).
  { rewrite <- Hn. apply output_xml. cbn beta iota in Es. rewrite Es in V3. exact V3. }
  intros d. split; [|intros ->; exact Jv]. intros D. eapply Magic.DocUnique.xml_document_fun; eassumption.
Qed.

(** ** The file *)
Lemma asf_only content p : starts content asf_magic -> called content p -> p = PAsf.
Proof.
  intros (pre & post & E & L) (m & o & I & (pre' & post' & E' & L')). apply lenN_0 in L. subst pre. cbn [app] in E. rewrite E in E'. clear E.
  rows_of I; try reflexivity; exfalso;
    (destruct pre' as [|p0 [|p1 [|p2 [|p3 [|p4 pre']]]]]; rewrite ?lenN_cons in L'; cbn [app asf_magic] in E'; try discriminate E'; change (lenN []) with 0 in L'; try lia).
Qed.
Lemma is_asf_row mi : is_asf mi = true <-> mi_func mi = Some PAsf.
Proof. unfold is_asf. destruct (mi_func mi) as [[]|]; split; intros H; try discriminate H; reflexivity. Qed.
Lemma asf_in_table : existsb is_asf table = true /\ forallb (fun m => negb (is_asf m)) (rows_from is_asf table) = true.
Proof. split; vm_compute; reflexivity. Qed.

Section File.
Variables (pl : platform) (msg : exn -> bytes) (archive : option bytes -> res (list zentry)) (fs : bytes -> option bytes) (file content : bytes).
Hypothesis small : lenN content < 2 ^ 32.
Hypothesis media : starts content asf_magic.
Hypothesis in_fs : fs file = Some content.
Lemma asf_results base hs : asf_answer pl content = Ok [asf_result base hs] -> exists before after, carried content (rows_upto is_asf table) before /\
  carried content (rows_from is_asf table) after /\ Forall (fun mi => In mi table /\ mi_func mi = None) (before ++ after) /\
  results pl msg archive (fs file) = Ok (map row_says before ++ [OResult (asf_result base hs)] ++ map row_says after).
Proof.
  intros E. rewrite in_fs. apply (one_results pl msg archive content PAsf is_asf small (fun p => asf_only content p media)).
  - apply called_asf. exact media.
  - exact is_asf_row.
  - exact (proj1 asf_in_table).
  - exact (proj2 asf_in_table).
  - unfold parser_says. unfold asf_answer in E. rewrite E. reflexivity.
  - discriminate.
Qed.
Lemma asf_fails r : asf_answer pl content = r -> fails r -> forall more, program pl msg archive fs (file :: more) = (_ <- r ;; Ok []).
Proof.
  intros E N more. assert (R : results pl msg archive (fs file) = (_ <- r ;; Ok [])).
  { rewrite in_fs. apply (one_fails pl msg archive content PAsf is_asf small (fun p => asf_only content p media)).
    - apply called_asf. exact media.
    - exact is_asf_row.
    - exact (proj1 asf_in_table).
    - exact (proj2 asf_in_table).
    - unfold parser_says. unfold asf_answer in E. rewrite E. destruct r; [elim (N _ eq_refl)|reflexivity..].
    - intros l. destruct r; [elim (N _ eq_refl)|discriminate..]. }
  unfold program. rewrite R. destruct r; [elim (N _ eq_refl)|reflexivity..].
Qed.
Lemma results_show fmt rs : (exists before after r, rs = map row_says before ++ [OResult r] ++ map row_says after) -> exists ts, mapM (show pl fmt) rs = Ok ts.
Proof.
  intros (before & after & r & ->).
  assert (K : forall l, exists ts, mapM (show pl fmt) (map row_says l) = Ok ts).
  { induction l as [|mi l (ts & E)]; [exists []; reflexivity|]. cbn [map mapM]. unfold row_says at 1. cbn [show bind]. rewrite E. eexists. reflexivity. }
  destruct (K before) as (t1 & E1). destruct (K after) as (t2 & E2). eexists. eapply mapM_app; [exact E1|]. eapply mapM_app; [cbn [mapM show bind]; reflexivity|exact E2].
Qed.
Theorem asf_answered more : (exists out, program pl msg archive fs (file :: more) = Ok out) <-> exists l, asf_answer pl content = Ok l.
Proof.
  split.
  - intros (out & E). destruct (asf_answer pl content) as [l|e| |] eqn:A; [exists l; reflexivity|exfalso..];
      (rewrite (asf_fails _ A) in E; [discriminate E|intros x Q; discriminate Q]).
  - intros (l & A). destruct (answer_shape pl content l A) as (base & hs & _ & ->). destruct (asf_results base hs A) as (before & after & _ & _ & _ & E).
    unfold program. rewrite E. cbn [bind]. destruct (results_show (match more with [] => TEXT | x :: _ => ParseOutputFormat x end) (map row_says before ++ [OResult (asf_result base hs)] ++ map row_says after)) as (ts & T); [eexists _, _, _; reflexivity|].
    rewrite T. eexists. reflexivity.
Qed.
Theorem asf_document_json base hs : asf_answer pl content = Ok [asf_result base hs] -> media_base base -> forallb obj_plain hs = true -> ~ In x00 file ->
  exists out before after, program pl msg archive fs [file; B "json"] = Ok out /\ carried content (rows_upto is_asf table) before /\ carried content (rows_from is_asf table) after /\
    forall d, json_value out d <-> d = JObj [(map b2n (B "name"), JStr (map b2n file));
      (map b2n (B "extensions"), JArr (map row_object before ++ [asf_value base hs] ++ map row_object after))].
Proof.
  intros A M P Nf. destruct (asf_results base hs A) as (before & after & K1 & K2 & K3 & E). apply Forall_app in K3. destruct K3 as (A1 & A2).
  destruct (others_json pl before A1) as (t1 & E1 & V1). destruct (others_json pl after A2) as (t2 & E2 & V2).
  pose proof (mapM_app (show pl JSON) _ _ _ _ E1 (mapM_app (show pl JSON) [OResult (asf_result base hs)] _ [asf_json base hs] _ eq_refl E2)) as T.
  destruct (program_values pl msg archive fs file _ _ (map row_object before ++ [asf_value base hs] ++ map row_object after) E T) as (out & Eo & D); [|exact Nf|].
  - apply Forall2_app; [exact V1|]. apply Forall2_app; [|exact V2]. constructor; [|constructor]. exact (asf_doc_json base hs M P).
  - exists out, before, after. auto.
Qed.
Theorem asf_document_xml base hs : asf_answer pl content = Ok [asf_result base hs] -> media_base base -> forallb obj_plain hs = true ->
  exists out shown before after, program pl msg archive fs [file; B "xml"] = Ok out /\ carried content (rows_upto is_asf table) before /\ carried content (rows_from is_asf table) after /\
    (forall d, xml_document out d <-> d = XElem (B "file") [XElem (B "name") shown; XElem (B "extensions") (map row_element before ++ [asf_node base hs] ++ map row_element after)]) /\
    (shown = xtext file <-> ~ In x3c file /\ ~ In x3e file).
Proof.
  intros A M P. destruct (asf_results base hs A) as (before & after & K1 & K2 & K3 & E). apply Forall_app in K3. destruct K3 as (A1 & A2).
  destruct (others_xml pl before A1) as (t1 & E1 & V1). destruct (others_xml pl after A2) as (t2 & E2 & V2).
  pose proof (mapM_app (show pl XML) _ _ _ _ E1 (mapM_app (show pl XML) [OResult (asf_result base hs)] _ [asf_xml base hs] _ eq_refl E2)) as T.
  destruct (program_nodes pl msg archive fs file _ _ (map row_element before ++ [asf_node base hs] ++ map row_element after) E T) as (out & shown & Eo & D & S).
  - apply Forall2_app; [exact V1|]. apply Forall2_app; [|exact V2]. constructor; [|constructor]. exact (asf_doc_xml base hs M P).
  - exists out, shown, before, after. auto 10.
Qed.
Lemma asf_row fmt sep base hs : row_format fmt sep -> show pl fmt (OResult (asf_result base hs)) = Ok (three sep base).
Proof. intros [(-> & ->)|(-> & ->)]; unfold three; rewrite <- join_separated; reflexivity. Qed.
Theorem asf_lines base hs : asf_answer pl content = Ok [asf_result base hs] -> exists before after, carried content (rows_upto is_asf table) before /\ carried content (rows_from is_asf table) after /\
  (forall args, args = [] \/ (exists format, args = [format] /\ format <> B "xml" /\ format <> B "csv" /\ format <> B "json") ->
   program pl msg archive fs (file :: args) = Ok (file ++ [x0a] ++ List.concat (map (fun row => [x09] ++ row ++ [x0a])
     (map (fun mi => five [x09] (row_info mi)) before ++ [three [x09] base] ++ map (fun mi => five [x09] (row_info mi)) after)))) /\
  program pl msg archive fs [file; B "csv"] = Ok (List.concat (map (fun row => row ++ [x0a])
     (map (fun mi => five [x2c] (row_info mi)) before ++ [three [x2c] base] ++ map (fun mi => five [x2c] (row_info mi)) after))).
Proof.
  intros A. destruct (asf_results base hs A) as (before & after & K1 & K2 & _ & E). exists before, after. split; [exact K1|]. split; [exact K2|].
  assert (T : forall fmt sep, row_format fmt sep -> mapM (show pl fmt) (map row_says before ++ [OResult (asf_result base hs)] ++ map row_says after) =
    Ok (map (fun mi => five sep (row_info mi)) before ++ [three sep base] ++ map (fun mi => five sep (row_info mi)) after)).
  { intros fmt sep R. apply mapM_app; [apply others_rows; exact R|]. apply mapM_app; [|apply others_rows; exact R]. cbn [mapM]. rewrite (asf_row fmt sep) by exact R. reflexivity. }
  split.
  - intros args [-> |(format & -> & Nx & Nc & Nj)]; unfold program; rewrite E; cbn [bind]; rewrite ?(other_format format Nx Nc Nj), (T TEXT [x09]) by (left; auto); reflexivity.
  - unfold program. rewrite E. cbn [bind]. change (ParseOutputFormat (B "csv")) with CSV. rewrite (T CSV [x2c]) by (right; auto). reflexivity.
Qed.
End File.
