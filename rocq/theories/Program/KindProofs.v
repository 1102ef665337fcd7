(** Proofs: executables, pictures, sounds and films, from the bytes to what the program prints. *)
From Coq Require Import List NArith ZArith Lia Bool Strings.String ZifyBool ZifyNat ZifyN.
From Verif Require Import Lib.Res Lib.Bytes Lib.BytesFacts Lib.Text Lib.NumSpec Common.Model Common.Spec Common.Fields Magic.Table Magic.Model Magic.GuessProofs Zip.Model
     Exe.Tables Exe.Model Exe.Spec Exe.PropertyLemmas Media.Model Media.Spec Program.Model.
From Verif Require Common.FieldProofs Asf.DetailProofs Media.Proofs Media.PropertyLemmas Magic.DocUnique Magic.PropertyLemmas.
From Verif Require Import Magic.Spec Magic.DocProofs Magic.DocBase.
From Verif Require Import Program.Statements Program.ScanProofs Program.SafetyProofs Program.DocProofs Program.ArchiveProofs Program.PartStatements Program.PartDocs Program.PartProgram
     Program.RowStatements Program.RowProofs Program.AsfProofs Program.ZipProofs Program.KindStatements.
Import Magic.Table.
Import ListNotations.
Local Open Scope N_scope.

Lemma occurs_prefix (content w : bytes) off k : off + lenN w <= k -> (occurs_at w content off <-> occurs_at w (takeN k content) off).
Proof.
  intros L. split; intros (pre & post & E & Lp).
  - exists pre, (takeN (k - (off + lenN w)) post). split; [|exact Lp]. subst content. rewrite app_assoc, Asf.DetailProofs.takeN_app2 by (rewrite lenN_app; lia). rewrite lenN_app, Lp, <- app_assoc. reflexivity.
  - exists pre, (post ++ dropN k content). split; [|exact Lp]. rewrite <- (takeN_dropN k content) at 1. rewrite E, <- !app_assoc. reflexivity.
Qed.
Lemma window_prefix (content w : bytes) off n k : off + n <= k -> (window content off n w <-> window (takeN k content) off n w).
Proof. intros L. unfold window. split; intros (E & O); (split; [exact E|]); apply (occurs_prefix content w off k) in O; (exact O || lia). Qed.
Lemma called_signed content p : called content p <-> signed content p.
Proof.
  destruct p; [apply called_exec|apply called_macho|apply called_zip|apply called_ole| |apply called_wp|apply called_mp4|apply called_asf| |]; unfold called; cbn [signed];
  (split; [intros (m & o & I & H); unfold parser_rows in I; cbn [In] in I; repeat (destruct I as [I|I]; [try discriminate I; try (injection I as <- <-; exact H)|]); destruct I|
    intros H; eexists _, _; split; [unfold parser_rows; cbn [In]; auto 20|exact H]]).
Qed.

Section File.
Variables (pl : platform) (msg : exn -> bytes) (archive : option bytes -> res (list zentry)) (content : bytes).
Hypothesis small : lenN content < 2 ^ 32.
Hypothesis sup : supported pl.
Lemma riff_says ext : riff_Detailer (takeN 65536 content) = Ok [plain_result (mkExt ext [] [] 0 [])] -> info_plain (mkExt ext [] [] 0 []) = true.
Proof.
  intros E. unfold riff_Detailer in E. apply bind_ok in E. destruct E as (x & Ex & E). injection E as ->. unfold info_plain. cbn [Extension Name SubType VersionName].
  rewrite (riff_plain riff_kinds _ _ eq_refl Ex). reflexivity.
Qed.
Lemma kind_says p e : signed content p -> one_kind content p e -> parser_says pl msg archive content p = Ok [OResult (plain_result e)] /\ info_plain e = true.
Proof.
  intros C K. destruct K as [pe ch N1 N2 L1 L2|pe N1 L|L|form chunk ext I F1 F2|F|tag name W K|L|]; unfold parser_says.
  - rewrite (C27_kind_lemma pl content pe ch) by assumption. split; [reflexivity|apply kind_plain].
  - rewrite (C27_no_header pl content pe) by assumption. split; reflexivity.
  - destruct (Media.PropertyLemmas.C34_exact (takeN 65536 content)) as (_ & _ & D). rewrite D by (rewrite lenN_takeN; lia). split; reflexivity.
  - assert (E : riff_Detailer (takeN 65536 content) = Ok [plain_result (mkExt ext [] [] 0 [])]).
    { apply Media.PropertyLemmas.C36_lemma. left. exists form, chunk. split; [exact I|]. split; [unfold riff_form in *|unfold riff_first_chunk in *]; apply window_prefix; (assumption || lia). }
    rewrite E. split; [reflexivity|exact (riff_says _ E)].
  - assert (E : riff_Detailer (takeN 65536 content) = Ok [plain_result (mkExt (B "riff") [] [] 0 [])]).
    { apply Media.PropertyLemmas.C36_lemma. right. split; [reflexivity|]. intros form chunk e I (F1 & F2). apply (F form chunk e I).
      split; [unfold riff_form in *|unfold riff_first_chunk in *]; eapply window_prefix; try eassumption; lia. }
    rewrite E. split; reflexivity.
  - destruct (Media.PropertyLemmas.C37_lemma (takeN 65536 content) tag) as (n & E & Cn).
    + apply occurs_prefix; [vm_compute; discriminate|exact C].
    + apply window_prefix; [lia|exact W].
    + assert (n = name) by (eapply (Media.Proofs.code_named_fun dwg_releases); [vm_compute; reflexivity|eassumption|eassumption]). subst n. rewrite E. split; [reflexivity|].
      destruct K as [K|(-> & _)]; [|reflexivity]. unfold dwg_releases in K. cbn [In] in K. repeat (destruct K as [K|K]; [injection K as _ <-; reflexivity|]). destruct K.
  - rewrite Media.PropertyLemmas.C37_short by (rewrite lenN_takeN; lia). split; reflexivity.
  - split; reflexivity.
Qed.

(** ** Every such file has one kind *)
Lemma dwg_tag : 5 < lenN content -> exists tag, window content 0 6 tag.
Proof. intros L. exists (takeN 6 content). split; [rewrite lenN_takeN; lia|]. exists [], (dropN 6 content). split; [symmetry; apply takeN_dropN|reflexivity]. Qed.
Lemma code_exists rows code : exists name, code_named rows [] code name.
Proof.
  destruct (existsb (fun r => bytes_eqb (fst r) code) rows) eqn:E.
  - apply existsb_exists in E. destruct E as ((c, n) & I & Q). cbn [fst] in Q. apply bytes_eqb_eq in Q. subst c. exists n. left. exact I.
  - exists []. right. split; [reflexivity|]. intros n I. apply Bool.not_true_iff_false in E. apply E. apply existsb_exists. exists (code, n). split; [exact I|apply bytes_eqb_refl].
Qed.
Theorem kind_total p : signed content p -> lenN content + 80 <= 2 ^ 32 ->
  match p with PExec => 64 <= lenN content | PMp4 => 16 <= lenN content | PRiff | PDwg | PJpeg => True | _ => False end -> exists e, one_kind content p e.
Proof.
  intros C L80 K. destruct p; try contradiction.
  - destruct (Common.FieldProofs.number_at_ex content 60 4) as (pe & N); [lia|]. destruct (N.ltb_spec (pe + 24) (lenN content)) as [L|L].
    + destruct (Common.FieldProofs.number_at_ex content (pe + 22) 2) as (ch & N2); [lia|]. eexists. eapply k_pe; try eassumption. lia.
    + eexists. eapply k_dos; eassumption.
  - destruct (N.ltb_spec 5 (lenN content)) as [L|L].
    + destruct (dwg_tag L) as (tag & W). destruct (code_exists dwg_releases tag) as (name & Cn). eexists. eapply k_dwg; eassumption.
    + eexists. apply k_dwg_short. exact L.
  - eexists. apply k_mp4. exact K.
  - destruct (Media.PropertyLemmas.C36_total (takeN 65536 content)) as (ext & E). apply Media.PropertyLemmas.C36_lemma in E. destruct E as [(form & chunk & I & F1 & F2)|(-> & F)].
    + eexists. apply (k_riff content form chunk ext I); [unfold riff_form in *|unfold riff_first_chunk in *]; eapply window_prefix; try eassumption; lia.
    + eexists. apply k_riff_other. intros form chunk e I (F1 & F2). apply (F form chunk e I). split; [unfold riff_form in *|unfold riff_first_chunk in *]; apply window_prefix; (assumption || lia).
  - eexists. apply k_jpeg.
Qed.

(** ** From the results to the output *)
Variables (fs : bytes -> option bytes) (file : bytes) (p : parser) (e : ExtensionInfo).
Hypothesis in_fs : fs file = Some content.
Hypothesis only : only_parser content p.
Hypothesis kind : one_kind content p e.
Lemma is_parser_row mi : is_parser p mi = true <-> mi_func mi = Some p.
Proof. destruct kind; unfold is_parser; destruct (mi_func mi) as [[]|]; split; intros Qz; try discriminate Qz; reflexivity. Qed.
Lemma kind_in_table : existsb (is_parser p) table = true /\ forallb (fun m => negb (is_parser p m)) (rows_from (is_parser p) table) = true.
Proof. destruct kind; split; vm_compute; reflexivity. Qed.
Lemma kind_results : info_plain e = true /\ exists before after, carried content (rows_upto (is_parser p) table) before /\
  carried content (rows_from (is_parser p) table) after /\ Forall (fun mi => In mi table /\ mi_func mi = None) (before ++ after) /\
  results pl msg archive (fs file) = Ok (map row_says before ++ [OResult (plain_result e)] ++ map row_says after).
Proof.
  destruct only as (S & O). destruct (kind_says p e S kind) as (E & P). split; [exact P|]. rewrite in_fs.
  apply (one_results pl msg archive content p (is_parser p) small); [|apply called_signed; exact S|exact is_parser_row|exact (proj1 kind_in_table)|exact (proj2 kind_in_table)|exact E|discriminate].
  intros p' C. apply O. apply called_signed. exact C.
Qed.
Theorem kind_lines : exists before after, carried content (rows_upto (is_parser p) table) before /\ carried content (rows_from (is_parser p) table) after /\
  (forall args, args = [] \/ (exists format, args = [format] /\ format <> B "xml" /\ format <> B "csv" /\ format <> B "json") ->
   program pl msg archive fs (file :: args) = Ok (file ++ [x0a] ++ List.concat (map (fun row => [x09] ++ row ++ [x0a])
     (map (five [x09]) (map row_info before ++ [e] ++ map row_info after))))) /\
  program pl msg archive fs [file; B "csv"] = Ok (List.concat (map (fun row => row ++ [x0a]) (map (five [x2c]) (map row_info before ++ [e] ++ map row_info after)))).
Proof.
  destruct kind_results as (_ & before & after & K1 & K2 & _ & E). exists before, after. split; [exact K1|]. split; [exact K2|].
  assert (T : forall fmt sep, row_format fmt sep -> mapM (show pl fmt) (map row_says before ++ [OResult (plain_result e)] ++ map row_says after) =
    Ok (map (five sep) (map row_info before ++ [e] ++ map row_info after))).
  { intros fmt sep Rf. rewrite !map_app, !map_map. apply mapM_app; [apply others_rows; exact Rf|]. apply mapM_app; [|apply others_rows; exact Rf].
    cbn [map]. rewrite five_join. destruct Rf as [(-> & ->)|(-> & ->)]; reflexivity. }
  split.
  - intros args [-> |(format & -> & Nx & Nc & Nj)]; unfold program; rewrite E; cbn [bind]; rewrite ?(other_format format Nx Nc Nj), (T TEXT [x09]) by (left; auto); reflexivity.
  - unfold program. rewrite E. cbn [bind]. change (ParseOutputFormat (B "csv")) with CSV. rewrite (T CSV [x2c]) by (right; auto). reflexivity.
Qed.
Theorem kind_json : ~ In x00 file ->
  exists out before after, program pl msg archive fs [file; B "json"] = Ok out /\ carried content (rows_upto (is_parser p) table) before /\ carried content (rows_from (is_parser p) table) after /\
    forall d, json_value out d <-> d = JObj [(map b2n (B "name"), JStr (map b2n file));
      (map b2n (B "extensions"), JArr (map row_object before ++ [JObj (item_members e)] ++ map row_object after))].
Proof.
  intros Nf. destruct kind_results as (P & before & after & K1 & K2 & K3 & E). apply Forall_app in K3. destruct K3 as (A1 & A2).
  destruct (others_json pl before A1) as (t1 & E1 & V1). destruct (others_json pl after A2) as (t2 & E2 & V2).
  destruct (ones_json pl [plain_result e]) as (ts & Et & V); [constructor; [exists e; auto|constructor]|].
  pose proof (mapM_app (show pl JSON) _ _ _ _ E1 (mapM_app (show pl JSON) _ _ _ _ Et E2)) as T.
  destruct (program_values pl msg archive fs file _ _ (map row_object before ++ [JObj (item_members e)] ++ map row_object after) E T) as (out & Eo & D); [|exact Nf|].
  - apply Forall2_app; [exact V1|]. apply Forall2_app; assumption.
  - exists out, before, after. auto 10.
Qed.
Theorem kind_xml :
  exists out shown before after, program pl msg archive fs [file; B "xml"] = Ok out /\ carried content (rows_upto (is_parser p) table) before /\ carried content (rows_from (is_parser p) table) after /\
    (forall d, xml_document out d <-> d = XElem (B "file") [XElem (B "name") shown; XElem (B "extensions") (map row_element before ++ [item_element e] ++ map row_element after)]) /\
    (shown = xtext file <-> ~ In x3c file /\ ~ In x3e file).
Proof.
  destruct kind_results as (P & before & after & K1 & K2 & K3 & E). apply Forall_app in K3. destruct K3 as (A1 & A2).
  destruct (others_xml pl before A1) as (t1 & E1 & V1). destruct (others_xml pl after A2) as (t2 & E2 & V2).
  destruct (ones_xml pl [plain_result e]) as (ts & Et & V); [constructor; [exists e; auto|constructor]|].
  pose proof (mapM_app (show pl XML) _ _ _ _ E1 (mapM_app (show pl XML) _ _ _ _ Et E2)) as T.
  destruct (program_nodes pl msg archive fs file _ _ (map row_element before ++ [item_element e] ++ map row_element after) E T) as (out & shown & Eo & D & S).
  - apply Forall2_app; [exact V1|]. apply Forall2_app; assumption.
  - exists out, shown, before, after. auto 10.
Qed.
End File.
