(** Proofs: archives, from the entries to what the program prints. *)
From Coq Require Import List NArith ZArith Lia Bool Strings.String ZifyBool ZifyNat ZifyN.
From Verif Require Import Lib.Res Lib.Bytes Lib.BytesFacts Lib.Text Common.Model Common.Spec Magic.Table Magic.Model Magic.GuessProofs Zip.Model Program.Model.
From Verif Require Zip.Statements Zip.KindProofs Zip.DocProofs Magic.DocUnique Magic.PropertyLemmas.
From Verif Require Import Magic.Spec Magic.DocProofs Magic.DocBase Vba.Statements.
From Verif Require Import Program.Statements Program.ScanProofs Program.SafetyProofs Program.DocProofs Program.ArchiveProofs Program.PartStatements Program.PartDocs Program.PartProgram
     Program.RowStatements Program.RowProofs Program.AsfProofs.
Import Magic.Table.
Import ListNotations.
Local Open Scope N_scope.

Lemma is_zip_row_iff mi : is_zip_row mi = true <-> mi_func mi = Some PZip.
Proof. unfold is_zip_row. destruct (mi_func mi) as [[]|]; split; intros H; try discriminate H; reflexivity. Qed.
Lemma zip_in_table : existsb is_zip_row table = true /\ forallb (fun m => negb (is_zip_row m)) (rows_from is_zip_row table) = true.
Proof. split; vm_compute; reflexivity. Qed.

Lemma five_join sep e : five sep e = join sep [Extension e; Name e; SubType e; dec (Version e); VersionName e].
Proof. unfold five. rewrite <- join_separated. reflexivity. Qed.
Section File.
Variables (pl : platform) (msg : exn -> bytes) (archive : option bytes -> res (list zentry)) (fs : bytes -> option bytes) (file content : bytes) (es : list zentry) (files kinds : list bytes).
Hypothesis small : lenN content < 2 ^ 32.
Hypothesis packed : starts content (B "PK").
Hypothesis no_movie : ~ occurs_at (B "ftyp") content 4.
Hypothesis opened : archive (Some content) = Ok es.
Hypothesis is_kinds : Zip.Statements.archive_kinds es [] files kinds.
Hypothesis in_fs : fs file = Some content.
Lemma zip_only p : called content p -> p = PZip.
Proof. intros C. destruct (called_packed content packed p C) as [H| ->]; [exact H|]. elim no_movie. apply called_mp4. exact C. Qed.
Lemma zip_results : exists rs before after, Zip.Statements.reports es (files ++ kinds) rs /\ (Forall plain_one rs \/ rs = [zip_result es]) /\
  carried content (rows_upto is_zip_row table) before /\
  carried content (rows_from is_zip_row table) after /\ Forall (fun mi => In mi table /\ mi_func mi = None) (before ++ after) /\
  results pl msg archive (fs file) = Ok (map row_says before ++ map OResult rs ++ map row_says after).
Proof.
  destruct (Zip.KindProofs.detailer_kinds pl es [] files kinds is_kinds) as (ans & E & R). exists ans. rewrite in_fs.
  destruct (one_results pl msg archive content PZip is_zip_row small zip_only (proj2 (called_zip content) packed) is_zip_row_iff (proj1 zip_in_table) (proj2 zip_in_table) (map OResult ans)) as (before & after & K1 & K2 & K3 & K4).
  - unfold parser_says. rewrite opened, E. reflexivity.
  - destruct R as [(N & F)|(_ & ->)]; [|discriminate]. intros Q. apply N. destruct ans; [inversion F; reflexivity|discriminate Q].
  - exists before, after. pose proof (archive_answers _ _ _ _ E) as A. cbn [fst] in A. auto 10.
Qed.
Lemma kinds_infos rs : Zip.Statements.reports es (files ++ kinds) rs -> exists infos, kind_infos (files ++ kinds) infos /\ map r_info rs = infos.
Proof.
  intros [(N & F)|(E & ->)].
  - exists (map r_info rs). split; [|reflexivity]. left. split; [exact N|]. clear - F. induction F as [|x r l rs (name & ->) F IH]; [constructor|]. cbn [map]. constructor; [exists name; reflexivity|exact IH].
  - exists [plain_archive]. split; [right; auto|reflexivity].
Qed.
Lemma kinds_rows fmt sep rs : row_format fmt sep -> Zip.Statements.reports es (files ++ kinds) rs -> mapM (show pl fmt) (map OResult rs) = Ok (map (five sep) (map r_info rs)).
Proof.
  intros R [(_ & F)|(_ & ->)].
  - clear - R F. induction F as [|x r l rs (name & ->) F IH]; [reflexivity|]. cbn [map mapM]. rewrite IH. rewrite five_join.
    destruct R as [(-> & ->)|(-> & ->)]; reflexivity.
  - cbn [map mapM]. rewrite five_join. destruct R as [(-> & ->)|(-> & ->)]; reflexivity.
Qed.
Theorem zip_lines : exists before after infos, carried content (rows_upto is_zip_row table) before /\ carried content (rows_from is_zip_row table) after /\ kind_infos (files ++ kinds) infos /\
  (forall args, args = [] \/ (exists format, args = [format] /\ format <> B "xml" /\ format <> B "csv" /\ format <> B "json") ->
   program pl msg archive fs (file :: args) = Ok (file ++ [x0a] ++ List.concat (map (fun row => [x09] ++ row ++ [x0a])
     (map (five [x09]) (map row_info before ++ infos ++ map row_info after))))) /\
  program pl msg archive fs [file; B "csv"] = Ok (List.concat (map (fun row => row ++ [x0a]) (map (five [x2c]) (map row_info before ++ infos ++ map row_info after)))).
Proof.
  destruct zip_results as (rs & before & after & R & _ & K1 & K2 & _ & E). destruct (kinds_infos rs R) as (infos & I & Ei). exists before, after, infos.
  split; [exact K1|]. split; [exact K2|]. split; [exact I|].
  assert (T : forall fmt sep, row_format fmt sep -> mapM (show pl fmt) (map row_says before ++ map OResult rs ++ map row_says after) =
    Ok (map (five sep) (map row_info before ++ infos ++ map row_info after))).
  { intros fmt sep Rf. rewrite !map_app, !map_map, <- Ei. apply mapM_app; [apply others_rows; exact Rf|]. apply mapM_app; [|apply others_rows; exact Rf]. apply kinds_rows; assumption. }
  split.
  - intros args [-> |(format & -> & Nx & Nc & Nj)]; unfold program; rewrite E; cbn [bind]; rewrite ?(other_format format Nx Nc Nj), (T TEXT [x09]) by (left; auto); reflexivity.
  - unfold program. rewrite E. cbn [bind]. change (ParseOutputFormat (B "csv")) with CSV. rewrite (T CSV [x2c]) by (right; auto). reflexivity.
Qed.
Lemma ones_json rs : Forall plain_one rs -> exists ts, mapM (show pl JSON) (map OResult rs) = Ok ts /\ Forall2 json_value ts (map (fun e => JObj (item_members e)) (map r_info rs)).
Proof.
  induction 1 as [|r rs (e & He & ->) F (ts & E & V)]; [exists []; split; constructor|]. cbn [map mapM]. rewrite E. cbn [show bind]. eexists. split; [reflexivity|].
  constructor; [apply item_json; exact He|exact V].
Qed.
Lemma ones_xml rs : Forall plain_one rs -> exists ts, mapM (show pl XML) (map OResult rs) = Ok ts /\ Forall2 written ts (map item_element (map r_info rs)).
Proof.
  induction 1 as [|r rs (e & He & ->) F (ts & E & V)]; [exists []; split; constructor|]. cbn [map mapM]. rewrite E. cbn [show bind]. eexists. split; [reflexivity|].
  constructor; [unfold written; apply item_xml; exact He|exact V].
Qed.
Lemma just_kind rs : Forall2 Zip.Statements.just (files ++ kinds) rs -> Forall plain_one rs \/ rs = [zip_result es] -> files ++ kinds <> [] ->
  Forall2 kind_info (files ++ kinds) (map r_info rs) /\ (Forall plain_one rs).
Proof.
  intros F A N. split.
  - clear - F. induction F as [|x r l rs (name & ->) F IH]; [constructor|]. cbn [map]. constructor; [exists name; reflexivity|exact IH].
  - destruct A as [A| ->]; [exact A|]. inversion F as [|x r l rs (name & E) F' Q1 Q2]; subst. rewrite E. constructor; [|constructor].
    exists (mkExt x name [] 0 []). split; [|reflexivity]. assert (Q : r_info (zip_result es) = r_info (plain_result (mkExt x name [] 0 []))) by congruence. cbn in Q. rewrite <- Q. reflexivity.
Qed.
Theorem zip_document_json : ~ In x00 file -> (files ++ kinds = [] -> Forall (fun e => json_literal (z_name e) /\ json_literal (z_comment e)) es) ->
  exists out before after vs, program pl msg archive fs [file; B "json"] = Ok out /\ carried content (rows_upto is_zip_row table) before /\ carried content (rows_from is_zip_row table) after /\
    archive_values es (files ++ kinds) vs /\ forall d, json_value out d <-> d = JObj [(map b2n (B "name"), JStr (map b2n file));
      (map b2n (B "extensions"), JArr (map row_object before ++ vs ++ map row_object after))].
Proof.
  intros Nf Lit. destruct zip_results as (rs & before & after & R & A & K1 & K2 & K3 & E). apply Forall_app in K3. destruct K3 as (A1 & A2).
  destruct (others_json pl before A1) as (t1 & E1 & V1). destruct (others_json pl after A2) as (t2 & E2 & V2).
  assert (M : exists ts vs, mapM (show pl JSON) (map OResult rs) = Ok ts /\ Forall2 json_value ts vs /\ archive_values es (files ++ kinds) vs).
  { destruct R as [(N & F)|(Z & ->)].
    - destruct (just_kind rs F A N) as (I & P). destruct (ones_json rs P) as (ts & Et & V). exists ts. eexists. split; [exact Et|]. split; [exact V|]. left. split; [exact N|]. eexists. split; [exact I|reflexivity].
    - destruct (described_exists Zip.Statements.json_fields es) as (l & D). eexists. eexists. split; [reflexivity|]. split; [constructor; [|constructor]|right; split; [exact Z|]; exists l; split; [exact D|reflexivity]].
      apply Zip.DocProofs.zip_json_value; [exact (Lit Z)|exact D]. }
  destruct M as (ts & vs & Et & V & Av). pose proof (mapM_app (show pl JSON) _ _ _ _ E1 (mapM_app (show pl JSON) _ _ _ _ Et E2)) as T.
  destruct (program_values pl msg archive fs file _ _ (map row_object before ++ vs ++ map row_object after) E T) as (out & Eo & D); [|exact Nf|].
  - apply Forall2_app; [exact V1|]. apply Forall2_app; assumption.
  - exists out, before, after, vs. auto 10.
Qed.
Theorem zip_document_xml : (files ++ kinds = [] -> Forall (fun e => xml_literal (z_name e) /\ xml_literal (z_comment e)) es) ->
  exists out shown before after vs, program pl msg archive fs [file; B "xml"] = Ok out /\ carried content (rows_upto is_zip_row table) before /\ carried content (rows_from is_zip_row table) after /\
    archive_nodes es (files ++ kinds) vs /\ (forall d, xml_document out d <-> d = XElem (B "file") [XElem (B "name") shown; XElem (B "extensions") (map row_element before ++ vs ++ map row_element after)]) /\
    (shown = xtext file <-> ~ In x3c file /\ ~ In x3e file).
Proof.
  intros Lit. destruct zip_results as (rs & before & after & R & A & K1 & K2 & K3 & E). apply Forall_app in K3. destruct K3 as (A1 & A2).
  destruct (others_xml pl before A1) as (t1 & E1 & V1). destruct (others_xml pl after A2) as (t2 & E2 & V2).
  assert (M : exists ts vs, mapM (show pl XML) (map OResult rs) = Ok ts /\ Forall2 written ts vs /\ archive_nodes es (files ++ kinds) vs).
  { destruct R as [(N & F)|(Z & ->)].
    - destruct (just_kind rs F A N) as (I & P). destruct (ones_xml rs P) as (ts & Et & V). exists ts. eexists. split; [exact Et|]. split; [exact V|]. left. split; [exact N|]. eexists. split; [exact I|reflexivity].
    - destruct (described_exists Zip.Statements.xml_fields es) as (l & D). eexists. eexists. split; [reflexivity|]. split; [constructor; [|constructor]|right; split; [exact Z|]; exists l; split; [exact D|reflexivity]].
      unfold written. apply document_cons. apply Zip.DocProofs.zip_xml_value; [exact (Lit Z)|exact D]. }
  destruct M as (ts & vs & Et & V & Av). pose proof (mapM_app (show pl XML) _ _ _ _ E1 (mapM_app (show pl XML) _ _ _ _ Et E2)) as T.
  destruct (program_nodes pl msg archive fs file _ _ (map row_element before ++ vs ++ map row_element after) E T) as (out & shown & Eo & D & S).
  - apply Forall2_app; [exact V1|]. apply Forall2_app; assumption.
  - exists out, shown, before, after, vs. auto 10.
Qed.
End File.
