(** Lemmas in the form of the properties, with examples and refutations. *)
From Coq Require Import List NArith ZArith Lia Bool Strings.String ZifyBool ZifyNat ZifyN.
From Verif Require Import Lib.Res Lib.Bytes Lib.BytesFacts Lib.Text Common.Model Common.Spec Common.Utf8 Common.EscapeProofs Magic.Table Magic.Model Ole.Model Ole.Spec Ole.Statements Ole.DirProofs
     Vba.FileSpec Zip.Model Detect.Model Detect.Output Detect.Spec Detect.Statements Program.Model.
From Verif Require Excel.Engine Excel.DocStatements Excel.Samples Excel.PropertyLemmas4 Zip.Statements Zip.PropertyLemmas Detect.PropertyLemmas.
From Verif Require Import Magic.Spec Magic.DocProofs Magic.DocBase Vba.Statements.
From Verif Require Import Program.Statements Program.ScanProofs Program.SafetyProofs Program.DocProofs Program.ArchiveProofs Program.CompoundProofs Program.WorkbookProofs Program.Samples.
Import ListNotations.
Local Open Scope N_scope.
Arguments N.pow : simpl never.

(** ** C104 *)
Lemma C104_results : forall pl msg archive content rs, lenN content < 2 ^ 32 ->
  (results pl msg archive (Some content) = Ok rs <->
   exists found, reports content row_says (parser_says pl msg archive content) table found /\ rs = or_unknown content found).
Proof. intros. apply results_ok. assumption. Qed.
Lemma C104_failure : forall pl msg archive content r, lenN content < 2 ^ 32 -> fails r ->
  (results pl msg archive (Some content) = r <-> stopped pl msg archive content table r).
Proof. intros. apply results_fail; assumption. Qed.
Lemma C104_printed : forall pl msg archive fs file f out,
  (program pl msg archive fs [file; f] = Ok out <->
   exists rs ts, results pl msg archive (fs file) = Ok rs /\ Forall2 (fun o t => show pl (ParseOutputFormat f) o = Ok t) rs ts /\
     out = layout (ParseOutputFormat f) file (B "extensions") ts).
Proof.
  intros. unfold program. split.
  - intros E. apply bind_ok in E. destruct E as (rs & Er & E). apply bind_ok in E. destruct E as (ts & Et & E). exists rs, ts. split; [exact Er|]. split; [|congruence].
    clear - Et. revert ts Et. induction rs as [|o rs IH]; intros ts Et; cbn [mapM] in Et; [injection Et as <-; constructor|].
    apply bind_ok in Et. destruct Et as (t & E1 & Et). apply bind_ok in Et. destruct Et as (ts' & E2 & Et). injection Et as <-. constructor; [exact E1|exact (IH _ E2)].
  - intros (rs & ts & -> & F & ->). cbn [bind]. assert (E : mapM (show pl (ParseOutputFormat f)) rs = Ok ts); [|rewrite E; reflexivity].
    induction F as [|o t rs ts H F IH]; [reflexivity|]. cbn [mapM]. rewrite H, IH. reflexivity.
Qed.
Lemma C104_arguments : forall pl msg archive fs file f more,
  program pl msg archive fs [] = Ok (B "fileid {file} [format]" ++ nl) /\
  program pl msg archive fs [file] = program pl msg archive fs [file; B "text"] /\
  program pl msg archive fs (file :: f :: more) = program pl msg archive fs [file; f].
Proof. repeat split. Qed.
Lemma C104_missing : forall pl msg archive (fs : bytes -> option bytes) file, fs file = None ->
  results pl msg archive (fs file) = Ok [OResult (plain_result (mkExt (B "empty") (B "Empty File") [] 0 []))].
Proof. intros pl msg archive fs file E. rewrite E. reflexivity. Qed.
Lemma C104_ex : results linux64 no_text no_archive (Some both) =
  Ok [OResult (plain_result (mkExt (B "bmp") (B "Bitmap Image") [] 0 [])); OResult (plain_result (mkExt (B "mp4") [] [] 0 (B "MPEG-4 Media File")))].
Proof. vm_compute. reflexivity. Qed.
Lemma C104_ex_fails : results linux64 no_text no_archive (Some (B "MZ")) = UB.
Proof. vm_compute. reflexivity. Qed.

(** ** C105 *)
Lemma C105_iff : forall pl msg archive content fs file f, supported pl -> lenN content < 2 ^ 32 -> no_container content -> fs file = Some content ->
  ((exists out, program pl msg archive fs [file; f] = Ok out) <->
   long_enough content /\ (starts_one content wp_magics -> rows_only (ParseOutputFormat f))).
Proof. intros. apply answers_iff; assumption. Qed.
Lemma C105_outcomes : forall pl msg archive content fs file f, supported pl -> lenN content < 2 ^ 32 -> no_container content -> fs file = Some content ->
  (exists out, program pl msg archive fs [file; f] = Ok out) \/ program pl msg archive fs [file; f] = UB \/ program pl msg archive fs [file; f] = Throw RangeError.
Proof. intros. apply other_outcomes with (content := content); assumption. Qed.
Lemma C105_throws : forall pl msg archive content fs file f, supported pl -> lenN content < 2 ^ 32 -> no_container content -> fs file = Some content ->
  (program pl msg archive fs [file; f] = Throw RangeError <->
   occurs_at (B "ftyp") content 4 /\ lenN content < 15 /\ ~ starts content (B "MZ") /\ ~ starts_one content mach_magics).
Proof. intros. apply throws_iff; assumption. Qed.
Lemma C105_refuted : exists content1 content2 content3,
  (forall pl msg archive f, program pl msg archive (one_file content1) [B "f"; f] = UB) /\
  (forall pl msg archive, program pl msg archive (one_file content2) [B "f"; B "json"] = UB) /\
  (forall pl msg archive f, program pl msg archive (one_file content3) [B "f"; f] = Throw RangeError).
Proof.
  exists (B "MZ"), (xff :: B "WPC"), ([x00; x00; x00; x00] ++ B "ftyp"). split; [|split]; intros.
  - reflexivity.
  - vm_compute. reflexivity.
  - reflexivity.
Qed.
Lemma not_start content m : takeN (lenN m) content <> m -> ~ starts content m.
Proof.
  intros N (pre & post & E & L). apply N. assert (pre = []) by (destruct pre; [reflexivity|rewrite lenN_cons in L; lia]). subst pre. cbn [app] in E. subst content.
  apply takeN_app_exact.
Qed.
Lemma C105_ex : no_container both /\ lenN both < 2 ^ 32 /\ long_enough both /\ ~ starts_one both wp_magics.
Proof.
  split; [|split; [vm_compute; reflexivity|split]].
  - repeat split; apply not_start; vm_compute; discriminate.
  - split; [|split; [|intros _; vm_compute; discriminate]].
    + intros H. exfalso. revert H. apply not_start. vm_compute. discriminate.
    + intros (m & I & H). exfalso. revert H. apply not_start. repeat (destruct I as [<-|I]; [vm_compute; discriminate|]). destruct I.
  - intros (m & I & H). revert H. apply not_start. repeat (destruct I as [<-|I]; [vm_compute; discriminate|]). destruct I.
Qed.

(** ** C106 *)
Lemma C106_json : forall pl msg archive fs file rs, results pl msg archive (fs file) = Ok rs -> ~ In x00 file -> Forall (fun o => exists v, json_of pl msg o v) rs ->
  exists out vs, program pl msg archive fs [file; B "json"] = Ok out /\ Forall2 (json_of pl msg) rs vs /\
    (forall d, json_value out d <-> d = JObj [(map b2n (B "name"), JStr (map b2n file)); (map b2n (B "extensions"), JArr vs)]).
Proof. exact program_json. Qed.
Lemma C106_plain : forall pl msg archive content fs file, supported pl -> lenN content < 2 ^ 32 -> no_container content -> fs file = Some content ->
  long_enough content -> ~ starts_one content wp_magics -> ~ In x00 file ->
  exists rs out vs, results pl msg archive (fs file) = Ok rs /\ program pl msg archive fs [file; B "json"] = Ok out /\ Forall2 (json_of pl msg) rs vs /\
    (forall d, json_value out d <-> d = JObj [(map b2n (B "name"), JStr (map b2n file)); (map b2n (B "extensions"), JArr vs)]).
Proof.
  intros pl msg archive content fs file Sp Sm Nc St Lo Nw Nf. destruct (results_exist pl msg archive content Sm Sp Nc Lo) as (rs & E).
  pose proof (all_simple pl msg archive content Sm Sp Nc rs E) as F. assert (E0 : results pl msg archive (fs file) = Ok rs) by (rewrite St; exact E). clear E. rename E0 into E.
  destruct (program_json pl msg archive fs file rs E Nf) as (out & vs & P & J & U).
  { eapply Forall_impl; [|exact F]. intros o Ho. eapply simple_json; eassumption. }
  exists rs, out, vs. auto.
Qed.
Lemma C106_archives : forall pl msg archive content es fs file, supported pl -> lenN content < 2 ^ 32 -> starts content (B "PK") -> archive (Some content) = Ok es ->
  fs file = Some content -> ~ Zip.Statements.has_macros es -> movie_ok content -> ~ In x00 file ->
  Forall (fun e => json_literal (z_name e) /\ json_literal (z_comment e)) es ->
  exists rs out vs, results pl msg archive (fs file) = Ok rs /\ program pl msg archive fs [file; B "json"] = Ok out /\ Forall2 (json_of pl msg) rs vs /\
    (forall d, json_value out d <-> d = JObj [(map b2n (B "name"), JStr (map b2n file)); (map b2n (B "extensions"), JArr vs)]).
Proof. intros. eapply archive_json; eassumption. Qed.

(** ** C107 *)
Lemma C107_xml : forall pl msg archive fs file rs, results pl msg archive (fs file) = Ok rs -> Forall (fun o => exists v, xml_of pl msg o v) rs ->
  exists out shown es, program pl msg archive fs [file; B "xml"] = Ok out /\ Forall2 (xml_of pl msg) rs es /\
    (forall d, xml_document out d <-> d = XElem (B "file") [XElem (B "name") shown; XElem (B "extensions") es]) /\
    (shown = xtext file <-> ~ In x3c file /\ ~ In x3e file).
Proof. exact program_xml. Qed.
Lemma C107_plain : forall pl msg archive content fs file, supported pl -> lenN content < 2 ^ 32 -> no_container content -> fs file = Some content ->
  long_enough content -> ~ starts_one content wp_magics ->
  exists rs out shown es, results pl msg archive (fs file) = Ok rs /\ program pl msg archive fs [file; B "xml"] = Ok out /\ Forall2 (xml_of pl msg) rs es /\
    (forall d, xml_document out d <-> d = XElem (B "file") [XElem (B "name") shown; XElem (B "extensions") es]) /\
    (shown = xtext file <-> ~ In x3c file /\ ~ In x3e file).
Proof.
  intros pl msg archive content fs file Sp Sm Nc St Lo Nw. destruct (results_exist pl msg archive content Sm Sp Nc Lo) as (rs & E).
  pose proof (all_simple pl msg archive content Sm Sp Nc rs E) as F. assert (E0 : results pl msg archive (fs file) = Ok rs) by (rewrite St; exact E). clear E. rename E0 into E.
  destruct (program_xml pl msg archive fs file rs E) as (out & shown & es & P & J & U).
  { eapply Forall_impl; [|exact F]. intros o Ho. eapply simple_xml; eassumption. }
  exists rs, out, shown, es. auto.
Qed.
Lemma C107_archives : forall pl msg archive content es fs file, supported pl -> lenN content < 2 ^ 32 -> starts content (B "PK") -> archive (Some content) = Ok es ->
  fs file = Some content -> ~ Zip.Statements.has_macros es -> movie_ok content ->
  Forall (fun e => xml_literal (z_name e) /\ xml_literal (z_comment e)) es ->
  exists rs out shown ns, results pl msg archive (fs file) = Ok rs /\ program pl msg archive fs [file; B "xml"] = Ok out /\ Forall2 (xml_of pl msg) rs ns /\
    (forall d, xml_document out d <-> d = XElem (B "file") [XElem (B "name") shown; XElem (B "extensions") ns]) /\
    (shown = xtext file <-> ~ In x3c file /\ ~ In x3e file).
Proof. intros. eapply archive_xml; eassumption. Qed.

(** ** C108 *)
Lemma C108_iff : forall pl msg archive content es fs file f, supported pl -> lenN content < 2 ^ 32 -> starts content (B "PK") -> archive (Some content) = Ok es ->
  fs file = Some content ->
  ((exists out, program pl msg archive fs [file; f] = Ok out) <-> ~ Zip.Statements.has_macros es /\ movie_ok content).
Proof. intros. apply archive_answers_iff; assumption. Qed.
Lemma C108_macros : forall pl msg archive content es fs file f, supported pl -> lenN content < 2 ^ 32 -> starts content (B "PK") -> archive (Some content) = Ok es ->
  fs file = Some content -> Zip.Statements.has_macros es -> program pl msg archive fs [file; f] = UB.
Proof. intros. eapply archive_macros; eassumption. Qed.

Definition packed (es : list zentry) (f : option bytes) : res (list zentry) := Ok es.
Lemma C108_refuted : exists es content, starts content (B "PK") /\ Zip.Statements.has_macros es /\
  forall pl msg f, supported pl -> program pl msg (packed es) (one_file content) [B "f"; f] = UB.
Proof.
  destruct Zip.PropertyLemmas.C89_refuted as (es & M & _). exists es, (B "PK"). split; [exists [], []; split; reflexivity|]. split; [exact M|].
  intros pl msg f P. apply (C108_macros pl msg (packed es) (B "PK") es (one_file (B "PK")) (B "f") f P); try reflexivity; [exists [], []; split; reflexivity|exact M].
Qed.
Lemma C108_ex : starts (B "PK") (B "PK") /\ movie_ok (B "PK") /\ ~ Zip.Statements.has_macros Zip.PropertyLemmas.docx /\
  Forall (fun e => json_literal (z_name e) /\ json_literal (z_comment e)) Zip.PropertyLemmas.docx /\
  is_ok (program linux64 no_text (packed Zip.PropertyLemmas.docx) (one_file (B "PK")) [B "f"; B "json"]) = true.
Proof.
  split; [exists [], []; split; reflexivity|]. split; [|split; [|split]].
  - intros (pre & post & E & L). apply (f_equal lenN) in E. rewrite !lenN_app in E. change (lenN (B "PK")) with 2 in E. lia.
  - intros M. pose proof (Zip.PropertyLemmas.C89_undefined linux64 _ [] M) as U. vm_compute in U. discriminate U.
  - repeat (constructor; [split; [repeat (constructor; [split; [split; vm_compute; congruence|split; discriminate]|]); constructor|constructor]|]). constructor.
  - vm_compute. reflexivity.
Qed.

(** ** C109 *)
Lemma C109_iff : forall pl msg archive content fs file f, lenN content < 2 ^ 32 -> starts content [xd0; xcf; x11; xe0] -> fs file = Some content ->
  ((exists out, program pl msg archive fs [file; f] = Ok out) <->
   (exists l, Guess pl (read_workbook pl msg) ole_list (Some content) = Ok l /\ forall x, In x l -> exists t, render pl (ParseOutputFormat f) x = Ok t) /\
   movie_ok content).
Proof. intros. apply compound_answers; assumption. Qed.
Lemma C109_fails : forall pl msg archive content fs file f r, lenN content < 2 ^ 32 -> starts content [xd0; xcf; x11; xe0] -> fs file = Some content -> movie_ok content ->
  Guess pl (read_workbook pl msg) ole_list (Some content) = r -> fails r -> program pl msg archive fs [file; f] = (_ <- r ;; Ok []).
Proof. intros. eapply compound_stops; eassumption. Qed.
Lemma C109_json : forall pl msg archive content fs file l, lenN content < 2 ^ 32 -> starts content [xd0; xcf; x11; xe0] -> fs file = Some content -> movie_ok content ->
  Guess pl (read_workbook pl msg) ole_list (Some content) = Ok l -> ~ In x00 file -> Forall (json_found pl msg) l ->
  exists rs out vs, results pl msg archive (fs file) = Ok rs /\ program pl msg archive fs [file; B "json"] = Ok out /\ Forall2 (json_of pl msg) rs vs /\
    (forall x, In x l -> In (OFile x) rs) /\
    (forall d, json_value out d <-> d = JObj [(map b2n (B "name"), JStr (map b2n file)); (map b2n (B "extensions"), JArr vs)]).
Proof. intros. eapply compound_json; eassumption. Qed.
Lemma C109_xml : forall pl msg archive content fs file l, lenN content < 2 ^ 32 -> starts content [xd0; xcf; x11; xe0] -> fs file = Some content -> movie_ok content ->
  Guess pl (read_workbook pl msg) ole_list (Some content) = Ok l -> Forall (xml_found pl msg) l ->
  exists rs out shown ns, results pl msg archive (fs file) = Ok rs /\ program pl msg archive fs [file; B "xml"] = Ok out /\ Forall2 (xml_of pl msg) rs ns /\
    (forall x, In x l -> In (OFile x) rs) /\
    (forall d, xml_document out d <-> d = XElem (B "file") [XElem (B "name") shown; XElem (B "extensions") ns]) /\
    (shown = xtext file <-> ~ In x3c file /\ ~ In x3e file).
Proof. intros. eapply compound_xml; eassumption. Qed.

(** ** C110 *)
Lemma C110_json : forall f c items names b msg archive fs file i t, stored_as f c -> clean c -> holds f c 0 items -> workbook_at items names b ->
  fs file = Some f -> lenN f < 2 ^ 32 -> lenN b < 2 ^ 30 -> Forall unicode (all_paths items) -> ~ In x00 file ->
  Engine.Detailer windows msg b = Ok i -> Engine.contents_json windows i = Ok t -> Forall json_literal (Excel.DocStatements.raw_of i) ->
  exists out vs ms ws, program windows msg archive fs [file; B "json"] = Ok out /\
    path_members windows (all_paths items) [] ms /\ Excel.DocStatements.workbook_members windows i ws /\
    In (JObj (item_members (Engine.x_ext i) ++ ms ++ ws)) vs /\
    (forall d, json_value out d <-> d = JObj [(map b2n (B "name"), JStr (map b2n file)); (map b2n (B "extensions"), JArr vs)]).
Proof.
  intros f c items names b msg archive fs file i t St Cl Ho W Fs Sm Sh U Nf D C R. destruct (open_ok windows f c (or_intror eq_refl) St) as (s & Eo & _).
  eapply workbook_json; eassumption.
Qed.
Lemma C110_xml : forall f c items names b msg archive fs file i t, stored_as f c -> clean c -> holds f c 0 items -> workbook_at items names b ->
  fs file = Some f -> lenN f < 2 ^ 32 -> lenN b < 2 ^ 30 -> Forall unicode (all_paths items) ->
  Engine.Detailer windows msg b = Ok i -> Engine.contents_xml windows i = Ok t -> Forall xml_literal (Excel.DocStatements.raw_of i) ->
  exists out shown es l ws, program windows msg archive fs [file; B "xml"] = Ok out /\
    path_elements (all_paths items) [] l /\ Excel.DocStatements.workbook_elements windows i ws /\
    In (XElem (B "item") (base_elements (Engine.x_ext i) ++ l ++ ws)) es /\
    (forall d, xml_document out d <-> d = XElem (B "file") [XElem (B "name") shown; XElem (B "extensions") es]) /\
    (shown = xtext file <-> ~ In x3c file /\ ~ In x3e file).
Proof.
  intros f c items names b msg archive fs file i t St Cl Ho W Fs Sm Sh U D C R. destruct (open_ok windows f c (or_intror eq_refl) St) as (s & Eo & _).
  eapply workbook_xml; eassumption.
Qed.
Lemma C110_fails : forall f c items names b msg archive fs file format r, stored_as f c -> clean c -> holds f c 0 items -> workbook_at items names b ->
  fs file = Some f -> lenN f < 2 ^ 32 -> Engine.Detailer windows msg b = r -> fails r ->
  program windows msg archive fs [file; format] = (_ <- r ;; Ok []).
Proof.
  intros f c items names b msg archive fs file format r St Cl Ho W Fs Sm D N. destruct (open_ok windows f c (or_intror eq_refl) St) as (s & Eo & _).
  pose proof (workbook_stops f c s items names b msg St Cl Eo Ho W r D N) as G. destruct (stored_starts f c St) as (Sf & M).
  rewrite (compound_stops windows msg archive f Sm Sf fs file Fs format _ G); [|destruct r as [i| | |]; [exfalso; exact (N i eq_refl)|intros l El; discriminate El..]|exact M].
  destruct r as [i| | |]; [exfalso; exact (N i eq_refl)|reflexivity..].
Qed.
Lemma quiet_notes : quiet (VStream [a "Notes"] (repeatN x41 64)).
Proof.
  split.
  - intros I. vm_compute in I. repeat (destruct I as [I|I]; [discriminate I|]). destruct I.
  - intros k Ik T. unfold kinds in Ik. cbn [In] in Ik.
    repeat (destruct Ik as [<-|Ik]; [destruct T as [T|(Tc & T)]; [vm_compute in T; discriminate T|cbn [k_any_case] in Tc; try discriminate Tc; vm_compute in T; unfold same_low_letters in T;
      repeat match goal with H : Forall2 _ _ _ |- _ => inversion H; clear H; subst end; discriminate]|]).
    destruct Ik.
Qed.
Lemma book_at : workbook_at items_book [a "Workbook"] Excel.Samples.book.
Proof.
  exists [VStream [a "Notes"] (repeatN x41 64)], [], (mkKind (a "/Workbook") true (B "xls") (B "Microsoft Office Excel File") [] [] (Some RExcel)).
  split; [reflexivity|]. split; [constructor; [exact quiet_notes|constructor]|]. split; [constructor|]. split.
  - intros I. vm_compute in I. repeat (destruct I as [I|I]; [discriminate I|]). destruct I.
  - split; [do 3 right; left; reflexivity|]. split; [left; reflexivity|reflexivity].
Qed.
Definition good_code (c : N) : bool := ((c <? 0xD800) || ((0xE000 <=? c) && (c <=? 0x10FFFF))) && negb (c =? 0).
Lemma good_codes l : forallb (forallb good_code) l = true -> Forall unicode l.
Proof.
  intros H. apply Forall_forall. intros x I. rewrite forallb_forall in H. specialize (H x I). rewrite forallb_forall in H. apply Forall_forall. intros c Ic.
  specialize (H c Ic). unfold good_code, scalar in *. lia.
Qed.
Lemma C110_ex : stored_as file_book comp_book /\ clean comp_book /\ holds file_book comp_book 0 items_book /\ workbook_at items_book [a "Workbook"] Excel.Samples.book /\
  lenN file_book < 2 ^ 32 /\ lenN Excel.Samples.book < 2 ^ 30 /\ Forall unicode (all_paths items_book) /\
  Engine.Detailer windows Excel.Samples.said_text Excel.Samples.book = Ok book_result /\
  is_ok (Engine.contents_json windows book_result) = true /\ is_ok (Engine.contents_xml windows book_result) = true /\
  Forall json_literal (Excel.DocStatements.raw_of book_result) /\ Forall xml_literal (Excel.DocStatements.raw_of book_result) /\
  is_ok (program windows Excel.Samples.said_text no_archive (one_file file_book) [B "f"; B "json"]) = true.
Proof.
  split; [exact book_stored|]. split; [exact book_clean|]. split; [exact book_holds|]. split; [exact book_at|]. split; [vm_compute; reflexivity|]. split; [vm_compute; reflexivity|].
  split; [apply good_codes; vm_compute; reflexivity|]. split; [vm_compute; reflexivity|]. split; [vm_compute; reflexivity|]. split; [vm_compute; reflexivity|].
  assert (E : Excel.DocStatements.raw_of book_result = [[]; B "me"]) by (vm_compute; reflexivity). rewrite E.
  split; [|split; [|vm_compute; reflexivity]].
  - constructor; [constructor|]. constructor; [|constructor]. repeat (constructor; [split; [split; vm_compute; congruence|split; discriminate]|]). constructor.
  - constructor; [constructor|]. constructor; [|constructor]. repeat (constructor; [split; [split; vm_compute; congruence|intros M; vm_compute in M; intuition discriminate]|]). constructor.
Qed.
