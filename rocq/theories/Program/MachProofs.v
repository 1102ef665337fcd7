(** Proofs: Mach-O files, from the bytes to what the program prints. *)
From Coq Require Import List NArith ZArith Lia Bool Strings.String ZifyBool ZifyNat ZifyN.
From Verif Require Import Lib.Res Lib.Bytes Lib.BytesFacts Lib.Text Lib.NumSpec Lib.NumFacts Common.Model Common.Spec Common.Fields Common.FieldProofs Magic.Table Magic.Model Magic.GuessProofs Zip.Model
     Exe.Tables Exe.Model Exe.Spec Exe.Proofs Exe.PropertyLemmas Program.Model.
From Verif Require Magic.DocUnique Magic.PropertyLemmas.
From Verif Require Import Magic.Spec Magic.DocProofs Magic.DocBase.
From Verif Require Import Program.Statements Program.ScanProofs Program.SafetyProofs Program.DocProofs Program.ArchiveProofs Program.PartStatements Program.PartDocs Program.PartProgram
     Program.RowStatements Program.RowProofs Program.AsfProofs Program.ZipProofs Program.KindStatements Program.KindProofs.
Import Magic.Table.
Import ListNotations.
Local Open Scope N_scope.

Section File.
Variables (pl : platform) (msg : exn -> bytes) (archive : option bytes -> res (list zentry)) (content m : bytes) (fs : bytes -> option bytes) (file : bytes).
Hypothesis small : lenN content < 2 ^ 32.
Hypothesis long : 28 <= lenN content.
Hypothesis in_magics : In m mach_magics.
Hypothesis magic : starts content m.
Hypothesis no_movie : ~ occurs_at (B "ftyp") content 4.
Hypothesis in_fs : fs file = Some content.
Lemma mach_only p : called content p -> p = PMachO.
Proof.
  intros (m' & o & I & H). unfold parser_rows in I. unfold mach_magics in in_magics. cbn [In] in I, in_magics.
  repeat (destruct I as [I|I]; [injection I as <- <- <-; first [reflexivity|elim no_movie; exact H|
    exfalso; repeat (destruct in_magics as [<-|in_magics']; [pose proof (one_start _ _ _ _ _ H magic) as K; discriminate K|clear in_magics; rename in_magics' into in_magics]); destruct in_magics]|]).
  destruct I.
Qed.
Lemma mach_row mi : In mi table -> mi_func mi = Some PMachO -> carries content mi -> is_mach m mi = true.
Proof.
  intros I F C. assert (T : existsb (fun x => bytes_eqb (mi_magic mi) x) mach_magics && (mi_offset mi =? 0) = true).
  { assert (A : forallb (fun x => match mi_func x with Some PMachO => existsb (fun y => bytes_eqb (mi_magic x) y) mach_magics && (mi_offset x =? 0) | _ => true end) table = true) by (vm_compute; reflexivity).
    rewrite forallb_forall in A. specialize (A mi I). rewrite F in A. exact A. }
  apply andb_true_iff in T. destruct T as (T1 & T2). apply N.eqb_eq in T2. apply existsb_exists in T1. destruct T1 as (x & Ix & Ex). apply bytes_eqb_eq in Ex. unfold carries in C. rewrite T2, Ex in C.
  unfold is_mach. rewrite F, Ex. assert (Q : x = m); [|rewrite Q; apply bytes_eqb_refl].
  assert (L : forall y, In y mach_magics -> lenN y = 4) by (intros y Iy; unfold mach_magics in Iy; cbn [In] in Iy; destruct Iy as [<-|[<-|[<-|[<-|[]]]]]; reflexivity).
  destruct C as (a1 & b1 & E1 & L1). destruct magic as (a2 & b2 & E2 & L2). apply lenN_0 in L1, L2. subst a1 a2. cbn [app] in E1, E2. rewrite E1 in E2.
  pose proof (f_equal (takeN 4) E2) as G. rewrite <- (L x Ix) in G at 1. rewrite takeN_app_exact in G. rewrite <- (L m in_magics) in G. rewrite takeN_app_exact in G. exact G.
Qed.
Lemma mach_in_table : existsb (is_mach m) table = true /\ forallb (fun x => negb (is_mach m x)) (rows_from (is_mach m) table) = true.
Proof. unfold mach_magics in in_magics. cbn [In] in in_magics. destruct in_magics as [<-|[<-|[<-|[<-|[]]]]]; split; vm_compute; reflexivity. Qed.
Lemma mach_results : exists i before after, macho_detail (Some content) = Ok i /\ carried content (rows_upto (is_mach m) table) before /\
  carried content (rows_from (is_mach m) table) after /\ Forall (fun mi => In mi table /\ mi_func mi = None) (before ++ after) /\
  results pl msg archive (fs file) = Ok (map row_says before ++ [OResult (macho_result i)] ++ map row_says after).
Proof.
  pose proof (says_macho pl msg archive content small) as S. destruct (N.leb_spec 28 (lenN content)) as [_|Q]; [|lia]. destruct S as (i & Ei & S). exists i. rewrite in_fs.
  destruct (row_results pl msg archive content PMachO (is_mach m) small mach_only) with (l := [OResult (macho_result i)]) as (before & after & K).
  - apply called_macho. exists m. auto.
  - intros mi H. unfold is_mach in H. destruct (mi_func mi) as [[]|]; try discriminate H; reflexivity.
  - exact mach_row.
  - exact (proj1 mach_in_table).
  - exact (proj2 mach_in_table).
  - exact S.
  - discriminate.
  - exists before, after. split; [exact Ei|exact K].
Qed.
Lemma mach_shape i : macho_detail (Some content) = Ok i -> exists digits cname sname magic ncmds size, mach_header content digits cname sname magic ncmds size /\
  macho_ToText i = B "o" ++ [x09] ++ B "0x" ++ digits /\ macho_ToCsv i = B "o" ++ [x2c] ++ B "0x" ++ digits /\
  json_value (macho_ToJson i) (JObj (macho_members (B "0x" ++ digits) cname sname (dec ncmds) (dec size))) /\
  written (macho_ToXml i) (XElem (B "item") (macho_children (if magic mod 2 ^ 16 =? 0 then [] else dec (magic mod 2 ^ 16)) (B "0x" ++ digits) cname sname (dec ncmds) (dec size))).
Proof.
  intros Ei. destruct (macho_fields content i small Ei) as (mg & cpu & sub & n & s & K1 & K2 & K3 & K4 & K5 & ->).
  exists (pad0 8 (hex mg)), (cpuType2String cpu), (cpuSubType2String cpu sub), mg, n, s. split.
  - exists cpu, sub. repeat (split; [assumption|]). split; [apply length_pad0_hex; [|lia]; exact (number_at_bound _ _ _ _ K1)|].
    split; [apply hex_num_pad0|]. split; [apply lookup_named|]. apply subtype_spec; exact (number_at_bound _ _ _ _ K3).
  - split; [reflexivity|]. split; [reflexivity|]. split; [exact (macho_json mg cpu sub n s)|]. unfold written. apply document_cons. exact (macho_xml mg cpu sub n s).
Qed.
Theorem mach_lines : exists before after digits cname sname mg ncmds size, carried content (rows_upto (is_mach m) table) before /\ carried content (rows_from (is_mach m) table) after /\
  mach_header content digits cname sname mg ncmds size /\
  (forall args, args = [] \/ (exists format, args = [format] /\ format <> B "xml" /\ format <> B "csv" /\ format <> B "json") ->
   program pl msg archive fs (file :: args) = Ok (file ++ [x0a] ++ List.concat (map (fun row => [x09] ++ row ++ [x0a])
     (map (fun mi => five [x09] (row_info mi)) before ++ [B "o" ++ [x09] ++ B "0x" ++ digits] ++ map (fun mi => five [x09] (row_info mi)) after)))) /\
  program pl msg archive fs [file; B "csv"] = Ok (List.concat (map (fun row => row ++ [x0a])
     (map (fun mi => five [x2c] (row_info mi)) before ++ [B "o" ++ [x2c] ++ B "0x" ++ digits] ++ map (fun mi => five [x2c] (row_info mi)) after))).
Proof.
  destruct mach_results as (i & before & after & Ei & K1 & K2 & _ & E). destruct (mach_shape i Ei) as (digits & cname & sname & mg & ncmds & size & H & Et & Ec & _).
  exists before, after, digits, cname, sname, mg, ncmds, size. split; [exact K1|]. split; [exact K2|]. split; [exact H|].
  assert (T : forall fmt sep, row_format fmt sep -> mapM (show pl fmt) (map row_says before ++ [OResult (macho_result i)] ++ map row_says after) =
    Ok (map (fun mi => five sep (row_info mi)) before ++ [B "o" ++ sep ++ B "0x" ++ digits] ++ map (fun mi => five sep (row_info mi)) after)).
  { intros fmt sep Rf. apply mapM_app; [apply others_rows; exact Rf|]. apply (mapM_app (show pl fmt) [OResult (macho_result i)] _ [B "o" ++ sep ++ B "0x" ++ digits]); [|apply others_rows; exact Rf].
    destruct Rf as [(-> & ->)|(-> & ->)]; cbn [mapM show bind macho_result r_out eText eCsv]; [rewrite Et|rewrite Ec]; reflexivity. }
  split.
  - intros args [-> |(format & -> & Nx & Nc & Nj)]; unfold program; rewrite E; cbn [bind]; rewrite ?(other_format format Nx Nc Nj), (T TEXT [x09]) by (left; auto); reflexivity.
  - unfold program. rewrite E. cbn [bind]. change (ParseOutputFormat (B "csv")) with CSV. rewrite (T CSV [x2c]) by (right; auto). reflexivity.
Qed.
Theorem mach_json : ~ In x00 file ->
  exists out before after digits cname sname mg ncmds size, program pl msg archive fs [file; B "json"] = Ok out /\ carried content (rows_upto (is_mach m) table) before /\
    carried content (rows_from (is_mach m) table) after /\ mach_header content digits cname sname mg ncmds size /\
    forall d, json_value out d <-> d = JObj [(map b2n (B "name"), JStr (map b2n file));
      (map b2n (B "extensions"), JArr (map row_object before ++ [JObj (macho_members (B "0x" ++ digits) cname sname (dec ncmds) (dec size))] ++ map row_object after))].
Proof.
  intros Nf. destruct mach_results as (i & before & after & Ei & K1 & K2 & K3 & E). apply Forall_app in K3. destruct K3 as (A1 & A2).
  destruct (mach_shape i Ei) as (digits & cname & sname & mg & ncmds & size & H & _ & _ & J & _).
  destruct (others_json pl before A1) as (t1 & E1 & V1). destruct (others_json pl after A2) as (t2 & E2 & V2).
  assert (Et : mapM (show pl JSON) [OResult (macho_result i)] = Ok [macho_ToJson i]) by reflexivity.
  pose proof (mapM_app (show pl JSON) _ _ _ _ E1 (mapM_app (show pl JSON) _ _ _ _ Et E2)) as T.
  destruct (program_values pl msg archive fs file _ _ (map row_object before ++ [JObj (macho_members (B "0x" ++ digits) cname sname (dec ncmds) (dec size))] ++ map row_object after) E T) as (out & Eo & D); [|exact Nf|].
  - apply Forall2_app; [exact V1|]. apply Forall2_app; [constructor; [exact J|constructor]|exact V2].
  - exists out, before, after, digits, cname, sname, mg, ncmds, size. auto 10.
Qed.
Theorem mach_xml :
  exists out shown before after digits cname sname mg ncmds size, program pl msg archive fs [file; B "xml"] = Ok out /\ carried content (rows_upto (is_mach m) table) before /\
    carried content (rows_from (is_mach m) table) after /\ mach_header content digits cname sname mg ncmds size /\
    (forall d, xml_document out d <-> d = XElem (B "file") [XElem (B "name") shown; XElem (B "extensions") (map row_element before ++
      [XElem (B "item") (macho_children (if mg mod 2 ^ 16 =? 0 then [] else dec (mg mod 2 ^ 16)) (B "0x" ++ digits) cname sname (dec ncmds) (dec size))] ++ map row_element after)]) /\
    (shown = xtext file <-> ~ In x3c file /\ ~ In x3e file).
Proof.
  destruct mach_results as (i & before & after & Ei & K1 & K2 & K3 & E). apply Forall_app in K3. destruct K3 as (A1 & A2).
  destruct (mach_shape i Ei) as (digits & cname & sname & mg & ncmds & size & H & _ & _ & _ & X).
  destruct (others_xml pl before A1) as (t1 & E1 & V1). destruct (others_xml pl after A2) as (t2 & E2 & V2).
  assert (Et : mapM (show pl XML) [OResult (macho_result i)] = Ok [macho_ToXml i]) by reflexivity.
  pose proof (mapM_app (show pl XML) _ _ _ _ E1 (mapM_app (show pl XML) _ _ _ _ Et E2)) as T.
  destruct (program_nodes pl msg archive fs file _ _ (map row_element before ++
      [XElem (B "item") (macho_children (if mg mod 2 ^ 16 =? 0 then [] else dec (mg mod 2 ^ 16)) (B "0x" ++ digits) cname sname (dec ncmds) (dec size))] ++ map row_element after) E T) as (out & shown & Eo & D & S).
  - apply Forall2_app; [exact V1|]. apply Forall2_app; [constructor; [exact X|constructor]|exact V2].
  - exists out, shown, before, after, digits, cname, sname, mg, ncmds, size. auto 10.
Qed.
End File.
