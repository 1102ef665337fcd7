(** Proofs: files that carry the signatures of several parsers, from the bytes to what the program prints. *)
From Coq Require Import List NArith ZArith Lia Bool Strings.String ZifyBool ZifyNat ZifyN.
From Verif Require Import Lib.Res Lib.Bytes Lib.BytesFacts Lib.Text Common.Model Common.Spec Magic.Table Magic.Model Magic.GuessProofs Zip.Model
     Detect.Model Detect.Output Program.Model.
From Verif Require Magic.DocUnique Magic.PropertyLemmas.
From Verif Require Import Magic.Spec Magic.DocProofs Magic.DocBase.
From Verif Require Import Program.Statements Program.ScanProofs Program.SafetyProofs Program.DocProofs Program.ArchiveProofs Program.PartStatements Program.PartDocs Program.PartProgram
     Program.RowStatements Program.RowProofs Program.AsfProofs Program.ZipProofs Program.KindStatements Program.KindProofs Program.RestStatements Program.RestProofs.
Import Magic.Table.
Import ListNotations.
Local Open Scope N_scope.

Section File.
Variables (pl : platform) (msg : exn -> bytes) (archive : option bytes -> res (list zentry)) (content : bytes) (fs : bytes -> option bytes) (file : bytes).
Hypothesis small : lenN content < 2 ^ 32.
Hypothesis sup : supported pl.
Hypothesis in_fs : fs file = Some content.
Hypothesis kinds : forall p, signed content p -> exists e, one_kind content p e.
Hypothesis some : exists p, signed content p.
Lemma row_signed mi p : In mi table -> mi_func mi = Some p -> carries content mi -> signed content p.
Proof. intros I F C. apply called_signed, called_row. exists mi. auto. Qed.
Lemma entries_reports l rs : (forall mi, In mi l -> In mi table) -> reports content row_says (parser_says pl msg archive content) l rs ->
  exists es, entries content l es /\ rs = map (fun e => OResult (plain_result e)) es /\ Forall (fun e => info_plain e = true) es.
Proof.
  intros T R. induction R as [|mi l rs NC R IH|mi l rs C F R IH|mi p x l rs C F E R IH].
  - exists []. repeat split; constructor.
  - destruct IH as (es & K & -> & A); [intros m I; apply T; right; exact I|]. exists es. repeat split; [|exact A]. apply en_absent; assumption.
  - destruct IH as (es & K & -> & A); [intros m I; apply T; right; exact I|]. exists (row_info mi :: es). split; [apply en_plain; assumption|]. split; [reflexivity|].
    constructor; [|exact A]. apply Magic.PropertyLemmas.row_plain; [apply T; left; reflexivity|exact F].
  - destruct IH as (es & K & -> & A); [intros m I; apply T; right; exact I|]. assert (Sp : signed content p) by (apply (row_signed mi); [apply T; left; reflexivity|exact F|exact C]).
    destruct (kinds p Sp) as (e & Ke). destruct (kind_says pl msg archive content small sup p e Sp Ke) as (Es & Pe). rewrite Es in E. injection E as <-.
    exists (e :: es). split; [eapply en_kind; eassumption|]. split; [reflexivity|]. constructor; assumption.
Qed.
Lemma entries_some l es mi : entries content l es -> In mi l -> carries content mi -> es <> [].
Proof.
  intros K. induction K as [|m l es NC K IH|m l es Cm Fm K IH|m q e l es Cm Fm Ke K IH]; intros I C; try discriminate; [destruct I|]. destruct I as [-> |I]; [contradiction|exact (IH I C)].
Qed.
Lemma both_results : exists es, entries content table es /\ Forall (fun e => info_plain e = true) es /\ results pl msg archive (fs file) = Ok (map (fun e => OResult (plain_result e)) es).
Proof.
  rewrite in_fs. destruct (rows_decided pl msg archive content table) as [(rs & R)|(r & T)].
  - destruct (entries_reports table rs) as (es & K & -> & A); [auto|exact R|]. exists es. split; [exact K|]. split; [exact A|]. apply results_ok; [exact small|]. eexists. split; [exact R|].
    destruct es as [|e es]; [|reflexivity]. exfalso. destruct some as (p & Sp). apply called_signed, called_row in Sp. destruct Sp as (mi & I & F & C). exact (entries_some table [] mi K I C eq_refl).
  - exfalso. destruct T as (before & mi & after & p & found & Et & _ & C & F & E & Nr). 
    assert (Sp : signed content p) by (apply (row_signed mi); [rewrite Et; apply in_or_app; right; left; reflexivity|exact F|exact C]).
    destruct (kinds p Sp) as (e & Ke). destruct (kind_says pl msg archive content small sup p e Sp Ke) as (Es & _). apply (Nr [OResult (plain_result e)]). rewrite <- E. exact Es.
Qed.
Theorem both_lines : exists es, entries content table es /\
  (forall args, args = [] \/ (exists format, args = [format] /\ format <> B "xml" /\ format <> B "csv" /\ format <> B "json") ->
   program pl msg archive fs (file :: args) = Ok (file ++ [x0a] ++ List.concat (map (fun row => [x09] ++ row ++ [x0a]) (map (five [x09]) es)))) /\
  program pl msg archive fs [file; B "csv"] = Ok (List.concat (map (fun row => row ++ [x0a]) (map (five [x2c]) es))).
Proof.
  destruct both_results as (es & K & _ & E). exists es. split; [exact K|].
  assert (T : forall fmt sep, row_format fmt sep -> mapM (show pl fmt) (map (fun e => OResult (plain_result e)) es) = Ok (map (five sep) es)).
  { intros fmt sep Rf. clear - Rf. induction es as [|e es IH]; [reflexivity|]. cbn [map mapM]. rewrite IH, five_join. destruct Rf as [(-> & ->)|(-> & ->)]; reflexivity. }
  split.
  - intros args [-> |(format & -> & Nx & Nc & Nj)]; unfold program; rewrite E; cbn [bind]; rewrite ?(other_format format Nx Nc Nj), (T TEXT [x09]) by (left; auto); reflexivity.
  - unfold program. rewrite E. cbn [bind]. change (ParseOutputFormat (B "csv")) with CSV. rewrite (T CSV [x2c]) by (right; auto). reflexivity.
Qed.
Lemma plain_ones es : Forall (fun e => info_plain e = true) es -> Forall plain_one (map plain_result es) /\ map r_info (map plain_result es) = es /\
  map OResult (map plain_result es) = map (fun e => OResult (plain_result e)) es.
Proof.
  intros A. split; [|split].
  - induction A as [|e es P A IH]; cbn [map]; constructor; [exists e; auto|exact IH].
  - rewrite map_map. clear. induction es as [|e es IH]; [reflexivity|]. cbn [map]. rewrite IH. reflexivity.
  - apply map_map.
Qed.
Theorem both_json : ~ In x00 file -> exists out es, program pl msg archive fs [file; B "json"] = Ok out /\ entries content table es /\
    forall d, json_value out d <-> d = JObj [(map b2n (B "name"), JStr (map b2n file)); (map b2n (B "extensions"), JArr (map (fun e => JObj (item_members e)) es))].
Proof.
  intros Nf. destruct both_results as (es & K & A & E). destruct (plain_ones es A) as (P & Q1 & Q2). destruct (ones_json pl _ P) as (ts & Et & V). rewrite Q1 in V. rewrite Q2 in Et.
  destruct (program_values pl msg archive fs file _ _ _ E Et V Nf) as (out & Eo & D). exists out, es. auto.
Qed.
Theorem both_xml : exists out shown es, program pl msg archive fs [file; B "xml"] = Ok out /\ entries content table es /\
    (forall d, xml_document out d <-> d = XElem (B "file") [XElem (B "name") shown; XElem (B "extensions") (map item_element es)]) /\
    (shown = xtext file <-> ~ In x3c file /\ ~ In x3e file).
Proof.
  destruct both_results as (es & K & A & E). destruct (plain_ones es A) as (P & Q1 & Q2). destruct (ones_xml pl _ P) as (ts & Et & V). rewrite Q1 in V. rewrite Q2 in Et.
  destruct (program_nodes pl msg archive fs file _ _ _ E Et V) as (out & shown & Eo & D & S). exists out, shown, es. auto.
Qed.
Theorem entries_unique l es1 es2 : (forall mi, In mi l -> In mi table) -> entries content l es1 -> entries content l es2 -> es1 = es2.
Proof.
  intros T K1. revert es2. induction K1 as [|m l es NC K IH|m l es Cm Fm K IH|m q e l es Cm Fm Ke K IH]; intros es2 K2; inversion K2 as [|m' l' es' NC' K'|m' l' es' Cm' Fm' K'|m' q' e' l' es' Cm' Fm' Ke' K']; subst; try contradiction; try congruence.
  - apply IH; [intros x I; apply T; right; exact I|exact K'].
  - f_equal. apply IH; [intros x I; apply T; right; exact I|exact K'].
  - rewrite Fm in Fm'. injection Fm' as <-. f_equal; [|apply IH; [intros x I; apply T; right; exact I|exact K']].
    assert (Sp : signed content q) by (apply (row_signed m); [apply T; left; reflexivity|exact Fm|exact Cm]).
    destruct (kind_says pl msg archive content small sup q e Sp Ke) as (E1 & _). destruct (kind_says pl msg archive content small sup q e' Sp Ke') as (E2 & _). rewrite E1 in E2. injection E2 as Q. exact Q.
Qed.
End File.
