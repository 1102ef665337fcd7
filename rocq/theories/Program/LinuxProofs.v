(** Compound files on Linux, from the bytes to what the program prints. *)
From Coq Require Import List NArith Lia Bool Strings.String Strings.Byte.
From Verif Require Import Lib.Res Lib.Bytes Lib.BytesFacts Lib.Text Common.Model Common.Spec Magic.Table Magic.Model Ole.Model Ole.Spec Ole.Statements
     Zip.Model Detect.Model Detect.Output Detect.Statements Program.Model.
From Verif Require Import Magic.Spec Detect.Spec Program.Statements Program.CompoundProofs Program.DocProofs Program.PartStatements Program.PartDocs Program.PartProgram.
From Verif Require Detect.PropertyLemmas.
Import ListNotations.
Local Open Scope N_scope.

Section Linux.
Variables (f : bytes) (c : compound) (msg : exn -> bytes) (archive : option bytes -> res (list zentry)) (fs : bytes -> option bytes) (file : bytes).
Hypothesis stored : stored_as f c.
Hypothesis in_fs : fs file = Some f.
Hypothesis small : lenN f < 2 ^ 32.
Lemma linux_split l : Guess linux64 (read_workbook linux64 msg) ole_list (Some f) = Ok l -> l <> [] ->
  exists before after, carried f (rows_before table) before /\ carried f (rows_behind table) after /\ results linux64 msg archive (fs file) = Ok (map row_says before ++ map OFile l ++ map row_says after).
Proof.
  intros G N. destruct (stored_starts f c stored) as (St & _). destruct (split_results f msg archive small St (no_movie f c stored) linux64 l G) as (before & after & K1 & K2 & _ & E).
  exists before, after. rewrite in_fs. split; [exact K1|]. split; [exact K2|]. exact (E N).
Qed.
Lemma linux_fuel : Guess linux64 (read_workbook linux64 msg) ole_list (Some f) = Fuel -> forall format, program linux64 msg archive fs [file; format] = Fuel.
Proof.
  intros G format. destruct (stored_starts f c stored) as (St & M). rewrite (compound_stops linux64 msg archive f small St fs file in_fs format _ G); [reflexivity| |exact M]. intros x E. discriminate E.
Qed.
Lemma signature_rows fmt sep l : row_format fmt sep -> mapM (show linux64 fmt) (map row_says l) = Ok (map (fun mi => five sep (row_info mi)) l).
Proof. intros R. induction l as [|mi l IH]; [reflexivity|]. cbn [map mapM]. rewrite (signature_columns fmt sep mi R), IH. reflexivity. Qed.
Lemma found_rows fmt sep e l : row_format fmt sep -> Forall (fun r => exists p, r = FOless e p []) l -> mapM (show linux64 fmt) (map OFile l) = Ok (map (fun _ => three sep e) l).
Proof. intros R. induction 1 as [|r l (p & ->) F IH]; [reflexivity|]. cbn [map mapM]. rewrite (document_row fmt sep) by exact R. rewrite IH. reflexivity. Qed.
(** What one of the two kinds of results looks like *)
Definition linux_info (e : ExtensionInfo) : Prop := e = mkExt (B "oless") [] [] 0 (B "OLE Structured Storage") \/ e = mkExt (B "ole_eq") (B "OLE Equation Editor") [] 0 [].
Lemma linux_rows fmt sep format : row_format fmt sep -> ParseOutputFormat format = fmt ->
  program linux64 msg archive fs [file; format] = Fuel \/
  exists before after e rows, carried f (rows_before table) before /\ carried f (rows_behind table) after /\ rows <> [] /\
    (e = mkExt (B "oless") [] [] 0 (B "OLE Structured Storage") /\ rows = [three sep e] \/
     e = mkExt (B "ole_eq") (B "OLE Equation Editor") [] 0 [] /\ Exists (fun n => lenN (visible (n_name n)) = 15) (c_dir c) /\ Forall (eq (three sep e)) rows) /\
    program linux64 msg archive fs [file; format] =
      Ok (layout fmt file (B "extensions") (map (fun mi => five sep (row_info mi)) before ++ rows ++ map (fun mi => five sep (row_info mi)) after)).
Proof.
  intros R Ef. destruct (Detect.PropertyLemmas.C79_linux f c (read_workbook linux64 msg) stored) as [G|(l & G & K)]; [left; apply linux_fuel; exact G|right].
  assert (H : l <> [] /\ exists e, linux_info e /\ Forall (fun r => exists p, r = FOless e p []) l /\
    (e = mkExt (B "oless") [] [] 0 (B "OLE Structured Storage") /\ List.length l = 1%nat \/
     e = mkExt (B "ole_eq") (B "OLE Equation Editor") [] 0 [] /\ Exists (fun n => lenN (visible (n_name n)) = 15) (c_dir c))).
  { destruct K as [(paths & ->)|(X & F)].
    - split; [discriminate|]. eexists. split; [left; reflexivity|]. split; [constructor; [eexists; reflexivity|constructor]|]. left. split; reflexivity.
    - split; [|eexists; split; [right; reflexivity|]; split; [exact F|right; split; [reflexivity|exact X]]].
      intros ->. unfold Guess in G. destruct (storage_load linux64 (Some f)) as [o| | |]; cbn [bind] in G; try discriminate G.
      match type of G with (x <- ?t ;; _) = _ => destruct t as [t'| | |] end; cbn [bind] in G; try discriminate G. destruct (st_results t') as [|r0 rs]; [discriminate G|]. cbn [attach] in G. destruct r0; discriminate G. }
  destruct H as (N & e & _ & F & H). destruct (linux_split l G N) as (before & after & K1 & K2 & E). exists before, after, e, (map (fun _ => three sep e) l).
  split; [exact K1|]. split; [exact K2|]. split; [destruct l; [contradiction|discriminate]|]. split.
  - destruct H as [(-> & L)|(-> & X)]; [left|right].
    + split; [reflexivity|]. destruct l as [|x [|y l]]; try discriminate L. reflexivity.
    + split; [reflexivity|]. split; [exact X|]. clear. induction l; constructor; [reflexivity|assumption].
  - unfold program. rewrite E. cbn [bind]. rewrite Ef.
    rewrite (mapM_app _ _ _ _ _ (signature_rows fmt sep before R) (mapM_app _ _ _ _ _ (found_rows fmt sep e l R F) (signature_rows fmt sep after R))). reflexivity.
Qed.
Lemma mapM_stop {X Y} (h : X -> res Y) l1 x l2 r ys : mapM h l1 = Ok ys -> h x = Throw r -> mapM h (l1 ++ x :: l2) = Throw r.
Proof.
  revert ys. induction l1 as [|y l1 IH]; intros ys E T; cbn [app mapM] in *; [rewrite T; reflexivity|]. apply bind_ok in E. destruct E as (z & Ez & E). apply bind_ok in E. destruct E as (zs & Ezs & _).
  rewrite Ez. cbn [bind]. rewrite (IH zs Ezs T). reflexivity.
Qed.
Lemma rows_show fmt l : exists ts, mapM (show linux64 fmt) (map row_says l) = Ok ts.
Proof. induction l as [|mi l (ts & E)]; [exists []; reflexivity|]. cbn [map mapM]. unfold row_says at 1. cbn [show bind]. rewrite E. eexists. reflexivity. Qed.
Lemma linux_documents root ks k n u0 u1 r format : nthN (c_dir c) 0 = Some root -> n_type root = 5 -> members (c_dir c) 0 ks -> In k ks -> nthN (c_dir c) k = Some n ->
  n_name n = u0 :: u1 :: r -> u0 mod 256 <> 0 -> 17 <= u1 -> format = B "json" \/ format = B "xml" ->
  program linux64 msg archive fs [file; format] = Fuel \/ program linux64 msg archive fs [file; format] = Throw RangeError.
Proof.
  intros Hr Tr Ms Ik Hk En Z U Fm. destruct (Detect.PropertyLemmas.C79_linux f c (read_workbook linux64 msg) stored) as [G|(l & G & _)]; [left; apply linux_fuel; exact G|right].
  destruct (Detect.PropertyLemmas.C79_documents f c (read_workbook linux64 msg) root ks k n u0 u1 r l stored Hr Tr Ms Ik Hk En Z U G) as (x & others & -> & J & X).
  destruct (linux_split _ G ltac:(discriminate)) as (before & after & _ & _ & E). unfold program. rewrite E. cbn [bind]. 
  assert (Sx : show linux64 (ParseOutputFormat format) (OFile x) = Throw RangeError).
  { destruct Fm as [-> | ->]; [change (ParseOutputFormat (B "json")) with JSON|change (ParseOutputFormat (B "xml")) with XML]; cbn [show]; assumption. }
  destruct (rows_show (ParseOutputFormat format) before) as (ts & Et). cbn [map app]. rewrite (mapM_stop _ _ _ _ _ _ Et Sx). reflexivity.
Qed.
End Linux.
