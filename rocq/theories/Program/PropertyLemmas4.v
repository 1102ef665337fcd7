(** Compound files on Linux: statements in the terms of the properties. *)
From Coq Require Import List NArith Lia Bool Strings.String Strings.Byte.
From Verif Require Import Lib.Res Lib.Bytes Lib.BytesFacts Lib.Text Common.Model Common.Spec Magic.Table Magic.Model Ole.Model Ole.Spec Ole.Statements
     Zip.Model Detect.Model Detect.Output Detect.Statements Program.Model.
From Verif Require Import Magic.Spec Detect.Spec Detect.Samples Program.Statements Program.CompoundProofs Program.PartStatements Program.PartDocs Program.PartProgram Program.PartSamples Program.Samples Program.LinuxProofs Detect.TreeSpec Detect.LinuxEnd Ole.PathSamples.
From Verif Require Detect.PropertyLemmas Ole.ChainProofs.
Import ListNotations.
Local Open Scope N_scope.

Lemma C124_text : forall f c msg archive fs file format, stored_as f c -> fs file = Some f -> lenN f < 2 ^ 32 ->
  format <> B "xml" -> format <> B "csv" -> format <> B "json" ->
  program linux64 msg archive fs [file; format] = Fuel \/
  exists before after rows, carried f (rows_before table) before /\ carried f (rows_behind table) after /\
    (rows = [separated [x09] [B "oless"; B "OLE Structured Storage"; B "0"]] \/
     Exists (fun n => lenN (visible (n_name n)) = 15) (c_dir c) /\ rows <> [] /\ Forall (eq (separated [x09] [B "ole_eq"; []; B "0"])) rows) /\
    program linux64 msg archive fs [file; format] = Ok (file ++ [x0a] ++ List.concat (map (fun row => [x09] ++ row ++ [x0a])
      (map (fun mi => five [x09] (row_info mi)) before ++ rows ++ map (fun mi => five [x09] (row_info mi)) after))).
Proof.
  intros f c msg archive fs file format St I Sm Nx Nc Nj.
  destruct (linux_rows f c msg archive fs file St I Sm TEXT [x09] format (or_introl (conj eq_refl eq_refl)) (other_format format Nx Nc Nj)) as [E|(before & after & e & rows & K1 & K2 & N & H & E)]; [left; exact E|right].
  exists before, after, rows. split; [exact K1|]. split; [exact K2|]. split; [|exact E].
  destruct H as [(-> & ->)|(-> & X & F)]; [left; reflexivity|right]. split; [exact X|]. split; [exact N|exact F].
Qed.
Lemma C124_csv : forall f c msg archive fs file, stored_as f c -> fs file = Some f -> lenN f < 2 ^ 32 ->
  program linux64 msg archive fs [file; B "csv"] = Fuel \/
  exists before after rows, carried f (rows_before table) before /\ carried f (rows_behind table) after /\
    (rows = [separated [x2c] [B "oless"; B "OLE Structured Storage"; B "0"]] \/
     Exists (fun n => lenN (visible (n_name n)) = 15) (c_dir c) /\ rows <> [] /\ Forall (eq (separated [x2c] [B "ole_eq"; []; B "0"])) rows) /\
    program linux64 msg archive fs [file; B "csv"] = Ok (List.concat (map (fun row => row ++ [x0a])
      (map (fun mi => five [x2c] (row_info mi)) before ++ rows ++ map (fun mi => five [x2c] (row_info mi)) after))).
Proof.
  intros f c msg archive fs file St I Sm.
  destruct (linux_rows f c msg archive fs file St I Sm CSV [x2c] (B "csv") (or_intror (conj eq_refl eq_refl)) eq_refl) as [E|(before & after & e & rows & K1 & K2 & N & H & E)]; [left; exact E|right].
  exists before, after, rows. split; [exact K1|]. split; [exact K2|]. split; [|exact E].
  destruct H as [(-> & ->)|(-> & X & F)]; [left; reflexivity|right]. split; [exact X|]. split; [exact N|exact F].
Qed.
Lemma C124_documents : forall f c msg archive fs file format root ks k n u0 u1 r, stored_as f c -> fs file = Some f -> lenN f < 2 ^ 32 ->
  nthN (c_dir c) 0 = Some root -> n_type root = 5 -> members (c_dir c) 0 ks -> In k ks -> nthN (c_dir c) k = Some n -> n_name n = u0 :: u1 :: r -> u0 mod 256 <> 0 -> 17 <= u1 ->
  format = B "json" \/ format = B "xml" ->
  program linux64 msg archive fs [file; format] = Fuel \/ program linux64 msg archive fs [file; format] = Throw RangeError.
Proof. intros f c msg archive fs file format root ks k n u0 u1 r St I Sm Hr Tr Ms Ik Hk En Z U Fm. exact (linux_documents f c msg archive fs file St I Sm root ks k n u0 u1 r format Hr Tr Ms Ik Hk En Z U Fm). Qed.
Lemma found_shown fmt e p : (exists t, show linux64 fmt (OFile (FOless e p [])) = Ok t) \/ show linux64 fmt (OFile (FOless e p [])) = Throw RangeError.
Proof.
  assert (P : (exists ps, mapM path_utf8 p = Ok ps) \/ mapM path_utf8 p = Throw RangeError).
  { induction p as [|x p IH]; [left; exists []; reflexivity|]. cbn [mapM]. unfold path_utf8 at 1 3.
    destruct (Detect.OutputProofs.convert_cases (c_string x)) as [[u E]|E]; rewrite E; cbn [bind]; [|right; reflexivity].
    destruct IH as [[ps E']|E']; rewrite E'; cbn [bind]; [left; eexists; reflexivity|right; reflexivity]. }
  cbn [show render]. unfold oless_render, oless_base_json, oless_base_xml. destruct fmt; try (left; eexists; reflexivity);
    (destruct P as [[ps E]|E]; rewrite E; cbn [bind mapM]; [left; eexists; reflexivity|right; reflexivity]).
Qed.
Lemma C124_end : forall f c msg archive fs file format, stored_as f c -> finite_tree (c_dir c) -> fs file = Some f -> lenN f < 2 ^ 32 ->
  (exists out, program linux64 msg archive fs [file; format] = Ok out) \/ program linux64 msg archive fs [file; format] = Throw RangeError.
Proof.
  intros f c msg archive fs file format St Tr I Sm.
  assert (G : exists l, Guess linux64 (read_workbook linux64 msg) ole_list (Some f) = Ok l) by (apply (linux_ends f c _ _ St); [intros m J; exact J|exact Tr]).
  destruct G as (l & G).
  assert (N : l <> []).
  { intros ->. unfold Guess in G. destruct (storage_load linux64 (Some f)) as [o| | |]; cbn [bind] in G; try discriminate G.
    match type of G with (x <- ?t ;; _) = _ => destruct t as [t'| | |] end; cbn [bind] in G; try discriminate G. destruct (st_results t') as [|r0 rs]; [discriminate G|]. cbn [attach] in G. destruct r0; discriminate G. }
  assert (F : exists e, Forall (fun r => exists p, r = FOless e p []) l).
  { destruct (Detect.PropertyLemmas.C79_linux f c (read_workbook linux64 msg) St) as [G'|(l' & G' & K)]; [rewrite G in G'; discriminate G'|]. rewrite G in G'. injection G' as <-.
    destruct K as [(paths & ->)|(_ & F)]; [|eexists; exact F]. eexists. constructor; [eexists; reflexivity|constructor]. }
  destruct F as (e & F). destruct (linux_split f c msg archive fs file St I Sm l G N) as (before & after & _ & _ & E). unfold program. rewrite E. cbn [bind].
  destruct (rows_show (ParseOutputFormat format) before) as (tb & Eb). destruct (rows_show (ParseOutputFormat format) after) as (ta & Ea).
  assert (K : (exists ts, mapM (show linux64 (ParseOutputFormat format)) (map OFile l ++ map row_says after) = Ok ts) \/
              mapM (show linux64 (ParseOutputFormat format)) (map OFile l ++ map row_says after) = Throw RangeError).
  { clear - F Ea. induction F as [|r l (p & ->) F IH]; [left; exists ta; exact Ea|]. cbn [map app mapM].
    destruct (found_shown (ParseOutputFormat format) e p) as [[t E]|E]; rewrite E; cbn [bind]; [|right; reflexivity].
    destruct IH as [[ts E']|E']; rewrite E'; cbn [bind]; [left; eexists; reflexivity|right; reflexivity]. }
  assert (K' : (exists ts, mapM (show linux64 (ParseOutputFormat format)) (map row_says before ++ map OFile l ++ map row_says after) = Ok ts) \/
               mapM (show linux64 (ParseOutputFormat format)) (map row_says before ++ map OFile l ++ map row_says after) = Throw RangeError).
  { destruct K as [[ts E']|E']; [left; eexists; exact (mapM_app _ _ _ _ _ Eb E')|right]. clear - Eb E'. revert tb Eb. induction before as [|b before IH]; intros tb Eb; [exact E'|].
    cbn [map app mapM] in *. destruct (show linux64 (ParseOutputFormat format) (row_says b)); cbn [bind] in *; try discriminate Eb.
    destruct (mapM (show linux64 (ParseOutputFormat format)) (map row_says before)) as [ts| | |]; cbn [bind] in Eb; try discriminate Eb. rewrite (IH ts eq_refl). reflexivity. }
  destruct K' as [[ts E']|E']; rewrite E'; cbn [bind]; [left; eexists; reflexivity|right; reflexivity].
Qed.
(** a storage inside of itself *)
Lemma C124_loop_lemma : exists f c s, stored_as f c /\ lenN f < 2 ^ 32 /\ storage_load linux64 (Some f) = Ok (Opened s) /\
  (forall excel fuel t, recurse linux64 excel ole_list s fuel [47] t = Fuel) /\
  forall format, program linux64 no_text no_archive (one_file f) [B "f"; format] = Fuel.
Proof.
  exists file_loop, comp_loop.
  assert (L : exists s, storage_load linux64 (Some file_loop) = Ok (Opened s) /\ forall excel fuel t, recurse linux64 excel ole_list s fuel [47] t = Fuel).
  { eexists. split; [vm_compute; reflexivity|]. intros excel fuel t. eapply (loop_never _ excel ole_list) with (n := O); vm_compute; reflexivity. }
  destruct L as (s & E & R).
  exists s. split; [exact loop_stored|]. split; [vm_compute; reflexivity|]. split; [exact E|]. split; [exact R|].
  intros format. apply (linux_fuel file_loop comp_loop); [exact loop_stored|reflexivity|vm_compute; reflexivity|].
  unfold Guess. rewrite E. cbn [bind]. change [slash] with [47]. rewrite R. reflexivity.
Qed.
Lemma C124_tree : finite_tree (c_dir comp_doc) /\ stored_as file_doc comp_doc.
Proof.
  split; [|exact doc_stored].
  exists (fun k => match k with 0 => 2 | 2 => 1 | _ => 0 end). intros k n Hk U.
  assert (B : k < 8) by (pose proof (Ole.ChainProofs.nthN_bound _ _ _ Hk) as B; exact B).
  assert (C : k = 0 \/ k = 1 \/ k = 2 \/ k = 3 \/ k = 4 \/ k = 5 \/ k = 6 \/ k = 7) by lia.
  assert (S : forall k l, members_of (c_dir comp_doc) k = Some l -> members (c_dir comp_doc) k l).
  { intros k' l H. apply members_of_sound in H. exact (proj1 H). }
  destruct C as [->|[->|[->|[->|[->|[->|[->| ->]]]]]]].
  - exists [2; 1; 3]. split; [apply S; vm_compute; reflexivity|]. repeat constructor.
  - exists []. split; [apply S; vm_compute; reflexivity|constructor].
  - exists [4]. split; [apply S; vm_compute; reflexivity|]. repeat constructor.
  - exists []. split; [apply S; vm_compute; reflexivity|constructor].
  - exists []. split; [apply S; vm_compute; reflexivity|constructor].
  - exfalso. vm_compute in Hk. injection Hk as <-. vm_compute in U. destruct U as [U|[U|U]]; discriminate U.
  - exfalso. vm_compute in Hk. injection Hk as <-. vm_compute in U. destruct U as [U|[U|U]]; discriminate U.
  - exfalso. vm_compute in Hk. injection Hk as <-. vm_compute in U. destruct U as [U|[U|U]]; discriminate U.
Qed.
Lemma is_ok_ex {X} (r : res X) : is_ok r = true -> exists x, r = Ok x.
Proof. destruct r; intros E; try discriminate E. eexists. reflexivity. Qed.
Lemma C124_refuted : exists f c, stored_as f c /\ lenN f < 2 ^ 32 /\
  (exists out, program windows no_text no_archive (one_file f) [B "f"; B "json"] = Ok out) /\ program linux64 no_text no_archive (one_file f) [B "f"; B "json"] = Throw RangeError /\
  (exists out, program windows no_text no_archive (one_file f) [B "f"; B "xml"] = Ok out) /\ program linux64 no_text no_archive (one_file f) [B "f"; B "xml"] = Throw RangeError.
Proof.
  exists file_doc, comp_doc. destruct Detect.PropertyLemmas.C79_ex as (_ & _ & _ & _ & _ & _ & _ & St & _). split; [exact St|]. split; [vm_compute; reflexivity|].
  split; [apply is_ok_ex; vm_compute; reflexivity|]. split; [vm_compute; reflexivity|]. split; [apply is_ok_ex; vm_compute; reflexivity|vm_compute; reflexivity].
Qed.
Lemma C124_ex : program linux64 no_text no_archive (one_file file_doc) [B "f"] = Ok (B "f" ++ [x0a; x09] ++ B "oless" ++ [x09] ++ B "OLE Structured Storage" ++ [x09] ++ B "0" ++ [x0a]) /\
  program windows no_text no_archive (one_file file_doc) [B "f"] = Ok (B "f" ++ [x0a; x09] ++ B "doc" ++ [x09] ++ B "Unknown" ++ [x09] ++ B "108" ++ [x0a]).
Proof. split; vm_compute; reflexivity. Qed.
