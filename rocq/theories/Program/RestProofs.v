(** Proofs: files without a parser and WordPerfect files, from the bytes to what the program prints. *)
From Coq Require Import List NArith ZArith Lia Bool Strings.String ZifyBool ZifyNat ZifyN.
From Verif Require Import Lib.Res Lib.Bytes Lib.BytesFacts Lib.Text Common.Model Common.Spec Common.EscapeProofs Magic.Table Magic.Model Magic.GuessProofs Zip.Model
     Media.WordPerfect Detect.Model Detect.Output Program.Model.
From Verif Require Magic.DocUnique Magic.PropertyLemmas.
From Verif Require Import Magic.Spec Magic.DocProofs Magic.DocBase.
From Verif Require Import Program.Statements Program.ScanProofs Program.SafetyProofs Program.DocProofs Program.ArchiveProofs Program.PartStatements Program.PartDocs Program.PartProgram
     Program.RowStatements Program.RowProofs Program.AsfProofs Program.ZipProofs Program.KindStatements Program.KindProofs Program.RestStatements.
Import Magic.Table.
Import ListNotations.
Local Open Scope N_scope.

Section File.
Variables (pl : platform) (msg : exn -> bytes) (archive : option bytes -> res (list zentry)) (content : bytes) (fs : bytes -> option bytes) (file : bytes).
Hypothesis small : lenN content < 2 ^ 32.
Hypothesis in_fs : fs file = Some content.
Hypothesis none : forall p, ~ signed content p.
Lemma not_called p : ~ called content p.
Proof. intros C. apply called_signed in C. exact (none p C). Qed.
Lemma rest_results : exists l, carried content table l /\ Forall (fun mi => In mi table /\ mi_func mi = None) l /\ results pl msg archive (fs file) = Ok (or_unknown content (map row_says l)).
Proof.
  rewrite in_fs. destruct (rows_decided pl msg archive content table) as [(rs & R)|(r & T)].
  - destruct (plain_reports content (parser_says pl msg archive content) table rs) as (l & K & E & A); [|exact R|].
    + intros mi p I F C. apply (not_called p). apply called_row. exists mi. auto.
    + exists l. split; [exact K|]. split.
      * apply Forall_forall. intros m I. split; [exact (carried_in content _ _ K m I)|]. revert m I. apply Forall_forall. exact A.
      * apply results_ok; [exact small|]. exists rs. rewrite <- E. auto.
  - exfalso. destruct T as (before & mi & after & p & found & Et & _ & C & F & _). apply (not_called p). apply called_row. exists mi. split; [|auto]. rewrite Et. apply in_or_app. right. left. reflexivity.
Qed.
Lemma rest_shown fmt sep l : row_format fmt sep -> mapM (show pl fmt) (or_unknown content (map row_says l)) = Ok (rest_rows sep content l).
Proof.
  intros R. destruct l as [|mi l]; [|cbn [map or_unknown rest_rows]; apply (others_rows pl fmt sep (mi :: l)); exact R].
  destruct content as [|c rest]; cbn [map or_unknown rest_rows mapM show bind]; destruct R as [(-> & ->)|(-> & ->)]; reflexivity.
Qed.
Theorem rest_lines : exists l, carried content table l /\
  (forall args, args = [] \/ (exists format, args = [format] /\ format <> B "xml" /\ format <> B "csv" /\ format <> B "json") ->
   program pl msg archive fs (file :: args) = Ok (file ++ [x0a] ++ List.concat (map (fun row => [x09] ++ row ++ [x0a]) (rest_rows [x09] content l)))) /\
  program pl msg archive fs [file; B "csv"] = Ok (List.concat (map (fun row => row ++ [x0a]) (rest_rows [x2c] content l))).
Proof.
  destruct rest_results as (l & K & _ & E). exists l. split; [exact K|]. split.
  - intros args [-> |(format & -> & Nx & Nc & Nj)]; unfold program; rewrite E; cbn [bind]; rewrite ?(other_format format Nx Nc Nj), (rest_shown TEXT [x09]) by (left; auto); reflexivity.
  - unfold program. rewrite E. cbn [bind]. change (ParseOutputFormat (B "csv")) with CSV. rewrite (rest_shown CSV [x2c]) by (right; auto). reflexivity.
Qed.
Theorem rest_json : ~ In x00 file -> exists out l vs, program pl msg archive fs [file; B "json"] = Ok out /\ carried content table l /\ rest_values content l vs /\
    forall d, json_value out d <-> d = JObj [(map b2n (B "name"), JStr (map b2n file)); (map b2n (B "extensions"), JArr vs)].
Proof.
  intros Nf. destruct rest_results as (l & K & A & E).
  assert (M : exists ts vs, mapM (show pl JSON) (or_unknown content (map row_says l)) = Ok ts /\ Forall2 json_value ts vs /\ rest_values content l vs).
  { destruct l as [|mi l].
    - destruct content as [|c rest] eqn:Ec.
      + eexists _, _. split; [reflexivity|]. split; [|apply rv_empty; reflexivity]. constructor; [|constructor]. apply item_json. reflexivity.
      + destruct (before_nul_exists (takeN 512 (c :: rest))) as (s & Hs & _). eexists _, _. split; [reflexivity|]. split; [|apply rv_unknown; [reflexivity|discriminate|exact Hs|apply bin2hex11_dump]].
        constructor; [|constructor]. apply unknown_json. exact Hs.
    - destruct (others_json pl (mi :: l) A) as (ts & Et & V). exists ts, (map row_object (mi :: l)). split; [exact Et|]. split; [exact V|]. apply rv_known. discriminate. }
  destruct M as (ts & vs & Et & V & R). destruct (program_values pl msg archive fs file _ _ vs E Et V Nf) as (out & Eo & D). exists out, l, vs. auto.
Qed.
Theorem rest_xml : exists out shown l vs, program pl msg archive fs [file; B "xml"] = Ok out /\ carried content table l /\ rest_nodes content l vs /\
    (forall d, xml_document out d <-> d = XElem (B "file") [XElem (B "name") shown; XElem (B "extensions") vs]) /\
    (shown = xtext file <-> ~ In x3c file /\ ~ In x3e file).
Proof.
  destruct rest_results as (l & K & A & E).
  assert (M : exists ts vs, mapM (show pl XML) (or_unknown content (map row_says l)) = Ok ts /\ Forall2 written ts vs /\ rest_nodes content l vs).
  { destruct l as [|mi l].
    - destruct content as [|c rest] eqn:Ec.
      + eexists _, _. split; [reflexivity|]. split; [|apply rn_empty; reflexivity]. constructor; [|constructor]. unfold written. apply item_xml. reflexivity.
      + eexists _, _. split; [reflexivity|]. split; [|apply rn_unknown; [reflexivity|discriminate|apply XmlEscape_text|apply bin2hex11_dump]].
        constructor; [|constructor]. intros r k. apply unknown_xml.
    - destruct (others_xml pl (mi :: l) A) as (ts & Et & V). exists ts, (map row_element (mi :: l)). split; [exact Et|]. split; [exact V|]. apply rn_known. discriminate. }
  destruct M as (ts & vs & Et & V & R). destruct (program_nodes pl msg archive fs file _ _ vs E Et V) as (out & shown & Eo & D & S). exists out, shown, l, vs. auto.
Qed.
End File.

Theorem missing_file pl msg archive fs1 fs2 file args : fs1 file = None -> fs2 file = Some [] -> program pl msg archive fs1 (file :: args) = program pl msg archive fs2 (file :: args).
Proof. intros E1 E2. unfold program. rewrite E1, E2. reflexivity. Qed.

(** ** WordPerfect files *)
Section Perfect.
Variables (pl : platform) (msg : exn -> bytes) (archive : option bytes -> res (list zentry)) (content m : bytes) (fs : bytes -> option bytes) (file : bytes).
Hypothesis small : lenN content < 2 ^ 32.
Hypothesis in_fs : fs file = Some content.
Hypothesis in_magics : In m wp_magics.
Hypothesis magic : starts content m.
Hypothesis no_movie : ~ occurs_at (B "ftyp") content 4.
Lemma perfect_only p : called content p -> p = PWordPerfect.
Proof.
  intros C. apply called_signed in C. assert (H : exists n, m = xff :: n /\ m <> [xff; xd8] /\ 2 <= lenN m /\ takeN 2 m <> [xff; xd8]).
  { unfold wp_magics in in_magics. cbn [In] in in_magics. destruct in_magics as [<-|[<-|[]]]; eexists; (split; [reflexivity|]); (split; [discriminate|]); (split; [vm_compute; discriminate|vm_compute; discriminate]). }
  destruct H as (n & En & _ & L2 & N2). pose proof magic as H. rewrite En in H.
  destruct p; cbn [signed] in C; try reflexivity; try (exfalso; pose proof (one_start _ _ _ _ _ C H) as K; discriminate K).
  - destruct C as (x & I & C). unfold mach_magics in I. cbn [In] in I. exfalso. destruct I as [<-|[<-|[<-|[<-|[]]]]]; pose proof (one_start _ _ _ _ _ C H) as K; discriminate K.
  - contradiction.
  - exfalso. destruct C as (a1 & b1 & E1 & L1). destruct magic as (a3 & b3 & E3 & L3). apply lenN_0 in L1, L3. subst a1 a3. cbn [app] in E1, E3. rewrite E1 in E3.
    apply (f_equal (takeN 2)) in E3. rewrite (takeN_app1 2 m b3 L2) in E3. apply N2. rewrite <- E3. exact (takeN_app_exact [xff; xd8] b1).
Qed.
Lemma perfect_row mi : In mi table -> mi_func mi = Some PWordPerfect -> carries content mi -> is_perfect m mi = true.
Proof.
  intros I F C. assert (T : existsb (fun x => bytes_eqb (mi_magic mi) x) wp_magics && (mi_offset mi =? 0) = true).
  { assert (A : forallb (fun x => match mi_func x with Some PWordPerfect => existsb (fun y => bytes_eqb (mi_magic x) y) wp_magics && (mi_offset x =? 0) | _ => true end) table = true) by (vm_compute; reflexivity).
    rewrite forallb_forall in A. specialize (A mi I). rewrite F in A. exact A. }
  apply andb_true_iff in T. destruct T as (T1 & T2). apply N.eqb_eq in T2. apply existsb_exists in T1. destruct T1 as (x & Ix & Ex). apply bytes_eqb_eq in Ex. unfold carries in C. rewrite T2, Ex in C.
  unfold is_perfect. rewrite F, Ex. assert (Q : x = m); [|rewrite Q; apply bytes_eqb_refl].
  assert (L : forall y, In y wp_magics -> lenN y = 4) by (intros y Iy; unfold wp_magics in Iy; cbn [In] in Iy; destruct Iy as [<-|[<-|[]]]; reflexivity).
  destruct C as (a1 & b1 & E1 & L1). destruct magic as (a2 & b2 & E2 & L2). apply lenN_0 in L1, L2. subst a1 a2. cbn [app] in E1, E2. rewrite E1 in E2.
  pose proof (f_equal (takeN 4) E2) as G. rewrite <- (L x Ix) in G at 1. rewrite takeN_app_exact in G. rewrite <- (L m in_magics) in G. rewrite takeN_app_exact in G. exact G.
Qed.
Lemma perfect_in_table : existsb (is_perfect m) table = true /\ forallb (fun x => negb (is_perfect m x)) (rows_from (is_perfect m) table) = true.
Proof. unfold wp_magics in in_magics. cbn [In] in in_magics. destruct in_magics as [<-|[<-|[]]]; split; vm_compute; reflexivity. Qed.
Lemma perfect_results : exists before after, carried content (rows_upto (is_perfect m) table) before /\
  carried content (rows_from (is_perfect m) table) after /\ Forall (fun mi => In mi table /\ mi_func mi = None) (before ++ after) /\
  results pl msg archive (fs file) = Ok (map row_says before ++ [OFile (FWordPerfect (mkWp wp_ext None))] ++ map row_says after).
Proof.
  rewrite in_fs. apply (row_results pl msg archive content PWordPerfect (is_perfect m) small perfect_only).
  - apply called_wp. exists m. auto.
  - intros mi H. unfold is_perfect in H. destruct (mi_func mi) as [[]|]; try discriminate H; reflexivity.
  - exact perfect_row.
  - exact (proj1 perfect_in_table).
  - exact (proj2 perfect_in_table).
  - reflexivity.
  - discriminate.
Qed.
Theorem perfect_lines : exists before after, carried content (rows_upto (is_perfect m) table) before /\ carried content (rows_from (is_perfect m) table) after /\
  (forall args, args = [] \/ (exists format, args = [format] /\ format <> B "xml" /\ format <> B "csv" /\ format <> B "json") ->
   program pl msg archive fs (file :: args) = Ok (file ++ [x0a] ++ List.concat (map (fun row => [x09] ++ row ++ [x0a])
     (map (fun mi => five [x09] (row_info mi)) before ++ [three [x09] perfect_file] ++ map (fun mi => five [x09] (row_info mi)) after)))) /\
  program pl msg archive fs [file; B "csv"] = Ok (List.concat (map (fun row => row ++ [x0a])
     (map (fun mi => five [x2c] (row_info mi)) before ++ [three [x2c] perfect_file] ++ map (fun mi => five [x2c] (row_info mi)) after))) /\
  program pl msg archive fs [file; B "json"] = UB /\ program pl msg archive fs [file; B "xml"] = UB.
Proof.
  destruct perfect_results as (before & after & K1 & K2 & _ & E). exists before, after. split; [exact K1|]. split; [exact K2|].
  assert (T : forall fmt sep, row_format fmt sep -> mapM (show pl fmt) (map row_says before ++ [OFile (FWordPerfect (mkWp wp_ext None))] ++ map row_says after) =
    Ok (map (fun mi => five sep (row_info mi)) before ++ [three sep perfect_file] ++ map (fun mi => five sep (row_info mi)) after)).
  { intros fmt sep Rf. apply mapM_app; [apply others_rows; exact Rf|]. apply (mapM_app (show pl fmt) [OFile (FWordPerfect (mkWp wp_ext None))] _ [three sep perfect_file]); [|apply others_rows; exact Rf].
    destruct Rf as [(-> & ->)|(-> & ->)]; reflexivity. }
  assert (U : forall fmt, fmt = JSON \/ fmt = XML -> mapM (show pl fmt) (map row_says before ++ [OFile (FWordPerfect (mkWp wp_ext None))] ++ map row_says after) = UB).
  { intros fmt Hf. clear - Hf. induction before as [|b before IH]; cbn [map app mapM].
    - destruct Hf as [-> | ->]; reflexivity.
    - cbn [map app] in IH. rewrite IH. destruct Hf as [-> | ->]; reflexivity. }
  split; [|split; [|split]].
  - intros args [-> |(format & -> & Nx & Nc & Nj)]; unfold program; rewrite E; cbn [bind]; rewrite ?(other_format format Nx Nc Nj), (T TEXT [x09]) by (left; auto); reflexivity.
  - unfold program. rewrite E. cbn [bind]. change (ParseOutputFormat (B "csv")) with CSV. rewrite (T CSV [x2c]) by (right; auto). reflexivity.
  - unfold program. rewrite E. cbn [bind]. change (ParseOutputFormat (B "json")) with JSON. rewrite (U JSON) by auto. reflexivity.
  - unfold program. rewrite E. cbn [bind]. change (ParseOutputFormat (B "xml")) with XML. rewrite (U XML) by auto. reflexivity.
Qed.
End Perfect.

(** ** Which parsers are called *)
Definition all_parsers : list parser := [PExec; PMachO; PZip; POless; PDwg; PWordPerfect; PMp4; PAsf; PRiff; PJpeg].
Lemma start_decided content m : starts content m \/ ~ starts content m.
Proof.
  unfold starts. destruct (bytes_eqb (takeN (lenN m) content) m) eqn:E.
  - left. apply bytes_eqb_eq in E. exists [], (dropN (lenN m) content). split; [rewrite <- E at 1; cbn [app]; symmetry; apply takeN_dropN|reflexivity].
  - right. intros (a & b & Q & L). apply lenN_0 in L. subst a. cbn [app] in Q. subst content. rewrite takeN_app_exact, bytes_eqb_refl in E. discriminate E.
Qed.
Lemma place_decided content m off : occurs_at m content off \/ ~ occurs_at m content off.
Proof.
  destruct (off <=? lenN content) eqn:L.
  - apply N.leb_le in L. destruct (start_decided (dropN off content) m) as [(a & b & E & Z)|H].
    + apply lenN_0 in Z. subst a. left. exists (takeN off content), b. split; [|rewrite lenN_takeN; lia]. rewrite <- (takeN_dropN off content) at 1. rewrite E. reflexivity.
    + right. intros (a & b & E & La). apply H. exists [], b. split; [|reflexivity]. rewrite E, <- La, dropN_app_exact. reflexivity.
  - right. intros (a & b & E & La). apply N.leb_gt in L. rewrite E, lenN_app in L. lia.
Qed.
Lemma one_decided content ms : starts_one content ms \/ ~ starts_one content ms.
Proof.
  induction ms as [|m ms IH]; [right; intros (x & I & _); exact I|]. destruct (start_decided content m) as [H|H]; [left; exists m; split; [left; reflexivity|exact H]|].
  destruct IH as [(x & I & Hx)|K]; [left; exists x; split; [right; exact I|exact Hx]|right]. intros (x & [<-|I] & Hx); [exact (H Hx)|apply K; exists x; auto].
Qed.
Lemma signed_decided content p : signed content p \/ ~ signed content p.
Proof. destruct p; cbn [signed]; (apply start_decided || apply place_decided || apply one_decided). Qed.
(** The first two bytes tell the parsers other than the one for films apart. *)
Definition kind_of (a b : byte) : parser :=
  match a with
  | x4d => PExec | x50 => PZip | xd0 => POless | x41 => PDwg | x30 => PAsf | x52 => PRiff
  | xff => match b with xd8 => PJpeg | _ => PWordPerfect end
  | _ => PMachO
  end.
Lemma start_two content a b m : starts content (a :: b :: m) -> exists rest, content = a :: b :: rest.
Proof. intros (pre & post & E & L). apply lenN_0 in L. subst pre. exists (m ++ post). exact E. Qed.
Lemma kind_signed content p : signed content p -> p <> PMp4 -> exists a b rest, content = a :: b :: rest /\ kind_of a b = p.
Proof.
  intros C N. destruct p; cbn [signed] in C; try (destruct (start_two _ _ _ _ C) as (rest & E); eexists _, _, rest; split; [exact E|reflexivity]).
  - destruct C as (x & I & C). unfold mach_magics in I. cbn [In] in I. destruct I as [<-|[<-|[<-|[<-|[]]]]]; destruct (start_two _ _ _ _ C) as (rest & E); eexists _, _, rest; (split; [exact E|reflexivity]).
  - destruct C as (x & I & C). unfold wp_magics in I. cbn [In] in I. destruct I as [<-|[<-|[]]]; destruct (start_two _ _ _ _ C) as (rest & E); eexists _, _, rest; (split; [exact E|reflexivity]).
  - elim N. reflexivity.
Qed.
Theorem signed_exclusive content p q : signed content p -> signed content q -> p <> PMp4 -> q <> PMp4 -> p = q.
Proof.
  intros Cp Cq Np Nq. destruct (kind_signed content p Cp Np) as (a & b & r & E & <-). destruct (kind_signed content q Cq Nq) as (a' & b' & r' & E' & <-). rewrite E in E'. injection E' as <- <- _. reflexivity.
Qed.
Theorem asf_no_film content : signed content PAsf -> ~ signed content PMp4.
Proof.
  intros (p1 & r1 & E1 & L1) (p2 & r2 & E2 & L2). apply lenN_0 in L1. subst p1. cbn [app] in E1. subst content. unfold asf_magic in E2.
  destruct p2 as [|b1 [|b2 [|b3 [|b4 [|b5 p2]]]]]; try (apply (f_equal N.to_nat) in L2; unfold lenN in L2; cbn [length] in L2; lia). cbn in E2. discriminate E2.
Qed.
Theorem parsers_cases content : (forall p, ~ signed content p) \/ (exists p, only_parser content p) \/
  (exists p, p <> PMp4 /\ p <> PAsf /\ signed content p /\ signed content PMp4 /\ forall q, signed content q -> q = p \/ q = PMp4).
Proof.
  assert (D : (exists p, In p all_parsers /\ p <> PMp4 /\ signed content p) \/ (forall p, In p all_parsers -> p <> PMp4 -> ~ signed content p)).
  { induction all_parsers as [|p ps IH]; [right; intros p []|]. destruct IH as [(x & I & H)|K]; [left; exists x; split; [right; exact I|exact H]|].
    destruct (signed_decided content p) as [S|S].
    - assert (Q : p = PMp4 \/ p <> PMp4) by (destruct p; ((left; reflexivity) || (right; discriminate))). destruct Q as [Q|Q].
      + right. intros x [<-|I] Nx; [contradiction|exact (K x I Nx)].
      + left. exists p. split; [left; reflexivity|auto].
    - right. intros x [<-|I] Nx; [exact S|exact (K x I Nx)]. }
  assert (A : forall p, In p all_parsers) by (intros p; unfold all_parsers; destruct p; cbn [In]; auto 12).
  assert (Q : forall p, p = PMp4 \/ p <> PMp4) by (intros p; destruct p; ((left; reflexivity) || (right; discriminate))).
  destruct (signed_decided content PMp4) as [F|F]; destruct D as [(p & _ & Np & Sp)|D].
  - right. right. exists p. split; [exact Np|]. split; [intros ->; exact (asf_no_film content Sp F)|]. split; [exact Sp|]. split; [exact F|]. intros q Sq. destruct (Q q) as [Eq|Nq]; [right; exact Eq|left].
    apply (signed_exclusive content); auto.
  - right. left. exists PMp4. split; [exact F|]. intros q Sq. destruct (Q q) as [Eq|Nq]; [exact Eq|]. elim (D q (A q) Nq Sq).
  - right. left. exists p. split; [exact Sp|]. intros q Sq. destruct (Q q) as [-> |Nq]; [contradiction|]. apply (signed_exclusive content); auto.
  - left. intros p Sp. destruct (Q p) as [-> |Np]; [exact (F Sp)|exact (D p (A p) Np Sp)].
Qed.
