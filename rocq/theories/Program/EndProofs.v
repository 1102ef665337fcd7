(** The program ends. *)
From Coq Require Import List NArith ZArith Lia Bool Strings.String ZifyBool ZifyNat ZifyN.
From Verif Require Import Lib.Res Lib.Bytes Lib.BytesFacts Lib.Text Common.Model Common.Spec Common.ReadProofs Magic.Table Magic.Model Magic.GuessProofs
     Exe.Model Media.Model Media.WordPerfect Asf.Model Asf.Spec Zip.Model Ole.Model Ole.Spec Ole.Statements Propset.Model Propset.MemoryProofs Detect.Model Detect.Output Program.Model.
From Verif Require Asf.EndProofs Zip.Proofs Zip.Statements Zip.KindProofs Excel.Engine Excel.RenderEnd Excel.PropertyLemmas3 Detect.WalkEnd Program.PropertyLemmas4.
From Verif Require Import Magic.Spec Magic.DocBase Program.Statements Program.ScanProofs Program.SafetyProofs Program.CompoundProofs Program.LinuxProofs Detect.TreeSpec Program.EndStatements.
Import ListNotations.
Local Open Scope N_scope.

(** ** The parsers of containers *)
Lemma asf_nofuel pl content : supported pl -> lenN content < 2 ^ 32 -> (forall i, ~ occurs_at extension_guid content i) -> asf_Detailer pl (Some content) (takeN 65536 content) <> Fuel.
Proof.
  intros P L N. unfold asf_Detailer.
  assert (N' : forall k i, ~ occurs_at extension_guid (takeN k content) i).
  { intros k i (pre & post & E & Lp). apply (N i). exists pre, (post ++ dropN k content). split; [|exact Lp]. rewrite <- (takeN_dropN k content) at 1. rewrite E, <- !app_assoc. reflexivity. }
  set (data := if lenN (takeN 65536 content) =? 512 then readFile (Some content) (getFileSize (Some content)) else takeN 65536 content).
  assert (D : exists k, data = takeN k content).
  { unfold data. destruct (_ =? _); [|exists 65536; reflexivity]. unfold readFile. eexists. reflexivity. }
  destruct D as (k & D). rewrite D. assert (Lk : lenN (takeN k content) < 2 ^ 32) by (rewrite lenN_takeN; lia).
  destruct (Parse (S (List.length (takeN k content))) pl (takeN k content) 0) as [h|e| |] eqn:E; cbn [bind]; [|discriminate|discriminate|elim (Asf.EndProofs.parse_nofuel pl P _ _ _ Lk (N' k) E)].
  destruct h as [[]|]; try discriminate. apply bind_nofuel; [|discriminate]. apply (Asf.EndProofs.loop_nofuel pl P); [exact Lk|exact (N' k)|lia|unfold lenN; lia].
Qed.
Lemma vba_nofuel pl es : GetVBA pl es <> Fuel.
Proof.
  unfold GetVBA. destruct (map z_name _) as [|n l]; cbn [analyze_bins]; [discriminate|]. destruct (GetEntry es n) as [e|]; [|discriminate]. destruct (z_data e); [|discriminate].
  rewrite Zip.KindProofs.Analyze_unopened. discriminate.
Qed.
Lemma types_nofuel pl es l : forall t, check_types pl es l t <> Fuel.
Proof.
  induction l as [|c l IH]; intros t; cbn [check_types]; [discriminate|]. apply bind_nofuel; [|intros a _; apply IH].
  destruct (bytes_eqb c _); [|discriminate]. apply bind_nofuel; [apply vba_nofuel|discriminate].
Qed.
Lemma scan_nofuel fuel : forall s, (List.length s < fuel)%nat -> scan fuel s <> Fuel.
Proof.
  induction fuel as [|fuel IH]; intros s L; [lia|]. cbn [scan]. destruct (index_of marker s) as [i|]; [|discriminate]. destruct (dropN (i + 13) s) as [|c u] eqn:D; [discriminate|].
  destruct (index_of [x22] u) as [j|]; [|discriminate]. apply bind_nofuel; [|discriminate]. apply IH.
  assert (A : lenN (c :: u) <= lenN s) by (rewrite <- D, lenN_dropN; lia). rewrite lenN_cons in A. assert (C : lenN (dropN (j + 1) u) <= lenN u) by (rewrite lenN_dropN; lia). unfold lenN in *. lia.
Qed.
Lemma zip_nofuel pl archive m : archive <> Fuel -> zip_Detailer pl archive m <> Fuel.
Proof.
  intros A. unfold zip_Detailer. apply bind_nofuel; [exact A|]. intros es _. apply bind_nofuel.
  - destruct (GetEntry es _) as [e|]; [|discriminate]. apply bind_nofuel; [|intros l _; apply types_nofuel]. unfold ctypes_of. apply scan_nofuel. lia.
  - intros t _. match goal with |- context [let '(_, _) := ?x in _] => destruct x as [ans m'] end. discriminate.
Qed.
Lemma guess_nofuel pl msg content : supported pl -> lenN content < 2 ^ 32 -> readable_compound pl content -> Guess pl (read_workbook pl msg) ole_list (Some content) <> Fuel.
Proof.
  intros [-> | ->] L (c & St & Tr & W).
  - intros E. set (fs := fun _ : bytes => Some content).
    pose proof (linux_fuel content c msg (fun _ => UB) fs [] St eq_refl L E (B "csv")) as F.
    destruct (Program.PropertyLemmas4.C124_end content c msg (fun _ => UB) fs [] (B "csv") St Tr eq_refl L) as [(out & K)|K]; rewrite F in K; discriminate K.
  - destruct (W eq_refl) as (Cl & Ch & Bk). apply (Detect.WalkEnd.windows_ends content c _ _ St Cl (fun m H => H) Tr Ch); [vm_compute; discriminate|].
    intros n In_ Sn Bn. destruct (Bk n In_ Sn Bn) as (t & Ct & Lt & Q). exists t. split; [exact Ct|]. unfold read_workbook. apply bind_nofuel; [|discriminate].
    apply Excel.PropertyLemmas3.C101_ends; [exact Lt|exact Q].
Qed.

(** ** Writing *)
Lemma path_nofuel l : mapM path_utf8 l <> Fuel.
Proof. apply mapM_nofuel. intros x _. apply convert_nofuel. Qed.
Lemma oless_json_nofuel pl e paths props : oless_base_json pl e paths props <> Fuel.
Proof.
  unfold oless_base_json. apply bind_nofuel; [apply path_nofuel|]. intros ? _. apply bind_nofuel; [|discriminate]. apply mapM_nofuel. intros x _. unfold group_json. apply bind_nofuel; [apply convert_nofuel|discriminate].
Qed.
Lemma oless_xml_nofuel pl e paths props : oless_base_xml pl e paths props <> Fuel.
Proof.
  unfold oless_base_xml. apply bind_nofuel; [apply path_nofuel|]. intros ? _. apply bind_nofuel; [|discriminate]. apply mapM_nofuel. intros x _. unfold group_xml. apply bind_nofuel; [apply convert_nofuel|discriminate].
Qed.
Lemma wp_nofuel i o n : wp_read i o n <> Fuel.
Proof. unfold wp_read. destruct (wp_Header i); [|discriminate]. apply bind_nofuel; [apply slice_nofuel|discriminate]. Qed.
Lemma render_nofuel pl msg f x : origin pl msg x -> render pl f x <> Fuel.
Proof.
  intros O. destruct x as [e paths props|w paths props|i|e p]; cbn [render].
  - destruct f; cbn [oless_render]; try discriminate; (apply bind_nofuel; [|discriminate]); [apply oless_json_nofuel|apply oless_xml_nofuel].
  - destruct O as (St & i & _ & ->). destruct f; cbn [excel_render oless_render]; try discriminate; (apply bind_nofuel; [|intros ? _; apply bind_nofuel; [|discriminate]]).
    + apply oless_json_nofuel.
    + apply Excel.RenderEnd.contents_json_end.
    + apply oless_xml_nofuel.
    + apply Excel.RenderEnd.contents_xml_end.
  - destruct f; cbn [wp_render]; try discriminate; [unfold wp_ToJson|unfold wp_ToXml]; repeat (apply bind_nofuel; [apply wp_nofuel|intros ? _]); discriminate.
  - discriminate.
Qed.

(** ** The program *)
Section File.
Variables (pl : platform) (msg : exn -> bytes) (archive : option bytes -> res (list zentry)) (content : bytes).
Hypothesis sup : supported pl.
Hypothesis small : lenN content < 2 ^ 32.
Hypothesis H1 : starts content (B "PK") -> archive (Some content) <> Fuel.
Hypothesis H2 : starts content asf_magic -> forall i, ~ occurs_at extension_guid content i.
Hypothesis H3 : starts content [xd0; xcf; x11; xe0] -> readable_compound pl content.
Notation says := (parser_says pl msg archive content).
Lemma one_nofuel r : one_plain r -> r <> Fuel.
Proof. intros (e & _ & ->). discriminate. Qed.
Lemma says_nofuel p : called content p -> says p <> Fuel.
Proof.
  intros C. destruct p.
  - pose proof (says_exec pl msg archive content small sup) as S. destruct (64 <=? lenN content); [apply one_nofuel; exact S|rewrite S; discriminate].
  - pose proof (says_macho pl msg archive content small) as S. destruct (28 <=? lenN content); [destruct S as (i & _ & S); rewrite S; discriminate|rewrite S; discriminate].
  - apply called_zip in C. unfold parser_says. apply bind_nofuel; [apply zip_nofuel; exact (H1 C)|discriminate].
  - apply called_ole in C. unfold parser_says. apply bind_nofuel; [apply guess_nofuel; auto|discriminate].
  - apply one_nofuel; apply says_dwg; exact small.
  - discriminate.
  - pose proof (says_mp4 pl msg archive content small) as S. destruct (lenN content <? 15); [rewrite S; discriminate|]. destruct (lenN content =? 15); [rewrite S; discriminate|apply one_nofuel; exact S].
  - apply called_asf in C. unfold parser_says. apply bind_nofuel; [apply asf_nofuel; auto|discriminate].
  - apply one_nofuel; apply says_riff; exact small.
  - apply one_nofuel; apply says_jpeg; exact small.
Qed.
Lemma results_nofuel : results pl msg archive (Some content) <> Fuel.
Proof.
  intros E. apply results_fail in E; [|exact small|discriminate]. destruct E as (before & mi & after & p & found & T & _ & C & F & S & _).
  apply (says_nofuel p); [|exact S]. apply called_row. exists mi. split; [rewrite T; apply in_or_app; right; left; reflexivity|]. split; assumption.
Qed.
Lemma shown_nofuel f rs : results pl msg archive (Some content) = Ok rs -> mapM (show pl f) rs <> Fuel.
Proof.
  intros E. apply mapM_nofuel. intros o I. destruct o as [r|x]; [discriminate|]. cbn [show]. apply (render_nofuel pl msg).
  apply results_ok in E; [|exact small]. destruct E as (found & R & ->).
  assert (K : In (OFile x) found).
  { unfold or_unknown in I. destruct found; [|exact I]. destruct content; destruct I as [I|[]]; discriminate I. }
  destruct (reports_in_inv _ _ _ _ _ _ R K) as [(mi & A & K1 & K2 & K3)|(mi & p & l & A & K1 & K2 & K3 & K4)]; [discriminate K3|].
  destruct p; unfold parser_says in K3; try (apply bind_ok in K3; destruct K3 as (y & _ & K3); injection K3 as <-; apply in_map_iff in K4; destruct K4 as (z & Z & _); discriminate Z).
  - apply bind_ok in K3. destruct K3 as (y & G & K3). injection K3 as <-. apply in_map_iff in K4. destruct K4 as (z & Z & Iz). injection Z as ->.
    apply Guess_origin in G. rewrite Forall_forall in G. apply G. exact Iz.
  - injection K3 as <-. destruct K4 as [Q|[]]. injection Q as <-. exact Logic.I.
Qed.
Theorem program_nofuel fs file more : fs file = Some content -> program pl msg archive fs (file :: more) <> Fuel.
Proof.
  intros E. unfold program. rewrite E. apply bind_nofuel; [exact results_nofuel|]. intros rs R. apply bind_nofuel; [apply shown_nofuel; exact R|discriminate].
Qed.
End File.
