(** Proofs: how much of a file the output depends on. *)
From Coq Require Import List NArith ZArith Lia Bool Strings.String Strings.Byte ZifyBool ZifyNat ZifyN.
From Verif Require Import Lib.Res Lib.Bytes Lib.BytesFacts Lib.Text Lib.NumSpec Common.Model Common.Spec Common.Fields Common.FieldProofs Magic.Table Magic.Model Magic.GuessProofs Zip.Model
     Exe.Tables Exe.Model Exe.Spec Exe.Proofs Exe.PropertyLemmas Media.Model Asf.Model Program.Model.
From Verif Require Import Magic.Spec.
From Verif Require Import Program.Statements Program.ScanProofs Program.SafetyProofs Program.KindStatements Program.KindProofs.
Import Magic.Table.
Import ListNotations.
Local Open Scope N_scope.

Section Same.
Variables (pl : platform) (msg : exn -> bytes) (archive : option bytes -> res (list zentry)) (c1 c2 : bytes).
Hypothesis small1 : lenN c1 < 2 ^ 32.
Hypothesis small2 : lenN c2 < 2 ^ 32.
Hypothesis sup : supported pl.
Hypothesis same : takeN 65536 c1 = takeN 65536 c2.
Lemma same_take n : n <= 65536 -> takeN n c1 = takeN n c2.
Proof. intros L. pose proof (f_equal (takeN n) same) as E. rewrite !takeN_takeN in E. rewrite N.min_l in E by exact L. exact E. Qed.
Lemma same_length : lenN c1 < 65536 \/ lenN c2 < 65536 -> c1 = c2.
Proof.
  intros L. pose proof (f_equal lenN same) as E. rewrite !lenN_takeN in E. rewrite <- (takeN_all 65536 c1) by lia. rewrite <- (takeN_all 65536 c2) by lia. exact same.
Qed.
Lemma same_number off n v : off + n <= 65536 -> number_at c1 off n v -> number_at c2 off n v.
Proof.
  unfold number_at. intros L (w & W & E). exists w. split; [|exact E]. apply (window_prefix c1 w off n 65536 L) in W. rewrite same in W. apply (window_prefix c2 w off n 65536 L). exact W.
Qed.
Lemma exec_same : (forall pe, number_at c1 60 4 pe -> pe + 24 < 65536) -> exec_Detailer pl (Some c1) = exec_Detailer pl (Some c2).
Proof.
  intros H. destruct (N.ltb_spec (lenN c1) 65536) as [L|L]; [rewrite (same_length (or_introl L)); reflexivity|].
  destruct (N.ltb_spec (lenN c2) 65536) as [L2|L2]; [rewrite (same_length (or_intror L2)); reflexivity|].
  destruct (number_at_ex c1 60 4) as (pe & N1); [lia|]. specialize (H pe N1). destruct (number_at_ex c1 (pe + 22) 2) as (ch & N2); [lia|].
  rewrite (C27_kind_lemma pl c1 pe ch), (C27_kind_lemma pl c2 pe ch); try assumption; try lia; try reflexivity; apply same_number; (assumption || lia).
Qed.
Lemma macho_same : macho_Detailer (Some c1) = macho_Detailer (Some c2).
Proof. unfold macho_Detailer, macho_detail. rewrite !readFile_small by assumption. rewrite (same_take 2048) by (vm_compute; discriminate). reflexivity. Qed.
Lemma asf_same : asf_Detailer pl (Some c1) (takeN 65536 c1) = asf_Detailer pl (Some c2) (takeN 65536 c1).
Proof.
  unfold asf_Detailer. destruct (N.eqb_spec (lenN (takeN 65536 c1)) 512) as [E|E]; [|reflexivity]. rewrite lenN_takeN in E. rewrite same_length by (left; lia). reflexivity.
Qed.
Hypothesis no_zip : ~ starts c1 (B "PK").
Hypothesis no_ole : ~ starts c1 [xd0; xcf; x11; xe0].
Hypothesis near : starts c1 (B "MZ") -> forall pe, number_at c1 60 4 pe -> pe + 24 < 65536.
Lemma detail_same p g : called c1 p -> detail pl msg archive p (Some c1) (takeN 65536 c1) g = detail pl msg archive p (Some c2) (takeN 65536 c1) g.
Proof.
  intros C. destruct p; unfold detail.
  - rewrite exec_same; [reflexivity|]. apply near. apply called_exec. exact C.
  - rewrite macho_same. reflexivity.
  - elim no_zip. apply called_zip. exact C.
  - elim no_ole. apply called_ole. exact C.
  - reflexivity.
  - reflexivity.
  - reflexivity.
  - rewrite asf_same. reflexivity.
  - reflexivity.
  - reflexivity.
Qed.
Lemma rows_same l : incl l table -> forall g, try_rows pl msg archive (Some c1) (takeN 65536 c1) l g = try_rows pl msg archive (Some c2) (takeN 65536 c1) l g.
Proof.
  induction l as [|mi l IH]; [reflexivity|]. intros I g. assert (Im : In mi table) by (apply I; left; reflexivity). assert (Il : incl l table) by (intros m Hm; apply I; right; exact Hm).
  cbn [try_rows]. assert (E : try_row pl msg archive (Some c1) (takeN 65536 c1) mi g = try_row pl msg archive (Some c2) (takeN 65536 c1) mi g).
  { unfold try_row. destruct (checkMagic_window c1 mi Im small1) as (r & Er & Hr). rewrite Er. cbn [bind]. destruct r; [|reflexivity]. destruct (mi_func mi) as [p|] eqn:F; [|reflexivity].
    apply detail_same. apply called_row. exists mi. split; [exact Im|]. split; [exact F|]. apply Hr. reflexivity. }
  rewrite E. destruct (try_row pl msg archive (Some c2) (takeN 65536 c1) mi g) as [[a g']| | |]; cbn [bind snd fst]; try reflexivity. rewrite (IH Il g'). reflexivity.
Qed.
Theorem results_same : results pl msg archive (Some c1) = results pl msg archive (Some c2).
Proof.
  rewrite !results_eq by assumption. rewrite <- same. rewrite (rows_same table (incl_refl _)).
  destruct (try_rows pl msg archive (Some c2) (takeN 65536 c1) table (mkGlobals [] [])) as [[l g]| | |]; cbn [bind fst]; try reflexivity. f_equal.
  pose proof (same_take 512 ltac:(vm_compute; discriminate)) as T. unfold or_unknown. destruct l; [|reflexivity].
  destruct c1 as [|x l1] eqn:E1; destruct c2 as [|y l2] eqn:E2; [reflexivity| | |rewrite T; reflexivity]; exfalso; apply (f_equal lenN) in T; rewrite !lenN_takeN in T; change (lenN (@nil byte)) with 0 in T; rewrite ?lenN_cons in T; lia.
Qed.
Theorem program_same fs1 fs2 file args : fs1 file = Some c1 -> fs2 file = Some c2 -> program pl msg archive fs1 (file :: args) = program pl msg archive fs2 (file :: args).
Proof. intros F1 F2. unfold program. rewrite F1, F2, results_same. reflexivity. Qed.
End Same.
