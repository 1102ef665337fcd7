(** Lemmas for C131: how much of a file the output depends on. *)
From Coq Require Import List NArith ZArith Lia Bool Strings.String Strings.Byte ZifyBool ZifyNat ZifyN.
From Verif Require Import Lib.Res Lib.Bytes Lib.BytesFacts Lib.Text Lib.NumSpec Common.Model Common.Spec Common.Fields Magic.Table Magic.Model Zip.Model Exe.Spec Program.Model.
From Verif Require Program.ArchiveProofs.
From Verif Require Import Magic.Spec Program.Statements Program.PartStatements Program.Samples Program.RowStatements Program.KindStatements Program.KindProofs Program.PrefixProofs.
Import Magic.Table.
Import ListNotations.
Local Open Scope N_scope.

Lemma C131_prefix : forall pl msg archive c1 c2 fs1 fs2 file args, supported pl -> lenN c1 < 2 ^ 32 -> lenN c2 < 2 ^ 32 -> takeN 65536 c1 = takeN 65536 c2 ->
  ~ starts c1 (B "PK") -> ~ starts c1 [xd0; xcf; x11; xe0] -> (starts c1 (B "MZ") -> forall pe, number_at c1 60 4 pe -> pe + 24 < 65536) ->
  fs1 file = Some c1 -> fs2 file = Some c2 -> program pl msg archive fs1 (file :: args) = program pl msg archive fs2 (file :: args).
Proof. intros pl msg archive c1 c2 fs1 fs2 file args S L1 L2 E Z O N. exact (program_same pl msg archive c1 c2 L1 L2 S E Z O N fs1 fs2 file args). Qed.
Lemma C131_append : forall pl msg archive content tail fs1 fs2 file args, supported pl -> lenN (content ++ tail) < 2 ^ 32 -> 65536 <= lenN content ->
  ~ starts content (B "PK") -> ~ starts content [xd0; xcf; x11; xe0] -> ~ starts content (B "MZ") ->
  fs1 file = Some content -> fs2 file = Some (content ++ tail) -> program pl msg archive fs1 (file :: args) = program pl msg archive fs2 (file :: args).
Proof.
  intros pl msg archive content tail fs1 fs2 file args S L G Z O N. rewrite lenN_app in L. apply C131_prefix; try assumption; try lia.
  - rewrite lenN_app. exact L.
  - symmetry. apply takeN_app1. exact G.
  - intros Q. contradiction.
Qed.
(** The header of an executable may be behind the first 64 KiB. *)
Definition far_start : bytes := B "MZ" ++ repeat x00 (N.to_nat 58) ++ [x00; x00; x01; x00] ++ repeat x00 (N.to_nat 65472).
Definition far (low high : byte) : bytes := far_start ++ repeat x00 (N.to_nat 22) ++ [low; high] ++ [x00].
Lemma lenN_repeat (x : byte) n : lenN (repeat x (N.to_nat n)) = n.
Proof. unfold lenN. rewrite repeat_length. lia. Qed.
Lemma far_start_length : lenN far_start = 65536.
Proof. unfold far_start. rewrite !lenN_app, !lenN_repeat. reflexivity. Qed.
Lemma far_length l h : lenN (far l h) = 65561.
Proof. unfold far. rewrite !lenN_app, far_start_length, lenN_repeat. reflexivity. Qed.
Lemma far_same l h l' h' : takeN 65536 (far l h) = takeN 65536 (far l' h').
Proof. unfold far. rewrite !takeN_app1 by (rewrite far_start_length; apply N.le_refl). reflexivity. Qed.
Lemma far_header l h : number_at (far l h) 60 4 65536.
Proof.
  exists [x00; x00; x01; x00]. split; [|reflexivity]. split; [reflexivity|]. exists (B "MZ" ++ repeat x00 (N.to_nat 58)), (repeat x00 (N.to_nat 65472) ++ repeat x00 (N.to_nat 22) ++ [l; h] ++ [x00]).
  split; [unfold far, far_start; rewrite <- !app_assoc; reflexivity|]. rewrite lenN_app, lenN_repeat. reflexivity.
Qed.
Lemma far_flags l h : number_at (far l h) (65536 + 22) 2 (le [l; h]).
Proof.
  exists [l; h]. split; [|reflexivity]. split; [reflexivity|]. exists (far_start ++ repeat x00 (N.to_nat 22)), [x00].
  split; [unfold far; rewrite <- !app_assoc; reflexivity|]. rewrite lenN_app, lenN_repeat, far_start_length. reflexivity.
Qed.
Lemma far_only l h : only_parser (far l h) PExec.
Proof.
  assert (Hs : starts (far l h) (B "MZ")).
  { exists [], (repeat x00 (N.to_nat 58) ++ [x00; x00; x01; x00] ++ repeat x00 (N.to_nat 65472) ++ repeat x00 (N.to_nat 22) ++ [l; h] ++ [x00]).
    split; [unfold far, far_start; rewrite <- !app_assoc; reflexivity|reflexivity]. }
  split; [exact Hs|]. intros p' C.
  assert (M : ~ occurs_at (B "ftyp") (far l h) 4).
  { intros (pre & post & E & L). unfold far, far_start in E. change (N.to_nat 58) with (S (S (S (N.to_nat 55)))) in E. cbn [repeat] in E. rewrite <- !app_assoc in E.
    change (B "MZ") with [x4d; x5a] in E. change (B "ftyp") with [x66; x74; x79; x70] in E. cbn [app] in E.
    destruct pre as [|a1 [|a2 [|a3 [|a4 [|a5 pre]]]]]; try (apply (f_equal N.to_nat) in L; unfold lenN in L; cbn [length] in L; lia).
    cbn [app] in E. discriminate E. }
  destruct p'; cbn [signed] in C; try reflexivity; try (exfalso; pose proof (Program.ArchiveProofs.one_start _ _ _ _ _ C Hs) as K; discriminate K); [| |elim M; exact C].
  - destruct C as (m & I & C). unfold mach_magics in I. cbn [In] in I. exfalso. destruct I as [<-|[<-|[<-|[<-|[]]]]]; pose proof (Program.ArchiveProofs.one_start _ _ _ _ _ C Hs) as K; discriminate K.
  - destruct C as (m & I & C). unfold wp_magics in I. cbn [In] in I. exfalso. destruct I as [<-|[<-|[]]]; pose proof (Program.ArchiveProofs.one_start _ _ _ _ _ C Hs) as K; discriminate K.
Qed.
Lemma far_row l h : exists rest, program linux64 no_text no_archive (one_file (far l h)) [B "f"; B "csv"] =
  Ok (five [x2c] (mkExt (fst (pe_kind (le [l; h]))) [] [] 0 (snd (pe_kind (le [l; h])))) ++ rest).
Proof.
  destruct (kind_lines linux64 no_text no_archive (far l h)) with (fs := one_file (far l h)) (file := B "f") (p := PExec)
    (e := mkExt (fst (pe_kind (le [l; h]))) [] [] 0 (snd (pe_kind (le [l; h])))) as (before & after & K1 & _ & _ & E).
  - rewrite far_length. reflexivity.
  - left; reflexivity.
  - reflexivity.
  - apply far_only.
  - apply (k_pe _ 65536); [apply far_header|apply far_flags|rewrite far_length; reflexivity|reflexivity].
  - assert (Z : rows_upto (is_parser PExec) table = []) by reflexivity. rewrite Z in K1. inversion K1; subst. rewrite E. eexists. cbn [map app List.concat]. rewrite <- app_assoc. reflexivity.
Qed.
Lemma C131_refuted : exists c1 c2, takeN 65536 c1 = takeN 65536 c2 /\ lenN c1 < 2 ^ 32 /\ lenN c2 < 2 ^ 32 /\
  program linux64 no_text no_archive (one_file c1) [B "f"; B "csv"] <> program linux64 no_text no_archive (one_file c2) [B "f"; B "csv"].
Proof.
  exists (far x02 x00), (far x02 x21). split; [apply far_same|]. split; [rewrite far_length; reflexivity|]. split; [rewrite far_length; reflexivity|].
  destruct (far_row x02 x00) as (r1 & E1). destruct (far_row x02 x21) as (r2 & E2). rewrite E1, E2. intros E. discriminate E.
Qed.
Lemma C131_ex : exists content, 65536 <= lenN content /\ lenN content < 2 ^ 32 /\ ~ starts content (B "PK") /\ ~ starts content [xd0; xcf; x11; xe0] /\ ~ starts content (B "MZ") /\
  starts content (B "RIFF").
Proof.
  exists (B "RIFF" ++ repeat x00 (N.to_nat 65536)). assert (S : starts (B "RIFF" ++ repeat x00 (N.to_nat 65536)) (B "RIFF")) by (exists [], (repeat x00 (N.to_nat 65536)); split; reflexivity).
  rewrite lenN_app, lenN_repeat. split; [vm_compute; discriminate|]. split; [reflexivity|]. split; [|split; [|split; [|exact S]]]; intros H; pose proof (Program.ArchiveProofs.one_start _ _ _ _ _ H S) as K; discriminate K.
Qed.
