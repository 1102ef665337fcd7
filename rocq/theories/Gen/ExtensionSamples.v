(** A file for every extension on the list. *)
From Coq Require Import List NArith Lia Bool Strings.String Strings.Byte.
From Verif Require Import Lib.Res Lib.Bytes Lib.BytesFacts Lib.Text Common.Model Magic.Table Magic.Model Exe.Model Media.Model Asf.Spec Asf.Statements Zip.Tables Zip.Model
     Ole.Spec Ole.Samples Detect.Model Detect.Spec Detect.Samples Vba.Samples Program.Model Program.Samples Gen.Extensions Gen.ExtensionProofs.
From Verif Require Asf.PropertyLemmas Zip.PropertyLemmas.
Import ListNotations.
Local Open Scope N_scope.

(** A file and the entries of the archive in it. *)
Definition sample := (bytes * list zentry)%type.
Definition plain_sample (content : bytes) : sample := (content, []).
Definition zip_sample (es : list zentry) : sample := (B "PK" ++ [x03; x04], es).

(** Signatures *)
Definition signature_samples : list (bytes * sample) :=
  flat_map (fun m => match mi_func m with None => [(mi_ext m, plain_sample (repeatN x00 (mi_offset m) ++ mi_magic m))] | Some _ => [] end) table.
(** Archives *)
Definition entry (name data : bytes) : zentry := mkEntry name (lenN data) (lenN data) false true [] 0 (Some data).
Definition zip_samples : list (bytes * sample) :=
  map (fun k => (fst (snd k), zip_sample [entry (fst k) []])) marker_entries ++
  map (fun k => (fst (snd k), zip_sample [entry (B "[Content_Types].xml") (B "ContentType=""" ++ fst k ++ B """")])) content_types ++
  map (fun k => (fst (snd k), zip_sample [entry (B "mimetype") (fst k)])) mime_types ++
  [(B "zip", zip_sample [])].
(** Compound files with one stream of at most 512 bytes *)
Definition one_with (name : list N) (content : bytes) : bytes :=
  build 2 fat_d [1; 2; 3; 4; 5; 6; 7; EOC]
    [mkNode n_root 5 FREE FREE 1 3 512; mkNode name 2 FREE FREE FREE 0 512; unused; unused; unused; unused; unused; unused] (pad 512 content) [].
Definition ole_samples : list (bytes * sample) :=
  map (fun m => (oi_Extension m, plain_sample (one_with (dropN 1 (oi_matcher m)) []))) (filter (fun m => match oi_extraFunc m with Some DExcel | Some DWordPerfect => false | _ => true end) ole_list) ++
  [(B "oless", plain_sample (one_with (a "nothing") []));
   (B "msm", plain_sample (one_with [18496; 16191; 17783; 17516; 15210; 17892; 18468] (B "ModuleAdminExecuteSequence")));
   (B "msp", plain_sample (one_with [18496; 16191; 17783; 17516; 15210; 17892; 18468] (B "MsiPatchSequence")));
   (B "vba", plain_sample filev)].
(** Other files *)
Definition coff (flags : N) : bytes := B "MZ" ++ repeatN x00 58 ++ to_le 4 64 ++ repeatN x00 22 ++ to_le 2 flags ++ repeatN x00 8.
Definition other_samples : list (bytes * sample) :=
  [(B "empty", plain_sample []); (B "unknown", plain_sample (B "!?")); (B "exe", plain_sample (coff 0)); (B "dll", plain_sample (coff 8192)); (B "sys", plain_sample (coff 4096));
   (B "o", plain_sample ([xfe; xed; xfa; xce] ++ repeatN x00 28)); (B "dwg", plain_sample (B "AC1015")); (B "mp4", plain_sample (repeatN x00 4 ++ B "ftypisom" ++ repeatN x00 4));
   (B "jpg", plain_sample [xff; xd8; xff]); (B "wp", plain_sample (xff :: B "WPC")); (B "riff", plain_sample (B "RIFF"));
   (B "asf", plain_sample (asf_file 0 x01 x02 [] [])); (B "wma", plain_sample (asf_file 1 x01 x02 [(codec_guid, codec_data Asf.PropertyLemmas.clock_guid [Asf.PropertyLemmas.audio])] []));
   (B "wmv", plain_sample (asf_file 1 x01 x02 [(codec_guid, codec_data Asf.PropertyLemmas.clock_guid [Asf.PropertyLemmas.audio; Asf.PropertyLemmas.video])] []))] ++
  map (fun k => (snd k, plain_sample (B "RIFF" ++ repeatN x00 4 ++ fst k))) riff_kinds.
Definition samples : list (bytes * sample) := signature_samples ++ zip_samples ++ ole_samples ++ other_samples.
Definition sample_ok (k : bytes * sample) : bool :=
  match results windows no_text (fun _ => Ok (snd (snd k))) (Some (fst (snd k))) with Ok rs => existsb (fun o => bytes_eqb (extension_of o) (fst k)) rs | _ => false end.
Lemma samples_ok : forallb sample_ok samples = true.
Proof. vm_compute. reflexivity. Qed.
Lemma samples_all : forallb (fun x => existsb (fun k => bytes_eqb (fst k) x) samples) all_extensions = true.
Proof. vm_compute. reflexivity. Qed.
Lemma samples_small : forallb (fun k : bytes * sample => lenN (fst (snd k)) <? 2 ^ 32) samples = true.
Proof. vm_compute. reflexivity. Qed.
Lemma all_attained x : In x all_extensions ->
  exists archive content, lenN content < 2 ^ 32 /\ reports_extension windows no_text archive (Some content) x.
Proof.
  intros I. pose proof (proj1 (forallb_forall _ _) samples_all x I) as H. apply existsb_exists in H. destruct H as (k & J & E). apply bytes_eqb_eq in E.
  pose proof (proj1 (forallb_forall _ _) samples_ok k J) as K. pose proof (proj1 (forallb_forall _ _) samples_small k J) as L. destruct k as (y & content & es). cbn [fst snd] in *. subst y.
  exists (fun _ => Ok es), content. split; [apply N.ltb_lt; exact L|]. unfold sample_ok in K. cbn [fst snd] in K.
  destruct (results windows no_text (fun _ => Ok es) (Some content)) as [rs|e| |] eqn:R; try discriminate K. apply existsb_exists in K. destruct K as (o & O & Eo). apply bytes_eqb_eq in Eo.
  exists rs, o. split; [exact R|]. split; assumption.
Qed.
