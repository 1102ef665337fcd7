(** The extensions of results and the list of formats. *)
From Coq Require Import List NArith Lia Bool Strings.String Strings.Byte.
From Verif Require Import Lib.Res Lib.Bytes Lib.BytesFacts Lib.Text Common.Model Zip.Model Program.Model Program.Samples Gen.Coverage Gen.Extensions Gen.ExtensionProofs Gen.ExtensionSamples.
Import ListNotations.
Local Open Scope N_scope.

Lemma C122_closed : forall pl msg archive file x, reports_extension pl msg archive file x -> In x all_extensions.
Proof.
  intros pl msg archive file x (rs & o & R & I & E). apply listed_in. rewrite <- E. pose proof (results_listed _ _ _ _ _ R) as F. rewrite Forall_forall in F. exact (F o I).
Qed.
Lemma C122_reached : forall x, In x all_extensions -> exists archive content, lenN content < 2 ^ 32 /\ reports_extension windows no_text archive (Some content) x.
Proof. intros x I. apply all_attained. exact I. Qed.
Lemma C122_exact : forall x, In x all_extensions <-> exists pl msg archive file, reports_extension pl msg archive file x.
Proof.
  intros x. split.
  - intros I. destruct (all_attained x I) as (archive & content & _ & R). exists windows, no_text, archive, (Some content). exact R.
  - intros (pl & msg & archive & file & R). exact (C122_closed _ _ _ _ _ R).
Qed.

(** ** The list of formats *)
Definition claimed_b (x : bytes) : bool := existsb (fun f => bytes_eqb (f_extension f) x && negb (bytes_eqb (f_level f) (B "None"))) coverage.
Lemma claimed_iff x : claimed x <-> claimed_b x = true.
Proof.
  unfold claimed_b. rewrite existsb_exists. split.
  - intros (f & I & E & L). exists f. split; [exact I|]. rewrite (proj2 (bytes_eqb_eq _ _) E). cbn [andb]. apply negb_true_iff. apply not_true_iff_false. intros K. apply L. apply bytes_eqb_eq. exact K.
  - intros (f & I & E). apply andb_true_iff in E. destruct E as (E & L). exists f. split; [exact I|]. split; [apply bytes_eqb_eq; exact E|]. intros K. rewrite (proj2 (bytes_eqb_eq _ _) K) in L. discriminate L.
Qed.
Lemma C122_formats : forall x, claimed x -> ((exists pl msg archive file, reports_extension pl msg archive file x) <-> x <> B "odp" /\ x <> B "wp5").
Proof.
  intros x (f & I & E & L). rewrite <- C122_exact, <- listed_in.
  assert (G : forallb (fun f => bytes_eqb (f_level f) (B "None") || (eqb (listed (f_extension f)) (negb (bytes_eqb (f_extension f) (B "odp")) && negb (bytes_eqb (f_extension f) (B "wp5"))))) coverage = true)
    by (vm_compute; reflexivity).
  pose proof (proj1 (forallb_forall _ _) G f I) as K. cbn beta in K. rewrite E in K. apply orb_true_iff in K. destruct K as [K|K]; [apply bytes_eqb_eq in K; contradiction|]. apply eqb_prop in K. rewrite K.
  rewrite andb_true_iff, !negb_true_iff. split.
  - intros (A & C). split; intros Ex; [rewrite Ex in A; vm_compute in A; discriminate A|rewrite Ex in C; vm_compute in C; discriminate C].
  - intros (A & C). split; apply not_true_iff_false; intros Ex; apply bytes_eqb_eq in Ex; contradiction.
Qed.
Lemma C122_formats_missing : claimed (B "odp") /\ claimed (B "wp5") /\ forall pl msg archive file, ~ reports_extension pl msg archive file (B "odp") /\ ~ reports_extension pl msg archive file (B "wp5").
Proof.
  assert (C1 : claimed (B "odp")) by (apply claimed_iff; vm_compute; reflexivity). assert (C2 : claimed (B "wp5")) by (apply claimed_iff; vm_compute; reflexivity).
  split; [exact C1|]. split; [exact C2|]. intros pl msg archive file. split; intros R.
  - destruct (proj1 (C122_formats _ C1) (ex_intro _ pl (ex_intro _ msg (ex_intro _ archive (ex_intro _ file R))))) as (A & _). apply A. reflexivity.
  - destruct (proj1 (C122_formats _ C2) (ex_intro _ pl (ex_intro _ msg (ex_intro _ archive (ex_intro _ file R))))) as (_ & A). apply A. reflexivity.
Qed.
Definition not_claimed : list bytes :=
  [B "ace"; B "class"; B "dll"; B "emf"; B "empty"; B "eps"; B "o"; B "obd"; B "ole_dat"; B "ole_embedded"; B "ole_eq"; B "slk"; B "sys"; B "unknown"; B "vba"; B "vbe"; B "vhdx"; B "wma"; B "wmv"; B "xlsb_e4m"].
Lemma C122_other_formats : forall x, In x all_extensions -> (claimed x <-> ~ In x
  [B "ace"; B "class"; B "dll"; B "emf"; B "empty"; B "eps"; B "o"; B "obd"; B "ole_dat"; B "ole_embedded"; B "ole_eq"; B "slk"; B "sys"; B "unknown"; B "vba"; B "vbe"; B "vhdx"; B "wma"; B "wmv"; B "xlsb_e4m"]).
Proof.
  intros x I. fold not_claimed. rewrite claimed_iff. assert (G : forallb (fun x => eqb (claimed_b x) (negb (existsb (bytes_eqb x) not_claimed))) all_extensions = true) by (vm_compute; reflexivity).
  pose proof (proj1 (forallb_forall _ _) G x I) as K. cbn beta in K. apply eqb_prop in K. rewrite K, negb_true_iff. split.
  - intros H J. apply not_true_iff_false in H. apply H. apply existsb_exists. exists x. split; [exact J|apply bytes_eqb_eq; reflexivity].
  - intros H. apply not_true_iff_false. intros J. apply existsb_exists in J. destruct J as (y & J & E). apply bytes_eqb_eq in E. subst y. exact (H J).
Qed.
(** An OpenDocument presentation *)
Lemma C122_presentation : exists rs, results windows no_text (fun _ => Ok [entry (B "mimetype") (B "application/vnd.oasis.opendocument.presentation")]) (Some (B "PK" ++ [x03; x04])) = Ok rs /\ map extension_of rs = [B "opd"].
Proof. eexists. split; vm_compute; reflexivity. Qed.
Lemma C122_claims : claimed (B "docx") /\ In (B "docx") all_extensions.
Proof. split; [apply claimed_iff; vm_compute; reflexivity|apply listed_in; vm_compute; reflexivity]. Qed.
