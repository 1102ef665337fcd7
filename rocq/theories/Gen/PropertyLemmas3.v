(** Published signatures. *)
From Coq Require Import List NArith Lia Bool Strings.String Strings.Byte ZifyBool ZifyNat ZifyN.
From Verif Require Import Lib.Res Lib.Bytes Lib.BytesFacts Lib.Text Common.Model Common.Spec Magic.Table Magic.Model Zip.Model Program.Model.
From Verif Require Import Magic.Spec Program.Statements Program.Samples Program.ScanProofs Program.SafetyProofs Gen.Extensions Gen.Published.
From Verif Require Program.PropertyLemmas.
Import Magic.Table.
Import ListNotations.
Local Open Scope N_scope.

(** ** Rows and results *)
Lemma carried_row {R} content (plain : MagicInfo -> R) parse l rs mi : reports content plain parse l rs -> In mi l -> mi_func mi = None -> carries content mi -> In (plain mi) rs.
Proof.
  induction 1 as [|m l rs N H IH|m l rs C F H IH|m p x l rs C F E H IH]; intros I Fm Cm; [destruct I|..].
  - destruct I as [->|I]; [contradiction|]. exact (IH I Fm Cm).
  - destruct I as [->|I]; [left; reflexivity|]. right. exact (IH I Fm Cm).
  - destruct I as [->|I]; [congruence|]. apply in_or_app. right. exact (IH I Fm Cm).
Qed.
Lemma found_row {R} content (plain : MagicInfo -> R) parse l rs o : reports content plain parse l rs -> (forall mi p, In mi l -> mi_func mi = Some p -> ~ carries content mi) -> In o rs ->
  exists mi, In mi l /\ carries content mi /\ o = plain mi.
Proof.
  induction 1 as [|m l rs N H IH|m l rs C F H IH|m p x l rs C F E H IH]; intros Np I; [destruct I|..].
  - destruct IH as (mi & J & K); [intros mi p J; apply Np; right; exact J|exact I|]. exists mi. split; [right; exact J|exact K].
  - destruct I as [<-|I]; [exists m; split; [left; reflexivity|split; [exact C|reflexivity]]|]. destruct IH as (mi & J & K); [intros mi p J; apply Np; right; exact J|exact I|]. exists mi. split; [right; exact J|exact K].
  - exfalso. exact (Np m p (or_introl eq_refl) F C).
Qed.
Lemma row_extension mi : extension_of (row_says mi) = mi_ext mi.
Proof. reflexivity. Qed.

(** ** Signatures inside of signatures *)
Lemma occurs_inside s m content o k : occurs_at s content o -> occurs_at m s k -> occurs_at m content (o + k).
Proof.
  intros (p & q & -> & L) (p' & q' & -> & L'). exists (p ++ p'), (q' ++ q). split; [rewrite <- !app_assoc; reflexivity|]. rewrite lenN_app. lia.
Qed.
Definition inside (m s : bytes) (k : N) : bool := bytes_eqb (takeN (lenN m) (dropN k s)) m && (k + lenN m <=? lenN s).
Lemma inside_occurs m s k : inside m s k = true -> occurs_at m s k.
Proof.
  unfold inside. intros H. apply andb_true_iff in H. destruct H as (E & L). apply bytes_eqb_eq in E. apply N.leb_le in L. exists (takeN k s), (dropN (lenN m) (dropN k s)). split.
  - rewrite <- E at 1. rewrite takeN_dropN, takeN_dropN. reflexivity.
  - rewrite lenN_takeN. lia.
Qed.
Lemma occurs_nth m content o i x : occurs_at m content o -> nthN m i = Some x -> nthN content (o + i) = Some x.
Proof.
  intros (p & q & -> & <-) H. pose proof (nthN_Some_lt _ _ _ H) as L. rewrite nthN_app2 by lia. replace (lenN p + i - lenN p) with i by lia. rewrite nthN_app1 by exact L. exact H.
Qed.
(** Bytes that differ where both signatures lie *)
Definition differ (s : bytes) (o : N) (mi : MagicInfo) : bool :=
  existsb (fun i => match nthN s (N.of_nat i), (if o + N.of_nat i <? mi_offset mi then None else nthN (mi_magic mi) (o + N.of_nat i - mi_offset mi)) with Some x, Some y => negb (Byte.eqb x y) | _, _ => false end) (seq 0 (List.length s)).
Lemma differ_not s o mi content : differ s o mi = true -> occurs_at s content o -> ~ carries content mi.
Proof.
  unfold differ. intros D H C. apply existsb_exists in D. destruct D as (i & _ & D). destruct (nthN s (N.of_nat i)) as [x|] eqn:E1; [|discriminate D].
  destruct (N.ltb_spec (o + N.of_nat i) (mi_offset mi)) as [L|L]; [discriminate D|]. destruct (nthN (mi_magic mi) (o + N.of_nat i - mi_offset mi)) as [y|] eqn:E2; [|discriminate D].
  pose proof (occurs_nth _ _ _ _ _ H E1) as N1. pose proof (occurs_nth _ _ _ _ _ C E2) as N2. replace (mi_offset mi + (o + N.of_nat i - mi_offset mi)) with (o + N.of_nat i) in N2 by lia.
  rewrite N1 in N2. injection N2 as ->. apply negb_true_iff in D. rewrite Byte.byte_dec_lb in D by reflexivity. discriminate D.
Qed.
Definition no_parser (content : bytes) : Prop := forall mi p, In mi table -> mi_func mi = Some p -> ~ carries content mi.
Lemma prefix_no_parser s content : forallb (fun mi => match mi_func mi with Some _ => differ s 0 mi | None => true end) table = true -> starts content s -> no_parser content.
Proof.
  intros F H mi p I E. pose proof (proj1 (forallb_forall _ _) F mi I) as D. cbn beta in D. rewrite E in D. exact (differ_not s 0 mi content D H).
Qed.
Lemma plain_answer pl msg archive content : lenN content < 2 ^ 32 -> no_parser content -> exists rs, results pl msg archive (Some content) = Ok rs /\
  forall x, x <> B "unknown" -> x <> B "empty" -> ((exists o, In o rs /\ extension_of o = x) <-> exists mi, In mi table /\ mi_ext mi = x /\ carries content mi).
Proof.
  intros Sm Np. destruct (rows_decided pl msg archive content table) as [(found & R)|(r & b & mi & af & p & fd & E & _ & C & F & _)].
  2:{ exfalso. apply (Np mi p); [rewrite E; apply in_or_app; right; left; reflexivity|exact F|exact C]. }
  exists (or_unknown content found). split; [apply results_ok; [exact Sm|]; exists found; split; [exact R|reflexivity]|]. intros x Nu Ne.
  split.
  - intros (o & I & <-). destruct found as [|y l].
    + exfalso. destruct content; destruct I as [<-|[]]; [apply Ne|apply Nu]; reflexivity.
    + destruct (found_row _ _ _ _ _ o R Np I) as (mi & J & C & ->). exists mi. split; [exact J|]. split; [reflexivity|exact C].
  - intros (mi & I & <- & C). destruct (mi_func mi) as [p|] eqn:F; [destruct (Np mi p I F C)|]. exists (row_says mi). split; [|reflexivity].
    pose proof (carried_row _ _ _ _ _ mi R I F C) as J. destruct found; [destruct J|exact J].
Qed.

(** ** Published signatures *)
Definition covered (f : published) : bool :=
  existsb (fun mi => bytes_eqb (mi_ext mi) (pub_extension f) && match mi_func mi with None => true | _ => false end && (pub_offset f <=? mi_offset mi) && inside (mi_magic mi) (pub_bytes f) (mi_offset mi - pub_offset f)) table.
Lemma all_covered : forallb covered published_formats = true.
Proof. vm_compute. reflexivity. Qed.
Lemma C125_published : forall f pl msg archive content rs, In f published_formats -> lenN content < 2 ^ 32 -> occurs_at (pub_bytes f) content (pub_offset f) ->
  results pl msg archive (Some content) = Ok rs -> exists o, In o rs /\ extension_of o = pub_extension f.
Proof.
  intros f pl msg archive content rs I Sm H E. pose proof (proj1 (forallb_forall _ _) all_covered f I) as K. unfold covered in K. apply existsb_exists in K. destruct K as (mi & J & K).
  apply andb_true_iff in K. destruct K as (K & Ki). apply andb_true_iff in K. destruct K as (K & Ko). apply andb_true_iff in K. destruct K as (Ke & Kf). apply bytes_eqb_eq in Ke. apply N.leb_le in Ko. apply inside_occurs in Ki.
  assert (F : mi_func mi = None) by (destruct (mi_func mi); [discriminate Kf|reflexivity]).
  assert (C : carries content mi).
  { unfold carries. replace (mi_offset mi) with (pub_offset f + (mi_offset mi - pub_offset f)) by lia. exact (occurs_inside _ _ _ _ _ H Ki). }
  apply results_ok in E; [|exact Sm]. destruct E as (found & R & ->). exists (row_says mi). split; [|rewrite <- Ke; apply row_extension].
  pose proof (carried_row _ _ _ _ _ mi R J F C) as M. destruct found; [destruct M|exact M].
Qed.

(** ** Formats whose published signature is not in the table *)
Definition signatures_of (x : bytes) : list (bytes * N) := map (fun mi => (mi_magic mi, mi_offset mi)) (filter (fun mi => bytes_eqb (mi_ext mi) x) table).
Lemma rows_of x content : (exists mi, In mi table /\ mi_ext mi = x /\ carries content mi) <-> exists m o, In (m, o) (signatures_of x) /\ occurs_at m content o.
Proof.
  unfold signatures_of. split.
  - intros (mi & I & E & C). exists (mi_magic mi), (mi_offset mi). split; [|exact C]. apply in_map_iff. exists mi. split; [reflexivity|]. apply filter_In. split; [exact I|apply bytes_eqb_eq; exact E].
  - intros (m & o & I & C). apply in_map_iff in I. destruct I as (mi & E & I). injection E as <- <-. apply filter_In in I. destruct I as (I & E). exists mi. split; [exact I|]. split; [apply bytes_eqb_eq; exact E|exact C].
Qed.
Lemma eps_rows : signatures_of (B "eps") = [(B "EPSF", 41)].
Proof. vm_compute. reflexivity. Qed.
Lemma C125_eps : forall pl msg archive content, lenN content < 2 ^ 32 -> occurs_at eps_prefix content 0 -> occurs_at eps_word content eps_word_offset ->
  exists rs, results pl msg archive (Some content) = Ok rs /\ (exists o, In o rs /\ extension_of o = B "ps") /\
    ((exists o, In o rs /\ extension_of o = B "eps") <-> occurs_at (B "EPSF") content 41).
Proof.
  intros pl msg archive content Sm P W. destruct (plain_answer pl msg archive content Sm) as (rs & E & H).
  { apply (prefix_no_parser eps_prefix); [vm_compute; reflexivity|exact P]. }
  exists rs. split; [exact E|]. split.
  - apply H; [discriminate|discriminate|]. apply rows_of.
    exists (B "%!PS"), 0. split; [vm_compute; left; reflexivity|]. apply (occurs_inside eps_prefix (B "%!PS") content 0 0 P). apply inside_occurs. vm_compute. reflexivity.
  - rewrite H by discriminate. rewrite rows_of, eps_rows. split.
    + intros (m & o & [I|[]] & C). injection I as <- <-. exact C.
    + intros C. exists (B "EPSF"), 41. split; [left; reflexivity|exact C].
Qed.
Lemma eps_answer : exists rs, results windows no_text no_archive (Some eps_file) = Ok rs /\ map extension_of rs = [B "ps"].
Proof. eexists. split; vm_compute; reflexivity. Qed.
Lemma C125_eps_refuted : exists content, occurs_at eps_prefix content 0 /\ occurs_at eps_word content eps_word_offset /\ lenN content < 2 ^ 32 /\
  ~ reports_extension windows no_text no_archive (Some content) (B "eps").
Proof.
  exists eps_file. split; [apply inside_occurs; vm_compute; reflexivity|]. split; [apply inside_occurs; vm_compute; reflexivity|]. split; [vm_compute; reflexivity|].
  intros (rs & o & E & I & X). destruct eps_answer as (rs' & E' & M). rewrite E in E'. injection E' as <-. apply (in_map extension_of) in I. rewrite M, X in I. destruct I as [I|[]]. discriminate I.
Qed.
Lemma C125_pcap : forall s pl msg archive content, In s big_endian_captures -> lenN content < 2 ^ 32 -> occurs_at s content 0 ->
  (exists rs, results pl msg archive (Some content) = Ok rs) /\ ~ reports_extension pl msg archive (Some content) (B "pcap").
Proof.
  intros s pl msg archive content I Sm H.
  assert (G : forallb (fun s => forallb (fun mi => match mi_func mi with Some _ => differ s 0 mi | None => negb (bytes_eqb (mi_ext mi) (B "pcap")) || differ s 0 mi end) table) big_endian_captures = true) by (vm_compute; reflexivity).
  pose proof (proj1 (forallb_forall _ _) G s I) as F. cbn beta in F.
  destruct (plain_answer pl msg archive content Sm) as (rs & E & K).
  { apply (prefix_no_parser s); [|exact H]. apply forallb_forall. intros mi J. pose proof (proj1 (forallb_forall _ _) F mi J) as D. cbn beta in D. destruct (mi_func mi); [exact D|reflexivity]. }
  split; [exists rs; exact E|]. intros (rs' & o & E' & Io & X). rewrite E in E'. injection E' as <-.
  destruct (proj1 (K (B "pcap") ltac:(discriminate) ltac:(discriminate)) (ex_intro _ o (conj Io X))) as (mi & J & Em & C). pose proof (proj1 (forallb_forall _ _) F mi J) as D. cbn beta in D.
  destruct (mi_func mi); [exact (differ_not _ _ _ _ D H C)|]. rewrite (proj2 (bytes_eqb_eq _ _) Em) in D. exact (differ_not _ _ _ _ D H C).
Qed.
Lemma C125_flash : forall pl msg archive content rs, lenN content < 2 ^ 32 -> occurs_at lzma_flash content 0 -> ~ occurs_at (B "ftyp") content 4 ->
  results pl msg archive (Some content) = Ok rs -> forall o, In o rs -> extension_of o <> B "swf".
Proof.
  intros pl msg archive content rs Sm H Nm E o Io X. destruct (plain_answer pl msg archive content Sm) as (rs' & E' & K).
  { intros mi p I F C. assert (G : forallb (fun mi => match mi_func mi with Some PMp4 => bytes_eqb (mi_magic mi) (B "ftyp") && (mi_offset mi =? 4) | Some _ => differ lzma_flash 0 mi | None => true end) table = true) by (vm_compute; reflexivity).
    pose proof (proj1 (forallb_forall _ _) G mi I) as D. cbn beta in D. rewrite F in D. destruct p; try exact (differ_not _ _ _ _ D H C). apply andb_true_iff in D. destruct D as (D1 & D2). apply bytes_eqb_eq in D1. apply N.eqb_eq in D2.
    unfold carries in C. rewrite D1, D2 in C. contradiction. }
  rewrite E in E'. injection E' as <-. destruct (proj1 (K (B "swf") ltac:(discriminate) ltac:(discriminate)) (ex_intro _ o (conj Io X))) as (mi & J & Em & C).
  assert (G : forallb (fun mi => negb (bytes_eqb (mi_ext mi) (B "swf")) || differ lzma_flash 0 mi) table = true) by (vm_compute; reflexivity).
  pose proof (proj1 (forallb_forall _ _) G mi J) as D. cbn beta in D. rewrite (proj2 (bytes_eqb_eq _ _) Em) in D. exact (differ_not _ _ _ _ D H C).
Qed.
Lemma iso_rows : signatures_of (B "iso") = [(B "CD001", 32769); (B "CD001", 34817); (B "CD001", 36864); (B "BEA01", 32769); (B "BOOT2", 32769); (B "CD001", 32769); (B "CDW02", 32769); (B "NSR02", 32769); (B "NSR03", 32769); (B "TEA01", 32769)].
Proof. vm_compute. reflexivity. Qed.
Lemma volume_zero k i : i < descriptor_offset k -> nthN (volume k) i = Some x00.
Proof.
  intros L. unfold volume. rewrite nthN_app1 by (rewrite lenN_repeatN; exact L). rewrite nthN_nth_error. unfold repeatN. apply nth_error_repeat. lia.
Qed.
Lemma volume_not k m c o : o < descriptor_offset k -> c <> x00 -> ~ occurs_at (c :: m) (volume k) o.
Proof. intros L N H. pose proof (occurs_nth (c :: m) (volume k) o 0 c H eq_refl) as E. rewrite N.add_0_r, volume_zero in E by exact L. congruence. Qed.
Lemma C125_volume : forall pl msg archive k, descriptor_offset k + 5 < 2 ^ 32 ->
  (reports_extension pl msg archive (Some (volume k)) (B "iso") <-> k = 0 \/ k = 1).
Proof.
  intros pl msg archive k L. assert (Sm : lenN (volume k) < 2 ^ 32).
  { unfold volume. rewrite lenN_app, lenN_repeatN. change (lenN (B "CD001")) with 5. exact L. }
  assert (D0 : 32769 <= descriptor_offset k) by (unfold descriptor_offset; lia).
  destruct (plain_answer pl msg archive (volume k) Sm) as (rs & E & K).
  { intros mi p I F C. assert (G : forallb (fun mi => match mi_func mi with Some _ => (mi_offset mi <? 32769) && match mi_magic mi with c :: _ => negb (Byte.eqb c x00) | [] => false end | None => true end) table = true) by (vm_compute; reflexivity).
    pose proof (proj1 (forallb_forall _ _) G mi I) as D. cbn beta in D. rewrite F in D. apply andb_true_iff in D. destruct D as (D1 & D2). unfold carries in C. destruct (mi_magic mi) as [|c m]; [discriminate D2|].
    apply (volume_not k m c (mi_offset mi)); [lia| |exact C]. intros ->. discriminate D2. }
  specialize (K (B "iso") ltac:(discriminate) ltac:(discriminate)). rewrite rows_of, iso_rows in K. split.
  - intros (rs' & o & E' & Io & X). pose proof (eq_trans (eq_sym E) E') as Q. injection Q as <-. destruct (proj1 K (ex_intro _ o (conj Io X))) as (m & off & I & C).
    destruct (N.eq_dec k 0) as [->|N0]; [left; reflexivity|]. destruct (N.eq_dec k 1) as [->|N1]; [right; reflexivity|]. exfalso.
    assert (D2 : 36865 <= descriptor_offset k) by (unfold descriptor_offset; lia). cbn [In] in I.
    repeat (destruct I as [I|I]; [injection I as <- <-; revert C; apply (volume_not k); [lia|discriminate]|]). destruct I.
  - intros [-> | ->].
    + destruct (proj2 K) as (o & Io & X). { exists (B "CD001"), 32769. split; [left; reflexivity|]. exists (repeatN x00 32769), []. split; [|apply lenN_repeatN]. unfold volume. change (descriptor_offset 0) with 32769. rewrite app_nil_r. reflexivity. } exists rs, o. split; [exact E|split; assumption].
    + destruct (proj2 K) as (o & Io & X). { exists (B "CD001"), 34817. split; [right; left; reflexivity|]. exists (repeatN x00 34817), []. split; [|apply lenN_repeatN]. unfold volume. change (descriptor_offset 1) with 34817. rewrite app_nil_r. reflexivity. } exists rs, o. split; [exact E|split; assumption].
Qed.
Lemma C125_volume_refuted : exists k, descriptor_offset k + 5 < 2 ^ 32 /\ ~ reports_extension windows no_text no_archive (Some (volume k)) (B "iso").
Proof. exists 2. split; [reflexivity|]. intros R. apply C125_volume in R; [|reflexivity]. destruct R; discriminate. Qed.
Lemma C125_pcap_refuted : exists content, In content big_endian_captures /\ ~ reports_extension windows no_text no_archive (Some content) (B "pcap").
Proof.
  exists [xa1; xb2; xc3; xd4; x00; x02; x00; x04]. split; [left; reflexivity|].
  apply (C125_pcap [xa1; xb2; xc3; xd4; x00; x02; x00; x04]); [left; reflexivity|reflexivity|apply inside_occurs; vm_compute; reflexivity].
Qed.
Lemma C125_flash_refuted : exists content, occurs_at lzma_flash content 0 /\ (exists rs, results windows no_text no_archive (Some content) = Ok rs) /\ ~ reports_extension windows no_text no_archive (Some content) (B "swf").
Proof.
  exists (lzma_flash ++ [x0d]). split; [apply inside_occurs; vm_compute; reflexivity|]. split; [eexists; vm_compute; reflexivity|]. intros (rs & o & E & I & X).
  refine (C125_flash windows no_text no_archive (lzma_flash ++ [x0d]) rs _ _ _ E o I X); [reflexivity|apply inside_occurs; vm_compute; reflexivity|]. intros (p & q & Q & L).
  apply (f_equal lenN) in Q. rewrite !lenN_app in Q. change (lenN lzma_flash) with 3 in Q. change (lenN [x0d]) with 1 in Q. change (lenN (B "ftyp")) with 4 in Q. lia.
Qed.
Lemma C125_eps_sample : (exists rs, results windows no_text no_archive (Some eps_file) = Ok rs /\ map extension_of rs = [B "ps"]) /\
  exists f rs, In f published_formats /\ pub_extension f = B "png" /\ occurs_at (pub_bytes f) (x89 :: B "PNG" ++ [x0d; x0a; x1a; x0a] ++ B "x") (pub_offset f) /\
    results windows no_text no_archive (Some (x89 :: B "PNG" ++ [x0d; x0a; x1a; x0a] ++ B "x")) = Ok rs /\ map extension_of rs = [B "png"].
Proof.
  split; [exact eps_answer|]. exists (at_start (B "png") (x89 :: B "PNG" ++ [x0d; x0a; x1a; x0a])). eexists. split; [|split; [reflexivity|split; [apply inside_occurs; vm_compute; reflexivity|split; vm_compute; reflexivity]]].
  unfold published_formats. repeat (first [left; reflexivity|right]).
Qed.
