(** Lemmas in the form of the properties, with examples and refutations. *)
From Coq Require Import List NArith ZArith Lia Bool Strings.String Strings.Byte ZifyBool ZifyNat ZifyN.
From Verif Require Import Lib.Res Lib.Bytes Lib.BytesFacts Lib.Text Common.Model Common.Spec Common.Fields
  Common.ReadProofs Common.FieldProofs Ole.Model Exe.Model Docs.Model Docs.Spec Docs.Statements Docs.Proofs.
Import ListNotations.
Local Open Scope N_scope.
Arguments N.pow : simpl never.

Lemma number_by s off n v w : slice s off n = Ok w -> le w = v -> number_at s off n v.
Proof. intros H E. exists w. split; [apply slice_window; exact H|exact E]. Qed.
Ltac num := eapply number_by; [vm_compute; reflexivity|reflexivity].

(** ** C71 *)
Lemma C71_stream e s n o : word_stream s n o -> exists name, name_in word_products (match o with Some v => v | None => n end) name /\
  word_Detailer e s = Ok (mkExt (Extension e) (Name e) (SubType e) (match o with Some v => v | None => n end) name).
Proof.
  intros W. eexists. split; [apply word_named|]. unfold word_Detailer. rewrite (nFib_stream _ _ _ W). reflexivity.
Qed.
Lemma C71_short e s : lenN s < 154 -> word_Detailer e s = Ok (mkExt (Extension e) (Name e) (SubType e) 65535 (B "Unknown")).
Proof. intros H. unfold word_Detailer. rewrite (nFib_short s H). reflexivity. Qed.
Lemma C71_long e s n cb : number_at s 2 2 n -> number_at s 152 2 cb -> 255 < cb \/ lenN s < 158 + 8 * cb ->
  exists name, name_in word_products n name /\ word_Detailer e s = Ok (mkExt (Extension e) (Name e) (SubType e) n name).
Proof.
  intros Hn Hc D. eexists. split; [apply word_named|]. unfold word_Detailer.
  pose proof (number_at_len _ _ _ _ Hc) as L.
  destruct (nFib_cases s) as (n' & cb' & Hn' & Hc' & K); [lia|].
  rewrite <- (number_at_fun _ _ _ _ _ Hn Hn') in K. rewrite <- (number_at_fun _ _ _ _ _ Hc Hc') in K.
  destruct K as [[_ E]|(B1 & B2 & _)]; [rewrite E; reflexivity|lia].
Qed.
Lemma C71_all e s : exists v name, v < 65536 /\ name_in word_products v name /\
  word_Detailer e s = Ok (mkExt (Extension e) (Name e) (SubType e) v name).
Proof.
  destruct (N.le_gt_cases 154 (lenN s)) as [L|L].
  - destruct (nFib_cases s L) as (n & cb & Hn & _ & [[_ E]|(_ & _ & o & W & E)]).
    + exists n, (GetVersion_Word n). split; [eapply two_bytes; exact Hn|]. split; [apply word_named|].
      unfold word_Detailer. rewrite E. reflexivity.
    + exists (match o with Some v => v | None => n end). eexists. split; [|split; [apply word_named|unfold word_Detailer; rewrite E; reflexivity]].
      destruct W as [cb' csw v _ _ _ _ _ Hv|]; eapply two_bytes; eassumption.
  - exists 65535, (B "Unknown"). split; [lia|]. split; [|apply C71_short; exact L]. apply (word_named 65535).
Qed.
(** A stream of Word 6 whose byte 154 is not zero. *)
Definition word6 : bytes := [xdc; xa5; x65; x00] ++ repeatN x00 150 ++ [x01; x00; x6c; x00] ++ repeatN x00 100.
Lemma C71_refuted : exists e s n e', 154 <= lenN s /\ number_at s 2 2 n /\ before_word97 n /\ word_Detailer e s = Ok e' /\ Version e' <> n.
Proof.
  exists ext0, word6, 101. eexists. split; [vm_compute; discriminate|]. split; [num|]. split; [unfold before_word97; cbn; tauto|].
  split; [vm_compute; reflexivity|]. vm_compute. discriminate.
Qed.
(** A stream of Word 2003: [cbRgFcLcb] is 0xA4, [cswNew] 2, [nFibNew] 0x10C. *)
Definition word2003 : bytes :=
  [xec; xa5; xc1; x00] ++ repeatN x00 28 ++ [x0e; x00] ++ repeatN x00 28 ++ [x16; x00] ++ repeatN x00 88 ++ [xa4; x00] ++
  repeatN x00 1312 ++ [x02; x00; x0c; x01; x00; x00].
Lemma C71_ex : word_stream word2003 193 (Some 268) /\ word_Detailer ext0 word2003 = Ok (mkExt [] [] [] 268 (B "Word2003")).
Proof.
  split; [|vm_compute; reflexivity]. apply word_with_new with (cb := 164) (csw := 2); try num; lia.
Qed.

(** ** C72 *)
Lemma C72_visio e s v : number_at s 26 2 v -> exists name, name_in visio_products v name /\
  visio_Detailer e s = Ok (mkExt (Extension e) (Name e) (SubType e) v name).
Proof. intros H. eexists. split; [apply visio_named|]. unfold visio_Detailer, GetVisoVersion. rewrite (field_at _ _ _ _ H). reflexivity. Qed.
Lemma C72_visio_short e s : visio_Detailer e s = UB <-> lenN s < 28.
Proof.
  split; intros H.
  - destruct (N.lt_ge_cases (lenN s) 28) as [L|L]; [exact L|]. destruct (field_ex s 26 2 L) as (v & V & _).
    destruct (C72_visio e s v V) as (n & _ & E). rewrite E in H. discriminate.
  - unfold visio_Detailer, GetVisoVersion. rewrite field_ub by lia. reflexivity.
Qed.
Lemma second_ok pl : supported pl -> pub_version2 pl = second pl.
Proof. intros [->| ->]; reflexivity. Qed.
Lemma C72_publisher pl e s v : supported pl -> number_at s 4 2 v -> v <> 300 ->
  exists name, name_in publisher_products v name /\ publisher_Detailer pl e s = Ok (mkExt (Extension e) (Name e) (SubType e) v name).
Proof.
  intros _ H Z. eexists. split; [apply publisher_named|]. unfold publisher_Detailer, GetPubVersion. rewrite (field_at _ _ _ _ H). cbn [bind].
  replace (v =? 300) with false by lia. reflexivity.
Qed.
Lemma C72_publisher_300 pl e s v : supported pl -> number_at s 4 2 300 -> number_at s (second pl) 2 v ->
  exists name, name_in publisher_products v name /\ publisher_Detailer pl e s = Ok (mkExt (Extension e) (Name e) (SubType e) v name).
Proof.
  intros S H Hv. eexists. split; [apply publisher_named|]. unfold publisher_Detailer, GetPubVersion. rewrite (field_at _ _ _ _ H). cbn [bind].
  change (300 =? 300) with true. rewrite (second_ok pl S), (field_at _ _ _ _ Hv). reflexivity.
Qed.
Lemma C72_publisher_short pl e s : supported pl ->
  (publisher_Detailer pl e s = UB <-> lenN s < 6 \/ number_at s 4 2 300 /\ lenN s < second pl + 2).
Proof.
  intros S. split; intros H.
  - destruct (N.lt_ge_cases (lenN s) 6) as [L|L]; [left; exact L|right]. destruct (field_ex s 4 2 L) as (v & V & _).
    destruct (N.eq_dec v 300) as [->|Z].
    + split; [exact V|]. destruct (N.lt_ge_cases (lenN s) (second pl + 2)) as [M|M]; [exact M|].
      destruct (field_ex s (second pl) 2 M) as (w & W & _). destruct (C72_publisher_300 pl e s w S V W) as (n & _ & E). rewrite E in H. discriminate.
    + destruct (C72_publisher pl e s v S V Z) as (n & _ & E). rewrite E in H. discriminate.
  - unfold publisher_Detailer, GetPubVersion. destruct H as [L|[V M]].
    + rewrite field_ub by lia. reflexivity.
    + rewrite (field_at _ _ _ _ V). cbn [bind]. change (300 =? 300) with true. rewrite (second_ok pl S), field_ub by lia. reflexivity.
Qed.
Definition pub_sample : bytes := [xe8; xac; x2c; x00; x2c; x01; x00; x00; x00; x00; x00; x00; xcd; x02; x00; x00; xe8; x03; x00; x00].
Lemma C72_refuted_visio : exists e s, s <> [] /\ visio_Detailer e s = UB.
Proof. exists ext0, (B "Visio (TM) Drawing"). split; [discriminate|vm_compute; reflexivity]. Qed.
Lemma C72_refuted_publisher : exists e s, 4 <= lenN s /\ publisher_Detailer linux64 e s = UB /\ publisher_Detailer windows e s = UB.
Proof. exists ext0, [x00; x00; x00; x00]. split; [vm_compute; discriminate|]. split; vm_compute; reflexivity. Qed.
Lemma C72_refuted_same : exists e s a b, publisher_Detailer linux64 e s = Ok a /\ publisher_Detailer windows e s = Ok b /\ Version a <> Version b.
Proof. exists ext0, pub_sample. eexists. eexists. split; [vm_compute; reflexivity|]. split; [vm_compute; reflexivity|]. vm_compute. discriminate. Qed.
Lemma C72_ex : number_at (B "Visio (TM) Drawing" ++ [x0d; x0a; x00; x00; x00; x00; x00; x00; x0b; x00]) 26 2 11 /\
  number_at pub_sample 4 2 300 /\ number_at pub_sample (second windows) 2 717 /\ number_at pub_sample (second linux64) 2 1000.
Proof. split; [num|]. split; [num|]. split; num. Qed.

(** ** C73 *)
Lemma C73_windows e c s v : presentation c s v -> powerpoint_Detailer windows e c s =
  Ok (mkExt (Extension e) (Name e) (SubType e) v (GetVersion_Powerpoint v)).
Proof.
  intros (o & L & Ho & M & Hv). unfold powerpoint_Detailer, PptVersion.
  change (cua_size windows) with 28. change (cua_offset windows) with 16. change (sizeof_long windows) with 4.
  change (uea_size windows) with 36. change (uea_version windows) with 12.
  replace (lenN c <? 28) with false by lia. rewrite (field_at _ _ _ _ Ho). cbn [bind].
  pose proof (number_at_bound _ _ _ _ Ho) as Bo. change (256 ^ 4) with 4294967296 in Bo.
  rewrite u32_small by exact Bo. replace (lenN s <? o + 36) with false by lia. rewrite (field_at _ _ _ _ Hv). reflexivity.
Qed.
Lemma layout_ok pl : supported pl -> cua_size pl = current_needed pl /\ cua_offset pl = current_offset pl /\
  uea_size pl = edit_needed pl /\ uea_version pl = edit_version pl.
Proof. intros [->| ->]; repeat split. Qed.
Lemma C73_exact pl e c s : supported pl ->
  (lenN c < current_needed pl /\ powerpoint_Detailer pl e c s = Ok (mkExt (Extension e) (Name e) (SubType e) 65535 (B "Unknown"))) \/
  exists o, current_needed pl <= lenN c /\ number_at c (current_offset pl) 4 o /\
    ((lenN s < o + edit_needed pl /\ powerpoint_Detailer pl e c s = Ok (mkExt (Extension e) (Name e) (SubType e) 65535 (B "Unknown"))) \/
     exists v, o + edit_needed pl <= lenN s /\ number_at s (o + edit_version pl) 2 v /\
       powerpoint_Detailer pl e c s = Ok (mkExt (Extension e) (Name e) (SubType e) v (GetVersion_Powerpoint v))).
Proof.
  intros S. destruct (layout_ok pl S) as (<- & <- & <- & <-). unfold powerpoint_Detailer, PptVersion. destruct (N.ltb_spec (lenN c) (cua_size pl)) as [L|L].
  { left. split; [exact L|reflexivity]. }
  right.
  assert (D : cua_offset pl + 4 <= lenN c /\ cua_offset pl + sizeof_long pl <= lenN c) by (destruct S as [->| ->]; [change (cua_size linux64) with 48 in L; change (cua_offset linux64) with 32; change (sizeof_long linux64) with 8|change (cua_size windows) with 28 in L; change (cua_offset windows) with 16; change (sizeof_long windows) with 4]; lia).
  destruct D as [D1 D2]. destruct (field_ex c (cua_offset pl) 4 D1) as (o & Ho & _).
  destruct (field_ex c (cua_offset pl) (sizeof_long pl) D2) as (x & Hx & Ex).
  exists o. split; [exact L|]. split; [exact Ho|]. rewrite Ex. cbn [bind].
  pose proof (number_at_bound _ _ _ _ Ho) as Bo. change (256 ^ 4) with 4294967296 in Bo.
  assert (U : u32 x = o).
  { destruct Hx as (w & W & <-), Ho as (w' & W' & <-). destruct S as [->| ->]; cbn [sizeof_long linux64 windows] in W.
    - pose proof (proj1 W) as Lw. apply slice_window in W, W'. pose proof (slice_inv _ _ _ _ W) as (_ & Ew & _).
      pose proof (slice_inv _ _ _ _ W') as (_ & Ew' & _).
      assert (T : w = w' ++ dropN 4 w).
      { rewrite Ew'. rewrite <- (takeN_dropN 4 w) at 1. f_equal. rewrite Ew. rewrite takeN_takeN. reflexivity. }
      rewrite T, le_app. assert (L4 : lenN w' = 4) by (pose proof (slice_inv _ _ _ _ W') as (_ & _ & K); exact K).
      rewrite L4. pose proof (le_bound w') as Bw. rewrite L4 in Bw. unfold u32. change (256 ^ 4) with (2 ^ 32). change (256 ^ 4) with (2 ^ 32) in Bw.
      rewrite N.mul_comm, N.mod_add by (intros K; discriminate K). apply N.mod_small. exact Bw.
    - rewrite (window_fun _ _ _ _ _ W W'). apply u32_small. pose proof (le_bound w') as Bw. rewrite (proj1 W') in Bw. exact Bw. }
  rewrite U. destruct (N.ltb_spec (lenN s) (o + uea_size pl)) as [M|M].
  { left. split; [exact M|reflexivity]. }
  right. destruct (field_ex s (o + uea_version pl) 2) as (v & V & E); [destruct S as [->| ->]; [change (uea_size linux64) with 72 in M; change (uea_version linux64) with 24|change (uea_size windows) with 36 in M; change (uea_version windows) with 12]; lia|].
  exists v. split; [exact M|]. split; [exact V|]. rewrite E. reflexivity.
Qed.
(** The stream [Current User] with the edit at 0 for Windows; the bytes from 32 on are 1. *)
Definition ppt_current : bytes :=
  [x00; x00; xf6; x0f; x1c; x00; x00; x00; x14; x00; x00; x00; x5f; xc0; x91; xe3; x00; x00; x00; x00; x04; x00; xf4; x03; x03; x00; x00; x00]
  ++ B "userUSERuserUSERuser" ++ [x08; x00; x00; x00].
Definition ppt_document : bytes := repeatN x00 12 ++ [x99; x11] ++ repeatN x00 86.
Lemma C73_refuted_linux : exists e c s v e', presentation c s v /\ powerpoint_Detailer linux64 e c s = Ok e' /\ Version e' <> v.
Proof.
  exists ext0, ppt_current, ppt_document, 4505. eexists. split.
  - exists 0. split; [vm_compute; discriminate|]. split; [num|]. split; [vm_compute; discriminate|num].
  - split; [vm_compute; reflexivity|vm_compute; discriminate].
Qed.
Lemma C73_near v : 0 < v ->
  (GetVersion_Powerpoint v = B "Unknown" /\ forall b, In b builds -> ~ near v b) \/
  exists b, In b builds /\ near v b /\ GetVersion_Powerpoint v = snd b.
Proof.
  intros Z. unfold GetVersion_Powerpoint. replace (v =? 0) with false by lia.
  destruct (first_within_cases ppt_builds v) as [[E No]|(b & I & Nr & E)].
  - left. split; [exact E|]. intros b I. apply No. apply builds_same. exact I.
  - right. exists b. split; [apply builds_same; exact I|]. split; assumption.
Qed.
Lemma C73_build v n : In (v, n) builds -> ~ In v [3516; 4208; 4527] -> GetVersion_Powerpoint v = n.
Proof.
  intros I Z. unfold builds in I. cbn [In] in I, Z.
  repeat (destruct I as [I|I]; [injection I as <- <-; first [vm_compute; reflexivity|exfalso; apply Z; tauto]|]). contradiction.
Qed.
Lemma C73_refuted_build : exists v n, In (v, n) builds /\ GetVersion_Powerpoint v <> n.
Proof. exists 3516, (B "Office 97 RTM"). split; [cbn; tauto|]. vm_compute. discriminate. Qed.
Lemma C73_wrong_builds : GetVersion_Powerpoint 3516 = B "Office XP SP1" /\ GetVersion_Powerpoint 4208 = B "Office XP SP2" /\
  GetVersion_Powerpoint 4527 = B "Office 2007 RTM".
Proof. repeat split; vm_compute; reflexivity. Qed.
Lemma C73_ex : presentation ppt_current ppt_document 4505.
Proof. exists 0. split; [vm_compute; discriminate|]. split; [num|]. split; [vm_compute; discriminate|num]. Qed.

(** ** C74 *)
Lemma msi_eq e s : msi_Detailer e s =
  if find msm s then mkExt (B "msm") (B "Microsoft Installer Merge File") (SubType e) (Version e) (VersionName e)
  else if find msi s then e
  else if find msp s then mkExt (B "msp") (B "Microsoft Installer Patch File") (SubType e) (Version e) (VersionName e) else e.
Proof. reflexivity. Qed.
Lemma C74_module e s : contains msm s -> msi_Detailer e s = mkExt (B "msm") (B "Microsoft Installer Merge File") (SubType e) (Version e) (VersionName e).
Proof. intros H. rewrite msi_eq. apply find_iff in H. rewrite H. reflexivity. Qed.
Lemma C74_patch e s : ~ contains msm s -> ~ contains msi s -> contains msp s ->
  msi_Detailer e s = mkExt (B "msp") (B "Microsoft Installer Patch File") (SubType e) (Version e) (VersionName e).
Proof. intros A B0 C. rewrite msi_eq. rewrite (find_false _ _ A), (find_false _ _ B0). apply find_iff in C. rewrite C. reflexivity. Qed.
Lemma C74_install e s : ~ contains msm s -> contains msi s \/ ~ contains msp s -> msi_Detailer e s = e.
Proof.
  intros A [C|C]; rewrite msi_eq; rewrite (find_false _ _ A).
  - apply find_iff in C. rewrite C. reflexivity.
  - rewrite (find_false _ _ C). destruct (find _ s); reflexivity.
Qed.
Lemma C74_ex : contains msp (B "TablesMsiPatchSequenceMsiPatchMetadata") /\ ~ contains msm (B "TablesMsiPatchSequenceMsiPatchMetadata").
Proof. rewrite <- !find_iff. split; [vm_compute; reflexivity|vm_compute; discriminate]. Qed.
