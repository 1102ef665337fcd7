(** The lemmas behind [Vba/PropertiesProject.v]. *)
From Coq Require Import List NArith ZArith Bool Lia Strings.String.
From Coq Require Import ZifyBool ZifyNat ZifyN.
From Verif Require Import Lib.Res Lib.Bytes Lib.BytesFacts Lib.NumFacts Lib.Text Common.Model Common.Spec Common.Fields Common.ReadProofs
     Magic.Spec Magic.Model Magic.DocBase Magic.DocUnique Ole.Model Ole.Spec Ole.Statements Ole.MemProofs Ole.Samples Ole.PathSamples Ole.PropertyLemmas
     Vba.Model Vba.Spec Vba.Proofs Vba.ShapeProofs Vba.Analyze Vba.DirSpec Vba.FileSpec Vba.Statements Vba.Output
     Vba.DirProofs Vba.DirSafety Vba.FileProofs Vba.OutputProofs Vba.Samples.
Import ListNotations.
Local Open Scope N_scope.
Arguments N.pow : simpl never.

Lemma P40 : 40 + 3 < 2 ^ 32.
Proof. change (2 ^ 32) with 4294967296. lia. Qed.


(** ** C61 *)
Lemma C61_reads : forall p z version code, good_project p -> lenN (dir_stored p) < 2 ^ 32 - 64 -> vp_references p = [] ->
  project_info windows code version (in_memory (dir_stored p) z) =
  (codes <- mapM (fun m => code (vm_stream_wide m) (vm_offset m)) (vp_modules p) ;;
   Ok (mkProject version (vp_name p) [] (map (fun '(m, c) => module_of m c) (combine (vp_modules p) codes))
                 (vp_major p / 65536 + 65536 * vp_minor p) 12)).
Proof. intros p z version code G L R. exact (no_references p z version G L code R). Qed.
Lemma C61_ex : good_project project1 /\ vp_references project1 = [] /\ lenN (dir_stored project1) < 2 ^ 32 - 64 /\
  project_info windows (fun w o => Ok (map n2b w ++ [n2b o])) 151 (in_memory (dir_stored project1) 40) =
  Ok (mkProject 151 (B "P") []
        [mkModule (B "M1") (B "M1") (B "M1") [77; 49] 3 [x4d; x31; x03] true false;
         mkModule (B "M2") (B "M2") (B "M2") [77; 50] 5 [x4d; x32; x05] false true] 481640 12).
Proof. split; [exact good1|]. split; [reflexivity|]. split; [vm_compute; reflexivity|]. vm_compute. reflexivity. Qed.

(** ** C62 *)
Lemma C62_version_refuted : exists p q, good_project p /\ lenN (dir_stored p) < 2 ^ 32 - 64 /\ vp_references p = [] /\
  (forall z, project_info windows (fun _ _ => Ok []) 151 (in_memory (dir_stored p) z) = Ok q) /\
  pr_Major q <> vp_major p /\ pr_Minor q <> vp_minor p.
Proof.
  eexists project0, _. split; [exact good0|]. split; [vm_compute; reflexivity|]. split; [reflexivity|]. split.
  - intros z. rewrite (no_references project0 z 151 good0); [cbn [mapM vp_modules project0 bind]; reflexivity|vm_compute; reflexivity|reflexivity].
  - split; vm_compute; discriminate.
Qed.
Lemma C62_first : forall p z version pl code r rs q, good_project p -> lenN (dir_stored p) < 2 ^ 32 - 64 -> vp_references p = r :: rs ->
  (let t := (lenN (rf_libid r) + 10) mod 65536 in t <> 13 /\ t <> 14 /\ t <> 22 /\ t <> 47 /\ t <> 51) ->
  project_info pl code version (in_memory (dir_stored p) z) = Ok q -> pr_References q = [rf_name r].
Proof. intros p z version pl code r rs q G L R T H. exact (first_reference p z version G L pl code r rs q R T H). Qed.
Lemma C62_three : forall p z version code, good_project p -> lenN (dir_stored p) < 2 ^ 32 - 64 ->
  Forall (fun r => lenN (rf_libid r) mod 65536 = 3) (vp_references p) ->
  project_info windows code version (in_memory (dir_stored p) z) =
  (codes <- mapM (fun m => code (vm_stream_wide m) (vm_offset m)) (vp_modules p) ;;
   Ok (mkProject version (vp_name p) (map rf_name (vp_references p)) (map (fun '(m, c) => module_of m c) (combine (vp_modules p) codes))
                 (vp_major p / 65536 + 65536 * vp_minor p) 12)).
Proof. intros p z version code G L R. exact (short_references p z version G L code R). Qed.
Definition three_bytes (n : string) : reference := mkRef (B n) (text (B n)) (B "*\G").
Definition project3 : vba_project :=
  mkVp head38 (B "P") [] [] [] [] 0 0 1500000000 7 [] [] [three_bytes "stdole"; three_bytes "Office"] 65535 [module1].
Lemma C62_three_ex : good_project project3 /\ lenN (dir_stored project3) < 2 ^ 32 - 64 /\
  Forall (fun r => lenN (rf_libid r) mod 65536 = 3) (vp_references project3) /\ map rf_name (vp_references project3) = [B "stdole"; B "Office"] /\
  lenN (vp_modules project3) = 1.
Proof.
  split; [apply good_projectb_sound; vm_compute; reflexivity|]. split; [vm_compute; reflexivity|]. split; [repeat constructor|]. split; reflexivity.
Qed.
Lemma C62_modules_refuted : exists p q, good_project p /\ vp_modules p = [module1] /\ vp_references p = [stdole] /\
  project_info windows (fun _ _ => Ok []) 151 (in_memory (dir_stored p) 40) = Ok q /\ pr_Modules q = [].
Proof.
  eexists project2, _. split; [exact good2|]. split; [reflexivity|]. split; [reflexivity|]. split; [vm_compute; reflexivity|reflexivity].
Qed.
Lemma C62_references_refuted : exists p q, good_project p /\ lenN (vp_references p) = 2 /\
  project_info windows (fun _ _ => Ok []) 151 (in_memory (dir_stored p) 40) = Ok q /\ pr_References q = [rf_name stdole].
Proof.
  eexists (mkVp head38 (B "P") [] [] [] [] 0 0 1500000000 7 [] [] [stdole; stdole] 65535 []), _.
  split; [apply good_projectb_sound; vm_compute; reflexivity|]. split; [reflexivity|]. split; [vm_compute; reflexivity|reflexivity].
Qed.
Lemma C62_compat : forall syskind compat lcid lcid_invoke code_page rest z pl code version,
  let d := compat_head syskind compat lcid lcid_invoke code_page ++ rest in
  lenN d < 131119 -> project_info pl code version (in_memory d z) = Throw RangeError.
Proof.
  intros sk cv lc li cp rest z pl code version d L.
  assert (Hh : window (d ++ repeatN x00 z) 40 4 (to_le 2 3 ++ to_le 2 2)).
  { assert (E : d ++ repeatN x00 z = ((to_le 2 1 ++ to_le 4 4 ++ to_le 4 sk) ++ (to_le 2 74 ++ to_le 4 4 ++ to_le 4 cv) ++
        (to_le 2 2 ++ to_le 4 4 ++ to_le 4 lc) ++ (to_le 2 20 ++ to_le 4 4 ++ to_le 4 li)) ++ (to_le 2 3 ++ to_le 2 2) ++ (to_le 2 0 ++ to_le 2 cp ++ rest ++ repeatN x00 z)).
    { unfold d, compat_head. rewrite <- !app_assoc. reflexivity. }
    split; [reflexivity|]. eexists _, _. split; [exact E|reflexivity]. }
  assert (L48 : 48 <= lenN d) by (unfold d, compat_head; rewrite !lenN_app, !len_to_le; lia).
  unfold project_info, ReadStr, in_memory.
  assert (R : ReadUInt (d ++ repeatN x00 z) (lenN d) 40 true = ReadUInt (d ++ repeatN x00 z) (lenN (d ++ repeatN x00 z)) 40 true).
  { unfold ReadUInt. change (u32 (40 + 3)) with 43. rewrite lenN_app. replace (lenN d <? 43) with false by lia.
    replace (lenN d + lenN (repeatN x00 z) <? 43) with false by lia. reflexivity. }
  rewrite R, (ReadUInt_value _ _ _ true P40 Hh). cbn [bind]. change (le (to_le 2 3 ++ to_le 2 2)) with 131075.
  unfold Common.Model.ReadString. change (u32 (u32 (40 + 4) + 131075)) with 131119. replace (lenN d <? 131119) with true by lia. reflexivity.
Qed.
Lemma C62_compat_refuted : exists p compat, good_project p /\
  forall pl code version z, project_info pl code version (in_memory (compat_head 1 compat 1033 1033 1252 ++ dropN 38 (dir_stored p)) z) = Throw RangeError.
Proof. exists project1, 1. split; [exact good1|]. intros. apply C62_compat. vm_compute. reflexivity. Qed.
Lemma C62_ex : good_project project2 /\ lenN (dir_stored project2) < 2 ^ 32 - 64 /\ vp_references project2 = [stdole] /\
  lenN (rf_libid stdole) + 10 = 35 /\ takeN 38 (dir_stored project1) = head38 /\ lenN (compat_head 1 1 1033 1033 1252) = 48.
Proof. split; [exact good2|]. repeat split; vm_compute; reflexivity. Qed.

(** ** C63 *)
Lemma C63_safe : forall w d pl code version, container w d -> lenN w <= 4194272 -> sizeof_wchar pl <> 0 ->
  (forall name offset, safe (code name offset)) -> short_lengths (d ++ repeatN x00 (1024 * lenN w - lenN d)) ->
  exists b, Decompressed (lenN w) w = Ok b /\ safe (project_info pl code version b).
Proof.
  intros w d pl code version C L W Cs S. pose proof (container_size w d C) as Sz. unfold Decompressed.
  rewrite (decompress_ok w d C L). cbn [bind]. eexists. split; [reflexivity|].
  assert (E : u32 (lenN w * 1024) = 1024 * lenN w) by (unfold u32; rewrite N.mod_small by (change (2 ^ 32) with 4294967296; lia); lia). rewrite E.
  apply project_info_safe; [|change (2 ^ 32) with 4294967296; lia|exact S|exact W|exact Cs].
  rewrite lenN_app, lenN_repeatN. lia.
Qed.
Lemma C63_wrap : forall len mem n pl code version, 43 <= len -> number_at mem 40 4 n -> 2 ^ 32 <= 44 + n -> 44 + n - 2 ^ 32 <= len ->
  lenN mem < 44 + n -> project_info pl code version (len, mem) = UB.
Proof.
  intros len mem n pl code version L (w & W & Ew) A1 A2 A3. unfold project_info, ReadStr.
  assert (Lm : 44 <= lenN mem).
  { apply slice_window in W. apply slice_inv in W. lia. }
  assert (R : ReadUInt mem len 40 true = ReadUInt mem (lenN mem) 40 true).
  { unfold ReadUInt. change (u32 (40 + 3)) with 43. replace (len <? 43) with false by lia. replace (lenN mem <? 43) with false by lia. reflexivity. }
  assert (B4 : n < 2 ^ 32).
  { rewrite <- Ew. destruct W as [Lw _]. pose proof (le_bound w) as K. rewrite Lw in K. change (256 ^ 4) with (2 ^ 32) in K. exact K. }
  rewrite R, (ReadUInt_value _ _ _ true P40 W). cbn [bind]. rewrite Ew. unfold Common.Model.ReadString.
  change (u32 (40 + 4)) with 44. change (2 ^ 32) with 4294967296 in *.
  assert (E : u32 (44 + n) = 44 + n - 4294967296) by (unfold u32; change (2 ^ 32) with 4294967296; pose proof (N.div_mod (44 + n) 4294967296); 
    assert ((44 + n) / 4294967296 = 1) by (symmetry; apply (N.div_unique _ _ _ (44 + n - 4294967296)); lia); lia).
  rewrite E. replace (len <? 44 + n - 4294967296) with false by lia. rewrite slice_ub by lia. reflexivity.
Qed.
Lemma C63_refuted : exists w d, container w d /\ lenN w <= 4194272 /\ exists b, Decompressed (lenN w) w = Ok b /\
  forall pl code version, project_info pl code version b = UB.
Proof.
  set (d := repeatN x00 40 ++ repeatN xff 4). exists (stored_as_literals d), d. split; [apply literals_container|].
  split; [vm_compute; discriminate|]. eexists. split.
  { unfold Decompressed. rewrite (decompress_ok _ d); [cbn [bind]; reflexivity|apply literals_container|vm_compute; discriminate]. }
  intros pl code version. apply (C63_wrap _ _ 4294967295); [vm_compute; discriminate| |vm_compute; discriminate|vm_compute; discriminate|].
  - exists (repeatN xff 4). split; [|reflexivity]. split; [reflexivity|]. unfold d. eexists (repeatN x00 40), _. rewrite <- app_assoc. split; reflexivity.
  - rewrite lenN_app, lenN_repeatN.
    assert (A : u32 (lenN (stored_as_literals d) * 1024) - lenN d < 1000000) by (vm_compute; reflexivity).
    assert (A2 : lenN d = 44) by reflexivity. lia.
Qed.
Definition shortb (mem : bytes) : bool :=
  forallb (fun i => match slice mem (N.of_nat i) 4 with Ok w => N.of_nat i + le w + 4 <? 4294960000 | _ => true end) (seq 0 (List.length mem)).
Lemma shortb_sound mem : shortb mem = true -> short_lengths mem.
Proof.
  intros H i n (w & W & E). apply slice_window in W. pose proof (slice_inv _ _ _ _ W) as (A & _ & _). unfold shortb in H. rewrite forallb_forall in H.
  assert (K : In (N.to_nat i) (seq 0 (List.length mem))) by (apply in_seq; unfold lenN in A; lia).
  apply H in K. rewrite N2Nat.id, W in K. change (2 ^ 32) with 4294967296. lia.
Qed.
(** Zeros behind the end add no longer lengths once eight of them are there. *)
Lemma number_zeros d z z' i n : number_at (d ++ repeatN x00 z) i 4 n -> i < lenN d + 4 -> 8 <= z' -> number_at (d ++ repeatN x00 z') i 4 n.
Proof.
  intros (w & W & E) Li Lz. apply slice_window in W. exists w. split; [|exact E]. apply slice_window. unfold slice in *.
  destruct (N.leb_spec (i + 4) (lenN (d ++ repeatN x00 z))) as [A|A]; [|discriminate]. injection W as W.
  pose proof (@lenN_repeatN byte x00) as Lr.
  rewrite lenN_app, Lr in *. destruct (N.leb_spec (i + 4) (lenN d + z')) as [A'|A']; [|lia]. f_equal. rewrite <- W.
  assert (M : exists y, repeatN x00 z = repeatN x00 (i + 4 - lenN d) ++ repeatN x00 y).
  { exists (z - (i + 4 - lenN d)). unfold repeatN. rewrite <- repeat_app. f_equal. lia. }
  assert (M' : exists y, repeatN x00 z' = repeatN x00 (i + 4 - lenN d) ++ repeatN x00 y).
  { exists (z' - (i + 4 - lenN d)). unfold repeatN. rewrite <- repeat_app. f_equal. lia. }
  destruct M as (y & ->). destruct M' as (y' & ->). rewrite !(app_assoc d). set (u := d ++ repeatN x00 (i + 4 - lenN d)).
  assert (Lu : i + 4 <= lenN u) by (unfold u; rewrite lenN_app, Lr; lia).
  rewrite !dropN_app1 by lia. rewrite !takeN_app1 by (rewrite lenN_dropN; lia). reflexivity.
Qed.
Lemma le_zeros w : Forall (eq x00) w -> le w = 0.
Proof. induction 1 as [|x w <- F IH]; [reflexivity|]. cbn [le]. rewrite IH. reflexivity. Qed.
Lemma short_zeros d : shortb (d ++ repeatN x00 8) = true -> lenN d < 1000000 -> forall z, lenN d + z < 4294000000 -> short_lengths (d ++ repeatN x00 z).
Proof.
  intros H L z Lz i n N. destruct (N.le_gt_cases (lenN d + 4) i) as [A|A].
  - destruct N as (w & W & E). assert (Z : n = 0).
    { apply slice_window in W. apply slice_inv in W. destruct W as (B1 & B2 & B3). rewrite <- E. subst w.
      rewrite dropN_app_ge by lia.
      apply le_zeros.
      assert (Fz : Forall (eq x00) (repeatN x00 z)) by (apply Forall_forall; intros x Hx; unfold repeatN in Hx; apply repeat_spec in Hx; congruence).
      rewrite <- (takeN_dropN (i - lenN d)) in Fz. apply Forall_app in Fz. destruct Fz as [_ Fz].
      rewrite <- (takeN_dropN 4) in Fz. apply Forall_app in Fz. exact (proj1 Fz). }
    rewrite Z. apply slice_window in W. apply slice_inv in W. destruct W as (B1 & _). rewrite lenN_app, lenN_repeatN in B1.
    change (2 ^ 32) with 4294967296. lia.
  - apply (shortb_sound _ H). eapply number_zeros; [exact N|exact A|lia].
Qed.

Lemma C63_ex : container dir_text (dir_stored project0) /\ lenN dir_text <= 4194272 /\
  short_lengths (dir_stored project0 ++ repeatN x00 (1024 * lenN dir_text - lenN (dir_stored project0))) /\
  number_at (repeatN x00 40 ++ repeatN xff 4) 40 4 4294967295.
Proof.
  split; [apply literals_container|]. split; [vm_compute; discriminate|]. split.
  - apply short_zeros; vm_compute; reflexivity.
  - apply num_ok. vm_compute. reflexivity.
Qed.

(** ** C64 *)
Lemma C64_json : forall p, Forall json_literal (pr_References p) ->
  json_value (eJson (r_out (vba_result (vba_base p) p))) (JObj (item_members (vba_base p) ++ project_members p)).
Proof. intros p F. apply vba_json_value; [reflexivity|exact F]. Qed.
Lemma C64_xml : forall p, Forall xml_literal (pr_References p) -> Forall (fun m => ~ contains cdata_close (md_Code m)) (pr_Modules p) ->
  xml_document (eXml (r_out (vba_result (vba_base p) p))) (XElem (B "item") (base_elements (vba_base p) ++ project_nodes p)).
Proof. intros p F C. apply vba_xml_value; [reflexivity|exact F|exact C]. Qed.
Lemma C64_rows : forall p p', pr_Version p = pr_Version p' ->
  eText (r_out (vba_result (vba_base p) p)) = eText (r_out (vba_result (vba_base p') p')) /\
  eCsv (r_out (vba_result (vba_base p) p)) = eCsv (r_out (vba_result (vba_base p') p')).
Proof. intros p p' E. unfold vba_result, vba_base. cbn [r_out eText eCsv]. rewrite E. split; reflexivity. Qed.
Definition quoted_reference : project := mkProject 151 (B "P") [[x61; x22; x62]] [] 0 12.
Definition joined_reference : project := mkProject 151 (B "P") [[x61; x22; x2c; x22; x62]] [] 0 12.
Definition two_references : project := mkProject 151 (B "P") [[x61]; [x62]] [] 0 12.
Definition closing_code : project := mkProject 151 (B "P") [] [mkModule (B "M") (B "M") (B "M") [77] 3 (B "a(b(c]]>0))") true false] 0 12.
Definition ampersand_reference : project := mkProject 151 (B "P") [B "a&b"] [] 0 12.
Lemma C64_json_refuted : exists p, forall v, ~ json_value (eJson (r_out (vba_result (vba_base p) p))) v.
Proof. exists quoted_reference. apply json_reject. vm_compute. reflexivity. Qed.
Lemma C64_ambiguous_refuted : exists p q, pr_References p <> pr_References q /\
  eJson (r_out (vba_result (vba_base p) p)) = eJson (r_out (vba_result (vba_base q) q)).
Proof. exists joined_reference, two_references. split; [discriminate|vm_compute; reflexivity]. Qed.
Lemma C64_xml_refuted : exists p, pr_References p = [] /\ forall e, ~ xml_document (eXml (r_out (vba_result (vba_base p) p))) e.
Proof. exists closing_code. split; [reflexivity|]. apply xml_reject. vm_compute. reflexivity. Qed.
Lemma C64_xml_reference_refuted : exists p, pr_Modules p = [] /\ forall e, ~ xml_document (eXml (r_out (vba_result (vba_base p) p))) e.
Proof. exists ampersand_reference. split; [reflexivity|]. apply xml_reject. vm_compute. reflexivity. Qed.
Lemma literalb s : forallb (fun c => (32 <=? b2n c) && (b2n c <? 127) && negb (existsb (byte_eqb c) [x22; x26; x27; x3c; x3e; x5c])) s = true ->
  json_literal s /\ xml_literal s.
Proof.
  intros H. split; apply Forall_forall; intros c Hc; rewrite forallb_forall in H; apply H in Hc; rewrite !andb_true_iff, negb_true_iff in Hc; destruct Hc as [[A1 A2] A3];
  (assert (K : forall x, In x [x22; x26; x27; x3c; x3e; x5c] -> c <> x) by
    (intros x Hx ->; assert (T : existsb (byte_eqb x) [x22; x26; x27; x3c; x3e; x5c] = true) by (apply existsb_exists; exists x; split; [exact Hx|apply byte_eqb_eq; reflexivity]); congruence)).
  - split; [lia|]. split; apply K; cbn; tauto.
  - split; [lia|]. intros X. unfold xml_markup in X. repeat destruct X as [X|X]; revert X; apply K; cbn; tauto.
Qed.
Lemma C64_ex : exists p, Forall json_literal (pr_References p) /\ Forall xml_literal (pr_References p) /\
  Forall (fun m => ~ contains cdata_close (md_Code m)) (pr_Modules p) /\ lenN (pr_References p) = 2 /\ lenN (pr_Modules p) = 2.
Proof.
  exists (mkProject 151 (B "P") [B "stdole"; B "Office"] [module_of module1 (B "Sub a()"); module_of module2 (B "Sub b()")] 481640 12).
  split; [constructor; [apply literalb; vm_compute; reflexivity|constructor; [apply literalb; vm_compute; reflexivity|constructor]]|]. split; [constructor; [apply literalb; vm_compute; reflexivity|constructor; [apply literalb; vm_compute; reflexivity|constructor]]|].
  split; [|split; reflexivity].
  assert (Z : forall s, forallb (fun c => negb (byte_eqb c x5d)) s = true -> ~ contains cdata_close s).
  { intros s H (a & b & E). rewrite forallb_forall in H. assert (K : In x5d s) by (rewrite E; apply in_or_app; right; left; reflexivity). apply H in K. discriminate. }
  repeat constructor; apply Z; vm_compute; reflexivity.
Qed.

(** ** C65 *)
Lemma C65_analyze : forall f c s names version p codes, stored_as f c -> clean c -> storage_load windows (Some f) = Ok (Opened s) ->
  Forall plain_name names -> good_project p -> vp_references p = [] -> lenN (dir_stored p) < 2 ^ 32 - 64 ->
  project_streams f c names version p codes ->
  Analyze windows (path_text names) s =
  Ok (mkProject version (vp_name p) [] (map (fun '(m, code) => module_of m code) (combine (vp_modules p) codes))
                (vp_major p / 65536 + 65536 * vp_minor p) 12).
Proof. intros. eapply analyze_ok; eassumption. Qed.
Lemma C65_no_version : forall f c s names, stored_as f c -> clean c -> storage_load windows (Some f) = Ok (Opened s) ->
  Forall plain_name names -> lacks c (names ++ [text (B "VBA"); text (B "_VBA_PROJECT")]) ->
  Analyze windows (path_text names) s = UB.
Proof. intros. eapply no_version; eassumption. Qed.
Lemma C65_no_dir : forall f c s names h version, stored_as f c -> clean c -> storage_load windows (Some f) = Ok (Opened s) ->
  Forall plain_name names ->
  stream_at f c (names ++ [text (B "VBA"); text (B "_VBA_PROJECT")]) h -> 8 <= lenN h -> number_at h 2 2 version ->
  lacks c (names ++ [text (B "VBA"); text (B "dir")]) ->
  Analyze windows (path_text names) s = UB.
Proof. intros. eapply no_dir; eassumption. Qed.
Lemma C65_no_module : forall f c s names version p codes ms1 m ms2, stored_as f c -> clean c -> storage_load windows (Some f) = Ok (Opened s) ->
  Forall plain_name names -> good_project p -> vp_references p = [] -> lenN (dir_stored p) < 2 ^ 32 - 64 ->
  (exists h, stream_at f c (names ++ [text (B "VBA"); text (B "_VBA_PROJECT")]) h /\ 8 <= lenN h /\ number_at h 2 2 version) ->
  (exists w, stream_at f c (names ++ [text (B "VBA"); text (B "dir")]) w /\ container w (dir_stored p) /\ lenN w <= 4194272) ->
  vp_modules p = ms1 ++ m :: ms2 -> Forall2 (module_stream f c names) ms1 codes ->
  plain_name (vm_stream_wide m) -> lacks c (names ++ [text (B "VBA"); vm_stream_wide m]) ->
  Analyze windows (path_text names) s = UB.
Proof. intros. eapply no_module; eassumption. Qed.
Lemma C65_linux : forall f c s names, stored_as f c -> storage_load linux64 (Some f) = Ok (Opened s) -> Forall plain_name names ->
  Analyze linux64 (path_text names) s = UB \/ Analyze linux64 (path_text names) s = Fuel.
Proof. intros. eapply linux_nothing; eassumption. Qed.
(** The storage with the streams is there, on Linux it is not found. *)
Lemma C65_linux_refuted : exists f c s names version p codes, stored_as f c /\ clean c /\ good_project p /\ vp_references p = [] /\
  project_streams f c names version p codes /\ storage_load linux64 (Some f) = Ok (Opened s) /\ Analyze linux64 (path_text names) s = UB.
Proof.
  destruct (C53_opens linux64 filev compv (or_introl eq_refl) filev_stored) as (s & Eo & So).
  exists filev, compv, s, [n_macros], 151, project0, [code1]. split; [exact filev_stored|]. split; [exact filev_clean|].
  split; [exact good0|]. split; [reflexivity|]. split; [exact filev_project|]. split; [exact Eo|].
  assert (E : (r <- storage_load linux64 (Some filev) ;; match r with Opened s => Analyze linux64 (path_text [n_macros]) s | _ => Fuel end) = UB)
    by (vm_compute; reflexivity).
  rewrite Eo in E. exact E.
Qed.
Lemma C65_absent_refuted : exists f c s names, stored_as f c /\ clean c /\ storage_load windows (Some f) = Ok (Opened s) /\
  Forall plain_name names /\ lacks c (names ++ [text (B "VBA"); text (B "_VBA_PROJECT")]) /\ Analyze windows (path_text names) s = UB.
Proof.
  destruct (C53_opens windows file1 comp1 (or_intror eq_refl) file1_stored) as (s & Eo & So).
  assert (Lk : lacks comp1 ([n_data] ++ [text (B "VBA"); text (B "_VBA_PROJECT")])).
  { exists [n_data], (text (B "VBA")), [text (B "_VBA_PROJECT")], 1, (mkNode n_data 1 FREE FREE 3 0 0), [3]. split; [reflexivity|].
    split; [apply walk_sound; vm_compute; reflexivity|]. split; [reflexivity|]. split; [left; reflexivity|].
    split; [apply members_of_sound; vm_compute; reflexivity|]. intros j m [<-|[]] H; injection H as <-; discriminate. }
  assert (P : Forall plain_name [n_data]) by (constructor; [apply plainb; [discriminate|reflexivity]|constructor]).
  exists file1, comp1, s, [n_data]. split; [exact file1_stored|]. split; [repeat constructor|]. split; [exact Eo|]. split; [exact P|]. split; [exact Lk|].
  apply (C65_no_version file1 comp1); [exact file1_stored|repeat constructor|exact Eo|exact P|exact Lk].
Qed.
Lemma C65_ex : stored_as filev compv /\ clean compv /\ project_streams filev compv [n_macros] 151 project0 [code1] /\
  good_project project0 /\
  (r <- storage_load windows (Some filev) ;; match r with Opened s => Analyze windows (path_text [n_macros]) s | _ => Fuel end) =
  Ok (mkProject 151 (B "P") [] [mkModule (B "M") (B "M") (B "M1") [77; 49] 3 (B "Sub a()") true false] 481640 12).
Proof.
  split; [exact filev_stored|]. split; [exact filev_clean|]. split; [exact filev_project|]. split; [exact good0|]. vm_compute. reflexivity.
Qed.
