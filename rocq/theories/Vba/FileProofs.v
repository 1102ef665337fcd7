(** VBA projects in compound files. *)
From Coq Require Import List NArith ZArith Bool Lia Strings.String.
From Coq Require Import ZifyBool ZifyNat ZifyN.
From Verif Require Import Lib.Res Lib.Bytes Lib.BytesFacts Lib.NumFacts Lib.Text Common.Model Common.Spec Common.Fields Common.ReadProofs
     Ole.Model Ole.Spec Ole.Statements Ole.MemProofs Ole.DirProofs Ole.StreamProofs Ole.TreeProofs Ole.OutcomeProofs Ole.PartProofs Ole.PropertyLemmas
     Vba.Model Vba.Spec Vba.Proofs Vba.Analyze Vba.DirSpec Vba.FileSpec Vba.Statements Vba.DirProofs.
Import ListNotations.
Local Open Scope N_scope.
Ltac Zify.zify_post_hook ::= Z.div_mod_to_equations.
Arguments N.pow : simpl never.

Lemma written_some s : written (map Some s) = s.
Proof. induction s as [|c s IH]; [reflexivity|]. cbn [map written]. rewrite IH. reflexivity. Qed.
Lemma path_app a b : path_text (a ++ b) = path_text a ++ path_text b.
Proof. unfold path_text. rewrite map_app, concat_app. reflexivity. Qed.

Lemma container_size w d : container w d -> lenN d + 1024 <= 1024 * lenN w.
Proof.
  intros (r & -> & C). rewrite lenN_cons. assert (H : lenN d <= 1024 * lenN r); [|lia].
  induction C as [|w d w' d' K C IH]; [change (lenN (@nil byte)) with 0; lia|]. rewrite !lenN_app.
  destruct K as (body & Gr & Ld & Lb & ->). pose proof (groups_pos _ _ _ Gr). rewrite lenN_app, lenN_to_le. lia.
Qed.

Section file.
  Variables (f : bytes) (c : compound) (s : storage).
  Hypothesis St : stored_as f c.
  Hypothesis Cl : clean c.
  Hypothesis Eo : storage_load windows (Some f) = Ok (Opened s).

  Lemma part_of names content pos len : names <> [] -> Forall plain_name names -> stream_at f c names content ->
    0 < len -> pos + len <= lenN content ->
    exists e blocks, open_stream windows s (path_text names) = Ok (Some e) /\ d_size e = lenN content /\ lenN content < 2 ^ 32 /\
      stream_blocks s e = Ok blocks /\ stream_read s e blocks pos (blank len) len = Ok (map Some (takeN len (dropN pos content)), len).
  Proof.
    intros Hne F (k & n & P & Hn & Hs & (l & data & -> & Hle & Hd)) L1 L2. destruct (win_names f c s St Cl Eo) as [So M].
    destruct (stream_opened c s names k n M Hne F P Hn Hs) as (e & Es & Em).
    assert (Lc : lenN (takeN (n_size n) data) = n_size n) by (rewrite lenN_takeN; lia). rewrite Lc in *.
    destruct (read_part f c s n e data pos len St So Em (node_size f c k n St Hn)) as (bl & Eb & Er); [exists l; exact Hd|exact Hle|exact L1|exact L2|].
    exists e, bl. split; [exact Es|]. split; [rewrite Em; reflexivity|]. split; [exact (node_size f c k n St Hn)|]. split; [exact Eb|exact Er].
  Qed.

  Lemma fetched names before w : names <> [] -> Forall plain_name names -> stream_at f c names (before ++ w) -> w <> [] ->
    FetchStream windows s (path_text names) (lenN before) = Ok (lenN w, w).
  Proof.
    intros Hne F A Hw. assert (Lw : 0 < lenN w) by (destruct w; [congruence|rewrite lenN_cons; lia]).
    destruct (part_of names (before ++ w) (lenN before) (lenN w) Hne F A Lw) as (e & bl & E1 & E2 & B32 & E3 & E4); [rewrite lenN_app; lia|].
    rewrite dropN_app_exact, takeN_all in E4 by lia. rewrite lenN_app in *. change (2 ^ 32) with 4294967296 in B32.
    assert (El : u32 (subw 64 (d_size e) (lenN before)) = lenN w).
    { unfold subw, u32. rewrite E2. change (2 ^ 64) with 18446744073709551616. change (2 ^ 32) with 4294967296. lia. }
    unfold FetchStream. rewrite E1. cbn [bind]. rewrite El, E3. cbn [bind]. rewrite E4. cbn [bind]. rewrite written_some.
    rewrite u32_small; [reflexivity|]. change (2 ^ 32) with 4294967296. lia.
  Qed.
  Lemma container_nonempty w d : container w d -> w <> [].
  Proof. intros (r & -> & _). discriminate. Qed.
  Lemma decompressed names before w d : names <> [] -> Forall plain_name names -> stream_at f c names (before ++ w) ->
    container w d -> lenN w <= 4194272 -> exists z, FetchAndDecompress windows s (path_text names) (lenN before) = Ok (in_memory d z).
  Proof.
    intros Hne F A C L. unfold FetchAndDecompress. rewrite (fetched names before w Hne F A (container_nonempty w d C)). cbn [bind].
    unfold Decompressed. rewrite (decompress_ok w d C L). cbn [bind]. eexists. reflexivity.
  Qed.
  Lemma code_ok names before w d : names <> [] -> Forall plain_name names -> stream_at f c names (before ++ w) ->
    container w d -> lenN w <= 4194272 -> GetCode windows s (path_text names) (lenN before) = Ok d.
  Proof.
    intros Hne F A C L. assert (B32 : lenN d < 2 ^ 32) by (pose proof (container_size w d C); change (2 ^ 32) with 4294967296; lia). unfold GetCode. destruct (decompressed names before w d Hne F A C L) as (z & ->). cbn [bind in_memory].
    unfold Common.Model.ReadString, in_memory. rewrite N.add_0_l, u32_small by exact B32. rewrite N.ltb_irrefl.
    apply slice_window. split; [reflexivity|]. exists [], (repeatN x00 z). split; reflexivity.
  Qed.
  Lemma version_ok names h v : names <> [] -> Forall plain_name names -> stream_at f c names h -> 8 <= lenN h -> number_at h 2 2 v ->
    header_version windows s (path_text names) = Ok v.
  Proof.
    intros Hne F A L V. destruct (part_of names h 0 8 Hne F A) as (e & bl & E1 & _ & _ & E3 & E4); [lia|lia|].
    unfold header_version. rewrite E1. cbn [bind]. rewrite E3. cbn [bind]. rewrite E4. cbn [bind]. rewrite dropN_0.
    destruct V as (w & W & Ew). 
    assert (W' : window (takeN 8 h) 2 2 w).
    { destruct W as [Lw (pre & post & Eh & Lp)]. split; [exact Lw|]. exists pre, (takeN 4 post).
      split; [|exact Lp]. rewrite Eh, app_assoc. rewrite takeN_app_ge by (rewrite lenN_app; lia). rewrite lenN_app, Lp, Lw, <- app_assoc. reflexivity. }
    apply readU16_known. exists w. split; [exact W'|exact Ew].
  Qed.

  Theorem analyze_ok names version p codes : Forall plain_name names -> good_project p -> vp_references p = [] -> lenN (dir_stored p) < 2 ^ 32 - 64 ->
    project_streams f c names version p codes ->
    Analyze windows (path_text names) s =
    Ok (mkProject version (vp_name p) [] (map (fun '(m, code) => module_of m code) (combine (vp_modules p) codes))
                  (vp_major p / 65536 + 65536 * vp_minor p) 12).
  Proof.
    intros F G R Ld ((h & H1 & H2 & H3) & (w & D1 & D2 & D3) & Fm). unfold Analyze.
    assert (Pv : plain_name (text (B "VBA"))) by (split; [discriminate|cbn; intuition discriminate]).
    assert (P1 : plain_name (text (B "_VBA_PROJECT"))) by (split; [discriminate|cbn; intuition discriminate]).
    assert (P2 : plain_name (text (B "dir"))) by (split; [discriminate|cbn; intuition discriminate]).
    assert (Fx : forall x, plain_name x -> Forall plain_name (names ++ [text (B "VBA"); x])) by (intros x Px; apply Forall_app; split; [exact F|repeat constructor; assumption || apply Px || apply Pv]).
    assert (Ne : forall x, names ++ [text (B "VBA"); x] <> []) by (intros x K; apply app_eq_nil in K; destruct K; discriminate).
    replace (path_text names ++ wide (B "/VBA/_VBA_PROJECT")) with (path_text (names ++ [text (B "VBA"); text (B "_VBA_PROJECT")])) by (rewrite path_app; reflexivity).
    replace (path_text names ++ wide (B "/VBA/dir")) with (path_text (names ++ [text (B "VBA"); text (B "dir")])) by (rewrite path_app; reflexivity).
    rewrite (version_ok _ h version (Ne _) (Fx _ P1) H1 H2 H3). cbn [bind].
    destruct (decompressed _ [] w (dir_stored p) (Ne _) (Fx _ P2) D1 D2 D3) as (z & Ez). change (lenN (@nil byte)) with 0 in Ez. rewrite Ez. cbn [bind].
    rewrite (no_references p z version G Ld _ R).
    assert (Em : mapM (fun m => GetCode windows s (path_text names ++ wide (B "/VBA/") ++ vm_stream_wide m) (vm_offset m)) (vp_modules p) = Ok codes).
    { clear - St Cl Eo F Fx Ne Fm. induction Fm as [|m code ms codes (Pm & before & w & A1 & A2 & A3 & A4) Fm IH]; [reflexivity|]. cbn [mapM].
      replace (path_text names ++ wide (B "/VBA/") ++ vm_stream_wide m) with (path_text (names ++ [text (B "VBA"); vm_stream_wide m])).
      2:{ rewrite path_app. f_equal. cbn. rewrite app_nil_r. reflexivity. }
      rewrite <- A2. rewrite (code_ok _ before w code (Ne _) (Fx _ Pm) A1 A3 A4). cbn [bind]. rewrite IH. reflexivity. }
    rewrite Em. reflexivity.
  Qed.

  Lemma lacks_none path : lacks c path -> Forall plain_name path -> open_stream windows s (path_text path) = Ok None.
  Proof.
    intros (bf & name & bh & k & n & l & -> & P & Hn & U & Sm & No) F. destruct (win_names f c s St Cl Eo) as [_ M].
    assert (E : entry_at windows (st_dir s) (path_text (bf ++ name :: bh)) = Ok None).
    { eapply entry_at_none; try eassumption; [apply plain_parts; [destruct bf; discriminate|exact F]|]. intros j Hj (m & Hm & K). eapply No; eassumption. }
    unfold open_stream. rewrite E. reflexivity.
  Qed.
  Lemma below names x : plain_name x -> Forall plain_name names -> Forall plain_name (names ++ [text (B "VBA"); x]).
  Proof.
    intros Px F. apply Forall_app. split; [exact F|]. constructor; [split; [discriminate|cbn; intuition discriminate]|].
    constructor; [exact Px|constructor].
  Qed.
  Lemma no_version names : Forall plain_name names -> lacks c (names ++ [text (B "VBA"); text (B "_VBA_PROJECT")]) ->
    Analyze windows (path_text names) s = UB.
  Proof.
    intros F L. unfold Analyze, header_version.
    replace (path_text names ++ wide (B "/VBA/_VBA_PROJECT")) with (path_text (names ++ [text (B "VBA"); text (B "_VBA_PROJECT")])) by (rewrite path_app; reflexivity).
    rewrite (lacks_none _ L); [reflexivity|]. apply below; [split; [discriminate|cbn; intuition discriminate]|exact F].
  Qed.
  Lemma fetch_nothing path off : lacks c path -> Forall plain_name path -> FetchAndDecompress windows s (path_text path) off = UB.
  Proof. intros L F. unfold FetchAndDecompress, FetchStream. rewrite (lacks_none _ L F). reflexivity. Qed.
  Lemma no_dir names h version : Forall plain_name names ->
    stream_at f c (names ++ [text (B "VBA"); text (B "_VBA_PROJECT")]) h -> 8 <= lenN h -> number_at h 2 2 version ->
    lacks c (names ++ [text (B "VBA"); text (B "dir")]) ->
    Analyze windows (path_text names) s = UB.
  Proof.
    intros F H1 H2 H3 L. unfold Analyze.
    assert (Ne : forall x, names ++ [text (B "VBA"); x] <> []) by (intros x K; apply app_eq_nil in K; destruct K; discriminate).
    replace (path_text names ++ wide (B "/VBA/_VBA_PROJECT")) with (path_text (names ++ [text (B "VBA"); text (B "_VBA_PROJECT")])) by (rewrite path_app; reflexivity).
    replace (path_text names ++ wide (B "/VBA/dir")) with (path_text (names ++ [text (B "VBA"); text (B "dir")])) by (rewrite path_app; reflexivity).
    rewrite (version_ok _ h version (Ne _)); [|apply below; [split; [discriminate|cbn; intuition discriminate]|exact F]|exact H1|exact H2|exact H3]. cbn [bind].
    rewrite (fetch_nothing _ 0 L); [reflexivity|]. apply below; [split; [discriminate|cbn; intuition discriminate]|exact F].
  Qed.
  Lemma no_module names version p codes ms1 m ms2 : Forall plain_name names -> good_project p -> vp_references p = [] -> lenN (dir_stored p) < 2 ^ 32 - 64 ->
    (exists h, stream_at f c (names ++ [text (B "VBA"); text (B "_VBA_PROJECT")]) h /\ 8 <= lenN h /\ number_at h 2 2 version) ->
    (exists w, stream_at f c (names ++ [text (B "VBA"); text (B "dir")]) w /\ container w (dir_stored p) /\ lenN w <= 4194272) ->
    vp_modules p = ms1 ++ m :: ms2 -> Forall2 (module_stream f c names) ms1 codes ->
    plain_name (vm_stream_wide m) -> lacks c (names ++ [text (B "VBA"); vm_stream_wide m]) ->
    Analyze windows (path_text names) s = UB.
  Proof.
    intros F G R Ld (h & H1 & H2 & H3) (w & D1 & D2 & D3) Em Fm Pm Lm. unfold Analyze.
    assert (Ne : forall x, names ++ [text (B "VBA"); x] <> []) by (intros x K; apply app_eq_nil in K; destruct K; discriminate).
    replace (path_text names ++ wide (B "/VBA/_VBA_PROJECT")) with (path_text (names ++ [text (B "VBA"); text (B "_VBA_PROJECT")])) by (rewrite path_app; reflexivity).
    replace (path_text names ++ wide (B "/VBA/dir")) with (path_text (names ++ [text (B "VBA"); text (B "dir")])) by (rewrite path_app; reflexivity).
    rewrite (version_ok _ h version (Ne _)); [|apply below; [split; [discriminate|cbn; intuition discriminate]|exact F]|exact H1|exact H2|exact H3]. cbn [bind].
    destruct (decompressed _ [] w (dir_stored p) (Ne _) (below names (text (B "dir")) ltac:(split; [discriminate|cbn; intuition discriminate]) F) D1 D2 D3) as (z & Ez).
    change (lenN (@nil byte)) with 0 in Ez. rewrite Ez. cbn [bind].
    rewrite (no_references p z version G Ld _ R), Em.
    assert (K : forall x, path_text names ++ wide (B "/VBA/") ++ x = path_text (names ++ [text (B "VBA"); x])).
    { intros x. rewrite path_app. f_equal. cbn. rewrite app_nil_r. reflexivity. }
    assert (Eu : mapM (fun m => GetCode windows s (path_text names ++ wide (B "/VBA/") ++ vm_stream_wide m) (vm_offset m)) (ms1 ++ m :: ms2) = UB).
    { clear - St Cl Eo F Ne Fm K Pm Lm. induction Fm as [|m1 code ms codes (Px & before & w & A1 & A2 & A3 & A4) Fm IH]; cbn [app mapM].
      - rewrite K. unfold GetCode. rewrite (fetch_nothing _ _ Lm (below _ _ Pm F)). reflexivity.
      - rewrite (K (vm_stream_wide m1)), <- A2. rewrite (code_ok _ before w code (Ne _) (below _ _ Px F) A1 A3 A4). cbn [bind]. rewrite IH. reflexivity. }
    rewrite Eu. reflexivity.
  Qed.
End file.

(** On Linux no name of two or more characters is found. *)
Lemma linux_nothing f c s names : stored_as f c -> storage_load linux64 (Some f) = Ok (Opened s) -> Forall plain_name names ->
  Analyze linux64 (path_text names) s = UB \/ Analyze linux64 (path_text names) s = Fuel.
Proof.
  intros St Eo F. destruct (open_ok linux64 f c (or_introl eq_refl) St) as (s' & E' & So & Nm).
  rewrite Eo in E'. injection E' as <-. pose proof (open_garbled f c s St So Nm) as G.
  unfold Analyze, header_version, open_stream.
  replace (path_text names ++ wide (B "/VBA/_VBA_PROJECT")) with (path_text (names ++ text (B "VBA") :: [text (B "_VBA_PROJECT")])) by (rewrite path_app; reflexivity).
  destruct (entry_garbled (st_dir s) names (text (B "VBA")) [text (B "_VBA_PROJECT")] G) as [E|E].
  - vm_compute. discriminate.
  - apply Forall_map. apply Forall_forall. intros x _. pose proof (b2n_lt x). lia.
  - apply below; [split; [discriminate|cbn; intuition discriminate]|exact F].
  - rewrite E. left. reflexivity.
  - rewrite E. right. reflexivity.
Qed.
