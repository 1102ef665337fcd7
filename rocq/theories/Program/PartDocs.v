(** Proofs: the documents for the parts of a compound file. *)
From Coq Require Import List NArith ZArith Lia Bool Sorted Permutation Strings.String ZifyBool ZifyNat ZifyN.
From Verif Require Import Lib.Res Lib.Bytes Lib.BytesFacts Lib.Text Common.Model Common.Spec Common.Fields Common.Utf8 Common.EscapeProofs Magic.Table Magic.Model Magic.GuessProofs
     Ole.Model Ole.Spec Ole.Statements Vba.Analyze Vba.Output Vba.DirSpec Vba.FileSpec Vba.OutputProofs Propset.Model Propset.Output Propset.Spec
     Docs.Model Docs.Spec Zip.Model Media.WordPerfect Detect.Model Detect.Output Detect.Spec Detect.OutputProofs Program.Model.
From Verif Require Excel.Engine Excel.DocStatements Excel.FineProofs Excel.DocProofs Excel.DocXml Detect.PropertyLemmas Detect.Proofs
     Propset.WideProofs Magic.DocUnique Magic.PropertyLemmas.
From Verif Require Import Magic.Spec Magic.DocProofs Magic.DocBase Vba.Statements Propset.Statements Detect.Statements Asf.DocProofs.
From Verif Require Import Program.Statements Program.ScanProofs Program.SafetyProofs Program.DocProofs Program.CompoundProofs Program.PartStatements Program.PartProofs.
Import ListNotations.
Local Open Scope N_scope.

(** ** Property sets in XML *)
Lemma shows_xml v r x : shows v r -> xml_shows r x -> xml_stored v x.
Proof.
  destruct v; cbn [shows xml_stored]; intros H.
  - destruct H as (n & -> & L & k & ->). cbn [xml_shows]. intros ->.
    f_equal. rewrite Z.mod_add by discriminate. change (2 ^ 64)%Z with (Z.of_N (2 ^ 64)). rewrite <- N2Z.inj_mod, N2Z.id, N.mod_small by exact L. reflexivity.
  - destruct H as (n & -> & L & k & ->). cbn [xml_shows]. intros ->.
    f_equal. rewrite Z.mod_add by discriminate. change (2 ^ 64)%Z with (Z.of_N (2 ^ 64)). rewrite <- N2Z.inj_mod, N2Z.id, N.mod_small by exact L. reflexivity.
  - destruct H as (d & -> & H1 & H2 & H3). cbn zeta in *. intros X. split; [|split].
    + intros m e E. rewrite (H1 _ _ E) in X. exact X.
    + intros A C. rewrite (H2 A C) in X. exact X.
    + intros A C. destruct (H3 A C) as (y & ->). exact X.
  - destruct H as (d & -> & H1 & H2 & H3). cbn zeta in *. intros X. split; [|split].
    + intros m e E. rewrite (H1 _ _ E) in X. exact X.
    + intros A C. rewrite (H2 A C) in X. exact X.
    + intros A C. destruct (H3 A C) as (y & ->). exact X.
  - subst r. intros X. exact X.
  - subst r. intros X. exact X.
  - subst r. intros X. exact X.
  - destruct H as (t & -> & _ & H). cbn [xml_shows]. intros ->. exists t. auto.
  - subst r. intros X. exact X.
  - subst r. intros X. exact X.
Qed.
Lemma property_entry_xml ge p x : reports_as taken ge p -> property_node p x -> entry_xml ge x.
Proof.
  intros (Ef & Ep & Et & v & Tv & Sv) (y & -> & J). exists (p_fmt p), v, y. split; [exact Ef|]. split; [exact Tv|]. split; [exact (shows_xml _ _ _ Sv J)|].
  rewrite <- Ep, <- Et. reflexivity.
Qed.
Lemma group_sets_xml a b x : fst a = fst b -> properties_of (snd a) (snd b) -> group_node b x -> sets_xml a x.
Proof.
  intros E (R & V) (u & l & U & P & ->). exists u, l. split; [rewrite E; exact U|]. split; [|reflexivity]. clear - R P. revert l P.
  induction R as [|ge p ges ps H R IH]; intros l P; [inversion P; constructor|]. inversion P as [|? ? ? ? P1 P2]; subst.
  constructor; [|apply IH; assumption]. eapply property_entry_xml; eassumption.
Qed.
Lemma elements_of_parts parts outs g msg items ms : Forall2 (outcome_of msg) parts outs -> sorted_by_key (groups_of outs) g ->
  path_elements (all_paths items) g ms -> part_elements items parts ms.
Proof.
  intros F S (us & gs & A & C & E). destruct (sorted_sets parts outs g msg F S) as (g' & S' & K). exists us, g', gs. split; [exact A|]. split; [exact S'|]. split; [|exact E].
  clear - C K. revert gs C. induction K as [|x y g' g (E & P) K IH]; intros gs C; [inversion C; constructor|]. inversion C as [|? j ? gs' C1 C2]; subst.
  constructor; [|apply IH; assumption]. eapply group_sets_xml; eassumption.
Qed.
(** Paths of property sets are among all paths. *)
Lemma sets_paths f c msg current vs parts outs : Forall2 (holds_part f c msg current) vs parts -> Forall2 (outcome_of msg) parts outs ->
  Forall unicode (map visit_text vs) -> Forall unicode (map fst (groups_of outs)).
Proof.
  intros F. revert outs. unfold groups_of. induction F as [|v p vs parts H F IH]; intros outs G U; inversion G as [|? o ? outs' G1 G2]; subst; [constructor|].
  cbn [map] in U. inversion U as [|? ? U1 U2]; subst. specialize (IH outs' G2 U2). cbn [flat_map]. destruct H; cbn [outcome_of] in G1.
  - subst o. exact IH.
  - destruct G1 as (_ & ->). exact IH.
  - destruct G1 as (x & _ & _ & ->). exact IH.
  - subst o. exact IH.
  - destruct G1 as (_ & ->). exact IH.
  - subst o. exact IH.
  - destruct G1 as (ps & _ & ->). cbn [app map fst]. constructor; [exact U1|exact IH].
Qed.

(** ** JSON *)
Notation shown_json l := (mapM (show windows JSON) (map OFile l)).
Definition jpaths (paths : list (list N)) (g : groups) : Prop := Forall unicode paths /\ Forall (fun x => unicode (fst x) /\ Forall shown (snd x)) g.
Lemma document_json e paths g : info_plain e = true -> jpaths paths g ->
  exists ms t, path_members windows paths g ms /\ show windows JSON (OFile (FOless e paths g)) = Ok t /\ json_value t (JObj (item_members e ++ ms)).
Proof.
  intros He (P1 & P2). destruct (oless_members windows e paths g He P1 P2) as (t & us & gs & E & A & C & J). eexists. eexists.
  split; [exists us, gs; split; [exact A|split; [exact C|reflexivity]]|]. split; [cbn [show render]; unfold oless_render; rewrite E; reflexivity|]. apply object. exact J.
Qed.
Lemma book_json msg (b : bytes) i paths g : lenN b < 2 ^ 30 -> Engine.Detailer windows msg b = Ok i -> json_part (PWorkbook i) -> jpaths paths g ->
  exists ms ws t, path_members windows paths g ms /\ Excel.DocStatements.workbook_members windows i ws /\
    show windows JSON (OFile (FExcel (workbook_of windows i) paths g)) = Ok t /\ json_value t (JObj (item_members (Engine.x_ext i) ++ ms ++ ws)).
Proof.
  intros L D ((t0 & C) & R) (P1 & P2). assert (He : info_plain (Engine.x_ext i) = true) by (apply (Excel.FineProofs.all_fine windows msg b i L D)).
  destruct (Excel.DocProofs.contents_json_ok windows msg b i t0 L D R C) as (ws & W & K).
  destruct (oless_members windows (Engine.x_ext i) paths g He P1 P2) as (u & us & gs & E & A & G & J). eexists. exists ws. eexists.
  split; [exists us, gs; split; [exact A|split; [exact G|reflexivity]]|]. split; [exact W|].
  split; [cbn [show render]; unfold excel_render, workbook_of; cbn [wb_ext wb_json]; rewrite E, C; cbn [bind]; reflexivity|].
  rewrite (app_assoc u). apply object. specialize (K _ _ J). rewrite <- !app_assoc in K. rewrite <- !app_assoc. exact K.
Qed.
Lemma no_members ms : path_members windows [] [] ms -> ms = [].
Proof. intros (us & gs & A & C & ->). inversion A; inversion C; subst. reflexivity. Qed.
Lemma no_jpaths : jpaths [] []. Proof. split; constructor. Qed.
Lemma macros_json q : pr_References q = [] -> exists t, show windows JSON (OFile (FVba (vba_base q) q)) = Ok t /\ json_value t (JObj (item_members (vba_base q) ++ project_members q)).
Proof. intros R. eexists. split; [reflexivity|]. apply vba_json_value; [reflexivity|rewrite R; constructor]. Qed.
Lemma rest_json msg parts outs : Forall2 (outcome_of msg) parts outs -> Forall json_part parts ->
  exists ts vs, shown_json (results_of outs) = Ok ts /\ Forall2 json_value ts vs /\ json_objects [] parts vs.
Proof.
  unfold results_of. induction 1 as [|p o parts outs H F IH]; intros J; [exists [], []; repeat split; constructor|]. inversion J as [|? ? J1 J2]; subst.
  destruct (IH J2) as (ts & vs & E & V & O). cbn [flat_map]. destruct p as [|e|i| |q|path sets]; cbn [outcome_of] in H.
  - subst o. exists ts, vs. split; [exact E|]. split; [exact V|]. constructor. exact O.
  - destruct H as (He & ->). destruct (document_json e [] [] He no_jpaths) as (ms & t & M & Et & Jt). apply no_members in M. subst ms.
    cbn [app map mapM]. rewrite Et, E. cbn [bind]. eexists. eexists. split; [reflexivity|]. split; [constructor; eassumption|]. constructor. exact O.
  - destruct H as (b & L & D & ->). destruct (book_json msg b i [] [] L D J1 no_jpaths) as (ms & ws & t & M & W & Et & Jt). apply no_members in M. subst ms.
    cbn [app map mapM]. rewrite Et, E. cbn [bind]. eexists. eexists. split; [reflexivity|]. split; [constructor; eassumption|]. apply (jos_workbook [] i ws); assumption.
  - destruct J1.
  - destruct H as (R & ->). destruct (macros_json q R) as (t & Et & Jt). cbn [app map mapM]. rewrite Et, E. cbn [bind]. eexists. eexists. split; [reflexivity|].
    split; [constructor; eassumption|]. constructor. exact O.
  - destruct H as (ps & _ & ->). exists ts, vs. split; [exact E|]. split; [exact V|]. constructor. exact O.
Qed.
Lemma assigned_json msg paths g : jpaths paths g -> forall parts outs, Forall2 (outcome_of msg) parts outs -> Forall json_part parts ->
  forall l, assigned paths g (results_of outs) l ->
  exists ms ts vs, path_members windows paths g ms /\ shown_json l = Ok ts /\ Forall2 json_value ts vs /\ json_objects ms parts vs.
Proof.
  intros P. unfold results_of. induction 1 as [|p o parts outs H F IH]; intros J l A.
  - cbn [flat_map] in A. inversion A; subst. destruct (document_json bare_file paths g eq_refl P) as (ms & _ & M & _). exists ms, [], []. repeat split; try constructor. exact M.
  - inversion J as [|? ? J1 J2]; subst. pose proof (rest_json msg parts outs F J2) as (ts & vs & E & V & O). cbn [flat_map] in A. destruct p as [|e|i| |q|path sets]; cbn [outcome_of] in H.
    + subst o. destruct (IH J2 l A) as (ms & us & ws & M & E' & V' & O'). exists ms, us, ws. repeat split; try assumption. constructor. exact O'.
    + destruct H as (He & ->). cbn [app] in A. inversion A; subst. destruct (document_json e paths g He P) as (ms & t & M & Et & Jt). fold (results_of outs). cbn [map mapM]. rewrite Et, E. cbn [bind].
      exists ms. eexists. eexists. split; [exact M|]. split; [reflexivity|]. split; [constructor; eassumption|]. constructor. exact O.
    + destruct H as (b & L & D & ->). cbn [app] in A. inversion A; subst. destruct (book_json msg b i paths g L D J1 P) as (ms & ws & t & M & W & Et & Jt). fold (results_of outs). cbn [map mapM]. rewrite Et, E.
      cbn [bind]. exists ms. eexists. eexists. split; [exact M|]. split; [reflexivity|]. split; [constructor; eassumption|]. constructor; assumption.
    + destruct J1.
    + destruct H as (R & ->). cbn [app] in A. inversion A as [| | | |? ? ? m A']; subst. destruct (IH J2 m A') as (ms & us & ws & M & E' & V' & O').
      destruct (macros_json q R) as (t & Et & Jt). cbn [map mapM]. rewrite Et, E'. cbn [bind]. exists ms. eexists. eexists. split; [exact M|]. split; [reflexivity|].
      split; [constructor; eassumption|]. constructor. exact O'.
    + destruct H as (ps & _ & ->). destruct (IH J2 l A) as (ms & us & ws & M & E' & V' & O'). exists ms, us, ws. repeat split; try assumption. constructor. exact O'.
Qed.
Lemma results_exist msg parts outs : Forall2 (outcome_of msg) parts outs -> (existsb is_result parts = true <-> results_of outs <> []).
Proof.
  unfold results_of. induction 1 as [|p o parts outs H F IH]; [split; [discriminate|intros X; destruct (X eq_refl)]|]. cbn [existsb flat_map].
  destruct p as [|e|i| |q|path sets]; cbn [outcome_of is_result orb] in *.
  - subst o. exact IH.
  - destruct H as (_ & ->). cbn [app]. split; [discriminate|reflexivity].
  - destruct H as (b & _ & _ & ->). cbn [app]. split; [discriminate|reflexivity].
  - subst o. cbn [app]. split; [discriminate|reflexivity].
  - destruct H as (_ & ->). cbn [app]. split; [discriminate|reflexivity].
  - destruct H as (ps & _ & ->). exact IH.
Qed.
Lemma reported_json msg paths g parts outs l : jpaths paths g -> Forall2 (outcome_of msg) parts outs -> Forall json_part parts -> reported paths g (results_of outs) l ->
  exists ms ts vs, path_members windows paths g ms /\ shown_json l = Ok ts /\ Forall2 json_value ts vs /\ shown_objects ms parts vs.
Proof.
  intros P F J R. pose proof (results_exist msg parts outs F) as K. unfold shown_objects. inversion R as [E|? ? N A]; subst.
  - destruct (existsb is_result parts); [exfalso; apply (proj1 K eq_refl); congruence|]. fold bare_file. destruct (document_json bare_file paths g eq_refl P) as (ms & t & M & Et & Jt).
    cbn [map mapM]. rewrite Et. exists ms. eexists. eexists. split; [exact M|]. split; [reflexivity|]. split; [constructor; [exact Jt|constructor]|reflexivity].
  - rewrite (proj2 K N). exact (assigned_json msg paths g P parts outs F J l A).
Qed.

(** ** XML *)
Notation shown_xml l := (mapM (show windows XML) (map OFile l)).
Definition xpaths (paths : list (list N)) (g : groups) : Prop := Forall unicode paths /\ Forall (fun x => unicode (fst x) /\ Forall (fun p => value_ok (p_value p)) (snd x)) g.
Definition written (t : bytes) (x : xnode) : Prop := forall rest l, xml_content rest l -> xml_content (t ++ rest) (x :: l).
Lemma written_all ts xs : Forall2 written ts xs -> xml_content (List.concat ts) xs.
Proof. induction 1 as [|t x ts xs H F IH]; [constructor|]. cbn [List.concat]. apply H. exact IH. Qed.
Lemma document_xml e paths g : info_plain e = true -> xpaths paths g ->
  exists ms t, path_elements paths g ms /\ show windows XML (OFile (FOless e paths g)) = Ok t /\ written t (XElem (B "item") (base_elements e ++ ms)).
Proof.
  intros He (P1 & P2). destruct (oless_elements windows e paths g [] [] He P1 P2 xc_nil) as (t & us & gs & E & A & C & J). eexists. eexists.
  split; [exists us, gs; split; [exact A|split; [exact C|reflexivity]]|]. split; [cbn [show render]; unfold oless_render; rewrite E; reflexivity|].
  rewrite !app_nil_r in J. replace (B "<item>" ++ t ++ B "</item>") with (xelem (B "item") t) by (unfold xelem; flat).
  intros rest l H. apply elem_cons; [apply letters_name; reflexivity|exact J|exact H].
Qed.
Lemma book_xml msg (b : bytes) i paths g : lenN b < 2 ^ 30 -> Engine.Detailer windows msg b = Ok i -> xml_part (PWorkbook i) -> xpaths paths g ->
  exists ms ws t, path_elements paths g ms /\ Excel.DocStatements.workbook_elements windows i ws /\
    show windows XML (OFile (FExcel (workbook_of windows i) paths g)) = Ok t /\ written t (XElem (B "item") (base_elements (Engine.x_ext i) ++ ms ++ ws)).
Proof.
  intros L D ((t0 & C) & R) (P1 & P2). assert (He : info_plain (Engine.x_ext i) = true) by (apply (Excel.FineProofs.all_fine windows msg b i L D)).
  destruct (Excel.DocXml.contents_xml_ok windows msg b i t0 L D R C) as (ws & W & K).
  destruct (oless_elements windows (Engine.x_ext i) paths g t0 ws He P1 P2 K) as (u & us & gs & E & A & G & J). eexists. exists ws. eexists.
  split; [exists us, gs; split; [exact A|split; [exact G|reflexivity]]|]. split; [exact W|].
  split; [cbn [show render]; unfold excel_render, workbook_of; cbn [wb_ext wb_xml]; rewrite E, C; cbn [bind]; reflexivity|].
  rewrite <- !app_assoc. replace (B "<item>" ++ u ++ t0 ++ B "</item>") with (xelem (B "item") (u ++ t0)) by (unfold xelem; flat).
  intros rest l H. apply elem_cons; [apply letters_name; reflexivity|exact J|exact H].
Qed.
Lemma no_elements ms : path_elements [] [] ms -> ms = [].
Proof. intros (us & gs & A & C & ->). inversion A; inversion C; subst. reflexivity. Qed.
Lemma no_xpaths : xpaths [] []. Proof. split; constructor. Qed.
Lemma macros_xml q : pr_References q = [] -> xml_part (PMacros q) ->
  exists t, show windows XML (OFile (FVba (vba_base q) q)) = Ok t /\ written t (XElem (B "item") (base_elements (vba_base q) ++ project_nodes q)).
Proof. intros R M. eexists. split; [reflexivity|]. unfold written. apply document_cons. apply vba_xml_value; [reflexivity|rewrite R; constructor|exact M]. Qed.
Lemma rest_xml msg parts outs : Forall2 (outcome_of msg) parts outs -> Forall xml_part parts ->
  exists ts xs, shown_xml (results_of outs) = Ok ts /\ Forall2 written ts xs /\ xml_objects [] parts xs.
Proof.
  unfold results_of. induction 1 as [|p o parts outs H F IH]; intros J; [exists [], []; repeat split; constructor|]. inversion J as [|? ? J1 J2]; subst.
  destruct (IH J2) as (ts & vs & E & V & O). cbn [flat_map]. destruct p as [|e|i| |q|path sets]; cbn [outcome_of] in H.
  - subst o. exists ts, vs. split; [exact E|]. split; [exact V|]. constructor. exact O.
  - destruct H as (He & ->). destruct (document_xml e [] [] He no_xpaths) as (ms & t & M & Et & Jt). apply no_elements in M. subst ms.
    cbn [app map mapM]. rewrite Et, E. cbn [bind]. eexists. eexists. split; [reflexivity|]. split; [constructor; eassumption|]. constructor. exact O.
  - destruct H as (b & L & D & ->). destruct (book_xml msg b i [] [] L D J1 no_xpaths) as (ms & ws & t & M & W & Et & Jt). apply no_elements in M. subst ms.
    cbn [app map mapM]. rewrite Et, E. cbn [bind]. eexists. eexists. split; [reflexivity|]. split; [constructor; eassumption|]. apply (xos_workbook [] i ws); assumption.
  - destruct J1.
  - destruct H as (R & ->). destruct (macros_xml q R J1) as (t & Et & Jt). cbn [app map mapM]. rewrite Et, E. cbn [bind]. eexists. eexists. split; [reflexivity|].
    split; [constructor; eassumption|]. constructor. exact O.
  - destruct H as (ps & _ & ->). exists ts, vs. split; [exact E|]. split; [exact V|]. constructor. exact O.
Qed.
Lemma assigned_xml msg paths g : xpaths paths g -> forall parts outs, Forall2 (outcome_of msg) parts outs -> Forall xml_part parts ->
  forall l, assigned paths g (results_of outs) l ->
  exists ms ts xs, path_elements paths g ms /\ shown_xml l = Ok ts /\ Forall2 written ts xs /\ xml_objects ms parts xs.
Proof.
  intros P. unfold results_of. induction 1 as [|p o parts outs H F IH]; intros J l A.
  - cbn [flat_map] in A. inversion A; subst. destruct (document_xml bare_file paths g eq_refl P) as (ms & _ & M & _). exists ms, [], []. repeat split; try constructor. exact M.
  - inversion J as [|? ? J1 J2]; subst. pose proof (rest_xml msg parts outs F J2) as (ts & vs & E & V & O). cbn [flat_map] in A. destruct p as [|e|i| |q|path sets]; cbn [outcome_of] in H.
    + subst o. destruct (IH J2 l A) as (ms & us & ws & M & E' & V' & O'). exists ms, us, ws. repeat split; try assumption. constructor. exact O'.
    + destruct H as (He & ->). cbn [app] in A. inversion A; subst. destruct (document_xml e paths g He P) as (ms & t & M & Et & Jt). fold (results_of outs). cbn [map mapM]. rewrite Et, E. cbn [bind].
      exists ms. eexists. eexists. split; [exact M|]. split; [reflexivity|]. split; [constructor; eassumption|]. constructor. exact O.
    + destruct H as (b & L & D & ->). cbn [app] in A. inversion A; subst. destruct (book_xml msg b i paths g L D J1 P) as (ms & ws & t & M & W & Et & Jt). fold (results_of outs). cbn [map mapM]. rewrite Et, E.
      cbn [bind]. exists ms. eexists. eexists. split; [exact M|]. split; [reflexivity|]. split; [constructor; eassumption|]. constructor; assumption.
    + destruct J1.
    + destruct H as (R & ->). cbn [app] in A. inversion A as [| | | |? ? ? m A']; subst. destruct (IH J2 m A') as (ms & us & ws & M & E' & V' & O').
      destruct (macros_xml q R J1) as (t & Et & Jt). cbn [map mapM]. rewrite Et, E'. cbn [bind]. exists ms. eexists. eexists. split; [exact M|]. split; [reflexivity|].
      split; [constructor; eassumption|]. constructor. exact O'.
    + destruct H as (ps & _ & ->). destruct (IH J2 l A) as (ms & us & ws & M & E' & V' & O'). exists ms, us, ws. repeat split; try assumption. constructor. exact O'.
Qed.
Lemma reported_xml msg paths g parts outs l : xpaths paths g -> Forall2 (outcome_of msg) parts outs -> Forall xml_part parts -> reported paths g (results_of outs) l ->
  exists ms ts xs, path_elements paths g ms /\ shown_xml l = Ok ts /\ Forall2 written ts xs /\ shown_elements ms parts xs.
Proof.
  intros P F J R. pose proof (results_exist msg parts outs F) as K. unfold shown_elements. inversion R as [E|? ? N A]; subst.
  - destruct (existsb is_result parts); [exfalso; apply (proj1 K eq_refl); congruence|]. fold bare_file. destruct (document_xml bare_file paths g eq_refl P) as (ms & t & M & Et & Jt).
    cbn [map mapM]. rewrite Et. exists ms. eexists. eexists. split; [exact M|]. split; [reflexivity|]. split; [constructor; [exact Jt|constructor]|reflexivity].
  - rewrite (proj2 K N). exact (assigned_xml msg paths g P parts outs F J l A).
Qed.

(** ** Rows *)
Definition row_format (f : OutputFormat) (sep : bytes) : Prop := (f = TEXT /\ sep = [x09]) \/ (f = CSV /\ sep = [x2c]).
Lemma join_separated sep l : join sep l = separated sep l.
Proof.
  destruct l as [|x l]; [reflexivity|]. cbn [separated]. revert x. induction l as [|y l IH]; intros x; [cbn; rewrite app_nil_r; reflexivity|].
  change (join sep (x :: y :: l)) with (x ++ sep ++ join sep (y :: l)). rewrite IH. cbn [map List.concat]. rewrite <- app_assoc. reflexivity.
Qed.
Lemma document_row {pl} f sep e paths g : row_format f sep -> show pl f (OFile (FOless e paths g)) = Ok (three sep e).
Proof. unfold three. rewrite <- join_separated. intros [(-> & ->)|(-> & ->)]; reflexivity. Qed.
Lemma book_row f sep i paths g : row_format f sep -> show windows f (OFile (FExcel (workbook_of windows i) paths g)) = Ok (three sep (Engine.x_ext i)).
Proof. unfold three. rewrite <- join_separated. intros [(-> & ->)|(-> & ->)]; reflexivity. Qed.
Lemma perfect_row f sep : row_format f sep -> show windows f (OFile (FWordPerfect (mkWp wp_ext None))) = Ok (three sep perfect_file).
Proof. unfold three. rewrite <- join_separated. intros [(-> & ->)|(-> & ->)]; reflexivity. Qed.
Lemma macros_row f sep e q : row_format f sep -> show windows f (OFile (FVba e q)) = Ok (five sep e).
Proof. unfold five. rewrite <- join_separated. intros [(-> & ->)|(-> & ->)]; reflexivity. Qed.
Lemma signature_columns {pl} f sep mi : row_format f sep -> show pl f (row_says mi) = Ok (five sep (row_info mi)).
Proof. unfold five. rewrite <- join_separated. intros [(-> & ->)|(-> & ->)]; reflexivity. Qed.
Lemma alike_row f sep x y : row_format f sep -> alike x y -> show windows f (OFile x) = show windows f (OFile y).
Proof. intros R [e p1 g1 p2 g2|w p1 g1 p2 g2|r]; [rewrite !(document_row f sep) by exact R; reflexivity| |reflexivity]. destruct R as [(-> & ->)|(-> & ->)]; reflexivity. Qed.
Lemma rest_rows f sep msg parts outs : row_format f sep -> Forall2 (outcome_of msg) parts outs ->
  mapM (show windows f) (map OFile (results_of outs)) = Ok (flat_map (part_row sep) parts).
Proof.
  intros R. unfold results_of. induction 1 as [|p o parts outs H F IH]; [reflexivity|]. cbn [flat_map]. destruct p as [|e|i| |q|path sets]; cbn [outcome_of part_row] in *.
  - subst o. exact IH.
  - destruct H as (_ & ->). cbn [app map mapM]. rewrite (document_row f sep) by exact R. rewrite IH. reflexivity.
  - destruct H as (b & _ & _ & ->). cbn [app map mapM]. rewrite (book_row f sep) by exact R. rewrite IH. reflexivity.
  - subst o. cbn [app map mapM]. rewrite (perfect_row f sep) by exact R. rewrite IH. reflexivity.
  - destruct H as (_ & ->). cbn [app map mapM]. rewrite (macros_row f sep) by exact R. rewrite IH. reflexivity.
  - destruct H as (ps & _ & ->). exact IH.
Qed.
Lemma assigned_rows f sep paths g l m : row_format f sep -> assigned paths g l m -> mapM (show windows f) (map OFile m) = mapM (show windows f) (map OFile l).
Proof.
  intros R. induction 1 as [|e l|x l|i l m A IH|e p l m A IH]; cbn [map mapM]; [reflexivity|..].
  - rewrite !(document_row f sep) by exact R. reflexivity.
  - rewrite (alike_row f sep _ _ R (al_excel x paths g [] [])). reflexivity.
  - rewrite IH. reflexivity.
  - rewrite IH. reflexivity.
Qed.
Lemma reported_rows f sep msg paths g parts outs l : row_format f sep -> Forall2 (outcome_of msg) parts outs -> reported paths g (results_of outs) l ->
  mapM (show windows f) (map OFile l) = Ok (part_rows sep parts).
Proof.
  intros Rf F R. pose proof (results_exist msg parts outs F) as K. unfold part_rows. inversion R as [E|? ? N A]; subst.
  - destruct (existsb is_result parts); [exfalso; apply (proj1 K eq_refl); congruence|]. fold bare_file. cbn [map mapM]. rewrite (document_row f sep) by exact Rf. reflexivity.
  - rewrite (proj2 K N), (assigned_rows f sep paths g _ _ Rf A). exact (rest_rows f sep msg parts outs Rf F).
Qed.
