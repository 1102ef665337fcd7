(** Proofs: the parts of a compound file, from the bytes of the file to what is printed. *)
From Coq Require Import List NArith ZArith Lia Bool Sorted Permutation Strings.String ZifyBool ZifyNat ZifyN.
From Verif Require Import Lib.Res Lib.Bytes Lib.BytesFacts Lib.Text Common.Model Common.Spec Common.Fields Common.Utf8 Common.EscapeProofs Magic.Table Magic.Model
     Ole.Model Ole.Spec Ole.Statements Vba.Analyze Vba.Output Vba.DirSpec Vba.FileSpec Vba.OutputProofs Vba.ProjectLemmas Propset.Model Propset.Output Propset.Spec
     Docs.Model Docs.Spec Zip.Model Media.WordPerfect Detect.Model Detect.Output Detect.Spec Detect.Proofs Detect.OutputProofs Program.Model.
From Verif Require Common.FieldProofs Excel.Engine Excel.DocStatements Excel.FineProofs Excel.DocProofs Excel.DocXml Docs.Statements Docs.PropertyLemmas Detect.PropertyLemmas Detect.MoreProofs
     Propset.StreamProofs Propset.WideProofs Propset.MemoryProofs Magic.DocUnique Magic.PropertyLemmas.
From Verif Require Import Magic.Spec Magic.DocProofs Magic.DocBase Vba.Statements Propset.Statements Detect.Statements.
From Verif Require Import Program.Statements Program.ScanProofs Program.SafetyProofs Program.DocProofs Program.CompoundProofs Program.PartStatements.
Import ListNotations.
Local Open Scope N_scope.

(** ** What the entries yield *)
Lemma in_nodup {V} (t : list (N * V)) : NoDup (map fst t) -> forall v n m, In (v, n) t -> In (v, m) t -> n = m.
Proof.
  induction t as [|[w x] t IH]; intros N v n m In1 In2; [destruct In1|]. cbn [map fst] in N. inversion N as [|? ? N1 N2]; subst.
  destruct In1 as [E1|I1]; destruct In2 as [E2|I2].
  - congruence.
  - injection E1 as -> ->. exfalso. apply N1. apply in_map_iff. exists (v, m). auto.
  - injection E2 as -> ->. exfalso. apply N1. apply in_map_iff. exists (v, n). auto.
  - exact (IH N2 v n m I1 I2).
Qed.
Lemma name_in_fun t v n m : NoDup (map fst t) -> name_in t v n -> name_in t v m -> n = m.
Proof.
  intros N [I1|(-> & I1)] [I2|(-> & I2)].
  - exact (in_nodup t N v n m I1 I2).
  - exfalso. exact (I2 _ I1).
  - exfalso. exact (I1 _ I2).
  - reflexivity.
Qed.
Lemma word_keys : NoDup (map fst word_products).
Proof. repeat (constructor; [intros I; vm_compute in I; intuition discriminate|]). constructor. Qed.
Lemma visio_keys : NoDup (map fst visio_products).
Proof. repeat (constructor; [intros I; vm_compute in I; intuition discriminate|]). constructor. Qed.
Lemma publisher_keys : NoDup (map fst publisher_products).
Proof. repeat (constructor; [intros I; vm_compute in I; intuition discriminate|]). constructor. Qed.
Lemma document_read excel current b k e : document current b k e -> read_kind windows excel current k b = Ok (FOless e [] []).
Proof.
  assert (Sw : supported windows) by (right; reflexivity).
  intros D. unfold read_kind. destruct D as [k R|k n o name R W Hn|k n cb name R N1 N2 L Hn|k R L|k v R P|k R L|k o R L1 No L2|k v name R N1 Nv Hn|k v name R N1 N2 Hn|k v name R N1 Hn|k R M P|k R M|k R M P1 P2]; rewrite R.
  - reflexivity.
  - destruct (Docs.PropertyLemmas.C71_stream (kind_ext k) b n o W) as (name' & Hn' & E). rewrite E. cbn [bind].
    rewrite (name_in_fun _ _ _ _ word_keys Hn' Hn). reflexivity.
  - destruct (Docs.PropertyLemmas.C71_long (kind_ext k) b n cb N1 N2 L) as (name' & Hn' & E). rewrite E. cbn [bind].
    rewrite (name_in_fun _ _ _ _ word_keys Hn' Hn). reflexivity.
  - rewrite (Docs.PropertyLemmas.C71_short (kind_ext k) b L). reflexivity.
  - rewrite (Docs.PropertyLemmas.C73_windows (kind_ext k) current b v P). reflexivity.
  - destruct (Docs.PropertyLemmas.C73_exact windows (kind_ext k) current b Sw) as [(_ & E)|(o & L' & _)]; [rewrite E; reflexivity|].
    exfalso. change (Docs.Statements.current_needed windows) with 28 in L'. lia.
  - destruct (Docs.PropertyLemmas.C73_exact windows (kind_ext k) current b Sw) as [(_ & E)|(o' & _ & No' & [(_ & E)|(v & L & _)])]; [rewrite E; reflexivity|rewrite E; reflexivity|].
    exfalso. rewrite <- (Common.FieldProofs.number_at_fun _ _ _ _ _ No No') in L. change (Docs.Statements.edit_needed windows) with 36 in L. lia.
  - destruct (Docs.PropertyLemmas.C72_publisher windows (kind_ext k) b v Sw N1 Nv) as (name' & Hn' & E). rewrite E. cbn [bind].
    rewrite (name_in_fun _ _ _ _ publisher_keys Hn' Hn). reflexivity.
  - destruct (Docs.PropertyLemmas.C72_publisher_300 windows (kind_ext k) b v Sw N1 N2) as (name' & Hn' & E). rewrite E. cbn [bind].
    rewrite (name_in_fun _ _ _ _ publisher_keys Hn' Hn). reflexivity.
  - destruct (Docs.PropertyLemmas.C72_visio (kind_ext k) b v N1) as (name' & Hn' & E). rewrite E. cbn [bind].
    rewrite (name_in_fun _ _ _ _ visio_keys Hn' Hn). reflexivity.
  - rewrite (Docs.PropertyLemmas.C74_install (kind_ext k) b M P). unfold kind_ext, at_version.
    pose proof R as R'. reflexivity.
  - rewrite (Docs.PropertyLemmas.C74_module (kind_ext k) b M). reflexivity.
  - rewrite (Docs.PropertyLemmas.C74_patch (kind_ext k) b M P1 P2). reflexivity.
Qed.

(** The properties read for property sets *)
Definition properties_of (sets : list pset) (ps : list property) : Prop :=
  Forall2 (reports_as taken) (all_entries sets) ps /\ Forall (fun p => value_ok (p_value p)) ps.
Definition outcome_of (msg : exn -> bytes) (p : part) (o : outcome) : Prop :=
  match p with
  | PNone => o = ONothing
  | PDocument e => info_plain e = true /\ o = OFound (FOless e [] [])
  | PWorkbook i => exists b : bytes, lenN b < 2 ^ 30 /\ Engine.Detailer windows msg b = Ok i /\ o = OFound (FExcel (workbook_of windows i) [] [])
  | PPerfect => o = OFound (FWordPerfect (mkWp wp_ext None))
  | PMacros q => pr_References q = [] /\ o = OFound (FVba (vba_base q) q)
  | PSets path sets => exists ps, properties_of sets ps /\ o = OGroup path ps
  end.

Section File.
Variables (f : bytes) (c : compound) (s : storage) (items : list item) (msg : exn -> bytes) (parts : list part).
Hypothesis stored : stored_as f c.
Hypothesis is_clean : clean c.
Hypothesis loaded : storage_load windows (Some f) = Ok (Opened s).
Hypothesis entries : holds f c 0 items.
Notation excel := (read_workbook windows msg).
Notation current := (root_stream (a "Current User") items).
Lemma part_yields v p : Forall plain_name (visit_names v) -> holds_part f c msg current v p ->
  exists o, yields windows excel current s v (Ok o) /\ outcome_of msg p o.
Proof.
  intros Pn H. destruct H as [v Q|names b k e Np Ik T D|names b k i Np Ik T R L D|names b k Np Ik T R|names version p codes M G Nr L S|names b Ip L0 L|names b sets Ip L P N].
  - exists ONothing. split; [|reflexivity]. destruct v; cbn [quiet] in Q; [apply y_storage; exact Q|apply y_stream; apply Q].
  - exists (OFound (FOless e [] [])). pose proof (document_read excel _ _ _ _ D) as E. split; [|split; [|reflexivity]].
    + pose proof (y_kind windows excel current s names b k Np Ik (Detect.PropertyLemmas.tells_low_of _ _ T)) as Y. rewrite E in Y. exact Y.
    + exact (read_kind_plain windows excel current k b e [] [] Ik E).
  - exists (OFound (FExcel (workbook_of windows i) [] [])). split; [|exists b; auto].
    pose proof (y_kind windows excel current s names b k Np Ik (Detect.PropertyLemmas.tells_low_of _ _ T)) as Y.
    unfold read_kind in Y. rewrite R in Y. unfold read_workbook in Y. rewrite D in Y. exact Y.
  - exists (OFound (FWordPerfect (mkWp wp_ext None))). split; [|reflexivity].
    pose proof (y_kind windows excel current s names b k Np Ik (Detect.PropertyLemmas.tells_low_of _ _ T)) as Y. unfold read_kind in Y. rewrite R in Y. exact Y.
  - exists (OFound (FVba (vba_base (project_for version p codes)) (project_for version p codes))). split; [|split; reflexivity].
    apply y_project; [exact M|]. exact (C65_analyze f c s names version p codes stored is_clean loaded Pn G Nr L S).
  - exists ONothing. split; [|reflexivity]. apply y_props_short; [exact Ip|]. rewrite (Propset.MemoryProofs.C67_small windows b L).
    destruct (N.eqb_spec (lenN b) 0); [lia|reflexivity].
  - destruct (Propset.StreamProofs.C66_general windows b sets L P N (or_introl eq_refl)) as (ps & E & F).
    exists (OGroup (path_text names) ps). split; [apply y_props; assumption|]. exists ps. split; [|reflexivity]. split; [exact F|]. exact (Propset.WideProofs.ParseBytes_ok _ _ _ E).
Qed.
Lemma parts_yield vs ps : Forall2 (holds_part f c msg current) vs ps -> Forall (fun v => Forall plain_name (visit_names v)) vs ->
  exists outs, Forall2 (fun v o => yields windows excel current s v (Ok o)) vs outs /\ Forall2 (outcome_of msg) ps outs.
Proof.
  induction 1 as [|v p vs ps H F IH]; intros P; [exists []; split; constructor|]. inversion P as [|? ? P1 P2]; subst. destruct (IH P2) as (outs & A & C).
  destruct (part_yields v p P1 H) as (o & Y & O). exists (o :: outs). split; constructor; assumption.
Qed.
Hypothesis all_parts : Forall2 (holds_part f c msg current) (all_visits items) parts.
Lemma parts_guessed : exists outs g l, Forall2 (outcome_of msg) parts outs /\ sorted_by_key (groups_of outs) g /\ reported (all_paths items) g (results_of outs) l /\
  Guess windows excel ole_list (Some f) = Ok l.
Proof.
  destruct (parts_yield _ _ all_parts) as (outs & A & C).
  { destruct (proj1 (visits_distinct f c) 0 items entries [] (Forall_nil _)) as [_ K]. eapply Forall_impl; [|exact K]. cbn beta. intros v (x & rest & _ & P). exact P. }
  destruct (guess_ok f c s items excel ole_list outs stored is_clean loaded entries Detect.MoreProofs.table_itself A) as (g & l & G & R & E).
  exists outs, g, l. auto.
Qed.
End File.

(** ** Property sets *)
Lemma Forall2_flip {X Y} (R : X -> Y -> Prop) l m : Forall2 R l m -> Forall2 (fun y x => R x y) m l.
Proof. induction 1; constructor; assumption. Qed.
Lemma outcome_groups msg parts outs : Forall2 (outcome_of msg) parts outs ->
  Forall2 (fun (a : list N * list pset) (b : list N * list property) => fst a = fst b /\ properties_of (snd a) (snd b)) (part_sets parts) (groups_of outs).
Proof.
  unfold part_sets, groups_of. induction 1 as [|p o parts outs H F IH]; [constructor|]. cbn [flat_map]. destruct p as [|e|i| |q|path sets]; cbn [outcome_of] in H.
  - subst o. exact IH.
  - destruct H as (_ & ->). exact IH.
  - destruct H as (b & _ & _ & ->). exact IH.
  - subst o. exact IH.
  - destruct H as (_ & ->). exact IH.
  - destruct H as (ps & P & ->). cbn [app]. constructor; [|exact IH]. split; [reflexivity|exact P].
Qed.
Lemma sorted_sets parts outs g msg : Forall2 (outcome_of msg) parts outs -> sorted_by_key (groups_of outs) g ->
  exists g', sorted_by_key (part_sets parts) g' /\ Forall2 (fun a b => fst a = fst b /\ properties_of (snd a) (snd b)) g' g.
Proof.
  intros F (P & S). pose proof (outcome_groups msg parts outs F) as K. apply Forall2_flip in K. destruct (Permutation_Forall2 P K) as (g' & P' & K').
  apply Forall2_flip in K'. exists g'. split; [|exact K']. split; [exact P'|]. replace (map fst g') with (map fst g); [exact S|].
  clear - K'. induction K' as [|x y g' g [E _] K IH]; [reflexivity|]. cbn [map]. congruence.
Qed.
Lemma sets_finite parts msg outs g : Forall json_part parts -> Forall2 (outcome_of msg) parts outs -> Permutation (groups_of outs) g -> Forall unicode (map fst (groups_of outs)) ->
  Forall (fun g => unicode (fst g) /\ Forall shown (snd g)) g.
Proof.
  intros J F P U. eapply Permutation_Forall; [exact P|]. clear P g. unfold groups_of in *. induction F as [|p o parts outs H F IH]; [constructor|].
  inversion J as [|? ? J1 J2]; subst. cbn [flat_map] in *. destruct p as [|e|i| |q|path sets]; cbn [outcome_of] in H.
  - subst o. exact (IH J2 U).
  - destruct H as (_ & ->). exact (IH J2 U).
  - destruct H as (b & _ & _ & ->). exact (IH J2 U).
  - subst o. exact (IH J2 U).
  - destruct H as (_ & ->). exact (IH J2 U).
  - destruct H as (ps & (R & V) & ->). cbn [app map fst] in *. inversion U as [|? ? U1 U2]; subst. constructor; [|exact (IH J2 U2)]. split; [exact U1|]. cbn [snd].
    cbn [json_part] in J1. unfold none_of in J1. clear - R V J1. induction R as [|ge p ges ps (_ & _ & _ & v & Tv & Sv) R IHR]; [constructor|].
    inversion V; subst. inversion J1; subst. constructor; [|apply IHR; assumption]. split; [assumption|].
    destruct (Propset.WideProofs.taken_special _ _ Tv) as [Es _]. apply (Propset.WideProofs.shows_json windows (p_pid p) v (p_value p) Sv); [assumption|congruence].
Qed.
Lemma property_entry ge p j : reports_as taken ge p -> value_ok (p_value p) -> is_special (e_value (snd ge)) = false -> property_value windows p j -> entry_json ge j.
Proof.
  intros (Ef & Ep & Et & v & Tv & Sv) V N (x & -> & J). destruct (Propset.WideProofs.taken_special _ _ Tv) as [Es Ety].
  destruct (Propset.WideProofs.shows_json windows (p_pid p) v (p_value p) Sv V ltac:(congruence)) as [_ K].
  exists (p_fmt p), v, x. split; [exact Ef|]. split; [exact Tv|]. split; [|rewrite <- Ep, <- Et; reflexivity]. rewrite <- Ep. apply K. rewrite Ety, <- Et. exact J.
Qed.
Lemma group_sets a b j : fst a = fst b -> properties_of (snd a) (snd b) -> none_of is_special (snd a) -> group_value windows b j -> sets_json a j.
Proof.
  intros E (R & V) N (u & l & U & P & ->). exists u, l. split; [rewrite E; exact U|]. split; [|reflexivity]. clear U. unfold none_of in N. revert l P.
  induction R as [|ge p ges ps H R IH]; intros l P; [inversion P; constructor|]. inversion P as [|? ? ? ? P1 P2]; subst. inversion V; subst. inversion N; subst.
  constructor; [|apply IH; assumption]. eapply property_entry; eassumption.
Qed.
Lemma members_of_parts parts outs g msg items ms : Forall json_part parts -> Forall2 (outcome_of msg) parts outs -> sorted_by_key (groups_of outs) g ->
  path_members windows (all_paths items) g ms -> part_members items parts ms.
Proof.
  intros J F S (us & gs & A & C & E). destruct (sorted_sets parts outs g msg F S) as (g' & S' & K). exists us, g', gs. split; [exact A|]. split; [exact S'|]. split; [|exact E].
  assert (N : Forall (fun a => none_of is_special (snd a)) g').
  { destruct S' as (P & _). eapply Permutation_Forall; [exact P|]. clear - J. unfold part_sets. induction J as [|p parts H J IH]; [constructor|]. cbn [flat_map].
    destruct p; try exact IH. cbn [app]. constructor; [exact H|exact IH]. }
  clear - C K N. revert gs C. induction K as [|x y g' g (E & P) K IH]; intros gs C; [inversion C; constructor|]. inversion C as [|? j ? gs' C1 C2]; subst. inversion N; subst.
  constructor; [|apply IH; assumption]. eapply group_sets; eassumption.
Qed.
