(** What a compound file is reported to contain. *)
From Coq Require Import List NArith Bool Lia ZifyBool ZifyNat ZifyN Sorted Permutation Strings.String.
From Verif Require Import Lib.Res Lib.Bytes Lib.BytesFacts Lib.Text Common.Model Common.Spec Magic.Model Ole.Model Ole.Spec Ole.Statements
     Ole.TreeProofs Ole.PropertyLemmas Vba.Analyze Vba.Output Vba.FileSpec Propset.Model Docs.Model Media.WordPerfect
     Detect.Model Detect.Spec Detect.Statements Detect.TreeProofs.
Import ListNotations.
Local Open Scope N_scope.

(** ** The table *)
Definition detail_of (r : reader) : detail :=
  match r with
  | RWord => DWord | RExcel => DExcel | RPowerPoint => DPowerPoint | RPublisher => DPublisher | RVisio => DVisio
  | RWordPerfect => DWordPerfect | RInstaller => DMsi
  end.
Definition row_of (k : kind) : OlessInfo :=
  mkOle (k_extension k) (k_name k) (k_version k) (k_any_case k) (k_path k) (option_map detail_of (k_reader k)).
Lemma table_kinds : ole_list = map row_of kinds.
Proof. vm_compute. reflexivity. Qed.

Lemma tolower_lower x : tolower (u8 x) = lower (x mod 256).
Proof. unfold tolower, lower, u8. change (2 ^ 8) with 256. reflexivity. Qed.
Lemma iequals_low x : forall y, iequals_w x y = true <-> same_low_letters x y.
Proof.
  unfold same_low_letters. induction x as [|p x IH]; intros [|q y]; cbn [iequals_w]; split; intros H; try discriminate; try (inversion H; fail); try constructor.
  - apply andb_true_iff in H. destruct H as [H _]. apply N.eqb_eq in H. rewrite !tolower_lower in H. exact H.
  - apply andb_true_iff in H. destruct H as [_ H]. apply IH. exact H.
  - inversion H; subst. rewrite !tolower_lower. apply andb_true_iff. split; [apply N.eqb_eq; assumption|]. apply IH. assumption.
Qed.
Lemma matches_tells k path : matches (row_of k) path = true <-> tells_low path k.
Proof.
  unfold matches, tells_low. cbn [oi_ignoreCase oi_matcher row_of]. rewrite orb_true_iff, andb_true_iff, weq_eq, iequals_low. tauto.
Qed.

Lemma low_refl x : same_low_letters x x.
Proof. unfold same_low_letters. induction x; constructor; [reflexivity|assumption]. Qed.
Lemma low_sym x y : same_low_letters x y -> same_low_letters y x.
Proof. unfold same_low_letters. induction 1; constructor; [symmetry; assumption|assumption]. Qed.
Lemma low_trans x y z : same_low_letters x y -> same_low_letters y z -> same_low_letters x z.
Proof.
  unfold same_low_letters. intros H. revert z. induction H as [|p q x y E F IH]; intros z K; inversion K; subst; constructor; [congruence|].
  apply IH. assumption.
Qed.
(** Whether one path can tell two kinds. *)
Definition compatible (k1 k2 : kind) : bool :=
  if k_any_case k1 || k_any_case k2 then iequals_w (k_path k1) (k_path k2) else weq (k_path k1) (k_path k2).
Lemma tells_compatible path k1 k2 : tells_low path k1 -> tells_low path k2 -> compatible k1 k2 = true.
Proof.
  intros H1 H2. unfold compatible. destruct (k_any_case k1 || k_any_case k2) eqn:E.
  - apply iequals_low. apply (low_trans _ path).
    + destruct H1 as [->|[_ H1]]; [apply low_refl|apply low_sym; exact H1].
    + destruct H2 as [->|[_ H2]]; [apply low_refl|exact H2].
  - apply orb_false_iff in E. destruct E as [E1 E2]. destruct H1 as [<-|[H1 _]]; [|congruence]. destruct H2 as [<-|[H2 _]]; [|congruence]. apply weq_refl.
Qed.
Fixpoint ord_pairs (l : list kind) : bool :=
  match l with
  | [] => true
  | k :: r => forallb (fun k' => negb (compatible k k')) r && ord_pairs r
  end.
Lemma ord_pairs_ok l : ord_pairs l = true -> ForallOrdPairs (fun k1 k2 => compatible k1 k2 = false) l.
Proof.
  induction l as [|k r IH]; cbn [ord_pairs]; intros H; constructor; apply andb_true_iff in H; destruct H as [H1 H2].
  - apply Forall_forall. intros x I. rewrite forallb_forall in H1. specialize (H1 x I). destruct (compatible k x); [discriminate|reflexivity].
  - apply IH. exact H2.
Qed.
Lemma kinds_apart : ForallOrdPairs (fun k1 k2 => compatible k1 k2 = false) kinds.
Proof. apply ord_pairs_ok. vm_compute. reflexivity. Qed.
Lemma one_kind path k1 k2 : In k1 kinds -> In k2 kinds -> tells_low path k1 -> tells_low path k2 -> k1 = k2.
Proof.
  intros I1 I2 T1 T2. destruct (ForallOrdPairs_In kinds_apart k1 k2 I1 I2) as [E|[E|E]]; [exact E| |].
  - rewrite (tells_compatible path k1 k2 T1 T2) in E. discriminate.
  - rewrite (tells_compatible path k2 k1 T2 T1) in E. discriminate.
Qed.

(** ** Rows *)
(** Rows of the table, any number of times. *)
Definition from_table (rows : list OlessInfo) : Prop := forall m, In m rows <-> In m ole_list.
Lemma from_table_kind rows m : from_table rows -> In m rows -> exists k, In k kinds /\ m = row_of k.
Proof. intros T I. apply T in I. rewrite table_kinds in I. apply in_map_iff in I. destruct I as (k & <- & Ik). exists k. split; [exact Ik|reflexivity]. Qed.
Lemma from_table_one rows path m1 m2 : from_table rows -> In m1 rows -> In m2 rows -> matches m1 path = true -> matches m2 path = true -> m1 = m2.
Proof.
  intros T I1 I2 M1 M2. destruct (from_table_kind rows m1 T I1) as (k1 & K1 & ->). destruct (from_table_kind rows m2 T I2) as (k2 & K2 & ->).
  apply matches_tells in M1. apply matches_tells in M2. rewrite (one_kind path k1 k2 K1 K2 M1 M2). reflexivity.
Qed.
Lemma rows_found_one pl excel current path b m0 : forall rest ei, (forall m, In m rest -> matches m path = true -> m = m0) ->
  rows_found pl excel current rest path b ei =
  if existsb (fun m => matches m path) rest then f <- row_found pl excel current m0 b ;; Ok (Some f) else Ok ei.
Proof.
  induction rest as [|m r IH]; intros ei H; cbn [rows_found existsb]; [reflexivity|]. destruct (matches m path) eqn:Em; cbn [orb].
  - rewrite (H m (or_introl eq_refl) Em). destruct (row_found pl excel current m0 b) as [f| | |] eqn:Ef; cbn [bind]; [|reflexivity..].
    rewrite IH by (intros x I; apply H; right; exact I). destruct (existsb _ r); cbn [bind]; rewrite ?Ef; reflexivity.
  - apply IH. intros x I. apply H. right. exact I.
Qed.
Lemma rows_found_kind pl excel current rows path b k : from_table rows -> In k kinds -> tells_low path k ->
  rows_found pl excel current rows path b None = (f <- row_found pl excel current (row_of k) b ;; Ok (Some f)).
Proof.
  intros T Ik Tk. assert (Ir : In (row_of k) rows) by (apply T; rewrite table_kinds; apply in_map; exact Ik).
  apply matches_tells in Tk. rewrite (rows_found_one pl excel current path b (row_of k)).
  - replace (existsb _ rows) with true; [reflexivity|]. symmetry. apply existsb_exists. exists (row_of k). split; assumption.
  - intros m I Hm. apply (from_table_one rows path); assumption.
Qed.
Lemma rows_found_none pl excel current rows path b : from_table rows -> (forall k, In k kinds -> ~ tells_low path k) ->
  rows_found pl excel current rows path b None = Ok None.
Proof.
  intros T No. assert (E : forall m, In m rows -> matches m path = false).
  { intros m I. destruct (matches m path) eqn:Em; [|reflexivity]. exfalso. destruct (from_table_kind rows m T I) as (k & Ik & ->).
    apply (No k Ik). apply matches_tells. exact Em. }
  clear T. induction rows as [|m r IH]; cbn [rows_found]; [reflexivity|]. rewrite (E m (or_introl eq_refl)). apply IH. intros x I. apply E. right. exact I.
Qed.
Lemma row_found_kind pl excel current k b : row_found pl excel current (row_of k) b = read_kind pl excel current k b.
Proof. unfold row_found, read_kind. cbn [oi_extraFunc row_of]. destruct (k_reader k) as [[]|]; reflexivity. Qed.

(** ** The outcome of one entry *)
Lemma existsb_weq x l : existsb (weq x) l = true <-> In x l.
Proof.
  rewrite existsb_exists. split.
  - intros (y & I & E). apply weq_eq in E. subst y. exact I.
  - intros I. exists x. split; [exact I|apply weq_refl].
Qed.
Lemma vba_storage_iff names : vba_storage (last names []) (path_text names) = true <-> macro_storage names.
Proof.
  unfold macro_storage. rewrite <- !existsb_weq. unfold vba_storage, macro_names, macro_paths. cbn [existsb].
  change (a "Macros") with (W "Macros"). change (a "_VBA_PROJECT_CUR") with (W "_VBA_PROJECT_CUR"). change (a "/VBA") with (W "/VBA").
  change (a "/VBA_Project") with (W "/VBA_Project"). rewrite !orb_true_iff. intuition discriminate.
Qed.
Lemma property_stream_iff name : property_stream name = true <-> In name property_names.
Proof.
  rewrite <- existsb_weq. unfold property_stream, property_names. cbn [existsb].
  change (a "DocumentSummaryInformation") with (W "DocumentSummaryInformation"). change (a "SummaryInformation") with (W "SummaryInformation").
  change (a "GlobalInfo") with (W "GlobalInfo"). change (a "ImageContents") with (W "ImageContents"). change (a "ImageInfo") with (W "ImageInfo").
  rewrite !orb_true_iff. intuition discriminate.
Qed.
Lemma yields_inspect pl excel rows current s v r : from_table rows -> yields pl excel current s v r -> inspect pl excel rows current s v = r.
Proof.
  intros T Y. destruct Y as [names M|names p M E|names x M E|names r M E S|names b ps I E|names b I E|names b r I E S S'|names b k I Ik Tk|names b I No]; cbn [inspect].
  - destruct (vba_storage _ _) eqn:V; [apply vba_storage_iff in V; contradiction|reflexivity].
  - rewrite (proj2 (vba_storage_iff names) M), E. reflexivity.
  - rewrite (proj2 (vba_storage_iff names) M), E. reflexivity.
  - rewrite (proj2 (vba_storage_iff names) M), E. destruct S as [->| ->]; reflexivity.
  - rewrite (proj2 (property_stream_iff _) I), E. reflexivity.
  - rewrite (proj2 (property_stream_iff _) I), E. reflexivity.
  - rewrite (proj2 (property_stream_iff _) I), E. destruct r as [ps|x| |]; [destruct (S' ps eq_refl)| |reflexivity..].
    destruct x; try reflexivity. contradiction S. reflexivity.
  - destruct (property_stream _) eqn:V; [apply property_stream_iff in V; contradiction|].
    rewrite (rows_found_kind _ _ _ _ _ _ _ T Ik Tk), row_found_kind. destruct (read_kind _ _ _ _ _); reflexivity.
  - destruct (property_stream _) eqn:V; [apply property_stream_iff in V; contradiction|].
    rewrite (rows_found_none _ _ _ _ _ _ T No). reflexivity.
Qed.

(** ** All entries *)
Definition add_group (pl : platform) (g : groups) (o : outcome) : groups :=
  match o with OGroup p ps => insert pl p ps g | _ => g end.
Lemma run_ok pl look l outs : Forall2 (fun v o => look v = Ok o) l outs -> forall t,
  run pl look l t = Ok (mkState (st_paths t ++ map visit_text l) (st_results t ++ results_of outs) (fold_left (add_group pl) outs (st_props t))).
Proof.
  induction 1 as [|v o l outs E F IH]; intros t; cbn [run map fold_left].
  - cbn. rewrite !app_nil_r. destruct t; reflexivity.
  - rewrite E. cbn [bind]. rewrite IH. unfold results_of. cbn [flat_map]. destruct o; cbn [apply push_path push_result st_paths st_results st_props add_group app];
      rewrite <- !app_assoc; reflexivity.
Qed.
Lemma run_stop {A} pl look l outs v r rest (x : res A) : Forall2 (fun v o => look v = Ok o) l outs -> look v = (_ <- x ;; r) -> (forall y, x <> Ok y) ->
  forall t, run pl look (l ++ v :: rest) t = (_ <- x ;; Ok t).
Proof.
  intros F E S t. rewrite run_app, (run_ok _ _ _ _ F). cbn [bind run]. rewrite E. destruct x as [y| | |]; [destruct (S y eq_refl)|reflexivity..].
Qed.

(** ** Sorting the groups *)
Lemma wcompare_text x : forall y, match wcompare windows x y with Lt => text_lt x y | Eq => x = y | Gt => text_lt y x end.
Proof.
  induction x as [|p x IH]; intros [|q y]; cbn [wcompare text_lt]; auto.
  unfold wchar_value. cbn [sizeof_wchar windows]. change (2 =? 4) with false. cbn iota.
  destruct (Z.compare_spec (Z.of_N p) (Z.of_N q)) as [K|K|K].
  - assert (p = q) by lia. subst q. specialize (IH y). destruct (wcompare windows x y); [subst; reflexivity|right; auto|right; auto].
  - left. lia.
  - left. lia.
Qed.
Lemma text_lt_trans x : forall y z, text_lt x y -> text_lt y z -> text_lt x z.
Proof.
  induction x as [|p x IH]; intros [|q y] [|r z]; cbn [text_lt]; try tauto.
  intros [H|[-> H]] [K|[-> K]]; [left; lia|left; exact H|left; exact K|right; split; [reflexivity|eapply IH; eassumption]].
Qed.
Lemma insert_perm k v g : ~ In k (map fst g) -> Permutation ((k, v) :: g) (insert windows k v g).
Proof.
  induction g as [|[k' v'] g IH]; intros H; cbn [insert]; [apply Permutation_refl|].
  pose proof (wcompare_text k k') as C. destruct (wcompare windows k k').
  - subst k'. exfalso. apply H. left. reflexivity.
  - apply Permutation_refl.
  - eapply perm_trans; [apply perm_swap|]. constructor. apply IH. intros I. apply H. right. exact I.
Qed.
Lemma insert_sorted k v g : ~ In k (map fst g) -> StronglySorted text_lt (map fst g) -> StronglySorted text_lt (map fst (insert windows k v g)).
Proof.
  induction g as [|[k' v'] g IH]; intros H S; cbn [insert map fst]; [repeat constructor|].
  pose proof (wcompare_text k k') as C. cbn [map fst] in S. inversion S as [|? ? S1 S2]; subst. destruct (wcompare windows k k').
  - exact S.
  - cbn [map fst]. constructor; [exact S|]. constructor; [exact C|]. eapply Forall_impl; [|exact S2]. intros z Hz. eapply text_lt_trans; eassumption.
  - cbn [map fst]. assert (H' : ~ In k (map fst g)) by (intros I; apply H; right; exact I). constructor; [apply IH; assumption|].
    assert (P : Permutation (k :: map fst g) (map fst (insert windows k v g))).
    { change (k :: map fst g) with (map fst ((k, v) :: g)). apply Permutation_map. apply insert_perm. exact H'. }
    eapply Permutation_Forall; [exact P|]. constructor; [exact C|exact S2].
Qed.
Lemma groups_sorted outs : forall g, NoDup (map fst (groups_of outs) ++ map fst g) -> StronglySorted text_lt (map fst g) ->
  Permutation (groups_of outs ++ g) (fold_left (add_group windows) outs g) /\
  StronglySorted text_lt (map fst (fold_left (add_group windows) outs g)).
Proof.
  unfold groups_of. induction outs as [|o outs IH]; intros g N S; cbn [flat_map fold_left app map] in *; [split; [apply Permutation_refl|exact S]|].
  destruct o as [|r|p ps]; cbn [app add_group] in *; [apply IH; assumption|apply IH; assumption|].
  cbn [map fst app] in N. inversion N as [|? ? N1 N2]; subst.
  assert (H : ~ In p (map fst g)) by (intros I; apply N1; apply in_or_app; right; exact I).
  destruct (IH (insert windows p ps g)) as [P Q].
  - eapply Permutation_NoDup; [|exact N]. eapply perm_trans; [apply Permutation_middle|]. apply Permutation_app_head.
    change (p :: map fst g) with (map fst ((p, ps) :: g)). apply Permutation_map. apply insert_perm. exact H.
  - apply insert_sorted; assumption.
  - split; [|exact Q]. eapply perm_trans; [|exact P]. eapply perm_trans; [apply Permutation_middle|]. apply Permutation_app_head. apply insert_perm. exact H.
Qed.

(** ** Paths are distinct *)
Definition visit_names (v : visit) : list (list N) := match v with VStorage names => names | VStream names _ => names end.
Lemma path_text_inj x y : x <> [] -> y <> [] -> Forall plain_name x -> Forall plain_name y -> path_text x = path_text y -> x = y.
Proof.
  intros Nx Ny Fx Fy E. destruct (split_path_text x Nx Fx) as (r & Er & _ & Sr). destruct (split_path_text y Ny Fy) as (r' & Er' & _ & Sr').
  rewrite E, Er' in Er. injection Er as <-. congruence.
Qed.
Lemma visits_distinct f c :
  (forall k its, holds f c k its -> forall names, Forall plain_name names ->
     NoDup (map visit_names (flat_map (visits names) its)) /\
     Forall (fun v => exists x rest, visit_names v = names ++ x :: rest /\ Forall plain_name (visit_names v)) (flat_map (visits names) its)) /\
  (forall l its, lists f c l its -> forall names, Forall plain_name names -> StronglySorted (node_lt (c_dir c)) l ->
     NoDup (map visit_names (flat_map (visits names) its)) /\
     Forall (fun v => exists j m rest, In j l /\ nthN (c_dir c) j = Some m /\ visit_names v = names ++ n_name m :: rest /\ Forall plain_name (visit_names v))
            (flat_map (visits names) its)).
Proof.
  apply holds_lists_ind.
  - intros k n l its Hn Ht (Hm & So & _) Hl IH names F. destruct (IH names F So) as [N A]. split; [exact N|].
    eapply Forall_impl; [|exact A]. cbn beta. intros v (j & m & rest & _ & _ & E & P). exists (n_name m), rest. split; assumption.
  - intros names F So. cbn. split; constructor.
  - intros j m content l its Hj Hs Hp Hc Hl IH names F So. inversion So as [|? ? So1 So2]; subst. destruct (IH names F So1) as [N A]. cbn [flat_map visits app map].
    split; constructor.
    + cbn [visit_names]. intros I. apply in_map_iff in I. destruct I as (v & Ev & Iv). rewrite Forall_forall in A. destruct (A v Iv) as (j' & m' & rest & I' & Hj' & E' & _).
      rewrite Ev in E'. apply app_inv_head in E'. injection E' as E' _. rewrite Forall_forall in So2.
      pose proof (node_lt_name _ _ _ _ _ (So2 j' I') Hj Hj') as L. rewrite E' in L. apply (name_lt_irrefl _ L).
    + exact N.
    + exists j, m, []. split; [left; reflexivity|]. split; [exact Hj|]. split; [reflexivity|]. cbn [visit_names]. apply Forall_app. split; [exact F|constructor; [exact Hp|constructor]].
    + eapply Forall_impl; [|exact A]. cbn beta. intros v (j' & m' & rest & I' & R). exists j', m', rest. split; [right; exact I'|exact R].
  - intros j m sub l its Hj Hs Hp Hc IHc Hl IH names F So. inversion So as [|? ? So1 So2]; subst. destruct (IH names F So1) as [N A]. cbn [flat_map visits app map].
    assert (F' : Forall plain_name (names ++ [n_name m])) by (apply Forall_app; split; [exact F|constructor; [exact Hp|constructor]]).
    destruct (IHc (names ++ [n_name m]) F') as [Ns As].
    assert (Apart : forall v rest, In v (flat_map (visits names) its) -> visit_names v <> names ++ n_name m :: rest).
    { intros v rest Iv Ev. rewrite Forall_forall in A. destruct (A v Iv) as (j' & m' & rest' & I' & Hj' & E' & _).
      rewrite Ev in E'. apply app_inv_head in E'. injection E' as E' _. rewrite Forall_forall in So2.
      pose proof (node_lt_name _ _ _ _ _ (So2 j' I') Hj Hj') as L. rewrite E' in L. apply (name_lt_irrefl _ L). }
    split; constructor.
    + cbn [visit_names]. rewrite map_app. intros I. apply in_app_or in I. destruct I as [I|I]; apply in_map_iff in I; destruct I as (v & Ev & Iv).
      * rewrite Forall_forall in As. destruct (As v Iv) as (x & rest & E & _). rewrite Ev in E. apply (f_equal (@List.length _)) in E. rewrite !app_length in E. cbn in E. lia.
      * apply (Apart v [] Iv). exact Ev.
    + rewrite map_app. clear IH IHc. revert Ns As. generalize (flat_map (visits (names ++ [n_name m])) sub) as q.
      induction q as [|v q IHq]; intros Ns As; cbn [app map]; [exact N|]. cbn [map] in Ns. inversion Ns as [|? ? Ns1 Ns2]; subst.
      inversion As as [|? ? (x & rest & E & _) As2]; subst. constructor; [|apply IHq; assumption].
      intros I. apply in_app_or in I. destruct I as [I|I]; [contradiction|]. apply in_map_iff in I. destruct I as (v' & Ev & Iv).
      rewrite E, <- app_assoc in Ev. apply (Apart v' (x :: rest) Iv). exact Ev.
    + exists j, m, []. split; [left; reflexivity|]. split; [exact Hj|]. split; [reflexivity|exact F'].
    + apply Forall_app. split.
      * eapply Forall_impl; [|exact As]. cbn beta. intros v (x & rest & E & P). exists j, m, (x :: rest). split; [left; reflexivity|]. split; [exact Hj|].
        split; [|exact P]. rewrite E, <- app_assoc. reflexivity.
      * eapply Forall_impl; [|exact A]. cbn beta. intros v (j' & m' & rest & I' & R). exists j', m', rest. split; [right; exact I'|exact R].
Qed.
Lemma texts_distinct l : NoDup (map visit_names l) -> Forall (fun v => visit_names v <> [] /\ Forall plain_name (visit_names v)) l ->
  NoDup (map (fun v => path_text (visit_names v)) l).
Proof.
  induction l as [|v l IH]; cbn [map]; intros N F; [constructor|]. inversion N as [|? ? N1 N2]; subst. inversion F as [|? ? [Hv Pv] F2]; subst.
  constructor; [|apply IH; assumption]. intros I. apply in_map_iff in I. destruct I as (v' & E & I'). apply N1.
  rewrite Forall_forall in F2. destruct (F2 v' I') as [Hv' Pv']. apply in_map_iff. exists v'. split; [|exact I'].
  apply path_text_inj; assumption.
Qed.
Lemma all_texts_distinct f c items : holds f c 0 items -> NoDup (map (fun v => path_text (visit_names v)) (all_visits items)).
Proof.
  intros H. destruct (proj1 (visits_distinct f c) 0 items H [] (Forall_nil _)) as [N A]. apply texts_distinct; [exact N|].
  eapply Forall_impl; [|exact A]. cbn beta. intros v (x & rest & E & P). split; [rewrite E; discriminate|exact P].
Qed.
Lemma yields_group pl excel current s v p ps : yields pl excel current s v (Ok (OGroup p ps)) -> p = path_text (visit_names v).
Proof.
  intros Y. inversion Y as [| | |? r M A S E0 E1|names b q| | ? ? r I A S S' E0 E1|? ? k I Ik Tk E0 E1|]; subst; try reflexivity.
  - destruct S as [S|S]; rewrite S in E1; discriminate E1.
  - destruct (ParseBytes pl b); try discriminate E1. 
  - destruct (read_kind pl excel current k b); discriminate E1.
Qed.
Lemma group_keys pl excel current s l outs : Forall2 (fun v o => yields pl excel current s v (Ok o)) l outs ->
  NoDup (map (fun v => path_text (visit_names v)) l) ->
  NoDup (map fst (groups_of outs)) /\ (forall p, In p (map fst (groups_of outs)) -> In p (map (fun v => path_text (visit_names v)) l)).
Proof.
  unfold groups_of. induction 1 as [|v o l outs Y F IH]; cbn [map flat_map]; intros N; [split; [constructor|intros p []]|].
  inversion N as [|? ? N1 N2]; subst. destruct (IH N2) as [N' I']. destruct o as [|r|p ps]; cbn [app map fst].
  - split; [exact N'|]. intros p I. right. apply I'. exact I.
  - split; [exact N'|]. intros p I. right. apply I'. exact I.
  - pose proof (yields_group _ _ _ _ _ _ _ Y) as E. split.
    + constructor; [|exact N']. intros I. apply N1. rewrite <- E. apply I'. exact I.
    + intros q [<-|I]; [left; symmetry; exact E|right; apply I'; exact I].
Qed.

(** ** The report *)
Definition bare (r : found) : Prop :=
  match r with FOless _ p g => p = [] /\ g = [] | FExcel _ p g => p = [] /\ g = [] | _ => True end.
Lemma attach_assigned paths g l : Forall bare l -> assigned paths g l (attach paths g l).
Proof.
  induction 1 as [|r l Hr F IH]; cbn [attach]; [constructor|]. destruct r as [e p q|x p q|i|e p]; cbn [bare] in Hr; try (destruct Hr as [-> ->]); constructor; exact IH.
Qed.
Lemma read_kind_bare pl excel current k b x : read_kind pl excel current k b = Ok x -> bare x.
Proof.
  unfold read_kind. destruct (k_reader k) as [[]|]; intros H;
    repeat match type of H with bind ?m _ = _ => destruct m; cbn [bind] in H; try discriminate H end; injection H as <-; cbn; auto.
Qed.
Lemma yields_bare pl excel current s v r : yields pl excel current s v (Ok (OFound r)) -> bare r.
Proof.
  intros Y. inversion Y as [|? p M A E0 E1|? x M A E0 E1|? q M A S E0 E1|names b q| | ? ? q I A S S' E0 E1|? ? k I Ik Tk E0 E1|]; subst; try exact Logic.I.
  - destruct S as [S|S]; rewrite S in E1; discriminate E1.
  - destruct (ParseBytes pl b); discriminate E1.
  - destruct (read_kind pl excel current k b) eqn:E; try discriminate E1. injection E1 as <-. eapply read_kind_bare. exact E.
Qed.
Lemma results_bare pl excel current s l outs : Forall2 (fun v o => yields pl excel current s v (Ok o)) l outs -> Forall bare (results_of outs).
Proof.
  unfold results_of. induction 1 as [|v o l outs Y F IH]; cbn [flat_map]; [constructor|]. destruct o as [|r|p ps]; cbn [app]; [exact IH| |exact IH].
  constructor; [eapply yields_bare; exact Y|exact IH].
Qed.

Lemma Forall2_impl {A B} (P Q : A -> B -> Prop) l m : (forall x y, P x y -> Q x y) -> Forall2 P l m -> Forall2 Q l m.
Proof. intros H. induction 1; constructor; auto. Qed.
Theorem guess_ok f c s items excel rows outs : stored_as f c -> clean c -> storage_load windows (Some f) = Ok (Opened s) -> holds f c 0 items -> from_table rows ->
  Forall2 (fun v o => yields windows excel (root_stream (a "Current User") items) s v (Ok o)) (all_visits items) outs ->
  exists g l, sorted_by_key (groups_of outs) g /\ reported (all_paths items) g (results_of outs) l /\ Guess windows excel rows (Some f) = Ok l.
Proof.
  intros St Cl Eo Hi T F.
  assert (F' : Forall2 (fun v o => look s excel rows items v = Ok o) (all_visits items) outs).
  { eapply Forall2_impl; [|exact F]. intros v o Y. apply yields_inspect; assumption. }
  rewrite (guess_run f c s excel rows items St Cl Eo Hi), (run_ok _ _ _ _ F'). cbn [bind st_results st_paths st_props push_path app].
  destruct (group_keys _ _ _ _ _ _ F (all_texts_distinct f c items Hi)) as [Nk _].
  destruct (groups_sorted outs [] ltac:(cbn [map]; rewrite app_nil_r; exact Nk) ltac:(constructor)) as [P Q]. rewrite app_nil_r in P.
  exists (fold_left (add_group windows) outs []). fold (all_paths items).
  destruct (results_of outs) as [|r rest] eqn:Er.
  - eexists. split; [split; assumption|]. split; [apply rep_none|reflexivity].
  - eexists. split; [split; assumption|]. split; [|reflexivity]. apply rep_some; [discriminate|]. apply attach_assigned. rewrite <- Er. eapply results_bare. exact F.
Qed.
Theorem guess_stops f c s items excel rows before v after outs (r : res outcome) : stored_as f c -> clean c -> storage_load windows (Some f) = Ok (Opened s) ->
  holds f c 0 items -> from_table rows -> all_visits items = before ++ v :: after ->
  Forall2 (fun v o => yields windows excel (root_stream (a "Current User") items) s v (Ok o)) before outs ->
  yields windows excel (root_stream (a "Current User") items) s v r -> (forall o, r <> Ok o) ->
  Guess windows excel rows (Some f) = (_ <- r ;; Ok []).
Proof.
  intros St Cl Eo Hi T E F Y S.
  assert (F' : Forall2 (fun v o => look s excel rows items v = Ok o) before outs).
  { eapply Forall2_impl; [|exact F]. intros v' o Y'. apply yields_inspect; assumption. }
  apply (yields_inspect windows excel rows) in Y; [|exact T].
  rewrite (guess_run f c s excel rows items St Cl Eo Hi), E, run_app, (run_ok _ _ _ _ F'). cbn [bind run].
  unfold look, current. rewrite Y. destruct r as [o| | |]; [destruct (S o eq_refl)|reflexivity..].
Qed.
