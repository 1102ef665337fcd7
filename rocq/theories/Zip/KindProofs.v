(** Archives: the kinds reported. *)
From Coq Require Import List NArith ZArith Bool Lia Strings.String.
From Coq Require Import ZifyBool ZifyNat ZifyN.
From Verif Require Import Lib.Res Lib.Bytes Lib.BytesFacts Lib.Text Common.Model Magic.Model Ole.Model Vba.Analyze Vba.Output Detect.Model
     Docs.Spec Docs.Model Docs.Proofs Zip.Tables Zip.Model Zip.Spec Zip.Statements Zip.Proofs.
Import ListNotations.
Local Open Scope N_scope.

(** ** Tables *)
Definition row_eqb (a b : bytes * bytes) : bool := bytes_eqb (fst a) (fst b) && bytes_eqb (snd a) (snd b).
Lemma row_eqb_eq a b : row_eqb a b = true <-> a = b.
Proof.
  destruct a as [a1 a2], b as [b1 b2]. unfold row_eqb. cbn [fst snd]. rewrite andb_true_iff, !bytes_eqb_eq. split; [intros [-> ->]; reflexivity|intros E; injection E as -> ->; auto].
Qed.
Definition inclb (a b : list (bytes * bytes)) : bool := forallb (fun x => existsb (row_eqb x) b) a.
Lemma inclb_incl a b : inclb a b = true -> incl a b.
Proof.
  unfold inclb. rewrite forallb_forall. intros H x Hx. apply H in Hx. apply existsb_exists in Hx. destruct Hx as (y & Hy & E).
  apply row_eqb_eq in E. subst. exact Hy.
Qed.
Definition rows (t : list (bytes * (bytes * bytes))) : list (bytes * bytes) := map (fun r => (fst r, fst (snd r))) t.
Fixpoint distinct (l : list bytes) : bool := match l with [] => true | x :: r => negb (existsb (bytes_eqb x) r) && distinct r end.
Lemma existsb_In x l : existsb (bytes_eqb x) l = true <-> In x l.
Proof.
  rewrite existsb_exists. split; [intros (y & Hy & E); apply bytes_eqb_eq in E; subst; exact Hy|].
  intros H. exists x. split; [exact H|apply bytes_eqb_refl].
Qed.
Lemma lookup_some t s x n : table_lookup t s = Some (x, n) -> In (s, x) (rows t).
Proof.
  induction t as [|[k [a b]] t IH]; cbn [table_lookup rows map fst snd]; [discriminate|]. destruct (bytes_eqb s k) eqn:E.
  - intros H. injection H as -> ->. apply bytes_eqb_eq in E. subst. left. reflexivity.
  - intros H. right. exact (IH H).
Qed.
Lemma lookup_in t s x : distinct (map fst t) = true -> In (s, x) (rows t) -> exists n, table_lookup t s = Some (x, n).
Proof.
  induction t as [|[k [a b]] t IH]; cbn [map fst distinct rows snd table_lookup]; [intros _ []|]. rewrite andb_true_iff, negb_true_iff. intros [D1 D2].
  intros [E|H].
  - injection E as -> ->. rewrite bytes_eqb_refl. exists b. reflexivity.
  - destruct (bytes_eqb s k) eqn:E; [|exact (IH D2 H)]. apply bytes_eqb_eq in E. subst k. exfalso.
    assert (K : In s (map fst t)).
    { apply in_map_iff in H. destruct H as (r & Er & Hr). injection Er as <- <-. apply in_map. exact Hr. }
    apply existsb_In in K. congruence.
Qed.
Lemma content_rows s x : (exists n, table_lookup content_types s = Some (x, n)) <-> In (s, x) (office_types ++ excel_types).
Proof.
  split.
  - intros [n H]. apply lookup_some in H. revert H. apply inclb_incl. vm_compute. reflexivity.
  - intros H. apply lookup_in; [vm_compute; reflexivity|]. revert H. apply inclb_incl. vm_compute. reflexivity.
Qed.
Lemma mime_rows s x : (exists n, table_lookup mime_types s = Some (x, n)) <-> In (s, x) known_mimes.
Proof.
  split.
  - intros [n H]. apply lookup_some in H. revert H. apply inclb_incl. vm_compute. reflexivity.
  - intros H. apply lookup_in; [vm_compute; reflexivity|]. revert H. apply inclb_incl. vm_compute. reflexivity.
Qed.
Lemma rows_none t (l : list (bytes * bytes)) s : (forall x, (exists n, table_lookup t s = Some (x, n)) <-> In (s, x) l) ->
  (forall x, ~ In (s, x) l) -> table_lookup t s = None.
Proof. intros H N. destruct (table_lookup t s) as [[x n]|] eqn:E; [|reflexivity]. exfalso. apply (N x), H. exists n. reflexivity. Qed.
Lemma macro_unlisted : table_lookup content_types macro_type = None. Proof. vm_compute. reflexivity. Qed.
Lemma known_types_in s x : In (s, x) known_types <-> In (s, x) (office_types ++ excel_types) \/ (s = macro_type /\ x = B "vba").
Proof.
  unfold known_types. rewrite app_assoc, in_app_iff. split; intros [H|H]; auto.
  - destruct H as [E|[]]. injection E as <- <-. auto.
  - destruct H as [-> ->]. right. left. reflexivity.
Qed.

(** ** Selections *)
Lemma firsts_app {A} (m xs ys ks : list A) : firsts m (xs ++ ys) ks -> exists k1 k2, ks = k1 ++ k2 /\ firsts m xs k1 /\ firsts (rev k1 ++ m) ys k2.
Proof.
  revert m ks. induction xs as [|x xs IH]; intros m ks H; cbn [app] in H.
  - exists [], ks. split; [reflexivity|]. split; [constructor|exact H].
  - inversion H as [|? ? ? ? Hi H'|? ? ? k Hi H']; subst.
    + destruct (IH _ _ H') as (k1 & k2 & -> & F1 & F2). exists k1, k2. split; [reflexivity|]. split; [apply fi_old; assumption|exact F2].
    + destruct (IH _ _ H') as (k1 & k2 & -> & F1 & F2). exists (x :: k1), k2. split; [reflexivity|]. split; [apply fi_new; assumption|].
      cbn [rev]. rewrite <- app_assoc. exact F2.
Qed.
Lemma seen_iff x m : seen x m = true <-> In x m.
Proof. apply existsb_In. Qed.
Lemma firsts_total (m l : list bytes) : exists ks, firsts m l ks.
Proof.
  revert m. induction l as [|x l IH]; intros m; [exists []; constructor|].
  destruct (seen x m) eqn:E.
  - destruct (IH m) as [ks F]. exists ks. apply fi_old; [apply seen_iff; exact E|exact F].
  - destruct (IH (x :: m)) as [ks F]. exists (x :: ks). apply fi_new; [intros K; apply seen_iff in K; congruence|exact F].
Qed.
Lemma known_total {A} (t : list (bytes * A)) ks : exists xs, known t ks xs.
Proof.
  induction ks as [|k ks [xs IH]]; [exists []; constructor|].
  assert (D : (exists x, In (k, x) t) \/ (forall x, ~ In (k, x) t)).
  { clear. induction t as [|[k' x] t [[y H]|H]]; [right; intros x []|left; exists y; right; exact H|].
    destruct (bytes_eqb k k') eqn:E; [apply bytes_eqb_eq in E; subst; left; exists x; left; reflexivity|].
    right. intros y [K|K]; [injection K as -> ->; rewrite bytes_eqb_refl in E; discriminate|exact (H y K)]. }
  destruct D as [[x H]|H]; [exists (x :: xs); constructor; assumption|exists xs; constructor; assumption].
Qed.
Lemma selected_total {A} (P : bytes -> Prop) (D : forall k, P k \/ ~ P k) (t : list (bytes * A)) : exists xs, selected P t xs.
Proof.
  induction t as [|[k x] t [xs IH]]; [exists []; constructor|].
  destruct (D k); [exists (x :: xs)|exists xs]; constructor; assumption.
Qed.
Lemma has_entry_dec es k : has_entry es k \/ ~ has_entry es k.
Proof.
  destruct (GetEntry es k) as [e|] eqn:E; [left|right; apply GetEntry_none; exact E].
  unfold GetEntry in E. apply List.find_some in E. destruct E as [He En]. exists e. split; [exact He|apply bytes_eqb_eq; exact En].
Qed.
Lemma has_bin_dec es : has_bin es \/ ~ has_bin es.
Proof.
  destruct (filter (fun e => hasEnding (z_name e) (B "bin")) es) as [|e l] eqn:E; [right; apply bins_nil; exact E|left].
  assert (K : In e (e :: l)) by (left; reflexivity). rewrite <- E in K. apply filter_In in K. destruct K as [He K].
  exists e. split; [exact He|apply hasEnding_iff; exact K].
Qed.

Lemma markers_ok es files : selected (has_entry es) marker_files files -> Forall2 just files (CheckEntries es).
Proof.
  unfold CheckEntries. replace marker_files with (rows marker_entries) by (vm_compute; reflexivity). unfold rows.
  revert files. induction marker_entries as [|[k [a b]] t IH]; intros files H; cbn [map fst snd flat_map] in *.
  - inversion H. constructor.
  - inversion H as [|? ? ? xs P H'|? ? ? xs P H']; subst.
    + destruct (GetEntry es k) as [e|] eqn:E; [|apply GetEntry_none in E; contradiction]. cbn [app]. constructor; [exists b; reflexivity|exact (IH _ H')].
    + apply GetEntry_none in P. rewrite P. cbn [app]. exact (IH _ H').
Qed.

(** ** Adding *)
Lemma add_first x n ans m : In x m -> addExtension (kind_result (x, n)) (ans, m) = (ans, m).
Proof. intros H. unfold addExtension. cbn. apply seen_iff in H. rewrite H. reflexivity. Qed.
Lemma add_new x n ans m : ~ In x m -> addExtension (kind_result (x, n)) (ans, m) = (ans ++ [kind_result (x, n)], x :: m).
Proof. intros H. unfold addExtension. cbn. destruct (seen x m) eqn:E; [apply seen_iff in E; contradiction|reflexivity]. Qed.
Lemma no_bins pl es : ~ has_bin es -> GetVBA pl es = Ok (kind_result (B "vba", B "Visual Basic For Applications")).
Proof. intros H. unfold GetVBA. apply bins_nil in H. rewrite H. reflexivity. Qed.
Lemma Analyze_unopened pl : Analyze pl [slash] unopened = UB.
Proof. vm_compute. reflexivity. Qed.
Lemma some_bins pl es : has_bin es -> GetVBA pl es = UB.
Proof.
  intros H. unfold GetVBA. destruct (filter (fun e => hasEnding (z_name e) (B "bin")) es) as [|e l] eqn:E.
  - apply bins_nil in E. contradiction.
  - assert (He : In e es) by (apply (proj1 (filter_In (fun e => hasEnding (z_name e) (B "bin")) e es)); rewrite E; left; reflexivity).
    cbn [map analyze_bins]. destruct (GetEntry es (z_name e)) as [e'|]; [|reflexivity]. destruct (z_data e'); [|reflexivity].
    rewrite Analyze_unopened. reflexivity.
Qed.

(** One type gives one extension at most. *)
Lemma check_one pl es c x ans m : In (c, x) known_types -> (c = macro_type -> ~ has_bin es) ->
  exists n, (t <- (if bytes_eqb c (B "application/vnd.ms-office.vbaProject") then v <- GetVBA pl es ;; Ok (addExtension v (CheckType content_types c (ans, m)))
                  else Ok (CheckType content_types c (ans, m))) ;; Ok t) = Ok (addExtension (kind_result (x, n)) (ans, m)).
Proof.
  intros H Hb. change (B "application/vnd.ms-office.vbaProject") with macro_type. unfold CheckType. apply known_types_in in H. destruct H as [H|[-> ->]].
  - apply content_rows in H. destruct H as [n E]. exists n. rewrite E. destruct (bytes_eqb c macro_type) eqn:Em; [|reflexivity].
    apply bytes_eqb_eq in Em. subst c. rewrite macro_unlisted in E. discriminate.
  - rewrite macro_unlisted, bytes_eqb_refl, (no_bins pl es (Hb eq_refl)). exists (B "Visual Basic For Applications"). reflexivity.
Qed.
Lemma check_types_ok pl es vs xs : known known_types vs xs -> (In macro_type vs -> ~ has_bin es) -> forall m ks ans, firsts m xs ks ->
  exists rs, check_types pl es vs (ans, m) = Ok (ans ++ rs, rev ks ++ m) /\ Forall2 just ks rs.
Proof.
  induction 1 as [|c x vs xs Hc K IH|c vs xs Hc K IH]; intros Hb m ks ans F.
  - inversion F; subst. exists []. cbn. rewrite app_nil_r. split; [reflexivity|constructor].
  - cbn [check_types]. destruct (check_one pl es c x ans m Hc) as [n E]; [intros ->; apply Hb; left; reflexivity|].
    match goal with |- context [bind ?r ?f] => assert (E2 : r = Ok (addExtension (kind_result (x, n)) (ans, m))) by (destruct r; [exact E|discriminate E..]) end.
    rewrite E2. cbn [bind]. assert (Hb' : In macro_type vs -> ~ has_bin es) by (intros Q; apply Hb; right; exact Q).
    inversion F as [|? ? ? ? Hi F'|? ? ? k Hi F']; subst.
    + rewrite add_first by exact Hi. exact (IH Hb' _ _ _ F').
    + rewrite add_new by exact Hi. destruct (IH Hb' _ _ (ans ++ [kind_result (x, n)]) F') as (rs & E3 & J).
      exists (kind_result (x, n) :: rs). rewrite E3. split; [cbn [rev]; rewrite <- !app_assoc; reflexivity|]. constructor; [exists n; reflexivity|exact J].
  - cbn [check_types]. change (B "application/vnd.ms-office.vbaProject") with macro_type.
    destruct (bytes_eqb c macro_type) eqn:Em.
    { apply bytes_eqb_eq in Em. subst c. exfalso. apply (Hc (B "vba")). apply known_types_in. right. split; reflexivity. }
    unfold CheckType. rewrite (rows_none content_types (office_types ++ excel_types) c).
    + cbn [bind]. apply IH; [|exact F]. intros Q. apply Hb. right. exact Q.
    + intros x. apply content_rows.
    + intros x Hx. apply (Hc x). apply known_types_in. left. exact Hx.
Qed.
Lemma check_types_ub pl es vs : has_bin es -> In macro_type vs -> forall t, check_types pl es vs t = UB.
Proof.
  intros Hb. induction vs as [|c vs IH]; [intros []|]. intros [E|H] t; cbn [check_types].
  - subst c. change (B "application/vnd.ms-office.vbaProject") with macro_type. rewrite bytes_eqb_refl, some_bins by exact Hb. reflexivity.
  - destruct (bytes_eqb c _); [rewrite some_bins by exact Hb; reflexivity|]. cbn [bind]. exact (IH H _).
Qed.

Lemma detailer_kinds pl es m files kinds : archive_kinds es m files kinds ->
  exists ans, zip_Detailer pl (Ok es) m = Ok (ans, rev kinds ++ m) /\ reports es (files ++ kinds) ans.
Proof.
  intros (s & mime & vs & xs & ys & Hs & Hm & T & K & Ky & Hb & Sel & F). unfold zip_Detailer. cbn [bind].
  apply part_text_iff in Hs, Hm. apply markers_ok in Sel.
  destruct (firsts_app _ _ _ _ F) as (k1 & k2 & -> & F1 & F2).
  destruct (check_types_ok pl es vs xs K Hb m k1 (CheckEntries es) F1) as (rs & E & J).
  match goal with |- context [bind ?r ?f] => assert (E2 : r = Ok (CheckEntries es ++ rs, rev k1 ++ m)) end.
  { unfold text_of in Hs. destruct (GetEntry es (B "[Content_Types].xml")) as [e|].
    - subst s. apply ctypes_iff in T. rewrite T. exact E.
    - subst s. inversion T as [? Hn Q1|g Hn Q1|g c u Hn Hu Q1|g c u r v Hn Hu T' Q1]; subst; try (destruct g; discriminate).
      inversion K; subst. inversion F1; subst. cbn [check_types] in E. exact E. }
  rewrite E2. cbn [bind]. clear E2 E.
  match goal with |- context [let '(_, _) := ?x in _] => set (t := x) end.
  assert (Et : exists rs2, t = ((CheckEntries es ++ rs) ++ rs2, rev k2 ++ rev k1 ++ m) /\ Forall2 just k2 rs2).
  { subst t. assert (C : exists rs2, CheckType mime_types mime (CheckEntries es ++ rs, rev k1 ++ m) = ((CheckEntries es ++ rs) ++ rs2, rev k2 ++ rev k1 ++ m) /\ Forall2 just k2 rs2).
    { unfold CheckType. inversion Ky as [|? y ? ? Hi Kn|? ? ? Hi Kn]; subst; inversion Kn; subst.
      - apply mime_rows in Hi. destruct Hi as [n E]. rewrite E. inversion F2 as [|? ? ? ? Hi F'|? ? ? k Hi F']; subst; inversion F'; subst.
        + rewrite add_first by exact Hi. exists []. rewrite app_nil_r. split; [reflexivity|constructor].
        + rewrite add_new by exact Hi. exists [kind_result (y, n)]. split; [reflexivity|]. constructor; [exists n; reflexivity|constructor].
      - rewrite (rows_none mime_types known_mimes); [|intros; apply mime_rows|exact Hi]. inversion F2; subst. exists []. rewrite app_nil_r. split; [reflexivity|constructor]. }
    unfold text_of in Hm. destruct (GetEntry es (B "mimetype")) as [e|]; [|subst mime; exact C].
    destruct (GetFile e); subst mime; exact C. }
  destruct Et as (rs2 & -> & J2).
  assert (J3 : Forall2 just (files ++ k1 ++ k2) ((CheckEntries es ++ rs) ++ rs2)).
  { rewrite app_assoc. apply Forall2_app; [apply Forall2_app; assumption|exact J2]. }
  rewrite rev_app_distr, <- (app_assoc (rev k2)).
  destruct ((CheckEntries es ++ rs) ++ rs2) as [|r0 rl] eqn:Er.
  - exists [zip_result es]. split; [reflexivity|]. right. inversion J3. split; reflexivity.
  - exists (r0 :: rl). split; [reflexivity|]. left. split; [intros Q; rewrite Q in J3; inversion J3|exact J3].
Qed.
Lemma detailer_macros pl es m : has_macros es -> zip_Detailer pl (Ok es) m = UB.
Proof.
  intros (s & vs & Hs & T & Hi & Hb). unfold zip_Detailer. cbn [bind]. apply part_text_iff in Hs. unfold text_of in Hs.
  destruct (GetEntry es (B "[Content_Types].xml")) as [e|].
  - subst s. apply ctypes_iff in T. rewrite T. cbn [bind]. rewrite check_types_ub by assumption. reflexivity.
  - subst s. inversion T as [? Hn Q1|g Hn Q1|g c u Hn Hu Q1|g c u r v Hn Hu T' Q1]; subst; try (destruct g; discriminate). destruct Hi.
Qed.
(** Every archive is of one of the two sorts. *)
Lemma kinds_total es m : (exists files kinds, archive_kinds es m files kinds) \/ has_macros es.
Proof.
  set (s := text_of es (B "[Content_Types].xml")). set (mime := text_of es (B "mimetype")).
  destruct (taken_total s) as [vs T]. destruct (known_total known_types vs) as [xs K]. destruct (known_total known_mimes [mime]) as [ys Ky].
  destruct (selected_total (has_entry es) (has_entry_dec es) marker_files) as [files Sel]. destruct (firsts_total m (xs ++ ys)) as [kinds F].
  assert (Hs : part_text es (B "[Content_Types].xml") s) by (apply part_text_iff; reflexivity).
  assert (Hm : part_text es (B "mimetype") mime) by (apply part_text_iff; reflexivity).
  assert (D : In macro_type vs \/ ~ In macro_type vs).
  { destruct (existsb (bytes_eqb macro_type) vs) eqn:E; [left|right; intros Q]; [apply existsb_In; exact E|apply existsb_In in Q; congruence]. }
  destruct (has_bin_dec es) as [Hb|Hb], D as [D|D].
  - right. exists s, vs. auto.
  - left. exists files, kinds, s, mime, vs, xs, ys. repeat (split; [assumption|]). split; [intros Q; contradiction|]. auto.
  - left. exists files, kinds, s, mime, vs, xs, ys. repeat (split; [assumption|]). split; [intros _; exact Hb|]. auto.
  - left. exists files, kinds, s, mime, vs, xs, ys. repeat (split; [assumption|]). split; [intros Q; contradiction|]. auto.
Qed.
