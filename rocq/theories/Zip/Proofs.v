(** Archives: the scan for content types and the kinds reported. *)
From Coq Require Import List NArith ZArith Bool Lia Strings.String.
From Coq Require Import ZifyBool ZifyNat ZifyN.
From Verif Require Import Lib.Res Lib.Bytes Lib.BytesFacts Lib.Text Common.Model Magic.Model Ole.Model Vba.Analyze Vba.Output Detect.Model
     Docs.Spec Docs.Model Docs.Proofs Zip.Tables Zip.Model Zip.Spec Zip.Statements.
Import ListNotations.
Local Open Scope N_scope.

(** ** Searching *)
Lemma prefix_before c p g t : ~ In c p -> starts_with p (g ++ c :: t) = true -> exists g', g = p ++ g'.
Proof.
  intros Hc. revert g. induction p as [|a p IH]; intros g H; [exists g; reflexivity|].
  cbn [starts_with] in H. destruct g as [|b g]; cbn [app] in H.
  - apply andb_true_iff in H. destruct H as [E _]. apply byte_eqb_eq in E. subst. exfalso. apply Hc. left. reflexivity.
  - apply andb_true_iff in H. destruct H as [E H]. apply byte_eqb_eq in E. subst b.
    destruct (IH (fun K => Hc (or_intror K)) g H) as [g' ->]. exists g'. reflexivity.
Qed.
Lemma index_before c p gap r : ~ In c p -> ~ contains (c :: p) gap -> index_of (c :: p) (gap ++ (c :: p) ++ r) = Some (lenN gap).
Proof.
  intros Hc. induction gap as [|b g IH]; intros Hn.
  - cbn [app]. replace (index_of (c :: p) (c :: p ++ r)) with (Some 0); [reflexivity|].
    cbn [index_of]. assert (E : starts_with (c :: p) (c :: p ++ r) = true) by (apply starts_with_iff; exists r; reflexivity). rewrite E. reflexivity.
  - change ((b :: g) ++ (c :: p) ++ r) with (b :: (g ++ (c :: p) ++ r)). cbn [index_of].
    destruct (starts_with (c :: p) (b :: g ++ (c :: p) ++ r)) eqn:E.
    + exfalso. cbn [starts_with] in E. apply andb_true_iff in E. destruct E as [Eb E]. apply byte_eqb_eq in Eb. subst b.
      change (g ++ (c :: p) ++ r) with (g ++ c :: (p ++ r)) in E. apply prefix_before in E; [|exact Hc]. destruct E as [g' ->].
      apply Hn. exists [], g'. reflexivity.
    + rewrite IH; [|intros (x & y & E2); apply Hn; exists (b :: x), y; rewrite E2; reflexivity].
      rewrite lenN_cons. f_equal; lia.
Qed.
Lemma index_none p s : ~ contains p s -> index_of p s = None.
Proof.
  induction s as [|b s IH]; intros Hn; cbn [index_of].
  - destruct (starts_with p []) eqn:E; [|reflexivity]. apply starts_with_iff in E. destruct E as [r E]. exfalso. apply Hn. exists [], r. exact E.
  - destruct (starts_with p (b :: s)) eqn:E.
    + apply starts_with_iff in E. destruct E as [r E]. exfalso. apply Hn. exists [], r. exact E.
    + rewrite IH; [reflexivity|]. intros (x & y & E2). apply Hn. exists (b :: x), y. rewrite E2. reflexivity.
Qed.
Lemma contains_one c s : contains [c] s <-> In c s.
Proof.
  split; [intros (a & b & ->); apply in_or_app; right; left; reflexivity|]. intros H. apply in_split in H. destruct H as (a & b & ->).
  exists a, b. reflexivity.
Qed.
Lemma attribute_marker : attribute = marker. Proof. reflexivity. Qed.
Lemma index_marker gap r : ~ contains attribute gap -> index_of marker (gap ++ marker ++ r) = Some (lenN gap).
Proof.
  intros H. change marker with (x43 :: tl marker). apply index_before; [|exact H]. vm_compute. intuition discriminate.
Qed.
Lemma drop_marker gap r : dropN (lenN gap + 13) (gap ++ marker ++ r) = r.
Proof.
  rewrite app_assoc. replace (lenN gap + 13) with (lenN (gap ++ marker)) by (rewrite lenN_app; reflexivity). apply dropN_app_exact.
Qed.
Lemma index_quote u r : ~ In x22 u -> index_of [x22] (u ++ x22 :: r) = Some (lenN u).
Proof. intros H. apply (index_before x22 [] u r); [intros []|]. intros K. apply contains_one in K. contradiction. Qed.

Lemma scan_taken s vs : taken_from s vs -> forall fuel, (List.length s < fuel)%nat -> scan fuel s = Ok vs.
Proof.
  induction 1 as [s Hn|gap Hn|gap c u Hn Hu|gap c u rest vs Hn Hu T IH]; intros fuel Hf; (destruct fuel as [|k]; [lia|]); cbn [scan].
  - rewrite index_none; [reflexivity|exact Hn].
  - rewrite attribute_marker. rewrite <- (app_nil_r marker). rewrite index_marker by exact Hn. rewrite drop_marker. reflexivity.
  - rewrite attribute_marker. rewrite index_marker by exact Hn. rewrite drop_marker.
    rewrite index_none; [reflexivity|]. intros K. apply contains_one in K. contradiction.
  - rewrite attribute_marker in *. rewrite index_marker by exact Hn. rewrite drop_marker.
    change (u ++ [x22] ++ rest) with (u ++ x22 :: rest). rewrite index_quote by exact Hu.
    replace (dropN (lenN u + 1) (u ++ x22 :: rest)) with rest.
    2:{ change (u ++ x22 :: rest) with (u ++ [x22] ++ rest). rewrite app_assoc. replace (lenN u + 1) with (lenN (u ++ [x22])) by (rewrite lenN_app; reflexivity). symmetry. apply dropN_app_exact. }
    rewrite IH. 2:{ rewrite !app_length in Hf. cbn [List.length] in Hf. rewrite !app_length in Hf. cbn [List.length] in Hf. lia. }
    cbn [bind]. rewrite takeN_app_exact. reflexivity.
Qed.
Lemma split_first p s : contains p s -> p <> [] -> (forall c t, p = c :: t -> ~ In c t) ->
  exists gap r, s = gap ++ p ++ r /\ ~ contains p gap.
Proof.
  intros (a & b & ->) Hp Hb. remember (List.length a) as n eqn:En. revert a b En.
  induction n as [n IH] using (well_founded_induction lt_wf). intros a b En.
  destruct (find p a) eqn:F.
  - apply find_iff in F. destruct F as (x & y & ->).
    destruct (IH (List.length x)) with (a := x) (b := y ++ p ++ b) as (gap & r & E & Hn); [|reflexivity|].
    + subst n. rewrite !app_length. destruct p; [congruence|]. cbn [List.length]. lia.
    + exists gap, r. split; [|exact Hn]. rewrite <- E. rewrite <- !app_assoc. reflexivity.
  - exists a, b. split; [reflexivity|]. intros K. apply find_iff in K. congruence.
Qed.
Lemma taken_total s : exists vs, taken_from s vs.
Proof.
  remember (List.length s) as n eqn:En. revert s En. induction n as [n IH] using (well_founded_induction lt_wf). intros s En.
  destruct (find attribute s) eqn:F.
  2:{ exists []. apply tf_none. intros K. apply find_iff in K. congruence. }
  apply find_iff in F. apply split_first in F; [|discriminate|]. 2:{ intros c t E. injection E as <- <-. vm_compute. intuition discriminate. }
  destruct F as (gap & r & -> & Hn). destruct r as [|c u]; [exists []; rewrite app_nil_r; apply tf_end; exact Hn|].
  destruct (find [x22] u) eqn:Q.
  - apply find_iff in Q. apply split_first in Q; [|discriminate|]. 2:{ intros c' t E. injection E as <- <-. intros []. }
    destruct Q as (v & rest & -> & Hq). destruct (IH (List.length rest)) with (s := rest) as [vs T]; [|reflexivity|].
    + subst n. rewrite !app_length. cbn [List.length]. rewrite !app_length. cbn [List.length]. lia.
    + exists ((c :: v) :: vs). apply tf_next; [exact Hn| |exact T]. intros K. apply Hq. apply contains_one. exact K.
  - exists []. apply tf_open; [exact Hn|]. intros K. apply contains_one, find_iff in K. congruence.
Qed.
Lemma ctypes_iff s vs : ctypes_of s = Ok vs <-> taken_from s vs.
Proof.
  unfold ctypes_of. split.
  - intros E. destruct (taken_total s) as [vs' T]. pose proof (scan_taken _ _ T (S (List.length s)) ltac:(lia)) as E'.
    rewrite E in E'. injection E' as ->. exact T.
  - intros T. apply scan_taken; [exact T|lia].
Qed.
Lemma types_taken s vs : types_in s vs -> taken_from s vs.
Proof.
  induction 1 as [s Hn|gap v rest vs Hn Hv Hq T IH]; [apply tf_none; exact Hn|].
  destruct v as [|c u]; [congruence|]. apply tf_next; [exact Hn| |exact IH]. intros K. apply Hq. right. exact K.
Qed.

(** ** Entries *)
Lemma GetEntry_first es name e : GetEntry es name = Some e <-> first_entry es name e.
Proof.
  unfold GetEntry. split.
  - induction es as [|x es IH]; cbn [List.find]; [discriminate|]. destruct (bytes_eqb (z_name x) name) eqn:E.
    + intros H. injection H as ->. apply bytes_eqb_eq in E. exists [], es. auto.
    + intros H. destruct (IH H) as (b & a & -> & En & F). exists (x :: b), a. split; [reflexivity|]. split; [exact En|]. constructor; [|exact F].
      intros K. rewrite K, bytes_eqb_refl in E. discriminate.
  - intros (b & a & -> & En & F). induction F as [|x b Hx F IH]; cbn [app List.find].
    + rewrite En, bytes_eqb_refl. reflexivity.
    + destruct (bytes_eqb (z_name x) name) eqn:E; [apply bytes_eqb_eq in E; contradiction|exact IH].
Qed.
Lemma GetEntry_none es name : GetEntry es name = None <-> ~ has_entry es name.
Proof.
  unfold GetEntry. split.
  - intros H (e & He & En). apply List.find_none with (x := e) in H; [|exact He]. rewrite En, bytes_eqb_refl in H. discriminate.
  - intros H. destruct (List.find _ es) as [e|] eqn:E; [|reflexivity]. apply List.find_some in E. destruct E as [He En]. apply bytes_eqb_eq in En.
    exfalso. apply H. exists e. split; assumption.
Qed.
Definition text_of (es : list zentry) (name : bytes) : bytes := match GetEntry es name with Some e => GetFile e | None => [] end.
Lemma part_text_iff es name s : part_text es name s <-> s = text_of es name.
Proof.
  unfold part_text, text_of, GetFile. split.
  - intros [(e & F & H)|[H ->]].
    + apply GetEntry_first in F. rewrite F. destruct H as [->|[-> ->]]; reflexivity.
    + apply GetEntry_none in H. rewrite H. reflexivity.
  - intros ->. destruct (GetEntry es name) as [e|] eqn:E.
    + left. exists e. split; [apply GetEntry_first; exact E|]. destruct (z_data e); [left; reflexivity|right; split; reflexivity].
    + right. split; [apply GetEntry_none; exact E|reflexivity].
Qed.
Lemma hasEnding_iff s e : hasEnding s e = true <-> ends_with s e.
Proof.
  unfold hasEnding, ends_with. destruct (N.leb_spec (lenN e) (lenN s)) as [L|L]; split.
  - intros E. apply bytes_eqb_eq in E. exists (takeN (lenN s - lenN e) s). rewrite <- E at 2. symmetry. apply takeN_dropN.
  - intros [t ->]. rewrite lenN_app. replace (lenN t + lenN e - lenN e) with (lenN t) by lia. rewrite dropN_app_exact. apply bytes_eqb_refl.
  - discriminate.
  - intros [t ->]. rewrite lenN_app in L. lia.
Qed.
Lemma bins_nil es : filter (fun e => hasEnding (z_name e) (B "bin")) es = [] <-> ~ has_bin es.
Proof.
  split.
  - intros E (e & He & K). apply hasEnding_iff in K. assert (In e (filter (fun e => hasEnding (z_name e) (B "bin")) es)) by (apply filter_In; split; assumption).
    rewrite E in H. exact H.
  - intros H. destruct (filter _ es) as [|e l] eqn:E; [reflexivity|]. assert (K : In e (e :: l)) by (left; reflexivity). rewrite <- E in K.
    apply filter_In in K. destruct K as [He K]. exfalso. apply H. exists e. split; [exact He|apply hasEnding_iff; exact K].
Qed.
