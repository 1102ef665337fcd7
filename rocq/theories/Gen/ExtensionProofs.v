(** Proofs: no result has an extension that is not on the list. *)
From Coq Require Import List NArith Lia Bool Strings.String.
From Verif Require Import Lib.Res Lib.Bytes Lib.BytesFacts Lib.Text Common.Model Magic.Table Magic.Model Exe.Model Media.Model Media.WordPerfect
     Asf.Model Zip.Tables Zip.Model Docs.Model Vba.Analyze Vba.Output Ole.Model Detect.Model Program.Model Gen.Extensions.
From Verif Require Excel.Engine.
Import ListNotations.
Local Open Scope N_scope.

Definition listed (x : bytes) : bool := existsb (bytes_eqb x) all_extensions.
Lemma listed_in x : listed x = true <-> In x all_extensions.
Proof.
  unfold listed. rewrite existsb_exists. split.
  - intros (y & I & E). apply bytes_eqb_eq in E. subst y. exact I.
  - intros I. exists x. split; [exact I|apply bytes_eqb_eq; reflexivity].
Qed.
Global Opaque listed.
Definition fine (o : object) : Prop := listed (extension_of o) = true.
Definition fine_r (r : Result) : Prop := listed (Extension (r_info r)) = true.
Definition fine_f (f : found) : Prop := fine (OFile f).

Ltac okay H := apply bind_ok in H; let a := fresh "a" in let E := fresh "E" in destruct H as (a & E & H).

(** ** Parsers of single files *)
Lemma exec_listed pl file l : exec_Detailer pl file = Ok l -> Forall fine_r l.
Proof.
  unfold exec_Detailer. intros H. okay H. injection H as <-. constructor; [|constructor]. unfold fine_r, exec_result. cbn [r_info plain_result].
  assert (C : forall coff, listed (Extension (x_base (with_coff coff exec_new))) = true).
  { intros coff. unfold with_coff. cbv zeta. cbn [x_base]. destruct (negb (N.land (Exe.Model.field coff 22 2) 4096 =? 0)); [vm_compute; reflexivity|].
    destruct (negb (N.land (Exe.Model.field coff 22 2) 8192 =? 0)); vm_compute; reflexivity. }
  unfold exec_detail in E. cbv zeta in E. okay E. destruct (_ <? lenN _); [|injection E as <-; vm_compute; reflexivity]. okay E. destruct (_ <? lenN _).
  - okay E. injection E as <-. apply C.
  - injection E as <-. apply C.
Qed.
Lemma macho_listed file l : macho_Detailer file = Ok l -> Forall fine_r l.
Proof.
  unfold macho_Detailer. intros H. okay H. injection H as <-. constructor; [|constructor]. unfold macho_detail in E. cbv zeta in E.
  repeat (okay E). injection E as <-. vm_compute. reflexivity.
Qed.
Lemma dwg_listed buffer l : dwg_Detailer buffer = Ok l -> Forall fine_r l.
Proof.
  unfold dwg_Detailer. destruct (5 <? lenN buffer); intros H; repeat (okay H); injection H as <-; (constructor; [vm_compute; reflexivity|constructor]).
Qed.
Lemma mp4_listed buffer l : mp4_Detailer buffer = Ok l -> Forall fine_r l.
Proof.
  unfold mp4_Detailer. intros H. okay H. injection H as <-. constructor; [|constructor]. unfold mp4_detail in E. repeat (okay E). injection E as <-. vm_compute. reflexivity.
Qed.
Lemma riff_listed buffer l : riff_Detailer buffer = Ok l -> Forall fine_r l.
Proof.
  unfold riff_Detailer. intros H. okay H. injection H as <-. constructor; [|constructor]. unfold fine_r. cbn [r_info plain_result Extension].
  assert (G : forall rows, forallb (fun r => listed (snd r)) rows = true -> riff_try rows buffer = Ok a -> listed a = true).
  { induction rows as [|(p, x) rows IH]; intros F K; [injection K as <-; vm_compute; reflexivity|]. cbn [forallb snd] in F. apply andb_true_iff in F. destruct F as (F1 & F2). cbn [riff_try] in K.
    okay K. destruct a0; [injection K as <-; exact F1|exact (IH F2 K)]. }
  apply (G riff_kinds); [vm_compute; reflexivity|exact E].
Qed.
Lemma asf_loop_listed fuel parse : forall number size i index base r, listed (Extension base) = true -> detail_loop fuel parse number size i index base = Ok r -> listed (Extension (fst r)) = true.
Proof.
  induction fuel as [|k IH]; intros number size i index base r Hb H; [discriminate H|]. cbn [detail_loop] in H. destruct (_ && _); [|injection H as <-; exact Hb].
  okay H. destruct a as [c|]; [|injection H as <-; exact Hb]. okay H. injection H as <-. cbn [fst]. apply (IH _ _ _ _ _ _) in E0; [exact E0|].
  unfold classify. destruct c; try exact Hb.
  match goal with |- listed (Extension (match ?k with [] => _ | _ => _ end)) = true => destruct k as [|c1 [|c2 k]] end; try exact Hb.
  - destruct (Asf.Model.starts_with _ _); [vm_compute; reflexivity|exact Hb].
  - destruct (existsb _ _); [vm_compute; reflexivity|exact Hb].
Qed.
Lemma asf_listed pl file buffer l : asf_Detailer pl file buffer = Ok l -> Forall fine_r l.
Proof.
  unfold asf_Detailer. cbv zeta. intros H. okay H. destruct a as [o|]; [|injection H as <-; constructor; [vm_compute; reflexivity|constructor]]. destruct o; try discriminate H.
  okay H. injection H as <-. constructor; [|constructor]. unfold fine_r. cbn [r_info asf_result]. apply (asf_loop_listed _ _ _ _ _ _ _ _) in E0; [exact E0|vm_compute; reflexivity].
Qed.

(** ** Archives *)
Definition fine_table (t : list (bytes * (bytes * bytes))) : bool := forallb (fun r => listed (fst (snd r))) t.
Lemma lookup_listed t s k : fine_table t = true -> table_lookup t s = Some k -> listed (fst k) = true.
Proof.
  induction t as [|(x, y) t IH]; intros F H; [discriminate H|]. cbn [fine_table forallb snd] in F. apply andb_true_iff in F. destruct F as (F1 & F2). cbn [table_lookup] in H.
  destruct (bytes_eqb s x); [injection H as <-; exact F1|exact (IH F2 H)].
Qed.
Lemma add_listed r t : fine_r r -> Forall fine_r (fst t) -> Forall fine_r (fst (addExtension r t)).
Proof.
  destruct t as (ans, m). intros R F. unfold addExtension. destruct (seen _ m); [exact F|]. cbn [fst] in *. apply Forall_app. split; [exact F|constructor; [exact R|constructor]].
Qed.
Lemma check_type_listed t c s : fine_table t = true -> Forall fine_r (fst s) -> Forall fine_r (fst (CheckType t c s)).
Proof.
  intros T F. unfold CheckType. destruct (table_lookup t c) as [k|] eqn:E; [|exact F]. apply add_listed; [|exact F]. exact (lookup_listed t c k T E).
Qed.
Lemma bins_listed pl es names : forall ei r, fine_r ei -> analyze_bins pl es names ei = Ok r -> fine_r r.
Proof.
  induction names as [|n names IH]; intros ei r F H; [injection H as <-; exact F|]. cbn [analyze_bins] in H. destruct (GetEntry es n) as [e|]; [|discriminate H]. destruct (z_data e); [|discriminate H].
  destruct (Analyze pl _ _) as [p|x| |]; try discriminate H; apply IH in H; try exact H; vm_compute; reflexivity.
Qed.
Lemma check_types_listed pl es l : forall s r, Forall fine_r (fst s) -> check_types pl es l s = Ok r -> Forall fine_r (fst r).
Proof.
  induction l as [|c l IH]; intros s r F H; [injection H as <-; exact F|]. cbn [check_types] in H. cbv zeta in H. okay H. apply (IH a r); [|exact H].
  assert (G : Forall fine_r (fst (CheckType content_types c s))) by (apply check_type_listed; [vm_compute; reflexivity|exact F]).
  destruct (bytes_eqb c _); [|injection E as <-; exact G]. okay E. injection E as <-. apply add_listed; [|exact G]. apply bins_listed in E0; [exact E0|vm_compute; reflexivity].
Qed.
Lemma markers_listed es : Forall fine_r (CheckEntries es).
Proof.
  unfold CheckEntries. apply Forall_forall. intros r I. apply in_flat_map in I. destruct I as (k & I & J). destruct (GetEntry es (fst k)); [|contradiction]. destruct J as [<-|[]].
  revert k I. apply (proj1 (forallb_forall (fun k => listed (fst (snd k))) marker_entries)). vm_compute. reflexivity.
Qed.
Lemma zip_listed pl archive m t : zip_Detailer pl archive m = Ok t -> Forall fine_r (fst t).
Proof.
  unfold zip_Detailer. intros H. okay H. okay H. cbv zeta in H.
  assert (F : Forall fine_r (fst a0)).
  { destruct (GetEntry a _) as [e|]; [|injection E0 as <-; apply markers_listed]. okay E0. apply check_types_listed in E0; [exact E0|apply markers_listed]. }
  set (t' := match GetEntry a (B "mimetype") with Some e => match GetFile e with [] => a0 | _ :: _ => _ end | None => a0 end) in H.
  assert (G : Forall fine_r (fst t')).
  { unfold t'. destruct (GetEntry a (B "mimetype")) as [e|]; [|exact F]. destruct (GetFile e); [exact F|]. apply check_type_listed; [vm_compute; reflexivity|exact F]. }
  destruct t' as (ans, m'). injection H as <-. cbn [fst] in *. destruct ans; [|exact G]. constructor; [vm_compute; reflexivity|constructor].
Qed.

(** ** Compound files *)
Definition fine_row (m : OlessInfo) : bool := listed (oi_Extension m).
Section Compound.
Variables (pl : platform) (msg : exn -> bytes) (rows : list OlessInfo) (s : storage).
Hypothesis fine_rows : forallb fine_row rows = true.
Let excel := read_workbook pl msg.
Lemma details_listed d e name f : listed (Extension e) = true -> details pl excel s d e name = Ok f -> fine_f f.
Proof.
  intros He H. unfold details in H. okay H. destruct d.
  - okay H. injection H as <-. unfold word_Detailer in E0. okay E0. injection E0 as <-. exact He.
  - okay H. injection H as <-. unfold excel, read_workbook in E0. okay E0. injection E0 as <-. unfold fine_f, fine. cbn [extension_of wb_ext workbook_of].
    unfold Engine.Detailer in E1. cbv zeta in E1. destruct (Engine.ParseStream pl a) as [st|x st| |]; try discriminate E1; (destruct (Engine.s_vers st); [|discriminate E1]); injection E1 as <-; vm_compute; reflexivity.
  - okay H. okay H. injection H as <-. unfold powerpoint_Detailer in E1. okay E1. injection E1 as <-. exact He.
  - okay H. injection H as <-. unfold publisher_Detailer in E0. okay E0. injection E0 as <-. exact He.
  - okay H. injection H as <-. unfold visio_Detailer in E0. okay E0. injection E0 as <-. exact He.
  - injection H as <-. vm_compute. reflexivity.
  - injection H as <-. unfold fine_f, fine. cbn [extension_of]. unfold msi_Detailer. destruct (find _ a); [vm_compute; reflexivity|]. destruct (find _ a); [exact He|].
    destruct (find _ a); [vm_compute; reflexivity|exact He].
Qed.
Lemma rows_listed rest name : forall ei r, forallb fine_row rest = true -> (forall f, ei = Some f -> fine_f f) -> guess_rows pl excel s rest name ei = Ok (Some r) -> fine_f r.
Proof.
  induction rest as [|m rest IH]; intros ei r F G H; [injection H as H; exact (G r H)|]. cbn [forallb] in F. apply andb_true_iff in F. destruct F as (F1 & F2). cbn [guess_rows] in H.
  destruct (matches m name); [|exact (IH ei r F2 G H)]. okay H. apply (IH (Some a) r F2); [|exact H]. intros f K. injection K as <-. destruct (oi_extraFunc m) as [d|].
  - apply (details_listed d (row_ext m) name a); [exact F1|exact E].
  - injection E as <-. exact F1.
Qed.
Lemma guess_listed name fullname t t' : Forall fine_f (st_results t) -> guessStreamInfo pl excel rows s name fullname t = Ok t' -> Forall fine_f (st_results t').
Proof.
  intros F H. assert (P : forall f, fine_f f -> Forall fine_f (st_results (push_result f t))) by (intros f K; apply Forall_app; split; [exact F|constructor; [exact K|constructor]]).
  unfold guessStreamInfo in H. okay H. destruct a.
  - destruct (vba_storage name fullname); [|injection H as <-; exact F]. destruct (Analyze pl fullname s); try discriminate H; injection H as <-; apply P; vm_compute; reflexivity.
  - destruct (property_stream name).
    + destruct (parse_stream pl s fullname) as [ps|x| |]; try discriminate H; [injection H as <-; exact F|]. destruct x; try discriminate H. injection H as <-. exact F.
    + okay H. injection H as <-. destruct a as [r|]; [|exact F]. apply P. apply (rows_listed rows fullname None r fine_rows); [intros f K; discriminate K|exact E0].
Qed.
Lemma recurse_listed fuel : forall path t t', Forall fine_f (st_results t) -> recurse pl excel rows s fuel path t = Ok t' -> Forall fine_f (st_results t').
Proof.
  induction fuel as [|k IH]; intros path t t' F H; [discriminate H|]. cbn [recurse] in H. okay H. clear E.
  assert (F' : Forall fine_f (st_results (push_path path t))) by exact F. revert F' H. generalize (push_path path t) as u. clear F t. induction a as [|name names IHn]; intros u F H; [injection H as <-; exact F|].
  cbv zeta in H. okay H. okay H. okay H. apply (IHn _) in H; [exact H|]. pose proof (guess_listed _ _ _ _ F E) as G. destruct a0; [exact (IH _ _ _ G E1)|]. injection E1 as <-. exact G.
Qed.
End Compound.
Lemma attach_listed paths props l : Forall fine_f l -> Forall fine_f (attach paths props l).
Proof. induction 1 as [|f l H F IH]; [constructor|]. destruct f; cbn [attach]; constructor; assumption. Qed.
Lemma compound_listed pl msg rows file l : forallb fine_row rows = true -> Guess pl (read_workbook pl msg) rows file = Ok l -> Forall fine_f l.
Proof.
  intros R H. unfold Guess in H. okay H. okay H. injection H as <-. assert (F : Forall fine_f (st_results a0)).
  { destruct a; try (injection E0 as <-; constructor). apply (recurse_listed pl msg rows _ R) in E0; [exact E0|constructor]. }
  pose proof (attach_listed (st_paths a0) (st_props a0) _ F) as G. destruct (st_results a0); [constructor; [vm_compute; reflexivity|constructor]|exact G].
Qed.

(** ** The program *)
Section Program.
Variables (pl : platform) (msg : exn -> bytes) (archive : option bytes -> res (list zentry)) (file : option bytes) (buffer : bytes).
Definition fine_g (g : globals) : Prop := forallb fine_row (g_rows g) = true.
Lemma map_fine l : Forall fine_r l -> Forall fine (map OResult l).
Proof. induction 1; constructor; assumption. Qed.
Lemma map_fine_f l : Forall fine_f l -> Forall fine (map OFile l).
Proof. induction 1; constructor; assumption. Qed.
Lemma detail_listed p g t : fine_g g -> detail pl msg archive p file buffer g = Ok t -> Forall fine (fst t) /\ fine_g (snd t).
Proof.
  intros G H. destruct p; cbn [detail] in H; unfold plain_objects in H.
  - okay H. injection H as <-. split; [|exact G]. apply map_fine. exact (exec_listed _ _ _ E).
  - okay H. injection H as <-. split; [|exact G]. apply map_fine. exact (macho_listed _ _ E).
  - okay H. injection H as <-. split; [|exact G]. apply map_fine. exact (zip_listed _ _ _ _ E).
  - unfold Detailer in H. okay H. injection H as <-. assert (R : forallb fine_row (g_rows g ++ ole_list) = true).
    { rewrite forallb_app. unfold fine_g in G. rewrite G. vm_compute. reflexivity. }
    split; [|exact R]. apply map_fine_f. exact (compound_listed _ _ _ _ _ R E).
  - okay H. injection H as <-. split; [|exact G]. apply map_fine. exact (dwg_listed _ _ E).
  - injection H as <-. split; [|exact G]. constructor; [vm_compute; reflexivity|constructor].
  - okay H. injection H as <-. split; [|exact G]. apply map_fine. exact (mp4_listed _ _ E).
  - okay H. injection H as <-. split; [|exact G]. apply map_fine. exact (asf_listed _ _ _ _ E).
  - okay H. injection H as <-. split; [|exact G]. apply map_fine. exact (riff_listed _ _ E).
  - injection H as <-. split; [|exact G]. constructor; [vm_compute; reflexivity|constructor].
Qed.
Definition fine_signature (m : MagicInfo) : bool := match mi_func m with Some _ => true | None => listed (mi_ext m) end.
Lemma try_rows_listed rows : forall g t, forallb fine_signature rows = true -> fine_g g -> try_rows pl msg archive file buffer rows g = Ok t -> Forall fine (fst t).
Proof.
  induction rows as [|m rows IH]; intros g t F G H; [injection H as <-; constructor|]. cbn [forallb] in F. apply andb_true_iff in F. destruct F as (F1 & F2). cbn [try_rows] in H. okay H. okay H. injection H as <-.
  cbn [fst]. assert (K : Forall fine (fst a) /\ fine_g (snd a)).
  { unfold try_row in E. okay E. destruct a1; [|injection E as <-; split; [constructor|exact G]]. unfold fine_signature in F1. destruct (mi_func m) as [p|]; [exact (detail_listed p g a G E)|].
    injection E as <-. split; [constructor; [exact F1|constructor]|exact G]. }
  destruct K as (K1 & K2). apply Forall_app. split; [exact K1|]. exact (IH _ _ F2 K2 E0).
Qed.
End Program.
Theorem results_listed pl msg archive file rs : results pl msg archive file = Ok rs -> Forall fine rs.
Proof.
  unfold results. cbv zeta. intros H. okay H. injection H as <-. assert (F : Forall fine (fst a)).
  { destruct (0 <? _); [|injection E as <-; constructor]. apply try_rows_listed in E; [exact E|vm_compute; reflexivity|reflexivity]. }
  destruct (fst a); [|exact F]. constructor; [|constructor]. unfold fine, UnknownExtension. cbv zeta. destruct (0 <? lenN (readFile file 512)); vm_compute; reflexivity.
Qed.
