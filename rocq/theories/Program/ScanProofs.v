(** Proofs: the scan over the signatures with all parsers. *)
From Coq Require Import List NArith ZArith Lia Bool Strings.String ZifyBool ZifyNat ZifyN.
From Verif Require Import Lib.Res Lib.Bytes Lib.BytesFacts Lib.Text Common.Model Common.Spec Magic.Table Magic.Model Magic.GuessProofs Common.ReadProofs
     Exe.Model Media.Model Media.WordPerfect Asf.Model Zip.Model Detect.Model Program.Model Program.Statements.
From Verif Require Import Magic.Spec.
Import ListNotations.
Local Open Scope N_scope.

(** ** How often a parser is called *)
Definition calls_of (p : parser -> bool) (mi : MagicInfo) : nat :=
  match mi_func mi with Some q => if p q then 1%nat else 0%nat | None => 0%nat end.
Fixpoint uses (p : parser -> bool) (l : list MagicInfo) : nat :=
  match l with [] => 0%nat | mi :: r => (calls_of p mi + uses p r)%nat end.
Definition is_ole (p : parser) : bool := match p with POless => true | _ => false end.
Definition is_zip (p : parser) : bool := match p with PZip => true | _ => false end.
Lemma table_uses : uses is_ole table = 1%nat /\ uses is_zip table = 1%nat.
Proof. split; vm_compute; reflexivity. Qed.
(** The global variables are as at the start when a parser that reads them is still to come. *)
Definition fresh (l : list MagicInfo) (g : globals) : Prop :=
  (uses is_ole l = 0%nat \/ uses is_ole l = 1%nat /\ g_rows g = []) /\ (uses is_zip l = 0%nat \/ uses is_zip l = 1%nat /\ g_map g = []).
Lemma fresh_skip mi l g : fresh (mi :: l) g -> fresh l g.
Proof.
  unfold fresh. cbn [uses]. intros [A C]. split; [destruct A as [A|[A E]]|destruct C as [C|[C E]]];
    try (left; lia).
  - destruct (uses is_ole l) eqn:U; [left; reflexivity|right; split; [lia|exact E]].
  - destruct (uses is_zip l) eqn:U; [left; reflexivity|right; split; [lia|exact E]].
Qed.

Lemma signature_row mi : signature_info mi = row_info mi.
Proof. unfold signature_info, row_info. destruct (mi_version mi) as [|c v]; [reflexivity|]. rewrite lenN_cons. destruct (N.ltb_spec 0 (lenN v + 1)); [reflexivity|lia]. Qed.

Section Scan.
Variables (pl : platform) (msg : exn -> bytes) (archive : option bytes -> res (list zentry)) (content : bytes).
Hypothesis small : lenN content < 2 ^ 32.
Notation buffer := (takeN 65536 content).
Notation says := (parser_says pl msg archive content).

Lemma detail_fresh mi p l g : mi_func mi = Some p -> fresh (mi :: l) g ->
  match says p with
  | Ok a => exists g', detail pl msg archive p (Some content) buffer g = Ok (a, g') /\ fresh l g'
  | r => detail pl msg archive p (Some content) buffer g = (_ <- r ;; Ok ([], g))
  end.
Proof.
  intros Ef Fr. pose proof (fresh_skip _ _ _ Fr) as Fl.
  destruct p; cbn [says detail]; unfold parser_says, detail, plain_objects; cbv zeta.
  - destruct (exec_Detailer pl (Some content)); cbn [bind]; try reflexivity. exists g. auto.
  - destruct (macho_Detailer (Some content)); cbn [bind]; try reflexivity. exists g. auto.
  - assert (E : g_map g = []).
    { destruct Fr as [_ [A|[A E]]]; [|exact E]. cbn [uses] in A. unfold calls_of in A. rewrite Ef in A. cbn [is_zip] in A. lia. }
    rewrite E. destruct (zip_Detailer pl (archive (Some content)) []) as [t| | |]; cbn [bind]; try reflexivity.
    eexists. split; [reflexivity|]. destruct Fr as [A C]. unfold fresh. cbn [uses] in A, C. unfold calls_of in A, C. rewrite Ef in A, C. cbn [is_zip is_ole] in A, C.
    cbn [g_rows g_map]. split; [destruct A as [A|[A Ea]]; [left; lia|right; split; [lia|exact Ea]]|left; lia].
  - assert (E : g_rows g = []).
    { destruct Fr as [[A|[A E]] _]; [|exact E]. cbn [uses] in A. unfold calls_of in A. rewrite Ef in A. cbn [is_ole] in A. lia. }
    unfold Detailer. rewrite E. cbn [app]. destruct (Guess pl (read_workbook pl msg) ole_list (Some content)) as [t| | |]; cbn [bind]; try reflexivity.
    eexists. split; [reflexivity|]. destruct Fr as [A C]. unfold fresh. cbn [uses] in A, C. unfold calls_of in A, C. rewrite Ef in A, C. cbn [is_zip is_ole] in A, C.
    cbn [g_rows g_map]. split; [left; lia|destruct C as [C|[C Ec]]; [left; lia|right; split; [lia|exact Ec]]].
  - destruct (dwg_Detailer buffer); cbn [bind]; try reflexivity. exists g. auto.
  - exists g. auto.
  - destruct (mp4_Detailer buffer); cbn [bind]; try reflexivity. exists g. auto.
  - destruct (asf_Detailer pl (Some content) buffer); cbn [bind]; try reflexivity. exists g. auto.
  - destruct (riff_Detailer buffer); cbn [bind]; try reflexivity. exists g. auto.
  - destruct jpeg_Detailer; cbn [bind]; try reflexivity. exists g. auto.
Qed.


(** A failing parser after rows that answer. *)
Notation stopped := (Program.Statements.stopped pl msg archive content).
Lemma rows_decided l : (exists rs, reports content row_says says l rs) \/ (exists r, stopped l r).
Proof.
  induction l as [|mi l IH]; [left; exists []; constructor|].
  assert (D : carries content mi \/ ~ carries content mi).
  { destruct (checkMagic_iff content (mi_magic mi) (mi_offset mi)) as ([|] & _ & H); [left; apply H; reflexivity|right; intros C; apply H in C; discriminate]. }
  assert (skip : forall r rs0, (forall found, reports content row_says says l found -> reports content row_says says (mi :: l) (rs0 ++ found)) ->
            (forall b found, reports content row_says says b found -> reports content row_says says (mi :: b) (rs0 ++ found)) ->
            stopped l r -> stopped (mi :: l) r).
  { intros r rs0 _ K (b & m & a & p & found & -> & R & C & F & E & N). exists (mi :: b), m, a, p, (rs0 ++ found). repeat split; auto. }
  destruct D as [C|C].
  - destruct (mi_func mi) as [p|] eqn:F.
    + destruct (says p) as [a| | |] eqn:E.
      * destruct IH as [[rs R]|[r S]].
        -- left. eexists. eapply rp_parsed; eauto.
        -- right. exists r. apply (skip r a); try exact S; intros; eapply rp_parsed; eauto.
      * right. eexists. exists [], mi, l, p, []. split; [reflexivity|]. split; [apply rp_done|]. split; [exact C|]. split; [exact F|]. split; [exact E|]. intros ? K; discriminate K.
      * right. eexists. exists [], mi, l, p, []. split; [reflexivity|]. split; [apply rp_done|]. split; [exact C|]. split; [exact F|]. split; [exact E|]. intros ? K; discriminate K.
      * right. eexists. exists [], mi, l, p, []. split; [reflexivity|]. split; [apply rp_done|]. split; [exact C|]. split; [exact F|]. split; [exact E|]. intros ? K; discriminate K.
    + destruct IH as [[rs R]|[r S]].
      * left. eexists. eapply rp_plain; eauto.
      * right. exists r. apply (skip r [row_says mi]); try exact S; intros; eapply rp_plain; eauto.
  - destruct IH as [[rs R]|[r S]].
    + left. exists rs. apply rp_absent; assumption.
    + right. exists r. apply (skip r []); try exact S; intros; apply rp_absent; assumption.
Qed.

Lemma rows_ok l rs : reports content row_says says l rs -> forall rest g, incl (l ++ rest) table -> fresh (l ++ rest) g ->
  exists g', fresh rest g' /\
    try_rows pl msg archive (Some content) buffer (l ++ rest) g = (b <- try_rows pl msg archive (Some content) buffer rest g' ;; Ok (rs ++ fst b, snd b)).
Proof.
  induction 1 as [|mi l rs NC R IH|mi l rs C F R IH|mi p a l rs C F E R IH]; intros rest g I Fr; cbn [app] in *.
  - exists g. split; [exact Fr|]. destruct (try_rows _ _ _ _ _ rest g) as [[b g2]| | |]; reflexivity.
  - destruct (checkMagic_window content mi (I mi (or_introl eq_refl)) small) as (h & Eh & Hh).
    destruct h; [exfalso; apply NC; apply Hh; reflexivity|].
    destruct (IH rest g) as (g' & Fg & T); [intros x Hx; apply I; right; exact Hx|eapply fresh_skip; exact Fr|].
    exists g'. split; [exact Fg|]. cbn [try_rows]. unfold try_row. rewrite Eh. cbn [bind snd fst]. rewrite T.
    destruct (try_rows _ _ _ _ _ rest g') as [[b g2]| | |]; reflexivity.
  - destruct (checkMagic_window content mi (I mi (or_introl eq_refl)) small) as (h & Eh & Hh).
    rewrite (proj2 Hh C) in Eh.
    destruct (IH rest g) as (g' & Fg & T); [intros x Hx; apply I; right; exact Hx|eapply fresh_skip; exact Fr|].
    exists g'. split; [exact Fg|]. cbn [try_rows]. unfold try_row. rewrite Eh. cbn [bind]. rewrite F. cbn [bind snd fst]. rewrite T, signature_row.
    destruct (try_rows _ _ _ _ _ rest g') as [[b g2]| | |]; reflexivity.
  - destruct (checkMagic_window content mi (I mi (or_introl eq_refl)) small) as (h & Eh & Hh).
    rewrite (proj2 Hh C) in Eh. pose proof (detail_fresh mi p (l ++ rest) g F Fr) as D. rewrite E in D. destruct D as (g1 & D & F1).
    destruct (IH rest g1) as (g' & Fg & T); [intros x Hx; apply I; right; exact Hx|exact F1|].
    exists g'. split; [exact Fg|]. cbn [try_rows]. unfold try_row. rewrite Eh. cbn [bind]. rewrite F, D. cbn [bind snd fst]. rewrite T.
    destruct (try_rows _ _ _ _ _ rest g') as [[b g2]| | |]; cbn [bind fst snd]; [rewrite app_assoc|..]; reflexivity.
Qed.
Lemma rows_fail r : stopped table r -> try_rows pl msg archive (Some content) buffer table (mkGlobals [] []) = (_ <- r ;; Ok ([], mkGlobals [] [])).
Proof.
  intros (before & mi & after & p & found & T & R & C & F & E & N).
  destruct (rows_ok before found R (mi :: after) (mkGlobals [] [])) as (g' & Fg & Q).
  { rewrite <- T. apply incl_refl. }
  { rewrite <- T. destruct table_uses as [U1 U2]. split; right; split; auto. }
  rewrite <- T in Q. rewrite Q. cbn [try_rows]. unfold try_row.
  destruct (checkMagic_window content mi) as (h & Eh & Hh); [rewrite T; apply in_or_app; right; left; reflexivity|exact small|].
  rewrite (proj2 Hh C) in Eh. rewrite Eh. cbn [bind]. rewrite F. pose proof (detail_fresh mi p after g' F Fg) as D. rewrite E in D.
  destruct r as [a| | |]; [exfalso; exact (N a eq_refl)|rewrite D; reflexivity..].
Qed.

Lemma unknown_of : UnknownExtension (Some content) =
  match content with [] => plain_result (mkExt (B "empty") (B "Empty File") [] 0 []) | _ => unknown_result (takeN 512 content) end.
Proof.
  unfold UnknownExtension. rewrite readFile_small by exact small. destruct content as [|c l]; [reflexivity|].
  rewrite lenN_takeN, lenN_cons. destruct (N.ltb_spec 0 (N.min 512 (lenN l + 1))); [reflexivity|lia].
Qed.
Lemma results_eq : results pl msg archive (Some content) =
  (t <- try_rows pl msg archive (Some content) buffer table (mkGlobals [] []) ;; Ok (or_unknown content (fst t))).
Proof.
  unfold results. replace (getMinimumBufferSize table) with 65536 by (rewrite <- (copies_1 table); symmetry; apply (window_size 0)).
  rewrite readFile_small by exact small. rewrite unknown_of.
  destruct (N.ltb_spec 0 (lenN buffer)) as [H|H].
  - destruct (try_rows _ _ _ _ _ _ _) as [[l g]| | |]; cbn [bind fst]; try reflexivity. destruct l; [destruct content; reflexivity|reflexivity].
  - assert (E : content = []) by (apply lenN_0; rewrite lenN_takeN in H; lia).
    cbn [bind fst]. rewrite E. assert (R : reports [] row_says (parser_says pl msg archive content) table []) by (apply reports_nil; [apply incl_refl|reflexivity]).
    destruct (rows_ok table [] ltac:(rewrite E at 1; exact R) [] (mkGlobals [] [])) as (g' & _ & Q).
    { rewrite app_nil_r. apply incl_refl. }
    { rewrite app_nil_r. destruct table_uses as [U1 U2]. split; right; split; auto. }
    rewrite app_nil_r in Q. rewrite E in Q. rewrite Q. reflexivity.
Qed.

Theorem results_ok rs : results pl msg archive (Some content) = Ok rs <->
  exists found, reports content row_says says table found /\ rs = or_unknown content found.
Proof.
  assert (K : forall found, reports content row_says says table found -> results pl msg archive (Some content) = Ok (or_unknown content found)).
  { intros found R. rewrite results_eq. destruct (rows_ok table found R [] (mkGlobals [] [])) as (g' & _ & Q).
    { rewrite app_nil_r. apply incl_refl. }
    { rewrite app_nil_r. destruct table_uses as [U1 U2]. split; right; split; auto. }
    rewrite app_nil_r in Q. rewrite Q. cbn [try_rows bind fst]. rewrite app_nil_r. reflexivity. }
  split.
  - intros E. destruct (rows_decided table) as [[found R]|[r S]].
    + exists found. split; [exact R|]. rewrite (K found R) in E. congruence.
    + rewrite results_eq, (rows_fail r S) in E. destruct S as (? & ? & ? & ? & ? & ? & ? & ? & ? & ? & N).
      destruct r; try discriminate E. exfalso. eapply N. reflexivity.
  - intros (found & R & ->). apply K. exact R.
Qed.
Theorem results_fail r : fails r -> (results pl msg archive (Some content) = r <-> stopped table r).
Proof.
  assert (K : forall r', stopped table r' -> results pl msg archive (Some content) = r').
  { intros r' S. rewrite results_eq, (rows_fail r' S). destruct S as (? & ? & ? & ? & ? & ? & ? & ? & ? & ? & N').
    destruct r'; try reflexivity. exfalso. eapply N'. reflexivity. }
  intros N. split; [|apply K].
  intros E. destruct (rows_decided table) as [[found R]|[r' S]].
  - rewrite (proj2 (results_ok _) (ex_intro _ found (conj R eq_refl))) in E. exfalso. eapply N. symmetry. exact E.
  - rewrite (K r' S) in E. subst. exact S.
Qed.
End Scan.
