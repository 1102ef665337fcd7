(** Proofs: which files the program answers for, when no container is opened. *)
From Coq Require Import List NArith ZArith Lia Bool Strings.String ZifyBool ZifyNat ZifyN.
From Verif Require Import Lib.Res Lib.Bytes Lib.BytesFacts Lib.Text Common.Model Common.Spec Magic.Table Magic.Model Magic.GuessProofs Common.ReadProofs
     Exe.Tables Exe.Model Exe.Spec Exe.Proofs Exe.PropertyLemmas Media.Model Media.Spec Media.Proofs Media.WordPerfect Asf.Model Zip.Model Detect.Model Detect.Output
     Program.Model Program.Statements Program.ScanProofs.
From Verif Require Media.PropertyLemmas.
From Verif Require Import Magic.Spec Magic.DocProofs Magic.DocBase.
Import ListNotations.
Local Open Scope N_scope.

(** ** The rows with a parser *)
Definition parser_rows : list (parser * (bytes * N)) := [
  (PExec, (B "MZ", 0));
  (PMachO, ([xfe; xed; xfa; xce], 0)); (PMachO, ([xce; xfa; xed; xfe], 0)); (PMachO, ([xfe; xed; xfa; xcf], 0)); (PMachO, ([xcf; xfa; xed; xfe], 0));
  (PZip, (B "PK", 0)); (PJpeg, ([xff; xd8], 0)); (POless, ([xd0; xcf; x11; xe0], 0)); (PDwg, (B "AC10", 0));
  (PWordPerfect, (xff :: B "WPC", 0)); (PWordPerfect, ([xff; xff; x61; x61], 0)); (PMp4, (B "ftyp", 4));
  (PAsf, (asf_magic, 0)); (PRiff, (B "RIFF", 0))].
Definition row_parser (mi : MagicInfo) : list (parser * (bytes * N)) :=
  match mi_func mi with Some p => [(p, (mi_magic mi, mi_offset mi))] | None => [] end.
Lemma table_parsers : flat_map row_parser table = parser_rows.
Proof. vm_compute. reflexivity. Qed.
Definition called (content : bytes) (p : parser) : Prop := exists m o, In (p, (m, o)) parser_rows /\ occurs_at m content o.
Lemma called_row content p : called content p <-> exists mi, In mi table /\ mi_func mi = Some p /\ carries content mi.
Proof.
  unfold called. rewrite <- table_parsers. split.
  - intros (m & o & I & H). apply in_flat_map in I. destruct I as (mi & Hi & I). exists mi. unfold row_parser in I.
    destruct (mi_func mi) as [q|]; [|destruct I]. destruct I as [I|[]]. injection I as <- <- <-. auto.
  - intros (mi & Hi & F & C). exists (mi_magic mi), (mi_offset mi). split; [|exact C]. apply in_flat_map. exists mi. split; [exact Hi|].
    unfold row_parser. rewrite F. left. reflexivity.
Qed.
Ltac rows_of I := unfold parser_rows in I; cbn [In] in I;
  repeat (destruct I as [I|I]; [first [discriminate I|injection I as <- <-]|]); [..|destruct I].
Lemma called_exec content : called content PExec <-> starts content (B "MZ").
Proof.
  split; [intros (m & o & I & H); rows_of I; exact H|intros H; exists (B "MZ"), 0; split; [|exact H]]. cbn. auto 20.
Qed.
Lemma called_macho content : called content PMachO <-> starts_one content mach_magics.
Proof.
  split.
  - intros (m & o & I & H). rows_of I; (eexists; split; [|exact H]; cbn; auto 10).
  - intros (m & I & H). exists m, 0. split; [|exact H]. unfold mach_magics in I. cbn [In] in I. destruct I as [<-|[<-|[<-|[<-|[]]]]]; cbn; auto 20.
Qed.
Lemma called_wp content : called content PWordPerfect <-> starts_one content wp_magics.
Proof.
  split.
  - intros (m & o & I & H). rows_of I; (eexists; split; [|exact H]; cbn; auto 10).
  - intros (m & I & H). exists m, 0. split; [|exact H]. unfold wp_magics in I. cbn [In] in I. destruct I as [<-|[<-|[]]]; cbn; auto 20.
Qed.
Lemma called_mp4 content : called content PMp4 <-> occurs_at (B "ftyp") content 4.
Proof. split; [intros (m & o & I & H); rows_of I; exact H|intros H; exists (B "ftyp"), 4; split; [|exact H]]. cbn. auto 20. Qed.
Lemma called_zip content : called content PZip <-> starts content (B "PK").
Proof. split; [intros (m & o & I & H); rows_of I; exact H|intros H; exists (B "PK"), 0; split; [|exact H]]. cbn. auto 20. Qed.
Lemma called_ole content : called content POless <-> starts content [xd0; xcf; x11; xe0].
Proof. split; [intros (m & o & I & H); rows_of I; exact H|intros H; exists [xd0; xcf; x11; xe0], 0; split; [|exact H]]. cbn. auto 20. Qed.
Lemma called_asf content : called content PAsf <-> starts content asf_magic.
Proof. split; [intros (m & o & I & H); rows_of I; exact H|intros H; exists asf_magic, 0; split; [|exact H]]. cbn. auto 20. Qed.

(** ** The parsers of files that are not containers *)
Lemma kind_plain k : info_plain (mkExt (fst (pe_kind k)) [] [] 0 (snd (pe_kind k))) = true.
Proof. unfold pe_kind. repeat (match goal with |- context [if ?c then _ else _] => destruct c end); reflexivity. Qed.
Lemma dwg_plain a b : plain (dwg_version a b) = true.
Proof. unfold dwg_version. repeat (match goal with |- context [if ?c then _ else _] => destruct c end); reflexivity. Qed.
Lemma riff_plain rows b e : forallb (fun r => plain (snd r)) rows = true -> riff_try rows b = Ok e -> plain e = true.
Proof.
  induction rows as [|[k v] rows IH]; cbn [riff_try forallb]; [intros _ [= <-]; reflexivity|]. intros H E. apply andb_true_iff in H. destruct H as [Hv H].
  apply bind_ok in E. destruct E as (t & _ & E). destruct t; [|apply IH; assumption].
  injection E as <-. exact Hv.
Qed.

Section File.
Variables (pl : platform) (msg : exn -> bytes) (archive : option bytes -> res (list zentry)) (content : bytes).
Hypothesis small : lenN content < 2 ^ 32.
Hypothesis sup : supported pl.
Notation says := (parser_says pl msg archive content).
Definition one_plain (r : res (list object)) : Prop := exists e, info_plain e = true /\ r = Ok [OResult (plain_result e)].

Lemma says_exec : if 64 <=? lenN content then one_plain (says PExec) else says PExec = UB.
Proof.
  unfold parser_says. destruct (N.leb_spec 64 (lenN content)) as [H|H].
  - destruct (C29_answers pl content sup) as (r & E); [lia|]. destruct (C30_shown _ _ _ E) as (k & K). injection K as ->.
    rewrite E. eexists. split; [apply (kind_plain k)|reflexivity].
  - unfold exec_Detailer. rewrite exec_short by lia. reflexivity.
Qed.
Lemma says_macho : if 28 <=? lenN content then exists i, macho_detail (Some content) = Ok i /\ says PMachO = Ok [OResult (macho_result i)] else says PMachO = UB.
Proof.
  unfold parser_says, macho_Detailer. destruct (N.leb_spec 28 (lenN content)) as [H|H].
  - destruct (macho_ok content) as (i & E); [lia|]. rewrite E. exists i. auto.
  - rewrite macho_short by lia. reflexivity.
Qed.
Lemma says_mp4 : if lenN content <? 15 then says PMp4 = Throw RangeError else if lenN content =? 15 then says PMp4 = UB else one_plain (says PMp4).
Proof.
  unfold parser_says. destruct (Media.PropertyLemmas.C34_exact (takeN 65536 content)) as (A & C & D). rewrite lenN_takeN in A, C, D.
  destruct (N.ltb_spec (lenN content) 15); [rewrite A by lia; reflexivity|]. destruct (N.eqb_spec (lenN content) 15); [rewrite C by lia; reflexivity|].
  rewrite D by lia. eexists. split; [|reflexivity]. reflexivity.
Qed.
Lemma says_riff : one_plain (says PRiff).
Proof.
  unfold parser_says. destruct (Media.PropertyLemmas.C36_total (takeN 65536 content)) as (e & E). rewrite E. eexists. split; [|reflexivity].
  unfold riff_Detailer in E. apply bind_ok in E. destruct E as (x & Ex & E). injection E as ->. unfold info_plain. cbn [Extension Name SubType VersionName].
  rewrite (riff_plain riff_kinds _ _ eq_refl Ex). reflexivity.
Qed.
Lemma says_dwg : one_plain (says PDwg).
Proof.
  unfold parser_says, dwg_Detailer. destruct (N.ltb_spec 5 (lenN (takeN 65536 content))) as [H|H].
  - destruct (rd_lt (takeN 65536 content) 4) as (b4 & E4 & _); [lia|]. destruct (rd_lt (takeN 65536 content) 5) as (b5 & E5 & _); [lia|].
    rewrite E4, E5. eexists. split; [|reflexivity]. unfold info_plain. cbn [Extension Name SubType VersionName]. rewrite dwg_plain. reflexivity.
  - eexists. split; [|reflexivity]. reflexivity.
Qed.
Lemma says_jpeg : one_plain (says PJpeg).
Proof. eexists. split; [|reflexivity]. reflexivity. Qed.

(** ** All results *)
Hypothesis plain_file : no_container content.

Notation long_enough := (Program.Statements.long_enough content).
Definition simple (o : object) : Prop :=
  (exists e, info_plain e = true /\ o = OResult (plain_result e)) \/ (exists i, macho_detail (Some content) = Ok i /\ o = OResult (macho_result i)) \/
  (exists s, o = OResult (unknown_result s)) \/ (starts_one content wp_magics /\ o = OFile (FWordPerfect (mkWp wp_ext None))).

Lemma simple_says p a : called content p -> says p = Ok a -> Forall simple a.
Proof.
  intros C E. destruct plain_file as (Nz & No & Na).
  assert (one : forall r, one_plain r -> r = Ok a -> Forall simple a).
  { intros r (e & He & ->) [= <-]. constructor; [|constructor]. left. exists e. auto. }
  destruct p.
  - pose proof says_exec as H. destruct (64 <=? lenN content); [exact (one _ H E)|rewrite H in E; discriminate].
  - pose proof says_macho as H. destruct (28 <=? lenN content); [|rewrite H in E; discriminate]. destruct H as (i & Hi & H). rewrite H in E. injection E as <-.
    constructor; [|constructor]. right. left. exists i. auto.
  - exfalso. apply Nz. apply called_zip. exact C.
  - exfalso. apply No. apply called_ole. exact C.
  - exact (one _ says_dwg E).
  - injection E as <-. constructor; [|constructor]. right. right. right. split; [apply called_wp; exact C|reflexivity].
  - pose proof says_mp4 as H. destruct (lenN content <? 15); [rewrite H in E; discriminate|]. destruct (lenN content =? 15); [rewrite H in E; discriminate|]. exact (one _ H E).
  - exfalso. apply Na. apply called_asf. exact C.
  - exact (one _ says_riff E).
  - exact (one _ says_jpeg E).
Qed.
Lemma simple_fails p r : called content p -> says p = r -> fails r ->
  (p = PExec /\ starts content (B "MZ") /\ lenN content < 64 /\ r = UB) \/
  (p = PMachO /\ starts_one content mach_magics /\ lenN content < 28 /\ r = UB) \/
  (p = PMp4 /\ occurs_at (B "ftyp") content 4 /\ ((lenN content < 15 /\ r = Throw RangeError) \/ (lenN content = 15 /\ r = UB))).
Proof.
  intros C E N. destruct plain_file as (Nz & No & Na).
  assert (one : forall r0, one_plain r0 -> r0 = r -> False).
  { intros r0 (e & He & ->) Er. eapply N. symmetry. exact Er. }
  destruct p.
  - left. pose proof says_exec as H. destruct (N.leb_spec 64 (lenN content)); [exfalso; exact (one _ H E)|]. repeat split; [apply called_exec; exact C|assumption|congruence].
  - right. left. pose proof says_macho as H. destruct (N.leb_spec 28 (lenN content)).
    + destruct H as (i & _ & H). exfalso. eapply N. rewrite <- E. exact H.
    + repeat split; [apply called_macho; exact C|assumption|congruence].
  - exfalso. apply Nz. apply called_zip. exact C.
  - exfalso. apply No. apply called_ole. exact C.
  - exfalso. exact (one _ says_dwg E).
  - exfalso. eapply N. symmetry. exact E.
  - right. right. split; [reflexivity|]. split; [apply called_mp4; exact C|]. pose proof says_mp4 as H.
    destruct (N.ltb_spec (lenN content) 15); [left; split; [assumption|congruence]|].
    destruct (N.eqb_spec (lenN content) 15); [right; split; [assumption|congruence]|]. exfalso. exact (one _ H E).
  - exfalso. apply Na. apply called_asf. exact C.
  - exfalso. exact (one _ says_riff E).
  - exfalso. exact (one _ says_jpeg E).
Qed.

Lemma all_simple rs : results pl msg archive (Some content) = Ok rs -> Forall simple rs.
Proof.
  intros E. apply results_ok in E; [|exact small]. destruct E as (found & R & ->).
  assert (F : Forall simple found).
  { rewrite Forall_forall. intros o I. destruct (reports_in_inv _ _ _ _ _ _ R I) as [(mi & A & K1 & K2 & ->)|(mi & p & l & A & K1 & K2 & K3 & K4)].
    - left. eexists. split; [|reflexivity]. rewrite <- signature_row. apply (signature_plain mi A K1).
    - assert (C : called content p) by (apply called_row; exists mi; auto). pose proof (simple_says p l C K3) as F. rewrite Forall_forall in F. apply F. exact K4. }
  unfold or_unknown. destruct found; [|exact F]. destruct content; (constructor; [|constructor]).
  - left. eexists. split; [|reflexivity]. reflexivity.
  - right. right. left. eexists. reflexivity.
Qed.
Lemma results_exist : long_enough -> exists rs, results pl msg archive (Some content) = Ok rs.
Proof.
  intros (L1 & L2 & L3). destruct (rows_decided pl msg archive content table) as [[rs R]|[r S]].
  - eexists. apply results_ok; [exact small|]. exists rs. split; [exact R|reflexivity].
  - exfalso. destruct S as (b & mi & a & p & found & T & R & C & F & E & N).
    assert (K : called content p). { apply called_row. exists mi. split; [rewrite T; apply in_or_app; right; left; reflexivity|auto]. }
    destruct (simple_fails p r K E N) as [(_ & H & L & _)|[(_ & H & L & _)|(_ & H & L)]].
    + specialize (L1 H). lia.
    + specialize (L2 H). lia.
    + specialize (L3 H). lia.
Qed.
Lemma results_long rs : results pl msg archive (Some content) = Ok rs -> long_enough.
Proof.
  intros E. apply results_ok in E; [|exact small]. destruct E as (found & R & _).
  assert (K : forall p, called content p -> exists a, says p = Ok a).
  { intros p C. apply called_row in C. destruct C as (mi & I & F & C). clear - R I F C.
    induction R as [|mi0 l rs NC R IH|mi0 l rs C0 F0 R IH|mi0 p0 a l rs C0 F0 E R IH]; [destruct I|..]; (destruct I as [<-|I]; [|apply IH; exact I]).
    - contradiction.
    - congruence.
    - rewrite F in F0. injection F0 as <-. exists a. exact E. }
  split; [|split].
  - intros H. apply called_exec in H. apply K in H. destruct H as (a & H). pose proof says_exec as S. destruct (N.leb_spec 64 (lenN content)); [assumption|rewrite S in H; discriminate].
  - intros H. apply called_macho in H. apply K in H. destruct H as (a & H). pose proof says_macho as S. destruct (N.leb_spec 28 (lenN content)); [assumption|rewrite S in H; discriminate].
  - intros H. apply called_mp4 in H. apply K in H. destruct H as (a & H). pose proof says_mp4 as S. destruct (N.ltb_spec (lenN content) 15); [rewrite S in H; discriminate|].
    destruct (N.eqb_spec (lenN content) 15); [rewrite S in H; discriminate|lia].
Qed.
Lemma wp_in_results rs : results pl msg archive (Some content) = Ok rs -> starts_one content wp_magics -> In (OFile (FWordPerfect (mkWp wp_ext None))) rs.
Proof.
  intros E H. apply results_ok in E; [|exact small]. destruct E as (found & R & ->). apply called_wp in H. apply called_row in H. destruct H as (mi & I & F & C).
  assert (K : In (OFile (FWordPerfect (mkWp wp_ext None))) found).
  { clear - R I F C. induction R as [|mi0 l rs NC R IH|mi0 l rs C0 F0 R IH|mi0 p0 a l rs C0 F0 E R IH]; [destruct I|..]; (destruct I as [<-|I]; [|try (apply IH; exact I)]).
    - contradiction.
    - congruence.
    - right. apply IH. exact I.
    - rewrite F in F0. injection F0 as <-. injection E as <-. left. reflexivity.
    - apply in_or_app. right. apply IH. exact I. }
  destruct found; [destruct K|exact K].
Qed.
Lemma shown_iff f rs : results pl msg archive (Some content) = Ok rs ->
  ((exists ts, mapM (show pl f) rs = Ok ts) <-> (starts_one content wp_magics -> rows_only f)).
Proof.
  intros E. pose proof (all_simple rs E) as S. split.
  - intros (ts & T) H. pose proof (wp_in_results rs E H) as I. clear - T I. revert ts T.
    induction rs as [|o rs IH]; [destruct I|]. intros ts T. cbn [mapM] in T. apply bind_ok in T. destruct T as (t & Et & T). apply bind_ok in T. destruct T as (ts' & Es & _).
    destruct I as [->|I]; [|exact (IH I ts' Es)]. destruct f; [left; reflexivity|discriminate Et|discriminate Et|right; reflexivity] || (destruct f; cbn in Et; try discriminate Et; unfold rows_only; auto).
  - intros H. clear E. induction S as [|o rs S F (ts & IH)]; [exists []; reflexivity|]. cbn [mapM]. rewrite IH.
    assert (X : exists t, show pl f o = Ok t).
    { destruct S as [(e & _ & ->)|[(i & _ & ->)|[(s & ->)|(W & ->)]]]; try (eexists; reflexivity). destruct (H W) as [->| ->]; eexists; reflexivity. }
    destruct X as (t & ->). eexists. reflexivity.
Qed.
Lemma shown_ub f rs : results pl msg archive (Some content) = Ok rs -> (exists ts, mapM (show pl f) rs = Ok ts) \/ mapM (show pl f) rs = UB.
Proof.
  intros E. pose proof (all_simple rs E) as S. clear E. induction S as [|o rs S F [(ts & IH)|IH]]; [left; exists []; reflexivity|..]; cbn [mapM]; rewrite IH;
    (assert (X : (exists t, show pl f o = Ok t) \/ show pl f o = UB);
     [destruct S as [(e & _ & ->)|[(i & _ & ->)|[(s & ->)|(W & ->)]]]; try (left; eexists; reflexivity); destruct f; (left; eexists; reflexivity) || (right; reflexivity)|]);
    destruct X as [(t & ->)| ->]; cbn [bind]; eauto.
Qed.

(** ** The program *)
Variables (fs : bytes -> option bytes) (file f : bytes).
Hypothesis stored : fs file = Some content.
Lemma program_eq : program pl msg archive fs [file; f] =
  (l <- results pl msg archive (Some content) ;; shown <- mapM (show pl (ParseOutputFormat f)) l ;; Ok (layout (ParseOutputFormat f) file (B "extensions") shown)).
Proof. unfold program. rewrite stored. reflexivity. Qed.
Theorem answers_iff : (exists out, program pl msg archive fs [file; f] = Ok out) <->
  long_enough /\ (starts_one content wp_magics -> rows_only (ParseOutputFormat f)).
Proof.
  rewrite program_eq. split.
  - intros (out & E). apply bind_ok in E. destruct E as (rs & Er & E). apply bind_ok in E. destruct E as (ts & Et & _).
    split; [exact (results_long rs Er)|]. apply (shown_iff _ rs Er). exists ts. exact Et.
  - intros (L & W). destruct (results_exist L) as (rs & Er). rewrite Er. cbn [bind]. destruct (proj2 (shown_iff _ rs Er) W) as (ts & Et). rewrite Et. eexists. reflexivity.
Qed.
Theorem other_outcomes : (exists out, program pl msg archive fs [file; f] = Ok out) \/ program pl msg archive fs [file; f] = UB \/
  program pl msg archive fs [file; f] = Throw RangeError.
Proof.
  rewrite program_eq. destruct (rows_decided pl msg archive content table) as [[rs R]|[r S]].
  - assert (Er : results pl msg archive (Some content) = Ok (or_unknown content rs)) by (apply results_ok; [exact small|exists rs; auto]).
    rewrite Er. cbn [bind]. destruct (shown_ub (ParseOutputFormat f) _ Er) as [(ts & ->)| ->]; cbn [bind]; eauto.
  - assert (Er : results pl msg archive (Some content) = r) by (apply results_fail; [exact small| |exact S]; destruct S as (? & ? & ? & ? & ? & ? & ? & ? & ? & ? & N); exact N).
    rewrite Er. destruct S as (b & mi & a & p & found & T & R & C & F & E & N).
    assert (K : called content p). { apply called_row. exists mi. split; [rewrite T; apply in_or_app; right; left; reflexivity|auto]. }
    destruct (simple_fails p r K E N) as [(_ & _ & _ & ->)|[(_ & _ & _ & ->)|(_ & _ & [(_ & ->)|(_ & ->)])]]; auto.
Qed.
Theorem throws_iff : program pl msg archive fs [file; f] = Throw RangeError <->
  occurs_at (B "ftyp") content 4 /\ lenN content < 15 /\ ~ starts content (B "MZ") /\ ~ starts_one content mach_magics.
Proof.
  rewrite program_eq. split.
  - intros E. destruct (rows_decided pl msg archive content table) as [[rs R]|[r S]].
    + assert (Er : results pl msg archive (Some content) = Ok (or_unknown content rs)) by (apply results_ok; [exact small|exists rs; auto]).
      rewrite Er in E. cbn [bind] in E. destruct (shown_ub (ParseOutputFormat f) _ Er) as [(ts & Et)|Et]; rewrite Et in E; discriminate E.
    + assert (N : fails r) by (destruct S as (? & ? & ? & ? & ? & ? & ? & ? & ? & ? & N); exact N).
      assert (Er : results pl msg archive (Some content) = r) by (apply results_fail; assumption).
      rewrite Er in E. assert (Hr : r = Throw RangeError) by (destruct r; try discriminate E; [exfalso; eapply N; reflexivity|injection E as ->; reflexivity]). rewrite Hr in *. clear Er Hr.
      destruct S as (b & mi & a & p & found & T & R & C & F & Ep & _).
      assert (K : called content p). { apply called_row. exists mi. split; [rewrite T; apply in_or_app; right; left; reflexivity|auto]. }
      destruct (simple_fails p _ K Ep N) as [(_ & _ & _ & X)|[(_ & _ & _ & X)|(-> & Hf & [(L & _)|(_ & X)])]]; try discriminate X.
      split; [exact Hf|]. split; [exact L|].
      (* the earlier rows answer *)
      assert (B4 : forall q m0, In m0 b -> mi_func m0 = Some q -> carries content m0 -> exists x, says q = Ok x).
      { clear - R. intros q m0 I F C. induction R as [|mi0 l rs NC R IH|mi0 l rs C0 F0 R IH|mi0 p0 x l rs C0 F0 E R IH]; [destruct I|..]; (destruct I as [<-|I]; [|apply IH; exact I]).
        - contradiction.
        - congruence.
        - rewrite F in F0. injection F0 as <-. exists x. exact E. }
      assert (Early : forall q, q = PExec \/ q = PMachO -> forall m0, In m0 table -> mi_func m0 = Some q -> In m0 b).
      { intros q Hq m0 I0 F0. rewrite T in I0. apply in_app_or in I0. destruct I0 as [I0|[<-|I0]]; [exact I0|destruct Hq; congruence|]. exfalso.
        assert (Cnt : forall l1 m l2 m2, table = l1 ++ m :: l2 -> mi_func m = Some PMp4 -> In m2 l2 -> mi_func m2 = Some PExec \/ mi_func m2 = Some PMachO -> False).
        { clear. intros l1 m l2 m2 Et Fm I2 F2. pose proof table_parsers as P. rewrite Et, flat_map_app in P. cbn [flat_map] in P. unfold row_parser at 2 in P. rewrite Fm in P.
          cbn [app] in P. assert (J : exists y, In y (flat_map row_parser l2) /\ (fst y = PExec \/ fst y = PMachO)).
          { destruct F2 as [F2|F2]; (eexists; split; [apply in_flat_map; exists m2; split; [exact I2|unfold row_parser; rewrite F2; left; reflexivity]|]; cbn; auto). }
          destruct J as (y & Iy & Hy). revert P. generalize (flat_map row_parser l1). intros u P. unfold parser_rows in P.
          do 12 (destruct u as [|? u]; [cbn [app] in P; first [discriminate P|injection P as _ _ P; rewrite P in Iy; cbn in Iy; repeat (destruct Iy as [<-|Iy]; [destruct Hy as [Hy|Hy]; discriminate Hy|]); exact Iy]|cbn [app] in P; injection P as _ P]).
          do 3 (destruct u as [|? u]; [discriminate P|cbn [app] in P; try (injection P as _ P)]); discriminate P. }
        eapply Cnt; [exact T|exact F|exact I0|]. destruct Hq; subst q; auto. }
      split.
      * intros M. apply called_exec, called_row in M. destruct M as (m0 & I0 & F0 & C0). destruct (B4 PExec m0) as (x & Ex); [exact (Early PExec (or_introl eq_refl) m0 I0 F0)|exact F0|exact C0|].
        pose proof says_exec as S. destruct (N.leb_spec 64 (lenN content)); [lia|rewrite S in Ex; discriminate Ex].
      * intros M. apply called_macho, called_row in M. destruct M as (m0 & I0 & F0 & C0). destruct (B4 PMachO m0) as (x & Ex); [exact (Early PMachO (or_intror eq_refl) m0 I0 F0)|exact F0|exact C0|].
        pose proof says_macho as S. destruct (N.leb_spec 28 (lenN content)); [lia|rewrite S in Ex; discriminate Ex].
  - intros (H & L & N1 & N2). destruct (rows_decided pl msg archive content table) as [[rs R]|[r S]].
    + exfalso. assert (Er : results pl msg archive (Some content) = Ok (or_unknown content rs)) by (apply results_ok; [exact small|exists rs; auto]).
      destruct (results_long _ Er) as (_ & _ & K). specialize (K H). lia.
    + assert (N : fails r) by (destruct S as (? & ? & ? & ? & ? & ? & ? & ? & ? & ? & N); exact N).
      assert (Er : results pl msg archive (Some content) = r) by (apply results_fail; assumption). rewrite Er.
      destruct S as (b & mi & a & p & found & T & R & C & F & E & _).
      assert (K : called content p). { apply called_row. exists mi. split; [rewrite T; apply in_or_app; right; left; reflexivity|auto]. }
      destruct (simple_fails p r K E N) as [(_ & X & _)|[(_ & X & _)|(_ & _ & [(_ & ->)|(X & _)])]]; [contradiction|contradiction|reflexivity|lia].
Qed.
End File.
