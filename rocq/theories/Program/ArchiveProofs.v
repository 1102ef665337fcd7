(** Proofs: archives. *)
From Coq Require Import List NArith ZArith Lia Bool Strings.String ZifyBool ZifyNat ZifyN.
From Verif Require Import Lib.Res Lib.Bytes Lib.BytesFacts Lib.Text Common.Model Common.Spec Magic.Table Magic.Model Magic.GuessProofs Common.ReadProofs
     Exe.Model Media.Model Media.WordPerfect Asf.Model Zip.Tables Zip.Model Detect.Model Detect.Output Program.Model.
From Verif Require Zip.Statements Zip.KindProofs Zip.DocProofs Common.EscapeProofs.
From Verif Require Import Magic.Spec Magic.DocProofs Magic.DocBase Vba.Statements.
From Verif Require Import Program.Statements Program.ScanProofs Program.SafetyProofs Program.DocProofs.
Import ListNotations.
Local Open Scope N_scope.

(** ** The results of the parser *)
Definition plain_one (r : Result) : Prop := exists e, info_plain e = true /\ r = plain_result e.
Definition plain_kinds (t : list (bytes * (bytes * bytes))) : bool := forallb (fun r => plain (fst (snd r)) && plain (snd (snd r))) t.
Lemma kind_plain_one x n : plain x = true -> plain n = true -> plain_one (kind_result (x, n)).
Proof. intros Hx Hn. eexists. split; [|reflexivity]. unfold info_plain. cbn [fst snd Extension Name SubType VersionName]. rewrite Hx, Hn. reflexivity. Qed.
Lemma lookup_plain t s k : plain_kinds t = true -> table_lookup t s = Some k -> plain_one (kind_result k).
Proof.
  induction t as [|[x [a b]] t IH]; cbn [table_lookup plain_kinds forallb fst snd]; [discriminate|]. intros H. apply andb_true_iff in H. destruct H as [H1 H2].
  apply andb_true_iff in H1. destruct H1 as [Ha Hb]. destruct (bytes_eqb s x); [intros [= <-]; apply kind_plain_one; assumption|apply IH; exact H2].
Qed.
Lemma add_plain r t : plain_one r -> Forall plain_one (fst t) -> Forall plain_one (fst (addExtension r t)).
Proof.
  intros Hr Ht. destruct t as [ans m]. unfold addExtension. destruct (seen _ m); [exact Ht|]. cbn [fst] in *. apply Forall_app. split; [exact Ht|]. constructor; [exact Hr|constructor].
Qed.
Lemma check_plain tb c t : plain_kinds tb = true -> Forall plain_one (fst t) -> Forall plain_one (fst (CheckType tb c t)).
Proof. intros P Ht. unfold CheckType. destruct (table_lookup tb c) as [k|] eqn:E; [|exact Ht]. apply add_plain; [exact (lookup_plain tb c k P E)|exact Ht]. Qed.
Lemma entries_plain es : Forall plain_one (CheckEntries es).
Proof.
  unfold CheckEntries. assert (P : plain_kinds marker_entries = true) by (vm_compute; reflexivity). unfold plain_kinds in P.
  induction marker_entries as [|[x [a b]] t IH]; [constructor|]. cbn [flat_map forallb fst snd] in *. apply andb_true_iff in P. destruct P as [P1 P2]. apply andb_true_iff in P1.
  apply Forall_app. split; [|apply IH; exact P2]. destruct (GetEntry es x); [|constructor]. constructor; [apply kind_plain_one; apply P1|constructor].
Qed.
Lemma vba_plain pl es v : GetVBA pl es = Ok v -> plain_one v.
Proof.
  intros E. unfold GetVBA in E. destruct (filter (fun e => hasEnding (z_name e) (B "bin")) es) as [|e l]; cbn [map analyze_bins] in E.
  - injection E as <-. apply kind_plain_one; reflexivity.
  - destruct (GetEntry es (z_name e)) as [e'|]; [|discriminate]. destruct (z_data e'); [|discriminate]. rewrite Zip.KindProofs.Analyze_unopened in E. discriminate.
Qed.
Lemma types_plain pl es l : forall t t', Forall plain_one (fst t) -> check_types pl es l t = Ok t' -> Forall plain_one (fst t').
Proof.
  assert (P : plain_kinds content_types = true) by (vm_compute; reflexivity).
  induction l as [|c l IH]; intros t t' Ht E; cbn [check_types] in E; [injection E as <-; exact Ht|].
  apply bind_ok in E. destruct E as (t1 & E1 & E). apply (IH t1 t'); [|exact E]. pose proof (check_plain content_types c t P Ht) as Hc.
  destruct (bytes_eqb c _); [|injection E1 as <-; exact Hc]. apply bind_ok in E1. destruct E1 as (v & Ev & E1). injection E1 as <-. apply add_plain; [exact (vba_plain pl es v Ev)|exact Hc].
Qed.
Lemma archive_answers pl es m t : zip_Detailer pl (Ok es) m = Ok t -> Forall plain_one (fst t) \/ fst t = [zip_result es].
Proof.
  unfold zip_Detailer. cbn [bind]. intros E. apply bind_ok in E. destruct E as (t1 & E1 & E).
  assert (F1 : Forall plain_one (fst t1)).
  { destruct (GetEntry es (B "[Content_Types].xml")); [|injection E1 as <-; apply entries_plain].
    apply bind_ok in E1. destruct E1 as (l & _ & E1). eapply types_plain; [|exact E1]. apply entries_plain. }
  assert (P : plain_kinds mime_types = true) by (vm_compute; reflexivity).
  set (t2 := match GetEntry es (B "mimetype") with Some e => match GetFile e with [] => t1 | s => CheckType mime_types s t1 end | None => t1 end) in E.
  assert (F2 : Forall plain_one (fst t2)).
  { subst t2. destruct (GetEntry es (B "mimetype")) as [e|]; [|exact F1]. destruct (GetFile e); [exact F1|]. apply check_plain; assumption. }
  clearbody t2. destruct t2 as [ans m2]. injection E as <-. cbn [fst] in *. destruct ans; [right; reflexivity|left; exact F2].
Qed.
Lemma described_exists {A} (f : list (bytes * bytes) -> A) es : exists l, Zip.Statements.described f es l.
Proof. eexists. apply Zip.DocProofs.described_int. Qed.

(** ** The results for a file *)
Lemma one_start content c m d n : starts content (c :: m) -> starts content (d :: n) -> c = d.
Proof.
  intros (a1 & b1 & E1 & L1) (a2 & b2 & E2 & L2). apply lenN_0 in L1, L2. subst a1 a2. cbn [app] in E1, E2. rewrite E1 in E2. injection E2 as -> _. reflexivity.
Qed.

Section File.
Variables (pl : platform) (msg : exn -> bytes) (archive : option bytes -> res (list zentry)) (content : bytes).
Hypothesis small : lenN content < 2 ^ 32.
Notation says := (parser_says pl msg archive content).

Lemma results_all (P : object -> Prop) :
  (forall e, info_plain e = true -> P (OResult (plain_result e))) -> (forall s, P (OResult (unknown_result s))) ->
  (forall p, called content p -> exists a, says p = Ok a /\ Forall P a) -> exists rs, results pl msg archive (Some content) = Ok rs /\ Forall P rs.
Proof.
  intros Pe Pu Pp. destruct (rows_decided pl msg archive content table) as [[found R]|[r S]].
  - exists (or_unknown content found). split; [apply results_ok; [exact small|exists found; auto]|].
    assert (F : Forall P found).
    { rewrite Forall_forall. intros o I. destruct (reports_in_inv _ _ _ _ _ _ R I) as [(mi & A & K1 & K2 & ->)|(mi & p & l & A & K1 & K2 & K3 & K4)].
      - apply Pe. rewrite <- signature_row. apply (signature_plain mi A K1).
      - destruct (Pp p) as (a & Ea & Fa); [apply called_row; exists mi; auto|]. rewrite Ea in K3. injection K3 as ->. rewrite Forall_forall in Fa. apply Fa. exact K4. }
    unfold or_unknown. destruct found; [|exact F]. destruct content; (constructor; [|constructor]); [apply Pe; reflexivity|apply Pu].
  - exfalso. destruct S as (b & mi & a & p & found & T & R & C & F & E & N). destruct (Pp p) as (x & Ex & _).
    + apply called_row. exists mi. split; [rewrite T; apply in_or_app; right; left; reflexivity|auto].
    + eapply N. rewrite <- E. exact Ex.
Qed.

(** ** Archives *)
Hypothesis sup : supported pl.
Hypothesis packed : starts content (B "PK").
Variable es : list zentry.
Hypothesis opened : archive (Some content) = Ok es.

Lemma called_packed p : called content p -> p = PZip \/ p = PMp4.
Proof.
  intros (m & o & I & H). unfold parser_rows in I. cbn [In] in I.
  repeat (destruct I as [I|I]; [injection I as <- <- <-; first [left; reflexivity|right; reflexivity|exfalso; pose proof (one_start _ _ _ _ _ H packed) as K; discriminate K]|]).
  destruct I.
Qed.
Definition archive_simple (o : object) : Prop :=
  (exists e, info_plain e = true /\ o = OResult (plain_result e)) \/ (exists s, o = OResult (unknown_result s)) \/ o = OResult (zip_result es).
Notation movie_ok := (Program.Statements.movie_ok content).
Lemma says_zip : ~ Zip.Statements.has_macros es -> exists a, says PZip = Ok a /\ Forall archive_simple a.
Proof.
  intros N. unfold parser_says. rewrite opened. destruct (Zip.KindProofs.kinds_total es []) as [(files & kinds & K)|K]; [|contradiction].
  destruct (Zip.KindProofs.detailer_kinds pl es [] files kinds K) as (ans & E & _). pose proof (archive_answers _ _ _ _ E) as A. rewrite E. cbn [bind fst] in *.
  eexists. split; [reflexivity|]. destruct A as [A|A]; [|rewrite A; constructor; [|constructor]; right; right; reflexivity].
  clear - A. induction A as [|r ans (e & He & ->) F IH]; [constructor|]. cbn [map]. constructor; [left; exists e; auto|exact IH].
Qed.
Lemma archive_results : ~ Zip.Statements.has_macros es -> movie_ok -> exists rs, results pl msg archive (Some content) = Ok rs /\ Forall archive_simple rs.
Proof.
  intros N M. apply results_all.
  - intros e He. left. exists e. auto.
  - intros s. right. left. exists s. reflexivity.
  - intros p C. destruct (called_packed p C) as [->| ->]; [apply says_zip; exact N|]. apply called_mp4 in C. specialize (M C).
    pose proof (says_mp4 pl msg archive content small) as S. destruct (N.ltb_spec (lenN content) 15); [lia|]. destruct (N.eqb_spec (lenN content) 15); [lia|].
    destruct S as (e & He & ->). eexists. split; [reflexivity|]. constructor; [|constructor]. left. exists e. auto.
Qed.
Lemma archive_results_iff : (exists rs, results pl msg archive (Some content) = Ok rs) <-> ~ Zip.Statements.has_macros es /\ movie_ok.
Proof.
  split; [|intros (N & M); destruct (archive_results N M) as (rs & E & _); exists rs; exact E].
  intros (rs & E). apply results_ok in E; [|exact small]. destruct E as (found & R & _).
  assert (K : forall p, called content p -> exists a, says p = Ok a).
  { intros p C. apply called_row in C. destruct C as (mi & I & F & C). clear - R I F C.
    induction R as [|mi0 l rs NC R IH|mi0 l rs C0 F0 R IH|mi0 p0 a l rs C0 F0 E R IH]; [destruct I|..]; (destruct I as [<-|I]; [|apply IH; exact I]).
    - contradiction.
    - congruence.
    - rewrite F in F0. injection F0 as <-. exists a. exact E. }
  split.
  - intros Hm. destruct (K PZip) as (a & Ea); [apply called_zip; exact packed|]. unfold parser_says in Ea. rewrite opened, (Zip.KindProofs.detailer_macros pl es [] Hm) in Ea. discriminate Ea.
  - intros H. destruct (K PMp4) as (a & Ea); [apply called_mp4; exact H|]. pose proof (says_mp4 pl msg archive content small) as S.
    destruct (N.ltb_spec (lenN content) 15); [rewrite S in Ea; discriminate|]. destruct (N.eqb_spec (lenN content) 15); [rewrite S in Ea; discriminate|lia].
Qed.
Variables (fs : bytes -> option bytes) (file : bytes).
Hypothesis stored : fs file = Some content.
Theorem archive_answers_iff f : (exists out, program pl msg archive fs [file; f] = Ok out) <-> ~ Zip.Statements.has_macros es /\ movie_ok.
Proof.
  rewrite <- archive_results_iff, (program_eq pl msg archive content fs file f stored). split.
  - intros (out & E). apply bind_ok in E. destruct E as (rs & Er & _). exists rs. exact Er.
  - intros H. apply archive_results_iff in H. destruct (archive_results (proj1 H) (proj2 H)) as (rs & E & F). rewrite E. cbn [bind].
    assert (T : exists ts, mapM (show pl (ParseOutputFormat f)) rs = Ok ts).
    { clear - F. induction F as [|o rs H F (ts & E)]; [exists []; reflexivity|]. cbn [mapM]. rewrite E. destruct H as [(e & _ & ->)|[(s & ->)| ->]]; eexists; reflexivity. }
    destruct T as (ts & ->). eexists. reflexivity.
Qed.
Theorem archive_macros f : Zip.Statements.has_macros es -> program pl msg archive fs [file; f] = UB.
Proof.
  intros Hm. rewrite (program_eq pl msg archive content fs file f stored). destruct (rows_decided pl msg archive content table) as [[rs R]|[r S]].
  - exfalso. destruct (proj1 archive_results_iff) as [N _]; [|exact (N Hm)]. eexists. apply results_ok; [exact small|]. exists rs. split; [exact R|reflexivity].
  - assert (N : fails r) by (destruct S as (? & ? & ? & ? & ? & ? & ? & ? & ? & ? & N); exact N).
    assert (Er : results pl msg archive (Some content) = r) by (apply results_fail; assumption). rewrite Er.
    destruct S as (b & mi & a & p & found & T & R & C & F & E & _).
    assert (K : called content p). { apply called_row. exists mi. split; [rewrite T; apply in_or_app; right; left; reflexivity|auto]. }
    assert (Z : says PZip = UB) by (unfold parser_says; rewrite opened, (Zip.KindProofs.detailer_macros pl es [] Hm); reflexivity).
    assert (p = PZip).
    { destruct (called_packed p K) as [->| ->]; [reflexivity|]. exfalso.
      (* the row of archives is before the one of movies *)
      pose proof packed as Pk. apply called_zip, called_row in Pk. destruct Pk as (m0 & I0 & F0 & C0).
      assert (I1 : In m0 b).
      { rewrite T in I0. apply in_app_or in I0. destruct I0 as [I0|[<-|I0]]; [exact I0|congruence|]. exfalso.
        pose proof table_parsers as P. rewrite T, flat_map_app in P. cbn [flat_map] in P. unfold row_parser at 2 in P. rewrite F in P. cbn [app] in P.
        assert (J : exists y, In y (flat_map row_parser a) /\ fst y = PZip).
        { eexists. split; [apply in_flat_map; exists m0; split; [exact I0|unfold row_parser; rewrite F0; left; reflexivity]|reflexivity]. }
        destruct J as (y & Iy & Hy). revert P. generalize (flat_map row_parser b). intros u P. unfold parser_rows in P.
        do 12 (destruct u as [|? u]; [cbn [app] in P; first [discriminate P|injection P as _ _ P; rewrite P in Iy; cbn in Iy; repeat (destruct Iy as [<-|Iy]; [discriminate Hy|]); exact Iy]|cbn [app] in P; injection P as _ P]).
        do 3 (destruct u as [|? u]; [discriminate P|cbn [app] in P; try (injection P as _ P)]); discriminate P. }
      clear - R I1 F0 C0 Z. induction R as [|mi0 l rs NC R IH|mi0 l rs C1 F1 R IH|mi0 p0 x l rs C1 F1 E R IH]; [destruct I1|..]; (destruct I1 as [<-|I1]; [|apply IH; exact I1]).
      - contradiction.
      - congruence.
      - rewrite F0 in F1. injection F1 as <-. rewrite Z in E. discriminate E. }
    subst p. rewrite <- E, Z. reflexivity.
Qed.
Theorem archive_json : ~ Zip.Statements.has_macros es -> movie_ok -> ~ In x00 file ->
  Forall (fun e => json_literal (z_name e) /\ json_literal (z_comment e)) es ->
  exists rs out vs, results pl msg archive (fs file) = Ok rs /\ program pl msg archive fs [file; B "json"] = Ok out /\ Forall2 (json_of pl msg) rs vs /\
    (forall d, json_value out d <-> d = JObj [(map b2n (B "name"), JStr (map b2n file)); (map b2n (B "extensions"), JArr vs)]).
Proof.
  intros N M Nf L. destruct (archive_results N M) as (rs & E & F). rewrite <- stored in E. destruct (program_json pl msg archive fs file rs E Nf) as (out & vs & P & A & D).
  - eapply Forall_impl; [|exact F]. intros o [(e & He & ->)|[(s & ->)| ->]].
    + eexists. apply jo_plain. exact He.
    + destruct (Common.EscapeProofs.before_nul_exists s) as (t & Ht & _). eexists. apply jo_unknown; [exact Ht|apply Common.EscapeProofs.bin2hex11_dump].
    + destruct (described_exists Zip.Statements.json_fields es) as (l & Hl). eexists. apply jo_zip; eassumption.
  - exists rs, out, vs. auto.
Qed.
Theorem archive_xml : ~ Zip.Statements.has_macros es -> movie_ok -> Forall (fun e => xml_literal (z_name e) /\ xml_literal (z_comment e)) es ->
  exists rs out shown ns, results pl msg archive (fs file) = Ok rs /\ program pl msg archive fs [file; B "xml"] = Ok out /\ Forall2 (xml_of pl msg) rs ns /\
    (forall d, xml_document out d <-> d = XElem (B "file") [XElem (B "name") shown; XElem (B "extensions") ns]) /\
    (shown = xtext file <-> ~ In x3c file /\ ~ In x3e file).
Proof.
  intros N M L. destruct (archive_results N M) as (rs & E & F). rewrite <- stored in E. destruct (program_xml pl msg archive fs file rs E) as (out & shown & ns & P & A & D).
  - eapply Forall_impl; [|exact F]. intros o [(e & He & ->)|[(s & ->)| ->]].
    + eexists. apply xo_plain. exact He.
    + eexists. apply xo_unknown; [apply Common.EscapeProofs.XmlEscape_text|apply Common.EscapeProofs.bin2hex11_dump].
    + destruct (described_exists Zip.Statements.xml_fields es) as (l & Hl). eexists. apply xo_zip; eassumption.
  - exists rs, out, shown, ns. auto.
Qed.
End File.
