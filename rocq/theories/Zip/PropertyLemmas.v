(** Proofs for C85-C91, with the examples. *)
From Coq Require Import List NArith ZArith Bool Lia Strings.String Strings.Byte.
From Coq Require Import ZifyBool ZifyNat ZifyN.
From Verif Require Import Lib.Res Lib.Bytes Lib.BytesFacts Lib.Text Lib.NumSpec Common.Model Common.Spec Magic.Model Magic.Spec Magic.DocProofs Magic.DocBase Magic.DocUnique Asf.Model Asf.DocProofs
     Ole.Model Ole.Statements Vba.Statements Vba.OutputProofs Vba.ProjectLemmas Docs.Spec Docs.Model Docs.Proofs Zip.Tables Zip.Model Zip.Spec Zip.Statements Zip.Proofs Zip.KindProofs Zip.DocProofs.
Import ListNotations.
Local Open Scope N_scope.

(** ** Determined *)
Fixpoint keys_distinct (t : list (bytes * bytes)) : bool := match t with [] => true | r :: t => negb (existsb (bytes_eqb (fst r)) (map fst t)) && keys_distinct t end.
Lemma keys_fun t k x y : keys_distinct t = true -> In (k, x) t -> In (k, y) t -> x = y.
Proof.
  induction t as [|[k' z] t IH]; cbn [keys_distinct fst]; [intros _ []|]. rewrite andb_true_iff, negb_true_iff. intros [D1 D2].
  assert (N : forall a, In (k', a) t -> False).
  { intros a H. apply (in_map fst) in H. apply existsb_In in H. cbn [fst] in H. congruence. }
  intros [E|H] [E'|H'].
  - congruence.
  - injection E as -> ->. destruct (N _ H').
  - injection E' as -> ->. destruct (N _ H).
  - exact (IH D2 H H').
Qed.
Lemma known_fun t ks xs ys : keys_distinct t = true -> known t ks xs -> known t ks ys -> xs = ys.
Proof.
  intros D H. revert ys. induction H as [|k x ks xs Hi K IH|k ks xs Hi K IH]; intros ys H; inversion H as [|? y ? ys' Hi' K'|? ? ys' Hi' K']; subst.
  - reflexivity.
  - rewrite (keys_fun t k x y D Hi Hi'), (IH _ K'). reflexivity.
  - destruct (Hi' _ Hi).
  - destruct (Hi _ Hi').
  - exact (IH _ K').
Qed.
Lemma selected_fun {A} P (t : list (bytes * A)) xs ys : selected P t xs -> selected P t ys -> xs = ys.
Proof.
  intros H. revert ys. induction H as [|k x t xs Hp S IH|k x t xs Hp S IH]; intros ys H; inversion H; subst; try contradiction; try reflexivity.
  - f_equal. apply IH. assumption.
  - apply IH. assumption.
Qed.
Lemma firsts_fun {A} (m l k1 k2 : list A) : firsts m l k1 -> firsts m l k2 -> k1 = k2.
Proof.
  intros H. revert k2. induction H as [m|m x l k Hi F IH|m x l k Hi F IH]; intros k2 H; inversion H; subst; try contradiction; try reflexivity.
  - apply IH. assumption.
  - f_equal. apply IH. assumption.
Qed.
Lemma types_distinct : keys_distinct known_types = true. Proof. vm_compute. reflexivity. Qed.
Lemma mimes_distinct : keys_distinct known_mimes = true. Proof. vm_compute. reflexivity. Qed.
Lemma firsts_in {A} (m l ks : list A) x : firsts m l ks -> In x l -> In x ks \/ In x m.
Proof.
  induction 1 as [m|m y l k Hi F IH|m y l k Hi F IH]; [intros []|intros [<-|H]; auto|].
  intros [<-|H]; [left; left; reflexivity|]. destruct (IH H) as [K|[K|K]]; [left; right; exact K|left; left; exact K|right; exact K].
Qed.
Lemma firsts_sub {A} (m l ks : list A) x : firsts m l ks -> In x ks -> In x l /\ ~ In x m.
Proof.
  induction 1 as [m|m y l k Hi F IH|m y l k Hi F IH]; [intros []| |].
  - intros H. destruct (IH H). split; [right; assumption|assumption].
  - intros [<-|H]; [split; [left; reflexivity|exact Hi]|]. destruct (IH H) as [K1 K2]. split; [right; exact K1|]. intros Q. apply K2. right. exact Q.
Qed.
Lemma firsts_nodup {A} (m l ks : list A) : firsts m l ks -> NoDup ks.
Proof.
  induction 1 as [m|m y l k Hi F IH|m y l k Hi F IH]; [constructor|exact IH|]. constructor; [|exact IH].
  intros K. destruct (firsts_sub _ _ _ _ F K) as [_ N]. apply N. left. reflexivity.
Qed.
Lemma firsts_all {A} (m l : list A) ks : (forall x, In x l -> In x m) -> firsts m l ks -> ks = [].
Proof.
  intros H F. destruct ks as [|k ks]; [reflexivity|]. destruct (firsts_sub _ _ _ k F (or_introl eq_refl)) as [A1 A2]. apply H in A1. contradiction.
Qed.
Lemma known_in t vs xs v x : keys_distinct t = true -> known t vs xs -> In v vs -> In (v, x) t -> In x xs.
Proof.
  intros D. induction 1 as [|k y ks xs Hi K IH|k ks xs Hi K IH]; [intros []| |]; intros [->|H] Hx.
  - left. exact (keys_fun t v y x D Hi Hx).
  - right. exact (IH H Hx).
  - destruct (Hi _ Hx).
  - exact (IH H Hx).
Qed.
Lemma just_In l ans x : Forall2 just l ans -> In x l -> exists r, In r ans /\ just x r.
Proof.
  induction 1 as [|y r l ans J F IH]; [intros []|]. intros [<-|H]; [exists r; split; [left; reflexivity|exact J]|].
  destruct (IH H) as (r' & Hr & J'). exists r'. split; [right; exact Hr|exact J'].
Qed.
Lemma reported pl es m files kinds x : archive_kinds es m files kinds -> In x (files ++ kinds) ->
  exists ans m', zip_Detailer pl (Ok es) m = Ok (ans, m') /\ exists r, In r ans /\ just x r.
Proof.
  intros K Hx. destruct (detailer_kinds pl es m files kinds K) as (ans & E & [[_ F]|[N _]]).
  - exists ans, (rev kinds ++ m). split; [exact E|exact (just_In _ _ _ F Hx)].
  - rewrite N in Hx. destruct Hx.
Qed.

(** ** Examples *)
Ltac is_just := match goal with |- just _ ?r => exists (Name (r_info r)); vm_compute; reflexivity end.
Definition entry (name data : bytes) : zentry := mkEntry name (lenN data) (lenN data) false true [] 0 (Some data).
Definition docx_type : bytes := B "application/vnd.openxmlformats-officedocument.wordprocessingml.document.main+xml".
Definition docx_part : bytes :=
  B "<Types><Override PartName=""/word/document.xml"" ContentType=""" ++ docx_type ++ B """/><Default Extension=""xml"" ContentType=""application/xml""/></Types>".
Definition docx : list zentry := [entry (B "[Content_Types].xml") docx_part; entry (B "word/document.xml") (B "<document/>")].
Definition types_archive (text : bytes) : list zentry := [entry (B "[Content_Types].xml") text].
Definition single_quoted : bytes := B "ContentType='" ++ docx_type ++ B "'".
Definition spaced_sign : bytes := B "ContentType = """ ++ docx_type ++ B """".
Definition plain_attribute (v : bytes) : bytes := B "ContentType=""" ++ v ++ B """".

Lemma findb_none p s : find p s = false -> ~ contains p s.
Proof. intros E K. apply find_iff in K. congruence. Qed.
Lemma notin_byte c s : existsb (byte_eqb c) s = false -> ~ In c s.
Proof. intros E K. assert (T : existsb (byte_eqb c) s = true) by (apply existsb_exists; exists c; split; [exact K|apply byte_eqb_eq; reflexivity]). congruence. Qed.
Lemma first_part name data es : part_text (entry name data :: es) name data.
Proof. left. exists (entry name data). split; [exists [], es; auto|left; reflexivity]. Qed.

(** ** C85 *)
Lemma C85_found : forall pl es s vs v x, part_text es (B "[Content_Types].xml") s -> types_in s vs -> In v vs ->
  In (v, x) office_types -> ~ has_macros es ->
  exists ans m, zip_Detailer pl (Ok es) [] = Ok (ans, m) /\ exists r, In r ans /\ just x r.
Proof.
  intros pl es s vs v x Hs T Hv Hx Hm. destruct (kinds_total es []) as [(files & kinds & K)|K]; [|contradiction].
  apply (reported pl es [] files kinds x K). apply in_or_app. right.
  destruct K as (s' & mime & vs' & xs & ys & Hs' & Hmi & T' & Kn & Ky & Hb & Sel & F).
  apply part_text_iff in Hs, Hs'. rewrite <- Hs in Hs'. subst s'. apply types_taken, ctypes_iff in T. apply ctypes_iff in T'. rewrite T in T'. injection T' as <-.
  assert (Ix : In x xs) by (apply (known_in known_types vs xs v x types_distinct Kn Hv); apply known_types_in; left; apply in_or_app; left; exact Hx).
  destruct (firsts_in _ _ _ x F) as [Q|[]]; [apply in_or_app; left; exact Ix|exact Q].
Qed.
Lemma C85_single : exists es s a v x, part_text es (B "[Content_Types].xml") s /\ contains a s /\ xml_attribute a v /\ In (v, x) office_types /\
  forall pl m, zip_Detailer pl (Ok es) m = Ok ([zip_result es], m).
Proof.
  exists (types_archive (B "<Override " ++ single_quoted ++ B "/>")), (B "<Override " ++ single_quoted ++ B "/>"), single_quoted, docx_type, (B "docx").
  split; [apply first_part|]. split; [exists (B "<Override "), (B "/>"); reflexivity|]. split.
  - apply (xa [] [] x27 docx_type); [reflexivity|reflexivity|right; reflexivity|apply notin_byte; vm_compute; reflexivity|apply notin_byte; vm_compute; reflexivity].
  - split; [left; reflexivity|]. intros pl m. vm_compute. reflexivity.
Qed.
Lemma C85_spaces : exists es s a v x, part_text es (B "[Content_Types].xml") s /\ contains a s /\ xml_attribute a v /\ In (v, x) office_types /\
  forall pl m, zip_Detailer pl (Ok es) m = Ok ([zip_result es], m).
Proof.
  exists (types_archive (B "<Override " ++ spaced_sign ++ B "/>")), (B "<Override " ++ spaced_sign ++ B "/>"), spaced_sign, docx_type, (B "docx").
  split; [apply first_part|]. split; [exists (B "<Override "), (B "/>"); reflexivity|]. split.
  - apply (xa [x20] [x20] x22 docx_type); [reflexivity|reflexivity|left; reflexivity|apply notin_byte; vm_compute; reflexivity|apply notin_byte; vm_compute; reflexivity].
  - split; [left; reflexivity|]. intros pl m. vm_compute. reflexivity.
Qed.
Lemma C85_empty : exists es v x, part_text es (B "[Content_Types].xml") (B "<Default ContentType=""""/><Override " ++ plain_attribute v ++ B "/>") /\
  In (v, x) office_types /\ forall pl m, zip_Detailer pl (Ok es) m = Ok ([zip_result es], m).
Proof.
  exists (types_archive (B "<Default ContentType=""""/><Override " ++ plain_attribute docx_type ++ B "/>")), docx_type, (B "docx").
  split; [apply first_part|]. split; [left; reflexivity|]. intros pl m. vm_compute. reflexivity.
Qed.
Lemma C85_comment : exists es v x, part_text es (B "[Content_Types].xml") (B "<Types><!-- " ++ plain_attribute v ++ B " --></Types>") /\
  In (v, x) office_types /\ forall pl, exists ans m, zip_Detailer pl (Ok es) [] = Ok (ans, m) /\ Forall2 just [x] ans.
Proof.
  exists (types_archive (B "<Types><!-- " ++ plain_attribute docx_type ++ B " --></Types>")), docx_type, (B "docx").
  split; [apply first_part|]. split; [left; reflexivity|]. intros pl. eexists. eexists. split; [vm_compute; reflexivity|].
  constructor; [is_just|constructor].
Qed.
Lemma C85_ex : exists es s vs x, part_text es (B "[Content_Types].xml") s /\ types_in s vs /\ List.length vs = 2%nat /\
  In (docx_type, x) office_types /\ In docx_type vs /\ ~ has_macros es.
Proof.
  exists docx, docx_part, [docx_type; B "application/xml"], (B "docx").
  assert (T : types_in docx_part [docx_type; B "application/xml"]).
  { change docx_part with (B "<Types><Override PartName=""/word/document.xml"" " ++ attribute ++ docx_type ++ [x22] ++
      (B "/><Default Extension=""xml"" " ++ attribute ++ B "application/xml" ++ [x22] ++ B "/></Types>")).
    apply ti_next; [apply findb_none; vm_compute; reflexivity|discriminate|apply notin_byte; vm_compute; reflexivity|].
    apply ti_next; [apply findb_none; vm_compute; reflexivity|discriminate|apply notin_byte; vm_compute; reflexivity|].
    apply ti_none. apply findb_none. vm_compute. reflexivity. }
  split; [apply first_part|]. split; [exact T|]. split; [reflexivity|]. split; [left; reflexivity|]. split; [left; reflexivity|].
  intros (s & vs & Hs & T' & Hi & Hb). apply bins_nil in Hb; [exact Hb|]. vm_compute. reflexivity.
Qed.

(** ** C86 *)
Lemma C86_exact : forall pl es m files kinds, archive_kinds es m files kinds ->
  exists ans, zip_Detailer pl (Ok es) m = Ok (ans, rev kinds ++ m) /\ reports es (files ++ kinds) ans.
Proof. exact detailer_kinds. Qed.
Lemma C86_total : forall es m, (exists files kinds, archive_kinds es m files kinds) \/ has_macros es.
Proof. exact kinds_total. Qed.
Lemma C86_unique : forall es m f1 k1 f2 k2, archive_kinds es m f1 k1 -> archive_kinds es m f2 k2 -> f1 = f2 /\ k1 = k2 /\ NoDup k1.
Proof.
  intros es m f1 k1 f2 k2 (s & mi & vs & xs & ys & H1 & H2 & H3 & H4 & H5 & _ & H7 & H8) (s' & mi' & vs' & xs' & ys' & G1 & G2 & G3 & G4 & G5 & _ & G7 & G8).
  apply part_text_iff in H1, H2, G1, G2. subst s' mi'. subst s mi. apply ctypes_iff in H3, G3. rewrite H3 in G3. injection G3 as <-.
  rewrite <- (known_fun _ _ _ _ types_distinct H4 G4), <- (known_fun _ _ _ _ mimes_distinct H5 G5) in G8.
  split; [exact (selected_fun _ _ _ _ H7 G7)|]. split; [exact (firsts_fun _ _ _ _ H8 G8)|exact (firsts_nodup _ _ _ H8)].
Qed.
Lemma C86_failed : forall pl m x, zip_Detailer pl (Throw x) m = Throw x.
Proof. reflexivity. Qed.
Definition installer : list zentry := [entry (B "install.js") []; entry (B "install.rdf") []].
Lemma C86_twice : exists es, forall pl m, exists ans, zip_Detailer pl (Ok es) m = Ok (ans, m) /\ Forall2 just [B "xpi"; B "xpi"] ans.
Proof.
  exists installer. intros pl m. eexists. split; [vm_compute; reflexivity|]. repeat (constructor; [is_just|]). constructor.
Qed.
Definition signed_jar : list zentry := docx ++ [entry (B "META-INF/MANIFEST.MF") []].
Lemma C86_ex : exists es, forall pl, exists ans m, zip_Detailer pl (Ok es) [] = Ok (ans, m) /\ Forall2 just [B "jar"; B "docx"] ans.
Proof.
  exists signed_jar. intros pl. eexists. eexists. split; [vm_compute; reflexivity|]. repeat (constructor; [is_just|]). constructor.
Qed.

(** ** C87 *)
Lemma C87_again : forall pl es m ans1 m1, zip_Detailer pl (Ok es) m = Ok (ans1, m1) ->
  exists files ans2, selected (has_entry es) marker_files files /\ zip_Detailer pl (Ok es) m1 = Ok (ans2, m1) /\ reports es files ans2.
Proof.
  intros pl es m ans1 m1 E. destruct (kinds_total es m) as [(files & kinds & K)|K].
  2:{ rewrite (detailer_macros pl es m K) in E. discriminate. }
  destruct (detailer_kinds pl es m files kinds K) as (ans & E' & _). rewrite E in E'. injection E' as -> ->.
  destruct K as (s & mi & vs & xs & ys & H1 & H2 & H3 & H4 & H5 & H6 & H7 & H8).
  assert (K2 : archive_kinds es (rev kinds ++ m) files []).
  { exists s, mi, vs, xs, ys. repeat (split; [assumption|]). destruct (firsts_total (rev kinds ++ m) (xs ++ ys)) as [k F].
    assert (k = []).
    { apply (firsts_all (rev kinds ++ m) (xs ++ ys)); [|exact F]. intros x Hx. apply in_or_app. rewrite <- in_rev. exact (firsts_in _ _ _ x H8 Hx). }
    subst k. exact F. }
  destruct (detailer_kinds pl es _ _ _ K2) as (ans2 & E2 & R). rewrite app_nil_r in R. exists files, ans2. split; [exact H7|]. split; [exact E2|exact R].
Qed.
Lemma C87_refuted : exists es ans1 m ans2, (forall pl, zip_Detailer pl (Ok es) [] = Ok (ans1, m)) /\ (forall pl, zip_Detailer pl (Ok es) m = Ok (ans2, m)) /\
  Forall2 just [B "docx"] ans1 /\ ans2 = [zip_result es].
Proof.
  exists docx. eexists. eexists. eexists. split; [intros pl; vm_compute; reflexivity|]. split; [intros pl; vm_compute; reflexivity|].
  split; [constructor; [is_just|constructor]|reflexivity].
Qed.

(** ** C88 *)
Lemma C88_found : forall pl es v x, part_text es (B "mimetype") v -> In (v, x) document_types -> v <> presentation_type -> ~ has_macros es ->
  exists ans m, zip_Detailer pl (Ok es) [] = Ok (ans, m) /\ exists r, In r ans /\ just x r.
Proof.
  intros pl es v x Hv Hx Hp Hm. destruct (kinds_total es []) as [(files & kinds & K)|K]; [|contradiction].
  apply (reported pl es [] files kinds x K). apply in_or_app. right.
  destruct K as (s' & mime & vs' & xs & ys & Hs' & Hmi & T' & Kn & Ky & Hb & Sel & F).
  apply part_text_iff in Hv, Hmi. rewrite <- Hv in Hmi. subst mime.
  assert (I : In (v, x) known_mimes).
  { unfold known_mimes. apply in_or_app. left. apply in_map_iff. exists (v, x). split; [|exact Hx]. cbn [fst snd].
    destruct (bytes_eqb v presentation_type) eqn:E; [apply bytes_eqb_eq in E; contradiction|reflexivity]. }
  assert (Ix : In x ys) by (apply (known_in known_mimes [v] ys v x mimes_distinct Ky); [left; reflexivity|exact I]).
  destruct (firsts_in _ _ _ x F) as [Q|[]]; [apply in_or_app; right; exact Ix|exact Q].
Qed.
Lemma C88_presentation : forall pl es m ans m', part_text es (B "mimetype") presentation_type -> part_text es (B "[Content_Types].xml") [] ->
  zip_Detailer pl (Ok es) m = Ok (ans, m') -> forall r, In r ans -> ~ just (B "odp") r.
Proof.
  intros pl es m ans m' Hp Ht E. destruct (kinds_total es m) as [(files & kinds & K)|K].
  2:{ rewrite (detailer_macros pl es m K) in E. discriminate. }
  destruct (detailer_kinds pl es m files kinds K) as (ans' & E' & R). rewrite E in E'. injection E' as <- ->.
  destruct K as (s & mi & vs & xs & ys & H1 & H2 & H3 & H4 & H5 & H6 & H7 & H8).
  apply part_text_iff in Hp, Ht, H1, H2. rewrite <- Ht in H1. rewrite <- Hp in H2. subst s mi.
  assert (vs = []).
  { apply ctypes_iff in H3. vm_compute in H3. injection H3 as <-. reflexivity. }
  subst vs. inversion H4; subst. cbn [app] in H8.
  assert (ys = [B "opd"]).
  { apply (known_fun known_mimes [presentation_type] _ _ mimes_distinct H5). apply kn_yes; [vm_compute; tauto|constructor]. }
  subst ys.
  assert (A : forall x, In x (files ++ kinds) -> x <> B "odp").
  { intros x Hx ->. apply in_app_or in Hx. destruct Hx as [Hx|Hx].
    - assert (S : forall t, selected (has_entry es) t files -> In (B "odp") files -> In (B "odp") (map snd t)).
      { clear. intros t H. induction H as [|k x t xs P H IH|k x t xs P H IH]; [intros []|intros [->|K]; [left; reflexivity|right; auto]|intros K; right; auto]. }
      pose proof (S _ H7 Hx) as Q. vm_compute in Q. intuition discriminate.
    - destruct (firsts_sub _ _ _ _ H8 Hx) as [[Q|[]] _]. discriminate. }
  destruct R as [[_ F]|[N ->]].
  - intros r Hr [n Er]. revert Hr. clear E. induction F as [|x r' l ans [n' Er'] F IH]; [intros []|].
    intros [->|Hr]; [|apply IH; [|exact Hr]].
    + rewrite Er' in Er. injection Er as Ex _. apply (A x (or_introl eq_refl)). exact Ex.
    + intros y Hy. apply A. right. exact Hy.
  - intros r [<-|[]] [n Er]. discriminate.
Qed.
Definition odf (v : bytes) : list zentry := [entry (B "mimetype") v].
Lemma C88_refuted : exists es v x, part_text es (B "mimetype") v /\ In (v, x) document_types /\ x = B "odp" /\
  forall pl, exists ans m, zip_Detailer pl (Ok es) [] = Ok (ans, m) /\ Forall2 just [B "opd"] ans.
Proof.
  exists (odf presentation_type), presentation_type, (B "odp"). split; [apply first_part|]. split; [vm_compute; tauto|]. split; [reflexivity|].
  intros pl. eexists. eexists. split; [vm_compute; reflexivity|]. constructor; [is_just|constructor].
Qed.
Lemma C88_newline : exists es v x, part_text es (B "mimetype") (v ++ [x0a]) /\ In (v, x) document_types /\
  forall pl m, zip_Detailer pl (Ok es) m = Ok ([zip_result es], m).
Proof.
  exists (odf (B "application/vnd.oasis.opendocument.text" ++ [x0a])), (B "application/vnd.oasis.opendocument.text"), (B "odt").
  split; [apply first_part|]. split; [left; reflexivity|]. intros pl m. vm_compute. reflexivity.
Qed.
Lemma no_types_no_macros es : ~ has_entry es (B "[Content_Types].xml") -> ~ has_macros es.
Proof.
  intros N (s & vs & Hs & T & Hi & _). apply part_text_iff in Hs. unfold text_of in Hs. apply GetEntry_none in N. rewrite N in Hs. subst s.
  apply ctypes_iff in T. vm_compute in T. injection T as <-. destruct Hi.
Qed.
Lemma C88_ex : exists es v x, part_text es (B "mimetype") v /\ In (v, x) document_types /\ v <> presentation_type /\ ~ has_macros es.
Proof.
  exists (odf (B "application/vnd.oasis.opendocument.text")), (B "application/vnd.oasis.opendocument.text"), (B "odt").
  split; [apply first_part|]. split; [left; reflexivity|]. split; [discriminate|]. apply no_types_no_macros.
  apply GetEntry_none. vm_compute. reflexivity.
Qed.

(** ** C89 *)
Lemma C89_undefined : forall pl es m, has_macros es -> zip_Detailer pl (Ok es) m = UB.
Proof. exact detailer_macros. Qed.
Definition docm : list zentry :=
  [entry (B "[Content_Types].xml") (B "<Types>" ++ B "<Default Extension=""bin"" " ++ plain_attribute macro_type ++ B "/></Types>"); entry (B "word/vbaProject.bin") (B "anything")].
Lemma C89_refuted : exists es, has_macros es /\ forall pl m, zip_Detailer pl (Ok es) m = UB.
Proof.
  assert (H : has_macros docm).
  { exists (B "<Types>" ++ B "<Default Extension=""bin"" " ++ plain_attribute macro_type ++ B "/></Types>"), [macro_type].
    split; [apply first_part|]. split; [apply ctypes_iff; vm_compute; reflexivity|]. split; [left; reflexivity|].
    exists (entry (B "word/vbaProject.bin") (B "anything")). split; [right; left; reflexivity|]. exists (B "word/vbaProject."). reflexivity. }
  exists docm. split; [exact H|]. intros pl m. apply detailer_macros. exact H.
Qed.
Lemma C89_only : forall pl es m, zip_Detailer pl (Ok es) m = UB <-> has_macros es.
Proof.
  intros pl es m. split; [|apply detailer_macros]. intros E. destruct (kinds_total es m) as [(files & kinds & K)|K]; [|exact K].
  destruct (detailer_kinds pl es m files kinds K) as (ans & E' & _). rewrite E in E'. discriminate.
Qed.
Definition no_bin : list zentry := [entry (B "[Content_Types].xml") (B "<Types><Override " ++ plain_attribute macro_type ++ B "/></Types>"); entry (B "word/vba.dat") []].
Lemma C89_plain : exists es, forall pl, exists ans m, zip_Detailer pl (Ok es) [] = Ok (ans, m) /\ Forall2 just [B "vba"] ans.
Proof.
  exists no_bin. intros pl. eexists. eexists. split; [vm_compute; reflexivity|]. constructor; [is_just|constructor].
Qed.

(** ** C90 *)
Lemma C90_json : forall es l, Forall (fun e => json_literal (z_name e) /\ json_literal (z_comment e)) es -> described json_fields es l ->
  json_value (eJson (r_out (zip_result es))) (zip_object l).
Proof. exact zip_json_value. Qed.
Lemma C90_xml : forall es l, Forall (fun e => xml_literal (z_name e) /\ xml_literal (z_comment e)) es -> described xml_fields es l ->
  xml_document (eXml (r_out (zip_result es))) (zip_element l).
Proof. exact zip_xml_value. Qed.
Lemma C90_rows : forall es, eText (r_out (zip_result es)) = B "zip" ++ [x09] ++ B "Zip File" ++ [x09] ++ [x09] ++ B "0" ++ [x09] /\
  eCsv (r_out (zip_result es)) = B "zip,Zip File,,0,".
Proof. intros es. split; reflexivity. Qed.
Lemma C90_json_refuted : exists es, forall v, ~ json_value (eJson (r_out (zip_result es))) v.
Proof. exists [entry [x61; x22; x62] []]. apply json_reject. vm_compute. reflexivity. Qed.
Lemma C90_xml_refuted : exists es, forall v, ~ xml_document (eXml (r_out (zip_result es))) v.
Proof. exists [entry (B "a&b") []]. apply xml_reject. vm_compute. reflexivity. Qed.
(** The name [a","Size":"9] makes a second member. *)
Definition injected : bytes := B "a"",""Size"":""9".
Lemma C90_injected_refuted : exists es v, json_value (eJson (r_out (zip_result es))) v /\ ~ (exists l, described json_fields es l /\ v = zip_object l).
Proof.
  exists [entry injected []].
  exists (zip_object [JObj [jfield (B "Name") (B "a"); jfield (B "Size") (B "9"); jfield (B "Size") (B "0"); jfield (B "CompressedSize") (B "0");
    jfield (B "CompressionMethod") (B "DEFLATE"); jfield (B "IsPassworded") (B "0"); jfield (B "Comment") []; jfield (B "CRC32") (B "0")]]).
  split.
  - assert (F : forall k v, jplain k = true -> plain v = true -> json_members (js k v) [jfield k v]) by (intros; apply field_one; [|apply plain_literal]; assumption).
    match goal with |- json_value ?t (zip_object [JObj ?l]) =>
      replace t with (B "{" ++ (B " ""extension"" : ""zip""" ++ B ", " ++ js (B "name") (B "Zip File") ++ B ", " ++ (q ++ B "children" ++ q ++ B ":" ++ (B "[" ++
        join (B ",") [B "{" ++ (js (B "Name") (B "a") ++ B "," ++ js (B "Size") (B "9") ++ B ", " ++ js (B "Size") (B "0") ++ B ", " ++ js (B "CompressedSize") (B "0") ++ B ", " ++
          js (B "CompressionMethod") (B "DEFLATE") ++ B ", " ++ js (B "IsPassworded") (B "0") ++ B ", " ++ js (B "Comment") [] ++ B ", " ++ js (B "CRC32") (B "0")) ++ B "}"] ++ B "]"))) ++ B "}")
        by (vm_compute; reflexivity) end.
    apply object. apply next_field.
    { change (B " ""extension"" : ""zip""") with (B " " ++ (q ++ B "extension" ++ q ++ B " : " ++ (q ++ B "zip" ++ q))). apply spaced.
      apply spaced_value; [reflexivity|]. apply jv_str. apply jquoted. apply literal_str. apply plain_literal. reflexivity. }
    apply next_field; [apply F; reflexivity|].
    match goal with |- json_members (q ++ B "children" ++ q ++ B ":" ++ ?t) _ =>
      replace (q ++ B "children" ++ q ++ B ":" ++ t) with ([] ++ (q ++ B "children" ++ q) ++ [] ++ colon :: [] ++ t ++ []) by (rewrite app_nil_r; flat) end.
    apply jm_one; auto using ws_nil; [apply (jstring (B "children")); apply jplain_str; reflexivity|].
    apply array; [|discriminate]. constructor; [|constructor]. apply object.
    apply more; [apply F; reflexivity|]. do 6 (apply next_field; [apply F; reflexivity|]). apply F; reflexivity.
  - intros (l & D & E). inversion D as [|e es c l' H D' E1 E2]; subst. inversion D'; subst. vm_compute in E. discriminate.
Qed.
Lemma C90_ex : exists es l, Forall (fun e => json_literal (z_name e) /\ json_literal (z_comment e)) es /\
  Forall (fun e => xml_literal (z_name e) /\ xml_literal (z_comment e)) es /\ described json_fields es l /\ List.length es = 2%nat.
Proof.
  exists docx. eexists. split; [repeat (apply Forall_cons; [split; apply literalb; vm_compute; reflexivity|]); constructor|].
  split; [repeat (apply Forall_cons; [split; apply literalb; vm_compute; reflexivity|]); constructor|]. split; [apply described_int|reflexivity].
Qed.

(** ** C91 *)
Lemma C91_small : forall es, Forall (fun e => z_csize e < 2 ^ 31) es ->
  described json_fields es (map (fun e => json_fields (entry_fields e (dec (z_csize e)))) es) /\
  described xml_fields es (map (fun e => xml_fields (entry_fields e (dec (z_csize e)))) es).
Proof.
  intros es H. split; (induction H as [|e es He H IH]; cbn [map]; constructor; [apply as_int_small; exact He|exact IH]).
Qed.
Lemma C91_function : forall n, exists c, as_int n c /\ forall c', as_int n c' -> c' = c.
Proof. intros n. exists (int_text n). split; [apply int_as_int|]. intros c' H. exact (as_int_fun _ _ _ H (int_as_int n)). Qed.
Definition of_size (n : N) : zentry := mkEntry (B "a") n n false true [] 0 (Some []).
Lemma C91_refuted : exists e, z_csize e < 2 ^ 32 /\ json_value (eJson (r_out (zip_result [e]))) (zip_object [json_fields (entry_fields e (B "-1294967296"))]).
Proof.
  exists (of_size 3000000000). split; [reflexivity|]. apply zip_json_value.
  - constructor; [split; apply literalb; reflexivity|constructor].
  - constructor; [|constructor]. apply (ai_neg 0 1294967296); [reflexivity|vm_compute; discriminate].
Qed.
Lemma C91_same_refuted : exists e f, z_csize e <> z_csize f /\ eJson (r_out (zip_result [e])) = eJson (r_out (zip_result [f])).
Proof.
  exists (mkEntry (B "a") 7 5 false true [] 0 (Some [])), (mkEntry (B "a") 7 (5 + 2 ^ 32) false true [] 0 (Some [])).
  split; [discriminate|vm_compute; reflexivity].
Qed.
Lemma C91_ex : exists es, Forall (fun e => z_csize e < 2 ^ 31) es /\ List.length es = 2%nat.
Proof. exists docx. split; [repeat constructor|reflexivity]. Qed.
