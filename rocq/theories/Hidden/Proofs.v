(** Proofs about the methods that are reached through the classes themselves. *)
From Coq Require Import List NArith ZArith Bool Lia Strings.String ZifyBool ZifyNat ZifyN.
From Verif Require Import Lib.Res Lib.Bytes Lib.BytesFacts Lib.Text Lib.NumSpec Lib.NumFacts Common.Model Common.Spec Common.Fields Magic.Spec Magic.Model Magic.DocProofs Magic.DocBase
     Exe.Tables Exe.Model Exe.Proofs Media.Model Media.Spec Media.Proofs Asf.Model Asf.DocProofs Vba.Analyze Vba.Output Vba.Statements Vba.OutputProofs Zip.DocProofs Hidden.Model Hidden.Statements.
From Verif Require Magic.DocUnique.
Import ListNotations.
Local Open Scope N_scope.

(** ** Rows *)
Lemma times_app c a b : times c (a ++ b) = times c a + times c b.
Proof. induction a as [|d a IH]; cbn [app times]; [reflexivity|]. rewrite IH. lia. Qed.
Lemma times_0 c s : times c s = 0 <-> ~ In c s.
Proof.
  induction s as [|d s IH]; cbn [times In]; [tauto|]. destruct (byte_eqb d c) eqn:E.
  - apply byte_eqb_eq in E. split; [lia|tauto].
  - assert (d <> c) by (intros ->; rewrite (proj2 (byte_eqb_eq c c) eq_refl) in E; discriminate E). rewrite N.add_0_l, IH. tauto.
Qed.
Lemma times_sep c s : times c (c :: s) = 1 + times c s.
Proof. cbn [times]. rewrite (proj2 (byte_eqb_eq c c) eq_refl). reflexivity. Qed.
Lemma cells_times sep row l : cells sep row l -> lenN l = 1 + times sep row.
Proof.
  induction 1 as [c N|c row l N C IH].
  - rewrite (proj2 (times_0 sep c) N). reflexivity.
  - rewrite times_app, times_sep, (proj2 (times_0 sep c) N), <- IH, lenN_cons. lia.
Qed.
Lemma split_unique (sep : byte) a : forall b s t, ~ In sep a -> ~ In sep b -> a ++ sep :: s = b ++ sep :: t -> a = b /\ s = t.
Proof.
  induction a as [|x a IH]; intros [|y b] s t Na Nb E; cbn [app] in E.
  - injection E as <-. auto.
  - injection E as E1 E2. subst y. elim Nb. left. reflexivity.
  - injection E as E1 E2. subst x. elim Na. left. reflexivity.
  - injection E as E1 E2. subst y. destruct (IH b s t) as (-> & ->); [intros I; apply Na; right; exact I|intros I; apply Nb; right; exact I|exact E2|]. auto.
Qed.
Theorem cells_unique sep row l1 : cells sep row l1 -> forall l2, cells sep row l2 -> l1 = l2.
Proof.
  induction 1 as [c N|c row l N C IH]; intros l2 K; inversion K as [c' N' E1 E2|c' row' l' N' C' E1 E2]; subst.
  - reflexivity.
  - exfalso. apply N. apply in_or_app. right. left. reflexivity.
  - exfalso. apply N'. apply in_or_app. right. left. reflexivity.
  - apply split_unique in E1; [|assumption|assumption]. destruct E1 as (-> & ->). f_equal. apply IH. exact C'.
Qed.

(** ** Texts that stand for themselves in JSON and XML *)
Definition lit (s : bytes) : bool := forallb (fun c => (32 <=? b2n c) && (b2n c <? 127) && negb (byte_eqb c x22) && negb (byte_eqb c x5c) && negb (byte_eqb c x26) && negb (byte_eqb c x3c) && negb (byte_eqb c x3e)) s.
Definition comma_free (s : bytes) : bool := forallb (fun c => negb (byte_eqb c x2c) && negb (byte_eqb c x09)) s.
Lemma differs a b : negb (byte_eqb a b) = true -> a <> b.
Proof. intros H ->. rewrite (proj2 (byte_eqb_eq b b) eq_refl) in H. discriminate H. Qed.
Lemma lit_json s : lit s = true -> json_literal s.
Proof.
  intros H. apply Forall_forall. intros c I. unfold lit in H. rewrite forallb_forall in H. apply H in I. rewrite !andb_true_iff in I. destruct I as ((((((A & C) & D) & E) & _) & _) & _).
  apply differs in D, E. split; [lia|auto].
Qed.
Lemma lit_xml s : lit s = true -> xml_literal s.
Proof.
  intros H. apply Forall_forall. intros c I. unfold lit in H. rewrite forallb_forall in H. apply H in I. rewrite !andb_true_iff in I. destruct I as ((((((A & C) & _) & _) & D) & E) & F).
  apply differs in D, E, F. split; [lia|]. unfold xml_markup. tauto.
Qed.
Lemma lit_app a b : lit (a ++ b) = lit a && lit b.
Proof. apply forallb_app. Qed.
Lemma comma_free_app a b : comma_free (a ++ b) = comma_free a && comma_free b.
Proof. apply forallb_app. Qed.
Lemma comma_free_in s : comma_free s = true -> ~ In x2c s /\ ~ In x09 s.
Proof. intros H. unfold comma_free in H. rewrite forallb_forall in H. split; intros I; apply H in I; discriminate I. Qed.
Lemma plain_lit s : plain s = true -> lit s = true /\ comma_free s = true.
Proof.
  intros H. unfold plain in H. rewrite forallb_forall in H. unfold lit, comma_free. rewrite !forallb_forall.
  assert (A : forall c, plain [c] = true -> lit [c] = true /\ comma_free [c] = true) by (intros c; destruct c; vm_compute; try discriminate; auto).
  split; intros c I; specialize (A c); unfold plain, lit, comma_free in A; cbn [forallb] in A; rewrite (H c I) in A; specialize (A eq_refl); rewrite !andb_true_r in A; apply A.
Qed.
Lemma dec_lit n : lit (dec n) = true /\ comma_free (dec n) = true.
Proof. apply plain_lit, dec_plain. Qed.

Lemma jmember_one k v : jplain k = true -> json_literal v -> json_members (jmember k v) [jfield k v].
Proof. intros Hk Hv. unfold jmember, jfield. apply (spaced_value k (q ++ v ++ q)); [exact Hk|]. apply jv_str. apply jquoted. apply literal_str. exact Hv. Qed.
Lemma jopt_one k v t m : jplain k = true -> json_literal v -> json_members t m -> json_members (t ++ jopt k v) (m ++ optional v (jfield k v)).
Proof. intros Hk Hv H. unfold jopt. rewrite optional_if. apply members_opt; [exact H|apply jmember_one; assumption]. Qed.

(** ** Executables *)
Definition exec_fine (i : ExecInfo) : Prop :=
  Forall (fun s => lit s = true /\ comma_free s = true) [Extension (x_base i); VersionName (x_base i); x_MachineType i; x_Subsystem i; x_LinkerVersion i; x_OsVersion i; x_ImageVersion i] /\
  Forall (fun s => lit s = true) (x_Characteristics i) /\ Version (x_base i) = 0.
Lemma switch_fine rows k : forallb (fun e => lit (snd e) && comma_free (snd e)) rows = true -> lit (switch rows k) = true /\ comma_free (switch rows k) = true.
Proof.
  intros K. unfold switch. destruct (lookup rows k) as [v|] eqn:E; [|split; reflexivity]. apply lookup_in in E. rewrite forallb_forall in K. specialize (K _ E). cbn [snd] in K.
  apply andb_true_iff in K. exact K.
Qed.
Lemma version_fine a b : lit (BuildVersionString a b) = true /\ comma_free (BuildVersionString a b) = true.
Proof. unfold BuildVersionString. rewrite !lit_app, !comma_free_app. destruct (dec_lit a) as (-> & ->). destruct (dec_lit b) as (-> & ->). split; reflexivity. Qed.
Lemma flags_fine m key : forallb (fun e => lit (snd e)) m = true -> Forall (fun s => lit s = true) (BuildVectorFromMap m key).
Proof.
  intros K. rewrite forallb_forall in K. unfold BuildVectorFromMap. apply Forall_forall. intros s I. apply in_map_iff in I. destruct I as (e & <- & I). apply filter_In in I. apply K. apply I.
Qed.
Lemma new_fine : exec_fine exec_new.
Proof. split; [|split; [constructor|reflexivity]]. repeat constructor. Qed.
Lemma coff_fine coff : exec_fine (with_coff coff exec_new).
Proof.
  unfold with_coff, exec_fine. cbv zeta. cbn [x_base x_MachineType x_Subsystem x_LinkerVersion x_OsVersion x_ImageVersion x_Characteristics exec_new].
  split; [|split; [apply flags_fine; vm_compute; reflexivity|]].
  - repeat apply Forall_cons; try (split; reflexivity); [..|constructor]; try (destruct (negb (N.land (field coff 22 2) 4096 =? 0)); [|destruct (negb (N.land (field coff 22 2) 8192 =? 0))]; split; reflexivity).
    apply switch_fine. vm_compute. reflexivity.
  - destruct (negb (N.land (field coff 22 2) 4096 =? 0)); [reflexivity|]. destruct (negb (N.land (field coff 22 2) 8192 =? 0)); reflexivity.
Qed.
Lemma opt_fine opt i : exec_fine i -> exec_fine (with_opt opt i).
Proof.
  intros (A & C & V). unfold with_opt, exec_fine. cbn [x_base x_MachineType x_Subsystem x_LinkerVersion x_OsVersion x_ImageVersion x_Characteristics].
  split; [|split; assumption]. rewrite Forall_forall in A. repeat apply Forall_cons; try apply version_fine; try (apply A; cbn [In]; tauto); [apply switch_fine; vm_compute; reflexivity|constructor].
Qed.
Lemma exec_is_fine p f i : exec_detail p f = Ok i -> exec_fine i.
Proof.
  unfold exec_detail. intros H. apply bind_ok in H. destruct H as (dos & _ & H). revert H. cbv zeta.
  match goal with |- context [if ?c <? ?d then _ else Ok exec_new] => destruct (c <? d) end; [|intros H; injection H as <-; apply new_fine].
  intros H. apply bind_ok in H. destruct H as (coff & _ & H). revert H.
  match goal with |- context [if ?c <? ?d then _ else _] => destruct (c <? d) end; [|intros H; injection H as <-; apply coff_fine].
  intros H. apply bind_ok in H. destruct H as (opt & _ & H). injection H as <-. apply opt_fine, coff_fine.
Qed.
Theorem exec_json p f i : exec_detail p f = Ok i -> forall d, json_value (exec_ToJson i) d <-> d = JObj (exec_members i).
Proof.
  intros E. destruct (exec_is_fine p f i E) as (A & C & _). rewrite Forall_forall in A. cbn [In] in A.
  assert (J : json_value (exec_ToJson i) (JObj (exec_members i))).
  { unfold exec_ToJson, exec_members.
    set (ch := match x_Characteristics i with [] => [] | l => B "," ++ q ++ B "Characteristics" ++ q ++ B ": [" ++ join (B ",") (map (fun s => q ++ s ++ q) l) ++ B "]" end).
    set (cm := match x_Characteristics i with [] => [] | l => [(map b2n (B "Characteristics"), JArr (map (fun s => JStr (map b2n s)) l))] end).
    replace (B "{" ++ jmember (B "extension") (Extension (x_base i)) ++ B ", " ++ jmember (B "name") (VersionName (x_base i)) ++ jopt (B "machinetype") (x_MachineType i) ++
       jopt (B "subsystem") (x_Subsystem i) ++ jopt (B "LinkerVersion") (x_LinkerVersion i) ++ jopt (B "OsVersion") (x_OsVersion i) ++ jopt (B "ImageVersion") (x_ImageVersion i) ++ ch ++ B "}")
      with (B "{" ++ (((((((jmember (B "extension") (Extension (x_base i)) ++ B ", " ++ jmember (B "name") (VersionName (x_base i))) ++ jopt (B "machinetype") (x_MachineType i)) ++
       jopt (B "subsystem") (x_Subsystem i)) ++ jopt (B "LinkerVersion") (x_LinkerVersion i)) ++ jopt (B "OsVersion") (x_OsVersion i)) ++ jopt (B "ImageVersion") (x_ImageVersion i)) ++ ch) ++ B "}")
      by (rewrite <- !app_assoc; reflexivity).
    apply object.
    match goal with |- json_members _ (?l ++ ?a ++ ?b ++ ?c ++ ?d ++ ?e ++ cm) => replace (l ++ a ++ b ++ c ++ d ++ e ++ cm) with ((((((l ++ a) ++ b) ++ c) ++ d) ++ e) ++ cm) by (rewrite <- !app_assoc; reflexivity) end.
    match goal with |- json_members (?t ++ ch) (?m ++ cm) => assert (H : json_members t m) end.
    { repeat (apply jopt_one; [reflexivity|apply lit_json, A; tauto|]). apply next_field; apply jmember_one; try reflexivity; apply lit_json, A; tauto. }
    unfold ch, cm. destruct (x_Characteristics i) as [|c0 cs]; [rewrite !app_nil_r; exact H|]. apply (members_app _ _ _ _ H).
    apply (member_value (B "Characteristics") [x20] (B "[" ++ join (B ",") (map (fun s => q ++ s ++ q) (c0 :: cs)) ++ B "]")); [reflexivity|apply ws_space|].
    apply array; [|discriminate]. apply Forall2_map. eapply Forall_impl; [|exact C]. intros s Hs. apply jv_str, jquoted, literal_str, lit_json, Hs. }
  intros d. split; [|intros ->; exact J]. intros D. eapply Magic.DocUnique.json_value_fun; eassumption.
Qed.
Theorem exec_xml p f i : exec_detail p f = Ok i -> forall d, xml_document (exec_ToXml i) d <-> d = XElem (B "item") (exec_children i).
Proof.
  intros E. destruct (exec_is_fine p f i E) as (A & _). rewrite Forall_forall in A. cbn [In] in A.
  assert (J : xml_document (exec_ToXml i) (XElem (B "item") (exec_children i))).
  { unfold xml_document, exec_ToXml, exec_children.
    match goal with |- xml_content (_ ++ ?a ++ ?b ++ ?c ++ ?d ++ B "</item>") _ => replace (B "<item>" ++ a ++ b ++ c ++ d ++ B "</item>") with (xelem (B "item") (a ++ b ++ c ++ d ++ []) ++ []) by (unfold xelem; rewrite !app_nil_r; flat) end.
    apply elem_cons; [apply letters_name; reflexivity| |constructor]. do 4 (apply xfield_cons; [reflexivity|apply lit_xml, A; tauto|]). constructor. }
  intros d. split; [|intros ->; exact J]. intros D. eapply Magic.DocUnique.xml_document_fun; eassumption.
Qed.
Theorem exec_cells p f i : exec_detail p f = Ok i ->
  cells x2c (exec_ToCsv i) [Extension (x_base i); B "0"; VersionName (x_base i); B "0"; x_MachineType i; x_Subsystem i] /\
  cells x09 (exec_ToText i) [Extension (x_base i); B "0"; VersionName (x_base i); B "0"; x_MachineType i; x_Subsystem i].
Proof.
  intros E. destruct (exec_is_fine p f i E) as (A & _ & V). rewrite Forall_forall in A. cbn [In] in A.
  assert (K : forall s, In s [Extension (x_base i); B "0"; VersionName (x_base i); x_MachineType i; x_Subsystem i] -> ~ In x2c s /\ ~ In x09 s).
  { intros s I. cbn [In] in I. destruct I as [<-|[<-|[<-|[<-|[<-|[]]]]]]; apply comma_free_in; try (apply A; tauto). reflexivity. }
  unfold exec_ToCsv, exec_ToText, exec_row. rewrite V. change (dec 0) with (B "0"). split; repeat (apply ce_more; [apply K; cbn [In]; tauto|]); apply ce_last; apply K; cbn [In]; tauto.
Qed.

(** ** Films *)
Lemma film_parts buffer code v : window buffer 8 4 code -> be_number_at buffer 12 4 v ->
  mp4_detail buffer = Ok (mkMp4 (mkExt (B "mp4") [] [] 0 (B "MPEG-4 Media File")) v (GetBrandName code) code).
Proof. intros. apply mp4_fields; assumption. Qed.
Lemma brand_lit code : lit (GetBrandName code) = true.
Proof.
  assert (K : forallb (fun e => lit (snd e)) brand_names = true) by (vm_compute; reflexivity). unfold GetBrandName. revert K.
  induction brand_names as [|(c, n) rows IH]; [reflexivity|]. cbn [forallb brand_lookup snd]. rewrite andb_true_iff. intros (K1 & K2). destruct (bytes_eqb code c); [exact K1|apply IH; exact K2].
Qed.
Lemma brand_commas code : ~ In x2c (GetBrandName code) <-> ~ In code comma_brands.
Proof.
  assert (K : forallb (fun e => Bool.eqb (existsb (byte_eqb x2c) (snd e)) (existsb (bytes_eqb (fst e)) comma_brands)) brand_names = true) by (vm_compute; reflexivity).
  assert (S : forallb (fun c => existsb (bytes_eqb c) (map fst brand_names)) comma_brands = true) by (vm_compute; reflexivity).
  assert (X : forall s, In x2c s <-> existsb (byte_eqb x2c) s = true).
  { intros s. rewrite existsb_exists. split; [intros I; exists x2c; split; [exact I|reflexivity]|]. intros (c & I & E). apply byte_eqb_eq in E. subst c. exact I. }
  assert (Y : forall c, In c comma_brands <-> existsb (bytes_eqb c) comma_brands = true).
  { intros c. rewrite existsb_exists. split; [intros I; exists c; split; [exact I|apply bytes_eqb_refl]|]. intros (d & I & E). apply bytes_eqb_eq in E. subst d. exact I. }
  assert (G : In x2c (GetBrandName code) <-> In code comma_brands); [|tauto].
  assert (L : (In code (map fst brand_names) /\ exists n, In (code, n) brand_names /\ GetBrandName code = n) \/ (~ In code (map fst brand_names) /\ GetBrandName code = B "Unknonw FTYP")).
  { unfold GetBrandName. clear. induction brand_names as [|(c, n) rows IH]; [right; split; [intros []|reflexivity]|]. cbn [map fst brand_lookup In]. destruct (bytes_eqb code c) eqn:E.
    - apply bytes_eqb_eq in E. subst c. left. split; [left; reflexivity|]. exists n. split; [left; reflexivity|reflexivity].
    - destruct IH as [(I & m & Im & Q)|(N & Q)].
      + left. split; [right; exact I|]. exists m. split; [right; exact Im|exact Q].
      + right. split; [|exact Q]. intros [-> |I]; [rewrite bytes_eqb_refl in E; discriminate E|exact (N I)]. }
  destruct L as [(_ & n & I & ->)|(N & ->)].
  - rewrite forallb_forall in K. specialize (K _ I). cbn [fst snd] in K. apply Bool.eqb_prop in K. rewrite X, Y, K. reflexivity.
  - split.
    + intros I. exfalso. revert I. vm_compute. intuition discriminate.
    + intros I. exfalso. apply N. rewrite forallb_forall in S. specialize (S _ I). apply existsb_exists in S. destruct S as (d & Id & E). apply bytes_eqb_eq in E. subst d. exact Id.
Qed.
Section Film.
Variables (code : bytes) (v : N).
Notation film := (mkMp4 (mkExt (B "mp4") [] [] 0 (B "MPEG-4 Media File")) v (GetBrandName code) code).
Theorem film_json : json_literal code -> forall d, json_value (mp4_ToJson film) d <-> d = JObj (film_members v (GetBrandName code) code).
Proof.
  intros L. assert (J : json_value (mp4_ToJson film) (JObj (film_members v (GetBrandName code) code))).
  { unfold mp4_ToJson, film_members. cbn [v_base v_Version v_Brand v_BrandCode Extension VersionName].
    match goal with |- json_value ?t _ => replace t with (B "{" ++ (jmember (B "extension") (B "mp4") ++ B ", " ++ jmember (B "name") (B "MPEG-4 Media File") ++ B ", " ++
      (q ++ B "version" ++ q ++ B " : " ++ dec v) ++ B ", " ++ jmember (B "brand") (GetBrandName code) ++ B ", " ++ jmember (B "brandcode") code) ++ B "}") by (rewrite <- !app_assoc; reflexivity) end.
    apply object. apply next_field; [apply jmember_one; [reflexivity|apply lit_json; reflexivity]|]. apply next_field; [apply jmember_one; [reflexivity|apply lit_json; reflexivity]|].
    apply next_field; [apply spaced_value; [reflexivity|apply jv_num, dec_number]|]. apply next_field; [apply jmember_one; [reflexivity|apply lit_json, brand_lit]|].
    apply jmember_one; [reflexivity|exact L]. }
  intros d. split; [|intros ->; exact J]. intros D. eapply Magic.DocUnique.json_value_fun; eassumption.
Qed.
Theorem film_xml : xml_literal code -> forall d, xml_document (mp4_ToXml film) d <-> d = XElem (B "item") (film_children v (GetBrandName code) code).
Proof.
  intros L. assert (J : xml_document (mp4_ToXml film) (XElem (B "item") (film_children v (GetBrandName code) code))).
  { unfold xml_document, mp4_ToXml, film_children. cbn [v_base v_Version v_Brand v_BrandCode Extension VersionName].
    match goal with |- xml_content (_ ++ ?a ++ ?b ++ ?c ++ ?d ++ ?e ++ B "</item>") _ =>
      replace (B "<item>" ++ a ++ b ++ c ++ d ++ e ++ B "</item>") with (xelem (B "item") (a ++ b ++ c ++ d ++ e ++ []) ++ []) by (unfold xelem; rewrite !app_nil_r; flat) end.
    apply elem_cons; [apply letters_name; reflexivity| |constructor]. apply xfield_cons; [reflexivity|apply lit_xml; reflexivity|]. apply xfield_cons; [reflexivity|apply lit_xml; reflexivity|].
    apply xfield_cons; [reflexivity|apply lit_xml, dec_lit|]. apply xfield_cons; [reflexivity|apply lit_xml, brand_lit|]. apply xfield_cons; [reflexivity|exact L|]. constructor. }
  intros d. split; [|intros ->; exact J]. intros D. eapply Magic.DocUnique.xml_document_fun; eassumption.
Qed.
Theorem film_cells sep : In sep [x2c; x09] -> ((exists l, cells sep (mp4_row sep film) l /\ lenN l = 5) <-> ~ In sep code /\ ~ In sep (GetBrandName code)) /\
  (~ In sep code /\ ~ In sep (GetBrandName code) -> cells sep (mp4_row sep film) [B "mp4"; B "MPEG-4 Media File"; dec v; code; GetBrandName code]).
Proof.
  intros I. assert (D : ~ In sep (B "mp4") /\ ~ In sep (B "MPEG-4 Media File") /\ ~ In sep (dec v)).
  { destruct (comma_free_in (dec v) (proj2 (dec_lit v))) as (D1 & D2). destruct (comma_free_in (B "mp4") eq_refl) as (D3 & D4). destruct (comma_free_in (B "MPEG-4 Media File") eq_refl) as (D5 & D6).
    cbn [In] in I. destruct I as [<-|[<-|[]]]; auto. }
  destruct D as (D1 & D2 & D3).
  assert (R : ~ In sep code /\ ~ In sep (GetBrandName code) -> cells sep (mp4_row sep film) [B "mp4"; B "MPEG-4 Media File"; dec v; code; GetBrandName code]).
  { intros (H1 & H2). unfold mp4_row. cbn [v_base v_Version v_Brand v_BrandCode Extension VersionName]. repeat (apply ce_more; [assumption|]). apply ce_last. exact H2. }
  split; [|exact R]. split; [|intros H; eexists; split; [exact (R H)|reflexivity]].
  intros (l & C & L). apply cells_times in C. rewrite L in C. unfold mp4_row in C. cbn [v_base v_Version v_Brand v_BrandCode Extension VersionName] in C.
  rewrite !times_app, !times_sep, !times_app, !times_sep, !times_app, !times_sep, !times_app, !times_sep in C. rewrite <- !times_0. lia.
Qed.
End Film.

(** ** Macro projects *)
Theorem project_cells p sep : In sep [x2c; x09] ->
  ((exists l, cells sep (vba_row sep (vba_base p) p) l /\ lenN l = 8) <-> ~ In sep (pr_Name p)) /\
  (~ In sep (pr_Name p) -> cells sep (vba_row sep (vba_base p) p) [B "vba"; B "Visual Basic for Applications"; []; dec (pr_Version p); []; pr_Name p; dec (pr_Major p); dec (pr_Minor p)]).
Proof.
  intros I. assert (D : forall n, ~ In sep (dec n)).
  { intros n. destruct (comma_free_in (dec n) (proj2 (dec_lit n))). cbn [In] in I. destruct I as [<-|[<-|[]]]; auto. }
  assert (D' : ~ In sep (B "vba") /\ ~ In sep (B "Visual Basic for Applications")).
  { destruct (comma_free_in (B "vba") eq_refl) as (D3 & D4). destruct (comma_free_in (B "Visual Basic for Applications") eq_refl) as (D5 & D6). cbn [In] in I. destruct I as [<-|[<-|[]]]; auto. }
  destruct D' as (D1 & D2).
  assert (R : ~ In sep (pr_Name p) -> cells sep (vba_row sep (vba_base p) p) [B "vba"; B "Visual Basic for Applications"; []; dec (pr_Version p); []; pr_Name p; dec (pr_Major p); dec (pr_Minor p)]).
  { intros H. unfold vba_row, vba_base. cbn [Extension Name SubType Version VersionName]. repeat (apply ce_more; [auto|]). apply ce_last. auto. }
  split; [|exact R]. split; [|intros H; eexists; split; [exact (R H)|reflexivity]].
  intros (l & C & L). apply cells_times in C. rewrite L in C. unfold vba_row, vba_base in C. cbn [Extension Name SubType Version VersionName] in C.
  do 7 rewrite times_app, times_sep in C. rewrite <- times_0. lia.
Qed.
