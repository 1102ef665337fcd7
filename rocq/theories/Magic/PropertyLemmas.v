(** Lemmas in the exact shape of the property statements C17-C26, and the concrete cases. *)
From Coq Require Import List NArith ZArith Bool Lia Strings.String.
From Coq Require Import ZifyBool ZifyNat ZifyN.
From Verif Require Import Lib.Res Lib.Bytes Lib.BytesFacts Lib.Text Lib.NumSpec Lib.NumFacts
     Common.Model Common.Spec Common.ReadProofs Common.EscapeProofs
     Magic.Table Magic.Model Magic.Spec Magic.Statements Magic.GuessProofs Magic.DocProofs Magic.DocUnique.
Import ListNotations.
Local Open Scope N_scope.
Ltac Zify.zify_post_hook ::= Z.div_mod_to_equations.

Lemma signature_info_row mi :
  signature_info mi = mkExt (mi_ext mi) (mi_name mi) (mi_version mi) 0 [].
Proof.
  unfold signature_info. destruct (mi_version mi) as [|c s] eqn:E; [reflexivity|].
  destruct (N.ltb_spec 0 (lenN (c :: s))) as [H|H]; [reflexivity|].
  rewrite lenN_cons in H. lia.
Qed.

Lemma reports_ext {R} content (f g : MagicInfo -> R) parse l rs :
  (forall mi, f mi = g mi) -> reports content f parse l rs -> reports content g parse l rs.
Proof.
  intros E. induction 1 as [|m sigs rs Hc H IH|m sigs rs Hc Hf H IH|m p l' sigs rs Hc Hf Hp H IH].
  - constructor.
  - apply rp_absent; assumption.
  - rewrite E. apply rp_plain; assumption.
  - eapply rp_parsed; eassumption.
Qed.

(** ** C17 *)
Lemma C17_iff run content rs : lenN content < 2 ^ 32 ->
  (snd (guessExtension run [] (Some content)) = Ok rs <->
   reports content (fun mi => plain_result (row_info mi))
           (fun p => run p (Some content) (takeN 65536 content)) table rs).
Proof.
  intros Hc. rewrite (guess_first run content rs Hc).
  split; apply reports_ext; intros mi; rewrite signature_info_row; reflexivity.
Qed.

Lemma C17_sound_lemma run content rs r : lenN content < 2 ^ 32 ->
  snd (guessExtension run [] (Some content)) = Ok rs -> In r rs ->
  exists mi, In mi table /\ carries content mi /\
    ((mi_func mi = None /\ r = plain_result (row_info mi)) \/
     (exists p l, mi_func mi = Some p /\ run p (Some content) (takeN 65536 content) = Ok l /\ In r l)).
Proof.
  intros Hc H Hr. apply C17_iff in H; [|exact Hc].
  destruct (reports_in_inv _ _ _ _ _ _ H Hr) as [(mi & A & K1 & K2 & K3)|(mi & p & l & A & K1 & K2 & K3 & K4)].
  - exists mi. split; [exact A|]. split; [exact K2|]. left. auto.
  - exists mi. split; [exact A|]. split; [exact K2|]. right. exists p, l. auto.
Qed.

Lemma C17_complete_lemma run content rs mi : lenN content < 2 ^ 32 ->
  snd (guessExtension run [] (Some content)) = Ok rs ->
  In mi table -> mi_func mi = None -> carries content mi ->
  In (plain_result (row_info mi)) rs.
Proof.
  intros Hc H Hi Hf Ha. apply C17_iff in H; [|exact Hc].
  apply (reports_plain_in content (fun mi => plain_result (row_info mi)) _ _ _ _ H Hi Hf Ha).
Qed.

Definition no_parsers : Parsers := fun _ _ _ => Ok [].
Definition gz : bytes := [x1f; x8b; x08; x00].
Definition tar_file : bytes := repeatN x41 257 ++ B "ustar" ++ [x00].

Lemma C17_ex :
  snd (guessExtension no_parsers [] (Some gz)) =
    Ok [plain_result (mkExt (B "gz") (B "GZIP Archive") [] 0 [])] /\
  snd (guessExtension no_parsers [] (Some tar_file)) =
    Ok [plain_result (mkExt (B "tar") (B "TAR Container") [] 0 [])].
Proof. split; vm_compute; reflexivity. Qed.

(** ** C18 *)
Lemma fold_grow_ge l : forall ans,
  (forall mi, In mi l -> mi_offset mi + mi_size mi <= 2 ^ 31) -> ans <= 2 ^ 31 ->
  ans <= fold_left grow l ans <= 2 ^ 31 /\
  (forall mi, In mi l -> mi_offset mi + mi_size mi <= fold_left grow l ans).
Proof.
  induction l as [|m l IH]; intros ans Hl Ha; cbn [fold_left].
  - split; [lia|]. intros mi [].
  - assert (mi_offset m + mi_size m <= 2 ^ 31) as Hm by (apply Hl; left; reflexivity).
    assert (grow ans m = N.max ans (mi_offset m + mi_size m)) as Eg.
    { unfold grow. rewrite u32_small.
      - destruct (N.ltb_spec ans (mi_size m + mi_offset m)); lia.
      - change (2 ^ 31) with 2147483648 in Hm. change (2 ^ 32) with 4294967296. lia. }
    destruct (IH (grow ans m)) as [H1 H2].
    + intros mi Hi. apply Hl. right. exact Hi.
    + lia.
    + split; [lia|]. intros mi [->|Hi]; [lia|auto].
Qed.

Lemma C18_window_lemma l mi :
  (forall mi, In mi l -> mi_offset mi + mi_size mi <= 2 ^ 31) -> In mi l ->
  mi_offset mi + mi_size mi <= getMinimumBufferSize l.
Proof.
  intros Hl Hi. unfold getMinimumBufferSize. change (fun ans mi => _) with grow.
  destruct (fold_grow_ge l STD_BUFFER_SIZE Hl) as [H1 H2].
  { unfold STD_BUFFER_SIZE. change (2 ^ 31) with 2147483648. lia. }
  specialize (H2 mi Hi).
  destruct (roundUp_spec (fold_left grow l STD_BUFFER_SIZE)) as (_ & H & _).
  - unfold STD_BUFFER_SIZE in *. lia.
  - lia.
  - lia.
Qed.

Lemma C18_same_prefix_lemma run c1 c2 :
  lenN c1 < 2 ^ 32 -> lenN c2 < 2 ^ 32 -> takeN 65536 c1 = takeN 65536 c2 ->
  (forall p, run p (Some c1) (takeN 65536 c1) = run p (Some c2) (takeN 65536 c2)) ->
  snd (guessExtension run [] (Some c1)) = snd (guessExtension run [] (Some c2)).
Proof. apply guess_window. Qed.

Lemma C18_table_lemma mi : In mi table ->
  mi_size mi = lenN (mi_magic mi) /\ mi_offset mi + mi_size mi <= 65536.
Proof. intros H. destruct (row_facts mi H) as (A & _ & B). auto. Qed.

Lemma C18_ex : getMinimumBufferSize table = 65536 /\
  exists mi, In mi table /\ mi_offset mi + mi_size mi = 36869.
Proof.
  split; [vm_compute; reflexivity|].
  exists (mkMagic (B "iso") (B "ISO 9660 Disk Image") (B "") 36864 5 [x43; x44; x30; x30; x31] None).
  split; [|reflexivity]. unfold table. cbn [In]. do 28 right. left. reflexivity.
Qed.

(** ** C19 *)
Lemma C19_ex : roundUpPowerOfTwo 36869 = 65536 /\ roundUpPowerOfTwo 65536 = 65536 /\
  roundUpPowerOfTwo 1 = 1 /\ roundUpPowerOfTwo 2147483649 = 0.
Proof. repeat split; vm_compute; reflexivity. Qed.

Lemma roundUp_zero : roundUpPowerOfTwo 0 = 0.
Proof. vm_compute. reflexivity. Qed.

(** ** C20 *)
Lemma UnknownExtension_small content : lenN content < 2 ^ 32 ->
  [UnknownExtension (Some content)] = answer content [].
Proof.
  intros H. rewrite unknown_cases. rewrite N.mod_small by exact H.
  destruct content as [|c content]; [reflexivity|].
  unfold answer. destruct (N.eqb_spec (lenN (c :: content)) 0) as [E|E].
  - rewrite lenN_cons in E. lia.
  - do 2 f_equal. destruct (N.le_ge_cases (lenN (c :: content)) 512) as [L|L].
    + rewrite !takeN_all by lia. reflexivity.
    + f_equal. lia.
Qed.

Lemma identify_exact run content rs : lenN content < 2 ^ 32 ->
  (identify run (Some content) = Ok rs <->
   exists found,
     reports content (fun mi => plain_result (row_info mi))
             (fun p => run p (Some content) (takeN 65536 content)) table found /\
     rs = answer content found).
Proof.
  intros Hc. unfold identify. split.
  - intros H. apply bind_ok in H. destruct H as (f & Ef & H). exists f.
    apply C17_iff in Ef; [|exact Hc]. split; [exact Ef|].
    destruct f as [|r f].
    + injection H as <-. symmetry. symmetry. apply UnknownExtension_small. exact Hc.
    + injection H as <-. reflexivity.
  - intros (f & Hf & ->). apply (C17_iff run content f Hc) in Hf. rewrite Hf. cbn [bind].
    destruct f as [|r f]; [|reflexivity]. rewrite UnknownExtension_small by exact Hc. reflexivity.
Qed.

Lemma C20_empty_lemma run : identify run (Some []) =
  Ok [plain_result (mkExt (B "empty") (B "Empty File") [] 0 [])].
Proof. reflexivity. Qed.

Lemma C20_missing_lemma run : identify run None =
  Ok [plain_result (mkExt (B "empty") (B "Empty File") [] 0 [])].
Proof. reflexivity. Qed.

Lemma C20_ex :
  (exists rs, identify no_parsers (Some (B "hello")) = Ok rs /\
              map (fun r => Extension (r_info r)) rs = [B "unknown"]) /\
  (exists rs, identify no_parsers (Some gz) = Ok rs /\
              map (fun r => Extension (r_info r)) rs = [B "gz"]).
Proof. split; eexists; split; vm_compute; reflexivity. Qed.

(** ** C21-C23: documents of files without content parsers *)
(** Every result is a table row's or the fallback. *)
Inductive simple_result (content : bytes) : Result -> Prop :=
| sr_row mi : In mi table -> mi_func mi = None -> simple_result content (plain_result (row_info mi))
| sr_empty : simple_result content (plain_result (mkExt (B "empty") (B "Empty File") [] 0 []))
| sr_unknown : simple_result content (unknown_result (takeN 512 content)).

Lemma identify_simple run content rs : lenN content < 2 ^ 32 -> no_parser_needed content ->
  identify run (Some content) = Ok rs -> Forall (simple_result content) rs.
Proof.
  intros Hc Hn H. apply identify_exact in H; [|exact Hc]. destruct H as (f & Hf & ->).
  destruct f as [|r f].
  - unfold answer. destruct content as [|c content]; repeat constructor.
  - apply Forall_forall. intros x Hx. unfold answer in Hx.
    destruct (reports_in_inv _ _ _ _ _ _ Hf Hx) as [(mi & A & K1 & K2 & ->)|(mi & p & l & A & K1 & K2 & K3 & K4)].
    + apply sr_row; assumption.
    + rewrite (Hn mi A K2) in K1. discriminate.
Qed.

Lemma row_plain mi : In mi table -> mi_func mi = None -> info_plain (row_info mi) = true.
Proof.
  intros Hi Hf. pose proof (signature_plain mi Hi Hf) as H. rewrite signature_info_row in H. exact H.
Qed.

Lemma simple_json content r : simple_result content r ->
  exists v, json_value (eJson (r_out r)) v /\ json_describes content r v.
Proof.
  intros [mi Hi Hf| |].
  - eexists. split; [apply item_json, row_plain; assumption|]. apply jd_row; assumption.
  - eexists. split; [apply item_json; reflexivity|]. apply jd_empty; reflexivity.
  - destruct (before_nul_exists (takeN 512 content)) as (t & Ht & _).
    eexists. split; [apply unknown_json; exact Ht|]. apply jd_unknown; [exact Ht|apply bin2hex11_dump].
Qed.

Lemma main_output_identify run fs file fmt out :
  main_output run fs [file; fmt] = Ok out ->
  exists rs, identify run (fs file) = Ok rs /\
             out = Output (ParseOutputFormat fmt) file (B "extensions") (map r_out rs).
Proof.
  unfold main_output. intros H. apply bind_ok in H. destruct H as (rs & Er & H).
  injection H as <-. exists rs. auto.
Qed.

Lemma main_output_of run fs file fmt rs :
  identify run (fs file) = Ok rs ->
  main_output run fs [file; fmt] = Ok (Output (ParseOutputFormat fmt) file (B "extensions") (map r_out rs)).
Proof. unfold main_output. intros ->. reflexivity. Qed.

Lemma C21_lemma run fs file content rs :
  ~ In x00 file -> fs file = Some content -> lenN content < 2 ^ 32 -> no_parser_needed content ->
  identify run (fs file) = Ok rs ->
  exists out vs,
    main_output run fs [file; B "json"] = Ok out /\
    Forall2 (json_describes content) rs vs /\
    (forall d, json_value out d <->
       d = JObj [(map b2n (B "name"), JStr (map b2n file)); (map b2n (B "extensions"), JArr vs)]).
Proof.
  intros Hf Hfs Hc Hn Hi.
  pose proof Hi as Hi'. rewrite Hfs in Hi'.
  pose proof (identify_simple _ _ _ Hc Hn Hi') as Hs.
  pose proof (identify_nonempty _ _ _ Hi) as Hne.
  rewrite (main_output_of _ _ _ _ _ Hi). change (ParseOutputFormat (B "json")) with JSON.
  assert (exists vs, Forall2 json_value (map eJson (map r_out rs)) vs /\
                     Forall2 (json_describes content) rs vs) as (vs & H1 & H2).
  { clear - Hs. induction Hs as [|r rs Hr Hs IH]; [exists []; split; constructor|].
    destruct IH as (vs & H1 & H2). destruct (simple_json _ _ Hr) as (v & H3 & H4).
    exists (v :: vs). split; constructor; assumption. }
  assert (json_value (Output JSON file (B "extensions") (map r_out rs))
    (JObj [(map b2n (B "name"), JStr (map b2n file)); (map b2n (B "extensions"), JArr vs)])) as J.
  { apply output_json; [exact Hf| |exact H1]. destruct rs; [congruence|discriminate]. }
  eexists. exists vs. split; [reflexivity|]. split; [exact H2|].
  intros d. split.
  - intros Hd. eapply json_value_fun; eassumption.
  - intros ->. exact J.
Qed.

Lemma C21_ex : exists out,
  main_output no_parsers (fun _ => Some gz) [B "a.gz"; B "json"] = Ok out /\ no_parser_needed gz /\
  ~ In x00 (B "a.gz").
Proof.
  eexists. split; [vm_compute; reflexivity|]. split.
  - intros mi Hi Hc. destruct (mi_func mi) as [p|] eqn:E; [|reflexivity].
    exfalso. revert Hc.
    pose proof (eq_refl : forallb (fun mi => match mi_func mi with
       | None => true | Some _ => match checkMagic gz 4 (mi_magic mi) (lenN (mi_magic mi)) (mi_offset mi) with
            | Ok true => false | _ => true end end) table = true) as T.
    rewrite forallb_forall in T. specialize (T mi Hi). cbv beta in T. rewrite E in T.
    intros Hc. destruct (checkMagic_iff gz (mi_magic mi) (mi_offset mi)) as (r & Er & Hr).
    change (lenN gz) with 4 in Er. rewrite Er in T. unfold carries in Hc. apply Hr in Hc. subst r. discriminate T.
  - vm_compute. intuition discriminate.
Qed.

(** ** C22 *)
Lemma simple_xml content r : simple_result content r ->
  exists e, xml_describes content r e /\
    forall rest l, xml_content rest l -> xml_content (eXml (r_out r) ++ rest) (e :: l).
Proof.
  intros [mi Hi Hf| |].
  - eexists. split; [apply xd_row; assumption|]. apply item_xml, row_plain; assumption.
  - eexists. split; [apply xd_empty; reflexivity|]. apply item_xml. reflexivity.
  - eexists. split; [eapply xd_unknown; [apply XmlEscape_text|apply bin2hex11_dump]|].
    intros rest l. apply unknown_xml.
Qed.

Lemma shown_name_spec file : exists nodes,
  shown_name file = nodes /\ (nodes = xtext file <-> ~ In x3c file /\ ~ In x3e file).
Proof.
  eexists. split; [reflexivity|]. rewrite <- XmlEscape_lossless_iff.
  unfold shown_name, xtext, optional. destruct file as [|c file].
  - split; [intros _; constructor|reflexivity].
  - split.
    + intros [= H1 H2]. change (xml_text (XmlEscape (c :: file)) (map b2n (c :: file))).
      replace (map b2n (c :: file)) with (map swap_angle (map b2n (c :: file))); [apply XmlEscape_text|].
      cbn [map]. rewrite H1, H2. reflexivity.
    + intros H. do 2 f_equal. eapply xml_text_fun; [apply XmlEscape_text|exact H].
Qed.

Lemma C22_lemma run fs file content rs :
  fs file = Some content -> lenN content < 2 ^ 32 -> no_parser_needed content ->
  identify run (fs file) = Ok rs ->
  exists out shown es,
    main_output run fs [file; B "xml"] = Ok out /\
    Forall2 (xml_describes content) rs es /\
    (forall d, xml_document out d <->
       d = XElem (B "file") [XElem (B "name") shown; XElem (B "extensions") es]) /\
    (shown = xtext file <-> ~ In x3c file /\ ~ In x3e file).
Proof.
  intros Hfs Hc Hn Hi.
  pose proof Hi as Hi'. rewrite Hfs in Hi'.
  pose proof (identify_simple _ _ _ Hc Hn Hi') as Hs.
  rewrite (main_output_of _ _ _ _ _ Hi). change (ParseOutputFormat (B "xml")) with XML.
  assert (exists es, xml_content (List.concat (map eXml (map r_out rs))) es /\
                     Forall2 (xml_describes content) rs es) as (es & H1 & H2).
  { clear - Hs. induction Hs as [|r rs Hr Hs IH]; [exists []; split; constructor|].
    destruct IH as (vs & H1 & H2). destruct (simple_xml _ _ Hr) as (v & H3 & H4).
    exists (v :: vs). split; [cbn [map List.concat]; apply H4, H1|constructor; assumption]. }
  destruct (shown_name_spec file) as (shown & Hsh & Hshown).
  pose proof (output_xml file (map r_out rs) es H1) as J.
  eexists. exists shown, es. split; [reflexivity|]. split; [exact H2|]. split; [|exact Hshown].
  rewrite <- Hsh. intros d. split.
  - intros Hd. eapply xml_document_fun; eassumption.
  - intros ->. exact J.
Qed.

(** Only the program's own tags use angle brackets: an unknown file's bytes never do. *)
Lemma C22_ex : exists out,
  main_output no_parsers (fun _ => Some (B "]]></x>")) [B "a&b"; B "xml"] = Ok out /\
  contains (B "<name>a&#38;b</name>") out /\ ~ contains (B "]]></x>") out.
Proof.
  eexists. split; [vm_compute; reflexivity|]. split.
  - exists (B "<file>"). eexists. vm_compute. reflexivity.
  - intros (a & b & E).
    assert (forall s, (fix go (s : bytes) := match s with [] => true
             | c :: t => negb (bytes_eqb (firstn 7 s) (B "]]></x>")) && go t end) s = true ->
             ~ contains (B "]]></x>") s) as K.
    { intros s H (a' & b' & ->). induction a' as [|c a' IH].
      - cbn in H. discriminate.
      - cbn [app] in H. apply andb_true_iff in H. destruct H as [_ H]. auto. }
    refine (K _ _ (ex_intro _ a (ex_intro _ b E))). vm_compute. reflexivity.
Qed.

(** ** C23 *)
Lemma C23_lemma run fs file content rs :
  fs file = Some content -> lenN content < 2 ^ 32 -> no_parser_needed content ->
  identify run (fs file) = Ok rs ->
  exists out rows,
    main_output run fs [file; B "csv"] = Ok out /\ csv_lines out rows /\
    length rows = length rs /\
    Forall2 (fun r row => columns row = if bytes_eqb (Extension (r_info r)) (B "unknown") then 3 else 5) rs rows.
Proof.
  intros Hfs Hc Hn Hi.
  pose proof Hi as Hi'. rewrite Hfs in Hi'.
  pose proof (identify_simple _ _ _ Hc Hn Hi') as Hs.
  rewrite (main_output_of _ _ _ _ _ Hi). change (ParseOutputFormat (B "csv")) with CSV.
  eexists. exists (map eCsv (map r_out rs)). split; [reflexivity|].
  assert (forall r, simple_result content r ->
     ~ In x0a (eCsv (r_out r)) /\
     columns (eCsv (r_out r)) = if bytes_eqb (Extension (r_info r)) (B "unknown") then 3 else 5) as K.
  { intros r [mi Hi2 Hf| |].
    - destruct (csv_columns _ (row_plain mi Hi2 Hf)) as [C1 C2]. split; [exact C2|].
      cbn [r_out plain_result export_ext eCsv r_info Extension row_info].
      unfold plain_result, export_ext. cbn [r_out r_info eCsv]. rewrite C1.
      pose proof (eq_refl : forallb (fun mi => negb (bytes_eqb (mi_ext mi) (B "unknown"))) table = true) as T.
      rewrite forallb_forall in T. specialize (T mi Hi2). cbv beta in T. apply negb_true_iff in T.
      unfold row_info. cbn [Extension]. rewrite T. reflexivity.
    - split; [vm_compute; intuition discriminate|reflexivity].
    - split; [vm_compute; intuition discriminate|reflexivity]. }
  split; [|split].
  - apply csv_output. rewrite Forall_map. eapply Forall_impl; [|exact Hs]. intros r Hr. apply K, Hr.
  - rewrite !map_length. reflexivity.
  - clear - Hs K. induction Hs as [|r rs Hr Hs IH]; cbn [map]; constructor; [apply K, Hr|exact IH].
Qed.

Lemma C23_refuted_lemma :
  exists c1 c2 out1 out2,
    main_output no_parsers (fun _ => Some c1) [B "f"; B "csv"] = Ok out1 /\
    main_output no_parsers (fun _ => Some c2) [B "f"; B "csv"] = Ok out2 /\
    (exists r1, csv_lines out1 [r1] /\ columns r1 = 5) /\ (exists r2, csv_lines out2 [r2] /\ columns r2 = 3).
Proof.
  exists gz, (B "hello"). do 2 eexists. split; [vm_compute; reflexivity|]. split; [vm_compute; reflexivity|].
  split.
  - exists (B "gz,GZIP Archive,,0,"). split; [|reflexivity].
    apply (cl_line (B "gz,GZIP Archive,,0,") [] []); [vm_compute; intuition discriminate|constructor].
  - exists (B "unknown,Unknown File,0"). split; [|reflexivity].
    apply (cl_line (B "unknown,Unknown File,0") [] []); [vm_compute; intuition discriminate|constructor].
Qed.

(** ** C24 *)
Lemma C24_kth run file k rs :
  snd (guessExtension run [] file) = Ok rs ->
  snd (guessExtension run (Nat.iter k (fun g => fst (guessExtension run g file)) []) file) =
  Ok (List.concat (repeat rs (S k))).
Proof.
  intros H. rewrite global_after, (guess_kth run file k rs H). f_equal.
  generalize (S k). intros n. induction n as [|n IH]; cbn [copies repeat List.concat]; [reflexivity|].
  rewrite IH. reflexivity.
Qed.

Lemma C24_refuted_lemma : exists file rs rs',
  snd (guessExtension no_parsers [] file) = Ok rs /\
  snd (guessExtension no_parsers (fst (guessExtension no_parsers [] file)) file) = Ok rs' /\
  rs <> rs'.
Proof.
  exists (Some gz). do 2 eexists. split; [vm_compute; reflexivity|].
  split; [vm_compute; reflexivity|discriminate].
Qed.

Lemma C24_same_iff run file k rs :
  snd (guessExtension run [] file) = Ok rs ->
  (snd (guessExtension run (Nat.iter k (fun g => fst (guessExtension run g file)) []) file) = Ok rs <->
   k = 0%nat \/ rs = []).
Proof.
  intros H. rewrite (C24_kth run file k rs H). split.
  - intros [= E]. destruct k as [|k]; [left; reflexivity|right].
    cbn [repeat List.concat] in E. apply (f_equal (@length Result)) in E.
    rewrite !app_length in E. destruct rs; [reflexivity|cbn in E; lia].
  - intros [->| ->]; f_equal.
    + cbn [repeat List.concat]. apply app_nil_r.
    + generalize (S k). intros n. induction n as [|n IH]; [reflexivity|exact IH].
Qed.

(** ** C25 *)
Lemma C25_refuted_lemma :
  exists content mi, In mi table /\ mi_func mi = None /\ carries content mi /\
    (forall run, identify run (Some content) =
       Ok [plain_result (mkExt (B "empty") (B "Empty File") [] 0 [])]).
Proof.
  assert (exists post : bytes, lenN post = 2 ^ 32 - 2) as (post & Hp).
  { exists (repeatN x00 (2 ^ 32 - 2)). apply lenN_repeatN. }
  exists ([x1f; x8b] ++ post).
  exists (mkMagic (B "gz") (B "GZIP Archive") (B "") 0 2 [x1f; x8b] None).
  split; [unfold table; cbn [In]; do 20 right; left; reflexivity|].
  split; [reflexivity|]. split.
  - exists [], post. split; reflexivity.
  - intros run.
    assert (lenN ([x1f; x8b] ++ post) mod 2 ^ 32 = 0) as E.
    { rewrite lenN_app, Hp. reflexivity. }
    set (content := [x1f; x8b] ++ post) in *. clearbody content.
    unfold identify, guessExtension. rewrite window_size_first, readFile_exact, E.
    change (N.min 0 65536) with 0.
    rewrite takeN_0. cbn [snd bind]. change (0 <? lenN (@nil byte)) with false. cbn [bind].
    rewrite unknown_cases, E. reflexivity.
Qed.

Lemma C25_below content max : lenN content < 2 ^ 32 ->
  readFile (Some content) max = takeN max content.
Proof. apply readFile_small. Qed.

Lemma C25_ex : readFile (Some (B "abcdef")) 4 = B "abcd" /\ readFile (Some (B "abc")) 4 = B "abc" /\
   lenN (B "abcdef") < 2 ^ 32.
Proof. repeat split; vm_compute; reflexivity. Qed.

(** ** C26 *)
Lemma C26_lemma run content suffix mi rs :
  In mi table -> mi_func mi = None -> carries content mi ->
  lenN (content ++ suffix) < 2 ^ 32 ->
  snd (guessExtension run [] (Some (content ++ suffix))) = Ok rs ->
  In (plain_result (row_info mi)) rs.
Proof.
  intros Hi Hf Hc Hl H. eapply C17_complete_lemma; eauto. apply carries_append. exact Hc.
Qed.

Lemma C26_ex : exists mi, In mi table /\ mi_func mi = None /\ carries gz mi.
Proof.
  exists (mkMagic (B "gz") (B "GZIP Archive") (B "") 0 2 [x1f; x8b] None).
  split; [unfold table; cbn [In]; do 20 right; left; reflexivity|].
  split; [reflexivity|]. exists [], [x08; x00]. split; reflexivity.
Qed.
