(** The statements of [Media/Properties.v], proved. *)
From Coq Require Import List NArith ZArith Bool Lia Strings.String.
From Coq Require Import ZifyBool ZifyNat ZifyN.
From Verif Require Import Lib.Res Lib.Bytes Lib.BytesFacts Lib.Text Lib.NumSpec Lib.NumFacts
     Common.Model Common.Spec Common.Fields Common.FieldProofs Common.ReadProofs
     Magic.Table Magic.Model Magic.Spec Magic.DocProofs Magic.DocBase Exe.Model Exe.Spec Exe.Proofs
     Media.Model Media.WordPerfect Media.Spec Media.Proofs.
Import ListNotations.
Local Open Scope N_scope.
Ltac Zify.zify_post_hook ::= Z.div_mod_to_equations.

Definition ftyp_file : bytes := [x00; x00; x00; x18] ++ B "ftypisom" ++ [x00; x00; x02; x00] ++ B "isommp42".

(** ** C34 *)
Lemma C34_exact buffer :
  (lenN buffer < 15 -> mp4_Detailer buffer = Throw RangeError) /\
  (lenN buffer = 15 -> mp4_Detailer buffer = UB) /\
  (16 <= lenN buffer ->
   mp4_Detailer buffer = Ok [plain_result (mkExt (B "mp4") [] [] 0 (B "MPEG-4 Media File"))]).
Proof. split; [|split]; [apply mp4_short|apply mp4_edge|apply mp4_ok]. Qed.

Lemma C34_refuted : forall run, (forall file buffer, run PMp4 file buffer = mp4_Detailer buffer) ->
  exists short edge, occurs_at (B "ftyp") short 4 /\ occurs_at (B "ftyp") edge 4 /\
    identify run (Some short) = Throw RangeError /\ identify run (Some edge) = UB.
Proof.
  intros run H. exists (takeN 12 ftyp_file), (takeN 15 ftyp_file).
  split; [exists [x00; x00; x00; x18], (B "isom"); split; reflexivity|].
  split; [exists [x00; x00; x00; x18], (B "isom" ++ [x00; x00; x02]); split; reflexivity|].
  split; vm_compute; rewrite H; vm_compute; reflexivity.
Qed.

Lemma C34_ex : occurs_at (B "ftyp") ftyp_file 4 /\ 16 <= lenN ftyp_file /\
  mp4_Detailer ftyp_file = Ok [plain_result (mkExt (B "mp4") [] [] 0 (B "MPEG-4 Media File"))].
Proof.
  split; [exists [x00; x00; x00; x18], (dropN 8 ftyp_file); split; reflexivity|].
  split; [vm_compute; discriminate|reflexivity].
Qed.

(** ** C35 *)
Lemma C35_lemma buffer code v : window buffer 8 4 code -> be_number_at buffer 12 4 v ->
  exists i, mp4_detail buffer = Ok i /\ v_BrandCode i = code /\ v_Version i = v /\
    code_named brand_names (B "Unknonw FTYP") code (v_Brand i).
Proof.
  intros Hc Hv. rewrite (mp4_fields _ _ _ Hc Hv). eexists. split; [reflexivity|].
  cbn [v_BrandCode v_Version v_Brand]. split; [reflexivity|]. split; [reflexivity|].
  apply brand_lookup_named.
Qed.
Lemma C35_unique code n n' : code_named brand_names (B "Unknonw FTYP") code n ->
  code_named brand_names (B "Unknonw FTYP") code n' -> n = n'.
Proof. apply code_named_fun. vm_compute. reflexivity. Qed.
Lemma C35_reported_refuted_lemma : exists a b, window a 8 4 (B "isom") /\ window b 8 4 (B "qt  ") /\
  In (B "isom") (map fst brand_names) /\ In (B "qt  ") (map fst brand_names) /\
  mp4_Detailer a = mp4_Detailer b /\ 16 <= lenN a /\ 16 <= lenN b.
Proof.
  exists ftyp_file, (takeN 8 ftyp_file ++ B "qt  " ++ dropN 12 ftyp_file).
  split; [split; [reflexivity|]; exists (takeN 8 ftyp_file), (dropN 12 ftyp_file); split; reflexivity|].
  split; [split; [reflexivity|]; exists (takeN 8 ftyp_file), (dropN 12 ftyp_file); split; reflexivity|].
  split; [vm_compute; repeat (try (left; reflexivity); right)|].
  split; [vm_compute; repeat (try (left; reflexivity); right)|].
  split; [reflexivity|]. split; vm_compute; discriminate.
Qed.
Lemma C35_ex : window ftyp_file 8 4 (B "isom") /\ be_number_at ftyp_file 12 4 512 /\
  In (B "isom") (map fst brand_names).
Proof.
  split; [split; [reflexivity|]; exists (takeN 8 ftyp_file), (dropN 12 ftyp_file); split; reflexivity|].
  split; [exists [x00; x00; x02; x00]; split; [|reflexivity];
          split; [reflexivity|]; exists (takeN 12 ftyp_file), (dropN 16 ftyp_file); split; reflexivity|].
  vm_compute. repeat (try (left; reflexivity); right).
Qed.

(** ** C36 *)
Lemma kind_rows p e : In (p, e) riff_kinds <->
  exists form chunk, p = form ++ chunk /\ lenN form = 4 /\ lenN chunk = 4 /\ In (form, chunk, e) riff_extensions.
Proof.
  split.
  - intros H. repeat (destruct H as [H|H]; [inversion H; subst; clear H|]); [..|destruct H];
      [exists (B "CDDA"), (B "fmt ")|exists (B "WAVE"), (B "fmt ")|exists (B "AVI "), (B "LIST")
      |exists (B "QLCM"), (B "fmt ")|exists (B "RMID"), (B "data")];
      (split; [reflexivity|]); (split; [reflexivity|]); (split; [reflexivity|]); cbn; tauto.
  - intros (f & c & -> & _ & _ & H).
    repeat (destruct H as [H|H]; [inversion H; subst; clear H; cbn; tauto|]). destruct H.
Qed.

Lemma C36_lemma (content : bytes) ext :
  riff_Detailer content = Ok [plain_result (mkExt ext [] [] 0 [])] <->
  (exists form chunk, In (form, chunk, ext) riff_extensions /\
      riff_form content form /\ riff_first_chunk content chunk) \/
  (ext = B "riff" /\ forall form chunk e, In (form, chunk, e) riff_extensions ->
      ~ (riff_form content form /\ riff_first_chunk content chunk)).
Proof.
  assert (L8 : forall e, In e riff_kinds -> lenN (fst e) = 8).
  { intros e He. repeat (destruct He as [<-|He]; [reflexivity|]). destruct He. }
  assert (W : forall form chunk, lenN form = 4 -> lenN chunk = 4 ->
     (occurs_at (form ++ chunk) content 8 <-> riff_form content form /\ riff_first_chunk content chunk)).
  { intros form chunk H1 H2. rewrite occurs_at_window, lenN_app, H1, H2.
    apply (window_split content 8 4 4); assumption. }
  unfold riff_Detailer. destruct (riff_try_spec riff_kinds content L8) as [(p & e & H1 & H2 & H3)|[H1 H2]].
  - rewrite H3. cbn [bind]. apply kind_rows in H1 as K. destruct K as (form & chunk & -> & K1 & K2 & K3).
    apply W in H2; [|exact K1|exact K2]. split.
    + intros X. inversion X; subst. left. exists form, chunk. tauto.
    + intros [(f & c & X1 & X2 & X3)|(X1 & X2)].
      * destruct H2 as [H2 H2']. pose proof (window_fun _ _ _ _ _ H2 X2). pose proof (window_fun _ _ _ _ _ H2' X3).
        subst f c. clear -K3 X1. enough (e = ext) by congruence. revert K3 X1.
        cbn. intros. 
        repeat match goal with
               | H : _ \/ _ |- _ => destruct H
               | H : (_, _, _) = (_, _, _) |- _ => inversion H; subst; clear H
               | H : False |- _ => destruct H
               end; first [reflexivity|discriminate|idtac].
      * destruct (X2 _ _ _ K3 H2).
  - rewrite H2. cbn [bind]. split.
    + intros X. inversion X; subst. right. split; [reflexivity|]. intros form chunk e He Hw.
      assert (In (form ++ chunk, e) riff_kinds /\ lenN form = 4 /\ lenN chunk = 4) as (Y & Y1 & Y2).
      { destruct Hw as [[A _] [C _]]. split; [|split; assumption].
        apply kind_rows. exists form, chunk. tauto. }
      apply W in Hw; [|assumption|assumption]. exact (H1 _ _ Y Hw).
    + intros [(f & c & X1 & X2 & X3)|(-> & X2)]; [|reflexivity]. exfalso.
      assert (lenN f = 4 /\ lenN c = 4) as [Y1 Y2] by (destruct X2 as [A _], X3 as [C _]; auto).
      apply (H1 (f ++ c) ext).
      * apply kind_rows. exists f, c. auto.
      * apply W; auto.
Qed.
Lemma C36_total content : exists ext, riff_Detailer content = Ok [plain_result (mkExt ext [] [] 0 [])].
Proof. unfold riff_Detailer. destruct (riff_total content) as [e E]. exists e. rewrite E. reflexivity. Qed.

Definition wav_file : bytes := B "RIFF" ++ [x24; x00; x00; x00] ++ B "WAVEfmt " ++ [x10; x00; x00; x00].
Definition bwf_file : bytes := B "RIFF" ++ [x24; x00; x00; x00] ++ B "WAVEbext" ++ [x10; x00; x00; x00].
Lemma C36_refuted : exists a b, riff_form a (B "WAVE") /\ riff_form b (B "WAVE") /\
  riff_Detailer a = Ok [plain_result (mkExt (B "wav") [] [] 0 [])] /\
  riff_Detailer b = Ok [plain_result (mkExt (B "riff") [] [] 0 [])].
Proof.
  exists wav_file, bwf_file.
  split; [split; [reflexivity|]; exists (takeN 8 wav_file), (dropN 12 wav_file); split; reflexivity|].
  split; [split; [reflexivity|]; exists (takeN 8 bwf_file), (dropN 12 bwf_file); split; reflexivity|].
  split; reflexivity.
Qed.
Lemma C36_ex : riff_form wav_file (B "WAVE") /\ riff_first_chunk wav_file (B "fmt ") /\
  In (B "WAVE", B "fmt ", B "wav") riff_extensions.
Proof.
  split; [split; [reflexivity|]; exists (takeN 8 wav_file), (dropN 12 wav_file); split; reflexivity|].
  split; [split; [reflexivity|]; exists (takeN 12 wav_file), (dropN 16 wav_file); split; reflexivity|].
  cbn. tauto.
Qed.

(** ** C37 *)
Lemma C37_short (content : bytes) : lenN content <= 5 ->
  dwg_Detailer content = Ok [plain_result (mkExt (B "dwg") [] [] 0 [])].
Proof. apply dwg_short. Qed.
Lemma C37_refuted : exists content, window content 0 6 (B "AC1032") /\
  dwg_Detailer content = Ok [plain_result (mkExt (B "dwg") [] [] 0 [])].
Proof.
  exists (B "AC1032" ++ [x00; x00]). split; [|reflexivity].
  split; [reflexivity|]. exists [], [x00; x00]. split; reflexivity.
Qed.
Lemma C37_lemma (content tag : bytes) : occurs_at (B "AC10") content 0 -> window content 0 6 tag ->
  exists name, dwg_Detailer content = Ok [plain_result (mkExt (B "dwg") [] [] 0 name)] /\
               code_named dwg_releases [] tag name.
Proof. apply dwg_named. Qed.
Lemma C37_ex : occurs_at (B "AC10") (B "AC1015") 0 /\ window (B "AC1015") 0 6 (B "AC1015") /\
  dwg_Detailer (B "AC1015") = Ok [plain_result (mkExt (B "dwg") [] [] 0 (B "AutoCAD R2000"))].
Proof.
  split; [exists [], (B "15"); split; reflexivity|]. split; [|reflexivity].
  split; [reflexivity|]. exists [], []. split; reflexivity.
Qed.

(** ** C38 *)
Definition wp_file : bytes := [xff] ++ B "WPC" ++ [x10; x00; x00; x00; x01; x0a; x02; x01; x00; x00; x00; x00] ++
  [x05; x00; x00; x00; x00; x00; x00; x00; x00; x00; x00; x00].
Lemma C38_refuted : exists content, occurs_at ([xff] ++ B "WPC") content 0 /\
  forall i, In i (wp_Detailer content) -> wp_render linux64 JSON i = UB /\ wp_render linux64 XML i = UB.
Proof.
  exists wp_file. split; [exists [], (dropN 4 wp_file); split; reflexivity|].
  intros i H. exact (wp_dangling linux64 _ _ H).
Qed.
Lemma C38_lemma p content i : In i (wp_Detailer content) ->
  wp_render p JSON i = UB /\ wp_render p XML i = UB /\
  wp_render p TEXT i = Ok (B "wp" ++ [x09] ++ B "Word Perfect File" ++ [x09] ++ B "0") /\
  wp_render p CSV i = Ok (B "wp,Word Perfect File,0").
Proof.
  intros H. destruct (wp_dangling p _ _ H) as [H1 H2]. destruct (wp_rows _ _ H) as [H3 H4].
  cbn [wp_render]. auto.
Qed.
Lemma C38_ex : List.length (wp_Detailer wp_file) = 1%nat.
Proof. reflexivity. Qed.

(** ** C39 *)
Lemma C39_lemma p b prod ft maj min enc : let o := 2 * sizeof_long p in
  number_at b o 1 prod -> number_at b (o + 1) 1 ft ->
  number_at b (o + 2) 1 maj -> number_at b (o + 3) 1 min -> number_at b (o + 4) 4 enc ->
  exists t kind, wp_render p JSON (wp_StreamDetailer b) = Ok t /\
    (In (ft, kind) wp_file_types \/ (kind = B "Unknown" /\ forall n, ~ In (ft, n) wp_file_types)) /\
    json_value t (JObj (wp_members (mkExt (B "wp") [] [] 0 (B "Word Perfect File"))
                                   (dec prod) kind (dec maj) (dec min) (dec enc))).
Proof.
  intros o H1 H2 H3 H4 H5.
  destruct (wp_json p (wp_StreamDetailer b) b _ _ _ _ _ eq_refl eq_refl H1 H2 H3 H4 H5) as (t & E & J).
  exists t, (fileTypeToString ft). split; [exact E|]. split; [|exact J].
  unfold fileTypeToString. destruct (lookup wp_file_types ft) eqn:L.
  - left. apply lookup_in, L.
  - right. split; [reflexivity|]. intros n. apply lookup_none, L.
Qed.
Lemma C39_refuted : exists b, occurs_at ([xff] ++ B "WPC") b 0 /\ number_at b 8 1 1 /\ number_at b 9 1 10 /\
  exists t, wp_render linux64 JSON (wp_StreamDetailer b) = Ok t /\
    contains (B "ProductType" ++ q ++ B ":" ++ q ++ B "5") t.
Proof.
  exists wp_file. split; [exists [], (dropN 4 wp_file); split; reflexivity|].
  split; [exists [x01]; split; [|reflexivity]; split; [reflexivity|]; exists (takeN 8 wp_file), (dropN 9 wp_file); split; reflexivity|].
  split; [exists [x0a]; split; [|reflexivity]; split; [reflexivity|]; exists (takeN 9 wp_file), (dropN 10 wp_file); split; reflexivity|].
  eexists. split; [vm_compute; reflexivity|].
  match goal with |- contains _ ?t => exists (takeN 70 t), (dropN 85 t) end. vm_compute. reflexivity.
Qed.
Lemma C39_ex : number_at wp_file 8 1 1 /\ number_at wp_file (2 * sizeof_long windows) 1 1 /\
  number_at wp_file (2 * sizeof_long windows + 4) 4 0 /\ 24 <= lenN wp_file /\ In (10, B "WordPerfect document") wp_file_types.
Proof.
  split; [exists [x01]; split; [|reflexivity]; split; [reflexivity|]; exists (takeN 8 wp_file), (dropN 9 wp_file); split; reflexivity|].
  split; [exists [x01]; split; [|reflexivity]; split; [reflexivity|]; exists (takeN 8 wp_file), (dropN 9 wp_file); split; reflexivity|].
  split; [exists [x00; x00; x00; x00]; split; [|reflexivity]; split; [reflexivity|]; exists (takeN 12 wp_file), (dropN 16 wp_file); split; reflexivity|].
  split; [vm_compute; discriminate|]. vm_compute. repeat (try (left; reflexivity); right).
Qed.
