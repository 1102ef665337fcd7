(** Properties C34-C39: MP4, RIFF, DWG and WordPerfect.  Statements only; the vocabulary is in
    [Common/Spec.v], [Common/Fields.v], [Magic/Spec.v] and [Media/Spec.v]. *)
From Coq Require Import List NArith ZArith Bool Strings.String.
From Verif Require Import Lib.Res Lib.Bytes Lib.Text Lib.NumSpec Common.Model Common.Spec Common.Fields
     Magic.Table Magic.Model Magic.Spec Media.Model Media.WordPerfect Media.Spec Media.PropertyLemmas.
Import ListNotations.
Local Open Scope N_scope.

(** ** C34: every MP4 file gets an answer *)
Theorem C34_exact_outcome : forall buffer, (lenN buffer < 15 -> mp4_Detailer buffer = Throw RangeError) /\
  (lenN buffer = 15 -> mp4_Detailer buffer = UB) /\
  (16 <= lenN buffer ->
   mp4_Detailer buffer = Ok [plain_result (mkExt (B "mp4") [] [] 0 (B "MPEG-4 Media File"))]).
Proof. exact C34_exact. Qed.
Print Assumptions C34_exact_outcome.

Theorem C34_every_ftyp_file_refuted : forall run, (forall file buffer, run PMp4 file buffer = mp4_Detailer buffer) ->
  exists short edge, occurs_at (B "ftyp") short 4 /\ occurs_at (B "ftyp") edge 4 /\
    identify run (Some short) = Throw RangeError /\ identify run (Some edge) = UB.
Proof. exact C34_refuted. Qed.
Print Assumptions C34_every_ftyp_file_refuted.

Example C34_example : occurs_at (B "ftyp") ftyp_file 4 /\ 16 <= lenN ftyp_file /\
  mp4_Detailer ftyp_file = Ok [plain_result (mkExt (B "mp4") [] [] 0 (B "MPEG-4 Media File"))].
Proof. exact C34_ex. Qed.

(** ** C35: MP4 brand and minor version *)
Theorem C35_brand_and_version : forall buffer code v, window buffer 8 4 code -> be_number_at buffer 12 4 v ->
  exists i, mp4_detail buffer = Ok i /\ v_BrandCode i = code /\ v_Version i = v /\
    code_named brand_names (B "Unknonw FTYP") code (v_Brand i).
Proof. exact C35_lemma. Qed.
Print Assumptions C35_brand_and_version.

Theorem C35_brand_name_unique : forall code n n', code_named brand_names (B "Unknonw FTYP") code n ->
  code_named brand_names (B "Unknonw FTYP") code n' -> n = n'.
Proof. exact C35_unique. Qed.
Print Assumptions C35_brand_name_unique.

Theorem C35_brand_reported_refuted : exists a b, window a 8 4 (B "isom") /\ window b 8 4 (B "qt  ") /\
  In (B "isom") (map fst brand_names) /\ In (B "qt  ") (map fst brand_names) /\
  mp4_Detailer a = mp4_Detailer b /\ 16 <= lenN a /\ 16 <= lenN b.
Proof. exact C35_reported_refuted_lemma. Qed.
Print Assumptions C35_brand_reported_refuted.

Example C35_example : window ftyp_file 8 4 (B "isom") /\ be_number_at ftyp_file 12 4 512 /\
  In (B "isom") (map fst brand_names).
Proof. exact C35_ex. Qed.

(** ** C36: RIFF files are classified by their form type *)
Theorem C36_exact_kind : forall (content : bytes) ext, riff_Detailer content = Ok [plain_result (mkExt ext [] [] 0 [])] <->
  (exists form chunk, In (form, chunk, ext) riff_extensions /\
      riff_form content form /\ riff_first_chunk content chunk) \/
  (ext = B "riff" /\ forall form chunk e, In (form, chunk, e) riff_extensions ->
      ~ (riff_form content form /\ riff_first_chunk content chunk)).
Proof. exact C36_lemma. Qed.
Print Assumptions C36_exact_kind.

Theorem C36_always_answers : forall content, exists ext, riff_Detailer content = Ok [plain_result (mkExt ext [] [] 0 [])].
Proof. exact C36_total. Qed.
Print Assumptions C36_always_answers.

Theorem C36_form_type_refuted : exists a b, riff_form a (B "WAVE") /\ riff_form b (B "WAVE") /\
  riff_Detailer a = Ok [plain_result (mkExt (B "wav") [] [] 0 [])] /\
  riff_Detailer b = Ok [plain_result (mkExt (B "riff") [] [] 0 [])].
Proof. exact C36_refuted. Qed.
Print Assumptions C36_form_type_refuted.

Example C36_example : riff_form wav_file (B "WAVE") /\ riff_first_chunk wav_file (B "fmt ") /\
  In (B "WAVE", B "fmt ", B "wav") riff_extensions.
Proof. exact C36_ex. Qed.

(** ** C37: AutoCAD releases *)
Theorem C37_release_names : forall (content tag : bytes), occurs_at (B "AC10") content 0 -> window content 0 6 tag ->
  exists name, dwg_Detailer content = Ok [plain_result (mkExt (B "dwg") [] [] 0 name)] /\
               code_named dwg_releases [] tag name.
Proof. exact C37_lemma. Qed.
Print Assumptions C37_release_names.

Theorem C37_short_file : forall (content : bytes), lenN content <= 5 ->
  dwg_Detailer content = Ok [plain_result (mkExt (B "dwg") [] [] 0 [])].
Proof. exact C37_short. Qed.
Print Assumptions C37_short_file.

Theorem C37_every_release_refuted : exists content, window content 0 6 (B "AC1032") /\
  dwg_Detailer content = Ok [plain_result (mkExt (B "dwg") [] [] 0 [])].
Proof. exact C37_refuted. Qed.
Print Assumptions C37_every_release_refuted.

Example C37_example : occurs_at (B "AC10") (B "AC1015") 0 /\ window (B "AC1015") 0 6 (B "AC1015") /\
  dwg_Detailer (B "AC1015") = Ok [plain_result (mkExt (B "dwg") [] [] 0 (B "AutoCAD R2000"))].
Proof. exact C37_ex. Qed.

(** ** C38: rendering a WordPerfect result *)
Theorem C38_exact_rendering : forall p content i, In i (wp_Detailer content) ->
  wp_render p JSON i = UB /\ wp_render p XML i = UB /\
  wp_render p TEXT i = Ok (B "wp" ++ [x09] ++ B "Word Perfect File" ++ [x09] ++ B "0") /\
  wp_render p CSV i = Ok (B "wp,Word Perfect File,0").
Proof. exact C38_lemma. Qed.
Print Assumptions C38_exact_rendering.

Theorem C38_render_refuted : exists content, occurs_at ([xff] ++ B "WPC") content 0 /\
  forall i, In i (wp_Detailer content) -> wp_render linux64 JSON i = UB /\ wp_render linux64 XML i = UB.
Proof. exact C38_refuted. Qed.
Print Assumptions C38_render_refuted.

Example C38_example : List.length (wp_Detailer wp_file) = 1%nat.
Proof. exact C38_ex. Qed.

(** ** C39: the WordPerfect header fields *)
Theorem C39_fields_by_platform : forall p b prod ft maj min enc, let o := 2 * sizeof_long p in
  number_at b o 1 prod -> number_at b (o + 1) 1 ft ->
  number_at b (o + 2) 1 maj -> number_at b (o + 3) 1 min -> number_at b (o + 4) 4 enc ->
  exists t kind, wp_render p JSON (wp_StreamDetailer b) = Ok t /\
    (In (ft, kind) wp_file_types \/ (kind = B "Unknown" /\ forall n, ~ In (ft, n) wp_file_types)) /\
    json_value t (JObj (wp_members (mkExt (B "wp") [] [] 0 (B "Word Perfect File"))
                                   (dec prod) kind (dec maj) (dec min) (dec enc))).
Proof. exact C39_lemma. Qed.
Print Assumptions C39_fields_by_platform.

Theorem C39_linux_offsets_refuted : exists b, occurs_at ([xff] ++ B "WPC") b 0 /\ number_at b 8 1 1 /\ number_at b 9 1 10 /\
  exists t, wp_render linux64 JSON (wp_StreamDetailer b) = Ok t /\
    contains (B "ProductType" ++ q ++ B ":" ++ q ++ B "5") t.
Proof. exact C39_refuted. Qed.
Print Assumptions C39_linux_offsets_refuted.

Example C39_example : number_at wp_file 8 1 1 /\ number_at wp_file (2 * sizeof_long windows) 1 1 /\
  number_at wp_file (2 * sizeof_long windows + 4) 4 0 /\ 24 <= lenN wp_file /\ In (10, B "WordPerfect document") wp_file_types.
Proof. exact C39_ex. Qed.
