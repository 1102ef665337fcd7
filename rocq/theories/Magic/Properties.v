(** Properties C17-C26: identification by signature and the output documents.  Statements
    only; the vocabulary is in [Common/Spec.v], [Magic/Spec.v] and [Magic/Statements.v].
    The content parsers are a universally quantified parameter [run]. *)
From Coq Require Import List NArith ZArith Bool Strings.String.
From Verif Require Import Lib.Res Lib.Bytes Lib.NumSpec Common.Model Common.Spec
     Magic.Table Magic.Model Magic.Spec Magic.Statements Magic.GuessProofs Magic.PropertyLemmas.
Import ListNotations.
Local Open Scope N_scope.

(** ** C17: the answers are exactly the signatures present, in table order *)
Theorem C17_reported_iff_present : forall run content rs, lenN content < 2 ^ 32 ->
  (snd (guessExtension run [] (Some content)) = Ok rs <->
   reports content (fun mi => plain_result (row_info mi))
           (fun p => run p (Some content) (takeN 65536 content)) table rs).
Proof. exact C17_iff. Qed.
Print Assumptions C17_reported_iff_present.

Theorem C17_sound : forall run content rs r, lenN content < 2 ^ 32 ->
  snd (guessExtension run [] (Some content)) = Ok rs -> In r rs ->
  exists mi, In mi table /\ carries content mi /\
    ((mi_func mi = None /\ r = plain_result (row_info mi)) \/
     (exists p l, mi_func mi = Some p /\ run p (Some content) (takeN 65536 content) = Ok l /\ In r l)).
Proof. exact C17_sound_lemma. Qed.
Print Assumptions C17_sound.

Theorem C17_complete : forall run content rs mi, lenN content < 2 ^ 32 ->
  snd (guessExtension run [] (Some content)) = Ok rs ->
  In mi table -> mi_func mi = None -> carries content mi ->
  In (plain_result (row_info mi)) rs.
Proof. exact C17_complete_lemma. Qed.
Print Assumptions C17_complete.

Example C17_example :
  snd (guessExtension no_parsers [] (Some gz)) =
    Ok [plain_result (mkExt (B "gz") (B "GZIP Archive") [] 0 [])] /\
  snd (guessExtension no_parsers [] (Some tar_file)) =
    Ok [plain_result (mkExt (B "tar") (B "TAR Container") [] 0 [])].
Proof. exact C17_ex. Qed.

(** ** C18: the prefix that is read covers every signature *)
Theorem C18_window_covers_any_table : forall sigs mi,
  (forall mi, In mi sigs -> mi_offset mi + mi_size mi <= 2 ^ 31) -> In mi sigs ->
  mi_offset mi + mi_size mi <= getMinimumBufferSize sigs.
Proof. exact C18_window_lemma. Qed.
Print Assumptions C18_window_covers_any_table.

Theorem C18_table_fits : forall mi, In mi table ->
  mi_size mi = lenN (mi_magic mi) /\ mi_offset mi + mi_size mi <= 65536.
Proof. exact C18_table_lemma. Qed.
Print Assumptions C18_table_fits.

Theorem C18_same_prefix_same_answer : forall run c1 c2,
  lenN c1 < 2 ^ 32 -> lenN c2 < 2 ^ 32 -> takeN 65536 c1 = takeN 65536 c2 ->
  (forall p, run p (Some c1) (takeN 65536 c1) = run p (Some c2) (takeN 65536 c2)) ->
  snd (guessExtension run [] (Some c1)) = snd (guessExtension run [] (Some c2)).
Proof. exact C18_same_prefix_lemma. Qed.
Print Assumptions C18_same_prefix_same_answer.

Example C18_example : getMinimumBufferSize table = 65536 /\
  exists mi, In mi table /\ mi_offset mi + mi_size mi = 36869.
Proof. exact C18_ex. Qed.

(** ** C19: rounding up to a power of two *)
Theorem C19_least_power_of_two : forall x, 1 <= x -> x <= 2 ^ 31 ->
  least_pow2 x (roundUpPowerOfTwo x).
Proof. exact roundUp_spec. Qed.
Print Assumptions C19_least_power_of_two.

Theorem C19_wraps_to_zero : forall x, 2 ^ 31 < x -> x < 2 ^ 32 -> roundUpPowerOfTwo x = 0.
Proof. exact roundUp_above. Qed.
Print Assumptions C19_wraps_to_zero.

Theorem C19_zero : roundUpPowerOfTwo 0 = 0.
Proof. exact roundUp_zero. Qed.
Print Assumptions C19_zero.

Example C19_example : roundUpPowerOfTwo 36869 = 65536 /\ roundUpPowerOfTwo 65536 = 65536 /\
  roundUpPowerOfTwo 1 = 1 /\ roundUpPowerOfTwo 2147483649 = 0.
Proof. exact C19_ex. Qed.

(** ** C20: every file gets an answer and the fallbacks are exact *)
Theorem C20_always_an_answer : forall run file rs, identify run file = Ok rs -> rs <> [].
Proof. exact identify_nonempty. Qed.
Print Assumptions C20_always_an_answer.

Theorem C20_exact_answer : forall run content rs, lenN content < 2 ^ 32 ->
  (identify run (Some content) = Ok rs <->
   exists found,
     reports content (fun mi => plain_result (row_info mi))
             (fun p => run p (Some content) (takeN 65536 content)) table found /\
     rs = answer content found).
Proof. exact identify_exact. Qed.
Print Assumptions C20_exact_answer.

Theorem C20_missing_file_is_empty : forall run, identify run None =
  Ok [plain_result (mkExt (B "empty") (B "Empty File") [] 0 [])].
Proof. exact C20_missing_lemma. Qed.
Print Assumptions C20_missing_file_is_empty.

Example C20_example :
  (exists rs, identify no_parsers (Some (B "hello")) = Ok rs /\
              map (fun r => Extension (r_info r)) rs = [B "unknown"]) /\
  (exists rs, identify no_parsers (Some gz) = Ok rs /\
              map (fun r => Extension (r_info r)) rs = [B "gz"]).
Proof. exact C20_ex. Qed.

(** ** C21: the JSON document *)
Theorem C21_json_document : forall run fs file content rs,
  ~ In x00 file -> fs file = Some content -> lenN content < 2 ^ 32 -> no_parser_needed content ->
  identify run (fs file) = Ok rs ->
  exists out vs,
    main_output run fs [file; B "json"] = Ok out /\
    Forall2 (json_describes content) rs vs /\
    (forall d, json_value out d <->
       d = JObj [(map b2n (B "name"), JStr (map b2n file)); (map b2n (B "extensions"), JArr vs)]).
Proof. exact C21_lemma. Qed.
Print Assumptions C21_json_document.

Example C21_example : exists out,
  main_output no_parsers (fun _ => Some gz) [B "a.gz"; B "json"] = Ok out /\ no_parser_needed gz /\
  ~ In x00 (B "a.gz").
Proof. exact C21_ex. Qed.

(** ** C22: the XML document *)
Theorem C22_xml_document : forall run fs file content rs,
  fs file = Some content -> lenN content < 2 ^ 32 -> no_parser_needed content ->
  identify run (fs file) = Ok rs ->
  exists out shown es,
    main_output run fs [file; B "xml"] = Ok out /\
    Forall2 (xml_describes content) rs es /\
    (forall d, xml_document out d <->
       d = XElem (B "file") [XElem (B "name") shown; XElem (B "extensions") es]) /\
    (shown = xtext file <-> ~ In x3c file /\ ~ In x3e file).
Proof. exact C22_lemma. Qed.
Print Assumptions C22_xml_document.

Example C22_example : exists out,
  main_output no_parsers (fun _ => Some (B "]]></x>")) [B "a&b"; B "xml"] = Ok out /\
  contains (B "<name>a&#38;b</name>") out /\ ~ contains (B "]]></x>") out.
Proof. exact C22_ex. Qed.

(** ** C23: CSV columns — false across results; exact counts *)
Theorem C23_fixed_columns_refuted :
  exists c1 c2 out1 out2,
    main_output no_parsers (fun _ => Some c1) [B "f"; B "csv"] = Ok out1 /\
    main_output no_parsers (fun _ => Some c2) [B "f"; B "csv"] = Ok out2 /\
    (exists r1, csv_lines out1 [r1] /\ columns r1 = 5) /\ (exists r2, csv_lines out2 [r2] /\ columns r2 = 3).
Proof. exact C23_refuted_lemma. Qed.
Print Assumptions C23_fixed_columns_refuted.

Theorem C23_rows_and_columns : forall run fs file content rs,
  fs file = Some content -> lenN content < 2 ^ 32 -> no_parser_needed content ->
  identify run (fs file) = Ok rs ->
  exists out rows,
    main_output run fs [file; B "csv"] = Ok out /\ csv_lines out rows /\
    length rows = length rs /\
    Forall2 (fun r row => columns row = if bytes_eqb (Extension (r_info r)) (B "unknown") then 3 else 5) rs rows.
Proof. exact C23_lemma. Qed.
Print Assumptions C23_rows_and_columns.

(** ** C24: repeated identification — false; the exact answer of every call *)
Theorem C24_same_answer_refuted : exists file rs rs',
  snd (guessExtension no_parsers [] file) = Ok rs /\
  snd (guessExtension no_parsers (fst (guessExtension no_parsers [] file)) file) = Ok rs' /\
  rs <> rs'.
Proof. exact C24_refuted_lemma. Qed.
Print Assumptions C24_same_answer_refuted.

Theorem C24_answer_after_k_calls : forall run file k rs,
  snd (guessExtension run [] file) = Ok rs ->
  snd (guessExtension run (Nat.iter k (fun g => fst (guessExtension run g file)) []) file) =
  Ok (List.concat (repeat rs (S k))).
Proof. exact C24_kth. Qed.
Print Assumptions C24_answer_after_k_calls.

Theorem C24_same_answer_iff : forall run file k rs,
  snd (guessExtension run [] file) = Ok rs ->
  (snd (guessExtension run (Nat.iter k (fun g => fst (guessExtension run g file)) []) file) = Ok rs <->
   k = 0%nat \/ rs = []).
Proof. exact C24_same_iff. Qed.
Print Assumptions C24_same_answer_iff.

(** ** C25: large files — false at 4 GiB; exact read *)
Theorem C25_large_file_refuted :
  exists content mi, In mi table /\ mi_func mi = None /\ carries content mi /\
    (forall run, identify run (Some content) =
       Ok [plain_result (mkExt (B "empty") (B "Empty File") [] 0 [])]).
Proof. exact C25_refuted_lemma. Qed.
Print Assumptions C25_large_file_refuted.

Theorem C25_read_below_4GiB : forall content max, lenN content < 2 ^ 32 ->
  readFile (Some content) max = takeN max content.
Proof. exact C25_below. Qed.
Print Assumptions C25_read_below_4GiB.

Theorem C25_read_any_size : forall content max,
  readFile (Some content) max = takeN (N.min (lenN content mod 2 ^ 32) max) content.
Proof. exact readFile_exact. Qed.
Print Assumptions C25_read_any_size.

Example C25_example :
  readFile (Some (B "abcdef")) 4 = B "abcd" /\ readFile (Some (B "abc")) 4 = B "abc" /\
  lenN (B "abcdef") < 2 ^ 32.
Proof. exact C25_ex. Qed.

(** ** C26: appending data keeps every signature *)
Theorem C26_append_keeps_signatures : forall run content suffix mi rs,
  In mi table -> mi_func mi = None -> carries content mi ->
  lenN (content ++ suffix) < 2 ^ 32 ->
  snd (guessExtension run [] (Some (content ++ suffix))) = Ok rs ->
  In (plain_result (row_info mi)) rs.
Proof. exact C26_lemma. Qed.
Print Assumptions C26_append_keeps_signatures.

Theorem C26_append_keeps_carried : forall content suffix mi,
  carries content mi -> carries (content ++ suffix) mi.
Proof. exact carries_append. Qed.
Print Assumptions C26_append_keeps_carried.

Example C26_example : exists mi, In mi table /\ mi_func mi = None /\ carries gz mi.
Proof. exact C26_ex. Qed.
