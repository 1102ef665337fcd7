(** The layout of the [dir] stream of a VBA project, [MS-OVBA] 2.3.4.2.  Independent of
    [Vba/Analyze.v]. *)
From Coq Require Import List NArith Bool.
From Verif Require Import Lib.Bytes Common.Utf8.
Import ListNotations.
Local Open Scope N_scope.

(** Text behind its length. *)
Definition sized (s : bytes) : bytes := to_le 4 (lenN s) ++ s.
(** A record that is a text. *)
Definition text_record (id : N) (s : bytes) : bytes := to_le 2 id ++ sized s.
Definition utf16 (w : list N) : bytes := units 2 w.

(** 2.3.4.2.3.2: a module *)
Record vba_module := mkVba {
  vm_name : bytes; vm_name_wide : option (list N); vm_stream : bytes; vm_stream_wide : list N;
  vm_doc : bytes; vm_doc_wide : list N; vm_offset : N; vm_help : N; vm_cookie : N;
  vm_document : bool; vm_read_only : bool; vm_private : bool }.
Definition module_stored (m : vba_module) : bytes :=
  text_record 25 (vm_name m) ++
  (match vm_name_wide m with Some w => text_record 71 (utf16 w) | None => [] end) ++
  text_record 26 (vm_stream m) ++ text_record 50 (utf16 (vm_stream_wide m)) ++
  text_record 28 (vm_doc m) ++ text_record 72 (utf16 (vm_doc_wide m)) ++
  to_le 2 49 ++ to_le 4 4 ++ to_le 4 (vm_offset m) ++
  to_le 2 30 ++ to_le 4 4 ++ to_le 4 (vm_help m) ++
  to_le 2 44 ++ to_le 4 2 ++ to_le 2 (vm_cookie m) ++
  to_le 2 (if vm_document m then 34 else 33) ++ to_le 4 0 ++
  (if vm_read_only m then to_le 2 37 ++ to_le 4 0 else []) ++
  (if vm_private m then to_le 2 40 ++ to_le 4 0 else []) ++
  to_le 2 43 ++ to_le 4 0.

(** 2.3.4.2.2: a reference to a registered library *)
Record reference := mkRef { rf_name : bytes; rf_name_wide : list N; rf_libid : bytes }.
Definition reference_stored (r : reference) : bytes :=
  text_record 22 (rf_name r) ++ text_record 62 (utf16 (rf_name_wide r)) ++
  to_le 2 13 ++ to_le 4 (4 + lenN (rf_libid r) + 6) ++ sized (rf_libid r) ++ to_le 4 0 ++ to_le 2 0.

(** 2.3.4.2.1: the project; [vp_head] are the first four records, of fixed size, [vp_help_context]
    and [vp_lib_flags] the values of theirs. *)
Record vba_project := mkVp {
  vp_head : bytes; vp_name : bytes; vp_doc : bytes; vp_doc_wide : list N; vp_help1 : bytes; vp_help2 : bytes;
  vp_help_context : N; vp_lib_flags : N; vp_major : N; vp_minor : N;
  vp_constants : bytes; vp_constants_wide : list N; vp_references : list reference;
  vp_cookie : N; vp_modules : list vba_module }.
Definition project_records (p : vba_project) : bytes :=
  vp_head p ++ text_record 4 (vp_name p) ++ text_record 5 (vp_doc p) ++ text_record 64 (utf16 (vp_doc_wide p)) ++
  text_record 6 (vp_help1 p) ++ text_record 61 (vp_help2 p) ++
  (to_le 2 7 ++ to_le 4 4 ++ to_le 4 (vp_help_context p)) ++ (to_le 2 8 ++ to_le 4 4 ++ to_le 4 (vp_lib_flags p)) ++
  (to_le 2 9 ++ to_le 4 4 ++ to_le 4 (vp_major p) ++ to_le 2 (vp_minor p)) ++
  text_record 12 (vp_constants p) ++ text_record 60 (utf16 (vp_constants_wide p)).
(** The records before the name when PROJECTCOMPATVERSION (2.3.4.2.1.2) is among them. *)
Definition compat_head (syskind compat lcid lcid_invoke code_page : N) : bytes :=
  (to_le 2 1 ++ to_le 4 4 ++ to_le 4 syskind) ++ (to_le 2 74 ++ to_le 4 4 ++ to_le 4 compat) ++
  (to_le 2 2 ++ to_le 4 4 ++ to_le 4 lcid) ++ (to_le 2 20 ++ to_le 4 4 ++ to_le 4 lcid_invoke) ++
  (to_le 2 3 ++ to_le 4 2 ++ to_le 2 code_page).
Definition modules_head (p : vba_project) : bytes :=
  (to_le 2 15 ++ to_le 4 2 ++ to_le 2 (lenN (vp_modules p))) ++ (to_le 2 19 ++ to_le 4 2 ++ to_le 2 (vp_cookie p)).
Definition dir_stored (p : vba_project) : bytes :=
  project_records p ++ concat (map reference_stored (vp_references p)) ++ modules_head p ++
  concat (map module_stored (vp_modules p)) ++ to_le 2 16 ++ to_le 4 0.

(** The values fit their fields. *)
Definition wide_text (w : list N) : Prop := Forall (fun u => u < 65536) w.
Definition good_module (m : vba_module) : Prop := wide_text (vm_stream_wide m) /\ vm_offset m < 2 ^ 32 /\ vm_stream m <> [].
Definition good_project (p : vba_project) : Prop :=
  lenN (vp_head p) = 38 /\ vp_major p < 2 ^ 32 /\ vp_minor p < 65536 /\ Forall good_module (vp_modules p).
