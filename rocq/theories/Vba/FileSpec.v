(** VBA projects in compound files.  Independent of [Vba/Analyze.v]. *)
From Coq Require Import List NArith Bool Strings.String.
From Verif Require Import Lib.Bytes Lib.Text Common.Spec Common.Fields Ole.Spec Vba.Spec Vba.DirSpec.
Import ListNotations.
Local Open Scope N_scope.

(** The file has a stream with this path and these bytes. *)
Definition stream_at (f : bytes) (c : compound) (names : list (list N)) (content : bytes) : Prop :=
  exists k n, at_path node_lt (c_dir c) 0 names k /\ nthN (c_dir c) k = Some n /\ is_stream n /\ stream_content f c n content.
Definition text (s : bytes) : list N := map b2n s.
(** [MS-OVBA] 2.3.1: the streams below a storage; the source of a module is stored after the offset. *)
Definition module_stream (f : bytes) (c : compound) (names : list (list N)) (m : vba_module) (code : bytes) : Prop :=
  plain_name (vm_stream_wide m) /\
  exists before w, stream_at f c (names ++ [text (B "VBA"); vm_stream_wide m]) (before ++ w) /\
    lenN before = vm_offset m /\ container w code /\ lenN w <= 4194272.
Definition project_streams (f : bytes) (c : compound) (names : list (list N)) (version : N) (p : vba_project) (codes : list bytes) : Prop :=
  (exists h, stream_at f c (names ++ [text (B "VBA"); text (B "_VBA_PROJECT")]) h /\ 8 <= lenN h /\ number_at h 2 2 version) /\
  (exists w, stream_at f c (names ++ [text (B "VBA"); text (B "dir")]) w /\ container w (dir_stored p) /\ lenN w <= 4194272) /\
  Forall2 (module_stream f c names) (vp_modules p) codes.

(** Some part of the path is not a member of the storage before it. *)
Definition lacks (c : compound) (path : list (list N)) : Prop :=
  exists before name behind k n l, path = before ++ name :: behind /\
    at_path node_lt (c_dir c) 0 before k /\ nthN (c_dir c) k = Some n /\ in_use n /\ sorted_members node_lt (c_dir c) k l /\
    forall j m, In j l -> nthN (c_dir c) j = Some m -> n_name m <> name.
