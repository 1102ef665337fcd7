(** Vocabulary that mentions the objects of [Vba/Analyze.v]. *)
From Coq Require Import List NArith Bool Strings.String.
From Verif Require Import Lib.Res Lib.Bytes Lib.Text Lib.NumSpec Common.Model Common.Fields Common.Spec Magic.Spec Vba.Analyze Vba.DirSpec.
Import ListNotations.
Local Open Scope N_scope.

(** The module object for a stored module with its source text. *)
Definition module_of (m : vba_module) (code : bytes) : module :=
  mkModule (vm_name m) (vm_stream m) (map n2b (vm_stream_wide m)) (vm_stream_wide m) (vm_offset m) code
           (vm_private m) (vm_read_only m).
(** The decompressed stream in memory: more zeros follow. *)
Definition in_memory (d : bytes) (zeros : N) : buffer := (lenN d, d ++ repeatN x00 zeros).

(** No four bytes make a length that reaches the end of the 32-bit numbers. *)
Definition short_lengths (mem : bytes) : Prop := forall i n, number_at mem i 4 n -> i + n + 4 < 2 ^ 32.

(** ** Documents *)

(** Text that may stand between quotes, or between tags, as it is. *)
Definition json_literal (s : bytes) : Prop := Forall (fun c => 32 <= b2n c < 128 /\ c <> x22 /\ c <> x5c) s.
Definition xml_literal (s : bytes) : Prop := Forall (fun c => 32 <= b2n c < 127 /\ ~ xml_markup c) s.
(** A string member carries its text up to the first NUL. *)
Fixpoint until_nul (s : bytes) : bytes :=
  match s with
  | [] => []
  | c :: t => if byte_eqb c x00 then [] else c :: until_nul t
  end.
Definition jtext (key s : bytes) : list N * jval := jfield key (until_nul s).
Definition jnum (key : bytes) (n : N) : list N * jval := (map b2n key, JNum n).
Definition bit (b : bool) : N := if b then 1 else 0.
Definition module_members (m : module) : list (list N * jval) :=
  [jtext (B "Name") (md_Name m); jtext (B "StreamName") (md_StreamName m); jnum (B "Offset") (md_Offset m);
   jnum (B "isPrivate") (bit (md_isPrivate m)); jnum (B "isReadOnly") (bit (md_isReadOnly m));
   jtext (B "Code") (md_Code m)].
Definition project_members (p : project) : list (list N * jval) :=
  optional (pr_Name p) (jtext (B "projectname") (pr_Name p)) ++
  (if pr_Major p =? 0 then [] else [jnum (B "VBAVersionMajor") (pr_Major p)]) ++
  (if pr_Minor p =? 0 then [] else [jnum (B "VBAVersionMinor") (pr_Minor p)]) ++
  (match pr_References p with [] => [] | l => [(map b2n (B "References"), JArr (map (fun r => JStr (map b2n r)) l))] end) ++
  (match pr_Modules p with [] => [] | l => [(map b2n (B "Modules"), JArr (map (fun m => JObj (module_members m)) l))] end).

Definition exchanged (n : N) : N := if n =? 60 then 62 else if n =? 62 then 60 else n.
(** Escaped text in an element: the two angle brackets are exchanged (C08). *)
Definition xescaped (name s : bytes) : xnode := XElem name (optional s (XText (map exchanged (map b2n s)))).
Definition module_node (m : module) : xnode :=
  XElem (B "Module")
    [xescaped (B "Name") (md_Name m); xescaped (B "StreamName") (md_StreamName m);
     xfield (B "Offset") (dec (md_Offset m)); xfield (B "isPrivate") (dec (bit (md_isPrivate m)));
     xfield (B "isReadOnly") (dec (bit (md_isReadOnly m))); XElem (B "Code") [XCData (md_Code m)]].
(** A comma between the elements. *)
Fixpoint comma_separated (l : list xnode) : list xnode :=
  match l with
  | [] => []
  | [x] => [x]
  | x :: t => x :: XText [44] :: comma_separated t
  end.
Definition project_nodes (p : project) : list xnode :=
  optional (pr_Name p) (xescaped (B "projectname") (pr_Name p)) ++
  (if pr_Major p =? 0 then [] else [xfield (B "VBAVersionMajor") (dec (pr_Major p))]) ++
  (if pr_Minor p =? 0 then [] else [xfield (B "VBAVersionMinor") (dec (pr_Minor p))]) ++
  (match pr_References p with [] => [] | l => [XElem (B "References") (map (xfield (B "Reference")) l)] end) ++
  (match pr_Modules p with [] => [] | l => [XElem (B "Modules") (comma_separated (map module_node l))] end).
