(** Vocabulary: files the program reads to the end. *)
From Coq Require Import List NArith.
From Verif Require Import Lib.Res Lib.Bytes Common.Spec Ole.Spec Ole.Statements Detect.TreeSpec.
From Verif Require Excel.Spec Excel.FormulaSpec.
Import ListNotations.
Local Open Scope N_scope.

(** Workbooks whose formulas and defined names hold, at every position, tokens that move reading on. *)
Definition readable_book (stream : bytes) : Prop :=
  lenN stream < 2 ^ 30 /\
  forall t d j a b, In (t, d) (Excel.Spec.seen stream) -> t = 0x06 \/ t = 0x18 -> occurs_at [a; b] d j -> Excel.FormulaSpec.moves_on (b2n a) (b2n b).
(** Compound files whose directory is a tree; on Windows also their chains end and the workbooks can be
    read. *)
Definition readable_compound (pl : platform) (f : bytes) : Prop :=
  exists c, stored_as f c /\ finite_tree (c_dir c) /\
    (pl = windows -> clean c /\ chains_end c /\
       forall n, In n (c_dir c) -> is_stream n -> book_name (n_name n) -> exists text, stream_content f c n text /\ readable_book text).
