(** Directories that are trees. *)
From Coq Require Import List NArith Strings.String.
From Verif Require Import Lib.Bytes Ole.Spec Detect.Spec.
Import ListNotations.
Local Open Scope N_scope.

(** Every entry in use has members, and there is a height for the entries such that the members
    of an entry are lower than the entry: no entry is inside of itself. *)
Definition finite_tree (d : list node) : Prop :=
  exists height : N -> N, forall k n, nthN d k = Some n -> in_use n ->
    exists l, members d k l /\ Forall (fun j => height j < height k) l.
(** No chain of sectors of an entry runs into a cycle; the size of the entry selects the table. *)
Definition chains_end (c : compound) : Prop :=
  Forall (fun n => ~ endless (if 4096 <=? n_size n then c_fat c else c_minifat c) (n_start n)) (c_dir c).
(** The names taken for the one of the stream with the workbook: the case and all but the lowest eight
    bits of the characters do not count. *)
Definition book_name (w : list N) : Prop := same_low_letters w (a "Workbook") \/ same_low_letters w (a "Book").
