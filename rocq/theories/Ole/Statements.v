(** Vocabulary that mentions the objects of [Ole/Model.v]. *)
From Coq Require Import List NArith Bool.
From Verif Require Import Lib.Res Lib.Bytes Common.Spec Common.Fields Common.Utf8 Ole.Model Ole.Spec.
Import ListNotations.
Local Open Scope N_scope.

(** The header object has the numbers of the file. *)
Definition header_of (f : bytes) (h : header) : Prop :=
  window f 0 8 (id h) /\ number_at f 30 2 (b_shift h) /\ number_at f 32 2 (s_shift h) /\
  number_at f 44 4 (num_bat h) /\ number_at f 48 4 (dirent_start h) /\ number_at f 56 4 (threshold h) /\
  number_at f 60 4 (sbat_start h) /\ number_at f 64 4 (num_sbat h) /\ number_at f 68 4 (mbat_start h) /\
  number_at f 72 4 (num_mbat h) /\ lenN (bb_blocks h) = 109 /\
  (forall i v, nthN (bb_blocks h) i = Some v -> number_at f (76 + 4 * i) 4 v).

(** The directory object of a node, with some name. *)
Definition entry_of (name : list N) (n : node) : dirent :=
  mkDir ((n_type n =? 1) || (n_type n =? 2) || (n_type n =? 5)) name (negb (n_type n =? 2))
        (n_size n) (n_start n) (n_prev n) (n_next n) (n_child n).
Definition entry_matches (n : node) (e : dirent) : Prop := e = entry_of (d_name e) n.

(** The storage object of a compound file, up to the names. *)
Definition storage_of (f : bytes) (c : compound) (s : storage) : Prop :=
  st_file s = f /\ b_shift (st_header s) = c_shift c /\ s_shift (st_header s) = c_small_shift c /\
  threshold (st_header s) = 4096 /\ st_bbat s = c_fat c /\
  st_sbat s = (match c_minifat c with [] => List.repeat 4294967295 128 | t => t end) /\
  Forall2 entry_matches (c_dir c) (st_dir s) /\ st_sb s = c_mini_at c.

(** The name of the object is made of the first bytes [w] of the entry, as many characters as
    the name has before one with a zero low byte, but read with the width of the platform. *)
Definition named (pl : platform) (n : node) (w : bytes) (e : dirent) : Prop :=
  lenN (d_name e) = lenN (visible (n_name n)) /\
  Forall (fun u => u < 256 ^ sizeof_wchar pl) (d_name e) /\
  window w 0 (sizeof_wchar pl * lenN (visible (n_name n))) (units (N.to_nat (sizeof_wchar pl)) (d_name e)).

(** Opening a file ends with a storage, in undefined behaviour or never, and with no other
    answer. *)
Definition settled (r : res opened) : Prop := (exists s, r = Ok (Opened s)) \/ r = UB \/ r = Fuel.

(** Names that survive: no character has a zero low byte. *)
Definition clean (c : compound) : Prop := Forall (fun n => visible (n_name n) = n_name n) (c_dir c).
(** The path of the root or of an entry below it. *)
Definition path_of (names : list (list N)) : list N := match names with [] => [47] | _ => path_text names end.
