(** Vocabulary for workbook streams.  Independent of the model in this directory. *)
From Coq Require Import List NArith ZArith Bool Strings.String.
From Verif Require Import Lib.Bytes Lib.Text.
Import ListNotations.
Local Open Scope N_scope.

(** ** Records: [MS-XLS] 2.1.4 *)
Definition record_bytes (r : N * bytes) : bytes := to_le 2 (fst r) ++ to_le 2 (lenN (snd r)) ++ snd r.
Definition stream_of (l : list (N * bytes)) : bytes := List.concat (map record_bytes l).
Definition record_ok (r : N * bytes) : Prop := fst r < 2 ^ 16 /\ lenN (snd r) < 2 ^ 16.

(** The records that are seen in any stream: a record counts when at least one byte follows it;
    the last one is seen without its data, unless it has none. *)
Fixpoint seen_from (fuel : nat) (s : bytes) : list (N * bytes) :=
  match fuel with
  | O => []
  | S k =>
      if lenN s <=? 4 then []
      else
        let n := le (takeN 2 (dropN 2 s)) in
        let b := dropN 4 s in
        if n <? lenN b then (le (takeN 2 s), takeN n b) :: seen_from k (dropN n b)
        else [(le (takeN 2 s), [])]
  end.
Definition seen (s : bytes) : list (N * bytes) := seen_from (List.length s) s.
Definition without_last_data (l : list (N * bytes)) (r : N * bytes) : list (N * bytes) :=
  l ++ match snd r with [] => [] | _ => [(fst r, [])] end.

(** The types whose contents are read; [MS-XLS] 2.3 *)
Definition content_types : list N :=
  [0x06; 0x18; 0x19; 0x23; 0x2F; 0x42; 0x5C; 0x85; 0x8C; 0x9A; 0x9C; 0xBE; 0xFC; 0xFD; 0x1AE; 0x1BA;
   0x201; 0x205; 0x207; 0x208; 0x27E; 0x100A; 0x1050].
Definition FilePass : N := 0x2F.
Definition begins_stream (t : N) : Prop := In t [0x009; 0x209; 0x409; 0x809].

(** The records reported for a list of records: all, in order, up to the record that announces
    encryption; a record whose contents are read may be missing. *)
Inductive reported : list (N * bytes) -> list (N * bytes) -> Prop :=
| rp_end : reported [] []
| rp_next t d a b : t <> FilePass -> reported a b -> reported ((t, d) :: a) ((t, d) :: b)
| rp_missing t d a b : In t content_types -> reported a b -> reported ((t, d) :: a) b
| rp_encrypted d a : reported ((FilePass, d) :: a) [(FilePass, d)].

(** ** Versions: [MS-XLS] 2.4.21 and the versions before *)
Definition versions : list (N * bytes) :=
  [(0x200, B "BIFF2"); (0x300, B "BIFF3"); (0x400, B "BIFF4"); (0x500, B "BIFF5"); (0x600, B "BIFF8")].
Definition version_name (v : N) (name : bytes) : Prop :=
  In (v, name) versions \/ (~ In v (map fst versions)) /\ name = B "Unknown".

(** ** Sheets: [MS-XLS] 2.4.28.  A name of one byte per character. *)
Definition bound_sheet8 (d : bytes) (offset state kind : N) (name : bytes) : Prop :=
  exists b4 b5 flags more,
    d = to_le 4 offset ++ [b4; b5; n2b (lenN name); flags] ++ name ++ more /\
    offset < 2 ^ 32 /\ lenN name < 256 /\ N.odd (b2n flags) = false /\
    state = b2n b4 mod 4 /\ kind = b2n b5.

(** Where the records belong.  The state: the position of the record, the offsets of the sheets
    announced so far, the sheet that holds the record ([None]: the part common to the workbook) and
    the number of the sheet opened last. *)
Record place := mkPlace { p_pos : N; p_offsets : list N; p_home : option N; p_last : N }.
Definition opens (c : place) (t : N) : bool :=
  ((t =? 0x009) || (t =? 0x209) || (t =? 0x409) || (t =? 0x809)) && negb (p_pos c =? 0).
Fixpoint last_index (k : N) (i : N) (offsets : list N) : option N :=
  match offsets with
  | [] => None
  | o :: t => match last_index k (i + 1) t with Some j => Some j | None => if o =? k then Some i else None end
  end.
Definition orelse {A} (a b : option A) : option A := match a with Some _ => a | None => b end.
(** BIFF8: a BOF record that is not the first one opens the sheet announced with its offset, the
    later one if two are; a BOF record at any other offset opens nothing. *)
Definition place8 (c : place) (t : N) (d : bytes) : place :=
  mkPlace (p_pos c) (if t =? 0x85 then p_offsets c ++ [le (takeN 4 d)] else p_offsets c)
    (if opens c t then orelse (last_index (p_pos c) 0 (p_offsets c)) (p_home c) else p_home c) (p_last c).
(** BIFF5: every BOF record that is not the first one opens the next sheet, as long as there is
    one. *)
Definition place5 (c : place) (t : N) (d : bytes) : place :=
  let n := match p_home c with None => 0 | Some _ => p_last c + 1 end in
  mkPlace (p_pos c) (if t =? 0x85 then p_offsets c ++ [0] else p_offsets c)
    (if opens c t then if n <? lenN (p_offsets c) then Some n else p_home c else p_home c)
    (if opens c t then n else p_last c).
(** Other versions: everything is common. *)
Definition place0 (c : place) (t : N) (d : bytes) : place :=
  mkPlace (p_pos c) (if t =? 0x85 then p_offsets c ++ [0] else p_offsets c) (p_home c) (p_last c).
Definition place_of (version : N) : place -> N -> bytes -> place :=
  if version =? 0x600 then place8 else if version =? 0x500 then place5 else place0.
Definition after (c : place) (d : bytes) : place :=
  mkPlace (p_pos c + 4 + lenN d) (p_offsets c) (p_home c) (p_last c).
Definition place_start : place := mkPlace 0 [] None 0.
(** The reported records and their sheets: as [reported] *)
Inductive placed (f : place -> N -> bytes -> place) :
  place -> list (N * bytes) -> list (N * bytes * option N) -> Prop :=
| pl_end c : placed f c [] []
| pl_next c t d a b : t <> FilePass -> placed f (after (f c t d) d) a b ->
    placed f c ((t, d) :: a) ((t, d, p_home (f c t d)) :: b)
| pl_missing c t d a b : In t content_types -> placed f (after c d) a b -> placed f c ((t, d) :: a) b
| pl_encrypted c d a : placed f c ((FilePass, d) :: a) [(FilePass, d, p_home c)].

(** ** Continued records: [MS-XLS] 2.4.58 *)
Definition Continue : N := 0x3C.
(** Data follow in Continue records, given the records after it. *)
Fixpoint continued_by (l : list (N * bytes)) : bool :=
  match l with
  | (t, d) :: r => (t =? Continue) && ((0 <? lenN d) || continued_by r)
  | [] => false
  end.

(** ** Columns: A to Z, AA to ZZ, and so on *)
Definition letter (b : byte) : Prop := 65 <= b2n b <= 90.
Definition column_number (s : bytes) : N := fold_left (fun a b => 26 * a + (b2n b - 64)) s 0.
Definition column (n : N) (s : bytes) : Prop := Forall letter s /\ column_number s = n.
(** The usual name of a cell; rows and columns are numbered from 0 in a file *)
Definition a1 (row col : N) (s : bytes) : Prop := exists c, column (col + 1) c /\ s = c ++ dec (row + 1).

(** ** RK numbers: [MS-XLS] 2.5.217 *)
Definition rk_hundredths (x : N) : bool := N.testbit x 0.
Definition rk_integer (x : N) : bool := N.testbit x 1.
Definition rk_num (x : N) : N := x / 4.
(** the integer, of 30 bits *)
Definition rk_int (x : N) : Z := signed 30 (rk_num x).
(** the record of a cell, [MS-XLS] 2.4.220 *)
Definition rk_data (rw col ixfe x : N) : bytes := to_le 2 rw ++ to_le 2 col ++ to_le 2 ixfe ++ to_le 4 x.
