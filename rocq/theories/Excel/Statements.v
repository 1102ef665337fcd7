(** Readings of the results of the workbook reader, used in the statements. *)
From Coq Require Import List NArith ZArith Bool Strings.String.
From Verif Require Import Lib.Res Lib.Bytes Lib.Text Common.Model Excel.Records Excel.Engine Excel.Spec.
Import ListNotations.
Local Open Scope N_scope.

(** The type and the bytes of the reported records, in order *)
Definition entry (e : rec * option N) : N * bytes := (r_type (fst e), r_data (fst e)).
Definition entries (x : excel_info) : list (N * bytes) := map entry (x_list x).
(** The texts of exceptions are not empty. *)
Definition has_text (what : exn -> bytes) : Prop := forall e, what e <> [].

(** The sheet for a BoundSheet8 record with a name of one byte per character *)
Definition sheet_for (r : N * bytes) (s : sheet) : Prop :=
  forall o v k n, bound_sheet8 (snd r) o v k n -> s = mkSheet n k v o.
Definition sheet_records (l : list (N * bytes)) : list (N * bytes) := filter (fun r => fst r =? 0x85) l.

(** A record is reported with this field. *)
Definition shows (p : platform) (r : rec) (name : string) (v : value) : Prop :=
  exists l, fields p r = Ok l /\ In (fld name v) l.
(** The record built from the data *)
Definition built (p : platform) (before : list rec) (version t : N) (d : bytes) (r : rec) : Prop :=
  ParseRecord p before version t d = Ok (Some r).

(** The record types that are printed from their bytes in place, with the size of the structure laid
    over them *)
Definition overlaid (p : platform) : list (N * N) :=
  [(0x18, 14); (0x23, if sizeof_wchar p =? 2 then 4 else 2); (0x85, 6); (0xFD, 16); (0x201, 16); (0x205, 16);
   (0x27E, 10); (0x809, 14)].
(** Printing the reported records reads bytes that do not exist: the record, which is followed by
    [b], is smaller than its structure, or its bytes have been moved by Continue records. *)
Definition dangling (p : platform) (l : list (N * bytes)) : Prop :=
  exists a t d b k, l = a ++ (t, d) :: b /\ (In (t, k) (overlaid p) \/ (a = [] /\ k = 14)) /\
    (lenN d < k \/ continued_by b = true).
(** The value shown for the cell of an RK record *)
Definition rk_reported (p : platform) (before : list rec) (rw col ixfe x : N) (s : bytes) : Prop :=
  exists r, built p before 0x600 0x27E (rk_data rw col ixfe x) r /\ shows p r "Value" (Bare s).
