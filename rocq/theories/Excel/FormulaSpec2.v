(** Values of formulas, names, and the tokens that are not read as [MS-XLS] defines them.
    Independent of the model. *)
From Coq Require Import List NArith ZArith Bool Strings.String.
From Verif Require Import Lib.Bytes Lib.Text Excel.Spec Excel.NumberSpec Excel.FunctionSpec Excel.FormulaSpec.
From Verif Require Propset.Spec.
Import ListNotations.
Local Open Scope N_scope.

(** The value of a formula that is no number ([MS-XLS] 2.5.133): a string, which follows in a record
    of its own; a logical value; an error; nothing *)
Inductive value_text : bytes -> bytes -> Prop :=
| vt_string a b c d e : value_text [x00; a; b; c; d; e; xff; xff] []
| vt_logical (v : bool) a b c d : value_text [x01; a; if v then x01 else x00; b; c; d; xff; xff] (if v then B "true" else B "false")
| vt_error k w a b c d : In (k, w) errors -> value_text [x02; a; n2b k; b; c; d; xff; xff] w
| vt_blank a b c d e : value_text [x03; a; b; c; d; e; xff; xff] [].

(** A record that defines a name ([MS-XLS] 2.4.150), one byte per character *)
Definition lbl_data (flags key itab : N) (name tokens more : bytes) : bytes :=
  to_le 2 flags ++ [n2b key; n2b (lenN name)] ++ to_le 2 (lenN tokens) ++ to_le 2 0 ++ to_le 2 itab ++ to_le 4 0 ++
  [x00] ++ name ++ tokens ++ more.
(** ... and two bytes per character *)
Definition wide_lbl_data (flags key itab : N) (name : list N) (tokens more : bytes) : bytes :=
  to_le 2 flags ++ [n2b key; n2b (lenN name)] ++ to_le 2 (lenN tokens) ++ to_le 2 0 ++ to_le 2 itab ++ to_le 4 0 ++
  [x01] ++ List.concat (map (to_le 2) name) ++ tokens ++ more.

(** ** Tokens read in another way *)
(** References in natural language that have four bytes of data; eight are taken. *)
Definition naturals : list (N * bytes) :=
  [(0x01, B "PtgElfLel"); (0x02, B "PtgElfRw"); (0x06, B "PtgElfRwV"); (0x0A, B "PtgElfRadical"); (0x0B, B "PtgElfRadicalS");
   (0x10, B "PtgElfRadicalLel"); (0x1D, B "PtgSxName")].
(** First bytes that are no token *)
Definition no_token (t : N) : bool :=
  (t =? 0x00) || (t =? 0x1A) || (t =? 0x1B) ||
  (if t <? 0x20 then false else if t <? 0x80 then
     let k := t mod 32 in ((0x0E <=? k) && (k <=? 0x18)) || (0x1E <=? k)
   else true).
(** The name shown for a function of the worksheet, with any number *)
Definition function_text (f : N) (w : bytes) : Prop :=
  In (f, w) functions \/ (f = 255 /\ w = B "User Defined Function") \/
  (~ In f (map fst functions) /\ f <> 255 /\ w = B "Unknown_fTab_Function").
(** Bytes that are taken for one token, and its text *)
Inductive misread : bytes -> bytes -> Prop :=
(* the range starts one byte too early *)
| mr_range c a b a' b' z w v : c < 3 -> cell_ok a' -> cell_ok b' -> class c 0x05 :: range_bytes a b = range_bytes a' b' ++ [z] ->
    a1 (c_row a') (c_col a') w -> a1 (c_row b') (c_col b') v ->
    misread (class c 0x05 :: range_bytes a b) (call "PtgArea" (w ++ B ":" ++ v))
(* the first row and the first column have number 1 *)
| mr_table row col w : row < 2 ^ 16 -> col < 2 ^ 16 -> column col w ->
    misread (n2b 0x02 :: to_le 2 row ++ to_le 2 col) (call "PtgTbl" (w ++ dec row))
(* one byte less than there is *)
| mr_mem_error c data : c < 3 -> lenN data = 5 -> misread (class c 0x07 :: data) (B "PtgMemErr")
(* three bytes more *)
| mr_area_error c data : c < 3 -> lenN data = 13 -> misread (class c 0x1D :: data) (B "PtgAreaErr3d")
(* four bytes more *)
| mr_natural k w data : In (k, w) naturals -> lenN data = 8 -> misread (n2b 0x18 :: n2b k :: data) w
| mr_error e : e < 256 -> ~ In e (map fst errors) -> misread [n2b 0x1C; n2b e] (call "PtgErr" (B "'#UNKNOWN'"))
| mr_logical b : b2n b <> 0 -> misread [n2b 0x1D; b] (call "PtgBool" (B "true"))
| mr_function c f w : c < 3 -> f < 2 ^ 16 -> function_text f w -> misread (class c 0x01 :: to_le 2 f) (call "PtgFunc" w)
(* bit 15 says that the function is a command; it is not looked at, but bit 14 is *)
| mr_variadic c args f w : c < 3 -> f < 2 ^ 14 -> function_text f w ->
    misread (class c 0x02 :: args :: to_le 2 f) (call "PtgFuncVar" w)
| mr_command c args f w : c < 3 -> f < 2 ^ 14 -> function_text f w ->
    misread (class c 0x02 :: args :: to_le 2 (2 ^ 15 + f)) (call "PtgFuncVar" w)
| mr_bit14 c args x : c < 3 -> x < 2 ^ 16 -> N.testbit x 14 = true ->
    misread (class c 0x02 :: args :: to_le 2 x) (call "PtgFuncVar" (B "Unknown_CeTab_Function"))
| mr_none t : t < 256 -> no_token t = true -> misread [n2b t] (call "UnknownPTG" (B "type=" ++ dec t ++ B ",subType=0")).

(** What a formula is taken for *)
Inductive item := Right (t : tok) | Other (w s : bytes).
Definition item_bytes (x : item) : bytes := match x with Right t => token_bytes t | Other w _ => w end.
Definition item_ok (x : item) : Prop := match x with Right t => token_ok t | Other w s => misread w s end.
Definition item_prints (names others : N -> bytes -> Prop) (x : item) (s : bytes) : Prop :=
  match x with Right t => prints names others t s | Other _ u => s = u end.
Definition items_bytes (l : list item) : bytes := List.concat (map item_bytes l).
