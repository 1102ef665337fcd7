(** Formulas as lists of tokens: [MS-XLS] 2.5.198.  Independent of the model. *)
From Coq Require Import List NArith ZArith Bool Strings.String.
From Verif Require Import Lib.Bytes Lib.Text Excel.Spec Excel.NumberSpec Excel.FunctionSpec.
From Verif Require Propset.Spec.
Import ListNotations.
Local Open Scope N_scope.

(** Operators, without operands *)
Definition operators : list (N * bytes) :=
  [(0x03, B "PtgAdd"); (0x04, B "PtgSub"); (0x05, B "PtgMul"); (0x06, B "PtgDiv"); (0x07, B "PtgPower");
   (0x08, B "PtgConcat"); (0x09, B "PtgLt"); (0x0A, B "PtgLe"); (0x0B, B "PtgEq"); (0x0C, B "PtgGe");
   (0x0D, B "PtgGt"); (0x0E, B "PtgNe"); (0x0F, B "PtgIsect"); (0x10, B "PtgUnion"); (0x11, B "PtgRange");
   (0x12, B "PtgUplus"); (0x13, B "PtgUminus"); (0x14, B "PtgPercent"); (0x15, B "PtgParen"); (0x16, B "PtgMissArg")].
(** Attributes, with two bytes of data *)
Definition attributes : list (N * bytes) :=
  [(0x01, B "PtgAttrSemi"); (0x02, B "PtgAttrIf"); (0x08, B "PtgAttrGoto"); (0x10, B "PtgAttrSum");
   (0x20, B "PtgAttrBaxcel"); (0x21, B "PtgAttrBaxcel"); (0x40, B "PtgAttrSpace"); (0x41, B "PtgAttrSpaceSemi")].
(** Natural language references, with four bytes of data *)
Definition columns : list (N * bytes) :=
  [(0x03, B "PtgElfCol"); (0x07, B "PtgElfColV"); (0x0D, B "PtgElfColS"); (0x0F, B "PtgElfColSV")].
(** Operands that are only named: with the number of bytes of data *)
Definition operands : list (N * N * bytes) :=
  [(0x00, 7, B "PtgArray"); (0x06, 6, B "PtgMemArea"); (0x08, 6, B "PtgMemNoMem"); (0x09, 2, B "PtgMemFunc");
   (0x0A, 4, B "PtgRefErr"); (0x0B, 8, B "PtgAreaErr"); (0x0C, 4, B "PtgRefN"); (0x0D, 8, B "PtgAreaN");
   (0x1C, 6, B "PtgRefErr3d")].
Definition errors : list (N * bytes) :=
  [(0x00, B "#NULL!"); (0x07, B "#DIV/0!"); (0x0F, B "#VALUE!"); (0x17, B "#REF!"); (0x1D, B "#NAME?");
   (0x24, B "#NUM!"); (0x2A, B "#N/A"); (0x2B, B "#GETTING_DATA")].

(** A cell: row, column (14 bits) and two flags *)
Record cell := mkCell { c_row : N; c_col : N; c_flags : N }.
Definition cell_ok (c : cell) : Prop := c_row c < 2 ^ 16 /\ c_col c < 2 ^ 14 /\ c_flags c < 4.
Definition col_bytes (c : cell) : bytes := to_le 2 (c_col c + 2 ^ 14 * c_flags c).
Definition cell_bytes (c : cell) : bytes := to_le 2 (c_row c) ++ col_bytes c.
Definition range_bytes (a b : cell) : bytes := to_le 2 (c_row a) ++ to_le 2 (c_row b) ++ col_bytes a ++ col_bytes b.

(** [c] is the class of an operand: reference, value or array. *)
Inductive tok :=
| Operator (k : N)
| Literal (s : bytes)                       (* one byte per character *)
| Error (e : N)
| Logical (b : bool)
| Integer (n : N)
| Number (x : N)                           (* the bits of a number in double precision *)
| Shared (row col : N)                     (* the first cell of a shared or array formula *)
| Attribute (k : N) (data : bytes)
| Columns (k : N) (data : bytes)
| Operand (c k : N) (data : bytes)
| Fixed (c f : N)
| Variadic (c args f : N)
| Name (c i : N)
| OtherName (c sheet i : N)
| Reference (c : N) (a : cell)
| OtherReference (c sheet : N) (a : cell)
| OtherRange (c sheet : N) (a b : cell).

Definition class (c k : N) : byte := n2b (32 * (c + 1) + k).
Definition token_bytes (t : tok) : bytes :=
  match t with
  | Operator k => [n2b k]
  | Literal s => n2b 0x17 :: n2b (lenN s) :: x00 :: s
  | Error e => [n2b 0x1C; n2b e]
  | Logical b => [n2b 0x1D; if b then x01 else x00]
  | Integer n => n2b 0x1E :: to_le 2 n
  | Number x => n2b 0x1F :: to_le 8 x
  | Shared row col => n2b 0x01 :: to_le 2 row ++ to_le 2 col
  | Attribute k data => n2b 0x19 :: n2b k :: data
  | Columns k data => n2b 0x18 :: n2b k :: data
  | Operand c k data => class c k :: data
  | Fixed c f => class c 0x01 :: to_le 2 f
  | Variadic c args f => class c 0x02 :: n2b args :: to_le 2 f
  | Name c i => class c 0x03 :: to_le 4 i
  | OtherName c sheet i => class c 0x19 :: to_le 2 sheet ++ to_le 4 i
  | Reference c a => class c 0x04 :: cell_bytes a
  | OtherReference c sheet a => class c 0x1A :: to_le 2 sheet ++ cell_bytes a
  | OtherRange c sheet a b => class c 0x1B :: to_le 2 sheet ++ range_bytes a b
  end.
Definition token_ok (t : tok) : Prop :=
  match t with
  | Operator k => In k (map fst operators)
  | Literal s => lenN s < 256
  | Error e => In e (map fst errors)
  | Logical _ => True
  | Integer n => n < 2 ^ 16
  | Number x => x < 2 ^ 64 /\ exists m e, Propset.Spec.double_precision x m e
  | Shared row col => row < 2 ^ 16 /\ col < 2 ^ 14
  | Attribute k data => In k (map fst attributes) /\ lenN data = 2
  | Columns k data => In k (map fst columns) /\ lenN data = 4
  | Operand c k data => c < 3 /\ In (k, lenN data) (map fst operands)
  | Fixed c f => c < 3 /\ f < 2 ^ 16 /\ In f (map fst functions)
  | Variadic c args f => c < 3 /\ args < 256 /\ In f (map fst functions)
  | Name c i => c < 3 /\ 1 <= i <= 2 ^ 16
  | OtherName c sheet i => c < 3 /\ sheet < 2 ^ 16 /\ 1 <= i <= 2 ^ 16
  | Reference c a => c < 3 /\ cell_ok a
  | OtherReference c sheet a => c < 3 /\ sheet < 2 ^ 16 /\ cell_ok a
  | OtherRange c sheet a b => c < 3 /\ sheet < 2 ^ 16 /\ cell_ok a /\ cell_ok b
  end.

(** The text for a token.  [names i s]: the i-th name (from 1) defined before is [s]; [others] likewise
    for names of other workbooks. *)
Definition call (f : string) (s : bytes) : bytes := B f ++ B "(" ++ s ++ B ")".
Definition prints (names others : N -> bytes -> Prop) (t : tok) (s : bytes) : Prop :=
  match t with
  | Operator k => In (k, s) operators
  | Literal u => s = call "PtgStr" (B """" ++ u ++ B """")
  | Error e => exists w, In (e, w) errors /\ s = call "PtgErr" (B "'" ++ w ++ B "'")
  | Logical b => s = call "PtgBool" (if b then B "true" else B "false")
  | Integer n => s = call "PtgInt" (dec n)
  | Number x => exists m e w, Propset.Spec.double_precision x m e /\ fixed_point (2 ^ 63 <=? x) m e w /\ s = call "PtgNum" w
  | Shared row col => exists w, a1 row col w /\ s = call "PtgExp" w
  | Attribute k _ => In (k, s) attributes
  | Columns k _ => In (k, s) columns
  | Operand _ k data => In (k, lenN data, s) operands
  | Fixed _ f => exists w, In (f, w) functions /\ s = call "PtgFunc" w
  | Variadic _ _ f => exists w, In (f, w) functions /\ s = call "PtgFuncVar" w
  | Name _ i => (exists w, names i w /\ s = call "PtgName" w) \/ ((forall w, ~ names i w) /\ s = [])
  | OtherName _ _ i => (exists w, others i w /\ s = call "PtgNameX" w) \/ ((forall w, ~ others i w) /\ s = [])
  | Reference _ a => exists w, a1 (c_row a) (c_col a) w /\ s = call "PtgRef" w
  | OtherReference _ _ a => exists w, a1 (c_row a) (c_col a) w /\ s = call "PtgRef3d" w
  | OtherRange _ _ a b => exists w v, a1 (c_row a) (c_col a) w /\ a1 (c_row b) (c_col b) v /\ s = call "PtgArea3d" (w ++ B ":" ++ v)
  end.

(** A formula, its tokens separated *)
Inductive separated : list bytes -> bytes -> Prop :=
| sep_none : separated [] []
| sep_one s : separated [s] s
| sep_more s t l r : separated (t :: l) r -> separated (s :: t :: l) (s ++ B ";" ++ r).
Definition tokens_bytes (l : list tok) : bytes := List.concat (map token_bytes l).
(** The record of a formula: [MS-XLS] 2.4.127 *)
Definition formula_data (row col ixfe : N) (value : bytes) (flags chn cce : N) (rest : bytes) : bytes :=
  to_le 2 row ++ to_le 2 col ++ to_le 2 ixfe ++ value ++ to_le 2 flags ++ to_le 4 chn ++ to_le 2 cce ++ rest.

(** The second bytes that are known after the first byte 0x18 or 0x19; with any other one, and for
    PtgAttrChoose (0x19, 0x04), a token does not move reading on. *)
Definition known18 : list N := [0x01; 0x02; 0x03; 0x06; 0x07; 0x0A; 0x0B; 0x0D; 0x0F; 0x10; 0x1D].
Definition known19 : list N := [0x01; 0x02; 0x08; 0x10; 0x20; 0x21; 0x40; 0x41].
Definition moves_on (a b : N) : Prop := (a = 0x18 -> In b known18) /\ (a = 0x19 -> In b known19).
(** Neither a known token nor PtgAttrChoose *)
Definition unknown (a b : N) : Prop := (a = 0x18 /\ ~ In b known18) \/ (a = 0x19 /\ ~ In b (0x04 :: known19)).
