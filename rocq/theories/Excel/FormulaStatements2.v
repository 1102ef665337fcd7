(** Formulas of tokens of any kind, in terms of the records. *)
From Coq Require Import List NArith ZArith Bool Strings.String.
From Verif Require Import Lib.Res Lib.Bytes Lib.Text Common.Model Excel.Model Excel.Records Excel.Spec Excel.Statements
     Excel.FormulaSpec Excel.FormulaStatements Excel.FormulaSpec2.
Import ListNotations.
Local Open Scope N_scope.

Definition item_texts (before : list rec) : list item -> list bytes -> Prop :=
  Forall2 (item_prints (name_of 0x18 before) (name_of 0x23 before)).
(** The formula is reported with the texts of its tokens. *)
Definition formula_shown (p : platform) (before : list rec) (d : bytes) (ss : list bytes) : Prop :=
  exists r s, built p before 0x600 0x06 d r /\ separated ss s /\ shows p r "FormulaString" (Esc s).
(** Reading the tokens of the record takes more than any number of steps. *)
Definition never_ends (p : platform) (before : list rec) (d : bytes) : Prop :=
  ParseRecord p before 0x600 0x06 d = Fuel /\ forall k, rgce p d (lenN d) k 22 = Fuel.
