(** Texts of numbers with a fixed number of decimals.  Independent of the model. *)
From Coq Require Import List NArith ZArith Bool Strings.String.
From Verif Require Import Lib.Bytes Lib.Text Lib.NumSpec.
Import ListNotations.
Local Open Scope N_scope.

(** The integer [n] is the nearest one to the fraction [num / den]; of two, the even one. *)
Definition nearest (num den n : N) : Prop :=
  2 * num <= (2 * n + 1) * den /\ (2 * n * den <= 2 * num + den) /\
  (2 * num = (2 * n + 1) * den \/ 2 * n * den = 2 * num + den -> N.even n = true).

(** The text of the decimal number [n / 10^6], with all six decimals *)
Definition six_decimals (n : N) (t : bytes) : Prop :=
  exists d, t = dec (n / 1000000) ++ B "." ++ d /\ lenN d = 6 /\ dec_num d = Some (n mod 1000000).
(** The text of [m * 2^e], or of its negation, with six decimals *)
Definition fixed_point (neg : bool) (m : N) (e : Z) (t : bytes) : Prop :=
  exists n s, nearest (m * 2 ^ Z.to_N e * 1000000) (2 ^ Z.to_N (- e)) n /\ six_decimals n s /\
    t = (if neg then B "-" else []) ++ s.
