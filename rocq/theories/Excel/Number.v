(** Text of binary floating-point numbers, as the C library used by
    /repo/fileid/document/excel writes it.  Definitions only.

    A bit pattern is split into sign, exponent and mantissa; the decimal digits are computed
    with exact integers and rounded to nearest, ties to even (glibc).  The spelling of
    infinities and NaNs is that of glibc. *)
From Coq Require Import List NArith ZArith Bool Strings.String.
From Verif Require Import Lib.Res Lib.Bytes Lib.Text.
From Verif Require Propset.Output.
Import ListNotations.
Local Open Scope N_scope.

(** A bit pattern with [eb] exponent bits and [mb] mantissa bits. *)
Inductive flt := Finite (neg : bool) (m : N) (e : Z) | Inf (neg : bool) | NaN (neg : bool).
Definition decode (eb mb bits : N) : flt :=
  let neg := N.testbit bits (eb + mb) in
  let ex := N.shiftr bits mb mod 2 ^ eb in
  let mant := bits mod 2 ^ mb in
  let bias := (Z.of_N (2 ^ (eb - 1)) - 1)%Z in
  if ex =? 2 ^ eb - 1 then if mant =? 0 then Inf neg else NaN neg
  else if ex =? 0 then Finite neg mant (1 - bias - Z.of_N mb)%Z
  else Finite neg (2 ^ mb + mant) (Z.of_N ex - bias - Z.of_N mb)%Z.
Definition decode64 : N -> flt := decode 11 52.
Definition decode32 : N -> flt := decode 8 23.

(** [a / b] rounded to the nearest integer, ties to even *)
Definition div_even (a b : N) : N :=
  let d := a / b in
  let r := a mod b in
  if b <? 2 * r then d + 1
  else if (2 * r =? b) && N.odd d then d + 1
  else d.

(** [m * 2^e * 10^k] rounded to an integer *)
Definition scaled (m : N) (e k : Z) : N :=
  div_even (m * 2 ^ Z.to_N e * 10 ^ Z.to_N k) (2 ^ Z.to_N (- e) * 10 ^ Z.to_N (- k)).

Definition minus (neg : bool) (s : bytes) : bytes := if neg then x2d :: s else s.

(** The decimal digits of [n / 10^k] with [k] places after the point *)
Definition places (k : nat) (n : N) : bytes :=
  dec (n / 10 ^ N.of_nat k) ++
  match k with O => [] | _ => x2e :: pad0 k (dec (n mod 10 ^ N.of_nat k)) end.

(** [std::to_string(double)]: the format %f, six places *)
Definition fixed6 (f : flt) : bytes :=
  match f with
  | Finite neg m e => minus neg (places 6 (scaled m e 6))
  | Inf neg => minus neg (B "inf")
  | NaN neg => minus neg (B "nan")
  end.

(** [operator<<] on a [float] with the default precision: the format %g, six significant
    digits, trailing zeros removed; as for the numbers of property sets. *)
Definition general6 (f : flt) : bytes :=
  match f with
  | Finite neg m e => minus neg (Propset.Output.magnitude_text m e)
  | Inf neg => minus neg (B "inf")
  | NaN neg => minus neg (B "nan")
  end.
