(** Printing properties: fileid/oless/propset/Property.hpp:48-106. *)
From Coq Require Import List NArith ZArith Bool Strings.String.
From Verif Require Import Lib.Res Lib.Bytes Lib.Text Common.Model Propset.Model.
Import ListNotations.
Local Open Scope N_scope.

(** ** [operator<<] on a [double]: six significant digits, as [printf] does for "%.6g"

    Library code, modelled by its contract.  The number is the fraction [num / den]. *)

(** The nearest natural number; a tie goes to the even one. *)
Definition round_even (num den : N) : N :=
  let q := num / den in
  let r := num mod den in
  if (2 * r <? den) then q
  else if (den <? 2 * r) then q + 1
  else if N.even q then q else q + 1.

(** [10 ^ x <= num / den] *)
Definition reaches (num den : N) (x : Z) : bool :=
  if (0 <=? x)%Z then den * 10 ^ Z.to_N x <=? num else den <=? num * 10 ^ Z.to_N (- x).
(** The largest such exponent among [n] candidates from [x] downwards. *)
Fixpoint exponent10 (n : nat) (num den : N) (x : Z) : Z :=
  match n with
  | O => x
  | S k => if reaches num den x then x else exponent10 k num den (x - 1)
  end.
(** A [double] is below 10^309 and, unless it is zero, at least 10^(-324). *)
Definition decimal_exponent (num den : N) : Z := exponent10 633 num den 308.

(** The six digits as a number, and the exponent of the first one *)
Definition six_digits (num den : N) : N * Z :=
  let x := decimal_exponent num den in
  let n := if (x <=? 5)%Z then round_even (num * 10 ^ Z.to_N (5 - x)) den
           else round_even num (den * 10 ^ Z.to_N (x - 5)) in
  if n =? 1000000 then (100000, (x + 1)%Z) else (n, x).

(** Without the zeros at the end *)
Fixpoint strip_zeros (s : bytes) : bytes :=
  match s with
  | [] => []
  | c :: r =>
      match strip_zeros r with
      | [] => if byte_eqb c x30 then [] else [c]
      | r' => c :: r'
      end
  end.
(** [n / 10^k] in digits, without superfluous zeros *)
Definition decimal (n : N) (k : nat) : bytes :=
  dec (n / 10 ^ N.of_nat k) ++
  match strip_zeros (pad0 k (dec (n mod 10 ^ N.of_nat k))) with
  | [] => []
  | f => B "." ++ f
  end.
(** The exponent has at least two digits. *)
Definition exponent_text (x : Z) : bytes :=
  if (x <? 0)%Z then B "e-" ++ pad0 2 (dec (Z.to_N (- x))) else B "e+" ++ pad0 2 (dec (Z.to_N x)).

Definition positive_text (num den : N) : bytes :=
  let '(n, x) := six_digits num den in
  if (x <? -4)%Z || (6 <=? x)%Z then decimal n 5 ++ exponent_text x
  else decimal n (Z.to_nat (5 - x)).

Definition magnitude_text (m : N) (e : Z) : bytes :=
  if m =? 0 then B "0"
  else if (0 <=? e)%Z then positive_text (m * 2 ^ Z.to_N e) 1
  else positive_text m (2 ^ Z.to_N (- e)).

(** The texts for what is not a number are those of glibc and of Microsoft's library. *)
Definition nan_text (pl : platform) (neg : bool) (f : N) : bytes :=
  if sizeof_wchar pl =? 2 then
    if f <? 2 ^ 51 then B "nan(snan)"
    else if neg && (f =? 2 ^ 51) then B "nan(ind)" else B "nan"
  else B "nan".
Definition double_text (pl : platform) (d : double) : bytes :=
  match d with
  | Num neg m e => (if neg then B "-" else []) ++ magnitude_text m e
  | Inf neg => (if neg then B "-" else []) ++ B "inf"
  | NaN neg f => (if neg then B "-" else []) ++ nan_text pl neg f
  end.

(** ** Properties *)

(** common.hpp:87-109 on both platforms: [gmtime_s] sets [tm_mon] to -1 for times after the year
    3000 (UCRT: more than [_MAX__TIME64_T + _MAX_LOCAL_TIME]). *)
Definition FileTimeToString_on (pl : platform) (time : N) : bytes :=
  if (sizeof_wchar pl =? 2) && (32536850399 + 46800 <? convertFILETIME time)%Z then B "invalid time"
  else FileTimeToString time.

(** Property.hpp:54-78 *)
Definition value_json (pl : platform) (p : property) : bytes :=
  match p_value p with
  | VString s => B """" ++ JsonEscape s ++ B """"
  | VFloat d => double_text pl d
  | VInt n =>
      if p_type p =? 64 then
        B """" ++ (if p_pid p =? 10 then displayDuration n else FileTimeToString_on pl n) ++ B """"
      else dec n
  | VBool b => if b then B "true" else B "false"
  | VNone => B """unknown"""
  end.
(** Property.hpp:48-81 *)
Definition ToJson (pl : platform) (p : property) : bytes :=
  B "{" ++
  B """Property"":""" ++ PropertyIdentifierToString (p_fmt p) (p_pid p) ++ B """" ++
  B ",""Type"":""" ++ PropertyTypeToString (p_type p) ++ B """" ++
  B ",""Value"":" ++ value_json pl p ++ B "}".

(** Property.hpp:88-103 *)
Definition value_xml (pl : platform) (p : property) : bytes :=
  match p_value p with
  | VString s => XmlEscape s
  | VFloat d => double_text pl d
  | VInt n => dec n
  | VBool b => if b then B "true" else B "false"
  | VNone => B "unknown"
  end.
(** Property.hpp:82-106 *)
Definition ToXML (pl : platform) (p : property) : bytes :=
  B "<PropertyItem>" ++
  B "<Property>" ++ PropertyIdentifierToString (p_fmt p) (p_pid p) ++ B "</Property>" ++
  B "<Type>" ++ PropertyTypeToString (p_type p) ++ B "</Type>" ++
  B "<Value>" ++ value_xml pl p ++ B "</Value></PropertyItem>".
