(** Reading numerals: the meaning of a run of decimal or hexadecimal digits.
    Used by specifications; shares nothing with the formatting code of [Lib/Text.v]. *)
From Coq Require Import List NArith Bool.
From Verif Require Import Lib.Bytes.
Import ListNotations.
Local Open Scope N_scope.

(** The value of one digit character in the given base (10 or 16, either case). *)
Definition digit_value (base : N) (c : byte) : option N :=
  let n := b2n c in
  let v := if (48 <=? n) && (n <=? 57) then n - 48
           else if (97 <=? n) && (n <=? 102) then n - 87
           else if (65 <=? n) && (n <=? 70) then n - 55
           else 99 in
  if v <? base then Some v else None.

(** Positional value, most significant digit first. *)
Fixpoint num_acc (base acc : N) (s : bytes) : option N :=
  match s with
  | [] => Some acc
  | c :: t => match digit_value base c with
              | Some v => num_acc base (acc * base + v) t
              | None => None
              end
  end.

(** The number denoted by a non-empty digit string. *)
Definition num (base : N) (s : bytes) : option N :=
  match s with [] => None | _ => num_acc base 0 s end.

Definition dec_num (s : bytes) : option N := num 10 s.
Definition hex_num (s : bytes) : option N := num 16 s.
