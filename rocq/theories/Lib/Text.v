(** Number formatting of iostreams: decimal and hexadecimal digits with zero padding. *)
From Coq Require Import List NArith ZArith Decimal Hexadecimal DecimalN HexadecimalN.
From Verif Require Import Lib.Bytes.
Import ListNotations.
Local Open Scope N_scope.

Fixpoint dec_digits (u : Decimal.uint) : bytes :=
  match u with
  | Decimal.Nil => []
  | Decimal.D0 u => x30 :: dec_digits u | Decimal.D1 u => x31 :: dec_digits u
  | Decimal.D2 u => x32 :: dec_digits u | Decimal.D3 u => x33 :: dec_digits u
  | Decimal.D4 u => x34 :: dec_digits u | Decimal.D5 u => x35 :: dec_digits u
  | Decimal.D6 u => x36 :: dec_digits u | Decimal.D7 u => x37 :: dec_digits u
  | Decimal.D8 u => x38 :: dec_digits u | Decimal.D9 u => x39 :: dec_digits u
  end.

(** lower-case hexadecimal digits (std::hex) *)
Fixpoint hex_digits (u : Hexadecimal.uint) : bytes :=
  match u with
  | Hexadecimal.Nil => []
  | Hexadecimal.D0 u => x30 :: hex_digits u | Hexadecimal.D1 u => x31 :: hex_digits u
  | Hexadecimal.D2 u => x32 :: hex_digits u | Hexadecimal.D3 u => x33 :: hex_digits u
  | Hexadecimal.D4 u => x34 :: hex_digits u | Hexadecimal.D5 u => x35 :: hex_digits u
  | Hexadecimal.D6 u => x36 :: hex_digits u | Hexadecimal.D7 u => x37 :: hex_digits u
  | Hexadecimal.D8 u => x38 :: hex_digits u | Hexadecimal.D9 u => x39 :: hex_digits u
  | Hexadecimal.Da u => x61 :: hex_digits u | Hexadecimal.Db u => x62 :: hex_digits u
  | Hexadecimal.Dc u => x63 :: hex_digits u | Hexadecimal.Dd u => x64 :: hex_digits u
  | Hexadecimal.De u => x65 :: hex_digits u | Hexadecimal.Df u => x66 :: hex_digits u
  end.

(** upper-case variant (std::uppercase) *)
Fixpoint hex_digits_up (u : Hexadecimal.uint) : bytes :=
  match u with
  | Hexadecimal.Nil => []
  | Hexadecimal.D0 u => x30 :: hex_digits_up u | Hexadecimal.D1 u => x31 :: hex_digits_up u
  | Hexadecimal.D2 u => x32 :: hex_digits_up u | Hexadecimal.D3 u => x33 :: hex_digits_up u
  | Hexadecimal.D4 u => x34 :: hex_digits_up u | Hexadecimal.D5 u => x35 :: hex_digits_up u
  | Hexadecimal.D6 u => x36 :: hex_digits_up u | Hexadecimal.D7 u => x37 :: hex_digits_up u
  | Hexadecimal.D8 u => x38 :: hex_digits_up u | Hexadecimal.D9 u => x39 :: hex_digits_up u
  | Hexadecimal.Da u => x41 :: hex_digits_up u | Hexadecimal.Db u => x42 :: hex_digits_up u
  | Hexadecimal.Dc u => x43 :: hex_digits_up u | Hexadecimal.Dd u => x44 :: hex_digits_up u
  | Hexadecimal.De u => x45 :: hex_digits_up u | Hexadecimal.Df u => x46 :: hex_digits_up u
  end.

(** [operator<<] on an unsigned integer *)
Definition dec (n : N) : bytes := dec_digits (N.to_uint n).
Definition hex (n : N) : bytes := hex_digits (N.to_hex_uint n).
Definition hex_up (n : N) : bytes := hex_digits_up (N.to_hex_uint n).

(** [operator<<] on a signed integer *)
Definition dec_z (z : Z) : bytes :=
  match z with
  | Z0 => dec 0
  | Zpos p => dec (Npos p)
  | Zneg p => x2d :: dec (Npos p)
  end.

(** [setfill('0') << setw(w)] *)
Definition pad0 (w : nat) (s : bytes) : bytes :=
  repeat x30 (w - length s) ++ s.
