(** UTF-8 as RFC 3629 defines it, independent of the model. *)
From Coq Require Import List NArith Bool.
From Verif Require Import Lib.Bytes.
Import ListNotations.
Local Open Scope N_scope.

(** A Unicode scalar value: a code point that is not a surrogate. *)
Definition scalar (c : N) : Prop := c < 55296 \/ (57344 <= c /\ c < 1114112).

(** The byte sequence of one character; the lower bounds exclude overlong forms. *)
Inductive utf8_char : bytes -> N -> Prop :=
| u8_one a : b2n a < 128 -> utf8_char [a] (b2n a)
| u8_two a b x y : b2n a = 192 + x -> b2n b = 128 + y -> x < 32 -> y < 64 ->
    128 <= 64 * x + y -> utf8_char [a; b] (64 * x + y)
| u8_three a b c x y z : b2n a = 224 + x -> b2n b = 128 + y -> b2n c = 128 + z ->
    x < 16 -> y < 64 -> z < 64 ->
    2048 <= 4096 * x + 64 * y + z -> scalar (4096 * x + 64 * y + z) ->
    utf8_char [a; b; c] (4096 * x + 64 * y + z)
| u8_four a b c d x y z t : b2n a = 240 + x -> b2n b = 128 + y -> b2n c = 128 + z -> b2n d = 128 + t ->
    x < 8 -> y < 64 -> z < 64 -> t < 64 ->
    65536 <= 262144 * x + 4096 * y + 64 * z + t -> scalar (262144 * x + 4096 * y + 64 * z + t) ->
    utf8_char [a; b; c; d] (262144 * x + 4096 * y + 64 * z + t).

Inductive utf8 : bytes -> list N -> Prop :=
| utf8_nil : utf8 [] []
| utf8_cons s c t l : utf8_char s c -> utf8 t l -> utf8 (s ++ t) (c :: l).

(** Text of 16-bit or 32-bit units, little endian. *)
Definition units (w : nat) (l : list N) : bytes := List.concat (map (to_le w) l).
