(** Model of a colour of an Excel chart as it is read, and of the text and the row written for it.
    The JSON and XML are in [Excel/Records.v]; nothing calls the two methods modelled here. *)
From Coq Require Import List NArith Strings.String Strings.Byte.
From Verif Require Import Lib.Res Lib.Bytes Lib.Text.
Import ListNotations.
Local Open Scope N_scope.

(** document/excel/structures/LongRGB.hpp:16-19 and IParsable.hpp ([bytesRead]) *)
Record Colour := mkColour { c_red : byte; c_green : byte; c_blue : byte; c_reserved : byte; c_bytesRead : N }.
(** structures/LongRGB.hpp:21-33: [max] is not used, and the index is an [unsigned int]. *)
Definition colour_Parse (buffer : bytes) (max offset : N) : res Colour :=
  red <- rdb buffer offset ;;
  green <- rdb buffer (u32 (offset + 1)) ;;
  blue <- rdb buffer (u32 (offset + 2)) ;;
  reserved <- rdb buffer (u32 (offset + 3)) ;;
  Ok (mkColour red green blue reserved (u32 (u32 (offset + 4) + (2 ^ 32 - offset)))).
(** structures/LongRGB.hpp:55-59 *)
Definition colour_ToCsv (c : Colour) : bytes :=
  dec (b2n (c_red c)) ++ x2c :: dec (b2n (c_green c)) ++ x2c :: dec (b2n (c_blue c)) ++ x2c :: dec (b2n (c_reserved c)).
(** structures/LongRGB.hpp:60-69 *)
Definition colour_ToText (c : Colour) : bytes :=
  x23 :: pad0 2 (hex_up (b2n (c_red c))) ++ pad0 2 (hex_up (b2n (c_green c))) ++ pad0 2 (hex_up (b2n (c_blue c))) ++ pad0 2 (hex_up (b2n (c_reserved c))).
