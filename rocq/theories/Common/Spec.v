(** Vocabulary for the properties of the common helpers: text formats, the calendar,
    case folding, trimming.  Independent of [Common/Model.v]. *)
From Coq Require Import List NArith ZArith Bool.
From Verif Require Import Lib.Bytes Lib.NumSpec.
Import ListNotations.
Local Open Scope N_scope.

(** [pat] lies inside [buf], starting at index [off]. *)
Definition occurs_at (pat buf : bytes) (off : N) : Prop :=
  exists pre post, buf = pre ++ pat ++ post /\ lenN pre = off.

(** The [n] bytes of [buf] that start at [off]. *)
Definition window (buf : bytes) (off n : N) (w : bytes) : Prop :=
  lenN w = n /\ occurs_at w buf off.

(** Two's complement: the integer in [-2^(w-1), 2^(w-1)) congruent to [n] modulo 2^w. *)
Definition twos_complement (w : N) (n : N) (z : Z) : Prop :=
  (- 2 ^ (Z.of_N w - 1) <= z < 2 ^ (Z.of_N w - 1))%Z /\
  exists k : Z, (z = Z.of_N n + k * 2 ^ Z.of_N w)%Z.

(** ** JSON strings: RFC 8259, section 7

    [json_str t v]: the text [t] between the quotes denotes the characters [v].  Raw
    characters are restricted to ASCII (bytes above 127 would need UTF-8 decoding). *)
Definition json_short_escape (c : byte) : option N :=
  match c with
  | x22 => Some 34 | x5c => Some 92 | x2f => Some 47
  | x62 => Some 8 | x66 => Some 12 | x6e => Some 10 | x72 => Some 13 | x74 => Some 9
  | _ => None
  end.

Inductive json_str : bytes -> list N -> Prop :=
| js_nil : json_str [] []
| js_raw c t v :
    32 <= b2n c < 128 -> c <> x22 -> c <> x5c ->
    json_str t v -> json_str (c :: t) (b2n c :: v)
| js_esc c n t v :
    json_short_escape c = Some n ->
    json_str t v -> json_str (x5c :: c :: t) (n :: v)
| js_u h n t v :
    List.length h = 4%nat -> hex_num h = Some n ->
    json_str t v -> json_str (x5c :: x75 :: h ++ t) (n :: v).

(** ** XML character data: raw characters and decimal character references *)

(** Characters that may not stand for themselves there (XML 1.0, 2.4; [>] only after two brackets) *)
Definition xml_markup (c : byte) : Prop := c = x26 \/ c = x3c \/ c = x3e.

Inductive xml_text : bytes -> list N -> Prop :=
| xt_nil : xml_text [] []
| xt_raw c t v :
    32 <= b2n c < 127 -> ~ xml_markup c ->
    xml_text t v -> xml_text (c :: t) (b2n c :: v)
| xt_ref d n t v :
    dec_num d = Some n ->
    xml_text t v -> xml_text (x26 :: x23 :: d ++ x3b :: t) (n :: v).

(** The characters of XML 1.0 (2.2) below 256; the others may not be referred to either (4.1). *)
Definition xml_character (n : N) : Prop := n = 9 \/ n = 10 \/ n = 13 \/ 32 <= n.

(** ** Hex dumps: two lower-case digits per byte *)
Definition lower_hex (c : byte) : Prop :=
  48 <= b2n c <= 57 \/ 97 <= b2n c <= 102.

Inductive hex_dump : bytes -> bytes -> Prop :=
| hd_nil : hex_dump [] []
| hd_cons a b x t l :
    lower_hex a -> lower_hex b -> hex_num [a; b] = Some (b2n x) ->
    hex_dump t l -> hex_dump (a :: b :: t) (x :: l).

(** ** Durations: H..HH:MM:SS[.ffffff] *)
Definition colon : byte := x3a.
Definition dot : byte := x2e.
Definition dash : byte := x2d.
Definition space : byte := x20.

Inductive duration_text : bytes -> N -> Prop :=
| dt_whole hh mm ss h m s :
    (2 <= List.length hh)%nat -> List.length mm = 2%nat -> List.length ss = 2%nat ->
    dec_num hh = Some h -> dec_num mm = Some m -> dec_num ss = Some s ->
    m < 60 -> s < 60 ->
    duration_text (hh ++ [colon] ++ mm ++ [colon] ++ ss)
                  (((h * 60 + m) * 60 + s) * 1000000)
| dt_frac hh mm ss ff h m s f :
    (2 <= List.length hh)%nat -> List.length mm = 2%nat -> List.length ss = 2%nat ->
    List.length ff = 6%nat ->
    dec_num hh = Some h -> dec_num mm = Some m -> dec_num ss = Some s -> dec_num ff = Some f ->
    m < 60 -> s < 60 -> 0 < f ->
    duration_text (hh ++ [colon] ++ mm ++ [colon] ++ ss ++ [dot] ++ ff)
                  (((h * 60 + m) * 60 + s) * 1000000 + f).

(** ** The Gregorian calendar, by counting days *)
Definition leap (y : N) : bool :=
  ((y mod 4 =? 0) && negb (y mod 100 =? 0)) || (y mod 400 =? 0).

Definition month_length (y m : N) : N :=
  if m =? 2 then (if leap y then 29 else 28)
  else if (m =? 4) || (m =? 6) || (m =? 9) || (m =? 11) then 30 else 31.

Definition next_day (d : N * N * N) : N * N * N :=
  let '(y, m, d) := d in
  if d <? month_length y m then (y, m, d + 1)
  else if m <? 12 then (y, m + 1, 1)
  else (y + 1, 1, 1).

(** The date [n] days after 1 January 1970. *)
Definition date_of_day (n : N) : N * N * N := N.iter n next_day (1970, 1, 1).

(** "Y-MM-DD hh:mm:ss" *)
Inductive timestamp_text : bytes -> N * N * N -> N -> Prop :=
| ts yy mo dd hh mi ss y m d h i s :
    (4 <= List.length yy)%nat -> List.length mo = 2%nat -> List.length dd = 2%nat ->
    List.length hh = 2%nat -> List.length mi = 2%nat -> List.length ss = 2%nat ->
    dec_num yy = Some y -> dec_num mo = Some m -> dec_num dd = Some d ->
    dec_num hh = Some h -> dec_num mi = Some i -> dec_num ss = Some s ->
    h < 24 -> i < 60 -> s < 60 ->
    timestamp_text
      (yy ++ [dash] ++ mo ++ [dash] ++ dd ++ [space] ++
       hh ++ [colon] ++ mi ++ [colon] ++ ss)
      (y, m, d) ((h * 60 + i) * 60 + s).

(** A text shows the UTC second [t] after the Unix epoch. *)
Definition shows_second (text : bytes) (t : N) : Prop :=
  timestamp_text text (date_of_day (t / 86400)) (t mod 86400).

(** Seconds since 1 January 1970 of a FILETIME (100 ns ticks since 1601): the two epochs
    are 134774 days apart. *)
Definition unix_epoch_ticks : N := 134774 * 86400 * 10000000.

(** ** Trimming *)
Definition white (c : byte) : Prop :=
  c = x09 \/ c = x0a \/ c = x0b \/ c = x0c \/ c = x0d \/ c = x20.

Definition trimmed (s t : bytes) : Prop :=
  exists p r, s = p ++ t ++ r /\ Forall white p /\ Forall white r /\
  (forall c t', t = c :: t' -> ~ white c) /\
  (forall t' c, t = t' ++ [c] -> ~ white c).

(** ** ASCII case *)
Definition same_letter (x y : N) : Prop :=
  x = y \/ exists k, k < 26 /\ ((x = 65 + k /\ y = 97 + k) \/ (x = 97 + k /\ y = 65 + k)).

(** ** Removing NULs *)
Inductive without_nuls : bytes -> bytes -> Prop :=
| wn_nil : without_nuls [] []
| wn_nul s t : without_nuls s t -> without_nuls (x00 :: s) t
| wn_keep c s t : c <> x00 -> without_nuls s t -> without_nuls (c :: s) (c :: t).

(** The part of a C string before its terminator. *)
Inductive before_nul : bytes -> bytes -> Prop :=
| bn_all s : ~ In x00 s -> before_nul s s
| bn_cut s t : ~ In x00 s -> before_nul (s ++ x00 :: t) s.
