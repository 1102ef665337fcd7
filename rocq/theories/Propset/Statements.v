(** Vocabulary that mentions the objects of [Propset/Model.v]. *)
From Coq Require Import List NArith ZArith Bool Strings.String.
From Verif Require Import Lib.Res Lib.Bytes Lib.Text Common.Model Common.Spec Common.Fields Common.Utf8 Magic.Spec Vba.Statements Propset.Model Propset.Output Propset.Spec.
Import ListNotations.
Local Open Scope N_scope.

(** The format identifier a sixteen-byte string stands for. *)
Definition format_is (g : bytes) (f : FormatId) : Prop :=
  match f with
  | FMTID_SummaryInformation => g = fmtid_summary
  | FMTID_DocSummaryInformation => g = fmtid_document
  | FMTID_UserDefined => g = fmtid_user
  | FMTID_Unknown => g <> fmtid_summary /\ g <> fmtid_document /\ g <> fmtid_user
  end.

(** The number a bit pattern stands for: [f] fraction bits, largest exponent field [top]. *)
Definition shows_double (f top : N) (bias : Z) (bits : N) (d : double) : Prop :=
  let neg := (top + 1) * 2 ^ f <=? bits in
  (forall m e, ieee f top bias bits m e -> d = Num neg m e) /\
  (field bits f top = top -> fraction bits f = 0 -> d = Inf neg) /\
  (field bits f top = top -> fraction bits f <> 0 -> exists x, d = NaN neg x).

(** The value that is to be reported for a stored one. *)
Definition shows (v : stored) (r : value) : Prop :=
  match v with
  | SI2 z | SI4 z => exists n, r = VInt n /\ n < 2 ^ 64 /\ exists k, (z = Z.of_N n + k * 2 ^ 64)%Z
  | SR4 bits => exists d, r = VFloat d /\ shows_double 23 255 150 bits d
  | SR8 bits => exists d, r = VFloat d /\ shows_double 52 2047 1075 bits d
  | SBool b => r = VBool b
  | STime n => r = VInt n
  | SText _ s | SName _ s => r = VString (filter (fun c => negb (byte_eqb c x00)) s)
  | SWide u => exists t, r = VString t /\ ~ In x00 t /\ (Forall scalar u -> utf8 t (filter (fun c => negb (c =? 0)) u))
  | SOther _ => r = VNone
  end.
(** What the program takes a stored value for. *)
Inductive taken_for : stored -> stored -> Prop :=
| tf_i4 z z' : byte_reversed z z' -> taken_for (SI4 z) (SI4 z')
| tf_same v : (forall z, v <> SI4 z) -> taken_for v v.

(** The property reported for an entry of a set with format identifier [g]. *)
Definition reports_as (rel : stored -> value -> Prop) (ge : bytes * entry) (p : property) : Prop :=
  format_is (fst ge) (p_fmt p) /\ p_pid p = e_id (snd ge) /\ p_type p = type_of (e_value (snd ge)) /\
  rel (e_value (snd ge)) (p_value p).
Definition taken (v : stored) (r : value) : Prop := exists v', taken_for v v' /\ shows v' r.

(** All entries of all sets, in order. *)
Definition all_entries (sets : list pset) : list (bytes * entry) :=
  flat_map (fun s => map (fun e => (s_format s, e)) (s_entries s)) sets.
(** The names of streams and storages; wide strings. *)
Definition is_name (v : stored) : bool := match v with SName _ _ => true | _ => false end.
Definition is_wide (v : stored) : bool := match v with SWide _ => true | _ => false end.
Definition is_i4 (v : stored) : bool := match v with SI4 _ => true | _ => false end.
Definition none_of (f : stored -> bool) (sets : list pset) : Prop :=
  Forall (fun ge => f (e_value (snd ge)) = false) (all_entries sets).

(** The property read from a place of the stream: its identifier and where its value is. *)
Definition placed (buf : bytes) (place : N * N) (p : property) : Prop :=
  p_pid p = fst place /\ number_at buf (snd place mod 2 ^ 32) 2 (p_type p).

(** ** Numbers in documents *)

(** The decimal number [m * 10 ^ e] a JSON value is. *)
Definition is_number (v : jval) (m e : Z) : Prop :=
  match v with
  | JNum n => m = Z.of_N n /\ e = 0%Z
  | JReal a b => m = a /\ e = b
  | _ => False
  end.
Definition same_decimal (m e m' e' : Z) : Prop :=
  (m * 10 ^ (e - Z.min e e') = m' * 10 ^ (e' - Z.min e e'))%Z.
(** [v] is zero, or the nearest decimal number with six digits to [m * 2 ^ e] or its negation. *)
Definition nearest_six (neg : bool) (m : N) (e : Z) (v : jval) : Prop :=
  exists a y, is_number v a y /\
    ((m = 0 /\ a = 0%Z) \/
     m <> 0 /\ exists k x, six_digits_of (times2 e m) (times2 (- e) 1) k x /\
       same_decimal a y (if neg then - Z.of_N k else Z.of_N k) x).
(** Within the range of double precision. *)
Definition in_range (m : N) (e : Z) : Prop := m < 2 ^ 53 /\ (-1074 <= e <= 971)%Z.

(** ** Documents *)

(** The text for a point in time, as far as the platform has one: times before 1970 have the same
    text, and Microsoft's library stops at the year 3000. *)
Definition last_second : N := 32536850399 + 46800.
Definition moment_text (pl : platform) (n : N) (t : bytes) : Prop :=
  (n < unix_epoch_ticks + 10000000 /\ t = B "1601-01-01 00:00:00") \/
  (unix_epoch_ticks + 10000000 <= n /\
   let s := (n - unix_epoch_ticks) / 10000000 in
   (sizeof_wchar pl = 2 /\ last_second < s /\ t = B "invalid time") \/
   (~ (sizeof_wchar pl = 2 /\ last_second < s) /\ shows_second t s)).

(** The JSON value for a property: [type] and [pid] are its type and identifier. *)
Definition json_shows (pl : platform) (pid type : N) (v : value) (j : jval) : Prop :=
  match v with
  | VString s => j = JStr (map b2n (until_nul s))
  | VFloat (Num neg m e) => nearest_six neg m e j
  | VFloat _ => False
  | VInt n =>
      if type =? 64 then
        exists t, j = JStr (map b2n t) /\ (if pid =? 10 then duration_text t (n / 10) else moment_text pl n t)
      else j = JNum n
  | VBool b => j = JBool b
  | VNone => j = JStr (map b2n (B "unknown"))
  end.
(** The value is one the reading can produce. *)
Definition value_ok (v : value) : Prop :=
  match v with
  | VFloat (Num _ m e) => in_range m e
  | VInt n => n < 2 ^ 64
  | _ => True
  end.
Definition is_finite (v : value) : Prop :=
  match v with VFloat (Inf _) => False | VFloat (NaN _ _) => False | _ => True end.
Definition property_object (name tname : bytes) (j : jval) : jval :=
  JObj [jfield (B "Property") name; jfield (B "Type") tname; (map b2n (B "Value"), j)].

(** The XML element for the value. *)
Definition xml_shows (v : value) (x : xnode) : Prop :=
  match v with
  | VString s => x = xescaped (B "Value") s
  | VFloat (Num neg m e) => exists t j, x = xfield (B "Value") t /\ json_value t j /\ nearest_six neg m e j
  | VFloat (Inf neg) => x = xfield (B "Value") (if neg then B "-inf" else B "inf")
  | VFloat (NaN _ _) => exists t, x = xfield (B "Value") t
  | VInt n => x = xfield (B "Value") (dec n)
  | VBool b => x = xfield (B "Value") (if b then B "true" else B "false")
  | VNone => x = xfield (B "Value") (B "unknown")
  end.
Definition property_element (name tname : bytes) (x : xnode) : xnode :=
  XElem (B "PropertyItem") [xfield (B "Property") name; xfield (B "Type") tname; x].

(** The JSON value for a stored value; numbers are shown modulo 2^64. *)
Definition json_stored (pl : platform) (pid : N) (v : stored) (j : jval) : Prop :=
  match v with
  | SI2 z | SI4 z => j = JNum (Z.to_N (z mod 2 ^ 64))
  | SR4 bits => forall m e, single bits m e -> nearest_six (2 ^ 31 <=? bits) m e j
  | SR8 bits => forall m e, double_precision bits m e -> nearest_six (2 ^ 63 <=? bits) m e j
  | SBool b => j = JBool b
  | STime n => exists t, j = JStr (map b2n t) /\ (if pid =? 10 then duration_text t (n / 10) else moment_text pl n t)
  | SText _ s | SName _ s => j = JStr (map b2n (filter (fun c => negb (byte_eqb c x00)) s))
  | SWide u => exists t, j = JStr (map b2n t) /\ (Forall scalar u -> utf8 t (filter (fun c => negb (c =? 0)) u))
  | SOther _ => j = JStr (map b2n (B "unknown"))
  end.
(** Infinities and what is not a number. *)
Definition is_special (v : stored) : bool :=
  match v with
  | SR4 bits => field bits 23 255 =? 255
  | SR8 bits => field bits 52 2047 =? 2047
  | _ => false
  end.
(** The document for an entry. *)
Definition json_entry (pl : platform) (ge : bytes * entry) (p : property) : Prop :=
  exists name tname j v, json_value (ToJson pl p) (property_object name tname j) /\
    taken_for (e_value (snd ge)) v /\ json_stored pl (e_id (snd ge)) v j.
(** A wide string whose second unit is at least 17. *)
Definition long_wide (v : stored) : bool :=
  match v with SWide (_ :: b :: _) => 17 <=? b | _ => false end.
