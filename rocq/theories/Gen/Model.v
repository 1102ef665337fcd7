(** The script that writes the tables of signatures, /repo/fileid/Create-Headers.ps1, and what a compiler
    makes of its lines.

    Modelled: the loops over the items of data.xml, lines 24-41 and 53-63.  Not modelled: the fixed text
    around the lines, the ends of lines, and PowerShell itself; its comparison [-notmatch] and the names
    of attributes do not distinguish letters by case. *)
From Coq Require Import List NArith Bool Strings.String.
From Verif Require Import Lib.Res Lib.Bytes Lib.Text Common.Model Magic.Table Detect.Model.
Import ListNotations.
Local Open Scope N_scope.

(** An element [Item] of data.xml: its attributes in order, and its text. *)
Record item := mkItem { it_attributes : list (bytes * bytes); it_text : bytes }.

(** [$_.name]: the value of an attribute, which may be absent. *)
Fixpoint find_attribute (name : bytes) (l : list (bytes * bytes)) : option bytes :=
  match l with
  | [] => None
  | (k, v) :: r => if iequals k name then Some v else find_attribute name r
  end.
Definition attribute (name : string) (i : item) : option bytes := find_attribute (B name) (it_attributes i).
(** An absent value is the empty text where texts are put together. *)
Definition or_text (o : option bytes) (d : bytes) : bytes := match o with Some v => v | None => d end.

(** The pieces between commas *)
Definition comma : byte := x2c.
Fixpoint split (s : bytes) : list bytes :=
  match s with
  | [] => [[]]
  | c :: r =>
      if byte_eqb c comma then [] :: split r
      else match split r with p :: ps => (c :: p) :: ps | [] => [[c]] end
  end.

(** Hexadecimal digits *)
Definition hex_value (c : byte) : option N :=
  let n := b2n c in
  if (48 <=? n) && (n <=? 57) then Some (n - 48)
  else if (65 <=? n) && (n <=? 70) then Some (n - 55)
  else if (97 <=? n) && (n <=? 102) then Some (n - 87)
  else None.
Definition is_hex (c : byte) : bool := match hex_value c with Some _ => true | None => false end.
Definition is_x (c : byte) : bool := byte_eqb c x78 || byte_eqb c x58.
(** Create-Headers.ps1:32, the pattern [^(0x[0-9A-Fa-f]{2},?)+$]; the end may be before a last line feed. *)
Definition at_end (s : bytes) : bool := match s with [] => true | [c] => byte_eqb c x0a | _ => false end.
Fixpoint hex_format (s : bytes) : bool :=
  match s with
  | z :: x :: h :: l :: r =>
      byte_eqb z x30 && is_x x && is_hex h && is_hex l &&
      (at_end r || match r with
                   | c :: r' => if byte_eqb c comma then at_end r' || hex_format r' else hex_format r
                   | [] => false
                   end)
  | _ => false
  end.

(** [String.Format] with [0x{0:X2}] *)
Definition hex_upper (d : N) : byte := n2b (if d <? 10 then 48 + d else 55 + d).
Definition hex_constant (c : byte) : bytes := [x30; x78; hex_upper (b2n c / 16); hex_upper (b2n c mod 16)].
(** Create-Headers.ps1:25-36: the number of pieces and their text.  A text that is not in the format is
    taken as ASCII characters.  Not modelled ([None]): such a text with a comma, with another character
    or with none. *)
Definition magic_of (text : bytes) : option (N * bytes) :=
  if hex_format text then Some (lenN (split text), text)
  else if existsb (byte_eqb comma) text || existsb (fun c => 128 <=? b2n c) text || (lenN text =? 0) then None
  else Some (lenN text, join [comma] (map hex_constant text)).

(** Create-Headers.ps1:38 *)
Definition array_line (i : item) : option bytes :=
  match magic_of (it_text i) with
  | Some (n, t) => Some (B "unsigned char magic_" ++ or_text (attribute "shortname" i) [] ++ B "[" ++ dec n ++ B "] = {" ++ t ++ B "};")
  | None => None
  end.
(** Create-Headers.ps1:39 *)
Definition entry_line (i : item) : option bytes :=
  match magic_of (it_text i) with
  | Some (n, _) => Some (B "list.push_back(new common::MagicInfo(""" ++ or_text (attribute "extension" i) [] ++ B """, """ ++
      or_text (attribute "name" i) [] ++ B """, """ ++ or_text (attribute "version" i) [] ++ B """, " ++ or_text (attribute "offset" i) (B "0") ++ B ", " ++
      dec n ++ B ", magic_" ++ or_text (attribute "shortname" i) [] ++ B ", " ++ or_text (attribute "extra" i) (B "nullptr") ++ B "));")
  | None => None
  end.
(** Create-Headers.ps1:54-62 *)
Definition lower_text (s : bytes) : bytes := map (fun c => n2b (tolower (b2n c))) s.
Definition ole_line (i : item) : bytes :=
  B "list.push_back(new oless::OlessInfo(""" ++ or_text (attribute "extension" i) [] ++ B """,""" ++ or_text (attribute "name" i) [] ++ B """,""" ++
  or_text (attribute "version" i) [] ++ B """,""" ++ or_text (attribute "subType" i) [] ++ B """," ++
  match attribute "ignoreCase" i with Some v => lower_text v | None => B "false" end ++ B ",L""" ++ it_text i ++ B """," ++
  or_text (attribute "extra" i) (B "nullptr") ++ B "));".

(** ** The compiler *)

(** A constant [0xHH] *)
Definition constant_of (p : bytes) : option byte :=
  match p with
  | [z; x; h; l] =>
      if byte_eqb z x30 && is_x x then
        match hex_value h, hex_value l with Some h, Some l => Some (n2b (16 * h + l)) | _, _ => None end
      else None
  | _ => None
  end.
(** The constants of an initialiser; it may end with a comma. *)
Fixpoint constants_of (ps : list bytes) : option bytes :=
  match ps with
  | [] => Some []
  | [[]] => Some []
  | p :: r => match constant_of p, constants_of r with Some c, Some cs => Some (c :: cs) | _, _ => None end
  end.
(** An array [unsigned char name[n] = {t};]: elements without an initialiser are zero, more
    initialisers than elements are an error. *)
Definition array_of (n : N) (t : bytes) : option bytes :=
  match constants_of (split t) with
  | Some cs => if lenN cs <=? n then Some (cs ++ repeatN x00 (n - lenN cs)) else None
  | None => None
  end.
(** The signature that is compiled for a text. *)
Definition signature_of (text : bytes) : option bytes :=
  match magic_of text with Some (n, t) => array_of n t | None => None end.
