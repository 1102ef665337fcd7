(** Vocabulary for the identification properties: which signatures a file carries, what a
    report is, and what JSON and XML documents denote.  Independent of [Magic/Model.v]
    except for the shape of a table row. *)
From Coq Require Import List NArith ZArith Bool Strings.String.
From Verif Require Import Lib.Res Lib.Bytes Lib.Text Lib.NumSpec Common.Model Common.Spec Magic.Table.
Import ListNotations.
Local Open Scope N_scope.

(** The signature's bytes are in the file at the signature's offset. *)
Definition carries (content : bytes) (mi : MagicInfo) : Prop :=
  occurs_at (mi_magic mi) content (mi_offset mi).

(** [reports content plain parse sigs rs]: walking the signatures in order, each one the
    file carries contributes one plain answer, or the answers of its content parser. *)
Inductive reports {R : Type} (content : bytes) (plain : MagicInfo -> R)
          (parse : parser -> res (list R)) : list MagicInfo -> list R -> Prop :=
| rp_done : reports content plain parse [] []
| rp_absent mi sigs rs :
    ~ carries content mi -> reports content plain parse sigs rs ->
    reports content plain parse (mi :: sigs) rs
| rp_plain mi sigs rs :
    carries content mi -> mi_func mi = None -> reports content plain parse sigs rs ->
    reports content plain parse (mi :: sigs) (plain mi :: rs)
| rp_parsed mi p l sigs rs :
    carries content mi -> mi_func mi = Some p -> parse p = Ok l ->
    reports content plain parse sigs rs ->
    reports content plain parse (mi :: sigs) (l ++ rs).

(** What a row says about a file that carries it. *)
Definition row_info (mi : MagicInfo) : ExtensionInfo :=
  mkExt (mi_ext mi) (mi_name mi) (mi_version mi) 0 [].

(** ** JSON documents (RFC 8259), without [null]

    A number that is not written as a plain natural number is [JReal m e], which is
    [m * 10 ^ e]. *)
Inductive jval : Type :=
| JStr (s : list N)
| JNum (n : N)
| JReal (m e : Z)
| JBool (b : bool)
| JArr (l : list jval)
| JObj (l : list (list N * jval)).

Definition json_ws (w : bytes) : Prop :=
  Forall (fun c => c = x20 \/ c = x09 \/ c = x0a \/ c = x0d) w.

Definition quote : byte := x22.
Definition comma : byte := x2c.

Inductive json_string : bytes -> list N -> Prop :=
| jstring t s : json_str t s -> json_string (quote :: t ++ [quote]) s.

(** A natural number: decimal digits without a superfluous leading zero. *)
Definition json_number (t : bytes) (n : N) : Prop :=
  dec_num t = Some n /\ (forall r, t = x30 :: r -> r = []).

(** Numbers with a sign, a fraction or an exponent. *)
Definition json_fraction (t d : bytes) : Prop :=
  (t = [] /\ d = []) \/ (t = x2e :: d /\ exists n, dec_num d = Some n).
Definition json_exponent (t : bytes) (x : Z) : Prop :=
  (t = [] /\ x = 0%Z) \/
  exists mark sign d n, t = mark :: sign ++ d /\ (mark = x65 \/ mark = x45) /\ dec_num d = Some n /\
    ((sign = [] \/ sign = [x2b]) /\ x = Z.of_N n \/ sign = [x2d] /\ x = (- Z.of_N n)%Z).
Inductive json_real : bytes -> Z -> Z -> Prop :=
| jreal neg i k frac d ex x n :
    json_number i k -> json_fraction frac d -> json_exponent ex x -> dec_num (i ++ d) = Some n ->
    (neg = true \/ frac <> [] \/ ex <> []) ->
    json_real ((if neg : bool then [x2d] else []) ++ i ++ frac ++ ex)
              (if neg then - Z.of_N n else Z.of_N n) (x - Z.of_N (lenN d)).

Inductive json_value : bytes -> jval -> Prop :=
| jv_str t s : json_string t s -> json_value t (JStr s)
| jv_num t n : json_number t n -> json_value t (JNum n)
| jv_real t m e : json_real t m e -> json_value t (JReal m e)
| jv_true : json_value [x74; x72; x75; x65] (JBool true)
| jv_false : json_value [x66; x61; x6c; x73; x65] (JBool false)
| jv_arr0 w : json_ws w -> json_value (x5b :: w ++ [x5d]) (JArr [])
| jv_arr t l : json_elements t l -> json_value (x5b :: t ++ [x5d]) (JArr l)
| jv_obj0 w : json_ws w -> json_value (x7b :: w ++ [x7d]) (JObj [])
| jv_obj t l : json_members t l -> json_value (x7b :: t ++ [x7d]) (JObj l)
with json_elements : bytes -> list jval -> Prop :=
| je_one w1 t v w2 : json_ws w1 -> json_value t v -> json_ws w2 ->
    json_elements (w1 ++ t ++ w2) [v]
| je_more w1 t v w2 ts vs : json_ws w1 -> json_value t v -> json_ws w2 -> json_elements ts vs ->
    json_elements (w1 ++ t ++ w2 ++ comma :: ts) (v :: vs)
with json_members : bytes -> list (list N * jval) -> Prop :=
| jm_one w1 k n w2 w3 t v w4 :
    json_ws w1 -> json_string k n -> json_ws w2 -> json_ws w3 -> json_value t v -> json_ws w4 ->
    json_members (w1 ++ k ++ w2 ++ colon :: w3 ++ t ++ w4) [(n, v)]
| jm_more w1 k n w2 w3 t v w4 ts ms :
    json_ws w1 -> json_string k n -> json_ws w2 -> json_ws w3 -> json_value t v -> json_ws w4 ->
    json_members ts ms ->
    json_members (w1 ++ k ++ w2 ++ colon :: w3 ++ t ++ w4 ++ comma :: ts) ((n, v) :: ms).

(** ** XML documents: elements without attributes, character data, CDATA sections *)
Inductive xnode : Type :=
| XText (s : list N)             (* character data, references resolved *)
| XCData (s : bytes)             (* the literal contents of a CDATA section *)
| XElem (name : bytes) (l : list xnode).

(** Element names: a letter or underscore, then letters, digits and underscores (enough for
    this program). *)
Definition name_start (c : byte) : Prop := 65 <= b2n c <= 90 \/ 97 <= b2n c <= 122 \/ c = x5f.
Definition name_char (c : byte) : Prop := name_start c \/ 48 <= b2n c <= 57.
Definition xml_name (n : bytes) : Prop :=
  exists c t, n = c :: t /\ name_start c /\ Forall name_char t.

Definition cdata_open : bytes := [x3c; x21; x5b; x43; x44; x41; x54; x41; x5b].
Definition cdata_close : bytes := [x5d; x5d; x3e].
Definition contains (pat s : bytes) : Prop := exists a b, s = a ++ pat ++ b.

Inductive xml_content : bytes -> list xnode -> Prop :=
| xc_nil : xml_content [] []
| xc_text t s rest l : t <> [] -> xml_text t s ->
    (rest = [] \/ exists r, rest = x3c :: r) -> xml_content rest l ->
    xml_content (t ++ rest) (XText s :: l)
| xc_cdata s rest l : ~ contains cdata_close s -> xml_content rest l ->
    xml_content (cdata_open ++ s ++ cdata_close ++ rest) (XCData s :: l)
| xc_elem n body children rest l :
    xml_name n -> xml_content body children -> xml_content rest l ->
    xml_content (x3c :: n ++ x3e :: body ++ x3c :: x2f :: n ++ x3e :: rest) (XElem n children :: l).

(** A document: one element. *)
Definition xml_document (t : bytes) (e : xnode) : Prop :=
  match e with XElem _ _ => xml_content t [e] | _ => False end.

(** ** What the two documents say about one result *)

(** A field that is left out when empty. *)
Definition optional {A} (v : bytes) (x : A) : list A := match v with [] => [] | _ => [x] end.

Definition jfield (key v : bytes) : list N * jval := (map b2n key, JStr (map b2n v)).

(** The members of the object describing a result. *)
Definition item_members (e : ExtensionInfo) : list (list N * jval) :=
  [jfield (B "extension") (Extension e)] ++
  optional (Name e) (jfield (B "name") (Name e)) ++
  optional (SubType e) (jfield (B "subtype") (SubType e)) ++
  (if Version e =? 0 then [] else [jfield (B "version") (dec (Version e))]) ++
  optional (VersionName e) (jfield (B "versionname") (VersionName e)).

(** The members for an unknown file with first bytes [sample]: [shown] is the readable form
    and [hexed] the dump. *)
Definition unknown_members (shown hexed : bytes) : list (list N * jval) :=
  [jfield (B "extension") (B "unknown"); jfield (B "name") (B "Unknown File");
   jfield (B "sampleStr") shown; jfield (B "sampleHex") hexed].

Definition xtext (v : bytes) : list xnode := optional v (XText (map b2n v)).
Definition xfield (name v : bytes) : xnode := XElem name (xtext v).

Definition item_element (e : ExtensionInfo) : xnode :=
  XElem (B "item")
    ([xfield (B "extension") (Extension e)] ++
     optional (Name e) (xfield (B "name") (Name e)) ++
     optional (SubType e) (xfield (B "subtype") (SubType e)) ++
     (if Version e =? 0 then [] else [xfield (B "version") (dec (Version e))]) ++
     optional (VersionName e) (xfield (B "versionname") (VersionName e))).

Definition unknown_element (cdata hexed : bytes) : xnode :=
  XElem (B "item")
    [xfield (B "extension") (B "unknown"); xfield (B "name") (B "Unknown File");
     XElem (B "sampleStr") [XCData cdata]; xfield (B "sampleHex") hexed].

(** ** CSV *)
Fixpoint columns (row : bytes) : N :=
  match row with
  | [] => 1
  | c :: t => if byte_eqb c comma then 1 + columns t else columns t
  end.

(** Lines, each ended by a newline. *)
Inductive csv_lines : bytes -> list bytes -> Prop :=
| cl_nil : csv_lines [] []
| cl_line row t rows : ~ In x0a row -> csv_lines t rows -> csv_lines (row ++ x0a :: t) (row :: rows).

(** The smallest power of two that is not below [n]. *)
Definition least_pow2 (n p : N) : Prop :=
  (exists k, p = 2 ^ k) /\ n <= p /\ (forall k, n <= 2 ^ k -> p <= 2 ^ k).
