(** Vocabulary that mentions the objects of [Detect/Model.v]. *)
From Coq Require Import List NArith Bool Strings.String.
From Verif Require Import Lib.Res Lib.Bytes Lib.Text Common.Model Common.Spec Common.Utf8 Magic.Spec Ole.Model Ole.Spec Vba.Analyze Vba.Output
     Vba.FileSpec Vba.Statements Propset.Model Propset.Output Propset.Statements Docs.Model Media.WordPerfect Detect.Model Detect.Spec.
Import ListNotations.
Local Open Scope N_scope.

(** The object for a kind, before its stream is read: the variant is not kept. *)
Definition kind_ext (k : kind) : ExtensionInfo := mkExt (k_extension k) (k_name k) [] 0 (k_version k).

(** What a stream of a kind becomes; [current] are the bytes of [/Current User]. *)
Definition read_kind (pl : platform) (excel : bytes -> res workbook) (current : bytes) (k : kind) (content : bytes) : res found :=
  let e := kind_ext k in
  match k_reader k with
  | None => Ok (FOless e [] [])
  | Some RWord => e <- word_Detailer e content ;; Ok (FOless e [] [])
  | Some RExcel => x <- excel content ;; Ok (FExcel x [] [])
  | Some RPowerPoint => e <- powerpoint_Detailer pl e current content ;; Ok (FOless e [] [])
  | Some RPublisher => e <- publisher_Detailer pl e content ;; Ok (FOless e [] [])
  | Some RVisio => e <- visio_Detailer e content ;; Ok (FOless e [] [])
  | Some RWordPerfect => Ok (FWordPerfect (mkWp wp_ext None))
  | Some RInstaller => Ok (FOless (msi_Detailer e content) [] [])
  end.

(** What an entry contributes. *)
Inductive outcome := ONothing | OFound (r : found) | OGroup (path : list N) (props : list property).
(** [yields pl excel current s v r]: looking at the entry [v] has the outcome [r]. *)
Inductive yields (pl : platform) (excel : bytes -> res workbook) (current : bytes) (s : storage) : visit -> res outcome -> Prop :=
| y_storage names : ~ macro_storage names -> yields pl excel current s (VStorage names) (Ok ONothing)
| y_project names p : macro_storage names -> Analyze pl (path_text names) s = Ok p ->
    yields pl excel current s (VStorage names) (Ok (OFound (FVba (vba_base p) p)))
| y_project_error names x : macro_storage names -> Analyze pl (path_text names) s = Throw x ->
    yields pl excel current s (VStorage names) (Ok (OFound (vba_error pl x)))
| y_project_stop names r : macro_storage names -> Analyze pl (path_text names) s = r -> r = UB \/ r = Fuel ->
    yields pl excel current s (VStorage names) (x <- r ;; Ok ONothing)
| y_props names b ps : In (last names []) property_names -> ParseBytes pl b = Ok ps ->
    yields pl excel current s (VStream names b) (Ok (OGroup (path_text names) ps))
| y_props_short names b : In (last names []) property_names -> ParseBytes pl b = Throw RangeError ->
    yields pl excel current s (VStream names b) (Ok ONothing)
| y_props_stop names b r : In (last names []) property_names -> ParseBytes pl b = r -> r <> Throw RangeError -> (forall ps, r <> Ok ps) ->
    yields pl excel current s (VStream names b) (x <- r ;; Ok ONothing)
| y_kind names b k : ~ In (last names []) property_names -> In k kinds -> tells_low (path_text names) k ->
    yields pl excel current s (VStream names b) (x <- read_kind pl excel current k b ;; Ok (OFound x))
| y_stream names b : ~ In (last names []) property_names -> (forall k, In k kinds -> ~ tells_low (path_text names) k) ->
    yields pl excel current s (VStream names b) (Ok ONothing).

Definition results_of (l : list outcome) : list found :=
  flat_map (fun o => match o with OFound r => [r] | _ => [] end) l.
Definition groups_of (l : list outcome) : groups :=
  flat_map (fun o => match o with OGroup p ps => [(p, ps)] | _ => [] end) l.

(** The paths and properties go to the first result that can have them; without results there is one
    for the file. *)
Inductive reported (paths : list (list N)) (g : groups) : list found -> list found -> Prop :=
| rep_none : reported paths g [] [FOless (mkExt (B "oless") [] [] 0 (B "OLE Structured Storage")) paths g]
| rep_some l m : l <> [] -> assigned paths g l m -> reported paths g l m
with assigned (paths : list (list N)) (g : groups) : list found -> list found -> Prop :=
| as_nil : assigned paths g [] []
| as_oless e l : assigned paths g (FOless e [] [] :: l) (FOless e paths g :: l)
| as_excel x l : assigned paths g (FExcel x [] [] :: l) (FExcel x paths g :: l)
| as_wp i l m : assigned paths g l m -> assigned paths g (FWordPerfect i :: l) (FWordPerfect i :: m)
| as_vba e p l m : assigned paths g l m -> assigned paths g (FVba e p :: l) (FVba e p :: m).

(** The same but for the paths and the properties. *)
Inductive alike : found -> found -> Prop :=
| al_oless e p1 g1 p2 g2 : alike (FOless e p1 g1) (FOless e p2 g2)
| al_excel x p1 g1 p2 g2 : alike (FExcel x p1 g1) (FExcel x p2 g2)
| al_same r : alike r r.

(** The results of calls one after the other, the first with an empty list. *)
Fixpoint calls (pl : platform) (excel : bytes -> res workbook) (rows : list OlessInfo) (files : list (option bytes)) : list (res (list found)) :=
  match files with
  | [] => []
  | f :: r => let '(x, rows') := Detailer pl excel rows f in x :: calls pl excel rows' r
  end.

(** ** Documents *)

(** A text that converts: Unicode characters other than zero. *)
Definition unicode (x : list N) : Prop := Forall (fun c => scalar c /\ c <> 0) x.
(** The value for a property. *)
Definition property_value (pl : platform) (p : property) (j : jval) : Prop :=
  exists v, j = property_object (PropertyIdentifierToString (p_fmt p) (p_pid p)) (PropertyTypeToString (p_type p)) v /\
    json_shows pl (p_pid p) (p_type p) (p_value p) v.
(** The value for the properties of a stream. *)
Definition group_value (pl : platform) (g : list N * list property) (j : jval) : Prop :=
  exists u l, utf8 u (fst g) /\ Forall2 (property_value pl) (snd g) l /\
    j = JObj [jfield (B "Group") u; (map b2n (B "properties"), JArr l)].
(** A member with a list, left out when the list is empty. *)
Definition list_member (key : bytes) (l : list jval) : list (list N * jval) :=
  match l with [] => [] | _ => [(map b2n key, JArr l)] end.

Definition property_node (p : property) (x : xnode) : Prop :=
  exists v, x = property_element (PropertyIdentifierToString (p_fmt p) (p_pid p)) (PropertyTypeToString (p_type p)) v /\ xml_shows (p_value p) v.
Definition group_node (g : list N * list property) (x : xnode) : Prop :=
  exists u l, utf8 u (fst g) /\ Forall2 property_node (snd g) l /\
    x = XElem (B "Group") [xescaped (B "Name") u; XElem (B "properties") l].
Definition list_element (name : bytes) (l : list xnode) : list xnode :=
  match l with [] => [] | _ => [XElem name l] end.
