(** Vocabulary of the identification properties that mentions the result objects of the
    model: what a file's answer is, and what a document must say about each result. *)
From Coq Require Import List NArith Bool Strings.String.
From Verif Require Import Lib.Res Lib.Bytes Common.Model Common.Spec Magic.Table Magic.Model Magic.Spec.
Import ListNotations.
Local Open Scope N_scope.

(** The answer for a file given the results found by signature. *)
Definition answer (content : bytes) (found : list Result) : list Result :=
  match found, content with
  | _ :: _, _ => found
  | [], [] => [plain_result (mkExt (B "empty") (B "Empty File") [] 0 [])]
  | [], _ => [unknown_result (takeN 512 content)]
  end.

(** No content parser is called for this file. *)
Definition no_parser_needed (content : bytes) : Prop :=
  forall mi, In mi table -> carries content mi -> mi_func mi = None.

(** What the JSON and XML documents must say about each result of a file that needs no
    content parser. *)
Inductive json_describes (content : bytes) : Result -> jval -> Prop :=
| jd_row mi : In mi table -> mi_func mi = None ->
    json_describes content (plain_result (row_info mi)) (JObj (item_members (row_info mi)))
| jd_empty e : e = mkExt (B "empty") (B "Empty File") [] 0 [] ->
    json_describes content (plain_result e) (JObj (item_members e))
| jd_unknown shown hexed :
    before_nul (takeN 512 content) shown -> hex_dump hexed (takeN 512 content) ->
    json_describes content (unknown_result (takeN 512 content)) (JObj (unknown_members shown hexed)).

Inductive xml_describes (content : bytes) : Result -> xnode -> Prop :=
| xd_row mi : In mi table -> mi_func mi = None ->
    xml_describes content (plain_result (row_info mi)) (item_element (row_info mi))
| xd_empty e : e = mkExt (B "empty") (B "Empty File") [] 0 [] ->
    xml_describes content (plain_result e) (item_element e)
| xd_unknown cdata s hexed :
    xml_text cdata s -> hex_dump hexed (takeN 512 content) ->
    xml_describes content (unknown_result (takeN 512 content)) (unknown_element cdata hexed).

