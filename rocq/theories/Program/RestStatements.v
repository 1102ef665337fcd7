(** Vocabulary: files without a parser, from the bytes to the output. *)
From Coq Require Import List NArith Strings.String Strings.Byte.
From Verif Require Import Lib.Bytes Lib.Text Common.Model Common.Spec Common.EscapeProofs Magic.Table Magic.Model Magic.Spec Magic.DocProofs Magic.DocBase Program.Statements Program.PartStatements Program.KindStatements.
Import Magic.Table.
Import ListNotations.
Local Open Scope N_scope.

Definition empty_file : ExtensionInfo := mkExt (B "empty") (B "Empty File") [] 0 [].
Definition unknown_file : ExtensionInfo := mkExt (B "unknown") [] [] 0 (B "Unknown File").

(** The rows, values and elements for a file that carries the signatures [l] of the table. *)
Definition rest_rows (sep content : bytes) (l : list MagicInfo) : list bytes :=
  match l, content with
  | _ :: _, _ => map (fun mi => five sep (row_info mi)) l
  | [], [] => [five sep empty_file]
  | [], _ :: _ => [three sep unknown_file]
  end.
Inductive rest_values (content : bytes) (l : list MagicInfo) : list jval -> Prop :=
| rv_known : l <> [] -> rest_values content l (map row_object l)
| rv_empty : l = [] -> content = [] -> rest_values content l [JObj (item_members empty_file)]
| rv_unknown shown hexed : l = [] -> content <> [] -> before_nul (takeN 512 content) shown -> hex_dump hexed (takeN 512 content) ->
    rest_values content l [JObj (unknown_members shown hexed)].
Inductive rest_nodes (content : bytes) (l : list MagicInfo) : list xnode -> Prop :=
| rn_known : l <> [] -> rest_nodes content l (map row_element l)
| rn_empty : l = [] -> content = [] -> rest_nodes content l [item_element empty_file]
| rn_unknown cdata hexed : l = [] -> content <> [] -> xml_text cdata (map swap_angle (map b2n (takeN 512 content))) -> hex_dump hexed (takeN 512 content) ->
    rest_nodes content l [unknown_element cdata hexed].
(** The row of the table for a WordPerfect file with this magic number. *)
Definition is_perfect (m : bytes) (mi : MagicInfo) : bool :=
  match mi_func mi with Some PWordPerfect => bytes_eqb (mi_magic mi) m | _ => false end.
(** What is said about a file with signatures of several kinds: one entry for every signature of the table it carries, in the order of the table. *)
Inductive entries (content : bytes) : list MagicInfo -> list ExtensionInfo -> Prop :=
| en_nil : entries content [] []
| en_absent mi l es : ~ carries content mi -> entries content l es -> entries content (mi :: l) es
| en_plain mi l es : carries content mi -> mi_func mi = None -> entries content l es -> entries content (mi :: l) (row_info mi :: es)
| en_kind mi p e l es : carries content mi -> mi_func mi = Some p -> one_kind content p e -> entries content l es -> entries content (mi :: l) (e :: es).
