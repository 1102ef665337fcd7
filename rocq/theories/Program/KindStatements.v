(** Vocabulary: executables, pictures, sounds and films, from the bytes to the output. *)
From Coq Require Import List NArith Strings.String Strings.Byte.
From Verif Require Import Lib.Bytes Lib.Text Lib.NumSpec Common.Model Common.Spec Common.Fields Magic.Table Magic.Model Magic.Spec Exe.Tables Exe.Spec Media.Spec Program.Statements.
Import Magic.Table.
Import ListNotations.
Local Open Scope N_scope.

(** The file carries the signature that has a parser called. *)
Definition signed (content : bytes) (p : parser) : Prop :=
  match p with
  | PExec => starts content (B "MZ")
  | PMachO => starts_one content mach_magics
  | PZip => starts content (B "PK")
  | POless => starts content [xd0; xcf; x11; xe0]
  | PDwg => starts content (B "AC10")
  | PWordPerfect => starts_one content wp_magics
  | PMp4 => occurs_at (B "ftyp") content 4
  | PAsf => starts content asf_magic
  | PRiff => starts content (B "RIFF")
  | PJpeg => starts content [xff; xd8]
  end.
Definition only_parser (content : bytes) (p : parser) : Prop := signed content p /\ forall p', signed content p' -> p' = p.

(** What the program says about a file of a kind whose entry has no parts. *)
Inductive one_kind (content : bytes) : parser -> ExtensionInfo -> Prop :=
| k_pe pe ch : number_at content 60 4 pe -> number_at content (pe + 22) 2 ch -> pe + 24 < lenN content -> pe + 104 < 2 ^ 32 ->
    one_kind content PExec (mkExt (fst (pe_kind ch)) [] [] 0 (snd (pe_kind ch)))
| k_dos pe : number_at content 60 4 pe -> lenN content <= pe + 24 -> one_kind content PExec (mkExt (B "exe") [] [] 0 (B "Executable"))
| k_mp4 : 16 <= lenN content -> one_kind content PMp4 (mkExt (B "mp4") [] [] 0 (B "MPEG-4 Media File"))
| k_riff form chunk ext : In (form, chunk, ext) riff_extensions -> riff_form content form -> riff_first_chunk content chunk ->
    one_kind content PRiff (mkExt ext [] [] 0 [])
| k_riff_other : (forall form chunk e, In (form, chunk, e) riff_extensions -> ~ (riff_form content form /\ riff_first_chunk content chunk)) ->
    one_kind content PRiff (mkExt (B "riff") [] [] 0 [])
| k_dwg tag name : window content 0 6 tag -> code_named dwg_releases [] tag name -> one_kind content PDwg (mkExt (B "dwg") [] [] 0 name)
| k_dwg_short : lenN content <= 5 -> one_kind content PDwg (mkExt (B "dwg") [] [] 0 [])
| k_jpeg : one_kind content PJpeg (mkExt (B "jpg") [] [] 0 []).

(** The row of the table with a parser and this magic number. *)
Definition is_parser (p : parser) (mi : MagicInfo) : bool :=
  match mi_func mi, p with
  | Some PExec, PExec | Some PMp4, PMp4 | Some PRiff, PRiff | Some PDwg, PDwg | Some PJpeg, PJpeg => true
  | _, _ => false
  end.

(** The row of the table for a Mach-O file with this magic number. *)
Definition is_mach (m : bytes) (mi : MagicInfo) : bool :=
  match mi_func mi with Some PMachO => bytes_eqb (mi_magic mi) m | _ => false end.
(** What the header of a Mach-O file says: the texts for its magic number, processor and the counts of its commands. *)
Definition mach_header (content digits cname sname : bytes) (magic ncmds size : N) : Prop :=
  exists cpu sub, number_at content 0 4 magic /\ number_at content 4 4 cpu /\ number_at content 8 4 sub /\ number_at content 16 4 ncmds /\ number_at content 20 4 size /\
    List.length digits = 8%nat /\ hex_num digits = Some magic /\ named cputype_names cpu cname /\ subtype_named cpusubtype_names cpu sub sname.
