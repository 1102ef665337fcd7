(** Vocabulary for the properties of the executable parsers.  Independent of
    [Exe/Model.v]; the name tables are data. *)
From Coq Require Import List NArith ZArith Bool Strings.String.
From Verif Require Import Lib.Bytes Lib.Text Lib.NumSpec Common.Spec Common.Fields Magic.Spec.
Import ListNotations.
Local Open Scope N_scope.

(** The signature of a PE image. *)
Definition pe_sig : bytes := [x50; x45; x00; x00].

(** What the characteristics word of a PE image says it is: bit 12 is IMAGE_FILE_SYSTEM,
    bit 13 is IMAGE_FILE_DLL. *)
Definition pe_kind (characteristics : N) : bytes * bytes :=
  if N.testbit characteristics 12 then (B "sys", B "Kernal Mode Executable")
  else if N.testbit characteristics 13 then (B "dll", B "Dynamic Link Library")
  else (B "exe", B "Executable").

(** The name listed for a number, or nothing. *)
Definition named (rows : list (N * bytes)) (k : N) (name : bytes) : Prop :=
  In (k, name) rows \/ (name = [] /\ forall n, ~ In (k, n) rows).

(** [picked p l m]: [m] keeps exactly the elements of [l] that satisfy [p], in order. *)
Inductive picked {A} (p : A -> Prop) : list A -> list A -> Prop :=
| pk_nil : picked p [] []
| pk_in x l m : p x -> picked p l m -> picked p (x :: l) (x :: m)
| pk_out x l m : ~ p x -> picked p l m -> picked p (x :: l) m.

(** The names of the bits set in [v], in table order; [rows] pairs a mask with a name. *)
Definition flag_names (rows : list (N * bytes)) (v : N) (names : list bytes) : Prop :=
  exists sel, picked (fun e => exists k, fst e = 2 ^ k /\ N.testbit v k = true) rows sel /\
              names = map snd sel.

(** The subtype names: by CPU type, then by number; otherwise the number itself is shown. *)
Definition subtype_named (rows : list (N * list (N * bytes))) (t k : N) (name : bytes) : Prop :=
  (exists r, In (t, r) rows /\ In (k, name) r) \/
  ((forall r n, In (t, r) rows -> ~ In (k, n) r) /\
   exists digits, List.length digits = 8%nat /\ hex_num digits = Some k /\
                  name = B "UNKNOWN (0x" ++ digits ++ B ")").

(** What the JSON and XML descriptions of a Mach-O file must say. *)
Definition macho_members (magic cpu sub ncmds size : bytes) : list (list N * jval) :=
  [jfield (B "extension") (B "o"); jfield (B "name") magic] ++
  optional cpu (jfield (B "CpuType") cpu) ++
  [jfield (B "CpuSubType") sub; jfield (B "NumberLoadCommands") ncmds;
   jfield (B "SizeLoadCommands") size].
Definition macho_children (version magic cpu sub ncmds size : bytes) : list xnode :=
  [xfield (B "extension") (B "o")] ++ optional version (xfield (B "version") version) ++
  [xfield (B "versionname") magic] ++
  optional cpu (xfield (B "CpuType") cpu) ++
  [xfield (B "CpuSubType") sub; xfield (B "NumberLoadCommands") ncmds;
   xfield (B "SizeLoadCommands") size].
