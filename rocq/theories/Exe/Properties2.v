(** Properties of the codes of executables.  Statements only; the published codes are in [Exe/Published.v]. *)
From Coq Require Import List NArith Bool Strings.String Strings.Byte.
From Verif Require Import Lib.Res Lib.Bytes Lib.Text Lib.NumSpec Common.Model Common.Spec Common.Fields Magic.Model Magic.Spec Exe.Model Exe.Spec Exe.PropertyLemmas Exe.Published Exe.PropertyLemmas2.
Import ListNotations.
Local Open Scope N_scope.

(** ** C126: published codes of executables *)
Theorem C126_machines : forall p (content : bytes) pe machine ch, supported p -> lenN content < 2 ^ 32 ->
  number_at content 60 4 pe -> number_at content (pe + 4) 2 machine -> number_at content (pe + 22) 2 ch ->
  pe + 24 < lenN content -> pe + 104 < 2 ^ 32 ->
  exists i, exec_detail p (Some content) = Ok i /\
    (forall word, In (machine, word) machine_types -> x_MachineType i = word) /\
    ((forall word, ~ In (machine, word) machine_types) -> x_MachineType i = []).
Proof. exact C126_machine. Qed.
Print Assumptions C126_machines.

Theorem C126_machines_without_words : forall p (content : bytes) pe machine ch, supported p -> lenN content < 2 ^ 32 ->
  number_at content 60 4 pe -> number_at content (pe + 4) 2 machine -> number_at content (pe + 22) 2 ch ->
  pe + 24 < lenN content -> pe + 104 < 2 ^ 32 -> In machine other_machines ->
  exists i, exec_detail p (Some content) = Ok i /\ x_MachineType i = [].
Proof. exact C126_other_machine. Qed.
Print Assumptions C126_machines_without_words.

Theorem C126_characteristics : forall p (content : bytes) pe machine ch, supported p -> lenN content < 2 ^ 32 ->
  number_at content 60 4 pe -> number_at content (pe + 4) 2 machine -> number_at content (pe + 22) 2 ch ->
  pe + 24 < lenN content -> pe + 104 < 2 ^ 32 ->
  exists i, exec_detail p (Some content) = Ok i /\
    (forall k word, In (k, word) file_characteristics -> k <> 10 ->
       (In word (x_Characteristics i) <-> N.testbit ch k = true)) /\
    (In (B "REMOVABLE_RUN_FROM_SWAP") (x_Characteristics i) <->
       N.testbit ch 10 = true \/ N.testbit ch 6 = true) /\
    (forall word, In word (x_Characteristics i) -> exists k, In (k, word) file_characteristics).
Proof. exact C126_flags. Qed.
Print Assumptions C126_characteristics.

Theorem C126_characteristics_refuted : exists content pe ch i, lenN content < 2 ^ 32 /\
  number_at content 60 4 pe /\ window content pe 4 pe_sig /\ number_at content (pe + 22) 2 ch /\
  In (10, B "REMOVABLE_RUN_FROM_SWAP") file_characteristics /\ N.testbit ch 10 = false /\
  exec_detail linux64 (Some content) = Ok i /\ In (B "REMOVABLE_RUN_FROM_SWAP") (x_Characteristics i).
Proof. exact C126_flags_refuted. Qed.
Print Assumptions C126_characteristics_refuted.

Theorem C126_subsystems : forall p (content : bytes) pe sub dll, supported p -> lenN content < 2 ^ 32 ->
  number_at content 60 4 pe -> pe + 104 < lenN content -> pe + 104 < 2048 ->
  number_at content (pe + 92) 2 sub -> number_at content (pe + 94) 2 dll ->
  exists i, exec_detail p (Some content) = Ok i /\
    (dll <> 0 -> x_Subsystem i = []) /\
    (dll = 0 -> sub < 10 -> forall word, In (sub, word) subsystems -> x_Subsystem i = word) /\
    (dll = 0 -> 10 <= sub < 16 -> x_Subsystem i = []) /\
    (dll = 0 -> 16 <= sub -> forall word, In (sub - 6, word) subsystems -> x_Subsystem i = word) /\
    ((forall word, ~ In (sub, word) subsystems /\ ~ In (sub - 6, word) subsystems) -> x_Subsystem i = []).
Proof. exact C126_subsystem. Qed.
Print Assumptions C126_subsystems.

Theorem C126_subsystems_refuted : exists content pe i, lenN content < 2 ^ 32 /\
  number_at content 60 4 pe /\ window content pe 4 pe_sig /\ number_at content (pe + 92) 2 10 /\
  number_at content (pe + 94) 2 0 /\ pe + 104 < lenN content /\
  In (10, B "EFI Application") subsystems /\
  exec_detail linux64 (Some content) = Ok i /\ x_Subsystem i = [].
Proof. exact C126_subsystem_lemma. Qed.
Print Assumptions C126_subsystems_refuted.

Theorem C126_boot_application_refuted : exists content pe i, lenN content < 2 ^ 32 /\
  number_at content 60 4 pe /\ window content pe 4 pe_sig /\
  number_at content (pe + 92) 2 boot_application /\
  number_at content (pe + 94) 2 0 /\ pe + 104 < lenN content /\
  exec_detail linux64 (Some content) = Ok i /\ x_Subsystem i = B "EFI Application".
Proof. exact C126_boot_lemma. Qed.
Print Assumptions C126_boot_application_refuted.

Theorem C126_cpu_types : forall (content : bytes) cpu name, 28 <= lenN content -> lenN content < 2 ^ 32 ->
  number_at content 4 4 cpu -> In (cpu, name) cpu_types ->
  exists r members, macho_Detailer (Some content) = Ok [r] /\
    json_value (eJson (r_out r)) (JObj members) /\ says members (B "CpuType") name.
Proof. exact C126_cpu. Qed.
Print Assumptions C126_cpu_types.

Theorem C126_cpu_types_without_names : forall (content : bytes) cpu sub, 28 <= lenN content -> lenN content < 2 ^ 32 ->
  number_at content 4 4 cpu -> number_at content 8 4 sub -> In cpu other_cpus ->
  exists r members digits, macho_Detailer (Some content) = Ok [r] /\
    json_value (eJson (r_out r)) (JObj members) /\ silent members (B "CpuType") /\
    List.length digits = 8%nat /\ hex_num digits = Some sub /\
    says members (B "CpuSubType") (B "UNKNOWN (0x" ++ digits ++ B ")").
Proof. exact C126_other_cpu. Qed.
Print Assumptions C126_cpu_types_without_names.

Theorem C126_cpu_types_refuted : exists content, lenN content = 32 /\
  occurs_at [xcf; xfa; xed; xfe] content 0 /\ number_at content 4 4 (12 + CPU_ARCH_ABI64) /\
  exists r members, macho_Detailer (Some content) = Ok [r] /\
    json_value (eJson (r_out r)) (JObj members) /\ silent members (B "CpuType") /\
    says members (B "CpuSubType") (B "UNKNOWN (0x00000000)").
Proof. exact C126_cpu_refuted. Qed.
Print Assumptions C126_cpu_types_refuted.

Theorem C126_cpu_subtypes_partial : forall (content : bytes) cpu sub name rows, 28 <= lenN content -> lenN content < 2 ^ 32 ->
  number_at content 4 4 cpu -> number_at content 8 4 sub ->
  In (cpu, rows) cpu_subtypes -> In (sub, name) rows -> (cpu = 7 -> ~ In sub models) ->
  exists r members, macho_Detailer (Some content) = Ok [r] /\
    json_value (eJson (r_out r)) (JObj members) /\ says members (B "CpuSubType") name.
Proof. exact C126_subtype. Qed.
Print Assumptions C126_cpu_subtypes_partial.

Theorem C126_intel_models : forall (content : bytes) sub, 28 <= lenN content -> lenN content < 2 ^ 32 ->
  number_at content 4 4 7 -> number_at content 8 4 sub -> In sub models ->
  exists r members digits, macho_Detailer (Some content) = Ok [r] /\
    json_value (eJson (r_out r)) (JObj members) /\
    List.length digits = 8%nat /\ hex_num digits = Some sub /\
    says members (B "CpuSubType")
      (if sub =? intel 8 2 then B "PENTIUM_3_M" else B "UNKNOWN (0x" ++ digits ++ B ")").
Proof. exact C126_models. Qed.
Print Assumptions C126_intel_models.

Theorem C126_cpu_subtypes_refuted : exists content, lenN content = 28 /\
  occurs_at [xce; xfa; xed; xfe] content 0 /\ number_at content 4 4 7 /\ number_at content 8 4 103 /\
  In (103, B "CELERON") intel_subtypes /\
  exists r members, macho_Detailer (Some content) = Ok [r] /\
    json_value (eJson (r_out r)) (JObj members) /\ says members (B "CpuSubType") (B "UNKNOWN (0x00000067)").
Proof. exact C126_models_refuted. Qed.
Print Assumptions C126_cpu_subtypes_refuted.

Theorem C126_capabilities : forall (content : bytes) cpu sub, 28 <= lenN content -> lenN content < 2 ^ 32 ->
  number_at content 4 4 cpu -> number_at content 8 4 sub -> capabilities sub <> 0 ->
  exists r members digits, macho_Detailer (Some content) = Ok [r] /\
    json_value (eJson (r_out r)) (JObj members) /\
    List.length digits = 8%nat /\ hex_num digits = Some sub /\
    says members (B "CpuSubType") (B "UNKNOWN (0x" ++ digits ++ B ")").
Proof. exact C126_capabilities_lemma. Qed.
Print Assumptions C126_capabilities.

Theorem C126_capabilities_refuted : exists content, lenN content = 32 /\
  occurs_at [xcf; xfa; xed; xfe] content 0 /\ number_at content 4 4 (7 + CPU_ARCH_ABI64) /\
  number_at content 8 4 (3 + CPU_SUBTYPE_LIB64) /\
  exists r members, macho_Detailer (Some content) = Ok [r] /\
    json_value (eJson (r_out r)) (JObj members) /\
    says members (B "CpuType") (B "X86_64") /\ says members (B "CpuSubType") (B "UNKNOWN (0x80000003)").
Proof. exact C126_capabilities_refuted_lemma. Qed.
Print Assumptions C126_capabilities_refuted.

Example C126_example : 28 <= lenN mach64 /\ number_at mach64 4 4 (7 + CPU_ARCH_ABI64) /\
  number_at mach64 8 4 3 /\ In (7 + CPU_ARCH_ABI64, B "X86_64") cpu_types /\
  number_at gui 60 4 64 /\ number_at gui 68 2 0x8664 /\ In (0x8664, B "x64") machine_types /\
  number_at (efi_image 3) 156 2 3 /\ number_at (efi_image 3) 158 2 0 /\
  exists i, exec_detail linux64 (Some (efi_image 3)) = Ok i /\ x_Subsystem i = B "Windows CUI".
Proof. exact C126_ex. Qed.
