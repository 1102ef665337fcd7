(** Properties C27-C33: executables (PE and Mach-O).  Statements only; the vocabulary is in
    [Common/Spec.v], [Common/Fields.v], [Magic/Spec.v] and [Exe/Spec.v]. *)
From Coq Require Import List NArith ZArith Bool Strings.String.
From Verif Require Import Lib.Res Lib.Bytes Lib.Text Lib.NumSpec Common.Model Common.Spec Common.Fields
     Magic.Model Magic.Spec Exe.Tables Exe.Model Exe.Spec Exe.PropertyLemmas.
Import ListNotations.
Local Open Scope N_scope.

(** ** C27: the kind of a PE image is read off its characteristics word *)
Theorem C27_kind : forall p (content : bytes) pe ch, supported p -> lenN content < 2 ^ 32 ->
  number_at content 60 4 pe -> number_at content (pe + 22) 2 ch ->
  pe + 24 < lenN content -> pe + 104 < 2 ^ 32 ->
  exec_Detailer p (Some content) =
    Ok [plain_result (mkExt (fst (pe_kind ch)) [] [] 0 (snd (pe_kind ch)))].
Proof. exact C27_kind_lemma. Qed.
Print Assumptions C27_kind.

Theorem C27_header_out_of_file : forall p (content : bytes) pe, supported p -> lenN content < 2 ^ 32 ->
  number_at content 60 4 pe -> lenN content <= pe + 24 ->
  exec_Detailer p (Some content) = Ok [plain_result (mkExt (B "exe") [] [] 0 (B "Executable"))].
Proof. exact C27_no_header. Qed.
Print Assumptions C27_header_out_of_file.

Theorem C27_complete_header_refuted : exists content pe ch, lenN content < 2 ^ 32 /\
  number_at content 60 4 pe /\ window content pe 4 pe_sig /\ number_at content (pe + 22) 2 ch /\
  fst (pe_kind ch) = B "dll" /\
  exec_Detailer linux64 (Some content) = Ok [plain_result (mkExt (B "exe") [] [] 0 (B "Executable"))].
Proof. exact C27_refuted. Qed.
Print Assumptions C27_complete_header_refuted.

Example C27_example : number_at small_dll 60 4 64 /\ number_at small_dll (64 + 22) 2 8450 /\
  64 + 24 < lenN small_dll /\
  exec_Detailer linux64 (Some small_dll) =
    Ok [plain_result (mkExt (B "dll") [] [] 0 (B "Dynamic Link Library"))].
Proof. exact C27_ex. Qed.

(** ** C28: only PE images are called dll or sys *)
Theorem C28_only_pe_refuted : exists content pe, lenN content < 2 ^ 32 /\
  number_at content 60 4 pe /\ ~ window content pe 4 pe_sig /\
  exec_Detailer linux64 (Some content) =
    Ok [plain_result (mkExt (B "dll") [] [] 0 (B "Dynamic Link Library"))].
Proof. exact C28_refuted_lemma. Qed.
Print Assumptions C28_only_pe_refuted.

Theorem C28_signature_ignored : forall p (a s s' b : bytes), supported p ->
  lenN (a ++ s ++ b) < 2 ^ 32 -> lenN s = 4 -> lenN s' = 4 -> number_at a 60 4 (lenN a) ->
  exec_Detailer p (Some (a ++ s ++ b)) = exec_Detailer p (Some (a ++ s' ++ b)).
Proof. exact C28_ignored. Qed.
Print Assumptions C28_signature_ignored.

Example C28_example : exec_Detailer linux64 (Some small_dll) = exec_Detailer linux64 (Some not_pe) /\
  small_dll <> not_pe.
Proof. exact C28_ex. Qed.

(** ** C29: the PE parser stays inside the file *)
Theorem C29_safe_iff : forall p (content : bytes), supported p ->
  (safe (exec_Detailer p (Some content)) <-> 64 <= lenN content mod 2 ^ 32).
Proof. exact C29_iff. Qed.
Print Assumptions C29_safe_iff.

Theorem C29_answers_one : forall p (content : bytes), supported p -> 64 <= lenN content mod 2 ^ 32 ->
  exists r, exec_Detailer p (Some content) = Ok [r].
Proof. exact C29_answers. Qed.
Print Assumptions C29_answers_one.

Theorem C29_every_mz_file_refuted : exists content, 2 <= lenN content < 64 /\ occurs_at (B "MZ") content 0 /\
  exec_Detailer linux64 (Some content) = UB.
Proof. exact C29_refuted_lemma. Qed.
Print Assumptions C29_every_mz_file_refuted.

Example C29_example : 64 <= lenN small_dll mod 2 ^ 32 /\ safe (exec_Detailer windows (Some small_dll)).
Proof. exact C29_ex. Qed.

(** ** C30: the details kept about a PE image *)
Theorem C30_coff_details : forall p (content : bytes) pe machine ch, supported p -> lenN content < 2 ^ 32 ->
  number_at content 60 4 pe -> number_at content (pe + 4) 2 machine -> number_at content (pe + 22) 2 ch ->
  pe + 24 < lenN content -> pe + 104 < 2 ^ 32 ->
  exists i, exec_detail p (Some content) = Ok i /\
    named machine_names machine (x_MachineType i) /\
    flag_names CharacteristicsMap ch (x_Characteristics i).
Proof. exact C30_coff. Qed.
Print Assumptions C30_coff_details.

Theorem C30_optional_details : forall p (content : bytes) pe, supported p -> lenN content < 2 ^ 32 ->
  number_at content 60 4 pe -> pe + 104 < lenN content -> pe + 104 < 2048 ->
  exists i, exec_detail p (Some content) = Ok i /\
  forall sub win dllch lj ln oj on_ ij in_ sj sn,
    number_at content (pe + 92) 4 sub -> number_at content (pe + 76) 4 win ->
    number_at content (pe + 96) 4 dllch ->
    number_at content (pe + 26) 1 lj -> number_at content (pe + 27) 1 ln ->
    number_at content (pe + 64) 2 oj -> number_at content (pe + 66) 2 on_ ->
    number_at content (pe + 68) 2 ij -> number_at content (pe + 70) 2 in_ ->
    number_at content (pe + 72) 2 sj -> number_at content (pe + 74) 2 sn ->
    named subsystem_names sub (x_Subsystem i) /\ x_Win32Version i = win /\
    flag_names DllCharacteristicsMap dllch (x_DllCharacteristics i) /\
    x_LinkerVersion i = dec lj ++ B "." ++ dec ln /\ x_OsVersion i = dec oj ++ B "." ++ dec on_ /\
    x_ImageVersion i = dec ij ++ B "." ++ dec in_ /\ x_SubsystemVersion i = dec sj ++ B "." ++ dec sn.
Proof. exact C30_optional_lemma. Qed.
Print Assumptions C30_optional_details.

Theorem C30_subsystem_refuted : exists content pe, lenN content < 2 ^ 32 /\
  number_at content 60 4 pe /\ window content pe 4 pe_sig /\ number_at content (pe + 92) 2 2 /\
  pe + 104 < lenN content /\ In (2, B "Windows GUI") subsystem_names /\
  exists i, exec_detail linux64 (Some content) = Ok i /\ x_Subsystem i = [] /\ x_DllCharacteristics i = [].
Proof. exact C30_refuted_lemma. Qed.
Print Assumptions C30_subsystem_refuted.

Theorem C30_only_kind_is_printed : forall p file rs, exec_Detailer p file = Ok rs ->
  exists k, rs = [plain_result (mkExt (fst (pe_kind k)) [] [] 0 (snd (pe_kind k)))].
Proof. exact C30_shown. Qed.
Print Assumptions C30_only_kind_is_printed.

Example C30_example : exists i, exec_detail linux64 (Some gui) = Ok i /\ x_MachineType i = B "x64" /\
  x_Characteristics i = [B "Executable Image"; B "LARGE_ADDRESS_AWARE"] /\
  x_LinkerVersion i = B "14.29".
Proof. exact C30_ex. Qed.

(** ** C31: the Mach-O parser stays inside the file *)
Theorem C31_safe_iff : forall (content : bytes), (safe (macho_Detailer (Some content)) <-> 28 <= lenN content mod 2 ^ 32).
Proof. exact C31_iff. Qed.
Print Assumptions C31_safe_iff.

Theorem C31_every_macho_file_refuted : exists content, lenN content = 27 /\
  occurs_at [xce; xfa; xed; xfe] content 0 /\ macho_Detailer (Some content) = UB.
Proof. exact C31_refuted_lemma. Qed.
Print Assumptions C31_every_macho_file_refuted.

Example C31_example : 28 <= lenN mach64 mod 2 ^ 32 /\ safe (macho_Detailer (Some mach64)).
Proof. exact C31_ex. Qed.

(** ** C32: CPU, subtype and load commands of a Mach-O file *)
Theorem C32_little_endian_fields : forall (content : bytes) i, lenN content < 2 ^ 32 -> macho_detail (Some content) = Ok i ->
  exists cpu sub ncmds size,
    number_at content 4 4 cpu /\ number_at content 8 4 sub /\
    number_at content 16 4 ncmds /\ number_at content 20 4 size /\
    named cputype_names cpu (m_CpuType i) /\
    subtype_named cpusubtype_names cpu sub (m_CpuSubType i) /\
    m_NumberLoadCommands i = ncmds /\ m_SizeLoadCommands i = size.
Proof. exact C32_lemma. Qed.
Print Assumptions C32_little_endian_fields.

Theorem C32_big_endian_refuted : exists content cpu ncmds name i,
  occurs_at [xfe; xed; xfa; xce] content 0 /\ be_number_at content 4 4 cpu /\
  be_number_at content 16 4 ncmds /\ In (cpu, name) cputype_names /\
  macho_detail (Some content) = Ok i /\ m_CpuType i = [] /\ m_NumberLoadCommands i <> ncmds.
Proof. exact C32_refuted_lemma. Qed.
Print Assumptions C32_big_endian_refuted.

Example C32_example : exists i, macho_detail (Some mach64) = Ok i /\ m_CpuType i = B "X86_64" /\
  m_CpuSubType i = B "X86_64_ALL" /\ m_NumberLoadCommands i = 16 /\ m_SizeLoadCommands i = 1048.
Proof. exact C32_ex. Qed.

(** ** C33: the Mach-O documents *)
Theorem C33_documents : forall (content : bytes), 28 <= lenN content -> lenN content < 2 ^ 32 ->
  exists r magic cpu sub ncmds size digits cname sname,
    macho_Detailer (Some content) = Ok [r] /\
    number_at content 0 4 magic /\ number_at content 4 4 cpu /\ number_at content 8 4 sub /\
    number_at content 16 4 ncmds /\ number_at content 20 4 size /\
    List.length digits = 8%nat /\ hex_num digits = Some magic /\
    named cputype_names cpu cname /\ subtype_named cpusubtype_names cpu sub sname /\
    json_value (eJson (r_out r))
      (JObj (macho_members (B "0x" ++ digits) cname sname (dec ncmds) (dec size))) /\
    xml_document (eXml (r_out r))
      (XElem (B "item")
         (macho_children (if magic mod 2 ^ 16 =? 0 then [] else dec (magic mod 2 ^ 16))
                         (B "0x" ++ digits) cname sname (dec ncmds) (dec size))).
Proof. exact C33_lemma. Qed.
Print Assumptions C33_documents.

Example C33_example : exists r, macho_Detailer (Some mach64) = Ok [r] /\
  eText (r_out r) = B "o" ++ [x09] ++ B "0xfeedfacf" /\
  lenN (eJson (r_out r)) = 151.
Proof. exact C33_ex. Qed.
