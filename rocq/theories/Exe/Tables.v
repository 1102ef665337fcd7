(** The string tables of /repo/fileid/exe/Exec.hpp and /repo/fileid/exe/macho.hpp, transcribed
    row by row (switch statements and map literals, in source order). *)
From Coq Require Import List NArith Strings.String.
From Verif Require Import Lib.Bytes.
Import ListNotations.
Local Open Scope N_scope.

(** Exec.hpp:114-131 (a std::map: iterated by ascending key) *)
Definition CharacteristicsMap : list (N * bytes) := [
  (1, B "Relocs Stripped");
  (2, B "Executable Image");
  (4, B "LINE_NUMS_STRIPPED");
  (8, B "LOCAL_SYMS_STRIPPED");
  (16, B "AGGRESSIVE_WS_TRIM");
  (32, B "LARGE_ADDRESS_AWARE");
  (64, B "REMOVABLE_RUN_FROM_SWAP");
  (128, B "BYTES_REVERSED_LO");
  (256, B "32BIT_MACHINE");
  (512, B "DEBUG_STRIPPED");
  (1024, B "REMOVABLE_RUN_FROM_SWAP");
  (2048, B "NET_RUN_FROM_SWAP");
  (4096, B "SYSTEM");
  (8192, B "DLL");
  (16384, B "UP_SYSTEM_ONLY");
  (32768, B "BYTES_REVERSED_HI")].

(** Exec.hpp:132-141 *)
Definition DllCharacteristicsMap : list (N * bytes) := [
  (64, B "DYNAMIC_BASE");
  (128, B "FORCE_INTEGRITY");
  (256, B "NX_COMPAT");
  (512, B "NO_ISOLATION");
  (1024, B "NO_SEH");
  (2048, B "NO_BIND");
  (8192, B "WDM_DRIVER");
  (32768, B "TERMINAL_SERVER_AWARE")].

(** Exec.hpp:174-190: GetSubsystemString *)
Definition subsystem_names : list (N * bytes) := [
  (0, B "Unknown Subsystem");
  (1, B "Device Driver");
  (2, B "Windows GUI");
  (3, B "Windows CUI");
  (7, B "Posix CUI");
  (9, B "Windows CE");
  (16, B "EFI Application");
  (17, B "EFI Service Driver");
  (18, B "EFI Runtime Driver");
  (19, B "EFI ROM Image");
  (20, B "XBOX")].

(** Exec.hpp:192-219: GetMachineTypeString *)
Definition machine_names : list (N * bytes) := [
  (0, B "Unknown");
  (467, B "Matsushita AM33");
  (34404, B "x64");
  (448, B "ARM little endian");
  (452, B "ARMv7 (or higher) Thumb mode only");
  (43620, B "ARMv8 in 64-bit mode");
  (3772, B "EFI byte code");
  (332, B "Intel 386");
  (512, B "Intel Itanium");
  (36929, B "Mistubishi MR32R little endian");
  (614, B "MIPS16");
  (870, B "MIPS with FPU");
  (1126, B "MIPS16 with FPU");
  (496, B "Power PC little endian");
  (497, B "Power PC with floating point support");
  (358, B "MIPS little endian");
  (418, B "Hitachi SH3");
  (419, B "Hitachi SH3 DSP");
  (422, B "Hitachi SH4");
  (424, B "Hitachi SH5");
  (450, B "ARM or Thumb (interworking)");
  (361, B "MIPS little-endian WCE v2")].

(** macho.hpp:76-103: cpuType2String *)
Definition cputype_names : list (N * bytes) := [
  (1, B "VAX");
  (2, B "ROMP");
  (4, B "NS32032");
  (5, B "NS32332");
  (6, B "MC680x0");
  (7, B "I386");
  (8, B "MIPS");
  (9, B "NS32532");
  (11, B "HPPA");
  (12, B "ARM");
  (13, B "MC88000");
  (14, B "SPARC");
  (15, B "I860");
  (16, B "I860_LITTLE");
  (17, B "RS6000");
  (18, B "POWERPC");
  (16777216, B "ARCH_ABI64");
  (16777223, B "X86_64");
  (16777234, B "POWERPC64");
  (255, B "VEO");
  (4294967295, B "ANY")].

(** macho.hpp:104-274: the nested switch of cpuSubType2String, by CPU type *)
Definition cpusubtype_names : list (N * list (N * bytes)) := [
  (1, [(0, B "VAX_ALL");
     (1, B "VAX780");
     (2, B "VAX785");
     (3, B "VAX750");
     (4, B "VAX730");
     (5, B "UVAXI");
     (6, B "UVAXII");
     (7, B "VAX8200");
     (8, B "VAX8500");
     (9, B "VAX8600");
     (10, B "VAX8650");
     (11, B "VAX8800");
     (12, B "UVAXIII")]);
  (2, [(0, B "RT_ALL");
     (1, B "RT_PC");
     (2, B "RT_APC");
     (3, B "RT_135")]);
  (4, [(0, B "MMAX_ALL");
     (1, B "MMAX_DPC (032 CPU)");
     (2, B "SQT");
     (3, B "MMAX_APC_FPU (32081 FPU)");
     (4, B "MMAX_APC_FPA (Weitek FPA)");
     (5, B "MMAX_XPC (532 CPU)")]);
  (5, [(0, B "MMAX_ALL");
     (1, B "MMAX_DPC (032 CPU)");
     (2, B "SQT");
     (3, B "MMAX_APC_FPU (32081 FPU)");
     (4, B "MMAX_APC_FPA (Weitek FPA)");
     (5, B "MMAX_XPC (532 CPU)")]);
  (9, [(0, B "MMAX_ALL");
     (1, B "MMAX_DPC (032 CPU)");
     (2, B "SQT");
     (3, B "MMAX_APC_FPU (32081 FPU)");
     (4, B "MMAX_APC_FPA (Weitek FPA)");
     (5, B "MMAX_XPC (532 CPU)")]);
  (6, [(1, B "MC680x0_ALL");
     (2, B "MC68040");
     (3, B "MC68030_ONLY")]);
  (7, [(0, B "INTEL_ALL");
     (3, B "I386_ALL");
     (4, B "INTEL_486");
     (5, B "INTEL_586");
     (8, B "PENTIUM_3");
     (9, B "PENTIUM_M");
     (10, B "PENTIUM_4");
     (11, B "ITANIUM");
     (12, B "XEON");
     (34, B "XEON_MP");
     (42, B "PENTIUM_4_M");
     (43, B "ITANIUM_2");
     (38, B "PENTPRO");
     (40, B "PENTIUM_3_M");
     (52, B "PENTIUM_3_XEON");
     (102, B "PENTII_M3");
     (132, B "INTEL_486SX");
     (166, B "PENTII_M5");
     (199, B "CELERON");
     (231, B "CELERON_MOBILE")]);
  (8, [(0, B "MIPS_ALL");
     (1, B "MIPS_R2300");
     (2, B "MIPS_R2600");
     (3, B "MIPS_R2800");
     (4, B "MIPS_R2000a");
     (5, B "MIPS_R2000");
     (6, B "MIPS_R3000a");
     (7, B "MIPS_R3000")]);
  (11, [(0, B "HPPA_7100");
     (1, B "HPPA_7100LC")]);
  (12, [(0, B "ARM_ALL12");
     (5, B "ARM_V4T");
     (6, B "ARM_V6");
     (7, B "ARM_V5TEJ");
     (8, B "ARM_XSCALE");
     (9, B "ARM_V7");
     (10, B "ARM_V7F");
     (12, B "ARM_V7K")]);
  (13, []);
  (14, [(0, B "SPARC_ALL")]);
  (15, [(0, B "I860_ALL");
     (1, B "I860_860")]);
  (16, []);
  (17, []);
  (18, [(0, B "POWERPC_ALL");
     (1, B "POWERPC_601");
     (2, B "POWERPC_602");
     (3, B "POWERPC_603");
     (4, B "POWERPC_603e");
     (5, B "POWERPC_603ev");
     (6, B "POWERPC_604");
     (7, B "POWERPC_604e");
     (8, B "POWERPC_620");
     (9, B "POWERPC_750");
     (10, B "POWERPC_7400");
     (11, B "POWERPC_7450");
     (100, B "POWERPC_970")]);
  (16777216, []);
  (16777223, [(3, B "X86_64_ALL");
     (4, B "X86_ARCH1")]);
  (16777234, []);
  (255, []);
  (4294967295, [])].
