(** Codes of executables as the makers of the formats publish them, written down from
    memory of Microsoft's "PE Format" and of Apple's <mach/machine.h>, with no copy of them at hand.  The
    words beside the PE codes are the program's words for what the constants mean. *)
From Coq Require Import List NArith Bool Strings.String.
From Verif Require Import Lib.Bytes Magic.Spec.
Import ListNotations.
Local Open Scope N_scope.

(** ** PE Format, "Machine Types" *)
Definition machine_types : list (N * bytes) := [
  (0x0, B "Unknown");                                    (* UNKNOWN *)
  (0x14c, B "Intel 386");                                (* I386 *)
  (0x166, B "MIPS little endian");                       (* R4000 *)
  (0x169, B "MIPS little-endian WCE v2");                (* WCEMIPSV2 *)
  (0x1a2, B "Hitachi SH3");                              (* SH3 *)
  (0x1a3, B "Hitachi SH3 DSP");                          (* SH3DSP *)
  (0x1a6, B "Hitachi SH4");                              (* SH4 *)
  (0x1a8, B "Hitachi SH5");                              (* SH5 *)
  (0x1c0, B "ARM little endian");                        (* ARM *)
  (0x1c2, B "ARM or Thumb (interworking)");              (* THUMB *)
  (0x1c4, B "ARMv7 (or higher) Thumb mode only");        (* ARMNT *)
  (0x1d3, B "Matsushita AM33");                          (* AM33 *)
  (0x1f0, B "Power PC little endian");                   (* POWERPC *)
  (0x1f1, B "Power PC with floating point support");     (* POWERPCFP *)
  (0x200, B "Intel Itanium");                            (* IA64 *)
  (0x266, B "MIPS16");                                   (* MIPS16 *)
  (0x366, B "MIPS with FPU");                            (* MIPSFPU *)
  (0x466, B "MIPS16 with FPU");                          (* MIPSFPU16 *)
  (0xebc, B "EFI byte code");                            (* EBC *)
  (0x8664, B "x64");                                     (* AMD64 *)
  (0x9041, B "Mistubishi MR32R little endian");          (* M32R *)
  (0xaa64, B "ARMv8 in 64-bit mode")].                   (* ARM64 *)
(** the machine types published that the program has no word for: R3000BE, R3000, R10000,
    ALPHA, ALPHA64, RISCV32, RISCV64, RISCV128, LOONGARCH32, LOONGARCH64, ARM64EC, ARM64X *)
Definition other_machines : list N :=
  [0x160; 0x162; 0x168; 0x184; 0x284; 0x5032; 0x5064; 0x5128; 0x6232; 0x6264; 0xa641; 0xa64e].

(** ** PE Format, "Characteristics": bit 6 is reserved *)
Definition file_characteristics : list (N * bytes) := [
  (0, B "Relocs Stripped");
  (1, B "Executable Image");
  (2, B "LINE_NUMS_STRIPPED");
  (3, B "LOCAL_SYMS_STRIPPED");
  (4, B "AGGRESSIVE_WS_TRIM");
  (5, B "LARGE_ADDRESS_AWARE");
  (7, B "BYTES_REVERSED_LO");
  (8, B "32BIT_MACHINE");
  (9, B "DEBUG_STRIPPED");
  (10, B "REMOVABLE_RUN_FROM_SWAP");
  (11, B "NET_RUN_FROM_SWAP");
  (12, B "SYSTEM");
  (13, B "DLL");
  (14, B "UP_SYSTEM_ONLY");
  (15, B "BYTES_REVERSED_HI")].

(** ** PE Format, "Windows Subsystem" *)
Definition subsystems : list (N * bytes) := [
  (0, B "Unknown Subsystem");      (* UNKNOWN *)
  (1, B "Device Driver");          (* NATIVE *)
  (2, B "Windows GUI");            (* WINDOWS_GUI *)
  (3, B "Windows CUI");            (* WINDOWS_CUI *)
  (7, B "Posix CUI");              (* POSIX_CUI *)
  (9, B "Windows CE");             (* WINDOWS_CE_GUI *)
  (10, B "EFI Application");       (* EFI_APPLICATION *)
  (11, B "EFI Service Driver");    (* EFI_BOOT_SERVICE_DRIVER *)
  (12, B "EFI Runtime Driver");    (* EFI_RUNTIME_DRIVER *)
  (13, B "EFI ROM Image");         (* EFI_ROM *)
  (14, B "XBOX")].                 (* XBOX *)
(** WINDOWS_BOOT_APPLICATION *)
Definition boot_application : N := 16.

(** ** <mach/machine.h>: CPU types *)
Definition CPU_ARCH_ABI64 : N := 0x01000000.
Definition CPU_ARCH_ABI64_32 : N := 0x02000000.
Definition cpu_types : list (N * bytes) := [
  (1, B "VAX"); (2, B "ROMP"); (4, B "NS32032"); (5, B "NS32332"); (6, B "MC680x0"); (7, B "I386");
  (7 + CPU_ARCH_ABI64, B "X86_64"); (8, B "MIPS"); (9, B "NS32532"); (11, B "HPPA"); (12, B "ARM");
  (13, B "MC88000"); (14, B "SPARC"); (15, B "I860"); (18, B "POWERPC");
  (18 + CPU_ARCH_ABI64, B "POWERPC64")].
(** MC98000, ARM64 and ARM64_32 *)
Definition other_cpus : list N := [10; 12 + CPU_ARCH_ABI64; 12 + CPU_ARCH_ABI64_32].

(** ** <mach/machine.h>: CPU subtypes *)
(** CPU_SUBTYPE_INTEL(family, model) *)
Definition intel (family model : N) : N := family + 16 * model.
Definition intel_subtypes : list (N * bytes) := [
  (intel 3 0, B "I386_ALL"); (intel 4 0, B "INTEL_486"); (intel 4 8, B "INTEL_486SX");
  (intel 5 0, B "INTEL_586"); (intel 6 1, B "PENTPRO"); (intel 6 3, B "PENTII_M3");
  (intel 6 5, B "PENTII_M5"); (intel 7 6, B "CELERON"); (intel 7 7, B "CELERON_MOBILE");
  (intel 8 0, B "PENTIUM_3"); (intel 8 1, B "PENTIUM_3_M"); (intel 8 2, B "PENTIUM_3_XEON");
  (intel 9 0, B "PENTIUM_M"); (intel 10 0, B "PENTIUM_4"); (intel 10 1, B "PENTIUM_4_M");
  (intel 11 0, B "ITANIUM"); (intel 11 1, B "ITANIUM_2"); (intel 12 0, B "XEON");
  (intel 12 1, B "XEON_MP")].
(** the members of the families that carry a model, except for the 486SX *)
Definition models : list N :=
  [intel 6 1; intel 6 3; intel 6 5; intel 7 6; intel 7 7; intel 8 1; intel 8 2; intel 10 1;
   intel 11 1; intel 12 1].
Definition cpu_subtypes : list (N * list (N * bytes)) := [
  (1, [(0, B "VAX_ALL"); (1, B "VAX780"); (2, B "VAX785"); (3, B "VAX750"); (4, B "VAX730");
       (5, B "UVAXI"); (6, B "UVAXII"); (7, B "VAX8200"); (8, B "VAX8500"); (9, B "VAX8600");
       (10, B "VAX8650"); (11, B "VAX8800"); (12, B "UVAXIII")]);
  (6, [(1, B "MC680x0_ALL"); (2, B "MC68040"); (3, B "MC68030_ONLY")]);
  (7, intel_subtypes);
  (7 + CPU_ARCH_ABI64, [(3, B "X86_64_ALL"); (4, B "X86_ARCH1")]);
  (8, [(0, B "MIPS_ALL"); (1, B "MIPS_R2300"); (2, B "MIPS_R2600"); (3, B "MIPS_R2800");
       (4, B "MIPS_R2000a"); (5, B "MIPS_R2000"); (6, B "MIPS_R3000a"); (7, B "MIPS_R3000")]);
  (11, [(0, B "HPPA_7100"); (1, B "HPPA_7100LC")]);
  (12, [(5, B "ARM_V4T"); (6, B "ARM_V6"); (7, B "ARM_V5TEJ"); (8, B "ARM_XSCALE"); (9, B "ARM_V7");
        (10, B "ARM_V7F"); (12, B "ARM_V7K")]);
  (14, [(0, B "SPARC_ALL")]);
  (15, [(0, B "I860_ALL"); (1, B "I860_860")]);
  (18, [(0, B "POWERPC_ALL"); (1, B "POWERPC_601"); (2, B "POWERPC_602"); (3, B "POWERPC_603");
        (4, B "POWERPC_603e"); (5, B "POWERPC_603ev"); (6, B "POWERPC_604"); (7, B "POWERPC_604e");
        (8, B "POWERPC_620"); (9, B "POWERPC_750"); (10, B "POWERPC_7400"); (11, B "POWERPC_7450");
        (100, B "POWERPC_970")])].
(** CPU_SUBTYPE_MASK: the highest byte of a subtype holds capabilities, for example
    CPU_SUBTYPE_LIB64, which the linker sets in every 64-bit program for Intel machines *)
Definition CPU_SUBTYPE_LIB64 : N := 0x80000000.
Definition capabilities (subtype : N) : N := subtype / 2 ^ 24.

(** ** What a JSON document says: the only value of a key, or no value *)
Definition says (members : list (list N * jval)) (key value : bytes) : Prop :=
  In (jfield key value) members /\ forall v, In (map b2n key, v) members -> v = JStr (map b2n value).
Definition silent (members : list (list N * jval)) (key : bytes) : Prop :=
  forall v, ~ In (map b2n key, v) members.
