(** Lemmas in the exact shape of the property statements C27-C33, and the concrete cases. *)
From Coq Require Import List NArith ZArith Bool Lia Strings.String.
From Coq Require Import ZifyBool ZifyNat ZifyN.
From Verif Require Import Lib.Res Lib.Bytes Lib.BytesFacts Lib.Text Lib.NumSpec Lib.NumFacts
     Common.Model Common.Spec Common.Fields Common.ReadProofs Common.FieldProofs Common.EscapeProofs
     Magic.Model Magic.Spec Magic.DocProofs Exe.Tables Exe.Model Exe.Spec Exe.Proofs.
Import ListNotations.
Local Open Scope N_scope.
Ltac Zify.zify_post_hook ::= Z.div_mod_to_equations.

(** ** Concrete files *)
Definition zeros (n : N) : bytes := repeatN x00 n.
Definition dos_stub (pe : N) : bytes := B "MZ" ++ zeros 58 ++ to_le 4 pe.
Definition coff_header (sig : bytes) (machine ch : N) : bytes :=
  sig ++ to_le 2 machine ++ zeros 16 ++ to_le 2 ch.
Definition small_dll : bytes := dos_stub 64 ++ coff_header pe_sig 332 8450 ++ [x00].
Definition cut_dll : bytes := dos_stub 64 ++ coff_header pe_sig 332 8450.
Definition not_pe : bytes := dos_stub 64 ++ coff_header (B "code") 332 8450 ++ [x00].
(** a 64-bit GUI program: subsystem 2, DllCharacteristics 0x8160 *)
Definition gui : bytes :=
  dos_stub 64 ++ coff_header pe_sig 34404 34 ++
  to_le 2 523 ++ [x0e; x1d] ++ zeros 64 ++ to_le 2 2 ++ to_le 2 33120 ++ zeros 120.

Lemma number_at_slice buf off n v :
  match slice buf off n with Ok w => le w | _ => v + 1 end = v -> number_at buf off n v.
Proof.
  destruct (slice buf off n) as [w| | |] eqn:E; intros H; try lia.
  exists w. split; [apply slice_window; exact E|exact H].
Qed.
Lemma be_number_at_slice buf off n v :
  match slice buf off n with Ok w => be w | _ => v + 1 end = v -> be_number_at buf off n v.
Proof.
  destruct (slice buf off n) as [w| | |] eqn:E; intros H; try lia.
  exists w. split; [apply slice_window; exact E|exact H].
Qed.

(** ** C27 *)
Lemma C27_kind_lemma p (content : bytes) pe ch : supported p -> lenN content < 2 ^ 32 ->
  number_at content 60 4 pe -> number_at content (pe + 22) 2 ch ->
  pe + 24 < lenN content -> pe + 104 < 2 ^ 32 ->
  exec_Detailer p (Some content) =
    Ok [plain_result (mkExt (fst (pe_kind ch)) [] [] 0 (snd (pe_kind ch)))].
Proof.
  intros Hp Hc H1 H2 H3 H4. apply (exec_kind p content pe ch); try assumption.
  destruct (opt_size p Hp) as [E|E]; rewrite E; lia.
Qed.

Lemma C27_refuted : exists content pe ch, lenN content < 2 ^ 32 /\
  number_at content 60 4 pe /\ window content pe 4 pe_sig /\ number_at content (pe + 22) 2 ch /\
  fst (pe_kind ch) = B "dll" /\
  exec_Detailer linux64 (Some content) = Ok [plain_result (mkExt (B "exe") [] [] 0 (B "Executable"))].
Proof.
  exists cut_dll, 64, 8450. split; [vm_compute; reflexivity|].
  split; [apply number_at_slice; vm_compute; reflexivity|].
  split; [apply slice_window; vm_compute; reflexivity|].
  split; [apply number_at_slice; vm_compute; reflexivity|].
  split; vm_compute; reflexivity.
Qed.

Lemma C27_ex : number_at small_dll 60 4 64 /\ number_at small_dll (64 + 22) 2 8450 /\
  64 + 24 < lenN small_dll /\
  exec_Detailer linux64 (Some small_dll) =
    Ok [plain_result (mkExt (B "dll") [] [] 0 (B "Dynamic Link Library"))].
Proof.
  split; [apply number_at_slice; vm_compute; reflexivity|].
  split; [apply number_at_slice; vm_compute; reflexivity|].
  split; vm_compute; reflexivity.
Qed.

(** ** C28 *)
Lemma C28_refuted_lemma : exists content pe, lenN content < 2 ^ 32 /\
  number_at content 60 4 pe /\ ~ window content pe 4 pe_sig /\
  exec_Detailer linux64 (Some content) =
    Ok [plain_result (mkExt (B "dll") [] [] 0 (B "Dynamic Link Library"))].
Proof.
  exists not_pe, 64. split; [vm_compute; reflexivity|].
  split; [apply number_at_slice; vm_compute; reflexivity|].
  split; [|vm_compute; reflexivity].
  intros H. apply slice_window in H. vm_compute in H. discriminate H.
Qed.

Lemma C28_ignored p (a s s' b : bytes) : supported p ->
  lenN (a ++ s ++ b) < 2 ^ 32 -> lenN s = 4 -> lenN s' = 4 -> number_at a 60 4 (lenN a) ->
  exec_Detailer p (Some (a ++ s ++ b)) = exec_Detailer p (Some (a ++ s' ++ b)).
Proof.
  intros Hp Hc Hs Hs' Hn. unfold exec_Detailer.
  rewrite (exec_signature_ignored p a s s' b (lenN a) Hp Hc eq_refl Hs Hs' Hn). reflexivity.
Qed.

Lemma C28_ex : exec_Detailer linux64 (Some small_dll) = exec_Detailer linux64 (Some not_pe) /\
  small_dll <> not_pe.
Proof. split; [vm_compute; reflexivity|]. intros H. vm_compute in H. discriminate H. Qed.

(** ** C29 *)
Lemma C29_iff p (content : bytes) : supported p ->
  (safe (exec_Detailer p (Some content)) <-> 64 <= lenN content mod 2 ^ 32).
Proof.
  intros Hp. unfold exec_Detailer. split; intros H.
  - destruct (N.ltb_spec (lenN content mod 2 ^ 32) 64) as [L|L]; [|exact L].
    rewrite exec_short in H by exact L. cbn in H. destruct H.
  - destruct (exec_detail_ok p content Hp H) as (i & E). rewrite E. exact I.
Qed.
Lemma C29_answers p (content : bytes) : supported p -> 64 <= lenN content mod 2 ^ 32 ->
  exists r, exec_Detailer p (Some content) = Ok [r].
Proof.
  intros Hp H. destruct (exec_detail_ok p content Hp H) as (i & E).
  unfold exec_Detailer. rewrite E. eexists. reflexivity.
Qed.
Lemma C29_refuted_lemma : exists content, 2 <= lenN content < 64 /\ occurs_at (B "MZ") content 0 /\
  exec_Detailer linux64 (Some content) = UB.
Proof.
  exists (B "MZ is the start of a text file too"). split; [vm_compute; split; congruence|].
  split; [exists [], (B " is the start of a text file too"); split; reflexivity|vm_compute; reflexivity].
Qed.

(** ** C30 *)
Lemma exec_read p (content : bytes) pe : supported p -> lenN content < 2 ^ 32 -> number_at content 60 4 pe ->
  pe + 24 < lenN content -> pe + 104 < 2 ^ 32 ->
  exists coff i, slice content pe 24 = Ok coff /\ exec_detail p (Some content) = Ok i /\
    (i = with_coff coff exec_new \/ exists opt, i = with_opt opt (with_coff coff exec_new)).
Proof.
  intros Hp Hc Hn Hl Hw. pose proof (opt_size p Hp) as Ho.
  rewrite (exec_cases p content pe Hp Hc Hn).
  destruct (N.ltb_spec (pe + 24) (lenN content)); [|lia].
  destruct (N.ltb_spec (pe + 24 + OPT_SIZE p) (2 ^ 32)); [|lia]. cbn [andb].
  rewrite (slice_ok content pe 24) by lia. cbn [bind]. eexists. 
  destruct (N.ltb_spec (pe + 24 + OPT_SIZE p) (N.min 2048 (lenN content))).
  - rewrite (slice_ok content (pe + 24)) by lia. cbn [bind]. eexists.
    split; [reflexivity|]. split; [reflexivity|]. right. eexists. reflexivity.
  - eexists. split; [reflexivity|]. split; [reflexivity|]. left. reflexivity.
Qed.

Lemma C30_coff p (content : bytes) pe machine ch : supported p -> lenN content < 2 ^ 32 ->
  number_at content 60 4 pe -> number_at content (pe + 4) 2 machine -> number_at content (pe + 22) 2 ch ->
  pe + 24 < lenN content -> pe + 104 < 2 ^ 32 ->
  exists i, exec_detail p (Some content) = Ok i /\
    named machine_names machine (x_MachineType i) /\
    flag_names CharacteristicsMap ch (x_Characteristics i).
Proof.
  intros Hp Hc Hn Hm Hch Hl Hw.
  destruct (exec_read p content pe Hp Hc Hn Hl Hw) as (coff & i & Ec & Ei & Hi).
  exists i. split; [exact Ei|].
  assert (F1 : field coff 4 2 = machine) by (apply (field_at _ _ _ _ 4 2 machine Ec); [lia|exact Hm]).
  assert (F2 : field coff 22 2 = ch) by (apply (field_at _ _ _ _ 22 2 ch Ec); [lia|exact Hch]).
  assert (K : x_MachineType i = GetMachineTypeString machine /\
              x_Characteristics i = BuildVectorFromMap CharacteristicsMap ch).
  { destruct Hi as [->|[opt ->]]; unfold with_opt, with_coff; cbn [x_MachineType x_Characteristics];
      rewrite F1, F2; auto. }
  destruct K as [-> ->]. split.
  - apply lookup_named.
  - apply flags_spec. vm_compute. reflexivity.
Qed.

Lemma C30_optional_lemma p (content : bytes) pe : supported p -> lenN content < 2 ^ 32 ->
  number_at content 60 4 pe -> pe + 104 < lenN content -> pe + 104 < 2048 ->
  exists i, exec_detail p (Some content) = Ok i /\
  forall sub win dllch lj ln oj on_ ij in_ sj sn,
    number_at content (pe + 92) 4 sub -> number_at content (pe + 76) 4 win ->
    number_at content (pe + 96) 4 dllch ->
    number_at content (pe + 26) 1 lj -> number_at content (pe + 27) 1 ln ->
    number_at content (pe + 64) 2 oj -> number_at content (pe + 66) 2 on_ ->
    number_at content (pe + 68) 2 ij -> number_at content (pe + 70) 2 in_ ->
    number_at content (pe + 72) 2 sj -> number_at content (pe + 74) 2 sn ->
    named subsystem_names sub (x_Subsystem i) /\ x_Win32Version i = win /\
    flag_names DllCharacteristicsMap dllch (x_DllCharacteristics i) /\
    x_LinkerVersion i = dec lj ++ B "." ++ dec ln /\ x_OsVersion i = dec oj ++ B "." ++ dec on_ /\
    x_ImageVersion i = dec ij ++ B "." ++ dec in_ /\ x_SubsystemVersion i = dec sj ++ B "." ++ dec sn.
Proof.
  intros Hp Hc Hn Hl Hw. pose proof (opt_size p Hp) as Ho.
  rewrite (exec_cases p content pe Hp Hc Hn).
  destruct (N.ltb_spec (pe + 24) (lenN content)); [|lia].
  destruct (N.ltb_spec (pe + 24 + OPT_SIZE p) (2 ^ 32)); [|lia]. cbn [andb].
  rewrite (slice_ok content pe 24) by lia. cbn [bind].
  destruct (N.ltb_spec (pe + 24 + OPT_SIZE p) (N.min 2048 (lenN content))); [|lia].
  destruct (slice content (pe + 24) (OPT_SIZE p)) as [opt| | |] eqn:Eo.
  2-4: rewrite slice_ok in Eo by lia; discriminate.
  cbn [bind]. eexists. split; [reflexivity|].
  intros sub win dllch lj ln oj on_ ij in_ sj sn K1 K2 K3 K4 K5 K6 K7 K8 K9 K10 K11.
  assert (F : forall off n v, off + n <= 76 -> number_at content (pe + (24 + off)) n v -> field opt off n = v).
  { intros off n v Hb Hv. apply (field_at _ _ _ _ off n v Eo); [lia|].
    replace (pe + 24 + off) with (pe + (24 + off)) by lia. exact Hv. }
  unfold with_opt. cbn [x_Subsystem x_Win32Version x_DllCharacteristics x_LinkerVersion x_OsVersion
                        x_ImageVersion x_SubsystemVersion].
  rewrite (F 68 4 sub), (F 2 1 lj), (F 3 1 ln), (F 40 2 oj), (F 42 2 on_), (F 44 2 ij), (F 46 2 in_),
          (F 48 2 sj), (F 50 2 sn), (F 52 4 win), (F 72 4 dllch) by (assumption || lia).
  split; [apply lookup_named|]. split; [reflexivity|].
  split; [apply flags_spec; vm_compute; reflexivity|]. unfold BuildVersionString. auto.
Qed.

Lemma C30_refuted_lemma : exists content pe, lenN content < 2 ^ 32 /\
  number_at content 60 4 pe /\ window content pe 4 pe_sig /\ number_at content (pe + 92) 2 2 /\
  pe + 104 < lenN content /\ In (2, B "Windows GUI") subsystem_names /\
  exists i, exec_detail linux64 (Some content) = Ok i /\ x_Subsystem i = [] /\ x_DllCharacteristics i = [].
Proof.
  exists gui, 64. split; [vm_compute; reflexivity|].
  split; [apply number_at_slice; vm_compute; reflexivity|].
  split; [apply slice_window; vm_compute; reflexivity|].
  split; [apply number_at_slice; vm_compute; reflexivity|].
  split; [vm_compute; reflexivity|]. split; [vm_compute; auto|].
  eexists. split; [vm_compute; reflexivity|]. split; reflexivity.
Qed.

Lemma exec_base_cases p file i : exec_detail p file = Ok i ->
  exists k, x_base i = mkExt (fst (pe_kind k)) [] [] 0 (snd (pe_kind k)).
Proof.
  unfold exec_detail.
  destruct (slice (readFile file 2048) 0 DOS_SIZE) as [dos| | |]; try discriminate. cbn [bind].
  match goal with |- (if ?c then _ else _) = _ -> _ => destruct c end.
  - match goal with |- context [slice ?b ?o COFF_SIZE] => destruct (slice b o COFF_SIZE) as [coff| | |] end;
      try discriminate. cbn [bind].
    match goal with |- (if ?c then _ else _) = _ -> _ => destruct c end.
    + match goal with |- context [slice ?b ?o (OPT_SIZE p)] => destruct (slice b o (OPT_SIZE p)) as [opt| | |] end;
        try discriminate. cbn [bind]. intros H. inversion H; subst i. exists (field coff 22 2).
      unfold with_opt. cbn [x_base]. apply coff_kind. reflexivity.
    + intros H. inversion H; subst i. exists (field coff 22 2). apply coff_kind. reflexivity.
  - intros H. inversion H; subst i. exists 0. reflexivity.
Qed.

Lemma C30_shown p file rs : exec_Detailer p file = Ok rs ->
  exists k, rs = [plain_result (mkExt (fst (pe_kind k)) [] [] 0 (snd (pe_kind k)))].
Proof.
  unfold exec_Detailer. destruct (exec_detail p file) as [i| | |] eqn:E; try discriminate.
  cbn [bind]. intros H. inversion H. destruct (exec_base_cases p file i E) as (k & K).
  exists k. unfold exec_result. rewrite K. reflexivity.
Qed.

Lemma C30_ex : exists i, exec_detail linux64 (Some gui) = Ok i /\ x_MachineType i = B "x64" /\
  x_Characteristics i = [B "Executable Image"; B "LARGE_ADDRESS_AWARE"] /\
  x_LinkerVersion i = B "14.29".
Proof. eexists. split; [vm_compute; reflexivity|]. repeat split; vm_compute; reflexivity. Qed.

(** ** C31 *)
Lemma C31_iff (content : bytes) :
  (safe (macho_Detailer (Some content)) <-> 28 <= lenN content mod 2 ^ 32).
Proof.
  unfold macho_Detailer. split; intros H.
  - destruct (N.ltb_spec (lenN content mod 2 ^ 32) 28) as [L|L]; [|exact L].
    rewrite macho_short in H by exact L. cbn in H. destruct H.
  - destruct (macho_ok content H) as (i & E). rewrite E. exact I.
Qed.
Lemma C31_refuted_lemma : exists content, lenN content = 27 /\
  occurs_at [xce; xfa; xed; xfe] content 0 /\ macho_Detailer (Some content) = UB.
Proof.
  exists ([xce; xfa; xed; xfe] ++ zeros 23). split; [reflexivity|].
  split; [exists [], (zeros 23); split; reflexivity|vm_compute; reflexivity].
Qed.

(** ** C32 *)
Definition mach64 : bytes :=
  [xcf; xfa; xed; xfe; x07; x00; x00; x01; x03; x00; x00; x00; x02; x00; x00; x00;
   x10; x00; x00; x00; x18; x04; x00; x00; x85; x00; x20; x00; x00; x00; x00; x00].
Definition mach_ppc : bytes :=
  [xfe; xed; xfa; xce; x00; x00; x00; x12; x00; x00; x00; x00; x00; x00; x00; x02;
   x00; x00; x00; x0b; x00; x00; x07; xdc; x00; x00; x00; x85].

Lemma C32_lemma (content : bytes) i : lenN content < 2 ^ 32 -> macho_detail (Some content) = Ok i ->
  exists cpu sub ncmds size,
    number_at content 4 4 cpu /\ number_at content 8 4 sub /\
    number_at content 16 4 ncmds /\ number_at content 20 4 size /\
    named cputype_names cpu (m_CpuType i) /\
    subtype_named cpusubtype_names cpu sub (m_CpuSubType i) /\
    m_NumberLoadCommands i = ncmds /\ m_SizeLoadCommands i = size.
Proof.
  intros Hc H. destruct (macho_fields content i Hc H) as (magic & cpu & sub & n & s & H1 & H2 & H3 & H4 & H5 & ->).
  exists cpu, sub, n, s. cbn [m_CpuType m_CpuSubType m_NumberLoadCommands m_SizeLoadCommands].
  split; [exact H2|]. split; [exact H3|]. split; [exact H4|]. split; [exact H5|].
  split; [apply lookup_named|]. split; [|auto].
  apply subtype_spec. pose proof (number_at_bound _ _ _ _ H3) as Hb. exact Hb.
Qed.

Lemma C32_refuted_lemma : exists content cpu ncmds name i,
  occurs_at [xfe; xed; xfa; xce] content 0 /\ be_number_at content 4 4 cpu /\
  be_number_at content 16 4 ncmds /\ In (cpu, name) cputype_names /\
  macho_detail (Some content) = Ok i /\ m_CpuType i = [] /\ m_NumberLoadCommands i <> ncmds.
Proof.
  exists mach_ppc, 18, 11, (B "POWERPC"). eexists.
  split. { exists [], (dropN 4 mach_ppc). split; reflexivity. }
  split; [apply be_number_at_slice; vm_compute; reflexivity|].
  split; [apply be_number_at_slice; vm_compute; reflexivity|].
  split; [vm_compute; tauto|]. split; [vm_compute; reflexivity|]. split; [reflexivity|discriminate].
Qed.

Lemma C32_ex : exists i, macho_detail (Some mach64) = Ok i /\ m_CpuType i = B "X86_64" /\
  m_CpuSubType i = B "X86_64_ALL" /\ m_NumberLoadCommands i = 16 /\ m_SizeLoadCommands i = 1048.
Proof. eexists. split; [vm_compute; reflexivity|]. repeat split; vm_compute; reflexivity. Qed.

(** ** C33 *)
Lemma C33_lemma (content : bytes) : 28 <= lenN content -> lenN content < 2 ^ 32 ->
  exists r magic cpu sub ncmds size digits cname sname,
    macho_Detailer (Some content) = Ok [r] /\
    number_at content 0 4 magic /\ number_at content 4 4 cpu /\ number_at content 8 4 sub /\
    number_at content 16 4 ncmds /\ number_at content 20 4 size /\
    List.length digits = 8%nat /\ hex_num digits = Some magic /\
    named cputype_names cpu cname /\ subtype_named cpusubtype_names cpu sub sname /\
    json_value (eJson (r_out r))
      (JObj (macho_members (B "0x" ++ digits) cname sname (dec ncmds) (dec size))) /\
    xml_document (eXml (r_out r))
      (XElem (B "item")
         (macho_children (if magic mod 2 ^ 16 =? 0 then [] else dec (magic mod 2 ^ 16))
                         (B "0x" ++ digits) cname sname (dec ncmds) (dec size))).
Proof.
  intros H1 H2. destruct (macho_ok content) as (i & E); [lia|].
  destruct (macho_fields content i H2 E) as (magic & cpu & sub & n & s & K1 & K2 & K3 & K4 & K5 & ->).
  eexists. exists magic, cpu, sub, n, s, (pad0 8 (hex magic)), (cpuType2String cpu), (cpuSubType2String cpu sub).
  unfold macho_Detailer. rewrite E. cbn [bind].
  split; [reflexivity|]. repeat (split; [assumption|]).
  split; [apply length_pad0_hex; [|lia]; exact (number_at_bound _ _ _ _ K1)|].
  split; [apply hex_num_pad0|].
  split; [apply lookup_named|]. split; [apply subtype_spec; exact (number_at_bound _ _ _ _ K3)|].
  split; [exact (macho_json magic cpu sub n s)|exact (macho_xml magic cpu sub n s)].
Qed.

Lemma C33_ex : exists r, macho_Detailer (Some mach64) = Ok [r] /\
  eText (r_out r) = B "o" ++ [x09] ++ B "0xfeedfacf" /\
  lenN (eJson (r_out r)) = 151.
Proof. eexists. split; [vm_compute; reflexivity|]. split; vm_compute; reflexivity. Qed.

Lemma C27_no_header p (content : bytes) pe : supported p -> lenN content < 2 ^ 32 ->
  number_at content 60 4 pe -> lenN content <= pe + 24 ->
  exec_Detailer p (Some content) = Ok [plain_result (mkExt (B "exe") [] [] 0 (B "Executable"))].
Proof. exact (exec_no_header p content pe). Qed.
Lemma C29_ex : 64 <= lenN small_dll mod 2 ^ 32 /\ safe (exec_Detailer windows (Some small_dll)).
Proof. split; [vm_compute; discriminate|vm_compute; exact I]. Qed.
Lemma C31_ex : 28 <= lenN mach64 mod 2 ^ 32 /\ safe (macho_Detailer (Some mach64)).
Proof. split; [vm_compute; discriminate|vm_compute; exact I]. Qed.
