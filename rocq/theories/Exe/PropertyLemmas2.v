(** Lemmas in the exact shape of the property statement C126, and the concrete cases. *)
From Coq Require Import List NArith ZArith Bool Lia Strings.String.
From Coq Require Import ZifyBool ZifyNat ZifyN.
From Verif Require Import Lib.Res Lib.Bytes Lib.BytesFacts Lib.Text Lib.NumSpec Lib.NumFacts
     Common.Model Common.Spec Common.Fields Common.ReadProofs Common.FieldProofs Common.EscapeProofs
     Magic.Model Magic.Spec Magic.DocProofs Exe.Tables Exe.Model Exe.Spec Exe.Proofs
     Exe.PropertyLemmas Exe.Published.
Import ListNotations.
Local Open Scope N_scope.
Ltac Zify.zify_post_hook ::= Z.div_mod_to_equations.

(** a name listed in a table with distinct keys is the one recorded *)
Lemma named_in rows k name n : distinct_keys rows = true -> named rows k name -> In (k, n) rows -> name = n.
Proof.
  intros D N I. pose proof (lookup_complete rows k n D I) as E.
  destruct N as [J|[_ J]]; [|exfalso; exact (J n I)].
  pose proof (lookup_complete rows k name D J) as E'. congruence.
Qed.
Lemma named_out rows k name : existsb (fun r => fst r =? k) rows = false -> named rows k name -> name = [].
Proof.
  intros E [J|[J _]]; [|exact J]. exfalso.
  assert (K : existsb (fun r => fst r =? k) rows = true); [|congruence].
  apply existsb_exists. exists (k, name). split; [exact J|apply N.eqb_refl].
Qed.
Definition has_row (rows : list (N * bytes)) (e : N * bytes) : bool :=
  existsb (fun r => (fst r =? fst e) && bytes_eqb (snd r) (snd e)) rows.
Lemma has_row_in rows e : has_row rows e = true -> In e rows.
Proof.
  unfold has_row. intros H. apply existsb_exists in H. destruct H as ([k n] & I & H).
  apply andb_true_iff in H. destruct H as [H1 H2]. apply N.eqb_eq in H1. apply bytes_eqb_eq in H2.
  destruct e. cbn in *. subst. exact I.
Qed.
Lemma forallb_rows rows l : forallb (has_row rows) l = true -> forall e, In e l -> In e rows.
Proof. intros H e I. rewrite forallb_forall in H. apply has_row_in, H, I. Qed.

(** ** The machine *)
Lemma C126_machine p (content : bytes) pe machine ch : supported p -> lenN content < 2 ^ 32 ->
  number_at content 60 4 pe -> number_at content (pe + 4) 2 machine -> number_at content (pe + 22) 2 ch ->
  pe + 24 < lenN content -> pe + 104 < 2 ^ 32 ->
  exists i, exec_detail p (Some content) = Ok i /\
    (forall word, In (machine, word) machine_types -> x_MachineType i = word) /\
    ((forall word, ~ In (machine, word) machine_types) -> x_MachineType i = []).
Proof.
  intros Hp Hc Hn Hm Hch Hl Hw.
  destruct (C30_coff p content pe machine ch Hp Hc Hn Hm Hch Hl Hw) as (i & E & M & _).
  exists i. split; [exact E|]. split.
  - intros w I. apply (named_in machine_names machine); [vm_compute; reflexivity|exact M|].
    apply (forallb_rows machine_names machine_types); [vm_compute; reflexivity|exact I].
  - intros H. destruct M as [J|[J _]]; [|exact J]. exfalso. apply (H (x_MachineType i)).
    apply (forallb_rows machine_types machine_names); [vm_compute; reflexivity|exact J].
Qed.
Lemma C126_other_machine p (content : bytes) pe machine ch : supported p -> lenN content < 2 ^ 32 ->
  number_at content 60 4 pe -> number_at content (pe + 4) 2 machine -> number_at content (pe + 22) 2 ch ->
  pe + 24 < lenN content -> pe + 104 < 2 ^ 32 -> In machine other_machines ->
  exists i, exec_detail p (Some content) = Ok i /\ x_MachineType i = [].
Proof.
  intros Hp Hc Hn Hm Hch Hl Hw I.
  destruct (C30_coff p content pe machine ch Hp Hc Hn Hm Hch Hl Hw) as (i & E & M & _).
  exists i. split; [exact E|]. refine (named_out machine_names machine _ _ M).
  assert (H : forallb (fun k => negb (existsb (fun r => fst r =? k) machine_names)) other_machines = true)
    by (vm_compute; reflexivity).
  rewrite forallb_forall in H. apply H in I. apply negb_true_iff in I. exact I.
Qed.

(** ** The characteristics *)
Lemma picked_in {A} (P : A -> Prop) l m : picked P l m -> forall x, In x m <-> In x l /\ P x.
Proof.
  induction 1 as [|y l m Py _ IH|y l m Py _ IH]; intros x; cbn.
  - tauto.
  - rewrite IH. split; [intros [<-|[]]; auto|]. tauto.
  - rewrite IH. split; [intros []; auto|]. intros [[<-|] ]; tauto.
Qed.
Lemma C126_flags p (content : bytes) pe machine ch : supported p -> lenN content < 2 ^ 32 ->
  number_at content 60 4 pe -> number_at content (pe + 4) 2 machine -> number_at content (pe + 22) 2 ch ->
  pe + 24 < lenN content -> pe + 104 < 2 ^ 32 ->
  exists i, exec_detail p (Some content) = Ok i /\
    (forall k word, In (k, word) file_characteristics -> k <> 10 ->
       (In word (x_Characteristics i) <-> N.testbit ch k = true)) /\
    (In (B "REMOVABLE_RUN_FROM_SWAP") (x_Characteristics i) <->
       N.testbit ch 10 = true \/ N.testbit ch 6 = true) /\
    (forall word, In word (x_Characteristics i) -> exists k, In (k, word) file_characteristics).
Proof.
  intros Hp Hc Hn Hm Hch Hl Hw.
  destruct (C30_coff p content pe machine ch Hp Hc Hn Hm Hch Hl Hw) as (i & E & _ & sel & S & X).
  exists i. split; [exact E|]. rewrite X. clear X E.
  assert (D : forall w, In w (map snd sel) <->
              exists k, In (2 ^ k, w) CharacteristicsMap /\ N.testbit ch k = true).
  { intros w. rewrite in_map_iff. split.
    - intros ([m w'] & <- & I). apply (picked_in _ _ _ S) in I. destruct I as (I & k & K & T).
      cbn in K. subst m. exists k. auto.
    - intros (k & I & T). exists (2 ^ k, w). split; [reflexivity|].
      apply (picked_in _ _ _ S). split; [exact I|]. exists k. auto. }
  assert (P : forall k w, In (2 ^ k, w) CharacteristicsMap -> k < 16).
  { intros k w I. assert (2 ^ k < 2 ^ 16).
    { assert (F : forallb (fun r => fst r <? 2 ^ 16) CharacteristicsMap = true) by (vm_compute; reflexivity).
      rewrite forallb_forall in F. apply F in I. cbn in I. apply N.ltb_lt in I. exact I. }
    apply N.pow_lt_mono_r_iff with (a := 2); lia. }
  split; [|split].
  - intros k w I N10. rewrite D. split.
    + intros (k' & I' & T). pose proof (P _ _ I') as L.
      assert (F : forallb (fun e => forallb (fun j => negb (has_row CharacteristicsMap (2 ^ j, snd e)) ||
                    (j =? fst e) || (fst e =? 10)) [0;1;2;3;4;5;6;7;8;9;10;11;12;13;14;15])
                  file_characteristics = true) by (vm_compute; reflexivity).
      rewrite forallb_forall in F. apply F in I. rewrite forallb_forall in I.
      assert (J : In k' [0;1;2;3;4;5;6;7;8;9;10;11;12;13;14;15]) by (cbn [In]; lia).
      apply I in J. cbn [fst snd] in J.
      assert (R : has_row CharacteristicsMap (2 ^ k', w) = true).
      { unfold has_row. apply existsb_exists. exists (2 ^ k', w). split; [exact I'|]. cbn [fst snd].
        rewrite N.eqb_refl, bytes_eqb_refl. reflexivity. }
      rewrite R in J. cbn [negb orb] in J. apply orb_true_iff in J. destruct J as [J|J]; [|lia].
      apply N.eqb_eq in J. subst. exact T.
    + intros T. exists k. split; [|exact T].
      apply (forallb_rows CharacteristicsMap (map (fun e => (2 ^ fst e, snd e)) file_characteristics));
        [vm_compute; reflexivity|]. apply in_map_iff. exists (k, w). auto.
  - rewrite D. split.
    + intros (k & I & T). pose proof (P _ _ I) as L.
      assert (F : forallb (fun j => negb (has_row CharacteristicsMap (2 ^ j, B "REMOVABLE_RUN_FROM_SWAP")) ||
                    (j =? 10) || (j =? 6)) [0;1;2;3;4;5;6;7;8;9;10;11;12;13;14;15] = true) by (vm_compute; reflexivity).
      rewrite forallb_forall in F.
      assert (J : In k [0;1;2;3;4;5;6;7;8;9;10;11;12;13;14;15]) by (cbn [In]; lia).
      apply F in J.
      assert (R : has_row CharacteristicsMap (2 ^ k, B "REMOVABLE_RUN_FROM_SWAP") = true).
      { unfold has_row. apply existsb_exists. exists (2 ^ k, B "REMOVABLE_RUN_FROM_SWAP").
        split; [exact I|]. cbn [fst snd]. rewrite N.eqb_refl, bytes_eqb_refl. reflexivity. }
      rewrite R in J. cbn [negb orb] in J. apply orb_true_iff in J.
      destruct J as [J|J]; apply N.eqb_eq in J; subst; auto.
    + intros [T|T]; [exists 10|exists 6]; (split; [|exact T]); apply has_row_in; vm_compute; reflexivity.
  - intros w. rewrite D. intros (k & I & _).
    assert (F : forallb (fun r => existsb (fun e => bytes_eqb (snd e) (snd r)) file_characteristics)
                        CharacteristicsMap = true) by (vm_compute; reflexivity).
    rewrite forallb_forall in F. apply F in I. apply existsb_exists in I. destruct I as ([j w'] & I & Q).
    apply bytes_eqb_eq in Q. cbn in Q. subst. exists j. exact I.
Qed.
Definition reserved_bit : bytes := dos_stub 64 ++ coff_header pe_sig 332 (2 + 64) ++ [x00].
Lemma C126_flags_refuted : exists content pe ch i, lenN content < 2 ^ 32 /\
  number_at content 60 4 pe /\ window content pe 4 pe_sig /\ number_at content (pe + 22) 2 ch /\
  In (10, B "REMOVABLE_RUN_FROM_SWAP") file_characteristics /\ N.testbit ch 10 = false /\
  exec_detail linux64 (Some content) = Ok i /\ In (B "REMOVABLE_RUN_FROM_SWAP") (x_Characteristics i).
Proof.
  exists reserved_bit, 64, 66. eexists. split; [vm_compute; reflexivity|].
  split; [apply number_at_slice; vm_compute; reflexivity|].
  split; [apply slice_window; vm_compute; reflexivity|].
  split; [apply number_at_slice; vm_compute; reflexivity|].
  split; [vm_compute; tauto|]. split; [vm_compute; reflexivity|].
  split; [vm_compute; reflexivity|]. vm_compute. tauto.
Qed.

(** ** The subsystem *)
Lemma number_at_join buf off n m v w : number_at buf off n v -> number_at buf (off + n) m w ->
  number_at buf off (n + m) (v + 256 ^ n * w).
Proof.
  intros V W. pose proof (number_at_len _ _ _ _ W) as L.
  assert (EV : v = le (takeN n (dropN off buf))).
  { apply (number_at_fun buf off n); [exact V|]. eexists. split; [apply occurs_window; lia|reflexivity]. }
  assert (EW : w = le (takeN m (dropN (off + n) buf))).
  { apply (number_at_fun buf (off + n) m); [exact W|]. eexists. split; [apply occurs_window; lia|reflexivity]. }
  exists (takeN (n + m) (dropN off buf)). split; [apply occurs_window; lia|].
  rewrite EV, EW. rewrite <- (takeN_dropN n (takeN (n + m) (dropN off buf))), le_app.
  rewrite !lenN_takeN, lenN_dropN. replace (N.min n (N.min (n + m) (lenN buf - off))) with n by lia.
  f_equal.
  - f_equal. rewrite takeN_takeN. f_equal. lia.
  - f_equal. f_equal. rewrite <- takeN_dropN_comm. f_equal. apply dropN_dropN.
Qed.

Lemma C126_subsystem p (content : bytes) pe sub dll : supported p -> lenN content < 2 ^ 32 ->
  number_at content 60 4 pe -> pe + 104 < lenN content -> pe + 104 < 2048 ->
  number_at content (pe + 92) 2 sub -> number_at content (pe + 94) 2 dll ->
  exists i, exec_detail p (Some content) = Ok i /\
    (dll <> 0 -> x_Subsystem i = []) /\
    (dll = 0 -> sub < 10 -> forall word, In (sub, word) subsystems -> x_Subsystem i = word) /\
    (dll = 0 -> 10 <= sub < 16 -> x_Subsystem i = []) /\
    (dll = 0 -> 16 <= sub -> forall word, In (sub - 6, word) subsystems -> x_Subsystem i = word) /\
    ((forall word, ~ In (sub, word) subsystems /\ ~ In (sub - 6, word) subsystems) -> x_Subsystem i = []).
Proof.
  intros Hp Hc Hn Hl Hw Hs Hd.
  destruct (C30_optional_lemma p content pe Hp Hc Hn Hl Hw) as (i & E & F).
  exists i. split; [exact E|].
  assert (Hs4 : number_at content (pe + 92) 4 (sub + 65536 * dll)).
  { apply (number_at_join content (pe + 92) 2 2 sub dll Hs).
    replace (pe + 92 + 2) with (pe + 94) by lia. exact Hd. }
  assert (X : forall off n, off + n <= 104 -> exists v, number_at content (pe + off) n v).
  { intros off n B. apply number_at_ex. lia. }
  destruct (X 76 4) as (x1 & H1); [lia|]. destruct (X 96 4) as (x2 & H2); [lia|].
  destruct (X 26 1) as (x3 & H3); [lia|]. destruct (X 27 1) as (x4 & H4); [lia|].
  destruct (X 64 2) as (x5 & H5); [lia|]. destruct (X 66 2) as (x6 & H6); [lia|].
  destruct (X 68 2) as (x7 & H7); [lia|]. destruct (X 70 2) as (x8 & H8); [lia|].
  destruct (X 72 2) as (x9 & H9); [lia|]. destruct (X 74 2) as (xa & Ha); [lia|].
  destruct (F _ _ _ _ _ _ _ _ _ _ _ Hs4 H1 H2 H3 H4 H5 H6 H7 H8 H9 Ha) as (M & _).
  pose proof (number_at_bound _ _ _ _ Hs) as Bs. change (256 ^ 2) with 65536 in Bs.
  clear - M Bs.
  assert (O : forall P : N -> bool, forallb (fun r => P (fst r)) subsystem_names = true ->
              P (sub + 65536 * dll) = false -> x_Subsystem i = []).
  { intros P A B. destruct M as [J|[J _]]; [|exact J]. rewrite forallb_forall in A. apply A in J.
    cbn [fst] in J. congruence. }
  split; [|split; [|split; [|split]]].
  - intros D. apply (O (fun k => k <? 65536)); [vm_compute; reflexivity|]. apply N.ltb_ge. lia.
  - intros -> L w I. replace (sub + 65536 * 0) with sub in M by lia.
    apply (named_in subsystem_names sub); [vm_compute; reflexivity|exact M|].
    apply (forallb_rows subsystem_names (filter (fun e => fst e <? 10) subsystems)); [vm_compute; reflexivity|].
    apply filter_In. split; [exact I|]. apply N.ltb_lt. exact L.
  - intros -> L. apply (O (fun k => (k <? 10) || (16 <=? k))); [vm_compute; reflexivity|]. lia.
  - intros -> L w I. replace (sub + 65536 * 0) with sub in M by lia.
    apply (named_in subsystem_names sub); [vm_compute; reflexivity|exact M|].
    apply (forallb_rows subsystem_names (map (fun e => (fst e + 6, snd e)) (filter (fun e => 10 <=? fst e) subsystems)));
      [vm_compute; reflexivity|].
    apply in_map_iff. exists (sub - 6, w). split; [cbn [fst snd]; f_equal; lia|].
    apply filter_In. split; [exact I|]. apply N.leb_le. cbn [fst]. lia.
  - intros U. destruct M as [J|[J _]]; [|exact J]. exfalso.
    assert (A : forall e, In e subsystem_names -> In e (filter (fun e => fst e <? 10) subsystems ++
        map (fun e => (fst e + 6, snd e)) (filter (fun e => 10 <=? fst e) subsystems))).
    { apply forallb_rows. vm_compute. reflexivity. }
    pose proof (A _ J) as K. apply in_app_iff in K. destruct K as [K|K].
    + apply filter_In in K. destruct K as [K L]. cbn [fst] in L. apply N.ltb_lt in L.
      replace (sub + 65536 * dll) with sub in K by lia. exact (proj1 (U _) K).
    + apply in_map_iff in K. destruct K as ([k w] & Q & K). injection Q as Q _.
      apply filter_In in K. destruct K as [K L]. cbn [fst] in *.
      assert (k < 15).
      { assert (F : forallb (fun e => fst e <? 15) subsystems = true) by (vm_compute; reflexivity).
        rewrite forallb_forall in F. apply F in K. cbn in K. lia. }
      replace k with (sub - 6) in K by lia. exact (proj2 (U _) K).
Qed.
Definition efi_image (sub : N) : bytes :=
  dos_stub 64 ++ coff_header pe_sig 34404 34 ++
  to_le 2 523 ++ [x0e; x1d] ++ zeros 64 ++ to_le 2 sub ++ zeros 122.
Lemma C126_subsystem_lemma : exists content pe i, lenN content < 2 ^ 32 /\
  number_at content 60 4 pe /\ window content pe 4 pe_sig /\ number_at content (pe + 92) 2 10 /\
  number_at content (pe + 94) 2 0 /\ pe + 104 < lenN content /\
  In (10, B "EFI Application") subsystems /\
  exec_detail linux64 (Some content) = Ok i /\ x_Subsystem i = [].
Proof.
  exists (efi_image 10), 64. eexists. split; [vm_compute; reflexivity|].
  split; [apply number_at_slice; vm_compute; reflexivity|].
  split; [apply slice_window; vm_compute; reflexivity|].
  split; [apply number_at_slice; vm_compute; reflexivity|].
  split; [apply number_at_slice; vm_compute; reflexivity|].
  split; [vm_compute; reflexivity|]. split; [vm_compute; tauto|].
  split; [vm_compute; reflexivity|]. vm_compute. reflexivity.
Qed.
Lemma C126_boot_lemma : exists content pe i, lenN content < 2 ^ 32 /\
  number_at content 60 4 pe /\ window content pe 4 pe_sig /\
  number_at content (pe + 92) 2 boot_application /\
  number_at content (pe + 94) 2 0 /\ pe + 104 < lenN content /\
  exec_detail linux64 (Some content) = Ok i /\ x_Subsystem i = B "EFI Application".
Proof.
  exists (efi_image 16), 64. eexists. split; [vm_compute; reflexivity|].
  split; [apply number_at_slice; vm_compute; reflexivity|].
  split; [apply slice_window; vm_compute; reflexivity|].
  split; [apply number_at_slice; vm_compute; reflexivity|].
  split; [apply number_at_slice; vm_compute; reflexivity|].
  split; [vm_compute; reflexivity|].
  split; [vm_compute; reflexivity|]. vm_compute. reflexivity.
Qed.

(** ** Mach-O: what the document says about the CPU *)
(** the member of the JSON document, given the number in the header *)
Lemma document (content : bytes) cpu sub : 28 <= lenN content -> lenN content < 2 ^ 32 ->
  number_at content 4 4 cpu -> number_at content 8 4 sub ->
  exists r magic ncmds size,
    macho_Detailer (Some content) = Ok [r] /\
    json_value (eJson (r_out r))
      (JObj (macho_members magic (cpuType2String cpu) (cpuSubType2String cpu sub) (dec ncmds) (dec size))).
Proof.
  intros H1 H2 C S. destruct (macho_ok content) as (i & E); [lia|].
  destruct (macho_fields content i H2 E) as (magic & cpu' & sub' & n & s & K1 & K2 & K3 & K4 & K5 & ->).
  rewrite (number_at_fun _ _ _ _ _ C K2), (number_at_fun _ _ _ _ _ S K3).
  eexists. exists (B "0x" ++ pad0 8 (hex magic)), n, s. unfold macho_Detailer. rewrite E. cbn [bind].
  split; [reflexivity|]. exact (macho_json magic cpu' sub' n s).
Qed.
Lemma says_cpu magic cname sname n s : cname <> [] -> says (macho_members magic cname sname n s) (B "CpuType") cname.
Proof.
  intros N. unfold says, macho_members, optional. destruct cname as [|x c]; [congruence|].
  set (w := x :: c). clearbody w. cbn [app]. split; [cbn [In]; tauto|].
  intros v I. cbn [In] in I. unfold jfield in I.
  destruct I as [I|[I|[I|[I|[I|[I|[]]]]]]]; try (injection I as K _; discriminate K).
  injection I as <-. reflexivity.
Qed.
Lemma silent_cpu magic sname n s : silent (macho_members magic [] sname n s) (B "CpuType").
Proof.
  intros v I. unfold macho_members, optional in I. cbn [app In] in I. unfold jfield in I.
  destruct I as [I|[I|[I|[I|[I|[]]]]]]; injection I as K _; discriminate K.
Qed.
Lemma says_sub magic cname sname n s : says (macho_members magic cname sname n s) (B "CpuSubType") sname.
Proof.
  unfold says, macho_members, optional. destruct cname as [|x c]; [|set (w := x :: c); clearbody w];
  cbn [app]; (split; [cbn [In]; tauto|]); intros v I; cbn [In] in I; unfold jfield in I.
  - destruct I as [I|[I|[I|[I|[I|[]]]]]]; try (injection I as K _; discriminate K).
    injection I as <-. reflexivity.
  - destruct I as [I|[I|[I|[I|[I|[I|[]]]]]]]; try (injection I as K _; discriminate K).
    injection I as <-. reflexivity.
Qed.

(** ** CPU types *)
Lemma C126_cpu (content : bytes) cpu name : 28 <= lenN content -> lenN content < 2 ^ 32 ->
  number_at content 4 4 cpu -> In (cpu, name) cpu_types ->
  exists r members, macho_Detailer (Some content) = Ok [r] /\
    json_value (eJson (r_out r)) (JObj members) /\ says members (B "CpuType") name.
Proof.
  intros H1 H2 C I. destruct (number_at_ex content 8 4) as (sub & S); [lia|].
  destruct (document content cpu sub H1 H2 C S) as (r & magic & n & s & D & J).
  exists r. eexists. split; [exact D|]. split; [exact J|].
  assert (E : cpuType2String cpu = name).
  { apply (named_in cputype_names cpu); [vm_compute; reflexivity|apply lookup_named|].
    apply (forallb_rows cputype_names cpu_types); [vm_compute; reflexivity|exact I]. }
  rewrite E. apply says_cpu.
  assert (F : forallb (fun e => negb (bytes_eqb (snd e) [])) cpu_types = true) by (vm_compute; reflexivity).
  rewrite forallb_forall in F. apply F in I. intros ->. discriminate I.
Qed.
Lemma unknown_subtype t k : (forall r n, In (t, r) cpusubtype_names -> ~ In (k, n) r) ->
  cpuSubType2String t k = B "UNKNOWN (0x" ++ pad0 8 (hex k) ++ B ")".
Proof.
  intros H. unfold cpuSubType2String.
  assert (E : match lookup cpusubtype_names t with
              | Some rows => match lookup rows k with Some v => v | None => B "UNKNOWN" end
              | None => B "UNKNOWN" end = B "UNKNOWN").
  { destruct (lookup cpusubtype_names t) as [rows|] eqn:E; [|reflexivity].
    destruct (lookup rows k) as [v|] eqn:E'; [|reflexivity]. exfalso.
    exact (H rows v (lookup_in _ _ _ E) (lookup_in _ _ _ E')). }
  rewrite E. reflexivity.
Qed.
Lemma known_subtype t r k n : In (t, r) cpusubtype_names -> In (k, n) r -> cpuSubType2String t k = n.
Proof.
  intros R I. unfold cpuSubType2String.
  rewrite (lookup_complete cpusubtype_names t r); [|vm_compute; reflexivity|exact R].
  assert (F : forallb (fun e => distinct_keys (snd e) &&
                forallb (fun x => negb (bytes_eqb (snd x) (B "UNKNOWN"))) (snd e)) cpusubtype_names = true)
    by (vm_compute; reflexivity).
  rewrite forallb_forall in F. apply F in R. cbn [snd] in R. apply andb_true_iff in R. destruct R as [R1 R2].
  rewrite (lookup_complete r k n R1 I). rewrite forallb_forall in R2. apply R2 in I. cbn [snd] in I.
  apply negb_true_iff in I. rewrite I. reflexivity.
Qed.
Lemma C126_other_cpu (content : bytes) cpu sub : 28 <= lenN content -> lenN content < 2 ^ 32 ->
  number_at content 4 4 cpu -> number_at content 8 4 sub -> In cpu other_cpus ->
  exists r members digits, macho_Detailer (Some content) = Ok [r] /\
    json_value (eJson (r_out r)) (JObj members) /\ silent members (B "CpuType") /\
    List.length digits = 8%nat /\ hex_num digits = Some sub /\
    says members (B "CpuSubType") (B "UNKNOWN (0x" ++ digits ++ B ")").
Proof.
  intros H1 H2 C S I.
  destruct (document content cpu sub H1 H2 C S) as (r & magic & n & s & D & J).
  exists r. eexists. exists (pad0 8 (hex sub)). split; [exact D|]. split; [exact J|].
  assert (E : cpuType2String cpu = []).
  { refine (named_out cputype_names cpu _ _ (lookup_named _ _)).
    assert (F : forallb (fun k => negb (existsb (fun r => fst r =? k) cputype_names)) other_cpus = true)
      by (vm_compute; reflexivity).
    rewrite forallb_forall in F. apply F in I. apply negb_true_iff in I. exact I. }
  rewrite E. split; [apply silent_cpu|].
  split; [apply length_pad0_hex; [exact (number_at_bound _ _ _ _ S)|lia]|]. split; [apply hex_num_pad0|].
  rewrite unknown_subtype; [apply says_sub|]. intros rows nm R _.
  assert (F : forallb (fun k => negb (existsb (fun r => fst r =? k) cpusubtype_names)) other_cpus = true)
    by (vm_compute; reflexivity).
  rewrite forallb_forall in F. apply F in I. apply negb_true_iff in I.
  assert (K : existsb (fun r => fst r =? cpu) cpusubtype_names = true); [|congruence].
  apply existsb_exists. exists (cpu, rows). split; [exact R|apply N.eqb_refl].
Qed.
Definition mach_arm64 : bytes :=
  [xcf; xfa; xed; xfe; x0c; x00; x00; x01; x00; x00; x00; x00; x02; x00; x00; x00;
   x10; x00; x00; x00; x18; x04; x00; x00; x85; x00; x20; x00; x00; x00; x00; x00].
Lemma C126_cpu_refuted : exists content, lenN content = 32 /\
  occurs_at [xcf; xfa; xed; xfe] content 0 /\ number_at content 4 4 (12 + CPU_ARCH_ABI64) /\
  exists r members, macho_Detailer (Some content) = Ok [r] /\
    json_value (eJson (r_out r)) (JObj members) /\ silent members (B "CpuType") /\
    says members (B "CpuSubType") (B "UNKNOWN (0x00000000)").
Proof.
  exists mach_arm64. split; [reflexivity|].
  split. { exists [], (dropN 4 mach_arm64). split; reflexivity. }
  assert (C : number_at mach_arm64 4 4 (12 + CPU_ARCH_ABI64)) by (apply number_at_slice; vm_compute; reflexivity).
  assert (S : number_at mach_arm64 8 4 0) by (apply number_at_slice; vm_compute; reflexivity).
  split; [exact C|].
  destruct (document mach_arm64 (12 + CPU_ARCH_ABI64) 0) as (r & magic & n & s & D & J);
    [vm_compute; discriminate|vm_compute; reflexivity|exact C|exact S|].
  exists r. eexists. split; [exact D|]. split; [exact J|]. split.
  - change (cpuType2String (12 + CPU_ARCH_ABI64)) with (@nil Byte.byte). apply silent_cpu.
  - change (B "UNKNOWN (0x00000000)") with (cpuSubType2String (12 + CPU_ARCH_ABI64) 0). apply says_sub.
Qed.

(** ** CPU subtypes *)
Definition has_subtype (t : N) (e : N * bytes) : bool :=
  existsb (fun x => (fst x =? t) && has_row (snd x) e) cpusubtype_names.
Lemma has_subtype_in t e : has_subtype t e = true -> exists r, In (t, r) cpusubtype_names /\ In e r.
Proof.
  unfold has_subtype. intros H. apply existsb_exists in H. destruct H as ([t' r] & I & H).
  apply andb_true_iff in H. destruct H as [H1 H2]. cbn [fst snd] in *. apply N.eqb_eq in H1. subst.
  exists r. split; [exact I|apply has_row_in, H2].
Qed.
Definition mem_N (k : N) (l : list N) : bool := existsb (N.eqb k) l.
Lemma mem_N_in k l : mem_N k l = true <-> In k l.
Proof.
  unfold mem_N. rewrite existsb_exists. split.
  - intros (x & I & E). apply N.eqb_eq in E. subst. exact I.
  - intros I. exists k. split; [exact I|apply N.eqb_refl].
Qed.
Lemma C126_subtype (content : bytes) cpu sub name rows : 28 <= lenN content -> lenN content < 2 ^ 32 ->
  number_at content 4 4 cpu -> number_at content 8 4 sub ->
  In (cpu, rows) cpu_subtypes -> In (sub, name) rows -> (cpu = 7 -> ~ In sub models) ->
  exists r members, macho_Detailer (Some content) = Ok [r] /\
    json_value (eJson (r_out r)) (JObj members) /\ says members (B "CpuSubType") name.
Proof.
  intros H1 H2 C S R I M. destruct (document content cpu sub H1 H2 C S) as (r & magic & n & s & D & J).
  exists r. eexists. split; [exact D|]. split; [exact J|].
  assert (E : cpuSubType2String cpu sub = name); [|rewrite E; apply says_sub].
  assert (F : forallb (fun x => forallb (fun e => (fst x =? 7) && mem_N (fst e) models ||
                has_subtype (fst x) e) (snd x)) cpu_subtypes = true) by (vm_compute; reflexivity).
  rewrite forallb_forall in F. apply F in R. cbn [fst snd] in R. rewrite forallb_forall in R.
  apply R in I. apply orb_true_iff in I. destruct I as [I|I].
  - apply andb_true_iff in I. destruct I as [I1 I2]. apply N.eqb_eq in I1. apply mem_N_in in I2.
    exfalso. exact (M I1 I2).
  - apply has_subtype_in in I. destruct I as (rows' & R' & I'). exact (known_subtype _ _ _ _ R' I').
Qed.
(** what is shown for the Intel processors with a model: a wrong name for the Pentium III Xeon
    (40 is the program's number of the mobile Pentium III), otherwise nothing *)
Lemma C126_models (content : bytes) sub : 28 <= lenN content -> lenN content < 2 ^ 32 ->
  number_at content 4 4 7 -> number_at content 8 4 sub -> In sub models ->
  exists r members digits, macho_Detailer (Some content) = Ok [r] /\
    json_value (eJson (r_out r)) (JObj members) /\
    List.length digits = 8%nat /\ hex_num digits = Some sub /\
    says members (B "CpuSubType")
      (if sub =? intel 8 2 then B "PENTIUM_3_M" else B "UNKNOWN (0x" ++ digits ++ B ")").
Proof.
  intros H1 H2 C S I. destruct (document content 7 sub H1 H2 C S) as (r & magic & n & s & D & J).
  exists r. eexists. exists (pad0 8 (hex sub)). split; [exact D|]. split; [exact J|].
  split; [apply length_pad0_hex; [exact (number_at_bound _ _ _ _ S)|lia]|]. split; [apply hex_num_pad0|].
  assert (E : cpuSubType2String 7 sub = if sub =? intel 8 2 then B "PENTIUM_3_M"
              else B "UNKNOWN (0x" ++ pad0 8 (hex sub) ++ B ")"); [|rewrite <- E; apply says_sub].
  clear - I. cbn [In models] in I.
  repeat (destruct I as [<-|I]; [vm_compute; reflexivity|]). destruct I.
Qed.
Definition mach_celeron : bytes :=
  [xce; xfa; xed; xfe; x07; x00; x00; x00; x67; x00; x00; x00; x02; x00; x00; x00;
   x10; x00; x00; x00; x18; x04; x00; x00; x85; x00; x20; x00].
Lemma C126_models_refuted : exists content, lenN content = 28 /\
  occurs_at [xce; xfa; xed; xfe] content 0 /\ number_at content 4 4 7 /\ number_at content 8 4 103 /\
  In (103, B "CELERON") intel_subtypes /\
  exists r members, macho_Detailer (Some content) = Ok [r] /\
    json_value (eJson (r_out r)) (JObj members) /\ says members (B "CpuSubType") (B "UNKNOWN (0x00000067)").
Proof.
  exists mach_celeron. split; [reflexivity|].
  split. { exists [], (dropN 4 mach_celeron). split; reflexivity. }
  assert (C : number_at mach_celeron 4 4 7) by (apply number_at_slice; vm_compute; reflexivity).
  assert (S : number_at mach_celeron 8 4 103) by (apply number_at_slice; vm_compute; reflexivity).
  split; [exact C|]. split; [exact S|]. split; [vm_compute; tauto|].
  destruct (document mach_celeron 7 103) as (r & magic & n & s & D & J);
    [vm_compute; discriminate|vm_compute; reflexivity|exact C|exact S|].
  exists r. eexists. split; [exact D|]. split; [exact J|].
  change (B "UNKNOWN (0x00000067)") with (cpuSubType2String 7 103). apply says_sub.
Qed.

(** ** Capabilities *)
Lemma C126_capabilities_lemma (content : bytes) cpu sub : 28 <= lenN content -> lenN content < 2 ^ 32 ->
  number_at content 4 4 cpu -> number_at content 8 4 sub -> capabilities sub <> 0 ->
  exists r members digits, macho_Detailer (Some content) = Ok [r] /\
    json_value (eJson (r_out r)) (JObj members) /\
    List.length digits = 8%nat /\ hex_num digits = Some sub /\
    says members (B "CpuSubType") (B "UNKNOWN (0x" ++ digits ++ B ")").
Proof.
  intros H1 H2 C S K. destruct (document content cpu sub H1 H2 C S) as (r & magic & n & s & D & J).
  exists r. eexists. exists (pad0 8 (hex sub)). split; [exact D|]. split; [exact J|].
  split; [apply length_pad0_hex; [exact (number_at_bound _ _ _ _ S)|lia]|]. split; [apply hex_num_pad0|].
  rewrite unknown_subtype; [apply says_sub|]. intros rows nm R I.
  assert (F : forallb (fun x => forallb (fun e => fst e <? 2 ^ 24) (snd x)) cpusubtype_names = true)
    by (vm_compute; reflexivity).
  rewrite forallb_forall in F. apply F in R. cbn [snd] in R. rewrite forallb_forall in R. apply R in I.
  cbn [fst] in I. apply N.ltb_lt in I. apply K. unfold capabilities. apply N.div_small. exact I.
Qed.
Definition mach_lib64 : bytes :=
  [xcf; xfa; xed; xfe; x07; x00; x00; x01; x03; x00; x00; x80; x02; x00; x00; x00;
   x10; x00; x00; x00; x18; x04; x00; x00; x85; x00; x20; x00; x00; x00; x00; x00].
Lemma C126_capabilities_refuted_lemma : exists content, lenN content = 32 /\
  occurs_at [xcf; xfa; xed; xfe] content 0 /\ number_at content 4 4 (7 + CPU_ARCH_ABI64) /\
  number_at content 8 4 (3 + CPU_SUBTYPE_LIB64) /\
  exists r members, macho_Detailer (Some content) = Ok [r] /\
    json_value (eJson (r_out r)) (JObj members) /\
    says members (B "CpuType") (B "X86_64") /\ says members (B "CpuSubType") (B "UNKNOWN (0x80000003)").
Proof.
  exists mach_lib64. split; [reflexivity|].
  split. { exists [], (dropN 4 mach_lib64). split; reflexivity. }
  assert (C : number_at mach_lib64 4 4 (7 + CPU_ARCH_ABI64)) by (apply number_at_slice; vm_compute; reflexivity).
  assert (S : number_at mach_lib64 8 4 (3 + CPU_SUBTYPE_LIB64)) by (apply number_at_slice; vm_compute; reflexivity).
  split; [exact C|]. split; [exact S|].
  destruct (document mach_lib64 (7 + CPU_ARCH_ABI64) (3 + CPU_SUBTYPE_LIB64)) as (r & magic & n & s & D & J);
    [vm_compute; discriminate|vm_compute; reflexivity|exact C|exact S|].
  exists r. eexists. split; [exact D|]. split; [exact J|]. split.
  - change (cpuType2String (7 + CPU_ARCH_ABI64)) with (B "X86_64"). apply says_cpu. discriminate.
  - change (B "UNKNOWN (0x80000003)") with (cpuSubType2String (7 + CPU_ARCH_ABI64) (3 + CPU_SUBTYPE_LIB64)).
    apply says_sub.
Qed.

(** ** An example: the positive statements apply *)
Lemma C126_ex : 28 <= lenN mach64 /\ number_at mach64 4 4 (7 + CPU_ARCH_ABI64) /\
  number_at mach64 8 4 3 /\ In (7 + CPU_ARCH_ABI64, B "X86_64") cpu_types /\
  number_at gui 60 4 64 /\ number_at gui 68 2 0x8664 /\ In (0x8664, B "x64") machine_types /\
  number_at (efi_image 3) 156 2 3 /\ number_at (efi_image 3) 158 2 0 /\
  exists i, exec_detail linux64 (Some (efi_image 3)) = Ok i /\ x_Subsystem i = B "Windows CUI".
Proof.
  split; [vm_compute; discriminate|].
  split; [apply number_at_slice; vm_compute; reflexivity|].
  split; [apply number_at_slice; vm_compute; reflexivity|].
  split; [vm_compute; tauto|].
  split; [apply number_at_slice; vm_compute; reflexivity|].
  split; [apply number_at_slice; vm_compute; reflexivity|].
  split; [vm_compute; tauto|].
  split; [apply number_at_slice; vm_compute; reflexivity|].
  split; [apply number_at_slice; vm_compute; reflexivity|].
  eexists. split; vm_compute; reflexivity.
Qed.
