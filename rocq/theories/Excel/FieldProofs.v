(** The numbers shown for records, against the layouts of the format. *)
From Coq Require Import List NArith ZArith Bool Lia Strings.String Strings.Byte.
From Coq Require Import ZifyBool ZifyNat ZifyN.
From Verif Require Import Lib.Res Lib.Bytes Lib.BytesFacts Lib.Text Common.Model Common.Spec Common.ReadProofs
     Excel.Number Excel.Model Excel.Records Excel.Engine Excel.Statements Excel.OutputProofs Excel.FieldSpec.
Import ListNotations.
Local Open Scope N_scope.
Ltac Zify.zify_post_hook ::= Z.div_mod_to_equations.
Arguments N.pow : simpl never.
Arguments N.mul : simpl never.
Arguments N.add : simpl never.
Arguments N.div : simpl never.
Arguments N.modulo : simpl never.

(** ** Runs of bits *)
Lemma pow256 n : 256 ^ n = 2 ^ (8 * n).
Proof. rewrite N.pow_mul_r. reflexivity. Qed.

Lemma slice_field d off n : off + n <= lenN d -> le (takeN n (dropN off d)) = bit_field d (8 * off) (8 * n).
Proof.
  intros H. unfold bit_field. rewrite <- !pow256.
  rewrite <- (takeN_dropN off d) at 2. rewrite le_app, lenN_takeN, N.min_l by lia.
  pose proof (le_bound (takeN off d)) as Ha. rewrite lenN_takeN, N.min_l in Ha by lia.
  assert (P : 256 ^ off <> 0) by (apply N.pow_nonzero; discriminate).
  rewrite (N.mul_comm (256 ^ off)), N.div_add, (N.div_small _ _ Ha), N.add_0_l by exact P.
  rewrite <- (takeN_dropN n (dropN off d)) at 2. rewrite le_app, lenN_takeN, lenN_dropN, N.min_l by lia.
  pose proof (le_bound (takeN n (dropN off d))) as Hb. rewrite lenN_takeN, lenN_dropN, N.min_l in Hb by lia.
  assert (Q : 256 ^ n <> 0) by (apply N.pow_nonzero; discriminate).
  rewrite (N.mul_comm (256 ^ n)), N.mod_add, N.mod_small by assumption. reflexivity.
Qed.

Lemma mod_mod_pow a w n : n <= w -> (a mod 2 ^ w) mod 2 ^ n = a mod 2 ^ n.
Proof.
  intros H. replace w with (n + (w - n)) by lia. rewrite N.pow_add_r.
  assert (P : 2 ^ n <> 0) by (apply N.pow_nonzero; discriminate).
  assert (Q : 2 ^ (w - n) <> 0) by (apply N.pow_nonzero; discriminate).
  rewrite N.mod_mul_r by assumption. rewrite N.mul_comm, N.mod_add, N.mod_mod by assumption. reflexivity.
Qed.
Lemma field_mod d pos w n : n <= w -> bit_field d pos w mod 2 ^ n = bit_field d pos n.
Proof. apply mod_mod_pow. Qed.

Lemma mod_div_pow a w k : k <= w -> (a mod 2 ^ w) / 2 ^ k = (a / 2 ^ k) mod 2 ^ (w - k).
Proof.
  intros H. replace w with (k + (w - k)) at 1 by lia. rewrite N.pow_add_r.
  assert (P : 2 ^ k <> 0) by (apply N.pow_nonzero; discriminate).
  assert (Q : 2 ^ (w - k) <> 0) by (apply N.pow_nonzero; discriminate).
  rewrite N.mod_mul_r by assumption. rewrite (N.mul_comm (2 ^ k)), N.div_add by exact P.
  rewrite (N.div_small (a mod 2 ^ k)) by (apply N.mod_lt, P). reflexivity.
Qed.
Lemma field_shift d pos w k : k <= w -> N.shiftr (bit_field d pos w) k = bit_field d (pos + k) (w - k).
Proof.
  intros H. rewrite N.shiftr_div_pow2. unfold bit_field. rewrite mod_div_pow by exact H.
  rewrite N.div_div, <- N.pow_add_r by (apply N.pow_nonzero; discriminate). reflexivity.
Qed.
Lemma field_bits d pos w k n : k + n <= w -> bits (bit_field d pos w) k n = bit_field d (pos + k) n.
Proof. intros H. unfold bits. rewrite field_shift by lia. apply field_mod. lia. Qed.

(** ** Reads *)
Lemma byte_field d i b : nthN d i = Some b -> b2n b = bit_field d (8 * i) 8.
Proof.
  intros H. pose proof (nthN_Some_lt _ _ _ H) as L. change 8 with (8 * 1) at 2. rewrite <- (slice_field d i 1) by lia.
  rewrite (dropN_cons_nth d i b H). change (takeN 1 (b :: dropN (i + 1) d)) with (b :: takeN 0 (dropN (i + 1) d)).
  rewrite takeN_0. cbn [le]. lia.
Qed.
Lemma rd_val d i x : rd d i = Ok x -> x = bit_field d (8 * i) 8.
Proof.
  unfold rd. destruct (nthN d i) as [b|] eqn:E; [|discriminate]. intros [= <-]. apply byte_field, E.
Qed.
Lemma load_val d off n x : load d off n = Ok x -> x = bit_field d (8 * off) (8 * n).
Proof.
  unfold load. destruct (slice d off n) as [s|e| |] eqn:E; try discriminate. apply slice_inv in E.
  destruct E as (L & -> & _). cbn [bind]. intros [= <-]. apply slice_field, L.
Qed.
Lemma us_window d off be_ v : off < 2 ^ 31 -> ReadUShort d (lenN d) off be_ = Ok v -> off + 2 <= lenN d.
Proof.
  intros Ho. unfold ReadUShort. rewrite u32_small by lia. destruct (lenN d <? off + 1); [discriminate|].
  destruct (rd d off); try discriminate. cbn [bind]. destruct (N.ltb_spec (off + 1) (lenN d)) as [H|H]; [lia|].
  rewrite (rd_ge d (off + 1)) by exact H. discriminate.
Qed.
Lemma us_val d off v : ReadUShort d (lenN d) off false = Ok v -> off < 2 ^ 31 -> v = bit_field d (8 * off) 16.
Proof.
  intros E Ho. pose proof (us_window d off false v Ho E) as L.
  assert (W : window d off 2 (takeN 2 (dropN off d))) by (apply slice_window, slice_ok, L).
  rewrite (ReadUShort_value d off _ false ltac:(lia) W) in E. injection E as <-.
  apply (slice_field d off 2 L).
Qed.
Lemma us_swap d off v : ReadUShort d (lenN d) off true = Ok v -> off < 2 ^ 31 -> v = taken d (Swapped (8 * off)).
Proof.
  intros E Ho. pose proof (us_window d off true v Ho E) as L.
  assert (W : window d off 2 (takeN 2 (dropN off d))) by (apply slice_window, slice_ok, L).
  rewrite (ReadUShort_value d off _ true ltac:(lia) W) in E. injection E as <-.
  apply window2 in W. destruct W as (a & b & -> & Ha & Hb). cbn [taken].
  rewrite <- (byte_field _ _ _ Ha). replace (8 * off + 8) with (8 * (off + 1)) by lia.
  rewrite <- (byte_field _ _ _ Hb). unfold be. cbn [be_acc]. lia.
Qed.
Lemma ui_window d off be_ v : off < 2 ^ 31 -> ReadUInt d (lenN d) off be_ = Ok v -> off + 4 <= lenN d.
Proof.
  intros Ho E. destruct (N.ltb_spec (lenN d) (off + 3)) as [H|H].
  - rewrite ReadUInt_throw in E by lia. discriminate E.
  - destruct (N.eq_dec (off + 3) (lenN d)) as [Q|Q]; [|lia].
    exfalso. apply (proj2 (ReadUInt_unsafe_iff d off be_ ltac:(lia))); [left; lia|]. rewrite E. exact I.
Qed.
Lemma ui_val d off v : ReadUInt d (lenN d) off true = Ok v -> off < 2 ^ 31 -> v = bit_field d (8 * off) 32.
Proof.
  intros E Ho. pose proof (ui_window d off true v Ho E) as L.
  assert (W : window d off 4 (takeN 4 (dropN off d))) by (apply slice_window, slice_ok, L).
  rewrite (ReadUInt_value d off _ true ltac:(lia) W) in E. injection E as <-.
  apply (slice_field d off 4 L).
Qed.
Lemma ui_swap d off v : ReadUInt d (lenN d) off false = Ok v -> off < 2 ^ 31 -> u16 v = taken d (Swapped (8 * off + 16)).
Proof.
  intros E Ho. pose proof (ui_window d off false v Ho E) as L.
  assert (W : window d off 4 (takeN 4 (dropN off d))) by (apply slice_window, slice_ok, L).
  rewrite (ReadUInt_value d off _ false ltac:(lia) W) in E. injection E as <-.
  apply window4 in W. destruct W as (a & b & c & e & -> & Ha & Hb & Hc & Hd). cbn [taken].
  replace (8 * off + 16) with (8 * (off + 2)) by lia.
  rewrite <- (byte_field _ _ _ Hc). replace (8 * (off + 2) + 8) with (8 * (off + 3)) by lia.
  rewrite <- (byte_field _ _ _ Hd). unfold be. cbn [be_acc]. unfold u16.
  pose proof (b2n_lt c). pose proof (b2n_lt e). change (2 ^ 16) with 65536. lia.
Qed.

(** ** Lists of fields *)
Lemma B_inj s t : B s = B t -> s = t.
Proof.
  unfold B. intros H. rewrite <- (string_of_list_byte_of_string s), <- (string_of_list_byte_of_string t), H. reflexivity.
Qed.
Lemma in_num name v a e l : In (fld name (Num v)) (fld a (Num e) :: l) <-> (name = a /\ v = e) \/ In (fld name (Num v)) l.
Proof.
  cbn [In]. split; intros [H|H]; try (right; exact H); left.
  - injection H as H1 H2 H3. apply B_inj in H1. auto.
  - destruct H as [-> ->]. reflexivity.
Qed.
Lemma in_other name v a b x l : (forall n, x <> Num n) -> In (fld name (Num v)) ((a, b, x) :: l) <-> In (fld name (Num v)) l.
Proof.
  intros H. cbn [In]. split; [|intros; right; assumption]. intros [E|E]; [|exact E].
  injection E as _ _ E. destruct (H v E).
Qed.
Lemma in_fld name v a x l : (forall n, x <> Num n) -> In (fld name (Num v)) (fld a x :: l) <-> In (fld name (Num v)) l.
Proof. apply in_other. Qed.
Lemma in_reading d (name : string) (v : N) a r l : (exists q, In (name, q) ((a, r) :: l) /\ v = taken d q) <->
  (name = a /\ v = taken d r) \/ (exists q, In (name, q) l /\ v = taken d q).
Proof.
  cbn [In]. split.
  - intros (q & [H|H] & E).
    + injection H as -> ->. left. auto.
    + right. exists q. auto.
  - intros [[-> ->]|(q & H & E)]; [exists r|exists q]; auto.
Qed.
Lemma no_reading (d : bytes) (name : string) (v : N) : (exists q, In (name, q) [] /\ v = taken d q) <-> False.
Proof. split; [intros (q & [] & _)|intros []]. Qed.

Definition wide (p : platform) : bool := sizeof_wchar p =? 2.
(** Exactly the numbers of the table *)
Definition exact_numbers (w : bool) (t : N) (d : bytes) (l : list field) : Prop :=
  forall name v, In (fld name (Num v)) l <-> exists q, In (name, q) (readings w t) /\ v = taken d q.

Ltac steps H :=
  repeat match type of H with
  | bind ?m _ = _ => let E := fresh "E" in destruct m as [?x|?e| |] eqn:E; cbn [bind] in H; try discriminate H
  end.
Ltac values d :=
  repeat match goal with
  | E : ReadUShort d (lenN d) _ false = Ok _ |- _ => apply us_val in E; [|reflexivity]
  | E : ReadUShort d (lenN d) _ true = Ok _ |- _ => apply us_swap in E; [|reflexivity]
  | E : ReadUInt d (lenN d) _ true = Ok _ |- _ => apply ui_val in E; [|reflexivity]
  | E : ReadUInt d (lenN d) _ false = Ok _ |- _ => apply ui_swap in E; [|reflexivity]
  | E : rd d _ = Ok _ |- _ => apply rd_val in E
  | E : load d _ _ = Ok _ |- _ => apply load_val in E
  end;
  repeat match goal with
  | E : ?x = bit_field d ?a ?b |- _ =>
      let a' := eval vm_compute in a in let b' := eval vm_compute in b in
      change (x = bit_field d a' b') in E; rewrite E; clear E
  | E : ?x = taken d (Swapped ?a) |- _ =>
      let a' := eval vm_compute in a in change (x = taken d (Swapped a')) in E; rewrite E; clear E
  end;
  repeat (rewrite field_bits by (cbv; discriminate));
  try match goal with |- context [N.div2 (N.div2 (N.div2 (N.div2 ?x)))] =>
        change (N.div2 (N.div2 (N.div2 (N.div2 x)))) with (N.shiftr x 4) end;
  rewrite ?(field_mod d _ 16 14), ?(field_shift d _ 16 4) by (cbv; discriminate).
Ltac numerals d :=
  repeat match goal with
  | |- context [bit_field d (?a + ?b) ?w] => let x := eval vm_compute in (a + b) in change (a + b) with x
  | |- context [bit_field d ?a (?b - ?c)] => let x := eval vm_compute in (b - c) in change (b - c) with x
  end.
Ltac compare_numbers d :=
  let name := fresh "name" in let v := fresh "v" in
  intros name v;
  match goal with |- context [readings ?w ?t] => let R := eval vm_compute in (readings w t) in change (readings w t) with R end;
  repeat (first [rewrite in_num | rewrite in_fld by discriminate | rewrite in_other by discriminate]);
  repeat rewrite in_reading; rewrite ?no_reading; cbn [In taken];
  numerals d; tauto.

(** ** The records *)
Lemma row_numbers w d l : RowRecord d = Ok (Fields l) -> exact_numbers w 0x208 d l.
Proof.
  intros H. unfold RowRecord in H. steps H. injection H as <-. values d. compare_numbers d.
Qed.
Lemma area_numbers w d l : AreaFormatRecord d = Ok (Fields l) -> exact_numbers w 0x100A d l.
Proof.
  intros H. unfold AreaFormatRecord in H. steps H. injection H as <-. values d. compare_numbers d.
Qed.
Lemma bof_numbers w d l : bof_fields d = Ok l -> exact_numbers w 0x809 d l.
Proof. intros H. unfold bof_fields in H. steps H. injection H as <-. values d. compare_numbers d. Qed.
Lemma lbl_numbers w d n l : lbl_fields d n = Ok l -> exact_numbers w 0x18 d l.
Proof. intros H. unfold lbl_fields in H. steps H. injection H as <-. values d. compare_numbers d. Qed.
Lemma formula_numbers w p before d l : FormulaRecord p before d = Ok (Fields l) -> exact_numbers w 0x06 d l.
Proof. intros H. unfold FormulaRecord in H. steps H. injection H as <-. values d. compare_numbers d. Qed.
Lemma extern_numbers p d u l : extern_fields p d u = Ok l -> exact_numbers (wide p) 0x23 d l.
Proof.
  intros H. unfold extern_fields in H. steps H. injection H as <-. unfold wide.
  destruct (sizeof_wchar p =? 2); steps E0; injection E0 as <-; values d; destruct u; cbn [app]; compare_numbers d.
Qed.
Lemma sheet_numbers w d n l : sheet_fields d n = Ok l -> exact_numbers w 0x85 d l.
Proof. intros H. unfold sheet_fields in H. steps H. injection H as <-. values d. compare_numbers d. Qed.
Lemma rk_numbers w d rw col ixfe l : RKRecord d = Ok (RK rw col ixfe) -> rk_fields d rw col ixfe = Ok l -> exact_numbers w 0x27E d l.
Proof.
  intros H F. unfold RKRecord in H. steps H. injection H as <- <- <-. unfold rk_fields in F. steps F. injection F as <-.
  values d. compare_numbers d.
Qed.
Lemma supbook_numbers w d c g l : SupBookRecord d = Ok (SupBook c g l) -> exact_numbers w 0x1AE d l.
Proof.
  intros H. unfold SupBookRecord in H. steps H. injection H as <- <- <-. clear E1 E2. values d.
  destruct x1; destruct x2; cbn [app]; compare_numbers d.
Qed.
Lemma mulblank_numbers w d l : MulBlankRecord d = Ok (Fields l) -> exact_numbers w 0xBE d l.
Proof.
  intros H. unfold MulBlankRecord in H. cbv zeta in H. steps H. injection H as <-. clear E0 E1 E2. values d.
  destruct x2; cbn [app]; compare_numbers d.
Qed.
Lemma codepage_numbers w d l : CodePageRecord d = Ok (Fields l) -> exact_numbers w 0x42 d l.
Proof. intros H. unfold CodePageRecord in H. steps H. injection H as <-. values d. compare_numbers d. Qed.
Lemma protect_numbers w d l : ushort_record d true "fLockWn" = Ok (Fields l) -> exact_numbers w 0x19 d l.
Proof. intros H. unfold ushort_record in H. steps H. injection H as <-. values d. compare_numbers d. Qed.
Lemma count_numbers w d l : ushort_record d false "Count" = Ok (Fields l) -> exact_numbers w 0x9C d l.
Proof. intros H. unfold ushort_record in H. steps H. injection H as <-. values d. compare_numbers d. Qed.
Lemma label_numbers w before d c l : LabelSstRecord before d = Ok (CellOver l) -> exact_numbers w 0xFD d (fld "Cell" (Str c) :: l).
Proof.
  intros H. unfold LabelSstRecord in H. steps H. injection H as <-. clear E0. values d.
  repeat match goal with |- context [match ?a with _ => _ end] => match type of a with
    | option _ => destruct a | body => destruct a | bool => destruct a end end; compare_numbers d.
Qed.
Lemma bool_numbers w d c l : BoolErrRecord d = Ok (CellOver l) -> exact_numbers w 0x205 d (fld "Cell" (Str c) :: l).
Proof.
  intros H. unfold BoolErrRecord in H. destruct (lenN d <? 8); [discriminate H|]. steps H. injection H as <-. values d.
  compare_numbers d.
Qed.

(** ** All records *)
Definition no_number (l : list field) : Prop := forall name v, ~ In (fld name (Num v)) l.
Lemma none_exact w t d l : readings w t = [] -> no_number l -> exact_numbers w t d l.
Proof.
  intros R H name v. rewrite R. split; [intros I; destruct (H _ _ I)|intros (q & [] & _)].
Qed.
Ltac no_num := intros ?name ?v; cbn [In app]; intros H; repeat (destruct H as [H|H]); try discriminate H; exact H.

Lemma string_numbers w t d f b l : string_record d f = Ok b -> readings w t = [] ->
  (forall s, no_number [f s]) -> (b = Fields l -> exact_numbers w t d l) /\ exists l', b = Fields l'.
Proof.
  intros H R F. unfold string_record in H. steps H. injection H as <-. split; [|eexists; reflexivity].
  intros [= <-]. apply none_exact; [exact R|apply F].
Qed.

Ltac shape H f := unfold f in H; cbv zeta in H; steps H; injection H as <-; eexists; reflexivity.

Lemma numbers p before t d r l : built p before 0x600 t d r -> fields p r = Ok l ->
  forall name v, In (fld name (Num v)) l <->
                 exists q, In (name, q) (readings (sizeof_wchar p =? 2) t) /\ v = taken d q.
Proof.
  intros Hb Hf. change (exact_numbers (wide p) t d l). unfold built, ParseRecord in Hb.
  destruct (record_body p before 0x600 t d) as [b|[]| |] eqn:E; try discriminate Hb. injection Hb as <-.
  change (record_body p before 0x600 t d) with (biff8 p before t d) in E. unfold biff8 in E.
  unfold fields in Hf. cbn [r_body r_moved r_data] in Hf. unfold over in Hf. cbn [r_body r_moved r_data] in Hf.
  destruct (N.eqb_spec t 0x06) as [->|N1].
  { assert (exists l', b = Fields l') as [l' ->] by shape E FormulaRecord.
    injection Hf as ->. eapply formula_numbers, E. }
  destruct (N.eqb_spec t 0x18) as [->|N2].
  { assert (exists l', b = Lbl l') as [l' ->] by shape E LblRecord. eapply lbl_numbers, Hf. }
  destruct (N.eqb_spec t 0x19) as [->|N3].
  { assert (exists l', b = Fields l') as [l' ->] by shape E ushort_record. injection Hf as ->. apply protect_numbers, E. }
  destruct (N.eqb_spec t 0x23) as [->|N4].
  { assert (exists l', b = ExternName l') as [l' ->].
    { unfold ExternNameRecord in E. steps E.
      repeat match type of E with
      | context [match ?a with _ => _ end] => match type of a with
        | option _ => destruct a | body => destruct a | bool => destruct a end
      end; steps E; injection E as <-; eexists; reflexivity. }
    eapply extern_numbers, Hf. }
  destruct (N.eqb_spec t 0x2F) as [->|N5].
  { assert (fields p (mkRec 0x2F d false b) = Ok []) as F.
    { unfold FilePassRecord in E. cbv zeta in E. steps E.
      repeat match type of E with
      | (if ?a then _ else _) = _ => destruct a; steps E
      end; injection E as <-; reflexivity. }
    change (fields p (mkRec 0x2F d false b) = Ok l) in Hf. rewrite F in Hf. injection Hf as <-.
    apply none_exact; [reflexivity|]. intros ? ? []. }
  destruct (N.eqb_spec t 0x42) as [->|N6].
  { assert (exists l', b = Fields l') as [l' ->] by shape E CodePageRecord. injection Hf as ->. apply codepage_numbers, E. }
  destruct (N.eqb_spec t 0x5C) as [->|N7].
  { destruct (string_numbers (wide p) 0x5C d _ b l E eq_refl) as [F [l' ->]]; [intros s; no_num|].
    injection Hf as ->. apply F. reflexivity. }
  destruct (N.eqb_spec t 0x85) as [->|N8].
  { assert (exists l', b = BoundSheet8 l') as [l' ->] by shape E BoundSheet8Record. eapply sheet_numbers, Hf. }
  destruct (N.eqb_spec t 0x8C) as [->|N9].
  { unfold CountryRecord in E. steps E. injection E as <-. injection Hf as <-. apply none_exact; [reflexivity|]. intros ? ? []. }
  destruct (N.eqb_spec t 0x9A) as [->|N10].
  { destruct (string_numbers (wide p) 0x9A d _ b l E eq_refl) as [F [l' ->]]; [intros s; no_num|].
    injection Hf as ->. apply F. reflexivity. }
  destruct (N.eqb_spec t 0x9C) as [->|N11].
  { assert (exists l', b = Fields l') as [l' ->] by shape E ushort_record. injection Hf as ->. apply count_numbers, E. }
  destruct (N.eqb_spec t 0xBE) as [->|N12].
  { assert (exists l', b = Fields l') as [l' ->] by shape E MulBlankRecord. injection Hf as ->. apply mulblank_numbers, E. }
  destruct (N.eqb_spec t 0xFC) as [->|N13].
  { unfold SSTRecord in E. steps E. injection E as <-. injection Hf as <-. apply none_exact; [reflexivity|].
    destruct x1; no_num. }
  destruct (N.eqb_spec t 0xFD) as [->|N14].
  { assert (exists l', b = CellOver l') as [l' ->] by shape E LabelSstRecord. steps Hf. injection Hf as <-.
    eapply label_numbers, E. }
  destruct (N.eqb_spec t 0x1AE) as [->|N15].
  { assert (exists c g l', b = SupBook c g l') as (c & g & l' & ->).
    { unfold SupBookRecord in E. cbv zeta in E. steps E. injection E as <-. do 3 eexists. reflexivity. }
    injection Hf as ->. eapply supbook_numbers, E. }
  destruct (N.eqb_spec t 0x1BA) as [->|N16].
  { destruct (string_numbers (wide p) 0x1BA d _ b l E eq_refl) as [F [l' ->]]; [intros s; no_num|].
    injection Hf as ->. apply F. reflexivity. }
  destruct (N.eqb_spec t 0x201) as [->|N17].
  { unfold BlankRecord in E. destruct (lenN d <? 6); [discriminate E|]. injection E as <-. steps Hf. injection Hf as <-.
    apply none_exact; [reflexivity|]. no_num. }
  destruct (N.eqb_spec t 0x205) as [->|N18].
  { assert (exists l', b = CellOver l') as [l' ->].
    { unfold BoolErrRecord in E. destruct (lenN d <? 8); [discriminate E|]. steps E. injection E as <-. eexists; reflexivity. }
    steps Hf. injection Hf as <-. eapply bool_numbers, E. }
  destruct (N.eqb_spec t 0x207) as [->|N19].
  { destruct (string_numbers (wide p) 0x207 d _ b l E eq_refl) as [F [l' ->]]; [intros s; no_num|].
    injection Hf as ->. apply F. reflexivity. }
  destruct (N.eqb_spec t 0x208) as [->|N20].
  { assert (exists l', b = Fields l') as [l' ->] by shape E RowRecord. injection Hf as ->. apply row_numbers, E. }
  destruct (N.eqb_spec t 0x27E) as [->|N21].
  { assert (exists x y z, b = RK x y z) as (x & y & z & ->).
    { unfold RKRecord in E. steps E. injection E as <-. do 3 eexists. reflexivity. }
    eapply rk_numbers; [exact E|exact Hf]. }
  destruct (N.eqb_spec t 0x809) as [->|N22].
  { injection E as <-. apply bof_numbers, Hf. }
  destruct (N.eqb_spec t 0x100A) as [->|N23].
  { assert (exists l', b = Fields l') as [l' ->] by shape E AreaFormatRecord. injection Hf as ->. apply area_numbers, E. }
  destruct (N.eqb_spec t 0x1050) as [->|N24].
  { unfold AlRunsRecord in E. steps E. injection E as <-. injection Hf as <-. apply none_exact; [reflexivity|]. intros ? ? []. }
  injection E as <-. injection Hf as <-. apply none_exact; [|intros ? ? []].
  unfold readings, places, layout.
  repeat match goal with |- context [t =? ?c] => rewrite (proj2 (N.eqb_neq t c)) by assumption end. reflexivity.
Qed.

(** The fields in their places *)
Lemma found_reading name l q : find_reading name l = Some q -> In (name, q) l.
Proof.
  unfold find_reading. destruct (find _ l) as [[n x]|] eqn:E; [|discriminate]. intros [= <-].
  apply find_some in E. destruct E as [I Q]. cbn [fst] in Q. apply String.eqb_eq in Q. subst n. exact I.
Qed.
Lemma numbers_right p before t d r l name pos width : built p before 0x600 t d r -> fields p r = Ok l ->
  stands t name pos width -> (forall q, ~ In (name, q) (misread (sizeof_wchar p =? 2) t)) ->
  In (fld name (Num (bit_field d pos width))) l.
Proof.
  intros Hb Hf S M. apply (numbers p before t d r l Hb Hf). exists (At pos width). split; [|reflexivity].
  unfold readings. apply in_map_iff. exists (name, (pos, width)). split; [|exact S]. cbn [fst snd].
  destruct (find_reading name (misread (sizeof_wchar p =? 2) t)) as [q|] eqn:E; [|reflexivity].
  destruct (M q (found_reading _ _ _ E)).
Qed.
