(** Which formulas come to an end. *)
From Coq Require Import List NArith ZArith Bool Lia Strings.String Strings.Byte.
From Coq Require Import ZifyBool ZifyNat ZifyN.
From Verif Require Import Lib.Res Lib.Bytes Lib.BytesFacts Lib.Text Common.Model Common.Spec Common.ReadProofs
     Excel.Number Excel.Tables Excel.Model Excel.Records Excel.Engine Excel.Spec Excel.Statements
     Excel.EngineProofs Excel.SheetProofs Excel.FormulaSpec Excel.TokenProofs Excel.FormulaProofs.
Import ListNotations.
Local Open Scope N_scope.
Ltac Zify.zify_post_hook ::= Z.div_mod_to_equations.
Arguments N.pow : simpl never.
Arguments N.mul : simpl never.
Arguments N.add : simpl never.

(** ** No step of a token loops *)
Definition ends {A} (r : res A) : Prop := r <> Fuel.
Lemma ends_bind {A C} (r : res A) (f : A -> res C) : ends r -> (forall a, r = Ok a -> ends (f a)) -> ends (bind r f).
Proof. intros H K. destruct r; cbn [bind]; try discriminate; [apply K; reflexivity|contradiction H; reflexivity]. Qed.
Lemma ends_rd d i : ends (rd d i).
Proof. unfold rd. destruct (nthN d i); discriminate. Qed.
Lemma ends_slice d i n : ends (slice d i n).
Proof. unfold slice. destruct (_ <=? _); discriminate. Qed.
Ltac easy_end :=
  repeat match goal with
  | |- ends (Ok _) => discriminate
  | |- ends (Throw _) => discriminate
  | |- ends UB => discriminate
  | |- ends (bind _ _) => apply ends_bind; [|intros ? _]
  | |- ends (rd _ _) => apply ends_rd
  | |- ends (slice _ _ _) => apply ends_slice
  | |- ends (if ?b then _ else _) => destruct b
  | |- ends (match ?x with _ => _ end) => destruct x
  | |- ends (text _ _) => discriminate
  | |- ends (said _ _ _) => discriminate
  end.
Lemma ends_us d max off be_ : ends (ReadUShort d max off be_).
Proof. unfold ReadUShort. easy_end. Qed.
Lemma ends_ss d max off be_ : ends (ReadSInt d max off be_).
Proof. unfold ReadSInt. easy_end. Qed.
Lemma ends_ui d max off be_ : ends (ReadUInt d max off be_).
Proof. unfold ReadUInt. easy_end. Qed.
Lemma ends_mapM {A C} (f : A -> res C) l : (forall a, ends (f a)) -> ends (mapM f l).
Proof. intros H. induction l as [|a l IH]; [discriminate|]. cbn [mapM]. apply ends_bind; [apply H|]. intros ? _. apply ends_bind; [exact IH|]. discriminate. Qed.
Lemma ends_convert l : ends (convert l).
Proof. unfold convert. apply ends_bind; [|discriminate]. apply ends_mapM. intros c. unfold utf8_unit. easy_end. Qed.
Lemma ends_wide p d off n : ends (wide p d off n).
Proof. unfold wide. easy_end. Qed.
Ltac ending :=
  repeat match goal with
  | |- ends (Ok _) => discriminate
  | |- ends (Throw _) => discriminate
  | |- ends UB => discriminate
  | |- ends (bind _ _) => apply ends_bind; [|intros ? _]
  | |- ends (rd _ _) => apply ends_rd
  | |- ends (slice _ _ _) => apply ends_slice
  | |- ends (text _ _) => discriminate
  | |- ends (said _ _ _) => discriminate
  | |- ends (ReadUShort _ _ _ _) => apply ends_us
  | |- ends (us _ _ _) => apply ends_us
  | |- ends (ReadSInt _ _ _ _) => apply ends_ss
  | |- ends (ReadUInt _ _ _ _) => apply ends_ui
  | |- ends (convert _) => apply ends_convert
  | |- ends (wide _ _ _ _) => apply ends_wide
  | H : forall _, ends (?f _) |- ends (?f _) => apply H
  | H : forall _ _ _, ends (?f _ _ _) |- ends (?f _ _ _) => apply H
  | |- ends (if ?b then _ else _) => destruct b
  | |- ends (match ?x with _ => _ end) => destruct x
  end.
Lemma ends_short p d off : ends (ShortString p d off).
Proof. unfold ShortString. ending. Qed.
Lemma ends_unicode d off max : ends (UnicodeString d off max).
Proof. unfold UnicodeString. ending. Qed.
Lemma ends_nocch p d max off size : ends (NoCchString p d max off size).
Proof. unfold NoCchString. ending. Qed.
Lemma ends_rich p d off max : ends (RichString p d off max).
Proof. unfold RichString. ending. Qed.
Lemma ends_offsets d max n : forall i, ends (offsets d max n i).
Proof. induction n as [|n IH]; intros i; cbn [offsets]; [discriminate|]. apply ends_bind; [apply ends_us|]. intros ? _. apply IH. Qed.
Lemma ends_load d off n : ends (load d off n).
Proof. unfold load. easy_end. Qed.
Lemma token_ends p d max i : ends (token p d max i).
Proof.
  unfold token. apply ends_bind; [apply ends_rd|]. intros t _.
  repeat match goal with
  | |- ends (if ?b then _ else _) => destruct b
  end;
  unfold basic, attr, attr_space, attr_choose, elf_basic, elf_more, elf_lel, elf_radical_s, sx_name, mem_err, mem, area_err, area_err3d,
    elf, elf_loc, ixti, loc, area, Excel.Model.column, first;
  pose proof (ends_short p d) as F1; pose proof (ends_offsets d max) as F2; pose proof (ends_load d) as F3;
  ending; solve [apply F1 | apply F2 | apply F3].
Qed.

(** ** Every other token moves on *)
Definition grows (r : res (ptg * N)) : Prop := forall x n, r = Ok (x, n) -> 1 <= n <= 300.
Lemma grows_bind {A} (r : res A) f : (forall a, r = Ok a -> grows (f a)) -> grows (bind r f).
Proof. intros H. destruct r; cbn [bind]; try (intros ? ? K; discriminate K). apply H. reflexivity. Qed.
Lemma grows_text s n : 1 <= n <= 300 -> grows (text s n).
Proof. intros H x m K. injection K as _ <-. exact H. Qed.
Lemma grows_said s i n : 1 <= n <= 300 -> grows (said s i n).
Proof. intros H x m K. injection K as _ <-. exact H. Qed.
Lemma grows_ok x n : 1 <= n <= 300 -> grows (Ok (x, n)).
Proof. intros H y m K. injection K as _ <-. exact H. Qed.
Lemma short_size p d off s : ShortString p d off = Ok s -> snd s <= 257.
Proof.
  unfold ShortString. intros H. apply bind_ok in H. destruct H as (cch & E & H).
  assert (B : cch < 256) by (unfold rd in E; destruct (nthN d off); [|discriminate E]; injection E as <-; apply b2n_lt).
  apply bind_ok in H. destruct H as (f & _ & H). destruct (_ =? 0).
  - apply bind_ok in H. destruct H as (w & _ & H). injection H as <-. cbn [snd]. lia.
  - apply bind_ok in H. destruct H as (w & _ & H). apply bind_ok in H. destruct H as (v & _ & H). injection H as <-. cbn [snd]. lia.
Qed.
Ltac growing :=
  repeat match goal with
  | |- grows (bind (ShortString _ _ _) _) => apply grows_bind; let s := fresh "s" in let E := fresh "E" in intros s E; apply short_size in E
  | |- grows (bind _ _) => apply grows_bind; intros ? _
  | |- grows (text _ _) => apply grows_text; lia
  | |- grows (said _ _ _) => apply grows_said; lia
  | |- grows (Ok (_, _)) => apply grows_ok; lia
  | |- grows UB => intros ? ? K; discriminate K
  | |- grows (if ?b then _ else _) => destruct b
  end.
Lemma token_grows p d max i a b : rd d i = Ok a -> (forall b', rd d (u32 (i + 1)) = Ok b' -> b' = b) -> moves_on a b -> grows (token p d max i).
Proof.
  intros Ha Hb [M1 M2]. unfold token. rewrite Ha. cbn [bind].
  repeat match goal with
  | |- grows (if (?x =? 24) then _ else _) => destruct (N.eqb_spec x 24) as [->|?]
  | |- grows (if (?x =? 25) then _ else _) => destruct (N.eqb_spec x 25) as [->|?]
  | |- grows (if ?c then _ else _) => destruct c
  end;
  try match type of Ha with
  | _ = Ok 24 => fail 1
  | _ = Ok 25 => fail 1
  | _ => solve [unfold basic, mem_err, mem, area_err, area_err3d, ixti, loc, area, Excel.Model.column, first; growing]
  end.
  - apply grows_bind. intros b' E. apply Hb in E. subst b'. specialize (M1 eq_refl). unfold known18 in M1. cbn [In] in M1.
    repeat destruct M1 as [<-|M1]; try contradiction; choose; unfold elf_basic, elf_more, elf_lel, elf_radical_s, sx_name; growing.
  - apply grows_bind. intros b' E. apply Hb in E. subst b'. specialize (M2 eq_refl). unfold known19 in M2. cbn [In] in M2.
    repeat destruct M2 as [<-|M2]; try contradiction; choose; unfold attr, attr_space; growing.
Qed.

Lemma token_moves p d max i : i + 1 < 2 ^ 32 ->
  (forall a b, rd d i = Ok a -> rd d (i + 1) = Ok b -> moves_on a b) -> grows (token p d max i).
Proof.
  intros B H. destruct (rd d i) as [a|e| |] eqn:E; [|unfold token; rewrite E; intros ? ? K; discriminate K..].
  destruct (rd d (i + 1)) as [b|e| |] eqn:E2.
  - apply (token_grows p d max i a b E); [|apply H; reflexivity]. intros b' E'. rewrite u32_small in E' by exact B. congruence.
  - apply (token_grows p d max i a 1 E); [intros b' E'; rewrite u32_small in E' by exact B; congruence|].
    split; intros _; unfold known18, known19; cbn [In]; tauto.
  - apply (token_grows p d max i a 1 E); [intros b' E'; rewrite u32_small in E' by exact B; congruence|].
    split; intros _; unfold known18, known19; cbn [In]; tauto.
  - apply (token_grows p d max i a 1 E); [intros b' E'; rewrite u32_small in E' by exact B; congruence|].
    split; intros _; unfold known18, known19; cbn [In]; tauto.
Qed.
Lemma rgce_ends p d max : max < 2 ^ 31 -> forall k i,
  (forall j a b, i <= j -> j < max -> rd d j = Ok a -> rd d (j + 1) = Ok b -> moves_on a b) ->
  max - i < N.of_nat k -> ends (rgce p d max k i).
Proof.
  intros HB. induction k as [|k IH]; intros i H F; [lia|]. cbn [rgce]. destruct (N.ltb_spec i max); [|discriminate].
  apply ends_bind; [apply token_ends|]. intros [x n] E.
  assert (G : 1 <= n <= 300).
  { apply (token_moves p d max i ltac:(lia)) with (x := x); [|exact E]. intros a b Ea Eb. apply (H i); auto; lia. }
  cbn [snd]. rewrite u32_small by lia. apply ends_bind; [|intros ? _; discriminate].
  apply IH; [|lia]. intros j a b J1 J2. apply H; lia.
Qed.
Lemma nthN_two (d : bytes) j a b : nthN d j = Some a -> nthN d (j + 1) = Some b -> d = takeN j d ++ [a; b] ++ dropN (j + 2) d.
Proof.
  intros Ha Hb. rewrite <- (takeN_dropN j d) at 1. f_equal. rewrite (dropN_cons_nth d j a Ha), (dropN_cons_nth d (j + 1) b Hb).
  replace (j + 1 + 1) with (j + 2) by lia. reflexivity.
Qed.
Lemma formula_ends p l d : 22 <= lenN d -> lenN d < 2 ^ 31 ->
  (forall j a b, 22 <= j -> occurs_at [a; b] d j -> moves_on (b2n a) (b2n b)) -> ends (FormulaRecord p l d).
Proof.
  intros H B M. destruct (formula_head p l d H B) as (fs & ->). apply ends_bind.
  - apply rgce_ends; [exact B| |unfold lenN; lia]. intros j a b J1 J2 Ea Eb.
    destruct (rd_lt d j J2) as (a' & Ea' & Na). rewrite Ea in Ea'. injection Ea' as ->.
    destruct (N.ltb_spec (j + 1) (lenN d)) as [L|L]; [|rewrite rd_ge in Eb by exact L; discriminate Eb].
    destruct (rd_lt d (j + 1) L) as (b' & Eb' & Nb). rewrite Eb in Eb'. injection Eb' as ->.
    apply (M j a' b' J1). exists (takeN j d), (dropN (j + 2) d). split; [|rewrite lenN_takeN; lia].
    apply (nthN_two d j a' b' Na Nb).
  - intros ts _. unfold extra. ending.
Qed.

(** ** A token that is not known *)
Lemma token_unknown p d max i a b : rd d i = Ok a -> rd d (u32 (i + 1)) = Ok b -> unknown a b ->
  exists x, token p d max i = Ok (x, 0).
Proof.
  intros Ha Hb U. unfold token. rewrite Ha. cbn [bind].
  destruct U as [[-> U]|[-> U]]; choose; rewrite Hb; cbn [bind];
    unfold known18, known19 in U; cbn [In] in U;
    repeat match goal with
    | |- context [?x =? ?y] => destruct (N.eqb_spec x y) as [->|?]; [contradiction U; tauto|]
    end; eexists; reflexivity.
Qed.
Lemma rgce_stays p d max k i x : i < max -> i < 2 ^ 32 -> token p d max i = Ok (x, 0) -> rgce p d max k i = Fuel.
Proof.
  intros L B E. induction k as [|k IH]; [reflexivity|]. cbn [rgce]. destruct (N.ltb_spec i max); [|lia]. rewrite E. cbn [bind snd].
  rewrite N.add_0_r, u32_small by exact B. rewrite IH. reflexivity.
Qed.
Lemma formula_unknown p l d ts a b more : 22 <= lenN d -> lenN d < 2 ^ 31 -> Forall token_ok ts ->
  here d 22 (tokens_bytes ts ++ a :: b :: more) -> unknown (b2n a) (b2n b) -> FormulaRecord p l d = Fuel.
Proof.
  intros H B K E U. destruct (formula_head p l d H B) as (fs & ->).
  pose proof (here_len _ _ _ E) as LE. rewrite lenN_app, !lenN_cons in LE. apply here_app in E. destruct E as [E1 E2].
  apply here_cons in E2. destruct E2 as [Ea E2]. apply here_cons in E2. destruct E2 as [Eb _].
  pose proof (tokens_length ts) as TL.
  destruct (rgce_read p d (lenN d) (N.le_refl _) B ts 22 (S (List.length d) - List.length ts) E1 K) as (xs & _ & EX & _); [lia|].
  replace (List.length ts + (S (List.length d) - List.length ts))%nat with (S (List.length d)) in EX by (unfold lenN in *; lia).
  rewrite EX. destruct (token_unknown p d (lenN d) (22 + lenN (tokens_bytes ts)) (b2n a) (b2n b)) as (x & T).
  - apply here_rd, Ea.
  - rewrite u32_small by lia. apply here_rd, Eb.
  - exact U.
  - rewrite (rgce_stays _ _ _ _ _ x) by (lia || exact T). reflexivity.
Qed.

(** ** The other records *)
Lemma signed_room a b : a < 2 ^ 29 -> b < 2 ^ 30 -> (signed 32 (subw 32 a b) <= Z.of_N a)%Z.
Proof.
  intros A B. unfold signed, subw. rewrite (N.mod_small b) by (change (2 ^ 32) with (4 * 2 ^ 30); lia).
  change (32 - 1) with 31. change (2 ^ 32) with 4294967296. change (2 ^ 31) with 2147483648. change (2 ^ 29) with 536870912 in A.
  change (2 ^ 30) with 1073741824 in B.
  destruct (N.ltb_spec ((a + 4294967296 - b) mod 4294967296) 2147483648); lia.
Qed.
Lemma rich_size p d off s : off < lenN d -> lenN d < 2 ^ 29 -> RichString p d off (lenN d) = Ok s -> 3 <= snd s <= 9 + 2 * lenN d.
Proof.
  intros H B E. unfold RichString in E. apply bind_ok in E. destruct E as (cch & E0 & E). apply bind_ok in E. destruct E as (f & _ & E).
  assert (C : cch < 2 ^ 16).
  { unfold ReadUShort in E0. destruct (_ <? _) in E0; [discriminate E0|]. apply bind_ok in E0. destruct E0 as (b0 & _ & E0).
    apply bind_ok in E0. destruct E0 as (b1 & _ & E0). injection E0 as <-. unfold u16. lia. }
  cbv zeta in E. apply bind_ok in E. destruct E as (i1 & E1 & E). apply bind_ok in E. destruct E as (i2 & E2 & E).
  assert (L1 : off + 3 <= i1 <= off + 5).
  { destruct (_ =? 1) in E1; [apply bind_ok in E1; destruct E1 as (? & _ & E1)|]; injection E1 as <-; rewrite !u32_small by (rewrite ?u32_small by lia; lia); lia. }
  assert (L2 : off + 3 <= i2 <= off + 9).
  { destruct (_ =? 1) in E2; [apply bind_ok in E2; destruct E2 as (? & _ & E2)|]; injection E2 as <-; rewrite ?u32_small by lia; lia. }
  clear E0 E1 E2. rewrite u32_small in E by lia.
  set (n := if lenN d <? cch + i2 then signed 32 (subw 32 (lenN d) i2) else Z.of_N cch) in E.
  destruct (Z.ltb_spec n 0) as [N0|N0]; [discriminate E|].
  assert (LN : (n <= Z.of_N (lenN d))%Z).
  { subst n. destruct (N.ltb_spec (lenN d) (cch + i2)); [|lia]. apply signed_room; lia. }
  clearbody n.
  destruct (_ =? 0) in E.
  - apply bind_ok in E. destruct E as (w & _ & E). injection E as <-. cbn [snd]. lia.
  - apply bind_ok in E. destruct E as (w & _ & E). apply bind_ok in E. destruct E as (v & _ & E). injection E as <-. cbn [snd]. lia.
Qed.
Lemma sst_ends p d unique : lenN d < 2 ^ 29 -> forall k i index, lenN d - index < N.of_nat k -> ends (sst_strings p d k i unique index).
Proof.
  intros B. induction k as [|k IH]; intros i index F; [lia|]. cbn [sst_strings]. destruct (_ && _) eqn:C; [|discriminate].
  apply andb_prop in C. destruct C as [_ C]. apply ends_bind; [apply ends_rich|]. intros s E. apply rich_size in E; [|lia|exact B].
  apply ends_bind; [|intros ? _; discriminate]. apply IH. rewrite u32_small by lia. lia.
Qed.
Lemma ends_sup d n : forall i, ends (sup_strings d n i).
Proof. induction n as [|n IH]; intros i; cbn [sup_strings]; [discriminate|]. apply ends_bind; [apply ends_unicode|]. intros ? _. apply ends_bind; [apply IH|]. discriminate. Qed.
Lemma ends_ushorts d n : forall i, ends (ushorts d n i).
Proof. induction n as [|n IH]; intros i; cbn [ushorts]; [discriminate|]. apply ends_bind; [apply ends_us|]. intros ? _. apply ends_bind; [apply IH|]. discriminate. Qed.
Lemma ends_runs d n : forall i, ends (runs d n i).
Proof. induction n as [|n IH]; intros i; cbn [runs]; [discriminate|]. apply ends_bind; [apply ends_us|]. intros ? _. apply ends_bind; [apply ends_us|]. intros ? _. apply IH. Qed.
Lemma ends_string d m off n : ends (ReadString d m off n).
Proof. unfold ReadString. ending. Qed.
Lemma ends_wstring p d m off n : ends (ReadWString p d m off n).
Proof. unfold ReadWString. ending. Qed.

(** The bytes of a record come to an end: no pair of bytes that does not move on *)
Definition quiet (d : bytes) : Prop := forall j a b, occurs_at [a; b] d j -> moves_on (b2n a) (b2n b).
Lemma quiet_rd d j a b : quiet d -> rd d j = Ok a -> rd d (j + 1) = Ok b -> moves_on a b.
Proof.
  intros Q Ea Eb.
  destruct (N.ltb_spec (j + 1) (lenN d)) as [L|L]; [|rewrite rd_ge in Eb by exact L; discriminate Eb].
  destruct (rd_lt d j) as (a' & Ea' & Na); [lia|]. rewrite Ea in Ea'. injection Ea' as ->.
  destruct (rd_lt d (j + 1) L) as (b' & Eb' & Nb). rewrite Eb in Eb'. injection Eb' as ->.
  apply (Q j a' b'). exists (takeN j d), (dropN (j + 2) d). split; [|rewrite lenN_takeN; lia].
  apply (nthN_two d j a' b' Na Nb).
Qed.
Lemma formula_quiet p l d : quiet d -> lenN d < 2 ^ 31 -> ends (FormulaRecord p l d).
Proof.
  intros Q B. destruct (N.leb_spec 22 (lenN d)) as [H|H].
  - apply formula_ends; [exact H|exact B|]. intros j a b _ O. apply (Q j a b O).
  - unfold FormulaRecord. cbv zeta. pose proof (ends_load d) as F. ending; try apply F.
    apply rgce_ends; [exact B| |unfold lenN; lia]. intros j x y J1 J2. lia.
    unfold extra. ending.
Qed.
Lemma lbl_quiet p d : quiet d -> lenN d < 2 ^ 29 -> ends (LblRecord p d).
Proof.
  intros Q B. unfold LblRecord. cbv zeta. apply ends_bind; [apply ends_rd|]. intros cch EC.
  apply ends_bind; [apply ends_nocch|]. intros n EN. apply ends_bind; [apply ends_load|]. intros cce ECE.
  apply ends_bind; [|intros ts _; unfold extra; ending].
  assert (BC : cch < 256) by (unfold rd in EC; destruct (nthN d 3); [|discriminate EC]; injection EC as <-; apply b2n_lt).
  assert (BE : cce < 2 ^ 16).
  { unfold load in ECE. apply bind_ok in ECE. destruct ECE as (x & E & [= <-]). apply slice_inv in E. destruct E as (_ & -> & _). apply le2_lt. }
  assert (BN : snd n <= 511).
  { unfold NoCchString in EN. destruct (_ <=? _) in EN; [|discriminate EN]. apply bind_ok in EN. destruct EN as (f & _ & EN). destruct (_ =? 0) in EN; destruct (_ <=? _) in EN;
      repeat (apply bind_ok in EN; destruct EN as (? & _ & EN)); injection EN as <-; cbn [snd]; lia. }
  rewrite (u32_small (14 + snd n)), u32_small by (rewrite ?u32_small by lia; lia).
  apply rgce_ends; [lia| |lia]. intros j a b _ _ Ea Eb. apply (quiet_rd d j a b Q Ea Eb).
Qed.
Lemma record_ends p l v t d : lenN d < 2 ^ 29 -> (t = 0x06 \/ t = 0x18 -> quiet d) -> ends (ParseRecord p l v t d).
Proof.
  intros B Q. assert (E : ends (record_body p l v t d)).
  { unfold record_body, biff8.
    destruct (N.eqb_spec t 0x06) as [->|_]; [|destruct (N.eqb_spec t 0x18) as [->|_]].
    - destruct (v =? 1536); [apply formula_quiet; [auto|lia]|]. unfold BoundSheet5Record. ending.
    - destruct (v =? 1536); [apply lbl_quiet; [auto|lia]|]. unfold BoundSheet5Record. ending.
    - clear Q. pose proof (ends_load d) as F1. pose proof (ends_short p d) as F2. pose proof (ends_string d) as F3.
      pose proof (ends_wstring p d) as F4. pose proof (ends_unicode d) as F5. pose proof (ends_sup d) as F6.
      pose proof (ends_ushorts d) as F7. pose proof (ends_runs d) as F8.
      unfold BoundSheet5Record, BoundSheet8Record, ushort_record, ExternNameRecord, prev_of_type, FilePassRecord, CodePageRecord, string_record,
        CountryRecord, MulBlankRecord, LabelSstRecord, SupBookRecord, BlankRecord, BoolErrRecord, RowRecord, RKRecord, AreaFormatRecord, LongRGB,
        AlRunsRecord, SSTRecord; cbv zeta;
      ending; try solve [apply F1|apply F2|apply F3|apply F4|apply F5|apply F6|apply F7|apply F8].
      + apply sst_ends; [exact B|unfold lenN; lia].
      + unfold prev_of_type. ending. }
  unfold ParseRecord. destruct (record_body p l v t d) as [b|e| |]; try discriminate; [|contradiction E; reflexivity].
  destruct e; discriminate.
Qed.

(** ** The stream *)
Lemma continue_ends n l : ends (continue_prev n l).
Proof. unfold continue_prev. induction l as [|r l IH]; [discriminate|]. destruct (_ =? 60); [|discriminate]. apply ends_bind; [exact IH|]. discriminate. Qed.
Lemma process_ends p max t n d s : lenN d < 2 ^ 29 -> (t = 0x06 \/ t = 0x18 -> quiet d) -> ends (process p max t n d s).
Proof.
  intros B Q. unfold process. apply ends_bind.
  - unfold continued. destruct (_ && _); [|discriminate]. apply ends_bind; [apply continue_ends|discriminate].
  - intros s1 _. apply ends_bind; [apply record_ends; assumption|]. intros r _. apply ends_bind; [|discriminate].
    destruct r as [r|]; [|discriminate]. unfold add. apply ends_bind; [|discriminate].
    pose proof (ends_load (r_data r)) as F. unfold substream, bound_sheet, new_sheet. cbv zeta. ending; apply F.
Qed.
Lemma loop_ends p S : lenN S < 2 ^ 30 -> forall k s, s_index s < 2 ^ 32 - 4 -> lenN S < N.of_nat k + s_index s -> k <> O ->
  (forall t d, In (t, d) (seen_from k (dropN (s_index s) S)) -> t = 0x06 \/ t = 0x18 -> quiet d) ->
  loop p S k s <> Endless.
Proof.
  intros HS. induction k as [|k IH]; intros s Hs HK NK Q; [congruence|]. cbn [loop].
  rewrite (u32_small (s_index s + 4)) by lia. destruct (N.ltb_spec (s_index s + 4) (lenN S)) as [Hi|Hi]; [|discriminate].
  destruct (turn_at p S s Hi HS) as (t & n & d & E & Hn & D).
  assert (QD : t = 0x06 \/ t = 0x18 -> quiet d).
  { intros T. destruct D as [(_ & _ & D)|(-> & _ & D)]; rewrite D in Q; apply (Q t); try exact T; left; reflexivity. }
  assert (LD : lenN d < 2 ^ 29) by (destruct D as [(-> & _ & _)|(-> & _ & _)]; [|change (lenN (@nil byte)) with 0]; lia).
  pose proof (process_ends p (lenN S) t n d (at_index (s_index s + 4) s) LD QD) as P. rewrite <- E in P.
  destruct (turn p S s) as [s'|e| |] eqn:ET; try discriminate; [|contradiction P; reflexivity].
  pose proof (turn_index p S s s' Hi HS ET) as [I1 I2].
  destruct D as [(LN & LI & D)|(-> & LI & _)].
  - symmetry in E. clear ET. rename E into ET. apply process_ents in ET. cbn [at_index s_index] in ET. rewrite D in Q.
    destruct (N.eqb_spec (s_index s') (s_index s + 4 + n)) as [X|X].
    + apply IH; try lia. intros t' d' I T. apply (Q t'); [|exact T]. right. rewrite <- X. exact I.
    + assert (G : lenN S <= s_index s').
      { destruct ET as [[_ EI]|(_ & _ & EI)].
        - destruct (t =? 47).
          + rewrite (u32_small (s_index s + 4 + lenN S)) in EI by lia. rewrite u32_small in EI by lia. lia.
          + rewrite u32_small in EI by lia. lia.
        - rewrite u32_small in EI by lia. lia. }
      destruct k as [|k']; [lia|]. cbn [loop]. rewrite u32_small by lia. destruct (N.ltb_spec (s_index s' + 4) (lenN S)); [lia|discriminate].
  - assert (G : lenN S <= s_index s').
    { symmetry in E. clear ET. rename E into ET. apply process_ents in ET. cbn [at_index s_index] in ET. destruct ET as [[_ EI]|(_ & _ & EI)].
      - destruct (t =? 47); [rewrite (u32_small (s_index s + 4 + lenN S)) in EI by lia|]; rewrite u32_small in EI by lia; lia.
      - rewrite u32_small in EI by lia. lia. }
    destruct k as [|k']; [lia|]. cbn [loop]. rewrite u32_small by lia. destruct (N.ltb_spec (s_index s' + 4) (lenN S)); [lia|discriminate].
Qed.
Lemma detailer_ends p what S : lenN S < 2 ^ 30 ->
  (forall t d, In (t, d) (seen S) -> t = 0x06 \/ t = 0x18 -> quiet d) -> Detailer p what S <> Fuel.
Proof.
  intros HS Q H. unfold Detailer, ParseStream in H.
  assert (L : loop p S (Datatypes.S (List.length S)) state0 <> Endless).
  { apply loop_ends; try exact HS; cbn [state0 s_index]; try lia; [unfold lenN; lia|]. rewrite dropN_0. intros t d I. apply Q. revert I.
    rewrite seen_fuel by lia. auto. }
  destruct (loop p S _ state0) as [s|e s| |]; try discriminate H; [| |congruence]; destruct (s_vers s); discriminate H.
Qed.
