(** Which bytes of a property set stream are used. *)
From Coq Require Import List NArith ZArith Bool Lia.
From Coq Require Import ZifyBool ZifyNat ZifyN.
From Verif Require Import Lib.Res Lib.Bytes Lib.BytesFacts Common.Model Common.Spec Common.Fields Common.FieldProofs
     Common.ReadProofs Common.Utf8 Common.Utf8Proofs Propset.Model Propset.Spec Propset.Statements Propset.ValueProofs
     Propset.StreamProofs.
Import ListNotations.
Local Open Scope N_scope.
Ltac Zify.zify_post_hook ::= Z.div_mod_to_equations.
Arguments N.pow : simpl never.
Arguments N.mul : simpl never.

(** ** Nothing runs out of fuel *)
Lemma bind_nofuel {A C} (m : res A) (f : A -> res C) : m <> Fuel -> (forall a, m = Ok a -> f a <> Fuel) -> bind m f <> Fuel.
Proof. destruct m; cbn; intros H1 H2; auto; discriminate. Qed.
Lemma rd_nofuel buf i : rd buf i <> Fuel.
Proof. unfold rd. destruct (nthN buf i); discriminate. Qed.
Lemma slice_nofuel buf o n : slice buf o n <> Fuel.
Proof. unfold slice. destruct (_ <=? _); discriminate. Qed.
Lemma ReadUShort_nofuel buf m o b : ReadUShort buf m o b <> Fuel.
Proof.
  unfold ReadUShort. destruct (_ <? _); [discriminate|].
  repeat (apply bind_nofuel; [apply rd_nofuel|intros ? _]). destruct b; discriminate.
Qed.
Lemma ReadUInt_nofuel buf m o b : ReadUInt buf m o b <> Fuel.
Proof.
  unfold ReadUInt. destruct (_ <? _); [discriminate|].
  repeat (apply bind_nofuel; [apply rd_nofuel|intros ? _]). destruct b; discriminate.
Qed.
Lemma unit_nofuel c : utf8_unit c <> Fuel.
Proof. unfold utf8_unit. repeat (destruct (_ <? _); [discriminate|]). discriminate. Qed.
Lemma mapM_nofuel {A C} (f : A -> res C) l : (forall x, In x l -> f x <> Fuel) -> mapM f l <> Fuel.
Proof.
  induction l as [|x l IH]; intros H; cbn [mapM]; [discriminate|].
  apply bind_nofuel; [apply H; left; reflexivity|]. intros y _.
  apply bind_nofuel; [apply IH; intros z Hz; apply H; right; exact Hz|]. discriminate.
Qed.
Lemma convert_nofuel w : convert w <> Fuel.
Proof. unfold convert. apply bind_nofuel; [apply mapM_nofuel; intros; apply unit_nofuel|discriminate]. Qed.
Lemma ReadString_nofuel buf m o n : ReadString buf m o n <> Fuel.
Proof. unfold ReadString. destruct (_ <? _); [discriminate|apply slice_nofuel]. Qed.
Lemma ReadWString_nofuel pl buf m o n : ReadWString pl buf m o n <> Fuel.
Proof.
  unfold ReadWString. destruct (_ <? _); [discriminate|]. destruct (_ <? _); [|discriminate].
  apply bind_nofuel; [apply slice_nofuel|discriminate].
Qed.
Lemma ReadFloatBits_nofuel buf m o : ReadFloatBits buf m o <> Fuel.
Proof. unfold ReadFloatBits. destruct (_ <? _); [discriminate|]. apply bind_nofuel; [apply slice_nofuel|discriminate]. Qed.
Lemma ReadDoubleBits_nofuel buf m o : ReadDoubleBits buf m o <> Fuel.
Proof. unfold ReadDoubleBits. destruct (_ <? _); [discriminate|]. apply bind_nofuel; [apply slice_nofuel|discriminate]. Qed.
Lemma ReadValue_nofuel pl buf t i : ReadValue pl buf t i <> Fuel.
Proof.
  unfold ReadValue. rewrite ReadSShort_signed, ReadSInt_signed. unfold rmap. cbv zeta.
  repeat match goal with |- (if ?c then _ else _) <> Fuel => destruct c end; try discriminate;
  repeat (match goal with
          | |- bind _ _ <> Fuel => apply bind_nofuel; [|intros ? _]
          | |- Ok _ <> Fuel => discriminate
          | _ => first [ apply ReadUShort_nofuel | apply ReadUInt_nofuel | apply convert_nofuel | apply ReadString_nofuel
                       | apply ReadWString_nofuel | apply ReadFloatBits_nofuel | apply ReadDoubleBits_nofuel ]
          end).
Qed.
Lemma ReadProperty_nofuel pl buf o p f : ReadProperty pl buf o p f <> Fuel.
Proof.
  unfold ReadProperty. apply bind_nofuel; [apply slice_nofuel|intros ? _].
  apply bind_nofuel; [apply ReadValue_nofuel|discriminate].
Qed.

Lemma parse_properties_nofuel pl buf start f : lenN buf < 2 ^ 32 -> forall fuel index n,
  lenN buf < index + 8 * N.of_nat fuel -> (0 < fuel)%nat -> parse_properties fuel pl buf start f index n <> Fuel.
Proof.
  intros HL. induction fuel as [|k IH]; intros index n H Hf; [lia|]. cbn [parse_properties].
  destruct (n =? 0); [discriminate|].
  apply bind_nofuel; [apply slice_nofuel|]. intros w Hw. apply slice_inv in Hw.
  apply bind_nofuel; [apply ReadProperty_nofuel|]. intros p _.
  apply bind_nofuel; [|discriminate].
  rewrite u32_small by lia. apply IH; lia.
Qed.
Lemma guid_nofuel a b n : guid_loop a b n <> Fuel.
Proof.
  revert a b. induction n as [|n IH]; intros [|x a] [|y b]; cbn [guid_loop]; try discriminate.
  destruct (byte_eqb x y); [apply IH|discriminate].
Qed.
Lemma Format_nofuel g : FormatIdFromGuid g <> Fuel.
Proof.
  unfold FormatIdFromGuid, VerifyGuids.
  apply bind_nofuel; [apply guid_nofuel|intros [] _; [discriminate|]].
  apply bind_nofuel; [apply guid_nofuel|intros [] _; [discriminate|]].
  apply bind_nofuel; [apply guid_nofuel|intros [] _; discriminate].
Qed.
Lemma parse_set_nofuel pl buf i : lenN buf < 2 ^ 32 -> parse_set pl buf i <> Fuel.
Proof.
  intros HL. unfold parse_set. destruct (_ <? _); [discriminate|].
  apply bind_nofuel; [apply slice_nofuel|intros g _].
  apply bind_nofuel; [apply slice_nofuel|intros o _]. cbv zeta.
  destruct (lenN buf <? le o + 8) eqn:E; [discriminate|].
  apply bind_nofuel; [apply slice_nofuel|intros n _].
  apply bind_nofuel; [apply Format_nofuel|intros f _].
  apply parse_properties_nofuel; [exact HL| |lia]. unfold lenN in *. lia.
Qed.
Lemma parse_sets_nofuel pl buf n : lenN buf < 2 ^ 32 -> n < 2 ^ 32 -> forall fuel i,
  lenN buf < 28 + 20 * i + 20 * N.of_nat fuel -> (0 < fuel)%nat -> 28 + 20 * i < 2 ^ 32 -> parse_sets fuel pl buf i n <> Fuel.
Proof.
  intros HL Hn. induction fuel as [|k IH]; intros i H Hf Hi; [lia|]. cbn [parse_sets].
  destruct (N.leb_spec n i) as [L|L]; [discriminate|].
  rewrite (u32_small (28 + i * 20)) by lia.
  apply bind_nofuel; [apply parse_set_nofuel; exact HL|]. intros l El.
  apply bind_nofuel; [|discriminate].
  assert (B : 28 + i * 20 + 20 <= lenN buf).
  { unfold parse_set in El. destruct (N.ltb_spec (lenN buf) (28 + i * 20 + 20)); [discriminate|lia]. }
  rewrite u32_small by lia. apply IH; lia.
Qed.

Lemma C67_terminates pl buf : lenN buf < 2 ^ 32 -> ParseBytes pl buf <> Fuel.
Proof.
  intros HL. unfold ParseBytes. destruct (lenN buf =? 0); [discriminate|].
  destruct (lenN buf <? 28) eqn:E28; [discriminate|].
  apply bind_nofuel; [apply slice_nofuel|]. intros w Hw.
  assert (Hn : le w < 2 ^ 32).
  { apply slice_window in Hw. pose proof (le_bound w) as B. rewrite (proj1 Hw) in B. exact B. }
  apply parse_sets_nofuel; [exact HL|exact Hn| |lia|lia]. unfold lenN in *. lia.
Qed.

(** ** A result means that the tables are inside *)
Lemma slice_number buf off n w : slice buf off n = Ok w -> number_at buf off n (le w).
Proof. intros H. exists w. split; [apply slice_window; exact H|reflexivity]. Qed.

Lemma parse_properties_inv pl buf start f : lenN buf < 2 ^ 32 -> forall fuel index n l,
  parse_properties fuel pl buf start f index n = Ok l ->
  exists rows, lenN rows = n /\ mapM (read_entry pl buf start f) rows = Ok l /\
    forall j e, nthN rows j = Some e -> number_at buf (index + 8 * j) 4 (fst e) /\ number_at buf (index + 8 * j + 4) 4 (snd e).
Proof.
  intros HL. induction fuel as [|k IH]; intros index n l H; cbn [parse_properties] in H.
  - destruct (N.eqb_spec n 0) as [->|Hn]; [|discriminate]. injection H as <-. exists [].
    split; [reflexivity|]. split; [reflexivity|]. discriminate.
  - destruct (N.eqb_spec n 0) as [->|Hn].
    { injection H as <-. exists []. split; [reflexivity|]. split; [reflexivity|]. discriminate. }
    apply bind_ok in H. destruct H as (w & Ew & H). apply bind_ok in H. destruct H as (p & Ep & H).
    apply bind_ok in H. destruct H as (r & Er & H). injection H as <-.
    apply slice_window in Ew. pose proof (window_len _ _ _ _ Ew) as Lw.
    pose proof (window_split buf index 4 4 w Ew) as [W1 W2].
    rewrite u32_small in Er by lia. destruct (IH _ _ _ Er) as (rows & L & E & R).
    exists ((le (takeN 4 w), le (dropN 4 w)) :: rows). split; [rewrite lenN_cons; lia|]. split.
    + cbn [mapM]. unfold read_entry at 1. cbn [fst snd]. rewrite Ep. cbn [bind]. rewrite E. reflexivity.
    + intros j e Hj. cbn [nthN] in Hj. destruct (N.eqb_spec j 0) as [->|Hj0].
      * injection Hj as <-. rewrite N.mul_0_r, N.add_0_r. cbn [fst snd]. split; eexists; split; eauto.
      * specialize (R _ _ Hj). replace (index + 8 + 8 * N.pred j) with (index + 8 * j) in R by lia. exact R.
Qed.

Lemma parse_set_inv pl buf i l : lenN buf < 2 ^ 32 -> parse_set pl buf (28 + 20 * i) = Ok l ->
  exists t, table_in buf i t /\ read_rows pl buf t = Ok l.
Proof.
  intros HL H. unfold parse_set in H. destruct (N.ltb_spec (lenN buf) (28 + 20 * i + 20)) as [L|L]; [discriminate|].
  apply bind_ok in H. destruct H as (g & Eg & H). apply bind_ok in H. destruct H as (o & Eo & H). cbv zeta in H.
  destruct (N.ltb_spec (lenN buf) (le o + 8)) as [L2|L2]; [discriminate|].
  apply bind_ok in H. destruct H as (n & En & H). apply bind_ok in H. destruct H as (f & Ef & H).
  rewrite u32_small in H by lia.
  destruct (parse_properties_inv _ _ _ _ HL _ _ _ _ H) as (rows & Lr & Er & R).
  exists (mkTable g (le o) rows). split.
  - unfold table_in. cbn [t_format t_start t_rows]. split; [apply slice_window; exact Eg|].
    split; [apply slice_number; replace (44 + 20 * i) with (28 + 20 * i + 16) by lia; exact Eo|].
    split; [rewrite Lr; apply slice_number; exact En|].
    intros j e Hj. replace (le o + 12 + 8 * j) with (le o + 8 + 8 * j + 4) by lia. apply R. exact Hj.
  - unfold read_rows. cbn [t_format t_start t_rows]. rewrite Ef. cbn [bind]. exact Er.
Qed.

Lemma parse_sets_inv pl buf n : lenN buf < 2 ^ 32 -> n < 2 ^ 32 -> forall fuel i l,
  28 + 20 * i < 2 ^ 32 ->
  parse_sets fuel pl buf i n = Ok l ->
  exists ts ls, lenN ts = n - i /\ mapM (read_rows pl buf) ts = Ok ls /\ l = List.concat ls /\
    forall k t, nthN ts k = Some t -> table_in buf (i + k) t.
Proof.
  intros HL Hn. induction fuel as [|k IH]; intros i l Hi H; cbn [parse_sets] in H.
  - destruct (N.leb_spec n i) as [L|L]; [|discriminate]. injection H as <-.
    exists [], []. split; [change (lenN (@nil table)) with 0; lia|]. split; [reflexivity|]. split; [reflexivity|]. discriminate.
  - destruct (N.leb_spec n i) as [L|L].
    { injection H as <-.
      exists [], []. split; [change (lenN (@nil table)) with 0; lia|]. split; [reflexivity|]. split; [reflexivity|]. discriminate. }
    apply bind_ok in H. destruct H as (a & Ea & H). apply bind_ok in H. destruct H as (b & Eb & H). injection H as <-.
    rewrite (u32_small (28 + i * 20)) in Ea by lia. replace (28 + i * 20) with (28 + 20 * i) in Ea by lia.
    destruct (parse_set_inv _ _ _ _ HL Ea) as (t & Ht & Et).
    assert (B : 44 + 20 * i + 4 <= lenN buf) by (destruct Ht as (_ & H1 & _); apply number_at_len in H1; exact H1).
    rewrite u32_small in Eb by lia.
    destruct (IH (i + 1) _ ltac:(lia) Eb) as (ts & ls & L1 & L2 & -> & L3).
    exists (t :: ts), (a :: ls). split; [rewrite lenN_cons; lia|]. split; [cbn [mapM]; rewrite Et; cbn [bind]; rewrite L2; reflexivity|].
    split; [reflexivity|]. intros j x Hj. cbn [nthN] in Hj. destruct (N.eqb_spec j 0) as [->|Hj0].
    + injection Hj as <-. rewrite N.add_0_r. exact Ht.
    + specialize (L3 _ _ Hj). replace (i + 1 + N.pred j) with (i + j) in L3 by lia. exact L3.
Qed.

Lemma mapM_length {A C} (f : A -> res C) l r : mapM f l = Ok r -> lenN r = lenN l.
Proof.
  revert r. induction l as [|x l IH]; intros r H; cbn [mapM] in H; [injection H as <-; reflexivity|].
  apply bind_ok in H. destruct H as (y & _ & H). apply bind_ok in H. destruct H as (ys & E & H). injection H as <-.
  rewrite !lenN_cons. f_equal. apply IH. exact E.
Qed.
Lemma mapM_each {A C} (f : A -> res C) l r : mapM f l = Ok r -> Forall2 (fun x y => f x = Ok y) l r.
Proof.
  revert r. induction l as [|x l IH]; intros r H; cbn [mapM] in H; [injection H as <-; constructor|].
  apply bind_ok in H. destruct H as (y & E & H). apply bind_ok in H. destruct H as (ys & E2 & H). injection H as <-.
  constructor; auto.
Qed.

(** The type of a property lies at its place. *)
Lemma read_entry_placed pl buf start f e p : read_entry pl buf start f e = Ok p ->
  placed buf (fst e, start + snd e) p.
Proof.
  unfold read_entry, ReadProperty. intros H. apply bind_ok in H. destruct H as (t & Et & H).
  apply bind_ok in H. destruct H as (v & Ev & H). injection H as <-. split; [reflexivity|].
  cbn [p_type snd]. exact (slice_number _ _ _ _ Et).
Qed.

Lemma C67_inside pl buf l : lenN buf < 2 ^ 32 -> buf <> [] -> ParseBytes pl buf = Ok l ->
  exists ts, tables_in buf ts /\ Forall2 (placed buf) (places ts) l.
Proof.
  intros HL Hb H. unfold ParseBytes in H.
  destruct (N.eqb_spec (lenN buf) 0) as [E0|E0]; [apply lenN_0 in E0; contradiction|].
  destruct (N.ltb_spec (lenN buf) 28) as [L|L]; [discriminate|].
  apply bind_ok in H. destruct H as (w & Ew & H).
  assert (Hn : le w < 2 ^ 32).
  { apply slice_window in Ew. pose proof (le_bound w) as B. rewrite (proj1 Ew) in B. exact B. }
  destruct (parse_sets_inv _ _ _ HL Hn _ 0 _ ltac:(lia) H) as (ts & ls & L1 & L2 & -> & L3).
  exists ts. split.
  - split; [replace (lenN ts) with (le w) by lia; apply slice_number; exact Ew|].
    intros i t Hi. specialize (L3 i t Hi). rewrite N.add_0_l in L3. exact L3.
  - clear - L2. revert ls L2. induction ts as [|t ts IH]; intros ls H; cbn [mapM] in H.
    + injection H as <-. constructor.
    + apply bind_ok in H. destruct H as (y & E & H). apply bind_ok in H. destruct H as (ys & E2 & H). injection H as <-.
      cbn [places flat_map List.concat]. apply Forall2_app; [|apply IH; exact E2].
      unfold read_rows in E. apply bind_ok in E. destruct E as (f & _ & E). apply mapM_each in E.
      clear - E. induction E as [|e p es ps H _ IH]; cbn [map]; constructor; auto.
      exact (read_entry_placed _ _ _ _ _ _ H).
Qed.

Lemma C67_small pl buf : lenN buf < 28 ->
  ParseBytes pl buf = if lenN buf =? 0 then Ok [] else Throw RangeError.
Proof.
  intros H. unfold ParseBytes. destruct (lenN buf =? 0); [reflexivity|].
  replace (lenN buf <? 28) with true by lia. reflexivity.
Qed.

(** ** When reading a value is undefined *)
Lemma uint_cases buf i be_ : i + 3 < 2 ^ 32 ->
  (exists v, ReadUInt buf (lenN buf) i be_ = Ok v /\ i + 4 <= lenN buf /\ (be_ = true -> number_at buf i 4 v)) \/
  (lenN buf = i + 3 /\ ReadUInt buf (lenN buf) i be_ = UB) \/
  (lenN buf < i + 3 /\ ReadUInt buf (lenN buf) i be_ = Throw RangeError).
Proof.
  intros Hi. destruct (N.lt_trichotomy (lenN buf) (i + 3)) as [H|[H|H]].
  - right. right. split; [exact H|]. apply ReadUInt_throw; assumption.
  - right. left. split; [exact H|]. unfold ReadUInt. rewrite !u32_small by lia.
    replace (lenN buf <? i + 3) with false by lia.
    destruct (rd_lt buf i ltac:(lia)) as (b0 & E0 & _). destruct (rd_lt buf (i + 1) ltac:(lia)) as (b1 & E1 & _).
    destruct (rd_lt buf (i + 2) ltac:(lia)) as (b2 & E2 & _). rewrite E0, E1, E2. cbn [bind].
    rewrite rd_ge by lia. reflexivity.
  - left. destruct (number_at_ex buf i 4 ltac:(lia)) as [v (w & Hw & Ew)].
    rewrite (ReadUInt_value buf i w be_ Hi Hw). eexists. split; [reflexivity|]. split; [lia|].
    intros ->. exists w. auto.
Qed.
Lemma ushort_cases buf i be_ : i + 1 < 2 ^ 32 ->
  (exists v, ReadUShort buf (lenN buf) i be_ = Ok v /\ i + 2 <= lenN buf) \/
  (lenN buf = i + 1 /\ ReadUShort buf (lenN buf) i be_ = UB) \/
  (lenN buf < i + 1 /\ ReadUShort buf (lenN buf) i be_ = Throw RangeError).
Proof.
  intros Hi. destruct (N.lt_trichotomy (lenN buf) (i + 1)) as [H|[H|H]].
  - right. right. split; [exact H|]. apply ReadUShort_throw; assumption.
  - right. left. split; [exact H|]. unfold ReadUShort. rewrite !u32_small by lia.
    replace (lenN buf <? i + 1) with false by lia.
    destruct (rd_lt buf i ltac:(lia)) as (b0 & E0 & _). rewrite E0. cbn [bind].
    rewrite rd_ge by lia. reflexivity.
  - left. destruct (number_at_ex buf i 2 ltac:(lia)) as [v (w & Hw & Ew)].
    rewrite (ReadUShort_value buf i w be_ Hi Hw). eexists. split; [reflexivity|]. lia.
Qed.

Ltac notin := cbn [In] in *; lia.
Lemma value_ub buf off t pl : lenN buf + 12 < 2 ^ 32 -> off + 2 <= lenN buf ->
  (ReadValue pl buf t (off + 4) = UB <-> value_overrun buf off t).
Proof.
  intros HL Ho. unfold value_overrun.
  assert (OT : other_type t \/ In t [2; 11] \/ t = 3 \/ In t [4; 5] \/ t = 64 \/ In t [8; 30] \/ In t wide_types).
  { unfold other_type, wide_types. cbn [In]. lia. }
  destruct OT as [H|[H|[->|[H|[->|[H|H]]]]]].
  - rewrite other_value by exact H. split; [discriminate|]. unfold other_type in H. cbn [In] in *. intros X.
    exfalso. apply H. lia.
  - assert (E : ReadValue pl buf t (off + 4) = UB <-> ReadUShort buf (lenN buf) (off + 4) false = UB).
    { unfold ReadValue. rewrite ReadSShort_signed. destruct H as [<-|[<-|[]]]; cbn [N.eqb Pos.eqb]; unfold rmap;
      destruct (ReadUShort _ _ _ _); cbn [bind]; split; congruence. }
    rewrite E. destruct (ushort_cases buf (off + 4) false ltac:(lia)) as [(v & Ev & L)|[[L Ev]|[L Ev]]]; rewrite Ev.
    + split; [discriminate|]. intros X; exfalso. cbn [In] in *; lia.
    + split; [intros _; left; split; [exact H|lia]|reflexivity].
    + split; [discriminate|]. intros X; exfalso. cbn [In] in *; lia.
  - assert (E : ReadValue pl buf 3 (off + 4) = UB <-> ReadUInt buf (lenN buf) (off + 4) false = UB).
    { unfold ReadValue. rewrite ReadSInt_signed. cbn [N.eqb Pos.eqb]; unfold rmap.
      destruct (ReadUInt _ _ _ _); cbn [bind]; split; congruence. }
    rewrite E. destruct (uint_cases buf (off + 4) false ltac:(lia)) as [(v & Ev & L & _)|[[L Ev]|[L Ev]]]; rewrite Ev.
    + split; [discriminate|]. intros X; exfalso. cbn [In] in *; lia.
    + split; [intros _; right; left; split; [cbn; tauto|lia]|reflexivity].
    + split; [discriminate|]. intros X; exfalso. cbn [In] in *; lia.
  - split; [|intros X; exfalso; cbn [In] in *; lia].
    unfold ReadValue. destruct H as [<-|[<-|[]]]; cbn [N.eqb Pos.eqb]; intros X; exfalso.
    + rewrite ReadFloatBits_spec in X by lia. destruct (_ <? _); discriminate X.
    + rewrite ReadDoubleBits_spec in X by lia. destruct (_ <? _); discriminate X.
  - unfold ReadValue. cbn [N.eqb Pos.eqb]. rewrite (u32_small (off + 4 + 4)) by lia.
    destruct (uint_cases buf (off + 4) true ltac:(lia)) as [(v & Ev & L & _)|[[L Ev]|[L Ev]]]; rewrite Ev; cbn [bind].
    2:{ split; [intros _; right; left; split; [cbn; tauto|lia]|reflexivity]. }
    2:{ split; [discriminate|]. intros X; exfalso. cbn [In] in *; lia. }
    destruct (uint_cases buf (off + 4 + 4) true ltac:(lia)) as [(v2 & Ev2 & L2 & _)|[[L2 Ev2]|[L2 Ev2]]]; rewrite Ev2; cbn [bind].
    + split; [discriminate|]. intros X; exfalso. cbn [In] in *; lia.
    + split; [intros _; right; right; left; split; [reflexivity|lia]|reflexivity].
    + split; [discriminate|]. intros X; exfalso. cbn [In] in *; lia.
  - assert (E : ReadValue pl buf t (off + 4) =
      (size <- ReadUInt buf (lenN buf) (off + 4) true ;; s <- ReadString buf (lenN buf) (off + 8) size ;; Ok (VString (erasenulls s)))).
    { unfold ReadValue. rewrite (u32_small (off + 4 + 4)) by lia. replace (off + 4 + 4) with (off + 8) by lia.
      destruct H as [<-|[<-|[]]]; reflexivity. }
    rewrite E.
    destruct (uint_cases buf (off + 4) true ltac:(lia)) as [(v & Ev & L & Hv)|[[L Ev]|[L Ev]]]; rewrite Ev; cbn [bind].
    2:{ split; [intros _; right; left; split; [cbn [In] in *; lia|lia]|reflexivity]. }
    2:{ split; [discriminate|]. intros [X|[X|[X|[(_ & n & X & _)|X]]]]; try (apply number_at_len in X); cbn [In] in *; exfalso; lia. }
    specialize (Hv eq_refl). pose proof (number_at_bound _ _ _ _ Hv) as B. change (256 ^ 4) with (2 ^ 32) in B.
    assert (U : (s <- ReadString buf (lenN buf) (off + 8) v ;; Ok (VString (erasenulls s))) = UB <-> wraps buf off v).
    { unfold ReadString, wraps. destruct (N.lt_ge_cases (off + 8 + v) (2 ^ 32)) as [W|W].
      - rewrite u32_small by exact W. destruct (N.ltb_spec (lenN buf) (off + 8 + v)); [cbn [bind]; split; [discriminate|lia]|].
        rewrite slice_ok by lia. cbn [bind]. split; [discriminate|lia].
      - replace (u32 (off + 8 + v)) with (off + 8 + v - 2 ^ 32) by (unfold u32; lia).
        destruct (N.ltb_spec (lenN buf) (off + 8 + v - 2 ^ 32)); [cbn [bind]; split; [discriminate|lia]|].
        rewrite slice_ub by lia. cbn [bind]. split; [intros _; lia|reflexivity]. }
    rewrite U. split.
    + intros W. right. right. right. left. split; [exact H|]. eauto.
    + intros [X|[X|[X|[(_ & n & X & W)|X]]]]; try (cbn [In] in *; exfalso; lia).
      rewrite (number_at_fun _ _ _ _ _ Hv X). exact W.
  - assert (E : ReadValue pl buf t (off + 4) =
      (size <- ReadUInt buf (lenN buf) (off + 4) true ;;
       w <- ReadWString pl buf (lenN buf) (off + 8) (u32 (subw 32 size 1 * 2)) ;;
       s <- convert w ;; Ok (VString (erasenulls s)))).
    { unfold ReadValue. rewrite (u32_small (off + 4 + 4)) by lia. replace (off + 4 + 4) with (off + 8) by lia.
      destruct H as [<-|[<-|[<-|[<-|[<-|[]]]]]]; reflexivity. }
    rewrite E.
    destruct (uint_cases buf (off + 4) true ltac:(lia)) as [(v & Ev & L & Hv)|[[L Ev]|[L Ev]]]; rewrite Ev; cbn [bind].
    2:{ split; [intros _; right; left; split; [cbn [In wide_types] in *; lia|lia]|reflexivity]. }
    2:{ split; [discriminate|]. intros [X|[X|[X|[X|(_ & n & X & _)]]]]; try (apply number_at_len in X); cbn [In wide_types] in *; exfalso; lia. }
    specialize (Hv eq_refl). pose proof (number_at_bound _ _ _ _ Hv) as B. change (256 ^ 4) with (2 ^ 32) in B.
    assert (Ek : u32 (subw 32 v 1 * 2) = (2 * v + 2 ^ 32 - 2) mod 2 ^ 32) by (unfold u32, subw; lia).
    rewrite Ek. set (k := (2 * v + 2 ^ 32 - 2) mod 2 ^ 32) in *. assert (Bk : k < 2 ^ 32) by (unfold k; lia).
    assert (U : (w <- ReadWString pl buf (lenN buf) (off + 8) k ;; s <- convert w ;; Ok (VString (erasenulls s))) = UB <-> wraps buf off k).
    { assert (NC : forall w, (s <- convert w ;; Ok (VString (erasenulls s))) <> UB).
      { intros w. unfold convert. assert (M : mapM utf8_unit w <> UB).
        { clear. induction w as [|c w IH]; cbn [mapM]; [discriminate|]. unfold utf8_unit at 1.
          repeat (destruct (_ <? _); [cbn [bind]; destruct (mapM utf8_unit w); cbn [bind]; congruence|]). discriminate. }
        destruct (mapM utf8_unit w); cbn [bind]; congruence. }
      unfold ReadWString, wraps. destruct (N.lt_ge_cases (off + 8 + k) (2 ^ 32)) as [W|W].
      - rewrite u32_small by exact W. destruct (N.ltb_spec (lenN buf) (off + 8 + k)); [cbn [bind]; split; [discriminate|lia]|].
        replace (off + 8 + k <? 2 ^ 32) with true by lia. rewrite slice_ok by lia. cbn [bind].
        split; [intros X; exfalso; exact (NC _ X)|lia].
      - replace (u32 (off + 8 + k)) with (off + 8 + k - 2 ^ 32) by (unfold u32; lia).
        destruct (N.ltb_spec (lenN buf) (off + 8 + k - 2 ^ 32)); [cbn [bind]; split; [discriminate|lia]|].
        replace (off + 8 + k <? 2 ^ 32) with false by lia. cbn [bind]. split; [intros _; lia|reflexivity]. }
    rewrite U. split.
    + intros W. right. right. right. right. split; [exact H|]. exists v. auto.
    + intros [X|[X|[X|[X|(_ & n & X & W)]]]]; try (cbn [In wide_types] in *; exfalso; lia).
      rewrite <- (number_at_fun _ _ _ _ _ Hv X) in W. exact W.
Qed.

Lemma C67_value_exact pl buf off pid f : lenN buf + 12 < 2 ^ 32 -> off < 2 ^ 32 ->
  (ReadProperty pl buf off pid f = UB <->
   lenN buf < off + 2 \/ exists t, number_at buf off 2 t /\ value_overrun buf off t).
Proof.
  intros HL Ho. unfold ReadProperty. destruct (N.lt_ge_cases (lenN buf) (off + 2)) as [H|H].
  - rewrite slice_ub by exact H. cbn [bind]. tauto.
  - destruct (number_at_ex buf off 2 H) as [t Ht]. destruct (number_slice _ _ _ _ Ht) as (w & Ew & El).
    rewrite Ew. cbn [bind]. rewrite El, u32_small by lia.
    assert (E : (v <- ReadValue pl buf t (off + 4) ;; Ok (mkProp pid f t v)) = UB <-> ReadValue pl buf t (off + 4) = UB).
    { destruct (ReadValue pl buf t (off + 4)); cbn [bind]; split; congruence. }
    rewrite E, (value_ub buf off t pl HL H). split.
    + intros V. right. eauto.
    + intros [X|(t' & Ht' & V)]; [lia|]. rewrite (number_at_fun _ _ _ _ _ Ht Ht'). exact V.
Qed.
