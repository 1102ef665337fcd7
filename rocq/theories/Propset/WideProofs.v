(** Wide strings on Linux; values that can be read; documents for stored values. *)
From Coq Require Import List NArith ZArith Lia Bool Strings.String ZifyBool ZifyNat ZifyN.
From Verif Require Import Lib.Res Lib.Bytes Lib.BytesFacts Lib.Text Lib.NumSpec Common.Model Common.Spec Common.Fields Common.Utf8
  Common.ReadProofs Common.FieldProofs Common.Utf8Proofs Magic.Spec Vba.Statements Propset.Model Propset.Output Propset.Spec Propset.Statements
  Propset.ValueProofs Propset.StreamProofs Propset.MemoryProofs Propset.NumberProofs Propset.DocProofs.
Import ListNotations.
Local Open Scope N_scope.
Ltac Zify.zify_post_hook ::= Z.div_mod_to_equations.
Arguments N.pow : simpl never.
Arguments Z.pow : simpl never.

(** ** Values that can be read *)
Lemma double_bits_ok b : value_ok (VFloat (double_of_bits b)).
Proof.
  unfold double_of_bits. cbn zeta. change (2 ^ 52) with 4503599627370496.
  destruct (N.eqb_spec (b / 4503599627370496 mod 2048) 2047) as [_|E]; [destruct (_ =? _); exact I|].
  destruct (N.eqb_spec (b / 4503599627370496 mod 2048) 0) as [_|E0]; cbn [value_ok]; unfold in_range; change (2 ^ 53) with 9007199254740992; lia.
Qed.
Lemma float_bits_ok b : value_ok (VFloat (double_of_float_bits b)).
Proof.
  unfold double_of_float_bits. cbn zeta. change (2 ^ 23) with 8388608.
  destruct (N.eqb_spec (b / 8388608 mod 256) 255) as [_|E]; [destruct (_ =? _); exact I|].
  destruct (N.eqb_spec (b / 8388608 mod 256) 0) as [_|E0]; cbn [value_ok]; unfold in_range; change (2 ^ 53) with 9007199254740992; lia.
Qed.
Lemma to_u64_bound z : to_u64 z < 2 ^ 64.
Proof. unfold to_u64. change (2 ^ 64) with 18446744073709551616. change (2 ^ 64)%Z with 18446744073709551616%Z. lia. Qed.
Lemma ReadUInt_bound buf m i b v : ReadUInt buf m i b = Ok v -> v < 2 ^ 32.
Proof.
  unfold ReadUInt. destruct (_ <? _); [discriminate|]. intros H.
  repeat (apply bind_ok in H; destruct H as (? & _ & H)).
  destruct b; injection H as <-; unfold u32; apply N.mod_lt; discriminate.
Qed.
Lemma ReadValue_ok pl buf t i v : ReadValue pl buf t i = Ok v -> value_ok v.
Proof.
  unfold ReadValue. cbv zeta. intros H.
  repeat match type of H with
  | (if ?c then _ else _) = _ => destruct c
  | bind _ _ = _ => let a := fresh "a" in let E := fresh "E" in apply bind_ok in H; destruct H as (a & E & H)
  end; injection H as <-; try exact I; cbn [value_ok].
  - apply to_u64_bound.
  - apply to_u64_bound.
  - apply float_bits_ok.
  - apply double_bits_ok.
  - apply ReadUInt_bound in E. apply ReadUInt_bound in E0. rewrite lor_shiftl_add by exact E.
    change (2 ^ 64) with (2 ^ 32 * 2 ^ 32). nia.
Qed.
Lemma ReadProperty_ok pl buf o pid f p : ReadProperty pl buf o pid f = Ok p -> value_ok (p_value p).
Proof.
  unfold ReadProperty. intros H. apply bind_ok in H. destruct H as (t & _ & H). apply bind_ok in H. destruct H as (v & E & H).
  injection H as <-. exact (ReadValue_ok _ _ _ _ _ E).
Qed.
Lemma parse_properties_ok pl buf o f : forall fuel i n l, parse_properties fuel pl buf o f i n = Ok l -> Forall (fun p => value_ok (p_value p)) l.
Proof.
  induction fuel as [|k IH]; intros i n l H; cbn [parse_properties] in H; destruct (n =? 0); try discriminate; try (injection H as <-; constructor).
  apply bind_ok in H. destruct H as (w & _ & H). apply bind_ok in H. destruct H as (p & E & H). apply bind_ok in H. destruct H as (r & E2 & H).
  injection H as <-. constructor; [exact (ReadProperty_ok _ _ _ _ _ _ E)|exact (IH _ _ _ E2)].
Qed.
Lemma parse_sets_ok pl buf n : forall fuel i l, parse_sets fuel pl buf i n = Ok l -> Forall (fun p => value_ok (p_value p)) l.
Proof.
  induction fuel as [|k IH]; intros i l H; cbn [parse_sets] in H; destruct (n <=? i); try discriminate; try (injection H as <-; constructor).
  apply bind_ok in H. destruct H as (a & E & H). apply bind_ok in H. destruct H as (b & E2 & H). injection H as <-.
  apply Forall_app. split; [|exact (IH _ _ E2)]. unfold parse_set in E. destruct (_ <? _); [discriminate|].
  apply bind_ok in E. destruct E as (g & _ & E). apply bind_ok in E. destruct E as (o & _ & E). cbv zeta in E. destruct (_ <? _); [discriminate|].
  apply bind_ok in E. destruct E as (m & _ & E). apply bind_ok in E. destruct E as (f & _ & E). exact (parse_properties_ok _ _ _ _ _ _ _ _ E).
Qed.
Lemma ParseBytes_ok pl buf l : ParseBytes pl buf = Ok l -> Forall (fun p => value_ok (p_value p)) l.
Proof.
  unfold ParseBytes. destruct (_ =? _); [intros H; injection H as <-; constructor|]. destruct (_ <? _); [discriminate|].
  intros H. apply bind_ok in H. destruct H as (w & _ & H). exact (parse_sets_ok _ _ _ _ _ _ H).
Qed.

(** ** Documents for what is read *)
Lemma until_nul_filter s : until_nul (filter (fun c => negb (byte_eqb c x00)) s) = filter (fun c => negb (byte_eqb c x00)) s.
Proof.
  induction s as [|c s IH]; [reflexivity|]. cbn [filter]. destruct (byte_eqb c x00) eqn:E; [exact IH|]. cbn [negb until_nul]. rewrite E, IH. reflexivity.
Qed.
Lemma until_nul_same s : ~ In x00 s -> until_nul s = s.
Proof.
  induction s as [|c s IH]; intros H; [reflexivity|]. cbn [until_nul]. destruct (byte_eqb c x00) eqn:E.
  - apply byte_eqb_eq in E. subst c. exfalso. apply H. left. reflexivity.
  - rewrite IH; [reflexivity|]. intros K. apply H. right. exact K.
Qed.
Lemma shows_json pl pid v r : shows v r -> value_ok r -> is_special v = false ->
  is_finite r /\ forall j, json_shows pl pid (type_of v) r j -> json_stored pl pid v j.
Proof.
  destruct v; cbn [shows is_special type_of json_stored]; intros H O S.
  - destruct H as (n & -> & B & k & ->). split; [exact I|]. cbn [json_shows N.eqb Pos.eqb]. intros j ->.
    f_equal. rewrite Z.mod_add by discriminate. change (2 ^ 64)%Z with (Z.of_N (2 ^ 64)). rewrite <- N2Z.inj_mod, N2Z.id, N.mod_small by exact B. reflexivity.
  - destruct H as (n & -> & B & k & ->). split; [exact I|]. cbn [json_shows N.eqb Pos.eqb]. intros j ->.
    f_equal. rewrite Z.mod_add by discriminate. change (2 ^ 64)%Z with (Z.of_N (2 ^ 64)). rewrite <- N2Z.inj_mod, N2Z.id, N.mod_small by exact B. reflexivity.
  - destruct H as (d & -> & H). unfold shows_double in H. cbn zeta in H. destruct H as (H & _).
    assert (B : field bits 23 255 < 256) by (unfold field; change (255 + 1) with 256; apply N.mod_lt; discriminate).
    change ((255 + 1) * 2 ^ 23) with (2 ^ 31) in H.
    destruct (N.eq_dec (field bits 23 255) 0) as [E|E].
    + rewrite (H _ _ (ieee_small 23 255 150 bits E)). split; [exact I|]. cbn [json_shows]. intros j Hj m e Hm.
      assert (X : Num (2 ^ 31 <=? bits) m e = Num (2 ^ 31 <=? bits) (fraction bits 23) (1 - 150)).
      { rewrite <- (H _ _ Hm). apply H. apply ieee_small. exact E. }
      injection X as -> ->. exact Hj.
    + pose proof (ieee_normal 23 255 150 bits ltac:(lia) ltac:(lia)) as K.
      rewrite (H _ _ K). split; [exact I|]. cbn [json_shows]. intros j Hj m e Hm.
      assert (X : Num (2 ^ 31 <=? bits) m e = Num (2 ^ 31 <=? bits) (2 ^ 23 + fraction bits 23) (Z.of_N (field bits 23 255) - 150)).
      { rewrite <- (H _ _ Hm). apply H. exact K. }
      injection X as -> ->. exact Hj.
  - destruct H as (d & -> & H). unfold shows_double in H. cbn zeta in H. destruct H as (H & _).
    assert (B : field bits 52 2047 < 2048) by (unfold field; change (2047 + 1) with 2048; apply N.mod_lt; discriminate).
    change ((2047 + 1) * 2 ^ 52) with (2 ^ 63) in H.
    destruct (N.eq_dec (field bits 52 2047) 0) as [E|E].
    + rewrite (H _ _ (ieee_small 52 2047 1075 bits E)). split; [exact I|]. cbn [json_shows]. intros j Hj m e Hm.
      assert (X : Num (2 ^ 63 <=? bits) m e = Num (2 ^ 63 <=? bits) (fraction bits 52) (1 - 1075)).
      { rewrite <- (H _ _ Hm). apply H. apply ieee_small. exact E. }
      injection X as -> ->. exact Hj.
    + pose proof (ieee_normal 52 2047 1075 bits ltac:(lia) ltac:(lia)) as K.
      rewrite (H _ _ K). split; [exact I|]. cbn [json_shows]. intros j Hj m e Hm.
      assert (X : Num (2 ^ 63 <=? bits) m e = Num (2 ^ 63 <=? bits) (2 ^ 52 + fraction bits 52) (Z.of_N (field bits 52 2047) - 1075)).
      { rewrite <- (H _ _ Hm). apply H. exact K. }
      injection X as -> ->. exact Hj.
  - subst r. split; [exact I|]. intros j ->. reflexivity.
  - subst r. split; [exact I|]. intros j Hj. exact Hj.
  - subst r. split; [exact I|]. cbn [json_shows]. intros j ->. rewrite until_nul_filter. reflexivity.
  - destruct H as (t & -> & N0 & H). split; [exact I|]. cbn [json_shows]. intros j ->. rewrite until_nul_same by exact N0. eauto.
  - subst r. split; [exact I|]. cbn [json_shows]. intros j ->. rewrite until_nul_filter. reflexivity.
  - subst r. split; [exact I|]. intros j ->. reflexivity.
Qed.
Lemma taken_special v v' : taken_for v v' -> is_special v' = is_special v /\ type_of v' = type_of v.
Proof. destruct 1; auto. Qed.

Lemma entries_json pl ges ps : Forall2 (reports_as taken) ges ps -> Forall (fun p => value_ok (p_value p)) ps ->
  Forall (fun ge => is_special (e_value (snd ge)) = false) ges -> Forall2 (json_entry pl) ges ps.
Proof.
  induction 1 as [|ge p ges ps H _ IH]; intros O S; inversion O; inversion S; subst; constructor; [|auto].
  destruct H as (_ & Ep & Et & v & Tv & Sv). destruct (taken_special _ _ Tv) as [Es Ety].
  destruct (shows_json pl (p_pid p) v (p_value p) Sv) as [F J]; [assumption|congruence|].
  destruct (property_json pl p) as (j & Hj & Hs); [assumption|exact F|].
  exists (PropertyIdentifierToString (p_fmt p) (p_pid p)), (PropertyTypeToString (p_type p)), j, v.
  split; [exact Hj|]. split; [exact Tv|]. rewrite <- Ep. apply J. rewrite Ety, <- Et. exact Hs.
Qed.
Theorem C68_stream pl buf sets : lenN buf + 12 < 2 ^ 32 -> property_sets buf sets -> none_of is_name sets ->
  (pl = windows \/ none_of is_wide sets) -> none_of is_special sets ->
  exists l, ParseBytes pl buf = Ok l /\ Forall2 (json_entry pl) (all_entries sets) l.
Proof.
  intros HL Hp Hn Hw Hs. destruct (C66_general pl buf sets HL Hp Hn Hw) as (l & E & F). exists l. split; [exact E|].
  apply entries_json; [exact F|exact (ParseBytes_ok _ _ _ E)|exact Hs].
Qed.

(** ** Wide strings on Linux *)
Lemma pair_unit a b r : a < 65536 -> b < 65536 -> exists t, to_wchars linux64 (units 2 (a :: b :: r)) = a + 65536 * b :: t.
Proof.
  intros Ha Hb. unfold to_wchars. change (N.to_nat (sizeof_wchar linux64)) with 4%nat. unfold units. cbn [map List.concat to_le app].
  cbn [wchars List.length Nat.ltb Nat.leb firstn skipn]. eexists. f_equal.
  cbn [le]. rewrite !b2n_n2b. lia.
Qed.
Lemma wide_linux buf i u : lenN buf + 12 < 2 ^ 32 -> data_at buf i (SWide u) ->
  (exists v, ReadValue linux64 buf 31 i = Ok v) \/ ReadValue linux64 buf 31 i = Throw RangeError.
Proof.
  intros HL H. inversion H as [| | | | | | | |u' Hu Hn Hw| |]; subst u'. pose proof (window_len _ _ _ _ Hw) as L.
  unfold ReadValue. cbn [N.eqb Pos.eqb orb]. rewrite (uint_le buf i _ ltac:(lia) Hn). cbn [bind].
  rewrite (u32_small (i + 4)) by lia. replace (u32 (subw 32 (lenN u + 1) 1 * 2)) with (2 * lenN u) by (unfold u32, subw; lia).
  unfold ReadWString. rewrite u32_small by lia. replace (lenN buf <? i + 4 + 2 * lenN u) with false by lia.
  replace (i + 4 + 2 * lenN u <? 2 ^ 32) with true by lia.
  destruct (slice_window buf (i + 4) (2 * lenN u) (units 2 u)) as [_ Sw]. rewrite (Sw Hw). cbn [bind].
  unfold convert. assert (M : forall w, (exists l, mapM utf8_unit w = Ok l) \/ mapM utf8_unit w = Throw RangeError).
  { clear. induction w as [|c w IH]; cbn [mapM]; [eauto|]. unfold utf8_unit at 1 3.
    repeat (destruct (_ <? _); [destruct IH as [[l ->]| ->]; cbn [bind]; eauto|]). right. reflexivity. }
  destruct (M (to_wchars linux64 (units 2 u))) as [[l ->]| ->]; cbn [bind]; eauto.
Qed.
Lemma wide_linux_long buf i a b r : lenN buf + 12 < 2 ^ 32 -> data_at buf i (SWide (a :: b :: r)) -> 17 <= b ->
  ReadValue linux64 buf 31 i = Throw RangeError.
Proof.
  intros HL H Hb. inversion H as [| | | | | | | |u' Hu Hn Hw| |]; subst u'. pose proof (window_len _ _ _ _ Hw) as L.
  set (u := a :: b :: r) in *.
  unfold ReadValue. cbn [N.eqb Pos.eqb orb]. rewrite (uint_le buf i _ ltac:(lia) Hn). cbn [bind].
  rewrite (u32_small (i + 4)) by lia. replace (u32 (subw 32 (lenN u + 1) 1 * 2)) with (2 * lenN u) by (unfold u32, subw; lia).
  unfold ReadWString. rewrite u32_small by lia. replace (lenN buf <? i + 4 + 2 * lenN u) with false by lia.
  replace (i + 4 + 2 * lenN u <? 2 ^ 32) with true by lia.
  destruct (slice_window buf (i + 4) (2 * lenN u) (units 2 u)) as [_ Sw]. rewrite (Sw Hw). cbn [bind].
  inversion Hu as [|? ? Ha Hr]; subst. inversion Hr as [|? ? Hb' _]; subst.
  destruct (pair_unit a b r Ha Hb') as [t Et]. unfold u. rewrite Et. unfold convert. cbn [mapM]. unfold utf8_unit at 1.
  replace (a + 65536 * b <? 128) with false by lia. replace (a + 65536 * b <? 2048) with false by lia.
  replace (a + 65536 * b <? 65536) with false by lia. replace (a + 65536 * b <? 1114112) with false by lia. reflexivity.
Qed.
Lemma property_linux buf off v pid f : lenN buf + 12 < 2 ^ 32 -> value_at buf off v -> is_name v = false ->
  (exists p, ReadProperty linux64 buf off pid f = Ok p) \/ ReadProperty linux64 buf off pid f = Throw RangeError.
Proof.
  intros HL Hv Hn. destruct (is_wide v) eqn:W.
  - destruct v; try discriminate W. destruct Hv as [Ht Hd]. unfold ReadProperty. pose proof (number_at_len _ _ _ _ Ht) as L.
    destruct (number_slice _ _ _ _ Ht) as (w & Ew & El). rewrite Ew. cbn [bind]. rewrite El, u32_small by lia. cbn [type_of].
    destruct (wide_linux buf (off + 4) u HL Hd) as [[x ->]| ->]; cbn [bind]; eauto.
  - destruct (property_read linux64 buf off v pid f HL Hv Hn (or_intror W)) as (r & -> & _). eauto.
Qed.
Lemma property_linux_long buf off v pid f : lenN buf + 12 < 2 ^ 32 -> value_at buf off v -> long_wide v = true ->
  ReadProperty linux64 buf off pid f = Throw RangeError.
Proof.
  intros HL Hv Hl. destruct v; try discriminate Hl. destruct u as [|a [|b r]]; try discriminate Hl. cbn [long_wide] in Hl.
  destruct Hv as [Ht Hd]. unfold ReadProperty. pose proof (number_at_len _ _ _ _ Ht) as L.
  destruct (number_slice _ _ _ _ Ht) as (w & Ew & El). rewrite Ew. cbn [bind]. rewrite El, u32_small by lia. cbn [type_of].
  rewrite (wide_linux_long buf (off + 4) a b r HL Hd ltac:(lia)). reflexivity.
Qed.
Lemma mapM_throws {A C} (f : A -> res C) l e : (forall x, In x l -> (exists y, f x = Ok y) \/ f x = Throw e) ->
  (exists ys, mapM f l = Ok ys) \/ mapM f l = Throw e.
Proof.
  induction l as [|x l IH]; intros H; cbn [mapM]; [eauto|].
  destruct (H x (or_introl eq_refl)) as [[y ->]| ->]; cbn [bind]; [|auto].
  destruct IH as [[ys ->]| ->]; cbn [bind]; eauto. intros z Hz. apply H. right. exact Hz.
Qed.
Lemma mapM_throw_one {A C} (f : A -> res C) l e x : (forall x, In x l -> (exists y, f x = Ok y) \/ f x = Throw e) ->
  In x l -> f x = Throw e -> mapM f l = Throw e.
Proof.
  intros H Hx Ex. destruct (mapM_throws f l e H) as [[ys E]|E]; [|exact E]. exfalso.
  clear H. revert ys E. induction l as [|z l IH]; intros ys E; [contradiction|]. cbn [mapM] in E.
  apply bind_ok in E. destruct E as (y & E1 & E). apply bind_ok in E. destruct E as (r & E2 & _).
  destruct Hx as [->|Hx]; [congruence|]. exact (IH Hx _ E2).
Qed.
Lemma C66_linux_throws buf sets : lenN buf + 12 < 2 ^ 32 -> property_sets buf sets -> none_of is_name sets ->
  Exists (fun ge => long_wide (e_value (snd ge)) = true) (all_entries sets) ->
  ParseBytes linux64 buf = Throw RangeError.
Proof.
  intros HL Hp Hn Hx. rewrite (parse_exact linux64 buf (map table_of sets)) by (lia || apply tables_of; exact Hp).
  apply Exists_exists in Hx. destruct Hx as (ge & Hin & Hl). unfold all_entries in Hin. apply in_flat_map in Hin.
  destruct Hin as (s & Hs & Hge). apply in_map_iff in Hge. destruct Hge as (e & <- & He). cbn [snd] in Hl.
  assert (V : forall s, In s sets -> lenN (s_format s) = 16 /\ forall e, In e (s_entries s) -> value_at buf (s_start s + e_offset e) (e_value e) /\ is_name (e_value e) = false).
  { intros s' Hs'. destruct Hp as [_ Hp]. destruct (In_nthN _ _ Hs') as [i Hi]. destruct (Hp i s' Hi) as (Hg & _ & _ & Hent).
    split; [apply Hg|]. intros e' He'. destruct (In_nthN _ _ He') as [j Hj]. split; [apply (Hent j e' Hj)|].
    unfold none_of in Hn. rewrite Forall_forall in Hn. apply (Hn (s_format s', e')). unfold all_entries. apply in_flat_map.
    exists s'. split; [exact Hs'|]. apply in_map. exact He'. }
  assert (R : forall s, In s sets -> (exists y, read_rows linux64 buf (table_of s) = Ok y) \/ read_rows linux64 buf (table_of s) = Throw RangeError).
  { intros s' Hs'. destruct (V s' Hs') as [G Ve]. unfold read_rows. destruct (format_ok (s_format s') G) as (f & Ef & _).
    change (t_format (table_of s')) with (s_format s'). rewrite Ef. cbn [bind].
    apply mapM_throws. intros x Hxin. cbn [table_of t_rows t_start] in *. apply in_map_iff in Hxin. destruct Hxin as (e' & <- & He').
    destruct (Ve e' He') as [Va Na]. pose proof Va as [Ht _]. pose proof (number_at_len _ _ _ _ Ht) as L.
    unfold read_entry. cbn [fst snd]. rewrite u32_small by lia. apply (property_linux buf _ (e_value e')); assumption. }
  assert (T : mapM (read_rows linux64 buf) (map table_of sets) = Throw RangeError).
  { apply (mapM_throw_one _ _ RangeError (table_of s)).
    - intros x Hxin. apply in_map_iff in Hxin. destruct Hxin as (s' & <- & Hs'). exact (R s' Hs').
    - apply in_map. exact Hs.
    - destruct (V s Hs) as [G Ve]. unfold read_rows. destruct (format_ok (s_format s) G) as (f & Ef & _).
      change (t_format (table_of s)) with (s_format s). rewrite Ef. cbn [bind].
      apply (mapM_throw_one _ _ RangeError (e_id e, e_offset e)).
      + intros x Hxin. cbn [table_of t_rows t_start] in *. apply in_map_iff in Hxin. destruct Hxin as (e' & <- & He').
        destruct (Ve e' He') as [Va Na]. pose proof Va as [Ht _]. pose proof (number_at_len _ _ _ _ Ht) as L.
        unfold read_entry. cbn [fst snd]. rewrite u32_small by lia. apply (property_linux buf _ (e_value e')); assumption.
      + cbn [table_of t_rows]. apply in_map_iff. exists e. auto.
      + destruct (Ve e He) as [Va _]. pose proof Va as [Ht _]. pose proof (number_at_len _ _ _ _ Ht) as L.
        unfold read_entry. cbn [fst snd table_of t_start]. rewrite u32_small by lia. apply (property_linux_long buf _ (e_value e)); assumption. }
  rewrite T. reflexivity.
Qed.
