(** Lemmas about stream properties and extended content descriptions. *)
From Coq Require Import List NArith ZArith Bool Lia Strings.String.
From Coq Require Import ZifyBool ZifyNat ZifyN.
From Verif Require Import Lib.Res Lib.Bytes Lib.BytesFacts Lib.NumSpec Lib.Text Lib.NumFacts Common.Model Common.Spec Common.Fields Common.Utf8
     Common.Utf8Proofs Common.ReadProofs Common.FieldProofs Common.EscapeProofs Magic.Model Asf.Tables Asf.Model Asf.Spec Asf.Statements
     Asf.Proofs Asf.DetailProofs Asf.CodecProofs Asf.ObjectProofs.
Import ListNotations.
Local Open Scope N_scope.
Ltac Zify.zify_post_hook ::= Z.div_mod_to_equations.
Arguments N.pow : simpl never.

Lemma has_self data : has data 0 data.
Proof. pose proof (has_intro [] data []) as H. cbn [app] in H. rewrite app_nil_r in H. exact H. Qed.
Lemma has_number buf off (n : nat) v : has buf off (to_le n v) -> v < 256 ^ N.of_nat n -> number_at buf off (N.of_nat n) v.
Proof.
  intros H B. exists (to_le n v). split; [|apply le_to_le_id; exact B].
  unfold has in H. rewrite lenN_to_le in H. exact H.
Qed.

(** ** Stream properties *)
Lemma stream_exact data (g1 g2 : bytes) time tlen elen flags reserved : lenN data < 2 ^ 32 ->
  window data 0 16 g1 -> window data 16 16 g2 -> number_at data 32 8 time -> number_at data 40 4 tlen ->
  number_at data 44 4 elen -> number_at data 48 2 flags -> number_at data 50 4 reserved ->
  stream_properties windows data =
  if 54 + tlen + elen <=? lenN data
  then Ok (AStream data (ASFTypeFromGuid g1) (ASFTypeFromGuid g2) time tlen elen flags reserved
             (takeN tlen (dropN 54 data)) (takeN elen (dropN (54 + tlen) data)))
  else UB.
Proof.
  intros L G1 G2 T T1 T2 Fl R. unfold stream_properties.
  rewrite (proj2 (slice_window _ _ _ _) G1), (proj2 (slice_window _ _ _ _) G2). cbn [bind].
  rewrite (ULongLong_value _ _ _ T). cbn [bind].
  rewrite (ULong_windows _ _ _ T1), (ULong_windows _ _ _ T2). cbn [bind].
  rewrite (UShort_value _ _ _ Fl L). cbn [bind]. rewrite (ULong_windows _ _ _ R). cbn [bind].
  pose proof (number_at_bound _ _ _ _ T1) as B1. pose proof (number_at_bound _ _ _ _ T2) as B2.
  change (256 ^ 4) with (2 ^ 32) in *. change (2 ^ 32) with 4294967296 in *.
  unfold readBuffer. replace (2 ^ 63 - 1 <? tlen) with false by (symmetry; apply N.ltb_ge; change (2 ^ 63 - 1) with 9223372036854775807; lia).
  replace (2 ^ 63 - 1 <? elen) with false by (symmetry; apply N.ltb_ge; change (2 ^ 63 - 1) with 9223372036854775807; lia).
  destruct (N.leb_spec (54 + tlen + elen) (lenN data)) as [H|H].
  - rewrite slice_ok by lia. cbn [bind]. rewrite u32_small by (change (2 ^ 32) with 4294967296; lia).
    rewrite slice_ok by lia. reflexivity.
  - destruct (N.le_gt_cases (54 + tlen) (lenN data)) as [H1|H1].
    + rewrite slice_ok by lia. cbn [bind]. rewrite u32_small by (change (2 ^ 32) with 4294967296; lia).
      rewrite slice_ub by lia. reflexivity.
    + rewrite slice_ub by lia. reflexivity.
Qed.

Lemma stream_parts type corr time flags reserved (own cdata : bytes) : lenN type = 16 -> lenN corr = 16 ->
  let data := stream_data type corr time flags reserved own cdata in
  time < 2 ^ 64 -> flags < 65536 -> reserved < 2 ^ 32 -> lenN data < 2 ^ 32 ->
  (window data 0 16 type /\ window data 16 16 corr /\ number_at data 32 8 time /\ number_at data 40 4 (lenN own) /\
   number_at data 44 4 (lenN cdata) /\ number_at data 48 2 flags /\ number_at data 50 4 reserved) /\
  has data 54 own /\ has data (54 + lenN own) cdata /\ lenN data = 54 + lenN own + lenN cdata.
Proof.
  intros L1 L2 data Ht Hf Hr L.
  assert (Ld : lenN data = 54 + lenN own + lenN cdata).
  { unfold data, stream_data. rewrite !lenN_app, !lenN_to_le, L1, L2. lia. }
  pose proof (has_self data) as H. unfold data at 2, stream_data in H.
  apply has_app in H as [H1 H]. rewrite L1 in H. change (0 + 16) with 16 in H.
  apply has_app in H as [H2 H]. rewrite L2 in H. change (16 + 16) with 32 in H.
  apply has_app in H as [H3 H]. rewrite lenN_to_le in H. change (32 + N.of_nat 8) with 40 in H.
  apply has_app in H as [H4 H]. rewrite lenN_to_le in H. change (40 + N.of_nat 4) with 44 in H.
  apply has_app in H as [H5 H]. rewrite lenN_to_le in H. change (44 + N.of_nat 4) with 48 in H.
  apply has_app in H as [H6 H]. rewrite lenN_to_le in H. change (48 + N.of_nat 2) with 50 in H.
  apply has_app in H as [H7 H]. rewrite lenN_to_le in H. change (50 + N.of_nat 4) with 54 in H.
  apply has_app in H as [H8 H9].
  unfold has in H1, H2. rewrite L1 in H1. rewrite L2 in H2.
  split; [|split; [exact H8|split; [exact H9|exact Ld]]].
  split; [exact H1|]. split; [exact H2|].
  split; [apply (has_number data 32 8); assumption|].
  split; [apply (has_number data 40 4); [assumption|change (256 ^ N.of_nat 4) with (2 ^ 32); lia]|].
  split; [apply (has_number data 44 4); [assumption|change (256 ^ N.of_nat 4) with (2 ^ 32); lia]|].
  split; [apply (has_number data 48 2); assumption|].
  apply (has_number data 50 4); assumption.
Qed.

Lemma stream_windows type corr time flags reserved (own cdata : bytes) : lenN type = 16 -> lenN corr = 16 ->
  let data := stream_data type corr time flags reserved own cdata in
  time < 2 ^ 64 -> flags < 65536 -> reserved < 2 ^ 32 -> lenN data < 2 ^ 32 ->
  stream_properties windows data =
  Ok (AStream data (ASFTypeFromGuid type) (ASFTypeFromGuid corr) time (lenN own) (lenN cdata) flags reserved own cdata).
Proof.
  intros L1 L2 data Ht Hf Hr L.
  destruct (stream_parts type corr time flags reserved own cdata L1 L2 Ht Hf Hr L)
    as ((W1 & W2 & N1 & N2 & N3 & N4 & N5) & H8 & H9 & Ld). change (stream_data type corr time flags reserved own cdata) with data in W1, W2, N1, N2, N3, N4, N5, H8, H9, Ld.
  rewrite (stream_exact data _ _ _ _ _ _ _ L W1 W2 N1 N2 N3 N4 N5).
  replace (_ <=? lenN data) with true by lia.
  apply has_slice with (n := lenN own) in H8; [|reflexivity]. apply has_slice with (n := lenN cdata) in H9; [|reflexivity].
  rewrite slice_ok in H8 by lia. rewrite slice_ok in H9 by lia.
  assert (E1 : takeN (lenN own) (dropN 54 data) = own) by congruence.
  assert (E2 : takeN (lenN cdata) (dropN (54 + lenN own) data) = cdata) by congruence.
  rewrite E1, E2. reflexivity.
Qed.

(** Where [long] has eight bytes the first length takes in the second one. *)
Lemma stream_linux type corr time flags reserved (own cdata : bytes) : lenN type = 16 -> lenN corr = 16 ->
  let data := stream_data type corr time flags reserved own cdata in
  time < 2 ^ 64 -> flags < 65536 -> reserved < 2 ^ 32 -> lenN data < 2 ^ 31 -> cdata <> [] ->
  4 <= lenN own + lenN cdata ->
  stream_properties linux64 data = UB.
Proof.
  intros L1 L2 data Ht Hf Hr L Hc H4.
  assert (L' : lenN data < 2 ^ 32) by (change (2 ^ 31) with 2147483648 in L; change (2 ^ 32) with 4294967296; lia).
  destruct (stream_parts type corr time flags reserved own cdata L1 L2 Ht Hf Hr L')
    as ((W1 & W2 & N1 & N2 & N3 & N4 & N5) & _ & _ & Ld). change (stream_data type corr time flags reserved own cdata) with data in W1, W2, N1, N2, N3, N4, N5, Ld.
  assert (Nc : 1 <= lenN cdata) by (destruct cdata; [congruence|rewrite lenN_cons; lia]).
  unfold stream_properties.
  rewrite (proj2 (slice_window _ _ _ _) W1), (proj2 (slice_window _ _ _ _) W2). cbn [bind].
  rewrite (ULongLong_value _ _ _ N1). cbn [bind].
  assert (T : ReadULong linux64 data (lenN data) 40 = Ok (lenN own + 2 ^ 32 * lenN cdata)).
  { unfold ReadULong. cbn [sizeof_long linux64]. replace (lenN data <? 40 + 8) with false by lia.
    assert (H : has data 40 (to_le 4 (lenN own) ++ to_le 4 (lenN cdata))).
    { split; [reflexivity|]. exists (type ++ corr ++ to_le 8 time), (to_le 2 flags ++ to_le 4 reserved ++ own ++ cdata).
      split; [unfold data, stream_data; rewrite <- !app_assoc; reflexivity|].
      rewrite !lenN_app, lenN_to_le, L1, L2. reflexivity. }
    rewrite (has_slice _ _ _ 8 H) by (rewrite lenN_app, !lenN_to_le; reflexivity). cbn [bind].
    rewrite le_app, !le_to_le_id, lenN_to_le by (change (256 ^ N.of_nat 4) with (2 ^ 32); lia).
    reflexivity. }
  rewrite T. cbn [bind].
  destruct (ULong_ok linux64 data 44) as [e E]; [cbn [sizeof_long linux64]; lia|]. rewrite E. cbn [bind].
  rewrite (UShort_value _ _ _ N4 L'). cbn [bind].
  destruct (ULong_ok linux64 data 50) as [r R]; [cbn [sizeof_long linux64]; lia|]. rewrite R. cbn [bind].
  unfold readBuffer.
  change (2 ^ 31) with 2147483648 in *. change (2 ^ 32) with 4294967296 in *. change (2 ^ 63 - 1) with 9223372036854775807.
  replace (_ <? _) with false by lia. rewrite slice_ub by lia. reflexivity.
Qed.

(** ** Extended content descriptions *)
Lemma wide_scalar buf off (u : list N) : has buf off (utf16 u) -> Forall (fun c => c < 65536 /\ scalar c) u ->
  exists s, wide windows buf off (lenN u) = Ok s /\ utf8 s (nonzero_chars u).
Proof.
  intros H Hu.
  assert (Hs : Forall scalar u) by (eapply Forall_impl; [|exact Hu]; cbn; tauto).
  assert (Hb : Forall (fun c => c < 65536) u) by (eapply Forall_impl; [|exact Hu]; cbn; tauto).
  destruct (small_convert _ Hb) as [s Es]. exists (erasenulls s). split; [apply wide_windows; assumption|].
  apply convert_nonzero in Es. rewrite filter_shown in Es. apply convert_utf8; [exact Es|].
  unfold shown. rewrite Forall_forall in *. intros x Hx. apply filter_In in Hx. apply Hs. tauto.
Qed.

Lemma value_windows v : avalue_ok v ->
  exists s, descriptor_value windows (avalue_type v) (avalue_bytes v) = Ok s /\ value_text reversed v s.
Proof.
  intros [L H]. pose proof (has_self (avalue_bytes v)) as S0.
  destruct v as [u|b|b|n|n|n]; cbn [avalue_type avalue_bytes value_text] in *; unfold descriptor_value.
  - change (0 =? 0) with true. cbv iota. rewrite lenN_utf16 in *.
    replace (2 * lenN u / 2) with (lenN u) by lia. apply (wide_scalar _ 0 u S0 H).
  - exists (bin2hex11 b). split; [reflexivity|]. apply bin2hex11_dump.
  - destruct b; [exists (B "true")|exists (B "false")]; split; reflexivity.
  - exists (dec (reversed n)). split; [|apply dec_num_dec]. change (3 =? 0) with false. change (3 =? 1) with false. change (3 =? 2) with false.
    change (3 =? 3) with true. cbv iota.
    rewrite (ReadUInt_value (to_le 4 n) 0 (to_le 4 n)).
    + reflexivity.
    + reflexivity.
    + unfold has in S0. rewrite lenN_to_le in S0. exact S0.
  - exists (dec n). split; [|apply dec_num_dec]. cbn [N.eqb Pos.eqb]. 
    rewrite (ULongLong_value (to_le 8 n) 0 n); [reflexivity|]. apply (has_number (to_le 8 n) 0 8); assumption.
  - exists (dec n). split; [|apply dec_num_dec]. cbn [N.eqb Pos.eqb].
    rewrite (UShort_value (to_le 2 n) 0 n); [reflexivity| |rewrite lenN_to_le; reflexivity].
    apply (has_number (to_le 2 n) 0 2); assumption.
Qed.

Lemma lenN_attribute a : lenN (attribute_bytes a) = 6 + 2 * lenN (fst a) + lenN (avalue_bytes (snd a)).
Proof. unfold attribute_bytes. rewrite !lenN_app, !lenN_to_le, lenN_utf16. lia. Qed.

Lemma descriptor_windows buf off a : has buf off (attribute_bytes a) -> attribute_ok a -> lenN buf < 2 ^ 32 ->
  exists n v, content_descriptor windows buf (lenN buf) off = Ok (n, v, lenN (attribute_bytes a)) /\
              attribute_text reversed a (n, v).
Proof.
  intros H (Ln & Un & Hv) L. destruct a as [name v]. cbn [fst snd] in *.
  pose proof (has_len _ _ _ H) as B0. rewrite lenN_attribute in *. cbn [fst snd] in *.
  unfold attribute_bytes in H. cbn [fst snd] in H.
  apply has_app in H as [H1 H]. rewrite lenN_to_le in H.
  apply has_app in H as [H2 H]. rewrite lenN_utf16 in H.
  apply has_app in H as [H3 H]. rewrite lenN_to_le in H.
  apply has_app in H as [H4 H5]. rewrite lenN_to_le in H5. change (N.of_nat 2) with 2 in *.
  destruct (wide_scalar _ _ _ H2 Un) as (n & En & Tn).
  destruct (value_windows v Hv) as (s & Es & Ts). destruct Hv as [Lv _].
  exists n, s. split; [|split; assumption].
  unfold content_descriptor.
  rewrite (has_ushort _ _ _ H1) by assumption. cbn [bind]. rewrite (u32_small (off + 2)) by lia.
  replace (2 * lenN name / 2) with (lenN name) by lia. rewrite En. cbn [bind].
  rewrite (u32_small (off + 2 + 2 * lenN name)) by lia.
  rewrite (has_ushort _ _ _ H3); [|destruct v; reflexivity|assumption]. cbn [bind].
  rewrite (u32_small (off + 2 + 2 * lenN name + 2)) by lia.
  rewrite (has_ushort _ _ _ H4) by assumption. cbn [bind].
  rewrite (u32_small (off + 2 + 2 * lenN name + 2 + 2)) by lia.
  rewrite (has_buffer _ _ _ _ H5 eq_refl) by lia. cbn [bind]. rewrite Es. cbn [bind].
  rewrite (u32_small (_ + lenN (avalue_bytes v))) by lia. rewrite subw32 by lia.
  f_equal. f_equal. lia.
Qed.

Lemma descriptor_loop_windows buf l : Forall attribute_ok l -> lenN buf < 2 ^ 32 -> forall off fuel,
  has buf off (List.concat (map attribute_bytes l)) -> (List.length l < fuel)%nat ->
  exists es, descriptor_loop fuel windows buf (lenN l) off = Ok es /\ Forall2 (attribute_text reversed) l es.
Proof.
  intros Hl L. induction Hl as [|c l Hc Hl IH]; intros off fuel H Hf; (destruct fuel as [|fuel]; [cbn [List.length] in Hf; lia|]).
  - exists []. split; [reflexivity|constructor].
  - cbn [map List.concat] in H. apply has_app in H as [H1 H2].
    destruct (descriptor_windows buf off c H1 Hc L) as (n & v & Ee & He).
    destruct (IH (off + lenN (attribute_bytes c)) fuel H2) as (es & Ees & Hes); [cbn [List.length] in Hf; lia|].
    exists ((n, v) :: es). split; [|constructor; assumption].
    cbn [descriptor_loop]. rewrite lenN_cons. replace (lenN l + 1 =? 0) with false by lia.
    rewrite Ee. cbn [bind]. replace (lenN l + 1 - 1) with (lenN l) by lia.
    apply has_len in H1. rewrite u32_small by lia. rewrite Ees. reflexivity.
Qed.

Lemma length_attributes l : lenN l <= lenN (List.concat (map attribute_bytes l)).
Proof.
  induction l as [|c l IH]; [cbn; lia|]. cbn [map List.concat]. rewrite lenN_app, lenN_cons, lenN_attribute. lia.
Qed.

Lemma attributes_windows l : Forall attribute_ok l -> lenN l < 65536 -> lenN (attributes_data l) < 2 ^ 32 ->
  exists es, extended_content windows (attributes_data l) = Ok (AExtContent (attributes_data l) (lenN l) es) /\
             Forall2 (attribute_text reversed) l es.
Proof.
  intros Hl Hn L. set (data := attributes_data l) in *.
  pose proof (has_self data) as H. unfold data at 2, attributes_data in H. apply has_app in H as [H1 H2].
  rewrite lenN_to_le in H2. change (0 + N.of_nat 2) with 2 in H2.
  pose proof (has_len _ _ _ H2) as B3. pose proof (length_attributes l) as Lc.
  destruct (descriptor_loop_windows data l Hl L 2 (S (List.length data)) H2) as (es & Ees & Hes).
  { unfold lenN in *. lia. }
  exists es. split; [|exact Hes]. unfold extended_content. rewrite (has_ushort _ _ _ H1) by assumption. cbn [bind].
  rewrite Ees. reflexivity.
Qed.

(** ** In files: one object among others that are not looked into *)
Lemma windows_among number r1 r2 before after (g d : bytes) o rest :
  let objs := before ++ (g, d) :: after in
  header_size objs <= 65536 -> number < 2 ^ 32 -> Forall opaque before -> Forall opaque after ->
  lenN objs <= number -> lenN g = 16 -> (forall F, made F windows (g, d) = Ok o) -> obj_data o = d ->
  (forall base, classify base o = base) ->
  asf_answer windows (asf_file number r1 r2 objs rest) =
  Ok [asf_result asf_base
        (AHeader (header_size objs) number (b2n r1) (b2n r2) :: map reported before ++ o :: map reported after)].
Proof.
  intros objs Hs Hn Hb Ha Hl Hg Ho Hd Hc.
  set (cs := map reported before ++ o :: map reported after).
  rewrite (answer_ok windows number r1 r2 objs rest Hs number cs).
  - rewrite takeN_all.
    + unfold cs. rewrite fold_left_app, classify_reported. cbn [fold_left]. rewrite Hc, classify_reported. reflexivity.
    + unfold cs, objs in *. rewrite !lenN_app, !lenN_cons, !lenN_map in *. exact Hl.
  - apply header_windows. exact Hn.
  - unfold objs, cs. apply Forall2_app; [apply opaque_parsed; exact Hb|].
    constructor; [|apply opaque_parsed; exact Ha].
    split; [exact Hg|]. split; [apply Ho|rewrite Hd; reflexivity].
Qed.

Lemma object_small (g d : bytes) before after : lenN g = 16 -> header_size (before ++ (g, d) :: after) <= 65536 -> lenN d < 65536.
Proof.
  intros Hg Hs. unfold header_size in Hs. rewrite stored_all_app, lenN_app, stored_all_cons, lenN_app in Hs.
  pose proof (lenN_stored g d Hg). lia.
Qed.
