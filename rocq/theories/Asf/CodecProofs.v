(** Lemmas about wide texts, codec lists and content descriptions. *)
From Coq Require Import List NArith ZArith Bool Lia Strings.String.
From Coq Require Import ZifyBool ZifyNat ZifyN.
From Verif Require Import Lib.Res Lib.Bytes Lib.BytesFacts Lib.Text Common.Model Common.Spec Common.Fields Common.Utf8
     Common.Utf8Proofs Common.ReadProofs Common.FieldProofs Magic.Model Asf.Tables Asf.Model Asf.Spec Asf.Statements
     Asf.Proofs Asf.DetailProofs.
Import ListNotations.
Local Open Scope N_scope.
Ltac Zify.zify_post_hook ::= Z.div_mod_to_equations.
Arguments N.pow : simpl never.

(** ** Windows of a buffer *)
Definition has (buf : bytes) (off : N) (w : bytes) : Prop := window buf off (lenN w) w.
Lemma has_app buf off u v : has buf off (u ++ v) -> has buf off u /\ has buf (off + lenN u) v.
Proof.
  intros [_ (pre & post & E & P)]. split; (split; [reflexivity|]).
  - exists pre, (v ++ post). split; [|exact P]. rewrite E, <- !app_assoc. reflexivity.
  - exists (pre ++ u), post. split; [rewrite E, <- !app_assoc; reflexivity|rewrite lenN_app, P; reflexivity].
Qed.
Lemma has_len buf off w : has buf off w -> off + lenN w <= lenN buf.
Proof. apply window_len. Qed.
Lemma has_intro pre w post : has (pre ++ w ++ post) (lenN pre) w.
Proof. split; [reflexivity|]. exists pre, post. split; reflexivity. Qed.
Lemma has_slice buf off w n : has buf off w -> lenN w = n -> slice buf off n = Ok w.
Proof. intros H <-. apply slice_window. exact H. Qed.

Lemma has_ushort buf off n : has buf off (to_le 2 n) -> n < 65536 -> lenN buf < 2 ^ 32 ->
  ReadUShort buf (lenN buf) off false = Ok n.
Proof.
  intros H Hn L. pose proof (has_len _ _ _ H) as Hl. rewrite lenN_to_le in Hl.
  rewrite (ReadUShort_value buf off (to_le 2 n)); [|lia|].
  - rewrite le_to_le_id by exact Hn. reflexivity.
  - unfold has in H. rewrite lenN_to_le in H. exact H.
Qed.

Lemma has_buffer buf off w n : has buf off w -> lenN w = n -> n < 2 ^ 32 -> readBuffer buf off n = Ok w.
Proof.
  intros H E Hn. unfold readBuffer. rewrite (has_slice _ _ _ _ H E).
  repeat match goal with |- context[if ?b then _ else _] => destruct b eqn:? end; try reflexivity; try lia.
Qed.

(** ** Wide texts where wide characters have two bytes *)
Lemma wide_windows buf off (u : list N) s : has buf off (utf16 u) -> Forall (fun c => c < 65536) u ->
  convert u = Ok s -> wide windows buf off (lenN u) = Ok (erasenulls s).
Proof.
  intros H Hu Hs. unfold wide. cbn [sizeof_wchar windows].
  rewrite (has_slice buf off (utf16 u)); [|exact H|unfold utf16; rewrite lenN_units; lia].
  cbn [bind]. unfold utf16. change 2%nat with (N.to_nat (sizeof_wchar windows)).
  rewrite to_wchars_units; [|reflexivity|exact Hu]. rewrite Hs. reflexivity.
Qed.

Lemma small_convert u : Forall (fun c => c < 65536) u -> exists s, convert u = Ok s.
Proof. intros H. apply convert_ok. eapply Forall_impl; [|exact H]. cbn. intros; lia. Qed.

(** What a codec is reported as *)
Definition entry_of (c : codec) (e : codec_entry) : Prop :=
  c_size e = lenN (codec_bytes c) /\ c_type e = k_type c /\ c_info e = k_info c /\
  (exists s, convert (k_name c) = Ok s /\ c_name e = erasenulls s) /\
  (exists s, convert (k_desc c) = Ok s /\ c_desc e = erasenulls s).

Lemma lenN_utf16 u : lenN (utf16 u) = 2 * lenN u.
Proof. unfold utf16. rewrite lenN_units. lia. Qed.
Lemma lenN_codec_bytes c :
  lenN (codec_bytes c) = 8 + 2 * lenN (k_name c) + 2 * lenN (k_desc c) + lenN (k_info c).
Proof. unfold codec_bytes. rewrite !lenN_app, !lenN_to_le, !lenN_utf16. lia. Qed.

Lemma subw32 a b : b <= a -> a < 2 ^ 32 -> subw 32 a b = a - b.
Proof.
  intros H1 H2. unfold subw. rewrite (N.mod_small b) by lia.
  replace (a + 2 ^ 32 - b) with (a - b + 1 * 2 ^ 32) by lia.
  rewrite N.mod_add by discriminate. apply N.mod_small. lia.
Qed.

Lemma codec_entry_windows buf off c : has buf off (codec_bytes c) -> codec_ok c -> lenN buf < 2 ^ 32 ->
  exists e, codec_entry_at windows buf (lenN buf) off = Ok e /\ entry_of c e.
Proof.
  intros H (T & Nn & Nd & Ni & Un & Ud) L. pose proof (has_len _ _ _ H) as B0. rewrite lenN_codec_bytes in B0.
  destruct (small_convert _ Un) as [sn Sn]. destruct (small_convert _ Ud) as [sd Sd].
  exists (mkCodec (lenN (codec_bytes c)) (k_type c) (erasenulls sn) (erasenulls sd) (k_info c)).
  split; [|repeat split; eauto].
  unfold codec_bytes in H.
  apply has_app in H as [H1 H]. rewrite lenN_to_le in H.
  apply has_app in H as [H2 H]. rewrite lenN_to_le in H.
  apply has_app in H as [H3 H]. rewrite lenN_utf16 in H.
  apply has_app in H as [H4 H]. rewrite lenN_to_le in H.
  apply has_app in H as [H5 H]. rewrite lenN_utf16 in H.
  apply has_app in H as [H6 H]. rewrite lenN_to_le in H.
  change (N.of_nat 2) with 2 in *.
  unfold codec_entry_at.
  rewrite (has_ushort _ _ _ H1) by assumption. cbn [bind]. rewrite (u32_small (off + 2)) by lia.
  rewrite (has_ushort _ _ _ H2) by assumption. cbn [bind]. rewrite (u32_small (off + 2 + 2)) by lia.
  rewrite (wide_windows _ _ _ _ H3 Un Sn). cbn [bind].
  replace (off + 2 + 2 + lenN (k_name c) * 2) with (off + 2 + 2 + 2 * lenN (k_name c)) by lia.
  rewrite (u32_small (off + 2 + 2 + 2 * lenN (k_name c))) by lia.
  rewrite (has_ushort _ _ _ H4) by assumption. cbn [bind].
  rewrite (u32_small (off + 2 + 2 + 2 * lenN (k_name c) + 2)) by lia.
  rewrite (wide_windows _ _ _ _ H5 Ud Sd). cbn [bind].
  replace (off + 2 + 2 + 2 * lenN (k_name c) + 2 + lenN (k_desc c) * 2)
    with (off + 2 + 2 + 2 * lenN (k_name c) + 2 + 2 * lenN (k_desc c)) by lia.
  rewrite (u32_small (off + 2 + 2 + 2 * lenN (k_name c) + 2 + 2 * lenN (k_desc c))) by lia.
  rewrite (has_ushort _ _ _ H6) by assumption. cbn [bind].
  rewrite (u32_small (off + 2 + 2 + 2 * lenN (k_name c) + 2 + 2 * lenN (k_desc c) + 2)) by lia.
  rewrite (has_buffer _ _ _ _ H eq_refl) by lia. cbn [bind].
  rewrite (u32_small (_ + lenN (k_info c))) by lia. rewrite subw32 by lia.
  f_equal. f_equal. rewrite lenN_codec_bytes. lia.
Qed.

Lemma codec_loop_windows buf l : Forall codec_ok l -> lenN buf < 2 ^ 32 -> forall off fuel,
  has buf off (List.concat (map codec_bytes l)) -> (List.length l < fuel)%nat ->
  exists es, codec_loop fuel windows buf (lenN l) off = Ok es /\ Forall2 entry_of l es.
Proof.
  intros Hl L. induction Hl as [|c l Hc Hl IH]; intros off fuel H Hf; (destruct fuel as [|fuel]; [cbn [List.length] in Hf; lia|]).
  - exists []. split; [reflexivity|constructor].
  - cbn [map List.concat] in H. apply has_app in H as [H1 H2].
    destruct (codec_entry_windows buf off c H1 Hc L) as (e & Ee & He).
    destruct (IH (off + lenN (codec_bytes c)) fuel H2) as (es & Ees & Hes); [cbn [List.length] in Hf; lia|].
    exists (e :: es). split; [|constructor; assumption].
    cbn [codec_loop]. rewrite lenN_cons. replace (lenN l + 1 =? 0) with false by lia.
    rewrite Ee. cbn [bind]. replace (lenN l + 1 - 1) with (lenN l) by lia.
    destruct He as (Es & _). rewrite Es. apply has_len in H1. rewrite u32_small by lia. rewrite Ees. reflexivity.
Qed.

Lemma length_codecs l : lenN l <= lenN (List.concat (map codec_bytes l)).
Proof.
  induction l as [|c l IH]; [cbn; lia|]. cbn [map List.concat]. rewrite lenN_app, lenN_cons, lenN_codec_bytes. lia.
Qed.

Lemma codec_list_windows (reserved : bytes) l : lenN reserved = 16 -> Forall codec_ok l ->
  lenN (codec_data reserved l) < 2 ^ 32 ->
  exists es, codec_list windows (codec_data reserved l) =
             Ok (ACodecs (codec_data reserved l) (ASFTypeFromGuid reserved) (lenN l) es) /\ Forall2 entry_of l es.
Proof.
  intros Hr Hl L. set (data := codec_data reserved l) in *.
  assert (H : has data 0 (codec_data reserved l)).
  { pose proof (has_intro [] (codec_data reserved l) []) as H. cbn [app] in H. rewrite app_nil_r in H. exact H. }
  unfold codec_data in H. apply has_app in H as [H1 H]. apply has_app in H as [H2 H3].
  rewrite Hr, lenN_to_le in *. change (0 + 16) with 16 in *. change (16 + N.of_nat 4) with 20 in *.
  pose proof (has_len _ _ _ H3) as B3. pose proof (length_codecs l) as Lc.
  destruct (codec_loop_windows data l Hl L 20 (S (List.length data)) H3) as (es & Ees & Hes).
  { unfold lenN in *. lia. }
  exists es. split; [|exact Hes]. unfold codec_list.
  rewrite (has_slice _ _ _ 16 H1 Hr). cbn [bind]. unfold ReadULong. cbn [sizeof_long windows].
  replace (lenN data <? 16 + 4) with false by lia.
  rewrite (has_slice _ _ _ 4 H2) by apply lenN_to_le. cbn [bind].
  rewrite le_to_le_id by (change (256 ^ N.of_nat 4) with (2 ^ 32); lia). rewrite Ees. reflexivity.
Qed.

(** ** Wide texts where wide characters have four bytes *)
Lemma wide_linux buf off c1 c2 u : has buf off (utf16 (c1 :: c2 :: u)) -> 17 <= c2 -> c1 < 65536 -> c2 < 65536 ->
  forall n, 0 < n -> exists f, wide linux64 buf off n = f /\ (f = Throw RangeError \/ f = UB).
Proof.
  intros H H2 B1 B2 n Hn. eexists. split; [reflexivity|]. unfold wide. cbn [sizeof_wchar linux64].
  destruct (slice buf off (n * 4)) as [w| | |] eqn:E; cbn [bind]; auto.
  - left. rewrite convert_bad; [reflexivity|].
    unfold utf16, units in H. cbn [map List.concat] in H. rewrite app_assoc in H. apply has_app in H as [H _].
    apply slice_inv in E as (L & E & Lw).
    assert (Ew : firstn 4 w = to_le 2 c1 ++ to_le 2 c2).
    { apply (has_slice _ _ _ 4) in H; [|rewrite lenN_app, !lenN_to_le; reflexivity].
      rewrite slice_ok in H by lia.
      assert (X : takeN 4 (dropN off buf) = to_le 2 c1 ++ to_le 2 c2) by congruence. rewrite <- X, E.
      rewrite !takeN_firstn, firstn_firstn. f_equal. lia. }
    unfold to_wchars. cbn [sizeof_wchar linux64 wchars]. change (N.to_nat 4) with 4%nat.
    assert (Lw' : (4 <= List.length w)%nat) by (unfold lenN in Lw; lia).
    replace (Nat.ltb (List.length w) 4) with false by lia.
    rewrite Ew. intros F. apply Forall_inv in F. rewrite le_app, !le_to_le_id, lenN_to_le in F by assumption.
    change (256 ^ N.of_nat 2) with 65536 in F. lia.
  - pose proof (slice_ub buf off (n * 4)). unfold slice in E. destruct (_ <=? _); discriminate.
  - unfold slice in E. destruct (_ <=? _); discriminate.
Qed.

Lemma codec_list_linux (reserved : bytes) c1 c2 name c l : lenN reserved = 16 -> codec_ok c -> k_name c = c1 :: c2 :: name ->
  17 <= c2 -> lenN (codec_data reserved (c :: l)) < 2 ^ 32 ->
  codec_list linux64 (codec_data reserved (c :: l)) = Throw RangeError \/
  codec_list linux64 (codec_data reserved (c :: l)) = UB.
Proof.
  intros Hr Hc Hn H17 L. set (data := codec_data reserved (c :: l)) in *.
  assert (H : has data 0 (codec_data reserved (c :: l))).
  { pose proof (has_intro [] (codec_data reserved (c :: l)) []) as H. cbn [app] in H. rewrite app_nil_r in H. exact H. }
  unfold codec_data in H. apply has_app in H as [H1 H]. apply has_app in H as [H2 H3].
  rewrite Hr, lenN_to_le in *. change (0 + 16) with 16 in *. change (16 + N.of_nat 4) with 20 in *.
  cbn [map List.concat] in H3. apply has_app in H3 as [H3 _]. pose proof (has_len _ _ _ H3) as B3.
  rewrite lenN_codec_bytes, Hn, !lenN_cons in B3.
  unfold codec_list. rewrite (has_slice _ _ _ 16 H1 Hr). cbn [bind].
  unfold ReadULong. cbn [sizeof_long linux64]. replace (lenN data <? 16 + 8) with false by lia.
  assert (S8 : exists w, slice data 16 8 = Ok (to_le 4 (lenN (c :: l)) ++ w)).
  { destruct H2 as [_ (pre & post & E & P)].
    exists (takeN 4 post). rewrite slice_ok by lia. f_equal. rewrite E, <- P, dropN_app_exact.
    rewrite takeN_app2 by (rewrite lenN_to_le; lia). rewrite lenN_to_le. reflexivity. }
  destruct S8 as [w ->]. cbn [bind].
  assert (Nz : le (to_le 4 (lenN (c :: l)) ++ w) <> 0).
  { rewrite le_app, le_to_le_id; [rewrite lenN_cons; lia|]. change (256 ^ N.of_nat 4) with (2 ^ 32).
    pose proof (length_codecs (c :: l)) as Q. unfold data, codec_data in L. rewrite !lenN_app in L.
    unfold bytes in *. lia. }
  set (count := le _) in *. cbn [codec_loop]. replace (count =? 0) with false by lia.
  destruct Hc as (T & Nn & Nd & Ni & Un & Ud). rewrite Hn in Un.
  pose proof (Forall_inv Un) as B1. pose proof (Forall_inv (Forall_inv_tail Un)) as B2. cbn beta in B1, B2.
  unfold codec_bytes in H3.
  apply has_app in H3 as [G1 G]. rewrite lenN_to_le in G.
  apply has_app in G as [G2 G]. rewrite lenN_to_le in G.
  apply has_app in G as [G3 _]. change (N.of_nat 2) with 2 in *.
  unfold codec_entry_at.
  rewrite (has_ushort _ _ _ G1) by assumption. cbn [bind]. rewrite (u32_small (20 + 2)) by lia.
  rewrite (has_ushort _ _ _ G2) by assumption. cbn [bind]. rewrite (u32_small (20 + 2 + 2)) by lia.
  rewrite Hn in G3.
  destruct (wide_linux data (20 + 2 + 2) c1 c2 name G3 H17 B1 B2 (lenN (k_name c))) as (f & -> & [->| ->]);
    [rewrite Hn, lenN_cons; lia| |]; cbn [bind]; auto.
Qed.

(** ** Classification *)
Lemma starts_with_spec q s : starts_with q s = true <-> exists t, s = q ++ t.
Proof.
  revert s. induction q as [|c q IH]; intros s; cbn [starts_with app].
  - split; [intros _; exists s; reflexivity|reflexivity].
  - destruct s as [|d s]; [split; [discriminate|intros [t E]; discriminate]|].
    rewrite andb_true_iff, IH, byte_eqb_eq. split.
    + intros [-> [t ->]]. exists t. reflexivity.
    + intros [t E]. injection E as -> ->. split; [reflexivity|exists t; reflexivity].
Qed.
