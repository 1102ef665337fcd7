(** Lemmas about file properties, header extensions and content descriptions. *)
From Coq Require Import List NArith ZArith Bool Lia Strings.String.
From Coq Require Import ZifyBool ZifyNat ZifyN.
From Verif Require Import Lib.Res Lib.Bytes Lib.BytesFacts Lib.Text Common.Model Common.Spec Common.Fields Common.Utf8
     Common.Utf8Proofs Common.ReadProofs Common.FieldProofs Magic.Model Asf.Tables Asf.Model Asf.Spec Asf.Statements
     Asf.Proofs Asf.DetailProofs Asf.CodecProofs.
Import ListNotations.
Local Open Scope N_scope.
Ltac Zify.zify_post_hook ::= Z.div_mod_to_equations.
Arguments N.pow : simpl never.

(** ** Numbers stored in a buffer *)
Lemma ULong_windows buf off v : number_at buf off 4 v -> ReadULong windows buf (lenN buf) off = Ok v.
Proof.
  intros (w & W & <-). unfold ReadULong. cbn [sizeof_long windows]. pose proof (window_len _ _ _ _ W) as L.
  replace (lenN buf <? off + 4) with false by lia. rewrite (proj2 (slice_window _ _ _ _) W). reflexivity.
Qed.
Lemma ULongLong_value buf off v : number_at buf off 8 v -> ReadULongLong buf (lenN buf) off = Ok v.
Proof.
  intros (w & W & <-). unfold ReadULongLong. pose proof (window_len _ _ _ _ W) as L.
  replace (lenN buf <? off + 8) with false by lia. rewrite (proj2 (slice_window _ _ _ _) W). reflexivity.
Qed.
Lemma ULong_short p buf off : lenN buf < off + sizeof_long p -> ReadULong p buf (lenN buf) off = Throw RangeError.
Proof. intros H. unfold ReadULong. replace (_ <? _) with true by lia. reflexivity. Qed.
Lemma ULongLong_short buf off : lenN buf < off + 8 -> ReadULongLong buf (lenN buf) off = Throw RangeError.
Proof. intros H. unfold ReadULongLong. replace (_ <? _) with true by lia. reflexivity. Qed.
Lemma ULong_ok p buf off : off + sizeof_long p <= lenN buf -> exists v, ReadULong p buf (lenN buf) off = Ok v.
Proof.
  intros H. unfold ReadULong. replace (_ <? _) with false by lia. rewrite slice_ok by lia. eexists; reflexivity.
Qed.
Lemma ULongLong_ok buf off : off + 8 <= lenN buf -> exists v, ReadULongLong buf (lenN buf) off = Ok v.
Proof.
  intros H. unfold ReadULongLong. replace (_ <? _) with false by lia. rewrite slice_ok by lia. eexists; reflexivity.
Qed.
Lemma UShort_value buf off v : number_at buf off 2 v -> lenN buf < 2 ^ 32 -> ReadUShort buf (lenN buf) off false = Ok v.
Proof.
  intros (w & W & <-) L. pose proof (window_len _ _ _ _ W) as Hl.
  rewrite (ReadUShort_value buf off w) by (auto; lia). reflexivity.
Qed.

(** ** File properties *)
Lemma file_windows (data id : bytes) fs cr dp pl se pre fl mi ma br :
  window data 0 16 id ->
  number_at data 16 8 fs -> number_at data 24 8 cr -> number_at data 32 8 dp -> number_at data 40 8 pl ->
  number_at data 48 8 se -> number_at data 56 8 pre ->
  number_at data 64 4 fl -> number_at data 68 4 mi -> number_at data 72 4 ma -> number_at data 76 4 br ->
  file_properties windows data = Ok (AFile data id fs cr dp pl se pre fl mi ma br).
Proof.
  intros W H1 H2 H3 H4 H5 H6 H7 H8 H9 H10. unfold file_properties.
  rewrite (proj2 (slice_window _ _ _ _) W). cbn [bind].
  rewrite (ULongLong_value _ _ _ H1), (ULongLong_value _ _ _ H2), (ULongLong_value _ _ _ H3), (ULongLong_value _ _ _ H4),
    (ULongLong_value _ _ _ H5), (ULongLong_value _ _ _ H6), (ULong_windows _ _ _ H7), (ULong_windows _ _ _ H8),
    (ULong_windows _ _ _ H9), (ULong_windows _ _ _ H10).
  reflexivity.
Qed.

Ltac step_ll :=
  match goal with |- context[ReadULongLong ?b (lenN ?b) ?o] =>
    destruct (N.lt_ge_cases (lenN b) (o + 8));
    [rewrite (ULongLong_short b o) by assumption; reflexivity
    |let v := fresh "v" in let E := fresh in destruct (ULongLong_ok b o) as [v E]; [assumption|]; rewrite E; cbn [bind]]
  end.
Ltac step_l :=
  match goal with |- context[ReadULong ?p ?b (lenN ?b) ?o] =>
    destruct (N.lt_ge_cases (lenN b) (o + sizeof_long p));
    [rewrite (ULong_short p b o) by assumption; reflexivity
    |let v := fresh "v" in let E := fresh in destruct (ULong_ok p b o) as [v E]; [assumption|]; rewrite E; cbn [bind]]
  end.

Lemma file_short p data : 16 <= lenN data -> lenN data < 76 + sizeof_long p ->
  file_properties p data = Throw RangeError.
Proof.
  intros H1 H2. unfold file_properties. rewrite slice_ok by lia. cbn [bind].
  do 6 step_ll. do 3 step_l. rewrite ULong_short by lia. reflexivity.
Qed.
Lemma file_tiny p data : lenN data < 16 -> file_properties p data = UB.
Proof. intros H. unfold file_properties. rewrite slice_ub by lia. reflexivity. Qed.

(** ** Files whose objects are opaque up to one that fails *)
Lemma opaque_guid l : Forall opaque l -> Forall (fun o => lenN (fst o) = 16) l.
Proof. intros H. eapply Forall_impl; [|exact H]. intros o Ho. exact (proj1 Ho). Qed.

Lemma windows_failure number r1 r2 before bad after rest :
  let objs := before ++ bad :: after in
  header_size objs <= 65536 -> number < 2 ^ 32 -> Forall opaque before -> lenN before < number ->
  lenN (fst bad) = 16 ->
  let F := List.length (takeN 65536 (asf_file number r1 r2 objs rest)) in
  fails (made F windows bad) ->
  asf_answer windows (asf_file number r1 r2 objs rest) = failure (made F windows bad).
Proof.
  intros objs Hs Hn Hb Hl Hg F Hf.
  apply (answer_fail windows number r1 r2 objs rest Hs number before bad after (map reported before)); auto.
  - apply header_windows. exact Hn.
  - apply opaque_parsed. exact Hb.
Qed.

Lemma linux_failure number r1 r2 before bad after rest :
  let objs := before ++ bad :: after in
  header_size objs <= 65536 -> number < 2 ^ 32 -> Forall opaque before -> r1 <> x00 \/ r2 <> x00 ->
  lenN (fst bad) = 16 ->
  let F := List.length (takeN 65536 (asf_file number r1 r2 objs rest)) in
  fails (made F linux64 bad) ->
  asf_answer linux64 (asf_file number r1 r2 objs rest) = failure (made F linux64 bad).
Proof.
  intros objs Hs Hn Hb Hr Hg F Hf.
  assert (X : exists o l, objs = o :: l /\ lenN (fst o) = 16).
  { unfold objs. destruct before as [|o before].
    - exists bad, after. split; [reflexivity|exact Hg].
    - exists o, (before ++ bad :: after). split; [reflexivity|]. exact (proj1 (Forall_inv Hb)). }
  destruct X as (o & l & Eo & Ho).
  pose proof (linux_number number r1 r2 o l (header_size objs) Hn Ho) as E.
  assert (Big : lenN before < number + 2 ^ 32 * le (r1 :: r2 :: takeN 2 (fst o))).
  { assert (1 <= le (r1 :: r2 :: takeN 2 (fst o))).
    { cbn [le]. assert (0 < b2n r1 \/ 0 < b2n r2); [|lia].
      destruct Hr as [Hr|Hr]; [left|right]; apply N.neq_0_lt_0; intros Z; apply Hr; apply b2n_inj; rewrite Z; reflexivity. }
    pose proof (length_objs before (opaque_guid _ Hb)) as Lo. unfold header_size, objs in Hs.
    rewrite stored_all_app, lenN_app in Hs. change (2 ^ 32) with 4294967296. lia. }
  set (number' := number + _) in *.
  assert (E' : asf_header linux64 (header_data number r1 r2 (stored_all objs)) (header_size objs) =
               Ok (AHeader (header_size objs) number' (b2n r1) (b2n r2))).
  { etransitivity; [|exact E]. f_equal. f_equal. exact (f_equal stored_all Eo). }
  apply (answer_fail linux64 number r1 r2 objs rest Hs number' before bad after (map reported before)); auto.
  apply opaque_parsed. exact Hb.
Qed.

(** ** Header extensions *)
Lemma ext_loop_ok F p objs : forall cs k pre tail,
  Forall2 (parsed F p) objs cs -> lenN (pre ++ stored_all objs ++ tail) < 2 ^ 32 - 24 -> lenN tail < 24 ->
  (List.length objs < k)%nat ->
  ext_loop k (Parse (S F) p (pre ++ stored_all objs ++ tail)) (lenN (pre ++ stored_all objs ++ tail)) (lenN pre) =
  match tail with [] => Ok cs | _ => Fuel end.
Proof.
  induction objs as [|[g d] objs IH]; intros cs k pre tail H L Ht Hk; (destruct k as [|k]; [cbn [List.length] in Hk; lia|]).
  - inversion H; subst. rewrite stored_all_nil in *. cbn [app] in *. destruct tail as [|b tail].
    + cbn [ext_loop]. rewrite app_nil_r, N.ltb_irrefl. reflexivity.
    + apply ext_loop_stuck; [rewrite lenN_app, lenN_cons; lia|]. left.
      apply Parse_short; [rewrite lenN_app in *; lia..].
  - inversion H as [|? c ? cs' (Hg & Hm & Hd) Hr]; subst. cbn [fst snd] in *.
    rewrite stored_all_cons in *. rewrite <- app_assoc in *. cbn [ext_loop].
    pose proof (lenN_stored g d Hg) as Ls.
    pose proof (lenN_app pre (stored (g, d) ++ stored_all objs ++ tail)) as L1.
    pose proof (lenN_app (stored (g, d)) (stored_all objs ++ tail)) as L2.
    replace (lenN pre <? _) with true by lia.
    rewrite Parse_stored by (assumption || lia). unfold made in Hm. cbn [fst snd] in Hm. rewrite Hm. cbn [rmap bind].
    rewrite u32_small by lia.
    specialize (IH cs' k (pre ++ stored (g, d)) tail Hr).
    rewrite <- app_assoc in IH. rewrite (lenN_app pre (stored (g, d))), Ls in IH.
    replace (lenN pre + 24 + lenN (obj_data c)) with (lenN pre + (24 + lenN d)) by lia.
    rewrite IH by (cbn [List.length] in Hk; lia || assumption).
    destruct tail; reflexivity.
Qed.

Definition extension_data (guid : bytes) (r : N) (ext : bytes) : bytes :=
  guid ++ to_le 2 r ++ to_le 4 (lenN ext) ++ ext.

Lemma extension_has guid r ext : lenN guid = 16 ->
  let data := extension_data guid r ext in
  has data 0 guid /\ has data 16 (to_le 2 r) /\ has data 18 (to_le 4 (lenN ext)) /\ has data 22 ext.
Proof.
  intros Hg data.
  assert (H : has data 0 (extension_data guid r ext)).
  { pose proof (has_intro [] (extension_data guid r ext) []) as H. cbn [app] in H. rewrite app_nil_r in H. exact H. }
  unfold extension_data in H. apply has_app in H as [H1 H]. apply has_app in H as [H2 H]. apply has_app in H as [H3 H].
  rewrite Hg, !lenN_to_le in *. auto.
Qed.

Lemma extension_windows F guid r objs tail : lenN guid = 16 -> r < 65536 -> Forall opaque objs -> lenN tail < 24 ->
  let ext := stored_all objs ++ tail in
  let data := extension_data guid r ext in
  lenN data < 2 ^ 32 - 24 -> (List.length objs < S F)%nat ->
  header_extension (S F) (Parse (S F) windows) windows data =
  match tail with
  | [] => Ok (AExt data (ASFTypeFromGuid guid) r (lenN ext) ext (map reported objs))
  | _ => Fuel
  end.
Proof.
  intros Hg Hr Ho Ht ext data L HF. destruct (extension_has guid r ext Hg) as (H1 & H2 & H3 & H4).
  fold data in H1, H2, H3, H4. pose proof (has_len _ _ _ H4) as L4.
  unfold header_extension. rewrite (has_slice _ _ _ 16 H1 Hg). cbn [bind].
  rewrite (has_ushort _ _ _ H2 Hr) by lia. cbn [bind].
  unfold ReadULong. cbn [sizeof_long windows]. replace (lenN data <? 18 + 4) with false by lia.
  rewrite (has_slice _ _ _ 4 H3) by apply lenN_to_le. cbn [bind].
  rewrite le_to_le_id by (change (256 ^ N.of_nat 4) with (2 ^ 32); lia).
  rewrite (has_buffer _ _ _ _ H4 eq_refl) by lia. cbn [bind].
  pose proof (ext_loop_ok F windows objs (map reported objs) (S F) [] tail (opaque_parsed _ _ _ Ho)) as E.
  cbn [app] in E. fold ext in E. change (lenN []) with 0 in E. rewrite E by (assumption || lia).
  destruct tail; reflexivity.
Qed.

Lemma extension_linux_empty F rec guid r : lenN guid = 16 -> r < 65536 ->
  header_extension F rec linux64 (extension_data guid r []) = Throw RangeError.
Proof.
  intros Hg Hr. destruct (extension_has guid r [] Hg) as (H1 & H2 & H3 & H4).
  assert (L : lenN (extension_data guid r []) = 22).
  { unfold extension_data. rewrite !lenN_app, !lenN_to_le, Hg. reflexivity. }
  unfold header_extension. rewrite (has_slice _ _ _ 16 H1 Hg). cbn [bind].
  rewrite (has_ushort _ _ _ H2 Hr) by lia. cbn [bind].
  rewrite ULong_short by (rewrite L; reflexivity). reflexivity.
Qed.

(** ** Content descriptions *)
Lemma wide_windows_ok buf off n : off + 2 * n <= lenN buf ->
  exists s, wide windows buf off n = Ok s.
Proof.
  intros H. unfold wide. cbn [sizeof_wchar windows]. rewrite slice_ok by lia. cbn [bind].
  destruct (small_convert (to_wchars windows (takeN (n * 2) (dropN off buf)))) as [s ->]; [|eexists; reflexivity].
  unfold to_wchars. cbn [sizeof_wchar windows]. change (N.to_nat 2) with 2%nat.
  set (l := takeN _ _). clearbody l. generalize (S (List.length l)) as k. intros k. revert l.
  induction k as [|k IH]; intros l; cbn [wchars]; [constructor|].
  destruct (Nat.ltb (List.length l) 2) eqn:E; [constructor|]. constructor; [|apply IH].
  pose proof (le_bound (firstn 2 l)) as B. unfold lenN in B. rewrite firstn_length_le in B by lia. exact B.
Qed.
Lemma wide_ub p buf off n : lenN buf < off + n * sizeof_wchar p -> wide p buf off n = UB.
Proof. intros H. unfold wide. rewrite slice_ub by lia. reflexivity. Qed.

Ltac step_wide :=
  match goal with |- context[wide windows ?b ?o ?n] =>
    destruct (N.le_gt_cases (o + 2 * n) (lenN b));
    [let s := fresh "s" in let E := fresh in destruct (wide_windows_ok b o n) as [s E]; [assumption|]; rewrite E; cbn [bind]
    |rewrite (wide_ub windows b o n) by (cbn [sizeof_wchar windows]; lia); cbn [bind]]
  end.

Lemma content_windows data l1 l2 l3 l4 l5 : lenN data < 2 ^ 32 ->
  number_at data 0 2 l1 -> number_at data 2 2 l2 -> number_at data 4 2 l3 -> number_at data 6 2 l4 -> number_at data 8 2 l5 ->
  if 10 + l1 + l2 + l3 + l4 + 2 * (l5 / 2) <=? lenN data
  then exists t a c d r, content_description windows data = Ok (AContent data t a c d r)
  else content_description windows data = UB.
Proof.
  intros L H1 H2 H3 H4 H5. unfold content_description.
  pose proof (number_at_bound _ _ _ _ H1). pose proof (number_at_bound _ _ _ _ H2). pose proof (number_at_bound _ _ _ _ H3).
  pose proof (number_at_bound _ _ _ _ H4). pose proof (number_at_bound _ _ _ _ H5).
  change (256 ^ 2) with 65536 in *.
  rewrite (UShort_value _ _ _ H1 L), (UShort_value _ _ _ H2 L), (UShort_value _ _ _ H3 L), (UShort_value _ _ _ H4 L),
    (UShort_value _ _ _ H5 L). cbn [bind].
  rewrite (u32_small (10 + l1)) by lia. rewrite (u32_small (10 + l1 + l2)) by lia.
  rewrite (u32_small (10 + l1 + l2 + l3)) by lia. rewrite (u32_small (10 + l1 + l2 + l3 + l4)) by lia.
  destruct (N.leb_spec (10 + l1 + l2 + l3 + l4 + 2 * (l5 / 2)) (lenN data)) as [Hl|Hl].
  - do 5 (step_wide; [|lia]). repeat eexists.
  - do 5 (step_wide; [|reflexivity]). lia.
Qed.

Lemma content_windows_short data : lenN data < 10 ->
  content_description windows data = if N.odd (lenN data) then UB else Throw RangeError.
Proof.
  intros H. destruct data as [|b0 data]; [reflexivity|].
  do 9 (destruct data as [|? data]; [reflexivity|]).
  exfalso. rewrite !lenN_cons in H. lia.
Qed.

(** ** Codec lists in files *)
Lemma filter_shown u : filter nonzero u = shown u.
Proof. reflexivity. Qed.

Lemma ascii_head (q : bytes) : Forall (fun b => b2n b < 128) q -> forall m s, convert m = Ok s ->
  ((exists t, s = q ++ t) <-> exists t, m = map b2n q ++ t).
Proof.
  induction 1 as [|b q Hb Hq IH]; intros m s Hm; cbn [map app].
  - split; intros _; eexists; reflexivity.
  - destruct m as [|c m].
    { cbn in Hm. injection Hm as <-. split; intros [t E]; discriminate. }
    rewrite convert_cons in Hm. destruct (utf8_unit c) as [u| | |] eqn:Hu; [|discriminate..]. cbn [bind] in Hm.
    destruct (convert m) as [w| | |] eqn:Hw; [|discriminate..]. injection Hm as <-.
    unfold utf8_unit in Hu.
    destruct (c <? 128) eqn:E1.
    + injection Hu as <-. cbn [app]. specialize (IH m w Hw). split.
      * intros [t E]. injection E as E2 E3. destruct (proj1 IH (ex_intro _ t E3)) as [t' ->]. exists t'.
        f_equal. rewrite <- E2, b2n_n2b_small by lia. reflexivity.
      * intros [t E]. injection E as E2 E3. destruct (proj2 IH (ex_intro _ t E3)) as [t' ->]. exists t'.
        f_equal. rewrite E2. apply n2b_b2n.
    + split.
      * intros [t E]. exfalso.
        repeat match type of Hu with context[if ?x then _ else _] => destruct x eqn:? end; try discriminate;
          injection Hu as <-; cbn [app] in E; injection E; intros; subst; rewrite ?b2n_n2b_small in Hb by lia; lia.
      * intros [t E]. exfalso. injection E as E2 E3. lia.
Qed.

Lemma entry_begins q c e : Forall (fun b => b2n b < 128) q -> entry_of c e ->
  (starts_with q (c_name e) = true <-> begins q c).
Proof.
  intros Hq (_ & _ & _ & (s & Hs & En) & _). rewrite starts_with_spec, En.
  apply convert_nonzero in Hs. rewrite filter_shown in Hs. apply (ascii_head q Hq _ _ Hs).
Qed.

Lemma entry_shows_of c e : entry_of c e -> entry_shows c e.
Proof.
  intros (_ & H1 & H2 & (s & Hs & En) & (t & Ht & Ed)). unfold entry_shows.
  assert (Sc : forall u w x, convert u = Ok w -> x = erasenulls w -> Forall scalar u -> utf8 x (shown u)).
  { intros u w x Hu -> Hf. apply convert_nonzero in Hu. rewrite filter_shown in Hu. apply convert_utf8; [exact Hu|].
    unfold shown. rewrite Forall_forall in *. intros c0 Hc. apply filter_In in Hc. apply Hf. tauto. }
  repeat split; eauto.
Qed.

Lemma ascii_audio : Forall (fun b => b2n b < 128) (B "Windows Media Audio").
Proof. apply Forall_forall. intros b H. vm_compute in H. repeat (destruct H as [<-|H]; [reflexivity|]). destruct H. Qed.
Lemma ascii_video : Forall (fun b => b2n b < 128) (B "Windows Media Video").
Proof. apply Forall_forall. intros b H. vm_compute in H. repeat (destruct H as [<-|H]; [reflexivity|]). destruct H. Qed.

Lemma exists_video l es : Forall2 entry_of l es ->
  (existsb (fun c => starts_with (B "Windows Media Video") (c_name c)) es = true <->
   Exists (begins (B "Windows Media Video")) l).
Proof.
  induction 1 as [|c e l es H Hl IH]; cbn [existsb].
  - split; [discriminate|]. intros E. inversion E.
  - rewrite orb_true_iff, IH, (entry_begins _ c e ascii_video H), Exists_cons. reflexivity.
Qed.

Lemma classify_kind d id n l es : Forall2 entry_of l es -> kind_of l (classify asf_base (ACodecs d id n es)).
Proof.
  intros H. unfold kind_of, one_audio, some_video. cbn [classify].
  destruct H as [|c e l es Hc Hl].
  - right. right. split; [intros (c & E & _); discriminate|]. split; [|reflexivity].
    intros [_ E]. inversion E.
  - destruct Hl as [|c' e' l es Hc' Hl].
    + pose proof (entry_begins (B "Windows Media Audio") c e ascii_audio Hc) as A. destruct (starts_with _ _).
      * left. split; [|reflexivity]. exists c. split; [reflexivity|]. apply A. reflexivity.
      * right. right. split; [|split; [|reflexivity]].
        -- intros (x & E & Hx). injection E as <-. apply A in Hx. discriminate.
        -- intros [N _]. apply (N c). reflexivity.
    + pose proof (exists_video (c :: c' :: l) (e :: e' :: es)
        (Forall2_cons c e Hc (Forall2_cons c' e' Hc' Hl))) as V.
      destruct (existsb _ _).
      * right. left. split; [|reflexivity]. split; [discriminate|]. apply V. reflexivity.
      * right. right. split; [intros (x & E & _); discriminate|]. split; [|reflexivity].
        intros [_ E]. apply V in E. discriminate.
Qed.

Lemma windows_codecs number r1 r2 before after (reserved : bytes) l rest :
  let objs := before ++ (codec_guid, codec_data reserved l) :: after in
  header_size objs <= 65536 -> number < 2 ^ 32 -> Forall opaque before -> Forall opaque after ->
  lenN objs <= number -> lenN reserved = 16 -> Forall codec_ok l ->
  exists es e,
    asf_answer windows (asf_file number r1 r2 objs rest) =
    Ok [asf_result e
          (AHeader (header_size objs) number (b2n r1) (b2n r2) ::
           map reported before ++
           ACodecs (codec_data reserved l) (ASFTypeFromGuid reserved) (lenN l) es ::
           map reported after)] /\
    Forall2 entry_shows l es /\ kind_of l e.
Proof.
  intros objs Hs Hn Hb Ha Hl Hr Hc.
  assert (L : lenN (codec_data reserved l) < 2 ^ 32).
  { unfold header_size, objs in Hs. rewrite stored_all_app, lenN_app, stored_all_cons, lenN_app in Hs.
    pose proof (lenN_stored codec_guid (codec_data reserved l) eq_refl). lia. }
  destruct (codec_list_windows reserved l Hr Hc L) as (es & Ees & Hes).
  set (cs := map reported before ++ ACodecs (codec_data reserved l) (ASFTypeFromGuid reserved) (lenN l) es ::
           map reported after).
  exists es, (fold_left classify cs asf_base). split; [|split].
  - rewrite (answer_ok windows number r1 r2 objs rest Hs number cs).
    + rewrite takeN_all; [reflexivity|]. unfold cs, objs in *. rewrite !lenN_app, !lenN_cons, !lenN_map in *. exact Hl.
    + apply header_windows. exact Hn.
    + unfold objs, cs. apply Forall2_app; [apply opaque_parsed; exact Hb|].
      constructor; [|apply opaque_parsed; exact Ha].
      split; [reflexivity|]. split; [|reflexivity]. unfold made. cbn [fst snd]. rewrite make_codecs. exact Ees.
  - clear - Hes. induction Hes; constructor; auto using entry_shows_of.
  - unfold cs. rewrite fold_left_app, classify_reported. cbn [fold_left]. rewrite classify_reported.
    apply classify_kind. exact Hes.
Qed.
