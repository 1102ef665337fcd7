(** The statements of C40-C50 with their proofs, and the concrete cases. *)
From Coq Require Import List NArith ZArith Bool Lia Strings.String.
From Coq Require Import ZifyBool ZifyNat ZifyN.
From Verif Require Import Lib.Res Lib.Bytes Lib.BytesFacts Lib.NumSpec Lib.Text Common.Model Common.Spec Common.Fields Common.Utf8
     Common.Utf8Proofs Common.ReadProofs Common.FieldProofs Magic.Spec Magic.Model Magic.DocProofs Magic.DocBase Magic.DocUnique
     Asf.Tables Asf.Model Asf.Spec Asf.Statements Asf.Proofs Asf.DetailProofs Asf.CodecProofs Asf.ObjectProofs Asf.AttributeProofs Asf.DocProofs.
Import ListNotations.
Local Open Scope N_scope.
Ltac Zify.zify_post_hook ::= Z.div_mod_to_equations.
Arguments N.pow : simpl never.

(** ** Concrete objects *)
Definition padding_guid : bytes := [x74; xd4; x06; x18; xdf; xca; x09; x45; xa4; xba; x9a; xab; xcb; x96; xaa; xe8].
Definition padding : bytes * bytes := (padding_guid, [x01; x02; x03]).
Lemma padding_opaque : opaque padding.
Proof. split; [reflexivity|]. intros H. vm_compute in H. repeat (destruct H as [H|H]; [discriminate H|]). exact H. Qed.
Definition clock_guid : bytes := [x11; xd2; xd3; xab; xba; xa9; xcf; x11; x8e; xe6; x00; xc0; x0c; x20; x53; x65].

(** ** C40 *)
Lemma C40_windows_lemma number r1 r2 objs rest : header_size objs <= 65536 -> number < 2 ^ 32 -> Forall opaque objs ->
  asf_answer windows (asf_file number r1 r2 objs rest) =
  Ok [asf_result asf_base (AHeader (header_size objs) number (b2n r1) (b2n r2) :: map reported (takeN number objs))].
Proof. apply windows_objects. Qed.
Lemma C40_linux_lemma number r1 r2 o objs rest : header_size (o :: objs) <= 65536 -> number < 2 ^ 32 ->
  Forall opaque (o :: objs) -> r1 <> x00 \/ r2 <> x00 ->
  asf_answer linux64 (asf_file number r1 r2 (o :: objs) rest) =
  Ok [asf_result asf_base
        (AHeader (header_size (o :: objs)) (number + 2 ^ 32 * le (r1 :: r2 :: takeN 2 (fst o))) (b2n r1) (b2n r2)
         :: map reported (o :: objs))].
Proof. apply linux_objects. Qed.
Lemma C40_linux_empty number r1 r2 rest : asf_answer linux64 (asf_file number r1 r2 [] rest) = Throw RangeError.
Proof. apply linux_no_objects. Qed.
Lemma C40_refuted : exists number r1 r2 objs rest number' cs,
  Forall opaque objs /\ lenN objs = number /\
  asf_answer linux64 (asf_file number r1 r2 objs rest) =
    Ok [asf_result asf_base (AHeader (header_size objs) number' (b2n r1) (b2n r2) :: cs)] /\ number' <> number.
Proof.
  exists 1, x01, x02, [padding], [], (1 + 2 ^ 32 * le [x01; x02; x74; xd4]), [reported padding].
  split; [repeat constructor; apply padding_opaque|]. split; [reflexivity|]. split; [vm_compute; reflexivity|discriminate].
Qed.
Lemma C40_ex : Forall opaque [padding; padding] /\ header_size [padding; padding] = 84.
Proof. split; [repeat constructor; apply padding_opaque|reflexivity]. Qed.

(** ** C41 *)
Lemma C41_small number r1 r2 objs (g d : bytes) v rest :
  let body := stored_all objs ++ g ++ to_le 8 v ++ d in
  30 + lenN body <= 65536 -> number < 2 ^ 32 -> Forall opaque objs -> lenN objs < number -> lenN g = 16 -> v < 24 ->
  asf_answer windows (asf_bytes number r1 r2 body rest) = Throw LengthError.
Proof. apply windows_small_size. Qed.
Lemma C41_large number r1 r2 objs (g d : bytes) v rest :
  let body := stored_all objs ++ g ++ to_le 8 v ++ d in
  30 + lenN body <= 65536 -> number < 2 ^ 32 -> Forall opaque objs -> lenN objs < number -> lenN g = 16 ->
  lenN (takeN 65536 (asf_bytes number r1 r2 body rest)) < 30 + lenN (stored_all objs) + v < 2 ^ 64 ->
  asf_answer windows (asf_bytes number r1 r2 body rest) =
  Ok [asf_result asf_base (AHeader (30 + lenN body) number (b2n r1) (b2n r2) :: map reported objs)].
Proof. apply windows_large_size. Qed.
Lemma C41_refuted : exists content, occurs_at header_guid content 0 /\ asf_answer windows content = Throw LengthError.
Proof.
  exists (asf_bytes 1 x01 x02 (padding_guid ++ to_le 8 0) []). split.
  - exists [], (dropN 16 (asf_bytes 1 x01 x02 (padding_guid ++ to_le 8 0) [])). split; reflexivity.
  - vm_compute. reflexivity.
Qed.
Lemma C41_ex : lenN (stored_all [padding] ++ padding_guid ++ to_le 8 23 ++ []) = 51 /\ lenN [padding] < 2.
Proof. split; [reflexivity|vm_compute; reflexivity]. Qed.

(** ** C42 *)
Lemma C42_windows_lemma (data id : bytes) fs cr dp pl se pre fl mi ma br :
  window data 0 16 id ->
  number_at data 16 8 fs -> number_at data 24 8 cr -> number_at data 32 8 dp -> number_at data 40 8 pl ->
  number_at data 48 8 se -> number_at data 56 8 pre ->
  number_at data 64 4 fl -> number_at data 68 4 mi -> number_at data 72 4 ma -> number_at data 76 4 br ->
  file_properties windows data = Ok (AFile data id fs cr dp pl se pre fl mi ma br).
Proof. apply file_windows. Qed.
Lemma C42_short p data :
  (lenN data < 16 -> file_properties p data = UB) /\
  (16 <= lenN data -> lenN data < 76 + sizeof_long p -> file_properties p data = Throw RangeError) /\
  (76 + sizeof_long p <= lenN data -> supported p ->
   exists id fs cr dp pl se pre fl mi ma br, file_properties p data = Ok (AFile data id fs cr dp pl se pre fl mi ma br)).
Proof.
  split; [apply file_tiny|]. split; [apply file_short|]. intros L Sp.
  assert (4 <= sizeof_long p) by (destruct Sp as [-> | ->]; vm_compute; discriminate).
  unfold file_properties. rewrite slice_ok by lia. cbn [bind].
  repeat match goal with |- context [bind (ReadULongLong ?b ?n ?o) _] =>
    let v := fresh "v" in let E := fresh in destruct (ULongLong_ok b o) as [v E]; [lia|]; rewrite E; cbn [bind]; clear E end.
  repeat match goal with |- context [bind (ReadULong ?q ?b ?n ?o) _] =>
    let v := fresh "v" in let E := fresh in destruct (ULong_ok q b o) as [v E]; [lia|]; rewrite E; cbn [bind]; clear E end.
  repeat eexists.
Qed.
Lemma C42_linux_lemma number r1 r2 before (data : bytes) after rest :
  let objs := before ++ (file_properties_guid, data) :: after in
  header_size objs <= 65536 -> number < 2 ^ 32 -> Forall opaque before -> r1 <> x00 \/ r2 <> x00 ->
  16 <= lenN data -> lenN data < 84 ->
  asf_answer linux64 (asf_file number r1 r2 objs rest) = Throw RangeError.
Proof.
  intros objs Hs Hn Hb Hr H1 H2. unfold objs in *.
  assert (E : forall F, made F linux64 (file_properties_guid, data) = Throw RangeError).
  { intros F. unfold made. cbn [fst snd]. rewrite make_file. apply file_short; cbn [sizeof_long linux64]; lia. }
  rewrite (linux_failure number r1 r2 before (file_properties_guid, data) after rest Hs Hn Hb Hr eq_refl);
    rewrite E; [reflexivity|exact I].
Qed.
Definition sample_properties : bytes := repeat x07 80.
Lemma C42_refuted : exists content, asf_answer linux64 content = Throw RangeError /\
  exists number r1 r2, content = asf_file number r1 r2 [(file_properties_guid, sample_properties)] [] /\ lenN sample_properties = 80.
Proof.
  exists (asf_file 1 x01 x02 [(file_properties_guid, sample_properties)] []). split; [vm_compute; reflexivity|].
  exists 1, x01, x02. split; reflexivity.
Qed.
Lemma C42_ex : header_size [(file_properties_guid, sample_properties)] = 134 /\
  number_at sample_properties 64 4 117901063.
Proof.
  split; [reflexivity|]. exists (repeat x07 4). split; [|reflexivity]. split; [reflexivity|].
  exists (repeat x07 64), (repeat x07 12). split; reflexivity.
Qed.

(** ** C43 *)
Lemma C43_bound p buffer offset : lenN buffer < 2 ^ 32 ->
  (forall steps, Parse steps p buffer offset = Fuel) \/
  (exists r, r <> Fuel /\ forall steps, lenN buffer < N.of_nat steps -> Parse steps p buffer offset = r).
Proof.
  intros L. set (r := Parse (S (List.length buffer)) p buffer offset).
  assert (D : r = Fuel \/ r <> Fuel) by (destruct r; (left; reflexivity) || (right; discriminate)).
  destruct D as [D|D].
  - left. intros steps. apply (Parse_diverges p buffer offset (S (List.length buffer))); [exact L|lia|exact D].
  - right. exists r. split; [exact D|]. intros steps Hs. apply Parse_mono; [unfold lenN in Hs; lia|exact D].
Qed.
Lemma C43_extension number r1 r2 before (guid : bytes) r objs (tail : bytes) after rest :
  let ext : bytes := stored_all objs ++ tail in
  let data : bytes := guid ++ to_le 2 r ++ to_le 4 (lenN ext) ++ ext in
  let all : list (bytes * bytes) := before ++ (extension_guid, data) :: after in
  header_size all <= 65536 -> number < 2 ^ 32 -> Forall opaque before -> Forall opaque after ->
  lenN all <= number -> lenN guid = 16 -> r < 65536 -> Forall opaque objs -> lenN tail < 24 ->
  asf_answer windows (asf_file number r1 r2 all rest) =
  match tail with
  | [] => Ok [asf_result asf_base
               (AHeader (header_size all) number (b2n r1) (b2n r2) :: map reported before ++
                AExt data (ASFTypeFromGuid guid) r (lenN ext) ext
                     (map reported objs) :: map reported after)]
  | _ => Fuel
  end.
Proof.
  intros ext data all Hs Hn Hb Ha Hl Hg Hr Ho Ht.
  assert (L : lenN data < 2 ^ 32 - 24).
  { unfold header_size, all in Hs. rewrite stored_all_app, lenN_app, stored_all_cons, lenN_app in Hs.
    pose proof (lenN_stored extension_guid data eq_refl). change (2 ^ 32) with 4294967296. lia. }
  assert (X : exists F', List.length (takeN 65536 (asf_file number r1 r2 all rest)) = S F' /\ (List.length objs < S F')%nat).
  { destruct (data_of_file number r1 r2 (stored_all all) rest Hs) as [rest' E]. unfold asf_file. rewrite E, file_prelude.
    pose proof (lenN_prelude number r1 r2 (stored_all all)) as Lp. pose proof (length_objs objs (opaque_guid _ Ho)) as Lo.
    assert (lenN (stored_all objs) <= lenN (stored_all all)).
    { unfold all. rewrite stored_all_app, lenN_app, stored_all_cons, lenN_app.
      pose proof (lenN_stored extension_guid data eq_refl) as Ld. destruct (extension_has guid r ext Hg) as (_ & _ & _ & H4).
      change (extension_data guid r ext) with data in H4. apply has_len in H4. unfold ext in H4. rewrite lenN_app in H4. lia. }
    set (z := prelude _ _ _ _ ++ _) in *.
    assert (Lz : lenN z = 30 + (lenN (stored_all all) + lenN rest')) by (unfold z; rewrite !lenN_app, Lp; reflexivity).
    destruct (List.length z) as [|F'] eqn:EF; [unfold lenN in Lz; rewrite EF in Lz; lia|]. exists F'. split; [reflexivity|].
    unfold lenN in *. rewrite EF in Lz. lia. }
  destruct X as (F' & EF & LF).
  pose proof (extension_windows F' guid r objs tail Hg Hr Ho Ht L LF) as Ex. fold ext in Ex. change (extension_data guid r ext) with data in Ex.
  destruct tail as [|b tail].
  - rewrite (answer_ok windows number r1 r2 all rest Hs number
       (map reported before ++ AExt data (ASFTypeFromGuid guid) r (lenN ext) ext (map reported objs) :: map reported after)).
    + rewrite takeN_all.
      * rewrite fold_left_app, classify_reported. cbn [fold_left classify]. rewrite classify_reported. reflexivity.
      * unfold all in Hl. rewrite !lenN_app, !lenN_cons, !lenN_map in *. exact Hl.
    + apply header_windows. exact Hn.
    + unfold all. apply Forall2_app; [apply opaque_parsed; exact Hb|]. constructor; [|apply opaque_parsed; exact Ha].
      split; [reflexivity|]. split; [|reflexivity]. unfold made. cbn [fst snd]. rewrite make_extension. fold all.
      rewrite EF. exact Ex.
  - assert (M : made (List.length (takeN 65536 (asf_file number r1 r2 all rest))) windows (extension_guid, data) = Fuel).
    { unfold made. cbn [fst snd]. rewrite make_extension, EF. exact Ex. }
    assert (Ln : lenN before < number) by (unfold all in Hl; rewrite lenN_app, lenN_cons in Hl; lia).
    pose proof (windows_failure number r1 r2 before (extension_guid, data) after rest Hs Hn Hb Ln eq_refl) as W.
    fold all in W. cbv zeta in W. rewrite M in W. apply W. exact I.
Qed.
Definition stuck_extension : bytes := clock_guid ++ to_le 2 6 ++ to_le 4 1 ++ [x00].
Lemma C43_refuted : exists content, forall steps, exists r, Parse steps windows content 30 = r /\ r = Fuel /\
  asf_answer windows content = Fuel.
Proof.
  exists (asf_file 1 x01 x02 [(extension_guid, stuck_extension)] []). intros steps. eexists. split; [reflexivity|].
  split; [|vm_compute; reflexivity].
  apply (Parse_diverges windows _ 30 200); [vm_compute; reflexivity|vm_compute; lia|vm_compute; reflexivity].
Qed.
Lemma C43_linux (guid : bytes) r number r1 r2 before after rest :
  let data : bytes := guid ++ to_le 2 r ++ to_le 4 0 in
  let objs : list (bytes * bytes) := before ++ (extension_guid, data) :: after in
  header_size objs <= 65536 -> number < 2 ^ 32 -> Forall opaque before -> r1 <> x00 \/ r2 <> x00 ->
  lenN guid = 16 -> r < 65536 ->
  asf_answer linux64 (asf_file number r1 r2 objs rest) = Throw RangeError.
Proof.
  intros data objs Hs Hn Hb Hr Hg Hr'. unfold objs in *.
  assert (E : forall F, made F linux64 (extension_guid, data) = Throw RangeError).
  { intros F. unfold made. cbn [fst snd]. rewrite make_extension.
    pose proof (extension_linux_empty F (Parse F linux64) guid r Hg Hr') as E. unfold extension_data in E.
    change (lenN (@nil byte)) with 0 in E. rewrite app_nil_r in E. exact E. }
  pose proof (linux_failure number r1 r2 before (extension_guid, data) after rest Hs Hn Hb Hr eq_refl) as W.
  cbv zeta in W. rewrite E in W. apply W. exact I.
Qed.
Lemma C43_ex : Forall opaque [padding] /\ lenN (clock_guid ++ to_le 2 6 ++ to_le 4 27 ++ stored padding) = 49.
Proof. split; [repeat constructor; apply padding_opaque|reflexivity]. Qed.

(** ** C44 *)
Lemma C44_windows_lemma number r1 r2 before after (reserved : bytes) l rest :
  let objs := before ++ (codec_guid, codec_data reserved l) :: after in
  header_size objs <= 65536 -> number < 2 ^ 32 -> Forall opaque before -> Forall opaque after ->
  lenN objs <= number -> lenN reserved = 16 -> Forall codec_ok l ->
  exists es e,
    asf_answer windows (asf_file number r1 r2 objs rest) =
    Ok [asf_result e
          (AHeader (header_size objs) number (b2n r1) (b2n r2) ::
           map reported before ++
           ACodecs (codec_data reserved l) (ASFTypeFromGuid reserved) (lenN l) es ::
           map reported after)] /\
    Forall2 entry_shows l es /\ kind_of l e.
Proof. apply windows_codecs. Qed.
Lemma C44_linux_lemma number r1 r2 before after (reserved : bytes) c c1 c2 name l rest :
  let objs := before ++ (codec_guid, codec_data reserved (c :: l)) :: after in
  header_size objs <= 65536 -> number < 2 ^ 32 -> Forall opaque before -> r1 <> x00 \/ r2 <> x00 ->
  lenN reserved = 16 -> codec_ok c -> k_name c = c1 :: c2 :: name -> 17 <= c2 ->
  asf_answer linux64 (asf_file number r1 r2 objs rest) = Throw RangeError \/
  asf_answer linux64 (asf_file number r1 r2 objs rest) = UB.
Proof.
  intros objs Hs Hn Hb Hr Hg Hc Hk H17. unfold objs in *.
  assert (L : lenN (codec_data reserved (c :: l)) < 2 ^ 32).
  { unfold header_size in Hs. rewrite stored_all_app, lenN_app, stored_all_cons, lenN_app in Hs.
    pose proof (lenN_stored codec_guid (codec_data reserved (c :: l)) eq_refl). lia. }
  pose proof (linux_failure number r1 r2 before (codec_guid, codec_data reserved (c :: l)) after rest Hs Hn Hb Hr eq_refl) as W.
  cbv zeta in W. unfold made in W. cbn [fst snd] in W. rewrite make_codecs in W.
  destruct (codec_list_linux reserved c1 c2 name c l Hg Hc Hk H17 L) as [E|E]; rewrite E in W;
    [left|right]; apply W; exact I.
Qed.
Definition audio : codec := mkC 2 (ascii16 (B "Windows Media Audio 9")) (ascii16 (B "64 kbps")) [x61; x01].
Definition video : codec := mkC 1 (ascii16 (B "Windows Media Video 9")) (ascii16 []) (B "WMV3").
Lemma ascii16_ok s : Forall (fun u => u < 65536) (ascii16 s).
Proof.
  unfold ascii16. apply Forall_app. split; [|repeat constructor; lia].
  rewrite Forall_map. apply Forall_forall. intros b _. pose proof (b2n_lt b). lia.
Qed.
Lemma audio_ok : codec_ok audio.
Proof. repeat split; try (vm_compute; reflexivity); apply ascii16_ok. Qed.
Lemma video_ok : codec_ok video.
Proof. repeat split; try (vm_compute; reflexivity); apply ascii16_ok. Qed.
Lemma C44_refuted : exists content l,
  content = asf_file 1 x01 x02 [(codec_guid, codec_data clock_guid l)] [] /\ Forall codec_ok l /\
  Exists (begins (B "Windows Media Video")) l /\
  exists r, asf_answer windows content = Ok [r] /\ r_info r = asf_base.
Proof.
  exists (asf_file 1 x01 x02 [(codec_guid, codec_data clock_guid [video])] []), [video].
  split; [reflexivity|]. split; [repeat constructor; apply video_ok|].
  split; [left; eexists; vm_compute; reflexivity|]. eexists.
  split; [vm_compute; reflexivity|vm_compute; reflexivity].
Qed.
Lemma C44_ex : Forall codec_ok [audio; video] /\ kind_of [audio] wma_base /\ kind_of [audio; video] wmv_base.
Proof.
  split; [repeat constructor; (apply audio_ok || apply video_ok)|]. split.
  - left. split; [|reflexivity]. exists audio. split; [reflexivity|]. eexists. vm_compute. reflexivity.
  - right. left. split; [|reflexivity]. split; [discriminate|]. right. left. eexists. vm_compute. reflexivity.
Qed.

(** ** C45 *)
Lemma C45_json base headers : info_plain base = true -> headers <> [] -> forallb obj_plain headers = true ->
  json_value (asf_json base headers)
    (JObj (item_members base ++ [(map b2n (B "headers"), JArr (map obj_jval headers))])).
Proof. apply asf_json_value. Qed.
Lemma C45_xml base headers : info_plain base = true -> headers <> [] -> forallb obj_plain headers = true ->
  xml_document (asf_xml base headers)
    (XElem (B "item") (base_elements base ++ [XElem (B "headers") (map obj_xnode headers)])).
Proof. apply asf_xml_value. Qed.
Lemma C45_opaque number size r1 r2 objs : forallb obj_plain (AHeader size number r1 r2 :: map reported objs) = true.
Proof.
  cbn [forallb obj_plain]. apply forallb_forall. intros o H. apply in_map_iff in H. destruct H as (x & <- & _).
  apply guid_name_plain.
Qed.
Definition quoted_title : bytes * bytes :=
  (content_guid, to_le 2 2 ++ to_le 2 0 ++ to_le 2 0 ++ to_le 2 0 ++ to_le 2 0 ++ [x22; x00]).
Definition angled_title : bytes * bytes :=
  (content_guid, to_le 2 2 ++ to_le 2 0 ++ to_le 2 0 ++ to_le 2 0 ++ to_le 2 0 ++ [x3c; x00]).
Definition no_codecs : bytes * bytes := (codec_guid, codec_data clock_guid []).
Lemma C45_json_refuted_lemma : exists content r, asf_answer windows content = Ok [r] /\
  forall v, ~ json_value (eJson (r_out r)) v.
Proof.
  exists (asf_file 1 x01 x02 [quoted_title] []). eexists. split; [vm_compute; reflexivity|].
  apply json_reject. vm_compute. reflexivity.
Qed.
Lemma C45_empty_refuted_lemma : exists content r, asf_answer windows content = Ok [r] /\
  content = asf_file 1 x01 x02 [(codec_guid, codec_data clock_guid [])] [] /\
  forall v, ~ json_value (eJson (r_out r)) v.
Proof.
  exists (asf_file 1 x01 x02 [no_codecs] []). eexists. split; [vm_compute; reflexivity|]. split; [reflexivity|].
  apply json_reject. vm_compute. reflexivity.
Qed.
Lemma C45_xml_refuted_lemma : exists content r, asf_answer windows content = Ok [r] /\
  forall v, ~ xml_document (eXml (r_out r)) v.
Proof.
  exists (asf_file 1 x01 x02 [angled_title] []). eexists. split; [vm_compute; reflexivity|].
  apply xml_reject. vm_compute. reflexivity.
Qed.
Lemma C45_ex : forallb obj_plain [AHeader 30 2 1 2; AContent [] (B "Title") (B "Author") [] [] [];
   ACodecs [] (B "Unknown") 1 [mkCodec 10 2 (B "Windows Media Audio 9") (B "64 kbps") [x61]]] = true.
Proof. reflexivity. Qed.

(** ** C46 *)
Lemma C46_exact data l1 l2 l3 l4 l5 : lenN data < 2 ^ 32 ->
  number_at data 0 2 l1 -> number_at data 2 2 l2 -> number_at data 4 2 l3 -> number_at data 6 2 l4 -> number_at data 8 2 l5 ->
  if 10 + l1 + l2 + l3 + l4 + 2 * (l5 / 2) <=? lenN data
  then exists t a c d r, content_description windows data = Ok (AContent data t a c d r)
  else content_description windows data = UB.
Proof. apply content_windows. Qed.
Lemma C46_short data : lenN data < 10 ->
  content_description windows data = if N.odd (lenN data) then UB else Throw RangeError.
Proof. apply content_windows_short. Qed.
Lemma C46_file number r1 r2 before (data : bytes) after rest l1 l2 l3 l4 l5 :
  let objs := before ++ (content_guid, data) :: after in
  header_size objs <= 65536 -> number < 2 ^ 32 -> Forall opaque before -> lenN before < number ->
  number_at data 0 2 l1 -> number_at data 2 2 l2 -> number_at data 4 2 l3 -> number_at data 6 2 l4 -> number_at data 8 2 l5 ->
  lenN data < 10 + l1 + l2 + l3 + l4 + 2 * (l5 / 2) ->
  asf_answer windows (asf_file number r1 r2 objs rest) = UB.
Proof.
  intros objs Hs Hn Hb Hl H1 H2 H3 H4 H5 Hx. unfold objs in *.
  assert (L : lenN data < 2 ^ 32).
  { unfold header_size in Hs. rewrite stored_all_app, lenN_app, stored_all_cons, lenN_app in Hs.
    pose proof (lenN_stored content_guid data eq_refl). lia. }
  pose proof (content_windows data l1 l2 l3 l4 l5 L H1 H2 H3 H4 H5) as C.
  replace (_ <=? lenN data) with false in C by lia.
  assert (E : forall F, made F windows (content_guid, data) = UB).
  { intros F. unfold made. cbn [fst snd]. rewrite make_content. exact C. }
  rewrite (windows_failure number r1 r2 before (content_guid, data) after rest Hs Hn Hb Hl eq_refl); rewrite E;
    [reflexivity|exact I].
Qed.
Lemma C46_refuted : exists content, asf_answer windows content = UB.
Proof.
  exists (asf_file 1 x01 x02 [(content_guid, to_le 2 65534 ++ to_le 8 0)] []). vm_compute. reflexivity.
Qed.
Lemma C46_texts a b c d e :
  Forall (fun u => u < 65536 /\ scalar u) (a ++ b ++ c ++ d ++ e) ->
  2 * lenN a < 65536 -> 2 * lenN b < 65536 -> 2 * lenN c < 65536 -> 2 * lenN d < 65536 -> 2 * lenN e < 65536 ->
  exists a' b' c' d' e',
    content_description windows (content_texts a b c d e) = Ok (AContent (content_texts a b c d e) a' b' c' d' e') /\
    utf8 a' (shown a) /\ utf8 b' (shown b) /\ utf8 c' (shown c) /\ utf8 d' (shown d) /\ utf8 e' (shown e).
Proof.
  intros F La Lb Lc Ld Le. rewrite !Forall_app in F. destruct F as (Fa & Fb & Fc & Fd & Fe).
  assert (Sc : forall u, Forall (fun u => u < 65536 /\ scalar u) u -> Forall (fun u => u < 65536) u /\
                exists s, convert u = Ok s /\ utf8 (erasenulls s) (shown u)).
  { intros u Hu. split; [eapply Forall_impl; [|exact Hu]; cbn; tauto|].
    assert (Hs : Forall scalar u) by (eapply Forall_impl; [|exact Hu]; cbn; tauto).
    destruct (convert_ok u (Forall_scalar_range _ Hs)) as [s Es]. exists s. split; [exact Es|].
    apply convert_nonzero in Es. rewrite filter_shown in Es. apply convert_utf8; [exact Es|].
    unfold shown. rewrite Forall_forall in *. intros x Hx. apply filter_In in Hx. apply Hs. tauto. }
  destruct (Sc a Fa) as (Ua & sa & Ca & Ta). destruct (Sc b Fb) as (Ub & sb & Cb & Tb).
  destruct (Sc c Fc) as (Uc & sc & Cc & Tc). destruct (Sc d Fd) as (Ud & sd & Cd & Td).
  destruct (Sc e Fe) as (Ue & se & Ce & Te).
  exists (erasenulls sa), (erasenulls sb), (erasenulls sc), (erasenulls sd), (erasenulls se).
  split; [|auto]. set (data := content_texts a b c d e).
  assert (H : has data 0 (content_texts a b c d e)).
  { pose proof (has_intro [] (content_texts a b c d e) []) as H. cbn [app] in H. rewrite app_nil_r in H. exact H. }
  unfold content_texts in H.
  apply has_app in H as [H1 H]. apply has_app in H as [H2 H]. apply has_app in H as [H3 H]. apply has_app in H as [H4 H].
  apply has_app in H as [H5 H]. apply has_app in H as [Wa H]. apply has_app in H as [Wb H]. apply has_app in H as [Wc H].
  apply has_app in H as [Wd We]. rewrite !lenN_to_le, ?lenN_utf16 in *. change (N.of_nat 2) with 2 in *.
  change (0 + 2) with 2 in *. change (2 + 2) with 4 in *. change (4 + 2) with 6 in *. change (6 + 2) with 8 in *.
  change (8 + 2) with 10 in *.
  assert (LL : lenN data < 2 ^ 32).
  { unfold data, content_texts. rewrite !lenN_app, !lenN_to_le, !lenN_utf16. change (2 ^ 32) with 4294967296. lia. }
  clearbody data. unfold content_description.
  rewrite (has_ushort _ _ _ H1 La LL), (has_ushort _ _ _ H2 Lb LL), (has_ushort _ _ _ H3 Lc LL), (has_ushort _ _ _ H4 Ld LL),
    (has_ushort _ _ _ H5 Le LL). cbn [bind].
  replace (2 * lenN a / 2) with (lenN a) by lia. replace (2 * lenN b / 2) with (lenN b) by lia.
  replace (2 * lenN c / 2) with (lenN c) by lia. replace (2 * lenN d / 2) with (lenN d) by lia.
  replace (2 * lenN e / 2) with (lenN e) by lia.
  rewrite (u32_small (10 + 2 * lenN a)) by lia. rewrite (u32_small (10 + 2 * lenN a + 2 * lenN b)) by lia.
  rewrite (u32_small (10 + 2 * lenN a + 2 * lenN b + 2 * lenN c)) by lia.
  rewrite (u32_small (10 + 2 * lenN a + 2 * lenN b + 2 * lenN c + 2 * lenN d)) by lia.
  rewrite (wide_windows data _ a sa Wa Ua Ca). cbn [bind]. rewrite (wide_windows data _ b sb Wb Ub Cb). cbn [bind].
  rewrite (wide_windows data _ c sc Wc Uc Cc). cbn [bind]. rewrite (wide_windows data _ d sd Wd Ud Cd). cbn [bind].
  rewrite (wide_windows data _ e se We Ue Ce). reflexivity.
Qed.
Lemma C46_ex : content_description windows (content_texts (ascii16 (B "Ode")) [233] [] [] []) =
  Ok (AContent (content_texts (ascii16 (B "Ode")) [233] [] [] []) (B "Ode") [xc3; xa9] [] [] []).
Proof. vm_compute. reflexivity. Qed.

(** ** C47 *)
Lemma C47_labels F p guid data size o : lenN guid = 16 -> make_object F (Parse F p) p guid data size = Ok o ->
  obj_type o = if bytes_eqb guid content_guid then B "ASF_Header_Extension_Object" else ASFTypeFromGuid guid.
Proof.
  intros Hg H.
  destruct (existsb (bytes_eqb guid) special_guids) eqn:E.
  - apply existsb_exists in E. destruct E as (g & I & E). apply bytes_eqb_eq in E. subst g. cbn [special_guids In] in I.
    repeat (destruct I as [<-|I]); [..|destruct I]; revert H;
      rewrite ?make_header, ?make_file, ?make_stream, ?make_extension, ?make_content, ?make_ext_content, ?make_codecs;
      unfold asf_header, file_properties, stream_properties, header_extension, content_description, extended_content, codec_list;
      intros H; repeat (apply bind_ok in H; destruct H as (? & _ & H)); injection H as <-; reflexivity.
  - assert (Op : opaque (guid, data)).
    { split; [exact Hg|]. intros I. cbn [fst] in I. assert (X : existsb (bytes_eqb guid) special_guids = true); [|congruence].
      apply existsb_exists. exists guid. split; [exact I|]. apply bytes_eqb_eq. reflexivity. }
    rewrite (make_opaque _ _ _ _ _ _ Op) in H. injection H as <-. cbn [obj_type].
    destruct (bytes_eqb guid content_guid) eqn:G; [|reflexivity]. apply bytes_eqb_eq in G. subst guid. discriminate E.
Qed.
Lemma C47_refuted : exists content o, asf_answer windows content =
    Ok [asf_result asf_base [AHeader 64 1 1 2; o]] /\
  content = asf_file 1 x01 x02 [(content_guid, repeat x00 10)] [] /\
  obj_type o = B "ASF_Header_Extension_Object" /\ ASFTypeFromGuid content_guid = B "ASF_Content_Description_Object".
Proof.
  exists (asf_file 1 x01 x02 [(content_guid, repeat x00 10)] []), (AContent (repeat x00 10) [] [] [] [] []). split; [vm_compute; reflexivity|].
  split; [reflexivity|]. split; reflexivity.
Qed.
Lemma C47_rows g n : In (g, n) guid_types ->
  ASFTypeFromGuid g = if bytes_eqb n (B "ASF_Compatibility_Object") then B "ASF_Header_Object" else n.
Proof.
  intros I. assert (E : forallb (fun r => bytes_eqb (ASFTypeFromGuid (fst r))
      (if bytes_eqb (snd r) (B "ASF_Compatibility_Object") then B "ASF_Header_Object" else snd r)) guid_types = true)
    by (vm_compute; reflexivity).
  rewrite forallb_forall in E. apply bytes_eqb_eq. exact (E _ I).
Qed.
Lemma C47_never g : ASFTypeFromGuid g <> B "ASF_Compatibility_Object".
Proof.
  intros H. destruct (guid_lookup_cases guid_types g) as [I|[E _]]; fold (ASFTypeFromGuid g) in *; rewrite H in *.
  - pose proof (C47_rows _ _ I) as R. rewrite H in R. discriminate R.
  - discriminate E.
Qed.
Lemma C47_compatibility_refuted_lemma : exists g, In (g, B "ASF_Compatibility_Object") guid_types /\
  ASFTypeFromGuid g = B "ASF_Header_Object".
Proof.
  exists header_guid. split; [|reflexivity]. unfold guid_types. repeat (try (left; reflexivity); right).
Qed.
Lemma C47_ex : make_object 3 (Parse 3 windows) windows padding_guid [x01] 25 = Ok (AUnknown (ASFTypeFromGuid padding_guid) [x01]) /\
  ASFTypeFromGuid padding_guid = B "ASF_Padding_Object".
Proof. split; reflexivity. Qed.

(** ** C48 *)
Lemma C48_exact l : convert l = Throw RangeError /\ ~ Forall (fun c => c < 1114112) l \/
  exists s, convert l = Ok s /\ Forall (fun c => c < 1114112) l /\
            forall m, utf8 s m <-> (m = l /\ Forall scalar l).
Proof.
  assert (D : forall c, {c < 1114112} + {~ c < 1114112}).
  { intros c. destruct (c <? 1114112) eqn:E; [left|right]; lia. }
  destruct (Forall_dec _ D l) as [H|H].
  - right. destruct (convert_ok l H) as [s E]. exists s. split; [exact E|]. split; [exact H|]. apply convert_utf8_iff. exact E.
  - left. split; [apply convert_bad; exact H|exact H].
Qed.
Lemma C48_fun s l l' : utf8 s l -> utf8 s l' -> l = l'.
Proof. apply utf8_fun. Qed.
Lemma C48_refuted : exists s, convert (to_wchars windows [x3d; xd8; x00; xde]) = Ok s /\ forall l, ~ utf8 s l.
Proof.
  exists [xed; xa0; xbd; xed; xb8; x80]. split; [vm_compute; reflexivity|]. intros l H.
  assert (E : convert [55357; 56832] = Ok [xed; xa0; xbd; xed; xb8; x80]) by (vm_compute; reflexivity).
  apply (convert_utf8_iff _ _ E) in H. destruct H as [_ H]. apply Forall_inv in H. unfold scalar in H. lia.
Qed.
Lemma C48_ex : convert [72; 233; 8364; 128512] = Ok [x48; xc3; xa9; xe2; x82; xac; xf0; x9f; x98; x80] /\
  Forall scalar [72; 233; 8364; 128512].
Proof. split; [vm_compute; reflexivity|]. repeat constructor; unfold scalar; lia. Qed.

(** ** C49 *)
Lemma C49_windows_lemma number r1 r2 before after rest (type correction : bytes) time flags reserved (own corr : bytes) :
  let data : bytes := stream_data type correction time flags reserved own corr in
  let objs : list (bytes * bytes) := before ++ (stream_guid, data) :: after in
  header_size objs <= 65536 -> number < 2 ^ 32 -> Forall opaque before -> Forall opaque after -> lenN objs <= number ->
  lenN type = 16 -> lenN correction = 16 -> time < 2 ^ 64 -> flags < 2 ^ 16 -> reserved < 2 ^ 32 ->
  asf_answer windows (asf_file number r1 r2 objs rest) =
  Ok [asf_result asf_base
        (AHeader (header_size objs) number (b2n r1) (b2n r2) :: map reported before ++
         AStream data (ASFTypeFromGuid type) (ASFTypeFromGuid correction) time (lenN own) (lenN corr) flags reserved own corr
         :: map reported after)].
Proof.
  intros data objs Hs Hn Hb Ha Hl H1 H2 Ht Hf Hr.
  pose proof (object_small stream_guid data before after eq_refl Hs) as L.
  apply windows_among; try assumption; try reflexivity.
  intros F. unfold made. cbn [fst snd]. rewrite make_stream. apply stream_windows; try assumption.
  change (2 ^ 32) with 4294967296. unfold data in L. lia.
Qed.
Lemma C49_exact data (g1 g2 : bytes) time tlen elen flags reserved : lenN data < 2 ^ 32 ->
  window data 0 16 g1 -> window data 16 16 g2 -> number_at data 32 8 time -> number_at data 40 4 tlen ->
  number_at data 44 4 elen -> number_at data 48 2 flags -> number_at data 50 4 reserved ->
  stream_properties windows data =
  if 54 + tlen + elen <=? lenN data
  then Ok (AStream data (ASFTypeFromGuid g1) (ASFTypeFromGuid g2) time tlen elen flags reserved
             (takeN tlen (dropN 54 data)) (takeN elen (dropN (54 + tlen) data)))
  else UB.
Proof. apply stream_exact. Qed.
Lemma C49_linux_lemma number r1 r2 before after rest (type correction : bytes) time flags reserved (own corr : bytes) :
  let data : bytes := stream_data type correction time flags reserved own corr in
  let objs : list (bytes * bytes) := before ++ (stream_guid, data) :: after in
  header_size objs <= 65536 -> number < 2 ^ 32 -> Forall opaque before -> r1 <> x00 \/ r2 <> x00 ->
  lenN type = 16 -> lenN correction = 16 -> time < 2 ^ 64 -> flags < 2 ^ 16 -> reserved < 2 ^ 32 ->
  corr <> [] -> 4 <= lenN own + lenN corr ->
  asf_answer linux64 (asf_file number r1 r2 objs rest) = UB.
Proof.
  intros data objs Hs Hn Hb Hr H1 H2 Ht Hf Hv Hc H4.
  pose proof (object_small stream_guid data before after eq_refl Hs) as L.
  assert (E : forall F, made F linux64 (stream_guid, data) = UB).
  { intros F. unfold made. cbn [fst snd]. rewrite make_stream. apply stream_linux; try assumption.
    change (2 ^ 31) with 2147483648. unfold data in L. lia. }
  pose proof (linux_failure number r1 r2 before (stream_guid, data) after rest Hs Hn Hb Hr eq_refl) as W.
  cbv zeta in W. rewrite E in W. apply W. exact I.
Qed.
Definition sample_stream : bytes := stream_data clock_guid clock_guid 7 1 0 [x01; x02; x03; x04] [x05].
Lemma C49_refuted : exists content, content = asf_file 1 x01 x02 [(stream_guid, sample_stream)] [] /\
  asf_answer linux64 content = UB.
Proof. exists (asf_file 1 x01 x02 [(stream_guid, sample_stream)] []). split; [reflexivity|vm_compute; reflexivity]. Qed.
Lemma C49_unsafe : exists content, asf_answer windows content = UB.
Proof.
  exists (asf_file 1 x01 x02 [(stream_guid, takeN 58 sample_stream)] []). vm_compute. reflexivity.
Qed.
Lemma C49_ex : header_size [(stream_guid, sample_stream)] = 113 /\
  stream_properties windows sample_stream =
  Ok (AStream sample_stream (ASFTypeFromGuid clock_guid) (ASFTypeFromGuid clock_guid) 7 4 1 1 0 [x01; x02; x03; x04] [x05]).
Proof. split; [reflexivity|vm_compute; reflexivity]. Qed.

(** ** C50 *)
Lemma C50_windows_lemma number r1 r2 before after rest (l : list attribute) :
  let data : bytes := attributes_data l in
  let objs : list (bytes * bytes) := before ++ (ext_content_guid, data) :: after in
  header_size objs <= 65536 -> number < 2 ^ 32 -> Forall opaque before -> Forall opaque after -> lenN objs <= number ->
  Forall attribute_ok l ->
  exists es,
  asf_answer windows (asf_file number r1 r2 objs rest) =
  Ok [asf_result asf_base
        (AHeader (header_size objs) number (b2n r1) (b2n r2) :: map reported before ++
         AExtContent data (lenN l) es :: map reported after)] /\
  Forall2 (attribute_text reversed) l es.
Proof.
  intros data objs Hs Hn Hb Ha Hl Hk.
  pose proof (object_small ext_content_guid data before after eq_refl Hs) as L.
  assert (L2 : lenN l < 65536).
  { unfold data, attributes_data in L. rewrite lenN_app in L. pose proof (length_attributes l). lia. }
  destruct (attributes_windows l Hk L2) as (es & E & Hes).
  { change (2 ^ 32) with 4294967296. unfold data in L. lia. }
  exists es. split; [|exact Hes].
  apply windows_among; try assumption; try reflexivity.
  intros F. unfold made. cbn [fst snd]. rewrite make_ext_content. exact E.
Qed.
Lemma C50_right (l : list attribute) es : Forall2 (attribute_text reversed) l es ->
  (forall n, ~ In (VDword n) (map snd l)) -> Forall2 (attribute_text (fun n => n)) l es.
Proof.
  induction 1 as [|[n v] e l es [H1 H2] Hl IH]; intros F; constructor.
  - split; [exact H1|]. cbn [snd] in *. destruct v; cbn [value_text] in *; try assumption.
    exfalso. eapply F. left. reflexivity.
  - apply IH. intros k I. apply (F k). right. exact I.
Qed.
Definition sample_attributes : list attribute :=
  [(ascii16 (B "WM/Year"), VText (ascii16 (B "1999"))); (ascii16 (B "Rating"), VDword 5); (ascii16 (B "IsVBR"), VBool true)].
Lemma sample_attributes_ok : Forall attribute_ok sample_attributes.
Proof. repeat constructor; unfold scalar; vm_compute; try reflexivity; auto; left; reflexivity. Qed.
Lemma C50_refuted : exists l n, Forall attribute_ok l /\ In (VDword n) (map snd l) /\
  forall es, Forall2 (attribute_text reversed) l es -> ~ Forall2 (attribute_text (fun n => n)) l es.
Proof.
  exists sample_attributes, 5. split; [apply sample_attributes_ok|]. split; [right; left; reflexivity|].
  intros es H G. inversion H as [|? ? ? ? _ H1]; subst. inversion H1 as [|? ? ? ? [_ X] _]; subst.
  inversion G as [|? ? ? ? _ G1]; subst. inversion G1 as [|? ? ? ? [_ Y] _]; subst.
  cbn [snd value_text] in X, Y. rewrite X in Y. discriminate Y.
Qed.
Lemma C50_reversed n : n < 2 ^ 32 -> reversed (reversed n) = n.
Proof.
  intros H. unfold reversed. rewrite <- !le_rev. pose proof (to_le_le (rev (to_le 4 n))) as E.
  rewrite rev_length, length_to_le in E. rewrite E, rev_involutive. apply le_to_le_id. exact H.
Qed.
Lemma C50_ex : extended_content windows (attributes_data sample_attributes) =
  Ok (AExtContent (attributes_data sample_attributes) 3
        [(B "WM/Year", B "1999"); (B "Rating", B "83886080"); (B "IsVBR", B "true")]).
Proof. vm_compute. reflexivity. Qed.
