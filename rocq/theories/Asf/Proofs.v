(** Lemmas about the ASF parser. *)
From Coq Require Import List NArith ZArith Bool Lia Strings.String.
From Coq Require Import ZifyBool ZifyNat ZifyN.
From Verif Require Import Lib.Res Lib.Bytes Lib.BytesFacts Lib.Text Common.Model Common.Spec Common.Fields
     Common.ReadProofs Common.FieldProofs Magic.Model Asf.Tables Asf.Model Asf.Spec.
Import ListNotations.
Local Open Scope N_scope.
Ltac Zify.zify_post_hook ::= Z.div_mod_to_equations.

Arguments N.pow : simpl never.

Lemma u32_small n : n < 2 ^ 32 -> u32 n = n.
Proof. apply N.mod_small. Qed.
Lemma u64_small n : n < 2 ^ 64 -> u64 n = n.
Proof. apply N.mod_small. Qed.
Lemma subw64 a b : b <= a -> a < 2 ^ 64 -> subw 64 a b = a - b.
Proof.
  intros H1 H2. unfold subw. rewrite (N.mod_small b) by lia.
  replace (a + 2 ^ 64 - b) with (a - b + 1 * 2 ^ 64) by lia.
  rewrite N.mod_add by discriminate. apply N.mod_small. lia.
Qed.
Lemma subw64_wrap a b : a < b -> b < 2 ^ 64 -> subw 64 a b = a + 2 ^ 64 - b.
Proof.
  intros H1 H2. unfold subw. rewrite (N.mod_small b) by lia. apply N.mod_small. lia.
Qed.

(** ** Framing *)
Lemma app_len_sub {A} (a b : list A) : lenN (a ++ b) = lenN a + lenN b.
Proof. apply lenN_app. Qed.

Lemma slice_mid (pre w post : bytes) n : lenN w = n -> slice (pre ++ w ++ post) (lenN pre) n = Ok w.
Proof.
  intros <-. rewrite slice_ok by (rewrite !lenN_app; lia).
  rewrite dropN_app_exact. f_equal. apply takeN_app_exact.
Qed.

Lemma Parse_stored f p (pre guid data post : bytes) :
  lenN guid = 16 -> lenN (pre ++ stored (guid, data) ++ post) < 2 ^ 32 ->
  Parse (S f) p (pre ++ stored (guid, data) ++ post) (lenN pre) =
  rmap Some (make_object f (Parse f p) p guid data (24 + lenN data)).
Proof.
  intros G L. unfold stored in *. cbn [fst snd] in *. rewrite <- !app_assoc in *.
  assert (L' : lenN (pre ++ guid ++ to_le 8 (24 + lenN data) ++ data ++ post) =
               lenN pre + (16 + (8 + (lenN data + lenN post)))).
  { rewrite !lenN_app, lenN_to_le, G. reflexivity. }
  rewrite L' in L. cbn [Parse]. rewrite L'.
  rewrite !u32_small by lia. 
  replace (_ <? lenN pre + 16) with false by lia.
  rewrite slice_mid by exact G. cbn [bind].
  replace (_ <? lenN pre + 16 + 8) with false by lia.
  unfold ReadULongLong. 
  replace (_ <? lenN pre + 16 + 8) with false by lia.
  replace (slice (pre ++ guid ++ to_le 8 (24 + lenN data) ++ data ++ post) (lenN pre + 16) 8)
    with (Ok (to_le 8 (24 + lenN data)) : res bytes).
  2: { symmetry. rewrite (app_assoc pre guid). replace (lenN pre + 16) with (lenN (pre ++ guid)) by (rewrite lenN_app; lia).
       apply slice_mid. apply lenN_to_le. }
  cbn [bind]. rewrite le_to_le_id by (change (256 ^ N.of_nat 8) with (2 ^ 64); lia).
  rewrite u64_small by lia. rewrite !subw64 by lia.
  replace (_ <? lenN pre + 16 + 8 + (24 + lenN data) - 24) with false by lia.
  unfold readBuffer. replace (2 ^ 63 - 1 <? 24 + lenN data - 24) with false by lia.
  replace (slice _ _ (24 + lenN data - 24)) with (Ok data : res bytes).
  2: { symmetry. rewrite (app_assoc pre guid), (app_assoc (pre ++ guid)).
       replace (lenN pre + 16 + 8) with (lenN ((pre ++ guid) ++ to_le 8 (24 + lenN data)))
         by (rewrite !lenN_app, lenN_to_le; lia).
       apply slice_mid. lia. }
  reflexivity.
Qed.

Lemma Parse_short f p buffer offset : lenN buffer < 2 ^ 32 - 24 -> offset <= lenN buffer ->
  lenN buffer < offset + 24 -> Parse (S f) p buffer offset = Ok None.
Proof.
  intros L O H. cbn [Parse]. rewrite !u32_small by lia.
  destruct (lenN buffer <? offset + 16) eqn:E; [reflexivity|].
  rewrite slice_ok by lia. cbn [bind]. replace (_ <? offset + 16 + 8) with true by lia. reflexivity.
Qed.

Lemma Parse_size f p buffer offset v : lenN buffer < 2 ^ 32 -> number_at buffer (offset + 16) 8 v ->
  (lenN buffer < offset + v < 2 ^ 64 -> Parse (S f) p buffer offset = Ok None) /\
  (v < 24 \/ 2 ^ 64 <= offset + v -> Parse (S f) p buffer offset = Throw LengthError).
Proof.
  intros L (w & W & V). pose proof (proj2 (slice_window _ _ _ _) W) as S. destruct (slice_inv _ _ _ _ S) as (B1 & _ & LW).
  pose proof (le_bound w) as Bv. rewrite LW, V in Bv. change (256 ^ 8) with (2 ^ 64) in Bv.
  cbn [Parse]. rewrite !u32_small by lia.
  replace (lenN buffer <? offset + 16) with false by lia.
  rewrite slice_ok by lia. cbn [bind]. replace (_ <? offset + 16 + 8) with false by lia.
  unfold ReadULongLong. replace (_ <? offset + 16 + 8) with false by lia.
  rewrite S. cbn [bind]. rewrite V. split.
  - intros H. assert (E : subw 64 (u64 (offset + 16 + 8 + v)) 24 = offset + v).
    { destruct (N.lt_ge_cases (offset + 16 + 8 + v) (2 ^ 64)).
      - rewrite u64_small, subw64 by lia. lia.
      - unfold u64. replace (offset + 16 + 8 + v) with (offset + 24 + v - 2 ^ 64 + 1 * 2 ^ 64) by lia.
        rewrite N.mod_add by discriminate. rewrite N.mod_small by lia.
        rewrite subw64_wrap by lia. lia. }
    rewrite E. replace (lenN buffer <? offset + v) with true by lia. reflexivity.
  - intros H.
    assert (E : subw 64 (u64 (offset + 16 + 8 + v)) 24 <= lenN buffer).
    { destruct H as [H|H].
      - rewrite u64_small, subw64 by lia. lia.
      - unfold u64. replace (offset + 16 + 8 + v) with (offset + 24 + v - 2 ^ 64 + 1 * 2 ^ 64) by lia.
        rewrite N.mod_add by discriminate. rewrite N.mod_small by lia. rewrite subw64 by lia. lia. }
    replace (lenN buffer <? subw 64 (u64 (offset + 16 + 8 + v)) 24) with false by lia.
    unfold readBuffer.
    assert (E2 : 2 ^ 63 - 1 < subw 64 v 24).
    { destruct H as [H|H].
      - rewrite subw64_wrap by lia. lia.
      - rewrite subw64 by lia. lia. }
    replace (2 ^ 63 - 1 <? subw 64 v 24) with true by lia. reflexivity.
Qed.

(** ** Fuel *)
Definition refines {A} (m m' : res A) : Prop := m = Fuel \/ m = m'.

Lemma refines_bind {A C} (m m' : res A) (f g : A -> res C) :
  refines m m' -> (forall a, refines (f a) (g a)) -> refines (bind m f) (bind m' g).
Proof.
  intros [->| <-] H; [left; reflexivity|]. destruct m; cbn [bind]; [apply H|right; reflexivity..].
Qed.
Lemma refines_refl {A} (m : res A) : refines m m.
Proof. right. reflexivity. Qed.

Lemma ext_loop_refines f f' rec rec' size index : (f <= f')%nat -> (forall i, refines (rec i) (rec' i)) ->
  refines (ext_loop f rec size index) (ext_loop f' rec' size index).
Proof.
  intros Hf H. revert f' Hf index. induction f as [|f IH]; intros f' Hf index; [left; reflexivity|].
  destruct f' as [|f']; [lia|]. cbn [ext_loop]. destruct (index <? size); [|apply refines_refl].
  apply refines_bind; [apply H|]. intros [c|].
  - apply refines_bind; [apply IH; lia|]. intros. apply refines_refl.
  - apply IH. lia.
Qed.

Lemma make_object_refines f f' rec rec' p guid data size : (f <= f')%nat ->
  (forall b i, refines (rec b i) (rec' b i)) ->
  refines (make_object f rec p guid data size) (make_object f' rec' p guid data size).
Proof.
  intros Hf H. unfold make_object.
  repeat match goal with |- refines (if ?c then _ else _) _ => destruct c; [apply refines_refl || idtac|] end;
    try apply refines_refl.
  unfold header_extension. repeat (apply refines_bind; [apply refines_refl|intros]).
  apply refines_bind; [apply ext_loop_refines; auto|]. intros. apply refines_refl.
Qed.

Lemma Parse_refines f : forall f' p buffer offset, (f <= f')%nat ->
  refines (Parse f p buffer offset) (Parse f' p buffer offset).
Proof.
  induction f as [|f IH]; intros f' p buffer offset Hf; [left; reflexivity|].
  destruct f' as [|f']; [lia|]. cbn [Parse].
  destruct (_ <? _); [apply refines_refl|]. apply refines_bind; [apply refines_refl|intros g].
  destruct (_ <? _); [apply refines_refl|]. apply refines_bind; [apply refines_refl|intros v].
  destruct (_ <? _); [apply refines_refl|]. apply refines_bind; [apply refines_refl|intros d].
  apply refines_bind; [apply make_object_refines; [lia|]|intros; apply refines_refl].
  intros. apply IH. lia.
Qed.

Lemma Parse_mono f f' p buffer offset : (f <= f')%nat -> Parse f p buffer offset <> Fuel ->
  Parse f' p buffer offset = Parse f p buffer offset.
Proof. intros H N. destruct (Parse_refines f f' p buffer offset H) as [E|E]; congruence. Qed.

Lemma make_object_data f rec p guid data size o : make_object f rec p guid data size = Ok o ->
  lenN (obj_data o) <= lenN data.
Proof.
  unfold make_object, asf_header, file_properties, stream_properties, header_extension,
    content_description, extended_content, codec_list.
  repeat match goal with |- (if ?c then _ else _) = _ -> _ => destruct c end; intros H;
    repeat (apply bind_ok in H; destruct H as (? & _ & H)); injection H as <-; cbn [obj_data];
    rewrite ?lenN_nil; lia.
Qed.

Lemma Parse_data f p buffer offset o : lenN buffer < 2 ^ 32 -> Parse f p buffer offset = Ok (Some o) ->
  offset + 24 + lenN (obj_data o) <= lenN buffer.
Proof.
  destruct f as [|f]; [discriminate|]. intros L. cbn [Parse].
  destruct (_ <? _); [discriminate|]. intros H. apply bind_ok in H. destruct H as (g & Hg & H).
  apply slice_inv in Hg. destruct Hg as (Hg & _). rewrite (u32_small (offset + 16)) in H by lia.
  destruct (lenN buffer <? u32 (offset + 16 + 8)) eqn:E; [discriminate|].
  apply bind_ok in H. destruct H as (v & Hv & H).
  unfold ReadULongLong in Hv. destruct (_ <? _) eqn:E1 in Hv; [discriminate|].
  rewrite (u32_small (offset + 16 + 8)) in H by lia.
  destruct (_ <? _) in H; [discriminate|].
  apply bind_ok in H. destruct H as (d & Hd & H). apply bind_ok in H. destruct H as (o' & Ho & H).
  injection H as ->. apply make_object_data in Ho. unfold readBuffer in Hd.
  destruct (_ <? _) in Hd; [discriminate|]. apply slice_inv in Hd. destruct Hd as (Hd & _ & Hl). lia.
Qed.

Lemma ext_loop_stuck f rec size index : index < size -> rec index = Ok None \/ rec index = Fuel ->
  ext_loop f rec size index = Fuel.
Proof.
  intros Hi Hr. induction f as [|f IH]; [reflexivity|]. cbn [ext_loop].
  replace (index <? size) with true by lia. destruct Hr as [-> | ->]; cbn [bind]; [exact IH|reflexivity].
Qed.

Lemma ext_loop_enough rec rec' size len : size <= len -> len < 2 ^ 32 ->
  (forall i, refines (rec' i) (rec i)) ->
  (forall i o, rec i = Ok (Some o) -> i + 24 + lenN (obj_data o) <= len) ->
  forall f f' index, (N.to_nat (size - index) < f)%nat ->
  refines (ext_loop f' rec' size index) (ext_loop f rec size index).
Proof.
  intros Hs Hl Hr Hd f f'. revert f. induction f' as [|f' IH]; intros f index Hf; [left; reflexivity|].
  destruct f as [|f]; [lia|]. cbn [ext_loop]. destruct (index <? size) eqn:E; [|apply refines_refl].
  destruct (Hr index) as [->| ->]; [left; reflexivity|].
  destruct (rec index) as [[c|]| | |] eqn:R; try apply refines_refl; cbn [bind].
  - pose proof (Hd _ _ R). rewrite u32_small by lia.
    apply refines_bind; [|intros; apply refines_refl]. apply IH. lia.
  - left. apply ext_loop_stuck; [lia|]. destruct (Hr index) as [E1|E1]; rewrite E1; auto.
Qed.

Lemma Parse_enough p n : forall buffer, (List.length buffer <= n)%nat -> lenN buffer < 2 ^ 32 ->
  forall f f' offset, (n < f)%nat -> refines (Parse f' p buffer offset) (Parse f p buffer offset).
Proof.
  induction n as [n IHn] using lt_wf_ind. intros buffer Hn L f f' offset Hf.
  destruct f' as [|k']; [left; reflexivity|]. destruct f as [|k]; [lia|]. cbn [Parse].
  destruct (_ <? _); [apply refines_refl|].
  destruct (slice buffer offset 16) as [g| | |] eqn:Hg; try apply refines_refl. cbn [bind].
  apply slice_inv in Hg. destruct Hg as (Hg & _).
  destruct (_ <? _); [apply refines_refl|]. apply refines_bind; [apply refines_refl|intros v].
  destruct (_ <? _); [apply refines_refl|].
  rewrite (u32_small (offset + 16)) by lia.
  destruct (readBuffer buffer (u32 (offset + 16 + 8)) (subw 64 v 24)) as [d| | |] eqn:Hd;
    try apply refines_refl. cbn [bind].
  assert (Ld : lenN d <= lenN buffer).
  { unfold readBuffer in Hd. destruct (_ <? _) in Hd; [discriminate|]. apply slice_inv in Hd. lia. }
  apply refines_bind; [|intros; apply refines_refl].
  unfold make_object.
  repeat match goal with |- refines (if ?c then _ else _) _ => destruct c; [apply refines_refl || idtac|] end;
    try apply refines_refl.
  unfold header_extension.
  destruct (slice d 0 16) as [gg| | |] eqn:Hgg; try apply refines_refl. cbn [bind]. clear Hgg.
  apply refines_bind; [apply refines_refl|intros r2]. 
  apply refines_bind; [apply refines_refl|intros size].
  destruct (readBuffer d 22 size) as [ext| | |] eqn:He; try apply refines_refl. cbn [bind].
  unfold readBuffer in He. destruct (_ <? _) in He; [discriminate|]. apply slice_inv in He.
  destruct He as (He & _ & Le).
  apply refines_bind; [|intros; apply refines_refl].
  apply (ext_loop_enough _ _ size (lenN ext)); [lia|lia| | |unfold lenN in *; lia].
  - intros i. apply (IHn (n - 1)%nat); unfold lenN in *; lia.
  - intros i o Ho. apply Parse_data in Ho; [exact Ho|lia].
Qed.

Lemma Parse_diverges p buffer offset f : lenN buffer < 2 ^ 32 -> (List.length buffer < f)%nat ->
  Parse f p buffer offset = Fuel -> forall f', Parse f' p buffer offset = Fuel.
Proof.
  intros L Hf H f'. destruct (Parse_enough p (List.length buffer) buffer (le_n _) L f f' offset Hf) as [E|E]; congruence.
Qed.

(** ** Dispatch on the GUID *)
Definition special_guids : list bytes :=
  [header_guid; file_properties_guid; stream_guid; extension_guid; content_guid; ext_content_guid; codec_guid].
Definition special_names : list bytes :=
  [B "ASF_Header_Object"; B "ASF_File_Properties_Object"; B "ASF_Stream_Properties_Object";
   B "ASF_Header_Extension_Object"; B "ASF_Content_Description_Object";
   B "ASF_Extended_Content_Description_Object"; B "ASF_Codec_List_Object"].

Lemma guid_lookup_cases rows g :
  In (g, guid_lookup rows g) rows \/ (guid_lookup rows g = B "Unknown" /\ forall n, ~ In (g, n) rows).
Proof.
  induction rows as [|[g' n] rows IH]; cbn [guid_lookup].
  - right. split; [reflexivity|]. intros n [].
  - destruct (bytes_eqb g g') eqn:E.
    + apply bytes_eqb_eq in E. subst. left. left. reflexivity.
    + destruct IH as [IH|[IH1 IH2]]; [left; right; exact IH|]. right. split; [exact IH1|].
      intros m [H|H]; [|exact (IH2 m H)]. injection H as -> ->. rewrite bytes_eqb_refl in E. discriminate.
Qed.

Lemma special_rows : forallb (fun r => implb (existsb (bytes_eqb (snd r)) special_names)
                                            (existsb (bytes_eqb (fst r)) special_guids)) guid_types = true.
Proof. vm_compute. reflexivity. Qed.

Lemma special_of_name g : existsb (bytes_eqb (ASFTypeFromGuid g)) special_names = true -> In g special_guids.
Proof.
  intros H. destruct (guid_lookup_cases guid_types g) as [I|[I _]].
  - pose proof special_rows as S. rewrite forallb_forall in S. specialize (S _ I). cbn [fst snd] in S.
    fold (ASFTypeFromGuid g) in S. rewrite H in S. cbn [implb] in S. apply existsb_exists in S.
    destruct S as (x & Hx & E). apply bytes_eqb_eq in E. subst. exact Hx.
  - fold (ASFTypeFromGuid g) in I. rewrite I in H. discriminate H.
Qed.

Lemma make_opaque f rec p guid data size : opaque (guid, data) ->
  make_object f rec p guid data size = Ok (AUnknown (ASFTypeFromGuid guid) data).
Proof.
  intros [_ H]. cbn [fst] in H.
  assert (E : existsb (bytes_eqb (ASFTypeFromGuid guid)) special_names = false).
  { destruct (existsb _ _) eqn:E; [|reflexivity]. elim H. apply special_of_name. exact E. }
  unfold special_names in E. cbn [existsb] in E. rewrite !orb_false_iff in E.
  destruct E as (E1 & E2 & E3 & E4 & E5 & E6 & E7 & _).
  unfold make_object. rewrite E1, E2, E3, E4, E5, E6, E7. reflexivity.
Qed.

Lemma make_header f rec p data size : make_object f rec p header_guid data size = asf_header p data size.
Proof. reflexivity. Qed.
Lemma make_file f rec p data size : make_object f rec p file_properties_guid data size = file_properties p data.
Proof. reflexivity. Qed.
Lemma make_stream f rec p data size : make_object f rec p stream_guid data size = stream_properties p data.
Proof. reflexivity. Qed.
Lemma make_extension f rec p data size :
  make_object f rec p extension_guid data size = header_extension f rec p data.
Proof. reflexivity. Qed.
Lemma make_content f rec p data size : make_object f rec p content_guid data size = content_description p data.
Proof. reflexivity. Qed.
Lemma make_ext_content f rec p data size :
  make_object f rec p ext_content_guid data size = extended_content p data.
Proof. reflexivity. Qed.
Lemma make_codecs f rec p data size : make_object f rec p codec_guid data size = codec_list p data.
Proof. reflexivity. Qed.

(** ** The loop over the header's objects *)
Definition made (F : nat) (p : platform) (o : bytes * bytes) : res asf_object :=
  make_object F (Parse F p) p (fst o) (snd o) (24 + lenN (snd o)).
Definition parsed (F : nat) (p : platform) (o : bytes * bytes) (c : asf_object) : Prop :=
  lenN (fst o) = 16 /\ made F p o = Ok c /\ lenN (obj_data c) = lenN (snd o).

Lemma lenN_stored (g d : bytes) : lenN g = 16 -> lenN (stored (g, d)) = 24 + lenN d.
Proof. intros H. unfold stored. cbn [fst snd]. rewrite !lenN_app, lenN_to_le, H. lia. Qed.
Lemma stored_all_nil : stored_all [] = [].
Proof. reflexivity. Qed.
Lemma stored_all_cons o l : stored_all (o :: l) = stored o ++ stored_all l.
Proof. reflexivity. Qed.
Lemma stored_all_app l m : stored_all (l ++ m) = stored_all l ++ stored_all m.
Proof. unfold stored_all. rewrite map_app, concat_app. reflexivity. Qed.

Local Opaque stored stored_all.

Lemma takeN_cons {A} n (x : A) l : 0 < n -> takeN n (x :: l) = x :: takeN (n - 1) l.
Proof. intros H. cbn [takeN]. replace (n =? 0) with false by lia. rewrite N.sub_1_r. reflexivity. Qed.

Lemma detail_ok F p number objs : forall cs k pre rest i base,
  Forall2 (parsed F p) objs cs -> lenN (pre ++ stored_all objs ++ rest) < 2 ^ 32 -> (List.length objs < k)%nat ->
  detail_loop k (Parse (S F) p (pre ++ stored_all objs ++ rest)) number (lenN pre + lenN (stored_all objs)) i
              (lenN pre) base =
  Ok (fold_left classify (takeN (number - i) cs) base, takeN (number - i) cs).
Proof.
  induction objs as [|[g d] objs IH]; intros cs k pre rest i base H L Hk; (destruct k as [|k]; [cbn [List.length] in Hk; lia|]).
  - inversion H; subst. cbn [detail_loop takeN fold_left]. rewrite stored_all_nil, lenN_nil.
    replace (lenN pre <? lenN pre + 0) with false by lia. rewrite andb_false_r. reflexivity.
  - inversion H as [|? c ? cs' (Hg & Hm & Hd) Hr]; subst. cbn [fst snd] in *.
    rewrite stored_all_cons in *. rewrite <- app_assoc in *. cbn [detail_loop].
    pose proof (lenN_stored g d Hg) as Ls.
    assert (Lx : lenN (stored (g, d) ++ stored_all objs) = 24 + lenN d + lenN (stored_all objs)).
    { rewrite lenN_app. lia. }
    rewrite Lx.
    replace (lenN pre <? lenN pre + (24 + lenN d + lenN (stored_all objs))) with true by lia.
    rewrite andb_true_r. destruct (i <? number) eqn:E.
    + rewrite Parse_stored by assumption. unfold made in Hm. cbn [fst snd] in Hm. rewrite Hm. cbn [rmap bind].
      rewrite !lenN_app in L. rewrite u32_small by lia.
      specialize (IH cs' k (pre ++ stored (g, d)) rest (i + 1) (classify base c) Hr).
      rewrite <- app_assoc in IH. rewrite !lenN_app, Ls in IH.
      replace (lenN pre + 24 + lenN (obj_data c)) with (lenN pre + (24 + lenN d)) by lia.
      replace (lenN pre + (24 + lenN d + lenN (stored_all objs)))
        with (lenN pre + (24 + lenN d) + lenN (stored_all objs)) by lia.
      rewrite IH by (cbn [List.length] in Hk; lia). cbn [bind fst snd].
      rewrite (takeN_cons (number - i)) by lia. replace (number - i - 1) with (number - (i + 1)) by lia.
      reflexivity.
    + replace (number - i) with 0 by lia. rewrite takeN_0. reflexivity.
Qed.

(** The first object that cannot be parsed decides the outcome. *)
Definition fails {A} (m : res A) : Prop := match m with Ok _ => False | _ => True end.
Definition failure {A C} (m : res A) : res C :=
  match m with Ok _ => UB | Throw e => Throw e | UB => UB | Fuel => Fuel end.

Lemma detail_fail F p number objs : forall bad cs k pre rest i base size,
  Forall2 (parsed F p) objs cs -> lenN (fst bad) = 16 -> fails (made F p bad) ->
  lenN (pre ++ stored_all objs ++ stored bad ++ rest) < 2 ^ 32 -> (List.length objs < k)%nat ->
  lenN objs < number - i -> lenN pre + lenN (stored_all objs) < size ->
  detail_loop k (Parse (S F) p (pre ++ stored_all objs ++ stored bad ++ rest)) number size i (lenN pre) base =
  failure (made F p bad).
Proof.
  induction objs as [|[g d] objs IH]; intros [bg bd] cs k pre rest i base size H Hbg Hbad L Hk Hn Hsz;
    (destruct k as [|k]; [cbn [List.length] in Hk; lia|]).
  - rewrite stored_all_nil in *. cbn [app] in *. change (lenN (@nil byte)) with 0 in *.
    change (lenN (@nil (bytes * bytes))) with 0 in *. cbn [detail_loop].
    replace ((i <? number) && (lenN pre <? size)) with true by lia.
    rewrite Parse_stored by assumption. unfold made in *. cbn [fst snd] in *.
    destruct (make_object _ _ _ _ _ _); [destruct Hbad|reflexivity..].
  - inversion H as [|? c ? cs' (Hg & Hm & Hd) Hr]; subst. cbn [fst snd] in *.
    rewrite stored_all_cons in *. rewrite <- app_assoc in *. cbn [detail_loop].
    pose proof (lenN_stored g d Hg) as Ls. rewrite lenN_app, Ls in Hsz. rewrite lenN_cons in Hn.
    replace ((i <? number) && (lenN pre <? size)) with true by lia.
    rewrite Parse_stored by assumption. unfold made in Hm. cbn [fst snd] in Hm. rewrite Hm. cbn [rmap bind].
    rewrite !lenN_app in L. rewrite u32_small by lia.
    specialize (IH (bg, bd) cs' k (pre ++ stored (g, d)) rest (i + 1) (classify base c) size Hr Hbg Hbad).
    rewrite <- app_assoc in IH. rewrite !lenN_app, Ls in IH.
    replace (lenN pre + 24 + lenN (obj_data c)) with (lenN pre + (24 + lenN d)) by lia.
    rewrite IH by (cbn [List.length] in Hk; lia). destruct (made F p (bg, bd)); [destruct Hbad|reflexivity..].
Qed.
