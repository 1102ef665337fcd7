(** The parsing of ASF objects ends when there is no header extension. *)
From Coq Require Import List NArith ZArith Bool Lia ZifyBool ZifyNat ZifyN Strings.String.
From Verif Require Import Lib.Res Lib.Bytes Lib.BytesFacts Lib.Text Common.Model Common.Spec Common.ReadProofs Common.EndProofs Propset.MemoryProofs
     Magic.Model Asf.Tables Asf.Model Asf.Spec Asf.Statements Asf.Proofs.
Import ListNotations.
Local Open Scope N_scope.
Ltac Zify.zify_post_hook ::= Z.div_mod_to_equations.
Arguments N.pow : simpl never.
Arguments N.mul : simpl never.

Lemma wide_end p b o n : ends (fun _ => o + n * sizeof_wchar p <= lenN b) (wide p b o n).
Proof.
  unfold wide. eapply ends_bind; [apply slice_end|]. cbn beta. intros s S. eapply ends_bind; [apply not_ends; apply convert_nofuel|]. intros c _. exact S.
Qed.
Lemma buffer_end b o n : ends (fun _ => o + n <= lenN b) (readBuffer b o n).
Proof. unfold readBuffer. destruct (_ <? _); [exact I|apply slice_end]. Qed.
Lemma ushort_value b m o : ends (fun n => n < 65536) (ReadUShort b m o false).
Proof.
  unfold ReadUShort. destruct (_ <? _); [exact I|]. eapply ends_bind; [apply rd_end|]. intros x _. eapply ends_bind; [apply rd_end|]. intros y _.
  cbn [ends]. unfold u16. change (2 ^ 16) with 65536. lia.
Qed.
Lemma ushort_both b m o : lenN b < 2 ^ 32 -> ends (fun n => n < 65536 /\ o + 2 <= lenN b) (ReadUShort b m o false).
Proof. intros L. pose proof (ushort_value b m o) as A. pose proof (ushort_end2 b m o L) as C. destruct (ReadUShort b m o false); cbn in *; auto. Qed.
Lemma ulong_nofuel p b m o : ReadULong p b m o <> Fuel.
Proof. unfold ReadULong. destruct (_ <? _); [discriminate|]. apply bind_nofuel; [apply slice_nofuel|discriminate]. Qed.
Lemma ulonglong_nofuel b m o : ReadULongLong b m o <> Fuel.
Proof. unfold ReadULongLong. destruct (_ <? _); [discriminate|]. apply bind_nofuel; [apply slice_nofuel|discriminate]. Qed.

Lemma ulonglong_end b m o : ends (fun _ => o + 8 <= lenN b) (ReadULongLong b m o).
Proof. unfold ReadULongLong. destruct (_ <? _); [exact I|]. eapply ends_bind; [apply slice_end|]. cbn beta. intros s H. exact H. Qed.

Section Platform.
Variable p : platform.
Hypothesis P : supported p.
Lemma two : 2 <= sizeof_wchar p.
Proof. destruct P as [-> | ->]; cbn; lia. Qed.
Lemma width o n (b : bytes) : o + n * sizeof_wchar p <= lenN b -> o + n * 2 <= lenN b.
Proof. pose proof two. pose proof (N.mul_le_mono_l 2 (sizeof_wchar p) n). lia. Qed.

Lemma codec_end b o : lenN b < 2 ^ 32 -> ends (fun c => o + 8 <= u32 (o + c_size c) /\ u32 (o + c_size c) <= lenN b) (codec_entry_at p b (lenN b) o).
Proof.
  intros L. unfold codec_entry_at. rewrite P32 in *.
  eapply ends_bind; [apply ushort_both; exact L|]. cbn beta. intros t [T1 T2]. rewrite (u32_id (o + 2)) by (rewrite P32; lia).
  eapply ends_bind; [apply ushort_both; exact L|]. cbn beta. intros n [N1 N2]. rewrite (u32_id (o + 2 + 2)) by (rewrite P32; lia).
  eapply ends_bind; [apply wide_end|]. cbn beta. intros name H1. apply width in H1. rewrite (u32_id (_ + n * 2)) by (rewrite P32; lia).
  eapply ends_bind; [apply ushort_both; exact L|]. cbn beta. intros d [D1 D2]. rewrite (u32_id (_ + n * 2 + 2)) by (rewrite P32; lia).
  eapply ends_bind; [apply wide_end|]. cbn beta. intros desc H2. apply width in H2. rewrite (u32_id (_ + d * 2)) by (rewrite P32; lia).
  eapply ends_bind; [apply ushort_both; exact L|]. cbn beta. intros i [I1 I2]. rewrite (u32_id (_ + d * 2 + 2)) by (rewrite P32; lia).
  eapply ends_bind; [apply buffer_end|]. cbn beta. intros info H3. rewrite (u32_id (_ + i)) by (rewrite P32; lia). cbn [ends c_size].
  unfold subw, u32. change (2 ^ 32) with 4294967296 in *. lia.
Qed.
Lemma codecs_end b fuel : lenN b < 2 ^ 32 -> forall count o, (1 <= fuel)%nat -> o <= lenN b + 20 -> lenN b < o + N.of_nat fuel -> ends (fun _ => True) (codec_loop fuel p b count o).
Proof.
  intros L. induction fuel as [|fuel IH]; intros count o F1 Ho F2; [lia|]. cbn [codec_loop]. destruct (count =? 0); [exact I|].
  eapply ends_bind; [apply codec_end; exact L|]. cbn beta. intros c [C1 C2]. eapply ends_bind; [apply IH; lia|]. intros l _. exact I.
Qed.
Lemma value_nofuel t v : descriptor_value p t v <> Fuel.
Proof.
  unfold descriptor_value. destruct (t =? 0); [eapply ends_not; apply wide_end|]. destruct (t =? 1); [discriminate|].
  destruct (t =? 2); [apply bind_nofuel; [apply rd_nofuel|intros b _; discriminate]|]. destruct (t =? 3); [apply bind_nofuel; [apply ReadUInt_nofuel|discriminate]|].
  destruct (t =? 4); [apply bind_nofuel; [apply ulonglong_nofuel|discriminate]|]. destruct (t =? 5); [apply bind_nofuel; [apply ReadUShort_nofuel|discriminate]|]. discriminate.
Qed.
Lemma descriptor_end b o : lenN b + 2 < 2 ^ 32 -> ends (fun d => o + 6 <= u32 (o + snd d) /\ u32 (o + snd d) <= lenN b) (content_descriptor p b (lenN b) o).
Proof.
  intros L2. assert (L : lenN b < 2 ^ 32) by (rewrite P32 in *; lia). unfold content_descriptor. rewrite P32 in *.
  eapply ends_bind; [apply ushort_both; exact L|]. cbn beta. intros n [N1 N2]. rewrite (u32_id (o + 2)) by (rewrite P32; lia).
  eapply ends_bind; [apply wide_end|]. cbn beta. intros name H1. apply width in H1. rewrite (u32_id (o + 2 + n)) by (rewrite P32; lia).
  eapply ends_bind; [apply ushort_both; exact L|]. cbn beta. intros t [T1 T2].
  rewrite (u32_id (o + 2 + n + 2)) by (rewrite P32; lia).
  eapply ends_bind; [apply ushort_both; exact L|]. cbn beta. intros v [V1 V2]. rewrite (u32_id (o + 2 + n + 2 + 2)) by (rewrite P32; lia).
  eapply ends_bind; [apply buffer_end|]. cbn beta. intros w H3. rewrite (u32_id (_ + v)) by (rewrite P32; lia).
  eapply ends_bind; [apply not_ends; apply value_nofuel|]. intros x _. cbn [ends snd]. unfold subw, u32. change (2 ^ 32) with 4294967296 in *. lia.
Qed.
Lemma descriptors_end (b : bytes) fuel : lenN b + 2 < 2 ^ 32 -> forall count o, (1 <= fuel)%nat -> o <= lenN b + 20 -> lenN b < o + N.of_nat fuel -> ends (fun _ => True) (descriptor_loop fuel p b count o).
Proof.
  intros L. induction fuel as [|fuel IH]; intros count o F1 Ho F2; [lia|]. cbn [descriptor_loop]. destruct (count =? 0); [exact I|].
  eapply ends_bind; [apply descriptor_end; exact L|]. intros [[a v] k] [C1 C2]. cbn [snd] in *. eapply ends_bind; [apply IH; lia|]. intros l _. exact I.
Qed.
Lemma extension_rows : forallb (fun r => implb (bytes_eqb (snd r) (B "ASF_Header_Extension_Object")) (bytes_eqb (fst r) extension_guid)) guid_types = true.
Proof. vm_compute. reflexivity. Qed.
Ltac step := repeat (match goal with
  | |- bind _ _ <> Fuel => apply bind_nofuel; [|intros ? _]
  | |- Ok _ <> Fuel => discriminate
  | |- slice _ _ _ <> Fuel => apply slice_nofuel
  | |- rd _ _ <> Fuel => apply rd_nofuel
  | |- ReadULong _ _ _ _ <> Fuel => apply ulong_nofuel
  | |- ReadULongLong _ _ _ <> Fuel => apply ulonglong_nofuel
  | |- ReadUShort _ _ _ _ <> Fuel => apply ReadUShort_nofuel
  | |- readBuffer _ _ _ <> Fuel => eapply ends_not; apply buffer_end
  | |- wide _ _ _ _ <> Fuel => eapply ends_not; apply wide_end end).
Lemma object_nofuel fuel rec guid data size : lenN data + 2 < 2 ^ 32 -> guid <> extension_guid -> make_object fuel rec p guid data size <> Fuel.
Proof.
  intros L G. unfold make_object. destruct (bytes_eqb (ASFTypeFromGuid guid) (B "ASF_Header_Object")); [unfold asf_header; step|].
  destruct (bytes_eqb (ASFTypeFromGuid guid) (B "ASF_File_Properties_Object")); [unfold file_properties; step|].
  destruct (bytes_eqb (ASFTypeFromGuid guid) (B "ASF_Stream_Properties_Object")); [unfold stream_properties; step|].
  destruct (bytes_eqb (ASFTypeFromGuid guid) (B "ASF_Header_Extension_Object")) eqn:E.
  { exfalso. apply G. apply bytes_eqb_eq in E. unfold ASFTypeFromGuid in E. destruct (guid_lookup_cases guid_types guid) as [I|[I _]]; [|rewrite I in E; vm_compute in E; discriminate E].
    rewrite E in I. pose proof extension_rows as R. rewrite forallb_forall in R. specialize (R _ I). cbn [fst snd] in R. apply bytes_eqb_eq. exact R. }
  destruct (bytes_eqb (ASFTypeFromGuid guid) (B "ASF_Content_Description_Object")); [unfold content_description; step|].
  destruct (bytes_eqb (ASFTypeFromGuid guid) (B "ASF_Extended_Content_Description_Object")).
  { unfold extended_content. apply bind_nofuel; [apply ReadUShort_nofuel|]. intros n _. apply bind_nofuel; [|discriminate]. eapply ends_not. apply descriptors_end; [exact L|lia|lia|unfold lenN; lia]. }
  destruct (bytes_eqb (ASFTypeFromGuid guid) (B "ASF_Codec_List_Object")); [|discriminate].
  unfold codec_list. apply bind_nofuel; [apply slice_nofuel|]. intros g _. apply bind_nofuel; [apply ulong_nofuel|]. intros n _. apply bind_nofuel; [|discriminate].
  eapply ends_not. apply codecs_end; [rewrite P32 in *; lia|lia|lia|unfold lenN; lia].
Qed.

(** ** The objects of a file *)
Lemma parse_nofuel fuel buffer o : lenN buffer < 2 ^ 32 -> (forall i, ~ occurs_at extension_guid buffer i) -> Parse (S fuel) p buffer o <> Fuel.
Proof.
  intros L N. cbn [Parse]. destruct (_ <? _); [discriminate|]. destruct (slice buffer o 16) as [guid|e| |] eqn:G; [|discriminate|discriminate|elim (slice_nofuel _ _ _ G)].
  cbn [bind]. destruct (_ <? _); [discriminate|]. destruct (ReadULongLong buffer (lenN buffer) (u32 (o + 16))) as [size|e| |] eqn:V; [|discriminate|discriminate|elim (ulonglong_nofuel _ _ _ V)].
  assert (V1 : u32 (o + 16) + 8 <= lenN buffer). { pose proof (ulonglong_end buffer (lenN buffer) (u32 (o + 16))) as A. rewrite V in A. exact A. }
  cbn [bind]. destruct (_ <? _); [discriminate|].
  destruct (readBuffer buffer (u32 (u32 (o + 16) + 8)) (subw 64 size 24)) as [data|e| |] eqn:D; [|discriminate|discriminate|exfalso; exact (ends_not _ _ (buffer_end _ _ _) D)].
  cbn [bind]. apply bind_nofuel; [|discriminate]. apply slice_inv in G. destruct G as (G1 & G2 & _). apply object_nofuel.
  - unfold readBuffer in D. destruct (_ <? _) in D; [discriminate|]. apply slice_inv in D. destruct D as (D1 & -> & _). rewrite lenN_takeN, lenN_dropN. rewrite (u32_id (o + 16)) in * by lia. rewrite u32_id in * by lia. clear - D1 V1 L. rewrite P32 in *. lia.
  - intros E. apply (N o). exists (takeN o buffer), (dropN (o + 16) buffer). split; [|rewrite lenN_takeN; lia]. rewrite <- E, G2.
    rewrite <- (takeN_dropN o buffer) at 1. f_equal. rewrite <- (takeN_dropN 16 (dropN o buffer)) at 1. f_equal. rewrite dropN_dropN. reflexivity.
Qed.
Lemma loop_nofuel buffer k : lenN buffer < 2 ^ 32 -> (forall i, ~ occurs_at extension_guid buffer i) -> forall fuel number size i index base,
  index <= lenN buffer + 30 -> lenN buffer + 30 < index + N.of_nat fuel -> detail_loop fuel (Parse (S k) p buffer) number size i index base <> Fuel.
Proof.
  intros L N. induction fuel as [|fuel IH]; intros number size i index base I F; [lia|]. cbn [detail_loop].
  destruct (_ && _); [|discriminate]. destruct (Parse (S k) p buffer index) as [[c|]|e| |] eqn:E; [|discriminate|discriminate|discriminate|elim (parse_nofuel k buffer index L N E)].
  cbn [bind]. apply bind_nofuel; [|discriminate]. apply Parse_data in E; [|exact L]. rewrite u32_id by (rewrite P32 in *; lia). apply IH; lia.
Qed.
End Platform.
