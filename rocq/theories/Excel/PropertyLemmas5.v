(** Instances and refutations for the properties about the numbers in records. *)
From Coq Require Import List NArith ZArith Bool Lia Strings.String Strings.Byte.
From Coq Require Import ZifyBool ZifyNat ZifyN.
From Verif Require Import Lib.Res Lib.Bytes Lib.BytesFacts Lib.Text Common.Model Common.Spec Common.ReadProofs Common.EscapeProofs
     Excel.Number Excel.Model Excel.Records Excel.Engine Excel.Statements Excel.DocStatements Excel.FieldSpec Excel.FieldStatements
     Excel.OutputProofs Excel.Spec Excel.TextStatements Excel.FieldProofs Excel.PassProofs Excel.LinkProofs Common.Utf8 Magic.DocUnique Vba.Statements Magic.Spec.
Import ListNotations.
Local Open Scope N_scope.
Ltac Zify.zify_post_hook ::= Z.div_mod_to_equations.
Arguments N.pow : simpl never.
Arguments N.mul : simpl never.
Arguments N.add : simpl never.

(** ** C111 *)
Lemma C111_all : forall p before t d r l, built p before 0x600 t d r -> fields p r = Ok l ->
  forall name v, In (fld name (Num v)) l <-> exists q, In (name, q) (readings (on_windows p) t) /\ v = taken d q.
Proof. exact numbers. Qed.
Lemma C111_right : forall p before t d r l name pos width, built p before 0x600 t d r -> fields p r = Ok l ->
  stands t name pos width -> (forall q, ~ In (name, q) (misread (on_windows p) t)) ->
  In (fld name (Num (bit_field d pos width))) l.
Proof. exact numbers_right. Qed.

(** Which records can be read *)
Lemma us_ok d off be_ : off + 2 <= lenN d -> off < 2 ^ 31 -> exists v, ReadUShort d (lenN d) off be_ = Ok v.
Proof.
  intros H Ho. assert (W : window d off 2 (takeN 2 (dropN off d))) by (apply slice_window, slice_ok, H).
  eexists. apply (ReadUShort_value d off _ be_ ltac:(lia) W).
Qed.
Lemma ui_ok d off be_ : off + 4 <= lenN d -> off < 2 ^ 31 -> exists v, ReadUInt d (lenN d) off be_ = Ok v.
Proof.
  intros H Ho. assert (W : window d off 4 (takeN 4 (dropN off d))) by (apply slice_window, slice_ok, H).
  eexists. apply (ReadUInt_value d off _ be_ ltac:(lia) W).
Qed.
Ltac reads_ok d :=
  repeat match goal with
  | |- context [ReadUShort d (lenN d) ?o ?b] => destruct (us_ok d o b) as [? ->]; [lia|reflexivity|]; cbn [bind]
  | |- context [ReadUInt d (lenN d) ?o ?b] => destruct (ui_ok d o b) as [? ->]; [lia|reflexivity|]; cbn [bind]
  | |- context [rd d ?o] => destruct (rd_ok d o) as [? ->]; [lia|]; cbn [bind]
  | |- context [load d ?o ?n] => destruct (load_ok d o n) as [? ->]; [lia|]; cbn [bind]
  end.
Definition plain_records : list N := [0x19; 0x42; 0x9C; 0x208; 0x27E; 0x809; 0x100A].
Lemma C111_read : forall p before t d, In t [0x19; 0x42; 0x9C; 0x208; 0x27E; 0x809; 0x100A] -> needed (on_windows p) t <= lenN d ->
  exists r l, built p before 0x600 t d r /\ fields p r = Ok l.
Proof.
  intros p before t d Ht Hn. cbn [In] in Ht. unfold built, ParseRecord.
  repeat destruct Ht as [<-|Ht]; [..|destruct Ht];
    match type of Hn with needed ?w ?t <= _ => let n := eval vm_compute in (needed w t) in change (n <= lenN d) in Hn end.
  - change (record_body p before 0x600 0x19 d) with (ushort_record d true "fLockWn"). unfold ushort_record. reads_ok d.
    do 2 eexists. split; reflexivity.
  - change (record_body p before 0x600 0x42 d) with (CodePageRecord d). unfold CodePageRecord. reads_ok d.
    do 2 eexists. split; reflexivity.
  - change (record_body p before 0x600 0x9C d) with (ushort_record d false "Count"). unfold ushort_record. reads_ok d.
    do 2 eexists. split; reflexivity.
  - change (record_body p before 0x600 0x208 d) with (RowRecord d). unfold RowRecord. reads_ok d.
    do 2 eexists. split; reflexivity.
  - change (record_body p before 0x600 0x27E d) with (RKRecord d). unfold RKRecord. reads_ok d.
    eexists. unfold fields, over. cbn [r_body r_moved r_data]. unfold rk_fields. destruct (load_ok d 6 4) as [x2 E2]; [lia|].
    eexists. split; [reflexivity|]. cbn [r_body r_moved r_data]. rewrite E2. reflexivity.
  - change (record_body p before 0x600 0x809 d) with (@Ok body BOF).
    assert (exists l, bof_fields d = Ok l) as [l E] by (unfold bof_fields; reads_ok d; eexists; reflexivity).
    exists (mkRec 0x809 d false BOF), l. split; [reflexivity|exact E].
  - change (record_body p before 0x600 0x100A d) with (AreaFormatRecord d). unfold AreaFormatRecord, LongRGB. reads_ok d.
    do 2 eexists. split; reflexivity.
Qed.

(** Every field that is not taken from its place is wrong for some record. *)
Definition mixed : bytes :=
  [x01; x12; x23; x34; x45; x56; x67; x78; x89; x9a; xab; xbc; xcd; xde; xef; xf1; x02; x13; x24; x35; x46; x57].
Definition misread_types : list N := [0x06; 0x19; 0x23; 0x208; 0x809; 0x100A].
Definition a_record : rec := mkRec 0x809 [] false BOF.
Lemma misread_in w t : misread w t <> [] -> In t misread_types.
Proof.
  unfold misread. cbn [In misread_types].
  repeat match goal with |- context [t =? ?c] => destruct (N.eqb_spec t c) as [->|]; [cbn; tauto|] end. intros []. reflexivity.
Qed.
Lemma mixed_built p t : In t misread_types -> exists r l, built p [a_record] 0x600 t mixed r /\ fields p r = Ok l.
Proof.
  intros Ht. cbn [In misread_types] in Ht. repeat destruct Ht as [<-|Ht]; [..|destruct Ht].
  - do 2 eexists. split; [vm_compute; reflexivity|vm_compute; reflexivity].
  - apply C111_read; [cbn; tauto|vm_compute; discriminate].
  - assert (exists l, extern_fields p mixed None = Ok l) as [l E].
    { unfold extern_fields. destruct (sizeof_wchar p =? 2); eexists; vm_compute; reflexivity. }
    exists (mkRec 0x23 mixed false (ExternName None)), l. split; [vm_compute; reflexivity|exact E].
  - apply C111_read; [cbn; tauto|vm_compute; discriminate].
  - apply C111_read; [cbn; tauto|vm_compute; discriminate].
  - apply C111_read; [cbn; tauto|vm_compute; discriminate].
Qed.
Definition all_wrong (w : bool) (t : N) : bool :=
  forallb (fun x => match find (fun y => String.eqb (fst y) (fst x)) (places t) with
                    | Some y => negb (taken mixed (snd x) =? bit_field mixed (fst (snd y)) (snd (snd y))) &&
                                existsb (fun z => String.eqb (fst z) (fst x) &&
                                   match snd z, snd x with At a b, At c e => (a =? c) && (b =? e) | Swapped a, Swapped b => a =? b | _, _ => false end)
                                  (readings w t)
                    | None => false
                    end) (misread w t).
Lemma all_are_wrong : forallb (fun w => forallb (all_wrong w) misread_types) [true; false] = true.
Proof. vm_compute. reflexivity. Qed.
Lemma C111_wrong : forall p t name q, In (name, q) (misread (on_windows p) t) ->
  exists before d r l pos width, built p before 0x600 t d r /\ fields p r = Ok l /\ stands t name pos width /\
    In (fld name (Num (taken d q))) l /\ taken d q <> bit_field d pos width.
Proof.
  intros p t name q H. assert (Ht : In t misread_types) by (apply (misread_in (on_windows p)); intros E; rewrite E in H; destruct H).
  destruct (mixed_built p t Ht) as (r & l & Hb & Hf). exists [a_record], mixed, r, l.
  pose proof all_are_wrong as A. rewrite forallb_forall in A. specialize (A (on_windows p) ltac:(destruct (on_windows p); cbn; tauto)).
  rewrite forallb_forall in A. specialize (A t Ht). unfold all_wrong in A. rewrite forallb_forall in A. specialize (A _ H). cbn [fst snd] in A.
  destruct (find _ (places t)) as [[n [pos width]]|] eqn:F; [|discriminate A]. apply find_some in F. destruct F as [F1 F2].
  cbn [fst snd] in F2, A. apply String.eqb_eq in F2. subst n. apply andb_true_iff in A. destruct A as [A1 A2].
  exists pos, width. split; [exact Hb|]. split; [exact Hf|]. split; [exact F1|]. split.
  - apply (numbers p [a_record] t mixed r l Hb Hf). exists q. split; [|reflexivity].
    apply existsb_exists in A2. destruct A2 as ([n z] & I & A2). cbn [fst snd] in A2. apply andb_true_iff in A2. destruct A2 as [A2 A3].
    apply String.eqb_eq in A2. subst n. replace q with z; [exact I|].
    destruct z, q; try discriminate A3; [apply andb_true_iff in A3; destruct A3 as [A3 A4]; apply N.eqb_eq in A3, A4|apply N.eqb_eq in A3]; subst; reflexivity.
  - apply negb_true_iff, N.eqb_neq in A1. exact A1.
Qed.
Lemma C111_row : forall p before, exists r, built p before 0x600 0x208 (mixed) r /\
  shows p r "colMic" (Num 0x4556) /\ bit_field mixed 16 16 = 0x3423 /\ stands 0x208 "colMic" 16 16.
Proof.
  intros p before. eexists. split; [vm_compute; reflexivity|]. split; [|split; [reflexivity|right; left; reflexivity]].
  eexists. split; [vm_compute; reflexivity|]. right. left. reflexivity.
Qed.

(** ** C112 *)
Lemma C112_xor : forall p before d r t u, built p before 0x600 0x2F d r -> bit_field d 0 16 = 0 -> record_json p r = Ok t -> record_xml p r = Ok u ->
  json_value t (record_of "FilePass" d [jfield (B "EncryptionType") (B "XOR"); jbits d "XorKey" 16 16; jbits d "XorVerification" 32 16]) /\
  xml_content u [element_of "FilePass" d [xfield (B "EncryptionType") (B "XOR"); xbits d "XorKey" 16 16; xbits d "XorVerification" 32 16]].
Proof. exact xor_doc. Qed.
Lemma C112_rc4 : forall p before d r t u, built p before 0x600 0x2F d r -> bit_field d 0 16 = 1 -> bit_field d 16 16 = 1 -> bit_field d 32 16 = 1 ->
  record_json p r = Ok t -> record_xml p r = Ok u ->
  exists s sa v ve h ha, window d 6 16 s /\ hex_dump sa s /\ window d 22 16 v /\ hex_dump ve v /\ window d 38 16 h /\ hex_dump ha h /\
    json_value t (record_of "FilePass" d (rc4_start_json d ++
      [jfield (B "Salt") sa; jfield (B "EncryptedVerifier") ve; jfield (B "EncryptedVerifierHash") ha])) /\
    xml_content u [element_of "FilePass" d (rc4_start_xml d ++
      [xfield (B "Salt") sa; xfield (B "EncryptedVerifier") ve; xfield (B "EncryptedVerifierHash") ha])].
Proof. exact rc4_doc. Qed.
Lemma C112_crypto_json : forall p before d r t, built p before 0x600 0x2F d r -> bit_field d 0 16 = 1 -> 2 <= bit_field d 16 16 <= 4 ->
  bit_field d 32 16 = 2 -> record_json p r = Ok t ->
  exists name salt sa ver ve hash ha, let v := bit_field d 80 32 + 14 in
    window d (v + 4) 16 salt /\ hex_dump sa salt /\ window d (v + 20) 16 ver /\ hex_dump ve ver /\
    window d 0 (bit_field d (8 * (v + 36)) 32) hash /\ hex_dump ha hash /\
    (sizeof_wchar p = 2 -> forall u, Forall scalar u -> Forall (fun c => c < 65536) u -> 2 * lenN u + 46 = v ->
       window d 46 (2 * lenN u) (units 2 u) -> utf8 name (filter (fun c => negb (c =? 0)) u)) /\
    json_value t (record_of "FilePass" d (crypto_json d 304 name v sa ve ha)).
Proof. exact crypto_doc_json. Qed.
Lemma C112_crypto_xml : forall p before d r t, built p before 0x600 0x2F d r -> bit_field d 0 16 = 1 -> 2 <= bit_field d 16 16 <= 4 ->
  bit_field d 32 16 = 2 -> record_xml p r = Ok t ->
  exists name salt sa ver ve hash ha, let v := bit_field d 80 32 + 14 in
    window d (v + 4) 16 salt /\ hex_dump sa salt /\ window d (v + 20) 16 ver /\ hex_dump ve ver /\
    window d 0 (bit_field d (8 * (v + 36)) 32) hash /\ hex_dump ha hash /\
    (sizeof_wchar p = 2 -> forall u, Forall scalar u -> Forall (fun c => c < 65536) u -> 2 * lenN u + 46 = v ->
       window d 46 (2 * lenN u) (units 2 u) -> utf8 name (filter (fun c => negb (c =? 0)) u)) /\
    xml_content t [element_of "FilePass" d (crypto_xml d 304 name v sa ve ha)].
Proof. exact crypto_doc_xml. Qed.
Lemma C112_others : forall p before d r t u, built p before 0x600 0x2F d r -> 2 <= bit_field d 0 16 -> record_json p r = Ok t -> record_xml p r = Ok u ->
  json_value t (record_of "FilePass" d [jbits d "EncryptionType" 0 16]) /\
  xml_content u [element_of "FilePass" d [xbits d "EncryptionType" 0 16]].
Proof. exact other_doc. Qed.
Lemma C112_unset : forall p before d r, built p before 0x600 0x2F d r -> bit_field d 0 16 = 1 ->
  ~ (2 <= bit_field d 16 16 <= 4 /\ bit_field d 32 16 = 2) -> ~ (bit_field d 16 16 = 1 /\ bit_field d 32 16 = 1) ->
  record_json p r = UB /\ record_xml p r = UB.
Proof. exact unset_doc. Qed.

(** An encryption header with the provider "ab", two different reserved numbers and a hash of
    four bytes *)
Definition locked : bytes :=
  to_le 2 1 ++ to_le 2 2 ++ to_le 2 2 ++ to_le 4 4 ++ to_le 4 38 ++
  (to_le 4 4 ++ to_le 4 0 ++ to_le 4 0x6801 ++ to_le 4 0x8004 ++ to_le 4 128 ++ to_le 4 1 ++ to_le 4 5 ++ to_le 4 6) ++
  [x61; x00; x62; x00; x00; x00] ++
  to_le 4 16 ++ map n2b [1; 2; 3; 4; 5; 6; 7; 8; 9; 10; 11; 12; 13; 14; 15; 16] ++
  map n2b [17; 18; 19; 20; 21; 22; 23; 24; 25; 26; 27; 28; 29; 30; 31; 32] ++ to_le 4 4 ++ [xaa; xbb; xcc; xdd].
Definition locked_record : rec :=
  mkRec 0x2F locked false (FilePassCrypto 2 2 (to_wchars windows [x61; x00; x62; x00; x00; x00]) 52 [x01; x00; x02; x00]).
Lemma locked_built : built windows [] 0x600 0x2F locked locked_record.
Proof. vm_compute. reflexivity. Qed.
Lemma locked_fields : bit_field locked 0 16 = 1 /\ bit_field locked 16 16 = 2 /\ bit_field locked 32 16 = 2 /\ bit_field locked 80 32 = 38 /\
  bit_field locked (8 * (38 + 14 + 36)) 32 = 4 /\ bit_field locked 304 32 = 5 /\ bit_field locked 336 32 = 6.
Proof. vm_compute. auto 10. Qed.
Lemma locked_text : exists t, record_json windows locked_record = Ok t.
Proof.
  destruct (record_json windows locked_record) as [t|e| |] eqn:E; [eauto|exfalso..];
    assert (K : is_ok (record_json windows locked_record) = true) by (vm_compute; reflexivity); rewrite E in K; discriminate K.
Qed.
Lemma C112_hash : exists d r t v hash name sa ve ha, built windows [] 0x600 0x2F d r /\ record_json windows r = Ok t /\
  bit_field d 0 16 = 1 /\ bit_field d 16 16 = 2 /\ bit_field d 32 16 = 2 /\ v = bit_field d 80 32 + 14 /\
  window d (v + 40) (bit_field d (8 * (v + 36)) 32) hash /\
  json_value t (record_of "FilePass" d (crypto_json d 304 name v sa ve ha)) /\ ~ hex_dump ha hash.
Proof.
  destruct locked_text as [t E]. destruct locked_fields as (T & Ma & Mi & Si & Hs & _).
  destruct (crypto_doc_json windows [] locked locked_record t locked_built) as (name & s & sa & ver & ve & h & ha & K);
    [exact T|rewrite Ma; split; discriminate|exact Mi|exact E|]. cbv zeta in K. rewrite Si in K.
  destruct K as (_ & _ & _ & _ & Wh & Hh & _ & J).
  exists locked, locked_record, t, (38 + 14), [xaa; xbb; xcc; xdd], name, sa, ve, ha. rewrite Si, Hs.
  split; [exact locked_built|]. split; [exact E|]. split; [exact T|]. split; [exact Ma|]. split; [exact Mi|]. split; [reflexivity|].
  split; [apply slice_window; vm_compute; reflexivity|]. split; [exact J|]. intros K.
  pose proof (hex_dump_fun _ _ _ K Hh) as Q. rewrite Hs in Wh. apply slice_window in Wh. rewrite <- Q in Wh. vm_compute in Wh. discriminate Wh.
Qed.
Definition second_reserved (j : jval) : N :=
  match j with
  | JObj (_ :: _ :: _ :: _ :: _ :: (_, JObj [_; _; _; _; _; _; _; (_, JNum n)]) :: _) => n
  | _ => 0
  end.
Lemma C112_reserved : forall p before d r t name v sa ve ha, built p before 0x600 0x2F d r -> bit_field d 0 16 = 1 ->
  2 <= bit_field d 16 16 <= 4 -> bit_field d 32 16 = 2 -> record_json p r = Ok t -> bit_field d 304 32 <> bit_field d 336 32 ->
  ~ json_value t (record_of "FilePass" d (crypto_json d 336 name v sa ve ha)).
Proof.
  intros p before d r t name v sa ve ha H T Ma Mi E Ne J.
  destruct (crypto_doc_json p before d r t H T Ma Mi E) as (name' & s' & sa' & ver' & ve' & h' & ha' & K).
  cbv zeta in K. destruct K as (_ & _ & _ & _ & _ & _ & _ & K). pose proof (json_value_fun _ _ _ J K) as Q.
  apply (f_equal second_reserved) in Q. apply Ne. symmetry. exact Q.
Qed.
Lemma C112_reserved_sample : exists d r t, built windows [] 0x600 0x2F d r /\ bit_field d 0 16 = 1 /\ bit_field d 16 16 = 2 /\
  bit_field d 32 16 = 2 /\ record_json windows r = Ok t /\ bit_field d 304 32 = 5 /\ bit_field d 336 32 = 6.
Proof.
  destruct locked_text as [t E]. destruct locked_fields as (T & Ma & Mi & Si & Hs & R1 & R2).
  exists locked, locked_record, t. split; [exact locked_built|]. auto 10.
Qed.
Lemma C112_ex : exists r, built linux64 [] 0x600 0x2F (to_le 2 0 ++ to_le 2 0x1234 ++ to_le 2 0xABCD) r /\
  record_json linux64 r = Ok (B "{""Type"":""FilePass"",""Length"":6,""EncryptionType"":""XOR"",""XorKey"": 4660,""XorVerification"":43981}").
Proof. eexists. split; [vm_compute; reflexivity|]. vm_compute. reflexivity. Qed.

(** ** C113 *)
Lemma C113_country : forall p before d r t u a b, built p before 0x600 0x8C d r -> record_json p r = Ok t -> record_xml p r = Ok u ->
  code_name countries (bit_field d 0 16) a -> code_name countries (bit_field d 16 16) b ->
  json_value t (record_of "Country" d
    [jmem "WorkbookLocale" (JObj [jbits d "Code" 0 16; jfield (B "Name") (B a)]);
     jmem "OSLocale" (JObj [jbits d "Code" 16 16; jfield (B "Name") (B b)])]) /\
  xml_content u [element_of "Country" d
    [xel "WorkbookLocale" [xbits d "Code" 0 16; xfield (B "Name") (B a)];
     xel "OSLocale" [xbits d "Code" 16 16; xfield (B "Name") (B b)]]].
Proof.
  intros p before d r t u a b H E X Ha Hb. destruct (country_doc p before d r t u H E X) as (a' & b' & Ea & Eb & J & K).
  rewrite (country_code _ _ Ha) in Ea. rewrite (country_code _ _ Hb) in Eb. subst a' b'. split; assumption.
Qed.
Lemma C113_one_name : forall l c s t, In l [countries; substreams] -> code_name l c s -> code_name l c t -> s = t.
Proof.
  intros l c s t I Hs Ht.
  assert (D : NoDup (map fst l)).
  { apply distinct_nodup. destruct I as [<-|[<-|[]]]; vm_compute; reflexivity. }
  apply B_inj. rewrite <- (named_code l c s D Hs). apply (named_code l c t D Ht).
Qed.
Lemma C113_substream : forall p before d r l s, built p before 0x600 0x809 d r -> fields p r = Ok l -> code_name substreams (bit_field d 16 16) s ->
  forall v, In (fld "DocumentTypeStr" v) l <-> v = Str (B s).
Proof.
  intros p before d r l s H E Hs v. destruct (built_body p before _ d r H) as (b & Hb & ->).
  assert (b = BOF) as -> by (change (Ok BOF = Ok b) in Hb; congruence).
  cbn [fields r_body] in E. unfold over in E. cbn [r_moved r_data] in E.
  unfold bof_fields in E. steps E. injection E as <-. apply load_val in E1. change (8 * 2) with 16 in E1. subst x0.
  rewrite (substream_code _ _ Hs). clear. cbn [In]. split.
  - intros H. repeat (destruct H as [H|H]; [first [injection H as H; discriminate H | injection H as <-; reflexivity]|]). destruct H.
  - intros ->. do 2 right. left. reflexivity.
Qed.
Lemma C113_page : forall p before d r l s, built p before 0x600 0x42 d r -> fields p r = Ok l -> In (bit_field d 0 16, s) windows_pages ->
  l = [fld "CodePage" (Num (bit_field d 0 16)); fld "CodePageStr" (Esc (B s))].
Proof.
  intros p before d r l s H E Hs. destruct (built_body p before _ d r H) as (b & Hb & ->). change (CodePageRecord d = Ok b) in Hb.
  unfold CodePageRecord in Hb. steps Hb. injection Hb as <-. apply us_val in E0; [|reflexivity]. change (8 * 0) with 0 in E0. subst x.
  cbn [fields r_body] in E. injection E as <-. rewrite (page_code _ _ Hs). reflexivity.
Qed.
Lemma C113_ex : code_name countries 49 "Germany" /\ code_name countries 50 "Unknown" /\ code_name substreams 16 "Sheet" /\
  (exists r, built linux64 [] 0x600 0x8C (to_le 2 49 ++ to_le 2 50) r /\
    record_json linux64 r = Ok (B "{""Type"":""Country"",""Length"":4,""WorkbookLocale"" : { ""Code"":49, ""Name"": ""Germany""},""OSLocale"" : { ""Code"":50, ""Name"": ""Unknown""}}")) /\
  exists r, built linux64 [] 0x600 0x42 (to_le 2 1252) r /\
    fields linux64 r = Ok [fld "CodePage" (Num 1252); fld "CodePageStr" (Esc (B "ANSI Latin 1; Western European (Windows)"))].
Proof.
  assert (M : forall l c, forallb (fun x => negb (fst x =? c)) l = true -> code_name l c "Unknown").
  { intros l c H. right. split; [|reflexivity]. intros t I. rewrite forallb_forall in H. specialize (H _ I). cbn [fst] in H. lia. }
  split; [left; vm_compute; auto 60|]. split; [apply M; vm_compute; reflexivity|]. split; [left; vm_compute; auto 10|].
  split; eexists; (split; [vm_compute; reflexivity|]); vm_compute; reflexivity.
Qed.

(** ** C114 *)
Lemma C114_path : forall p before d r l, built p before 0x600 0x1AE d r -> fields p r = Ok l -> 1 <= bit_field d 16 16 <= 255 -> 4 < lenN d ->
  exists w, window d 4 (bit_field d 16 16) w /\
    l = [fld "ctab" (Num (bit_field d 0 16)); fld "cch" (Num (bit_field d 16 16)); fld "virtPath" (Str w)].
Proof. exact sup_path. Qed.
Lemma C114_no_path : forall p before d r l v, built p before 0x600 0x1AE d r -> fields p r = Ok l ->
  In (fld "virtPath" v) l -> 1 <= bit_field d 16 16 <= 255 /\ 4 < lenN d.
Proof. exact sup_no_path. Qed.
Lemma C114_link : forall p before sheets path names r l, sheets < 2 ^ 16 -> 1 <= lenN path <= 255 ->
  built p before 0x600 0x1AE (link_data sheets path names) r -> fields p r = Ok l ->
  l = [fld "ctab" (Num sheets); fld "cch" (Num (lenN path)); fld "virtPath" (Str (x00 :: removelast path))].
Proof. exact link_shown. Qed.
Lemma C114_wrong : forall p before sheets path names r, sheets < 2 ^ 16 -> 1 <= lenN path <= 255 -> ~ In x00 path ->
  built p before 0x600 0x1AE (link_data sheets path names) r -> ~ shows p r "virtPath" (Str path) /\ forall v, ~ shows p r "rgst" v.
Proof.
  intros p before sheets path names r Hs Hp Hn H. split.
  - intros (l & E & I). rewrite (link_shown p before sheets path names r l Hs Hp H E) in I.
    destruct I as [I|[I|[I|[]]]]; [injection I as I; discriminate I..|]. injection I as I. apply Hn. rewrite <- I. left. reflexivity.
  - intros v (l & E & I). rewrite (link_shown p before sheets path names r l Hs Hp H E) in I.
    destruct I as [I|[I|[I|[]]]]; injection I as I; discriminate I.
Qed.
Lemma C114_link_ex : exists r, built linux64 [] 0x600 0x1AE (link_data 1 (B "b.xls") (to_le 2 2 ++ x00 :: B "S1")) r /\
  fields linux64 r = Ok [fld "ctab" (Num 1); fld "cch" (Num 5); fld "virtPath" (Str (x00 :: B "b.xl"))].
Proof. eexists. split; [vm_compute; reflexivity|]. vm_compute. reflexivity. Qed.
Lemma C114_function : forall p before0 ds rs before flags reserved high name more r l,
  flags < 2 ^ 16 -> reserved < 2 ^ 32 -> high < 128 -> lenN name < 256 ->
  built p before0 0x600 0x1AE ds rs -> bit_field ds 16 16 = 0x3A01 -> last_of_type 0x1AE before rs ->
  built p before 0x600 0x23 (add_in_data flags reserved high name more) r -> fields p r = Ok l ->
  forall v, In (fld "addinUdf" v) l <-> v = Str name.
Proof. exact add_in. Qed.
Lemma C114_no_function : forall p before0 ds rs before d r l v, built p before0 0x600 0x1AE ds rs -> bit_field ds 16 16 <> 0x3A01 ->
  last_of_type 0x1AE before rs -> built p before 0x600 0x23 d r -> fields p r = Ok l -> ~ In (fld "addinUdf" v) l.
Proof. exact no_add_in. Qed.
Lemma C114_no_link : forall p before d r l v, Forall (fun x => r_type x <> 0x1AE) before ->
  built p before 0x600 0x23 d r -> fields p r = Ok l -> ~ In (fld "addinUdf" v) l.
Proof. exact no_link. Qed.
Lemma C114_function_ex : exists rs r l, built linux64 [] 0x600 0x1AE (to_le 2 1 ++ to_le 2 0x3A01) rs /\
  bit_field (to_le 2 1 ++ to_le 2 0x3A01) 16 16 = 0x3A01 /\ last_of_type 0x1AE [rs] rs /\
  built linux64 [rs] 0x600 0x23 (add_in_data 0 0 0 (B "EDATE") [x02; x00; x1c; x17]) r /\ fields linux64 r = Ok l /\
  In (fld "addinUdf" (Str (B "EDATE"))) l.
Proof.
  eexists (mkRec 0x1AE (to_le 2 1 ++ to_le 2 0x3A01) false (SupBook 0x3A01 [] [fld "ctab" (Num 1); fld "cch" (Num 0x3A01)])).
  eexists (mkRec 0x23 (add_in_data 0 0 0 (B "EDATE") [x02; x00; x1c; x17]) false (ExternName (Some (B "EDATE")))).
  eexists. split; [vm_compute; reflexivity|]. split; [vm_compute; reflexivity|]. split; [exists [], []; repeat split; constructor|].
  split; [vm_compute; reflexivity|]. split; [vm_compute; reflexivity|]. do 7 right. left. reflexivity.
Qed.

(** ** C115 *)
Lemma C115_blanks : forall p before row first formats, row < 2 ^ 16 -> formats <> [] -> first + lenN formats <= 2 ^ 16 ->
  Forall (fun x => x < 2 ^ 16) formats ->
  exists r a b t u, built p before 0x600 0xBE (blank_data row first formats) r /\
    fields p r = Ok [fld "rw" (Num row); fld "colFirst" (Str a); fld "colLast" (Str b); fld "rgixfe" (Raw t u)] /\
    column first a /\ column (first + lenN formats - 1) b /\ json_value t (JArr (map JNum formats)) /\ xml_content u (map (xnum "ixfe") formats).
Proof. exact blank_row. Qed.
Lemma C115_colours : forall p before d r l, built p before 0x600 0x100A d r -> fields p r = Ok l ->
  exists tf uf tb ub, In (fld "rgbFore" (Raw tf uf)) l /\ In (fld "rgbBack" (Raw tb ub)) l /\
    json_value tf (JObj [jbits d "red" 0 8; jbits d "green" 8 8; jbits d "blue" 16 8; jbits d "reserved" 24 8]) /\
    xml_content uf [xel "LongRGB" [xbits d "red" 0 8; xbits d "green" 8 8; xbits d "blue" 16 8; xbits d "reserved" 24 8]] /\
    json_value tb (JObj [jbits d "red" 32 8; jbits d "green" 40 8; jbits d "blue" 48 8; jbits d "reserved" 56 8]) /\
    xml_content ub [xel "LongRGB" [xbits d "red" 32 8; xbits d "green" 40 8; xbits d "blue" 48 8; xbits d "reserved" 56 8]].
Proof. exact area_colours. Qed.
Lemma C115_counts : forall p before d r l, built p before 0x600 0xFC d r -> fields p r = Ok l ->
  exists a b, (forall v, In (fld "cstTotal" v) l <-> v = Int a) /\ (forall v, In (fld "cstUnique" v) l <-> v = Int b) /\
    (- 2 ^ 31 <= a < 2 ^ 31 /\ a mod 2 ^ 32 = Z.of_N (bit_field d 0 32))%Z /\ (- 2 ^ 31 <= b < 2 ^ 31 /\ b mod 2 ^ 32 = Z.of_N (bit_field d 32 32))%Z.
Proof. exact string_counts. Qed.
Lemma C115_ex : (exists r, built linux64 [] 0x600 0xBE (blank_data 4 2 [15; 16; 17]) r /\
    record_json linux64 r = Ok (B "{""Type"":""MulBlank"",""Length"":12,""rw"":4,""colFirst"":""B"",""colLast"":""D"",""rgixfe"":[15,16,17]}")) /\
  (exists r, built linux64 [] 0x600 0x100A (map n2b [1; 2; 3; 0; 4; 5; 6; 0; 1; 0; 1; 0; 8; 0; 9; 0]) r /\
    record_xml linux64 r = Ok (B "<Record><Type>AreaFormat</Type><Length>16</Length><rgbFore><LongRGB><red>1</red><green>2</green><blue>3</blue><reserved>0</reserved></LongRGB></rgbFore><rgbBack><LongRGB><red>4</red><green>5</green><blue>6</blue><reserved>0</reserved></LongRGB></rgbBack><fls>256</fls><A>1</A><B>0</B><reserved>1</reserved><ivcFore>2048</ivcFore><ivcBack>2304</ivcBack></Record>")) /\
  exists r, built linux64 [] 0x600 0xFC (to_le 4 7 ++ to_le 4 0) r /\
    fields linux64 r = Ok [fld "cstTotal" (Int 7); fld "cstUnique" (Int 0)].
Proof. repeat split; eexists; (split; [vm_compute; reflexivity|]); vm_compute; reflexivity. Qed.
