(** Encryption and locale records. *)
From Coq Require Import List NArith ZArith Bool Lia Strings.String Strings.Byte.
From Coq Require Import ZifyBool ZifyNat ZifyN.
From Verif Require Import Lib.Res Lib.Bytes Lib.BytesFacts Lib.Text Common.Model Common.Spec Common.ReadProofs Common.EscapeProofs Common.Utf8 Common.Utf8Proofs
     Excel.Number Excel.Model Excel.Records Excel.Engine Excel.Statements Excel.FineProofs Excel.DocStatements Excel.DocProofs
     Excel.DocXml Excel.FieldSpec Excel.FieldStatements Excel.FieldProofs Vba.Statements Magic.Spec.
Import ListNotations.
Local Open Scope N_scope.
Ltac Zify.zify_post_hook ::= Z.div_mod_to_equations.
Arguments N.pow : simpl never.
Arguments N.mul : simpl never.
Arguments N.add : simpl never.
Arguments N.div : simpl never.
Arguments N.modulo : simpl never.

Definition quiet_record (r : rec) : Prop := raw_texts r = [].
Lemma record_text p before t d r j : built p before 0x600 t d r -> quiet_record r -> record_json p r = Ok j ->
  exists v, record_doc p r v /\ json_value j v.
Proof.
  intros H Q E. apply record_json_ok; [|rewrite Q; constructor|exact E].
  unfold built, ParseRecord in H. destruct (record_body p before 0x600 t d) as [b|[]| |] eqn:Eb; try discriminate H.
  injection H as <-. unfold fine_rec. cbn [r_type r_body]. eapply body_fine, Eb.
Qed.
Lemma record_markup p before t d r j : built p before 0x600 t d r -> quiet_record r -> record_xml p r = Ok j ->
  exists v, record_element p r v /\ xml_content j [v].
Proof.
  intros H Q E. destruct (record_xml_ok p r j) as (e & D & X); [|rewrite Q; constructor|exact E|].
  - unfold built, ParseRecord in H. destruct (record_body p before 0x600 t d) as [b|[]| |] eqn:Eb; try discriminate H.
    injection H as <-. unfold fine_rec. cbn [r_type r_body]. eapply body_fine, Eb.
  - exists e. split; [exact D|]. rewrite <- (app_nil_r j). apply X. constructor.
Qed.

(** ** What the record keeps *)
Lemma built_body p before t d r : built p before 0x600 t d r -> exists b, biff8 p before t d = Ok b /\ r = mkRec t d false b.
Proof.
  intros H. unfold built, ParseRecord in H. change (record_body p before 0x600 t d) with (biff8 p before t d) in H.
  destruct (biff8 p before t d) as [b|[]| |] eqn:Eb; try discriminate H. injection H as <-. exists b. auto.
Qed.
Lemma pass_body p before d r : built p before 0x600 0x2F d r ->
  exists b, FilePassRecord p d = Ok b /\ r = mkRec 0x2F d false b.
Proof. exact (built_body p before 0x2F d r). Qed.

Lemma xor_body p d b : FilePassRecord p d = Ok b -> bit_field d 0 16 = 0 -> b = FilePassXor (bit_field d 16 16) (bit_field d 32 16).
Proof.
  intros H T. unfold FilePassRecord in H. cbv zeta in H. steps H. apply us_val in E; [|reflexivity].
  change (8 * 0) with 0 in E. rewrite T in E. subst x. cbn [N.eqb] in H. steps H. injection H as <-.
  apply us_val in E, E0; try reflexivity. subst. reflexivity.
Qed.
Lemma rc4_body p d b : FilePassRecord p d = Ok b -> bit_field d 0 16 = 1 -> bit_field d 16 16 = 1 -> bit_field d 32 16 = 1 ->
  exists s v h, window d 6 16 s /\ window d 22 16 v /\ window d 38 16 h /\ b = FilePassRC4 1 1 s v h.
Proof.
  intros H T Ma Mi. unfold FilePassRecord in H. cbv zeta in H. steps H. apply us_val in E; [|reflexivity].
  change (8 * 0) with 0 in E. rewrite T in E. subst x. cbn [N.eqb Pos.eqb] in H. steps H.
  apply us_val in E, E0; try reflexivity. change (8 * 2) with 16 in E. change (8 * 4) with 32 in E0. rewrite Ma in E. rewrite Mi in E0. subst.
  cbn [N.eqb Pos.eqb orb andb] in H. steps H. injection H as <-. apply slice_window in E, E0, E1. eauto 8.
Qed.
Lemma crypto_body p d b : FilePassRecord p d = Ok b -> bit_field d 0 16 = 1 -> 2 <= bit_field d 16 16 <= 4 -> bit_field d 32 16 = 2 ->
  exists csp h, let v := bit_field d 80 32 + 14 in
    32 <= bit_field d 80 32 /\ slice d 46 (bit_field d 80 32 - 32) = Ok csp /\
    window d 0 (bit_field d (8 * (v + 36)) 32) h /\
    b = FilePassCrypto (bit_field d 16 16) 2 (to_wchars p csp) v h.
Proof.
  intros H T Ma Mi. unfold FilePassRecord in H. cbv zeta in H. steps H. apply us_val in E; [|reflexivity].
  change (8 * 0) with 0 in E. rewrite T in E. subst x. cbn [N.eqb Pos.eqb] in H. steps H.
  apply us_val in E, E0; try reflexivity. change (8 * 2) with 16 in E. change (8 * 4) with 32 in E0. rewrite Mi in E0.
  subst x0. subst x.
  assert (G : ((bit_field d 16 16 =? 2) || (bit_field d 16 16 =? 3) || (bit_field d 16 16 =? 4)) = true) by lia.
  rewrite G in H. cbn [N.eqb Pos.eqb andb] in H. steps H. injection H as <-.
  apply ui_val in E; [|reflexivity]. change (8 * 10) with 80 in E. subst x.
  assert (Z : bit_field d 80 32 < 2 ^ 32) by (apply N.mod_lt; discriminate).
  unfold ReadWString in E0. destruct (_ <? u32 _) eqn:L1; [discriminate E0|].
  destruct (46 + subw 32 (bit_field d 80 32) 32 <? 2 ^ 32) eqn:L2; [|discriminate E0]. steps E0. injection E0 as <-.
  assert (W : 32 <= bit_field d 80 32 /\ subw 32 (bit_field d 80 32) 32 = bit_field d 80 32 - 32).
  { unfold subw in *. change (2 ^ 32) with 4294967296 in *. lia. }
  destruct W as [W1 W2]. rewrite W2 in *. exists x, x2.
  assert (V : u32 (46 + (bit_field d 80 32 - 32)) = bit_field d 80 32 + 14).
  { rewrite u32_small; change (2 ^ 32) with 4294967296 in *; lia. }
  rewrite V in *. split; [exact W1|]. split; [exact E|]. apply load_val in E1. change (8 * 4) with 32 in E1. subst x1.
  split; [apply slice_window, E2|reflexivity].
Qed.
Lemma unset_body p d b : FilePassRecord p d = Ok b -> bit_field d 0 16 = 1 ->
  ~ (2 <= bit_field d 16 16 <= 4 /\ bit_field d 32 16 = 2) -> ~ (bit_field d 16 16 = 1 /\ bit_field d 32 16 = 1) -> b = FilePassUnset.
Proof.
  intros H T N1 N2. unfold FilePassRecord in H. cbv zeta in H. steps H. apply us_val in E; [|reflexivity].
  change (8 * 0) with 0 in E. rewrite T in E. subst x. cbn [N.eqb Pos.eqb] in H. steps H.
  apply us_val in E, E0; try reflexivity. change (8 * 2) with 16 in E. change (8 * 4) with 32 in E0. subst x x0.
  destruct (((bit_field d 16 16 =? 2) || (bit_field d 16 16 =? 3) || (bit_field d 16 16 =? 4)) && (bit_field d 32 16 =? 2)) eqn:G; [lia|].
  destruct ((bit_field d 16 16 =? 1) && (bit_field d 32 16 =? 1)) eqn:G2; [lia|]. injection H as <-. reflexivity.
Qed.
Lemma other_body p d b : FilePassRecord p d = Ok b -> 2 <= bit_field d 0 16 -> b = FilePassOther (bit_field d 0 16).
Proof.
  intros H T. unfold FilePassRecord in H. cbv zeta in H. steps H. apply us_val in E; [|reflexivity].
  change (8 * 0) with 0 in E. subst x. destruct (N.eqb_spec (bit_field d 0 16) 0); [lia|].
  destruct (N.eqb_spec (bit_field d 0 16) 1); [lia|]. injection H as <-. reflexivity.
Qed.

(** ** Documents *)
Lemma provider p d (csp : bytes) name u : sizeof_wchar p = 2 -> Forall scalar u -> Forall (fun c => c < 65536) u ->
  slice d 46 (2 * lenN u) = Ok csp -> window d 46 (2 * lenN u) (units 2 u) -> convert (to_wchars p csp) = Ok name ->
  utf8 (erasenulls name) (filter (fun c => negb (c =? 0)) u).
Proof.
  intros W Sc Hu S Hw C. apply slice_window in S. rewrite (window_fun _ _ _ _ _ S Hw) in C.
  pose proof (to_wchars_units p u) as T. rewrite W in T. change (N.to_nat 2) with 2%nat in T.
  rewrite T in C; [|lia|exact Hu]. apply convert_nonzero in C. eapply convert_utf8; [exact C|].
  apply Forall_forall. intros c Hc. apply filter_In in Hc. rewrite Forall_forall in Sc. apply Sc, Hc.
Qed.
Lemma flags_json d pos : flag_members (bit_field d pos 32) = header_flags (jbits d) pos.
Proof. unfold flag_members, header_flags, jbits. rewrite !field_bits by (cbv; discriminate). rewrite N.add_0_r. reflexivity. Qed.
Lemma flags_xml d pos : flag_nodes (bit_field d pos 32) = header_flags (xbits d) pos.
Proof. unfold flag_nodes, header_flags, xbits. rewrite !field_bits by (cbv; discriminate). rewrite N.add_0_r. reflexivity. Qed.

Ltac take_apart D :=
  destruct D as (f & f2 & size & alg & hash & ks & prov & r1 & name & vsize & salt & ver & vhash & S1 & S2 & S3 & S4 & S5 & S6 & S7 & S8 &
                 Cn & S9 & Sa & Sv & Sh & ->);
  unfold stored in *; cbn [r_data] in *; apply load_val in S1, S2, S3, S4, S5, S6, S7, S8, S9, Sh;
  change (8 * 6) with 48 in *; change (8 * 4) with 32 in *; change (8 * 14) with 112 in *; change (8 * 18) with 144 in *;
  change (8 * 22) with 176 in *; change (8 * 26) with 208 in *; change (8 * 30) with 240 in *; change (8 * 34) with 272 in *;
  change (8 * 38) with 304 in *; subst f f2 size alg hash ks prov r1 vsize vhash; apply slice_window in Sa, Sv.

Lemma crypto_doc_json p before d r t : built p before 0x600 0x2F d r -> bit_field d 0 16 = 1 -> 2 <= bit_field d 16 16 <= 4 ->
  bit_field d 32 16 = 2 -> record_json p r = Ok t ->
  exists name salt sa ver ve hash ha, let v := bit_field d 80 32 + 14 in
    window d (v + 4) 16 salt /\ hex_dump sa salt /\ window d (v + 20) 16 ver /\ hex_dump ve ver /\
    window d 0 (bit_field d (8 * (v + 36)) 32) hash /\ hex_dump ha hash /\
    (sizeof_wchar p = 2 -> forall u, Forall scalar u -> Forall (fun c => c < 65536) u -> 2 * lenN u + 46 = v ->
       window d 46 (2 * lenN u) (units 2 u) -> utf8 name (filter (fun c => negb (c =? 0)) u)) /\
    json_value t (record_of "FilePass" d (crypto_json d 304 name v sa ve ha)).
Proof.
  intros H T Ma Mi E. destruct (pass_body p before d r H) as (b & Hb & Er).
  destruct (crypto_body p d b Hb T Ma Mi) as (csp & h & W1 & W2 & W3 & ->).
  destruct (record_text p before _ d r t H ltac:(rewrite Er; reflexivity) E) as (j & (ms & D & ->) & J). subst r.
  cbn [record_members r_body] in D. take_apart D.
  exists (erasenulls name), salt, (bin2hex11 salt), ver, (bin2hex11 ver), h, (bin2hex11 h). cbv zeta.
  repeat (split; [first [assumption | apply bin2hex11_dump]|]). rewrite !flags_json in J. split.
  { intros Wp u Sc Hu Lu Hw. eapply provider; try eassumption. rewrite <- W2. f_equal. lia. }
  unfold record_of, crypto_json, rc4_start_json, header_numbers. unfold rc4_members in J.
  replace (jbits d "Minor" 32 16) with (jmem "Minor" (JNum 2)) by (unfold jbits; rewrite Mi; reflexivity). exact J.
Qed.
Lemma crypto_doc_xml p before d r t : built p before 0x600 0x2F d r -> bit_field d 0 16 = 1 -> 2 <= bit_field d 16 16 <= 4 ->
  bit_field d 32 16 = 2 -> record_xml p r = Ok t ->
  exists name salt sa ver ve hash ha, let v := bit_field d 80 32 + 14 in
    window d (v + 4) 16 salt /\ hex_dump sa salt /\ window d (v + 20) 16 ver /\ hex_dump ve ver /\
    window d 0 (bit_field d (8 * (v + 36)) 32) hash /\ hex_dump ha hash /\
    (sizeof_wchar p = 2 -> forall u, Forall scalar u -> Forall (fun c => c < 65536) u -> 2 * lenN u + 46 = v ->
       window d 46 (2 * lenN u) (units 2 u) -> utf8 name (filter (fun c => negb (c =? 0)) u)) /\
    xml_content t [element_of "FilePass" d (crypto_xml d 304 name v sa ve ha)].
Proof.
  intros H T Ma Mi E. destruct (pass_body p before d r H) as (b & Hb & Er).
  destruct (crypto_body p d b Hb T Ma Mi) as (csp & h & W1 & W2 & W3 & ->).
  destruct (record_markup p before _ d r t H ltac:(rewrite Er; reflexivity) E) as (j & (ms & D & ->) & J). subst r.
  cbn [record_elements r_body] in D. take_apart D.
  exists (erasenulls name), salt, (bin2hex11 salt), ver, (bin2hex11 ver), h, (bin2hex11 h). cbv zeta.
  repeat (split; [first [assumption | apply bin2hex11_dump]|]). rewrite !flags_xml in J. split.
  { intros Wp u Sc Hu Lu Hw. eapply provider; try eassumption. rewrite <- W2. f_equal. lia. }
  unfold element_of, crypto_xml, rc4_start_xml, header_numbers. unfold rc4_nodes in J.
  replace (xbits d "Minor" 32 16) with (xnum "Minor" 2) by (unfold xbits; rewrite Mi; reflexivity). exact J.
Qed.

Lemma rc4_doc p before d r t u : built p before 0x600 0x2F d r -> bit_field d 0 16 = 1 -> bit_field d 16 16 = 1 -> bit_field d 32 16 = 1 ->
  record_json p r = Ok t -> record_xml p r = Ok u ->
  exists s sa v ve h ha, window d 6 16 s /\ hex_dump sa s /\ window d 22 16 v /\ hex_dump ve v /\ window d 38 16 h /\ hex_dump ha h /\
    json_value t (record_of "FilePass" d (rc4_start_json d ++
      [jfield (B "Salt") sa; jfield (B "EncryptedVerifier") ve; jfield (B "EncryptedVerifierHash") ha])) /\
    xml_content u [element_of "FilePass" d (rc4_start_xml d ++
      [xfield (B "Salt") sa; xfield (B "EncryptedVerifier") ve; xfield (B "EncryptedVerifierHash") ha])].
Proof.
  intros H T Ma Mi E X. destruct (pass_body p before d r H) as (b & Hb & Er).
  destruct (rc4_body p d b Hb T Ma Mi) as (s & v & h & W1 & W2 & W3 & ->).
  destruct (record_text p before _ d r t H ltac:(rewrite Er; reflexivity) E) as (j & (ms & D & ->) & J).
  destruct (record_markup p before _ d r u H ltac:(rewrite Er; reflexivity) X) as (k & (es & De & ->) & K). subst r.
  cbn [record_members record_elements r_body] in D, De. subst ms es.
  exists s, (bin2hex11 s), v, (bin2hex11 v), h, (bin2hex11 h).
  repeat (split; [first [assumption | apply bin2hex11_dump]|]).
  unfold record_of, element_of, rc4_start_json, rc4_start_xml, jbits, xbits. rewrite Ma, Mi. split; [exact J|exact K].
Qed.
Lemma xor_doc p before d r t u : built p before 0x600 0x2F d r -> bit_field d 0 16 = 0 -> record_json p r = Ok t -> record_xml p r = Ok u ->
  json_value t (record_of "FilePass" d [jfield (B "EncryptionType") (B "XOR"); jbits d "XorKey" 16 16; jbits d "XorVerification" 32 16]) /\
  xml_content u [element_of "FilePass" d [xfield (B "EncryptionType") (B "XOR"); xbits d "XorKey" 16 16; xbits d "XorVerification" 32 16]].
Proof.
  intros H T E X. destruct (pass_body p before d r H) as (b & Hb & Er).
  pose proof (xor_body p d b Hb T). subst b.
  destruct (record_text p before _ d r t H ltac:(rewrite Er; reflexivity) E) as (j & (ms & D & ->) & J).
  destruct (record_markup p before _ d r u H ltac:(rewrite Er; reflexivity) X) as (k & (es & De & ->) & K). subst r.
  cbn [record_members record_elements r_body] in D, De. subst ms es. split; [exact J|exact K].
Qed.
Lemma other_doc p before d r t u : built p before 0x600 0x2F d r -> 2 <= bit_field d 0 16 -> record_json p r = Ok t -> record_xml p r = Ok u ->
  json_value t (record_of "FilePass" d [jbits d "EncryptionType" 0 16]) /\
  xml_content u [element_of "FilePass" d [xbits d "EncryptionType" 0 16]].
Proof.
  intros H T E X. destruct (pass_body p before d r H) as (b & Hb & Er).
  pose proof (other_body p d b Hb T). subst b.
  destruct (record_text p before _ d r t H ltac:(rewrite Er; reflexivity) E) as (j & (ms & D & ->) & J).
  destruct (record_markup p before _ d r u H ltac:(rewrite Er; reflexivity) X) as (k & (es & De & ->) & K). subst r.
  cbn [record_members record_elements r_body] in D, De. subst ms es. split; [exact J|exact K].
Qed.
Lemma unset_doc p before d r : built p before 0x600 0x2F d r -> bit_field d 0 16 = 1 ->
  ~ (2 <= bit_field d 16 16 <= 4 /\ bit_field d 32 16 = 2) -> ~ (bit_field d 16 16 = 1 /\ bit_field d 32 16 = 1) ->
  record_json p r = UB /\ record_xml p r = UB.
Proof.
  intros H T N1 N2. destruct (pass_body p before d r H) as (b & Hb & ->).
  rewrite (unset_body p d b Hb T N1 N2). split; reflexivity.
Qed.

(** ** Locales *)
Lemma country_doc p before d r t u : built p before 0x600 0x8C d r -> record_json p r = Ok t -> record_xml p r = Ok u ->
  exists a b, a = GetCountryName (bit_field d 0 16) /\ b = GetCountryName (bit_field d 16 16) /\
  json_value t (record_of "Country" d
    [jmem "WorkbookLocale" (JObj [jbits d "Code" 0 16; jfield (B "Name") a]); jmem "OSLocale" (JObj [jbits d "Code" 16 16; jfield (B "Name") b])]) /\
  xml_content u [element_of "Country" d
    [xel "WorkbookLocale" [xbits d "Code" 0 16; xfield (B "Name") a]; xel "OSLocale" [xbits d "Code" 16 16; xfield (B "Name") b]]].
Proof.
  intros H E X. destruct (built_body p before _ d r H) as (b & Hb & Er). change (CountryRecord d = Ok b) in Hb.
  unfold CountryRecord in Hb. steps Hb. injection Hb as <-. apply us_val in E0, E1; try reflexivity.
  change (8 * 0) with 0 in E0. change (8 * 2) with 16 in E1. subst x x0.
  destruct (record_text p before _ d r t H ltac:(rewrite Er; reflexivity) E) as (j & (ms & D & ->) & J).
  destruct (record_markup p before _ d r u H ltac:(rewrite Er; reflexivity) X) as (k & (es & De & ->) & K). subst r.
  cbn [record_members record_elements r_body] in D, De. subst ms es. do 2 eexists. split; [reflexivity|]. split; [reflexivity|].
  split; [exact J|exact K].
Qed.
