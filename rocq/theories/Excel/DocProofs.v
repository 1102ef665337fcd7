(** The documents for workbooks. *)
From Coq Require Import List NArith ZArith Bool Lia Strings.String Strings.Byte.
From Coq Require Import ZifyBool ZifyNat ZifyN.
From Verif Require Import Lib.Res Lib.Bytes Lib.BytesFacts Lib.Text Lib.NumSpec Lib.NumFacts Common.Model Common.Spec Common.ReadProofs
     Common.EscapeProofs Excel.Number Excel.NumberProofs Excel.Tables Excel.Model Excel.Records Excel.Engine Excel.Statements Excel.EngineProofs
     Magic.Spec Magic.DocProofs Magic.DocBase Asf.Model Asf.DocProofs Vba.Statements Vba.OutputProofs Propset.DocProofs Excel.DocStatements Excel.FineProofs.
From Verif Require Propset.Statements.
Import ListNotations.
Local Open Scope N_scope.
Ltac Zify.zify_post_hook ::= Z.div_mod_to_equations.
Arguments N.pow : simpl never.
Arguments N.mul : simpl never.
Arguments N.add : simpl never.

Lemma rk_fine x : fine (Bare (rk_value x)).
Proof.
  assert (D : forall n, fine (Bare (dec n))).
  { intros n. split; [eexists; apply jv_num, dec_number|apply plain_literal, plain_dec]. }
  unfold rk_value. destruct (_ =? _); [destruct (_ =? _); apply D|].
  assert (K : bits x 2 30 < 2 ^ 30) by (apply N.mod_lt; discriminate).
  destruct (general_single _ K) as (m & e & v & _ & J & a & y & I & _). split; [eexists; exact J|].
  eapply json_number_plain; [exact J|exact I].
Qed.

(** ** All fields of a record *)
Section All.
Variables (P : value -> Prop) (L : bytes -> Prop).
Hypothesis Pfine : forall v, fine v -> P v.
Hypothesis Plit : forall s, L s -> P (Str s).
Hypothesis Pstrings : forall l, l <> [] -> Forall L l -> P (Raw (B "[" ++ vector_join l (B ",") true ++ B "]")
                                                      (List.concat (map (fun s => B "<string>" ++ s ++ B "</string>") l))).
Definition good (f : field) : Prop := names f /\ P (snd f).
Lemma fine_good l : Forall fine_field l -> Forall good l.
Proof. apply Forall_impl. intros f [N F]. split; [exact N|apply Pfine; exact F]. Qed.
Lemma fields_all p r l : fine_rec r -> Forall L (raw_texts r) -> fields p r = Ok l -> Forall good l.
Proof.
  destruct r as [t d m b]. unfold fine_rec, raw_texts, fields, over. cbn [r_type r_data r_moved r_body]. destruct b; cbn [fine_body]; intros F R H;
    try (injection H as <-; constructor).
  - injection H as <-. unfold raw_type in F. destruct (_ || _) eqn:E in F; [|apply fine_good; exact F].
    destruct F as [->|(n & s & -> & N)]; [constructor|]. rewrite E in R. cbn in R. inversion R; subst. constructor; [split; [exact N|apply Plit; assumption]|constructor].
  - destruct m; [discriminate|]. unfold lbl_fields in H. opened H. injection H as <-. apply fine_good. named_fields. cbn [snd fine]. split; eexists.
    + apply (jv_obj0 []). apply ws_nil.
    + constructor.
  - destruct m; [discriminate|]. unfold extern_fields in H. opened H. injection H as <-. cbn [app].
    repeat (constructor; [split; [split; reflexivity|apply Pfine; exact I]|]). destruct udf as [s|]; [|constructor]. inversion R; subst. constructor; [split; [split; reflexivity|apply Plit; assumption]|constructor].
  - destruct m; [discriminate|]. unfold bof_fields in H. opened H. injection H as <-. apply fine_good. named_fields. cbn [snd fld fine]. apply bof_plain.
  - destruct m; [discriminate|]. unfold sheet_fields in H. opened H. injection H as <-. apply fine_good. named_fields.
  - apply bind_ok in H. destruct H as (c & Hc & [= <-]). destruct m; [discriminate|]. unfold cell_over in Hc. opened Hc. injection Hc as <-.
    apply fine_good. constructor; [split; [split; reflexivity|apply cell_plain]|exact F].
  - destruct m; [discriminate|]. unfold rk_fields in H. opened H. injection H as <-. apply fine_good. named_fields; cbn [snd fld].
    + cbn [fine]. rewrite plain_app, column_plain, plain_dec. reflexivity.
    + apply rk_fine.
  - injection H as <-. apply fine_good. exact F.
  - injection H as <-. destruct F as (a & c & path & ->). apply Forall_app in R. destruct R as [R1 R2].
    apply Forall_app. split; [apply fine_good; named_fields|]. apply Forall_app. split.
    + destruct path as [s|]; [|constructor]. unfold texts in R2. cbn in R2. inversion R2; subst.
      constructor; [split; [split; reflexivity|apply Plit; assumption]|constructor].
    + unfold strings_field. destruct rgst as [|s rgst]; [constructor|]. constructor; [split; [split; reflexivity|]|constructor].
      apply Pstrings; [discriminate|exact R1].
Qed.
End All.

(** ** JSON *)
Definition ok_j (v : value) : Prop := exists j, denotes v j /\ json_value (Records.json_value v) j.
Lemma int_value z : json_value (dec_z z) (jint z).
Proof.
  unfold jint. destruct z as [|n|n]; cbn [Z.ltb Z.compare Z.to_N dec_z]; try (apply jv_num; apply dec_number).
  match goal with |- json_value ?t _ => replace t with ((if true then [x2d] else []) ++ dec (N.pos n) ++ [] ++ []) by (rewrite !app_nil_r; reflexivity) end.
  apply jv_real.
  apply (jreal true (dec (N.pos n)) (N.pos n) [] [] [] 0%Z (N.pos n)); [apply dec_number|left; auto|left; auto| |left; reflexivity].
  rewrite app_nil_r. apply dec_num_dec.
Qed.
Lemma fine_json v : fine v -> ok_j v.
Proof.
  destruct v as [n|z|s|s|t u|s]; cbn [fine]; intros F.
  - exists (JNum n). split; [reflexivity|]. apply jv_num, dec_number.
  - exists (jint z). split; [reflexivity|]. apply int_value.
  - exists (JStr (map b2n s)). split; [reflexivity|]. apply jv_str, jquoted, jplain_str, plain_jplain. exact F.
  - exists (JStr (map b2n (until_nul s))). split; [reflexivity|]. apply jv_str, jquoted. destruct (until_nul_escape s) as [-> K]. apply JsonEscape_str. exact K.
  - destruct F as [(j & J) _]. exists j. split; exact J.
  - destruct F as [(j & J) _]. exists j. split; exact J.
Qed.
Lemma literal_json s : json_literal s -> ok_j (Str s).
Proof. intros K. exists (JStr (map b2n s)). split; [reflexivity|]. apply jv_str, jquoted, literal_str. exact K. Qed.
Lemma strings_ok_j l : l <> [] -> Forall json_literal l -> ok_j (Raw (B "[" ++ vector_join l (B ",") true ++ B "]")
                                                      (List.concat (map (fun s => B "<string>" ++ s ++ B "</string>") l))).
Proof. intros N F. eexists. split; apply references_json; assumption. Qed.

Lemma member_of key t v : jplain key = true -> json_value t v -> json_members (q ++ key ++ q ++ B ":" ++ t) [(map b2n key, v)].
Proof. intros K V. exact (member_value key [] t v K ws_nil V). Qed.
Lemma fields_json hd hm l : json_members hd hm -> Forall (good ok_j) l ->
  exists ms, Forall2 field_member l ms /\ json_members (hd ++ List.concat (map json_field l)) (hm ++ ms).
Proof.
  intros H F. revert hd hm H. induction F as [|f l [[N _] (j & D & J)] F IH]; intros hd hm H.
  - exists []. split; [constructor|]. rewrite !app_nil_r. exact H.
  - cbn [map List.concat]. destruct f as [[a b] v]. cbn [fst snd] in *.
    destruct (IH (hd ++ json_field (a, b, v)) (hm ++ [(map b2n a, j)])) as (ms & A & C).
    + unfold json_field. cbn [fst snd]. apply (members_app hd hm _ _ H). apply member_of; assumption.
    + exists ((map b2n a, j) :: ms). split; [constructor; [split; [reflexivity|exact D]|exact A]|].
      rewrite <- !app_assoc in C. exact C.
Qed.
Lemma members_json l ms : Forall2 (fun a m => jplain (B (fst a)) = true /\ fst m = map b2n (B (fst a)) /\ json_value (snd a) (snd m)) l ms -> l <> [] ->
  json_members (members l) ms.
Proof.
  induction 1 as [|[n t] [k v] l ms (N & E & V) F IH]; [congruence|]. intros _. cbn [fst snd] in *. subst k.
  assert (O : json_members (key n ++ t) [(map b2n (B n), v)]) by (unfold key; rewrite <- !app_assoc; apply member_of; assumption).
  unfold members in *. destruct l as [|x l].
  - inversion F; subst. exact O.
  - change (json_members ((key n ++ t) ++ B "," ++ members (x :: l)) ((map b2n (B n), v) :: ms)). apply more; [exact O|apply IH; discriminate].
Qed.
Ltac each_member := repeat (constructor; [split; [reflexivity|split; [reflexivity|]]|]); try apply Forall2_nil; cbn [snd jmem jfield].
Lemma flags_json f : json_value (B "{" ++ members (flag_list f) ++ B "}") (JObj (flag_members f)).
Proof. apply object, members_json; [|discriminate]. each_member; apply jv_num, dec_number. Qed.
Lemma hex_json s : json_value (quoted (bin2hex11 s)) (JStr (map b2n (bin2hex11 s))).
Proof. apply jv_str, jquoted, jplain_str, plain_jplain, bin2hex_plain. Qed.
Lemma country_json_value hd hm n c : jplain (B n) = true -> json_members hd hm ->
  json_members (hd ++ country_json n c) (hm ++ [jmem n (locale c)]).
Proof.
  intros N H. unfold country_json.
  apply (members_app hd hm _ _ H). apply spaced_value with (key := B n) (v := locale c)
    (t := B "{ " ++ q ++ B "Code" ++ q ++ B ":" ++ dec c ++ B ", " ++ q ++ B "Name" ++ q ++ B ": " ++ q ++ GetCountryName c ++ q ++ B "}"); [exact N|].
  match goal with |- json_value ?t _ => replace t with (B "{" ++ (([x20] ++ jn (B "Code") c) ++ B "," ++ ([x20] ++ (q ++ B "Name" ++ q ++ B ":" ++ [x20] ++ (q ++ GetCountryName c ++ q)))) ++ B "}") end.
  2:{ unfold jn. rewrite <- !app_assoc. reflexivity. }
  apply object. apply more.
  - apply members_ws; [apply ws_space|]. apply jn_one. reflexivity.
  - apply members_ws; [apply ws_space|]. apply member_value; [reflexivity|apply ws_space|]. apply jv_str, jquoted, literal_str. apply country_literal.
Qed.
Lemma rc4_json hd hm major minor : json_members hd hm ->
  json_members (hd ++ B "," ++ key "EncryptionType" ++ quoted (B "RC4") ++ B "," ++ key "RC4Version" ++ B " {" ++
    members [("Major"%string, dec major); ("Minor"%string, dec minor)] ++ B "}") (hm ++ rc4_members major minor).
Proof.
  intros H. apply (members_app hd hm _ _ H). unfold rc4_members.
  match goal with |- json_members ?t _ => replace t with ((q ++ B "EncryptionType" ++ q ++ B ":" ++ quoted (B "RC4")) ++ B "," ++
     (q ++ B "RC4Version" ++ q ++ B ":" ++ [x20] ++ (B "{" ++ members [("Major"%string, dec major); ("Minor"%string, dec minor)] ++ B "}"))) end.
  2:{ unfold key. rewrite <- !app_assoc. reflexivity. }
  apply more; [apply member_of; [reflexivity|]|].
  - apply jv_str, jquoted, jplain_str. reflexivity.
  - apply (member_value (B "RC4Version") [x20]); [reflexivity|apply ws_space|]. apply object, members_json; [|discriminate].
    each_member; apply jv_num, dec_number.
Qed.

Lemma Ok_inj {A} (a b : A) : Ok a = Ok b -> a = b.
Proof. congruence. Qed.
Ltac same E := apply Ok_inj in E; rewrite <- E; clear E.
Lemma comma_join hd hm t ms : json_members hd hm -> json_members t ms -> json_members (hd ++ B "," ++ t) (hm ++ ms).
Proof. apply members_app. Qed.
Lemma general_json p r l hd hm : fine_rec r -> Forall json_literal (raw_texts r) -> fields p r = Ok l -> json_members hd hm ->
  exists ms, (exists l, fields p r = Ok l /\ Forall2 field_member l ms) /\ json_members (hd ++ List.concat (map json_field l)) (hm ++ ms).
Proof.
  intros F R E H. destruct (fields_json hd hm l H) as (ms & A & C).
  - eapply fields_all; [exact fine_json|exact literal_json|exact strings_ok_j|exact F|exact R|exact E].
  - exists ms. split; [exists l; split; assumption|exact C].
Qed.
Lemma rest_json p r x hd hm : fine_rec r -> Forall json_literal (raw_texts r) -> rest p r = Ok x -> json_members hd hm ->
  exists ms, record_members p r ms /\ json_members (hd ++ fst x) (hm ++ ms).
Proof.
  intros F R E H. unfold rest in E. unfold record_members. destruct (r_body r) eqn:EB.
  all: try (let l0 := fresh "l0" in let El := fresh "El" in apply bind_ok in E; destruct E as (l0 & El & E); same E;
            unfold of_fields; cbn [fst]; eapply general_json; eassumption).
  - same E. eexists. split; [reflexivity|]. cbn [fst]. rewrite app_assoc.
    change [jmem "WorkbookLocale" (locale workbook); jmem "OSLocale" (locale system)] with
      ([jmem "WorkbookLocale" (locale workbook)] ++ [jmem "OSLocale" (locale system)]).
    rewrite (app_assoc hm). apply country_json_value; [reflexivity|]. apply country_json_value; [reflexivity|exact H].
  - same E. eexists. split; [reflexivity|]. cbn [fst].
    apply (comma_join hd hm _ _ H). unfold Records.key. rewrite <- !app_assoc.
    match goal with |- json_members ?t _ => replace t with ((q ++ B "EncryptionType" ++ q ++ B ":" ++ quoted (B "XOR")) ++ B "," ++
      (q ++ B "XorKey" ++ q ++ B ":" ++ [x20] ++ dec key) ++ B "," ++ (q ++ B "XorVerification" ++ q ++ B ":" ++ dec verification)) by (rewrite <- ?app_assoc; reflexivity) end.
    apply more; [apply member_of; [reflexivity|apply jv_str, jquoted, jplain_str; reflexivity]|].
    apply more; [apply (member_value (B "XorKey") [x20]); [reflexivity|apply ws_space|apply jv_num, dec_number]|].
    apply member_of; [reflexivity|apply jv_num, dec_number].
  - same E. eexists. split; [reflexivity|]. cbn [fst]. rewrite (app_assoc hm).
    match goal with |- json_members (_ ++ ?a ++ ?b ++ ?c ++ ?d ++ ?e ++ ?f ++ ?g ++ _ ++ ?h) _ =>
      change (json_members (hd ++ a ++ b ++ c ++ d ++ e ++ f ++ g ++ B "}" ++ B "," ++ h) ((hm ++ rc4_members major minor) ++
        [jfield (B "Salt") (bin2hex11 salt); jfield (B "EncryptedVerifier") (bin2hex11 verifier); jfield (B "EncryptedVerifierHash") (bin2hex11 hash)]));
      replace (hd ++ a ++ b ++ c ++ d ++ e ++ f ++ g ++ B "}" ++ B "," ++ h) with ((hd ++ a ++ b ++ c ++ d ++ e ++ f ++ g ++ B "}") ++ B "," ++ h)
        by (rewrite <- ?app_assoc; reflexivity) end.
    apply comma_join; [apply rc4_json; exact H|]. apply members_json; [|discriminate]. each_member; apply hex_json.
  - destruct (r_moved r) eqn:EM; [unfold over in E; rewrite EM in E; discriminate|]. unfold over in E. rewrite EM in E.
    apply bind_ok in E. destruct E as (f & Ef & E). apply bind_ok in E. destruct E as (e & Ee & E). apply bind_ok in E. destruct E as (n & En & E).
    cbv zeta in E. apply bind_ok in E. destruct E as (v & Ev & E). same E. cbn [fst].
    unfold enc_header in Ee. opened Ee. injection Ee as <-. unfold enc_verifier in Ev. opened Ev. injection Ev as <-.
    eexists. split; [do 13 eexists; unfold stored; repeat (split; [eassumption|]); reflexivity|].
    cbn [fst snd v_size v_salt v_verifier v_hash]. rewrite (app_assoc hm).
    match goal with |- json_members (_ ++ ?a ++ ?b ++ ?c ++ ?d ++ ?e ++ ?f ++ ?g ++ _ ++ ?h) ?m =>
      change (json_members (hd ++ a ++ b ++ c ++ d ++ e ++ f ++ g ++ B "}" ++ B "," ++ h) m);
      replace (hd ++ a ++ b ++ c ++ d ++ e ++ f ++ g ++ B "}" ++ B "," ++ h) with ((hd ++ a ++ b ++ c ++ d ++ e ++ f ++ g ++ B "}") ++ B "," ++ h)
        by (rewrite <- ?app_assoc; reflexivity) end.
    apply comma_join; [apply rc4_json; exact H|]. apply members_json; [|discriminate]. each_member.
    + apply flags_json.
    + apply object, members_json; [|discriminate]. each_member; [apply flags_json|..]; apply jv_num, dec_number.
    + apply jv_str, jquoted. destruct (until_nul_escape (erasenulls n)) as [-> K]. apply JsonEscape_str. exact K.
    + apply object, members_json; [|discriminate]. each_member; first [apply hex_json|apply jv_num, dec_number].
    + apply hex_json.
  - discriminate.
  - same E. eexists. split; [reflexivity|]. cbn [fst]. apply (comma_join hd hm _ _ H). unfold key. rewrite <- !app_assoc.
    apply member_of; [reflexivity|apply jv_num, dec_number].
Qed.
Lemma plain_member n s : jplain (B n) = true -> plain s = true -> json_members (key n ++ q ++ s ++ q) [jfield (B n) s].
Proof. intros N H. unfold key. rewrite <- !app_assoc. apply member_of; [exact N|]. apply jv_str, jquoted, jplain_str, plain_jplain. exact H. Qed.
Lemma number_member n k : jplain (B n) = true -> json_members (key n ++ dec k) [jmem n (JNum k)].
Proof. intros N. unfold key. rewrite <- !app_assoc. apply member_of; [exact N|apply jv_num, dec_number]. Qed.
Lemma record_json_ok p r t : fine_rec r -> Forall json_literal (raw_texts r) -> record_json p r = Ok t -> exists j, record_doc p r j /\ json_value t j.
Proof.
  intros F R E. unfold record_json in E. apply bind_ok in E. destruct E as (x & Ex & E). same E.
  destruct (rest_json p r x ((key "Type" ++ q ++ GetRecordTypeStr (r_type r) ++ q) ++ B "," ++ (key "Length" ++ dec (r_length r)))
    [jfield (B "Type") (GetRecordTypeStr (r_type r)); jmem "Length" (JNum (lenN (r_data r)))] F R Ex) as (ms & M & J).
  { apply more; [apply plain_member; [reflexivity|apply type_plain]|apply number_member; reflexivity]. }
  eexists. split; [exists ms; split; [exact M|reflexivity]|].
  match type of J with json_members ?t _ => match goal with |- json_value ?u _ => replace u with (B "{" ++ t ++ B "}") by (rewrite <- !app_assoc; reflexivity) end end.
  apply object. exact J.
Qed.
Lemma mapM_each {A C D} (f : A -> res C) (R : A -> D -> Prop) (V : C -> D -> Prop) l ts :
  (forall a t, In a l -> f a = Ok t -> exists d, R a d /\ V t d) -> mapM f l = Ok ts -> exists ds, Forall2 R l ds /\ Forall2 V ts ds.
Proof.
  revert ts. induction l as [|a l IH]; cbn [mapM]; intros ts K E; [same E; exists []; split; constructor|].
  apply bind_ok in E. destruct E as (t & Et & E). apply bind_ok in E. destruct E as (r & Er & E). same E.
  destruct (K a t (or_introl eq_refl) Et) as (d & Rd & Vd). destruct (IH r) as (ds & X & Y); [intros b u I; apply K; right; exact I|exact Er|].
  exists (d :: ds). split; constructor; assumption.
Qed.
Definition writable (p : platform) (L : bytes -> Prop) (r : rec) : Prop := fine_rec r /\ Forall L (raw_texts r).
Lemma substream_json_ok p l t : Forall (writable p json_literal) l -> substream_json p l = Ok t -> exists m, records_doc p l m /\ json_members t [m].
Proof.
  intros F E. unfold substream_json in E. apply bind_ok in E. destruct E as (ts & Et & E). same E.
  edestruct (mapM_each (record_json p) (record_doc p) json_value l ts) as (js & A & C).
  { intros r u I Er. rewrite Forall_forall in F. destruct (F r I). apply record_json_ok; assumption. }
  { exact Et. }
  eexists. split; [exists js; split; [exact A|reflexivity]|]. unfold key. rewrite <- !app_assoc. apply member_of; [reflexivity|].
  destruct ts as [|u ts]; [|apply array; [exact C|discriminate]]. inversion C; subst. apply (jv_arr0 []). apply ws_nil.
Qed.
Lemma text_member n s : jplain (B n) = true -> json_members (key n ++ quoted (JsonEscape s)) [jtext (B n) s].
Proof.
  intros N. unfold key. rewrite <- !app_assoc. apply member_of; [exact N|]. apply jv_str, jquoted.
  destruct (until_nul_escape s) as [-> K]. apply JsonEscape_str. exact K.
Qed.
Lemma records_of_all (P : rec -> Prop) x h : Forall P (map fst (x_list x)) -> Forall P (records_of x h).
Proof.
  intros F. unfold records_of. rewrite Forall_forall in *. intros r I. apply F. rewrite in_map_iff in *. destruct I as (e & E & I).
  apply filter_In in I. exists e. tauto.
Qed.
Lemma sheet_json_ok p x i s t : Forall (writable p json_literal) (map fst (x_list x)) -> sheet_json p x i s = Ok t ->
  exists j, sheet_doc p (s, records_of x (Some i)) j /\ json_value t j.
Proof.
  intros F E. unfold sheet_json in E. apply bind_ok in E. destruct E as (u & Eu & E). same E.
  pose proof (records_of_all _ x (Some i) F) as K.
  assert (H : json_members ((key "Name" ++ quoted (JsonEscape (sh_name s))) ++ B "," ++ (key "Type" ++ quoted (GetSheetTypeStr (sh_type s))) ++ B "," ++
      (key "Visiblity" ++ quoted (GetVisibilityStr (sh_visibility s))) ++ B "," ++ (key "Offset" ++ dec (sh_offset s)))
    [jtext (B "Name") (sh_name s); jfield (B "Type") (GetSheetTypeStr (sh_type s));
               jfield (B "Visiblity") (GetVisibilityStr (sh_visibility s)); jmem "Offset" (JNum (sh_offset s))]).
  { apply more; [apply text_member; reflexivity|]. apply more; [apply plain_member; [reflexivity|apply sheet_type_plain]|].
    apply more; [apply plain_member; [reflexivity|apply visibility_plain]|]. apply number_member. reflexivity. }
  assert (M : exists ms, match records_of x (Some i) with [] => ms = [] | l => exists m, records_doc p l m /\ ms = [m] end /\
    forall hd hm, json_members hd hm -> json_members (hd ++ u) (hm ++ ms)).
  { destruct (records_of x (Some i)) as [|r l].
    - same Eu. exists []. split; [reflexivity|]. intros hd hm. rewrite !app_nil_r. auto.
    - apply bind_ok in Eu. destruct Eu as (w & Ew & Eu). same Eu. destruct (substream_json_ok p _ _ K Ew) as (m & A & C).
      exists [m]. split; [exists m; auto|]. intros hd hm Hh. apply comma_join; assumption. }
  destruct M as (ms & A & C). specialize (C _ _ H). eexists. split; [exists ms; split; [exact A|reflexivity]|].
  match type of C with json_members ?t _ => match goal with |- json_value ?u _ => replace u with (B "{" ++ t ++ B "}") by (rewrite <- !app_assoc; reflexivity) end end.
  apply object. exact C.
Qed.
Lemma raw_each L x : Forall L (raw_of x) -> L (x_error x) /\ Forall (fun r => Forall L (raw_texts r)) (map fst (x_list x)).
Proof.
  intros F. inversion F; subst. split; [assumption|]. rewrite Forall_forall in *. intros r I. rewrite Forall_forall. intros s Is. apply H2.
  apply in_flat_map. exists r. split; assumption.
Qed.
Lemma contents_json_ok p what (S : bytes) x t : lenN S < 2 ^ 30 -> Detailer p what S = Ok x -> Forall json_literal (raw_of x) ->
  contents_json p x = Ok t -> exists ms, workbook_members p x ms /\ forall hd hm, json_members hd hm -> json_members (hd ++ t) (hm ++ ms).
Proof.
  intros HS HD R E. destruct (all_fine p what S x HS HD) as [F _]. destruct (raw_each _ x R) as [Re Rr].
  assert (W : Forall (writable p json_literal) (map fst (x_list x))).
  { rewrite Forall_forall in *. intros r Ir. split; [apply F|apply Rr]; exact Ir. }
  unfold contents_json in E. apply bind_ok in E. destruct E as (g & Eg & E). apply bind_ok in E. destruct E as (s & Es & E). same E.
  destruct (substream_json_ok p _ _ (records_of_all _ x None W) Eg) as (m & Gm & Jm).
  edestruct (mapM_each (fun e => sheet_json p x (fst e) (snd e)) (fun e => sheet_doc p (snd e, records_of x (Some (fst e)))) json_value (numbered 0 (x_sheets x)) s) as (js & A & C).
  { intros e u _ Eu. apply sheet_json_ok; [exact W|exact Eu]. }
  { exact Es. }
  eexists. split.
  - exists m, js. split; [exact Gm|]. split; [|reflexivity]. unfold sheets_of. clear -A. induction A; cbn [map]; constructor; assumption.
  - intros hd hm H0.
    assert (H : json_members (hd ++ B "," ++ ([x20] ++ q ++ B "globals" ++ q ++ B ":" ++ [x20] ++ (B "{" ++ ([x20] ++ g) ++ B "}"))) (hm ++ [jmem "globals" (JObj [m])])).
    { apply comma_join; [exact H0|]. apply members_ws; [apply ws_space|].
      apply (member_value (B "globals") [x20]); [reflexivity|apply ws_space|]. apply object. apply members_ws; [apply ws_space|exact Jm]. }
    assert (H2 : json_members ((hd ++ B "," ++ ([x20] ++ q ++ B "globals" ++ q ++ B ":" ++ [x20] ++ (B "{" ++ ([x20] ++ g) ++ B "}"))) ++
        match s with [] => [] | _ => B ", " ++ q ++ B "sheets" ++ q ++ B ": [" ++ join (B ",") s ++ B "]" end)
        ((hm ++ [jmem "globals" (JObj [m])]) ++ match js with [] => [] | _ => [jmem "sheets" (JArr js)] end)).
    { destruct C as [|u j s js Cu Cs]; [rewrite !app_nil_r; exact H|]. remember (u :: s) as us. remember (j :: js) as jj.
      change (B ", " ++ ?z) with (B "," ++ [x20] ++ z). apply comma_join; [exact H|]. apply members_ws; [apply ws_space|].
      change (B ": [" ++ ?z) with (B ":" ++ [x20] ++ B "[" ++ z). apply (member_value (B "sheets") [x20]); [reflexivity|apply ws_space|].
      apply array; [|subst; discriminate]. subst. constructor; assumption. }
    assert (H3 : json_members (((hd ++ B "," ++ ([x20] ++ q ++ B "globals" ++ q ++ B ":" ++ [x20] ++ (B "{" ++ ([x20] ++ g) ++ B "}"))) ++
        match s with [] => [] | _ => B ", " ++ q ++ B "sheets" ++ q ++ B ": [" ++ join (B ",") s ++ B "]" end) ++
        (if nonempty (x_error x) then B ", " ++ q ++ B "ERROR" ++ q ++ B ": " ++ quoted (x_error x) else []))
        (((hm ++ [jmem "globals" (JObj [m])]) ++ match js with [] => [] | _ => [jmem "sheets" (JArr js)] end) ++
         match x_error x with [] => [] | s => [jfield (B "ERROR") s] end)).
    { destruct (x_error x) as [|c err]; cbn [nonempty negb]; [rewrite !app_nil_r; exact H2|].
      change (B ", " ++ ?z) with (B "," ++ [x20] ++ z). apply comma_join; [exact H2|]. apply members_ws; [apply ws_space|].
      change (B ": " ++ ?z) with (B ":" ++ [x20] ++ z). apply (member_value (B "ERROR") [x20]); [reflexivity|apply ws_space|].
      apply jv_str, jquoted, literal_str. exact Re. }
    match type of H3 with json_members ?t ?ms => match goal with |- json_members ?u ?v => replace u with t;
       [replace v with ms by (rewrite <- !app_assoc; reflexivity)|rewrite <- !app_assoc; reflexivity] end end.
    exact H3.
Qed.
Theorem excel_json_ok p what (S : bytes) x t : lenN S < 2 ^ 30 -> Detailer p what S = Ok x -> Forall json_literal (raw_of x) ->
  excel_json p x = Ok t -> exists j, excel_doc p x j /\ json_value t j.
Proof.
  intros HS HD R E. unfold excel_json in E. apply bind_ok in E. destruct E as (r & Er & E). same E.
  destruct (contents_json_ok p what S x r HS HD R Er) as (ms & M & J). eexists. split; [exists ms; split; [exact M|reflexivity]|].
  rewrite (app_assoc _ r). apply object. apply J. apply base_json. apply (all_fine p what S x HS HD).
Qed.
