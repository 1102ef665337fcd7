(** The fields of the records of a workbook can be written. *)
From Coq Require Import List NArith ZArith Bool Lia Strings.String Strings.Byte.
From Coq Require Import ZifyBool ZifyNat ZifyN.
From Verif Require Import Lib.Res Lib.Bytes Lib.BytesFacts Lib.Text Lib.NumSpec Lib.NumFacts Common.Model Common.Spec Common.ReadProofs
     Common.EscapeProofs Excel.Number Excel.NumberProofs Excel.Tables Excel.Model Excel.Records Excel.Engine Excel.Statements Excel.EngineProofs
     Excel.SheetProofs Excel.SheetList Excel.HistoryProofs
     Magic.Spec Magic.DocProofs Magic.DocBase Asf.Model Asf.DocProofs Vba.Statements Vba.OutputProofs Propset.DocProofs Excel.DocStatements.
From Verif Require Propset.Statements.
Import ListNotations.
Local Open Scope N_scope.
Ltac Zify.zify_post_hook ::= Z.div_mod_to_equations.
Arguments N.pow : simpl never.
Arguments N.mul : simpl never.
Arguments N.add : simpl never.
Notation letters := Magic.DocProofs.letters.

(** ** Texts *)
Lemma plain_app a b : plain (a ++ b) = plain a && plain b.
Proof. apply forallb_app. Qed.
Lemma column_plain n : plain (ColNumToName n) = true.
Proof.
  unfold ColNumToName. generalize (u16 n). intros m.
  assert (H : forall k m acc, plain acc = true -> plain (Excel.Model.letters k m acc) = true); [|apply H; reflexivity].
  clear. induction k as [|k IH]; intros m acc A; cbn [Excel.Model.letters]; [exact A|]. destruct (m =? 0); [exact A|].
  apply IH. change (plain (?c :: acc)) with (plain_b c && plain acc). rewrite A, andb_true_r.
  assert (K : forallb (fun i => plain_b (n2b (65 + N.of_nat i))) (seq 0 26) = true) by (vm_compute; reflexivity).
  rewrite forallb_forall in K. specialize (K (N.to_nat ((m - 1) mod 26))). rewrite N2Nat.id in K. apply K. apply in_seq.
  assert ((m - 1) mod 26 < 26) by (apply N.mod_lt; discriminate). lia.
Qed.
Lemma cell_plain a b : plain (cell_str a b) = true.
Proof. unfold cell_str. rewrite plain_app, column_plain, plain_dec. reflexivity. Qed.
Lemma named_in t other k : Excel.Model.named t other k = other \/ In (Excel.Model.named t other k) (map snd t).
Proof.
  induction t as [|[n s] t IH]; cbn [Excel.Model.named map snd]; [left; reflexivity|]. destruct (n =? k); [right; left; reflexivity|].
  destruct IH as [IH|IH]; [left; exact IH|right; right; exact IH].
Qed.
Lemma named_plain t other k : forallb plain (other :: map snd t) = true -> plain (Excel.Model.named t other k) = true.
Proof.
  intros H. rewrite forallb_forall in H. apply H. destruct (named_in t other k) as [->|I]; [left; reflexivity|right; exact I].
Qed.
Lemma type_plain t : plain (GetRecordTypeStr t) = true.
Proof. apply named_plain. vm_compute. reflexivity. Qed.
Lemma bof_plain t : plain (GetBOFType t) = true.
Proof. apply named_plain. vm_compute. reflexivity. Qed.
Lemma country_literal c : json_literal (GetCountryName c) /\ xml_literal (GetCountryName c).
Proof.
  assert (L : forall s, forallb (fun c => (32 <=? b2n c) && (b2n c <? 127) && negb (existsb (byte_eqb c) [x22; x26; x3c; x3e; x5c])) s = true ->
    json_literal s /\ xml_literal s).
  { clear. intros s H. assert (K : Forall (fun c => 32 <= b2n c < 127 /\ c <> x22 /\ c <> x5c /\ ~ xml_markup c) s).
    { apply Forall_forall. intros c I. rewrite forallb_forall in H. specialize (H c I). unfold xml_markup. revert H.
      assert (F : forall c, (32 <=? b2n c) && (b2n c <? 127) && negb (existsb (byte_eqb c) [x22; x26; x3c; x3e; x5c]) = true ->
        32 <= b2n c < 127 /\ c <> x22 /\ c <> x5c /\ ~ (c = x26 \/ c = x3c \/ c = x3e)); [|apply F].
      clear. intros c. rewrite !andb_true_iff, negb_true_iff. intros [[A B1] C]. split; [lia|].
      cbn [existsb] in C. rewrite !orb_false_iff, !byte_eqb_neq in C. tauto. }
    split; (eapply Forall_impl; [|exact K]); intros c (A & B1 & C & D); [split; [lia|auto]|auto]. }
  apply L. unfold GetCountryName. match goal with |- forallb ?g _ = true =>
    assert (H : forallb (forallb g) (B "Unknown" :: map snd country_names) = true) by (vm_compute; reflexivity) end.
  rewrite forallb_forall in H. apply H. destruct (named_in country_names (B "Unknown") c) as [E|I]; [left; congruence|right; exact I].
Qed.
Ltac choices := repeat match goal with |- plain (if ?c then _ else _) = true => destruct c; [reflexivity|] end; reflexivity.
Lemma error_plain e : plain (ErrorValueString e) = true.
Proof. unfold ErrorValueString. choices. Qed.
Lemma visibility_plain e : plain (GetVisibilityStr e) = true.
Proof. unfold GetVisibilityStr. choices. Qed.
Lemma sheet_type_plain e : plain (GetSheetTypeStr e) = true.
Proof. unfold GetSheetTypeStr. choices. Qed.
Lemma version_plain e : plain (GetVersion_Excel e) = true.
Proof. unfold GetVersion_Excel. choices. Qed.

(** ** Values that can be written in both forms *)
Definition fine (v : value) : Prop :=
  match v with
  | Str s => plain s = true
  | Raw t u => (exists j, json_value t j) /\ exists l, xml_content u l
  | Bare s => (exists j, json_value s j) /\ xml_literal s
  | _ => True
  end.
Definition names (f : field) : Prop := jplain (fst (fst f)) = true /\ letters (snd (fst f)) = true.
Definition fine_field (f : field) : Prop := names f /\ fine (snd f).
Definition raw_type (t : N) : bool := (t =? 0x5C) || (t =? 0x9A) || (t =? 0x1BA).
Definition strings_field (n : string) (l : list bytes) : list field :=
  match l with
  | [] => []
  | _ => [fld n (Raw (B "[" ++ vector_join l (B ",") true ++ B "]")
                     (List.concat (map (fun s => B "<string>" ++ s ++ B "</string>") l)))]
  end.
Definition fine_body (t : N) (b : body) : Prop :=
  match b with
  | Fields l => if raw_type t then l = [] \/ exists n s, l = [fld n (Str s)] /\ names (fld n (Str s)) else Forall fine_field l
  | SST _ l | CellOver l => Forall fine_field l
  | SupBook _ rgst l => exists a b path, l = [fld "ctab" (Num a); fld "cch" (Num b)] ++
        match path with Some s => [fld "virtPath" (Str s)] | None => [] end ++ strings_field "rgst" rgst
  | _ => True
  end.

Lemma strings_json_value l : l <> [] -> json_value (B "[" ++ join (B ",") (map (fun s => q ++ JsonEscape s ++ q) l) ++ B "]")
  (JArr (map (fun s => JStr (map b2n (until_nul s))) l)).
Proof.
  intros N. apply array; [|destruct l; [congruence|discriminate]]. apply Forall2_map. apply Forall_forall. intros s _.
  apply jv_str. apply jquoted. destruct (until_nul_escape s) as [-> K]. apply JsonEscape_str. exact K.
Qed.
Lemma string_elements l : xml_content (List.concat (map (fun s => B "<string>" ++ XmlEscape s ++ B "</string>") l)) (map (xescaped (B "string")) l).
Proof. induction l as [|s l IH]; [constructor|]. cbn [map List.concat]. apply (escaped_cons (B "string") s _ _ eq_refl IH). Qed.
Lemma numbers_value l : l <> [] -> json_value (B "[" ++ vector_join (map dec l) (B ",") false ++ B "]") (JArr (map JNum l)).
Proof.
  intros N. unfold vector_join. apply array; [|destruct l; [congruence|discriminate]]. rewrite map_map. apply Forall2_map. apply Forall_forall. intros s _.
  apply jv_num. apply dec_number.
Qed.
Lemma number_elements n l : letters (B n) = true ->
  xml_content (List.concat (map (fun x => B "<" ++ B n ++ B ">" ++ dec x ++ B "</" ++ B n ++ B ">") l)) (map (xnum n) l).
Proof.
  intros L. induction l as [|x l IH]; [constructor|]. cbn [map List.concat].
  apply (literal_cons (B n) (dec x) _ _ L); [apply plain_literal, plain_dec|exact IH].
Qed.
Ltac as_json u := match goal with |- json_value ?t _ => replace t with u by (unfold js, jn; rewrite <- ?app_assoc; reflexivity) end.
Ltac as_xml u := match goal with |- xml_content ?t _ => replace t with u by (unfold xs, xelem; rewrite <- ?app_assoc; reflexivity) end.
Lemma rgb_fine d off f : LongRGB d off = Ok f -> fine (Raw (fst f) (snd f)).
Proof.
  unfold LongRGB. intros H. do 4 (apply bind_ok in H; destruct H as (? & _ & H)). injection H as <-. cbn [fst snd]. split.
  - eexists. as_json (B "{" ++ (jn (B "red") x ++ B "," ++ jn (B "green") x0 ++ B "," ++ jn (B "blue") x1 ++ B "," ++ jn (B "reserved") x2) ++ B "}").
    apply object. repeat (apply jn_more; [reflexivity|]). apply jn_one. reflexivity.
  - eexists. as_xml (xelem (B "LongRGB") (xs (B "red") (dec x) ++ xs (B "green") (dec x0) ++ xs (B "blue") (dec x1) ++ xs (B "reserved") (dec x2) ++ [])).
    apply elem_one.
    + apply letters_name. reflexivity.
    + repeat (apply literal_cons; [reflexivity|apply plain_literal, plain_dec|]). constructor.
Qed.

(** ** The records *)
Ltac opened H :=
  repeat match type of H with
  | bind _ _ = Ok _ => let x := fresh "x" in let E := fresh "E" in apply bind_ok in H; destruct H as (x & E & H)
  end.
Ltac named_fields := repeat (constructor; [split; [split; reflexivity|try exact I]|]); try apply Forall_nil.
Lemma row_fine d b t : RowRecord d = Ok b -> raw_type t = false -> fine_body t b.
Proof. unfold RowRecord. intros H T. opened H. injection H as <-. cbn [fine_body]. rewrite T. named_fields. Qed.
Lemma area_fine d b t : AreaFormatRecord d = Ok b -> raw_type t = false -> fine_body t b.
Proof. unfold AreaFormatRecord. intros H T. opened H. injection H as <-. cbn [fine_body]. rewrite T. named_fields; cbn [snd fld]; eapply rgb_fine; eassumption. Qed.
Lemma blank_fine d b t : MulBlankRecord d = Ok b -> raw_type t = false -> fine_body t b.
Proof.
  unfold MulBlankRecord. intros H T. opened H. injection H as <-. cbn [fine_body]. rewrite T. cbn [app]. named_fields; cbn [snd fld fine]; [apply column_plain..|].
  destruct x2 as [|n l]; [constructor|]. named_fields. cbn [snd fld fine]. split; eexists; [apply (numbers_value (n :: l)); discriminate|].
  apply (number_elements "ixfe" (n :: l)). reflexivity.
Qed.
Lemma formula_fine p l d b t : FormulaRecord p l d = Ok b -> raw_type t = false -> fine_body t b.
Proof.
  unfold FormulaRecord. intros H T. opened H. injection H as <-. cbn [fine_body]. rewrite T. named_fields. cbn [snd fld fine]. apply cell_plain.
Qed.
Lemma sst_fine p d b t : SSTRecord p d = Ok b -> fine_body t b.
Proof.
  unfold SSTRecord. intros H. opened H. injection H as <-. cbn [fine_body app]. named_fields. destruct x1 as [|s l]; [constructor|].
  named_fields. cbn [snd fld fine]. split; eexists; [apply (strings_json_value (s :: l)); discriminate|apply (string_elements (s :: l))].
Qed.
Lemma sup_fine d b t : SupBookRecord d = Ok b -> fine_body t b.
Proof. unfold SupBookRecord. intros H. opened H. injection H as <-. do 3 eexists. unfold strings_field. reflexivity. Qed.
Lemma label_fine l d b t : LabelSstRecord l d = Ok b -> fine_body t b.
Proof.
  unfold LabelSstRecord. intros H. opened H. injection H as <-. cbn [fine_body]. named_fields. destruct x0 as [r|]; [|constructor].
  destruct (r_body r); try constructor. destruct (_ <? _); [|constructor]. destruct (nth_error _ _); named_fields.
Qed.
Lemma boolerr_fine d b t : BoolErrRecord d = Ok b -> fine_body t b.
Proof.
  unfold BoolErrRecord. destruct (_ <? _); [discriminate|]. intros H. opened H. injection H as <-. cbn [fine_body]. named_fields. cbn [snd fld fine].
  destruct (_ =? _); [apply plain_dec|apply error_plain].
Qed.
Lemma string_fine d n b t : string_record d (fun s => fld n (Str s)) = Ok b -> raw_type t = true -> jplain (B n) = true -> letters (B n) = true -> fine_body t b.
Proof. unfold string_record. intros H T J L. opened H. injection H as <-. cbn [fine_body]. rewrite T. right. do 2 eexists. split; [reflexivity|]. split; assumption. Qed.
Lemma content_fine d b t : string_record d (fun s => fld "String" (Raw (q ++ JsonEscape s ++ q) (B "<![CDATA[" ++ XmlEscape s ++ B "]]>"))) = Ok b ->
  raw_type t = false -> fine_body t b.
Proof.
  unfold string_record. intros H T. opened H. injection H as <-. cbn [fine_body]. rewrite T. named_fields. cbn [snd fld fine]. split; eexists.
  - apply jv_str, jquoted. destruct (until_nul_escape (fst x)) as [-> K]. apply JsonEscape_str. exact K.
  - as_xml (cdata_open ++ XmlEscape (fst x) ++ cdata_close ++ []). apply (xc_cdata (XmlEscape (fst x)) [] []); [apply XmlEscape_no_close|constructor].
Qed.
Lemma short_fine d big n b t : ushort_record d big n = Ok b -> raw_type t = false -> jplain (B n) = true -> letters (B n) = true -> fine_body t b.
Proof. unfold ushort_record. intros H T J L. opened H. injection H as <-. cbn [fine_body]. rewrite T. constructor; [split; [split; assumption|exact I]|constructor]. Qed.
Lemma no_fields t : fine_body t (Fields []).
Proof. cbn [fine_body]. destruct (raw_type t); [left; reflexivity|constructor]. Qed.

Lemma body_fine p l v t d b : record_body p l v t d = Ok b -> fine_body t b.
Proof.
  unfold record_body. destruct (v =? 1536).
  2:{ intros H. assert (K : b = BOF \/ b = Fields [] \/ exists s, b = BoundSheet5 s).
      { repeat match type of H with (if ?c then _ else _) = _ => destruct c end; try (injection H as <-; auto).
        unfold BoundSheet5Record in H. opened H. injection H as <-. right. right. eexists. reflexivity. }
      destruct K as [->|[->|(s & ->)]]; [exact I|apply no_fields|exact I]. }
  unfold biff8. intros H.
  repeat match type of H with (if t =? ?k then _ else _) = _ => destruct (N.eqb_spec t k) as [->|?]; [|] end.
  all: try (injection H as <-; apply no_fields).
  all: try (first [eapply row_fine; [exact H|reflexivity]|eapply area_fine; [exact H|reflexivity]|
                   eapply blank_fine; [exact H|reflexivity]|eapply formula_fine; [exact H|reflexivity]]).
  all: try (first [eapply sst_fine; exact H|eapply sup_fine; exact H|eapply label_fine; exact H|eapply boolerr_fine; exact H]).
  all: try (eapply string_fine; [exact H|reflexivity..]).
  all: try (eapply short_fine; [exact H|reflexivity..]).
  all: try (eapply content_fine; [exact H|reflexivity]).
  - unfold LblRecord in H. opened H. injection H as <-. exact I.
  - unfold ExternNameRecord in H. opened H. destruct x as [r|]; [destruct (r_body r)|]; try (injection H as <-; exact I).
    destruct (_ =? _); opened H; injection H as <-; exact I.
  - unfold FilePassRecord in H. cbv zeta in H. opened H. repeat (match type of H with (if ?c then _ else _) = _ => destruct c end; opened H); injection H as <-; exact I.
  - unfold CodePageRecord in H. opened H. injection H as <-. cbn [fine_body]. change (raw_type 66) with false. cbv iota. named_fields.
  - unfold BoundSheet8Record in H. opened H. injection H as <-. exact I.
  - unfold CountryRecord in H. opened H. injection H as <-. exact I.
  - unfold BlankRecord in H. destruct (_ <? _); [discriminate|]. injection H as <-. constructor.
  - unfold RKRecord in H. opened H. injection H as <-. exact I.
  - injection H as <-. exact I.
  - unfold AlRunsRecord in H. opened H. injection H as <-. constructor.
Qed.

(** All reported records *)
Definition fine_rec (r : rec) : Prop := fine_body (r_type r) (r_body r).
Lemma fine_cores l l' : map core l = map core l' -> Forall fine_rec l -> Forall fine_rec l'.
Proof.
  revert l'. induction l as [|r l IH]; intros [|r' l'] E F; try discriminate; [constructor|]. injection E as E1 _ E2 E3.
  inversion F as [|? ? K L]; subst. constructor; [unfold fine_rec in *; congruence|apply IH; assumption].
Qed.
Lemma fine_step p (S : bytes) s s' t n d : lenN S < 2 ^ 30 -> s_index s + 4 < lenN S -> Forall fine_rec (map fst (s_list s)) -> n < 2 ^ 16 ->
  process p (lenN S) t n d (at_index (s_index s + 4) s) = Ok s' -> Forall fine_rec (map fst (s_list s')).
Proof.
  intros HS Hi K Hn H. apply process_parts in H. destruct H as (s1 & r & H1 & Hr & s2 & H2 & ->). cbn [at_index s_list].
  pose proof (continued_cores _ _ _ _ H1) as T. unfold cores in T. cbn [at_index s_list] in T.
  assert (K1 : Forall fine_rec (map fst (s_list s1))) by (eapply fine_cores; [symmetry; exact T|exact K]).
  destruct r as [r|]; [|injection H2 as <-; exact K1].
  apply add_list in H2. destruct H2 as (h & ->). cbn [map fst]. constructor; [|exact K1].
  unfold ParseRecord in Hr. destruct (record_body _ _ _ t d) as [b|[]| |] eqn:E; try discriminate Hr. injection Hr as <-.
  unfold fine_rec. cbn [r_type r_body]. eapply body_fine. exact E.
Qed.
Lemma all_fine p what (S : bytes) x : lenN S < 2 ^ 30 -> Detailer p what S = Ok x ->
  Forall fine_rec (map fst (x_list x)) /\ info_plain (x_ext x) = true.
Proof.
  intros HS H. unfold Detailer, ParseStream in H.
  pose proof (loop_inv p S (fun s => Forall fine_rec (map fst (s_list s))) HS (fun s s' t n d Hi Q Hn E => fine_step p S s s' t n d HS Hi Q Hn E)
                (Datatypes.S (List.length S)) state0 ltac:(cbn; lia)) as L.
  specialize (L ltac:(constructor)).
  destruct (loop _ _ _ _) as [s|e s| |]; try discriminate;
    (destruct (s_vers s) as [v|] eqn:EV; [|discriminate]; injection H as <-; cbn [x_ext x_list];
     rewrite map_rev; split; [apply Forall_rev; exact L|];
     unfold info_plain; cbn [Extension Name SubType VersionName]; rewrite version_plain; reflexivity).
Qed.
