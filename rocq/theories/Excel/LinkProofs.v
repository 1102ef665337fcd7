(** Codes, links to other workbooks, blank cells, colours and counts of strings. *)
From Coq Require Import List NArith ZArith Bool Lia Strings.String Strings.Byte.
From Coq Require Import ZifyBool ZifyNat ZifyN.
From Verif Require Import Lib.Res Lib.Bytes Lib.BytesFacts Lib.Text Common.Model Common.Spec Common.ReadProofs
     Excel.Number Excel.Tables Excel.Model Excel.Records Excel.Engine Excel.Spec Excel.Statements Excel.TextStatements Excel.OutputProofs
     Excel.CellProofs Excel.SstProofs Excel.FineProofs Excel.FieldSpec Excel.FieldProofs Excel.PassProofs Excel.FieldStatements
     Magic.Spec Magic.DocProofs Magic.DocBase Asf.Model Asf.DocProofs Vba.Statements Vba.OutputProofs Propset.DocProofs Excel.DocStatements.
Import ListNotations.
Local Open Scope N_scope.
Ltac Zify.zify_post_hook ::= Z.div_mod_to_equations.
Arguments N.pow : simpl never.
Arguments N.mul : simpl never.
Arguments N.add : simpl never.
Arguments N.sub : simpl never.

(** ** Codes *)
Definition by_name (l : list (N * string)) : list (N * bytes) := map (fun x => (fst x, B (snd x))) l.
Lemma named_found l c s other : NoDup (map fst l) -> In (c, s) l -> Excel.Model.named (by_name l) other c = B s.
Proof.
  induction l as [|[k t] l IH]; [intros _ []|]. cbn [map fst]. intros D. inversion_clear D as [|? ? Nin D'].
  unfold by_name. cbn [map fst snd Excel.Model.named]. intros [[= -> ->]|I].
  - rewrite N.eqb_refl. reflexivity.
  - destruct (N.eqb_spec k c) as [->|_]; [exfalso; apply Nin; apply (in_map fst _ _ I)|apply IH; assumption].
Qed.
Lemma named_missing l c other : (forall t, ~ In (c, t) l) -> Excel.Model.named (by_name l) other c = other.
Proof.
  induction l as [|[k t] l IH]; [reflexivity|]. intros H. unfold by_name. cbn [map fst snd Excel.Model.named].
  destruct (N.eqb_spec k c) as [->|_]; [exfalso; apply (H t); left; reflexivity|]. apply IH. intros u I. apply (H u). right. exact I.
Qed.
Lemma named_code l c s : NoDup (map fst l) -> code_name l c s -> Excel.Model.named (by_name l) (B "Unknown") c = B s.
Proof. intros D [I|[H ->]]; [apply named_found; assumption|apply named_missing, H]. Qed.
Fixpoint distinct (l : list N) : bool := match l with [] => true | a :: r => negb (existsb (N.eqb a) r) && distinct r end.
Lemma distinct_nodup l : distinct l = true -> NoDup l.
Proof.
  induction l as [|a l IH]; [constructor|]. cbn [distinct]. rewrite andb_true_iff, negb_true_iff. intros [H K]. constructor; [|apply IH, K].
  intros I. assert (X : existsb (N.eqb a) l = true) by (apply existsb_exists; exists a; split; [exact I|apply N.eqb_refl]). congruence.
Qed.
Lemma country_code c s : code_name countries c s -> GetCountryName c = B s.
Proof.
  intros H. unfold GetCountryName. replace country_names with (by_name countries) by (vm_compute; reflexivity).
  apply named_code; [apply distinct_nodup; vm_compute; reflexivity|exact H].
Qed.
Lemma substream_code c s : code_name substreams c s -> GetBOFType c = B s.
Proof.
  intros H. unfold GetBOFType. replace bof_types with (by_name substreams) by (vm_compute; reflexivity).
  apply named_code; [apply distinct_nodup; vm_compute; reflexivity|exact H].
Qed.
Lemma page_code c s : In (c, s) windows_pages -> CPToString c = B s.
Proof.
  intros H. assert (K : forallb (fun x => bytes_eqb (CPToString (fst x)) (B (snd x))) windows_pages = true) by (vm_compute; reflexivity).
  rewrite forallb_forall in K. specialize (K _ H). apply bytes_eqb_eq, K.
Qed.

(** ** Links *)
Lemma sup_fields p before d r l : built p before 0x600 0x1AE d r -> fields p r = Ok l ->
  exists rgst, r_body r = SupBook (bit_field d 16 16) rgst l /\ SupBookRecord d = Ok (SupBook (bit_field d 16 16) rgst l).
Proof.
  intros H E. destruct (built_body p before _ d r H) as (b & Hb & ->). change (SupBookRecord d = Ok b) in Hb. pose proof Hb as H0.
  unfold SupBookRecord in Hb. steps Hb. injection Hb as <-. apply us_val in E1; [|reflexivity]. change (8 * 2) with 16 in E1. subst x0.
  cbn [fields r_body] in E. injection E as <-. eexists. split; [reflexivity|exact H0].
Qed.
Lemma sup_path p before d r l : built p before 0x600 0x1AE d r -> fields p r = Ok l -> 1 <= bit_field d 16 16 <= 255 -> 4 < lenN d ->
  exists w, window d 4 (bit_field d 16 16) w /\
    l = [fld "ctab" (Num (bit_field d 0 16)); fld "cch" (Num (bit_field d 16 16)); fld "virtPath" (Str w)].
Proof.
  intros H E R L. destruct (sup_fields p before d r l H E) as (rgst & _ & Hb). unfold SupBookRecord in Hb.
  destruct (ReadUShort d (lenN d) 0 false) as [ctab|e| |] eqn:E0; try discriminate Hb. cbn [bind] in Hb.
  destruct (ReadUShort d (lenN d) 2 false) as [cch|e| |] eqn:E1; try discriminate Hb. cbn [bind] in Hb.
  apply us_val in E0, E1; try reflexivity. change (8 * 0) with 0 in E0. change (8 * 2) with 16 in E1. subst ctab cch.
  set (cch := bit_field d 16 16) in *. replace ((4 <? lenN d) && (1 <=? cch) && (cch <=? 255)) with true in Hb by lia.
  unfold ReadString in Hb. rewrite u32_small in Hb by lia. destruct (lenN d <? 4 + cch); [discriminate Hb|].
  destruct (slice d 4 cch) as [w|e| |] eqn:S; try discriminate Hb. cbn [bind] in Hb.
  replace ((cch =? 14849) || (cch =? 1025)) with false in Hb by lia. rewrite andb_false_r in Hb. cbn [bind app] in Hb.
  injection Hb as _ <-. exists w. split; [apply slice_window, S|reflexivity].
Qed.
Lemma sup_no_path p before d r l v : built p before 0x600 0x1AE d r -> fields p r = Ok l ->
  In (fld "virtPath" v) l -> 1 <= bit_field d 16 16 <= 255 /\ 4 < lenN d.
Proof.
  intros H E I. destruct (sup_fields p before d r l H E) as (rgst & _ & Hb). unfold SupBookRecord in Hb.
  destruct (ReadUShort d (lenN d) 0 false) as [ctab|e| |] eqn:E0; try discriminate Hb. cbn [bind] in Hb.
  destruct (ReadUShort d (lenN d) 2 false) as [cch|e| |] eqn:E1; try discriminate Hb. cbn [bind] in Hb.
  apply us_val in E1; try reflexivity. change (8 * 2) with 16 in E1. subst cch. set (cch := bit_field d 16 16) in *.
  destruct ((4 <? lenN d) && (1 <=? cch) && (cch <=? 255)) eqn:C; [lia|]. cbn [bind] in Hb.
  match type of Hb with bind ?m _ = _ => destruct m as [g|e| |]; try discriminate Hb end. cbn [bind] in Hb. injection Hb as _ <-.
  cbn [app] in I. destruct I as [I|[I|I]]; [injection I as I; discriminate I..|].
  destruct g as [|x g]; [destruct I|]. destruct I as [I|[]]. injection I as I. discriminate I.
Qed.
Lemma link_length sheets path names : lenN (link_data sheets path names) = 5 + lenN path + lenN names.
Proof. unfold link_data. rewrite !lenN_app, !lenN_to_le, lenN_cons, lenN_app. lia. Qed.
Lemma field_at d off n x a b : d = a ++ to_le n x ++ b -> lenN a = off -> x < 256 ^ N.of_nat n -> bit_field d (8 * off) (8 * N.of_nat n) = x.
Proof. intros E L H. symmetry. apply load_val. apply (load_at d off n a x b E L H). Qed.
Lemma link_shown p before sheets path names r l : sheets < 2 ^ 16 -> 1 <= lenN path <= 255 ->
  built p before 0x600 0x1AE (link_data sheets path names) r -> fields p r = Ok l ->
  l = [fld "ctab" (Num sheets); fld "cch" (Num (lenN path)); fld "virtPath" (Str (x00 :: removelast path))].
Proof.
  intros Hs Hp H E. set (d := link_data sheets path names) in *.
  assert (F0 : bit_field d 0 16 = sheets).
  { apply (field_at d 0 2 sheets [] (to_le 2 (lenN path) ++ x00 :: path ++ names)); [reflexivity|reflexivity|exact Hs]. }
  assert (F1 : bit_field d 16 16 = lenN path).
  { apply (field_at d 2 2 (lenN path) (to_le 2 sheets) (x00 :: path ++ names)); [reflexivity|reflexivity|].
    change (256 ^ N.of_nat 2) with 65536. lia. }
  assert (Ld : lenN d = 5 + lenN path + lenN names) by apply link_length.
  destruct (sup_path p before d r l H E ltac:(rewrite F1; lia) ltac:(lia)) as (w & W & ->). rewrite F0, F1 in *.
  replace w with (x00 :: removelast path); [reflexivity|]. apply slice_window in W. apply slice_inv in W. destruct W as (_ & -> & _).
  replace d with ((to_le 2 sheets ++ to_le 2 (lenN path)) ++ x00 :: path ++ names) by (unfold d, link_data; rewrite <- app_assoc; reflexivity).
  change 4 with (lenN (to_le 2 sheets ++ to_le 2 (lenN path))). rewrite dropN_app_exact.
  assert (Np : path <> []) by (intros ->; vm_compute in Hp; destruct Hp; congruence).
  pose proof (app_removelast_last x00 Np) as Q. set (q := removelast path) in *. set (z := last path x00) in *. rewrite Q.
  rewrite <- app_assoc. change (x00 :: q ++ [z] ++ names) with ((x00 :: q) ++ [z] ++ names).
  rewrite lenN_app. replace (lenN q + lenN [z]) with (lenN (x00 :: q)) by (rewrite lenN_cons; reflexivity). rewrite takeN_app_exact. reflexivity.
Qed.

(** *** Functions of add-ins *)
Lemma prev_last t before r : last_of_type t before r -> prev_of_type t before = Ok (Some r).
Proof.
  intros (a & b & -> & E & F). assert (K : find (fun x => r_type x =? t) (a ++ r :: b) = Some r).
  { induction F as [|x a H _ IH]; cbn [app find]; [rewrite E, N.eqb_refl; reflexivity|]. replace (r_type x =? t) with false by lia. exact IH. }
  unfold prev_of_type. rewrite K. destruct a; reflexivity.
Qed.
Lemma sup_body p before d r : built p before 0x600 0x1AE d r -> exists g l, r_body r = SupBook (bit_field d 16 16) g l.
Proof.
  intros H. destruct (built_body p before _ d r H) as (b & Hb & ->). change (SupBookRecord d = Ok b) in Hb.
  unfold SupBookRecord in Hb. steps Hb. injection Hb as <-. apply us_val in E0; [|reflexivity]. change (8 * 2) with 16 in E0. subst x0.
  do 2 eexists. reflexivity.
Qed.
Lemma add_in p before0 ds rs before flags reserved high name more r l : flags < 2 ^ 16 -> reserved < 2 ^ 32 -> high < 128 -> lenN name < 256 ->
  built p before0 0x600 0x1AE ds rs -> bit_field ds 16 16 = 0x3A01 -> last_of_type 0x1AE before rs ->
  built p before 0x600 0x23 (add_in_data flags reserved high name more) r -> fields p r = Ok l ->
  forall v, In (fld "addinUdf" v) l <-> v = Str name.
Proof.
  intros Hf Hr Hh Hn Hs Hc HL H E v. destruct (sup_body _ _ _ _ Hs) as (g & ls & Eb). rewrite Hc in Eb.
  set (d := add_in_data flags reserved high name more) in *.
  destruct (built_body p before _ d r H) as (b & Hb & ->). change (ExternNameRecord p before d = Ok b) in Hb.
  unfold ExternNameRecord in Hb. rewrite (prev_last _ _ _ HL) in Hb. cbn [bind] in Hb. rewrite Eb in Hb.
  change (14849 =? 14849) with true in Hb. cbv iota in Hb.
  rewrite (uint_at d 2 (to_le 2 flags) reserved (n2b (lenN name) :: n2b (2 * high) :: name ++ more)) in Hb;
    [|reflexivity|reflexivity|exact Hr|reflexivity]. cbn [bind] in Hb.
  assert (Ld : lenN d = 8 + lenN name + lenN more) by (unfold d, add_in_data; rewrite !lenN_app, !lenN_to_le, !lenN_cons, lenN_app; lia).
  assert (A : d = (to_le 2 flags ++ to_le 4 reserved ++ [n2b (lenN name); n2b (2 * high)]) ++ name ++ more)
    by (unfold d, add_in_data; rewrite <- !app_assoc; reflexivity).
  assert (S : ShortString p d 6 = Ok (name, 2 + lenN name)).
  { unfold ShortString. change (u32 (6 + 1)) with 7. change (u32 (6 + 2)) with 8.
    assert (R : forall k x, nthN d k = Some x -> rd d k = Ok (b2n x)) by (intros k x Hk; unfold rd; rewrite Hk; reflexivity).
    rewrite (R 6 (n2b (lenN name)) ltac:(reflexivity)). cbn [bind]. rewrite (R 7 (n2b (2 * high)) ltac:(reflexivity)). cbn [bind].
    rewrite !b2n_n2b, (N.mod_small (lenN name)), (N.mod_small (2 * high)) by lia.
    replace (bits (2 * high) 0 1) with 0 by (unfold bits; rewrite N.shiftr_0_r, N.mul_comm; symmetry; apply N.mod_mul; discriminate).
    change (0 =? 0) with true. cbv iota. rewrite slice_ok by lia. cbn [bind].
    replace (takeN (lenN name) (dropN 8 d)) with name; [reflexivity|]. rewrite A.
    change 8 with (lenN (to_le 2 flags ++ to_le 4 reserved ++ [n2b (lenN name); n2b (2 * high)])). rewrite dropN_app_exact, takeN_app_exact. reflexivity. }
  rewrite S in Hb. cbn [bind fst] in Hb. injection Hb as <-. cbn [fields r_body] in E. unfold over in E. cbn [r_moved r_data] in E.
  unfold extern_fields in E. steps E. injection E as <-. clear.
  cbn [app In]. split.
  - intros H. repeat (destruct H as [H|H]; [first [discriminate H | injection H as H; discriminate H | injection H as <-; reflexivity]|]). destruct H.
  - intros ->. do 7 right. left. reflexivity.
Qed.
Lemma unnamed p d r l v : r = mkRec 0x23 d false (ExternName None) -> fields p r = Ok l -> ~ In (fld "addinUdf" v) l.
Proof.
  intros -> E. cbn [fields r_body] in E. unfold over in E. cbn [r_moved r_data] in E. unfold extern_fields in E. steps E.
  injection E as <-. clear. cbn [app In]. intros I.
  repeat (destruct I as [I|I]; [first [discriminate I | injection I as I; discriminate I]|]). destruct I.
Qed.
Lemma no_add_in p before0 ds rs before d r l v : built p before0 0x600 0x1AE ds rs -> bit_field ds 16 16 <> 0x3A01 -> last_of_type 0x1AE before rs ->
  built p before 0x600 0x23 d r -> fields p r = Ok l -> ~ In (fld "addinUdf" v) l.
Proof.
  intros Hs Hc HL H E. destruct (sup_body _ _ _ _ Hs) as (g & ls & Eb).
  destruct (built_body p before _ d r H) as (b & Hb & Er). change (ExternNameRecord p before d = Ok b) in Hb.
  unfold ExternNameRecord in Hb. rewrite (prev_last _ _ _ HL) in Hb. cbn [bind] in Hb. rewrite Eb in Hb.
  replace (bit_field ds 16 16 =? 14849) with false in Hb by lia. steps Hb. injection Hb as <-.
  apply (unnamed p d r l v Er E).
Qed.
Lemma no_link p before d r l v : Forall (fun x => r_type x <> 0x1AE) before ->
  built p before 0x600 0x23 d r -> fields p r = Ok l -> ~ In (fld "addinUdf" v) l.
Proof.
  intros F H E. destruct (built_body p before _ d r H) as (b & Hb & Er). change (ExternNameRecord p before d = Ok b) in Hb.
  unfold ExternNameRecord, prev_of_type in Hb. destruct before as [|r0 before]; [discriminate Hb|]. cbn [bind] in Hb.
  replace (find (fun x => r_type x =? 0x1AE) (r0 :: before)) with (@None rec) in Hb.
  - injection Hb as <-. apply (unnamed p d r l v Er E).
  - symmetry. clear - F. induction F as [|x a Hx _ IH]; [reflexivity|]. cbn [find]. replace (r_type x =? 0x1AE) with false by lia. exact IH.
Qed.

(** ** Blank cells *)
Lemma ushorts_read d formats : Forall (fun x => x < 2 ^ 16) formats -> lenN d < 2 ^ 31 ->
  forall a b, d = a ++ List.concat (map (to_le 2) formats) ++ b -> ushorts d (List.length formats) (lenN a) = Ok formats.
Proof.
  intros F L. induction F as [|x l Hx _ IH]; intros a b E; [reflexivity|]. cbn [List.length ushorts].
  cbn [map List.concat] in E. rewrite <- app_assoc in E.
  assert (La : lenN a < 2 ^ 31 - 1) by (rewrite E, !lenN_app, lenN_to_le in L; lia).
  rewrite (us_at d (lenN a) a x _ E eq_refl Hx ltac:(lia)). cbn [bind]. rewrite u32_small by lia.
  replace (lenN a + 2) with (lenN (a ++ to_le 2 x)) by (rewrite lenN_app, lenN_to_le; reflexivity).
  rewrite (IH (a ++ to_le 2 x) b) by (rewrite E, <- app_assoc; reflexivity). reflexivity.
Qed.
Lemma formats_length l : lenN (List.concat (map (to_le 2) l)) = 2 * lenN l.
Proof. induction l as [|x l IH]; [reflexivity|]. cbn [map List.concat]. rewrite lenN_app, lenN_to_le, IH, lenN_cons. lia. Qed.
Lemma blank_row p before row first formats : row < 2 ^ 16 -> formats <> [] -> first + lenN formats <= 2 ^ 16 -> Forall (fun x => x < 2 ^ 16) formats ->
  exists r a b t u, built p before 0x600 0xBE (blank_data row first formats) r /\
    fields p r = Ok [fld "rw" (Num row); fld "colFirst" (Str a); fld "colLast" (Str b); fld "rgixfe" (Raw t u)] /\
    column first a /\ column (first + lenN formats - 1) b /\ json_value t (JArr (map JNum formats)) /\ xml_content u (map (xnum "ixfe") formats).
Proof.
  intros Hr Nf Hc F. set (d := blank_data row first formats).
  assert (L1 : 1 <= lenN formats) by (destruct formats; [congruence|rewrite lenN_cons; lia]).
  assert (Ld : lenN d = 6 + 2 * lenN formats) by (unfold d, blank_data; rewrite !lenN_app, !lenN_to_le, formats_length; lia).
  set (last := first + lenN formats - 1) in *.
  assert (B0 : MulBlankRecord d = Ok (Fields ([fld "rw" (Num row); fld "colFirst" (Str (ColNumToName first)); fld "colLast" (Str (ColNumToName last))] ++
    [fld "rgixfe" (Raw (B "[" ++ vector_join (map dec formats) (B ",") false ++ B "]")
                       (List.concat (map (fun x => B "<ixfe>" ++ dec x ++ B "</ixfe>") formats)))]))).
  { unfold MulBlankRecord. rewrite (us_at d 0 [] row (to_le 2 first ++ List.concat (map (to_le 2) formats) ++ to_le 2 last)); [|reflexivity|reflexivity|lia|lia].
    cbn [bind]. rewrite (us_at d 2 (to_le 2 row) first (List.concat (map (to_le 2) formats) ++ to_le 2 last)); [|reflexivity|reflexivity|lia|lia].
    cbn [bind].
    replace (subw 32 (lenN d) 2) with (lenN d - 2) by (unfold subw; change (2 mod 2 ^ 32) with 2; change (2 ^ 32) with 4294967296; lia).
    rewrite (us_at d (lenN d - 2) (to_le 2 row ++ to_le 2 first ++ List.concat (map (to_le 2) formats)) last []);
      [|unfold d, blank_data; rewrite app_nil_r, <- !app_assoc; reflexivity|rewrite Ld, !lenN_app, !lenN_to_le, formats_length; lia|lia|lia].
    cbn [bind]. replace (u32 (last + 2 ^ 32 + 1 - first)) with (lenN formats) by (unfold u32; lia).
    rewrite N.min_l by lia. replace (N.to_nat (lenN formats)) with (List.length formats) by (unfold lenN; lia).
    change 4 with (lenN (to_le 2 row ++ to_le 2 first)).
    rewrite (ushorts_read d formats F ltac:(lia) _ (to_le 2 last)) by (unfold d, blank_data; rewrite <- !app_assoc; reflexivity).
    cbn [bind]. destruct formats; [congruence|reflexivity]. }
  exists (mkRec 0xBE d false (Fields ([fld "rw" (Num row); fld "colFirst" (Str (ColNumToName first)); fld "colLast" (Str (ColNumToName last))] ++
    [fld "rgixfe" (Raw (B "[" ++ vector_join (map dec formats) (B ",") false ++ B "]")
                       (List.concat (map (fun x => B "<ixfe>" ++ dec x ++ B "</ixfe>") formats)))]))).
  do 4 eexists. split; [|split; [reflexivity|split; [|split; [|split]]]].
  - unfold built, ParseRecord. change (record_body p before 0x600 0xBE d) with (MulBlankRecord d). rewrite B0. reflexivity.
  - apply column_name. lia.
  - apply column_name. lia.
  - apply numbers_value, Nf.
  - apply (number_elements "ixfe" formats). reflexivity.
Qed.

(** ** Colours *)
Lemma rgb_shown d off f : LongRGB d off = Ok f ->
  json_value (fst f) (JObj [jbits d "red" (8 * off) 8; jbits d "green" (8 * (off + 1)) 8; jbits d "blue" (8 * (off + 2)) 8; jbits d "reserved" (8 * (off + 3)) 8]) /\
  xml_content (snd f) [xel "LongRGB" [xbits d "red" (8 * off) 8; xbits d "green" (8 * (off + 1)) 8; xbits d "blue" (8 * (off + 2)) 8; xbits d "reserved" (8 * (off + 3)) 8]].
Proof.
  unfold LongRGB. intros H. steps H. injection H as <-. apply rd_val in E, E0, E1, E2. cbn [fst snd].
  unfold jbits, xbits. rewrite <- E, <- E0, <- E1, <- E2. split.
  - as_json (B "{" ++ (jn (B "red") x ++ B "," ++ jn (B "green") x0 ++ B "," ++ jn (B "blue") x1 ++ B "," ++ jn (B "reserved") x2) ++ B "}").
    apply object. repeat (apply jn_more; [reflexivity|]). apply jn_one. reflexivity.
  - as_xml (xelem (B "LongRGB") (xs (B "red") (dec x) ++ xs (B "green") (dec x0) ++ xs (B "blue") (dec x1) ++ xs (B "reserved") (dec x2) ++ [])).
    apply elem_one.
    + apply letters_name. reflexivity.
    + repeat (apply literal_cons; [reflexivity|apply plain_literal, plain_dec|]). constructor.
Qed.
Lemma area_colours p before d r l : built p before 0x600 0x100A d r -> fields p r = Ok l ->
  exists tf uf tb ub, In (fld "rgbFore" (Raw tf uf)) l /\ In (fld "rgbBack" (Raw tb ub)) l /\
    json_value tf (JObj [jbits d "red" 0 8; jbits d "green" 8 8; jbits d "blue" 16 8; jbits d "reserved" 24 8]) /\
    xml_content uf [xel "LongRGB" [xbits d "red" 0 8; xbits d "green" 8 8; xbits d "blue" 16 8; xbits d "reserved" 24 8]] /\
    json_value tb (JObj [jbits d "red" 32 8; jbits d "green" 40 8; jbits d "blue" 48 8; jbits d "reserved" 56 8]) /\
    xml_content ub [xel "LongRGB" [xbits d "red" 32 8; xbits d "green" 40 8; xbits d "blue" 48 8; xbits d "reserved" 56 8]].
Proof.
  intros H E. destruct (built_body p before _ d r H) as (b & Hb & ->). change (AreaFormatRecord d = Ok b) in Hb.
  unfold AreaFormatRecord in Hb. steps Hb. injection Hb as <-. cbn [fields r_body] in E. injection E as <-.
  apply rgb_shown in E0, E1. exists (fst x), (snd x), (fst x0), (snd x0).
  split; [left; reflexivity|]. split; [right; left; reflexivity|]. destruct E0, E1. auto.
Qed.

(** ** Counts of strings *)
Lemma si_val d off v : ReadSInt d (lenN d) off true = Ok v -> off < 2 ^ 31 ->
  (- 2 ^ 31 <= v < 2 ^ 31 /\ v mod 2 ^ 32 = Z.of_N (bit_field d (8 * off) 32))%Z.
Proof.
  intros E Ho. assert (U : exists w, ReadUInt d (lenN d) off true = Ok w /\ v = signed 32 w).
  { unfold ReadSInt in E. unfold ReadUInt. destruct (lenN d <? u32 (off + 3)); [discriminate E|]. steps E. injection E as <-. eexists. split; reflexivity. }
  destruct U as (w & U & ->). apply ui_val in U; [|exact Ho]. subst w.
  assert (Bd : bit_field d (8 * off) 32 < 2 ^ 32) by (unfold bit_field; apply N.mod_lt; discriminate).
  set (w := bit_field d (8 * off) 32) in *. clearbody w. unfold signed. change (32 - 1) with 31.
  change (2 ^ 31)%N with 2147483648%N in *. change (2 ^ 32)%N with 4294967296%N in *.
  change (2 ^ 31)%Z with 2147483648%Z. change (2 ^ 32)%Z with 4294967296%Z. destruct (N.ltb_spec w 2147483648); lia.
Qed.
Lemma string_counts p before d r l : built p before 0x600 0xFC d r -> fields p r = Ok l ->
  exists a b, (forall v, In (fld "cstTotal" v) l <-> v = Int a) /\ (forall v, In (fld "cstUnique" v) l <-> v = Int b) /\
    (- 2 ^ 31 <= a < 2 ^ 31 /\ a mod 2 ^ 32 = Z.of_N (bit_field d 0 32))%Z /\ (- 2 ^ 31 <= b < 2 ^ 31 /\ b mod 2 ^ 32 = Z.of_N (bit_field d 32 32))%Z.
Proof.
  intros H E. destruct (built_body p before _ d r H) as (b & Hb & ->). change (SSTRecord p d = Ok b) in Hb.
  unfold SSTRecord in Hb. steps Hb. injection Hb as <-. cbn [fields r_body] in E. injection E as <-.
  apply si_val in E0, E1; try lia. exists x, x0. split; [|split; [|split; assumption]]; intros v; cbn [app In]; split.
  - intros [I|[I|I]]; [injection I as <-; reflexivity|injection I as I; discriminate I|].
    destruct x1; [destruct I|]. destruct I as [I|[]]. injection I as I. discriminate I.
  - intros ->. auto.
  - intros [I|[I|I]]; [injection I as I; discriminate I|injection I as <-; reflexivity|].
    destruct x1; [destruct I|]. destruct I as [I|[]]. injection I as I. discriminate I.
  - intros ->. auto.
Qed.
