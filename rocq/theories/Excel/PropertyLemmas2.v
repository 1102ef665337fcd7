(** The statements of [Excel/Properties2.v]. *)
From Coq Require Import List NArith ZArith Bool Lia Strings.String Strings.Byte.
From Coq Require Import ZifyBool ZifyNat ZifyN.
From Verif Require Import Lib.Res Lib.Bytes Lib.BytesFacts Lib.Text Common.Model Common.Spec Common.ReadProofs
     Common.Utf8 Common.Utf8Proofs
     Excel.Number Excel.Model Excel.Records Excel.Engine Excel.Spec Excel.StringSpec Excel.Statements Excel.TextStatements
     Excel.EngineProofs Excel.CellProofs Excel.HistoryProofs Excel.SstProofs Excel.Samples.
Import ListNotations.
Local Open Scope N_scope.
Ltac Zify.zify_post_hook ::= Z.div_mod_to_equations.
Arguments N.pow : simpl never.
Arguments N.mul : simpl never.
Arguments N.add : simpl never.

(** ** C92: what the records are built from *)
Lemma C92_built : forall p what (S : bytes) x a e b, lenN S < 2 ^ 30 -> Detailer p what S = Ok x ->
  x_list x = a ++ e :: b -> a <> [] ->
  built p (rev (map fst a)) (Version (x_ext x)) (r_type (fst e)) (r_data (fst e))
    (mkRec (r_type (fst e)) (r_data (fst e)) false (r_body (fst e))).
Proof. exact record_built. Qed.

(** ** C98 *)
Lemma ascii_bytes l : ascii_text l -> utf8 (map n2b l) l.
Proof.
  induction 1 as [|c l H _ IH]; [constructor|]. cbn [map]. change (n2b c :: map n2b l) with ([n2b c] ++ map n2b l).
  constructor; [|exact IH]. assert (E : b2n (n2b c) = c) by (rewrite b2n_n2b; apply N.mod_small; lia).
  rewrite <- E at 2. constructor. lia.
Qed.
Lemma legible_text p s t : legible p s -> text_at p s t -> utf8 t (h_text s).
Proof.
  intros L [[W ->]|(W & _ & _ & U)]; [|exact U]. destruct L as [[_ A]|(W' & _)]; [|congruence]. apply ascii_bytes. exact A.
Qed.
Lemma legible_readable p s : legible p s -> readable p s.
Proof. intros [[W _]|(_ & R)] W'; [congruence|exact R]. Qed.

Lemma C98_strings : forall p before total l more, total < 2 ^ 32 -> Forall shared_ok l -> Forall simple l -> Forall (legible p) l -> l <> [] ->
  lenN (sst_data total l ++ more) < 2 ^ 31 ->
  exists r ts, built p before 0x600 0xFC (sst_data total l ++ more) r /\ strings_of r = Some ts /\
    Forall2 utf8 ts (map h_text l) /\ shows p r "strings" (Raw (strings_json ts) (strings_xml ts)).
Proof.
  intros p before total l more HT O S L NE HD.
  destruct (sst_read p before total l more HT O S) as (ts & fs & HB & F & EF).
  { eapply Forall_impl; [|exact L]. intros s. apply legible_readable. } { exact HD. }
  eexists. exists ts. split; [exact HB|]. split; [reflexivity|]. split.
  - clear HB EF HD NE O S. revert ts F L. induction l as [|s l IH]; intros ts F L; inversion F; subst; [constructor|].
    inversion L; subst. cbn [map]. constructor; [eapply legible_text; eassumption|]. apply IH; assumption.
  - exists fs. split; [reflexivity|]. rewrite EF. apply in_or_app. right. destruct ts; [inversion F; congruence|]. left. reflexivity.
Qed.
Lemma C98_bytes : forall p before total l more, total < 2 ^ 32 -> Forall shared_ok l -> Forall simple l -> Forall (fun s => h_wide s = false) l ->
  lenN (sst_data total l ++ more) < 2 ^ 31 ->
  exists r, built p before 0x600 0xFC (sst_data total l ++ more) r /\ strings_of r = Some (map (fun s => map n2b (h_text s)) l).
Proof.
  intros p before total l more HT O S W HD.
  destruct (sst_read p before total l more HT O S) as (ts & fs & HB & F & EF).
  { eapply Forall_impl; [|exact W]. cbn. intros s Hs Hw. congruence. } { exact HD. }
  eexists. split; [exact HB|]. cbn. f_equal. clear HB EF HD O S. revert ts F W.
  induction l as [|s l IH]; intros ts F W; inversion F as [|? t ? ts' T F']; subst; [reflexivity|]. inversion W; subst. cbn [map].
  f_equal; [destruct T as [[_ T]|[T _]]; [exact T|congruence]|]. apply IH; assumption.
Qed.
Lemma C98_latin : forall p before, exists l r t, Forall shared_ok l /\ Forall simple l /\ map h_text l = [[233]] /\
  built p before 0x600 0xFC (sst_data 1 l) r /\ strings_of r = Some [t] /\ forall m, ~ utf8 t m.
Proof.
  intros p before. exists [mkShared false [233] None None].
  assert (O : Forall shared_ok [mkShared false [233] None None]).
  { constructor; [|constructor]. split; [reflexivity|]. split; [constructor; [reflexivity|constructor]|]. split; exact I. }
  assert (S : Forall simple [mkShared false [233] None None]) by (constructor; [split; reflexivity|constructor]).
  destruct (C98_bytes p before 1 [mkShared false [233] None None] []) as (r & HB & HS).
  { reflexivity. } { exact O. } { exact S. } { constructor; [reflexivity|constructor]. } { vm_compute. reflexivity. }
  rewrite app_nil_r in HB. exists r. eexists. split; [exact O|]. split; [exact S|]. split; [reflexivity|]. split; [exact HB|]. split; [exact HS|].
  intros m U. cbn in U. inversion U as [|s c t l C _ E]; subst. inversion C; subst; cbn in E; injection E as E1; subst;
    match goal with H : b2n xe9 < 128 |- _ => vm_compute in H; discriminate H | _ => idtac end; discriminate.
Qed.

Lemma sst_inv p before d r : built p before 0x600 0xFC d r -> exists total unique l fs,
  ReadSInt d (lenN d) 0 true = Ok total /\ ReadSInt d (lenN d) 4 true = Ok unique /\
  sst_strings p d (Datatypes.S (List.length d)) 0 (Z.to_N (unique mod 2 ^ 32)) 8 = Ok l /\ r = mkRec 0xFC d false (SST l fs).
Proof.
  unfold built, ParseRecord. change (record_body p before 1536 252 d) with (SSTRecord p d). intros H.
  destruct (SSTRecord p d) as [b|[]| |] eqn:E; try discriminate H. injection H as <-.
  unfold SSTRecord in E. apply bind_ok in E. destruct E as (total & E1 & E). apply bind_ok in E. destruct E as (unique & E2 & E).
  apply bind_ok in E. destruct E as (l & E3 & [= <-]). repeat eexists; eassumption.
Qed.
Lemma sst_head total s l more : sst_data total (s :: l) ++ more =
  (to_le 4 total ++ to_le 4 (lenN (s :: l))) ++ shared_bytes s ++ List.concat (map shared_bytes l) ++ more.
Proof. unfold sst_data. cbn [map List.concat]. rewrite <- !app_assoc. reflexivity. Qed.
Lemma unique_read total s l more unique : lenN (s :: l) < 2 ^ 32 ->
  ReadSInt (sst_data total (s :: l) ++ more) (lenN (sst_data total (s :: l) ++ more)) 4 true = Ok unique ->
  Z.to_N (unique mod 2 ^ 32) = lenN (s :: l).
Proof.
  intros HL. rewrite ReadSInt_signed.
  rewrite (uint_at _ 4 (to_le 4 total) (lenN (s :: l)) (shared_bytes s ++ List.concat (map shared_bytes l) ++ more));
    [|rewrite sst_head, <- app_assoc; reflexivity|apply (lenN_to_le 4)|exact HL|lia].
  unfold rmap. cbn [bind]. intros [= <-]. apply signed_back. exact HL.
Qed.
Lemma C98_first : forall p before total s l more r, shared_ok s -> legible p s ->
  lenN (sst_data total (s :: l) ++ more) < 2 ^ 31 ->
  built p before 0x600 0xFC (sst_data total (s :: l) ++ more) r ->
  exists t ts, strings_of r = Some (t :: ts) /\ utf8 t (h_text s).
Proof.
  intros p before total s l more r O L HD HB. apply sst_inv in HB. destruct HB as (tt & unique & ts & fs & _ & E2 & E3 & ->).
  pose proof (lenN_shareds (s :: l)) as LL.
  assert (HL : lenN (s :: l) < 2 ^ 31).
  { unfold sst_data in HD. rewrite !lenN_app, !lenN_to_le in HD. lia. }
  rewrite (unique_read total s l more unique ltac:(lia) E2) in E3. cbn [sst_strings] in E3.
  rewrite sst_head in *.
  set (a := to_le 4 total ++ to_le 4 (lenN (s :: l))) in *. set (d := a ++ _) in *.
  assert (LA : lenN a = 8) by (unfold a; rewrite lenN_app, !lenN_to_le; reflexivity).
  destruct (rich_at p d a s _ eq_refl O (legible_readable p s L) HD) as (t & n & ER & T & _).
  rewrite LA in ER. replace (0 <? lenN (s :: l)) with true in E3 by (rewrite lenN_cons; lia).
  destruct (8 <? lenN d) eqn:E8.
  2:{ exfalso. pose proof (lenN_shared s). unfold d in E8. rewrite lenN_app, LA, lenN_app in E8. lia. }
  cbn [andb] in E3. rewrite ER in E3. cbn [bind] in E3. apply bind_ok in E3. destruct E3 as (ts' & _ & [= <-]).
  exists t, ts'. split; [reflexivity|]. eapply legible_text; eassumption.
Qed.

Definition rich_table : list shared := [mkShared false [65] (Some [0]) None; mkShared false [66; 67] None None].
Lemma C98_runs : forall p before, Forall shared_ok rich_table /\ exists r ts, built p before 0x600 0xFC (sst_data 2 rich_table) r /\
  strings_of r = Some ts /\ ts = [B "A"; []].
Proof.
  intros p before. split.
  { repeat constructor. }
  eexists. eexists. split; [unfold built, ParseRecord; change (record_body p before 1536 252 ?d) with (SSTRecord p d); vm_compute; reflexivity|].
  split; reflexivity.
Qed.

Lemma C98_wide_linux : forall p before total s l more, sizeof_wchar p = 4 -> total < 2 ^ 32 -> shared_ok s -> simple s -> h_wide s = true ->
  lenN (sst_data total (s :: l) ++ more) < 2 ^ 31 ->
  lenN (List.concat (map shared_bytes l) ++ more) < 2 * lenN (h_text s) ->
  ParseRecord p before 0x600 0xFC (sst_data total (s :: l) ++ more) = UB.
Proof.
  intros p before total s l more WP HT O SI W HD HM.
  assert (LT : lenN (tail s) = 0) by (unfold tail; destruct SI as [-> ->]; reflexivity).
  pose proof (lenN_shareds (s :: l)) as LL.
  assert (HL : lenN (s :: l) < 2 ^ 31).
  { unfold sst_data in HD. rewrite !lenN_app, !lenN_to_le in HD. lia. }
  unfold ParseRecord. change (record_body p before 1536 252 ?d) with (SSTRecord p d). unfold SSTRecord.
  rewrite !ReadSInt_signed. rewrite sst_head in *.
  set (a := to_le 4 total ++ to_le 4 (lenN (s :: l))) in *. set (d := a ++ _) in *.
  assert (LA : lenN a = 8) by (unfold a; rewrite lenN_app, !lenN_to_le; reflexivity).
  rewrite (uint_at d 0 [] total (to_le 4 (lenN (s :: l)) ++ shared_bytes s ++ List.concat (map shared_bytes l) ++ more));
    [|unfold d, a; rewrite <- app_assoc; reflexivity|reflexivity|exact HT|lia].
  rewrite (uint_at d 4 (to_le 4 total) (lenN (s :: l)) (shared_bytes s ++ List.concat (map shared_bytes l) ++ more));
    [|unfold d, a; rewrite <- app_assoc; reflexivity|apply (lenN_to_le 4)|lia|lia].
  unfold rmap. cbn [bind]. rewrite signed_back by lia. cbn [sst_strings].
  replace (0 <? lenN (s :: l)) with true by (rewrite lenN_cons; lia).
  replace (8 <? lenN d) with true.
  2:{ pose proof (lenN_shared s). unfold d. rewrite lenN_app, LA, lenN_app. lia. }
  cbn [andb]. destruct (rich_head p d a s _ eq_refl O HD) as (h & LH & ED & ER). rewrite LA in ER. rewrite ER, W. unfold wide.
  rewrite slice_ub; [reflexivity|]. rewrite ED, WP, !lenN_app. rewrite W. unfold characters. rewrite lenN_units, lenN_app in *. lia.
Qed.
Lemma C98_wide_refuted : exists l, Forall shared_ok l /\ Forall simple l /\ Forall (fun s => bmp_text (h_text s)) l /\
  ParseRecord linux64 [] 0x600 0xFC (sst_data 1 l) = UB.
Proof.
  exists [mkShared true [65; 66] None None]. split; [repeat constructor|]. split; [repeat constructor|].
  split; [|vm_compute; reflexivity]. constructor; [|constructor]. repeat constructor; vm_compute; reflexivity.
Qed.

(** *** Cells with shared strings *)
Lemma find_last t before r : last_of_type t before r -> find (fun x => r_type x =? t) before = Some r.
Proof.
  intros (a & b & -> & E & F). induction F as [|x a H _ IH]; cbn [app find].
  - rewrite E, N.eqb_refl. reflexivity.
  - replace (r_type x =? t) with false by lia. exact IH.
Qed.
Lemma C98_cell : forall p before rs ts rw col ixfe i more r, last_of_type 0xFC before rs -> strings_of rs = Some ts ->
  i < 2 ^ 32 -> 6 <= lenN more -> built p before 0x600 0xFD (label_sst rw col ixfe i more) r ->
  match nth_error ts (N.to_nat i) with
  | Some t => shows p r "Value" (Esc t)
  | None => forall v, ~ shows p r "Value" v
  end.
Proof.
  intros p before rs ts rw col ixfe i more r HL HS HI HM HB. set (d := label_sst rw col ixfe i more) in *.
  assert (ED : d = (to_le 2 rw ++ to_le 2 col ++ to_le 2 ixfe) ++ to_le 4 i ++ more) by (unfold d, label_sst; rewrite <- !app_assoc; reflexivity).
  assert (L6 : lenN (to_le 2 rw ++ to_le 2 col ++ to_le 2 ixfe) = 6) by (rewrite !lenN_app, !lenN_to_le; reflexivity).
  assert (LD : 16 <= lenN d) by (rewrite ED, lenN_app, L6, lenN_app, lenN_to_le; lia).
  unfold built, ParseRecord in HB. change (record_body p before 1536 253 d) with (LabelSstRecord before d) in HB. unfold LabelSstRecord in HB.
  rewrite (uint_at d 6 _ i more ED L6 HI ltac:(lia)) in HB. cbn [bind] in HB.
  unfold prev_of_type in HB. destruct before as [|r0 before]; [destruct HL as ([|? ?] & b & E & _); discriminate E|].
  rewrite (find_last _ _ _ HL) in HB. cbn [bind] in HB. unfold strings_of in HS. destruct (r_body rs); try discriminate HS. injection HS as ->.
  injection HB as <-. unfold shows, fields. cbn [r_body]. unfold over. cbn [r_moved r_data].
  unfold cell_over, load. rewrite !slice_ok by lia. cbn [bind].
  assert (Z : i <? lenN ts = match nth_error ts (N.to_nat i) with Some _ => true | None => false end).
  { destruct (nth_error ts (N.to_nat i)) eqn:E.
    - assert (nth_error ts (N.to_nat i) <> None) by congruence. apply nth_error_Some in H. unfold lenN. lia.
    - apply nth_error_None in E. unfold lenN. lia. }
  rewrite Z. destruct (nth_error ts (N.to_nat i)) as [t|].
  - eexists. split; [reflexivity|]. right. right. left. reflexivity.
  - intros v (l0 & [= <-] & [H|[H|[]]]); discriminate H.
Qed.

(** *** Names of sheets *)
Lemma short_wide p offset b4 b5 flags name more : lenN name < 256 -> flags < 256 -> N.odd flags = true ->
  ShortString p (wide_sheet offset b4 b5 flags name more) 6 =
    (w <- wide p (wide_sheet offset b4 b5 flags name more) 8 (lenN name) ;; s <- convert w ;; Ok (s, 2 + lenN name)).
Proof.
  intros HN HF HO. set (d := wide_sheet _ _ _ _ _ _). unfold ShortString.
  assert (R6 : rd d 6 = Ok (lenN name)).
  { unfold rd, d, wide_sheet. rewrite nthN_app2 by (rewrite lenN_to_le; lia). rewrite lenN_to_le.
    change (nthN _ _) with (Some (n2b (lenN name))). cbv iota beta. rewrite b2n_n2b, N.mod_small by exact HN. reflexivity. }
  assert (R7 : rd d (u32 (6 + 1)) = Ok flags).
  { change (u32 (6 + 1)) with 7. unfold rd, d, wide_sheet. rewrite nthN_app2 by (rewrite lenN_to_le; lia). rewrite lenN_to_le.
    change (nthN _ _) with (Some (n2b flags)). cbv iota beta. rewrite b2n_n2b, N.mod_small by exact HF. reflexivity. }
  rewrite R6, R7. cbn [bind]. change (u32 (6 + 2)) with 8. rewrite bit_of, N.bit0_odd, HO. reflexivity.
Qed.
Lemma wide_sheet_split offset b4 b5 flags name more : exists h, lenN h = 8 /\ wide_sheet offset b4 b5 flags name more = h ++ units 2 name ++ more.
Proof.
  exists (to_le 4 offset ++ [n2b b4; n2b b5; n2b (lenN name); n2b flags]). split; [rewrite lenN_app, lenN_to_le; reflexivity|].
  unfold wide_sheet. rewrite <- app_assoc. reflexivity.
Qed.
Lemma C98_names : forall p before offset b4 b5 flags name more, sizeof_wchar p = 2 -> lenN name < 256 -> flags < 256 -> N.odd flags = true ->
  bmp_text name ->
  exists r t, built p before 0x600 0x85 (wide_sheet offset b4 b5 flags name more) r /\ shows p r "Name" (Esc t) /\ utf8 t name.
Proof.
  intros p before offset b4 b5 flags name more WP HN HF HO HB.
  destruct (wide_sheet_split offset b4 b5 flags name more) as (h & LH & ED).
  destruct (bmp_convert name HB) as (t & EC & _ & U).
  set (d := wide_sheet _ _ _ _ _ _) in *.
  exists (mkRec 0x85 d false (BoundSheet8 t)), t. split; [|split; [|exact U]].
  - unfold built, ParseRecord. change (record_body p before 1536 133 d) with (BoundSheet8Record p d). unfold BoundSheet8Record.
    unfold d. rewrite short_wide by assumption. fold d. unfold wide. rewrite slice_ok by (rewrite ED, !lenN_app, lenN_units, LH, WP; lia).
    cbn [bind]. rewrite ED. rewrite <- LH at 1. rewrite dropN_app_exact.
    replace (takeN _ _) with (units 2 name).
    2:{ rewrite WP. replace (lenN name * 2) with (lenN (units 2 name)) by (rewrite lenN_units; lia). rewrite takeN_app_exact. reflexivity. }
    replace (to_wchars p (units 2 name)) with name; [rewrite EC; reflexivity|].
    symmetry. replace 2%nat with (N.to_nat (sizeof_wchar p)) by (rewrite WP; reflexivity). apply to_wchars_units; [lia|].
    rewrite WP. eapply Forall_impl; [|exact HB]. cbn. tauto.
  - unfold shows, fields. cbn [r_body]. unfold over. cbn [r_moved r_data]. unfold sheet_fields.
    assert (LD : 8 <= lenN d) by (rewrite ED, lenN_app, LH; lia).
    destruct (rd_lt d 4 ltac:(lia)) as (x & -> & _). destruct (rd_lt d 5 ltac:(lia)) as (y & -> & _).
    cbn [bind]. eexists. split; [reflexivity|]. left. reflexivity.
Qed.
Lemma C98_names_linux : forall p before offset b4 b5 flags name more, sizeof_wchar p = 4 -> lenN name < 256 -> flags < 256 -> N.odd flags = true ->
  lenN more < 2 * lenN name ->
  ParseRecord p before 0x600 0x85 (wide_sheet offset b4 b5 flags name more) = UB.
Proof.
  intros p before offset b4 b5 flags name more WP HN HF HO HM.
  destruct (wide_sheet_split offset b4 b5 flags name more) as (h & LH & ED).
  unfold ParseRecord. change (record_body p before 1536 133 ?d) with (BoundSheet8Record p d). unfold BoundSheet8Record.
  rewrite short_wide by assumption. unfold wide. rewrite slice_ub; [reflexivity|].
  rewrite ED, !lenN_app, lenN_units, LH, WP. lia.
Qed.

Definition sst_table : list shared :=
  [mkShared false [104; 101; 108; 108; 111] None None; mkShared false [] None None; mkShared false [34; 60] None None].
Lemma C98_ex : Forall shared_ok sst_table /\ Forall simple sst_table /\ Forall (legible linux64) sst_table /\
  exists r, built linux64 [] 0x600 0xFC (sst_data 4 sst_table) r /\ strings_of r = Some [B "hello"; []; B """<"] /\
    exists c, built linux64 [r] 0x600 0xFD (label_sst 0 0 15 2 (repeat x00 6)) c /\ shows linux64 c "Value" (Esc (B """<")).
Proof.
  split; [repeat constructor|]. split; [repeat constructor|]. split.
  { repeat constructor; vm_compute; reflexivity. }
  eexists. split; [vm_compute; reflexivity|]. split; [reflexivity|].
  eexists. split; [vm_compute; reflexivity|]. eexists. split; [vm_compute; reflexivity|]. vm_compute. right. right. left. reflexivity.
Qed.
