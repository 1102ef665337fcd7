(** Proofs for C92-C97, with the examples. *)
From Coq Require Import List NArith ZArith Bool Lia Strings.String Strings.Byte.
From Coq Require Import ZifyBool ZifyNat ZifyN.
From Verif Require Import Lib.Res Lib.Bytes Lib.BytesFacts Lib.Text Common.Model Common.Spec Common.ReadProofs
     Excel.Number Excel.Model Excel.Records Excel.Engine Excel.Spec Excel.Statements Excel.EngineProofs
     Excel.SheetProofs Excel.SheetList Excel.CellProofs Excel.OutputSafety Excel.OutputProofs Excel.PlainProofs Excel.NumberProofs Excel.Samples.
From Verif Require Propset.Spec Propset.Statements Magic.Spec.
Import ListNotations.
Local Open Scope N_scope.
Ltac Zify.zify_post_hook ::= Z.div_mod_to_equations.
Arguments N.pow : simpl never.
Arguments N.mul : simpl never.
Arguments N.add : simpl never.
Notation column := Excel.Spec.column.

Lemma said_has : has_text said_text.
Proof. intros e. discriminate. Qed.
Lemma book_read : Detailer linux64 said_text book = Ok book_info.
Proof. vm_compute. reflexivity. Qed.
Lemma book_version : Version (x_ext book_info) = 0x600.
Proof. vm_compute. reflexivity. Qed.
Lemma book_small : lenN book < 2 ^ 30.
Proof. vm_compute. reflexivity. Qed.
Fixpoint okb (l : list (N * bytes)) : bool := match l with [] => true | r :: l => (fst r <? 2 ^ 16) && (lenN (snd r) <? 2 ^ 16) && okb l end.
Lemma okb_ok l : okb l = true -> Forall record_ok l.
Proof.
  induction l as [|r l IH]; cbn [okb]; [constructor|]. rewrite !andb_true_iff. intros [[H1 H2] H3]. constructor; [|apply IH; exact H3].
  split; apply N.ltb_lt; assumption.
Qed.

(** ** C92 *)
Lemma C92_reported p what (S : bytes) x : lenN S < 2 ^ 30 -> has_text what -> Detailer p what S = Ok x ->
  exists a c, seen S = a ++ c /\ reported a (entries x) /\ (x_error x = [] <-> c = []).
Proof. exact (all_reported p what S x). Qed.
Lemma C92_stream l r : Forall record_ok l -> record_ok r -> seen (stream_of (l ++ [r])) = without_last_data l r.
Proof. exact (seen_stream l r). Qed.
Lemma C92_plain p what t d l r : Forall record_ok ((t, d) :: l) -> record_ok r ->
  lenN (stream_of ((t, d) :: l ++ [r])) < 2 ^ 30 -> begins_stream t -> 2 <= lenN d ->
  Forall (fun r => ~ In (fst r) content_types) ((t, d) :: l ++ [r]) ->
  exists x, Detailer p what (stream_of ((t, d) :: l ++ [r])) = Ok x /\ x_error x = [] /\
    entries x = without_last_data ((t, d) :: l) r.
Proof. exact (plain_stream p what t d l r). Qed.
Lemma C92_end p what : exists l r, Forall record_ok (l ++ [r]) /\
  exists x, Detailer p what (stream_of (l ++ [r])) = Ok x /\ entries x = l.
Proof.
  exists [(0x809, bof8 5); (0x22, to_le 2 0)], (0x0A, []). split; [apply okb_ok; vm_compute; reflexivity|].
  eexists. split; [vm_compute; reflexivity|]. reflexivity.
Qed.
Lemma C92_data p what : exists l t d, Forall record_ok (l ++ [(t, d)]) /\ d <> [] /\
  exists x, Detailer p what (stream_of (l ++ [(t, d)])) = Ok x /\ entries x = l ++ [(t, [])].
Proof.
  exists [(0x809, bof8 5)], 0x22, (to_le 2 1). split; [apply okb_ok; vm_compute; reflexivity|]. split; [discriminate|].
  eexists. split; [vm_compute; reflexivity|]. reflexivity.
Qed.
Lemma C92_ex : seen book = without_last_data (removelast book_records) (0x0A, []) /\ entries book_info = seen book /\ x_error book_info = [].
Proof. vm_compute. auto. Qed.

(** ** C93 *)
Lemma C93_version p what (S : bytes) x : lenN S < 2 ^ 30 -> Detailer p what S = Ok x ->
  exists t d more name, seen S = (t, d) :: more /\ begins_stream t /\ 2 <= lenN d /\
    version_name (le (takeN 2 d)) name /\
    x_ext x = mkExt (B "xls") (B "Microsoft Office Excel Workbook") name (le (takeN 2 d)) name.
Proof.
  intros HS H. destruct (version_of_workbook p what S x HS H) as (t & d & more & v & E & BT & HD & -> & EX).
  exists t, d, more, (GetVersion_Excel (le (takeN 2 d))). split; [exact E|]. split; [exact BT|]. split; [exact HD|].
  split; [apply name_of_version|exact EX].
Qed.
Lemma C93_unset p what (S : bytes) : lenN S < 2 ^ 30 ->
  (forall t d more, seen S = (t, d) :: more -> ~ begins_stream t) -> Detailer p what S = UB.
Proof. exact (no_version p what S). Qed.
Lemma C93_short p what (S : bytes) t d more : lenN S < 2 ^ 30 -> seen S = (t, d) :: more -> lenN d < 2 -> Detailer p what S = UB.
Proof. exact (first_short p what S t d more). Qed.
Lemma C93_empty p what : exists S, Detailer p what S = UB.
Proof. exists []. vm_compute. reflexivity. Qed.
Lemma C93_ex : x_ext book_info = mkExt (B "xls") (B "Microsoft Office Excel Workbook") (B "BIFF8") 0x600 (B "BIFF8").
Proof. vm_compute. reflexivity. Qed.

(** ** C94 *)
Lemma C94_sheets p what (S : bytes) x : lenN S < 2 ^ 30 -> Detailer p what S = Ok x -> Version (x_ext x) = 0x600 ->
  Forall2 sheet_for (sheet_records (entries x)) (x_sheets x).
Proof. exact (sheets_of_workbook p what S x). Qed.
Lemma C94_places p what (S : bytes) x : lenN S < 2 ^ 30 -> Detailer p what S = Ok x ->
  exists a c, seen S = a ++ c /\
    placed (place_of (Version (x_ext x))) place_start a (map (fun e => (entry e, snd e)) (x_list x)) /\
    (x_error x = [] -> has_text what -> c = []).
Proof. exact (all_placed p what S x). Qed.
Lemma C94_ex : map snd (x_list book_info) =
    repeat None 9 ++ repeat (Some 0) 4 ++ repeat (Some 1) 2 /\
  x_sheets book_info = [mkSheet (B "First") 0 0 first_at; mkSheet (B "Second") 0 0 second_at].
Proof. vm_compute. auto. Qed.

(** ** C95 *)
Lemma C95_columns n : n < 2 ^ 16 -> column n (ColNumToName n).
Proof. exact (column_name n). Qed.
Lemma C95_unique n s t : column n s -> column n t -> s = t.
Proof. exact (column_unique s t n). Qed.
Lemma first_ushorts d rw col : ReadUShort d (lenN d) 0 false = Ok rw -> ReadUShort d (lenN d) 2 false = Ok col -> 4 <= lenN d ->
  rw = le (takeN 2 d) /\ col = le (takeN 2 (dropN 2 d)).
Proof.
  intros H1 H2 HL. rewrite us_le in H1 by lia. rewrite us_le in H2 by lia. injection H1 as <-. injection H2 as <-.
  rewrite dropN_0. auto.
Qed.
Lemma C95_formula p before d r : built p before 0x600 0x06 d r -> le (takeN 2 (dropN 2 d)) < 2 ^ 16 - 1 ->
  exists s, shows p r "Cell" (Str s) /\ a1 (le (takeN 2 d)) (le (takeN 2 (dropN 2 d))) s.
Proof.
  intros H HC. unfold built, ParseRecord in H. change (record_body p before 1536 6 d) with (FormulaRecord p before d) in H.
  destruct (FormulaRecord p before d) as [b|[]| |] eqn:E; try discriminate H. injection H as <-. unfold FormulaRecord in E. cbv zeta in E.
  apply bind_ok in E. destruct E as (rw & E1 & E). apply bind_ok in E. destruct E as (col & E2 & E).
  apply bind_ok in E. destruct E as (? & _ & E). apply bind_ok in E. destruct E as (? & E3 & E).
  apply slice_inv in E3. destruct E3 as (L & _ & _).
  destruct (first_ushorts d rw col E1 E2 ltac:(lia)) as [-> ->]. repeat (apply bind_ok in E; destruct E as (? & _ & E)). injection E as <-.
  eexists. split; [|apply cell_right; exact HC]. eexists. split; [reflexivity|]. unfold shows. cbn [r_body In]. do 13 right. left. reflexivity.
Qed.
Lemma C95_rk p before rw col ixfe x : rw < 2 ^ 16 -> col < 2 ^ 16 -> ixfe < 2 ^ 16 -> x < 2 ^ 32 ->
  exists r s c, built p before 0x600 0x27E (rk_data rw col ixfe x) r /\ shows p r "Cell" (Str s) /\
    column col c /\ s = c ++ dec (rw + 1).
Proof.
  intros H1 H2 H3 H4. destruct (rk_shown p before rw col ixfe x H1 H2 H3 H4) as (r & HB & HF).
  exists r, (ColNumToName col ++ dec (rw + 1)), (ColNumToName col). split; [exact HB|]. split; [|split; [apply column_name; exact H2|reflexivity]].
  eexists. split; [exact HF|]. cbn [In]. do 6 right. left. reflexivity.
Qed.
Lemma C95_mulblank p before d r : built p before 0x600 0xBE d r -> 4 <= lenN d ->
  exists s, shows p r "colFirst" (Str s) /\ column (le (takeN 2 (dropN 2 d))) s.
Proof.
  intros H HL. unfold built, ParseRecord in H. change (record_body p before 1536 190 d) with (MulBlankRecord d) in H.
  destruct (MulBlankRecord d) as [b|[]| |] eqn:E; try discriminate H. injection H as <-. unfold MulBlankRecord in E. cbv zeta in E.
  apply bind_ok in E. destruct E as (rw & E1 & E). apply bind_ok in E. destruct E as (col & E2 & E).
  destruct (first_ushorts d rw col E1 E2 HL) as [-> ->]. apply bind_ok in E. destruct E as (la & _ & E).
  apply bind_ok in E. destruct E as (l & _ & E). injection E as <-.
  exists (ColNumToName (le (takeN 2 (dropN 2 d)))). split.
  - eexists. split; [reflexivity|]. cbn [r_body In app]. right. left. reflexivity.
  - apply column_name. apply le2_lt.
Qed.
Lemma C95_other_bytes p before t d r : In t [0x201; 0x205; 0xFD] -> built p before 0x600 t d r ->
  (lenN d < 16 -> fields p r = UB) /\
  (16 <= lenN d -> le (takeN 2 (dropN 14 d)) < 2 ^ 16 - 1 ->
   exists s, shows p r "Cell" (Str s) /\ a1 (le (takeN 2 (dropN 12 d))) (le (takeN 2 (dropN 14 d))) s).
Proof.
  intros IT H.
  assert (E : exists l, r = mkRec t d false (CellOver l)).
  { unfold built, ParseRecord in H. destruct IT as [<-|[<-|[<-|[]]]].
    - change (record_body p before 1536 0x201 d) with (BlankRecord d) in H. unfold BlankRecord in H.
      destruct (lenN d <? 6); [discriminate|]. injection H as <-. eexists. reflexivity.
    - change (record_body p before 1536 0x205 d) with (BoolErrRecord d) in H.
      destruct (BoolErrRecord d) as [b|[]| |] eqn:E; try discriminate H. injection H as <-. unfold BoolErrRecord in E.
      destruct (lenN d <? 8); [discriminate|]. do 2 (apply bind_ok in E; destruct E as (? & _ & E)). injection E as <-. eexists. reflexivity.
    - change (record_body p before 1536 0xFD d) with (LabelSstRecord before d) in H.
      destruct (LabelSstRecord before d) as [b|[]| |] eqn:E; try discriminate H. injection H as <-. unfold LabelSstRecord in E.
      do 2 (apply bind_ok in E; destruct E as (? & _ & E)). injection E as <-. eexists. reflexivity. }
  destruct E as (l & ->). unfold shows, fields, over, cell_over. cbn [r_body r_moved r_data]. split.
  - intros HL. rewrite load_ub by lia. reflexivity.
  - intros HL HC. unfold load. rewrite !slice_ok by lia. cbn [bind]. eexists. split; [eexists; split; [reflexivity|left; reflexivity]|].
    apply cell_right. exact HC.
Qed.
Lemma a1_unique r c s t : a1 r c s -> a1 r c t -> s = t.
Proof. intros (x & X & ->) (y & Y & ->). rewrite (column_unique _ _ _ X Y). reflexivity. Qed.
Lemma C95_refuted p before : exists rw col ixfe x r s, built p before 0x600 0x27E (rk_data rw col ixfe x) r /\
  shows p r "Cell" (Str s) /\ ~ a1 rw col s.
Proof.
  destruct (rk_shown p before 0 1 15 6 ltac:(vm_compute; reflexivity) ltac:(vm_compute; reflexivity) ltac:(vm_compute; reflexivity) ltac:(vm_compute; reflexivity)) as (r & HB & HF).
  exists 0, 1, 15, 6, r, (B "A1"). split; [exact HB|]. split; [eexists; split; [exact HF|]; cbn [In]; do 6 right; left; reflexivity|].
  intros A. pose proof (a1_unique 0 1 _ _ A (cell_right 0 1 ltac:(vm_compute; reflexivity))) as E. vm_compute in E. discriminate E.
Qed.
Lemma C95_ex : column 28 (B "AB") /\ a1 4 1 (B "B5") /\
  exists r, built linux64 [] 0x600 0x06 formula r /\ shows linux64 r "Cell" (Str (B "B5")).
Proof.
  split; [split; [repeat constructor; vm_compute; discriminate|reflexivity]|].
  split; [exists (B "B"); split; [split; [repeat constructor; vm_compute; discriminate|reflexivity]|reflexivity]|].
  eexists. split; [vm_compute; reflexivity|]. eexists. split; [reflexivity|]. cbn [r_body In]. do 13 right. left. reflexivity.
Qed.

(** ** C96 *)
Lemma rk_value_shown p before rw col ixfe x : rw < 2 ^ 16 -> col < 2 ^ 16 -> ixfe < 2 ^ 16 -> x < 2 ^ 32 ->
  rk_reported p before rw col ixfe x (rk_value x).
Proof.
  intros H1 H2 H3 H4. destruct (rk_shown p before rw col ixfe x H1 H2 H3 H4) as (r & HB & HF). exists r. split; [exact HB|].
  eexists. split; [exact HF|]. cbn [In]. do 7 right. left. reflexivity.
Qed.
Lemma C96_whole p before rw col ixfe x : rw < 2 ^ 16 -> col < 2 ^ 16 -> ixfe < 2 ^ 16 -> x < 2 ^ 32 ->
  rk_integer x = true -> rk_hundredths x = false -> (0 <= rk_int x)%Z ->
  rk_reported p before rw col ixfe x (dec_z (rk_int x)).
Proof. intros H1 H2 H3 H4 HI HX HZ. rewrite <- (rk_right x H4 HI HX HZ). apply rk_value_shown; assumption. Qed.
Lemma rk_below x : x < 2 ^ 32 -> (rk_int x < 0)%Z -> (rk_int x + 2 ^ 30)%Z = Z.of_N (rk_num x).
Proof.
  unfold rk_int, signed. intros H. destruct (rk_num x <? 2 ^ (30 - 1)); [lia|]. change (Z.of_N (2 ^ 30)) with (2 ^ 30)%Z. lia.
Qed.
Lemma dec_of_N n : dec_z (Z.of_N n) = dec n.
Proof. rewrite dec_pos by lia. rewrite N2Z.id. reflexivity. Qed.
Lemma C96_negative p before rw col ixfe x : rw < 2 ^ 16 -> col < 2 ^ 16 -> ixfe < 2 ^ 16 -> x < 2 ^ 32 ->
  rk_integer x = true -> rk_hundredths x = false -> (rk_int x < 0)%Z ->
  rk_reported p before rw col ixfe x (dec_z (rk_int x + 2 ^ 30)).
Proof.
  intros H1 H2 H3 H4 HI HX HZ. rewrite (rk_below x H4 HZ), dec_of_N, <- (rk_whole x H4 HI HX). apply rk_value_shown; assumption.
Qed.
Lemma C96_cents p before rw col ixfe x : rw < 2 ^ 16 -> col < 2 ^ 16 -> ixfe < 2 ^ 16 -> x < 2 ^ 32 ->
  rk_integer x = true -> rk_hundredths x = true -> (0 <= rk_int x)%Z ->
  rk_reported p before rw col ixfe x (dec_z (rk_int x / 100)).
Proof. intros H1 H2 H3 H4 HI HX HZ. rewrite <- (rk_right_cents x H4 HI HX HZ). apply rk_value_shown; assumption. Qed.
Lemma C96_negative_cents p before rw col ixfe x : rw < 2 ^ 16 -> col < 2 ^ 16 -> ixfe < 2 ^ 16 -> x < 2 ^ 32 ->
  rk_integer x = true -> rk_hundredths x = true -> (rk_int x < 0)%Z ->
  rk_reported p before rw col ixfe x (dec_z ((rk_int x + 2 ^ 30) / 100)).
Proof.
  intros H1 H2 H3 H4 HI HX HZ. rewrite (rk_below x H4 HZ). change 100%Z with (Z.of_N 100). rewrite <- N2Z.inj_div, dec_of_N, <- (rk_cents x H4 HI HX).
  apply rk_value_shown; assumption.
Qed.
Lemma C96_float p before rw col ixfe x : rw < 2 ^ 16 -> col < 2 ^ 16 -> ixfe < 2 ^ 16 -> x < 2 ^ 32 -> rk_integer x = false ->
  exists m e t v, Propset.Spec.single (rk_num x) m e /\ rk_reported p before rw col ixfe x t /\
    Magic.Spec.json_value t v /\ Propset.Statements.nearest_six false m e v.
Proof.
  intros H1 H2 H3 H4 HI. assert (L : rk_num x < 2 ^ 30) by (unfold rk_num; change (2 ^ 30) with 1073741824; lia).
  destruct (general_single (rk_num x) L) as (m & e & v & Hs & Hv & Hn). exists m, e, (rk_value x), v. split; [exact Hs|].
  split; [apply rk_value_shown; assumption|]. split; [|exact Hn]. rewrite (rk_float x H4 HI). exact Hv.
Qed.
Lemma rk_fun p before rw col ixfe x s t : rw < 2 ^ 16 -> col < 2 ^ 16 -> ixfe < 2 ^ 16 -> x < 2 ^ 32 ->
  rk_reported p before rw col ixfe x s -> rk_reported p before rw col ixfe x t -> s = t.
Proof.
  intros H1 H2 H3 H4 (r & HB & l & HF & HI) (r' & HB' & l' & HF' & HI').
  destruct (rk_shown p before rw col ixfe x H1 H2 H3 H4) as (r0 & HB0 & HF0). unfold built in *.
  assert (r = r0) by congruence. assert (r' = r0) by congruence. subst. rewrite HF0 in HF, HF'. injection HF as <-. injection HF' as <-.
  assert (G : forall u, In (fld "Value" (Bare u))
    [fld "rw" (Num rw); fld "col" (Num col); fld "ixfe" (Num ixfe); fld "fX100" (Num (bits x 0 1)); fld "fInt" (Num (bits x 1 1));
     fld "num" (Num (bits x 2 30)); fld "Cell" (Str (ColNumToName col ++ dec (rw + 1))); fld "Value" (Bare (rk_value x))] -> u = rk_value x).
  { intros u HU. cbn [In] in HU. unfold fld in HU. repeat destruct HU as [HU|HU]; try discriminate HU; [|contradiction].
    apply (f_equal snd) in HU. cbn [snd] in HU. congruence. }
  rewrite (G s HI), (G t HI'). reflexivity.
Qed.
Lemma C96_minus_one : exists x, rk_integer x = true /\ rk_hundredths x = false /\ rk_int x = (-1)%Z /\
  rk_reported linux64 [] 0 0 15 x (B "1073741823").
Proof.
  exists 0xFFFFFFFE. repeat split. replace (B "1073741823") with (rk_value 0xFFFFFFFE) by (vm_compute; reflexivity).
  apply rk_value_shown; vm_compute; reflexivity.
Qed.
Lemma C96_half : exists x, rk_integer x = true /\ rk_hundredths x = true /\ rk_int x = 150%Z /\
  rk_reported linux64 [] 0 0 15 x (B "1").
Proof.
  exists 603. repeat split. replace (B "1") with (rk_value 603) by (vm_compute; reflexivity). apply rk_value_shown; vm_compute; reflexivity.
Qed.
Lemma C96_one : exists x, rk_integer x = false /\ rk_hundredths x = false /\
  Propset.Spec.double_precision (rk_num x * 2 ^ 34) (2 ^ 52) (-52) /\ rk_reported linux64 [] 0 0 15 x (B "2.48491e-29").
Proof.
  exists 0x3FF00000. split; [reflexivity|]. split; [reflexivity|].
  split; [exact (Propset.Spec.ieee_normal 52 2047 1075 (rk_num 0x3FF00000 * 2 ^ 34) eq_refl eq_refl)|].
  replace (B "2.48491e-29") with (rk_value 0x3FF00000) by (vm_compute; reflexivity). apply rk_value_shown; vm_compute; reflexivity.
Qed.
Lemma C96_ex : rk_integer (4 * 1234 + 2) = true /\ rk_int (4 * 1234 + 2) = 1234%Z /\
  rk_reported linux64 [] 0 1 15 (4 * 1234 + 2) (B "1234").
Proof.
  split; [reflexivity|]. split; [reflexivity|]. replace (B "1234") with (rk_value (4 * 1234 + 2)) by (vm_compute; reflexivity).
  apply rk_value_shown; vm_compute; reflexivity.
Qed.

(** ** C97 *)
Lemma C97_exact p what (S : bytes) x : lenN S < 2 ^ 30 -> Detailer p what S = Ok x -> Version (x_ext x) = 0x600 ->
  ~ In FilePass (map fst (entries x)) ->
  (dangling p (entries x) -> excel_json p x = UB /\ excel_xml p x = UB) /\
  (~ dangling p (entries x) -> (exists j, excel_json p x = Ok j) /\ (exists y, excel_xml p x = Ok y)).
Proof. exact (output_dangling p what S x). Qed.
Lemma C97_small p what (S : bytes) x t d : lenN S < 2 ^ 30 -> Detailer p what S = Ok x -> Version (x_ext x) = 0x600 ->
  ~ In FilePass (map fst (entries x)) -> In (t, d) (entries x) ->
  (t = 0x201 /\ lenN d = 6) \/ (t = 0x205 /\ lenN d = 8) \/ (t = 0xFD /\ lenN d = 10) ->
  excel_json p x = UB /\ excel_xml p x = UB.
Proof.
  intros HS H HV NF HI HC. apply (output_dangling p what S x HS H HV NF). apply in_split in HI. destruct HI as (a & b & E).
  exists a, t, d, b, 16. split; [exact E|]. split; [left; unfold overlaid; cbn [In]; destruct HC as [[-> _]|[[-> _]|[-> _]]]; tauto|].
  left. lia.
Qed.
Lemma C97_refuted p what : exists x, Detailer p what (one_book 0x201 (to_le 2 0 ++ to_le 2 0 ++ to_le 2 15)) = Ok x /\
  excel_json p x = UB /\ excel_xml p x = UB.
Proof.
  eexists. split; [vm_compute; reflexivity|].
  split; vm_compute; reflexivity.
Qed.
Fixpoint danglingb (p : platform) (first : bool) (l : list (N * bytes)) : bool :=
  match l with
  | [] => false
  | (t, d) :: b =>
      existsb (fun tk => (fst tk =? t) && ((lenN d <? snd tk) || continued_by b)) (overlaid p) ||
      (first && ((lenN d <? 14) || continued_by b)) || danglingb p false b
  end.
Lemma danglingb_yes p a t d b k : forall first, In (t, k) (overlaid p) \/ (a = [] /\ first = true /\ k = 14) ->
  (lenN d < k \/ continued_by b = true) -> danglingb p first (a ++ (t, d) :: b) = true.
Proof.
  induction a as [|[t' d'] a IH]; intros first HO HD; cbn [app danglingb]; rewrite !orb_true_iff.
  - left. destruct HO as [HO|(_ & -> & ->)].
    + left. apply existsb_exists. exists (t, k). split; [exact HO|]. cbn [fst snd]. rewrite N.eqb_refl, andb_true_l, orb_true_iff, N.ltb_lt. exact HD.
    + right. rewrite andb_true_l, orb_true_iff, N.ltb_lt. exact HD.
  - right. apply IH; [|exact HD]. destruct HO as [HO|(HO & _)]; [left; exact HO|discriminate].
Qed.
Lemma danglingb_no p l : danglingb p true l = false -> ~ dangling p l.
Proof.
  intros H (a & t & d & b & k & -> & HO & HD). rewrite (danglingb_yes p a t d b k) in H; [discriminate| |exact HD].
  destruct HO as [HO|[-> ->]]; auto.
Qed.
Lemma is_ok {A} (r : res A) : (match r with Ok _ => true | _ => false end) = true -> exists a, r = Ok a.
Proof. destruct r; try discriminate. eexists. reflexivity. Qed.
Lemma absentb k l : existsb (N.eqb k) l = false -> ~ In k l.
Proof. intros E H. assert (T : existsb (N.eqb k) l = true) by (apply existsb_exists; exists k; split; [exact H|apply N.eqb_refl]). congruence. Qed.
Lemma C97_ex : ~ In FilePass (map fst (entries book_info)) /\ ~ dangling linux64 (entries book_info) /\
  exists j, excel_json linux64 book_info = Ok j.
Proof.
  split; [|split].
  - apply absentb. vm_compute. reflexivity.
  - apply danglingb_no. vm_compute. reflexivity.
  - apply is_ok. vm_compute. reflexivity.
Qed.
