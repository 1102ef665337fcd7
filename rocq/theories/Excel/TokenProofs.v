(** Reading one token. *)
From Coq Require Import List NArith ZArith Bool Lia Strings.String Strings.Byte.
From Coq Require Import ZifyBool ZifyNat ZifyN.
From Verif Require Import Lib.Res Lib.Bytes Lib.BytesFacts Lib.Text Common.Model Common.Spec Common.ReadProofs
     Excel.Number Excel.Tables Excel.Model Excel.Records Excel.Spec Excel.EngineProofs Excel.CellProofs
     Excel.NumberSpec Excel.NumberProofs Excel.FunctionSpec Excel.FormulaSpec Excel.FormulaStatements.
Import ListNotations.
Local Open Scope N_scope.
Ltac Zify.zify_post_hook ::= Z.div_mod_to_equations.
Arguments N.pow : simpl never.
Arguments N.mul : simpl never.
Arguments N.add : simpl never.

(** [w] is in [d] at [off]. *)
Definition here (d : bytes) (off : N) (w : bytes) : Prop := exists a b, d = a ++ w ++ b /\ lenN a = off.
Lemma here_app d off v w : here d off (v ++ w) -> here d off v /\ here d (off + lenN v) w.
Proof.
  intros (a & b & E & L). split.
  - exists a, (w ++ b). rewrite E, <- app_assoc. auto.
  - exists (a ++ v), b. rewrite E, <- !app_assoc, lenN_app, L. auto.
Qed.
Lemma here_cons d off x w : here d off (x :: w) -> here d off [x] /\ here d (off + 1) w.
Proof. intros H. apply (here_app d off [x] w H). Qed.
Lemma here_len d off w : here d off w -> off + lenN w <= lenN d.
Proof. intros (a & b & -> & L). rewrite !lenN_app. lia. Qed.
Lemma here_rd d off x : here d off [x] -> rd d off = Ok (b2n x).
Proof.
  intros (a & b & -> & <-). apply rd_some. rewrite nthN_app2 by lia. replace (lenN a - lenN a) with 0 by lia. reflexivity.
Qed.
Lemma here_slice d off w : here d off w -> slice d off (lenN w) = Ok w.
Proof.
  intros (a & b & -> & <-). rewrite slice_ok by (rewrite !lenN_app; lia). rewrite dropN_app_exact, takeN_app_exact. reflexivity.
Qed.
Lemma here_load d off n x : here d off (to_le n x) -> x < 256 ^ N.of_nat n -> load d off (N.of_nat n) = Ok x.
Proof. intros H B. unfold load. pose proof (here_slice _ _ _ H) as S. rewrite lenN_to_le in S. rewrite S. cbn [bind]. rewrite le_to_le_id by exact B. reflexivity. Qed.
Lemma us_max d max off be : off + 1 <= max -> max <= lenN d -> off + 1 < 2 ^ 32 ->
  ReadUShort d max off be = ReadUShort d (lenN d) off be.
Proof.
  intros H1 H2 H3. unfold ReadUShort. rewrite (u32_small (off + 1)) by lia.
  destruct (N.ltb_spec max (off + 1)); [lia|]. destruct (N.ltb_spec (lenN d) (off + 1)); [lia|reflexivity].
Qed.
Lemma here_window d off w : here d off w -> window d off (lenN w) w.
Proof. intros (a & b & E & L). split; [reflexivity|]. exists a, b. auto. Qed.
Lemma here_us d max off w : here d off w -> lenN w = 2 -> off + 2 <= max -> max <= lenN d -> max < 2 ^ 31 ->
  us d max off = Ok (le w).
Proof.
  intros H B H1 H2 H3. unfold us. rewrite u32_small by lia. rewrite us_max by lia.
  rewrite (ReadUShort_value d off w false) by (lia || (rewrite <- B; apply here_window, H)). reflexivity.
Qed.
Lemma here_ui d max off w be_ : here d off w -> lenN w = 4 -> off + 4 <= max -> max <= lenN d -> max < 2 ^ 31 ->
  ReadUInt d max (u32 off) be_ = Ok (if be_ then le w else be w).
Proof.
  intros H B H1 H2 H3. rewrite u32_small by lia. rewrite <- (ReadUInt_value d off w be_) by (lia || (rewrite <- B; apply here_window, H)).
  unfold ReadUInt. rewrite (u32_small (off + 3)) by lia.
  destruct (N.ltb_spec max (off + 3)); [lia|]. destruct (N.ltb_spec (lenN d) (off + 3)); [lia|reflexivity].
Qed.

(** ** The texts of names *)
Lemma name_index i : 1 <= i <= 2 ^ 16 -> u16 (subw 32 i 1) = i - 1.
Proof.
  intros H. unfold subw, u16. change (2 ^ 16) with 65536 in *. change (2 ^ 32) with 4294967296. lia.
Qed.
Lemma name_shown before i c : 1 <= i <= 2 ^ 16 -> forall others, prints (name_of 0x18 before) others (Name c i) (ptg_text before (PtgName i)).
Proof.
  intros H others. cbn [prints ptg_text]. unfold nth_of_type. rewrite (name_index i H).
  destruct (nth_error _ _) as [r|] eqn:E.
  - destruct (GetName r) as [n|] eqn:G.
    + left. exists n. split; [exists r; auto|reflexivity].
    + right. split; [|reflexivity]. intros w (r' & E' & G'). congruence.
  - right. split; [|reflexivity]. intros w (r' & E' & G'). congruence.
Qed.
Lemma other_shown before i c sheet : 1 <= i <= 2 ^ 16 -> forall names,
  prints names (name_of 0x23 before) (OtherName c sheet i) (ptg_text before (PtgNameX i)).
Proof.
  intros H names. cbn [prints ptg_text]. unfold nth_of_type. rewrite (name_index i H).
  destruct (nth_error _ _) as [r|] eqn:E.
  - destruct (GetName r) as [n|] eqn:G.
    + left. exists n. split; [exists r; auto|reflexivity].
    + right. split; [|reflexivity]. intros w (r' & E' & G'). congruence.
  - right. split; [|reflexivity]. intros w (r' & E' & G'). congruence.
Qed.

(** ** Functions *)
Lemma functions_right : forallb (fun x => bytes_eqb (GetFunctionName_FTab (fst x)) (snd x)) functions = true.
Proof. vm_compute. reflexivity. Qed.
Lemma functions_below : forallb (fun x => fst x <? 2 ^ 14) functions = true.
Proof. vm_compute. reflexivity. Qed.
Lemma function_name f : In f (map fst functions) -> In (f, GetFunctionName_FTab f) functions /\ f < 2 ^ 14.
Proof.
  intros H. apply in_map_iff in H. destruct H as ((g & w) & <- & HI). cbn [fst].
  pose proof (proj1 (forallb_forall _ _) functions_right _ HI) as R. apply bytes_eqb_eq in R. cbn [fst snd] in R. rewrite R.
  split; [exact HI|]. pose proof (proj1 (forallb_forall _ _) functions_below _ HI) as L. apply N.ltb_lt in L. exact L.
Qed.

(** ** One token *)
Ltac closed b := let v := eval vm_compute in b in match v with true => change b with true | false => change b with false end.
Ltac choose :=
  repeat (match goal with
          | |- context [if ?b then _ else _] => closed b
          end; cbv iota).
Ltac start H :=
  unfold token; rewrite (here_rd _ _ _ H); cbn [bind].
Lemma column_bits c : cell_ok c -> (c_col c + 2 ^ 14 * c_flags c) mod 2 ^ 14 = c_col c /\ c_col c + 2 ^ 14 * c_flags c < 2 ^ 16.
Proof. intros (H1 & H2 & H3). change (2 ^ 14) with 16384 in *. change (2 ^ 16) with 65536 in *. lia. Qed.

Section At.
Variables (p : platform) (d : bytes) (max : N).
Hypotheses (HM : max <= lenN d) (HB : max < 2 ^ 31).
Lemma us_here off x : here d off (to_le 2 x) -> x < 2 ^ 16 -> off + 2 <= max -> us d max off = Ok x.
Proof.
  intros H B L. rewrite (here_us d max off _ H) by (assumption || apply lenN_to_le). rewrite le_to_le_id by exact B. reflexivity.
Qed.
Lemma col_here off c : here d off (col_bytes c) -> cell_ok c -> off + 2 <= max -> Excel.Model.column d max off = Ok (c_col c).
Proof.
  intros H K L. destruct (column_bits c K) as [E B]. unfold Excel.Model.column. rewrite (us_here off _ H B L). cbn [bind]. rewrite E. reflexivity.
Qed.
Lemma a1_name row col : col < 2 ^ 14 -> a1 row col (cell_name row col).
Proof. intros H. apply cell_right. change (2 ^ 14) with 16384 in H. change (2 ^ 16) with 65536. lia. Qed.
Lemma loc_here off c : here d off (cell_bytes c) -> cell_ok c -> off + 4 <= max -> loc d max off = Ok (cell_name (c_row c) (c_col c)).
Proof.
  intros H K L. apply here_app in H. destruct H as [H1 H2]. rewrite lenN_to_le in H2. change (N.of_nat 2) with 2 in H2. unfold loc.
  rewrite (us_here off _ H1) by (lia || apply K). cbn [bind]. rewrite (col_here _ _ H2 K) by lia. reflexivity.
Qed.
Lemma area_here off a b : here d off (range_bytes a b) -> cell_ok a -> cell_ok b -> off + 8 <= max ->
  area d max off = Ok (cell_name (c_row a) (c_col a) ++ B ":" ++ cell_name (c_row b) (c_col b)).
Proof.
  intros H Ka Kb L. unfold range_bytes in H. apply here_app in H. destruct H as [H1 H]. apply here_app in H. destruct H as [H2 H].
  apply here_app in H. destruct H as [H3 H4]. unfold col_bytes in H4 at 1. rewrite !lenN_to_le in *. change (N.of_nat 2) with 2 in *.
  unfold area. rewrite (us_here _ _ H1) by (lia || apply Ka). cbn [bind].
  rewrite (us_here _ _ H2) by (lia || apply Kb). cbn [bind].
  replace (off + 2 + 2) with (off + 4) in * by lia. replace (off + 4 + 2) with (off + 6) in * by lia.
  rewrite (col_here _ _ H3 Ka) by lia. cbn [bind].
  rewrite (col_here _ _ H4 Kb) by lia. reflexivity.
Qed.

(** What reading the token [t] gives *)
Definition reads (off : N) (t : tok) : Prop :=
  exists x, token p d max off = Ok (x, lenN (token_bytes t)) /\
    forall before, prints (name_of 0x18 before) (name_of 0x23 before) t (ptg_text before x).
Definition at_ (off : N) (t : tok) : Prop := here d off (token_bytes t) /\ token_ok t /\ off + lenN (token_bytes t) <= max.

Lemma read_operator off k : at_ off (Operator k) -> reads off (Operator k).
Proof.
  intros (H & K & L). cbn [token_bytes] in *. change (lenN [n2b k]) with 1 in *. unfold reads. cbn [token_bytes prints].
  change (lenN [n2b k]) with 1.
  cbn [token_ok map fst operators In] in K.
  repeat destruct K as [<-|K]; try contradiction;
    (eexists; split; [start H; choose; unfold basic, first; rewrite (here_rd _ _ _ H); reflexivity|intros before; cbn [ptg_text operators In]; tauto]).
Qed.
Lemma u32_of n : n <= max -> u32 n = n.
Proof. intros H. apply u32_small. lia. Qed.
Lemma read_literal off s : at_ off (Literal s) -> reads off (Literal s).
Proof.
  intros (H & K & L). cbn [token_bytes token_ok] in *. rewrite !lenN_cons in L. unfold reads. cbn [token_bytes prints]. rewrite !lenN_cons.
  apply here_cons in H. destruct H as [H0 H]. apply here_cons in H. destruct H as [H1 H]. apply here_cons in H. destruct H as [H2 H].
  eexists. split.
  - start H0. choose. unfold first. rewrite (here_rd _ _ _ H0). cbn [bind]. unfold ShortString.
    rewrite (u32_of (off + 1)) by lia. rewrite (here_rd _ _ _ H1). cbn [bind]. rewrite (u32_of (off + 1 + 1)) by lia.
    rewrite (here_rd _ _ _ H2). cbn [bind]. change (bits (b2n x00) 0 1 =? 0) with true. cbv iota.
    rewrite b2n_n2b, N.mod_small by exact K. replace (off + 1 + 2) with (off + 1 + 1 + 1) by lia. rewrite u32_of by lia.
    rewrite (here_slice _ _ _ H). cbn [bind fst snd]. unfold said. f_equal. f_equal. lia.
  - intros before. reflexivity.
Qed.
Lemma read_error off e : at_ off (Error e) -> reads off (Error e).
Proof.
  intros (H & K & L). cbn [token_bytes] in *. rewrite !lenN_cons in L. change (lenN []) with 0 in L. unfold reads. cbn [token_bytes prints].
  apply here_cons in H. destruct H as [H0 H].
  cbn [token_ok map fst errors In] in K.
  repeat destruct K as [<-|K]; try contradiction;
    (eexists; split;
     [start H0; choose; unfold first; rewrite (here_rd _ _ _ H0); cbn [bind]; rewrite (u32_of (off + 1)) by lia;
      rewrite (here_rd _ _ _ H); cbn [bind]; reflexivity
     |intros before; eexists; split; [|reflexivity]; cbn [errors In]; tauto]).
Qed.
Lemma read_logical off b : at_ off (Logical b) -> reads off (Logical b).
Proof.
  intros (H & K & L). cbn [token_bytes] in *. rewrite !lenN_cons in L. change (lenN []) with 0 in L. unfold reads. cbn [token_bytes prints].
  apply here_cons in H. destruct H as [H0 H].
  destruct b; (eexists; split;
     [start H0; choose; unfold first; rewrite (here_rd _ _ _ H0); cbn [bind]; rewrite (u32_of (off + 1)) by lia;
      rewrite (here_rd _ _ _ H); cbn [bind]; reflexivity
     |intros before; reflexivity]).
Qed.
Lemma read_integer off n : at_ off (Integer n) -> reads off (Integer n).
Proof.
  intros (H & K & L). cbn [token_bytes token_ok] in *. rewrite lenN_cons, lenN_to_le in L. unfold reads. cbn [token_bytes prints].
  rewrite lenN_cons, lenN_to_le. apply here_cons in H. destruct H as [H0 H]. eexists. split.
  - start H0. choose. unfold first. rewrite (here_rd _ _ _ H0). cbn [bind]. rewrite (us_here _ _ H K) by lia. reflexivity.
  - intros before. reflexivity.
Qed.
Lemma read_number off x : at_ off (Number x) -> reads off (Number x).
Proof.
  intros (H & (K & m & e & D) & L). cbn [token_bytes token_ok] in *. rewrite lenN_cons, lenN_to_le in L. unfold reads. cbn [token_bytes prints].
  rewrite lenN_cons, lenN_to_le. apply here_cons in H. destruct H as [H0 H]. eexists. split.
  - start H0. choose. unfold first. rewrite (here_rd _ _ _ H0). cbn [bind]. rewrite (u32_of (off + 1)) by lia.
    change 8 with (N.of_nat 8). rewrite (here_load _ _ _ _ H) by (change (256 ^ N.of_nat 8) with (2 ^ 64); exact K). cbn [bind]. reflexivity.
  - intros before. exists m, e, (fixed6 (decode64 x)). split; [exact D|]. split; [|reflexivity].
    rewrite (decode_64_finite x m e K D). apply fixed_finite.
Qed.
Lemma read_shared off row col : at_ off (Shared row col) -> reads off (Shared row col).
Proof.
  intros (H & (K1 & K2) & L). cbn [token_bytes] in *. rewrite lenN_cons, lenN_app, !lenN_to_le in L. unfold reads. cbn [token_bytes prints].
  rewrite lenN_cons, lenN_app, !lenN_to_le. apply here_cons in H. destruct H as [H0 H]. apply here_app in H. destruct H as [H1 H2].
  rewrite lenN_to_le in H2. change (N.of_nat 2) with 2 in *. replace (off + 1 + 2) with (off + 3) in H2 by lia.
  assert (K3 : col < 2 ^ 16) by (apply (N.lt_trans _ _ _ K2); reflexivity). eexists. split.
  - start H0. choose. unfold first. rewrite (here_rd _ _ _ H0). cbn [bind]. rewrite (us_here _ _ H1 K1) by lia. cbn [bind].
    rewrite (us_here _ _ H2 K3) by lia. reflexivity.
  - intros before. exists (cell_name row col). split; [apply a1_name, K2|reflexivity].
Qed.

(** Reads of any bytes *)
Lemma us_any off : off + 2 <= max -> exists v, us d max off = Ok v.
Proof. intros H. unfold us. rewrite u32_small by lia. rewrite us_max by lia. rewrite us_le by lia. eexists. reflexivity. Qed.
Lemma ui_any off be_ : off + 4 <= max -> exists v, ReadUInt d max (u32 off) be_ = Ok v.
Proof.
  intros H. eexists. apply (here_ui d max off (takeN 4 (dropN off d))); try lia.
  - exists (takeN off d), (dropN 4 (dropN off d)). rewrite takeN_dropN, takeN_dropN. split; [reflexivity|]. rewrite lenN_takeN. lia.
  - rewrite lenN_takeN, lenN_dropN. lia.
Qed.
Lemma rd_any off : off + 1 <= max -> exists v, rd d (u32 off) = Ok v.
Proof. intros H. rewrite u32_small by lia. destruct (rd_lt d off) as (b & -> & _); [lia|]. eexists. reflexivity. Qed.
Ltac reading :=
  repeat match goal with
  | |- context [us d max ?o] => let v := fresh "v" in let E := fresh "E" in
      destruct (us_any o) as [v E]; [lia|]; rewrite !E; cbn [bind]; clear E
  | |- context [ReadUInt d max (u32 ?o) ?b] => let v := fresh "v" in let E := fresh "E" in
      destruct (ui_any o b) as [v E]; [lia|]; rewrite !E; cbn [bind]; clear E
  | |- context [rd d (u32 ?o)] => let v := fresh "v" in let E := fresh "E" in
      destruct (rd_any o) as [v E]; [lia|]; rewrite !E; cbn [bind]; clear E
  end.
Lemma read_attribute off k data : at_ off (Attribute k data) -> reads off (Attribute k data).
Proof.
  intros (H & (K & Q) & L). cbn [token_bytes] in *. rewrite !lenN_cons, Q in L. unfold reads. cbn [token_bytes prints]. rewrite !lenN_cons, Q.
  apply here_cons in H. destruct H as [H0 H]. apply here_cons in H. destruct H as [H1 H2].
  assert (F : forall n, attr d max n off = text n 4).
  { intros n. unfold attr, first. rewrite (here_rd _ _ _ H0). cbn [bind]. reading. reflexivity. }
  assert (G : forall n, attr_space d max n off = text n 4).
  { intros n. unfold attr_space, first. rewrite (here_rd _ _ _ H0). cbn [bind]. reading.
    rewrite (u32_of (off + 2)) by lia. destruct (N.leb_spec (off + 2 + 1) max); [reflexivity|lia]. }
  cbn [map fst attributes In] in K.
  repeat destruct K as [<-|K]; try contradiction;
    (eexists; split;
     [start H0; choose; rewrite (u32_of (off + 1)) by lia; rewrite (here_rd _ _ _ H1); cbn [bind]; choose; rewrite ?F, ?G; reflexivity
     |intros before; cbn [ptg_text attributes In]; tauto]).
Qed.
Lemma read_columns off k data : at_ off (Columns k data) -> reads off (Columns k data).
Proof.
  intros (H & (K & Q) & L). cbn [token_bytes] in *. rewrite !lenN_cons, Q in L. unfold reads. cbn [token_bytes prints]. rewrite !lenN_cons, Q.
  apply here_cons in H. destruct H as [H0 H]. apply here_cons in H. destruct H as [H1 H2].
  assert (F : forall n, elf_basic d max n off = text n 6).
  { intros n. unfold elf_basic, elf, elf_loc, first. rewrite (here_rd _ _ _ H0). cbn [bind]. reading. reflexivity. }
  cbn [map fst columns In] in K.
  repeat destruct K as [<-|K]; try contradiction;
    (eexists; split;
     [start H0; choose; rewrite (u32_of (off + 1)) by lia; rewrite (here_rd _ _ _ H1); cbn [bind]; choose; rewrite ?F; reflexivity
     |intros before; cbn [ptg_text columns In]; tauto]).
Qed.
Lemma class_cases c : c < 3 -> c = 0 \/ c = 1 \/ c = 2.
Proof. lia. Qed.
Ltac classes K := apply class_cases in K; destruct K as [-> | [-> | ->]].
Lemma read_operand off c k data : at_ off (Operand c k data) -> reads off (Operand c k data).
Proof.
  intros (H & (C & K) & L). cbn [token_bytes] in *. rewrite !lenN_cons in L. unfold reads. cbn [token_bytes prints]. rewrite !lenN_cons.
  apply here_cons in H. destruct H as [H0 H].
  cbn [map fst operands In] in K.
  repeat destruct K as [K|K]; try contradiction; injection K as <- Q; rewrite <- Q in *; clear Q; classes C;
    (eexists; split;
     [start H0; choose; unfold mem, area_err, ixti, first; rewrite (here_rd _ _ _ H0); cbn [bind]; reading; reflexivity
     |intros before; cbn [ptg_text operands In]; tauto]).
Qed.
Lemma read_fixed off c f : at_ off (Fixed c f) -> reads off (Fixed c f).
Proof.
  intros (H & (C & B & K) & L). cbn [token_bytes] in *. rewrite lenN_cons, lenN_to_le in L. unfold reads. cbn [token_bytes prints].
  rewrite lenN_cons, lenN_to_le. apply here_cons in H. destruct H as [H0 H]. classes C;
    (eexists; split;
     [start H0; choose; unfold first; rewrite (here_rd _ _ _ H0); cbn [bind]; rewrite (us_here _ _ H B) by lia; cbn [bind]; reflexivity
     |intros before; exists (GetFunctionName_FTab f); split; [apply function_name, K|reflexivity]]).
Qed.
Lemma read_variadic off c args f : at_ off (Variadic c args f) -> reads off (Variadic c args f).
Proof.
  intros (H & (C & BA & K) & L). cbn [token_bytes] in *. rewrite !lenN_cons, lenN_to_le in L. unfold reads. cbn [token_bytes prints].
  rewrite !lenN_cons, lenN_to_le. apply here_cons in H. destruct H as [H0 H]. apply here_cons in H. destruct H as [H1 H].
  replace (off + 1 + 1) with (off + 2) in H by lia. destruct (function_name f K) as [KI KB].
  assert (B : f < 2 ^ 16) by (apply (N.lt_trans _ _ _ KB); reflexivity).
  assert (H3 : here d (off + 3) [n2b (f / 256)]).
  { cbn [to_le] in H. apply here_cons in H. destruct H as [_ H]. replace (off + 2 + 1) with (off + 3) in H by lia.
    apply here_cons in H. exact (proj1 H). }
  assert (E3 : bits (b2n (n2b (f / 256))) 6 1 = 0).
  { rewrite b2n_n2b. unfold bits. rewrite N.shiftr_div_pow2. change (2 ^ 6) with 64. change (2 ^ 1) with 2. change (2 ^ 14) with 16384 in KB. lia. }
  assert (E4 : f mod 2 ^ 15 = f) by (apply N.mod_small; apply (N.lt_trans _ _ _ KB); reflexivity).
  classes C;
    (eexists; split;
     [start H0; choose; unfold first; rewrite (here_rd _ _ _ H0); cbn [bind];
      rewrite (u32_of (off + 1)) by lia; rewrite (here_rd _ _ _ H1); cbn [bind]; rewrite (us_here _ _ H B) by lia; cbn [bind];
      rewrite (u32_of (off + 3)) by lia; rewrite (here_rd _ _ _ H3); cbn [bind]; rewrite E3, E4; reflexivity
     |intros before; exists (GetFunctionName_FTab f); split; [exact KI|reflexivity]]).
Qed.
Lemma read_name off c i : at_ off (Name c i) -> reads off (Name c i).
Proof.
  intros (H & (C & K) & L). cbn [token_bytes] in *. rewrite lenN_cons, lenN_to_le in L. unfold reads. cbn [token_bytes].
  rewrite lenN_cons, lenN_to_le. apply here_cons in H. destruct H as [H0 H].
  assert (B : i < 256 ^ N.of_nat 4) by (change (256 ^ N.of_nat 4) with 4294967296; change (2 ^ 16) with 65536 in K; lia).
  exists (PtgName i). split; [|intros before; apply name_shown, K].
  classes C; (start H0; choose; unfold first; rewrite (here_rd _ _ _ H0); cbn [bind];
    rewrite (here_ui d max (off + 1) _ true H) by (lia || apply lenN_to_le); cbn [bind]; rewrite le_to_le_id by exact B; reflexivity).
Qed.
Lemma ixti_here off : off + 3 <= max -> ixti d max off = Ok tt.
Proof.
  intros H. unfold ixti, first. rewrite <- (u32_of off) at 1 by lia. reading. reflexivity.
Qed.
Lemma read_other_name off c sheet i : at_ off (OtherName c sheet i) -> reads off (OtherName c sheet i).
Proof.
  intros (H & (C & KS & K) & L). cbn [token_bytes] in *. rewrite lenN_cons, lenN_app, !lenN_to_le in L. unfold reads. cbn [token_bytes].
  rewrite lenN_cons, lenN_app, !lenN_to_le. apply here_cons in H. destruct H as [H0 H]. apply here_app in H. destruct H as [H1 H].
  rewrite lenN_to_le in H. change (off + 1 + N.of_nat 2) with (off + 1 + 2) in H. replace (off + 1 + 2) with (off + 3) in H by lia.
  assert (B : i < 256 ^ N.of_nat 4) by (change (256 ^ N.of_nat 4) with 4294967296; change (2 ^ 16) with 65536 in K; lia).
  exists (PtgNameX i). split; [|intros before; apply other_shown, K].
  classes C; (start H0; choose; rewrite ixti_here by lia; cbn [bind];
    rewrite (here_ui d max (off + 3) _ true H) by (lia || apply lenN_to_le); cbn [bind]; rewrite le_to_le_id by exact B; reflexivity).
Qed.
Lemma lenN_cell a : lenN (cell_bytes a) = 4.
Proof. unfold cell_bytes, col_bytes. rewrite lenN_app, !lenN_to_le. reflexivity. Qed.
Lemma lenN_range a b : lenN (range_bytes a b) = 8.
Proof. unfold range_bytes, col_bytes. rewrite !lenN_app, !lenN_to_le. reflexivity. Qed.
Lemma read_reference off c a : at_ off (Reference c a) -> reads off (Reference c a).
Proof.
  intros (H & (C & K) & L). cbn [token_bytes] in *. rewrite lenN_cons, lenN_cell in L. unfold reads. cbn [token_bytes prints].
  rewrite lenN_cons, lenN_cell. apply here_cons in H. destruct H as [H0 H]. classes C;
    (eexists; split;
     [start H0; choose; unfold first; rewrite (here_rd _ _ _ H0); cbn [bind]; rewrite (loc_here _ _ H K) by lia; cbn [bind]; reflexivity
     |intros before; exists (cell_name (c_row a) (c_col a)); split; [apply a1_name, K|reflexivity]]).
Qed.
Lemma read_other_reference off c sheet a : at_ off (OtherReference c sheet a) -> reads off (OtherReference c sheet a).
Proof.
  intros (H & (C & KS & K) & L). cbn [token_bytes] in *. rewrite lenN_cons, lenN_app, lenN_to_le, lenN_cell in L. unfold reads. cbn [token_bytes prints].
  rewrite lenN_cons, lenN_app, lenN_to_le, lenN_cell. apply here_cons in H. destruct H as [H0 H]. apply here_app in H. destruct H as [H1 H].
  rewrite lenN_to_le in H. change (off + 1 + N.of_nat 2) with (off + 1 + 2) in H. replace (off + 1 + 2) with (off + 3) in H by lia. classes C;
    (eexists; split;
     [start H0; choose; rewrite ixti_here by lia; cbn [bind]; rewrite (loc_here _ _ H K) by lia; cbn [bind]; reflexivity
     |intros before; exists (cell_name (c_row a) (c_col a)); split; [apply a1_name, K|reflexivity]]).
Qed.
Lemma read_other_range off c sheet a b : at_ off (OtherRange c sheet a b) -> reads off (OtherRange c sheet a b).
Proof.
  intros (H & (C & KS & Ka & Kb) & L). cbn [token_bytes] in *. rewrite lenN_cons, lenN_app, lenN_to_le, lenN_range in L. unfold reads. cbn [token_bytes prints].
  rewrite lenN_cons, lenN_app, lenN_to_le, lenN_range. apply here_cons in H. destruct H as [H0 H]. apply here_app in H. destruct H as [H1 H].
  rewrite lenN_to_le in H. change (off + 1 + N.of_nat 2) with (off + 1 + 2) in H. replace (off + 1 + 2) with (off + 3) in H by lia. classes C;
    (eexists; split;
     [start H0; choose; rewrite ixti_here by lia; cbn [bind]; rewrite (area_here _ _ _ H Ka Kb) by lia; cbn [bind]; reflexivity
     |intros before; exists (cell_name (c_row a) (c_col a)), (cell_name (c_row b) (c_col b));
      split; [apply a1_name, Ka|]; split; [apply a1_name, Kb|reflexivity]]).
Qed.
Lemma read_token off t : at_ off t -> reads off t.
Proof.
  destruct t; intros H.
  - apply read_operator, H.
  - apply read_literal, H.
  - apply read_error, H.
  - apply read_logical, H.
  - apply read_integer, H.
  - apply read_number, H.
  - apply read_shared, H.
  - apply read_attribute, H.
  - apply read_columns, H.
  - apply read_operand, H.
  - apply read_fixed, H.
  - apply read_variadic, H.
  - apply read_name, H.
  - apply read_other_name, H.
  - apply read_reference, H.
  - apply read_other_reference, H.
  - apply read_other_range, H.
Qed.
End At.
