(** Names of columns and cells, and RK numbers. *)
From Coq Require Import List NArith ZArith Bool Lia Strings.String.
From Coq Require Import ZifyBool ZifyNat ZifyN.
From Verif Require Import Lib.Res Lib.Bytes Lib.BytesFacts Lib.Text Common.Model Common.Spec Common.ReadProofs
     Excel.Number Excel.Model Excel.Records Excel.Engine Excel.Spec Excel.Statements Excel.EngineProofs.
Import ListNotations.
Local Open Scope N_scope.
Ltac Zify.zify_post_hook ::= Z.div_mod_to_equations.
Arguments N.pow : simpl never.
Arguments N.mul : simpl never.
Arguments N.add : simpl never.
Notation column := Excel.Spec.column.

(** ** Columns *)
Lemma column_number_app a b : column_number (a ++ [b]) = 26 * column_number a + (b2n b - 64).
Proof. unfold column_number. rewrite fold_left_app. reflexivity. Qed.
Lemma letters_ok k : forall n acc, n < 26 ^ N.of_nat k -> exists w, letters k n acc = w ++ acc /\ column n w.
Proof.
  induction k as [|k IH]; intros n acc H.
  - exists []. split; [reflexivity|]. change (26 ^ N.of_nat 0) with 1 in H. split; [constructor|]. cbn. lia.
  - cbn [letters]. destruct (N.eqb_spec n 0) as [->|Hn].
    + exists []. split; [reflexivity|]. split; [constructor|reflexivity].
    + rewrite Nat2N.inj_succ, N.pow_succ_r' in H.
      destruct (IH ((n - 1) / 26) (n2b (65 + (n - 1) mod 26) :: acc)) as (w & E & F & C); [lia|].
      exists (w ++ [n2b (65 + (n - 1) mod 26)]). rewrite E, <- app_assoc. split; [reflexivity|].
      assert (Eb : b2n (n2b (65 + (n - 1) mod 26)) = 65 + (n - 1) mod 26) by (rewrite b2n_n2b; apply N.mod_small; lia).
      split.
      * apply Forall_app. split; [exact F|]. constructor; [|constructor]. unfold letter. rewrite Eb. lia.
      * rewrite column_number_app, C, Eb. lia.
Qed.
Lemma column_name n : n < 2 ^ 16 -> column n (ColNumToName n).
Proof.
  intros H. unfold ColNumToName, u16. rewrite N.mod_small by exact H.
  destruct (letters_ok 5 n []) as (w & -> & C).
  - change (26 ^ N.of_nat 5) with 11881376. change (2 ^ 16) with 65536 in H. lia.
  - rewrite app_nil_r. exact C.
Qed.
Lemma column_unique s : forall t n, column n s -> column n t -> s = t.
Proof.
  induction s as [|b s IH] using rev_ind; intros t n [F C] [G D].
  - cbn in C. subst n. destruct t as [|c t] using rev_ind; [reflexivity|].
    rewrite column_number_app in D. apply Forall_app in G. destruct G as [_ G]. inversion G as [|? ? L _]; subst.
    unfold letter in L. lia.
  - rewrite column_number_app in C. apply Forall_app in F. destruct F as [F L]. inversion L as [|? ? Lb _]; subst. unfold letter in Lb.
    destruct t as [|c t] using rev_ind.
    + cbn in D. lia.
    + clear IHt. rewrite column_number_app in D. apply Forall_app in G. destruct G as [G Lc]. inversion Lc as [|? ? Lc' _]; subst. unfold letter in Lc'.
      assert (column_number s = column_number t) by lia.
      assert (b2n b = b2n c) by lia.
      f_equal; [|f_equal; apply b2n_inj; assumption].
      apply (IH t (column_number s)); split; auto.
Qed.

Lemma cell_right rw col : col < 2 ^ 16 - 1 -> a1 rw col (cell_str rw col).
Proof. intros H. exists (ColNumToName (col + 1)). split; [apply column_name; lia|reflexivity]. Qed.

(** ** Fields at fixed places *)
Lemma us_at d off a x b : d = a ++ to_le 2 x ++ b -> lenN a = off -> x < 2 ^ 16 -> off < 2 ^ 31 ->
  ReadUShort d (lenN d) off false = Ok x.
Proof.
  intros E L H HO. rewrite us_le.
  - rewrite E, <- L, dropN_app_exact. change 2 with (lenN (to_le 2 x)). rewrite takeN_app_exact, le_to_le_id by exact H. reflexivity.
  - rewrite E, !lenN_app, lenN_to_le, L. lia.
  - lia.
Qed.
Lemma load_at d off n a x b : d = a ++ to_le n x ++ b -> lenN a = off -> x < 256 ^ N.of_nat n -> load d off (N.of_nat n) = Ok x.
Proof.
  intros E L H. unfold load. rewrite slice_ok.
  - cbn [bind]. rewrite E, <- L, dropN_app_exact. rewrite <- (lenN_to_le n x) at 1. rewrite takeN_app_exact, le_to_le_id by exact H. reflexivity.
  - rewrite E, !lenN_app, lenN_to_le, L. lia.
Qed.

(** ** RK records *)
Lemma rk_shown p before rw col ixfe x : rw < 2 ^ 16 -> col < 2 ^ 16 -> ixfe < 2 ^ 16 -> x < 2 ^ 32 ->
  exists r, built p before 0x600 0x27E (rk_data rw col ixfe x) r /\
    fields p r = Ok [fld "rw" (Num rw); fld "col" (Num col); fld "ixfe" (Num ixfe); fld "fX100" (Num (bits x 0 1));
      fld "fInt" (Num (bits x 1 1)); fld "num" (Num (bits x 2 30));
      fld "Cell" (Str (ColNumToName col ++ dec (rw + 1))); fld "Value" (Bare (rk_value x))].
Proof.
  intros H1 H2 H3 H4. set (d := rk_data rw col ixfe x).
  exists (mkRec 0x27E d false (RK rw col ixfe)). split.
  - unfold built, ParseRecord. change (record_body p before 1536 638 d) with (RKRecord d). unfold RKRecord.
    rewrite (us_at d 0 [] rw (to_le 2 col ++ to_le 2 ixfe ++ to_le 4 x)) by (reflexivity || lia || assumption). cbn [bind].
    rewrite (us_at d 2 (to_le 2 rw) col (to_le 2 ixfe ++ to_le 4 x)) by (reflexivity || lia || assumption). cbn [bind].
    rewrite (us_at d 4 (to_le 2 rw ++ to_le 2 col) ixfe (to_le 4 x))
      by (reflexivity || (rewrite lenN_app, !lenN_to_le; reflexivity) || lia || assumption). reflexivity.
  - unfold fields. cbn [r_body]. unfold over. cbn [r_moved r_data]. unfold rk_fields. change 4 with (N.of_nat 4).
    rewrite (load_at d 6 4 (to_le 2 rw ++ to_le 2 col ++ to_le 2 ixfe) x []).
    + reflexivity.
    + rewrite app_nil_r, <- !app_assoc. reflexivity.
    + rewrite !lenN_app, !lenN_to_le. reflexivity.
    + exact H4.
Qed.

Lemma bit_of x k : bits x k 1 = N.b2n (N.testbit x k).
Proof.
  unfold bits. change (2 ^ 1) with 2. rewrite <- N.bit0_mod, N.shiftr_spec by apply N.le_0_l. reflexivity.
Qed.
Lemma rk_num_bits x : x < 2 ^ 32 -> bits x 2 30 = rk_num x.
Proof.
  intros H. unfold bits, rk_num. rewrite N.shiftr_div_pow2. change (2 ^ 2) with 4. apply N.mod_small. lia.
Qed.
Lemma rk_whole x : x < 2 ^ 32 -> rk_integer x = true -> rk_hundredths x = false -> rk_value x = dec (rk_num x).
Proof.
  intros H HI HX. unfold rk_value. rewrite !bit_of, rk_num_bits by exact H. unfold rk_integer, rk_hundredths in *. rewrite HI, HX. reflexivity.
Qed.
Lemma rk_cents x : x < 2 ^ 32 -> rk_integer x = true -> rk_hundredths x = true -> rk_value x = dec (rk_num x / 100).
Proof.
  intros H HI HX. unfold rk_value. rewrite !bit_of, rk_num_bits by exact H. unfold rk_integer, rk_hundredths in *. rewrite HI, HX. reflexivity.
Qed.
Lemma rk_float x : x < 2 ^ 32 -> rk_integer x = false -> rk_value x = general6 (decode32 (rk_num x)).
Proof.
  intros H HI. unfold rk_value. rewrite !bit_of, rk_num_bits by exact H. unfold rk_integer in *. rewrite HI. reflexivity.
Qed.
Lemma dec_pos z : (0 <= z)%Z -> dec_z z = dec (Z.to_N z).
Proof. intros H. unfold dec_z. destruct z; try reflexivity. lia. Qed.
Lemma rk_right x : x < 2 ^ 32 -> rk_integer x = true -> rk_hundredths x = false -> (0 <= rk_int x)%Z ->
  rk_value x = dec_z (rk_int x).
Proof.
  intros H HI HX HZ. rewrite (rk_whole x H HI HX), dec_pos by exact HZ. f_equal. unfold rk_int, signed in *.
  destruct (_ <? _) eqn:E; [lia|]. unfold rk_num in *. change (2 ^ (30 - 1)) with 536870912 in *. lia.
Qed.
Lemma rk_right_cents x : x < 2 ^ 32 -> rk_integer x = true -> rk_hundredths x = true -> (0 <= rk_int x)%Z ->
  rk_value x = dec_z (rk_int x / 100).
Proof.
  intros H HI HX HZ. rewrite (rk_cents x H HI HX), dec_pos by lia. f_equal. unfold rk_int, signed in *.
  destruct (_ <? _) eqn:E; [lia|]. unfold rk_num in *. change (2 ^ (30 - 1)) with 536870912 in *. lia.
Qed.
