(** The values of properties. *)
From Coq Require Import List NArith ZArith Bool Lia.
From Coq Require Import ZifyBool ZifyNat ZifyN.
From Verif Require Import Lib.Res Lib.Bytes Lib.BytesFacts Common.Model Common.Spec Common.Fields Common.FieldProofs
     Common.ReadProofs Common.Utf8 Common.Utf8Proofs Propset.Model Propset.Spec Propset.Statements.
Import ListNotations.
Local Open Scope N_scope.
Ltac Zify.zify_post_hook ::= Z.div_mod_to_equations.
Arguments N.pow : simpl never.
Arguments N.mul : simpl never.

(** ** Numbers *)
Lemma to_u64_spec z : to_u64 z < 2 ^ 64 /\ exists k, (z = Z.of_N (to_u64 z) + k * 2 ^ 64)%Z.
Proof.
  unfold to_u64. split; [lia|]. exists (z / 2 ^ 64)%Z. lia.
Qed.

Lemma shows_r4 bits : bits < 2 ^ 32 -> shows_double 23 255 150 bits (double_of_float_bits bits).
Proof.
  intros Hb. unfold shows_double, double_of_float_bits, field, fraction.
  change (255 + 1) with 256. change (256 * 2 ^ 23) with (2 ^ 31). cbv zeta.
  set (ex := bits / 2 ^ 23 mod 256). set (fr := bits mod 2 ^ 23). set (neg := 2 ^ 31 <=? bits).
  split; [|split].
  - intros m x H. destruct H as [H|H1 H2].
    + change (ex = 0) in H. rewrite H. reflexivity.
    + change (0 < ex) in H1. change (ex < 255) in H2.
      replace (ex =? 255) with false by lia. replace (ex =? 0) with false by lia. reflexivity.
  - intros H1 H2. rewrite H1, H2. reflexivity.
  - intros H1 H2. rewrite H1. change (255 =? 255) with true. cbv iota.
    replace (fr =? 0) with false by lia. eauto.
Qed.
Lemma shows_r8 bits : bits < 2 ^ 64 -> shows_double 52 2047 1075 bits (double_of_bits bits).
Proof.
  intros Hb. unfold shows_double, double_of_bits, field, fraction.
  change (2047 + 1) with 2048. change (2048 * 2 ^ 52) with (2 ^ 63). cbv zeta.
  set (ex := bits / 2 ^ 52 mod 2048). set (fr := bits mod 2 ^ 52). set (neg := 2 ^ 63 <=? bits).
  split; [|split].
  - intros m x H. destruct H as [H|H1 H2].
    + change (ex = 0) in H. rewrite H. reflexivity.
    + change (0 < ex) in H1. change (ex < 2047) in H2.
      replace (ex =? 2047) with false by lia. replace (ex =? 0) with false by lia. reflexivity.
  - intros H1 H2. rewrite H1, H2. reflexivity.
  - intros H1 H2. rewrite H1. change (2047 =? 2047) with true. cbv iota.
    replace (fr =? 0) with false by lia. eauto.
Qed.

(** ** Reading at an offset *)
Lemma number_slice buf off n v : number_at buf off n v -> exists w, slice buf off n = Ok w /\ le w = v.
Proof. intros (w & Hw & E). exists w. split; [apply slice_window; exact Hw|exact E]. Qed.

Lemma uint_le buf off v : off + 3 < 2 ^ 32 -> number_at buf off 4 v -> ReadUInt buf (lenN buf) off true = Ok v.
Proof. intros Ho (w & Hw & <-). rewrite (ReadUInt_value buf off w true Ho Hw). reflexivity. Qed.

Lemma window_split buf off n k w : window buf off (n + k) w ->
  window buf off n (takeN n w) /\ window buf (off + n) k (dropN n w).
Proof.
  intros [L (pre & post & -> & P)].
  assert (E : w = takeN n w ++ dropN n w) by (symmetry; apply takeN_dropN).
  assert (L1 : lenN (takeN n w) = n) by (rewrite lenN_takeN; lia).
  assert (L2 : lenN (dropN n w) = k) by (rewrite lenN_dropN; lia).
  split.
  - split; [exact L1|]. exists pre, (dropN n w ++ post). split; [|exact P].
    rewrite E at 1. rewrite <- !app_assoc. reflexivity.
  - split; [exact L2|]. exists (pre ++ takeN n w), post. split.
    + rewrite E at 1. rewrite <- !app_assoc. reflexivity.
    + rewrite lenN_app, L1, P. reflexivity.
Qed.

Lemma number8 buf off v : number_at buf off 8 v ->
  number_at buf off 4 (v mod 2 ^ 32) /\ number_at buf (off + 4) 4 (v / 2 ^ 32).
Proof.
  intros (w & Hw & <-). pose proof (window_split buf off 4 4 w Hw) as [H1 H2].
  assert (L1 : lenN (takeN 4 w) = 4) by apply H1.
  assert (B : le (takeN 4 w) < 2 ^ 32) by (pose proof (le_bound (takeN 4 w)) as B; rewrite L1 in B; exact B).
  assert (E : le w = le (takeN 4 w) + 2 ^ 32 * le (dropN 4 w)).
  { rewrite <- (takeN_dropN 4 w) at 1. rewrite le_app, L1. reflexivity. }
  split; eexists; (split; [eassumption|]); rewrite E; lia.
Qed.

(** ** The values *)
Lemma erasenulls_filter s : erasenulls s = filter (fun c => negb (byte_eqb c x00)) s.
Proof. reflexivity. Qed.

Lemma be_le w : lenN w = 4 -> be w = be (to_le 4 (le w)).
Proof.
  intros L. f_equal. rewrite <- (to_le_le w). f_equal; [unfold lenN in L; lia|]. rewrite to_le_le. reflexivity.
Qed.

Definition small_types := [2; 3; 4; 5; 8; 11; 30; 31; 64; 66; 67; 68; 69].
Lemma other_value pl buf t i : other_type t -> ReadValue pl buf t i = Ok VNone.
Proof.
  intros H. unfold ReadValue.
  assert (E : forall k, In k small_types -> (t =? k) = false).
  { intros k Hk. apply N.eqb_neq. intros ->. exact (H Hk). }
  rewrite !E by (cbn; tauto). reflexivity.
Qed.

Lemma text_value buf t i s : In t [8; 30] -> i + 4 + lenN s < 2 ^ 32 ->
  number_at buf i 4 (lenN s) -> window buf (i + 4) (lenN s) s -> forall pl,
  ReadValue pl buf t i = Ok (VString (erasenulls s)).
Proof.
  intros Ht Hi Hn Hw pl. unfold ReadValue.
  replace (t =? 11) with false by (destruct Ht as [<-|[<-|[]]]; reflexivity).
  replace (t =? 2) with false by (destruct Ht as [<-|[<-|[]]]; reflexivity).
  replace (t =? 3) with false by (destruct Ht as [<-|[<-|[]]]; reflexivity).
  replace (t =? 4) with false by (destruct Ht as [<-|[<-|[]]]; reflexivity).
  replace (t =? 5) with false by (destruct Ht as [<-|[<-|[]]]; reflexivity).
  replace (t =? 64) with false by (destruct Ht as [<-|[<-|[]]]; reflexivity).
  replace ((t =? 8) || (t =? 30)) with true by (destruct Ht as [<-|[<-|[]]]; reflexivity).
  rewrite (uint_le buf i _ ltac:(lia) Hn). cbn [bind]. rewrite u32_small by lia.
  unfold ReadString. rewrite u32_small by lia. pose proof (window_len _ _ _ _ Hw) as L.
  replace (lenN buf <? i + 4 + lenN s) with false by lia.
  apply slice_window in Hw. rewrite Hw. reflexivity.
Qed.

(** Reading [k] bytes of 16-bit units, whatever the type says they are. *)
Definition wide_types := [31; 66; 67; 68; 69].
Lemma wide_value buf t i size u : In t wide_types -> i + 4 + 2 * lenN u < 2 ^ 32 ->
  Forall (fun c => c < 65536) u -> size = lenN u + 1 ->
  number_at buf i 4 size -> window buf (i + 4) (2 * lenN u) (units 2 u) ->
  exists s, convert u = Ok s /\ ReadValue windows buf t i = Ok (VString (erasenulls s)).
Proof.
  intros Ht Hi Hu -> Hn Hw.
  destruct (convert_ok u) as [s Hs].
  { eapply Forall_impl; [|exact Hu]. cbn. intros; lia. }
  exists s. split; [exact Hs|]. unfold ReadValue.
  assert (E : forall k, In k [11; 2; 3; 4; 5; 64] -> (t =? k) = false).
  { intros k Hk. apply N.eqb_neq. intros ->. cbn in Ht, Hk. lia. }
  rewrite !E by (cbn; tauto).
  replace ((t =? 8) || (t =? 30)) with false by (cbn in Ht; lia).
  replace ((t =? 31) || (t =? 66) || (t =? 67) || (t =? 68) || (t =? 69)) with true by (cbn in Ht; lia).
  rewrite (uint_le buf i _ ltac:(lia) Hn). cbn [bind]. rewrite (u32_small (i + 4)) by lia.
  replace (u32 (subw 32 (lenN u + 1) 1 * 2)) with (2 * lenN u) by (unfold u32, subw; lia).
  unfold ReadWString. rewrite u32_small by lia. pose proof (window_len _ _ _ _ Hw) as L.
  replace (lenN buf <? i + 4 + 2 * lenN u) with false by lia.
  replace (i + 4 + 2 * lenN u <? 2 ^ 32) with true by lia.
  apply slice_window in Hw. rewrite Hw. cbn [bind].
  pose proof (to_wchars_units windows u eq_refl Hu) as E2. change (N.to_nat (sizeof_wchar windows)) with 2%nat in E2.
  rewrite E2. cbn [bind].
  rewrite Hs. reflexivity.
Qed.

Lemma value_read pl buf i v : lenN buf + 12 < 2 ^ 32 -> data_at buf i v -> is_name v = false ->
  (pl = windows \/ is_wide v = false) ->
  exists r, ReadValue pl buf (type_of v) i = Ok r /\ taken v r.
Proof.
  intros HL Hd Hname Hw.
  assert (S : forall v r, (forall z, v <> SI4 z) -> shows v r -> taken v r).
  { intros x r H1 H2. exists x. split; [apply tf_same; exact H1|exact H2]. }
  destruct Hd as [n z Hn Hz|n z Hn Hz|n Hn|n Hn|Hn|Hn|n Hn|t s Ht Hn Hs|u Hu Hn Hs|t s Ht Hn Hs|t Ht]; cbn [type_of].
  - destruct Hn as (w & Hb & <-). pose proof (window_len _ _ _ _ Hb) as L.
    destruct (ReadSShort_value buf i w false ltac:(lia) Hb) as (z' & E & T).
    pose proof (twos_fun 16 _ _ _ ltac:(lia) Hz T) as <-.
    eexists. split; [unfold ReadValue; cbn [N.eqb Pos.eqb]; rewrite E; reflexivity|].
    apply S; [discriminate|]. cbn [shows]. exists (to_u64 z). destruct (to_u64_spec z). auto.
  - destruct Hn as (w & Hb & <-). pose proof (window_len _ _ _ _ Hb) as L.
    destruct (ReadSInt_value buf i w false ltac:(lia) Hb) as (z' & E & T).
    eexists. split; [unfold ReadValue; cbn [N.eqb Pos.eqb]; rewrite E; reflexivity|].
    exists (SI4 z'). split.
    + apply tf_i4. exists (le w). destruct Hb as [Lw _].
      split; [pose proof (le_bound w) as B; rewrite Lw in B; exact B|]. split; [exact Hz|].
      rewrite <- be_le by exact Lw. exact T.
    + cbn [shows]. exists (to_u64 z'). destruct (to_u64_spec z'). auto.
  - pose proof (number_at_len _ _ _ _ Hn) as L. pose proof (number_at_bound _ _ _ _ Hn) as B.
    destruct (number_slice _ _ _ _ Hn) as (w & E & <-).
    eexists. split.
    + unfold ReadValue; cbn [N.eqb Pos.eqb]. unfold ReadFloatBits. rewrite u32_small by lia.
      replace (lenN buf <? i + 4) with false by lia. rewrite E. reflexivity.
    + apply S; [discriminate|]. cbn [shows]. eexists. split; [reflexivity|]. apply shows_r4. exact B.
  - pose proof (number_at_len _ _ _ _ Hn) as L. pose proof (number_at_bound _ _ _ _ Hn) as B.
    destruct (number_slice _ _ _ _ Hn) as (w & E & <-).
    eexists. split.
    + unfold ReadValue; cbn [N.eqb Pos.eqb]. unfold ReadDoubleBits. rewrite u32_small by lia.
      replace (lenN buf <? i + 8) with false by lia. rewrite E. reflexivity.
    + apply S; [discriminate|]. cbn [shows]. eexists. split; [reflexivity|]. apply shows_r8. exact B.
  - destruct Hn as (w & Hb & Ew). pose proof (window_len _ _ _ _ Hb) as L.
    eexists. split; [unfold ReadValue; cbn [N.eqb Pos.eqb];
      rewrite (ReadUShort_value buf i w false ltac:(lia) Hb), Ew; reflexivity|].
    apply S; [discriminate|]. reflexivity.
  - destruct Hn as (w & Hb & Ew). pose proof (window_len _ _ _ _ Hb) as L.
    eexists. split; [unfold ReadValue; cbn [N.eqb Pos.eqb];
      rewrite (ReadUShort_value buf i w false ltac:(lia) Hb), Ew; reflexivity|].
    apply S; [discriminate|]. reflexivity.
  - pose proof (number_at_len _ _ _ _ Hn) as L. pose proof (number_at_bound _ _ _ _ Hn) as B.
    destruct (number8 _ _ _ Hn) as [H1 H2].
    eexists. split.
    + unfold ReadValue; cbn [N.eqb Pos.eqb]. rewrite (uint_le buf i _ ltac:(lia) H1). cbn [bind].
      rewrite u32_small by lia. rewrite (uint_le buf (i + 4) _ ltac:(lia) H2). cbn [bind].
      rewrite lor_shiftl_add by lia. reflexivity.
    + apply S; [discriminate|]. cbn [shows]. f_equal. lia.
  - pose proof (window_len _ _ _ _ Hs) as L. eexists. split; [apply text_value; try eassumption; lia|].
    apply S; [discriminate|]. reflexivity.
  - destruct Hw as [->|Hw]; [|discriminate Hw]. pose proof (window_len _ _ _ _ Hs) as L.
    destruct (wide_value buf 31 i _ u ltac:(cbn; tauto) ltac:(lia) Hu eq_refl Hn Hs) as (s & Es & E).
    eexists. split; [exact E|]. apply S; [discriminate|]. cbn [shows]. eexists. split; [reflexivity|]. split.
    { unfold erasenulls. intros K. apply filter_In in K. destruct K as [_ K]. discriminate K. }
    intros Hsc. apply convert_nonzero in Es. eapply convert_utf8; [exact Es|].
    apply Forall_forall. intros c Hc. apply filter_In in Hc. rewrite Forall_forall in Hsc. apply Hsc. tauto.
  - discriminate Hname.
  - eexists. split; [apply other_value; exact Ht|]. apply S; [discriminate|]. reflexivity.
Qed.

Lemma property_read pl buf off v pid f : lenN buf + 12 < 2 ^ 32 -> value_at buf off v -> is_name v = false ->
  (pl = windows \/ is_wide v = false) ->
  exists r, ReadProperty pl buf off pid f = Ok (mkProp pid f (type_of v) r) /\ taken v r.
Proof.
  intros HL [Ht Hd] Hn Hw. destruct (value_read pl buf (off + 4) v HL Hd Hn Hw) as (r & E & Hr).
  exists r. split; [|exact Hr]. unfold ReadProperty. pose proof (number_at_len _ _ _ _ Ht) as L.
  destruct (number_slice _ _ _ _ Ht) as (w & Ew & El). rewrite Ew. cbn [bind]. rewrite El.
  rewrite u32_small by lia. rewrite E. reflexivity.
Qed.
