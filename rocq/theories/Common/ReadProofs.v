(** Proofs about the buffer readers. *)
From Coq Require Import List NArith ZArith Bool Lia.
From Coq Require Import ZifyBool ZifyNat ZifyN.
From Verif Require Import Lib.Res Lib.Bytes Lib.BytesFacts Common.Model Common.Spec.
Import ListNotations.
Local Open Scope N_scope.
Ltac Zify.zify_post_hook ::= Z.div_mod_to_equations.

Lemma u32_small n : n < 2 ^ 32 -> u32 n = n.
Proof. intros. apply N.mod_small. assumption. Qed.
Lemma u16_small n : n < 2 ^ 16 -> u16 n = n.
Proof. intros. apply N.mod_small. assumption. Qed.

Lemma occurs_window buf off n :
  off + n <= lenN buf -> window buf off n (takeN n (dropN off buf)).
Proof.
  intros H. split.
  - rewrite lenN_takeN, lenN_dropN. lia.
  - exists (takeN off buf), (dropN (off + n) buf). split.
    + rewrite <- dropN_dropN, takeN_dropN, takeN_dropN. reflexivity.
    + rewrite lenN_takeN. lia.
Qed.

Lemma window_eq buf off n w : window buf off n w ->
  off + n <= lenN buf /\ w = takeN n (dropN off buf).
Proof.
  intros [Hl (pre & post & -> & Hp)]. rewrite !lenN_app. split; [lia|].
  subst off. rewrite dropN_app_exact. subst n. rewrite takeN_app_exact. reflexivity.
Qed.

Lemma window_fun buf off n w w' : window buf off n w -> window buf off n w' -> w = w'.
Proof. intros [_ ->]%window_eq [_ ->]%window_eq. reflexivity. Qed.

Lemma occurs_at_window pat buf off : occurs_at pat buf off <-> window buf off (lenN pat) pat.
Proof. unfold window. tauto. Qed.

Lemma slice_window buf off n w : slice buf off n = Ok w <-> window buf off n w.
Proof.
  split.
  - intros (H & -> & _)%slice_inv. apply occurs_window. exact H.
  - intros [H ->]%window_eq. apply slice_ok. exact H.
Qed.

Lemma window2 buf off w : window buf off 2 w ->
  exists a b, w = [a; b] /\ nthN buf off = Some a /\ nthN buf (off + 1) = Some b.
Proof.
  intros [Hl (pre & post & -> & Hp)].
  destruct w as [|a [|b [|c w]]]; rewrite ?lenN_cons in Hl;
    try (change (lenN (@nil byte)) with 0 in Hl; lia).
  exists a, b. split; [reflexivity|]. subst off. split.
  - rewrite nthN_app2 by lia. rewrite N.sub_diag. reflexivity.
  - rewrite nthN_app2 by lia. replace (lenN pre + 1 - lenN pre) with 1 by lia. reflexivity.
Qed.

Lemma window4 buf off w : window buf off 4 w ->
  exists a b c d, w = [a; b; c; d] /\ nthN buf off = Some a /\ nthN buf (off + 1) = Some b /\
    nthN buf (off + 2) = Some c /\ nthN buf (off + 3) = Some d.
Proof.
  intros [Hl (pre & post & -> & Hp)].
  destruct w as [|a [|b [|c [|d [|e w]]]]]; rewrite ?lenN_cons in Hl;
    try (change (lenN (@nil byte)) with 0 in Hl; lia).
  exists a, b, c, d. split; [reflexivity|]. subst off. repeat split.
  - rewrite nthN_app2 by lia. rewrite N.sub_diag. reflexivity.
  - rewrite nthN_app2 by lia. replace (lenN pre + 1 - lenN pre) with 1 by lia. reflexivity.
  - rewrite nthN_app2 by lia. replace (lenN pre + 2 - lenN pre) with 2 by lia. reflexivity.
  - rewrite nthN_app2 by lia. replace (lenN pre + 3 - lenN pre) with 3 by lia. reflexivity.
Qed.

Lemma or2 a b : u16 (N.lor (N.shiftl (b2n a) 8) (b2n b)) = b2n a * 256 + b2n b.
Proof.
  pose proof (b2n_lt a). pose proof (b2n_lt b).
  rewrite lor_shiftl_add by (change (2 ^ 8) with 256; lia).
  change (2 ^ 8) with 256. apply u16_small. change (2 ^ 16) with 65536. lia.
Qed.

Lemma or4_val a b c d : or4 (b2n a) (b2n b) (b2n c) (b2n d)
  = ((b2n a * 256 + b2n b) * 256 + b2n c) * 256 + b2n d.
Proof.
  pose proof (b2n_lt a). pose proof (b2n_lt b). pose proof (b2n_lt c). pose proof (b2n_lt d).
  unfold or4.
  rewrite <- N.lor_assoc, <- N.lor_assoc.
  rewrite (lor_shiftl_add (b2n c)) by (change (2 ^ 8) with 256; lia).
  rewrite (lor_shiftl_add (b2n b)) by (change (2 ^ 16) with 65536; change (2^8) with 256; lia).
  rewrite (lor_shiftl_add (b2n a)) by
      (change (2 ^ 24) with 16777216; change (2 ^ 16) with 65536; change (2^8) with 256; lia).
  change (2 ^ 24) with 16777216; change (2 ^ 16) with 65536; change (2^8) with 256. lia.
Qed.

Lemma u32_or4 a b c d : u32 (or4 (b2n a) (b2n b) (b2n c) (b2n d)) = or4 (b2n a) (b2n b) (b2n c) (b2n d).
Proof.
  apply u32_small. rewrite or4_val.
  pose proof (b2n_lt a). pose proof (b2n_lt b). pose proof (b2n_lt c). pose proof (b2n_lt d).
  change (2 ^ 32) with 4294967296. lia.
Qed.

Lemma signed_twos w n : 1 <= w -> n < 2 ^ w -> twos_complement w n (signed w n).
Proof.
  intros Hw Hn. unfold twos_complement, signed.
  assert (2 ^ w = 2 * 2 ^ (w - 1)) as E.
  { replace w with (N.succ (w - 1)) at 1 by lia. apply N.pow_succ_r'. }
  assert (Z.of_N (2 ^ w) = 2 ^ Z.of_N w)%Z as E1 by (rewrite N2Z.inj_pow; reflexivity).
  assert (Z.of_N (2 ^ (w - 1)) = 2 ^ (Z.of_N w - 1))%Z as E2
      by (rewrite N2Z.inj_pow, N2Z.inj_sub by lia; reflexivity).
  rewrite <- E2. destruct (N.ltb_spec n (2 ^ (w - 1))) as [H|H].
  - split; [lia|]. exists 0%Z. lia.
  - split; [lia|]. exists (-1)%Z. lia.
Qed.

Lemma twos_fun w n z z' : 1 <= w -> twos_complement w n z -> twos_complement w n z' -> z = z'.
Proof.
  intros Hw [B1 [k1 E1]] [B2 [k2 E2]].
  assert (2 ^ Z.of_N w = 2 * 2 ^ (Z.of_N w - 1))%Z as E.
  { rewrite <- Z.pow_succ_r by lia. f_equal. lia. }
  rewrite E in *.
  assert (0 < 2 ^ (Z.of_N w - 1))%Z by (apply Z.pow_pos_nonneg; lia).
  assert (k1 = k2) by nia. subst. reflexivity.
Qed.

(** ** 16-bit reads *)
Lemma rd_some buf i b : nthN buf i = Some b -> rd buf i = Ok (b2n b).
Proof. unfold rd. intros ->. reflexivity. Qed.

Lemma ReadUShort_value buf off w be_ :
  off + 1 < 2 ^ 32 -> window buf off 2 w ->
  ReadUShort buf (lenN buf) off be_ = Ok (if be_ then be w else le w).
Proof.
  intros Ho Hw. pose proof (window_eq _ _ _ _ Hw) as [Hlen _].
  apply window2 in Hw. destruct Hw as (a & b & -> & Ha & Hb).
  unfold ReadUShort. rewrite (u32_small (off + 1)) by exact Ho.
  destruct (N.ltb_spec (lenN buf) (off + 1)) as [H|H]; [lia|].
  rewrite (rd_some _ _ _ Ha), (rd_some _ _ _ Hb). cbn [bind].
  destruct be_; rewrite or2; f_equal; unfold be; cbn [be_acc le]; lia.
Qed.

Lemma le2_bound a b : le [a; b] < 2 ^ 16.
Proof. apply (le_bound [a; b]). Qed.
Lemma be2_bound a b : be [a; b] < 2 ^ 16.
Proof. apply (be_bound [a; b]). Qed.

Lemma ReadSShort_signed buf max off be_ :
  ReadSShort buf max off be_ = rmap (signed 16) (ReadUShort buf max off be_).
Proof.
  unfold ReadSShort, ReadUShort, rmap.
  destruct (max <? u32 (off + 1)); [reflexivity|].
  destruct (rd buf off); cbn [bind]; try reflexivity.
  destruct (rd buf (u32 (off + 1))); cbn [bind]; try reflexivity.
  destruct be_; reflexivity.
Qed.

Lemma ReadSShort_value buf off w be_ :
  off + 1 < 2 ^ 32 -> window buf off 2 w ->
  exists z, ReadSShort buf (lenN buf) off be_ = Ok z /\
    twos_complement 16 (if be_ then be w else le w) z.
Proof.
  intros Ho Hw. rewrite ReadSShort_signed, (ReadUShort_value buf off w be_ Ho Hw).
  eexists; split; [reflexivity|]. apply window2 in Hw. destruct Hw as (a & b & -> & _ & _).
  apply signed_twos; [lia|]. destruct be_; [apply be2_bound|apply le2_bound].
Qed.

Lemma ReadUShort_unsafe_iff buf off be_ : off < 2 ^ 32 ->
  (~ safe (ReadUShort buf (lenN buf) off be_) <->
   (off + 1 = lenN buf /\ off + 1 < 2 ^ 32) \/ (off = 2 ^ 32 - 1 /\ lenN buf <= off)).
Proof.
  intros Ho. unfold ReadUShort.
  destruct (N.eq_dec off (2 ^ 32 - 1)) as [->|Hne].
  - change (u32 (2 ^ 32 - 1 + 1)) with 0.
    replace (lenN buf <? 0) with false by (symmetry; apply N.ltb_ge; lia).
    destruct (N.lt_ge_cases (2 ^ 32 - 1) (lenN buf)) as [H|H].
    + destruct (rd_lt buf (2 ^ 32 - 1) H) as (a & Ea & _). rewrite Ea. cbn [bind].
      destruct (rd_lt buf 0) as (b & Eb & _); [lia|]. rewrite Eb. cbn [bind].
      destruct be_; cbn [safe]; split; intros X; exfalso; lia.
    + rewrite rd_ge by exact H. cbn [bind safe]. split; [intros _; right; lia|tauto].
  - rewrite u32_small by lia.
    destruct (N.ltb_spec (lenN buf) (off + 1)) as [H|H].
    + cbn [safe]. split; [intros X; exfalso; apply X; exact I|lia].
    + destruct (rd_lt buf off) as (a & Ea & _); [lia|]. rewrite Ea. cbn [bind].
      destruct (N.eq_dec (off + 1) (lenN buf)) as [E|E].
      * rewrite rd_ge by lia. cbn [bind safe]. split; [intros _; left; lia|tauto].
      * destruct (rd_lt buf (off + 1)) as (b & Eb & _); [lia|]. rewrite Eb. cbn [bind].
        destruct be_; cbn [safe]; split; intros X; exfalso; lia.
Qed.

Lemma safe_rmap {A C} (f : A -> C) m : safe (rmap f m) <-> safe m.
Proof. destruct m; cbn; tauto. Qed.

Lemma ReadSShort_unsafe_iff buf off be_ : off < 2 ^ 32 ->
  (~ safe (ReadSShort buf (lenN buf) off be_) <->
   (off + 1 = lenN buf /\ off + 1 < 2 ^ 32) \/ (off = 2 ^ 32 - 1 /\ lenN buf <= off)).
Proof. intros H. rewrite ReadSShort_signed, safe_rmap. apply ReadUShort_unsafe_iff. exact H. Qed.

(** ** 32-bit reads *)
Lemma ReadUInt_value buf off w be_ :
  off + 3 < 2 ^ 32 -> window buf off 4 w ->
  ReadUInt buf (lenN buf) off be_ = Ok (if be_ then le w else be w).
Proof.
  intros Ho Hw. pose proof (window_eq _ _ _ _ Hw) as [Hlen _].
  apply window4 in Hw. destruct Hw as (a & b & c & d & -> & Ha & Hb & Hc & Hd).
  unfold ReadUInt. rewrite (u32_small (off + 3)) by exact Ho.
  rewrite (u32_small (off + 2)), (u32_small (off + 1)) by lia.
  destruct (N.ltb_spec (lenN buf) (off + 3)) as [H|H]; [lia|].
  rewrite (rd_some _ _ _ Ha), (rd_some _ _ _ Hb), (rd_some _ _ _ Hc), (rd_some _ _ _ Hd).
  cbn [bind]. destruct be_; rewrite u32_or4, or4_val; f_equal; unfold be; cbn [be_acc le]; lia.
Qed.

Lemma ReadSInt_signed buf max off be_ :
  ReadSInt buf max off be_ = rmap (signed 32) (ReadUInt buf max off be_).
Proof.
  unfold ReadSInt, ReadUInt, rmap.
  destruct (max <? u32 (off + 3)); [reflexivity|].
  destruct (rd buf off); cbn [bind]; try reflexivity.
  destruct (rd buf (u32 (off + 1))); cbn [bind]; try reflexivity.
  destruct (rd buf (u32 (off + 2))); cbn [bind]; try reflexivity.
  destruct (rd buf (u32 (off + 3))); cbn [bind]; try reflexivity.
  destruct be_; reflexivity.
Qed.

Lemma ReadSInt_value buf off w be_ :
  off + 3 < 2 ^ 32 -> window buf off 4 w ->
  exists z, ReadSInt buf (lenN buf) off be_ = Ok z /\
    twos_complement 32 (if be_ then le w else be w) z.
Proof.
  intros Ho Hw. rewrite ReadSInt_signed, (ReadUInt_value buf off w be_ Ho Hw).
  eexists; split; [reflexivity|]. apply window4 in Hw.
  destruct Hw as (a & b & c & d & -> & _).
  apply signed_twos; [lia|]. destruct be_;
    [apply (le_bound [a; b; c; d])|apply (be_bound [a; b; c; d])].
Qed.

Lemma ReadUInt_unsafe_iff buf off be_ : off < 2 ^ 32 ->
  (~ safe (ReadUInt buf (lenN buf) off be_) <->
   (off + 3 = lenN buf /\ off + 3 < 2 ^ 32) \/
   (2 ^ 32 <= off + 3 /\ off + 3 - 2 ^ 32 <= lenN buf /\ lenN buf < 2 ^ 32)).
Proof.
  intros Ho. unfold ReadUInt.
  destruct (N.lt_ge_cases (off + 3) (2 ^ 32)) as [Hw|Hw].
  - rewrite !u32_small by lia.
    destruct (N.ltb_spec (lenN buf) (off + 3)) as [H|H].
    + cbn [safe]. split; [intros X; exfalso; apply X; exact I|lia].
    + destruct (rd_lt buf off) as (a & Ea & _); [lia|]. rewrite Ea. cbn [bind].
      destruct (rd_lt buf (off + 1)) as (b & Eb & _); [lia|]. rewrite Eb. cbn [bind].
      destruct (rd_lt buf (off + 2)) as (c & Ec & _); [lia|]. rewrite Ec. cbn [bind].
      destruct (N.eq_dec (off + 3) (lenN buf)) as [E|E].
      * rewrite rd_ge by lia. cbn [bind safe]. split; [intros _; left; lia|tauto].
      * destruct (rd_lt buf (off + 3)) as (d & Ed & _); [lia|]. rewrite Ed. cbn [bind].
        destruct be_; cbn [safe]; split; intros X; exfalso; lia.
  - assert (u32 (off + 3) = off + 3 - 2 ^ 32) as E3 by (unfold u32; lia).
    destruct (N.ltb_spec (lenN buf) (u32 (off + 3))) as [H|H].
    { cbn [safe]. split; [intros X; exfalso; apply X; exact I|lia]. }
    assert (forall k, rd buf (u32 k) = UB \/ exists b, rd buf (u32 k) = Ok b /\ u32 k < lenN buf) as Hrd.
    { intros k. destruct (N.lt_ge_cases (u32 k) (lenN buf)) as [Hk|Hk].
      - right. destruct (rd_lt buf _ Hk) as (b & Eb & _). eauto.
      - left. apply rd_ge. exact Hk. }
    rewrite <- (u32_small off) at 1 by exact Ho.
    destruct (N.lt_ge_cases (lenN buf) (2 ^ 32)) as [Hl|Hl].
    + split; [intros _; right; lia|]. intros _.
      destruct (Hrd off) as [->|(a & -> & Ha)]; cbn [bind safe]; [tauto|].
      destruct (Hrd (off + 1)) as [->|(b & -> & Hb)]; cbn [bind safe]; [tauto|].
      destruct (Hrd (off + 2)) as [->|(c & -> & Hc)]; cbn [bind safe]; [tauto|].
      exfalso. unfold u32 in *. lia.
    + assert (forall k, exists b, rd buf (u32 k) = Ok b) as Hall.
      { intros k. destruct (rd_lt buf (u32 k)) as (b & Eb & _); [unfold u32; lia|]. eauto. }
      destruct (Hall off) as (a & ->), (Hall (off + 1)) as (b & ->), (Hall (off + 2)) as (c & ->),
               (Hall (off + 3)) as (d & ->).
      cbn [bind]. destruct be_; cbn [safe]; split; intros X; exfalso; lia.
Qed.

Lemma ReadSInt_unsafe_iff buf off be_ : off < 2 ^ 32 ->
  (~ safe (ReadSInt buf (lenN buf) off be_) <->
   (off + 3 = lenN buf /\ off + 3 < 2 ^ 32) \/
   (2 ^ 32 <= off + 3 /\ off + 3 - 2 ^ 32 <= lenN buf /\ lenN buf < 2 ^ 32)).
Proof. intros H. rewrite ReadSInt_signed, safe_rmap. apply ReadUInt_unsafe_iff. exact H. Qed.

(** Any value returned by an in-range read is a function of the window; and the reads
    throw when the guard fires. *)
Lemma ReadUShort_throw buf off be_ : off + 1 < 2 ^ 32 -> lenN buf < off + 1 ->
  ReadUShort buf (lenN buf) off be_ = Throw RangeError.
Proof. intros Ho H. unfold ReadUShort. rewrite u32_small by lia.
  destruct (N.ltb_spec (lenN buf) (off + 1)); [reflexivity|lia]. Qed.
Lemma ReadUInt_throw buf off be_ : off + 3 < 2 ^ 32 -> lenN buf < off + 3 ->
  ReadUInt buf (lenN buf) off be_ = Throw RangeError.
Proof. intros Ho H. unfold ReadUInt. rewrite u32_small by lia.
  destruct (N.ltb_spec (lenN buf) (off + 3)); [reflexivity|lia]. Qed.

(** ** Wide reads *)
Lemma ReadULong_spec p buf off : supported p ->
  ReadULong p buf (lenN buf) off =
  if lenN buf <? off + sizeof_long p then Throw RangeError
  else Ok (le (takeN (sizeof_long p) (dropN off buf))).
Proof.
  intros _. unfold ReadULong.
  destruct (N.ltb_spec (lenN buf) (off + sizeof_long p)) as [H|H]; [reflexivity|].
  rewrite slice_ok by lia. reflexivity.
Qed.

Lemma ReadULongLong_spec buf off :
  ReadULongLong buf (lenN buf) off =
  if lenN buf <? off + 8 then Throw RangeError else Ok (le (takeN 8 (dropN off buf))).
Proof.
  unfold ReadULongLong.
  destruct (N.ltb_spec (lenN buf) (off + 8)) as [H|H]; [reflexivity|].
  rewrite slice_ok by lia. reflexivity.
Qed.

Lemma ReadDoubleBits_spec buf off : off + 8 < 2 ^ 32 ->
  ReadDoubleBits buf (lenN buf) off =
  if lenN buf <? off + 8 then Throw RangeError else Ok (le (takeN 8 (dropN off buf))).
Proof.
  intros Ho. unfold ReadDoubleBits. rewrite u32_small by exact Ho.
  destruct (N.ltb_spec (lenN buf) (off + 8)) as [H|H]; [reflexivity|].
  rewrite slice_ok by lia. reflexivity.
Qed.
Lemma ReadFloatBits_spec buf off : off + 4 < 2 ^ 32 ->
  ReadFloatBits buf (lenN buf) off =
  if lenN buf <? off + 4 then Throw RangeError else Ok (le (takeN 4 (dropN off buf))).
Proof.
  intros Ho. unfold ReadFloatBits. rewrite u32_small by exact Ho.
  destruct (N.ltb_spec (lenN buf) (off + 4)) as [H|H]; [reflexivity|].
  rewrite slice_ok by lia. reflexivity.
Qed.

(** The guard of the double read wraps at the top of the offset range. *)
Lemma ReadDoubleBits_wrap buf off : off < 2 ^ 32 -> 2 ^ 32 <= off + 8 ->
  off + 8 - 2 ^ 32 <= lenN buf -> lenN buf < off + 8 ->
  ReadDoubleBits buf (lenN buf) off = UB.
Proof.
  intros Ho Hw Hg Hl. unfold ReadDoubleBits.
  replace (u32 (off + 8)) with (off + 8 - 2 ^ 32) by (unfold u32; lia).
  destruct (N.ltb_spec (lenN buf) (off + 8 - 2 ^ 32)) as [H|H]; [lia|].
  rewrite slice_ub by lia. reflexivity.
Qed.

(** ** Strings *)
Lemma ReadString_spec buf off len : off + len < 2 ^ 32 ->
  ReadString buf (lenN buf) off len =
  if lenN buf <? off + len then Throw RangeError else Ok (takeN len (dropN off buf)).
Proof.
  intros Ho. unfold ReadString. rewrite u32_small by exact Ho.
  destruct (N.ltb_spec (lenN buf) (off + len)) as [H|H]; [reflexivity|].
  apply slice_ok. exact H.
Qed.

Lemma ReadString_unsafe_iff buf off len : off < 2 ^ 32 -> len < 2 ^ 32 ->
  (~ safe (ReadString buf (lenN buf) off len) <->
   2 ^ 32 <= off + len /\ off + len - 2 ^ 32 <= lenN buf /\ lenN buf < off + len).
Proof.
  intros Ho Hl. unfold ReadString.
  destruct (N.lt_ge_cases (off + len) (2 ^ 32)) as [Hw|Hw].
  - rewrite u32_small by exact Hw.
    destruct (N.ltb_spec (lenN buf) (off + len)) as [H|H]; cbn [safe].
    + split; [intros X; exfalso; apply X; exact I|lia].
    + rewrite slice_ok by lia. cbn [safe]. split; [intros X; exfalso; apply X; exact I|lia].
  - replace (u32 (off + len)) with (off + len - 2 ^ 32) by (unfold u32; lia).
    destruct (N.ltb_spec (lenN buf) (off + len - 2 ^ 32)) as [H|H]; cbn [safe].
    + split; [intros X; exfalso; apply X; exact I|lia].
    + destruct (N.lt_ge_cases (lenN buf) (off + len)) as [Hb|Hb].
      * rewrite slice_ub by exact Hb. cbn [safe]. split; [lia|tauto].
      * rewrite slice_ok by exact Hb. cbn [safe]. split; [intros X; exfalso; apply X; exact I|lia].
Qed.

(** ** Bit fields *)
Lemma ExtractBits_value num n k : num < 256 -> 1 <= k <= 8 -> n <= 8 ->
  ExtractBits num n k = Ok ((num / 2 ^ (k - 1)) mod 2 ^ n).
Proof.
  intros Hnum Hk Hn. unfold ExtractBits.
  replace ((k =? 0) || (32 <? k) || (30 <? n)) with false by lia.
  f_equal. rewrite N.shiftl_1_l.
  replace (2 ^ n - 1) with (N.ones n) by (rewrite N.ones_equiv; lia).
  rewrite N.land_comm, N.land_ones, N.shiftr_div_pow2.
  unfold u8. apply N.mod_small.
  eapply N.le_lt_trans; [apply N.mod_le, N.pow_nonzero; lia|].
  eapply N.le_lt_trans; [apply N.div_le_upper_bound; [apply N.pow_nonzero; lia|]|exact Hnum].
  assert (1 <= 2 ^ (k - 1)) by (apply N.lt_pred_le, N.neq_0_lt_0, N.pow_nonzero; lia).
  nia.
Qed.

(** ** Magic comparison *)
Lemma magic_loop_spec maxxer minner n i off :
  off <= i -> i + N.of_nat n <= lenN maxxer -> i - off + N.of_nat n <= lenN minner ->
  magic_loop maxxer minner i off n =
  Ok (bytes_eqb (firstn n (dropN i maxxer)) (firstn n (dropN (i - off) minner))).
Proof.
  revert i; induction n as [|n IH]; intros i Ho H1 H2; cbn [magic_loop]; [reflexivity|].
  destruct (rd_lt maxxer i) as (a & Ea & Na); [lia|].
  destruct (rd_lt minner (i - off)) as (b & Eb & Nb); [lia|].
  rewrite Ea, Eb. cbn [bind].
  rewrite (dropN_cons_nth _ _ _ Na), (dropN_cons_nth _ _ _ Nb). cbn [firstn bytes_eqb].
  destruct (N.eqb_spec (b2n a) (b2n b)) as [E|E].
  - apply b2n_inj in E. subst b. rewrite byte_eqb_refl. cbn [andb].
    rewrite IH by lia. replace (i + 1 - off) with (i - off + 1) by lia. reflexivity.
  - destruct (byte_eqb a b) eqn:Eq; [|reflexivity].
    apply byte_eqb_eq in Eq. congruence.
Qed.

Lemma checkMagic_spec actual pat off :
  checkMagic actual (lenN actual) pat (lenN pat) off =
  Ok (if off + lenN pat <=? lenN actual
      then bytes_eqb (takeN (lenN pat) (dropN off actual)) pat else false).
Proof.
  unfold checkMagic.
  destruct (N.ltb_spec (lenN actual) (lenN pat)) as [H|H].
  - rewrite orb_true_r. replace (off + lenN pat <=? lenN actual) with false by lia. reflexivity.
  - rewrite orb_false_r. destruct (N.ltb_spec (lenN actual) (off + lenN pat)) as [H1|H1].
    + replace (off + lenN pat <=? lenN actual) with false by lia. reflexivity.
    + replace (off + lenN pat <=? lenN actual) with true by lia.
      rewrite magic_loop_spec by lia. do 2 f_equal.
      * rewrite takeN_firstn. reflexivity.
      * rewrite N.sub_diag, dropN_0. unfold lenN. rewrite Nat2N.id. apply firstn_all.
Qed.

Lemma checkMagic_iff actual pat off :
  exists r, checkMagic actual (lenN actual) pat (lenN pat) off = Ok r /\
            (r = true <-> occurs_at pat actual off).
Proof.
  rewrite checkMagic_spec. eexists; split; [reflexivity|].
  rewrite occurs_at_window.
  destruct (N.leb_spec (off + lenN pat) (lenN actual)) as [H|H].
  - rewrite bytes_eqb_eq. split.
    + intros E. rewrite <- E at 2. apply occurs_window. exact H.
    + intros [_ E]%window_eq. symmetry. exact E.
  - split; [discriminate|]. intros [Hw _]%window_eq. lia.
Qed.
