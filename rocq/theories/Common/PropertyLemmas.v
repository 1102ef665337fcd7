(** Lemmas in the exact shape of the property statements, and the concrete cases. *)
From Coq Require Import List NArith ZArith Bool Lia Strings.String.
From Coq Require Import ZifyBool ZifyNat ZifyN.
From Verif Require Import Lib.Res Lib.Bytes Lib.BytesFacts Lib.NumSpec
     Common.Model Common.Spec Common.ReadProofs Common.EscapeProofs Common.StringProofs
     Common.TimeProofs.
Import ListNotations.
Local Open Scope N_scope.
Ltac Zify.zify_post_hook ::= Z.div_mod_to_equations.

Ltac window_tac pre post := split; [reflexivity|exists pre, post; split; reflexivity].

Lemma C01_ex :
  window [x01; xfe; xff; x02] 1 2 [xfe; xff] /\
  ReadUShort [x01; xfe; xff; x02] 4 1 false = Ok 65534 /\
  ReadUShort [x01; xfe; xff; x02] 4 1 true = Ok 65279 /\
  ReadSShort [x01; xfe; xff; x02] 4 1 false = Ok (-2)%Z.
Proof. split; [window_tac [x01] [x02]|]. repeat split; vm_compute; reflexivity. Qed.

Lemma C02_short_ub : exists buf off, off < 2 ^ 32 /\
    ReadUShort buf (lenN buf) off false = UB /\ ReadSShort buf (lenN buf) off true = UB.
Proof. exists [x41], 0. repeat split; vm_compute; reflexivity. Qed.

Lemma C02_int_ub : exists buf off, off < 2 ^ 32 /\
    ReadUInt buf (lenN buf) off false = UB /\ ReadSInt buf (lenN buf) off true = UB.
Proof. exists [x41; x42; x43], 0. repeat split; vm_compute; reflexivity. Qed.

Lemma C02_ex : safe (ReadUInt [x01; x02; x03; x04] 4 0 false) /\
                      ~ safe (ReadUInt [x01; x02; x03; x04] 4 1 false) /\
                      safe (ReadUInt [x01; x02; x03; x04] 4 2 false).
Proof. vm_compute. tauto. Qed.

Lemma C03_ex : window [x00; x01; x02; x03; x04] 1 4 [x01; x02; x03; x04] /\
  ReadUInt [x00; x01; x02; x03; x04] 5 1 true = Ok 67305985.
Proof. split; [window_tac [x00] (@nil byte)|vm_compute; reflexivity]. Qed.

Lemma C03_swapped : exists buf off w, window buf off 4 w /\ off + 3 < 2 ^ 32 /\
    ReadUInt buf (lenN buf) off true <> Ok (be w) /\
    ReadUInt buf (lenN buf) off false <> Ok (le w).
Proof.
  exists [x01; x02; x03; x04], 0, [x01; x02; x03; x04].
  split; [window_tac (@nil byte) (@nil byte)|].
  split; [reflexivity|]. split; vm_compute; discriminate.
Qed.

Lemma ReadULong_all p buf off : supported p ->
  (forall w, window buf off (sizeof_long p) w -> ReadULong p buf (lenN buf) off = Ok (le w)) /\
  (lenN buf < off + sizeof_long p -> ReadULong p buf (lenN buf) off = Throw RangeError) /\
  safe (ReadULong p buf (lenN buf) off).
Proof.
  intros Hp. rewrite ReadULong_spec by exact Hp.
  destruct (N.ltb_spec (lenN buf) (off + sizeof_long p)) as [H|H]; repeat split; try lia.
  - intros w [Hw _]%window_eq. lia.
  - intros w [_ ->]%window_eq. reflexivity.
Qed.

Lemma ReadULongLong_all buf off :
  (forall w, window buf off 8 w -> ReadULongLong buf (lenN buf) off = Ok (le w)) /\
  (lenN buf < off + 8 -> ReadULongLong buf (lenN buf) off = Throw RangeError) /\
  safe (ReadULongLong buf (lenN buf) off).
Proof.
  rewrite ReadULongLong_spec.
  destruct (N.ltb_spec (lenN buf) (off + 8)) as [H|H]; repeat split; try lia.
  - intros w [Hw _]%window_eq. lia.
  - intros w [_ ->]%window_eq. reflexivity.
Qed.

Lemma C04_ex :
  supported linux64 /\ supported windows /\
  window [x00; x01; x02; x03; x04; x05; x06; x07; x08] 1 8 [x01; x02; x03; x04; x05; x06; x07; x08] /\
  ReadULong windows [x00; x01; x02; x03; x04; x05; x06; x07; x08] 9 5 = Ok 134678021 /\
  ReadULong linux64 [x00; x01; x02; x03; x04; x05; x06; x07; x08] 9 5 = Throw RangeError.
Proof.
  split; [left; reflexivity|]. split; [right; reflexivity|].
  split; [window_tac [x00] (@nil byte)|]. split; vm_compute; reflexivity.
Qed.

Lemma C05_string_ub :
  exists buf off len, off < 2 ^ 32 /\ len < 2 ^ 32 /\ ReadString buf (lenN buf) off len = UB.
Proof. exists [x41; x42; x43], 1, (2 ^ 32 - 1). repeat split; vm_compute; reflexivity. Qed.

Lemma ReadString_all buf off len : off + len < 2 ^ 32 ->
  (forall w, window buf off len w -> ReadString buf (lenN buf) off len = Ok w) /\
  (lenN buf < off + len -> ReadString buf (lenN buf) off len = Throw RangeError).
Proof.
  intros Ho. rewrite ReadString_spec by exact Ho.
  destruct (N.ltb_spec (lenN buf) (off + len)) as [H|H]; split; try lia; try reflexivity.
  - intros w [Hw _]%window_eq. lia.
  - intros w [_ ->]%window_eq. reflexivity.
Qed.

Lemma ReadDouble_all buf off : off + 8 < 2 ^ 32 ->
  (forall w, window buf off 8 w -> ReadDoubleBits buf (lenN buf) off = Ok (le w)) /\
  (lenN buf < off + 8 -> ReadDoubleBits buf (lenN buf) off = Throw RangeError).
Proof.
  intros Ho. rewrite ReadDoubleBits_spec by exact Ho.
  destruct (N.ltb_spec (lenN buf) (off + 8)) as [H|H]; split; try lia; try reflexivity.
  - intros w [Hw _]%window_eq. lia.
  - intros w [_ ->]%window_eq. reflexivity.
Qed.

Lemma ReadFloat_all buf off : off + 4 < 2 ^ 32 ->
  (forall w, window buf off 4 w -> ReadFloatBits buf (lenN buf) off = Ok (le w)) /\
  (lenN buf < off + 4 -> ReadFloatBits buf (lenN buf) off = Throw RangeError).
Proof.
  intros Ho. rewrite ReadFloatBits_spec by exact Ho.
  destruct (N.ltb_spec (lenN buf) (off + 4)) as [H|H]; split; try lia; try reflexivity.
  - intros w [Hw _]%window_eq. lia.
  - intros w [_ ->]%window_eq. reflexivity.
Qed.

Lemma C05_ex :
  window [x61; x62; x63; x64] 1 2 [x62; x63] /\
  ReadString [x61; x62; x63; x64] 4 1 2 = Ok [x62; x63] /\
  ReadString [x61; x62; x63; x64] 4 3 2 = Throw RangeError /\
  ReadDoubleBits [x61; x62; x63; x64] 4 4294967292 = UB.
Proof. split; [window_tac [x61] [x64]|]. repeat split; vm_compute; reflexivity. Qed.

Lemma C06_ex :
  occurs_at [x02; x03] [x01; x02; x03] 1 /\
  checkMagic [x01; x02; x03] 3 [x02; x03] 2 1 = Ok true /\
  checkMagic [x01; x02; x03] 3 [x02; x03] 2 2 = Ok false.
Proof. split; [exists [x01], []; split; reflexivity|]. split; vm_compute; reflexivity. Qed.

Lemma C07_ex :
  ~ In x00 [x61; x22; x0a; xff; x5c] /\
  JsonEscape [x61; x22; x0a; xff; x5c] = B "a\" ++ [x22] ++ B "\n\" ++ B "u00FF\\".
Proof. split; [cbn; intuition discriminate|vm_compute; reflexivity]. Qed.

Lemma C08_swapped : exists s, ~ xml_text (XmlEscape s) (map b2n s).
Proof.
  exists [x3c]. rewrite XmlEscape_lossless_iff. intros [H _]. apply H. left. reflexivity.
Qed.

Lemma XmlEscape_decodes s : exists v, xml_text (XmlEscape s) v /\ List.length v = List.length s.
Proof. eexists; split; [apply XmlEscape_text|]. rewrite !map_length. reflexivity. Qed.

Lemma C08_control : exists s v, xml_text (XmlEscape s) v /\ ~ Forall xml_character v.
Proof.
  exists [x01]. eexists. split; [apply XmlEscape_text|]. intros F. inversion F as [|? ? K]; subst.
  vm_compute in K. destruct K as [K|[K|[K|K]]]; try discriminate K. apply K. reflexivity.
Qed.

Lemma C08_ex : (~ In x3c [x61; x26; x07] /\ ~ In x3e [x61; x26; x07]) /\
  XmlEscape [x61; x26; x07] = B "a&#38;&#07;" /\ XmlEscape [x3c] = B "&#62;".
Proof. split; [cbn; intuition discriminate|]. split; vm_compute; reflexivity. Qed.

Lemma C09_ex : bin2hex11 [x0a; xff] = B "0aff" /\
  int_to_hex 4 48879 = B "0x0000beef" /\ 48879 < 256 ^ N.of_nat 4.
Proof. repeat split; vm_compute; reflexivity. Qed.

Lemma C10_ex : displayDuration 1657127941371 = B "46:01:52.794137" /\
                      displayDuration 2592000000000 = B "72:00:00".
Proof. split; vm_compute; reflexivity. Qed.

Lemma C11_ex :
  unix_epoch_ticks + 10000000 <= 132223284000000000 < 2 ^ 64 /\
  FileTimeToString 132223284000000000 = B "2020-01-01 05:00:00" /\
  FileTimeToString (2 ^ 64 - 1) = B "60056-05-28 05:36:10".
Proof. split; [split; vm_compute; congruence|]. split; vm_compute; reflexivity. Qed.

Lemma C12_collision :
  exists a b, a < 2 ^ 64 /\ b < 2 ^ 64 /\ a + 10000000 <= b /\
              FileTimeToString a = FileTimeToString b.
Proof. exists 0, 94354848000000000. repeat split; vm_compute; congruence. Qed.

Lemma FileTimeToString_collision_iff a b : a < 2 ^ 64 -> b < 2 ^ 64 ->
  a / 10000000 <> b / 10000000 ->
  (FileTimeToString a = FileTimeToString b <->
   a < unix_epoch_ticks + 10000000 /\ b < unix_epoch_ticks + 10000000).
Proof.
  intros Ha Hb Hne. split.
  - intros E. split.
    + destruct (N.lt_ge_cases a (unix_epoch_ticks + 10000000)) as [|H]; [assumption|].
      exfalso. apply Hne. apply FileTimeToString_inj; assumption.
    + destruct (N.lt_ge_cases b (unix_epoch_ticks + 10000000)) as [|H]; [assumption|].
      exfalso. apply Hne. symmetry. apply FileTimeToString_inj; auto.
  - intros [H1 H2]. rewrite !FileTimeToString_before by assumption. reflexivity.
Qed.

Lemma C12_ex : 132223284000000000 / 10000000 <> 132223285000000000 / 10000000 /\
  FileTimeToString 132223284000000000 <> FileTimeToString 132223285000000000.
Proof. split; vm_compute; discriminate. Qed.

Lemma C13_ex : trim ws_chars (B "  a b	 ") = B "a b" /\ trim ws_chars (B "   ") = [].
Proof. split; vm_compute; reflexivity. Qed.

Lemma C14_wide_collision : exists a b, iequals_w a b = true /\ ~ Forall2 same_letter a b.
Proof.
  exists [321], [65]. split; [vm_compute; reflexivity|].
  intros H. inversion H as [|x y l l' Hs _]; subst.
  destruct Hs as [E|(k & Hk & [[E1 E2]|[E1 E2]])]; lia.
Qed.

Lemma C14_ex : iequals (B "WordDocument") (B "wORDdOCUMENT") = true /\
                      iequals (B "a[") (B "a{") = false /\
                      Forall (fun x => x < 256) [86; 66; 65].
Proof. split; [|split]; [vm_compute; reflexivity..|]. repeat constructor. Qed.

Lemma C15_ex : ExtractBits 180 3 3 = Ok 5 /\ ExtractBits 180 3 0 = UB.
Proof. split; vm_compute; reflexivity. Qed.

Lemma erasenulls_none s : ~ In x00 (erasenulls s).
Proof. eapply without_nuls_none, erasenulls_spec. Qed.

Lemma C16_ex : erasenulls [x00; x61; x00; x62] = [x61; x62].
Proof. vm_compute. reflexivity. Qed.
