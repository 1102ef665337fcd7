(** Proofs about signature scanning. *)
From Coq Require Import List NArith ZArith Bool Lia.
From Coq Require Import ZifyBool ZifyNat ZifyN.
From Verif Require Import Lib.Res Lib.Bytes Lib.BytesFacts Common.Model Common.Spec
     Common.ReadProofs Magic.Table Magic.Model Magic.Spec.
Import ListNotations.
Local Open Scope N_scope.
Ltac Zify.zify_post_hook ::= Z.div_mod_to_equations.

(** ** Facts about the generated table, by computation *)
Definition row_ok (mi : MagicInfo) : bool :=
  (mi_size mi =? lenN (mi_magic mi)) && (1 <=? mi_size mi) &&
  (mi_offset mi + mi_size mi <=? 65536).

Lemma table_rows : forallb row_ok table = true.
Proof. vm_compute. reflexivity. Qed.

Lemma row_facts mi : In mi table ->
  mi_size mi = lenN (mi_magic mi) /\ 1 <= mi_size mi /\ mi_offset mi + mi_size mi <= 65536.
Proof.
  intros H. pose proof table_rows as T. rewrite forallb_forall in T. specialize (T mi H).
  unfold row_ok in T. lia.
Qed.

Definition grow (ans : N) (mi : MagicInfo) : N :=
  let size := u32 (mi_size mi + mi_offset mi) in if ans <? size then size else ans.

Lemma max_table : fold_left grow table STD_BUFFER_SIZE = 36869.
Proof. vm_compute. reflexivity. Qed.

Lemma max_table_again : fold_left grow table 36869 = 36869.
Proof. vm_compute. reflexivity. Qed.

Fixpoint copies {A} (k : nat) (l : list A) : list A :=
  match k with O => [] | S k => l ++ copies k l end.

Lemma copies_snoc {A} k (l : list A) : copies k l ++ l = copies (S k) l.
Proof. induction k as [|k IH]; cbn [copies app]; [rewrite app_nil_r; reflexivity|].
  rewrite <- app_assoc, IH. reflexivity. Qed.

Lemma fold_copies k : fold_left grow (copies (S k) table) STD_BUFFER_SIZE = 36869.
Proof.
  cbn [copies]. rewrite fold_left_app, max_table.
  induction k as [|k IH]; cbn [copies]; [reflexivity|].
  rewrite fold_left_app, max_table_again. exact IH.
Qed.

Lemma window_size k : getMinimumBufferSize (copies (S k) table) = 65536.
Proof.
  unfold getMinimumBufferSize. change (fun ans mi => _) with grow.
  rewrite fold_copies. vm_compute. reflexivity.
Qed.

Lemma copies_1 {A} (l : list A) : copies 1 l = l.
Proof. apply app_nil_r. Qed.

Lemma window_size_first : getMinimumBufferSize (initList []) = 65536.
Proof. unfold initList. cbn [app]. rewrite <- (copies_1 table). apply (window_size 0). Qed.

(** ** The buffer *)
Lemma readFile_small content max : lenN content < 2 ^ 32 ->
  readFile (Some content) max = takeN max content.
Proof.
  intros H. unfold readFile. rewrite u32_small by exact H.
  destruct (N.ltb_spec (lenN content) max) as [Hm|Hm]; [|reflexivity].
  rewrite !takeN_all by lia. reflexivity.
Qed.

Lemma readFile_exact content max :
  readFile (Some content) max = takeN (N.min (lenN content mod 2 ^ 32) max) content.
Proof.
  unfold readFile. fold (u32 (lenN content)).
  destruct (N.ltb_spec (u32 (lenN content)) max) as [Hm|Hm]; f_equal; lia.
Qed.

(** A signature ending inside the window occurs in the prefix iff it occurs in the file. *)
Lemma occurs_prefix pat content off n :
  off + lenN pat <= n -> (occurs_at pat (takeN n content) off <-> occurs_at pat content off).
Proof.
  intros Hn. split.
  - intros (pre & post & E & Hp). exists pre, (post ++ dropN n content). split; [|exact Hp].
    rewrite <- (takeN_dropN n content) at 1. rewrite E, <- !app_assoc. reflexivity.
  - intros (pre & post & E & Hp). exists pre, (takeN (n - lenN pre - lenN pat) post).
    split; [|exact Hp]. subst content.
    rewrite !takeN_firstn, !firstn_app.
    assert (firstn (N.to_nat n) pre = pre) as -> by (apply firstn_all2; unfold lenN in *; lia).
    assert (firstn (N.to_nat n - length pre) pat = pat) as -> by (apply firstn_all2; unfold lenN in *; lia).
    do 3 f_equal. unfold lenN. lia.
Qed.

Lemma checkMagic_window content mi : In mi table -> lenN content < 2 ^ 32 ->
  exists r, checkMagic (takeN 65536 content) (u32 (lenN (takeN 65536 content)))
                       (mi_magic mi) (mi_size mi) (mi_offset mi) = Ok r /\
            (r = true <-> carries content mi).
Proof.
  intros Hin Hc. destruct (row_facts mi Hin) as (Hs & H1 & Ho).
  rewrite u32_small by (rewrite lenN_takeN; lia). rewrite Hs.
  destruct (checkMagic_iff (takeN 65536 content) (mi_magic mi) (mi_offset mi)) as (r & Er & Hr).
  exists r. split; [exact Er|]. rewrite Hr. unfold carries. apply occurs_prefix. lia.
Qed.

(** ** The scan computes the report relation *)
Section Scan.
  Variable run : Parsers.
  Variable content : bytes.
  Hypothesis small : lenN content < 2 ^ 32.
  Let buffer := takeN 65536 content.
  Let parse p := run p (Some content) buffer.
  Let plain mi := plain_result (signature_info mi).

  Lemma scan_reports l rs : incl l table ->
    (scan run (Some content) buffer l = Ok rs <-> reports content plain parse l rs).
  Proof.
    revert rs; induction l as [|mi l IH]; intros rs Hin; cbn [scan].
    - split; [intros [= <-]; constructor|intros H; inversion H; reflexivity].
    - assert (In mi table) as Hmi by (apply Hin; left; reflexivity).
      assert (incl l table) as Hl by (intros x Hx; apply Hin; right; exact Hx).
      unfold try_signature.
      destruct (checkMagic_window content mi Hmi small) as (r & Er & Hr).
      fold buffer in Er. rewrite Er. cbn [bind].
      destruct r.
      + assert (carries content mi) as Hc by (apply Hr; reflexivity).
        destruct (mi_func mi) as [p|] eqn:Ef.
        * split.
          -- intros H. apply bind_ok in H. destruct H as (a & Ea & H).
             apply bind_ok in H. destruct H as (b & Eb & H). injection H as <-.
             eapply rp_parsed; [exact Hc|exact Ef|exact Ea|]. apply IH; assumption.
          -- intros H. inversion H; subst; try contradiction; try congruence.
             match goal with E1 : mi_func mi = Some p, E2 : mi_func mi = Some ?q |- _ =>
               rewrite E1 in E2; injection E2 as <- end.
             match goal with E : parse p = Ok _ |- _ => unfold parse in E; rewrite E end.
             cbn [bind]. match goal with R : reports _ _ _ l _ |- _ => apply IH in R; [|exact Hl]; rewrite R end.
             reflexivity.
        * cbn [bind]. split.
          -- intros H. apply bind_ok in H. destruct H as (b & Eb & H). injection H as <-.
             apply (rp_plain content plain parse mi); [exact Hc|exact Ef|]. apply IH; assumption.
          -- intros H. inversion H; subst; try contradiction; try congruence.
             match goal with R : reports _ _ _ l _ |- _ => apply IH in R; [|exact Hl]; rewrite R end.
             reflexivity.
      + assert (~ carries content mi) as Hc by (intros Hc; apply Hr in Hc; discriminate).
        cbn [bind]. split.
        * intros H. apply bind_ok in H. destruct H as (b & Eb & H). injection H as <-.
          apply rp_absent; [exact Hc|]. apply IH; assumption.
        * intros H. inversion H; subst; try contradiction.
          match goal with R : reports _ _ _ l _ |- _ => apply IH in R; [|exact Hl]; rewrite R end.
          reflexivity.
  Qed.
End Scan.

Lemma carries_nonempty mi content : In mi table -> carries content mi -> content <> [].
Proof.
  intros Hin (pre & post & E & _) ->. destruct (row_facts mi Hin) as (Hs & H1 & _).
  apply (f_equal lenN) in E. rewrite !lenN_app in E. change (lenN (@nil byte)) with 0 in E. lia.
Qed.

Lemma reports_nil {R} (plain : MagicInfo -> R) parse l rs : incl l table ->
  (reports [] plain parse l rs <-> rs = []).
Proof.
  revert rs; induction l as [|mi l IH]; intros rs Hin.
  - split; [intros H; inversion H; reflexivity|intros ->; constructor].
  - assert (~ carries [] mi) as Hc.
    { intros H. apply carries_nonempty in H; [congruence|apply Hin; left; reflexivity]. }
    assert (incl l table) as Hl by (intros x Hx; apply Hin; right; exact Hx).
    split.
    + intros H. inversion H; subst; try contradiction. apply IH; assumption.
    + intros ->. apply rp_absent; [exact Hc|]. apply IH; auto.
Qed.

(** First call in a process. *)
Lemma guess_first run content rs : lenN content < 2 ^ 32 ->
  (snd (guessExtension run [] (Some content)) = Ok rs <->
   reports content (fun mi => plain_result (signature_info mi))
           (fun p => run p (Some content) (takeN 65536 content)) table rs).
Proof.
  intros Hc. unfold guessExtension. rewrite window_size_first, readFile_small by exact Hc.
  cbn [snd]. change (initList []) with table.
  destruct (N.ltb_spec 0 (lenN (takeN 65536 content))) as [H|H].
  - apply (scan_reports run content Hc table rs). apply incl_refl.
  - assert (content = []) as ->.
    { rewrite lenN_takeN in H. apply lenN_0. lia. }
    rewrite reports_nil by apply incl_refl. split; congruence.
Qed.

(** ** Repeated calls *)
Lemma scan_app run file buffer l1 l2 :
  scan run file buffer (l1 ++ l2) =
  (a <- scan run file buffer l1 ;; b <- scan run file buffer l2 ;; Ok (a ++ b)).
Proof.
  induction l1 as [|mi l1 IH]; cbn [scan app bind].
  - destruct (scan run file buffer l2); reflexivity.
  - destruct (try_signature run file buffer mi); cbn [bind]; try reflexivity.
    rewrite IH. destruct (scan run file buffer l1); cbn [bind]; try reflexivity.
    destruct (scan run file buffer l2); cbn [bind]; try reflexivity.
    rewrite app_assoc. reflexivity.
Qed.

Lemma scan_copies run file buffer l rs k :
  scan run file buffer l = Ok rs -> scan run file buffer (copies k l) = Ok (copies k rs).
Proof.
  intros H. induction k as [|k IH]; cbn [copies]; [reflexivity|].
  rewrite scan_app, H, IH. reflexivity.
Qed.

(** The global list after [k] calls. *)
Lemma global_after run file k :
  Nat.iter k (fun g => fst (guessExtension run g file)) [] = copies k table.
Proof.
  induction k as [|k IH]; [reflexivity|].
  set (f := fun g => fst (guessExtension run g file)) in *.
  change (Nat.iter (S k) f []) with (f (Nat.iter k f [])).
  rewrite IH. unfold f, guessExtension. cbn [fst]. unfold initList. apply copies_snoc.
Qed.

Lemma guess_kth run file k rs :
  snd (guessExtension run [] file) = Ok rs ->
  snd (guessExtension run (copies k table) file) = Ok (copies (S k) rs).
Proof.
  unfold guessExtension, initList. cbn [snd app].
  rewrite copies_snoc, window_size.
  rewrite <- (copies_1 table) at 1 2. rewrite (window_size 0).
  rewrite copies_1.
  destruct (0 <? lenN (readFile file 65536)).
  - apply scan_copies.
  - intros [= <-]. f_equal. clear. cbn [copies app]. induction k as [|k IH]; cbn [copies]; auto.
Qed.

(** ** Files that agree on the window *)
Lemma carries_window c1 c2 mi : In mi table -> takeN 65536 c1 = takeN 65536 c2 ->
  (carries c1 mi <-> carries c2 mi).
Proof.
  intros Hin E. destruct (row_facts mi Hin) as (Hs & H1 & Ho). unfold carries.
  rewrite <- (occurs_prefix (mi_magic mi) c1 (mi_offset mi) 65536) by lia.
  rewrite <- (occurs_prefix (mi_magic mi) c2 (mi_offset mi) 65536) by lia.
  rewrite E. reflexivity.
Qed.

Lemma scan_ext run1 run2 f1 f2 buffer l :
  (forall p, run1 p f1 buffer = run2 p f2 buffer) ->
  scan run1 f1 buffer l = scan run2 f2 buffer l.
Proof.
  intros H. induction l as [|mi l IH]; cbn [scan]; [reflexivity|].
  unfold try_signature. rewrite IH.
  destruct (checkMagic _ _ _ _ _) as [hit| | |]; cbn [bind]; try reflexivity.
  destruct hit; [|reflexivity]. destruct (mi_func mi); [rewrite H|]; reflexivity.
Qed.

Lemma guess_window run c1 c2 :
  lenN c1 < 2 ^ 32 -> lenN c2 < 2 ^ 32 -> takeN 65536 c1 = takeN 65536 c2 ->
  (forall p, run p (Some c1) (takeN 65536 c1) = run p (Some c2) (takeN 65536 c2)) ->
  snd (guessExtension run [] (Some c1)) = snd (guessExtension run [] (Some c2)).
Proof.
  intros H1 H2 E Hr. unfold guessExtension. rewrite window_size_first.
  rewrite !readFile_small by assumption. cbn [snd]. rewrite <- E.
  destruct (0 <? lenN (takeN 65536 c1)); [|reflexivity].
  apply scan_ext. intros p. rewrite Hr, E. reflexivity.
Qed.

(** ** Monotonicity *)
Lemma carries_append content suffix mi : carries content mi -> carries (content ++ suffix) mi.
Proof.
  intros (pre & post & -> & Hp). exists pre, (post ++ suffix). split; [|exact Hp].
  rewrite <- !app_assoc. reflexivity.
Qed.

(** Counting the answers contributed by one plain signature. *)
Lemma reports_plain_in {R} content (plain : MagicInfo -> R) parse l rs mi :
  reports content plain parse l rs -> In mi l -> mi_func mi = None -> carries content mi ->
  In (plain mi) rs.
Proof.
  induction 1 as [|m sigs rs Hc H IH|m sigs rs Hc Hf H IH|m p l' sigs rs Hc Hf Hp H IH];
    intros Hin Hfn Hca; cbn [In] in *.
  - contradiction.
  - destruct Hin as [->|Hin]; [contradiction|auto].
  - destruct Hin as [->|Hin]; auto.
  - destruct Hin as [->|Hin]; [congruence|]. apply in_or_app. right. auto.
Qed.

Lemma reports_in_inv {R} content (plain : MagicInfo -> R) parse l rs r :
  reports content plain parse l rs -> In r rs ->
  (exists mi, In mi l /\ mi_func mi = None /\ carries content mi /\ r = plain mi) \/
  (exists mi p l', In mi l /\ mi_func mi = Some p /\ carries content mi /\ parse p = Ok l' /\ In r l').
Proof.
  induction 1 as [|m sigs rs Hc H IH|m sigs rs Hc Hf H IH|m p l' sigs rs Hc Hf Hp H IH]; intros Hr.
  - contradiction.
  - destruct (IH Hr) as [(mi & A & K)|(mi & p & l' & A & K)].
    + left. exists mi. cbn; tauto.
    + right. exists mi, p, l'. cbn; tauto.
  - destruct Hr as [<-|Hr].
    + left. exists m. cbn; auto.
    + destruct (IH Hr) as [(mi & A & K)|(mi & p & l' & A & K)].
      * left. exists mi. cbn; tauto.
      * right. exists mi, p, l'. cbn; tauto.
  - apply in_app_or in Hr. destruct Hr as [Hr|Hr].
    + right. exists m, p, l'. cbn; auto.
    + destruct (IH Hr) as [(mi & A & K)|(mi & p0 & l0 & A & K)].
      * left. exists mi. cbn; tauto.
      * right. exists mi, p0, l0. cbn; tauto.
Qed.

Lemma reports_fun {R} content (plain : MagicInfo -> R) parse l rs rs' :
  reports content plain parse l rs -> reports content plain parse l rs' -> rs = rs'.
Proof.
  intros H; revert rs'.
  induction H as [|m sigs rs Hc H IH|m sigs rs Hc Hf H IH|m p l' sigs rs Hc Hf Hp H IH];
    intros rs' H'; inversion H'; subst; try contradiction; try congruence; auto.
  - f_equal. auto.
  - match goal with E1 : mi_func m = Some p, E2 : mi_func m = Some ?q |- _ =>
      rewrite E1 in E2; injection E2 as <- end.
    f_equal; [congruence|auto].
Qed.

(** ** identify *)
Lemma guess_unreadable run : snd (guessExtension run [] None) = Ok [].
Proof. reflexivity. Qed.

Lemma identify_nonempty run file rs : identify run file = Ok rs -> rs <> [].
Proof.
  unfold identify. intros H. apply bind_ok in H. destruct H as (e & _ & H).
  destruct e; injection H as <-; discriminate.
Qed.

Lemma identify_hits run file rs : snd (guessExtension run [] file) = Ok rs -> rs <> [] ->
  identify run file = Ok rs.
Proof. unfold identify. intros -> H. cbn [bind]. destruct rs; [congruence|reflexivity]. Qed.

Lemma identify_none run file : snd (guessExtension run [] file) = Ok [] ->
  identify run file = Ok [UnknownExtension file].
Proof. unfold identify. intros ->. reflexivity. Qed.

Lemma unknown_cases file :
  UnknownExtension file =
  match file with
  | None => plain_result empty_info
  | Some c => if lenN c mod 2 ^ 32 =? 0 then plain_result empty_info
              else unknown_result (takeN (N.min (lenN c mod 2 ^ 32) 512) c)
  end.
Proof.
  unfold UnknownExtension. destruct file as [c|]; [|reflexivity].
  rewrite readFile_exact, lenN_takeN.
  destruct (N.eqb_spec (lenN c mod 2 ^ 32) 0) as [E|E].
  - rewrite E. change (N.min 0 512) with 0. rewrite N.min_0_l. reflexivity.
  - destruct (N.ltb_spec 0 (N.min (N.min (lenN c mod 2 ^ 32) 512) (lenN c))) as [H|H]; [reflexivity|].
    exfalso. assert (lenN c <> 0) by (intros Z; rewrite Z in E; apply E; reflexivity). lia.
Qed.

(** ** Rounding up *)
Lemma smear_bits v w d k :
  (forall i, N.testbit w i = true <-> exists j, i <= j < i + d /\ N.testbit v j = true) ->
  k <= d ->
  (forall i, N.testbit (smear k w) i = true <-> exists j, i <= j < i + (d + k) /\ N.testbit v j = true).
Proof.
  intros H Hk i. unfold smear. rewrite N.lor_spec, orb_true_iff, N.shiftr_spec', !H. split.
  - intros [(j & Hj & E)|(j & Hj & E)]; exists j; split; auto; lia.
  - intros (j & Hj & E). destruct (N.lt_ge_cases j (i + d)) as [Hd|Hd].
    + left. exists j. split; [lia|exact E].
    + right. exists j. split; [lia|exact E].
Qed.

Lemma smear_all v : v < 2 ^ 32 ->
  smear 16 (smear 8 (smear 4 (smear 2 (smear 1 v)))) = if v =? 0 then 0 else N.ones (N.log2 v + 1).
Proof.
  intros Hv.
  destruct (N.eqb_spec v 0) as [->|Hz]; [reflexivity|].
  assert (forall i, N.testbit v i = true <-> exists j, i <= j < i + 1 /\ N.testbit v j = true) as H0.
  { intros i. split; [intros E; exists i; split; [lia|exact E]|].
    intros (j & Hj & E). replace i with j by lia. exact E. }
  pose proof (smear_bits v _ _ 1 H0 ltac:(lia)) as H1.
  pose proof (smear_bits v _ _ 2 H1 ltac:(lia)) as H2.
  pose proof (smear_bits v _ _ 4 H2 ltac:(lia)) as H3.
  pose proof (smear_bits v _ _ 8 H3 ltac:(lia)) as H4.
  pose proof (smear_bits v _ _ 16 H4 ltac:(lia)) as H5.
  clear H0 H1 H2 H3 H4.
  assert (N.log2 v < 32) as HL by (apply N.log2_lt_pow2; lia).
  apply N.bits_inj. intros i. apply eq_true_iff_eq. rewrite H5.
  destruct (N.lt_ge_cases i (N.log2 v + 1)) as [Hi|Hi].
  - rewrite N.ones_spec_low by lia. split; [reflexivity|]. intros _.
    exists (N.log2 v). split; [lia|]. apply N.bit_log2. exact Hz.
  - rewrite N.ones_spec_high by lia. split; [|discriminate].
    intros (j & Hj & E). rewrite N.bits_above_log2 in E by lia. discriminate.
Qed.

Lemma roundUp_spec x : 1 <= x -> x <= 2 ^ 31 -> least_pow2 x (roundUpPowerOfTwo x).
Proof.
  intros H1 H2. unfold roundUpPowerOfTwo.
  assert (subw 32 x 1 = x - 1) as ->.
  { unfold subw. change (1 mod 2 ^ 32) with 1. change (2 ^ 31) with 2147483648 in H2.
    change (2 ^ 32) with 4294967296. lia. }
  rewrite smear_all by (change (2 ^ 31) with 2147483648 in H2; change (2 ^ 32) with 4294967296; lia).
  destruct (N.eqb_spec (x - 1) 0) as [E|E].
  - assert (x = 1) as -> by lia. change (u32 (0 + 1)) with 1. repeat split.
    + exists 0. reflexivity.
    + lia.
    + intros k Hk. exact Hk.
  - set (L := N.log2 (x - 1)).
    assert (2 ^ L <= x - 1 < 2 ^ N.succ L) as HL by (apply N.log2_spec; lia).
    assert (L < 31) as HL31.
    { apply N.log2_lt_pow2; [lia|]. change (2 ^ 31) with 2147483648 in *. lia. }
    assert (N.ones (L + 1) + 1 = 2 ^ (L + 1)) as Eo.
    { rewrite N.ones_equiv. assert (2 ^ (L + 1) <> 0) by (apply N.pow_nonzero; lia). lia. }
    rewrite Eo.
    assert (2 ^ (L + 1) <= 2 ^ 31) as Hb by (apply N.pow_le_mono_r; lia).
    rewrite u32_small by (change (2 ^ 31) with 2147483648 in Hb; change (2 ^ 32) with 4294967296; lia).
    rewrite N.add_1_r. repeat split.
    + exists (N.succ L). reflexivity.
    + lia.
    + intros k Hk. apply N.pow_le_mono_r; [lia|].
      assert (2 ^ L < 2 ^ k) as Hlt by lia. apply N.pow_lt_mono_r_iff in Hlt; lia.
Qed.

Lemma roundUp_above x : 2 ^ 31 < x -> x < 2 ^ 32 -> roundUpPowerOfTwo x = 0.
Proof.
  intros H1 H2. unfold roundUpPowerOfTwo.
  assert (subw 32 x 1 = x - 1) as ->.
  { unfold subw. change (1 mod 2 ^ 32) with 1. change (2 ^ 31) with 2147483648 in H1.
    change (2 ^ 32) with 4294967296 in *. lia. }
  rewrite smear_all by (change (2 ^ 32) with 4294967296 in *; lia).
  destruct (N.eqb_spec (x - 1) 0) as [E|E]; [change (2 ^ 31) with 2147483648 in H1; lia|].
  assert (N.log2 (x - 1) = 31) as ->; [|reflexivity].
  apply N.log2_unique; [lia|]. change (2 ^ N.succ 31) with (2 ^ 32). lia.
Qed.
