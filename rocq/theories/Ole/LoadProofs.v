(** Opening a compound file. *)
From Coq Require Import List NArith ZArith Bool Lia.
From Coq Require Import ZifyBool ZifyNat ZifyN.
From Verif Require Import Lib.Res Lib.Bytes Lib.BytesFacts Common.Model Common.Spec Common.Fields Common.Utf8
     Common.ReadProofs Common.FieldProofs Common.Utf8Proofs Ole.Model Ole.Spec Ole.Statements Ole.MemProofs Ole.ChainProofs.
Import ListNotations.
Local Open Scope N_scope.
Ltac Zify.zify_post_hook ::= Z.div_mod_to_equations.
Arguments N.pow : simpl never.

(** ** Header *)
Lemma readU32s_values n (b : bytes) : forall off, off + 4 * N.of_nat n <= lenN b ->
  exists l, readU32s n (map Some b) off = Ok l /\ lenN l = N.of_nat n /\
            forall i v, nthN l i = Some v -> number_at b (off + 4 * i) 4 v.
Proof.
  induction n as [|n IH]; intros off L.
  - exists []. split; [reflexivity|]. split; [reflexivity|]. intros i v H. discriminate.
  - destruct (number_at_ex b off 4) as [v Hv]; [lia|]. destruct (IH (off + 4)) as (l & E & Ll & Hl); [lia|].
    exists (v :: l). cbn [readU32s]. rewrite (readU32_known _ _ _ Hv). cbn [bind]. rewrite E. cbn [bind].
    split; [reflexivity|]. split; [rewrite lenN_cons; lia|]. intros i x Hi. cbn [nthN] in Hi.
    destruct (N.eqb_spec i 0) as [->|Hn].
    + injection Hi as <-. rewrite N.add_0_r. exact Hv.
    + apply Hl in Hi. replace (off + 4 * i) with (off + 4 + 4 * N.pred i) by lia. exact Hi.
Qed.
Lemma number_untake buf off n v m : number_at (takeN m buf) off n v -> number_at buf off n v.
Proof. intros (w & W & E). exists w. split; [eapply window_untake; exact W|exact E]. Qed.

Lemma header_ok f : 512 <= lenN f ->
  exists h, header_of f h /\
    (b <- mstore (blank 512) 0 (map Some (takeN 512 f)) ;; header_load b) = Ok h.
Proof.
  intros L. assert (Lt : lenN (takeN 512 f) = 512) by (rewrite lenN_takeN; lia).
  rewrite mstore_ok by (rewrite lenN_map, lenN_blank; lia). rewrite takeN_0. cbn [app bind].
  rewrite lenN_map, Lt, dropN_all by (rewrite lenN_blank; lia). rewrite app_nil_r.
  set (b := takeN 512 f) in *.
  destruct (number_at_ex b 30 2) as [v1 H1]; [lia|]. destruct (number_at_ex b 32 2) as [v2 H2]; [lia|].
  destruct (number_at_ex b 44 4) as [v3 H3]; [lia|]. destruct (number_at_ex b 48 4) as [v4 H4]; [lia|].
  destruct (number_at_ex b 56 4) as [v5 H5]; [lia|]. destruct (number_at_ex b 60 4) as [v6 H6]; [lia|].
  destruct (number_at_ex b 64 4) as [v7 H7]; [lia|]. destruct (number_at_ex b 68 4) as [v8 H8]; [lia|].
  destruct (number_at_ex b 72 4) as [v9 H9]; [lia|].
  destruct (readU32s_values 109 b 76) as (l & El & Ll & Hl); [lia|].
  assert (Sl : slice b 0 8 = Ok (takeN 8 (dropN 0 b))) by (apply slice_ok; lia).
  unfold header_load.
  rewrite (readU16_known _ _ _ H1), (readU16_known _ _ _ H2), (readU32_known _ _ _ H3), (readU32_known _ _ _ H4),
    (readU32_known _ _ _ H5), (readU32_known _ _ _ H6), (readU32_known _ _ _ H7), (readU32_known _ _ _ H8),
    (readU32_known _ _ _ H9), mbytes_known, Sl. cbn [bind]. rewrite El. cbn [bind].
  eexists. split; [|reflexivity]. apply slice_window in Sl. unfold header_of.
  cbn [id b_shift s_shift num_bat dirent_start threshold sbat_start num_sbat mbat_start num_mbat bb_blocks].
  split; [apply (window_untake _ _ _ _ 512); exact Sl|].
  repeat (split; [eapply number_untake; eassumption|]). split; [exact Ll|].
  intros i v Hi. eapply number_untake. apply Hl. exact Hi.
Qed.
Lemma known_none m : In None m -> known m = None.
Proof.
  induction m as [|[b|] m IH]; intros H; [contradiction| |reflexivity].
  destruct H as [H|H]; [discriminate|]. cbn [known]. rewrite (IH H). reflexivity.
Qed.
Lemma mbytes_cases m off n : (exists l, mbytes m off n = Ok l) \/ mbytes m off n = UB.
Proof.
  unfold mbytes, mslice. destruct (_ <=? _); [|right; reflexivity]. cbn [bind].
  destruct (known _); [left; eexists; reflexivity|right; reflexivity].
Qed.
Lemma readU16_cases m off : (exists v, readU16 m off = Ok v) \/ readU16 m off = UB.
Proof. unfold readU16. destruct (mbytes_cases m off 2) as [[l ->]| ->]; [left; eexists; reflexivity|right; reflexivity]. Qed.
Lemma readU32_cases m off : (exists v, readU32 m off = Ok v) \/ readU32 m off = UB.
Proof. unfold readU32. destruct (mbytes_cases m off 4) as [[l ->]| ->]; [left; eexists; reflexivity|right; reflexivity]. Qed.
Lemma readU32s_ub n m : forall off, readU32 m (off + 4 * N.of_nat n) = UB -> readU32s (S n) m off = UB.
Proof.
  induction n as [|n IH]; intros off H.
  - cbn [readU32s]. replace (off + 4 * N.of_nat 0) with off in H by lia. rewrite H. reflexivity.
  - change (readU32s (S (S n)) m off) with (v <- readU32 m off ;; l <- readU32s (S n) m (off + 4) ;; Ok (v :: l)).
    destruct (readU32_cases m off) as [[v ->]| ->]; [|reflexivity]. cbn [bind].
    rewrite IH by (rewrite <- H; f_equal; lia). reflexivity.
Qed.
Lemma header_short f : lenN f < 512 ->
  (b <- mstore (blank 512) 0 (map Some (takeN 512 f)) ;; header_load b) = UB.
Proof.
  intros L. rewrite takeN_all by lia. rewrite mstore_ok by (rewrite lenN_map, lenN_blank; lia). rewrite takeN_0. cbn [app bind].
  rewrite lenN_map. set (m := map Some f ++ dropN _ _).
  assert (U : readU32 m (76 + 4 * N.of_nat 108) = UB).
  { unfold readU32, mbytes. change (76 + 4 * N.of_nat 108) with 508.
    assert (Lm : lenN m = 512) by (unfold m; rewrite lenN_app, lenN_map, lenN_dropN, lenN_blank; lia).
    rewrite mslice_ok by lia. cbn [bind]. rewrite known_none; [reflexivity|].
    rewrite takeN_all by (rewrite lenN_dropN; lia).
    assert (Hn : nthN (dropN 508 m) 3 = Some None).
    { rewrite nthN_dropN. unfold m. rewrite nthN_app2 by (rewrite lenN_map; lia). rewrite lenN_map, nthN_dropN.
      unfold blank, repeatN. rewrite nthN_nth_error. apply nth_error_repeat. lia. }
    rewrite nthN_nth_error in Hn. eapply nth_error_In. exact Hn. }
  apply readU32s_ub in U. unfold header_load.
  repeat match goal with
  | |- (bind (readU16 m ?o) _) = UB => destruct (readU16_cases m o) as [[? ->]| ->]; [cbn [bind]|reflexivity]
  | |- (bind (readU32 m ?o) _) = UB => destruct (readU32_cases m o) as [[? ->]| ->]; [cbn [bind]|reflexivity]
  | |- (bind (mbytes m ?o ?n) _) = UB => destruct (mbytes_cases m o n) as [[? ->]| ->]; [cbn [bind]|reflexivity]
  end. rewrite U. reflexivity.
Qed.

(** ** The allocation table's sectors *)
Lemma update_here a x r v : update (a ++ x :: r) (lenN a) v = a ++ v :: r.
Proof.
  induction a as [|y a IH]; [reflexivity|]. cbn [app update]. rewrite lenN_cons.
  replace (_ =? 0) with false by lia. replace (N.pred _) with (lenN a) by lia. rewrite IH. reflexivity.
Qed.
Lemma difat_fill_words ws : forall (pre : bytes) (done todo : list N),
  Forall (fun v => v < 2 ^ 32) ws ->
  difat_fill (List.length ws) (map Some (pre ++ words ws)) (lenN pre) (done ++ todo) (lenN done) =
  Ok (done ++ takeN (lenN todo) ws ++ dropN (lenN ws) todo, lenN done + N.min (lenN ws) (lenN todo)).
Proof.
  induction ws as [|v ws IH]; intros pre done todo F.
  - cbn [List.length difat_fill]. cbn [takeN]. change (lenN (@nil N)) with 0. rewrite dropN_0. cbn [app].
    f_equal. f_equal. lia.
  - cbn [List.length difat_fill]. rewrite lenN_app. destruct todo as [|x todo].
    + change (lenN (@nil N)) with 0. replace (_ <=? _) with true by lia. rewrite takeN_0.
      rewrite dropN_all by (cbn; lia). f_equal. f_equal. lia.
    + rewrite lenN_cons. replace (_ <=? _) with false by lia.
      inversion F as [|? ? Hv Hws]; subst.
      change (words (v :: ws)) with (to_le 4 v ++ words ws).
      rewrite (readU32_known _ (lenN pre) v) by (apply number_in; [reflexivity|reflexivity|exact Hv]). cbn [bind].
      rewrite update_here. specialize (IH (pre ++ to_le 4 v) (done ++ [v]) todo Hws).
      rewrite <- !app_assoc, lenN_app, lenN_app, lenN_to_le in IH. cbn [app] in IH.
      change (lenN [v]) with 1 in IH. change (N.of_nat 4) with 4 in IH. rewrite IH.
      rewrite lenN_cons. cbn [takeN dropN].
      replace (lenN todo + 1 =? 0) with false by lia. replace (lenN ws + 1 =? 0) with false by lia.
      replace (N.pred (lenN todo + 1)) with (lenN todo) by lia. replace (N.pred (lenN ws + 1)) with (lenN ws) by lia.
      cbn [app]. f_equal. f_equal. lia.
Qed.
Lemma difat_fill0 ws done todo : Forall (fun v => v < 2 ^ 32) ws ->
  difat_fill (List.length ws) (map Some (words ws)) 0 (done ++ todo) (lenN done) =
  Ok (done ++ takeN (lenN todo) ws ++ dropN (lenN ws) todo, lenN done + N.min (lenN ws) (lenN todo)).
Proof. intros F. apply (difat_fill_words ws [] done todo F). Qed.

Lemma difat_nonempty f bs s l n : difat f bs s l n -> l <> [] /\ 1 <= n.
Proof.
  induction 1 as [s l more S0 Hl Hm F|s l s' l' n S0 F D [IH1 IH2]]; [split; [exact Hl|lia]|].
  split; [|lia]. intros E. apply app_eq_nil in E. destruct E as [_ E]. contradiction.
Qed.
Lemma words_sector f bs b l : sector f bs b (words l) -> N.to_nat (bs / 4) = List.length l.
Proof. intros W. apply sector_len in W. destruct W as [W _]. rewrite lenN_words in W. unfold lenN in W. lia. Qed.

Lemma difat_run f bs s rest n : lenN f < 2 ^ 63 -> difat f bs s rest n -> forall m done todo,
  lenN m = bs -> lenN todo = lenN rest ->
  (m <- loadBigBlocks f bs [s] m bs ;;
   '(blocks, k) <- difat_fill (N.to_nat (bs / 4)) m 0 (done ++ todo) (lenN done) ;;
   difat_loop (N.to_nat (n - 1)) f bs m blocks k) = Ok (done ++ rest).
Proof.
  intros Lf D. induction D as [s l more S0 Hl Hm F|s l s' l' n S0 F D IH]; intros m done todo Lm Lt.
  - rewrite (load_block_file f bs s _ m Lf S0 Lm). cbn [bind]. rewrite (words_sector _ _ _ _ S0).
    rewrite (difat_fill0 (l ++ more) done todo F). cbn [bind].
    change (N.to_nat (1 - 1)) with O. cbn [difat_loop]. rewrite Lt.
    rewrite dropN_all by (rewrite lenN_app; lia). rewrite takeN_app_ge by lia. rewrite N.sub_diag, takeN_0, !app_nil_r.
    reflexivity.
  - rewrite (load_block_file f bs s _ m Lf S0 Lm). cbn [bind]. rewrite (words_sector _ _ _ _ S0).
    rewrite (difat_fill0 (l ++ [s']) done todo F). cbn [bind].
    destruct (difat_nonempty _ _ _ _ _ D) as [Hl' Hn]. rewrite lenN_app in Lt.
    assert (Ll' : 1 <= lenN l') by (destruct l'; [contradiction|rewrite lenN_cons; lia]).
    rewrite lenN_app. change (lenN [s']) with 1.
    rewrite (takeN_all (lenN todo)) by (rewrite lenN_app; change (lenN [s']) with 1; lia).
    replace (N.to_nat (n + 1 - 1)) with (S (N.to_nat (n - 1))) by lia.
    change (difat_loop (S (N.to_nat (n - 1)))) with (fun f bs m blocks k =>
      match nthN blocks (k - 1) with
      | None => UB
      | Some sector =>
          m <- loadBigBlocks f bs [sector] m bs ;;
          '(blocks, k) <- difat_fill (N.to_nat (bs / 4)) m 0 blocks (k - 1) ;;
          difat_loop (N.to_nat (n - 1)) f bs m blocks k
      end). cbn beta.
    replace (lenN done + N.min (lenN l + 1) (lenN todo) - 1) with (lenN (done ++ l)) by (rewrite lenN_app; lia).
    replace (done ++ (l ++ [s']) ++ dropN (lenN l + 1) todo) with ((done ++ l) ++ s' :: dropN (lenN l + 1) todo)
      by (rewrite <- !app_assoc; reflexivity).
    rewrite nthN_app2 by lia. rewrite N.sub_diag. cbn [nthN N.eqb].
    destruct (sector_len _ _ _ _ S0) as [Lw _].
    rewrite (IH _ (done ++ l) (s' :: dropN (lenN l + 1) todo)).
    + rewrite <- app_assoc. reflexivity.
    + rewrite lenN_map. exact Lw.
    + rewrite lenN_cons, lenN_dropN. lia.
Qed.

Lemma nthN_ext {A} (l : list A) : forall m, lenN l = lenN m -> (forall i x, nthN l i = Some x -> nthN m i = Some x) -> l = m.
Proof.
  induction l as [|x l IH]; intros [|y m] L H; try reflexivity; rewrite ?lenN_cons in L; try (cbn in L; lia).
  assert (E : Some y = Some x) by (apply (H 0 x); reflexivity). injection E as ->. f_equal. apply IH; [lia|].
  intros i z Hi. specialize (H (i + 1) z). cbn [nthN] in H. replace (i + 1 =? 0) with false in H by lia.
  replace (N.pred (i + 1)) with i in H by lia. apply H. exact Hi.
Qed.
Lemma fat_ok f h l : header_of f h -> lenN f < 2 ^ 63 -> fat_sectors f (big_size h) l -> getbbatBlocks f h = Ok l.
Proof.
  intros (_ & _ & _ & Hnb & _ & _ & _ & _ & Hms & Hnm & Lbb & Hbb) Lf (N0 & Hl & first & rest & -> & Hf & Hr).
  pose proof (number_at_fun _ _ _ _ _ Hnb N0) as En. unfold getbbatBlocks. rewrite En. rewrite lenN_app in *.
  assert (Lfirst : lenN first <= 109) by (destruct Hr as [(-> & K & _)|[(-> & K)|(K & _)]]; lia).
  assert (Et : takeN (lenN first) (bb_blocks h) = first).
  { symmetry. apply nthN_ext; [rewrite lenN_takeN; lia|]. intros i v Hi. pose proof (nthN_bound _ _ _ Hi) as Bi.
    rewrite nthN_takeN by exact Bi. destruct (nthN_ex (bb_blocks h) i) as [w Hw]; [lia|]. rewrite Hw. f_equal.
    eapply number_at_fun; [apply Hbb; exact Hw|apply Hf; exact Hi]. }
  destruct (lenN rest =? 0) eqn:Er.
  - assert (rest = []) by (destruct rest; [reflexivity|rewrite lenN_cons in Er; lia]). subst rest.
    change (lenN (@nil N)) with 0. replace (109 <? _) with false by lia. cbn [andb].
    rewrite N.add_0_r, Et. replace (lenN first - 109) with 0 by lia. reflexivity.
  - destruct Hr as [(-> & _)|[(-> & _)|(K & s & n & D & Hs & Hn)]]; [discriminate|discriminate|].
    pose proof (number_at_fun _ _ _ _ _ Hms Hs) as Es. pose proof (number_at_fun _ _ _ _ _ Hnm Hn) as Em.
    destruct (difat_nonempty _ _ _ _ _ D) as [_ Bn]. rewrite Es, Em, K.
    replace (_ && _) with true by lia. rewrite K in Et.
    assert (Et' : takeN (109 + lenN rest) (bb_blocks h) = first).
    { rewrite takeN_all by lia. rewrite takeN_all in Et by lia. exact Et. }
    rewrite Et'. replace (109 + lenN rest - 109) with (lenN rest) by lia. rewrite <- K. apply (difat_run f (big_size h) s rest n Lf D).
    + apply lenN_blank.
    + apply lenN_repeatN.
Qed.

Lemma table_ok t : Forall (fun v => v < 2 ^ 32) t -> table_size t -> table_load (map Some (words t)) (4 * lenN t) = Ok t.
Proof.
  intros F T. unfold table_load, table_size in *. replace (4 * lenN t / 4) with (lenN t) by (rewrite N.mul_comm, N.div_mul; lia).
  change (2 ^ 32) with 4294967296. replace (_ <=? _) with false by lia.
  pose proof (readU32s_words t [] [] 0 F eq_refl) as H. rewrite app_nil_r in H. cbn [app] in H.
  replace (N.to_nat (lenN t)) with (List.length t) by (unfold lenN; lia). exact H.
Qed.
