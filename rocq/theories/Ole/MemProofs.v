(** Lemmas about memory and the loading of blocks. *)
From Coq Require Import List NArith ZArith Bool Lia.
From Coq Require Import ZifyBool ZifyNat ZifyN.
From Verif Require Import Lib.Res Lib.Bytes Lib.BytesFacts Common.Model Common.Spec Common.Fields Common.ReadProofs
     Common.FieldProofs Ole.Model Ole.Spec.
Import ListNotations.
Local Open Scope N_scope.
Ltac Zify.zify_post_hook ::= Z.div_mod_to_equations.
Arguments N.pow : simpl never.

(** ** Lists *)
Lemma lenN_concat {A} n (ws : list (list A)) : Forall (fun w => lenN w = n) ws -> lenN (List.concat ws) = n * lenN ws.
Proof.
  induction 1 as [|w ws H _ IH]; [cbn; lia|]. cbn [List.concat]. rewrite lenN_app, lenN_cons, H, IH. lia.
Qed.
Lemma map_takeN {A C} (f : A -> C) n l : map f (takeN n l) = takeN n (map f l).
Proof. rewrite !takeN_firstn. symmetry. apply firstn_map. Qed.
Lemma map_dropN {A C} (f : A -> C) n l : map f (dropN n l) = dropN n (map f l).
Proof. rewrite !dropN_skipn. symmetry. apply skipn_map. Qed.
Lemma takeN_app_ge {A} n (l m : list A) : lenN l <= n -> takeN n (l ++ m) = l ++ takeN (n - lenN l) m.
Proof.
  intros H. rewrite !takeN_firstn, firstn_app. unfold lenN in *. rewrite firstn_all2 by lia.
  f_equal. f_equal. lia.
Qed.
Lemma dropN_app_ge {A} n (l m : list A) : lenN l <= n -> dropN n (l ++ m) = dropN (n - lenN l) m.
Proof.
  intros H. rewrite !dropN_skipn, skipn_app. unfold lenN in *. rewrite skipn_all2 by lia. cbn [app]. f_equal. lia.
Qed.
Lemma lenN_blank n : lenN (blank n) = n.
Proof. apply lenN_repeatN. Qed.
Lemma Forall2_len {A C} (R : A -> C -> Prop) l m : Forall2 R l m -> lenN l = lenN m.
Proof. induction 1; [reflexivity|]. rewrite !lenN_cons. lia. Qed.

(** ** Memory *)
Lemma known_map l : known (map Some l) = Some l.
Proof. induction l as [|b l IH]; [reflexivity|]. cbn [map known]. rewrite IH. reflexivity. Qed.
Lemma known_inv m l : known m = Some l -> m = map Some l.
Proof.
  revert l. induction m as [|[b|] m IH]; intros l H; cbn [known] in H; [injection H as <-; reflexivity| |discriminate].
  destruct (known m) as [t|]; [|discriminate]. injection H as <-. cbn [map]. rewrite (IH t eq_refl). reflexivity.
Qed.
Lemma mslice_ok m off n : off + n <= lenN m -> mslice m off n = Ok (takeN n (dropN off m)).
Proof. intros H. unfold mslice. replace (_ <=? _) with true by lia. reflexivity. Qed.
Lemma mbytes_known l off n : mbytes (map Some l) off n = slice l off n.
Proof.
  unfold mbytes, mslice, slice. rewrite lenN_map. destruct (_ <=? _); [|reflexivity]. cbn [bind].
  rewrite <- map_dropN, <- map_takeN, known_map. reflexivity.
Qed.
Lemma readU16_known l off v : number_at l off 2 v -> readU16 (map Some l) off = Ok v.
Proof. intros (w & W & <-). unfold readU16. rewrite mbytes_known, (proj2 (slice_window _ _ _ _) W). reflexivity. Qed.
Lemma readU32_known l off v : number_at l off 4 v -> readU32 (map Some l) off = Ok v.
Proof. intros (w & W & <-). unfold readU32. rewrite mbytes_known, (proj2 (slice_window _ _ _ _) W). reflexivity. Qed.
Lemma mstore_ok m off s : off + lenN s <= lenN m -> mstore m off s = Ok (takeN off m ++ s ++ dropN (off + lenN s) m).
Proof. intros H. unfold mstore. replace (_ <=? _) with true by lia. reflexivity. Qed.
Lemma mstore_len m off s m' : mstore m off s = Ok m' -> lenN m' = lenN m.
Proof.
  unfold mstore. destruct (N.leb_spec (off + lenN s) (lenN m)) as [H|H]; [|discriminate]. intros E. injection E as <-.
  rewrite !lenN_app, lenN_takeN, lenN_dropN. lia.
Qed.

(** ** Numbers *)
Lemma window_in (pre w post : bytes) off n : lenN pre = off -> lenN w = n -> window (pre ++ w ++ post) off n w.
Proof. intros H1 H2. split; [exact H2|]. exists pre, post. split; [reflexivity|exact H1]. Qed.
Lemma number_in (pre post : bytes) k v off n : lenN pre = off -> N.of_nat k = n -> v < 256 ^ n ->
  number_at (pre ++ to_le k v ++ post) off n v.
Proof.
  intros H1 <- B. exists (to_le k v). split; [apply window_in; [exact H1|apply lenN_to_le]|]. apply le_to_le_id. exact B.
Qed.
Lemma lenN_words l : lenN (words l) = 4 * lenN l.
Proof.
  unfold words. rewrite (lenN_concat 4); [rewrite lenN_map; reflexivity|]. rewrite Forall_map. apply Forall_forall. intros. apply lenN_to_le.
Qed.
Lemma words_app l m : words (l ++ m) = words l ++ words m.
Proof. unfold words. rewrite map_app, concat_app. reflexivity. Qed.
Lemma readU32s_words l : forall (pre post : bytes) off, Forall (fun v => v < 2 ^ 32) l -> lenN pre = off ->
  readU32s (List.length l) (map Some (pre ++ words l ++ post)) off = Ok l.
Proof.
  induction l as [|v l IH]; intros pre post off F E; [reflexivity|].
  cbn [List.length readU32s]. inversion F as [|? ? Hv Hl]; subst.
  change (words (v :: l)) with (to_le 4 v ++ words l). rewrite <- app_assoc.
  rewrite (readU32_known _ (lenN pre) v) by (apply number_in; [reflexivity|reflexivity|exact Hv]). cbn [bind].
  specialize (IH (pre ++ to_le 4 v) post (lenN pre + 4) Hl).
  rewrite <- !app_assoc in IH. rewrite IH by (rewrite lenN_app, lenN_to_le; reflexivity). reflexivity.
Qed.

(** ** Blocks that lie in the file *)
Lemma sector_len f bs b w : sector f bs b w -> lenN w = bs /\ bs * (b + 1) + bs <= lenN f.
Proof. intros W. split; [apply W|]. apply window_len in W. exact W. Qed.
Lemma sector_take f bs b w n : sector f bs b w -> n <= bs -> takeN n (dropN (bs * (b + 1)) f) = takeN n w.
Proof.
  intros W H. pose proof (proj2 (slice_window _ _ _ _) W) as Sl. apply slice_inv in Sl. destruct Sl as (_ & Sl & _).
  rewrite Sl, takeN_takeN. f_equal. lia.
Qed.

Lemma load_blocks_file f bs blocks ws : lenN f < 2 ^ 63 -> Forall2 (sector f bs) blocks ws -> forall m c maxlen,
  maxlen <= lenN m -> maxlen < 2 ^ 64 -> c + bs * lenN blocks <= maxlen ->
  load_blocks f bs blocks m c maxlen =
  Ok (takeN c m ++ map Some (List.concat ws) ++ dropN (c + bs * lenN blocks) m, c + bs * lenN blocks).
Proof.
  intros Lf F. induction F as [|b w blocks ws S0 F IH]; intros m c maxlen Lm L64 Lc.
  - cbn [load_blocks map List.concat app]. change (lenN (@nil N)) with 0. rewrite N.mul_0_r, N.add_0_r, takeN_dropN. reflexivity.
  - cbn [load_blocks]. rewrite lenN_cons in *. destruct (sector_len _ _ _ _ S0) as [Lw Lb].
    destruct (N.ltb_spec c maxlen) as [Hc|Hc].
    + replace (if bs <? maxlen - c then bs else maxlen - c) with bs
        by (destruct (N.ltb_spec bs (maxlen - c)); lia).
      replace (lenN f <? bs * (b + 1) + bs) with false by lia.
      change (2 ^ 63) with 9223372036854775808 in *. change (2 ^ 64) with 18446744073709551616 in *.
      replace (bs <? 9223372036854775808) with true by lia.
      rewrite (sector_take _ _ _ _ bs S0) by lia. rewrite (takeN_all bs w) by lia.
      rewrite mstore_ok by (rewrite lenN_map; lia). cbn [bind]. rewrite lenN_map, Lw.
      unfold u64. change (2 ^ 64) with 18446744073709551616. rewrite N.mod_small by lia.
      rewrite IH; [|rewrite !lenN_app, lenN_map, lenN_takeN, lenN_dropN, Lw; lia|lia|lia].
      f_equal. f_equal; [|lia].
      assert (L1 : lenN (takeN c m) = c) by (rewrite lenN_takeN; lia).
      rewrite (takeN_app_ge (c + bs)) by lia. rewrite L1.
      rewrite (takeN_app_ge (c + bs - c)) by (rewrite lenN_map; lia). rewrite lenN_map, Lw.
      replace (c + bs - c - bs) with 0 by lia. rewrite takeN_0, app_nil_r.
      rewrite (dropN_app_ge _ (takeN c m)) by lia. rewrite L1.
      rewrite (dropN_app_ge _ (map Some w)) by (rewrite lenN_map; lia). rewrite lenN_map, Lw, dropN_dropN.
      cbn [List.concat]. rewrite map_app, <- !app_assoc. f_equal. f_equal. f_equal. f_equal. lia.
    + assert (Z0 : bs = 0) by lia. clear IH. rewrite Z0 in *. clear Z0 bs. destruct w; [|rewrite lenN_cons in Lw; lia].
      assert (E : List.concat ws = []).
      { clear - F. induction F as [|b' w' l ws [Hw _] F IH]; [reflexivity|]. cbn [List.concat]. rewrite IH.
        destruct w'; [reflexivity|rewrite lenN_cons in Hw; lia]. }
      cbn [List.concat app]. rewrite E. cbn [map app]. rewrite N.mul_0_l, N.add_0_r, takeN_dropN. reflexivity.
Qed.

Lemma load_chain_file f bs blocks data : lenN f < 2 ^ 63 -> sectors f bs blocks data -> lenN blocks * bs < 2 ^ 64 ->
  load_chain f bs blocks = Ok (map Some data) /\ lenN data = lenN blocks * bs.
Proof.
  intros Lf (ws & F & ->) L. unfold load_chain, loadBigBlocks.
  rewrite (load_blocks_file f bs blocks ws Lf F) by (rewrite ?lenN_blank; lia).
  cbn [rmap bind fst]. rewrite takeN_0. cbn [app]. rewrite dropN_all by (rewrite lenN_blank; lia). rewrite app_nil_r.
  split; [reflexivity|]. rewrite (lenN_concat bs).
  - rewrite (Forall2_len _ _ _ F). apply N.mul_comm.
  - clear - F. induction F as [|b w l ws H F IH]; constructor; [apply H|exact IH].
Qed.
Lemma load_block_file f bs b w m : lenN f < 2 ^ 63 -> sector f bs b w -> lenN m = bs ->
  loadBigBlocks f bs [b] m bs = Ok (map Some w).
Proof.
  intros Lf S0 Lm. unfold loadBigBlocks. destruct (sector_len _ _ _ _ S0) as [Lw Lb].
  assert (Lbs : bs <= lenN f) by (pose proof (N.le_0_l (bs * (b + 1))); lia). clear Lb.
  change (2 ^ 63) with 9223372036854775808 in *.
  assert (F : Forall2 (sector f bs) [b] [w]) by (constructor; [exact S0|constructor]).
  rewrite (load_blocks_file f bs [b] [w] Lf F m 0 bs); change (lenN [b]) with 1; [|lia|change (2 ^ 64) with 18446744073709551616; lia|lia].
  cbn [rmap bind fst List.concat]. rewrite takeN_0, app_nil_r. change (lenN [b]) with 1. cbn [app].
  rewrite dropN_all by lia. rewrite app_nil_r. reflexivity.
Qed.
