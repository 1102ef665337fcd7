(** Reading a part of a stream. *)
From Coq Require Import List NArith ZArith Bool Lia.
From Coq Require Import ZifyBool ZifyNat ZifyN.
From Verif Require Import Lib.Res Lib.Bytes Lib.BytesFacts Common.Model Common.Spec Common.Fields
     Common.ReadProofs Common.FieldProofs Ole.Model Ole.Spec Ole.Statements Ole.MemProofs Ole.ChainProofs
     Ole.LoadProofs Ole.DirProofs Ole.StreamProofs.
Import ListNotations.
Local Open Scope N_scope.
Ltac Zify.zify_post_hook ::= Z.div_mod_to_equations.
Arguments N.pow : simpl never.

Lemma Forall2_dropN {A B} (R : A -> B -> Prop) l m n : Forall2 R l m -> Forall2 R (dropN n l) (dropN n m).
Proof.
  intros F. revert n. induction F as [|a b l m H F IH]; intros n; [constructor|]. destruct (N.eq_dec n 0) as [->|K].
  - rewrite !dropN_0. constructor; assumption.
  - cbn [dropN]. destruct (N.eqb_spec n 0); [contradiction|]. apply IH.
Qed.
Lemma concat_dropN {A} n (ws : list (list A)) : Forall (fun w => lenN w = n) ws -> forall k,
  List.concat (dropN k ws) = dropN (k * n) (List.concat ws).
Proof.
  induction 1 as [|w ws L F IH]; intros k; [reflexivity|]. destruct (N.eq_dec k 0) as [->|K]; [rewrite !dropN_0; reflexivity|].
  cbn [dropN List.concat]. destruct (N.eqb_spec k 0); [contradiction|]. rewrite IH.
  rewrite (dropN_app_ge _ w) by nia. f_equal. rewrite L. nia.
Qed.
Lemma concat_len {A} n (ws : list (list A)) : Forall (fun w => lenN w = n) ws -> lenN (List.concat ws) = n * lenN ws.
Proof. induction 1 as [|w ws L F IH]; cbn [List.concat]; [change (lenN (@nil A)) with 0; change (lenN (@nil (list A))) with 0; lia|]. rewrite lenN_app, IH, lenN_cons, L. lia. Qed.
Lemma Forall2_lenN {A B} (R : A -> B -> Prop) l m : Forall2 R l m -> lenN l = lenN m.
Proof. induction 1; [reflexivity|]. rewrite !lenN_cons. lia. Qed.

Lemma read_loop_part (R : N -> bytes -> Prop) load bs l ws pos len :
  (forall b w m, R b w -> lenN m = bs -> load b m = Ok (map Some w)) -> (forall b w, R b w -> lenN w = bs) -> 0 < bs ->
  Forall2 R l ws -> 0 < len -> pos + len <= lenN (List.concat ws) ->
  (if lenN l <=? pos / bs then Ok (blank len, 0)
   else read_loop load bs (dropN (pos / bs) l) (blank bs) (blank len) 0 len (pos mod bs)) =
  Ok (map Some (takeN len (dropN pos (List.concat ws))), len).
Proof.
  intros Hload Hlen P F Hl Hp.
  assert (Fl : Forall (fun w => lenN w = bs) ws) by (clear - F Hlen; induction F; constructor; eauto).
  pose proof (concat_len bs ws Fl) as Lc. pose proof (Forall2_lenN _ _ _ F) as Ll.
  assert (Q : pos / bs < lenN l) .
  { apply N.div_lt_upper_bound; [clear - P; lia|]. rewrite Ll. rewrite Lc in Hp. apply N.lt_le_trans with (pos + len); [clear - Hl; lia|exact Hp]. }
  rewrite (proj2 (N.leb_gt _ _) Q).
  pose proof (Forall2_dropN R l ws (pos / bs) F) as Fd.
  assert (Nz : bs <> 0) by (clear - P; lia). pose proof (N.div_mod pos bs Nz) as Dm. pose proof (N.mod_lt pos bs Nz) as Ml.
  set (qq := pos / bs) in *. set (rr := pos mod bs) in *. clearbody qq rr.
  replace (dropN pos (List.concat ws)) with (dropN rr (List.concat (dropN qq ws))).
  2:{ rewrite (concat_dropN bs ws Fl), dropN_dropN. f_equal. lia. }
  assert (Lt : lenN (List.concat (dropN qq ws)) = lenN (List.concat ws) - qq * bs) by (rewrite (concat_dropN bs ws Fl), lenN_dropN; reflexivity).
  destruct Fd as [|b w l' ws' Hb F']; [change (lenN (List.concat (@nil bytes))) with 0 in Lt; nia|].
  pose proof (Hlen _ _ Hb) as Lw. cbn [read_loop List.concat] in *. rewrite lenN_app, Lw in Lt.
  replace (0 <? len) with true by lia. rewrite (Hload b w (blank bs) Hb) by apply lenN_blank. cbn [bind]. rewrite N.sub_0_r.
  set (count := if len <? bs - rr then len else bs - rr).
  assert (Hc : count = N.min len (bs - rr)) by (unfold count; destruct (N.ltb_spec len (bs - rr)); lia).
  rewrite mslice_ok by (rewrite lenN_map; lia). cbn [bind].
  rewrite <- map_dropN, <- map_takeN.
  assert (Lk : lenN (map Some (takeN count (dropN rr w))) = count) by (rewrite lenN_map, lenN_takeN, lenN_dropN; lia).
  rewrite mstore_ok by (rewrite Lk, lenN_blank; lia). cbn [bind]. rewrite takeN_0, Lk, !N.add_0_l. cbn [app].
  rewrite (read_loop_ok R load bs l' ws' Hload Hlen F') with (total := count); try lia.
  2:{ rewrite lenN_map; exact Lw. }
  2:{ rewrite lenN_dropN, lenN_blank. reflexivity. }
  rewrite (dropN_app1 rr) by lia.
  destruct (N.le_gt_cases len (bs - rr)) as [C|C].
  - replace count with len by lia. rewrite N.sub_diag, takeN_0. cbn [map app].
    rewrite (takeN_app1 len) by (rewrite lenN_dropN; lia).
    rewrite (dropN_all len (blank len)) by (rewrite lenN_blank; lia). replace (dropN (lenN (List.concat ws')) []) with (@nil (option byte)) by reflexivity. rewrite app_nil_r.
    f_equal. f_equal. lia.
  - replace count with (bs - rr) by lia. rewrite (takeN_all (bs - rr)) by (rewrite lenN_dropN; lia).
    rewrite (takeN_app_ge len) by (rewrite lenN_dropN; lia). rewrite lenN_dropN, Lw.
    rewrite (dropN_all (lenN (List.concat ws'))) by (rewrite lenN_dropN, lenN_blank; lia). rewrite app_nil_r, map_app.
    f_equal. f_equal. lia.
Qed.

Lemma read_part f c s n e data pos len : stored_as f c -> storage_of f c s -> entry_matches n e -> n_size n < 2 ^ 32 ->
  sector_bytes f c n data -> n_size n <= lenN data -> 0 < len -> pos + len <= n_size n ->
  exists blocks, stream_blocks s e = Ok blocks /\
    stream_read s e blocks pos (blank len) len = Ok (map Some (takeN len (dropN pos (takeN (n_size n) data))), len).
Proof.
  intros St So Em Bn (l & H) Ld Hl Hp. pose proof So as (Ef & Eb & Es & Et & Ebat & Esbat & _ & _).
  pose proof St as (_ & Lf & _ & _ & _ & _ & B2 & B3 & _ & _ & _ & _ & Tf & _ & _ & _ & Tm & _).
  assert (Esz : d_size e = n_size n) by (rewrite Em; reflexivity).
  assert (Est : d_start e = n_start n) by (rewrite Em; reflexivity).
  change (2 ^ 32) with 4294967296 in Bn.
  assert (Ecut : takeN len (dropN pos (takeN (n_size n) data)) = takeN len (dropN pos data)).
  { rewrite <- (takeN_dropN (n_size n) data) at 2. rewrite (dropN_app1 pos) by (rewrite lenN_takeN; lia).
    symmetry. apply takeN_app1. rewrite lenN_dropN, lenN_takeN. lia. }
  rewrite Ecut. unfold stream_blocks, stream_read. rewrite Esz, Et, Est, Ef, Ebat, Esbat.
  replace (len =? 0) with false by lia. unfold u64.
  change (2 ^ 64) with 18446744073709551616. rewrite N.mod_small by lia.
  replace (n_size n <? pos + len) with false by lia.
  unfold big_size, small_size. rewrite Eb, Es.
  destruct (4096 <=? n_size n) eqn:Big.
  - destruct H as [C (ws & Fs & ->)]. replace (n_size n <? 4096) with false by lia. exists l. split; [apply (proj2 (follow_iff _ _ _ Tf)); exact C|].
    set (bs := 2 ^ c_shift c) in *. assert (P1 : 0 < bs) by (apply N.neq_0_lt_0, N.pow_nonzero; lia).
    apply (read_loop_part (sector f bs)); try assumption; try lia.
    + intros b w m Sb Lm. apply load_block_file; assumption.
    + intros b w Sb. apply Sb.
  - destruct H as [C (ws & Fs & ->)]. replace (n_size n <? 4096) with true by lia.
    set (bs := 2 ^ c_small_shift c) in *. assert (P1 : 0 < bs) by (apply N.neq_0_lt_0, N.pow_nonzero; lia).
    destruct (c_minifat c) as [|v t] eqn:Ec.
    { inversion C as [|? ? ? Hb]; subst; [|discriminate]. inversion Fs; subst. cbn in Ld. lia. }
    exists l. split; [apply (proj2 (follow_iff _ _ _ Tm)); exact C|].
    apply (read_loop_part (small_sector c)); try assumption; try lia.
    + intros b w m Sb Lm. eapply small_ok; eassumption.
    + intros b w Sb. apply Sb.
Qed.
