(** What reading a stream yields when sectors are missing; what every opened storage has. *)
From Coq Require Import List NArith ZArith Bool Lia.
From Coq Require Import ZifyBool ZifyNat ZifyN.
From Verif Require Import Lib.Res Lib.Bytes Lib.BytesFacts Common.Model Common.Spec Common.Fields
     Common.ReadProofs Common.FieldProofs Ole.Model Ole.Spec Ole.Statements Ole.MemProofs Ole.ChainProofs
     Ole.LoadProofs Ole.DirProofs Ole.StreamProofs Ole.TreeProofs Ole.SafetyProofs Ole.OutcomeProofs.
Import ListNotations.
Local Open Scope N_scope.
Ltac Zify.zify_post_hook ::= Z.div_mod_to_equations.
Arguments N.pow : simpl never.

(** ** One sector *)
Lemma load_block_any f bs b m : lenN m = bs -> lenN f < 2 ^ 63 -> bs * (b + 1) < 2 ^ 63 -> 0 < bs ->
  loadBigBlocks f bs [b] m bs =
  Ok (map Some (takeN bs (dropN (bs * (b + 1)) f)) ++ dropN (lenN (map Some (takeN bs (dropN (bs * (b + 1)) f)))) m).
Proof.
  intros L Lf Lb P. destruct (N.leb_spec (lenN f) (bs * (b + 1))) as [O|O].
  - rewrite (loadBigBlock_outside f bs b m L Lf Lb O P). rewrite (dropN_all (bs * (b + 1)) f) by exact O.
    replace (takeN bs (@nil byte)) with (@nil byte) by (symmetry; apply takeN_all; change (lenN (@nil byte)) with 0; lia).
    cbn [map]. rewrite app_nil_l. change (lenN (@nil (option byte))) with 0. rewrite dropN_0. reflexivity.
  - unfold loadBigBlocks. cbn [load_blocks]. replace (0 <? bs) with true by lia. rewrite N.sub_0_r.
    replace (if bs <? bs then bs else bs) with bs by (destruct (bs <? bs); reflexivity).
    set (pos := bs * (b + 1)) in *. clearbody pos.
    set (p := if lenN f <? pos + bs then subw 64 (lenN f) pos else bs).
    assert (E : (if p <? 2 ^ 63 then takeN p (dropN pos f) else []) = takeN bs (dropN pos f)).
    { unfold p. destruct (N.ltb_spec (lenN f) (pos + bs)) as [K|K].
      - rewrite sub_in; [|lia|]; cycle 1. { change (2 ^ 64) with (2 * 2 ^ 63). lia. }
        replace (lenN f - pos <? 2 ^ 63) with true by lia.
        rewrite !takeN_all; [reflexivity|rewrite lenN_dropN; lia|rewrite lenN_dropN; lia].
      - replace (bs <? 2 ^ 63) with true by lia. reflexivity. }
    rewrite E. rewrite mstore_ok; [|rewrite lenN_map, lenN_takeN; lia]. cbn [bind rmap fst]. rewrite takeN_0, app_nil_l, N.add_0_l. reflexivity.
Qed.

(** ** The loop over the sectors *)
Fixpoint arrive (load : mem -> N -> mem) (prev : mem) (l : list N) : mem :=
  match l with
  | [] => []
  | b :: r => load prev b ++ arrive load (load prev b) r
  end.
Lemma arrive_len load bs l : (forall m b, lenN m = bs -> In b l -> lenN (load m b) = bs) -> forall prev, lenN prev = bs ->
  lenN (arrive load prev l) = lenN l * bs.
Proof.
  induction l as [|b r IH]; intros H prev L; cbn [arrive]; [reflexivity|].
  rewrite lenN_app, lenN_cons, IH, H; [lia| | | |]; [exact L|left; reflexivity| |apply H; [exact L|left; reflexivity]].
  intros m x Lm Hx. apply H; [exact Lm|right; exact Hx].
Qed.
Lemma read_loop_any load ld bs : forall l,
  (forall b m, lenN m = bs -> In b l -> load b m = Ok (ld m b) /\ lenN (ld m b) = bs) ->
  forall buf (done todo : mem) total maxlen, lenN buf = bs -> lenN done = total -> total <= maxlen ->
  lenN todo = maxlen - total ->
  read_loop load bs l buf (done ++ todo) total maxlen 0 =
  Ok (done ++ takeN (maxlen - total) (arrive ld buf l) ++ dropN (lenN (arrive ld buf l)) todo,
      total + N.min (maxlen - total) (lenN (arrive ld buf l))).
Proof.
  induction l as [|b r IH]; intros H buf done todo total maxlen Lb Ld Lt Lo; cbn [read_loop arrive].
  - change (lenN (@nil (option byte))) with 0.
    rewrite dropN_0. replace (takeN (maxlen - total) (@nil (option byte))) with (@nil (option byte))
      by (symmetry; apply takeN_all; change (lenN (@nil (option byte))) with 0; lia).
    rewrite app_nil_l. f_equal. f_equal. lia.
  - destruct (N.ltb_spec total maxlen) as [K|K].
    + destruct (H b buf Lb (or_introl eq_refl)) as [El Ll]. rewrite El. cbn [bind]. rewrite N.sub_0_r.
      set (now := ld buf b) in *. set (more := arrive ld now r).
      set (count := if maxlen - total <? bs then maxlen - total else bs).
      assert (Hc : count <= maxlen - total /\ count <= bs) by (unfold count; destruct (maxlen - total <? bs) eqn:Q; lia).
      unfold mslice. rewrite Ll. replace (0 + count <=? bs) with true by lia. cbn [bind]. rewrite dropN_0.
      rewrite mstore_ok by (rewrite lenN_app, lenN_takeN; lia). cbn [bind].
      assert (Lc : lenN (takeN count now) = count) by (rewrite lenN_takeN; lia). rewrite Lc.
      assert (E1 : takeN total (done ++ todo) = done) by (rewrite <- Ld; apply takeN_app_exact).
      assert (E2 : dropN (total + count) (done ++ todo) = dropN count todo).
      { rewrite dropN_app_ge by lia. f_equal. lia. }
      rewrite E1, E2. rewrite app_assoc.
      rewrite IH with (total := total + count); [| |exact Ll|rewrite lenN_app; lia|lia|rewrite lenN_dropN; lia].
      2:{ intros b' m Lm Hb. apply H; [exact Lm|right; exact Hb]. }
      fold more. f_equal. f_equal.
      * rewrite <- app_assoc. f_equal. rewrite lenN_app, Ll.
        unfold count. destruct (N.ltb_spec (maxlen - total) bs) as [G|G].
        -- replace (maxlen - (total + (maxlen - total))) with 0 by lia. rewrite takeN_0, app_nil_l.
           rewrite (takeN_app1 (maxlen - total)) by lia. f_equal. rewrite dropN_dropN. rewrite !dropN_all; [reflexivity|lia|lia].
        -- rewrite (takeN_all bs now) by lia. rewrite takeN_app_ge by lia. rewrite <- app_assoc. f_equal. rewrite Ll.
           replace (maxlen - total - bs) with (maxlen - (total + bs)) by lia. f_equal.
           rewrite dropN_dropN. reflexivity.
      * rewrite lenN_app, Ll. unfold count. destruct (N.ltb_spec (maxlen - total) bs) as [G|G]; lia.
    + replace (maxlen - total) with 0 in * by lia. rewrite takeN_0, app_nil_l.
      assert (todo = []) by (destruct todo; [reflexivity|rewrite lenN_cons in Lo; lia]). subst todo.
      rewrite (dropN_all _ []) by (change (lenN (@nil (option byte))) with 0; lia). f_equal. f_equal. lia.
Qed.

Definition ld_big (f : bytes) (bs : N) (m : mem) (b : N) : mem :=
  map Some (takeN bs (dropN (bs * (b + 1)) f)) ++ dropN (lenN (map Some (takeN bs (dropN (bs * (b + 1)) f)))) m.
Lemma arriving_arrive f bs l : forall prev, arriving f bs prev l = arrive (ld_big f bs) prev l.
Proof. induction l as [|b r IH]; intros prev; cbn [arriving arrive]; [reflexivity|]. rewrite IH. reflexivity. Qed.
Lemma ld_big_len f bs m b : lenN m = bs -> lenN (ld_big f bs m b) = bs.
Proof. intros L. unfold ld_big. rewrite lenN_app, lenN_dropN, lenN_map, lenN_takeN. lia. Qed.

Lemma arriving_len f bs l prev : lenN prev = bs -> lenN (arriving f bs prev l) = lenN l * bs.
Proof. intros L. rewrite arriving_arrive. apply arrive_len; [|exact L]. intros m b Lm _. apply ld_big_len. exact Lm. Qed.

(** A stream of 4096 bytes or more, whatever the file lacks. *)
Lemma read_all_any f c s n e l : stored_as f c -> storage_of f c s -> entry_matches n e -> n_size n < 2 ^ 32 -> 4096 <= n_size n ->
  chain (c_fat c) (n_start n) l ->
  read_all s e = Ok (if n_size n <=? lenN l * 2 ^ c_shift c
                     then takeN (n_size n) (arriving f (2 ^ c_shift c) (repeatN None (2 ^ c_shift c)) l) else []).
Proof.
  intros St So Em Bn Big C. pose proof So as (Ef & Eb & Es & Et & Ebat & Esbat & _ & _).
  pose proof St as (_ & Lf & _ & _ & _ & _ & B2 & B3 & _ & _ & _ & _ & Tf & _ & _ & _ & Tm & _).
  assert (Esz : d_size e = n_size n) by (rewrite Em; reflexivity).
  assert (Est : d_start e = n_start n) by (rewrite Em; reflexivity).
  unfold read_all. rewrite Esz. change (2 ^ 32) with 4294967296 in Bn.
  unfold stream_blocks, stream_read. rewrite Esz, Et, Est, Ef, Ebat.
  replace (n_size n =? 0) with false by lia. rewrite N.add_0_l. unfold u64.
  assert (E64 : n_size n mod 2 ^ 64 = n_size n) by (apply N.mod_small; change (2 ^ 64) with 18446744073709551616; lia). rewrite E64.
  replace (n_size n <? n_size n) with false by lia. unfold big_size. rewrite Eb.
  replace (4096 <=? n_size n) with true by lia. replace (n_size n <? 4096) with false by lia.
  rewrite (proj2 (follow_iff _ _ _ Tf) C). cbn [bind].
  destruct (pow_shift _ B2) as [P1 P2]. pose proof (chain_inside _ _ _ C) as In1.
  set (bs := 2 ^ c_shift c) in *. clearbody bs.
  rewrite N.div_0_l, N.mod_0_l, dropN_0 by lia.
  destruct (N.leb_spec (lenN l) 0) as [K|K].
  { replace (lenN l) with 0 by lia. rewrite N.mul_0_l. replace (n_size n <=? 0) with false by lia. cbn [bind].
    replace (0 =? n_size n) with false by lia. reflexivity. }
  pose proof (arriving_len f bs l (blank bs) (lenN_blank bs)) as La. unfold blank in La at 1.
  rewrite arriving_arrive in La |- *.
  change (blank (n_size n)) with ([] ++ blank (n_size n)).
  rewrite (read_loop_any _ (ld_big f bs) bs l) with (total := 0); try reflexivity; try lia; try (rewrite lenN_blank; lia).
  - unfold blank at 1 2. cbn [bind app]. rewrite N.sub_0_r, N.add_0_l. unfold blank at 1. rewrite La.
    destruct (N.leb_spec (n_size n) (lenN l * bs)) as [G|G].
    + replace (N.min _ _ =? _) with true by lia. rewrite dropN_all by (rewrite lenN_blank; lia). rewrite app_nil_r. reflexivity.
    + replace (N.min _ _ =? _) with false by lia. reflexivity.
  - intros b m Lm Hb. split; [|apply ld_big_len; exact Lm]. unfold ld_big. apply load_block_any; try assumption.
    rewrite Forall_forall in In1. specialize (In1 b Hb). unfold table_size in Tf. change (2 ^ 63) with 9223372036854775808. nia.
Qed.

(** ** Every opened storage *)
Lemma entries_sizes pl n m : forall p l, load_entries pl n m p = Ok l -> Forall (fun e => d_size e < 2 ^ 32) l.
Proof.
  induction n as [|n IH]; intros p l H; cbn [load_entries] in H; [injection H as <-; constructor|].
  apply bind_ok in H. destruct H as (e & E & H). apply bind_ok in H. destruct H as (r & Er & H). injection H as <-.
  constructor; [|eapply IH; exact Er]. clear - E. unfold load_entry in E.
  apply bind_ok in E. destruct E as (a1 & _ & E). cbv zeta in E. apply bind_ok in E. destruct E as (a2 & _ & E).
  apply bind_ok in E. destruct E as (a3 & _ & E). apply bind_ok in E. destruct E as (a4 & _ & E).
  apply bind_ok in E. destruct E as (a5 & _ & E). apply bind_ok in E. destruct E as (sz & Esz & E).
  apply bind_ok in E. destruct E as (a6 & _ & E). apply bind_ok in E. destruct E as (a7 & _ & E).
  apply bind_ok in E. destruct E as (a8 & _ & E). injection E as <-. cbn [d_size].
  unfold readU32 in Esz. apply bind_ok in Esz. destruct Esz as (w & Ew & Esz). injection Esz as <-.
  unfold mbytes, mslice in Ew. destruct (_ <=? _) eqn:Q; [|discriminate]. cbn [bind] in Ew.
  destruct (known _) as [k|] eqn:Ek; [|discriminate]. injection Ew as <-.
  pose proof (known_inv _ _ Ek) as Em. pose proof (le_bound k) as B.
  assert (Lk : lenN k = 4). { rewrite <- (lenN_map (@Some byte) k), <- Em, lenN_takeN, lenN_dropN. lia. }
  rewrite Lk in B. change (256 ^ 4) with (2 ^ 32) in B. exact B.
Qed.
Lemma opened_inv pl (f : bytes) s : storage_load pl (Some f) = Ok (Opened s) ->
  valid (st_header s) = true /\ Forall (fun e => d_size e < 2 ^ 32) (st_dir s).
Proof.
  unfold storage_load. intros H. apply bind_ok in H. destruct H as (b & _ & H). apply bind_ok in H. destruct H as (h & _ & H).
  destruct (negb (bytes_eqb _ _)); [discriminate|]. destruct (valid h) eqn:V; cbn [negb] in H; [|discriminate]. cbv zeta in H.
  apply bind_ok in H. destruct H as (bl & _ & H). apply bind_ok in H. destruct H as (m1 & _ & H).
  apply bind_ok in H. destruct H as (bbat & _ & H). apply bind_ok in H. destruct H as (l2 & _ & H).
  apply bind_ok in H. destruct H as (m2 & _ & H). apply bind_ok in H. destruct H as (sbat & _ & H).
  apply bind_ok in H. destruct H as (l3 & _ & H). apply bind_ok in H. destruct H as (m3 & _ & H).
  apply bind_ok in H. destruct H as (dir & Ed & H). apply bind_ok in H. destruct H as (x & _ & H).
  apply bind_ok in H. destruct H as (y & _ & H). injection H as <-. cbn [st_header st_dir].
  split; [exact V|]. unfold dirtree_load in Ed. eapply entries_sizes. exact Ed.
Qed.
