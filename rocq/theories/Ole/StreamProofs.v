(** Reading streams. *)
From Coq Require Import List NArith ZArith Bool Lia.
From Coq Require Import ZifyBool ZifyNat ZifyN.
From Verif Require Import Lib.Res Lib.Bytes Lib.BytesFacts Common.Model Common.Spec Common.Fields
     Common.ReadProofs Common.FieldProofs Ole.Model Ole.Spec Ole.Statements Ole.MemProofs Ole.ChainProofs
     Ole.LoadProofs Ole.DirProofs.
Import ListNotations.
Local Open Scope N_scope.
Ltac Zify.zify_post_hook ::= Z.div_mod_to_equations.
Arguments N.pow : simpl never.

(** ** The loop over blocks *)
Lemma read_loop_ok (R : N -> bytes -> Prop) load bs l ws :
  (forall b w m, R b w -> lenN m = bs -> load b m = Ok (map Some w)) -> (forall b w, R b w -> lenN w = bs) ->
  Forall2 R l ws -> forall buf (done todo : mem) total maxlen, lenN buf = bs -> lenN done = total -> total <= maxlen ->
  lenN todo = maxlen - total ->
  read_loop load bs l buf (done ++ todo) total maxlen 0 =
  Ok (done ++ map Some (takeN (maxlen - total) (List.concat ws)) ++ dropN (lenN (List.concat ws)) todo,
      total + N.min (maxlen - total) (lenN (List.concat ws))).
Proof.
  intros Hload Hlen F. induction F as [|b w l ws Hb F IH]; intros buf done todo total maxlen Lb Ld Lt Lto.
  - cbn [read_loop List.concat takeN map app]. change (lenN (@nil byte)) with 0. rewrite dropN_0. f_equal. f_equal. lia.
  - cbn [read_loop List.concat]. pose proof (Hlen _ _ Hb) as Lw. destruct (N.ltb_spec total maxlen) as [K|K].
    + rewrite (Hload _ _ _ Hb Lb). cbn [bind]. rewrite N.sub_0_r. rewrite lenN_app, Lw.
      set (count := if maxlen - total <? bs then maxlen - total else bs).
      assert (Hc : count = N.min (maxlen - total) bs) by (unfold count; destruct (N.ltb_spec (maxlen - total) bs); lia).
      rewrite mslice_ok by (rewrite lenN_map; lia). cbn [bind]. rewrite dropN_0, <- map_takeN.
      assert (Lc : lenN (map Some (takeN count w)) = count) by (rewrite lenN_map, lenN_takeN; lia).
      rewrite mstore_ok by (rewrite lenN_app, Lc; lia). cbn [bind].
      rewrite (takeN_app_ge total) by lia. replace (total - lenN done) with 0 by lia. rewrite takeN_0, app_nil_r.
      rewrite (dropN_app_ge _ done) by lia. rewrite Lc. replace (total + count - lenN done) with count by lia.
      rewrite app_assoc.
      rewrite IH; [|rewrite lenN_map; exact Lw|rewrite lenN_app, Lc; lia|lia|rewrite lenN_dropN; lia].
      rewrite dropN_dropN, <- app_assoc. f_equal. f_equal; [|lia]. f_equal.
      destruct (N.le_gt_cases bs (maxlen - total)) as [C|C].
      * replace count with bs by lia. rewrite (takeN_all bs w) by lia. rewrite (takeN_app_ge _ w) by lia.
        rewrite map_app, <- app_assoc. f_equal.
        replace (maxlen - (total + bs)) with (maxlen - total - lenN w) by lia. rewrite Lw. reflexivity.
      * replace count with (maxlen - total) by lia. rewrite (takeN_app1 _ w) by lia.
        replace (maxlen - (total + (maxlen - total))) with 0 by lia. rewrite takeN_0. cbn [map app]. f_equal.
        rewrite !dropN_all by lia. reflexivity.
    + replace (maxlen - total) with 0 by lia. rewrite takeN_0. cbn [map app].
      rewrite dropN_all by lia. destruct todo; [|rewrite lenN_cons in Lto; lia]. f_equal. f_equal. lia.
Qed.

(** ** Small sectors *)
Lemma concat_nth {A} n (ws : list (list A)) : Forall (fun w => lenN w = n) ws -> forall q r k,
  r + k <= n -> n * q + r + k <= lenN (List.concat ws) -> 0 < k ->
  exists v, nthN ws q = Some v /\ takeN k (dropN (n * q + r) (List.concat ws)) = takeN k (dropN r v).
Proof.
  induction 1 as [|w ws Lw F IH]; intros q r k Hr Hk Kp; [cbn in Hk; lia|]. cbn [List.concat] in *.
  rewrite lenN_app in Hk. destruct (N.eq_dec q 0) as [->|Hq].
  - exists w. split; [reflexivity|]. rewrite N.mul_0_r, N.add_0_l. rewrite dropN_app1 by lia.
    rewrite takeN_app1 by (rewrite lenN_dropN; lia). reflexivity.
  - assert (Eq : q = N.pred q + 1) by lia. remember (N.pred q) as q' eqn:Hq'.
    destruct (IH q' r k) as (v & Hv & E); [lia| |lia|].
    + rewrite Lw in Hk. subst q. rewrite N.mul_add_distr_l in Hk. lia.
    + exists v. split; [cbn [nthN]; replace (q =? 0) with false by lia; rewrite <- Hq'; exact Hv|].
      rewrite dropN_app_ge by (subst q; lia). rewrite <- E. f_equal. f_equal. subst q. lia.
Qed.

Lemma pow_split a b : b <= a -> 2 ^ a = 2 ^ (a - b) * 2 ^ b.
Proof. intros H. rewrite <- N.pow_add_r. f_equal. lia. Qed.

Lemma small_ok f c s b w m : stored_as f c -> storage_of f c s -> small_sector c b w -> lenN m = 2 ^ c_small_shift c ->
  loadSmallBlock s b m = Ok (map Some w).
Proof.
  intros St So W Lm.
  destruct St as (_ & Lf & _ & _ & _ & _ & _ & B3 & _ & _ & _ & _ & _ & _ & _ & _ & _ & _ & _ & _ & _ & (ws & Fs & Ec)).
  destruct So as (Ef & Eb & Es & _ & _ & _ & _ & Esb).
  unfold loadSmallBlock, small_sector in *. cbn [load_small]. unfold big_size, small_size. rewrite Eb, Es, Ef, Esb.
  set (bs := 2 ^ c_shift c) in *. set (sbs := 2 ^ c_small_shift c) in *.
  assert (P1 : 0 < bs) by (apply N.neq_0_lt_0, N.pow_nonzero; lia).
  assert (P2 : 0 < sbs) by (apply N.neq_0_lt_0, N.pow_nonzero; lia).
  assert (Ek : bs = 2 ^ (c_shift c - c_small_shift c) * sbs) by (apply pow_split; exact B3).
  set (k := 2 ^ (c_shift c - c_small_shift c)) in *. assert (Pk : 0 < k) by (apply N.neq_0_lt_0, N.pow_nonzero; lia).
  replace (0 <? bs) with true by lia.
  assert (Eoff : b * sbs mod bs = b mod k * sbs).
  { rewrite Ek. apply N.mul_mod_distr_r; lia. }
  assert (Ediv : b * sbs / bs = b / k).
  { rewrite Ek. apply N.div_mul_cancel_r; lia. }
  assert (Hin : b mod k * sbs + sbs <= bs).
  { rewrite Ek. assert (b mod k < k) by (apply N.mod_lt; lia). nia. }
  assert (Epos : sbs * b = bs * (b / k) + b mod k * sbs).
  { rewrite Ek. rewrite (N.div_mod b k) at 1 by lia. ring. }
  pose proof (window_len _ _ _ _ W) as Lmini. apply slice_window, slice_inv in W. destruct W as (_ & Ew & Lw).
  assert (Fl : Forall (fun w => lenN w = bs) ws).
  { clear - Fs. induction Fs as [|x y l ws H F IH]; constructor; [apply H|exact IH]. }
  rewrite Ec in Lmini, Ew. rewrite Epos in Ew, Lmini.
  destruct (concat_nth bs ws Fl (b / k) (b mod k * sbs) sbs Hin Lmini P2) as (v & Hv & Ev).
  rewrite Ediv, Eoff.
  assert (Hbig : exists big, nthN (c_mini_at c) (b / k) = Some big /\ sector f bs big v).
  { clear - Fs Hv. revert Hv. generalize (b / k). induction Fs as [|x y l ws H F IH]; intros i Hv; [discriminate|].
    cbn [nthN] in *. destruct (i =? 0); [injection Hv as <-; exists x; split; [reflexivity|exact H]|apply IH; exact Hv]. }
  destruct Hbig as (big & Hbig & Sv). rewrite Hbig.
  rewrite (load_block_file f bs big v (blank bs) Lf Sv (lenN_blank bs)). cbn [bind]. destruct (sector_len _ _ _ _ Sv) as [Lv _].
  rewrite N.sub_0_r.
  replace (if bs <? bs - b mod k * sbs then bs else bs - b mod k * sbs) with (bs - b mod k * sbs)
    by (destruct (N.ltb_spec bs (bs - b mod k * sbs)); lia).
  replace (if sbs <? bs - b mod k * sbs then sbs else bs - b mod k * sbs) with sbs
    by (destruct (N.ltb_spec sbs (bs - b mod k * sbs)); lia).
  rewrite mslice_ok by (rewrite lenN_map; lia). cbn [bind]. rewrite <- map_dropN, <- map_takeN, <- Ev, <- Ew.
  rewrite mstore_ok by (rewrite lenN_map; lia). cbn [bind]. rewrite lenN_map, Lw, takeN_0. cbn [app].
  rewrite dropN_all by lia. rewrite app_nil_r. reflexivity.
Qed.

(** ** Whole streams *)

(** The bytes of the sectors of an entry, whatever its size says. *)
Definition sector_bytes (f : bytes) (c : compound) (n : node) (data : bytes) : Prop :=
  exists l, if 4096 <=? n_size n
     then chain (c_fat c) (n_start n) l /\ sectors f (2 ^ c_shift c) l data
     else chain (c_minifat c) (n_start n) l /\ exists ws, Forall2 (small_sector c) l ws /\ data = List.concat ws.

Definition read_all (s : storage) (e : dirent) : res mem :=
  blocks <- stream_blocks s e ;;
  '(data, n) <- stream_read s e blocks 0 (blank (d_size e)) (d_size e) ;;
  Ok (if n =? d_size e then data else []).

Lemma blank_split m : blank m = [] ++ blank m. Proof. reflexivity. Qed.

Lemma read_all_ok f c s n e data : stored_as f c -> storage_of f c s -> entry_matches n e -> n_size n < 2 ^ 32 ->
  sector_bytes f c n data -> c_minifat c <> [] \/ n_size n <= lenN data ->
  read_all s e = Ok (if n_size n <=? lenN data then map Some (takeN (n_size n) data) else []).
Proof.
  intros St So Em Bn (l & H) Hmini. pose proof So as (Ef & Eb & Es & Et & Ebat & Esbat & _ & _).
  pose proof St as (_ & Lf & _ & _ & _ & _ & B2 & B3 & _ & _ & _ & _ & Tf & _ & _ & _ & Tm & _).
  assert (Esz : d_size e = n_size n) by (rewrite Em; reflexivity).
  assert (Est : d_start e = n_start n) by (rewrite Em; reflexivity).
  unfold read_all. rewrite Esz. change (2 ^ 32) with 4294967296 in Bn.
  destruct (N.eq_dec (n_size n) 0) as [Z0|Z0].
  { rewrite Z0 in *. change (4096 <=? 0) with false in H. cbn iota in H. destruct H as [C _].
    assert (Hf : exists l', stream_blocks s e = Ok l').
    { unfold stream_blocks. rewrite Et, Esz. change (4096 <=? 0) with false. cbn iota. rewrite Esbat, Est.
      destruct (c_minifat c) as [|v t] eqn:Ec.
      - destruct (follow_cases (List.repeat 4294967295 128) (n_start n)) as [K|K]; [exact K|]. exfalso.
        apply follow_endless in K; [|unfold table_size; vm_compute; discriminate].
        destruct K as (x & _ & K). assert (Hno : forall y z, ~ links (List.repeat 4294967295 128) y z \/ z = 4294967295).
        { clear. intros y z. destruct (N.eq_dec z 4294967295) as [->|Hz]; [right; reflexivity|left]. intros L. apply Hz. clear Hz.
          assert (Hn : forall i v, nthN (List.repeat 4294967295 128) i = Some v -> v = 4294967295).
          { intros i v Hv. rewrite nthN_nth_error in Hv. apply nth_error_In, List.repeat_spec in Hv. exact Hv. }
          induction L as [y z H|y w z H L IH]; [eapply Hn; exact H|exact IH]. }
        destruct (Hno x x) as [Hx|Hx]; [contradiction|]. subst x. inversion K as [? ? Hb|? ? ? Hb]; subst; apply nthN_bound in Hb;
          vm_compute in Hb; discriminate.
      - rewrite (proj2 (follow_iff _ _ _ Tm) C). exists l. reflexivity. }
    destruct Hf as [l' ->]. cbn [bind]. unfold stream_read. change (0 =? 0) with true. cbn [bind]. cbn iota.
    replace (0 <=? lenN data) with true by lia. rewrite takeN_0. reflexivity. }
  unfold stream_blocks, stream_read. rewrite Esz, Et, Est, Ef, Ebat, Esbat.
  replace (n_size n =? 0) with false by lia. rewrite N.add_0_l. unfold u64.
  change (2 ^ 64) with 18446744073709551616. rewrite N.mod_small by lia.
  replace (n_size n <? n_size n) with false by lia.
  unfold big_size, small_size. rewrite Eb, Es.
  destruct (4096 <=? n_size n) eqn:Big.
  - destruct H as [C (ws & Fs & ->)]. replace (n_size n <? 4096) with false by lia.
    rewrite (proj2 (follow_iff _ _ _ Tf) C). cbn [bind].
    set (bs := 2 ^ c_shift c) in *. assert (P1 : 0 < bs) by (apply N.neq_0_lt_0, N.pow_nonzero; lia).
    assert (Fl : Forall (fun w => lenN w = bs) ws).
    { clear - Fs. induction Fs as [|x y l ws H F IH]; constructor; [apply H|exact IH]. }
    rewrite N.div_0_l, N.mod_0_l, dropN_0 by lia.
    destruct (N.leb_spec (lenN l) 0) as [K|K].
    + assert (l = []) by (destruct l; [reflexivity|rewrite lenN_cons in K; lia]). subst l. inversion Fs; subst. cbn [bind List.concat].
      change (lenN (@nil byte)) with 0. replace (0 =? n_size n) with false by lia. replace (n_size n <=? 0) with false by lia. reflexivity.
    + rewrite (blank_split (n_size n)).
      rewrite (read_loop_ok (sector f bs) _ bs l ws) with (total := 0); try assumption; try reflexivity; try lia;
        try (rewrite lenN_blank; lia).
      * cbn [bind app]. rewrite N.sub_0_r, N.add_0_l.
        destruct (N.leb_spec (n_size n) (lenN (List.concat ws))) as [G|G].
        -- replace (N.min _ _ =? _) with true by lia. rewrite dropN_all by (rewrite lenN_blank; lia). rewrite app_nil_r. reflexivity.
        -- replace (N.min _ _ =? _) with false by lia. reflexivity.
      * intros b w m Sb Lm. apply load_block_file; assumption.
      * intros b w Sb. apply Sb.
  - destruct H as [C (ws & Fs & ->)]. replace (n_size n <? 4096) with true by lia.
    set (bs := 2 ^ c_small_shift c) in *. assert (P1 : 0 < bs) by (apply N.neq_0_lt_0, N.pow_nonzero; lia).
    assert (Fl : Forall (fun w => lenN w = bs) ws).
    { clear - Fs. induction Fs as [|x y l ws H F IH]; constructor; [apply H|exact IH]. }
    destruct (c_minifat c) as [|v t] eqn:Ec.
    { inversion C as [|? ? ? Hb]; subst; [|discriminate]. inversion Fs; subst. 
      destruct Hmini as [K|K]; [contradiction|]. cbn in K. lia. }
    rewrite (proj2 (follow_iff _ _ _ Tm) C). cbn [bind].
    rewrite N.div_0_l, N.mod_0_l, dropN_0 by lia.
    destruct (N.leb_spec (lenN l) 0) as [K|K].
    + assert (l = []) by (destruct l; [reflexivity|rewrite lenN_cons in K; lia]). subst l. inversion Fs; subst. cbn [bind List.concat].
      change (lenN (@nil byte)) with 0. replace (0 =? n_size n) with false by lia. replace (n_size n <=? 0) with false by lia. reflexivity.
    + rewrite (blank_split (n_size n)).
      rewrite (read_loop_ok (small_sector c) _ bs l ws) with (total := 0); try assumption; try reflexivity; try lia;
        try (rewrite lenN_blank; lia).
      * cbn [bind app]. rewrite N.sub_0_r, N.add_0_l.
        destruct (N.leb_spec (n_size n) (lenN (List.concat ws))) as [G|G].
        -- replace (N.min _ _ =? _) with true by lia. rewrite dropN_all by (rewrite lenN_blank; lia). rewrite app_nil_r. reflexivity.
        -- replace (N.min _ _ =? _) with false by lia. reflexivity.
      * intros b w m Sb Lm. eapply small_ok; eassumption.
      * intros b w Sb. apply Sb.
Qed.
