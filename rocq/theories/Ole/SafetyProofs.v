(** What can go wrong: files that are too short, sectors outside the file, endless chains. *)
From Coq Require Import List NArith ZArith Bool Lia.
From Coq Require Import ZifyBool ZifyNat ZifyN.
From Verif Require Import Lib.Res Lib.Bytes Lib.BytesFacts Common.Model Common.Spec Common.Fields
     Common.ReadProofs Common.FieldProofs Ole.Model Ole.Spec Ole.Statements Ole.MemProofs Ole.ChainProofs
     Ole.LoadProofs Ole.DirProofs Ole.StreamProofs Ole.TreeProofs.
Import ListNotations.
Local Open Scope N_scope.
Ltac Zify.zify_post_hook ::= Z.div_mod_to_equations.
Arguments N.pow : simpl never.

(** ** Loading blocks never leaves the buffer *)
Definition got_bytes (f : bytes) (pos p : N) : bytes :=
  let p := if lenN f <? pos + p then subw 64 (lenN f) pos else p in
  if p <? 2 ^ 63 then takeN p (dropN pos f) else [].
Lemma got_len f pos p : lenN (got_bytes f pos p) <= p.
Proof.
  unfold got_bytes. destruct (N.ltb_spec (lenN f) (pos + p)) as [K|K].
  - destruct (_ <? 2 ^ 63); [|cbn; lia]. rewrite lenN_takeN, lenN_dropN. lia.
  - destruct (_ <? 2 ^ 63); [|cbn; lia]. rewrite lenN_takeN. lia.
Qed.
Lemma load_blocks_safe f bs blocks : forall m c maxlen, maxlen <= lenN m ->
  exists m' k, load_blocks f bs blocks m c maxlen = Ok (m', k) /\ lenN m' = lenN m.
Proof.
  induction blocks as [|b r IH]; intros m c maxlen L; cbn [load_blocks]; [eauto|].
  destruct (N.ltb_spec c maxlen) as [K|K]; [|eauto].
  set (p := if bs <? maxlen - c then bs else maxlen - c).
  assert (Hp : p <= maxlen - c) by (unfold p; destruct (N.ltb_spec bs (maxlen - c)); lia).
  pose proof (got_len f (bs * (b + 1)) p) as Lg. unfold got_bytes in Lg. cbv zeta in Lg.
  set (g := if _ <? 2 ^ 63 then _ else _) in *.
  rewrite mstore_ok by (rewrite lenN_map; lia). cbn [bind].
  destruct (IH (takeN c m ++ map Some g ++ dropN (c + lenN (map Some g)) m)
               (u64 (c + (if lenN f <? bs * (b + 1) + p then subw 64 (lenN f) (bs * (b + 1)) else p))) maxlen) as (m' & k & E & Lm').
  { rewrite !lenN_app, lenN_map, lenN_takeN, lenN_dropN. lia. }
  exists m', k. split; [exact E|]. rewrite Lm', !lenN_app, lenN_map, lenN_takeN, lenN_dropN. lia.
Qed.
Lemma loadBigBlocks_safe f bs blocks m maxlen : maxlen <= lenN m ->
  exists m', loadBigBlocks f bs blocks m maxlen = Ok m' /\ lenN m' = lenN m.
Proof.
  intros L. unfold loadBigBlocks. destruct (load_blocks_safe f bs blocks m 0 maxlen L) as (m' & k & E & Lm').
  rewrite E. exists m'. split; [reflexivity|exact Lm'].
Qed.
Lemma loadBigBlock_outside f bs b m : lenN m = bs -> lenN f < 2 ^ 63 -> bs * (b + 1) < 2 ^ 63 -> lenN f <= bs * (b + 1) -> 0 < bs ->
  loadBigBlocks f bs [b] m bs = Ok m.
Proof.
  intros L Lf Lb O P. unfold loadBigBlocks. cbn [load_blocks]. replace (0 <? bs) with true by lia. rewrite N.sub_0_r.
  replace (if bs <? bs then bs else bs) with bs by (destruct (bs <? bs); reflexivity).
  replace (lenN f <? _) with true by lia.
  assert (E : dropN (bs * (b + 1)) f = []) by (apply dropN_all; exact O). rewrite E.
  assert (G : (if subw 64 (lenN f) (bs * (b + 1)) <? 2 ^ 63 then takeN (subw 64 (lenN f) (bs * (b + 1))) [] else []) = @nil byte)
    by (destruct (_ <? _); reflexivity).
  rewrite G. cbn [map]. rewrite mstore_ok by (change (lenN []) with 0; lia). change (lenN []) with 0.
  cbn [bind app]. rewrite N.add_0_r, takeN_dropN. reflexivity.
Qed.

(** ** Streams *)
Definition keeps (bs : N) (load : N -> mem -> res mem) : Prop :=
  forall b m, lenN m = bs -> exists m', load b m = Ok m' /\ lenN m' = bs.
Lemma read_loop_safe load bs : keeps bs load -> forall l buf (done todo : mem) total maxlen off,
  lenN buf = bs -> lenN done = total -> total + lenN todo = maxlen -> off <= bs ->
  exists todo' k, read_loop load bs l buf (done ++ todo) total maxlen off = Ok (done ++ todo', k) /\ lenN todo' = lenN todo.
Proof.
  intros H. induction l as [|b r IH]; intros buf done todo total maxlen off Lb Ld Lt Lo; cbn [read_loop]; [eauto|].
  destruct (N.ltb_spec total maxlen) as [K|K]; [|eauto].
  destruct (H b buf Lb) as (buf' & E & Lb'). rewrite E. cbn [bind].
  set (count := if maxlen - total <? bs - off then maxlen - total else bs - off).
  assert (Hc : count <= bs - off /\ count <= maxlen - total) by (unfold count; destruct (N.ltb_spec (maxlen - total) (bs - off)); lia).
  rewrite mslice_ok by lia. cbn [bind]. set (c := takeN count (dropN off buf')).
  assert (Lc : lenN c = count) by (unfold c; rewrite lenN_takeN, lenN_dropN; lia).
  rewrite mstore_ok by (rewrite lenN_app; lia). cbn [bind]. rewrite Lc.
  rewrite (takeN_app_ge total) by lia. replace (total - lenN done) with 0 by lia. rewrite takeN_0, app_nil_r.
  rewrite (dropN_app_ge _ done) by lia. replace (total + count - lenN done) with count by lia. rewrite app_assoc.
  destruct (IH buf' (done ++ c) (dropN count todo) (total + count) maxlen 0) as (t & k & E' & Lt');
    [exact Lb'|rewrite lenN_app; lia|rewrite lenN_dropN; lia|lia|].
  rewrite E'. exists (c ++ t), k. split; [rewrite <- app_assoc; reflexivity|]. rewrite lenN_app, Lt', lenN_dropN. lia.
Qed.
Lemma valid_sizes h : valid h = true -> 0 < big_size h /\ small_size h <= big_size h /\ 0 < small_size h /\ big_size h <= 1073741824.
Proof.
  intros V. unfold valid in V.
  destruct (negb (threshold h =? 4096)); [discriminate|]. destruct (num_bat h =? 0); [discriminate|].
  destruct (_ && _); [discriminate|].
  destruct (N.ltb_spec (b_shift h) (s_shift h)) as [K1|K1]; [discriminate|]. destruct (b_shift h <=? 6); [discriminate|].
  destruct (N.leb_spec 31 (b_shift h)) as [K2|K2]; [discriminate|].
  unfold big_size, small_size. destruct (pow_shift (b_shift h)) as [P1 P2]; [lia|]. destruct (pow_shift (s_shift h)) as [P3 _]; [lia|].
  repeat split; try assumption. apply N.pow_le_mono_r; lia.
Qed.
Lemma small_keeps s : valid (st_header s) = true -> keeps (small_size (st_header s)) (loadSmallBlock s).
Proof.
  intros V b m Lm. destruct (valid_sizes _ V) as (P1 & P2 & P3 & _). unfold loadSmallBlock. cbn [load_small].
  set (bs := big_size (st_header s)) in *. set (sbs := small_size (st_header s)) in *.
  replace (0 <? bs) with true by lia. destruct (nthN (st_sb s) (b * sbs / bs)) as [big|]; [|exists m; split; [reflexivity|exact Lm]].
  destruct (loadBigBlocks_safe (st_file s) bs [big] (blank bs) bs) as (buf & E & Lb); [rewrite lenN_blank; lia|].
  rewrite lenN_blank in Lb. rewrite E. cbn [bind]. rewrite N.sub_0_r. assert (Bm : b * sbs mod bs < bs) by (apply N.mod_lt; lia).
  set (off := b * sbs mod bs) in *.
  set (p1 := if bs <? bs - off then bs else bs - off). assert (H1 : p1 <= bs - off) by (unfold p1; destruct (N.ltb_spec bs (bs - off)); lia).
  set (p := if sbs <? p1 then sbs else p1). assert (H2 : p <= p1 /\ p <= sbs) by (unfold p; destruct (N.ltb_spec sbs p1); lia).
  rewrite mslice_ok by lia. cbn [bind]. set (c := takeN p (dropN off buf)).
  assert (Lc : lenN c = p) by (unfold c; rewrite lenN_takeN, lenN_dropN; lia).
  rewrite mstore_ok by lia. cbn [bind]. eexists. split; [reflexivity|].
  rewrite takeN_0, lenN_app, lenN_app, lenN_dropN. change (lenN []) with 0. lia.
Qed.
Lemma big_keeps f bs : keeps bs (fun b buf => loadBigBlocks f bs [b] buf bs).
Proof. intros b m L. destruct (loadBigBlocks_safe f bs [b] m bs) as (m' & E & Lm'); [lia|]. exists m'. split; [exact E|lia]. Qed.

Lemma read_all_safe s e : valid (st_header s) = true -> d_size e < 2 ^ 64 ->
  (exists m, read_all s e = Ok m /\ (m = [] \/ lenN m = d_size e)) \/ read_all s e = Fuel.
Proof.
  intros V B. destruct (valid_sizes _ V) as (P1 & P2 & P3 & _). unfold read_all.
  assert (Hb : (exists l, stream_blocks s e = Ok l) \/ stream_blocks s e = Fuel)
    by (unfold stream_blocks; destruct (_ <=? _); apply follow_cases).
  destruct Hb as [[l ->]| ->]; [|right; reflexivity]. left. cbn [bind]. unfold stream_read.
  destruct (N.eqb_spec (d_size e) 0) as [Z0|Z0].
  { rewrite Z0. cbn [bind]. exists []. split; [reflexivity|left; reflexivity]. }
  rewrite N.add_0_l. unfold u64. change (2 ^ 64) with 18446744073709551616 in *. rewrite N.mod_small by lia.
  replace (d_size e <? d_size e) with false by lia.
  destruct (d_size e <? threshold (st_header s)).
  - destruct (_ <=? _); [cbn [bind]; exists []; split; [replace (0 =? d_size e) with false by lia; reflexivity|left; reflexivity]|].
    rewrite N.mod_0_l by lia. change (blank (d_size e)) with ([] ++ blank (d_size e)).
    destruct (read_loop_safe _ _ (small_keeps s V) (dropN (0 / small_size (st_header s)) l) (blank (small_size (st_header s)))
               [] (blank (d_size e)) 0 (d_size e) 0) as (t & k & E & Lt); try (rewrite ?lenN_blank; reflexivity); try (rewrite ?lenN_blank; lia).
    rewrite E. cbn [bind app]. destruct (k =? d_size e); [|exists []; split; [reflexivity|left; reflexivity]].
    exists t. split; [reflexivity|]. right. rewrite Lt. apply lenN_blank.
  - destruct (_ <=? _); [cbn [bind]; exists []; split; [replace (0 =? d_size e) with false by lia; reflexivity|left; reflexivity]|].
    rewrite N.mod_0_l by lia. change (blank (d_size e)) with ([] ++ blank (d_size e)).
    destruct (read_loop_safe _ _ (big_keeps (st_file s) (big_size (st_header s))) (dropN (0 / big_size (st_header s)) l) (blank (big_size (st_header s)))
               [] (blank (d_size e)) 0 (d_size e) 0) as (t & k & E & Lt); try (rewrite ?lenN_blank; reflexivity); try (rewrite ?lenN_blank; lia).
    rewrite E. cbn [bind app]. destruct (k =? d_size e); [|exists []; split; [reflexivity|left; reflexivity]].
    exists t. split; [reflexivity|]. right. rewrite Lt. apply lenN_blank.
Qed.

(** ** Lookup never fails otherwise than by running on *)
Lemma find_sibling_cases pl ds name fuel : forall i,
  (exists k, find_sibling fuel pl ds i name = Ok k) \/ find_sibling fuel pl ds i name = Fuel.
Proof.
  induction fuel as [|fuel IH]; intros i; [right; reflexivity|]. cbn [find_sibling].
  destruct (nthN ds i) as [e|]; [|left; eexists; reflexivity]. destruct (negb _); [left; eexists; reflexivity|].
  destruct (name_compare _ _ _); [left; eexists; reflexivity| |]; (destruct (_ && _); [apply IH|left; eexists; reflexivity]).
Qed.
Lemma find_child_cases pl ds i name : (exists k, find_child pl ds i name = Ok k) \/ find_child pl ds i name = Fuel.
Proof.
  unfold find_child. destruct (nthN ds i); [|left; eexists; reflexivity].
  destruct (_ && _); [apply find_sibling_cases|left; eexists; reflexivity].
Qed.
Lemma walk_cases pl ds names : forall i, (exists k, walk pl ds i names = Ok k) \/ walk pl ds i names = Fuel.
Proof.
  induction names as [|n r IH]; intros i; cbn [walk]; [left; eexists; reflexivity|].
  destruct (find_child_cases pl ds i n) as [[k ->]| ->]; [|right; reflexivity]. cbn [bind].
  destruct (0 <? k); [apply IH|left; eexists; reflexivity].
Qed.
Lemma entry_at_cases pl ds name : (exists k, entry_at pl ds name = Ok k) \/ entry_at pl ds name = Fuel.
Proof.
  unfold entry_at. destruct name as [|c r]; [left; eexists; reflexivity|].
  assert (W : (exists k, (match c =? slash, r with true, [] => Ok (Some 0) | true, _ => walk pl ds 0 (split_path r)
              | false, _ => walk pl ds 0 (split_path (c :: r)) end) = Ok k) \/
              (match c =? slash, r with true, [] => Ok (Some 0) | true, _ => walk pl ds 0 (split_path r)
              | false, _ => walk pl ds 0 (split_path (c :: r)) end) = Fuel).
  { destruct (c =? slash); [destruct r; [left; eexists; reflexivity|apply walk_cases]|apply walk_cases]. }
  destruct W as [[k ->]| ->]; [|right; reflexivity]. cbn [bind]. destruct k; left; eexists; reflexivity.
Qed.
Lemma entry_at_inside pl ds name k : entry_at pl ds name = Ok (Some k) -> k < lenN ds.
Proof.
  unfold entry_at. destruct name as [|c r]; [discriminate|]. match goal with |- bind ?x _ = _ -> _ => destruct x as [[i|]| | |] end; cbn [bind]; try discriminate.
  destruct (N.ltb_spec i (lenN ds)); [|discriminate]. intros E. injection E as <-. assumption.
Qed.

Lemma ReadStream_read pl s name e : open_stream pl s name = Ok (Some e) -> ReadStream pl s name = read_all s e.
Proof. intros H. unfold ReadStream. rewrite H. reflexivity. Qed.
Lemma open_stream_cases pl s name : (exists o, open_stream pl s name = Ok o /\ (forall e, o = Some e -> In e (st_dir s))) \/
  open_stream pl s name = Fuel.
Proof.
  unfold open_stream. destruct (entry_at_cases pl (st_dir s) name) as [[k ->]| ->]; [|right; reflexivity]. left. cbn [bind].
  destruct k as [k|]; [|eexists; split; [reflexivity|discriminate]].
  destruct (nthN (st_dir s) k) as [e|] eqn:E; [|eexists; split; [reflexivity|discriminate]].
  destruct (d_dir e); [eexists; split; [reflexivity|discriminate]|]. eexists. split; [reflexivity|].
  intros e' H. injection H as <-. rewrite nthN_nth_error in E. eapply nth_error_In. exact E.
Qed.
Lemma ReadStream_safe pl s name : valid (st_header s) = true -> Forall (fun e => d_size e < 2 ^ 64) (st_dir s) ->
  (exists m, ReadStream pl s name = Ok m) \/ ReadStream pl s name = Fuel.
Proof.
  intros V F. destruct (open_stream_cases pl s name) as [(o & E & Hin)|E].
  - destruct o as [e|].
    + rewrite (ReadStream_read _ _ _ _ E). rewrite Forall_forall in F.
      destruct (read_all_safe s e V (F e (Hin e eq_refl))) as [(m & H & _)|H]; [left; exists m; exact H|right; exact H].
    + left. exists []. unfold ReadStream. rewrite E. reflexivity.
  - right. unfold ReadStream. rewrite E. reflexivity.
Qed.

(** ** A sector outside the file *)
Definition blank_from (m : mem) (E : N) : Prop := forall i, E <= i -> i < lenN m -> nthN m i = Some None.
Lemma blank_store m E c g : blank_from m E -> c <= E -> c + lenN g <= lenN m ->
  blank_from (takeN c m ++ map Some g ++ dropN (c + lenN g) m) (N.max E (c + lenN g)).
Proof.
  intros B Hc Hl i Hi Li. assert (Lt : lenN (takeN c m) = c) by (rewrite lenN_takeN; lia).
  rewrite !lenN_app, lenN_map, lenN_dropN, Lt in Li.
  rewrite nthN_app2 by lia. rewrite nthN_app2 by (rewrite lenN_map; lia). rewrite lenN_map, Lt, nthN_dropN.
  replace (c + lenN g + (i - c - lenN g)) with i by lia. apply B; lia.
Qed.
Lemma sub_in a b : b <= a -> a < 2 ^ 64 -> subw 64 a b = a - b.
Proof.
  intros H1 H2. unfold subw. rewrite (N.mod_small b) by lia.
  replace (a + 2 ^ 64 - b) with (a - b + 1 * 2 ^ 64) by lia.
  rewrite N.mod_add by discriminate. apply N.mod_small. lia.
Qed.
Lemma sub_wrap a b : a < b -> b < 2 ^ 64 -> subw 64 a b = a + 2 ^ 64 - b.
Proof. intros H1 H2. unfold subw. rewrite (N.mod_small b) by lia. apply N.mod_small. lia. Qed.
Lemma next_count (f : bytes) pos p0 c E maxlen : lenN f < 2 ^ 63 -> pos < 2 ^ 63 -> c < maxlen -> maxlen <= 2 ^ 63 -> p0 <= maxlen - c -> c <= E ->
  let p := if lenN f <? pos + p0 then subw 64 (lenN f) pos else p0 in
  let g := if p <? 2 ^ 63 then takeN p (dropN pos f) else [] in
  u64 (c + p) <= N.max E (c + lenN g) \/ maxlen <= u64 (c + p).
Proof.
  intros Lf Lp Lc Lx Hp Hc p g. unfold u64. change (2 ^ 63) with 9223372036854775808 in *.
  destruct (N.ltb_spec (lenN f) (pos + p0)) as [O|O].
  - destruct (N.le_gt_cases pos (lenN f)) as [I|I].
    + left. assert (Ep : p = lenN f - pos) by (apply sub_in; [exact I|change (2 ^ 64) with 18446744073709551616; lia]).
      clearbody p. subst p. assert (Eg : lenN g = lenN f - pos).
      { unfold g. replace (_ <? _) with true by lia. rewrite lenN_takeN, lenN_dropN. lia. }
      rewrite Eg. change (2 ^ 64) with 18446744073709551616. rewrite N.mod_small by lia. lia.
    + assert (Ep : p = lenN f + 18446744073709551616 - pos) by (apply sub_wrap; [exact I|change (2 ^ 64) with 18446744073709551616; lia]).
      clearbody g. clearbody p. subst p. change (2 ^ 64) with 18446744073709551616.
      destruct (N.le_gt_cases (pos - lenN f) c) as [C|C].
      * left. replace (c + (lenN f + 18446744073709551616 - pos)) with (c - (pos - lenN f) + 1 * 18446744073709551616) by lia.
        rewrite N.mod_add by lia. rewrite N.mod_small by lia. lia.
      * right. rewrite N.mod_small by lia. lia.
  - left. subst p g. change (2 ^ 64) with 18446744073709551616. rewrite N.mod_small by lia.
    replace (p0 <? _) with true by lia. rewrite lenN_takeN, lenN_dropN. lia.
Qed.
Definition outside (f : bytes) (bs b : N) : Prop := lenN f < bs * (b + 1) + bs.
Lemma load_blocks_blank f bs blocks : 0 < bs -> lenN f < 2 ^ 63 -> Forall (fun b => bs * (b + 1) < 2 ^ 63) blocks ->
  forall m c E maxlen m' k, maxlen <= lenN m -> maxlen <= 2 ^ 63 -> blank_from m E -> (c <= E \/ maxlen <= c) ->
  load_blocks f bs blocks m c maxlen = Ok (m', k) ->
  lenN m' = lenN m /\ blank_from m' (E + bs * lenN blocks) /\
  (Exists (outside f bs) blocks -> blank_from m' (E + bs * lenN blocks - 1)).
Proof.
  intros P Lf Fb. induction Fb as [|b r Hb Fb IH]; intros m c E maxlen m' k Lm Lx B Hc H; cbn [load_blocks] in H.
  - injection H as <- _. change (lenN (@nil N)) with 0. rewrite N.mul_0_r, N.add_0_r. split; [reflexivity|]. split; [exact B|].
    intros X. inversion X.
  - rewrite lenN_cons.
    destruct (N.ltb_spec c maxlen) as [K|K].
    + destruct Hc as [Hc|Hc]; [|lia].
      set (p0 := if bs <? maxlen - c then bs else maxlen - c) in *.
      assert (Hp : p0 <= maxlen - c /\ p0 <= bs) by (unfold p0; destruct (N.ltb_spec bs (maxlen - c)); lia).
      set (p := if lenN f <? bs * (b + 1) + p0 then subw 64 (lenN f) (bs * (b + 1)) else p0) in *.
      pose proof (got_len f (bs * (b + 1)) p0) as Lg0. unfold got_bytes in Lg0. cbv zeta in Lg0. fold p in Lg0.
      set (g := if p <? 2 ^ 63 then takeN p (dropN (bs * (b + 1)) f) else []) in *.
      assert (Hout : outside f bs b -> lenN g <= bs - 1).
      { intros O. unfold outside in O. unfold g. clear - O P. destruct (p <? _); [|cbn; lia]. rewrite lenN_takeN, lenN_dropN.
        eapply N.le_trans; [apply N.le_min_r|]. lia. }
      assert (Hnext : u64 (c + p) <= N.max E (c + lenN g) \/ maxlen <= u64 (c + p)).
      { apply (next_count f (bs * (b + 1)) p0 c E maxlen); try assumption; lia. }
      assert (Lg : lenN g <= p0) by exact Lg0. clear Lg0. clearbody g. clearbody p.
      rewrite mstore_ok in H by (rewrite lenN_map; lia). cbn [bind] in H. rewrite lenN_map in H.
      assert (B2 := blank_store m E c g B Hc ltac:(lia)).
      assert (L2 : lenN (takeN c m ++ map Some g ++ dropN (c + lenN g) m) = lenN m)
        by (rewrite !lenN_app, lenN_map, lenN_takeN, lenN_dropN; lia).
      destruct (IH _ _ _ _ _ _ ltac:(rewrite L2; exact Lm) Lx B2 Hnext H) as (L3 & B3 & B4). rewrite L2 in L3.
      split; [exact L3|]. rewrite N.mul_add_distr_l, N.mul_1_r. split.
      * intros i Hi Li. apply B3; [lia|exact Li].
      * intros X i Hi Li. inversion X as [? ? O|? ? O]; subst.
        -- specialize (Hout O). apply B3; [lia|exact Li].
        -- apply (B4 O); [lia|exact Li].
    + injection H as <- _. split; [reflexivity|]. rewrite N.mul_add_distr_l, N.mul_1_r. split.
      * intros i Hi Li. apply B; [lia|exact Li].
      * intros _ i Hi Li. apply B; [lia|exact Li].
Qed.
Lemma blank_all n : blank_from (blank n) 0.
Proof.
  intros i _ Li. rewrite lenN_blank in Li. unfold blank, repeatN. rewrite nthN_nth_error. apply nth_error_repeat. lia.
Qed.
(** The table of a chain with a sector outside the file is never complete. *)
Lemma load_chain_outside f bs blocks : 0 < bs -> lenN f < 2 ^ 63 -> Forall (fun b => bs * (b + 1) < 2 ^ 63) blocks ->
  lenN blocks * bs < 2 ^ 63 -> Exists (outside f bs) blocks ->
  exists m, load_chain f bs blocks = Ok m /\ lenN m = lenN blocks * bs /\ nthN m (lenN blocks * bs - 1) = Some None.
Proof.
  intros P Lf Fb Lb X. unfold load_chain, loadBigBlocks.
  destruct (load_blocks_safe f bs blocks (blank (lenN blocks * bs)) 0 (lenN blocks * bs)) as (m & k & E & Lm); [rewrite lenN_blank; lia|].
  rewrite lenN_blank in Lm. rewrite E. exists m. split; [reflexivity|]. split; [exact Lm|].
  destruct (load_blocks_blank f bs blocks P Lf Fb (blank (lenN blocks * bs)) 0 0 (lenN blocks * bs) m k) as (_ & _ & B);
    [rewrite lenN_blank; lia|lia|apply blank_all|left; lia|exact E|].
  apply (B X); [lia|]. assert (0 < lenN blocks) by (inversion X; rewrite lenN_cons; lia). rewrite Lm. nia.
Qed.
Lemma table_load_blank m len : lenN m = len -> 0 < len -> len mod 4 = 0 -> len / 4 < 2 ^ 32 -> nthN m (len - 1) = Some None ->
  table_load m len = UB.
Proof.
  intros L P D B Nn. unfold table_load. replace (2 ^ 32 <=? len / 4) with false by lia.
  assert (D4 : len = 4 * (len / 4)) by lia.
  replace (N.to_nat (len / 4)) with (S (N.to_nat (len / 4 - 1))) by lia. apply readU32s_ub.
  unfold readU32, mbytes. rewrite mslice_ok by lia. cbn [bind]. rewrite known_none; [reflexivity|].
  assert (Hn : nthN (takeN 4 (dropN (0 + 4 * N.of_nat (N.to_nat (len / 4 - 1))) m)) 3 = Some None).
  { rewrite nthN_takeN by lia. rewrite nthN_dropN, <- Nn. f_equal. lia. }
  rewrite nthN_nth_error in Hn. eapply nth_error_In. exact Hn.
Qed.
