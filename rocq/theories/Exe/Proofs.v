(** Proofs about the executable parsers. *)
From Coq Require Import List NArith ZArith Bool Lia Strings.String.
From Coq Require Import ZifyBool ZifyNat ZifyN.
From Verif Require Import Lib.Res Lib.Bytes Lib.BytesFacts Lib.Text Lib.NumSpec Lib.NumFacts
     Common.Model Common.Spec Common.Fields Common.ReadProofs Common.FieldProofs
     Magic.Model Magic.Spec Magic.GuessProofs Magic.DocProofs Magic.DocBase
     Exe.Tables Exe.Model Exe.Spec.
Import ListNotations.
Local Open Scope N_scope.
Ltac Zify.zify_post_hook ::= Z.div_mod_to_equations.

(** A field of the copy of [size] bytes at [base] is the file's number at [base + off]. *)
Lemma field_at buf base size img off n v :
  slice buf base size = Ok img -> off + n <= size ->
  number_at buf (base + off) n v -> field img off n = v.
Proof.
  intros H Hs (w & W & Hv). pose proof (slice_inv _ _ _ _ H) as (L & E & _).
  apply window_eq in W. destruct W as [W Wl].
  unfold field. rewrite E.
  rewrite takeN_dropN_comm, takeN_takeN, N.min_l by lia.
  rewrite <- takeN_dropN_comm, dropN_dropN. rewrite <- Hv. f_equal. symmetry. exact Wl.
Qed.


(** ** Files of 4 GiB and more are seen modulo 4 GiB *)
Definition visible (content : bytes) : bytes := takeN (lenN content mod 2 ^ 32) content.
Lemma visible_len (content : bytes) : lenN (visible content) = lenN content mod 2 ^ 32.
Proof. unfold visible. rewrite lenN_takeN. lia. Qed.
Lemma visible_lt (content : bytes) : lenN (visible content) < 2 ^ 32.
Proof. rewrite visible_len. lia. Qed.
Lemma visible_small (content : bytes) : lenN content < 2 ^ 32 -> visible content = content.
Proof. intros H. unfold visible. apply takeN_all. lia. Qed.
Lemma readFile_visible (content : bytes) max : readFile (Some content) max = readFile (Some (visible content)) max.
Proof.
  rewrite readFile_exact, (readFile_small (visible content)) by apply visible_lt.
  unfold visible. rewrite takeN_takeN. f_equal. lia.
Qed.
Lemma exec_visible p (content : bytes) : exec_detail p (Some content) = exec_detail p (Some (visible content)).
Proof.
  unfold exec_detail. rewrite <- (readFile_visible content 2048).
  destruct (slice _ 0 DOS_SIZE) as [dos| | |]; try reflexivity. cbn [bind].
  rewrite <- (readFile_visible content _). reflexivity.
Qed.

(** ** PE images *)
Lemma opt_size p : supported p -> OPT_SIZE p = 80 \/ OPT_SIZE p = 76.
Proof. intros [->| ->]; [left|right]; reflexivity. Qed.

Lemma exec_short p (content : bytes) : lenN content mod 2 ^ 32 < 64 -> exec_detail p (Some content) = UB.
Proof.
  intros H. unfold exec_detail. rewrite readFile_exact, slice_ub; [reflexivity|].
  rewrite lenN_takeN. unfold DOS_SIZE. lia.
Qed.

Lemma slice_take buf m off n : off + n <= m -> off + n <= lenN buf ->
  slice (takeN m buf) off n = slice buf off n.
Proof.
  intros H L. rewrite !slice_ok by (try rewrite lenN_takeN; lia). f_equal.
  rewrite takeN_dropN_comm, takeN_takeN, N.min_l by lia. rewrite <- takeN_dropN_comm. reflexivity.
Qed.

Lemma exec_cases p (content : bytes) pe : supported p -> lenN content < 2 ^ 32 -> number_at content 60 4 pe ->
  exec_detail p (Some content) =
    if (pe + 24 <? lenN content) && (pe + 24 + OPT_SIZE p <? 2 ^ 32) then
      coff <- slice content pe 24 ;;
      if pe + 24 + OPT_SIZE p <? N.min 2048 (lenN content) then
        opt <- slice content (pe + 24) (OPT_SIZE p) ;; Ok (with_opt opt (with_coff coff exec_new))
      else Ok (with_coff coff exec_new)
    else Ok exec_new.
Proof.
  intros Hp Hc Hn. pose proof (number_at_len _ _ _ _ Hn) as HL.
  pose proof (number_at_bound _ _ _ _ Hn) as Hb. change (256 ^ 4) with (2 ^ 32) in Hb.
  pose proof (opt_size p Hp) as Ho.
  unfold exec_detail, DOS_SIZE, COFF_SIZE. rewrite !(readFile_small content) by exact Hc.
  destruct (slice (takeN 2048 content) 0 64) as [dos| | |] eqn:Ed.
  2-4: rewrite slice_ok in Ed by (rewrite lenN_takeN; lia); discriminate.
  cbn [bind].
  rewrite (field_at _ _ _ _ 60 4 pe Ed) by first [lia | apply number_at_take; [exact Hn|lia]].
  cbv zeta. rewrite lenN_takeN.
  set (o := OPT_SIZE p) in *. clearbody o.
  destruct (N.ltb_spec (pe + 24 + o) (2 ^ 32)) as [Hw|Hw].
  - rewrite (u32_small (pe + 24 + o)) by lia. rewrite andb_true_r.
    destruct (N.ltb_spec (N.min 2048 (lenN content)) (pe + 24 + o)) as [Hs|Hs].
    + rewrite (readFile_small content) by exact Hc. rewrite lenN_takeN.
      destruct (N.ltb_spec (pe + 24) (N.min (pe + 24 + o) (lenN content))) as [H1|H1];
        destruct (N.ltb_spec (pe + 24) (lenN content)) as [H2|H2]; try lia; try reflexivity.
      rewrite slice_take by lia.
      destruct (slice content pe 24) as [coff| | |]; try reflexivity. cbn [bind].
      destruct (N.ltb_spec (pe + 24 + o) (N.min (pe + 24 + o) (lenN content))); [lia|].
      destruct (N.ltb_spec (pe + 24 + o) (N.min 2048 (lenN content))); [lia|]. reflexivity.
    + rewrite lenN_takeN.
      destruct (N.ltb_spec (pe + 24) (N.min 2048 (lenN content))) as [H1|H1]; [|lia].
      destruct (N.ltb_spec (pe + 24) (lenN content)) as [H2|H2]; [|lia].
      rewrite slice_take by lia.
      destruct (slice content pe 24) as [coff| | |]; try reflexivity. cbn [bind].
      destruct (N.ltb_spec (pe + 24 + o) (N.min 2048 (lenN content))); [|reflexivity].
      rewrite slice_take by lia. reflexivity.
  - rewrite andb_false_r.
    match goal with |- (if ?c then _ else _) = _ => replace c with false end; [reflexivity|].
    symmetry. apply N.ltb_ge.
    assert (Hu : u32 (pe + 24 + o) = pe + 24 + o - 2 ^ 32) by (unfold u32; lia).
    rewrite Hu.
    destruct (N.ltb_spec (N.min 2048 (lenN content)) (pe + 24 + o - 2 ^ 32)).
    + rewrite (readFile_small content) by exact Hc. rewrite lenN_takeN. lia.
    + rewrite lenN_takeN. lia.
Qed.

Lemma land_pow2_testbit v k : (negb (N.land v (2 ^ k) =? 0)) = N.testbit v k.
Proof.
  destruct (N.testbit v k) eqn:E.
  - apply negb_true_iff, N.eqb_neq. intros H.
    assert (N.testbit (N.land v (2 ^ k)) k = false) by (rewrite H; apply N.bits_0).
    rewrite N.land_spec, E, N.pow2_bits_true in H0. discriminate.
  - apply negb_false_iff, N.eqb_eq. apply N.bits_inj. intros j. rewrite N.land_spec, N.bits_0.
    destruct (N.eqb_spec j k) as [J|J]; [subst j; rewrite E; reflexivity|].
    rewrite N.pow2_bits_false by congruence. apply andb_false_r.
Qed.

Lemma coff_kind coff i : x_base i = exec_base (B "exe") (B "Executable") ->
  x_base (with_coff coff i) =
    mkExt (fst (pe_kind (field coff 22 2))) [] [] 0 (snd (pe_kind (field coff 22 2))).
Proof.
  intros Hi. unfold with_coff. cbv zeta. cbn [x_base].
  change 8192 with (2 ^ 13). change 4096 with (2 ^ 12). rewrite !land_pow2_testbit, Hi.
  unfold pe_kind, exec_base. destruct (N.testbit _ 12); [reflexivity|].
  destruct (N.testbit _ 13); reflexivity.
Qed.

Lemma exec_kind p (content : bytes) pe ch : supported p -> lenN content < 2 ^ 32 ->
  number_at content 60 4 pe -> number_at content (pe + 22) 2 ch ->
  pe + 24 < lenN content -> pe + 24 + OPT_SIZE p < 2 ^ 32 ->
  exec_Detailer p (Some content) =
    Ok [plain_result (mkExt (fst (pe_kind ch)) [] [] 0 (snd (pe_kind ch)))].
Proof.
  intros Hp Hc Hn Hch Hl Hw. unfold exec_Detailer.
  rewrite (exec_cases p content pe Hp Hc Hn).
  destruct (N.ltb_spec (pe + 24) (lenN content)); [|lia].
  destruct (N.ltb_spec (pe + 24 + OPT_SIZE p) (2 ^ 32)); [|lia]. cbn [andb].
  destruct (slice content pe 24) as [coff| | |] eqn:Ec.
  2-4: rewrite slice_ok in Ec by lia; discriminate.
  cbn [bind].
  assert (K : x_base (with_coff coff exec_new) =
              mkExt (fst (pe_kind ch)) [] [] 0 (snd (pe_kind ch))).
  { rewrite coff_kind by reflexivity. rewrite (field_at _ _ _ _ 22 2 ch Ec) by first [lia|exact Hch]. reflexivity. }
  destruct (N.ltb_spec (pe + 24 + OPT_SIZE p) (N.min 2048 (lenN content))).
  - rewrite slice_ok by lia. cbn [bind]. unfold exec_result. cbn [with_opt x_base]. rewrite K. reflexivity.
  - cbn [bind]. unfold exec_result. rewrite K. reflexivity.
Qed.

Lemma exec_no_header p (content : bytes) pe : supported p -> lenN content < 2 ^ 32 ->
  number_at content 60 4 pe -> lenN content <= pe + 24 ->
  exec_Detailer p (Some content) = Ok [plain_result (mkExt (B "exe") [] [] 0 (B "Executable"))].
Proof.
  intros Hp Hc Hn Hl. unfold exec_Detailer. rewrite (exec_cases p content pe Hp Hc Hn).
  destruct (N.ltb_spec (pe + 24) (lenN content)); [lia|]. reflexivity.
Qed.

Lemma exec_detail_ok p (content : bytes) : supported p -> 64 <= lenN content mod 2 ^ 32 ->
  exists i, exec_detail p (Some content) = Ok i.
Proof.
  intros Hp H. pose proof (visible_len content) as E.
  pose proof (exec_visible p content) as X. rewrite X. clear X.
  remember (visible content) as v eqn:V. clear V.
  destruct (number_at_ex v 60 4) as (pe & Hpe); [lia|].
  rewrite (exec_cases p v pe Hp) by first [exact Hpe | rewrite E; lia].
  destruct (N.ltb_spec (pe + 24) (lenN v)); [|eexists; reflexivity].
  destruct (N.ltb_spec (pe + 24 + OPT_SIZE p) (2 ^ 32)); cbn [andb]; [|eexists; reflexivity].
  rewrite slice_ok by lia. cbn [bind].
  destruct (N.ltb_spec (pe + 24 + OPT_SIZE p) (N.min 2048 (lenN v))); [|eexists; reflexivity].
  rewrite slice_ok by lia. cbn [bind]. eexists; reflexivity.
Qed.

(** The four bytes at the PE header's start play no part. *)
Lemma exec_signature_ignored p (a s s' b : bytes) pe : supported p ->
  lenN (a ++ s ++ b) < 2 ^ 32 -> lenN a = pe -> lenN s = 4 -> lenN s' = 4 -> number_at a 60 4 pe ->
  exec_detail p (Some (a ++ s ++ b)) = exec_detail p (Some (a ++ s' ++ b)).
Proof.
  intros Hp Hc Ha Hs Hs' Hn.
  assert (Hl : lenN (a ++ s' ++ b) = lenN (a ++ s ++ b)) by (rewrite !lenN_app in *; lia).
  assert (N1 : forall t, number_at (a ++ t) 60 4 pe).
  { intros t. destruct Hn as (w & [L (x & y & E & P)] & V). exists w. split; [|exact V]. split; [exact L|].
    exists x, (y ++ t). split; [|exact P]. rewrite E, <- !app_assoc. reflexivity. }
  etransitivity; [exact (exec_cases p _ pe Hp Hc (N1 _))|].
  assert (Hc' : lenN (a ++ s' ++ b) < 2 ^ 32) by lia.
  symmetry. etransitivity; [exact (exec_cases p _ pe Hp Hc' (N1 _))|]. symmetry.
  rewrite Hl. rewrite !lenN_app in *.
  destruct (N.ltb_spec (pe + 24) (lenN a + (lenN s + lenN b))); [|reflexivity].
  destruct (N.ltb_spec (pe + 24 + OPT_SIZE p) (2 ^ 32)); cbn [andb]; [|reflexivity].
  rewrite (slice_ok (a ++ s ++ b)) by (rewrite !lenN_app; lia).
  rewrite (slice_ok (a ++ s' ++ b)) by (rewrite !lenN_app; lia). cbn [bind].
  assert (D : forall t k, dropN (pe + k) (a ++ t) = dropN k t).
  { intros t k. rewrite <- dropN_dropN, <- Ha, dropN_app_exact. reflexivity. }
  pose proof (D (s ++ b) 0) as D0. rewrite dropN_0, N.add_0_r in D0.
  pose proof (D (s' ++ b) 0) as D0'. rewrite dropN_0, N.add_0_r in D0'.
  rewrite D0, D0'.
  assert (W : with_coff (takeN 24 (s ++ b)) exec_new = with_coff (takeN 24 (s' ++ b)) exec_new).
  { assert (F : forall off n, 4 <= off -> off + n <= 24 ->
              field (takeN 24 (s ++ b)) off n = field (takeN 24 (s' ++ b)) off n).
    { intros off n H1 H2. unfold field. f_equal.
      rewrite !takeN_dropN_comm, !takeN_takeN, !N.min_l by lia. rewrite <- !takeN_dropN_comm. f_equal.
      replace off with (4 + (off - 4)) by lia. rewrite <- !dropN_dropN.
      rewrite (dropN_app_len s b 4 Hs), (dropN_app_len s' b 4 Hs'). reflexivity. }
    unfold with_coff. rewrite !F by lia. reflexivity. }
  rewrite W.
  destruct (N.ltb_spec (pe + 24 + OPT_SIZE p) (N.min 2048 (lenN a + (lenN s + lenN b)))); [|reflexivity].
  pose proof (opt_size p Hp).
  rewrite (slice_ok (a ++ s ++ b)) by (rewrite !lenN_app; lia).
  rewrite (slice_ok (a ++ s' ++ b)) by (rewrite !lenN_app; lia). cbn [bind]. do 2 f_equal. f_equal.
  rewrite !D. replace 24 with (4 + 20) by lia. rewrite <- !dropN_dropN.
  rewrite (dropN_app_len s b 4 Hs), (dropN_app_len s' b 4 Hs'). reflexivity.
Qed.

(** ** Names from tables *)
Definition distinct_keys {A} (rows : list (N * A)) : bool :=
  (fix go l := match l with
   | [] => true
   | (k, _) :: t => negb (existsb (fun e => fst e =? k) t) && go t
   end) rows.

Lemma lookup_in {A} (rows : list (N * A)) k v : lookup rows k = Some v -> In (k, v) rows.
Proof.
  induction rows as [|[k' v'] t IH]; [discriminate|]. cbn [lookup].
  destruct (N.eqb_spec k k') as [E|E]; intros H.
  - inversion H; subst. left. reflexivity.
  - right. apply IH, H.
Qed.
Lemma lookup_none {A} (rows : list (N * A)) k v : lookup rows k = None -> ~ In (k, v) rows.
Proof.
  induction rows as [|[k' v'] t IH]; [intros _ []|]. cbn [lookup].
  destruct (N.eqb_spec k k') as [E|E]; [discriminate|]. intros H [H1|H1]; [congruence|].
  exact (IH H H1).
Qed.
Lemma lookup_named rows k : named rows k (switch rows k).
Proof.
  unfold switch. destruct (lookup rows k) eqn:E.
  - left. apply lookup_in, E.
  - right. split; [reflexivity|]. intros n. apply lookup_none, E.
Qed.
Lemma lookup_complete {A} (rows : list (N * A)) k v :
  distinct_keys rows = true -> In (k, v) rows -> lookup rows k = Some v.
Proof.
  induction rows as [|[k' v'] t IH]; [intros _ []|]. cbn [lookup distinct_keys].
  intros [H1 H2]%andb_true_iff [H|H].
  - inversion H; subst. rewrite N.eqb_refl. reflexivity.
  - destruct (N.eqb_spec k k') as [E|E]; [|apply IH; assumption].
    exfalso. apply negb_true_iff in H1. apply Bool.not_true_iff_false in H1. apply H1.
    apply existsb_exists. exists (k, v). split; [exact H|]. subst. cbn. apply N.eqb_refl.
Qed.
Lemma named_switch rows k name : distinct_keys rows = true -> named rows k name -> switch rows k = name.
Proof.
  intros D [H|[H1 H2]]; unfold switch.
  - rewrite (lookup_complete _ _ _ D H). reflexivity.
  - destruct (lookup rows k) eqn:E; [|congruence]. exfalso. apply (H2 b). apply lookup_in, E.
Qed.

Definition masks (rows : list (N * bytes)) : bool :=
  forallb (fun e => existsb (fun k => fst e =? 2 ^ k) (map N.of_nat (seq 0 32))) rows.
Lemma flags_spec rows v : masks rows = true -> flag_names rows v (BuildVectorFromMap rows v).
Proof.
  intros M. exists (filter (fun e => negb (N.land (fst e) v =? 0)) rows). split; [|reflexivity].
  induction rows as [|[m n] t IH]; [constructor|].
  cbn [masks forallb] in M. apply andb_true_iff in M. destruct M as [M1 M2].
  apply existsb_exists in M1. destruct M1 as (k & _ & Hk). apply N.eqb_eq in Hk. cbn [fst] in Hk.
  cbn [filter fst]. rewrite N.land_comm, Hk, land_pow2_testbit.
  destruct (N.testbit v k) eqn:T.
  - apply pk_in; [exists k; auto|apply IH, M2].
  - apply pk_out; [|apply IH, M2]. intros (k' & E & T'). cbn [fst] in E.
    apply N.pow_inj_r in E; [|lia]. congruence.
Qed.

(** ** Mach-O *)
Lemma macho_short (content : bytes) : lenN content mod 2 ^ 32 < 28 -> macho_detail (Some content) = UB.
Proof.
  intros H. unfold macho_detail. rewrite readFile_exact, slice_ub; [reflexivity|].
  rewrite lenN_takeN. lia.
Qed.

Lemma macho_fields (content : bytes) i : lenN content < 2 ^ 32 -> macho_detail (Some content) = Ok i ->
  exists magic cpu sub ncmds size,
    number_at content 0 4 magic /\ number_at content 4 4 cpu /\ number_at content 8 4 sub /\
    number_at content 16 4 ncmds /\ number_at content 20 4 size /\
    i = mkMachO (mkExt (B "o") [] [] (u16 magic) (int_to_hex 4 magic))
                (cpuType2String cpu) (cpuSubType2String cpu sub) [] ncmds size [].
Proof.
  intros Hc. unfold macho_detail. rewrite readFile_small by exact Hc.
  destruct (slice (takeN 2048 content) 0 28) as [h| | |] eqn:E; try discriminate. cbn [bind].
  intros H. inversion H; subst i; clear H.
  pose proof (slice_inv _ _ _ _ E) as (L & _ & _). rewrite lenN_takeN in L.
  assert (F : forall off, off + 4 <= 28 -> number_at content off 4 (field h off 4)).
  { intros off Ho. destruct (number_at_ex content off 4) as (v & Hv); [lia|].
    rewrite (field_at _ _ _ _ off 4 v E); [exact Hv|exact Ho|].
    apply number_at_take; [exact Hv|lia]. }
  exists (field h 0 4), (field h 4 4), (field h 8 4), (field h 16 4), (field h 20 4).
  repeat (split; [apply F; lia|]). reflexivity.
Qed.

Lemma macho_ok (content : bytes) : 28 <= lenN content mod 2 ^ 32 -> exists i, macho_detail (Some content) = Ok i.
Proof.
  intros H. unfold macho_detail. rewrite readFile_exact, slice_ok.
  - eexists; reflexivity.
  - rewrite lenN_takeN. lia.
Qed.

Lemma subtype_spec t k : k < 2 ^ 32 -> subtype_named cpusubtype_names t k (cpuSubType2String t k).
Proof.
  intros Hk. unfold cpuSubType2String.
  assert (U : (forall r n, In (t, r) cpusubtype_names -> ~ In (k, n) r) ->
    subtype_named cpusubtype_names t k (B "UNKNOWN" ++ B " (" ++ int_to_hex 4 k ++ B ")")).
  { intros H. right. split; [exact H|]. exists (pad0 8 (hex k)). repeat split.
    - apply length_pad0_hex; [exact Hk|lia].
    - apply hex_num_pad0. }
  destruct (lookup cpusubtype_names t) as [rows|] eqn:E.
  - destruct (lookup rows k) as [v|] eqn:Ev.
    + destruct (bytes_eqb v (B "UNKNOWN")) eqn:Eb.
      * exfalso. apply bytes_eqb_eq in Eb. subst v. apply lookup_in in E, Ev.
        assert (K : forallb (fun e => forallb (fun x => negb (bytes_eqb (snd x) (B "UNKNOWN"))) (snd e))
                            cpusubtype_names = true) by (vm_compute; reflexivity).
        rewrite forallb_forall in K. specialize (K _ E). cbn [snd] in K.
        rewrite forallb_forall in K. specialize (K _ Ev). discriminate K.
      * left. exists rows. split; [apply lookup_in, E|apply lookup_in, Ev].
    + change (bytes_eqb (B "UNKNOWN") (B "UNKNOWN")) with true. cbv iota. apply U.
      intros r n Hr. assert (D : distinct_keys cpusubtype_names = true) by (vm_compute; reflexivity).
      pose proof (lookup_complete _ _ _ D Hr) as Hl. rewrite E in Hl. inversion Hl; subst.
      apply lookup_none, Ev.
  - change (bytes_eqb (B "UNKNOWN") (B "UNKNOWN")) with true. cbv iota. apply U.
    intros r n Hr. exfalso. exact (lookup_none _ _ _ E Hr).
Qed.

Lemma cputype_plain t : plain (cpuType2String t) = true.
Proof.
  unfold cpuType2String, switch. destruct (lookup cputype_names t) eqn:E; [|reflexivity].
  apply lookup_in in E.
  assert (K : forallb (fun e => plain (snd e)) cputype_names = true) by (vm_compute; reflexivity).
  rewrite forallb_forall in K. exact (K _ E).
Qed.

Lemma subtype_plain t k : plain (cpuSubType2String t k) = true /\ cpuSubType2String t k <> [].
Proof.
  unfold cpuSubType2String.
  set (ans := match lookup cpusubtype_names t with Some _ => _ | None => _ end).
  assert (H : plain ans = true /\ ans <> []).
  { subst ans. destruct (lookup cpusubtype_names t) as [rows|] eqn:E; [|split; [reflexivity|discriminate]].
    destruct (lookup rows k) as [v|] eqn:Ev; [|split; [reflexivity|discriminate]].
    apply lookup_in in E, Ev.
    assert (K : forallb (fun e => forallb (fun x => plain (snd x) && nonempty (snd x)) (snd e))
                        cpusubtype_names = true) by (vm_compute; reflexivity).
    rewrite forallb_forall in K. specialize (K _ E). cbn [snd] in K.
    rewrite forallb_forall in K. specialize (K _ Ev). cbn [snd] in K.
    apply andb_true_iff in K. destruct K as [K1 K2]. split; [exact K1|]. destruct v; discriminate. }
  destruct H as [H1 H2]. destruct (bytes_eqb ans (B "UNKNOWN")); [|auto].
  split.
  - rewrite !plain_app, H1, int_to_hex_plain. reflexivity.
  - destruct ans; [congruence|discriminate].
Qed.

Lemma nonempty_true s : s <> [] -> nonempty s = true.
Proof. destruct s; [congruence|reflexivity]. Qed.

Lemma macho_json magic cpu sub ncmds size :
  json_value (macho_ToJson (mkMachO (mkExt (B "o") [] [] (u16 magic) (int_to_hex 4 magic))
                 (cpuType2String cpu) (cpuSubType2String cpu sub) [] ncmds size []))
    (JObj (macho_members (int_to_hex 4 magic) (cpuType2String cpu) (cpuSubType2String cpu sub)
                         (dec ncmds) (dec size))).
Proof.
  unfold macho_ToJson, macho_opt_member. cbn [m_base m_CpuType m_CpuSubType m_FileType
    m_NumberLoadCommands m_SizeLoadCommands m_Flags Extension VersionName].
  destruct (subtype_plain cpu sub) as [S1 S2]. rewrite (nonempty_true _ S2).
  pose proof (cputype_plain cpu) as C1.
  set (c := cpuType2String cpu) in *. set (s := cpuSubType2String cpu sub) in *.
  set (h := int_to_hex 4 magic). cbn [nonempty app].
  unfold macho_members. rewrite optional_if.
  replace ([jfield (B "extension") (B "o"); jfield (B "name") h] ++
           (if nonempty c then [jfield (B "CpuType") c] else []) ++
           [jfield (B "CpuSubType") s; jfield (B "NumberLoadCommands") (dec ncmds);
            jfield (B "SizeLoadCommands") (dec size)])
    with (((((([jfield (B "extension") (B "o")] ++ [jfield (B "name") h]) ++
           (if nonempty c then [jfield (B "CpuType") c] else [])) ++
           [jfield (B "CpuSubType") s]) ++ [jfield (B "NumberLoadCommands") (dec ncmds)]) ++
            [jfield (B "SizeLoadCommands") (dec size)]))
    by (destruct (nonempty c); reflexivity).
  assert (T : forall k v, jplain k = true -> plain v = true -> json_members
            (q ++ k ++ q ++ B " : " ++ q ++ v ++ q) [jfield k v]).
  { intros k v Hk Hv. apply (member_plain k v [x20] [x20]); auto using ws_space. }
  assert (A : forall t m k v, json_members t m -> jplain k = true -> plain v = true ->
            json_members (t ++ macho_member k v) (m ++ [jfield k v])).
  { intros t m k v H Hk Hv. unfold macho_member. change (B ", ") with (comma :: [x20]).
    apply (members_app t m); [exact H|]. apply (members_ws [x20]); [apply ws_space|]. apply T; assumption. }
  assert (J : json_members
    (((((((q ++ B "extension" ++ q ++ B " : " ++ q ++ B "o" ++ q) ++ macho_member (B "name") h) ++
      (if nonempty c then macho_member (B "CpuType") c else [])) ++
      macho_member (B "CpuSubType") s) ++
      macho_member (B "NumberLoadCommands") (dec ncmds)) ++
      macho_member (B "SizeLoadCommands") (dec size)))
    (((((([jfield (B "extension") (B "o")] ++ [jfield (B "name") h]) ++
           (if nonempty c then [jfield (B "CpuType") c] else [])) ++
           [jfield (B "CpuSubType") s]) ++ [jfield (B "NumberLoadCommands") (dec ncmds)]) ++
            [jfield (B "SizeLoadCommands") (dec size)]))).
  { apply A; [|reflexivity|apply dec_plain]. apply A; [|reflexivity|apply dec_plain].
    apply A; [|reflexivity|exact S1].
    assert (J0 : json_members ((q ++ B "extension" ++ q ++ B " : " ++ q ++ B "o" ++ q) ++ macho_member (B "name") h)
       ([jfield (B "extension") (B "o")] ++ [jfield (B "name") h])).
    { apply A; [|reflexivity|apply int_to_hex_plain]. apply T; reflexivity. }
    destruct (nonempty c); [|rewrite !app_nil_r; exact J0]. apply A; [exact J0|reflexivity|exact C1]. }
  apply jv_obj in J. change (B "{") with [x7b]. change (B "}") with [x7d].
  cbn [app] in J |- *. repeat (rewrite <- app_assoc in J; cbn [app] in J).
  repeat (rewrite <- app_assoc; cbn [app]). exact J.
Qed.

Lemma macho_xml magic cpu sub ncmds size :
  xml_document (macho_ToXml (mkMachO (mkExt (B "o") [] [] (u16 magic) (int_to_hex 4 magic))
                 (cpuType2String cpu) (cpuSubType2String cpu sub) [] ncmds size []))
    (XElem (B "item") (macho_children (if u16 magic =? 0 then [] else dec (u16 magic))
                         (int_to_hex 4 magic) (cpuType2String cpu) (cpuSubType2String cpu sub)
                         (dec ncmds) (dec size))).
Proof.
  unfold xml_document, macho_ToXml, macho_opt_element. cbn [m_base m_CpuType m_CpuSubType m_FileType
    m_NumberLoadCommands m_SizeLoadCommands m_Flags].
  destruct (subtype_plain cpu sub) as [S1 S2]. rewrite (nonempty_true _ S2).
  pose proof (cputype_plain cpu) as C1. pose proof (int_to_hex_plain 4 magic) as H1.
  assert (H2 : int_to_hex 4 magic <> []) by discriminate.
  set (c := cpuType2String cpu) in *. set (s := cpuSubType2String cpu sub) in *.
  set (h := int_to_hex 4 magic) in *. clearbody h c s. cbn [nonempty app].
  set (e := mkExt (B "o") [] [] (u16 magic) h).
  assert (E : base_elements e = [xfield (B "extension") (B "o")] ++
     optional (if u16 magic =? 0 then [] else dec (u16 magic))
              (xfield (B "version") (if u16 magic =? 0 then [] else dec (u16 magic))) ++
     [xfield (B "versionname") h]).
  { unfold base_elements. subst e. cbn [Extension Name SubType Version VersionName optional app].
    do 2 f_equal.
    - destruct (u16 magic =? 0); [reflexivity|]. rewrite optional_if, nonempty_true by apply dec_nonempty.
      reflexivity.
    - rewrite optional_if, nonempty_true by exact H2. reflexivity. }
  change (B "<item>" ++ ?b ++ B "</item>") with (B "<item>" ++ b ++ B "</item>").
  match goal with |- xml_content (_ ++ buildBaseXml e ++ ?r1 ++ ?r2 ++ ?r3 ++ ?r4 ++ B "</item>") _ =>
    replace (B "<item>" ++ buildBaseXml e ++ r1 ++ r2 ++ r3 ++ r4 ++ B "</item>")
      with (xelem (B "item") (buildBaseXml e ++ r1 ++ r2 ++ r3 ++ r4 ++ []) ++ [])
      by (unfold xelem; rewrite !app_nil_r; flat) end.
  apply elem_cons; [apply letters_name; reflexivity| |constructor].
  unfold macho_children.
  replace ([xfield (B "extension") (B "o")] ++
     optional (if u16 magic =? 0 then [] else dec (u16 magic))
              (xfield (B "version") (if u16 magic =? 0 then [] else dec (u16 magic))) ++
     [xfield (B "versionname") h] ++ optional c (xfield (B "CpuType") c) ++
     [xfield (B "CpuSubType") s; xfield (B "NumberLoadCommands") (dec ncmds);
      xfield (B "SizeLoadCommands") (dec size)])
    with (base_elements e ++ optional c (xfield (B "CpuType") c) ++
     [xfield (B "CpuSubType") s; xfield (B "NumberLoadCommands") (dec ncmds);
      xfield (B "SizeLoadCommands") (dec size)])
    by (rewrite E, <- !app_assoc; reflexivity).
  apply base_xml.
  { subst e. unfold info_plain. cbn [Extension Name SubType VersionName]. rewrite H1. reflexivity. }
  rewrite optional_if.
  assert (M : forall k v, macho_element k v = xelem k v) by reflexivity.
  rewrite !M. apply field_opt; [reflexivity|exact C1|].
  apply field_cons; [reflexivity|exact S1|].
  apply field_cons; [reflexivity|apply dec_plain|].
  apply field_cons; [reflexivity|apply dec_plain|]. constructor.
Qed.
