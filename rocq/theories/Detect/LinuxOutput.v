(** On Linux the paths do not convert to UTF-8. *)
From Coq Require Import List NArith ZArith Lia Bool Strings.String ZifyBool ZifyNat ZifyN.
From Verif Require Import Lib.Res Lib.Bytes Lib.BytesFacts Lib.Text Common.Model Common.Spec Common.Fields Common.Utf8 Common.Utf8Proofs Common.FieldProofs Common.ReadProofs Ole.MemProofs Ole.ChainProofs Ole.LoadProofs Ole.Model Ole.Spec Ole.Statements
     Ole.DirProofs Ole.TreeProofs Ole.OutcomeProofs Ole.SafetyProofs Ole.PropertyLemmas Vba.Analyze Vba.FileSpec Docs.Model Magic.Model
     Detect.Model Detect.Output Detect.Spec Detect.Statements Detect.TreeProofs Detect.LinuxProofs Detect.OutputProofs.
Import ListNotations.
Local Open Scope N_scope.
Arguments N.pow : simpl never.

(** ** Paths are kept *)
Section Paths.
Variables (pl : platform) (excel : bytes -> res workbook) (rows : list OlessInfo) (s : storage).

Lemma guess_paths name full t t' : guessStreamInfo pl excel rows s name full t = Ok t' -> st_paths t' = st_paths t.
Proof.
  unfold guessStreamInfo. destruct (isDirectory pl s full) as [[]| | |]; cbn [bind]; try discriminate.
  - destruct (vba_storage name full); [|intros H; injection H as <-; reflexivity].
    destruct (Analyze pl full s); try discriminate; intros H; injection H as <-; reflexivity.
  - destruct (property_stream name).
    + destruct (parse_stream pl s full) as [?|[]| |]; try discriminate; intros H; injection H as <-; reflexivity.
    + destruct (guess_rows pl excel s rows full None) as [[r|]| | |]; cbn [bind]; try discriminate; intros H; injection H as <-; reflexivity.
Qed.
Lemma visit_paths next path : (forall p t t', next p t = Ok t' -> incl (st_paths t) (st_paths t') /\ In p (st_paths t')) ->
  forall names t t', visit_all pl excel rows s next path names t = Ok t' ->
  incl (st_paths t) (st_paths t') /\
  Forall (fun x => In (path ++ x) (st_paths t') \/ In ((path ++ x) ++ [slash]) (st_paths t')) names.
Proof.
  intros Hn. induction names as [|x names IH]; intros t t'; cbn [visit_all]; [intros H; injection H as <-; split; [apply incl_refl|constructor]|].
  destruct (guessStreamInfo pl excel rows s x (path ++ x) t) as [t1| | |] eqn:E1; cbn [bind]; try discriminate.
  destruct (isDirectory pl s (path ++ x)) as [[]| | |]; cbn [bind]; try discriminate.
  - destruct (next ((path ++ x) ++ [slash]) t1) as [t2| | |] eqn:E2; cbn [bind]; try discriminate. intros H.
    destruct (IH _ _ H) as [I F]. destruct (Hn _ _ _ E2) as [I2 P2]. rewrite (guess_paths _ _ _ _ E1) in I2. split; [eapply incl_tran; eassumption|].
    constructor; [right; apply I; exact P2|exact F].
  - intros H. destruct (IH _ _ H) as [I F]. pose proof (guess_paths _ _ _ _ E1) as E. cbn [push_path st_paths] in I. rewrite E in I. split.
    + intros p Ip. apply I. apply in_or_app. left. exact Ip.
    + constructor; [left; apply I; apply in_or_app; right; left; reflexivity|exact F].
Qed.
Lemma recurse_paths fuel : forall path t t', recurse pl excel rows s fuel path t = Ok t' -> incl (st_paths t) (st_paths t') /\ In path (st_paths t').
Proof.
  induction fuel as [|fuel IH]; intros path t t'; [discriminate|]. rewrite recurse_step. destruct (storage_entries pl s path) as [ns| | |]; cbn [bind]; try discriminate.
  intros H. destruct (visit_paths _ _ (IH) _ _ _ H) as [I _]. cbn [push_path st_paths] in I. split.
  - intros p Ip. apply I. apply in_or_app. left. exact Ip.
  - apply I. apply in_or_app. right. left. reflexivity.
Qed.
Lemma member_paths fuel path t t' ns : recurse pl excel rows s fuel path t = Ok t' -> storage_entries pl s path = Ok ns ->
  Forall (fun x => In (path ++ x) (st_paths t') \/ In ((path ++ x) ++ [slash]) (st_paths t')) ns.
Proof.
  destruct fuel as [|fuel]; [discriminate|]. rewrite recurse_step. intros H E. rewrite E in H. cbn [bind] in H.
  apply (visit_paths _ _ (recurse_paths fuel) _ _ _ H).
Qed.
End Paths.

(** ** The first character of a name *)
Lemma first_char n w e u0 u1 r : node_bytes n w -> Ole.Statements.named linux64 n w e -> n_name n = u0 :: u1 :: r -> u0 mod 256 <> 0 ->
  exists l, d_name e = u0 + 65536 * u1 :: l.
Proof.
  intros (Lw & Hname & _) (K & F & W) En Z. cbn [sizeof_wchar linux64] in *.
  destruct Hname as [(_ & En' & _)|(Ln & Fn & Wn & _ & _)]; [rewrite En in En'; discriminate En'|].
  assert (L1 : 1 <= lenN (visible (n_name n))) by (rewrite En; cbn [visible]; destruct (N.eqb_spec (u0 mod 256) 0); [contradiction|rewrite lenN_cons; lia]).
  assert (L2 : 2 <= lenN (n_name n)) by (rewrite En, !lenN_cons; lia).
  destruct (d_name e) as [|c l] eqn:Ed; [cbn in K; lia|]. exists l. f_equal.
  apply window0 in W. apply window0 in Wn.
  assert (E4 : to_le 4 c = to_le 2 u0 ++ to_le 2 u1).
  { apply (f_equal (takeN 4)) in W. apply (f_equal (takeN 4)) in Wn. rewrite takeN_takeN in *.
    replace (N.min 4 _) with 4 in W by lia. replace (N.min 4 _) with 4 in Wn by lia. rewrite <- Wn in W.
    rewrite En in W. change (N.to_nat 4) with 4%nat in W.
    change (units 4 (c :: l)) with (to_le 4 c ++ units 4 l) in W.
    change (units 2 (u0 :: u1 :: r)) with ((to_le 2 u0 ++ to_le 2 u1) ++ units 2 r) in W.
    rewrite takeN_app1 in W by (rewrite lenN_to_le; lia). rewrite takeN_all in W by (rewrite lenN_to_le; lia).
    rewrite takeN_app1 in W by (rewrite lenN_app, !lenN_to_le; lia).
    rewrite takeN_all in W by (rewrite lenN_app, !lenN_to_le; lia). exact W. }
  apply (f_equal le) in E4. rewrite En in Fn. inversion Fn as [|? ? H0 Fn']; subst. inversion Fn' as [|? ? H1 _]; subst.
  inversion F as [|? ? Hc _]; subst. rewrite le_to_le_id in E4 by exact Hc.
  rewrite le_app, lenN_to_le in E4. rewrite !le_to_le_id in E4 by (change (256 ^ N.of_nat 2) with 65536; lia).
  change (256 ^ N.of_nat 2) with 65536 in E4. lia.
Qed.
Lemma mapM_in {A C} (g : A -> res C) l l' a : mapM g l = Ok l' -> In a l -> exists c, g a = Ok c /\ In c l'.
Proof.
  revert l'. induction l as [|x l IH]; intros l' H I; [destruct I|]. cbn [mapM] in H. destruct (g x) as [y| | |] eqn:E; cbn [bind] in H; try discriminate H.
  destruct (mapM g l) as [m| | |] eqn:Em; cbn [bind] in H; try discriminate H. injection H as <-. destruct I as [->|I].
  - exists y. split; [exact E|left; reflexivity].
  - destruct (IH m eq_refl I) as (c & Ec & Ic). exists c. split; [exact Ec|right; exact Ic].
Qed.

Theorem linux_document f c excel rows root ks k n u0 u1 r l : stored_as f c -> (forall m, In m rows -> In m ole_list) ->
  nthN (c_dir c) 0 = Some root -> n_type root = 5 -> members (c_dir c) 0 ks -> In k ks -> nthN (c_dir c) k = Some n ->
  n_name n = u0 :: u1 :: r -> u0 mod 256 <> 0 -> 17 <= u1 ->
  Guess linux64 excel rows (Some f) = Ok l ->
  exists x others, l = x :: others /\ render linux64 JSON x = Throw RangeError /\ render linux64 XML x = Throw RangeError.
Proof.
  intros St T Hr Tr Ms Ik Hk En Z U G. destruct (open_ok linux64 f c (or_introl eq_refl) St) as (s & Eo & So & Nd).
  pose proof So as (_ & _ & _ & _ & _ & _ & M & _). pose proof St as (_ & _ & _ & _ & _ & _ & _ & _ & _ & _ & _ & _ & _ & _ & _ & _ & _ & _ & _ & Bd & _).
  assert (Ch : children (st_dir s) 0 = Ok ks) by (apply (children_iff (c_dir c) (st_dir s) 0 root ks M Bd Hr); [right; right; exact Tr|exact Ms]).
  destruct (matches_nth _ _ M _ _ Hr) as (e0 & He0 & Em0).
  assert (Es : storage_entries linux64 s [slash] = mapM (fun c => match nthN (st_dir s) c with Some e => Ok (d_name e) | None => UB end) ks).
  { unfold storage_entries, entry_at. change (slash =? slash) with true. cbn [bind]. 
    replace (0 <? lenN (st_dir s)) with true. 2:{ symmetry. apply N.ltb_lt. destruct (st_dir s); [discriminate He0|rewrite lenN_cons; lia]. }
    rewrite He0. replace (d_dir e0) with true by (rewrite Em0; unfold entry_of; cbn; rewrite Tr; reflexivity). rewrite Ch. reflexivity. }
  unfold Guess in G. rewrite Eo in G. cbn [bind] in G.
  destruct (recurse linux64 excel rows s (S (List.length (st_dir s))) [slash] (mkState [] [] [])) as [t| | |] eqn:E; cbn [bind] in G; try discriminate G.
  assert (Nm : Forall (fun e => lin_name (d_name e)) (st_dir s)).
  { apply Forall_forall. intros e Ie. apply In_nth_error in Ie. destruct Ie as [i Hi]. assert (Hi' : nthN (st_dir s) (N.of_nat i) = Some e) by (rewrite nthN_nth_error, Nat2N.id; exact Hi).
    destruct (matches_nth' _ _ M _ _ Hi') as (n' & Hn & Em). destruct (Nd _ _ _ Hn Hi') as (w & Nb & Na). eapply name_is_lin; eassumption. }
  assert (Ls : lin_state s t).
  { destruct (lin_recurse excel rows s T Nm (S (List.length (st_dir s))) [slash] (mkState [] [] []) lp_root) as [(t' & E' & L)|E'];
      [split; [reflexivity|constructor]|rewrite E in E'; injection E' as <-; exact L|rewrite E in E'; discriminate E']. }
  assert (Bad : Exists too_big (st_paths t)).
  { destruct (storage_entries linux64 s [slash]) as [ns| | |] eqn:En'; cycle 1; [exfalso; rewrite recurse_step, En' in E; discriminate E..|].
    pose proof (member_paths _ _ _ _ _ _ _ _ _ E En') as F. symmetry in Es. destruct (mapM_in _ _ _ k Es Ik) as (x & Ex & Ix).
    destruct (matches_nth _ _ M _ _ Hk) as (e & He & Em). rewrite He in Ex. injection Ex as <-. destruct (Nd _ _ _ Hk He) as (w & Nb & Na).
    destruct (first_char n w e u0 u1 r Nb Na En Z) as [l' El]. rewrite Forall_forall in F. specialize (F _ Ix). rewrite El in F. apply Exists_exists.
    assert (Big : forall y, too_big ((47 :: u0 + 65536 * u1 :: y))).
    { intros y. unfold too_big. cbn [c_string]. change (47 =? 0) with false. cbv iota. replace (u0 + 65536 * u1 =? 0) with false by lia. intros K. inversion K as [|? ? _ K']; subst.
      inversion K' as [|? ? K2 _]; subst. lia. }
    destruct F as [F|F]; eexists; (split; [exact F|]); apply Big. }
  destruct Ls as [Pt Rt]. rewrite Pt in G. destruct (st_results t) as [|r0 rs] eqn:Er.
  - injection G as <-. eexists. exists []. split; [reflexivity|]. cbn [render]. apply oless_throws. exact Bad.
  - inversion Rt as [|? ? [-> _] _]; subst. cbn [attach equation] in G. injection G as <-. eexists. exists rs. split; [reflexivity|]. cbn [render]. apply oless_throws. exact Bad.
Qed.
