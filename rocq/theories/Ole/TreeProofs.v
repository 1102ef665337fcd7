(** The tree of names: listing and lookup. *)
From Coq Require Import List NArith ZArith Bool Lia Sorted.
From Coq Require Import ZifyBool ZifyNat ZifyN.
From Verif Require Import Lib.Res Lib.Bytes Lib.BytesFacts Ole.Model Ole.Spec Ole.Statements Ole.MemProofs Ole.ChainProofs.
Import ListNotations.
Local Open Scope N_scope.
Ltac Zify.zify_post_hook ::= Z.div_mod_to_equations.
Arguments N.pow : simpl never.

(** ** Nodes and entries *)
Lemma matches_nth d l : Forall2 entry_matches d l -> forall i n, nthN d i = Some n ->
  exists e, nthN l i = Some e /\ entry_matches n e.
Proof.
  induction 1 as [|x y l m H F IH]; intros i a Ha; [discriminate|]. cbn [nthN] in *. destruct (i =? 0).
  - injection Ha as <-. exists y. split; [reflexivity|exact H].
  - apply IH. exact Ha.
Qed.
Lemma matches_nth' d l : Forall2 entry_matches d l -> forall i e, nthN l i = Some e ->
  exists n, nthN d i = Some n /\ entry_matches n e.
Proof.
  induction 1 as [|x y l m H F IH]; intros i a Ha; [discriminate|]. cbn [nthN] in *. destruct (i =? 0).
  - injection Ha as <-. exists x. split; [reflexivity|exact H].
  - apply IH. exact Ha.
Qed.
Lemma matches_links n e : entry_matches n e -> d_prev e = n_prev n /\ d_next e = n_next n /\ d_child e = n_child n.
Proof. intros ->. repeat split; reflexivity. Qed.

(** ** Listing *)
Lemma siblings_fun d i l : siblings d i l -> forall m, siblings d i m -> l = m.
Proof.
  induction 1 as [i H|i n l r H L IHl R IHr]; intros m D; inversion D as [i' K|i' n' l' r' K L' R']; subst.
  - reflexivity.
  - apply nthN_bound in K. lia.
  - apply nthN_bound in H. lia.
  - rewrite H in K. injection K as <-. rewrite (IHl _ L'), (IHr _ R'). reflexivity.
Qed.

Section Visited.
Variable d : list node.
(** Entries above the one at hand: each has a larger tree. *)
Definition above (V : list N) (k : nat) : Prop :=
  NoDup V /\ Forall (fun v => v < lenN d) V /\
  forall v, In v V -> exists lv, siblings d v lv /\ (k < List.length lv)%nat.
Lemma above_nil k : above [] k.
Proof. split; [constructor|]. split; [constructor|]. intros v []. Qed.
Lemma above_short V k : above V k -> lenN V <= lenN d.
Proof. intros (D & F & _). apply nodup_short; assumption. Qed.
Lemma above_cons V i n l k : above V (List.length l) -> nthN d i = Some n -> siblings d i l -> (k < List.length l)%nat ->
  above (i :: V) k.
Proof.
  intros (D & F & A) Hi S0 K. split; [|split].
  - constructor; [|exact D]. intros I. destruct (A i I) as (lv & Sv & Lv). rewrite (siblings_fun _ _ _ Sv _ S0) in Lv. lia.
  - constructor; [eapply nthN_bound; exact Hi|exact F].
  - intros v [<-|I]; [exists l; split; [exact S0|exact K]|]. destruct (A v I) as (lv & Sv & Lv). exists lv. split; [exact Sv|lia].
Qed.
End Visited.

Lemma find_siblings_ok d ds : Forall2 entry_matches d ds -> lenN d <= End -> forall i l, siblings d i l ->
  forall V fuel, above d V (List.length l) -> lenN d < N.of_nat fuel + lenN V -> find_siblings fuel ds i = Ok l.
Proof.
  intros M Bd i l H. unfold End in Bd. induction H as [i H|i n l r H L IHl R IHr]; intros V fuel A Fu.
  - destruct fuel as [|fuel]; [pose proof (above_short _ _ _ A); lia|]. cbn [find_siblings].
    rewrite nthN_out by (rewrite <- (Forall2_len _ _ _ M); exact H). reflexivity.
  - destruct (matches_nth _ _ M _ _ H) as (e & He & Em). destruct (matches_links _ _ Em) as (Ep & En & _).
    assert (S0 : siblings d i (l ++ i :: r)) by (econstructor; eassumption).
    assert (A1 : above d (i :: V) (List.length l)) by (eapply above_cons; [exact A|exact H|exact S0|rewrite app_length; cbn; lia]).
    assert (A2 : above d (i :: V) (List.length r)) by (eapply above_cons; [exact A|exact H|exact S0|rewrite app_length; cbn; lia]).
    pose proof (above_short _ _ _ A1) as Sh. rewrite lenN_cons in Sh.
    destruct fuel as [|fuel]; [lia|]. cbn [find_siblings]. rewrite He, Ep, En.
    assert (El : (if n_prev n =? End then Ok [] else find_siblings fuel ds (n_prev n)) = Ok l).
    { unfold End. destruct (N.eqb_spec (n_prev n) 4294967295) as [K|K].
      - inversion L as [? K'|? ? ? ? K']; subst; [reflexivity|]. apply nthN_bound in K'. lia.
      - apply (IHl (i :: V)); [exact A1|rewrite lenN_cons; lia]. }
    assert (Er : (if n_next n =? End then Ok [] else find_siblings fuel ds (n_next n)) = Ok r).
    { unfold End. destruct (N.eqb_spec (n_next n) 4294967295) as [K|K].
      - inversion R as [? K'|? ? ? ? K']; subst; [reflexivity|]. apply nthN_bound in K'. lia.
      - apply (IHr (i :: V)); [exact A2|rewrite lenN_cons; lia]. }
    rewrite El. cbn [bind]. rewrite Er. reflexivity.
Qed.
Lemma find_siblings_conv d ds : Forall2 entry_matches d ds -> lenN d <= End -> forall fuel i l,
  find_siblings fuel ds i = Ok l -> siblings d i l.
Proof.
  intros M Bd. unfold End in Bd. induction fuel as [|fuel IH]; intros i l H; [discriminate|]. cbn [find_siblings] in H.
  destruct (nthN ds i) as [e|] eqn:Ei.
  - destruct (matches_nth' _ _ M _ _ Ei) as (n & Hn & Em). destruct (matches_links _ _ Em) as (Ep & En & _).
    rewrite Ep, En in H. unfold End in H.
    destruct (if n_prev n =? 4294967295 then Ok [] else find_siblings fuel ds (n_prev n)) as [a| | |] eqn:Ea; try discriminate.
    cbn [bind] in H.
    destruct (if n_next n =? 4294967295 then Ok [] else find_siblings fuel ds (n_next n)) as [b| | |] eqn:Eb; try discriminate.
    injection H as <-. econstructor; [exact Hn| |].
    + destruct (N.eqb_spec (n_prev n) 4294967295) as [K|K]; [injection Ea as <-; constructor; lia|apply IH; exact Ea].
    + destruct (N.eqb_spec (n_next n) 4294967295) as [K|K]; [injection Eb as <-; constructor; lia|apply IH; exact Eb].
  - injection H as <-. constructor. apply nthN_None in Ei. rewrite (Forall2_len _ _ _ M). exact Ei.
Qed.
Lemma find_siblings_cases ds fuel : forall i, (exists l, find_siblings fuel ds i = Ok l) \/ find_siblings fuel ds i = Fuel.
Proof.
  induction fuel as [|fuel IH]; intros i; [right; reflexivity|]. cbn [find_siblings].
  destruct (nthN ds i) as [e|]; [|left; eexists; reflexivity].
  assert (C1 : forall j, (exists l, (if j =? End then Ok [] else find_siblings fuel ds j) = Ok l) \/ (if j =? End then Ok [] else find_siblings fuel ds j) = Fuel).
  { intros j. destruct (j =? End); [left; eexists; reflexivity|apply IH]. }
  destruct (C1 (d_prev e)) as [[a ->]| ->]; [|right; reflexivity]. cbn [bind].
  destruct (C1 (d_next e)) as [[b ->]| ->]; [left; eexists; reflexivity|right; reflexivity].
Qed.

(** C57: the members of a storage *)
Lemma children_iff d ds i n l : Forall2 entry_matches d ds -> lenN d <= End -> nthN d i = Some n -> in_use n ->
  (children ds i = Ok l <-> members d i l).
Proof.
  intros M Bd Hi U. unfold children. destruct (matches_nth _ _ M _ _ Hi) as (e & He & Em). rewrite He.
  destruct (matches_links _ _ Em) as (_ & _ & Ec). rewrite Ec.
  replace (d_valid e) with true by (rewrite Em; cbn; destruct U as [->|[->| ->]]; reflexivity). cbn [andb].
  rewrite <- (Forall2_len _ _ _ M).
  assert (Mem : members d i l <-> siblings d (n_child n) l).
  { split; [intros (n' & Hn' & Hs); congruence|]. intros Hs. exists n. split; assumption. }
  rewrite Mem. destruct (N.ltb_spec (n_child n) (lenN d)) as [K|K].
  - split; [apply find_siblings_conv; assumption|]. intros Hs.
    apply (find_siblings_ok d ds M Bd _ _ Hs []); [apply above_nil|].
    unfold steps. pose proof (Forall2_len _ _ _ M) as L. unfold lenN in *. cbn [List.length]. lia.
  - split; [intros H; injection H as <-; constructor; exact K|].
    intros Hs. inversion Hs as [? ?|? ? ? ? K']; subst; [reflexivity|]. apply nthN_bound in K'. lia.
Qed.
Lemma children_cases ds i : (exists l, children ds i = Ok l) \/ children ds i = Fuel.
Proof.
  unfold children. destruct (nthN ds i); [|left; eexists; reflexivity].
  destruct (_ && _); [apply find_siblings_cases|left; eexists; reflexivity].
Qed.

(** ** Comparing names *)
Lemma wcompare_eq pl a : forall b, Forall (fun c => c < 256 ^ sizeof_wchar pl) a -> Forall (fun c => c < 256 ^ sizeof_wchar pl) b ->
  supported pl -> (wcompare pl a b = Eq <-> a = b).
Proof.
  intros b Fa Fb P. revert b Fb. induction Fa as [|x a Hx Fa IH]; intros [|y b] Fb; cbn [wcompare].
  - split; reflexivity.
  - split; discriminate.
  - split; discriminate.
  - inversion Fb as [|? ? Hy Fb']; subst.
    assert (V : wchar_value pl x = wchar_value pl y -> x = y).
    { unfold wchar_value, signed. destruct P as [-> | ->]; cbn [sizeof_wchar linux64 windows] in *.
      - change (4 =? 4) with true. cbn iota. change (256 ^ 4) with 4294967296 in *. change (2 ^ (32 - 1)) with 2147483648.
        change (2 ^ 32) with 4294967296. destruct (N.ltb_spec x 2147483648); destruct (N.ltb_spec y 2147483648); lia.
      - change (2 =? 4) with false. cbn iota. lia. }
    destruct (Z.compare_spec (wchar_value pl x) (wchar_value pl y)) as [K|K|K].
    + apply V in K. subst y. rewrite IH by assumption. split; [congruence|]. intros E. injection E as ->. reflexivity.
    + split; [discriminate|]. intros E. injection E as -> ->. lia.
    + split; [discriminate|]. intros E. injection E as -> ->. lia.
Qed.
Lemma name_compare_eq pl a b : Forall (fun c => c < 256 ^ sizeof_wchar pl) a -> Forall (fun c => c < 256 ^ sizeof_wchar pl) b ->
  supported pl -> (name_compare pl a b = Eq <-> a = b).
Proof.
  intros Fa Fb P. unfold name_compare. destruct (N.compare_spec (lenN a) (lenN b)) as [K|K|K].
  - apply wcompare_eq; assumption.
  - split; [discriminate|]. intros ->. lia.
  - split; [discriminate|]. intros ->. lia.
Qed.
Lemma wcompare_windows a : forall b, lenN a = lenN b ->
  match wcompare windows a b with Lt => lex_lt a b | Gt => lex_lt b a | Eq => a = b end.
Proof.
  induction a as [|x a IH]; intros [|y b] L; rewrite ?lenN_cons in L; try (cbn in L; lia); cbn [wcompare]; [reflexivity|].
  unfold wchar_value. cbn [sizeof_wchar windows]. change (2 =? 4) with false. cbn iota.
  destruct (Z.compare_spec (Z.of_N x) (Z.of_N y)) as [K|K|K].
  - assert (x = y) by lia. subst y. specialize (IH b ltac:(lia)). destruct (wcompare windows a b).
    + congruence.
    + right. split; [reflexivity|exact IH].
    + right. split; [reflexivity|exact IH].
  - left. lia.
  - left. lia.
Qed.
Lemma name_compare_windows a b :
  match name_compare windows a b with Lt => name_lt a b | Gt => name_lt b a | Eq => a = b end.
Proof.
  unfold name_compare, name_lt. destruct (N.compare_spec (lenN a) (lenN b)) as [K|K|K].
  - pose proof (wcompare_windows a b K) as H. destruct (wcompare windows a b); [exact H|right; split; assumption|right; split; [lia|exact H]].
  - left. exact K.
  - left. exact K.
Qed.
Lemma lex_irrefl a : ~ lex_lt a a.
Proof. induction a as [|x a IH]; cbn; [tauto|]. intros [H|[_ H]]; [lia|apply IH; exact H]. Qed.
Lemma lex_trans a : forall b c, lex_lt a b -> lex_lt b c -> lex_lt a c.
Proof.
  induction a as [|x a IH]; intros [|y b] [|z c] H K; cbn in *; try tauto.
  destruct H as [H|[-> H]]; destruct K as [K|[-> K]]; [left; lia|left; exact H|left; exact K|right].
  split; [reflexivity|]. eapply IH; eassumption.
Qed.
Lemma name_lt_irrefl a : ~ name_lt a a.
Proof. intros [H|[_ H]]; [lia|]. apply lex_irrefl in H. exact H. Qed.
Lemma name_lt_trans a b c : name_lt a b -> name_lt b c -> name_lt a c.
Proof.
  intros [H|[H1 H2]] [K|[K1 K2]]; [left; lia|left; lia|left; lia|right]. split; [congruence|eapply lex_trans; eassumption].
Qed.

(** ** Looking a name up *)
Definition names_ok (d : list node) (ds : list dirent) : Prop :=
  Forall2 (fun n e => entry_matches n e /\ d_name e = n_name n) d ds.
Lemma names_matches d ds : names_ok d ds -> Forall2 entry_matches d ds.
Proof. induction 1 as [|n e d ds [H _] F IH]; constructor; assumption. Qed.
Lemma names_nth d ds : names_ok d ds -> forall i n, nthN d i = Some n ->
  exists e, nthN ds i = Some e /\ entry_matches n e /\ d_name e = n_name n.
Proof.
  induction 1 as [|x y l m H F IH]; intros i a Ha; [discriminate|]. cbn [nthN] in *. destruct (i =? 0).
  - injection Ha as <-. exists y. split; [reflexivity|exact H].
  - apply IH. exact Ha.
Qed.

Lemma node_lt_name d i j m n : node_lt d i j -> nthN d i = Some m -> nthN d j = Some n -> name_lt (n_name m) (n_name n).
Proof. intros (m' & n' & Hm & Hn & L) H1 H2. congruence. Qed.

Lemma sorted_app {A} (R : A -> A -> Prop) a x b : StronglySorted R (a ++ x :: b) ->
  StronglySorted R a /\ StronglySorted R b /\ Forall (fun y => R y x) a /\ Forall (R x) b.
Proof.
  induction a as [|y a IH]; cbn [app]; intros H.
  - inversion H; subst. repeat split; [constructor|assumption|constructor|assumption].
  - inversion H as [|? ? H1 H2]; subst. destruct (IH H1) as (S1 & S2 & F1 & F2).
    rewrite Forall_app in H2. destruct H2 as [G1 G2]. inversion G2; subst.
    repeat split; [constructor; assumption|assumption|constructor; assumption|assumption].
Qed.

Section Lookup.
Variables (d : list node) (ds : list dirent) (name : list N).
Hypothesis M : names_ok d ds.
Definition has_name (k : N) : Prop := exists n, nthN d k = Some n /\ n_name n = name.
Definition usable (k : N) : Prop := 0 < k /\ exists n, nthN d k = Some n /\ in_use n.

Lemma find_sibling_ok i l : siblings d i l -> forall V fuel,
  above d V (List.length l) -> lenN d < N.of_nat fuel + lenN V ->
  StronglySorted (node_lt d) l -> Forall usable l ->
  (forall k, In k l -> has_name k -> find_sibling fuel windows ds i name = Ok k) /\
  ((forall k, In k l -> ~ has_name k) -> find_sibling fuel windows ds i name = Ok 0).
Proof.
  intros H. induction H as [i H|i n l r H L IHl R IHr]; intros V fuel A Fu So U.
  - split; [intros k []|]. intros _.
    destruct fuel as [|fuel]; [pose proof (above_short _ _ _ A); lia|]. cbn [find_sibling].
    rewrite nthN_out by (rewrite <- (Forall2_len _ _ _ M); exact H). reflexivity.
  - destruct (names_nth _ _ M _ _ H) as (e & He & Em & Nm). destruct (matches_links _ _ Em) as (Ep & En & _).
    assert (S0 : siblings d i (l ++ i :: r)) by (econstructor; eassumption).
    assert (A1 : above d (i :: V) (List.length l)) by (eapply above_cons; [exact A|exact H|exact S0|rewrite app_length; cbn; lia]).
    assert (A2 : above d (i :: V) (List.length r)) by (eapply above_cons; [exact A|exact H|exact S0|rewrite app_length; cbn; lia]).
    pose proof (above_short _ _ _ A1) as Sh. rewrite lenN_cons in Sh.
    destruct (sorted_app _ _ _ _ So) as (So1 & So2 & Fl & Fr).
    rewrite Forall_app in U. destruct U as [U1 U2]. inversion U2 as [|? ? [Ui1 (n' & Hn' & Ui2)] U2']; subst.
    rewrite H in Hn'. injection Hn' as <-.
    destruct fuel as [|fuel]; [lia|]. cbn [find_sibling]. rewrite He.
    replace (d_valid e) with true by (rewrite Em; cbn; destruct Ui2 as [->|[->| ->]]; reflexivity). cbn [negb]. rewrite Nm.
    destruct (IHl (i :: V) fuel A1 ltac:(rewrite lenN_cons; lia) So1 U1) as [L1 L2].
    destruct (IHr (i :: V) fuel A2 ltac:(rewrite lenN_cons; lia) So2 U2') as [R1 R2].
    pose proof (name_compare_windows (n_name n) name) as Cmp. rewrite Ep, En, <- (Forall2_len _ _ _ M).
    rewrite Forall_forall in Fl, Fr.
    destruct (name_compare windows (n_name n) name) eqn:Ec.
    + (* equal *) split.
      * intros k Ik (m & Hm & Km). f_equal. rewrite in_app_iff in Ik. destruct Ik as [Ik|[Ik|Ik]]; [|exact Ik|].
        -- exfalso. apply Fl in Ik. pose proof (node_lt_name _ _ _ _ _ Ik Hm H) as Hlt. rewrite Km, Cmp in Hlt.
           apply name_lt_irrefl in Hlt. exact Hlt.
        -- exfalso. apply Fr in Ik. pose proof (node_lt_name _ _ _ _ _ Ik H Hm) as Hlt. rewrite Km, Cmp in Hlt.
           apply name_lt_irrefl in Hlt. exact Hlt.
      * intros No. exfalso. apply (No i); [rewrite in_app_iff; right; left; reflexivity|]. exists n. split; [exact H|exact Cmp].
    + (* n < name: to the right *)
      assert (Go : (if (0 <? n_next n) && (n_next n <? lenN d) then find_sibling fuel windows ds (n_next n) name else Ok 0)
                   = find_sibling fuel windows ds (n_next n) name).
      { destruct (N.ltb_spec (n_next n) (lenN d)) as [K|K].
        - replace (0 <? n_next n) with true; [reflexivity|]. symmetry. apply N.ltb_lt.
          inversion R as [? K'|? ? ? ? K']; subst; [lia|]. rewrite Forall_app in U2'. destruct U2' as [_ U3]. inversion U3 as [|? ? [K2 _] _]; subst. exact K2.
        - rewrite andb_false_r. destruct fuel as [|fuel']; [lia|]. cbn [find_sibling].
          rewrite nthN_out by (rewrite <- (Forall2_len _ _ _ M); exact K). reflexivity. }
      rewrite Go. split.
      * intros k Ik Hk. rewrite in_app_iff in Ik. destruct Ik as [Ik|[Ik|Ik]].
        -- exfalso. destruct Hk as (m & Hm & Km). apply Fl in Ik. pose proof (node_lt_name _ _ _ _ _ Ik Hm H) as Hlt. rewrite Km in Hlt.
           apply (name_lt_irrefl name). eapply name_lt_trans; eassumption.
        -- exfalso. subst k. destruct Hk as (m & Hm & Km). rewrite H in Hm. injection Hm as <-. rewrite Km in Cmp.
           apply name_lt_irrefl in Cmp. exact Cmp.
        -- apply R1; assumption.
      * intros No. apply R2. intros k Ik. apply No. rewrite in_app_iff. right. right. exact Ik.
    + (* name < n: to the left *)
      assert (Go : (if (0 <? n_prev n) && (n_prev n <? lenN d) then find_sibling fuel windows ds (n_prev n) name else Ok 0)
                   = find_sibling fuel windows ds (n_prev n) name).
      { destruct (N.ltb_spec (n_prev n) (lenN d)) as [K|K].
        - replace (0 <? n_prev n) with true; [reflexivity|]. symmetry. apply N.ltb_lt.
          inversion L as [? K'|? ? ? ? K']; subst; [lia|]. rewrite Forall_app in U1. destruct U1 as [_ U3]. inversion U3 as [|? ? [K2 _] _]; subst. exact K2.
        - rewrite andb_false_r. destruct fuel as [|fuel']; [lia|]. cbn [find_sibling].
          rewrite nthN_out by (rewrite <- (Forall2_len _ _ _ M); exact K). reflexivity. }
      rewrite Go. split.
      * intros k Ik Hk. rewrite in_app_iff in Ik. destruct Ik as [Ik|[Ik|Ik]].
        -- apply L1; assumption.
        -- exfalso. subst k. destruct Hk as (m & Hm & Km). rewrite H in Hm. injection Hm as <-. rewrite Km in Cmp.
           apply name_lt_irrefl in Cmp. exact Cmp.
        -- exfalso. destruct Hk as (m & Hm & Km). apply Fr in Ik. pose proof (node_lt_name _ _ _ _ _ Ik H Hm) as Hlt. rewrite Km in Hlt.
           apply (name_lt_irrefl name). eapply name_lt_trans; eassumption.
      * intros No. apply L2. intros k Ik. apply No. rewrite in_app_iff. left. exact Ik.
Qed.

Lemma find_child_ok i n l : nthN d i = Some n -> in_use n -> sorted_members node_lt d i l ->
  (forall k, In k l -> has_name k -> find_child windows ds i name = Ok k) /\
  ((forall k, In k l -> ~ has_name k) -> find_child windows ds i name = Ok 0).
Proof.
  intros Hi U ((n' & Hn' & Sb) & So & Po & Us). rewrite Hi in Hn'. injection Hn' as <-.
  destruct (names_nth _ _ M _ _ Hi) as (e & He & Em & _). destruct (matches_links _ _ Em) as (_ & _ & Ec).
  unfold find_child. rewrite He, Ec, <- (Forall2_len _ _ _ M).
  replace (d_valid e) with true by (rewrite Em; cbn; destruct U as [->|[->| ->]]; reflexivity). cbn [andb].
  assert (Fu : Forall usable l).
  { rewrite Forall_forall in *. intros k Ik. split; [apply Po; exact Ik|apply Us; exact Ik]. }
  destruct (find_sibling_ok (n_child n) l Sb [] (steps ds) (above_nil _ _)) as [H1 H2]; try assumption.
  { unfold steps. pose proof (Forall2_len _ _ _ M) as L. unfold lenN in *. cbn [List.length]. lia. }
  destruct (N.ltb_spec (n_child n) (lenN d)) as [K|K]; [split; assumption|].
  inversion Sb as [|? ? ? ? K']; subst; [|apply nthN_bound in K'; lia]. split; [intros k []|reflexivity].
Qed.
End Lookup.

(** ** Paths *)
Lemma walk_ok d ds i names k : names_ok d ds -> at_path node_lt d i names k -> walk windows ds i names = Ok (Some k).
Proof.
  intros M H. induction H as [i|i n l k name names j Hi U Sm Ik Hn P IH]; [reflexivity|].
  cbn [walk]. destruct (find_child_ok d ds name M i n l Hi U Sm) as [F _]. rewrite (F k Ik Hn). cbn [bind].
  destruct Sm as (_ & _ & Po & _). rewrite Forall_forall in Po. replace (0 <? k) with true by (symmetry; apply N.ltb_lt; apply Po; exact Ik).
  exact IH.
Qed.
Lemma split_in_plain n : ~ In 47 n -> forall r, split_path_in (n ++ r) = (n ++ fst (split_path_in r), snd (split_path_in r)).
Proof.
  intros H. induction n as [|c n IH]; intros r; cbn [app].
  - destruct (split_path_in r). reflexivity.
  - cbn [split_path_in]. unfold slash. destruct (N.eqb_spec c 47) as [->|K]; [exfalso; apply H; left; reflexivity|].
    rewrite IH by (intros I; apply H; right; exact I). reflexivity.
Qed.
Lemma split_path_plain n r : plain_name n -> split_path (n ++ 47 :: r) = n :: split_path r.
Proof.
  intros [Hn Hs]. destruct n as [|c n]; [contradiction|]. cbn [app split_path]. unfold slash.
  destruct (N.eqb_spec c 47) as [->|K]; [exfalso; apply Hs; left; reflexivity|].
  rewrite split_in_plain by (intros I; apply Hs; right; exact I). cbn [split_path_in]. unfold slash.
  change (47 =? 47) with true. cbn [fst snd]. rewrite app_nil_r. reflexivity.
Qed.
Lemma split_path_last n : plain_name n -> split_path n = [n].
Proof.
  intros [Hn Hs]. destruct n as [|c n]; [contradiction|]. cbn [split_path]. unfold slash.
  destruct (N.eqb_spec c 47) as [->|K]; [exfalso; apply Hs; left; reflexivity|].
  pose proof (split_in_plain n ltac:(intros I; apply Hs; right; exact I) []) as E. rewrite app_nil_r in E. rewrite E.
  cbn. rewrite app_nil_r. reflexivity.
Qed.
Lemma split_path_text names : names <> [] -> Forall plain_name names ->
  exists r, path_text names = 47 :: r /\ r <> [] /\ split_path r = names.
Proof.
  intros Hne F. induction F as [|n names Hn F IH]; [contradiction|].
  unfold path_text. cbn [map List.concat]. fold (path_text names). exists (n ++ path_text names). split; [reflexivity|].
  split; [destruct Hn as [Hn _]; destruct n; [contradiction|discriminate]|].
  destruct names as [|m names].
  - cbn [path_text map List.concat]. rewrite app_nil_r. apply split_path_last. exact Hn.
  - destruct IH as (r & Er & _ & Sr); [discriminate|]. rewrite Er. rewrite (split_path_plain n r Hn). rewrite Sr. reflexivity.
Qed.
Lemma split_path_part n r : ~ In 47 n -> split_path (n ++ 47 :: r) = n :: split_path r.
Proof.
  intros Hs. destruct n as [|c n]; [reflexivity|]. apply split_path_plain. split; [discriminate|exact Hs].
Qed.
Lemma split_parts_text names : path_parts names ->
  exists r, path_text names = 47 :: r /\ r <> [] /\ split_path r = names.
Proof.
  intros [F L]. induction F as [|n names Hn F IH]; [contradiction L; reflexivity|].
  unfold path_text. cbn [map List.concat]. fold (path_text names). exists (n ++ path_text names). split; [reflexivity|].
  destruct names as [|m names].
  - cbn [last] in L. cbn [path_text map List.concat]. rewrite app_nil_r. split; [exact L|]. apply split_path_last. split; assumption.
  - destruct (IH L) as (r & Er & _ & Sr). rewrite Er. split; [destruct n; discriminate|]. rewrite (split_path_part n r Hn), Sr. reflexivity.
Qed.
Lemma plain_parts names : names <> [] -> Forall plain_name names -> path_parts names.
Proof.
  intros Hne F. split; [eapply Forall_impl; [|exact F]; intros n [_ H]; exact H|].
  induction F as [|n names [Hn _] F IH]; [contradiction|]. destruct names; [exact Hn|]. apply IH. discriminate.
Qed.
Lemma at_path_inside d i names k : names <> [] -> at_path node_lt d i names k -> k < lenN d.
Proof.
  intros Hne H. induction H as [i|i n l k name names j Hi U Sm Ik (m & Hm & _) P IH]; [contradiction|].
  destruct names as [|x names]; [inversion P; subst; eapply nthN_bound; exact Hm|apply IH; discriminate].
Qed.
Lemma entry_at_ok d ds names k : names_ok d ds -> names <> [] -> Forall plain_name names -> at_path node_lt d 0 names k ->
  entry_at windows ds (path_text names) = Ok (Some k).
Proof.
  intros M Hne F P. destruct (split_path_text names Hne F) as (r & Er & Hr & Sr).
  rewrite Er. unfold entry_at. change (47 =? slash) with true. destruct r as [|c r]; [contradiction|]. rewrite Sr.
  rewrite (walk_ok _ _ _ _ _ M P). cbn [bind]. pose proof (at_path_inside _ _ _ _ Hne P) as B.
  rewrite <- (Forall2_len _ _ _ M). replace (k <? lenN d) with true by lia. reflexivity.
Qed.
(** A name that no member has ends the search. *)
Lemma walk_none d ds i names k name rest n l : names_ok d ds -> at_path node_lt d i names k ->
  nthN d k = Some n -> in_use n -> sorted_members node_lt d k l -> (forall j, In j l -> ~ has_name d name j) ->
  walk windows ds i (names ++ name :: rest) = Ok None.
Proof.
  intros M P Hk U Sm No. induction P as [i|i n0 l0 k0 name0 names j Hi U0 Sm0 Ik Hn P IH]; cbn [app walk].
  - destruct (find_child_ok d ds name M i n l Hk U Sm) as [_ F]. rewrite (F No). reflexivity.
  - destruct (find_child_ok d ds name0 M i n0 l0 Hi U0 Sm0) as [F _]. rewrite (F k0 Ik Hn). cbn [bind].
    destruct Sm0 as (_ & _ & Po & _). rewrite Forall_forall in Po.
    replace (0 <? k0) with true by (symmetry; apply N.ltb_lt; apply Po; exact Ik). apply IH; assumption.
Qed.
Lemma entry_at_none d ds names k name rest n l : names_ok d ds -> path_parts (names ++ name :: rest) ->
  at_path node_lt d 0 names k -> nthN d k = Some n -> in_use n -> sorted_members node_lt d k l ->
  (forall j, In j l -> ~ has_name d name j) -> entry_at windows ds (path_text (names ++ name :: rest)) = Ok None.
Proof.
  intros M F P Hk U Sm No.
  destruct (split_parts_text _ F) as (r & Er & Hr & Sr).
  rewrite Er. unfold entry_at. change (47 =? slash) with true. destruct r as [|c r]; [contradiction|]. rewrite Sr.
  rewrite (walk_none _ _ _ _ _ _ _ _ _ M P Hk U Sm No). reflexivity.
Qed.
