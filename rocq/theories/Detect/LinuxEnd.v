(** On Linux the walk through the storages of a compound file ends when its directory is a tree. *)
From Coq Require Import List NArith Bool Lia ZifyBool ZifyNat ZifyN Strings.String.
From Verif Require Import Lib.Res Lib.Bytes Lib.BytesFacts Lib.Text Common.Model Common.Spec Magic.Model Ole.Model Ole.Spec Ole.Statements
     Ole.MemProofs Ole.ChainProofs Ole.DirProofs Ole.StreamProofs Ole.TreeProofs Ole.PropertyLemmas Vba.Analyze Vba.Output Vba.FileSpec Propset.Model Docs.Model
     Media.WordPerfect Detect.Model Detect.Spec Detect.Statements Detect.TreeProofs Detect.LinuxProofs Detect.TreeSpec.
Import ListNotations.
Local Open Scope N_scope.

(** ** Looking for a name among siblings that can be listed *)
Lemma listed_found pl ds name fuel : lenN ds <= End -> forall i l, find_siblings fuel ds i = Ok l ->
  exists k, find_sibling fuel pl ds i name = Ok k /\ (k = 0 \/ In k l).
Proof.
  intros Bd. induction fuel as [|fuel IH]; intros i l H; [discriminate|]. cbn [find_siblings find_sibling] in *.
  destruct (nthN ds i) as [e|] eqn:Ei; [|exists 0; split; [reflexivity|left; reflexivity]].
  destruct (if d_prev e =? End then Ok [] else find_siblings fuel ds (d_prev e)) as [a| | |] eqn:Ea; cbn [bind] in H; try discriminate H.
  destruct (if d_next e =? End then Ok [] else find_siblings fuel ds (d_next e)) as [b| | |] eqn:Eb; cbn [bind] in H; try discriminate H.
  injection H as <-. destruct (d_valid e); cbn [negb]; [|exists 0; split; [reflexivity|left; reflexivity]].
  destruct (name_compare pl (d_name e) name).
  - exists i. split; [reflexivity|right]. apply in_or_app. right. left. reflexivity.
  - destruct ((0 <? d_next e) && (d_next e <? lenN ds)) eqn:C; [|exists 0; split; [reflexivity|left; reflexivity]].
    apply andb_true_iff in C. destruct C as [_ C]. apply N.ltb_lt in C. replace (d_next e =? End) with false in Eb by lia.
    destruct (IH _ _ Eb) as (k & Ek & [->|Ik]); rewrite Ek; eexists; (split; [reflexivity|]); [left; reflexivity|right].
    apply in_or_app. right. right. exact Ik.
  - destruct ((0 <? d_prev e) && (d_prev e <? lenN ds)) eqn:C; [|exists 0; split; [reflexivity|left; reflexivity]].
    apply andb_true_iff in C. destruct C as [_ C]. apply N.ltb_lt in C. replace (d_prev e =? End) with false in Ea by lia.
    destruct (IH _ _ Ea) as (k & Ek & [->|Ik]); rewrite Ek; eexists; (split; [reflexivity|]); [left; reflexivity|right].
    apply in_or_app. left. exact Ik.
Qed.

(** ** Parts of paths *)
Definition slashes (s : list N) : nat := count_occ N.eq_dec s 47.
Lemma parts_slash s : List.length (split_path (s ++ [slash])) = S (slashes s) /\
  List.length (snd (split_path_in (s ++ [slash]))) = slashes s.
Proof.
  induction s as [|c s [IH1 IH2]]; [split; reflexivity|]. cbn [app split_path split_path_in]. unfold slashes in *. cbn [count_occ].
  destruct (N.eqb_spec c slash) as [->|C].
  - destruct (N.eq_dec slash 47) as [_|K]; [|exfalso; apply K; reflexivity]. cbn [List.length snd]. rewrite IH1. split; reflexivity.
  - destruct (N.eq_dec c 47) as [->|_]; [exfalso; apply C; reflexivity|].
    destruct (split_path_in (s ++ [slash])) as [w l]. cbn [snd List.length] in *. split; [f_equal; exact IH2|exact IH2].
Qed.
Lemma slashes_app a b : slashes (a ++ b) = (slashes a + slashes b)%nat.
Proof. apply count_occ_app. Qed.
(** the paths of storages *)
Inductive store_path : nat -> list N -> Prop :=
| sp_root : store_path 0 [slash]
| sp_below n s : (n <= S (slashes s))%nat -> store_path n (slash :: s ++ [slash]).
Lemma store_path_sub n path x : store_path n path -> store_path (S n) ((path ++ x) ++ [slash]).
Proof.
  intros P. destruct P as [|n s Hn]; cbn [app].
  - apply (sp_below 1 x). lia.
  - apply (sp_below (S n) ((s ++ [slash]) ++ x)). rewrite !slashes_app. change (slashes [slash]) with 1%nat. lia.
Qed.

Section End.
Variables (d : list node) (ds : list dirent) (height : N -> N) (pl : platform).
Hypothesis M : Forall2 entry_matches d ds.
Hypothesis Bd : lenN d <= End.
Hypothesis Tree : forall k n, nthN d k = Some n -> in_use n -> exists l, members d k l /\ Forall (fun j => height j < height k) l.

Lemma kids k e : nthN ds k = Some e -> d_valid e = true -> exists l, children ds k = Ok l /\ Forall (fun j => height j < height k) l.
Proof.
  intros Hk V. destruct (matches_nth' _ _ M _ _ Hk) as (n & Hn & Em).
  assert (U : in_use n). { rewrite Em in V. cbn in V. unfold in_use. lia. }
  destruct (Tree k n Hn U) as (l & Ml & F). exists l. split; [|exact F]. apply (children_iff d ds k n l M Bd Hn U). exact Ml.
Qed.
Lemma all_children k : exists l, children ds k = Ok l.
Proof.
  destruct (nthN ds k) as [e|] eqn:Hk; [|unfold children; rewrite Hk; eexists; reflexivity].
  destruct (d_valid e) eqn:V; [destruct (kids k e Hk V) as (l & E & _); exists l; exact E|].
  unfold children. rewrite Hk, V. eexists. reflexivity.
Qed.
Lemma child_found i name : exists k, find_child pl ds i name = Ok k /\ (k = 0 \/ (height k < height i /\ k < lenN ds)).
Proof.
  unfold find_child. destruct (nthN ds i) as [e|] eqn:Hi; [|exists 0; split; [reflexivity|left; reflexivity]].
  destruct (d_valid e) eqn:V; [|exists 0; split; [reflexivity|left; reflexivity]]. destruct (kids i e Hi V) as (l & E & F).
  pose proof E as E'. unfold children in E. rewrite Hi, V in E. cbn [andb] in *. destruct (d_child e <? lenN ds); [|exists 0; split; [reflexivity|left; reflexivity]].
  assert (Bs : lenN ds <= End) by (rewrite <- (Forall2_len _ _ _ M); exact Bd).
  destruct (listed_found pl ds name (steps ds) Bs _ _ E) as (k & Ek & K). exists k. split; [exact Ek|]. destruct K as [->|K]; [left; reflexivity|right].
  rewrite Forall_forall in F. split; [apply F; exact K|]. pose proof (find_siblings_inside _ _ _ _ E) as In_. rewrite Forall_forall in In_. apply In_. exact K.
Qed.
Lemma walk_chain names : forall i, exists o, walk pl ds i names = Ok o /\
  (o = None \/ exists ch, List.length ch = List.length names /\ NoDup ch /\ Forall (fun j => height j < height i /\ j < lenN ds) ch).
Proof.
  induction names as [|n names IH]; intros i; cbn [walk].
  - eexists. split; [reflexivity|right]. exists []. split; [reflexivity|]. split; constructor.
  - destruct (child_found i n) as (k & Ek & K). rewrite Ek. cbn [bind]. destruct (N.ltb_spec 0 k) as [L|L]; [|eexists; split; [reflexivity|left; reflexivity]].
    destruct K as [->|[K B]]; [lia|]. destruct (IH k) as (o & Eo & H). exists o. split; [exact Eo|]. destruct H as [->|(ch & Lc & Nc & Fc)]; [left; reflexivity|right].
    exists (k :: ch). split; [cbn; congruence|]. split.
    + constructor; [|exact Nc]. intros I. rewrite Forall_forall in Fc. destruct (Fc k I) as [C _]. lia.
    + constructor; [split; assumption|]. eapply Forall_impl; [|exact Fc]. cbn beta. intros j [J1 J2]. split; [lia|exact J2].
Qed.
Lemma entry_at_ends path : exists o, entry_at pl ds path = Ok o.
Proof.
  unfold entry_at. destruct path as [|c r]; [eexists; reflexivity|].
  assert (H : exists o, (match c =? slash, r with true, [] => Ok (Some 0) | true, _ => walk pl ds 0 (split_path r) | false, _ => walk pl ds 0 (split_path (c :: r)) end) = Ok o).
  { destruct (c =? slash); [destruct r; [eexists; reflexivity|]|].
    - destruct (walk_chain (split_path (n :: r)) 0) as (o & E & _). exists o. exact E.
    - destruct (walk_chain (split_path (c :: r)) 0) as (o & E & _). exists o. exact E. }
  destruct H as (o & E). rewrite E. cbn [bind]. destruct o; eexists; reflexivity.
Qed.
(** a storage that is found is not deeper than the directory is long *)
Lemma found_depth n path k : store_path n path -> entry_at pl ds path = Ok (Some k) -> (n < List.length ds)%nat.
Proof.
  intros P E. assert (Z : k < lenN ds -> (0 < List.length ds)%nat) by (unfold lenN; lia).
  destruct P as [|n s Hn].
  - unfold entry_at in E. change (slash =? slash) with true in E. cbn [bind] in E. destruct (N.ltb_spec 0 (lenN ds)) as [L|L]; [|discriminate E]. unfold lenN in L. lia.
  - unfold entry_at in E. change (slash =? slash) with true in E. destruct (walk_chain (split_path (s ++ [slash])) 0) as (o & Eo & H).
    destruct (s ++ [slash]) as [|x r] eqn:Es; [destruct s; discriminate Es|]. rewrite Eo in E. cbn [bind] in E. destruct o as [j|]; [|discriminate E].
    destruct H as [H|(ch & Lc & Nc & Fc)]; [discriminate H|]. rewrite <- Es in Lc. rewrite (proj1 (parts_slash s)) in Lc.
    assert (Bc : lenN (0 :: ch) <= lenN ds).
    { apply nodup_short.
      - constructor; [|exact Nc]. intros I. rewrite Forall_forall in Fc. destruct (Fc 0 I) as [C _]. lia.
      - constructor; [|eapply Forall_impl; [|exact Fc]; cbn beta; tauto]. destruct (N.ltb_spec j (lenN ds)); [lia|discriminate E]. }
    unfold lenN in Bc. cbn [List.length] in Bc. lia.
Qed.
End End.

(** ** The walk *)
Section Walk.
Variables (excel : bytes -> res workbook) (rows : list OlessInfo) (s : storage) (d : list node) (height : N -> N).
Hypothesis Tb : forall m, In m rows -> In m ole_list.
Hypothesis Nm : Forall (fun e => lin_name (d_name e)) (st_dir s).
Hypothesis M : Forall2 entry_matches d (st_dir s).
Hypothesis Bd : lenN d <= End.
Hypothesis Tree : forall k n, nthN d k = Some n -> in_use n -> exists l, members d k l /\ Forall (fun j => height j < height k) l.

Lemma directory_ends name : exists b, isDirectory linux64 s name = Ok b.
Proof.
  unfold isDirectory. destruct (entry_at_ends d (st_dir s) height linux64 M Bd Tree name) as (o & E). rewrite E. cbn [bind]. destruct o as [k|]; [|eexists; reflexivity].
  destruct (nthN (st_dir s) k); eexists; reflexivity.
Qed.
Lemma stream_ends path e t : lin_path path -> In e (st_dir s) -> lin_state s t ->
  exists t', guessStreamInfo linux64 excel rows s (d_name e) (path ++ d_name e) t = Ok t' /\ lin_state s t'.
Proof.
  intros P Ie Ht. destruct (lin_stream excel rows s Tb Nm path e t P Ie Ht) as [H|H]; [exact H|exfalso].
  unfold guessStreamInfo in H. destruct (directory_ends (path ++ d_name e)) as (b & E). rewrite E in H. cbn [bind] in H.
  pose proof (proj1 (Forall_forall _ _) Nm e Ie) as Le. cbn beta in Le. destruct b.
  - rewrite (no_vba path (d_name e) P Le) in H. discriminate H.
  - rewrite (no_props (d_name e) Le) in H. destruct (lin_rows excel s Nm path e P Ie rows None Tb (or_introl eq_refl)) as (r & Er & _). rewrite Er in H. discriminate H.
Qed.
Lemma entries_end path : exists l, storage_entries linux64 s path = Ok l /\ (l = [] \/ exists k, entry_at linux64 (st_dir s) path = Ok (Some k)).
Proof.
  destruct (C57_safe linux64 s path) as [[l E]|E].
  - exists l. split; [exact E|]. unfold storage_entries in E. destruct (entry_at_ends d (st_dir s) height linux64 M Bd Tree path) as (o & Eo). rewrite Eo in E. cbn [bind] in E.
    destruct o as [k|]; [right; exists k; exact Eo|left; injection E as <-; reflexivity].
  - exfalso. unfold storage_entries in E. destruct (entry_at_ends d (st_dir s) height linux64 M Bd Tree path) as (o & Eo). rewrite Eo in E. cbn [bind] in E.
    destruct o as [k|]; [|discriminate E]. destruct (nthN (st_dir s) k) as [e|]; [|discriminate E]. destruct (d_dir e); [|discriminate E].
    destruct (all_children d (st_dir s) height M Bd Tree k) as (l & El). rewrite El in E. cbn [bind] in E. clear El. revert E. clear.
    induction l as [|x l IH]; cbn [mapM]; [discriminate|]. destruct (nthN (st_dir s) x); cbn [bind]; [|discriminate].
    destruct (mapM _ l); cbn [bind]; try discriminate. intros _. apply IH. reflexivity.
Qed.
Lemma recurse_ends fuel : forall level path t, lin_path path -> lin_state s t -> store_path level path ->
  (1 <= fuel)%nat -> (S (List.length (st_dir s)) <= fuel + level)%nat ->
  exists t', recurse linux64 excel rows s fuel path t = Ok t' /\ lin_state s t'.
Proof.
  induction fuel as [|fuel IH]; intros level path t P Ht Sp F1 F2; [lia|]. cbn [recurse].
  destruct (entries_end path) as (l & E & H). rewrite E. cbn [bind]. pose proof (lin_entries s path l E) as Fl. clear E.
  assert (Hp : lin_state s (push_path path t)) by exact Ht. revert Hp. generalize (push_path path t). clear t Ht.
  destruct H as [->|(k & Ek)]; [intros t Ht; exists t; split; [reflexivity|exact Ht]|].
  pose proof (found_depth d (st_dir s) height linux64 M Bd Tree level path k Sp Ek) as Dp.
  induction Fl as [|x l (e & Ie & ->) Fl IHl]; intros t Ht; [exists t; split; [reflexivity|exact Ht]|].
  destruct (stream_ends path e t P Ie Ht) as (t1 & E1 & H1). rewrite E1. cbn [bind].
  destruct (directory_ends (path ++ d_name e)) as (b & E2). rewrite E2. cbn [bind]. destruct b; cbn [bind].
  - destruct (IH (S level) ((path ++ d_name e) ++ [slash]) t1) as (t2 & E3 & H2); [apply lin_path_sub; [exact P|]; exact (proj1 (Forall_forall _ _) Nm e Ie)|exact H1|apply store_path_sub; exact Sp|lia|lia|].
    rewrite E3. cbn [bind]. apply IHl. exact H2.
  - apply IHl. exact H1.
Qed.
End Walk.

Theorem linux_ends f c excel rows : stored_as f c -> (forall m, In m rows -> In m ole_list) -> finite_tree (c_dir c) ->
  exists l, Guess linux64 excel rows (Some f) = Ok l.
Proof.
  intros St T (height & Tree). destruct (open_ok linux64 f c (or_introl eq_refl) St) as (s & Eo & So & Nd).
  pose proof So as (_ & _ & _ & _ & _ & _ & M & _). pose proof St as (_ & _ & _ & _ & _ & _ & _ & _ & _ & _ & _ & _ & _ & _ & _ & _ & _ & _ & _ & Bd & _).
  assert (Nm : Forall (fun e => lin_name (d_name e)) (st_dir s)).
  { apply Forall_forall. intros e Ie. apply In_nth_error in Ie. destruct Ie as [i Hi]. assert (Hi' : nthN (st_dir s) (N.of_nat i) = Some e) by (rewrite nthN_nth_error, Nat2N.id; exact Hi).
    destruct (matches_nth' _ _ M _ _ Hi') as (n & Hn & Em). destruct (Nd _ _ _ Hn Hi') as (w & Nb & Na). eapply name_is_lin; eassumption. }
  unfold Guess. rewrite Eo. cbn [bind].
  destruct (recurse_ends excel rows s (c_dir c) height T Nm M Bd Tree (S (List.length (st_dir s))) 0 [slash] (mkState [] [] []) lp_root) as (t & E & _);
    [split; [reflexivity|constructor]|constructor|lia|lia|].
  rewrite E. cbn [bind]. eexists. reflexivity.
Qed.

(** ** A storage with the name A that is its own member and the only member of the root *)
Section Loop.
Variables (s : storage) (excel : bytes -> res workbook) (rows : list OlessInfo) (e0 e1 : dirent).
Hypothesis F0 : find_child linux64 (st_dir s) 0 [65] = Ok 1.
Hypothesis F1 : find_child linux64 (st_dir s) 1 [65] = Ok 1.
Hypothesis C0 : children (st_dir s) 0 = Ok [1].
Hypothesis C1 : children (st_dir s) 1 = Ok [1].
Hypothesis N0 : nthN (st_dir s) 0 = Some e0.
Hypothesis N1 : nthN (st_dir s) 1 = Some e1.
Hypothesis D0 : d_dir e0 = true.
Hypothesis D1 : d_dir e1 = true.
Hypothesis A1 : d_name e1 = [65].
Hypothesis L1 : 1 < lenN (st_dir s).
Definition loop_text (n : nat) : list N := List.concat (List.repeat [65; 47] n).
Lemma loop_parts n : split_path (loop_text n) = List.repeat [65] n.
Proof. induction n as [|n IH]; [reflexivity|]. unfold loop_text in *. cbn. f_equal. exact IH. Qed.
Lemma loop_parts_in n : split_path (loop_text n ++ [65]) = List.repeat [65] (S n).
Proof. induction n as [|n IH]; [reflexivity|]. unfold loop_text in *. cbn. f_equal. exact IH. Qed.
Lemma loop_walk n : walk linux64 (st_dir s) 1 (List.repeat [65] n) = Ok (Some 1).
Proof. induction n as [|n IH]; [reflexivity|]. cbn [List.repeat walk]. rewrite F1. cbn [bind]. exact IH. Qed.
Lemma loop_entry n : entry_at linux64 (st_dir s) (47 :: loop_text n ++ [65]) = Ok (Some 1).
Proof.
  unfold entry_at. change (47 =? slash) with true. destruct (loop_text n ++ [65]) as [|x r] eqn:E; [destruct (loop_text n); discriminate E|].
  rewrite <- E, loop_parts_in. cbn [List.repeat walk]. rewrite F0. cbn [bind]. change (0 <? 1) with true. cbv iota. rewrite loop_walk. cbn [bind].
  replace (1 <? lenN (st_dir s)) with true by lia. reflexivity.
Qed.
Lemma loop_entries n : storage_entries linux64 s (47 :: loop_text n) = Ok [[65]].
Proof.
  unfold storage_entries. destruct n as [|n].
  - unfold entry_at. change (47 =? slash) with true. cbn [loop_text List.repeat List.concat bind]. replace (0 <? lenN (st_dir s)) with true by lia.
    rewrite N0, D0, C0. cbn [bind mapM]. rewrite N1, A1. reflexivity.
  - unfold entry_at. change (47 =? slash) with true. destruct (loop_text (S n)) as [|x r] eqn:E; [discriminate E|].
    rewrite <- E, loop_parts. cbn [List.repeat walk]. rewrite F0. cbn [bind]. change (0 <? 1) with true. cbv iota. rewrite loop_walk. cbn [bind].
    replace (1 <? lenN (st_dir s)) with true by lia. rewrite N1, D1, C1. cbn [bind mapM]. rewrite N1, A1. reflexivity.
Qed.
Lemma loop_snoc n : ((47 :: loop_text n) ++ [65]) ++ [slash] = 47 :: loop_text (S n).
Proof.
  rewrite <- app_assoc. cbn [app]. f_equal. unfold loop_text. change (S n) with (1 + n)%nat. rewrite Nat.add_comm, repeat_app, concat_app. reflexivity.
Qed.
Lemma loop_lin n : lin_path (47 :: loop_text n) /\ lin_name [65].
Proof.
  assert (A : lin_name [65]).
  { split; [left; vm_compute; discriminate|]. intros k K E. change (lenN [65]) with 1 in E. lia. }
  split; [|exact A]. destruct n as [|n]; [apply lp_root|]. apply (lp_below [65] (loop_text n) A).
Qed.
Lemma loop_never fuel : forall n t, recurse linux64 excel rows s fuel (47 :: loop_text n) t = Fuel.
Proof.
  induction fuel as [|fuel IH]; intros n t; [reflexivity|]. rewrite recurse_step, loop_entries. cbn [bind visit_all].
  assert (D : isDirectory linux64 s ((47 :: loop_text n) ++ [65]) = Ok true) by (unfold isDirectory; cbn [app]; rewrite loop_entry; cbn [bind]; rewrite N1, D1; reflexivity).
  unfold guessStreamInfo. rewrite D. cbn [bind]. destruct (loop_lin n) as [P A]. rewrite (no_vba _ _ P A). cbn [bind]. rewrite loop_snoc, IH. reflexivity.
Qed.
End Loop.
