(** The walk through the storages of a compound file ends, on both platforms, when its directory is
    a tree and its chains end. *)
From Coq Require Import List NArith Bool Lia ZifyBool ZifyNat ZifyN Strings.String.
From Verif Require Import Lib.Res Lib.Bytes Lib.BytesFacts Lib.Text Common.Model Common.Spec Common.Fields Common.FieldProofs Common.EndProofs Magic.Model Ole.Model Ole.Spec Ole.Statements
     Ole.MemProofs Ole.ChainProofs Ole.DirProofs Ole.StreamProofs Ole.SafetyProofs Ole.TreeProofs Ole.PropertyLemmas Vba.Analyze Vba.Output Vba.FileSpec Vba.EndProofs
     Propset.Model Propset.MemoryProofs Docs.Model Media.WordPerfect Detect.Model Detect.Spec Detect.Statements Detect.Proofs Detect.TreeProofs Detect.LinuxProofs Detect.TreeSpec Detect.LinuxEnd.
Import ListNotations.
Local Open Scope N_scope.

Lemma free_ends k b : N.of_nat k <= 4294967295 -> ~ endless (List.repeat 4294967295 k) b.
Proof.
  intros Hk (x & _ & L). assert (K : forall b d, links (List.repeat 4294967295 k) b d -> d = 4294967295).
  { clear. intros b d L. induction L as [b c H|b c d H L IH]; [|exact IH]. rewrite nthN_nth_error in H. apply nth_error_In in H. apply repeat_spec in H. exact H. }
  pose proof (K _ _ L) as ->. assert (E : exists v, nthN (List.repeat 4294967295 k) 4294967295 = Some v) by (inversion L; eexists; eassumption).
  destruct E as (v & E). apply nthN_bound in E. unfold lenN in E. rewrite repeat_length in E. lia.
Qed.

Section Walk.
Variables (pl : platform) (excel : bytes -> res workbook) (rows : list OlessInfo) (s : storage) (d : list node) (height : N -> N).
Hypothesis Pl : supported pl.
Hypothesis Tb : forall m, In m rows -> In m ole_list.
Hypothesis M : Forall2 entry_matches d (st_dir s).
Hypothesis Bd : lenN d <= End.
Hypothesis Tree : forall k n, nthN d k = Some n -> in_use n -> exists l, members d k l /\ Forall (fun j => height j < height k) l.
Hypothesis Ch : Forall (fun e => stream_blocks s e <> Fuel /\ d_size e < 2 ^ 32) (st_dir s).
Hypothesis Book : forall r m b, let name := slash :: r in iequals_w name (W "/Workbook") = true \/ iequals_w name (W "/Book") = true ->
  ReadStream pl s name = Ok m -> known m = Some b -> excel b <> Fuel.

Lemma open_end name : ends (fun o => forall e, o = Some e -> stream_blocks s e <> Fuel /\ d_size e < 2 ^ 32) (open_stream pl s name).
Proof.
  destruct (open_stream_cases pl s name) as [(o & E & H)|E].
  - rewrite E. cbn. intros e He. rewrite Forall_forall in Ch. apply Ch. apply H. exact He.
  - exfalso. unfold open_stream in E. destruct (entry_at_ends d (st_dir s) height pl M Bd Tree name) as (o & Eo). rewrite Eo in E. cbn [bind] in E.
    destruct o as [k|]; [|discriminate E]. destruct (nthN (st_dir s) k); discriminate E.
Qed.
Lemma open_end' name : ends (fun o => forall e, o = Some e -> stream_blocks s e <> Fuel) (open_stream pl s name).
Proof. eapply ends_weak; [|apply open_end]. cbn beta. intros o H e He. apply H. exact He. Qed.
Lemma read_nofuel name : ReadStream pl s name <> Fuel.
Proof.
  unfold ReadStream. eapply (ends_not (fun _ => True)). eapply ends_bind; [apply open_end|]. cbn beta. intros [e|] H; [|exact I].
  eapply ends_bind; [apply not_ends; apply H; reflexivity|]. intros l _. eapply ends_bind; [apply stream_read_end|]. intros [data n] _. exact I.
Qed.
Lemma bytes_nofuel name : stream_bytes pl s name <> Fuel.
Proof. unfold stream_bytes. apply bind_nofuel; [apply read_nofuel|]. intros m _. destruct (known m); discriminate. Qed.
Lemma field_nofuel b o n : field b o n <> Fuel.
Proof. unfold field. apply bind_nofuel; [apply slice_nofuel|discriminate]. Qed.
Ltac nofuel := repeat (match goal with
  | |- bind _ _ <> Fuel => apply bind_nofuel; [|intros ? _]
  | |- Ok _ <> Fuel => discriminate
  | |- (if ?c then _ else _) <> Fuel => destruct c
  | |- field _ _ _ <> Fuel => apply field_nofuel
  | |- slice _ _ _ <> Fuel => apply slice_nofuel
  | |- stream_bytes _ _ _ <> Fuel => apply bytes_nofuel
  | |- UB <> Fuel => discriminate end).
Lemma details_nofuel x e r : let name := slash :: r in (x = DExcel -> iequals_w name (W "/Workbook") = true \/ iequals_w name (W "/Book") = true) ->
  details pl excel s x e name <> Fuel.
Proof.
  intros name Hx. unfold details. destruct x; try (solve [unfold word_Detailer, powerpoint_Detailer, publisher_Detailer, visio_Detailer, PptVersion, GetPubVersion, GetnFib, GetVisoVersion; nofuel]).
  unfold stream_bytes. destruct (ReadStream pl s name) as [m| | |] eqn:E; cbn [bind]; try discriminate; [|exact (fun _ => read_nofuel name E)].
  destruct (known m) as [b|] eqn:K; cbn [bind]; [|discriminate]. apply bind_nofuel; [exact (Book r m b (Hx eq_refl) E K)|discriminate].
Qed.
Lemma excel_rows m : In m ole_list -> oi_extraFunc m = Some DExcel -> (oi_matcher m = W "/Workbook" \/ oi_matcher m = W "/Book") /\ oi_ignoreCase m = true.
Proof.
  intros H E. unfold ole_list in H. repeat (destruct H as [<-|H]; [first [discriminate E|split; [first [left; reflexivity|right; reflexivity]|reflexivity]]|]). contradiction H.
Qed.
Lemma weq_iequals a : forall b, weq a b = true -> iequals_w a b = true.
Proof.
  induction a as [|x a IH]; intros [|y b] H; try discriminate H; [reflexivity|]. cbn [weq] in H. apply andb_true_iff in H. destruct H as [H1 H2].
  apply N.eqb_eq in H1. subst y. cbn [iequals_w]. rewrite N.eqb_refl. apply IH. exact H2.
Qed.
Lemma rows_nofuel r l : (forall m, In m l -> In m ole_list) -> forall o, guess_rows pl excel s l (slash :: r) o <> Fuel.
Proof.
  set (name := slash :: r).
  induction l as [|m l IH]; intros T o; cbn [guess_rows]; [discriminate|]. assert (T' : forall m, In m l -> In m ole_list) by (intros; apply T; right; assumption).
  destruct (matches m name) eqn:Mt; [|apply IH; exact T']. apply bind_nofuel; [|intros f _; apply IH; exact T'].
  destruct (oi_extraFunc m) as [x|] eqn:X; [|discriminate]. apply details_nofuel. fold name. intros ->. destruct (excel_rows m (T m (or_introl eq_refl)) X) as [Em Ei].
  assert (Q : iequals_w name (oi_matcher m) = true).
  { unfold matches in Mt. rewrite Ei in Mt. cbn [andb] in Mt. apply orb_true_iff in Mt. destruct Mt as [Mt|Mt]; [exact Mt|apply weq_iequals; exact Mt]. }
  destruct Em as [Em|Em]; rewrite Em in Q; [left|right]; exact Q.
Qed.
Lemma props_nofuel name : parse_stream pl s name <> Fuel.
Proof.
  unfold parse_stream. eapply (ends_not (fun _ => True)). eapply ends_bind; [apply open_end|]. cbn beta. intros [e|] H; [|exact I]. destruct (H e eq_refl) as [H1 H2].
  unfold ParseStream. eapply ends_bind; [apply not_ends; exact H1|]. intros l _. eapply ends_bind; [apply stream_read_end|]. intros [data n] D. cbn [fst] in D.
  destruct (_ =? _); [|exact I]. destruct (known data) as [buf|] eqn:K; [|exact I]. apply not_ends. apply C67_terminates.
  rewrite (known_length _ _ K), D, lenN_blank. exact H2.
Qed.
Lemma dir_nofuel name : exists b, isDirectory pl s name = Ok b.
Proof.
  unfold isDirectory. destruct (entry_at_ends d (st_dir s) height pl M Bd Tree name) as (o & E). rewrite E. cbn [bind]. destruct o as [k|]; [|eexists; reflexivity].
  destruct (nthN (st_dir s) k); eexists; reflexivity.
Qed.
Lemma stream_nofuel name r t : guessStreamInfo pl excel rows s name (slash :: r) t <> Fuel.
Proof.
  set (fullname := slash :: r). unfold guessStreamInfo. destruct (dir_nofuel fullname) as (b & E). rewrite E. cbn [bind]. destruct b.
  - destruct (vba_storage name fullname); [|discriminate]. pose proof (analyze_ends pl s Pl open_end' fullname) as A. destruct (Analyze pl fullname s); try discriminate. exfalso; apply A; reflexivity.
  - destruct (property_stream name).
    + pose proof (props_nofuel fullname) as A. destruct (parse_stream pl s fullname) as [| [] | |]; try discriminate. exfalso; apply A; reflexivity.
    + apply bind_nofuel; [apply rows_nofuel; exact Tb|]. intros o _. destruct o; discriminate.
Qed.
Lemma entries_nofuel path : exists l, storage_entries pl s path = Ok l /\ (l = [] \/ exists k, entry_at pl (st_dir s) path = Ok (Some k)).
Proof.
  destruct (C57_safe pl s path) as [[l E]|E].
  - exists l. split; [exact E|]. unfold storage_entries in E. destruct (entry_at_ends d (st_dir s) height pl M Bd Tree path) as (o & Eo). rewrite Eo in E. cbn [bind] in E.
    destruct o as [k|]; [right; exists k; exact Eo|left; injection E as <-; reflexivity].
  - exfalso. unfold storage_entries in E. destruct (entry_at_ends d (st_dir s) height pl M Bd Tree path) as (o & Eo). rewrite Eo in E. cbn [bind] in E.
    destruct o as [k|]; [|discriminate E]. destruct (nthN (st_dir s) k) as [e|]; [|discriminate E]. destruct (d_dir e); [|discriminate E].
    destruct (all_children d (st_dir s) height M Bd Tree k) as (l & El). rewrite El in E. cbn [bind] in E. clear El. revert E. clear.
    induction l as [|x l IH]; cbn [mapM]; [discriminate|]. destruct (nthN (st_dir s) x); cbn [bind]; [|discriminate].
    destruct (mapM _ l); cbn [bind]; try discriminate. intros _. apply IH. reflexivity.
Qed.
Lemma recurse_nofuel fuel : forall level path t, store_path level path ->
  (1 <= fuel)%nat -> (S (List.length (st_dir s)) <= fuel + level)%nat -> recurse pl excel rows s fuel path t <> Fuel.
Proof.
  induction fuel as [|fuel IH]; intros level path t Sp F1 F2; [lia|]. cbn [recurse].
  destruct (entries_nofuel path) as (l & E & H). rewrite E. cbn [bind]. clear E. generalize (push_path path t). clear t.
  destruct H as [->|(k & Ek)]; [intros t; discriminate|].
  pose proof (found_depth d (st_dir s) height pl M Bd Tree level path k Sp Ek) as Dp.
  induction l as [|x l IHl]; intros t; [discriminate|].
  apply bind_nofuel; [destruct Sp; cbn [app]; apply stream_nofuel|]. intros t1 _. destruct (dir_nofuel (path ++ x)) as (b & E2). rewrite E2. cbn [bind].
  apply bind_nofuel; [|intros t2 _; apply IHl]. destruct b; [|discriminate].
  apply (IH (S level)); [apply store_path_sub; exact Sp|lia|lia].
Qed.
End Walk.

Theorem walk_ends pl f c excel rows : supported pl -> stored_as f c -> (forall m, In m rows -> In m ole_list) -> finite_tree (c_dir c) -> chains_end c ->
  (forall s r m b, let name := slash :: r in storage_load pl (Some f) = Ok (Opened s) -> iequals_w name (W "/Workbook") = true \/ iequals_w name (W "/Book") = true ->
     ReadStream pl s name = Ok m -> known m = Some b -> excel b <> Fuel) ->
  Guess pl excel rows (Some f) <> Fuel.
Proof.
  intros P St T (height & Tree) Ch Bk. destruct (open_ok pl f c P St) as (s & Eo & So & Nd).
  pose proof So as (_ & _ & _ & Th & Bb & Sb & M & _). pose proof St as (_ & _ & _ & _ & _ & _ & _ & _ & _ & _ & _ & _ & Ts1 & _ & _ & _ & Ts2 & _ & _ & Bd & _).
  unfold Guess. rewrite Eo. cbn [bind]. apply bind_nofuel; [|discriminate].
  apply (recurse_nofuel pl excel rows s (c_dir c) height P T M Bd Tree) with (level := 0%nat); [| |constructor|lia|lia].
  - apply Forall_forall. intros e Ie. apply In_nth_error in Ie. destruct Ie as [i Hi]. assert (Hi' : nthN (st_dir s) (N.of_nat i) = Some e) by (rewrite nthN_nth_error, Nat2N.id; exact Hi).
    destruct (matches_nth' _ _ M _ _ Hi') as (n & Hn & Em). destruct (Nd _ _ _ Hn Hi') as (w & Nb & Na).
    assert (Ne : ~ endless (if 4096 <=? n_size n then c_fat c else c_minifat c) (n_start n)).
    { unfold chains_end in Ch. rewrite Forall_forall in Ch. apply Ch. rewrite nthN_nth_error in Hn. eapply nth_error_In. exact Hn. }
    split.
    + unfold stream_blocks. rewrite Th, Bb, Sb. replace (d_size e) with (n_size n) by (rewrite Em; reflexivity). replace (d_start e) with (n_start n) by (rewrite Em; reflexivity).
      destruct (4096 <=? n_size n); [intros F; apply Ne; apply follow_endless; assumption|].
      destruct (c_minifat c) as [|v r] eqn:Ec; [|intros F; apply Ne; apply follow_endless; assumption].
      intros F. apply follow_endless in F; [|unfold table_size; vm_compute; discriminate]. revert F. apply free_ends. vm_compute. discriminate.
    + rewrite Em. cbn [entry_of d_size]. destruct Nb as (_ & _ & _ & _ & _ & _ & _ & Sz). apply number_at_bound in Sz. exact Sz.
  - intros r m b name Hn Hr Hk. exact (Bk s r m b Eo Hn Hr Hk).
Qed.

(** ** Workbooks on Windows *)
Lemma sibling_name ds name fuel : forall i k, find_sibling fuel windows ds i name = Ok k -> k = 0 \/ exists e, nthN ds k = Some e /\ d_name e = name.
Proof.
  induction fuel as [|fuel IH]; intros i k E; [discriminate E|]. cbn [find_sibling] in E. destruct (nthN ds i) as [e|] eqn:H; [|injection E as <-; left; reflexivity].
  destruct (negb (d_valid e)); [injection E as <-; left; reflexivity|]. pose proof (name_compare_windows (d_name e) name) as C.
  destruct (name_compare windows (d_name e) name).
  - injection E as <-. right. exists e. split; assumption.
  - destruct (_ && _) in E; [exact (IH _ _ E)|injection E as <-; left; reflexivity].
  - destruct (_ && _) in E; [exact (IH _ _ E)|injection E as <-; left; reflexivity].
Qed.
Lemma opened_name s r e : plain_name r -> open_stream windows s (slash :: r) = Ok (Some e) -> exists k, nthN (st_dir s) k = Some e /\ d_name e = r /\ d_dir e = false.
Proof.
  intros P E. unfold open_stream in E. apply bind_ok in E. destruct E as (o & Eo & E). destruct o as [k|]; [|discriminate E].
  unfold entry_at in Eo. rewrite N.eqb_refl in Eo. destruct r as [|c r]; [destruct P as [P _]; contradiction|]. rewrite (split_path_last _ P) in Eo. cbn [walk] in Eo.
  apply bind_ok in Eo. destruct Eo as (i & Ei & Eo). apply bind_ok in Ei. destruct Ei as (j & Ej & Ei). destruct (N.ltb_spec 0 j) as [L|L]; [|injection Ei as <-; discriminate Eo].
  injection Ei as <-. destruct (j <? lenN (st_dir s)); [|discriminate Eo]. injection Eo as <-.
  destruct (nthN (st_dir s) j) as [e'|] eqn:H; [|discriminate E]. destruct (d_dir e') eqn:D; [discriminate E|]. injection E as <-. exists j. split; [exact H|]. split; [|exact D].
  unfold find_child in Ej. destruct (nthN (st_dir s) 0) as [e0|]; [|injection Ej as <-; lia]. destruct (_ && _) in Ej; [|injection Ej as <-; lia].
  destruct (sibling_name _ _ _ _ _ Ej) as [->|(e1 & H1 & N1)]; [lia|]. rewrite H in H1. injection H1 as <-. exact N1.
Qed.
Lemma low_plain r w : same_low_letters (slash :: r) (47 :: w) -> w <> [] -> Forall (fun c => lower (c mod 256) <> 47) w -> plain_name r /\ same_low_letters r w.
Proof.
  intros H Hw F. unfold same_low_letters in *. inversion H as [|x y l l' E F2]; subst. split; [|exact F2]. split.
  - intros ->. inversion F2; subst. contradiction.
  - intros I. clear H Hw E. revert F. induction F2 as [|x y l l' E F2 IH]; intros F; [destruct I|]. inversion F; subst. destruct I as [->|I]; [|apply IH; assumption].
    rewrite <- E in H1. apply H1. reflexivity.
Qed.
Theorem windows_ends f c excel rows : stored_as f c -> clean c -> (forall m, In m rows -> In m ole_list) -> finite_tree (c_dir c) -> chains_end c -> excel [] <> Fuel ->
  (forall n, In n (c_dir c) -> is_stream n -> book_name (n_name n) -> exists text, stream_content f c n text /\ excel text <> Fuel) ->
  Guess windows excel rows (Some f) <> Fuel.
Proof.
  intros St Cl T Tr Ch E0 Bk. apply (walk_ends windows f c excel rows (or_intror eq_refl) St T Tr Ch). intros s r m b name Eo Hn Hr Hk.
  destruct (win_names f c s St Cl Eo) as [So M].
  assert (P : plain_name r /\ book_name r).
  { destruct Hn as [Hn|Hn]; apply iequals_low in Hn; (apply low_plain in Hn; [|discriminate|repeat constructor; vm_compute; discriminate]); destruct Hn as [P L]; (split; [exact P|]); [left|right]; exact L. }
  destruct P as [P Bn]. destruct (open_stream windows s name) as [[e|]|x| |] eqn:Os.
  - rewrite (ReadStream_read _ _ _ _ Os) in Hr. destruct (opened_name s r e P Os) as (k & He & Ne & De).
    destruct (matches_nth' _ _ (names_matches _ _ M) _ _ He) as (n & Hk' & Em). destruct (names_nth _ _ M _ _ Hk') as (e' & He' & _ & Nn). rewrite He in He'. injection He' as <-.
    assert (Sn : is_stream n). { rewrite Em in De. cbn in De. unfold is_stream. lia. }
    destruct (Bk n) as (text & (l & data & -> & Le & Hd) & Q); [rewrite nthN_nth_error in Hk'; eapply nth_error_In; exact Hk'|exact Sn|rewrite <- Nn, Ne; exact Bn|].
    rewrite (read_all_ok f c s n e data St So Em (node_size f c k n St Hk')) in Hr; [|exists l; exact Hd|right; exact Le].
    replace (n_size n <=? lenN data) with true in Hr by lia. injection Hr as <-. rewrite known_map in Hk. injection Hk as <-. exact Q.
  - unfold ReadStream in Hr. rewrite Os in Hr. injection Hr as <-. injection Hk as <-. exact E0.
  - unfold ReadStream in Hr. rewrite Os in Hr. discriminate Hr.
  - unfold ReadStream in Hr. rewrite Os in Hr. discriminate Hr.
  - unfold ReadStream in Hr. rewrite Os in Hr. discriminate Hr.
Qed.
