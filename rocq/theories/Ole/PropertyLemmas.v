(** The statements of C51-C57 with their proofs, and the concrete cases. *)
From Coq Require Import List NArith ZArith Bool Lia Sorted.
From Coq Require Import ZifyBool ZifyNat ZifyN.
From Verif Require Import Lib.Res Lib.Bytes Lib.BytesFacts Common.Model Common.Spec Common.Fields Common.Utf8
     Common.ReadProofs Common.FieldProofs Ole.Model Ole.Spec Ole.Statements Ole.MemProofs Ole.ChainProofs
     Ole.LoadProofs Ole.DirProofs Ole.StreamProofs Ole.TreeProofs Ole.SafetyProofs Ole.OutcomeProofs Ole.ExactProofs Ole.Samples.
Import ListNotations.
Local Open Scope N_scope.
Ltac Zify.zify_post_hook ::= Z.div_mod_to_equations.
Arguments N.pow : simpl never.

(** ** C51 *)
Lemma C51_none pl : storage_load pl None = Ok OpenFailed.
Proof. reflexivity. Qed.
Lemma C51_short pl (f : bytes) : lenN f < 512 -> storage_load pl (Some f) = UB.
Proof. apply short_ub. Qed.
Lemma C51_not pl (f : bytes) : 512 <= lenN f -> ~ window f 0 8 cfb_magic -> storage_load pl (Some f) = Ok NotOLE.
Proof. apply not_ole. Qed.
Lemma C51_bad pl (f : bytes) a b n m t : 512 <= lenN f -> window f 0 8 cfb_magic -> header_numbers f a b n m t ->
  ~ good_numbers a b n m t -> storage_load pl (Some f) = Ok BadOLE.
Proof. apply bad_ole. Qed.
Lemma C51_good pl (f : bytes) a b n m t : 512 <= lenN f -> window f 0 8 cfb_magic -> header_numbers f a b n m t ->
  good_numbers a b n m t -> settled (storage_load pl (Some f)).
Proof. apply open_settled. Qed.
Lemma C51_refuted : exists f : bytes, window f 0 8 cfb_magic /\ forall pl, storage_load pl (Some f) = UB.
Proof. exists cfb_magic. split; [apply win_ok; reflexivity|]. intros pl. apply short_ub. reflexivity. Qed.
Lemma C51_ex : 512 <= lenN file1 /\ window file1 0 8 cfb_magic /\ header_numbers file1 9 6 1 0 4096 /\ good_numbers 9 6 1 0 4096.
Proof.
  split; [vm_compute; discriminate|]. split; [apply win_ok; vm_compute; reflexivity|]. split.
  - repeat split; apply num_ok; vm_compute; reflexivity.
  - unfold good_numbers. lia.
Qed.

(** ** C52 *)
Lemma C52_iff t b l : table_size t -> (follow t b = Ok l <-> chain t b l).
Proof. apply follow_iff. Qed.
Lemma C52_endless t b : table_size t -> (follow t b = Fuel <-> endless t b).
Proof. apply follow_endless. Qed.
Lemma C52_forever t b : table_size t -> endless t b -> forall fuel, follow_loop fuel t b = Fuel.
Proof. intros T E. apply follow_forever; [exact T|]. apply follow_endless; assumption. Qed.
Lemma C52_once t b l : table_size t -> follow t b = Ok l -> NoDup l /\ Forall (fun x => x < lenN t) l.
Proof. intros T H. apply follow_iff in H; [|exact T]. split; [eapply chain_nodup; exact H|eapply chain_inside; exact H]. Qed.
(** The mini FAT is sector 2, which the FAT links to itself. *)
Definition file5 : bytes := build 2 [4294967293; 4; 2; EOC; EOC] [EOC; EOC] dir2 (counting 128) [].
Lemma file5_present : fat_present file5 9 [0] (words_to 128 [4294967293; 4; 2; EOC; EOC]).
Proof.
  split; [|split; [|split]].
  - unfold header_lists. split; [vm_compute; discriminate|]. split; [apply N.ltb_lt; vm_compute; reflexivity|].
    split; [apply win_ok; vm_compute; reflexivity|]. split.
    { exists 6, 0. split; [repeat split; apply num_ok; vm_compute; reflexivity|]. unfold good_numbers. change (lenN [0]) with 1. lia. }
    split; [vm_compute; discriminate|]. split; [apply N.ltb_lt; vm_compute; reflexivity|].
    intros i v Hi. cbn [nthN] in Hi. destruct (N.eqb_spec i 0) as [->|K]; [|discriminate]. injection Hi as <-. apply num_ok. vm_compute. reflexivity.
  - apply secs_ok. vm_compute. reflexivity.
  - apply small32_sound. vm_compute. reflexivity.
  - vm_compute. discriminate.
Qed.
Lemma C52_refuted : exists f : bytes, lenN f < 4096 /\ forall pl, storage_load pl (Some f) = Fuel.
Proof.
  exists file5. split; [vm_compute; reflexivity|]. intros pl.
  eapply endless_minifat; [exact file5_present|apply (num_ok file5 60 4 2); vm_compute; reflexivity|].
  exists 2. split; [left; reflexivity|]. constructor. vm_compute. reflexivity.
Qed.
Lemma C52_ex : table_size (c_fat comp1) /\ chain (c_fat comp1) 5 [5; 6; 7; 8; 9; 10; 11; 12; 13].
Proof. split; [vm_compute; discriminate|]. apply chain_ok_sound. vm_compute. reflexivity. Qed.

(** ** C53 *)
Lemma C53_opens pl (f : bytes) c : supported pl -> stored_as f c ->
  exists s, storage_load pl (Some f) = Ok (Opened s) /\ storage_of f c s.
Proof. intros P St. destruct (open_ok pl f c P St) as (s & A & B & _). exists s. split; assumption. Qed.
Lemma C53_missing pl (f : bytes) shift l : header_lists f shift l -> Exists (missing f (2 ^ shift)) l -> storage_load pl (Some f) = UB.
Proof. apply missing_fat. Qed.
Lemma C53_minifat pl (f : bytes) shift l t s : fat_present f shift l t -> number_at f 60 4 s -> endless t s ->
  storage_load pl (Some f) = Fuel.
Proof. apply endless_minifat. Qed.
Lemma C53_directory pl (f : bytes) shift l t s s' : fat_present f shift l t -> number_at f 60 4 s -> lenN t <= s ->
  number_at f 48 4 s' -> endless t s' -> storage_load pl (Some f) = Fuel.
Proof. apply endless_directory. Qed.
Lemma C53_nowhere pl (f : bytes) shift l t s s' : fat_present f shift l t -> number_at f 60 4 s -> lenN t <= s ->
  number_at f 48 4 s' -> lenN t <= s' -> storage_load pl (Some f) = UB.
Proof. apply no_directory. Qed.
Lemma C53_refuted : exists (f : bytes) n, stored_as f comp1 /\ n < lenN f /\ 512 <= n /\ forall pl, storage_load pl (Some (takeN n f)) = UB.
Proof.
  exists file1, 700. split; [exact file1_stored|]. split; [vm_compute; reflexivity|]. split; [lia|]. intros pl.
  apply (missing_fat pl (takeN 700 file1) 9 [0]).
  - split; [vm_compute; discriminate|]. split; [apply N.ltb_lt; vm_compute; reflexivity|].
    split; [apply win_ok; vm_compute; reflexivity|]. split.
    { exists 6, 0. split; [repeat split; apply num_ok; vm_compute; reflexivity|]. unfold good_numbers. change (lenN [0]) with 1. lia. }
    split; [vm_compute; discriminate|]. split; [apply N.ltb_lt; vm_compute; reflexivity|].
    intros i v Hi. cbn [nthN] in Hi. destruct (N.eqb_spec i 0) as [->|K]; [|discriminate]. injection Hi as <-. apply num_ok. vm_compute. reflexivity.
  - constructor. vm_compute. reflexivity.
Qed.
Lemma C53_ex : stored_as file1 comp1 /\ lenN (c_dir comp1) = 8 /\ lenN (c_mini comp1) = 512.
Proof. split; [exact file1_stored|]. split; vm_compute; reflexivity. Qed.

(** ** C54 *)
Lemma C54_win (f : bytes) c s i n e : stored_as f c -> storage_load windows (Some f) = Ok (Opened s) ->
  nthN (c_dir c) i = Some n -> nthN (st_dir s) i = Some e -> d_name e = visible (n_name n).
Proof.
  intros St Eo Hn He. destruct (open_ok windows f c (or_intror eq_refl) St) as (s' & E' & _ & Nm).
  rewrite Eo in E'. injection E' as ->. destruct (Nm i n e Hn He) as (w & Nb & Na). eapply name_windows; eassumption.
Qed.
Lemma C54_lin (f : bytes) c s i n e : stored_as f c -> storage_load linux64 (Some f) = Ok (Opened s) ->
  nthN (c_dir c) i = Some n -> nthN (st_dir s) i = Some e -> 2 <= lenN (visible (n_name n)) ->
  exists x r, d_name e = x :: r /\ 65536 <= x.
Proof.
  intros St Eo Hn He L. destruct (open_ok linux64 f c (or_introl eq_refl) St) as (s' & E' & _ & Nm).
  rewrite Eo in E'. injection E' as ->. destruct (Nm i n e Hn He) as (w & Nb & Na). eapply name_linux; eassumption.
Qed.
Lemma nth_both {A C} (R : A -> C -> Prop) l m : Forall2 R l m -> forall i a, nthN l i = Some a -> exists c, nthN m i = Some c.
Proof. intros F i a H. destruct (Forall2_nth R l m F i a H) as (c & Hc & _). exists c. exact Hc. Qed.
Lemma C54_refuted_win : exists (f : bytes) c s i n e, stored_as f c /\ storage_load windows (Some f) = Ok (Opened s) /\
  nthN (c_dir c) i = Some n /\ nthN (st_dir s) i = Some e /\ d_name e <> n_name n.
Proof.
  destruct (C53_opens windows file4 comp4 (or_intror eq_refl) file4_stored) as (s & Eo & So).
  assert (Hn : nthN (c_dir comp4) 1 = Some (mkNode n_bar 2 FREE FREE FREE 0 64)) by reflexivity.
  destruct So as (_ & _ & _ & _ & _ & _ & F & _). destruct (nth_both _ _ _ F _ _ Hn) as (e & He).
  exists file4, comp4, s, 1, (mkNode n_bar 2 FREE FREE FREE 0 64), e. split; [exact file4_stored|]. split; [exact Eo|].
  split; [exact Hn|]. split; [exact He|]. rewrite (C54_win _ _ _ _ _ _ file4_stored Eo Hn He). vm_compute. discriminate.
Qed.
Lemma C54_refuted_lin : exists (f : bytes) c s i n e, stored_as f c /\ clean c /\ storage_load linux64 (Some f) = Ok (Opened s) /\
  nthN (c_dir c) i = Some n /\ nthN (st_dir s) i = Some e /\ d_name e <> n_name n.
Proof.
  destruct (C53_opens linux64 file1 comp1 (or_introl eq_refl) file1_stored) as (s & Eo & So).
  assert (Hn : nthN (c_dir comp1) 4 = Some (mkNode n_workbook 2 FREE FREE FREE 5 4100)) by reflexivity.
  destruct So as (_ & _ & _ & _ & _ & _ & F & _). destruct (nth_both _ _ _ F _ _ Hn) as (e & He).
  exists file1, comp1, s, 4, (mkNode n_workbook 2 FREE FREE FREE 5 4100), e. split; [exact file1_stored|].
  split; [repeat constructor|]. split; [exact Eo|].
  split; [exact Hn|]. split; [exact He|].
  destruct (C54_lin _ _ _ _ _ _ file1_stored Eo Hn He) as (x & r & E & B); [vm_compute; discriminate|].
  rewrite E. cbn [n_name]. unfold n_workbook. intros K. injection K as -> _. lia.
Qed.
Lemma C54_ex : clean comp1 /\ ~ clean comp4 /\ exists n, nthN (c_dir comp1) 2 = Some n /\ visible (n_name n) = n_notes.
Proof.
  split; [repeat constructor|]. split.
  - intros F. unfold clean in F. rewrite Forall_forall in F. specialize (F (mkNode n_bar 2 FREE FREE FREE 0 64)).
    assert (H : visible n_bar = n_bar) by (apply F; right; left; reflexivity). vm_compute in H. discriminate.
  - exists (mkNode n_notes 2 1 4 FREE 0 70). split; reflexivity.
Qed.

(** ** C55 *)
Lemma win_names (f : bytes) c s : stored_as f c -> clean c -> storage_load windows (Some f) = Ok (Opened s) ->
  storage_of f c s /\ names_ok (c_dir c) (st_dir s).
Proof.
  intros St Cl Eo. destruct (C53_opens windows f c (or_intror eq_refl) St) as (s' & E' & So). rewrite Eo in E'. injection E' as <-.
  split; [exact So|]. pose proof So as (_ & _ & _ & _ & _ & _ & F & _). unfold names_ok.
  assert (Hall : forall i n e, nthN (c_dir c) i = Some n -> nthN (st_dir s) i = Some e -> d_name e = n_name n).
  { intros i n e Hn He. rewrite (C54_win f c s i n e St Eo Hn He). unfold clean in Cl. rewrite Forall_forall in Cl. apply Cl.
    rewrite nthN_nth_error in Hn. eapply nth_error_In. exact Hn. }
  clear - F Hall. induction F as [|n e d l M F IH]; [constructor|].
  constructor; [split; [exact M|apply (Hall 0); reflexivity]|]. apply IH. intros i n' e' Hn He.
  apply (Hall (i + 1)); cbn [nthN]; (destruct (N.eqb_spec (i + 1) 0); [lia|]); rewrite ?N.add_1_r, ?N.pred_succ; assumption.
Qed.
Lemma node_size f c i n : stored_as f c -> nthN (c_dir c) i = Some n -> n_size n < 2 ^ 32.
Proof.
  intros St Hn. pose proof St as (_ & _ & _ & _ & _ & _ & _ & _ & _ & _ & _ & _ & _ & _ & _ & _ & _ & _ & (ws & F & _) & _).
  destruct (Forall2_nth _ _ _ F i n Hn) as (w & _ & Nb). destruct Nb as (_ & _ & _ & _ & _ & _ & _ & Sz).
  apply number_at_bound in Sz. exact Sz.
Qed.
Lemma stream_opened c s names k n : names_ok (c_dir c) (st_dir s) -> names <> [] -> Forall plain_name names ->
  at_path node_lt (c_dir c) 0 names k -> nthN (c_dir c) k = Some n -> is_stream n ->
  exists e, open_stream windows s (path_text names) = Ok (Some e) /\ entry_matches n e.
Proof.
  intros M Hne F P Hn Hs. destruct (names_nth _ _ M _ _ Hn) as (e & He & Em & _). exists e. split; [|exact Em].
  unfold open_stream. rewrite (entry_at_ok _ _ _ _ M Hne F P). cbn [bind]. rewrite He.
  replace (d_dir e) with false; [reflexivity|]. rewrite Em. cbn [d_dir entry_of]. rewrite Hs. reflexivity.
Qed.
Lemma C55_reads (f : bytes) c names k n content : stored_as f c -> clean c -> names <> [] -> Forall plain_name names ->
  at_path node_lt (c_dir c) 0 names k -> nthN (c_dir c) k = Some n -> is_stream n -> stream_content f c n content ->
  exists s, storage_load windows (Some f) = Ok (Opened s) /\ ReadStream windows s (path_text names) = Ok (map Some content).
Proof.
  intros St Cl Hne F P Hn Hs (l & data & -> & Hle & Hd).
  destruct (C53_opens windows f c (or_intror eq_refl) St) as (s & Eo & So). exists s. split; [exact Eo|].
  destruct (win_names f c s St Cl Eo) as [_ M].
  destruct (stream_opened c s names k n M Hne F P Hn Hs) as (e & Es & Em). rewrite (ReadStream_read _ _ _ _ Es).
  rewrite (read_all_ok f c s n e data St So Em (node_size f c k n St Hn)); [|exists l; exact Hd|right; exact Hle].
  replace (n_size n <=? lenN data) with true by lia. reflexivity.
Qed.
Lemma C55_short (f : bytes) c names k n l data : stored_as f c -> clean c -> names <> [] -> Forall plain_name names ->
  at_path node_lt (c_dir c) 0 names k -> nthN (c_dir c) k = Some n -> is_stream n ->
  (if 4096 <=? n_size n
   then chain (c_fat c) (n_start n) l /\ sectors f (2 ^ c_shift c) l data
   else c_minifat c <> [] /\ chain (c_minifat c) (n_start n) l /\ exists ws, Forall2 (small_sector c) l ws /\ data = List.concat ws) ->
  lenN data < n_size n ->
  exists s, storage_load windows (Some f) = Ok (Opened s) /\ ReadStream windows s (path_text names) = Ok [].
Proof.
  intros St Cl Hne F P Hn Hs Hd Hlt.
  destruct (C53_opens windows f c (or_intror eq_refl) St) as (s & Eo & So). exists s. split; [exact Eo|].
  destruct (win_names f c s St Cl Eo) as [_ M].
  destruct (stream_opened c s names k n M Hne F P Hn Hs) as (e & Es & Em). rewrite (ReadStream_read _ _ _ _ Es).
  destruct (4096 <=? n_size n) eqn:Big.
  - destruct Hd as [C Sd]. destruct Sd as (ws & Fs & Ed) eqn:Q. clear Q.
    pose proof (sectors_len f _ l data (ex_intro _ ws (conj Fs Ed))) as Ll.
    rewrite (read_all_any f c s n e l St So Em (node_size f c k n St Hn)); [|lia|exact C].
    rewrite <- Ll. replace (n_size n <=? lenN data) with false by lia. reflexivity.
  - destruct Hd as (Hm & C & Hw).
    rewrite (read_all_ok f c s n e data St So Em (node_size f c k n St Hn)); [|exists l; rewrite Big; split; assumption|left; exact Hm].
    replace (n_size n <=? lenN data) with false by lia. reflexivity.
Qed.
Lemma C55_exact (f : bytes) c names k n l : stored_as f c -> clean c -> names <> [] -> Forall plain_name names ->
  at_path node_lt (c_dir c) 0 names k -> nthN (c_dir c) k = Some n -> is_stream n -> 4096 <= n_size n ->
  chain (c_fat c) (n_start n) l ->
  exists s, storage_load windows (Some f) = Ok (Opened s) /\
    ReadStream windows s (path_text names) =
    Ok (if n_size n <=? lenN l * 2 ^ c_shift c
        then takeN (n_size n) (arriving f (2 ^ c_shift c) (repeatN None (2 ^ c_shift c)) l) else []).
Proof.
  intros St Cl Hne F P Hn Hs Big C.
  destruct (C53_opens windows f c (or_intror eq_refl) St) as (s & Eo & So). exists s. split; [exact Eo|].
  destruct (win_names f c s St Cl Eo) as [_ M].
  destruct (stream_opened c s names k n M Hne F P Hn Hs) as (e & Es & Em). rewrite (ReadStream_read _ _ _ _ Es).
  apply (read_all_any f c s n e l St So Em (node_size f c k n St Hn) Big C).
Qed.
Lemma C55_safe pl (f : bytes) s name : storage_load pl (Some f) = Ok (Opened s) ->
  (exists m, ReadStream pl s name = Ok m) \/ ReadStream pl s name = Fuel.
Proof.
  intros H. destruct (opened_inv pl f s H) as [V F]. apply ReadStream_safe; [exact V|].
  eapply Forall_impl; [|exact F]. cbn beta. intros e B. change (2 ^ 64) with (2 ^ 32 * 2 ^ 32). nia.
Qed.
(** The members of the root of the first file: Data, Notes, Workbook. *)
Lemma root1 : sorted_members node_lt dir1 0 [1; 2; 4].
Proof.
  split.
  { exists (mkNode n_root 5 FREE FREE 2 3 512). split; [reflexivity|]. cbn [n_child].
    apply (sib_node dir1 2 (mkNode n_notes 2 1 4 FREE 0 70) [1] [4]); [reflexivity| |]; cbn [n_prev n_next].
    - apply (sib_node dir1 1 (mkNode n_data 1 FREE FREE 3 0 0) [] []); [reflexivity| |]; constructor; vm_compute; discriminate.
    - apply (sib_node dir1 4 (mkNode n_workbook 2 FREE FREE FREE 5 4100) [] []); [reflexivity| |]; constructor; vm_compute; discriminate. }
  split.
  { assert (H : forall i j m n, nthN dir1 i = Some m -> nthN dir1 j = Some n -> lenN (n_name m) < lenN (n_name n) -> node_lt dir1 i j).
    { intros i j m n Hi Hj L. exists m, n. split; [exact Hi|]. split; [exact Hj|]. left. exact L. }
    repeat constructor; (eapply H; [reflexivity|reflexivity|vm_compute; reflexivity]). }
  split; [repeat constructor|].
  constructor; [eexists; split; [reflexivity|left; reflexivity]|]. constructor; [eexists; split; [reflexivity|right; left; reflexivity]|].
  constructor; [eexists; split; [reflexivity|right; left; reflexivity]|]. constructor.
Qed.
Lemma workbook_path : at_path node_lt dir1 0 [n_workbook] 4.
Proof.
  eapply at_member; [reflexivity|right; right; reflexivity|exact root1|right; right; left; reflexivity| |constructor].
  eexists. split; reflexivity.
Qed.
Lemma notes_path : at_path node_lt dir1 0 [n_notes] 2.
Proof.
  eapply at_member; [reflexivity|right; right; reflexivity|exact root1|right; left; reflexivity| |constructor].
  eexists. split; reflexivity.
Qed.
Lemma plain1 n : n <> [] -> forallb (fun c => negb (c =? 47)) n = true -> Forall plain_name [n].
Proof.
  intros H F. constructor; [|constructor]. split; [exact H|]. intros K. rewrite forallb_forall in F. apply F in K. cbn in K. discriminate.
Qed.
Lemma chain5 : chain (c_fat comp1) 5 [5; 6; 7; 8; 9; 10; 11; 12; 13].
Proof. apply chain_ok_sound. vm_compute. reflexivity. Qed.
(** Three kilobytes of the first file: the sectors of the workbook are missing. *)
Lemma C55_refuted_unwritten : exists (f : bytes) c s names n, stored_as f c /\ clean c /\ at_path node_lt (c_dir c) 0 names n /\
  storage_load windows (Some f) = Ok (Opened s) /\ ReadStream windows s (path_text names) = Ok (repeatN None 4100).
Proof.
  destruct (C55_exact (takeN 3072 file1) comp1 [n_workbook] 4 (mkNode n_workbook 2 FREE FREE FREE 5 4100) [5; 6; 7; 8; 9; 10; 11; 12; 13] file1_cut_stored) as (s & Eo & Er).
  - repeat constructor.
  - discriminate.
  - apply plain1; [discriminate|reflexivity].
  - exact workbook_path.
  - reflexivity.
  - reflexivity.
  - cbn [n_size]. lia.
  - exact chain5.
  - exists (takeN 3072 file1), comp1, s, [n_workbook], 4. split; [exact file1_cut_stored|]. split; [repeat constructor|].
    split; [exact workbook_path|]. split; [exact Eo|]. rewrite Er. vm_compute. reflexivity.
Qed.
(** Without the last sector its place is taken by the bytes of the sector before. *)
Lemma C55_refuted_stale : exists (f : bytes) c s names n m, stored_as f c /\ clean c /\ at_path node_lt (c_dir c) 0 names n /\
  storage_load windows (Some f) = Ok (Opened s) /\ ReadStream windows s (path_text names) = Ok m /\
  lenN f = 7168 /\ lenN m = 4100 /\ takeN 4096 m = map Some (dropN 3072 f) /\ dropN 4096 m = map Some (takeN 4 (dropN 6656 f)).
Proof.
  destruct (C55_exact (takeN 7168 file1) comp1 [n_workbook] 4 (mkNode n_workbook 2 FREE FREE FREE 5 4100) [5; 6; 7; 8; 9; 10; 11; 12; 13] file1_cut2_stored) as (s & Eo & Er).
  - repeat constructor.
  - discriminate.
  - apply plain1; [discriminate|reflexivity].
  - exact workbook_path.
  - reflexivity.
  - reflexivity.
  - cbn [n_size]. lia.
  - exact chain5.
  - eexists (takeN 7168 file1), comp1, s, [n_workbook], 4, _. split; [exact file1_cut2_stored|]. split; [repeat constructor|].
    split; [exact workbook_path|]. split; [exact Eo|]. split; [rewrite Er; reflexivity|].
    split; [vm_compute; reflexivity|]. split; [vm_compute; reflexivity|]. split; vm_compute; reflexivity.
Qed.
Lemma C55_ex : stored_as file1 comp1 /\ clean comp1 /\ at_path node_lt (c_dir comp1) 0 [n_notes] 2 /\
  (exists n, nthN (c_dir comp1) 2 = Some n /\ is_stream n /\ stream_content file1 comp1 n (counting 70)) /\
  at_path node_lt (c_dir comp1) 0 [n_workbook] 4 /\
  (exists n, nthN (c_dir comp1) 4 = Some n /\ is_stream n /\ stream_content file1 comp1 n (counting 4100)).
Proof.
  split; [exact file1_stored|]. split; [repeat constructor|]. split; [exact notes_path|]. split.
  { eexists. split; [reflexivity|]. split; [reflexivity|]. exists [0; 1], (counting 128). split; [vm_compute; reflexivity|].
    split; [vm_compute; discriminate|]. change (4096 <=? _) with false. cbn iota. split; [apply chain_ok_sound; vm_compute; reflexivity|].
    apply small_secs_ok. vm_compute. reflexivity. }
  split; [exact workbook_path|].
  eexists. split; [reflexivity|]. split; [reflexivity|]. exists [5; 6; 7; 8; 9; 10; 11; 12; 13], (counting 4608). split; [vm_compute; reflexivity|].
  split; [vm_compute; discriminate|]. change (4096 <=? _) with true. cbn iota. split; [exact chain5|].
  apply secs_ok. vm_compute. reflexivity.
Qed.

(** ** C56 *)
Lemma C56_found (f : bytes) c names k : stored_as f c -> clean c -> names <> [] -> Forall plain_name names ->
  at_path node_lt (c_dir c) 0 names k ->
  exists s, storage_load windows (Some f) = Ok (Opened s) /\ exists_ windows s (path_text names) = Ok true.
Proof.
  intros St Cl Hne F P. destruct (C53_opens windows f c (or_intror eq_refl) St) as (s & Eo & So). exists s. split; [exact Eo|].
  destruct (win_names f c s St Cl Eo) as [_ M]. unfold exists_. rewrite (entry_at_ok _ _ _ _ M Hne F P). reflexivity.
Qed.
Lemma C56_absent (f : bytes) c names k name rest n l : stored_as f c -> clean c -> path_parts (names ++ name :: rest) ->
  at_path node_lt (c_dir c) 0 names k -> nthN (c_dir c) k = Some n -> in_use n -> sorted_members node_lt (c_dir c) k l ->
  (forall j m, In j l -> nthN (c_dir c) j = Some m -> n_name m <> name) ->
  exists s, storage_load windows (Some f) = Ok (Opened s) /\
    exists_ windows s (path_text (names ++ name :: rest)) = Ok false /\
    ReadStream windows s (path_text (names ++ name :: rest)) = Ok [].
Proof.
  intros St Cl F P Hn U Sm No. destruct (C53_opens windows f c (or_intror eq_refl) St) as (s & Eo & So). exists s. split; [exact Eo|].
  destruct (win_names f c s St Cl Eo) as [_ M].
  assert (E : entry_at windows (st_dir s) (path_text (names ++ name :: rest)) = Ok None).
  { eapply entry_at_none; try eassumption. intros j Hj (m & Hm & K). eapply No; eassumption. }
  unfold exists_, ReadStream, open_stream. rewrite E. split; reflexivity.
Qed.
Lemma C56_linux (f : bytes) c s names1 name names2 : stored_as f c -> storage_load linux64 (Some f) = Ok (Opened s) ->
  2 <= lenN name -> Forall (fun x => x < 65536) name -> Forall plain_name (names1 ++ name :: names2) ->
  (exists_ linux64 s (path_text (names1 ++ name :: names2)) = Ok false /\ ReadStream linux64 s (path_text (names1 ++ name :: names2)) = Ok []) \/
  (exists_ linux64 s (path_text (names1 ++ name :: names2)) = Fuel /\ ReadStream linux64 s (path_text (names1 ++ name :: names2)) = Fuel).
Proof.
  intros St Eo L B F. destruct (open_ok linux64 f c (or_introl eq_refl) St) as (s' & E' & So & Nm).
  rewrite Eo in E'. injection E' as <-. pose proof (open_garbled f c s St So Nm) as G.
  unfold exists_, ReadStream, open_stream.
  destruct (entry_garbled (st_dir s) names1 name names2 G L B F) as [E|E]; rewrite E; [left|right]; split; reflexivity.
Qed.
Lemma root2 : sorted_members cfb_lt dir2 0 [1; 2].
Proof.
  split.
  { exists (mkNode n_root 5 FREE FREE 1 3 512). split; [reflexivity|]. cbn [n_child].
    apply (sib_node dir2 1 (mkNode n_abc 2 FREE 2 FREE 0 64) [] [2]); [reflexivity|constructor; vm_compute; discriminate|]; cbn [n_next].
    apply (sib_node dir2 2 (mkNode n_zed 2 FREE FREE FREE 1 64) [] []); [reflexivity| |]; constructor; vm_compute; discriminate. }
  split.
  { constructor; [repeat constructor|]. constructor; [|constructor].
    eexists _, _. split; [reflexivity|]. split; [reflexivity|]. right. split; [reflexivity|]. left. vm_compute. reflexivity. }
  split; [repeat constructor|].
  constructor; [eexists; split; [reflexivity|right; left; reflexivity]|]. constructor; [eexists; split; [reflexivity|right; left; reflexivity]|]. constructor.
Qed.
Lemma C56_refuted_order : exists (f : bytes) c s names k, stored_as f c /\ clean c /\ at_path cfb_lt (c_dir c) 0 names k /\
  storage_load windows (Some f) = Ok (Opened s) /\ exists_ windows s (path_text names) = Ok false /\
  ReadStream windows s (path_text names) = Ok [].
Proof.
  destruct (C53_opens windows file2 comp2 (or_intror eq_refl) file2_stored) as (s & Eo & So).
  exists file2, comp2, s, [n_zed], 2. split; [exact file2_stored|]. split; [repeat constructor|]. split.
  { eapply at_member; [reflexivity|right; right; reflexivity|exact root2|right; left; reflexivity| |constructor]. eexists. split; reflexivity. }
  split; [exact Eo|].
  assert (E : (r <- storage_load windows (Some file2) ;; match r with Opened s => exists_ windows s (path_text [n_zed]) | _ => UB end) = Ok false)
    by (vm_compute; reflexivity).
  rewrite Eo in E. cbn [bind] in E. split; [exact E|].
  unfold exists_ in E. apply bind_ok in E. destruct E as (o & Eo' & E). destruct o; [discriminate|].
  unfold ReadStream, open_stream. rewrite Eo'. reflexivity.
Qed.
Lemma C56_refuted_linux : exists (f : bytes) c s names k, stored_as f c /\ clean c /\ at_path node_lt (c_dir c) 0 names k /\
  storage_load linux64 (Some f) = Ok (Opened s) /\ exists_ linux64 s (path_text names) = Ok false.
Proof.
  destruct (C53_opens linux64 file1 comp1 (or_introl eq_refl) file1_stored) as (s & Eo & So).
  exists file1, comp1, s, [n_workbook], 4. split; [exact file1_stored|]. split; [repeat constructor|]. split; [exact workbook_path|].
  split; [exact Eo|].
  assert (E : (r <- storage_load linux64 (Some file1) ;; match r with Opened s => exists_ linux64 s (path_text [n_workbook]) | _ => UB end) = Ok false)
    by (vm_compute; reflexivity).
  rewrite Eo in E. exact E.
Qed.
Lemma C56_ex : at_path node_lt (c_dir comp1) 0 [n_workbook] 4 /\ sorted_members node_lt (c_dir comp1) 0 [1; 2; 4] /\
  forall j m, In j [1; 2; 4] -> nthN (c_dir comp1) j = Some m -> n_name m <> n_zed.
Proof.
  split; [exact workbook_path|]. split; [exact root1|]. intros j m [<-|[<-|[<-|[]]]] H; injection H as <-; discriminate.
Qed.
Lemma C56_empty_ex : path_parts ([] ++ [] :: [n_workbook]) /\ at_path node_lt (c_dir comp1) 0 [] 0 /\
  forall j m, In j [1; 2; 4] -> nthN (c_dir comp1) j = Some m -> n_name m <> [].
Proof.
  split; [split; [constructor; [intros []|constructor; [cbn; intuition discriminate|constructor]]|discriminate]|].
  split; [constructor|]. intros j m [<-|[<-|[<-|[]]]] H; injection H as <-; discriminate.
Qed.

(** ** C57 *)
Lemma entry_of_path c s names k : names_ok (c_dir c) (st_dir s) -> Forall plain_name names -> at_path node_lt (c_dir c) 0 names k ->
  k < lenN (c_dir c) -> entry_at windows (st_dir s) (path_of names) = Ok (Some k).
Proof.
  intros M F P B. destruct names as [|x names]; cbn [path_of].
  - inversion P; subst. unfold entry_at. change (47 =? slash) with true. cbn [bind]. rewrite <- (Forall2_len _ _ _ M).
    replace (0 <? lenN (c_dir c)) with true by lia. reflexivity.
  - apply (entry_at_ok (c_dir c)); [exact M|discriminate|exact F|exact P].
Qed.
Lemma members_names d ds l : names_ok d ds -> Forall (fun i => i < lenN d) l ->
  exists ns, mapM (fun c => match nthN ds c with Some e => Ok (d_name e) | None => UB end) l = Ok ns /\
    Forall2 (fun i n => exists m, nthN d i = Some m /\ n_name m = n) l ns.
Proof.
  intros M. induction l as [|i l IH]; intros F; cbn [mapM]; [exists []; split; [reflexivity|constructor]|].
  apply Forall_cons_iff in F. destruct F as [B F]. destruct (nthN_ex d i B) as (m & Hm).
  destruct (names_nth _ _ M _ _ Hm) as (e & He & _ & En). rewrite He. cbn [bind].
  destruct (IH F) as (ns & E & F2). rewrite E. cbn [bind]. exists (d_name e :: ns). split; [reflexivity|].
  constructor; [|exact F2]. exists m. split; [exact Hm|symmetry; exact En].
Qed.
Lemma siblings_inside d i l : siblings d i l -> Forall (fun j => j < lenN d) l.
Proof.
  intros H. induction H as [i L|i n l r Hi Hl IHl Hr IHr]; [constructor|]. apply Forall_app. split; [exact IHl|].
  constructor; [eapply nthN_bound; exact Hi|exact IHr].
Qed.
Lemma C57_lists (f : bytes) c names k n l : stored_as f c -> clean c -> Forall plain_name names ->
  at_path node_lt (c_dir c) 0 names k -> nthN (c_dir c) k = Some n -> n_type n = 1 \/ n_type n = 5 -> members (c_dir c) k l ->
  exists s ns, storage_load windows (Some f) = Ok (Opened s) /\ storage_entries windows s (path_of names) = Ok ns /\
    Forall2 (fun i name => exists m, nthN (c_dir c) i = Some m /\ n_name m = name) l ns.
Proof.
  intros St Cl F P Hn U Hm. destruct (C53_opens windows f c (or_intror eq_refl) St) as (s & Eo & So).
  destruct (win_names f c s St Cl Eo) as [_ M].
  pose proof St as (_ & _ & _ & _ & _ & _ & _ & _ & _ & _ & _ & _ & _ & _ & _ & _ & _ & _ & _ & Ld & _).
  assert (Fl : Forall (fun j => j < lenN (c_dir c)) l).
  { destruct Hm as (n' & _ & Hs). eapply siblings_inside. exact Hs. }
  destruct (members_names _ _ l M Fl) as (ns & E & F2). exists s, ns. split; [exact Eo|]. split; [|exact F2].
  unfold storage_entries. rewrite (entry_of_path c s names k M F P (nthN_bound _ _ _ Hn)). cbn [bind].
  destruct (names_nth _ _ M _ _ Hn) as (e & He & Em & _). rewrite He.
  replace (d_dir e) with true. 2:{ rewrite Em. cbn [d_dir entry_of]. destruct U as [->| ->]; reflexivity. }
  rewrite (proj2 (children_iff (c_dir c) (st_dir s) k n l (names_matches _ _ M) Ld Hn ltac:(destruct U as [K|K]; [left|right; right]; exact K)) Hm).
  cbn [bind]. exact E.
Qed.
Lemma C57_endless (f : bytes) c names k n : stored_as f c -> clean c -> Forall plain_name names ->
  at_path node_lt (c_dir c) 0 names k -> nthN (c_dir c) k = Some n -> n_type n = 1 \/ n_type n = 5 ->
  (forall l, ~ members (c_dir c) k l) ->
  exists s, storage_load windows (Some f) = Ok (Opened s) /\ storage_entries windows s (path_of names) = Fuel.
Proof.
  intros St Cl F P Hn U Hm. destruct (C53_opens windows f c (or_intror eq_refl) St) as (s & Eo & So).
  destruct (win_names f c s St Cl Eo) as [_ M]. exists s. split; [exact Eo|].
  pose proof St as (_ & _ & _ & _ & _ & _ & _ & _ & _ & _ & _ & _ & _ & _ & _ & _ & _ & _ & _ & Ld & _).
  unfold storage_entries. rewrite (entry_of_path c s names k M F P (nthN_bound _ _ _ Hn)). cbn [bind].
  destruct (names_nth _ _ M _ _ Hn) as (e & He & Em & _). rewrite He.
  replace (d_dir e) with true. 2:{ rewrite Em. cbn [d_dir entry_of]. destruct U as [->| ->]; reflexivity. }
  destruct (children_cases (st_dir s) k) as [(l & E)|E]; [|rewrite E; reflexivity].
  exfalso. apply (Hm l).
  apply (children_iff (c_dir c) (st_dir s) k n l (names_matches _ _ M) Ld Hn ltac:(destruct U as [K|K]; [left|right; right]; exact K)). exact E.
Qed.
Lemma find_siblings_inside ds fuel : forall i l, find_siblings fuel ds i = Ok l -> Forall (fun j => j < lenN ds) l.
Proof.
  induction fuel as [|fuel IH]; intros i l H; cbn [find_siblings] in H; [discriminate|].
  destruct (nthN ds i) as [e|] eqn:E; [|injection H as <-; constructor].
  apply bind_ok in H. destruct H as (a & Ha & H). apply bind_ok in H. destruct H as (b & Hb & H). injection H as <-.
  apply Forall_app. split; [destruct (d_prev e =? End); [injection Ha as <-; constructor|eapply IH; exact Ha]|].
  constructor; [eapply nthN_bound; exact E|]. destruct (d_next e =? End); [injection Hb as <-; constructor|eapply IH; exact Hb].
Qed.
Lemma C57_safe pl s path : (exists l, storage_entries pl s path = Ok l) \/ storage_entries pl s path = Fuel.
Proof.
  unfold storage_entries. destruct (entry_at_cases pl (st_dir s) path) as [(o & E)|E]; rewrite E; [|right; reflexivity]. cbn [bind].
  destruct o as [k|]; [|left; eexists; reflexivity]. destruct (nthN (st_dir s) k) as [e|] eqn:Ee; [|left; eexists; reflexivity].
  destruct (d_dir e); [|left; eexists; reflexivity].
  destruct (children_cases (st_dir s) k) as [(l & El)|El]; rewrite El; [|right; reflexivity]. cbn [bind]. left.
  assert (F : Forall (fun j => j < lenN (st_dir s)) l).
  { unfold children in El. rewrite Ee in El. destruct (_ && _); [|injection El as <-; constructor]. eapply find_siblings_inside. exact El. }
  clear - F. induction l as [|i l IH]; cbn [mapM]; [eexists; reflexivity|]. apply Forall_cons_iff in F. destruct F as [B F].
  destruct (nthN_ex _ _ B) as (e & ->). cbn [bind]. destruct (IH F) as (r & ->). eexists. reflexivity.
Qed.
(** The only member of the root is its own predecessor. *)
Lemma no_members3 l : ~ members (c_dir comp3) 0 l.
Proof.
  intros (n & Hn & H). injection Hn as <-. cbn [n_child] in H. remember 1 as i eqn:Ei. revert Ei.
  induction H as [i L|i n l r Hi Hl IHl Hr IHr]; intros ->; [vm_compute in L; apply L; reflexivity|].
  injection Hi as <-. cbn [n_prev] in IHl. apply IHl. reflexivity.
Qed.
Lemma C57_refuted : exists (f : bytes) s, stored_as f comp3 /\ clean comp3 /\ lenN f < 4096 /\
  storage_load windows (Some f) = Ok (Opened s) /\ storage_entries windows s [47] = Fuel.
Proof.
  destruct (C57_endless file3 comp3 [] 0 (mkNode n_root 5 FREE FREE 1 3 512) file3_stored) as (s & Eo & E).
  - repeat constructor.
  - constructor.
  - constructor.
  - reflexivity.
  - right. reflexivity.
  - exact no_members3.
  - exists file3, s. split; [exact file3_stored|]. split; [repeat constructor|]. split; [vm_compute; reflexivity|]. split; [exact Eo|exact E].
Qed.
Lemma C57_ex : stored_as file1 comp1 /\ clean comp1 /\ members (c_dir comp1) 0 [1; 2; 4] /\
  map (fun i => option_map n_name (nthN (c_dir comp1) i)) [1; 2; 4] = [Some n_data; Some n_notes; Some n_workbook].
Proof. split; [exact file1_stored|]. split; [repeat constructor|]. split; [exact (proj1 root1)|reflexivity]. Qed.
