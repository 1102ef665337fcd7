(** Compound files for the examples, with checkers that prove what they are. *)
From Coq Require Import List NArith ZArith Bool Lia Sorted.
From Coq Require Import ZifyBool ZifyNat ZifyN.
From Verif Require Import Lib.Res Lib.Bytes Lib.BytesFacts Common.Model Common.Spec Common.Fields Common.Utf8
     Common.ReadProofs Common.FieldProofs Ole.Model Ole.Spec Ole.Statements Ole.MemProofs Ole.ChainProofs.
Import ListNotations.
Local Open Scope N_scope.

(** ** Writing *)
Definition pad (n : N) (l : bytes) : bytes := l ++ repeatN x00 (n - lenN l).
Definition FREE : N := 4294967295.
Definition EOC : N := 4294967294.
Definition words_to (n : N) (l : list N) : list N := l ++ repeatN FREE (n - lenN l).
Definition header_bytes (mini : N) : bytes :=
  cfb_magic ++ repeatN x00 16 ++ to_le 2 62 ++ to_le 2 3 ++ to_le 2 65534 ++ to_le 2 9 ++ to_le 2 6 ++ repeatN x00 10 ++
  to_le 4 1 ++ to_le 4 1 ++ to_le 4 0 ++ to_le 4 4096 ++ to_le 4 mini ++ to_le 4 1 ++ to_le 4 EOC ++ to_le 4 0 ++
  words (words_to 109 [0]).
Definition put_node (n : node) : bytes :=
  pad 64 (units 2 (n_name n)) ++ to_le 2 (if n_type n =? 0 then 0 else 2 * lenN (n_name n) + 2) ++ to_le 1 (n_type n) ++ [x01] ++
  to_le 4 (n_prev n) ++ to_le 4 (n_next n) ++ to_le 4 (n_child n) ++ repeatN x00 36 ++ to_le 4 (n_start n) ++
  to_le 4 (n_size n) ++ repeatN x00 4.
(** Sector 0 is the FAT, 1 and 4 hold the directory, 2 the mini FAT, 3 the mini stream. *)
Definition build (mini : N) (fat minifat : list N) (dir : list node) (small big : bytes) : bytes :=
  let d := List.concat (map put_node dir) in
  header_bytes mini ++ words (words_to 128 fat) ++ takeN 512 d ++ words (words_to 128 minifat) ++ pad 512 small ++ dropN 512 d ++ big.
Definition unused : node := mkNode [] 0 FREE FREE FREE 0 0.
Definition counting (n : nat) : bytes := map (fun i => n2b (N.of_nat i mod 251)) (seq 0 n).

(** ** Checking *)
Definition num (f : bytes) (off n v : N) : bool := match slice f off n with Ok s => le s =? v | _ => false end.
Lemma num_ok f off n v : num f off n v = true -> number_at f off n v.
Proof.
  unfold num. destruct (slice f off n) as [w| | |] eqn:E; try discriminate. intros H. exists w.
  split; [apply slice_window; exact E|lia].
Qed.
Definition win (f : bytes) (off n : N) (w : bytes) : bool := match slice f off n with Ok s => bytes_eqb s w | _ => false end.
Lemma win_ok f off n w : win f off n w = true -> window f off n w.
Proof.
  unfold win. destruct (slice f off n) as [s| | |] eqn:E; try discriminate. intros H. apply bytes_eqb_eq in H. subst s.
  apply slice_window. exact E.
Qed.
Definition secs (f : bytes) (bs : N) (l : list N) (data : bytes) : bool :=
  match mapM (fun b => slice f (bs * (b + 1)) bs) l with Ok ws => bytes_eqb data (List.concat ws) | _ => false end.
Lemma mapM_secs f bs l : forall ws, mapM (fun b => slice f (bs * (b + 1)) bs) l = Ok ws -> Forall2 (sector f bs) l ws.
Proof.
  induction l as [|b l IH]; intros ws H; cbn [mapM] in H; [injection H as <-; constructor|].
  destruct (slice f (bs * (b + 1)) bs) as [w| | |] eqn:E; try discriminate. cbn [bind] in H.
  destruct (mapM _ l) as [r| | |] eqn:Er; try discriminate. cbn [bind] in H. injection H as <-.
  constructor; [apply slice_window; exact E|apply IH; reflexivity].
Qed.
Lemma secs_ok f bs l data : secs f bs l data = true -> sectors f bs l data.
Proof.
  unfold secs. destruct (mapM _ l) as [ws| | |] eqn:E; try discriminate. intros H. apply bytes_eqb_eq in H.
  exists ws. split; [apply mapM_secs; exact E|exact H].
Qed.
Definition small_secs (c : compound) (l : list N) (data : bytes) : bool :=
  match mapM (fun b => slice (c_mini c) (2 ^ c_small_shift c * b) (2 ^ c_small_shift c)) l with
  | Ok ws => bytes_eqb data (List.concat ws) | _ => false end.
Lemma small_secs_ok c l data : small_secs c l data = true -> exists ws, Forall2 (small_sector c) l ws /\ data = List.concat ws.
Proof.
  unfold small_secs. destruct (mapM _ l) as [ws| | |] eqn:E; try discriminate. intros H. apply bytes_eqb_eq in H.
  exists ws. split; [|exact H]. clear H data. revert ws E.
  induction l as [|b l IH]; intros ws H; cbn [mapM] in H; [injection H as <-; constructor|].
  destruct (slice _ _ _) as [w| | |] eqn:E; try discriminate. cbn [bind] in H.
  destruct (mapM _ l) as [r| | |] eqn:Er; try discriminate. cbn [bind] in H. injection H as <-.
  constructor; [apply slice_window; exact E|apply IH; reflexivity].
Qed.
Definition node_ok (n : node) (w : bytes) : bool :=
  (lenN w =? 128) &&
  (((n_type n =? 0) && (lenN (n_name n) =? 0) && num w 64 2 0) ||
   ((lenN (n_name n) <? 32) && forallb (fun c => (0 <? c) && (c <? 65536)) (n_name n) &&
    win w 0 (2 * lenN (n_name n)) (units 2 (n_name n)) && num w (2 * lenN (n_name n)) 2 0 &&
    num w 64 2 (2 * lenN (n_name n) + 2))) &&
  num w 66 1 (n_type n) && num w 68 4 (n_prev n) && num w 72 4 (n_next n) && num w 76 4 (n_child n) &&
  num w 116 4 (n_start n) && num w 120 4 (n_size n).
Lemma node_ok_sound n w : node_ok n w = true -> node_bytes n w.
Proof.
  unfold node_ok. rewrite !andb_true_iff, orb_true_iff, !andb_true_iff. intros [[[[[[[H1 H2] H3] H4] H5] H6] H7] H8].
  split; [lia|]. split.
  - destruct H2 as [[[A1 A2] A3]|[[[[A1 A2] A3] A4] A5]]; [left|right].
    + split; [lia|]. split; [destruct (n_name n); [reflexivity|rewrite lenN_cons in A2; lia]|apply num_ok; exact A3].
    + split; [lia|]. split.
      * rewrite forallb_forall in A2. apply Forall_forall. intros c Hc. apply A2 in Hc. lia.
      * split; [apply win_ok; exact A3|]. split; [apply num_ok; exact A4|apply num_ok; exact A5].
  - repeat split; apply num_ok; assumption.
Qed.
Definition nodes_ok (d : list node) (ws : list bytes) : bool :=
  (lenN d =? lenN ws) && forallb (fun p => node_ok (fst p) (snd p)) (combine d ws).
Lemma nodes_ok_sound d : forall ws, nodes_ok d ws = true -> Forall2 node_bytes d ws.
Proof.
  unfold nodes_ok. induction d as [|n d IH]; intros [|w ws] H.
  - constructor.
  - cbn in H. discriminate.
  - rewrite lenN_cons in H. cbn in H. destruct (lenN d); discriminate.
  - cbn [combine forallb fst snd] in H. rewrite !lenN_cons, !andb_true_iff in H. destruct H as (H1 & H2 & H3).
    constructor; [apply node_ok_sound; exact H2|]. apply IH. apply andb_true_iff. split; [lia|exact H3].
Qed.
(** A chain, by following it. *)
Fixpoint chain_ok (t : list N) (b : N) (l : list N) : bool :=
  match l with
  | [] => lenN t <=? b
  | x :: r => (x =? b) && match nthN t b with Some c => chain_ok t c r | None => false end
  end.
Lemma chain_ok_sound t l : forall b, chain_ok t b l = true -> chain t b l.
Proof.
  induction l as [|x r IH]; intros b H; cbn [chain_ok] in H; [constructor; lia|].
  apply andb_true_iff in H. destruct H as [H1 H2]. destruct (nthN t b) as [c|] eqn:E; [|discriminate].
  assert (x = b) by lia. subst x. econstructor; [exact E|apply IH; exact H2].
Qed.
Definition small32 (l : list N) : bool := forallb (fun v => v <? 4294967296) l.
Lemma small32_sound l : small32 l = true -> Forall (fun v => v < 2 ^ 32) l.
Proof. intros H. unfold small32 in H. rewrite forallb_forall in H. apply Forall_forall. intros v Hv. apply H in Hv. change (2 ^ 32) with 4294967296. lia. Qed.

Definition stored_ok (f : bytes) (c : compound) (s60 s48 : N) : bool :=
  let bs := 2 ^ c_shift c in
  (512 <=? lenN f) && (lenN f <? 2 ^ 63) && win f 0 8 cfb_magic && num f 30 2 (c_shift c) && num f 32 2 (c_small_shift c) &&
  (7 <=? c_shift c) && (c_shift c <=? 30) && (c_small_shift c <=? c_shift c) && num f 56 4 4096 &&
  num f 44 4 (lenN (c_fat_at c)) && (0 <? lenN (c_fat_at c)) && (lenN (c_fat_at c) <? 109) && num f 72 4 0 &&
  forallb (fun p => num f (76 + 4 * N.of_nat (fst p)) 4 (snd p)) (combine (seq 0 (List.length (c_fat_at c))) (c_fat_at c)) &&
  secs f bs (c_fat_at c) (words (c_fat c)) && small32 (c_fat c) && (lenN (c_fat c) <=? 4294967292) &&
  num f 60 4 s60 && chain_ok (c_fat c) s60 (c_minifat_at c) &&
  secs f bs (c_minifat_at c) (words (c_minifat c)) && small32 (c_minifat c) && (lenN (c_minifat c) <=? 4294967292) &&
  num f 48 4 s48 && chain_ok (c_fat c) s48 (c_dir_at c) &&
  nodes_ok (c_dir c) (map put_node (c_dir c)) && secs f bs (c_dir_at c) (List.concat (map put_node (c_dir c))) &&
  (lenN (c_dir c) <=? 4294967295) &&
  (match nthN (c_dir c) 0 with Some r => chain_ok (c_fat c) (n_start r) (c_mini_at c) | None => false end) &&
  secs f bs (c_mini_at c) (c_mini c).
Lemma combine_seq_nth {A} (l : list A) : forall k i v, nthN l i = Some v -> In (k + N.to_nat i, v)%nat (combine (seq k (List.length l)) l).
Proof.
  induction l as [|x l IH]; intros k i v H; [discriminate|]. cbn [nthN] in H. cbn [List.length seq combine].
  destruct (N.eqb_spec i 0) as [->|K].
  - injection H as ->. left. f_equal. lia.
  - right. specialize (IH (S k) (N.pred i) v H). replace (k + N.to_nat i)%nat with (S k + N.to_nat (N.pred i))%nat by lia. exact IH.
Qed.
Lemma stored_ok_sound f c s60 s48 : stored_ok f c s60 s48 = true -> stored_as f c.
Proof.
  unfold stored_ok. rewrite !andb_true_iff. intros H. decompose [and] H. clear H.
  unfold stored_as. cbv zeta.
  split; [lia|]. split; [apply N.ltb_lt; assumption|]. split; [apply win_ok; assumption|].
  split; [apply num_ok; assumption|]. split; [apply num_ok; assumption|]. split; [lia|]. split; [lia|]. split; [lia|].
  split; [apply num_ok; assumption|]. split; [|].
  { split; [apply num_ok; assumption|]. split; [intros E; rewrite E in *; cbn in *; discriminate|].
    exists (c_fat_at c), []. split; [symmetry; apply app_nil_r|]. split.
    + intros i v Hi. match goal with K : forallb _ (combine _ _) = true |- _ => rewrite forallb_forall in K; specialize (K _ (combine_seq_nth _ 0 _ _ Hi)) end.
      cbn [fst snd] in *. apply num_ok. rewrite Nat.add_0_l, N2Nat.id in *. assumption.
    + left. split; [reflexivity|]. split; [lia|apply num_ok; assumption]. }
  split; [apply secs_ok; assumption|]. split; [apply small32_sound; assumption|]. split; [unfold table_size; lia|].
  split; [exists s60; split; [apply num_ok; assumption|apply chain_ok_sound; assumption]|].
  split; [apply secs_ok; assumption|]. split; [apply small32_sound; assumption|]. split; [unfold table_size; lia|].
  split; [exists s48; split; [apply num_ok; assumption|apply chain_ok_sound; assumption]|].
  split; [exists (map put_node (c_dir c)); split; [apply nodes_ok_sound; assumption|apply secs_ok; assumption]|].
  split; [lia|]. split; [|apply secs_ok; assumption].
  destruct (nthN (c_dir c) 0) as [r|]; [|discriminate]. exists r. split; [reflexivity|apply chain_ok_sound; assumption].
Qed.

(** ** The files *)
Definition n_root := [82;111;111;116;32;69;110;116;114;121].
Definition n_data := [68;97;116;97].
Definition n_notes := [78;111;116;101;115].
Definition n_inner := [73;110;110;101;114].
Definition n_workbook := [87;111;114;107;98;111;111;107].
Definition dir1 : list node :=
  [mkNode n_root 5 FREE FREE 2 3 512; mkNode n_data 1 FREE FREE 3 0 0; mkNode n_notes 2 1 4 FREE 0 70;
   mkNode n_inner 2 FREE FREE FREE 2 10; mkNode n_workbook 2 FREE FREE FREE 5 4100; unused; unused; unused].
Definition fat1 : list N := [4294967293; 4; EOC; EOC; EOC; 6; 7; 8; 9; 10; 11; 12; 13; EOC].
Definition minifat1 : list N := [1; EOC; EOC].
Definition file1 : bytes := build 2 fat1 minifat1 dir1 (counting 300) (counting 4608).
Definition compound_of (fat minifat : list N) (dir : list node) (small : bytes) : compound :=
  mkCompound 9 6 [0] (words_to 128 fat) [2] (words_to 128 minifat) [1; 4] dir [3] (pad 512 small).
Definition comp1 : compound := compound_of fat1 minifat1 dir1 (counting 300).
Lemma file1_stored : stored_as file1 comp1.
Proof. apply (stored_ok_sound file1 comp1 2 1). vm_compute. reflexivity. Qed.
(** The same file without the sectors of the workbook; without the last one. *)
Lemma file1_cut_stored : stored_as (takeN 3072 file1) comp1.
Proof. apply (stored_ok_sound _ comp1 2 1). vm_compute. reflexivity. Qed.
Lemma file1_cut2_stored : stored_as (takeN 7168 file1) comp1.
Proof. apply (stored_ok_sound _ comp1 2 1). vm_compute. reflexivity. Qed.
(** Two streams in the order of [MS-CFB]: abc, Zed. *)
Definition n_abc := [97;98;99].
Definition n_zed := [90;101;100].
Definition dir2 : list node :=
  [mkNode n_root 5 FREE FREE 1 3 512; mkNode n_abc 2 FREE 2 FREE 0 64; mkNode n_zed 2 FREE FREE FREE 1 64; unused;
   unused; unused; unused; unused].
Definition file2 : bytes := build 2 [4294967293; 4; EOC; EOC; EOC] [EOC; EOC] dir2 (counting 128) [].
Definition comp2 : compound := compound_of [4294967293; 4; EOC; EOC; EOC] [EOC; EOC] dir2 (counting 128).
Lemma file2_stored : stored_as file2 comp2.
Proof. apply (stored_ok_sound file2 comp2 2 1). vm_compute. reflexivity. Qed.
(** A storage whose only member is its own predecessor. *)
Definition dir3 : list node :=
  [mkNode n_root 5 FREE FREE 1 3 512; mkNode n_abc 2 1 FREE FREE 0 64; unused; unused; unused; unused; unused; unused].
Definition file3 : bytes := build 2 [4294967293; 4; EOC; EOC; EOC] [EOC; EOC] dir3 (counting 128) [].
Definition comp3 : compound := compound_of [4294967293; 4; EOC; EOC; EOC] [EOC; EOC] dir3 (counting 128).
Lemma file3_stored : stored_as file3 comp3.
Proof. apply (stored_ok_sound file3 comp3 2 1). vm_compute. reflexivity. Qed.
(** A name with a character whose low byte is zero. *)
Definition n_bar := [97; 256; 98].
Definition dir4 : list node :=
  [mkNode n_root 5 FREE FREE 1 3 512; mkNode n_bar 2 FREE FREE FREE 0 64; unused; unused; unused; unused; unused; unused].
Definition file4 : bytes := build 2 [4294967293; 4; EOC; EOC; EOC] [EOC; EOC] dir4 (counting 128) [].
Definition comp4 : compound := compound_of [4294967293; 4; EOC; EOC; EOC] [EOC; EOC] dir4 (counting 128).
Lemma file4_stored : stored_as file4 comp4.
Proof. apply (stored_ok_sound file4 comp4 2 1). vm_compute. reflexivity. Qed.
