(** What opening a file can lead to. *)
From Coq Require Import List NArith ZArith Bool Lia.
From Coq Require Import ZifyBool ZifyNat ZifyN.
From Verif Require Import Lib.Res Lib.Bytes Lib.BytesFacts Common.Model Common.Spec Common.Fields
     Common.ReadProofs Common.FieldProofs Ole.Model Ole.Spec Ole.Statements Ole.MemProofs Ole.ChainProofs
     Ole.LoadProofs Ole.DirProofs Ole.StreamProofs Ole.TreeProofs Ole.SafetyProofs.
Import ListNotations.
Local Open Scope N_scope.
Ltac Zify.zify_post_hook ::= Z.div_mod_to_equations.
Arguments N.pow : simpl never.

(** ** The header *)
Lemma short_ub pl (f : bytes) : lenN f < 512 -> storage_load pl (Some f) = UB.
Proof.
  intros L. pose proof (header_short f L) as H. unfold storage_load.
  destruct (mstore _ _ _) as [b| | |]; cbn [bind] in *; [rewrite H| | |]; try reflexivity; discriminate.
Qed.
Lemma valid_numbers f h a b n m t : header_of f h -> header_numbers f a b n m t ->
  (valid h = true <-> good_numbers a b n m t) /\ b_shift h = a /\ s_shift h = b /\ num_bat h = n /\ num_mbat h = m /\ threshold h = t.
Proof.
  intros (_ & Hb & Hs & Hnb & _ & Ht & _ & _ & _ & Hnm & _) (H1 & H2 & H3 & H4 & H5).
  pose proof (number_at_fun _ _ _ _ _ Hb H1) as E1. pose proof (number_at_fun _ _ _ _ _ Hs H2) as E2.
  pose proof (number_at_fun _ _ _ _ _ Hnb H3) as E3. pose proof (number_at_fun _ _ _ _ _ Hnm H4) as E4.
  pose proof (number_at_fun _ _ _ _ _ Ht H5) as E5. split; [|repeat split; assumption].
  unfold valid, good_numbers. rewrite E1, E2, E3, E4, E5.
  destruct (N.eqb_spec t 4096) as [T|T]; cbn [negb]; [|split; [discriminate|intros K; lia]].
  destruct (N.eqb_spec n 0) as [T1|T1]; [split; [discriminate|intros K; lia]|].
  destruct ((n <? 109) && negb (m =? 0)) eqn:T2; [split; [discriminate|intros K; lia]|].
  destruct (N.ltb_spec a b) as [T3|T3]; [split; [discriminate|intros K; lia]|].
  destruct (N.leb_spec a 6) as [T4|T4]; [split; [discriminate|intros K; lia]|].
  destruct (N.leb_spec 31 a) as [T5|T5]; [split; [discriminate|intros K; lia]|].
  split; [intros _; lia|reflexivity].
Qed.
Lemma magic_window f h : header_of f h -> (id h = pole_magic <-> window f 0 8 cfb_magic).
Proof.
  intros (W & _). split.
  - intros E. rewrite E in W. exact W.
  - intros W'. apply window0 in W. apply window0 in W'. rewrite W. symmetry. exact W'.
Qed.
Lemma not_ole pl (f : bytes) : 512 <= lenN f -> ~ window f 0 8 cfb_magic -> storage_load pl (Some f) = Ok NotOLE.
Proof.
  intros L W. destruct (header_ok f L) as (h & Hh & Eh). unfold storage_load.
  destruct (mstore _ _ _) as [b| | |]; cbn [bind] in *; try discriminate. rewrite Eh. cbn [bind].
  destruct (bytes_eqb (id h) pole_magic) eqn:E; [|reflexivity]. apply bytes_eqb_eq in E. apply (magic_window f h Hh) in E. contradiction.
Qed.
Lemma bad_ole pl (f : bytes) a b n m t : 512 <= lenN f -> window f 0 8 cfb_magic -> header_numbers f a b n m t -> ~ good_numbers a b n m t ->
  storage_load pl (Some f) = Ok BadOLE.
Proof.
  intros L W Hn G. destruct (header_ok f L) as (h & Hh & Eh). unfold storage_load.
  destruct (mstore _ _ _) as [b'| | |]; cbn [bind] in *; try discriminate. rewrite Eh. cbn [bind].
  rewrite (proj2 (magic_window f h Hh) W). change (bytes_eqb pole_magic pole_magic) with true. cbn [negb].
  destruct (valid h) eqn:V; [|reflexivity]. apply (valid_numbers f h a b n m t Hh Hn) in V. contradiction.
Qed.

(** Past the header the file opens, or the program's behaviour is undefined or endless. *)
Lemma settled_bind {A} (x : res A) (k : A -> res opened) : (forall e, x <> Throw e) -> (forall a, settled (k a)) -> settled (bind x k).
Proof.
  intros Hx Hk. destruct x as [a|e| |]; cbn [bind]; [apply Hk|exfalso; apply (Hx e); reflexivity| |].
  - right. left. reflexivity.
  - right. right. reflexivity.
Qed.
Definition plain_res {A} (x : res A) : Prop := forall e, x <> Throw e.
Lemma plain_bind {A C} (x : res A) (k : A -> res C) : plain_res x -> (forall a, plain_res (k a)) -> plain_res (bind x k).
Proof.
  intros Hx Hk e. destruct x as [a|e'| |]; cbn [bind]; [apply Hk|exfalso; apply (Hx e'); reflexivity|discriminate|discriminate].
Qed.
Lemma plain_ok {A} (a : A) : plain_res (Ok a). Proof. intros e. discriminate. Qed.
Lemma plain_mslice m off n : plain_res (mslice m off n).
Proof. unfold mslice. destruct (_ <=? _); intros e; discriminate. Qed.
Lemma plain_mstore m off s : plain_res (mstore m off s).
Proof. unfold mstore. destruct (_ <=? _); intros e; discriminate. Qed.
Lemma plain_mbytes m off n : plain_res (mbytes m off n).
Proof. destruct (mbytes_cases m off n) as [[l ->]| ->]; intros e; discriminate. Qed.
Lemma plain_u16 m off : plain_res (readU16 m off).
Proof. apply plain_bind; [apply plain_mbytes|intros; apply plain_ok]. Qed.
Lemma plain_u32 m off : plain_res (readU32 m off).
Proof. apply plain_bind; [apply plain_mbytes|intros; apply plain_ok]. Qed.
Lemma plain_u32s n m : forall off, plain_res (readU32s n m off).
Proof.
  induction n as [|n IH]; intros off; cbn [readU32s]; [apply plain_ok|].
  apply plain_bind; [apply plain_u32|]. intros v. apply plain_bind; [apply IH|intros; apply plain_ok].
Qed.
Lemma plain_follow t b : plain_res (follow t b).
Proof. destruct (follow_cases t b) as [[l ->]| ->]; intros e; discriminate. Qed.
Lemma plain_blocks f bs blocks : forall m c maxlen, plain_res (load_blocks f bs blocks m c maxlen).
Proof.
  induction blocks as [|b r IH]; intros m c maxlen; cbn [load_blocks]; [apply plain_ok|].
  destruct (_ <? _); [|apply plain_ok]. apply plain_bind; [apply plain_mstore|intros; apply IH].
Qed.
Lemma plain_big f bs blocks m maxlen : plain_res (loadBigBlocks f bs blocks m maxlen).
Proof. unfold loadBigBlocks, rmap. apply plain_bind; [apply plain_blocks|intros; apply plain_ok]. Qed.
Lemma plain_fill n m : forall s blocks k, plain_res (difat_fill n m s blocks k).
Proof.
  induction n as [|n IH]; intros s blocks k; cbn [difat_fill]; [apply plain_ok|]. destruct (_ <=? _); [apply plain_ok|].
  apply plain_bind; [apply plain_u32|intros; apply IH].
Qed.
Lemma plain_difat n f bs : forall m blocks k, plain_res (difat_loop n f bs m blocks k).
Proof.
  induction n as [|n IH]; intros m blocks k; cbn [difat_loop]; [apply plain_ok|].
  destruct (nthN blocks (k - 1)); [|intros e; discriminate]. apply plain_bind; [apply plain_big|]. intros m'.
  apply plain_bind; [apply plain_fill|]. intros [b' k']. apply IH.
Qed.
Lemma plain_getbbat f h : plain_res (getbbatBlocks f h).
Proof.
  unfold getbbatBlocks. destruct (_ && _); [|apply plain_ok]. apply plain_bind; [apply plain_big|]. intros m'.
  apply plain_bind; [apply plain_fill|]. intros [b' k']. apply plain_difat.
Qed.
Lemma plain_table m len : plain_res (table_load m len).
Proof. unfold table_load. destruct (_ <=? _); [intros e; discriminate|apply plain_u32s]. Qed.
Lemma plain_nameloop fuel m p nl : forall a, plain_res (name_loop fuel m p nl a).
Proof.
  induction fuel as [|fuel IH]; intros a; cbn [name_loop]; [intros e; discriminate|].
  destruct (_ <? _); [|apply plain_ok]. apply plain_bind; [apply plain_mbytes|]. intros b. destruct (_ =? _); [apply plain_ok|apply IH].
Qed.
Lemma plain_entry pl m p : plain_res (load_entry pl m p).
Proof.
  unfold load_entry. apply plain_bind; [apply plain_u16|]. intros nl. apply plain_bind; [apply plain_nameloop|]. intros a.
  apply plain_bind; [apply plain_mbytes|]. intros w. apply plain_bind; [apply plain_mbytes|]. intros t.
  do 5 (apply plain_bind; [apply plain_u32|]; intros ?). apply plain_ok.
Qed.
Lemma plain_entries pl n m : forall p, plain_res (load_entries pl n m p).
Proof.
  induction n as [|n IH]; intros p; cbn [load_entries]; [apply plain_ok|]. apply plain_bind; [apply plain_entry|]. intros e.
  apply plain_bind; [apply IH|intros; apply plain_ok].
Qed.
Lemma open_settled pl (f : bytes) a b n m t : 512 <= lenN f -> window f 0 8 cfb_magic -> header_numbers f a b n m t -> good_numbers a b n m t ->
  settled (storage_load pl (Some f)).
Proof.
  intros L W Hn G. destruct (header_ok f L) as (h & Hh & Eh).
  rewrite (storage_load_ok pl f h L Eh (proj2 (magic_window f h Hh) W) (proj2 (proj1 (valid_numbers f h a b n m t Hh Hn)) G)).
  cbv zeta.
  apply settled_bind; [apply plain_getbbat|]. intros blocks.
  apply settled_bind; [unfold load_chain; apply plain_big|]. intros m1.
  apply settled_bind; [destruct (_ <? _); [apply plain_table|apply plain_ok]|]. intros bbat.
  apply settled_bind; [apply plain_follow|]. intros l2.
  apply settled_bind; [unfold load_chain; apply plain_big|]. intros m2.
  apply settled_bind; [destruct (_ <? _); [apply plain_table|apply plain_ok]|]. intros sbat.
  apply settled_bind; [apply plain_follow|]. intros l3.
  apply settled_bind; [unfold load_chain; apply plain_big|]. intros m3.
  apply settled_bind; [apply plain_entries|]. intros dir.
  apply settled_bind; [apply plain_u32|]. intros sb.
  apply settled_bind; [apply plain_follow|]. intros l4. left. eexists. reflexivity.
Qed.

(** ** A FAT sector that is missing *)
Lemma lists_blocks f h shift l : header_of f h -> header_lists f shift l ->
  id h = pole_magic /\ valid h = true /\ big_size h = 2 ^ shift /\ getbbatBlocks f h = Ok l /\ 0 < lenN l /\ 7 <= shift /\ shift <= 30.
Proof.
  intros Hh (L & Lf & W & (b & m & Hn & G) & L109 & _ & Hl).
  destruct (valid_numbers f h shift b (lenN l) m 4096 Hh Hn) as (V & E1 & _ & E3 & _).
  split; [apply (magic_window f h Hh); exact W|]. split; [apply V; exact G|].
  split; [unfold big_size; rewrite E1; reflexivity|].
  destruct G as (_ & Gp & _ & _ & G7 & G30).
  split; [|repeat split; assumption]. unfold getbbatBlocks. rewrite E3. replace (109 <? lenN l) with false by lia. cbn [andb].
  replace (lenN l - 109) with 0 by lia. rewrite app_nil_r. f_equal. symmetry.
  destruct Hh as (_ & _ & _ & _ & _ & _ & _ & _ & _ & _ & Lbb & Hbb).
  apply nthN_ext; [rewrite lenN_takeN; lia|]. intros i v Hi. pose proof (nthN_bound _ _ _ Hi) as Bi.
  rewrite nthN_takeN by exact Bi. destruct (nthN_ex (bb_blocks h) i) as [w Hw]; [lia|]. rewrite Hw. f_equal.
  eapply number_at_fun; [apply Hbb; exact Hw|apply Hl; exact Hi].
Qed.
Lemma missing_outside f bs b : missing f bs b -> outside f bs b.
Proof. unfold missing, outside. intros H. rewrite N.mul_add_distr_l in *. lia. Qed.
Lemma missing_fat pl (f : bytes) shift l : header_lists f shift l -> Exists (missing f (2 ^ shift)) l -> storage_load pl (Some f) = UB.
Proof.
  intros HL X. pose proof HL as (L & Lf & _ & _ & L109 & L34 & Hl). destruct (header_ok f L) as (h & Hh & Eh).
  destruct (lists_blocks f h shift l Hh HL) as (I & V & Ebs & Eb & Pl & S7 & S30).
  rewrite (storage_load_ok pl f h L Eh I V). cbv zeta. rewrite Eb, Ebs. cbn [bind].
  destruct (pow_shift shift S30) as [P1 P2]. change (2 ^ 34) with 17179869184 in L34.
  assert (Fb : Forall (fun b => 2 ^ shift * (b + 1) < 2 ^ 63) l).
  { apply Forall_forall. intros b Ib. apply In_nth_error in Ib. destruct Ib as [i Hi].
    assert (Hi' : nthN l (N.of_nat i) = Some b) by (rewrite nthN_nth_error, Nat2N.id; exact Hi).
    apply Hl in Hi'. apply number_at_bound in Hi'. change (256 ^ 4) with 4294967296 in Hi'. change (2 ^ 63) with 9223372036854775808. nia. }
  destruct (load_chain_outside f (2 ^ shift) l P1 Lf Fb) as (m & Em & Lm & Nm).
  { change (2 ^ 63) with 9223372036854775808. lia. }
  { eapply Exists_impl; [|exact X]. intros b. apply missing_outside. }
  rewrite Em. cbn [bind]. replace (0 <? _) with true by nia.
  rewrite (table_load_blank m _ Lm); [reflexivity|nia| |change (2 ^ 32) with 4294967296; lia|exact Nm].
  rewrite <- N.mul_mod_idemp_r by lia. assert (E4 : 2 ^ shift mod 4 = 0).
  { replace shift with (shift - 2 + 2) by lia. rewrite N.pow_add_r. change (2 ^ 2) with 4. apply N.mod_mul. lia. }
  rewrite E4, N.mul_0_r. reflexivity.
Qed.

(** ** A FAT that is present, chains that are not *)
Lemma fat_present_start pl (f : bytes) shift l t : fat_present f shift l t -> exists h, header_of f h /\ big_size h = 2 ^ shift /\
  storage_load pl (Some f) =
   (blocks <- follow t (sbat_start h) ;;
    m <- load_chain f (big_size h) blocks ;;
    sbat <- (if 0 <? lenN blocks * big_size h then table_load m (lenN blocks * big_size h) else Ok new_table) ;;
    blocks <- follow t (dirent_start h) ;;
    m <- load_chain f (big_size h) blocks ;;
    dir <- dirtree_load pl m (lenN blocks * big_size h) ;;
    sb_start <- readU32 m 116 ;;
    sb <- follow t sb_start ;;
    Ok (Opened (mkStorage f h t sbat dir sb))).
Proof.
  intros (HL & Sc & Ft & Tt). pose proof HL as (L & Lf & _ & _ & L109 & L34 & Hl). destruct (header_ok f L) as (h & Hh & Eh).
  destruct (lists_blocks f h shift l Hh HL) as (I & V & Ebs & Eb & Pl & S7 & S30). exists h. split; [exact Hh|]. split; [exact Ebs|].
  rewrite (storage_load_ok pl f h L Eh I V). cbv zeta. rewrite Eb, Ebs. cbn [bind].
  pose proof (sectors_len _ _ _ _ Sc) as Lt. rewrite lenN_words in Lt. change (2 ^ 34) with 17179869184 in L34.
  destruct (load_chain_file f (2 ^ shift) l _ Lf Sc) as [E1 _]; [change (2 ^ 64) with 18446744073709551616; lia|].
  rewrite E1. cbn [bind]. rewrite <- Lt. destruct (pow_shift shift S30) as [P1 _].
  replace (0 <? 4 * lenN t) with true by nia. rewrite (table_ok t Ft Tt). reflexivity.
Qed.
Lemma endless_minifat pl (f : bytes) shift l t s : fat_present f shift l t -> number_at f 60 4 s -> endless t s -> storage_load pl (Some f) = Fuel.
Proof.
  intros H Hs E. pose proof H as (_ & _ & _ & Tt). destruct (fat_present_start pl f shift l t H) as (h & Hh & _ & ->).
  destruct Hh as (_ & _ & _ & _ & _ & _ & Hss & _). rewrite (number_at_fun _ _ _ _ _ Hss Hs).
  rewrite (proj2 (follow_endless t s Tt) E). reflexivity.
Qed.
(** Without a mini FAT: the directory *)
Lemma directory_start pl (f : bytes) shift l t s s' : fat_present f shift l t -> number_at f 60 4 s -> lenN t <= s -> number_at f 48 4 s' ->
  exists h, storage_load pl (Some f) =
   (blocks <- follow t s' ;;
    m <- load_chain f (2 ^ shift) blocks ;;
    dir <- dirtree_load pl m (lenN blocks * 2 ^ shift) ;;
    sb_start <- readU32 m 116 ;;
    sb <- follow t sb_start ;;
    Ok (Opened (mkStorage f h t new_table dir sb))).
Proof.
  intros H Hs Ls Hd. destruct (fat_present_start pl f shift l t H) as (h & Hh & Eb & ->). exists h. rewrite Eb.
  destruct Hh as (_ & _ & _ & _ & Hds & _ & Hss & _). rewrite (number_at_fun _ _ _ _ _ Hss Hs), (number_at_fun _ _ _ _ _ Hds Hd).
  unfold follow at 1. replace (lenN t <=? s) with true by lia. reflexivity.
Qed.
Lemma endless_directory pl (f : bytes) shift l t s s' : fat_present f shift l t -> number_at f 60 4 s -> lenN t <= s -> number_at f 48 4 s' ->
  endless t s' -> storage_load pl (Some f) = Fuel.
Proof.
  intros H Hs Ls Hd E. destruct (directory_start pl f shift l t s s' H Hs Ls Hd) as (h & ->). destruct H as (_ & _ & _ & Tt).
  rewrite (proj2 (follow_endless t s' Tt) E). reflexivity.
Qed.
Lemma no_directory pl (f : bytes) shift l t s s' : fat_present f shift l t -> number_at f 60 4 s -> lenN t <= s -> number_at f 48 4 s' ->
  lenN t <= s' -> storage_load pl (Some f) = UB.
Proof.
  intros H Hs Ls Hd E. destruct (directory_start pl f shift l t s s' H Hs Ls Hd) as (h & ->).
  unfold follow at 1. replace (lenN t <=? s') with true by lia. reflexivity.
Qed.
(** ** Names on Linux *)
Lemma find_sibling_name pl ds name fuel : forall i k, find_sibling fuel pl ds i name = Ok k -> 0 < k ->
  exists e, nthN ds k = Some e /\ name_compare pl (d_name e) name = Eq.
Proof.
  induction fuel as [|fuel IH]; intros i k H K; [discriminate|]. cbn [find_sibling] in H.
  destruct (nthN ds i) as [e|] eqn:Ei; [|injection H as <-; lia]. destruct (negb _); [injection H as <-; lia|].
  destruct (name_compare pl (d_name e) name) eqn:C.
  - injection H as <-. exists e. split; assumption.
  - destruct (_ && _); [eapply IH; eassumption|injection H as <-; lia].
  - destruct (_ && _); [eapply IH; eassumption|injection H as <-; lia].
Qed.
Lemma find_child_name pl ds i name k : find_child pl ds i name = Ok k -> 0 < k ->
  exists e, nthN ds k = Some e /\ name_compare pl (d_name e) name = Eq.
Proof.
  unfold find_child. destruct (nthN ds i); [|intros H; injection H as <-; lia].
  destruct (_ && _); [apply find_sibling_name|intros H; injection H as <-; lia].
Qed.
(** Every entry: the name is at most one character long or begins with a character beyond 16 bits. *)
Definition garbled (ds : list dirent) : Prop :=
  Forall (fun e => Forall (fun u => u < 256 ^ 4) (d_name e) /\ (lenN (d_name e) <= 1 \/ exists c r, d_name e = c :: r /\ 65536 <= c)) ds.
Lemma walk_garbled ds names1 name names2 : garbled ds -> 2 <= lenN name -> Forall (fun c => c < 65536) name ->
  forall i, walk linux64 ds i (names1 ++ name :: names2) = Ok None \/ walk linux64 ds i (names1 ++ name :: names2) = Fuel.
Proof.
  intros G L F. induction names1 as [|n r IH]; intros i; cbn [app walk].
  - destruct (find_child_cases linux64 ds i name) as [[k E]|E]; rewrite E; [|right; reflexivity]. cbn [bind].
    destruct (N.ltb_spec 0 k) as [K|K]; [|left; reflexivity]. exfalso.
    destruct (find_child_name _ _ _ _ _ E K) as (e & He & C). unfold garbled in G. rewrite Forall_forall in G.
    rewrite nthN_nth_error in He. apply nth_error_In in He. destruct (G e He) as [Fe Hn].
    apply name_compare_eq in C; [|exact Fe| |left; reflexivity].
    + destruct Hn as [Hn|(c & r & Hn & Hc)]; [rewrite C in Hn; lia|]. rewrite Hn in C. subst name. inversion F; subst. lia.
    + eapply Forall_impl; [|exact F]. intros c Hc. cbn [sizeof_wchar linux64]. change (256 ^ 4) with 4294967296. cbn beta in Hc. lia.
  - destruct (find_child_cases linux64 ds i n) as [[k E]|E]; rewrite E; [|right; reflexivity]. cbn [bind].
    destruct (0 <? k); [apply IH|left; reflexivity].
Qed.
Lemma open_garbled f c s : stored_as f c -> storage_of f c s ->
  (forall i n e, nthN (c_dir c) i = Some n -> nthN (st_dir s) i = Some e -> exists w, node_bytes n w /\ named linux64 n w e) -> garbled (st_dir s).
Proof.
  intros St (_ & _ & _ & _ & _ & _ & M & _) H. apply Forall_forall. intros e Ie. apply In_nth_error in Ie. destruct Ie as [i Hi].
  assert (Hi' : nthN (st_dir s) (N.of_nat i) = Some e) by (rewrite nthN_nth_error, Nat2N.id; exact Hi).
  destruct (matches_nth' _ _ M _ _ Hi') as (n & Hn & Em). destruct (H _ _ _ Hn Hi') as (w & Nb & Nd). pose proof Nd as (K & F & _).
  split; [exact F|]. destruct (N.le_gt_cases 2 (lenN (visible (n_name n)))) as [C|C]; [right|left; lia].
  eapply name_linux; eassumption.
Qed.
Lemma entry_garbled ds names1 name names2 : garbled ds -> 2 <= lenN name -> Forall (fun c => c < 65536) name ->
  Forall plain_name (names1 ++ name :: names2) ->
  entry_at linux64 ds (path_text (names1 ++ name :: names2)) = Ok None \/ entry_at linux64 ds (path_text (names1 ++ name :: names2)) = Fuel.
Proof.
  intros G L F Fp. destruct (split_path_text (names1 ++ name :: names2)) as (r & Er & Hr & Sr); [destruct names1; discriminate|exact Fp|].
  rewrite Er. unfold entry_at. change (47 =? slash) with true. destruct r as [|c r]; [contradiction|]. rewrite Sr.
  destruct (walk_garbled ds names1 name names2 G L F 0) as [-> | ->]; [left; reflexivity|right; reflexivity].
Qed.
