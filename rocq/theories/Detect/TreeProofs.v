(** The walk through the storages of a compound file. *)
From Coq Require Import List NArith Bool Lia ZifyBool ZifyNat ZifyN Sorted Permutation Strings.String.
From Verif Require Import Lib.Res Lib.Bytes Lib.BytesFacts Lib.Text Common.Model Common.Spec Magic.Model Ole.Model Ole.Spec Ole.Statements
     Ole.MemProofs Ole.ChainProofs Ole.DirProofs Ole.StreamProofs Ole.TreeProofs Ole.PropertyLemmas Vba.Analyze Vba.Output Vba.FileSpec Propset.Model Docs.Model
     Media.WordPerfect Detect.Model Detect.Spec Detect.Statements.
Import ListNotations.
Local Open Scope N_scope.

(** ** Comparing wide strings *)
Lemma weq_eq a : forall b, weq a b = true <-> a = b.
Proof.
  induction a as [|x a IH]; intros [|y b]; cbn [weq]; split; intros H; try discriminate; try reflexivity.
  - apply andb_true_iff in H. destruct H as [H1 H2]. apply N.eqb_eq in H1. apply IH in H2. congruence.
  - injection H as -> ->. rewrite N.eqb_refl. apply IH. reflexivity.
Qed.
Lemma weq_refl a : weq a a = true.
Proof. apply weq_eq. reflexivity. Qed.

(** ** Depth *)
Fixpoint depth (i : item) : nat :=
  match i with
  | IStream _ _ => O
  | IStorage _ l => S (fold_right Nat.max O (map depth l))
  end.
Definition deep (l : list item) : nat := fold_right Nat.max O (map depth l).

Scheme holds_mut := Induction for holds Sort Prop
  with lists_mut := Induction for lists Sort Prop.
Combined Scheme holds_lists_ind from holds_mut, lists_mut.

Lemma deep_fun f c :
  (forall k a, holds f c k a -> forall b, holds f c k b -> deep a = deep b) /\
  (forall l a, lists f c l a -> forall b, lists f c l b -> deep a = deep b).
Proof.
  apply holds_lists_ind.
  - intros k n l items Hn Ht Hm Hl IH b Hb. inversion Hb as [k' n' l' items' Hn' Ht' Hm' Hl']; subst.
    apply IH. destruct Hm as ((x & Hx & Sx) & _). destruct Hm' as ((y & Hy & Sy) & _). rewrite Hx in Hy. injection Hy as <-.
    rewrite (siblings_fun _ _ _ Sx _ Sy). exact Hl'.
  - intros b Hb. inversion Hb; subst. reflexivity.
  - intros j m content l items Hj Hs Hp Hc Hl IH b Hb. inversion Hb as [|j' m' content' l' items' Hj' Hs' Hp' Hc' Hl'|j' m' sub' l' items' Hj' Hs' Hp' Hc' Hl']; subst.
    + unfold deep. cbn [map depth fold_right Nat.max]. apply IH. exact Hl'.
    + unfold is_stream in Hs. congruence.
  - intros j m sub l items Hj Hs Hp Hc IHc Hl IH b Hb. inversion Hb as [|j' m' content' l' items' Hj' Hs' Hp' Hc' Hl'|j' m' sub' l' items' Hj' Hs' Hp' Hc' Hl']; subst.
    + unfold is_stream in Hs'. congruence.
    + unfold deep. cbn [map depth fold_right]. fold (deep sub). fold (deep sub'). fold (deep items). fold (deep items').
      rewrite (IHc _ Hc'), (IH _ Hl'). reflexivity.
Qed.
Lemma deep_chain f c :
  (forall k a, holds f c k a -> exists ch, List.length ch = S (deep a) /\ NoDup ch /\
     Forall (fun x => exists b, holds f c x b /\ (deep b <= deep a)%nat) ch) /\
  (forall l a, lists f c l a -> deep a = O \/ exists ch, List.length ch = deep a /\ NoDup ch /\
     Forall (fun x => exists b, holds f c x b /\ (deep b < deep a)%nat) ch).
Proof.
  apply holds_lists_ind.
  - intros k n l items Hn Ht Hm Hl IH. assert (Hk : holds f c k items) by (econstructor; eassumption).
    destruct IH as [IH|(ch & Lc & Nc & Fc)].
    + exists [k]. rewrite IH. split; [reflexivity|]. split; [repeat constructor; intros []|].
      constructor; [|constructor]. exists items. split; [exact Hk|lia].
    + exists (k :: ch). split; [cbn; lia|]. split.
      * constructor; [|exact Nc]. intros I. rewrite Forall_forall in Fc. destruct (Fc k I) as (b & Hb & Lb).
        rewrite (proj1 (deep_fun f c) k b Hb items Hk) in Lb. lia.
      * constructor; [exists items; split; [exact Hk|lia]|]. eapply Forall_impl; [|exact Fc]. cbn beta. intros x (b & Hb & Lb).
        exists b. split; [exact Hb|lia].
  - left. reflexivity.
  - intros j m content l items Hj Hs Hp Hc Hl IH. exact IH.
  - intros j m sub l items Hj Hs Hp Hc IHc Hl IH. right. change (deep (IStorage (n_name m) sub :: items)) with (Nat.max (S (deep sub)) (deep items)).
    destruct (Nat.le_gt_cases (S (deep sub)) (deep items)) as [K|K].
    + rewrite Nat.max_r by lia. destruct IH as [IH|IH]; [lia|exact IH].
    + rewrite Nat.max_l by lia. destruct IHc as (ch & Lc & Nc & Fc). exists ch. split; [exact Lc|]. split; [exact Nc|].
      eapply Forall_impl; [|exact Fc]. cbn beta. intros x (b & Hb & Lb). exists b. split; [exact Hb|lia].
Qed.
Lemma deep_bound f c k a : holds f c k a -> (deep a < List.length (c_dir c))%nat.
Proof.
  intros H. destruct (proj1 (deep_chain f c) k a H) as (ch & Lc & Nc & Fc).
  assert (B : lenN ch <= lenN (c_dir c)).
  { apply nodup_short; [exact Nc|]. eapply Forall_impl; [|exact Fc]. cbn beta. intros x (b & Hb & _).
    inversion Hb; subst. eapply nthN_bound. eassumption. }
  unfold lenN in B. lia.
Qed.

(** ** Paths *)
Lemma path_text_snoc names n : path_text (names ++ [n]) = path_text names ++ [47] ++ n.
Proof. unfold path_text. rewrite map_app, concat_app. cbn. rewrite app_nil_r. reflexivity. Qed.
Lemma at_path_snoc d i names k : at_path node_lt d i names k -> forall n l j m, nthN d k = Some n -> in_use n -> sorted_members node_lt d k l ->
  In j l -> nthN d j = Some m -> at_path node_lt d i (names ++ [n_name m]) j.
Proof.
  intros P. induction P as [i|i n0 l0 k0 name names j0 Hi U Sm Ik Hn P IH]; intros n l j m Hk Uk Sk Ij Hj; cbn [app].
  - eapply at_member; [exact Hk|exact Uk|exact Sk|exact Ij|exists m; split; [exact Hj|reflexivity]|constructor].
  - eapply at_member; [exact Hi|exact U|exact Sm|exact Ik|exact Hn|]. eapply IH; eassumption.
Qed.
Lemma split_path_slash names : names <> [] -> Forall plain_name names ->
  exists r, path_text names ++ [47] = 47 :: r /\ r <> [] /\ split_path r = names.
Proof.
  intros Hne F. induction F as [|n names Hn F IH]; [contradiction|].
  unfold path_text. cbn [map List.concat]. fold (path_text names). exists (n ++ path_text names ++ [47]).
  split; [cbn [app]; rewrite <- app_assoc; reflexivity|].
  split; [destruct Hn as [Hn _]; destruct n; [contradiction|discriminate]|].
  destruct names as [|m names].
  - cbn [path_text map List.concat app]. rewrite split_path_plain by exact Hn. reflexivity.
  - destruct (IH ltac:(discriminate)) as (r & Er & _ & Sr). rewrite Er, split_path_plain by exact Hn. rewrite Sr. reflexivity.
Qed.
Lemma entry_at_slash d ds names k : names_ok d ds -> Forall plain_name names -> at_path node_lt d 0 names k -> k < lenN d ->
  entry_at windows ds (path_text names ++ [47]) = Ok (Some k).
Proof.
  intros M F P B. destruct names as [|n names].
  - inversion P; subst. cbn [path_text map List.concat app]. unfold entry_at. change (47 =? slash) with true. cbn [bind].
    rewrite <- (Forall2_len _ _ _ M). replace (0 <? lenN d) with true by lia. reflexivity.
  - destruct (split_path_slash (n :: names) ltac:(discriminate) F) as (r & Er & Hr & Sr).
    rewrite Er. unfold entry_at. change (47 =? slash) with true. destruct r as [|x r]; [contradiction|]. rewrite Sr.
    rewrite (walk_ok _ _ _ _ _ M P). cbn [bind]. rewrite <- (Forall2_len _ _ _ M). replace (k <? lenN d) with true by lia. reflexivity.
Qed.

(** ** Looking at one entry *)
Definition apply (pl : platform) (o : outcome) (t : state) : state :=
  match o with
  | ONothing => t
  | OFound r => push_result r t
  | OGroup p ps => mkState (st_paths t) (st_results t) (insert pl p ps (st_props t))
  end.
(** What a row makes of a stream *)
Definition row_found (pl : platform) (excel : bytes -> res workbook) (current : bytes) (m : OlessInfo) (b : bytes) : res found :=
  match oi_extraFunc m with
  | None => Ok (FOless (row_ext m) [] [])
  | Some DWord => e <- word_Detailer (row_ext m) b ;; Ok (FOless e [] [])
  | Some DExcel => x <- excel b ;; Ok (FExcel x [] [])
  | Some DPowerPoint => e <- powerpoint_Detailer pl (row_ext m) current b ;; Ok (FOless e [] [])
  | Some DPublisher => e <- publisher_Detailer pl (row_ext m) b ;; Ok (FOless e [] [])
  | Some DVisio => e <- visio_Detailer (row_ext m) b ;; Ok (FOless e [] [])
  | Some DWordPerfect => Ok (FWordPerfect (wp_after_return (wp_StreamDetailer b)))
  | Some DMsi => Ok (FOless (msi_Detailer (row_ext m) b) [] [])
  end.
Fixpoint rows_found (pl : platform) (excel : bytes -> res workbook) (current : bytes) (rest : list OlessInfo) (path : list N) (b : bytes)
         (ei : option found) : res (option found) :=
  match rest with
  | [] => Ok ei
  | m :: r => if matches m path then f <- row_found pl excel current m b ;; rows_found pl excel current r path b (Some f)
              else rows_found pl excel current r path b ei
  end.
(** The outcomes, computed *)
Definition inspect (pl : platform) (excel : bytes -> res workbook) (rows : list OlessInfo) (current : bytes) (s : storage) (v : visit) : res outcome :=
  match v with
  | VStorage names =>
      if vba_storage (last names []) (path_text names) then
        match Analyze pl (path_text names) s with
        | Ok p => Ok (OFound (FVba (vba_base p) p))
        | Throw x => Ok (OFound (vba_error pl x))
        | UB => UB
        | Fuel => Fuel
        end
      else Ok ONothing
  | VStream names b =>
      if property_stream (last names []) then
        match ParseBytes pl b with
        | Ok ps => Ok (OGroup (path_text names) ps)
        | Throw RangeError => Ok ONothing
        | Throw x => Throw x
        | UB => UB
        | Fuel => Fuel
        end
      else
        ei <- rows_found pl excel current rows (path_text names) b None ;;
        Ok (match ei with Some r => OFound r | None => ONothing end)
  end.
(** All of them, one after the other *)
Fixpoint run (pl : platform) (look : visit -> res outcome) (l : list visit) (t : state) : res state :=
  match l with
  | [] => Ok t
  | v :: r => o <- look v ;; run pl look r (push_path (visit_text v) (apply pl o t))
  end.
Lemma run_app pl look l1 l2 : forall t, run pl look (l1 ++ l2) t = (t' <- run pl look l1 t ;; run pl look l2 t').
Proof.
  induction l1 as [|v l1 IH]; intros t; cbn [app run]; [reflexivity|]. destruct (look v); cbn [bind]; [apply IH|reflexivity..].
Qed.

Lemma parse_stream_bytes pl s name : parse_stream pl s name = (b <- stream_bytes pl s name ;; ParseBytes pl b).
Proof.
  unfold parse_stream, stream_bytes, ReadStream, ParseStream. destruct (open_stream pl s name) as [[e|]| | |]; cbn [bind]; try reflexivity.
  destruct (stream_blocks s e) as [bl| | |]; cbn [bind]; try reflexivity.
  destruct (stream_read s e bl 0 (blank (d_size e)) (d_size e)) as [[m n]| | |]; cbn [bind]; try reflexivity.
  destruct (n =? d_size e); [|reflexivity]. destruct (known m); reflexivity.
Qed.

(** The loop of [recurse], by itself *)
Section Visit.
Variables (pl : platform) (excel : bytes -> res workbook) (rows : list OlessInfo) (s : storage) (next : list N -> state -> res state) (path : list N).
Fixpoint visit_all (names : list (list N)) (t : state) : res state :=
  match names with
  | [] => Ok t
  | name :: r =>
      let fullname := path ++ name in
      t <- guessStreamInfo pl excel rows s name fullname t ;;
      dir <- isDirectory pl s fullname ;;
      t <- (if dir : bool then next (fullname ++ [slash]) t else Ok (push_path fullname t)) ;;
      visit_all r t
  end.
End Visit.
Lemma recurse_step pl excel rows s fuel path t : recurse pl excel rows s (S fuel) path t =
  (ns <- storage_entries pl s path ;; visit_all pl excel rows s (recurse pl excel rows s fuel) path ns (push_path path t)).
Proof. reflexivity. Qed.

Section Walk.
Variables (f : bytes) (c : compound) (s : storage) (excel : bytes -> res workbook) (rows : list OlessInfo) (items : list item).
Hypotheses (St : stored_as f c) (Cl : clean c) (Eo : storage_load windows (Some f) = Ok (Opened s)) (Hi : holds f c 0 items).

Lemma stream_read_in names k n content : names <> [] -> Forall plain_name names -> at_path node_lt (c_dir c) 0 names k ->
  nthN (c_dir c) k = Some n -> is_stream n -> stream_content f c n content -> stream_bytes windows s (path_text names) = Ok content.
Proof.
  intros Hne F P Hn Hs Hc. destruct (C55_reads f c names k n content St Cl Hne F P Hn Hs Hc) as (s' & E' & R).
  rewrite Eo in E'. injection E' as <-. unfold stream_bytes. rewrite R. cbn [bind]. rewrite known_map. reflexivity.
Qed.
Lemma is_directory names k n : names <> [] -> Forall plain_name names -> at_path node_lt (c_dir c) 0 names k -> nthN (c_dir c) k = Some n ->
  isDirectory windows s (path_text names) = Ok (negb (n_type n =? 2)).
Proof.
  intros Hne F P Hn. destruct (win_names f c s St Cl Eo) as [_ M]. unfold isDirectory.
  rewrite (entry_at_ok _ _ _ _ M Hne F P). cbn [bind]. destruct (names_nth _ _ M _ _ Hn) as (e & He & Em & _). rewrite He, Em. reflexivity.
Qed.

(** ** The stream [/Current User] *)
Lemma root_lists l its : lists f c l its -> forall name, 
  (exists j m content, In j l /\ nthN (c_dir c) j = Some m /\ n_name m = name /\ is_stream m /\ stream_content f c m content /\ root_stream name its = content) \/
  (root_stream name its = [] /\ forall j m, In j l -> nthN (c_dir c) j = Some m -> n_name m = name -> n_type m = 1).
Proof.
  induction 1 as [|j m content l its Hj Hs Hp Hc Hl IH|j m sub l its Hj Hs Hp Hc Hl IH]; intros name; cbn [root_stream].
  - right. split; [reflexivity|]. intros j m [].
  - destruct (list_eq_dec N.eq_dec (n_name m) name) as [E|E].
    + left. exists j, m, content. repeat (split; [first [left; reflexivity|assumption]|]). reflexivity.
    + destruct (IH name) as [(j' & m' & b & I & R)|[R No]].
      * left. exists j', m', b. split; [right; exact I|exact R].
      * right. split; [exact R|]. intros j' m' [<-|I] Hm' En; [congruence|]. eapply No; eassumption.
  - destruct (IH name) as [(j' & m' & b & I & R)|[R No]].
    + left. exists j', m', b. split; [right; exact I|exact R].
    + right. split; [exact R|]. intros j' m' [<-|I] Hm' En; [congruence|]. eapply No; eassumption.
Qed.
Lemma root_read name : plain_name name -> stream_bytes windows s (path_text [name]) = Ok (root_stream name items).
Proof.
  intros Pn. inversion Hi as [k n l its Hn Ht Hm Hl]; subst. destruct (win_names f c s St Cl Eo) as [_ M].
  assert (U : in_use n) by (destruct Ht as [K|K]; [left|right; right]; exact K).
  destruct (root_lists l items Hl name) as [(j & m & content & Ij & Hj & En & Hs & Hc & R)|[R No]]; rewrite R.
  - eapply stream_read_in; [discriminate|constructor; [exact Pn|constructor]| |exact Hj|exact Hs|exact Hc].
    rewrite <- En. apply (at_path_snoc _ _ [] 0 (at_here _ _ 0) n l j m Hn U Hm Ij Hj).
  - unfold stream_bytes.
    destruct (existsb (fun j => match nthN (c_dir c) j with Some m => weq (n_name m) name | None => false end) l) eqn:Ex.
    + apply existsb_exists in Ex. destruct Ex as (j & Ij & E). destruct (nthN (c_dir c) j) as [m|] eqn:Hj; [|discriminate].
      apply weq_eq in E. pose proof (No j m Ij Hj E) as T.
      assert (P : at_path node_lt (c_dir c) 0 [name] j).
      { rewrite <- E. apply (at_path_snoc _ _ [] 0 (at_here _ _ 0) n l j m Hn U Hm Ij Hj). }
      unfold ReadStream, open_stream. rewrite (entry_at_ok _ _ [name] j M ltac:(discriminate) ltac:(constructor; [exact Pn|constructor]) P). cbn [bind].
      destruct (names_nth _ _ M _ _ Hj) as (e & He & Em & _). rewrite He, Em. cbn [d_dir entry_of]. rewrite T. reflexivity.
    + destruct (C56_absent f c [] 0 name [] n l St Cl) as (s' & E' & _ & R').
      * apply (plain_parts [name]); [discriminate|]. constructor; [exact Pn|constructor].
      * constructor.
      * exact Hn.
      * exact U.
      * exact Hm.
      * intros j m Ij Hj En. assert (T : existsb (fun j => match nthN (c_dir c) j with Some m => weq (n_name m) name | None => false end) l = true).
        { apply existsb_exists. exists j. split; [exact Ij|]. rewrite Hj, En. apply weq_refl. }
        congruence.
      * rewrite Eo in E'. injection E' as <-. cbn [app] in R'. rewrite R'. reflexivity.
Qed.
Definition current : bytes := root_stream (a "Current User") items.
Lemma current_read : stream_bytes windows s (W "/Current User") = Ok current.
Proof.
  change (W "/Current User") with (path_text [a "Current User"]). apply root_read. split; [intros H; vm_compute in H; discriminate H|].
  intros H. vm_compute in H. repeat (destruct H as [H|H]; [discriminate H|]). exact H.
Qed.

(** ** One entry *)
Lemma guess_storage names k n t : names <> [] -> Forall plain_name names -> at_path node_lt (c_dir c) 0 names k -> nthN (c_dir c) k = Some n ->
  n_type n = 1 ->
  guessStreamInfo windows excel rows s (last names []) (path_text names) t =
  (o <- inspect windows excel rows current s (VStorage names) ;; Ok (apply windows o t)).
Proof.
  intros Hne F P Hn T. unfold guessStreamInfo. rewrite (is_directory names k n Hne F P Hn), T. cbn [bind negb inspect].
  change (negb (1 =? 2)) with true. cbn iota. destruct (vba_storage _ _); [|reflexivity]. destruct (Analyze _ _ _); reflexivity.
Qed.
Lemma guess_rows_found names content : stream_bytes windows s (path_text names) = Ok content -> forall rest ei,
  guess_rows windows excel s rest (path_text names) ei = rows_found windows excel current rest (path_text names) content ei.
Proof.
  intros R. induction rest as [|m r IH]; intros ei; cbn [guess_rows rows_found]; [reflexivity|].
  destruct (matches m (path_text names)); [|apply IH]. unfold row_found, details.
  destruct (oi_extraFunc m) as [d|]; [|cbn [bind]; apply IH]. rewrite R. cbn [bind].
  destruct d; rewrite ?current_read; cbn [bind]; try apply IH;
    match goal with |- bind (bind ?x _) _ = _ => destruct x as [x0| | |] end; cbn [bind]; try reflexivity; apply IH.
Qed.
Lemma guess_stream names k n content t : names <> [] -> Forall plain_name names -> at_path node_lt (c_dir c) 0 names k -> nthN (c_dir c) k = Some n ->
  is_stream n -> stream_content f c n content ->
  guessStreamInfo windows excel rows s (last names []) (path_text names) t =
  (o <- inspect windows excel rows current s (VStream names content) ;; Ok (apply windows o t)).
Proof.
  intros Hne F P Hn T Hc. pose proof (stream_read_in names k n content Hne F P Hn T Hc) as R. unfold is_stream in T.
  unfold guessStreamInfo. rewrite (is_directory names k n Hne F P Hn), T. cbn [bind inspect].
  change (negb (2 =? 2)) with false. cbn iota. destruct (property_stream _).
  - rewrite parse_stream_bytes, R. cbn [bind]. destruct (ParseBytes windows content) as [ps|[]| |]; reflexivity.
  - rewrite (guess_rows_found _ _ R). destruct (rows_found _ _ _ _ _ _ _) as [[r|]| | |]; reflexivity.
Qed.

(** ** All entries *)
Definition look : visit -> res outcome := inspect windows excel rows current s.
Lemma entries_of names k n l : Forall plain_name names -> at_path node_lt (c_dir c) 0 names k -> nthN (c_dir c) k = Some n ->
  n_type n = 1 \/ n_type n = 5 -> members (c_dir c) k l ->
  exists ns, storage_entries windows s (path_text names ++ [47]) = Ok ns /\
    Forall2 (fun i name => exists m, nthN (c_dir c) i = Some m /\ n_name m = name) l ns.
Proof.
  intros F P Hn U Hm. destruct (win_names f c s St Cl Eo) as [_ M].
  pose proof St as (_ & _ & _ & _ & _ & _ & _ & _ & _ & _ & _ & _ & _ & _ & _ & _ & _ & _ & _ & Ld & _).
  assert (Fl : Forall (fun j => j < lenN (c_dir c)) l).
  { destruct Hm as (n' & _ & Hs). eapply siblings_inside. exact Hs. }
  destruct (members_names _ _ l M Fl) as (ns & E & F2). exists ns. split; [|exact F2].
  unfold storage_entries. rewrite (entry_at_slash _ _ names k M F P (nthN_bound _ _ _ Hn)). cbn [bind].
  destruct (names_nth _ _ M _ _ Hn) as (e & He & Em & _). rewrite He.
  replace (d_dir e) with true. 2:{ rewrite Em. cbn [d_dir entry_of]. destruct U as [->| ->]; reflexivity. }
  rewrite (proj2 (children_iff (c_dir c) (st_dir s) k n l (names_matches _ _ M) Ld Hn ltac:(destruct U as [K|K]; [left|right; right]; exact K)) Hm).
  cbn [bind]. exact E.
Qed.
Lemma recurse_run :
  (forall k its, holds f c k its -> forall names fuel t, at_path node_lt (c_dir c) 0 names k -> Forall plain_name names -> (deep its < fuel)%nat ->
     recurse windows excel rows s fuel (path_text names ++ [47]) t =
     run windows look (flat_map (visits names) its) (push_path (path_text names ++ [47]) t)) /\
  (forall l its, lists f c l its -> forall names k n L fuel ns t, at_path node_lt (c_dir c) 0 names k -> Forall plain_name names ->
     nthN (c_dir c) k = Some n -> in_use n -> sorted_members node_lt (c_dir c) k L -> (forall j, In j l -> In j L) -> (deep its <= fuel)%nat ->
     Forall2 (fun i name => exists m, nthN (c_dir c) i = Some m /\ n_name m = name) l ns ->
     visit_all windows excel rows s (recurse windows excel rows s fuel) (path_text names ++ [47]) ns t =
     run windows look (flat_map (visits names) its) t).
Proof.
  apply holds_lists_ind.
  - intros k n l its Hn Ht Hm Hl IH names fuel t P F D. destruct fuel as [|fuel]; [lia|].
    destruct (entries_of names k n l F P Hn Ht (proj1 Hm)) as (ns & E & F2). rewrite recurse_step, E. cbn [bind].
    eapply IH; [exact P|exact F|exact Hn| |exact Hm|intros j I; exact I|lia|exact F2].
    destruct Ht as [K|K]; [left|right; right]; exact K.
  - intros names k n L fuel ns t P F Hn U Hm Il D F2. inversion F2; subst. reflexivity.
  - intros j m content l its Hj Hs Hp Hc Hl IH names k n L fuel ns t P F Hn U Hm Il D F2.
    inversion F2 as [|? name ? ns' (m' & Hj' & En) F2']; subst. rewrite Hj in Hj'. injection Hj' as <-. cbn [visit_all flat_map visits app run].
    assert (P' : at_path node_lt (c_dir c) 0 (names ++ [n_name m]) j).
    { eapply at_path_snoc; [exact P|exact Hn|exact U|exact Hm|apply Il; left; reflexivity|exact Hj]. }
    assert (F' : Forall plain_name (names ++ [n_name m])) by (apply Forall_app; split; [exact F|constructor; [exact Hp|constructor]]).
    assert (N' : names ++ [n_name m] <> []) by (destruct names; discriminate).
    assert (Et : (path_text names ++ [47]) ++ n_name m = path_text (names ++ [n_name m])) by (rewrite path_text_snoc, <- app_assoc; reflexivity).
    rewrite Et. rewrite <- (last_last names (n_name m) []) at 1.
    rewrite (guess_stream _ j m content t N' F' P' Hj Hs Hc). fold (look (VStream (names ++ [n_name m]) content)).
    destruct (look (VStream (names ++ [n_name m]) content)) as [o| | |]; cbn [bind]; [|reflexivity..].
    rewrite (is_directory _ j m N' F' P' Hj). unfold is_stream in Hs. rewrite Hs. cbn [bind]. change (negb (2 =? 2)) with false. cbn iota. cbn [bind].
    eapply IH; [exact P|exact F|exact Hn|exact U|exact Hm|intros x I; apply Il; right; exact I|exact D|exact F2'].
  - intros j m sub l its Hj Hs Hp Hc IHc Hl IH names k n L fuel ns t P F Hn U Hm Il D F2.
    inversion F2 as [|? name ? ns' (m' & Hj' & En) F2']; subst. rewrite Hj in Hj'. injection Hj' as <-. cbn [visit_all flat_map visits app run].
    change (deep (IStorage (n_name m) sub :: its)) with (Nat.max (S (deep sub)) (deep its)) in D.
    assert (P' : at_path node_lt (c_dir c) 0 (names ++ [n_name m]) j).
    { eapply at_path_snoc; [exact P|exact Hn|exact U|exact Hm|apply Il; left; reflexivity|exact Hj]. }
    assert (F' : Forall plain_name (names ++ [n_name m])) by (apply Forall_app; split; [exact F|constructor; [exact Hp|constructor]]).
    assert (N' : names ++ [n_name m] <> []) by (destruct names; discriminate).
    assert (Et : (path_text names ++ [47]) ++ n_name m = path_text (names ++ [n_name m])) by (rewrite path_text_snoc, <- app_assoc; reflexivity).
    rewrite Et. rewrite <- (last_last names (n_name m) []) at 1.
    rewrite (guess_storage _ j m t N' F' P' Hj Hs). fold (look (VStorage (names ++ [n_name m]))).
    destruct (look (VStorage (names ++ [n_name m]))) as [o| | |]; cbn [bind]; [|reflexivity..].
    rewrite (is_directory _ j m N' F' P' Hj), Hs. cbn [bind]. change (negb (1 =? 2)) with true. cbn iota.
    change slash with 47. rewrite (IHc _ fuel _ P' F' ltac:(lia)). rewrite run_app. cbn [visit_text].
    destruct (run _ _ _ _) as [t'| | |]; cbn [bind]; [|reflexivity..].
    eapply IH; [exact P|exact F|exact Hn|exact U|exact Hm|intros x I; apply Il; right; exact I|lia|exact F2'].
Qed.
Lemma guess_run : Guess windows excel rows (Some f) =
  (t <- run windows look (all_visits items) (push_path [47] (mkState [] [] [])) ;;
   Ok (match st_results t with
       | [] => [FOless oless_ext (st_paths t) (st_props t)]
       | l => attach (st_paths t) (st_props t) l
       end)).
Proof.
  unfold Guess. rewrite Eo. cbn [bind]. destruct (win_names f c s St Cl Eo) as [_ M].
  pose proof (proj1 recurse_run 0 items Hi [] (S (List.length (st_dir s))) (mkState [] [] []) (at_here _ _ 0) (Forall_nil _)) as R.
  cbn [path_text map List.concat app] in R. change slash with 47. rewrite R; [reflexivity|].
  pose proof (deep_bound f c 0 items Hi). pose proof (Forall2_len _ _ _ M) as E. unfold lenN in E. lia.
Qed.
End Walk.
