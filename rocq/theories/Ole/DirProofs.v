(** Directory entries. *)
From Coq Require Import List NArith ZArith Bool Lia.
From Coq Require Import ZifyBool ZifyNat ZifyN.
From Verif Require Import Lib.Res Lib.Bytes Lib.BytesFacts Common.Model Common.Spec Common.Fields Common.Utf8
     Common.ReadProofs Common.FieldProofs Common.Utf8Proofs Ole.Model Ole.Spec Ole.Statements Ole.MemProofs Ole.ChainProofs
     Ole.LoadProofs.
Import ListNotations.
Local Open Scope N_scope.
Ltac Zify.zify_post_hook ::= Z.div_mod_to_equations.
Arguments N.pow : simpl never.

Lemma units_wchars w : (0 < w)%nat -> forall fuel k (l : bytes), List.length l = (w * k)%nat -> (k < fuel)%nat ->
  units w (wchars w fuel l) = l /\ Forall (fun u => u < 256 ^ N.of_nat w) (wchars w fuel l) /\
  List.length (wchars w fuel l) = k.
Proof.
  intros Hw. induction fuel as [|fuel IH]; intros k l L F; [lia|]. cbn [wchars].
  destruct k as [|k].
  - replace (Nat.ltb _ w) with true by lia. destruct l; [|cbn in L; lia]. split; [reflexivity|]. split; [constructor|reflexivity].
  - replace (Nat.ltb _ w) with false by nia.
    assert (Lf : List.length (firstn w l) = w) by (rewrite firstn_length; nia).
    destruct (IH k (skipn w l)) as (E & Fo & Lk); [rewrite skipn_length; nia|lia|].
    change (units w (?a :: ?b)) with (to_le w a ++ units w b).
    split; [|split].
    + unfold units in *. cbn [map List.concat]. rewrite E.
      pose proof (to_le_le (firstn w l)) as T. rewrite Lf in T. rewrite T. apply firstn_skipn.
    + constructor; [|exact Fo]. pose proof (le_bound (firstn w l)) as B. unfold lenN in B. rewrite Lf in B. exact B.
    + cbn [List.length]. lia.
Qed.
Lemma units_to_wchars pl (l : bytes) k : 0 < sizeof_wchar pl -> lenN l = sizeof_wchar pl * k ->
  units (N.to_nat (sizeof_wchar pl)) (to_wchars pl l) = l /\
  Forall (fun u => u < 256 ^ sizeof_wchar pl) (to_wchars pl l) /\ lenN (to_wchars pl l) = k.
Proof.
  intros H L. unfold to_wchars.
  destruct (units_wchars (N.to_nat (sizeof_wchar pl)) ltac:(lia) (S (List.length l)) (N.to_nat k) l) as (E & F & K);
    [unfold lenN in L; nia|unfold lenN in L; nia|].
  rewrite N2Nat.id in F. split; [exact E|]. split; [exact F|]. unfold lenN. lia.
Qed.

(** ** The length of the name *)
Lemma name_byte (pre post : bytes) b p a : lenN pre = p + a -> mbytes (map Some (pre ++ b :: post)) (p + a) 1 = Ok [b].
Proof.
  intros L. rewrite mbytes_known. apply slice_window. split; [reflexivity|]. exists pre, post. split; [reflexivity|exact L].
Qed.
Lemma name_loop_units name : forall fuel (pre post : bytes) p nl a,
  lenN pre = p + a -> a + 2 * lenN name < nl -> lenN name < N.of_nat fuel ->
  name_loop fuel (map Some (pre ++ units 2 name ++ x00 :: post)) p nl a = Ok (a + 2 * lenN (visible name)).
Proof.
  induction name as [|c name IH]; intros fuel pre post p nl a L N0 F;
    (destruct fuel as [|fuel]; [lia|]); cbn [name_loop].
  - change (lenN (@nil N)) with 0 in *. replace (a <? nl) with true by lia.
    change (units 2 []) with (@nil byte). cbn [app]. rewrite (name_byte pre post x00 p a L). cbn [bind]. cbn [visible].
    change (le [x00] =? 0) with true. cbn iota. change (lenN (@nil N)) with 0. f_equal. lia.
  - rewrite lenN_cons in *. replace (a <? nl) with true by lia.
    change (units 2 (c :: name)) with (n2b c :: n2b (c / 256) :: units 2 name). cbn [app].
    rewrite (name_byte pre _ (n2b c) p a L). cbn [bind]. cbn [visible].
    assert (E : le [n2b c] = c mod 256) by (cbn [le]; rewrite b2n_n2b; lia). rewrite E.
    destruct (c mod 256 =? 0); [change (lenN (@nil N)) with 0; f_equal; lia|].
    specialize (IH fuel (pre ++ [n2b c; n2b (c / 256)]) post p nl (a + 2)).
    rewrite <- app_assoc in IH. cbn [app] in IH. rewrite IH; [|rewrite lenN_app; change (lenN [_; _]) with 2; lia|lia|lia].
    rewrite lenN_cons. f_equal. lia.
Qed.
Lemma visible_len l : lenN (visible l) <= lenN l.
Proof. induction l as [|c l IH]; [reflexivity|]. cbn [visible]. destruct (_ =? 0); rewrite ?lenN_cons; [cbn; lia|lia]. Qed.

(** ** One entry *)
Lemma window_shift (pre w post : bytes) off n v : window w off n v -> window (pre ++ w ++ post) (lenN pre + off) n v.
Proof.
  intros [L (a & b & -> & E)]. split; [exact L|]. exists (pre ++ a), (b ++ post). split; [rewrite <- !app_assoc; reflexivity|].
  rewrite lenN_app. lia.
Qed.
Lemma number_shift (pre w post : bytes) off n v : number_at w off n v -> number_at (pre ++ w ++ post) (lenN pre + off) n v.
Proof. intros (x & W & E). exists x. split; [apply window_shift; exact W|exact E]. Qed.

Definition loaded_name (pl : platform) (n : node) (w : bytes) : list N :=
  to_wchars pl (takeN (lenN (visible (n_name n)) * sizeof_wchar pl) w).

Lemma byte_number (m : bytes) off v : number_at m off 1 v -> exists b, mbytes (map Some m) off 1 = Ok b /\ le b = v.
Proof. intros (w & W & E). exists w. split; [rewrite mbytes_known; apply slice_window; exact W|exact E]. Qed.

Lemma name_len_ok n (pre w post : bytes) : node_bytes n w ->
  exists nl, readU16 (map Some (pre ++ w ++ post)) (lenN pre + 64) = Ok nl /\ nl <= 64 /\
             (nl <? 1) = (n_type n =? 0) && (nl =? 0) /\
             name_loop 33 (map Some (pre ++ w ++ post)) (lenN pre) nl 0 = Ok (2 * lenN (visible (n_name n))).
Proof.
  intros (Lw & Hn & _). destruct Hn as [(T & -> & Hl)|(Ln & _ & Wn & Zn & Hl)].
  - exists 0. split; [apply readU16_known; apply number_shift; exact Hl|]. split; [lia|]. split; [rewrite T; reflexivity|]. reflexivity.
  - exists (2 * lenN (n_name n) + 2). split; [apply readU16_known; apply number_shift; exact Hl|]. split; [lia|].
    split; [lia|]. destruct Wn as [_ (a & b & -> & Ea)]. destruct a; [|rewrite lenN_cons in Ea; lia]. cbn [app] in *.
    destruct Zn as (z & [Lz (c & d & Ec & Lc)] & Ez).
    assert (Lu : lenN (units 2 (n_name n)) = 2 * lenN (n_name n)) by (rewrite lenN_units; reflexivity).
    assert (Eb : b = z ++ d).
    { apply (f_equal (dropN (2 * lenN (n_name n)))) in Ec. rewrite dropN_app_ge in Ec by lia.
      rewrite dropN_app_ge in Ec by lia. rewrite Lu, Lc, !N.sub_diag, !dropN_0 in Ec. exact Ec. }
    destruct z as [|z0 [|z1 [|]]]; try (cbn in Lz; lia).
    assert (z0 = x00).
    { apply b2n_inj. cbn [le] in Ez. change (b2n x00) with 0. lia. }
    subst z0. subst b. rewrite <- !app_assoc. cbn [app].
    rewrite (name_loop_units (n_name n) 33 pre (z1 :: d ++ post) (lenN pre) _ 0); [reflexivity|lia|lia|lia].
Qed.

Lemma entry_ok pl n (pre w post : bytes) : supported pl -> node_bytes n w ->
  load_entry pl (map Some (pre ++ w ++ post)) (lenN pre) = Ok (entry_of (loaded_name pl n w) n).
Proof.
  intros P Hn. destruct (name_len_ok n pre w post Hn) as (nl & E1 & Bn & Zn & E2).
  destruct Hn as (Lw & Hname & H66 & H68 & H72 & H76 & H116 & H120).
  unfold load_entry. rewrite E1. cbn [bind]. replace (64 <? nl) with false by lia. rewrite E2. cbn [bind].
  replace (2 * lenN (visible (n_name n)) / 2) with (lenN (visible (n_name n))) by lia.
  assert (Bv : lenN (visible (n_name n)) <= 31).
  { pose proof (visible_len (n_name n)). destruct Hname as [(_ & -> & _)|(Ln & _)]; [cbn; lia|lia]. }
  assert (Bs : lenN (visible (n_name n)) * sizeof_wchar pl <= 128).
  { destruct P as [-> | ->]; cbn [sizeof_wchar linux64 windows]; lia. }
  assert (Ew : mbytes (map Some (pre ++ w ++ post)) (lenN pre) (lenN (visible (n_name n)) * sizeof_wchar pl)
               = Ok (takeN (lenN (visible (n_name n)) * sizeof_wchar pl) w)).
  { rewrite mbytes_known, slice_ok by (rewrite !lenN_app; lia). rewrite dropN_app_ge by lia. rewrite N.sub_diag, dropN_0.
    f_equal. rewrite takeN_app1 by lia. reflexivity. }
  rewrite Ew. cbn [bind]. apply (number_shift pre w post) in H66. destruct (byte_number _ _ _ H66) as (b & Eb & Et).
  rewrite Eb. cbn [bind].
  rewrite (readU32_known _ _ _ (number_shift pre w post _ _ _ H116)), (readU32_known _ _ _ (number_shift pre w post _ _ _ H120)),
    (readU32_known _ _ _ (number_shift pre w post _ _ _ H68)), (readU32_known _ _ _ (number_shift pre w post _ _ _ H72)),
    (readU32_known _ _ _ (number_shift pre w post _ _ _ H76)). cbn [bind].
  unfold entry_of, loaded_name. rewrite Zn, Et. f_equal. f_equal. set (t := n_type n) in *.
  destruct (t =? 0) eqn:T0; destruct (t =? 1) eqn:T1; destruct (t =? 2) eqn:T2; destruct (t =? 5) eqn:T5; cbn; try reflexivity;
    destruct (nl =? 0); try reflexivity; lia.
Qed.

Lemma entries_ok pl d ws : supported pl -> Forall2 node_bytes d ws -> forall pre : bytes,
  exists l, load_entries pl (List.length d) (map Some (pre ++ List.concat ws)) (lenN pre) = Ok l /\
            Forall2 entry_matches d l /\ map d_name l = map (fun p => loaded_name pl (fst p) (snd p)) (combine d ws).
Proof.
  intros P F. induction F as [|n w d ws Hn F IH]; intros pre; [exists []; split; [reflexivity|split; [constructor|reflexivity]]|].
  cbn [List.length load_entries List.concat]. rewrite (entry_ok pl n pre w (List.concat ws) P Hn). cbn [bind].
  destruct (IH (pre ++ w)) as (l & E & M & Nm). rewrite <- app_assoc in E.
  assert (Lw : lenN w = 128) by apply Hn. rewrite lenN_app, Lw in E. rewrite E. cbn [bind].
  eexists. split; [reflexivity|]. split; [constructor; [reflexivity|exact M]|]. cbn [map combine fst snd]. rewrite Nm. reflexivity.
Qed.

(** ** The names *)
Lemma loaded_named pl n w : supported pl -> node_bytes n w -> named pl n w (entry_of (loaded_name pl n w) n).
Proof.
  intros P (Lw & Hname & _).
  assert (Bv : lenN (visible (n_name n)) <= 31).
  { pose proof (visible_len (n_name n)). destruct Hname as [(_ & -> & _)|(Ln & _)]; [cbn; lia|lia]. }
  assert (Sz : 0 < sizeof_wchar pl /\ sizeof_wchar pl <= 4) by (destruct P as [-> | ->]; cbn; lia).
  assert (Bs : sizeof_wchar pl * lenN (visible (n_name n)) <= 128) by nia.
  unfold named, loaded_name. cbn [d_name entry_of]. rewrite (N.mul_comm _ (sizeof_wchar pl)).
  destruct (units_to_wchars pl (takeN (sizeof_wchar pl * lenN (visible (n_name n))) w) (lenN (visible (n_name n)))) as (E & F & K);
    [lia|rewrite lenN_takeN; lia|].
  split; [exact K|]. split; [exact F|]. rewrite E. apply slice_window. rewrite slice_ok by lia. rewrite dropN_0. reflexivity.
Qed.
Lemma visible_prefix l : exists r, l = visible l ++ r.
Proof.
  induction l as [|c l [r IH]]; [exists []; reflexivity|]. cbn [visible]. destruct (_ =? 0).
  - exists (c :: l). reflexivity.
  - exists r. cbn [app]. rewrite <- IH. reflexivity.
Qed.
Lemma units_app w a b : units w (a ++ b) = units w a ++ units w b.
Proof. unfold units. rewrite map_app, concat_app. reflexivity. Qed.
Lemma window0 (w v : bytes) n : window w 0 n v -> v = takeN n w.
Proof. intros W. apply slice_window, slice_inv in W. destruct W as (_ & -> & _). rewrite dropN_0. reflexivity. Qed.
Lemma units_inj w a b : (0 < w)%nat -> Forall (fun u => u < 256 ^ N.of_nat w) a -> Forall (fun u => u < 256 ^ N.of_nat w) b ->
  units w a = units w b -> a = b.
Proof.
  intros Hw Ha Hb E. rewrite <- (wchars_units w a Hw Ha (S (List.length a + List.length b)) ltac:(lia)).
  rewrite E. apply wchars_units; [exact Hw|exact Hb|lia].
Qed.
Lemma name_windows n w e : node_bytes n w -> named windows n w e -> d_name e = visible (n_name n).
Proof.
  intros (Lw & Hname & _) (K & F & W). cbn [sizeof_wchar windows] in *.
  destruct Hname as [(_ & En & _)|(Ln & Fn & Wn & _ & _)].
  - rewrite En in *. cbn [visible] in *. destruct (d_name e); [reflexivity|rewrite lenN_cons in K; cbn in K; lia].
  - destruct (visible_prefix (n_name n)) as [r Er].
    apply (units_inj 2); [lia|exact F| |].
    + rewrite Er in Fn. apply Forall_app in Fn. destruct Fn as [Fn _]. eapply Forall_impl; [|exact Fn].
      intros c Hc. change (256 ^ N.of_nat 2) with 65536. cbn beta in Hc. lia.
    + apply window0 in W. apply window0 in Wn. change (N.to_nat 2) with 2%nat in W. rewrite W.
      apply (f_equal (takeN (2 * lenN (visible (n_name n))))) in Wn. rewrite takeN_takeN in Wn.
      pose proof (visible_len (n_name n)).
      replace (N.min _ _) with (2 * lenN (visible (n_name n))) in Wn by lia. rewrite <- Wn.
      rewrite Er at 2. rewrite units_app.
      replace (2 * lenN (visible (n_name n))) with (lenN (units 2 (visible (n_name n)))) by (rewrite lenN_units; reflexivity).
      apply takeN_app_exact.
Qed.
(** On Linux a name of two or more characters begins with a character that no name has. *)
Lemma name_linux n w e : node_bytes n w -> named linux64 n w e -> 2 <= lenN (visible (n_name n)) ->
  exists c r, d_name e = c :: r /\ 65536 <= c.
Proof.
  intros (Lw & Hname & _) (K & F & W) L. cbn [sizeof_wchar linux64] in *.
  destruct Hname as [(_ & En & _)|(Ln & Fn & Wn & _ & _)]; [rewrite En in L; cbn in L; lia|].
  destruct (n_name n) as [|c0 [|c1 nm]] eqn:En.
  - cbn in L; lia.
  - pose proof (visible_len [c0]). cbn in H. cbn in L. destruct (_ =? 0); cbn in L; lia.
  - rewrite <- En in *. destruct (d_name e) as [|c r] eqn:Ed; [cbn in K; lia|]. exists c, r. split; [reflexivity|].
    apply window0 in W. apply window0 in Wn.
    assert (E4 : to_le 4 c = to_le 2 c0 ++ to_le 2 c1).
    { pose proof (visible_len (n_name n)).
      apply (f_equal (takeN 4)) in W. apply (f_equal (takeN 4)) in Wn. rewrite takeN_takeN in *.
      replace (N.min 4 _) with 4 in W by lia. replace (N.min 4 _) with 4 in Wn by lia. rewrite <- Wn in W.
      rewrite En in W. change (N.to_nat 4) with 4%nat in W.
      change (units 4 (c :: r)) with (to_le 4 c ++ units 4 r) in W.
      change (units 2 (c0 :: c1 :: nm)) with ((to_le 2 c0 ++ to_le 2 c1) ++ units 2 nm) in W.
      rewrite takeN_app1 in W by (rewrite lenN_to_le; lia). rewrite takeN_all in W by (rewrite lenN_to_le; lia).
      rewrite takeN_app1 in W by (rewrite lenN_app, !lenN_to_le; lia).
      rewrite takeN_all in W by (rewrite lenN_app, !lenN_to_le; lia). exact W. }
    apply (f_equal le) in E4. rewrite En in Fn. inversion Fn as [|? ? H0 Fn']; subst. inversion Fn' as [|? ? H1 _]; subst.
    inversion F as [|? ? Hc _]; subst. rewrite le_to_le_id in E4 by exact Hc.
    rewrite le_app, lenN_to_le in E4. rewrite !le_to_le_id in E4 by (change (256 ^ N.of_nat 2) with 65536; lia).
    change (256 ^ N.of_nat 2) with 65536 in E4. lia.
Qed.

(** ** Opening *)
Lemma sectors_len f bs l data : sectors f bs l data -> lenN data = lenN l * bs.
Proof.
  intros (ws & F & ->). rewrite (lenN_concat bs).
  - rewrite (Forall2_len _ _ _ F). apply N.mul_comm.
  - clear - F. induction F as [|b w l ws H F IH]; constructor; [apply H|exact IH].
Qed.
Lemma combine_nth {A C} (l : list A) : forall (m : list C) i a c, nthN l i = Some a -> nthN m i = Some c -> nthN (combine l m) i = Some (a, c).
Proof.
  induction l as [|x l IH]; intros [|y m] i a c Ha Hc; try discriminate. cbn [nthN combine] in *.
  destruct (i =? 0); [congruence|]. apply IH; assumption.
Qed.
Lemma map_nth {A C} (f : A -> C) l : forall i, nthN (map f l) i = option_map f (nthN l i).
Proof. induction l as [|x l IH]; intros i; [reflexivity|]. cbn [map nthN]. destruct (i =? 0); [reflexivity|apply IH]. Qed.
Lemma Forall2_nth {A C} (R : A -> C -> Prop) l m : Forall2 R l m -> forall i a, nthN l i = Some a -> exists c, nthN m i = Some c /\ R a c.
Proof.
  induction 1 as [|x y l m H F IH]; intros i a Ha; [discriminate|]. cbn [nthN] in *. destruct (i =? 0).
  - injection Ha as <-. exists y. split; [reflexivity|exact H].
  - apply IH. exact Ha.
Qed.

Lemma valid_ok f h c : header_of f h -> stored_as f c -> valid h = true /\ b_shift h = c_shift c /\ s_shift h = c_small_shift c /\
  threshold h = 4096 /\ id h = pole_magic.
Proof.
  intros (Hid & Hb & Hs & Hnb & _ & Ht & _ & _ & _ & Hnm & _) (L & _ & Wm & Nb & Ns & B1 & B2 & B3 & Nt & (Nn & Hl & first & rest & Efr & _ & Hr) & _).
  rewrite Efr in *.
  pose proof (number_at_fun _ _ _ _ _ Hb Nb) as Eb. pose proof (number_at_fun _ _ _ _ _ Hs Ns) as Es.
  pose proof (number_at_fun _ _ _ _ _ Ht Nt) as Et. pose proof (number_at_fun _ _ _ _ _ Hnb Nn) as En.
  apply window0 in Hid. apply window0 in Wm.
  split; [|split; [exact Eb|split; [exact Es|split; [exact Et|rewrite Hid, <- Wm; reflexivity]]]].
  unfold valid. rewrite Et, Eb, Es, En. change (negb (4096 =? 4096)) with false. cbn iota.
  assert (Ll : 0 < lenN (first ++ rest)) by (destruct (first ++ rest) eqn:Ef; [congruence|rewrite lenN_cons; lia]).
  replace (_ =? 0) with false by lia.
  assert (Em : (lenN (first ++ rest) <? 109) && negb (num_mbat h =? 0) = false).
  { rewrite lenN_app in *. destruct Hr as [(-> & K & Z)|[(-> & K)|(K & _)]].
    - pose proof (number_at_fun _ _ _ _ _ Hnm Z) as ->. change (0 =? 0) with true. apply andb_false_r.
    - replace (_ <? 109) with false by lia. reflexivity.
    - replace (_ <? 109) with false by lia. reflexivity. }
  rewrite Em. replace (c_shift c <? c_small_shift c) with false by lia. replace (c_shift c <=? 6) with false by lia.
  replace (31 <=? c_shift c) with false by lia. reflexivity.
Qed.

Lemma storage_load_ok pl (f : bytes) h : 512 <= lenN f -> (b <- mstore (blank 512) 0 (map Some (takeN 512 f)) ;; header_load b) = Ok h ->
  id h = pole_magic -> valid h = true ->
  storage_load pl (Some f) =
   (let bs := big_size h in
    blocks <- getbbatBlocks f h ;;
    m <- load_chain f bs blocks ;;
    bbat <- (if 0 <? lenN blocks * bs then table_load m (lenN blocks * bs) else Ok new_table) ;;
    blocks <- follow bbat (sbat_start h) ;;
    m <- load_chain f bs blocks ;;
    sbat <- (if 0 <? lenN blocks * bs then table_load m (lenN blocks * bs) else Ok new_table) ;;
    blocks <- follow bbat (dirent_start h) ;;
    m <- load_chain f bs blocks ;;
    dir <- dirtree_load pl m (lenN blocks * bs) ;;
    sb_start <- readU32 m 116 ;;
    sb <- follow bbat sb_start ;;
    Ok (Opened (mkStorage f h bbat sbat dir sb))).
Proof.
  intros L H I V. unfold storage_load. destruct (mstore _ _ _) as [b| | |]; try discriminate. cbn [bind] in *.
  rewrite H. cbn [bind]. rewrite I, V. reflexivity.
Qed.

Lemma pow_shift k : k <= 30 -> 0 < 2 ^ k /\ 2 ^ k <= 1073741824.
Proof.
  intros H. split; [apply N.neq_0_lt_0, N.pow_nonzero; lia|]. change 1073741824 with (2 ^ 30). apply N.pow_le_mono_r; lia.
Qed.

Lemma open_ok pl (f : bytes) c : supported pl -> stored_as f c ->
  exists s, storage_load pl (Some f) = Ok (Opened s) /\ storage_of f c s /\
    (forall i n e, nthN (c_dir c) i = Some n -> nthN (st_dir s) i = Some e -> exists w, node_bytes n w /\ named pl n w e).
Proof.
  intros P St. destruct (header_ok f) as (h & Hh & Eh); [apply St|].
  destruct (valid_ok f h c Hh St) as (V & Eb & Es & Et & Ei).
  rewrite (storage_load_ok pl f h (proj1 St) Eh Ei V).
  destruct St as (L & Lf & Wm & Nb & Ns & B1 & B2 & B3 & Nt & Hfat & Sfat & Ffat & Tfat & (sm & Nsm & Cm) & Smini & Fmini & Tmini &
                  (sd & Nsd & Cd) & (ws & Fd & Sd) & _ & (root & Hroot & Croot) & Sroot).
  assert (Ebs : big_size h = 2 ^ c_shift c) by (unfold big_size; rewrite Eb; reflexivity).
  destruct (pow_shift (c_shift c) B2) as [Bp1 Bp2]. rewrite <- Ebs in *. set (bs := big_size h) in *. cbv zeta.
  rewrite (fat_ok f h (c_fat_at c) Hh Lf Hfat). cbn [bind].
  pose proof (sectors_len _ _ _ _ Sfat) as Lfat. rewrite lenN_words in Lfat. unfold table_size in Tfat.
  change (2 ^ 64) with 18446744073709551616 in *. change (2 ^ 63) with 9223372036854775808 in *.
  destruct (load_chain_file f bs (c_fat_at c) _ Lf Sfat) as [E1 _]; [change (2 ^ 64) with 18446744073709551616; lia|].
  rewrite E1. cbn [bind]. rewrite <- Lfat.
  assert (Pfat : 0 < lenN (c_fat_at c)).
  { destruct Hfat as (_ & Hl & _). destruct (c_fat_at c) eqn:Ef; [congruence|rewrite lenN_cons; lia]. }
  replace (0 <? 4 * lenN (c_fat c)) with true by nia. rewrite (table_ok (c_fat c) Ffat Tfat). cbn [bind].
  destruct Hh as (_ & _ & _ & _ & Hds & _ & Hss & _).
  rewrite (number_at_fun _ _ _ _ _ Hss Nsm), (number_at_fun _ _ _ _ _ Hds Nsd).
  rewrite (proj2 (follow_iff _ _ _ Tfat) Cm). cbn [bind].
  pose proof (chain_short _ _ _ Cm) as Lm. pose proof (chain_short _ _ _ Cd) as Ld.
  pose proof (sectors_len _ _ _ _ Smini) as Lmini. rewrite lenN_words in Lmini.
  destruct (load_chain_file f bs (c_minifat_at c) _ Lf Smini) as [E2 _]; [change (2 ^ 64) with 18446744073709551616; nia|].
  rewrite E2. cbn [bind]. rewrite <- Lmini.
  assert (E3 : (if 0 <? 4 * lenN (c_minifat c) then table_load (map Some (words (c_minifat c))) (4 * lenN (c_minifat c)) else Ok new_table)
               = Ok (match c_minifat c with [] => new_table | t => t end)).
  { destruct (c_minifat c) as [|v t] eqn:Ec; [reflexivity|]. replace (0 <? _) with true by (rewrite lenN_cons; lia).
    apply table_ok; assumption. }
  rewrite E3. cbn [bind]. rewrite (proj2 (follow_iff _ _ _ Tfat) Cd). cbn [bind].
  pose proof (sectors_len _ _ _ _ Sd) as Ldd.
  destruct (load_chain_file f bs (c_dir_at c) _ Lf Sd) as [E4 _]; [change (2 ^ 64) with 18446744073709551616; nia|].
  rewrite E4. cbn [bind]. rewrite <- Ldd.
  assert (Lws : lenN (List.concat ws) = 128 * lenN ws).
  { apply lenN_concat. clear - Fd. induction Fd as [|n w d ws H F IH]; constructor; [apply H|exact IH]. }
  unfold dirtree_load. rewrite Lws. replace (128 * lenN ws / 128) with (lenN ws) by lia.
  rewrite <- (Forall2_len _ _ _ Fd). replace (N.to_nat (lenN (c_dir c))) with (List.length (c_dir c)) by (unfold lenN; lia).
  destruct (entries_ok pl (c_dir c) ws P Fd []) as (l & E5 & M & Nm). cbn [app] in E5. change (lenN []) with 0 in E5.
  rewrite E5. cbn [bind].
  assert (Rs : readU32 (map Some (List.concat ws)) 116 = Ok (n_start root)).
  { destruct (c_dir c) as [|r d]; [discriminate|]. cbn in Hroot. injection Hroot as ->. inversion Fd as [|? w ? ws' Hr Fd']; subst.
    cbn [List.concat]. apply readU32_known. destruct Hr as (_ & _ & _ & _ & _ & _ & Hst & _).
    apply (number_shift [] w (List.concat ws') 116 4). exact Hst. }
  rewrite Rs. cbn [bind]. rewrite (proj2 (follow_iff _ _ _ Tfat) Croot). cbn [bind].
  eexists. split; [reflexivity|]. split.
  - unfold storage_of. cbn [st_file st_header st_bbat st_sbat st_dir st_sb]. repeat (split; [first [reflexivity|assumption]|]).
    reflexivity.
  - cbn [st_dir]. intros i n e Hn He. destruct (Forall2_nth _ _ _ Fd _ _ Hn) as (w & Hw & Nw). exists w. split; [exact Nw|].
    destruct (Forall2_nth _ _ _ M _ _ Hn) as (e' & He' & Em). rewrite He in He'. injection He' as <-.
    pose proof (f_equal (fun x => nthN x i) Nm) as Nm'. cbn beta in Nm'. rewrite !map_nth, He in Nm'.
    rewrite (combine_nth _ _ _ _ _ Hn Hw) in Nm'. cbn [option_map fst snd] in Nm'. injection Nm' as Nm'.
    red in Em. rewrite Em, Nm'. apply loaded_named; assumption.
Qed.
