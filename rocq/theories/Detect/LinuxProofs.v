(** What is recognised where wide characters have four bytes. *)
From Coq Require Import List NArith ZArith Lia ZifyBool ZifyNat ZifyN Bool Strings.String.
From Verif Require Import Lib.Res Lib.Bytes Lib.BytesFacts Lib.NumFacts Lib.Text Common.Model Common.Spec Common.Fields Common.Utf8 Common.FieldProofs Ole.Model Ole.Spec Ole.Statements
     Ole.DirProofs Ole.TreeProofs Ole.OutcomeProofs Ole.SafetyProofs Ole.PropertyLemmas Vba.FileSpec Docs.Model
     Detect.Model Detect.Spec Detect.Statements Detect.TreeProofs Detect.Proofs.
Import ListNotations.
Local Open Scope N_scope.

(** ** Names *)
Definition lin_name (x : list N) : Prop :=
  (lenN x <= 1 \/ exists c r, x = c :: r /\ 65536 <= c) /\
  (forall k, 0 < k -> lenN x = 2 * k -> exists c, nthN x k = Some c /\ c mod 256 = 0).
Lemma visible_stop l : exists r, l = visible l ++ r /\ match r with [] => True | c :: _ => c mod 256 = 0 end.
Proof.
  induction l as [|c l (r & E & H)]; [exists []; split; reflexivity|]. cbn [visible]. destruct (N.eqb_spec (c mod 256) 0) as [Z|Z].
  - exists (c :: l). split; [reflexivity|exact Z].
  - exists r. split; [cbn [app]; congruence|exact H].
Qed.
Lemma window_nth buf off n w i : window buf off n w -> i < n -> nthN buf (off + i) = nthN w i.
Proof.
  intros [L (pre & post & -> & P)] H. rewrite nthN_app2 by lia. rewrite nthN_app1 by lia. f_equal. lia.
Qed.
Lemma units_nth w l k c : (0 < w)%nat -> nthN l k = Some c -> nthN (units w l) (N.of_nat w * k) = Some (n2b c).
Proof.
  intros W. revert k. induction l as [|x l IH]; intros k H; [destruct k; discriminate H|]. change (units w (x :: l)) with (to_le w x ++ units w l).
  destruct (N.eq_dec k 0) as [->|K].
  - cbn in H. injection H as ->. rewrite N.mul_0_r. destruct w as [|w]; [lia|]. reflexivity.
  - rewrite nthN_app2 by (rewrite lenN_to_le; nia). rewrite lenN_to_le. replace (N.of_nat w * k - N.of_nat w) with (N.of_nat w * (k - 1)) by nia.
    apply IH. replace k with (N.succ (k - 1)) in H by lia. rewrite nthN_nth_error in *. rewrite N2Nat.inj_succ in H. exact H.
Qed.
Lemma n2b_zero c : n2b c = x00 -> c mod 256 = 0.
Proof. intros H. apply (f_equal b2n) in H. rewrite b2n_n2b in H. exact H. Qed.
Lemma zero_n2b c : c mod 256 = 0 -> n2b c = x00.
Proof. intros H. apply b2n_inj. rewrite b2n_n2b, H. reflexivity. Qed.
Lemma zero_at n w : node_bytes n w -> nthN w (2 * lenN (visible (n_name n))) = Some x00 \/ n_name n = [].
Proof.
  intros (Lw & Hname & _). destruct Hname as [(_ & -> & _)|(Ln & Fn & Wn & (z & Wz & Ez) & _)]; [right; reflexivity|left].
  destruct (visible_stop (n_name n)) as (r & E & H). destruct r as [|c r].
  - rewrite app_nil_r in E. rewrite <- E. replace (2 * lenN (n_name n)) with (2 * lenN (n_name n) + 0) by lia. rewrite (window_nth _ _ _ _ _ Wz) by lia.
    destruct Wz as [Lz _]. destruct z as [|z0 z]; [cbn in Lz; lia|]. cbn. f_equal. cbn [le] in Ez. apply b2n_inj. change (b2n x00) with 0. lia.
  - replace (2 * lenN (visible (n_name n))) with (0 + 2 * lenN (visible (n_name n))) by lia.
    assert (Hl : lenN (n_name n) = lenN (visible (n_name n)) + 1 + lenN r) by (rewrite E at 1; rewrite lenN_app, lenN_cons; lia).
    rewrite (window_nth _ _ _ _ _ Wn) by lia. change (2 * lenN (visible (n_name n))) with (N.of_nat 2 * lenN (visible (n_name n))). rewrite (units_nth 2 (n_name n) (lenN (visible (n_name n))) c); [|lia|].
    + f_equal. apply zero_n2b. exact H.
    + rewrite E at 1. rewrite nthN_app2 by lia. rewrite N.sub_diag. reflexivity.
Qed.
Lemma name_is_lin n w e : node_bytes n w -> Ole.Statements.named linux64 n w e -> lin_name (d_name e).
Proof.
  intros Nb Nd. pose proof Nd as (K & F & W). cbn [sizeof_wchar linux64] in *. split.
  - destruct (N.le_gt_cases 2 (lenN (visible (n_name n)))) as [C|C]; [right|left; lia]. eapply name_linux; eassumption.
  - intros k Hk Hl. destruct (nthN_lt (d_name e) k) as [c Hc]; [lia|]. exists c. split; [exact Hc|]. apply n2b_zero.
    destruct (zero_at n w Nb) as [Z|Z]; [|rewrite Z in K; cbn in K; lia].
    assert (U : nthN w (4 * k) = Some (n2b c)).
    { replace (4 * k) with (0 + 4 * k) by lia. rewrite (window_nth _ _ _ _ _ W) by lia. apply (units_nth 4); [lia|exact Hc]. }
    replace (2 * lenN (visible (n_name n))) with (4 * k) in Z by lia. congruence.
Qed.

(** ** Rows *)
Definition is_eq (m : OlessInfo) : bool := bytes_eqb (oi_Extension m) (B "ole_eq").
Definition row_ok (m : OlessInfo) : bool :=
  match oi_matcher m with
  | c0 :: c1 :: c2 :: r =>
      (c0 =? 47) && (c1 <? 65536) && negb (c1 =? 47) && negb (c2 =? 47) &&
      (negb (oi_ignoreCase m) ||
       (forallb (fun c => negb (tolower (u8 c) =? 0) && negb (tolower (u8 c) =? 47)) (c1 :: c2 :: r) &&
        (if is_eq m then lenN (c1 :: c2 :: r) =? 15 else lenN (c1 :: c2 :: r) mod 2 =? 0)))
  | _ => false
  end.
Lemma table_rows m : In m ole_list -> row_ok m = true.
Proof. intros I. assert (H : forallb row_ok ole_list = true) by (vm_compute; reflexivity). rewrite forallb_forall in H. apply H. exact I. Qed.
Lemma eq_rows m : In m ole_list -> is_eq m = true -> m = row "ole_eq" "OLE Equation Editor" "" "" true (W "/Equation Native") None.
Proof.
  intros I E. assert (H : forall x, In x ole_list -> is_eq x = true -> x = row "ole_eq" "OLE Equation Editor" "" "" true (W "/Equation Native") None).
  { clear. intros x I. unfold ole_list in I. cbn [In] in I. repeat (destruct I as [<-|I]; [intros E; try (vm_compute in E; discriminate E); reflexivity|]). destruct I. }
  apply H; assumption.
Qed.
Lemma iequals_len x : forall y, iequals_w x y = true -> lenN x = lenN y.
Proof. induction x as [|p x IH]; intros [|q y]; cbn [iequals_w]; try discriminate; [reflexivity|]. intros H. apply andb_true_iff in H. rewrite !lenN_cons, (IH y) by apply H. reflexivity. Qed.
Lemma iequals_nth x : forall y k c, iequals_w x y = true -> nthN x k = Some c -> exists d, nthN y k = Some d /\ tolower (u8 c) = tolower (u8 d).
Proof.
  induction x as [|p x IH]; intros [|q y] k c H N; cbn [iequals_w] in H; try discriminate H; [destruct k; discriminate N|].
  apply andb_true_iff in H. destruct H as [H1 H2]. rewrite nthN_nth_error in *. destruct (N.to_nat k) as [|i] eqn:E; cbn [nth_error] in N.
  - injection N as <-. exists q. split; [reflexivity|]. apply N.eqb_eq. exact H1.
  - destruct (IH y (N.of_nat i) c H2) as (d & Hd & T); [rewrite nthN_nth_error, Nat2N.id; exact N|]. exists d. rewrite nthN_nth_error, Nat2N.id in Hd.
    split; [exact Hd|exact T].
Qed.
(** A path of one name matches at most the row of equations, and then has fifteen characters. *)
Lemma match_name m x : In m ole_list -> lin_name x -> matches m (47 :: x) = true -> is_eq m = true /\ lenN x = 15.
Proof.
  intros I [A Z] M. pose proof (table_rows m I) as R. unfold row_ok in R. unfold matches in M. destruct (oi_matcher m) as [|c0 [|c1 [|c2 r]]] eqn:Em; try discriminate R.
  rewrite !andb_true_iff in R. destruct R as [[[[R0 R1] R2] R3] R4]. apply N.eqb_eq in R0. apply N.ltb_lt in R1. subst c0. apply orb_true_iff in M. destruct M as [M|M].
  - apply andb_true_iff in M. destruct M as [Mi M]. rewrite Mi in R4. cbn [negb orb] in R4. apply andb_true_iff in R4. destruct R4 as [R4 R5].
    cbn [iequals_w] in M. apply andb_true_iff in M. destruct M as [_ M]. pose proof (iequals_len _ _ M) as L.
    destruct (is_eq m); [split; [reflexivity|apply N.eqb_eq in R5; lia]|]. exfalso. apply N.eqb_eq in R5.
    assert (H2 : exists k, 0 < k /\ lenN x = 2 * k) by (exists (lenN x / 2); rewrite !lenN_cons in *; lia).
    destruct H2 as (k & Hk & Hl). destruct (Z k Hk Hl) as (c & Hc & Hz). destruct (iequals_nth _ _ _ _ M Hc) as (d & Hd & T).
    rewrite forallb_forall in R4. rewrite nthN_nth_error in Hd. apply nth_error_In in Hd. specialize (R4 d Hd). rewrite <- T in R4.
    assert (U : u8 c = 0) by exact Hz. rewrite U in R4. discriminate R4.
  - exfalso. apply weq_eq in M. injection M as ->. destruct A as [A|(c & r' & E & C)]; [rewrite !lenN_cons in A; lia|]. injection E as <- <-. lia.
Qed.
(** A longer path matches none. *)
Lemma match_path m x rest : In m ole_list -> lin_name x -> matches m (47 :: x ++ 47 :: rest) = true -> False.
Proof.
  intros I [A Z] M. pose proof (table_rows m I) as R. unfold row_ok in R. unfold matches in M. destruct (oi_matcher m) as [|c0 [|c1 [|c2 r]]] eqn:Em; try discriminate R.
  rewrite !andb_true_iff in R. destruct R as [[[[R0 R1] R2] R3] R4]. apply N.eqb_eq in R0. apply N.ltb_lt in R1. subst c0. apply orb_true_iff in M. destruct M as [M|M].
  - apply andb_true_iff in M. destruct M as [Mi M]. rewrite Mi in R4. cbn [negb orb] in R4. apply andb_true_iff in R4. destruct R4 as [R4 R5].
    cbn [iequals_w] in M. apply andb_true_iff in M. destruct M as [_ M].
    assert (N47 : nthN (x ++ 47 :: rest) (lenN x) = Some 47) by (rewrite nthN_app2, N.sub_diag by lia; reflexivity).
    destruct (iequals_nth _ _ _ _ M N47) as (d & Hd & T). rewrite forallb_forall in R4. rewrite nthN_nth_error in Hd. apply nth_error_In in Hd. specialize (R4 d Hd). rewrite <- T in R4.
    vm_compute in R4. discriminate R4.
  - apply weq_eq in M. injection M as M. destruct x as [|p [|q x]]; cbn [app] in M.
    + injection M as <- _. discriminate R2.
    + injection M as <- <- _. discriminate R3.
    + injection M as <- _ _. destruct A as [A|(c & r' & E & C)]; [rewrite !lenN_cons in A; lia|]. injection E as <- <-. lia.
Qed.

(** ** Paths *)
Inductive lin_path : list N -> Prop :=
| lp_root : lin_path [47]
| lp_below x rest : lin_name x -> lin_path (47 :: x ++ 47 :: rest).
Lemma lin_path_sub path x : lin_path path -> lin_name x -> lin_path ((path ++ x) ++ [slash]).
Proof.
  intros P X. destruct P as [|y rest Y]; cbn [app].
  - apply (lp_below x [] X).
  - replace (((y ++ 47 :: rest) ++ x) ++ [slash]) with (y ++ 47 :: (rest ++ x ++ [slash])) by (rewrite <- !app_assoc; reflexivity). apply lp_below. exact Y.
Qed.
Lemma no_vba path x : lin_path path -> lin_name x -> vba_storage x (path ++ x) = false.
Proof.
  intros P [A _]. unfold vba_storage. destruct (weq x (W "Macros")) eqn:E1.
  { apply weq_eq in E1. subst x. destruct A as [A|(c & r & E & C)]; [vm_compute in A; contradiction|]. vm_compute in E. injection E as <- <-. lia. }
  destruct (weq x (W "_VBA_PROJECT_CUR")) eqn:E2.
  { apply weq_eq in E2. subst x. destruct A as [A|(c & r & E & C)]; [vm_compute in A; contradiction|]. vm_compute in E. injection E as <- <-. lia. }
  cbn [orb]. apply orb_false_iff. split.
  - destruct (weq (path ++ x) (W "/VBA")) eqn:E; [|reflexivity]. exfalso. apply weq_eq in E. change (W "/VBA") with [47; 86; 66; 65] in E. destruct P as [|y rest [B _]]; cbn [app] in E.
    + injection E as ->. destruct A as [A|(c & r & E & C)]; [cbn in A; lia|]. injection E as <- <-. lia.
    + injection E as E. destruct y as [|p [|q y]]; cbn [app] in E; [discriminate E..|]. injection E as -> _ _. destruct B as [B|(c & r & E & C)]; [rewrite !lenN_cons in B; lia|].
      injection E as <- <-. lia.
  - destruct (weq (path ++ x) (W "/VBA_Project")) eqn:E; [|reflexivity]. exfalso. apply weq_eq in E. change (W "/VBA_Project") with [47; 86; 66; 65; 95; 80; 114; 111; 106; 101; 99; 116] in E. destruct P as [|y rest [B _]]; cbn [app] in E.
    + injection E as ->. destruct A as [A|(c & r & E & C)]; [cbn in A; lia|]. injection E as <- <-. lia.
    + injection E as E. destruct y as [|p [|q y]]; cbn [app] in E; [discriminate E..|]. injection E as -> _ _. destruct B as [B|(c & r & E & C)]; [rewrite !lenN_cons in B; lia|].
      injection E as <- <-. lia.
Qed.
Lemma no_props x : lin_name x -> property_stream x = false.
Proof.
  intros [A _]. destruct (property_stream x) eqn:E; [|reflexivity]. exfalso. apply property_stream_iff in E. unfold property_names in E. cbn [In] in E.
  repeat (destruct E as [E|E]; [subst x; destruct A as [A|(c & r & E & C)]; [vm_compute in A; contradiction|vm_compute in E; injection E as <- <-; lia]|]). destruct E.
Qed.

Section Linux.
Variables (excel : bytes -> res workbook) (rows : list OlessInfo) (s : storage).
Hypothesis Tb : forall m, In m rows -> In m ole_list.
Hypothesis Nm : Forall (fun e => lin_name (d_name e)) (st_dir s).
Definition equation : found := FOless (mkExt (B "ole_eq") (B "OLE Equation Editor") [] 0 []) [] [].
Definition lin_state (t : state) : Prop :=
  st_props t = [] /\ Forall (fun r => r = equation /\ exists e, In e (st_dir s) /\ lenN (d_name e) = 15) (st_results t).

Lemma lin_rows path e : lin_path path -> In e (st_dir s) -> forall rest ei, (forall m, In m rest -> In m ole_list) ->
  (ei = None \/ (ei = Some equation /\ lenN (d_name e) = 15)) ->
  exists r, guess_rows linux64 excel s rest (path ++ d_name e) ei = Ok r /\ (r = None \/ (r = Some equation /\ lenN (d_name e) = 15)).
Proof.
  intros P Ie. pose proof (proj1 (Forall_forall _ _) Nm e Ie) as Le. cbn beta in Le.
  induction rest as [|m rest IH]; intros ei T He; cbn [guess_rows]; [exists ei; split; [reflexivity|exact He]|].
  assert (T' : forall m, In m rest -> In m ole_list) by (intros x Ix; apply T; right; exact Ix).
  destruct (matches m (path ++ d_name e)) eqn:M; [|apply IH; assumption].
  destruct P as [|y q Y].
  - destruct (match_name m (d_name e) (T m (or_introl eq_refl)) Le M) as [E L]. rewrite (eq_rows m (T m (or_introl eq_refl)) E).
    cbn [row oi_extraFunc bind]. apply IH; [exact T'|]. right. split; [reflexivity|exact L].
  - exfalso. apply (match_path m y (q ++ d_name e) (T m (or_introl eq_refl)) Y). replace (47 :: y ++ 47 :: q ++ d_name e) with ((47 :: y ++ 47 :: q) ++ d_name e); [exact M|].
    cbn [app]. rewrite <- app_assoc. reflexivity.
Qed.
Lemma lin_directory name : (exists b, isDirectory linux64 s name = Ok b) \/ isDirectory linux64 s name = Fuel.
Proof.
  unfold isDirectory. destruct (entry_at_cases linux64 (st_dir s) name) as [[[k|] E]|E]; rewrite E; cbn [bind]; [|left; eexists; reflexivity|right; reflexivity].
  left. destruct (nthN (st_dir s) k); eexists; reflexivity.
Qed.
Lemma lin_stream path e t : lin_path path -> In e (st_dir s) -> lin_state t ->
  (exists t', guessStreamInfo linux64 excel rows s (d_name e) (path ++ d_name e) t = Ok t' /\ lin_state t') \/
  guessStreamInfo linux64 excel rows s (d_name e) (path ++ d_name e) t = Fuel.
Proof.
  intros P Ie [Pt Rt]. pose proof (proj1 (Forall_forall _ _) Nm e Ie) as Le. cbn beta in Le. unfold guessStreamInfo.
  destruct (lin_directory (path ++ d_name e)) as [[b E]|E]; rewrite E; cbn [bind]; [|right; reflexivity]. left. destruct b.
  - rewrite (no_vba path (d_name e) P Le). exists t. split; [reflexivity|split; assumption].
  - rewrite (no_props (d_name e) Le). destruct (lin_rows path e P Ie rows None Tb (or_introl eq_refl)) as (r & Er & Hr). rewrite Er. cbn [bind].
    eexists. split; [reflexivity|]. destruct Hr as [->|[-> L]]; [split; assumption|]. split; [exact Pt|]. unfold push_result. cbn [st_results]. apply Forall_app. split; [exact Rt|].
    constructor; [|constructor]. split; [reflexivity|]. exists e. split; assumption.
Qed.
Lemma lin_entries path l : storage_entries linux64 s path = Ok l -> Forall (fun x => exists e, In e (st_dir s) /\ x = d_name e) l.
Proof.
  unfold storage_entries. destruct (entry_at linux64 (st_dir s) path) as [[k|]| | |]; cbn [bind]; try discriminate; [|intros H; injection H as <-; constructor].
  destruct (nthN (st_dir s) k) as [e|]; [|intros H; injection H as <-; constructor]. destruct (d_dir e); [|intros H; injection H as <-; constructor].
  destruct (children (st_dir s) k) as [cs| | |]; cbn [bind]; try discriminate. revert l. induction cs as [|c cs IH]; intros l; cbn [mapM].
  - intros H. injection H as <-. constructor.
  - destruct (nthN (st_dir s) c) as [e'|] eqn:Ec; cbn [bind]; [|discriminate]. destruct (mapM _ cs) as [l'| | |] eqn:Em; cbn [bind]; try discriminate. intros H. injection H as <-.
    constructor; [|apply IH; reflexivity]. exists e'. split; [|reflexivity]. rewrite nthN_nth_error in Ec. eapply nth_error_In. exact Ec.
Qed.
Lemma lin_recurse fuel : forall path t, lin_path path -> lin_state t ->
  (exists t', recurse linux64 excel rows s fuel path t = Ok t' /\ lin_state t') \/ recurse linux64 excel rows s fuel path t = Fuel.
Proof.
  induction fuel as [|fuel IH]; intros path t P Ht; [right; reflexivity|]. cbn [recurse].
  destruct (C57_safe linux64 s path) as [[l E]|E]; rewrite E; cbn [bind]; [|right; reflexivity]. pose proof (lin_entries path l E) as Fl. clear E.
  assert (Hp : lin_state (push_path path t)) by exact Ht. revert Hp. generalize (push_path path t). clear t Ht.
  induction Fl as [|x l (e & Ie & ->) Fl IHl]; intros t Ht; [left; exists t; split; [reflexivity|exact Ht]|].
  destruct (lin_stream path e t P Ie Ht) as [(t1 & E1 & H1)|E1]; rewrite E1; cbn [bind]; [|right; reflexivity].
  destruct (lin_directory (path ++ d_name e)) as [[b E2]|E2]; rewrite E2; cbn [bind]; [|right; reflexivity]. destruct b; cbn [bind].
  - destruct (IH ((path ++ d_name e) ++ [slash]) t1) as [(t2 & E3 & H2)|E3]; [apply lin_path_sub; [exact P|]; exact (proj1 (Forall_forall _ _) Nm e Ie)|exact H1| |]; rewrite E3; cbn [bind]; [|right; reflexivity].
    apply IHl. exact H2.
  - apply IHl. exact H1.
Qed.
End Linux.

Lemma attach_equations paths l : Forall (fun r => r = equation) l ->
  Forall (fun r => exists p, r = FOless (mkExt (B "ole_eq") (B "OLE Equation Editor") [] 0 []) p []) (attach paths [] l).
Proof.
  intros F. destruct l as [|r l]; cbn [attach]; [constructor|]. inversion F as [|? ? -> F']; subst. cbn [attach equation]. constructor; [eexists; reflexivity|].
  eapply Forall_impl; [|exact F']. intros r ->. exists []. reflexivity.
Qed.
Theorem linux_guess f c excel rows : stored_as f c -> (forall m, In m rows -> In m ole_list) ->
  Guess linux64 excel rows (Some f) = Fuel \/
  exists l, Guess linux64 excel rows (Some f) = Ok l /\
    ((exists paths, l = [FOless (mkExt (B "oless") [] [] 0 (B "OLE Structured Storage")) paths []]) \/
     (Exists (fun n => lenN (visible (n_name n)) = 15) (c_dir c) /\
      Forall (fun r => exists p, r = FOless (mkExt (B "ole_eq") (B "OLE Equation Editor") [] 0 []) p []) l)).
Proof.
  intros St T. destruct (open_ok linux64 f c (or_introl eq_refl) St) as (s & Eo & So & Nd).
  pose proof So as (_ & _ & _ & _ & _ & _ & M & _).
  assert (Src : forall e, In e (st_dir s) -> exists n w, In n (c_dir c) /\ node_bytes n w /\ Ole.Statements.named linux64 n w e).
  { intros e Ie. apply In_nth_error in Ie. destruct Ie as [i Hi]. assert (Hi' : nthN (st_dir s) (N.of_nat i) = Some e) by (rewrite nthN_nth_error, Nat2N.id; exact Hi).
    destruct (matches_nth' _ _ M _ _ Hi') as (n & Hn & Em). destruct (Nd _ _ _ Hn Hi') as (w & Nb & Na). exists n, w. split; [|split; assumption].
    rewrite nthN_nth_error in Hn. eapply nth_error_In. exact Hn. }
  assert (Nm : Forall (fun e => lin_name (d_name e)) (st_dir s)).
  { apply Forall_forall. intros e Ie. destruct (Src e Ie) as (n & w & _ & Nb & Na). eapply name_is_lin; eassumption. }
  unfold Guess. rewrite Eo. cbn [bind].
  destruct (lin_recurse excel rows s T Nm (S (List.length (st_dir s))) [slash] (mkState [] [] []) lp_root) as [(t & E & Pt & Rt)|E]; [split; [reflexivity|constructor]| |];
    rewrite E; cbn [bind]; [right|left; reflexivity].
  eexists. split; [reflexivity|]. rewrite Pt. destruct (st_results t) as [|r l] eqn:Er; [left; eexists; reflexivity|right]. split.
  - inversion Rt as [|? ? [_ (e & Ie & Le)] _]; subst. destruct (Src e Ie) as (n & w & In' & _ & (K & _)). apply Exists_exists. exists n. split; [exact In'|]. congruence.
  - apply attach_equations. eapply Forall_impl; [|exact Rt]. intros x [E' _]. exact E'.
Qed.
