(** Property set streams. *)
From Coq Require Import List NArith ZArith Bool Lia.
From Coq Require Import ZifyBool ZifyNat ZifyN.
From Verif Require Import Lib.Res Lib.Bytes Lib.BytesFacts Common.Model Common.Spec Common.Fields Common.FieldProofs
     Common.ReadProofs Common.Utf8 Common.Utf8Proofs Propset.Model Propset.Spec Propset.Statements Propset.ValueProofs.
Import ListNotations.
Local Open Scope N_scope.
Ltac Zify.zify_post_hook ::= Z.div_mod_to_equations.
Arguments N.pow : simpl never.
Arguments N.mul : simpl never.

(** ** Format identifiers *)
Lemma guid_loop_spec a b n : List.length a = n -> List.length b = n -> guid_loop a b n = Ok (bytes_eqb a b).
Proof.
  revert a b. induction n as [|n IH]; intros [|x a] [|y b] Ha Hb; try discriminate; cbn [guid_loop bytes_eqb].
  - reflexivity.
  - injection Ha as Ha. injection Hb as Hb. destruct (byte_eqb x y); [|reflexivity]. cbn [andb]. apply IH; assumption.
Qed.
Lemma bytes_dec (a b : bytes) : {a = b} + {a <> b}.
Proof.
  destruct (bytes_eqb a b) eqn:E; [left; apply bytes_eqb_eq; exact E|right].
  intros H. apply bytes_eqb_eq in H. congruence.
Qed.
Lemma format_ok g : lenN g = 16 -> exists f, FormatIdFromGuid g = Ok f /\ format_is g f.
Proof.
  intros L. unfold FormatIdFromGuid, VerifyGuids.
  assert (Lg : List.length g = 16%nat) by (unfold lenN in L; lia).
  rewrite !guid_loop_spec by (exact Lg || reflexivity). cbn [bind].
  change guid_SummaryInformation with fmtid_summary.
  change guid_DocumentSummaryInformation with fmtid_document.
  change guid_UserDefinedProperties with fmtid_user.
  destruct (bytes_eqb g fmtid_summary) eqn:E1.
  { apply bytes_eqb_eq in E1. eexists. split; [reflexivity|exact E1]. }
  destruct (bytes_eqb g fmtid_document) eqn:E2.
  { apply bytes_eqb_eq in E2. eexists. split; [reflexivity|exact E2]. }
  destruct (bytes_eqb g fmtid_user) eqn:E3.
  { apply bytes_eqb_eq in E3. eexists. split; [reflexivity|exact E3]. }
  eexists. split; [reflexivity|]. cbn [format_is].
  split; [|split]; intros ->; rewrite bytes_eqb_refl in *; discriminate.
Qed.
Lemma format_fun g f f' : format_is g f -> format_is g f' -> f = f'.
Proof.
  assert (D1 : fmtid_summary <> fmtid_document) by (intros H; vm_compute in H; discriminate H).
  assert (D2 : fmtid_summary <> fmtid_user) by (intros H; vm_compute in H; discriminate H).
  assert (D3 : fmtid_document <> fmtid_user) by (intros H; vm_compute in H; discriminate H).
  destruct f, f'; cbn [format_is]; intros; try reflexivity; subst; exfalso; intuition congruence.
Qed.

(** ** The tables of one set *)
Lemma two_numbers buf off a b : number_at buf off 4 a -> number_at buf (off + 4) 4 b ->
  exists w, slice buf off 8 = Ok w /\ le (takeN 4 w) = a /\ le (dropN 4 w) = b.
Proof.
  intros Ha Hb. pose proof (number_at_len _ _ _ _ Hb) as L.
  rewrite slice_ok by lia. eexists. split; [reflexivity|].
  destruct (number_slice _ _ _ _ Ha) as (wa & Ea & <-). destruct (number_slice _ _ _ _ Hb) as (wb & Eb & <-).
  rewrite slice_ok in Ea by lia. rewrite slice_ok in Eb by lia.
  injection Ea as <-. injection Eb as <-. split; f_equal.
  - rewrite takeN_takeN. f_equal.
  - rewrite takeN_dropN_comm, <- takeN_dropN_comm.
    rewrite (takeN_dropN_comm 8 off), dropN_dropN, (takeN_dropN_comm 4 (off + 4)). f_equal. f_equal. lia.
Qed.

(** What reading the values yields, one after the other. *)
Definition read_entry (pl : platform) (buf : bytes) (start : N) (f : FormatId) (e : N * N) : res property :=
  ReadProperty pl buf (u32 (start + snd e)) (fst e) f.

Lemma parse_properties_exact pl buf start f l : lenN buf < 2 ^ 32 ->
  forall fuel index, lenN l <= N.of_nat fuel -> index + 8 * lenN l <= lenN buf ->
  (forall j e, nthN l j = Some e -> number_at buf (index + 8 * j) 4 (fst e) /\ number_at buf (index + 8 * j + 4) 4 (snd e)) ->
  parse_properties fuel pl buf start f index (lenN l) = mapM (read_entry pl buf start f) l.
Proof.
  intros HL. induction l as [|e l IH]; intros fuel index Hf Hi Hl.
  - destruct fuel; reflexivity.
  - rewrite lenN_cons in *. destruct fuel as [|k]; [lia|]. cbn [parse_properties mapM].
    replace (lenN l + 1 =? 0) with false by lia.
    destruct (Hl 0 e eq_refl) as [H1 H2].
    replace (index + 8 * 0) with index in * by lia.
    destruct (two_numbers _ _ _ _ H1 H2) as (w & Ew & E1 & E2).
    rewrite Ew. cbn [bind]. rewrite E1, E2. fold (read_entry pl buf start f e).
    destruct (read_entry pl buf start f e) as [p| | |]; try reflexivity. cbn [bind].
    replace (lenN l + 1 - 1) with (lenN l) by lia.
    rewrite u32_small by lia. rewrite (IH k (index + 8)); [reflexivity|lia|lia|].
    intros j x Hj. specialize (Hl (j + 1) x).
    replace (nthN (e :: l) (j + 1)) with (nthN l j) in Hl
      by (cbn [nthN]; replace (j + 1 =? 0) with false by lia; f_equal; lia).
    specialize (Hl Hj). replace (index + 8 + 8 * j) with (index + 8 * (j + 1)) by lia. exact Hl.
Qed.

Lemma rows_inside buf i t : table_in buf i t -> t_start t + 8 + 8 * lenN (t_rows t) <= lenN buf.
Proof.
  intros (_ & _ & H & Hr). pose proof (number_at_len _ _ _ _ H) as L.
  destruct (N.eq_dec (lenN (t_rows t)) 0) as [->|Hn]; [lia|].
  destruct (nthN_lt (t_rows t) (lenN (t_rows t) - 1) ltac:(lia)) as [e He].
  destruct (Hr _ _ He) as [_ H2]. pose proof (number_at_len _ _ _ _ H2). lia.
Qed.

(** Reading one set: the values of its rows. *)
Definition read_rows (pl : platform) (buf : bytes) (t : table) : res (list property) :=
  f <- FormatIdFromGuid (t_format t) ;; mapM (read_entry pl buf (t_start t) f) (t_rows t).

Lemma parse_set_exact pl buf i t : lenN buf < 2 ^ 32 -> table_in buf i t ->
  parse_set pl buf (28 + 20 * i) = read_rows pl buf t.
Proof.
  intros HL Ht. pose proof (rows_inside _ _ _ Ht) as Hr. destruct Ht as (Hg & Hs & Hn & Hl).
  unfold parse_set, read_rows. pose proof (number_at_len _ _ _ _ Hs) as L1.
  replace (lenN buf <? 28 + 20 * i + 20) with false by lia.
  apply slice_window in Hg. rewrite Hg. cbn [bind].
  replace (28 + 20 * i + 16) with (44 + 20 * i) by lia.
  destruct (number_slice _ _ _ _ Hs) as (w & Ew & El). rewrite Ew. cbn [bind]. rewrite El.
  replace (lenN buf <? t_start t + 8) with false by lia.
  destruct (number_slice _ _ _ _ Hn) as (w2 & Ew2 & El2). rewrite Ew2. cbn [bind]. rewrite El2.
  destruct (FormatIdFromGuid (t_format t)) as [f| | |]; try reflexivity. cbn [bind].
  rewrite u32_small by lia. apply parse_properties_exact; [exact HL|unfold lenN in *; lia|lia|].
  intros j e Hj. replace (t_start t + 8 + 8 * j + 4) with (t_start t + 12 + 8 * j) by lia. auto.
Qed.

Lemma parse_sets_exact pl buf n ts : lenN buf < 2 ^ 32 -> forall fuel i,
  n = i + lenN ts -> n < 2 ^ 32 -> lenN ts <= N.of_nat fuel ->
  (forall k t, nthN ts k = Some t -> table_in buf (i + k) t) ->
  parse_sets fuel pl buf i n = (l <- mapM (read_rows pl buf) ts ;; Ok (List.concat l)).
Proof.
  intros HL. induction ts as [|t ts IH]; intros fuel i Hn Hb Hf Ht.
  - change (lenN []) with 0 in *. destruct fuel; cbn [parse_sets mapM]; replace (n <=? i) with true by lia; reflexivity.
  - rewrite lenN_cons in *. destruct fuel as [|k]; [lia|]. cbn [parse_sets mapM].
    replace (n <=? i) with false by lia.
    pose proof (Ht 0 t eq_refl) as H0. rewrite N.add_0_r in H0.
    assert (B : 44 + 20 * i + 4 <= lenN buf).
    { destruct H0 as (_ & H1 & _). apply number_at_len in H1. exact H1. }
    rewrite (u32_small (28 + i * 20)) by lia. replace (28 + i * 20) with (28 + 20 * i) by lia.
    rewrite (parse_set_exact pl buf i t HL H0).
    destruct (read_rows pl buf t) as [l| | |]; try reflexivity. cbn [bind].
    rewrite u32_small by lia. rewrite (IH k (i + 1)); [|lia|exact Hb|lia|].
    + destruct (mapM (read_rows pl buf) ts); reflexivity.
    + intros j x Hj. replace (i + 1 + j) with (i + (j + 1)) by lia. apply Ht.
      cbn [nthN]. replace (j + 1 =? 0) with false by lia. replace (N.pred (j + 1)) with j by lia. exact Hj.
Qed.

Lemma sets_below buf ts : tables_in buf ts -> 28 + 20 * lenN ts <= lenN buf.
Proof.
  intros [Hn Ht]. pose proof (number_at_len _ _ _ _ Hn) as L.
  destruct (N.eq_dec (lenN ts) 0) as [->|Hz]; [lia|].
  destruct (nthN_lt ts (lenN ts - 1) ltac:(lia)) as [t E].
  destruct (Ht _ _ E) as (_ & H & _). apply number_at_len in H. lia.
Qed.

Lemma parse_exact pl buf ts : lenN buf < 2 ^ 32 -> tables_in buf ts ->
  ParseBytes pl buf = (l <- mapM (read_rows pl buf) ts ;; Ok (List.concat l)).
Proof.
  intros HL H. pose proof (sets_below _ _ H) as L. destruct H as [Hn Ht].
  unfold ParseBytes. replace (lenN buf =? 0) with false by lia. replace (lenN buf <? 28) with false by lia.
  destruct (number_slice _ _ _ _ Hn) as (w & Ew & El). rewrite Ew. cbn [bind]. rewrite El.
  apply parse_sets_exact; [exact HL|lia|lia|unfold lenN in *; lia|].
  intros k t E. rewrite N.add_0_l. auto.
Qed.

(** ** Sets whose values are well stored *)
Definition table_of (s : pset) : table :=
  mkTable (s_format s) (s_start s) (map (fun e => (e_id e, e_offset e)) (s_entries s)).
Lemma nthN_map {A C} (f : A -> C) l i : nthN (map f l) i = option_map f (nthN l i).
Proof. revert i. induction l as [|x l IH]; intros i; cbn [map nthN]; [reflexivity|]. destruct (i =? 0); auto. Qed.
Lemma table_of_in buf i s : set_in buf i s -> table_in buf i (table_of s).
Proof.
  intros (H1 & H2 & H3 & H4). unfold table_in, table_of. cbn [t_format t_start t_rows].
  rewrite lenN_map. split; [exact H1|]. split; [exact H2|]. split; [exact H3|].
  intros j e Hj. rewrite nthN_map in Hj. destruct (nthN (s_entries s) j) as [x|] eqn:E; [|discriminate].
  injection Hj as <-. destruct (H4 j x E) as (K1 & K2 & _). split; assumption.
Qed.
Lemma tables_of buf sets : property_sets buf sets -> tables_in buf (map table_of sets).
Proof.
  intros [Hn Hs]. split; [rewrite lenN_map; exact Hn|]. intros i t Hi. rewrite nthN_map in Hi.
  destruct (nthN sets i) as [s|] eqn:E; [|discriminate]. injection Hi as <-. apply table_of_in; auto.
Qed.

Lemma In_nthN {A} (l : list A) x : In x l -> exists i, nthN l i = Some x.
Proof.
  intros H. apply In_nth_error in H. destruct H as [n Hn]. exists (N.of_nat n).
  rewrite nthN_nth_error, Nat2N.id. exact Hn.
Qed.

Definition accepted (pl : platform) (v : stored) : Prop :=
  is_name v = false /\ (pl = windows \/ is_wide v = false).

Lemma rows_read pl buf start f g (l : list entry) : lenN buf + 12 < 2 ^ 32 -> format_is g f ->
  (forall e, In e l -> value_at buf (start + e_offset e) (e_value e) /\ accepted pl (e_value e)) ->
  exists ps, mapM (read_entry pl buf start f) (map (fun e => (e_id e, e_offset e)) l) = Ok ps /\
    Forall2 (reports_as taken) (map (fun e => (g, e)) l) ps.
Proof.
  intros HL Hf. induction l as [|e l IH]; intros H.
  - exists []. split; [reflexivity|constructor].
  - destruct IH as (ps & E & F); [intros x Hx; apply H; right; exact Hx|].
    destruct (H e (or_introl eq_refl)) as [Hv [Ha Hb]].
    destruct (property_read pl buf _ _ (e_id e) f HL Hv Ha Hb) as (r & Er & Hr).
    exists (mkProp (e_id e) f (type_of (e_value e)) r :: ps). split.
    + cbn [map mapM]. unfold read_entry at 1. cbn [fst snd].
      destruct Hv as [Hv _]. apply number_at_len in Hv. rewrite u32_small by lia.
      rewrite Er. cbn [bind]. rewrite E. reflexivity.
    + cbn [map]. constructor; [|exact F]. repeat split; assumption.
Qed.

Lemma sets_read pl buf (sets : list pset) : lenN buf + 12 < 2 ^ 32 ->
  (forall s, In s sets -> lenN (s_format s) = 16 /\ forall e, In e (s_entries s) ->
     value_at buf (s_start s + e_offset e) (e_value e) /\ accepted pl (e_value e)) ->
  exists ps, mapM (read_rows pl buf) (map table_of sets) = Ok ps /\
    Forall2 (reports_as taken) (all_entries sets) (List.concat ps).
Proof.
  intros HL. induction sets as [|s sets IH]; intros H.
  - exists []. split; [reflexivity|constructor].
  - destruct IH as (ps & E & F); [intros x Hx; apply H; right; exact Hx|].
    destruct (H s (or_introl eq_refl)) as [Hg He].
    destruct (format_ok _ Hg) as (f & Ef & Hf).
    destruct (rows_read pl buf (s_start s) f (s_format s) (s_entries s) HL Hf He) as (l & El & Fl).
    exists (l :: ps). split.
    + cbn [map mapM]. unfold read_rows at 1. cbn [t_format t_start t_rows table_of].
      rewrite Ef. cbn [bind]. rewrite El. cbn [bind]. rewrite E. reflexivity.
    + cbn [all_entries flat_map List.concat]. apply Forall2_app; assumption.
Qed.

Lemma C66_general pl buf sets : lenN buf + 12 < 2 ^ 32 -> property_sets buf sets -> none_of is_name sets ->
  (pl = windows \/ none_of is_wide sets) ->
  exists l, ParseBytes pl buf = Ok l /\ Forall2 (reports_as taken) (all_entries sets) l.
Proof.
  intros HL Hp Hn Hw. rewrite (parse_exact pl buf (map table_of sets)) by (lia || apply tables_of; exact Hp).
  destruct (sets_read pl buf sets HL) as (ps & E & F).
  - intros s Hs. destruct Hp as [_ Hp]. destruct (In_nthN _ _ Hs) as [i Hi].
    destruct (Hp i s Hi) as (Hg & _ & _ & He). split; [apply Hg|]. intros e Hin.
    destruct (In_nthN _ _ Hin) as [j Hj]. destruct (He j e Hj) as (_ & _ & Hv). split; [exact Hv|].
    assert (A : In (s_format s, e) (all_entries sets)).
    { unfold all_entries. apply in_flat_map. exists s. split; [exact Hs|]. apply in_map. exact Hin. }
    unfold none_of in *. rewrite Forall_forall in Hn. split; [apply (Hn _ A)|].
    destruct Hw as [Hw|Hw]; [left; exact Hw|right]. rewrite Forall_forall in Hw. apply (Hw _ A).
  - rewrite E. cbn [bind]. eauto.
Qed.
