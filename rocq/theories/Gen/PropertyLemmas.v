(** The tables of the program and the items of data.xml, with concrete cases. *)
From Coq Require Import List NArith Lia Bool Strings.String Strings.Byte ZifyBool ZifyNat ZifyN.
From Verif Require Import Lib.Res Lib.Bytes Lib.BytesFacts Lib.Text Common.Model Common.Spec Ole.Model Detect.Model Zip.Model Program.Model Gen.Model Gen.Spec Gen.Source Gen.Header Gen.Proofs.
From Verif Require Import Magic.Spec Program.Statements Program.PropertyLemmas Magic.Model Magic.Table.
Import ListNotations.
Local Open Scope N_scope.

(** ** The lines of the headers *)
Lemma C120_lines : map array_line magic_items = map Some magic_arrays /\ map entry_line magic_items = map Some magic_entries /\ map ole_line ole_items = ole_entries.
Proof. split; [|split]; vm_compute; reflexivity. Qed.
(** ** The rows of the tables *)
Lemma C120_rows : Forall2 says magic_items table.
Proof. apply (all2_sound says_b says says_sound). vm_compute. reflexivity. Qed.
Lemma C120_ole_rows : Forall2 says_ole ole_items ole_list.
Proof. apply (all2_sound says_ole_b says_ole says_ole_sound). vm_compute. reflexivity. Qed.
(** ** Signatures *)
Lemma C120_signatures : forall t bs, written t bs -> (exists a, magic_of t = Some (lenN bs, a)) /\ signature_of t = Some bs.
Proof. intros. apply signature_written. assumption. Qed.
Lemma C120_one_meaning : forall t bs bs', written t bs -> written t bs' -> bs = bs'.
Proof. intros t bs bs' H K. apply signature_written in H, K. destruct H as (_ & H). destruct K as (_ & K). congruence. Qed.
Lemma C120_trailing_comma : forall vs t, hex_bytes vs t -> signature_of (t ++ B ",") = Some (vs ++ [x00]).
Proof. intros. apply signature_comma. assumption. Qed.
Lemma C120_no_comma : forall v p w r, hex_byte v p -> hex_byte w r -> signature_of (p ++ r) = None.
Proof. intros v p w r H K. apply (signature_joined v p w r H K). Qed.
(** ** Names *)
Fixpoint distinct_b (l : list bytes) : bool := match l with [] => true | x :: l => negb (existsb (bytes_eqb x) l) && distinct_b l end.
Lemma distinct_sound l : distinct_b l = true -> NoDup l.
Proof.
  induction l as [|x l IH]; intros H; [constructor|]. cbn [distinct_b] in H. apply andb_true_iff in H. destruct H as (H & K). constructor; [|apply IH; exact K]. intros I.
  apply negb_true_iff in H. apply not_true_iff_false in H. apply H. apply existsb_exists. exists x. split; [exact I|]. apply bytes_eqb_eq. reflexivity.
Qed.
Definition tail_b (t : bytes) : bool :=
  forallb (fun c => ((48 <=? b2n c) && (b2n c <=? 57)) || ((65 <=? b2n c) && (b2n c <=? 90)) || (b2n c =? 95) || ((97 <=? b2n c) && (b2n c <=? 122))) t.
Lemma tail_sound t : tail_b t = true -> identifier_tail t.
Proof. intros H. apply Forall_forall. intros c I. unfold tail_b in H. rewrite forallb_forall in H. specialize (H c I). cbn beta in H. lia. Qed.
Lemma C120_names : exists names, Forall2 (fun i n => In (B "shortname", n) (it_attributes i)) magic_items names /\ NoDup names /\ Forall identifier_tail names.
Proof.
  exists (map (fun i => or_text (attribute "shortname" i) []) magic_items). split; [|split].
  - apply (all2_sound (fun i n => existsb (fun kv => bytes_eqb (fst kv) (B "shortname") && bytes_eqb (snd kv) n) (it_attributes i)) _).
    + intros i n H. apply existsb_exists in H. destruct H as ((k, w) & I & E). apply andb_true_iff in E. destruct E as (E1 & E2). cbn [fst snd] in *. apply bytes_eqb_eq in E1, E2. subst. exact I.
    + vm_compute. reflexivity.
  - apply distinct_sound. vm_compute. reflexivity.
  - apply Forall_forall. intros n I. apply tail_sound. revert n I. apply (proj1 (forallb_forall _ _)). vm_compute. reflexivity.
Qed.
(** ** Files *)
Lemma single_keys : forall i, In i magic_items -> NoDup (map fst (it_attributes i)).
Proof. intros i I. apply distinct_sound. revert i I. apply (proj1 (forallb_forall (fun i => distinct_b (map fst (it_attributes i))) _)). vm_compute. reflexivity. Qed.
Lemma nodup_value {V} (l : list (bytes * V)) k v w : NoDup (map fst l) -> In (k, v) l -> In (k, w) l -> v = w.
Proof.
  induction l as [|(k', v') l IH]; cbn [map fst In]; intros D H K; [contradiction|]. inversion D as [|? ? N D']; subst.
  destruct H as [H|H], K as [K|K].
  - congruence.
  - injection H as -> ->. exfalso. apply N. apply (in_map fst) in K. exact K.
  - injection K as -> ->. exfalso. apply N. apply (in_map fst) in H. exact H.
  - exact (IH D' H K).
Qed.
Lemma value_unique i name absent v w : NoDup (map fst (it_attributes i)) -> value_is i name absent v -> value_is i name absent w -> v = w.
Proof.
  intros D [H|(H & Ev)] [K|(K & Ew)]; [|exfalso; eapply K; exact H|exfalso; eapply H; exact K|congruence]. exact (nodup_value _ _ _ _ D H K).
Qed.
Lemma pair_in {X Y} (R : X -> Y -> Prop) l m x : Forall2 R l m -> In x l -> exists y, In y m /\ R x y.
Proof. induction 1 as [|a b l m H F IH]; intros I; [contradiction|]. destruct I as [<-|I]; [exists b; split; [left; reflexivity|exact H]|]. destruct (IH I) as (y & J & K). exists y. split; [right; exact J|exact K]. Qed.
Lemma pair_in_r {X Y} (R : X -> Y -> Prop) l m y : Forall2 R l m -> In y m -> exists x, In x l /\ R x y.
Proof. induction 1 as [|a b l m H F IH]; intros I; [contradiction|]. destruct I as [<-|I]; [exists a; split; [left; reflexivity|exact H]|]. destruct (IH I) as (x & J & K). exists x. split; [right; exact J|exact K]. Qed.
Lemma has_carries content i m : In i magic_items -> says i m -> (has_signature content i <-> carries content m).
Proof.
  intros I (_ & _ & _ & (t & V & D) & _ & W & _). split.
  - intros (bs & t' & off & W' & V' & D' & O). rewrite <- (value_unique _ _ _ _ _ (single_keys i I) V' V) in D.
    destruct D as (_ & _ & _ & D). destruct D' as (_ & _ & _ & D'). unfold carries. rewrite <- (C120_one_meaning _ _ _ W' W), <- D, D'. exact O.
  - intros C. exists (mi_magic m), t, (mi_offset m). auto.
Qed.
Lemma reports_row {R} content (plain : MagicInfo -> R) parse l found m : reports content plain parse l found -> In m l -> carries content m -> mi_func m = None -> In (plain m) found.
Proof.
  induction 1 as [|mi sigs rs N _ IH|mi sigs rs C F _ IH|mi p k sigs rs C F P _ IH]; intros I K Z; [contradiction|..]; destruct I as [->|I].
  - contradiction.
  - auto.
  - left. reflexivity.
  - right. auto.
  - congruence.
  - apply in_or_app. right. auto.
Qed.
Lemma reports_nothing {R} content (plain : MagicInfo -> R) parse l found : reports content plain parse l found -> (forall m, In m l -> ~ carries content m) -> found = [].
Proof.
  induction 1 as [|mi sigs rs N _ IH|mi sigs rs C F _ IH|mi p k sigs rs C F P _ IH]; intros H; [reflexivity|..].
  - apply IH. intros m I. apply H. right. exact I.
  - exfalso. exact (H mi (or_introl eq_refl) C).
  - exfalso. exact (H mi (or_introl eq_refl) C).
Qed.
Lemma nothing_reports {R} content (plain : MagicInfo -> R) parse l : (forall m, In m l -> ~ carries content m) -> reports content plain parse l [].
Proof. induction l as [|m l IH]; intros H; [constructor|]. apply rp_absent; [apply H; left; reflexivity|]. apply IH. intros m' I. apply H. right. exact I. Qed.
Lemma C120_described_files : forall pl msg archive content rs i, lenN content < 2 ^ 32 -> In i magic_items -> has_signature content i -> (forall w, ~ In (B "extra", w) (it_attributes i)) ->
  results pl msg archive (Some content) = Ok rs -> exists e, described i e /\ In (OResult (plain_result e)) rs.
Proof.
  intros pl msg archive content rs i L I H X R. apply C104_results in R; [|exact L]. destruct R as (found & Rp & ->). destruct (pair_in _ _ _ _ C120_rows I) as (m & J & S).
  assert (C : carries content m) by (apply (has_carries content i m I S); exact H). assert (F : mi_func m = None).
  { destruct S as (_ & _ & _ & _ & (t & [V|(_ & ->)] & P) & _); [exfalso; exact (X t V)|]. unfold parser_names in P. cbn [In] in P.
    repeat (destruct P as [P|P]; [solve [injection P as <-; reflexivity|discriminate P]|]). contradiction. }
  pose proof (reports_row _ _ _ _ _ _ Rp J C F) as In1. exists (row_info m). split.
  - destruct S as (S1 & S2 & S3 & _). split; [exact S1|]. split; [exact S2|exact S3].
  - unfold or_unknown. destruct found; [contradiction|]. exact In1.
Qed.
Lemma C120_unknown_files : forall pl msg archive content, lenN content < 2 ^ 32 -> (forall i, In i magic_items -> ~ has_signature content i) ->
  results pl msg archive (Some content) =
    Ok [OResult (match content with [] => plain_result (mkExt (B "empty") (B "Empty File") [] 0 []) | _ => unknown_result (takeN 512 content) end)].
Proof.
  intros pl msg archive content L H. apply C104_results; [exact L|]. exists []. split; [|destruct content; reflexivity]. apply nothing_reports. intros m I C.
  destruct (pair_in_r _ _ _ _ C120_rows I) as (i & J & S). apply (H i J). apply (has_carries content i m J S). exact C.
Qed.

(** ** Cases *)
Lemma C120_case_hex : hex_bytes [x4d; x5a] (B "0x4D,0x5A").
Proof. apply hex_bytes_sound. reflexivity. Qed.
Lemma C120_case_lower : written (B "0x4d,0x5a") [x4d; x5a] /\ written (B "MZ") [x4d; x5a].
Proof. split; apply written_sound; reflexivity. Qed.
Lemma C120_case_refuted : signature_of (B "0x4D,0x5A,") = Some [x4d; x5a; x00] /\ signature_of (B "0x4D0x5A") = None.
Proof. split; vm_compute; reflexivity. Qed.
Lemma C120_case_item : exists i, In i magic_items /\ it_text i = B "0x7F,0x45,0x4C,0x46" /\ has_signature (x7f :: B "ELF and more") i /\ (forall w, ~ In (B "extra", w) (it_attributes i)).
Proof.
  exists (mkItem [(B "extension", B "elf"); (B "shortname", B "elf"); (B "name", B "ELF Executable")] (B "0x7F,0x45,0x4C,0x46")). split; [unfold magic_items; right; left; reflexivity|].
  split; [reflexivity|]. split.
  - exists (x7f :: B "ELF"), (B "0"), 0. split; [apply written_sound; reflexivity|]. split; [apply value_sound; reflexivity|]. split; [apply decimal_sound; reflexivity|].
    exists [], (B " and more"). split; reflexivity.
  - intros w [H|[H|[H|H]]]; try contradiction; discriminate H.
Qed.
Lemma C120_case_unknown : forall i, In i magic_items -> ~ has_signature (B "!?") i.
Proof.
  intros i I H. destruct (pair_in _ _ _ _ C120_rows I) as (m & J & S). apply (has_carries _ i m I S) in H. unfold carries in H.
  assert (K : bytes_eqb (takeN (lenN (mi_magic m)) (dropN (mi_offset m) (B "!?"))) (mi_magic m) = false).
  { clear S H. apply negb_true_iff. revert m J. apply (proj1 (forallb_forall (fun m => negb (bytes_eqb (takeN (lenN (mi_magic m)) (dropN (mi_offset m) (B "!?"))) (mi_magic m))) _)).
    vm_compute. reflexivity. }
  destruct H as (pre & post & E & L). rewrite E, <- L, dropN_app_exact, takeN_app_exact, (proj2 (bytes_eqb_eq _ _) eq_refl) in K. discriminate K.
Qed.
