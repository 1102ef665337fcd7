(** Proofs about escaping and hexadecimal rendering. *)
From Coq Require Import List NArith ZArith Bool Lia.
From Coq Require Import ZifyBool ZifyNat ZifyN.
From Verif Require Import Lib.Res Lib.Bytes Lib.BytesFacts Lib.Text Lib.NumSpec Lib.NumFacts
     Common.Model Common.Spec.
Import ListNotations.
Local Open Scope N_scope.

(** ** JSON *)
Lemma js_app t1 v1 t2 v2 : json_str t1 v1 -> json_str t2 v2 -> json_str (t1 ++ t2) (v1 ++ v2).
Proof.
  induction 1 as [|c t v Hc H1 H2 H IH|c n t v Hc H IH|h n t v Hl Hh H IH]; intros Ht; cbn [app].
  - exact Ht.
  - apply js_raw; auto.
  - apply js_esc; auto.
  - rewrite <- app_assoc. apply js_u; auto.
Qed.

Lemma json_char_str c : c <> x00 -> json_str (json_char c) [b2n c].
Proof.
  intros Hc.
  assert (forall b, if (32 <=? b2n b) && (b2n b <? 127) && negb (byte_eqb b x22) && negb (byte_eqb b x5c)
                    then bytes_eqb (json_char b) [b] = true
                    else match json_short_escape (nth 1 (json_char b) x00) with
                         | Some n => (n =? b2n b) && Nat.eqb (length (json_char b)) 2
                                     && byte_eqb (nth 0 (json_char b) x00) x5c = true
                         | None => byte_eqb b x00 || bytes_eqb (json_char b) (x5c :: x75 :: pad0 4 (hex_up (b2n b))) = true
                         end) as H.
  { assert (forall b, (if (32 <=? b2n b) && (b2n b <? 127) && negb (byte_eqb b x22) && negb (byte_eqb b x5c)
                    then bytes_eqb (json_char b) [b]
                    else match json_short_escape (nth 1 (json_char b) x00) with
                         | Some n => (n =? b2n b) && Nat.eqb (length (json_char b)) 2
                                     && byte_eqb (nth 0 (json_char b) x00) x5c
                         | None => byte_eqb b x00 || bytes_eqb (json_char b) (x5c :: x75 :: pad0 4 (hex_up (b2n b)))
                         end) = true) as K by (apply forall_bytes; vm_compute; reflexivity).
    intros b. specialize (K b).
    destruct ((32 <=? b2n b) && (b2n b <? 127) && negb (byte_eqb b x22) && negb (byte_eqb b x5c)); [exact K|].
    destruct (json_short_escape (nth 1 (json_char b) x00)); exact K. }
  specialize (H c).
  destruct ((32 <=? b2n c) && (b2n c <? 127) && negb (byte_eqb c x22) && negb (byte_eqb c x5c)) eqn:E.
  - apply bytes_eqb_eq in H. rewrite H. rewrite !andb_true_iff, !negb_true_iff in E.
    destruct E as (((E1 & E2) & E3) & E4).
    apply byte_eqb_neq in E3, E4. apply js_raw; auto; [lia|constructor].
  - destruct (json_short_escape (nth 1 (json_char c) x00)) as [n|] eqn:En.
    + rewrite !andb_true_iff in H. destruct H as ((H1 & H2) & H3).
      apply N.eqb_eq in H1. apply Nat.eqb_eq in H2.
      destruct (json_char c) as [|a [|b [|]]]; try discriminate H2.
      cbn [nth] in *. apply byte_eqb_eq in H3. subst. apply js_esc; [exact En|constructor].
    + apply orb_prop in H. destruct H as [H|H].
      * apply byte_eqb_eq in H. contradiction.
      * apply bytes_eqb_eq in H. rewrite H.
        rewrite <- (app_nil_r (pad0 4 _)). apply js_u; [|apply hex_num_pad0_up|constructor].
        apply length_pad0_hex_up; [|lia]. change (16 ^ N.of_nat 4) with 65536.
        pose proof (b2n_lt c). lia.
Qed.

Lemma JsonEscape_str s : ~ In x00 s -> json_str (JsonEscape s) (map b2n s).
Proof.
  induction s as [|c s IH]; intros H; cbn [JsonEscape map]; [constructor|].
  destruct (byte_eqb c x00) eqn:E.
  - apply byte_eqb_eq in E. subst. exfalso. apply H. left. reflexivity.
  - apply byte_eqb_neq in E. apply (js_app _ [b2n c]); [apply json_char_str; exact E|].
    apply IH. intros Hin. apply H. right. exact Hin.
Qed.

Lemma JsonEscape_before_nul s t : before_nul s t -> JsonEscape s = JsonEscape t.
Proof.
  intros [u Hu|u v Hu]; [reflexivity|].
  induction u as [|c u IH]; cbn [app JsonEscape]; [reflexivity|].
  destruct (byte_eqb c x00) eqn:E; [reflexivity|]. f_equal. apply IH.
  intros Hin. apply Hu. right. exact Hin.
Qed.

Lemma before_nul_exists s : exists t, before_nul s t /\ ~ In x00 t.
Proof.
  induction s as [|c s IH].
  - exists []. split; [constructor|]; intros [].
  - destruct (byte_eqb c x00) eqn:E.
    + apply byte_eqb_eq in E. subst. exists []. split; [|intros []].
      apply (bn_cut []). intros [].
    + apply byte_eqb_neq in E. destruct IH as (t & Ht & Hn). exists (c :: t).
      assert (~ In x00 (c :: t)) as Hc by (intros [?|?]; [congruence|contradiction]).
      split; [|exact Hc]. destruct Ht as [u Hu|u v Hu].
      * constructor. exact Hc.
      * apply (bn_cut (c :: u)). exact Hc.
Qed.

(** The denotation is a function of the text. *)
Lemma json_short_escape_cases c n : json_short_escape c = Some n -> c <> x75.
Proof. intros H ->. discriminate H. Qed.

Lemma json_str_fun t v v' : json_str t v -> json_str t v' -> v = v'.
Proof.
  intros H; revert v'.
  induction H as [|c t v Hc Hq Hb H IH|c n t v Hc H IH|h n t v Hl Hh H IH]; intros v' H'.
  - inversion H'. reflexivity.
  - inversion H' as [|c' t' w' Hc' Hq' Hb' Hw'|c' n' t' w' Hc' Hw'|h' n' t' w' Hl' Hh' Hw']; subst.
    + f_equal. apply IH. assumption.
    + congruence.
    + congruence.
  - inversion H' as [|c' t' w' Hc' Hq' Hb' Hw'|c' n' t' w' Hc' Hw'|h' n' t' w' Hl' Hh' Hw']; subst.
    + congruence.
    + rewrite Hc in Hc'. injection Hc' as ->. f_equal. apply IH. assumption.
    + discriminate Hc.
  - inversion H' as [|c' t' w' Hc' Hq' Hb' Hw'|c' n' t' w' Hc' Hw'|h' n' t' w' Hl' Hh' Hw']; subst.
    + congruence.
    + discriminate Hc'.
    + assert (h' = h /\ t' = t) as [-> ->].
      {
        assert (firstn 4 (h' ++ t') = firstn 4 (h ++ t)) as E1 by congruence.
        assert (skipn 4 (h' ++ t') = skipn 4 (h ++ t)) as E2 by congruence.
        rewrite !firstn_app, Hl, Hl', Nat.sub_diag, !firstn_O, !app_nil_r in E1.
        rewrite !skipn_app, Hl, Hl', Nat.sub_diag, !skipn_O in E2.
        rewrite !firstn_all2 in E1 by lia. rewrite !skipn_all2 in E2 by lia. auto. }
      rewrite Hh in Hh'. injection Hh' as ->. f_equal. apply IH. assumption.
Qed.

Lemma map_b2n_inj s t : map b2n s = map b2n t -> s = t.
Proof.
  revert t; induction s as [|a s IH]; destruct t as [|b t]; cbn; intros H; try discriminate; [reflexivity|].
  injection H as H1 H2. apply b2n_inj in H1. f_equal; auto.
Qed.

Lemma JsonEscape_inj s t : ~ In x00 s -> ~ In x00 t -> JsonEscape s = JsonEscape t -> s = t.
Proof.
  intros Hs Ht E. apply map_b2n_inj. eapply json_str_fun; [apply JsonEscape_str; exact Hs|].
  rewrite E. apply JsonEscape_str. exact Ht.
Qed.

(** Only printable ASCII is emitted. *)
Lemma json_char_ascii c : forallb (fun b => (32 <=? b2n b) && (b2n b <? 127)) (json_char c) = true.
Proof. revert c. apply forall_bytes. vm_compute. reflexivity. Qed.

Lemma JsonEscape_ascii s : Forall (fun b => 32 <= b2n b < 127) (JsonEscape s).
Proof.
  induction s as [|c s IH]; cbn [JsonEscape]; [constructor|].
  destruct (byte_eqb c x00); [constructor|].
  apply Forall_app. split; [|exact IH].
  apply Forall_forall. intros b Hb.
  pose proof (json_char_ascii c) as H. rewrite forallb_forall in H. specialize (H b Hb). lia.
Qed.

(** ** XML *)
Lemma xt_app t1 v1 t2 v2 : xml_text t1 v1 -> xml_text t2 v2 -> xml_text (t1 ++ t2) (v1 ++ v2).
Proof.
  induction 1 as [|c t v Hc Hs H IH|d n t v Hd H IH]; intros Ht; cbn [app].
  - exact Ht.
  - apply xt_raw; auto.
  - replace ((d ++ x3b :: t) ++ t2) with (d ++ x3b :: (t ++ t2))
      by (rewrite <- app_assoc; reflexivity).
    apply xt_ref; auto.
Qed.

(** What the escaper really encodes: [<] and [>] exchanged. *)
Definition swap_angle (n : N) : N :=
  if n =? 60 then 62 else if n =? 62 then 60 else n.

Definition xml_special (c : byte) : Prop :=
  c = x22 \/ c = x26 \/ c = x27 \/ c = x3c \/ c = x3e.
Definition xml_special_b (c : byte) : bool :=
  byte_eqb c x22 || byte_eqb c x26 || byte_eqb c x27 || byte_eqb c x3c || byte_eqb c x3e.

Lemma xml_special_b_iff c : xml_special_b c = true <-> xml_special c.
Proof.
  unfold xml_special_b, xml_special. rewrite !orb_true_iff, !byte_eqb_eq. tauto.
Qed.

Lemma xml_char_text c : xml_text (xml_char c) [swap_angle (b2n c)].
Proof.
  assert (forall b,
             (if (32 <=? b2n b) && (b2n b <? 127) && negb (xml_special_b b)
              then bytes_eqb (xml_char b) [b] && (swap_angle (b2n b) =? b2n b)
              else bytes_eqb (xml_char b)
                     (x26 :: x23 :: pad0 2 (dec (swap_angle (b2n b))) ++ [x3b])) = true) as K
      by (apply forall_bytes; vm_compute; reflexivity).
  specialize (K c).
  destruct ((32 <=? b2n c) && (b2n c <? 127) && negb (xml_special_b c)) eqn:E.
  - apply andb_prop in K. destruct K as [K1 K2].
    apply bytes_eqb_eq in K1. apply N.eqb_eq in K2. rewrite K1, K2.
    rewrite !andb_true_iff, negb_true_iff in E. destruct E as [[E1 E2] E3].
    apply xt_raw; [lia| |constructor].
    intros Hs. assert (Hx : xml_special c) by (unfold xml_markup in Hs; unfold xml_special; tauto).
    apply xml_special_b_iff in Hx. congruence.
  - apply bytes_eqb_eq in K. rewrite K. apply xt_ref; [apply dec_num_pad0|constructor].
Qed.

Lemma XmlEscape_text s : xml_text (XmlEscape s) (map swap_angle (map b2n s)).
Proof.
  unfold XmlEscape. induction s as [|c s IH]; cbn [map List.concat]; [constructor|].
  apply (xt_app _ [swap_angle (b2n c)]); [apply xml_char_text|exact IH].
Qed.

Lemma not_digit_semi : ~ is_digit 10 x3b.
Proof. intros [v H]. discriminate H. Qed.

Lemma xml_text_fun t v v' : xml_text t v -> xml_text t v' -> v = v'.
Proof.
  intros H; revert v'.
  induction H as [|c t v Hc Hs H IH|d n t v Hd H IH]; intros v' H'.
  - inversion H'. reflexivity.
  - inversion H' as [|c' t' w' Hc' Hs' Hw'|d' n' t' w' Hd' Hw']; subst.
    + f_equal. apply IH. assumption.
    + exfalso. apply Hs. unfold xml_markup. tauto.
  - inversion H' as [|c' t' w' Hc' Hs' Hw'|d' n' t' w' Hd' Hw']; subst.
    + exfalso. apply Hs'. unfold xml_markup. tauto.
    + match goal with E : _ ++ _ :: _ = _ ++ _ :: _ |- _ =>
        apply (digits_split 10) in E; [| eapply num_digits; eassumption
                                       | eapply num_digits; eassumption
                                       | apply not_digit_semi | apply not_digit_semi];
        destruct E as (-> & _ & ->) end.
      rewrite Hd in Hd'. injection Hd' as ->. f_equal. apply IH. assumption.
Qed.

Lemma swap_angle_id n : n <> 60 -> n <> 62 -> swap_angle n = n.
Proof. unfold swap_angle. intros. destruct (N.eqb_spec n 60), (N.eqb_spec n 62); congruence. Qed.

Lemma XmlEscape_legal s v : xml_text (XmlEscape s) v ->
  (Forall xml_character v <-> Forall (fun c => xml_character (b2n c)) s).
Proof.
  intros H. rewrite (xml_text_fun _ _ _ H (XmlEscape_text s)). clear.
  assert (E : forall n, xml_character (swap_angle n) <-> xml_character n).
  { intros n. unfold swap_angle, xml_character. destruct (N.eqb_spec n 60), (N.eqb_spec n 62); lia. }
  induction s as [|c s IH]; cbn [map]; [split; constructor|].
  split; intros F; inversion F as [|? ? K L]; subst; (constructor; [apply E; exact K|apply IH; exact L]).
Qed.

Lemma swap_angle_invol n : swap_angle (swap_angle n) = n.
Proof. unfold swap_angle. destruct (N.eqb_spec n 60), (N.eqb_spec n 62); subst; cbn; try reflexivity.
  destruct (N.eqb_spec n 60), (N.eqb_spec n 62); congruence. Qed.

Lemma XmlEscape_lossless_without_angles s :
  ~ In x3c s -> ~ In x3e s -> xml_text (XmlEscape s) (map b2n s).
Proof.
  intros H1 H2. replace (map b2n s) with (map swap_angle (map b2n s)); [apply XmlEscape_text|].
  rewrite map_map. apply map_ext_in. intros c Hc. apply swap_angle_id.
  - intros E. apply H1. change 60 with (b2n x3c) in E. apply b2n_inj in E. subst. exact Hc.
  - intros E. apply H2. change 62 with (b2n x3e) in E. apply b2n_inj in E. subst. exact Hc.
Qed.

Lemma XmlEscape_lossless_iff s :
  xml_text (XmlEscape s) (map b2n s) <-> ~ In x3c s /\ ~ In x3e s.
Proof.
  split.
  - intros H. pose proof (xml_text_fun _ _ _ H (XmlEscape_text s)) as E.
    rewrite map_map in E.
    assert (forall c, In c s -> b2n c = swap_angle (b2n c)) as K.
    { clear H. revert E. induction s as [|a s IH]; cbn [map]; intros E c; [intros []|].
      injection E as E1 E2. intros [<-|Hin]; auto. }
    split; intros Hin; apply K in Hin; discriminate Hin.
  - intros [H1 H2]. apply XmlEscape_lossless_without_angles; assumption.
Qed.

Lemma XmlEscape_inj s t : XmlEscape s = XmlEscape t -> s = t.
Proof.
  intros E. apply map_b2n_inj.
  assert (map swap_angle (map b2n s) = map swap_angle (map b2n t)) as K.
  { eapply xml_text_fun; [apply XmlEscape_text|]. rewrite E. apply XmlEscape_text. }
  assert (map swap_angle (map swap_angle (map b2n s)) = map swap_angle (map swap_angle (map b2n t))) as K2 by congruence.
  rewrite !(map_map swap_angle) in K2.
  erewrite (map_ext _ (fun x => x)) in K2 by (intros; apply swap_angle_invol).
  erewrite (map_ext (fun x => swap_angle (swap_angle x)) (fun x => x)) in K2 by (intros; apply swap_angle_invol).
  rewrite !map_id in K2. exact K2.
Qed.

(** No markup character, quote or control byte in the output (the ampersand only starts
    a reference, by [xml_text]). *)
Lemma xml_char_plain c :
  forallb (fun b => (32 <=? b2n b) && (b2n b <? 127) && negb (byte_eqb b x22) &&
                    negb (byte_eqb b x27) && negb (byte_eqb b x3c) && negb (byte_eqb b x3e))
          (xml_char c) = true.
Proof. revert c. apply forall_bytes. vm_compute. reflexivity. Qed.

Lemma XmlEscape_plain s :
  Forall (fun b => 32 <= b2n b < 127 /\ b <> x22 /\ b <> x27 /\ b <> x3c /\ b <> x3e) (XmlEscape s).
Proof.
  unfold XmlEscape. apply Forall_forall. intros b Hb.
  apply in_concat in Hb. destruct Hb as (l & Hl & Hb).
  apply in_map_iff in Hl. destruct Hl as (c & <- & _).
  pose proof (xml_char_plain c) as H. rewrite forallb_forall in H. specialize (H b Hb).
  rewrite !andb_true_iff, !negb_true_iff in H.
  rewrite !byte_eqb_neq in H. split; [lia|tauto].
Qed.

(** ** Hexadecimal *)
Lemma bin2hex11_dump l : hex_dump (bin2hex11 l) l.
Proof.
  unfold bin2hex11. induction l as [|x l IH]; cbn [map List.concat]; [constructor|].
  assert (forall b, (match pad0 2 (hex (b2n b)) with
                     | [a; c] => ((48 <=? b2n a) && (b2n a <=? 57) || (97 <=? b2n a) && (b2n a <=? 102)) &&
                                 ((48 <=? b2n c) && (b2n c <=? 57) || (97 <=? b2n c) && (b2n c <=? 102))
                     | _ => false end) = true) as K
      by (apply forall_bytes; vm_compute; reflexivity).
  specialize (K x). pose proof (hex_num_pad0 2 (b2n x)) as Hv.
  destruct (pad0 2 (hex (b2n x))) as [|a [|b [|]]]; try discriminate K.
  cbn [app]. apply hd_cons; [| |exact Hv|exact IH]; unfold lower_hex; lia.
Qed.

Lemma hex_dump_fun t l l' : hex_dump t l -> hex_dump t l' -> l = l'.
Proof.
  intros H; revert l'. induction H as [|a b x t l Ha Hb Hx H IH]; intros l' H'; inversion H'; subst.
  - reflexivity.
  - f_equal; [|auto]. apply b2n_inj. congruence.
Qed.

Lemma hex_dump_length t l : hex_dump t l -> List.length t = (2 * List.length l)%nat.
Proof. induction 1; cbn [List.length]; lia. Qed.

Lemma int_to_hex_spec size n : (1 <= size)%nat -> n < 256 ^ N.of_nat size ->
  exists d, int_to_hex size n = x30 :: x78 :: d /\ List.length d = (2 * size)%nat /\
            hex_num d = Some n.
Proof.
  intros Hs Hn. exists (pad0 (size * 2) (hex n)). split; [reflexivity|]. split.
  - rewrite length_pad0_hex; [lia| |lia].
    replace (16 ^ N.of_nat (size * 2)) with (256 ^ N.of_nat size); [exact Hn|].
    rewrite Nat2N.inj_mul, N.mul_comm, N.pow_mul_r. reflexivity.
  - apply hex_num_pad0.
Qed.
