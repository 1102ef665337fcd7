(** Proofs: the script writes the signatures that its items say, and the tables are those of the items. *)
From Coq Require Import List NArith Lia Bool Strings.String ZifyBool ZifyNat ZifyN.
From Verif Require Import Lib.Res Lib.Bytes Lib.BytesFacts Lib.Text Common.Model Magic.Table Detect.Model Gen.Model Gen.Spec.
Import ListNotations.
Local Open Scope N_scope.
Ltac Zify.zify_post_hook ::= Z.div_mod_to_equations.
Arguments N.pow : simpl never.

(** ** Hexadecimal text *)
Lemma hex_value_digit d c : hex_digit d c -> hex_value c = Some d.
Proof.
  intros H. unfold hex_value. cbv zeta. destruct H as [(Ld & E)|(Ld & [E|E])]; rewrite E.
  - replace ((48 <=? 48 + d) && (48 + d <=? 57)) with true by lia. f_equal. lia.
  - replace ((48 <=? 55 + d) && (55 + d <=? 57)) with false by lia. replace ((65 <=? 55 + d) && (55 + d <=? 70)) with true by lia. f_equal. lia.
  - replace ((48 <=? 87 + d) && (87 + d <=? 57)) with false by lia. replace ((65 <=? 87 + d) && (87 + d <=? 70)) with false by lia.
    replace ((97 <=? 87 + d) && (87 + d <=? 102)) with true by lia. f_equal. lia.
Qed.
Lemma digit_hex_value d c : hex_value c = Some d -> hex_digit d c.
Proof.
  unfold hex_value. cbv zeta. destruct (_ && _) eqn:E1; [intros H; injection H as <-; left; lia|]. destruct ((65 <=? b2n c) && _) eqn:E2; [intros H; injection H as <-; right; lia|].
  destruct ((97 <=? b2n c) && _) eqn:E3; [intros H; injection H as <-; right; lia|discriminate].
Qed.
Lemma is_x_iff x : is_x x = true <-> x = x78 \/ x = x58.
Proof. unfold is_x. rewrite orb_true_iff, !byte_eqb_eq. reflexivity. Qed.
Lemma digit_comma d c : hex_digit d c -> byte_eqb c comma = false.
Proof.
  intros H. destruct (byte_eqb c comma) eqn:E; [|reflexivity]. apply byte_eqb_eq in E. subst c. exfalso. unfold hex_digit in H. change (b2n comma) with 44 in H. lia.
Qed.
Lemma x_comma x : x = x78 \/ x = x58 -> byte_eqb x comma = false.
Proof. intros [-> | ->]; reflexivity. Qed.
Lemma constant_hex v p : hex_byte v p -> constant_of p = Some v.
Proof.
  intros (x & h & l & -> & X & H & L). unfold constant_of. rewrite (proj2 (is_x_iff x) X), (hex_value_digit _ _ H), (hex_value_digit _ _ L). cbn [andb].
  change (byte_eqb x30 x30) with true. cbn [andb]. f_equal. replace (16 * (b2n v / 16) + b2n v mod 16) with (b2n v) by lia. apply n2b_b2n.
Qed.
Lemma split_piece v p r : hex_byte v p -> split (p ++ r) = match split r with q :: qs => (p ++ q) :: qs | [] => [p] end.
Proof.
  intros (x & h & l & -> & X & H & L). cbn [app split]. change (byte_eqb x30 comma) with false. rewrite (x_comma x X), (digit_comma _ _ H), (digit_comma _ _ L).
  destruct (split r); reflexivity.
Qed.
Lemma split_some s : split s <> [].
Proof. destruct s as [|c s]; [discriminate|]. cbn [split]. destruct (byte_eqb c comma); [discriminate|]. destruct (split s); discriminate. Qed.
Lemma split_comma v p r : hex_byte v p -> split (p ++ [x2c] ++ r) = p :: split r.
Proof. intros H. rewrite (split_piece v p _ H). cbn [app split]. change (byte_eqb x2c comma) with true. cbv iota. rewrite app_nil_r. reflexivity. Qed.
Lemma split_hex vs t : hex_bytes vs t -> Forall2 hex_byte vs (split t) /\ forall r, split (t ++ [x2c] ++ r) = split t ++ split r.
Proof.
  induction 1 as [v t H|v t vs ts H _ (IH1 & IH2)].
  - assert (E : split t = [t]) by (rewrite <- (app_nil_r t), (split_piece v t [] H); cbn [split]; rewrite app_nil_r; reflexivity). rewrite E.
    split; [constructor; [exact H|constructor]|]. intros r. apply (split_comma v). exact H.
  - rewrite (split_comma v t ts H). split; [constructor; assumption|]. intros r. rewrite <- !app_assoc, (split_comma v t _ H), IH2. reflexivity.
Qed.
Lemma constants_hex vs ps : Forall2 hex_byte vs ps -> constants_of ps = Some vs /\ constants_of (ps ++ [[]]) = Some vs.
Proof.
  induction 1 as [|v p vs ps H F (IH1 & IH2)]; [split; reflexivity|]. pose proof (constant_hex v p H) as C. destruct H as (x & h & l & -> & _).
  cbn [app constants_of]. rewrite C, IH1, IH2. split; reflexivity.
Qed.
Lemma format_piece v p r : hex_byte v p ->
  hex_format (p ++ r) = at_end r || match r with c :: r' => if byte_eqb c comma then at_end r' || hex_format r' else hex_format r | [] => false end.
Proof.
  intros (x & h & l & -> & X & H & L). cbn [app hex_format]. unfold is_hex. rewrite (proj2 (is_x_iff x) X), (hex_value_digit _ _ H), (hex_value_digit _ _ L).
  change (byte_eqb x30 x30) with true. reflexivity.
Qed.
Lemma format_hex vs t : hex_bytes vs t -> hex_format t = true /\ hex_format (t ++ [x2c]) = true.
Proof.
  induction 1 as [v t H|v t vs ts H _ (IH1 & IH2)].
  - split; [rewrite <- (app_nil_r t)|]; rewrite (format_piece v t _ H); reflexivity.
  - rewrite <- !app_assoc. rewrite !(format_piece v t _ H). cbn [app]. change (byte_eqb x2c comma) with true. cbv iota. rewrite IH1, IH2, !orb_true_r. split; reflexivity.
Qed.
Lemma repeatN_0 {X} (x : X) : repeatN x 0 = [].
Proof. reflexivity. Qed.
Lemma array_hex vs t : hex_bytes vs t -> lenN (split t) = lenN vs /\ array_of (lenN vs) t = Some vs.
Proof.
  intros H. destruct (split_hex vs t H) as (F & _). destruct (constants_hex _ _ F) as (C & _). split.
  - clear - F. induction F as [|v p vs ps _ F IH]; [reflexivity|]. rewrite !lenN_cons, IH. reflexivity.
  - unfold array_of. rewrite C, N.leb_refl, N.sub_diag, repeatN_0, app_nil_r. reflexivity.
Qed.
(** Bytes in hexadecimal *)
Theorem signature_hex vs t : hex_bytes vs t -> magic_of t = Some (lenN vs, t) /\ signature_of t = Some vs.
Proof.
  intros H. destruct (array_hex vs t H) as (L & A). unfold signature_of, magic_of. rewrite (proj1 (format_hex vs t H)), L. split; [reflexivity|exact A].
Qed.
Theorem signature_comma vs t : hex_bytes vs t -> signature_of (t ++ [x2c]) = Some (vs ++ [x00]).
Proof.
  intros H. destruct (split_hex vs t H) as (F & S). destruct (array_hex vs t H) as (L & _). destruct (constants_hex _ _ F) as (_ & C).
  unfold signature_of, magic_of. rewrite (proj2 (format_hex vs t H)). unfold array_of. specialize (S []). cbn [app] in S. rewrite S. cbn [split]. rewrite C, lenN_app, L.
  change (lenN [[]]) with 1. replace (lenN vs <=? lenN vs + 1) with true by lia. replace (lenN vs + 1 - lenN vs) with 1 by lia. reflexivity.
Qed.
Theorem signature_joined v p w r : hex_byte v p -> hex_byte w r -> signature_of (p ++ r) = None.
Proof.
  intros H K. unfold signature_of, magic_of. rewrite (format_piece v p r H). assert (E : split (p ++ r) = [p ++ r]).
  { rewrite (split_piece v p r H). rewrite <- (app_nil_r r) at 1. rewrite (split_piece w r [] K). cbn [split]. rewrite app_nil_r. reflexivity. }
  assert (F : hex_format r = true) by (rewrite <- (app_nil_r r), (format_piece w r [] K); reflexivity).
  destruct K as (x & h & l & -> & _). cbv beta iota. change (byte_eqb x30 comma) with false. cbv iota. rewrite F, orb_true_r. unfold array_of. rewrite E.
  destruct H as (x' & h' & l' & -> & _). reflexivity.
Qed.

(** ** ASCII text *)
Lemma upper_digit d : d < 16 -> hex_digit d (hex_upper d).
Proof.
  intros L. unfold hex_digit, hex_upper. destruct (N.ltb_spec d 10) as [H|H].
  - left. split; [exact H|]. rewrite b2n_n2b. apply N.mod_small. lia.
  - right. split; [lia|]. left. rewrite b2n_n2b. apply N.mod_small. lia.
Qed.
Lemma constant_is_hex c : hex_byte c (hex_constant c).
Proof.
  exists x78, (hex_upper (b2n c / 16)), (hex_upper (b2n c mod 16)). pose proof (b2n_lt c) as L. split; [reflexivity|]. split; [left; reflexivity|]. split; apply upper_digit; lia.
Qed.
Lemma join_hex t : t <> [] -> hex_bytes t (join [comma] (map hex_constant t)).
Proof.
  induction t as [|c t IH]; [contradiction|]. intros _. destruct t as [|d t].
  - apply hb_one. apply constant_is_hex.
  - change (join [comma] (map hex_constant (c :: d :: t))) with (hex_constant c ++ [x2c] ++ join [comma] (map hex_constant (d :: t))).
    apply hb_more; [apply constant_is_hex|apply IH; discriminate].
Qed.
Lemma other_format t : (forall v p r, hex_byte v p -> t <> p ++ r) -> hex_format t = false.
Proof.
  intros N. destruct t as [|z [|x [|h [|l r]]]]; try reflexivity. cbn [hex_format]. destruct (byte_eqb z x30) eqn:Ez; [|reflexivity]. destruct (is_x x) eqn:Ex; [|reflexivity].
  unfold is_hex. destruct (hex_value h) as [dh|] eqn:Eh; [|reflexivity]. destruct (hex_value l) as [dl|] eqn:El; [|reflexivity]. exfalso.
  apply byte_eqb_eq in Ez. subst z. apply is_x_iff in Ex. apply digit_hex_value in Eh. apply digit_hex_value in El.
  assert (Lh : dh < 16) by (unfold hex_digit in Eh; lia). assert (Ll : dl < 16) by (unfold hex_digit in El; lia).
  apply (N (n2b (16 * dh + dl)) [x30; x; h; l] r); [|reflexivity]. exists x, h, l. rewrite b2n_n2b, N.mod_small by lia.
  replace ((16 * dh + dl) / 16) with dh by lia. replace ((16 * dh + dl) mod 16) with dl by lia. repeat split; assumption.
Qed.
Theorem signature_text t : ascii_text t -> (forall v p r, hex_byte v p -> t <> p ++ r) ->
  exists a, magic_of t = Some (lenN t, a) /\ hex_bytes t a /\ signature_of t = Some t.
Proof.
  intros (Ne & A & C) N. exists (join [comma] (map hex_constant t)). pose proof (join_hex t Ne) as H. unfold signature_of, magic_of. rewrite (other_format t N).
  replace (existsb (byte_eqb comma) t) with false.
  2: { symmetry. apply not_true_iff_false. intros E. apply existsb_exists in E. destruct E as (c & I & E). apply byte_eqb_eq in E. subst c. exact (C I). }
  replace (existsb (fun c => 128 <=? b2n c) t) with false.
  2: { symmetry. apply not_true_iff_false. intros E. apply existsb_exists in E. destruct E as (c & I & E). rewrite Forall_forall in A. specialize (A c I). lia. }
  replace (lenN t =? 0) with false by (destruct t; [contradiction|rewrite lenN_cons; lia]). cbn [orb]. split; [reflexivity|]. split; [exact H|].
  exact (proj2 (array_hex t _ H)).
Qed.
Theorem signature_written t bs : written t bs -> (exists a, magic_of t = Some (lenN bs, a)) /\ signature_of t = Some bs.
Proof.
  intros [H|(A & N & ->)].
  - destruct (signature_hex bs t H) as (E & S). split; [eexists; exact E|exact S].
  - destruct (signature_text t A N) as (a & E & _ & S). split; [eexists; exact E|exact S].
Qed.

(** ** Checking the items *)
Definition value_b (i : item) (name : string) (absent v : bytes) : bool :=
  existsb (fun kv => bytes_eqb (fst kv) (B name) && bytes_eqb (snd kv) v) (it_attributes i) ||
  (forallb (fun kv => negb (bytes_eqb (fst kv) (B name))) (it_attributes i) && bytes_eqb v absent).
Lemma value_sound i name absent v : value_b i name absent v = true -> value_is i name absent v.
Proof.
  unfold value_b. intros H. apply orb_true_iff in H. destruct H as [H|H].
  - left. apply existsb_exists in H. destruct H as ((k, w) & I & E). apply andb_true_iff in E. destruct E as (E1 & E2). cbn [fst snd] in *. apply bytes_eqb_eq in E1, E2. subst. exact I.
  - right. apply andb_true_iff in H. destruct H as (H & E). apply bytes_eqb_eq in E. split; [|exact E]. intros w I. rewrite forallb_forall in H. specialize (H _ I). cbn [fst] in H.
    apply negb_true_iff in H. rewrite (proj2 (bytes_eqb_eq _ _) eq_refl) in H. discriminate H.
Qed.
Definition decimal_b (t : bytes) (n : N) : bool :=
  negb (lenN t =? 0) && forallb (fun c => (48 <=? b2n c) && (b2n c <=? 57)) t && (negb (byte_eqb (hd x30 t) x30) || bytes_eqb t [x30]) && (decimal_digits 0 t =? n).
Lemma decimal_sound t n : decimal_b t n = true -> decimal t n.
Proof.
  unfold decimal_b. intros H. apply andb_true_iff in H. destruct H as (H & E). apply andb_true_iff in H. destruct H as (H & Z). apply andb_true_iff in H. destruct H as (L & D). repeat split.
  - intros ->. discriminate L.
  - apply Forall_forall. intros c I. rewrite forallb_forall in D. specialize (D c I). cbn beta in D. lia.
  - intros K. apply orb_true_iff in Z. destruct Z as [Z|Z]; [|apply bytes_eqb_eq; exact Z]. rewrite K in Z. discriminate Z.
  - lia.
Qed.
Fixpoint hex_bytes_b (vs t : bytes) : bool :=
  match vs, t with
  | [v], _ => match constant_of t with Some c => byte_eqb c v | None => false end
  | v :: vs', z :: x :: h :: l :: c :: r => match constant_of [z; x; h; l] with Some k => byte_eqb k v | None => false end && byte_eqb c comma && hex_bytes_b vs' r
  | _, _ => false
  end.
Lemma constant_sound p v : constant_of p = Some v -> hex_byte v p.
Proof.
  unfold constant_of. destruct p as [|z [|x [|h [|l [|m p]]]]]; try discriminate. destruct (byte_eqb z x30) eqn:Ez; [|discriminate]. destruct (is_x x) eqn:Ex; [|discriminate]. cbn [andb].
  destruct (hex_value h) as [dh|] eqn:Eh; [|discriminate]. destruct (hex_value l) as [dl|] eqn:El; [|discriminate]. intros H. injection H as <-.
  apply byte_eqb_eq in Ez. subst z. apply is_x_iff in Ex. apply digit_hex_value in Eh. apply digit_hex_value in El.
  assert (Lh : dh < 16) by (unfold hex_digit in Eh; lia). assert (Ll : dl < 16) by (unfold hex_digit in El; lia).
  exists x, h, l. rewrite b2n_n2b, N.mod_small by lia. replace ((16 * dh + dl) / 16) with dh by lia. replace ((16 * dh + dl) mod 16) with dl by lia. repeat split; assumption.
Qed.
Lemma hex_bytes_sound vs : forall t, hex_bytes_b vs t = true -> hex_bytes vs t.
Proof.
  assert (O : forall v t, match constant_of t with Some c => byte_eqb c v | None => false end = true -> hex_byte v t).
  { intros v t. destruct (constant_of t) as [c|] eqn:E; [|discriminate]. intros H. apply byte_eqb_eq in H. subst c. apply constant_sound. exact E. }
  induction vs as [|v vs IH]; intros t H; [discriminate H|]. destruct vs as [|w vs].
  - apply hb_one. apply O. exact H.
  - destruct t as [|z [|x [|h [|l [|c r]]]]]; try discriminate H. cbn [hex_bytes_b] in H. apply andb_true_iff in H. destruct H as (H & K). apply andb_true_iff in H. destruct H as (H & E).
    apply byte_eqb_eq in E. subst c. change (z :: x :: h :: l :: comma :: r) with ([z; x; h; l] ++ [x2c] ++ r). apply hb_more; [apply O; exact H|apply IH; exact K].
Qed.
Definition text_b (t : bytes) : bool :=
  negb (lenN t =? 0) && forallb (fun c => (b2n c <? 128) && negb (byte_eqb c comma)) t &&
  match t with z :: x :: h :: l :: _ => match constant_of [z; x; h; l] with Some _ => false | None => true end | _ => true end.
Lemma text_sound t : text_b t = true -> ascii_text t /\ (forall v p r, hex_byte v p -> t <> p ++ r).
Proof.
  unfold text_b. intros H. apply andb_true_iff in H. destruct H as (H & N). apply andb_true_iff in H. destruct H as (L & D). split.
  - split; [intros ->; discriminate L|]. rewrite forallb_forall in D. split.
    + apply Forall_forall. intros c I. specialize (D c I). cbn beta in D. lia.
    + intros I. specialize (D _ I). cbn beta in D. apply andb_true_iff in D. destruct D as (_ & D). discriminate D.
  - intros v p r K E. pose proof (constant_hex v p K) as C. destruct K as (x & h & l & -> & _). subst t. cbn [app] in N. rewrite C in N. discriminate N.
Qed.
Definition written_b (t bs : bytes) : bool := hex_bytes_b bs t || (text_b t && bytes_eqb bs t).
Lemma written_sound t bs : written_b t bs = true -> written t bs.
Proof.
  unfold written_b. intros H. apply orb_true_iff in H. destruct H as [H|H]; [left; apply hex_bytes_sound; exact H|]. right. apply andb_true_iff in H. destruct H as (H & E).
  apply bytes_eqb_eq in E. destruct (text_sound t H) as (A & N). auto.
Qed.
Definition parser_eq (p q : option parser) : {p = q} + {p <> q}.
Proof. repeat decide equality. Defined.
Definition detail_eq (p q : option detail) : {p = q} + {p <> q}.
Proof. repeat decide equality. Defined.
Definition named_b {X} (eq : forall p q : X, {p = q} + {p <> q}) (t : bytes) (p : X) (l : list (bytes * X)) : bool :=
  existsb (fun kv => bytes_eqb (fst kv) t && if eq (snd kv) p then true else false) l.
Lemma named_sound {X} eq t (p : X) l : named_b eq t p l = true -> In (t, p) l.
Proof.
  unfold named_b. intros H. apply existsb_exists in H. destruct H as ((k, q) & I & E). apply andb_true_iff in E. destruct E as (E1 & E2). cbn [fst snd] in *. apply bytes_eqb_eq in E1. subst k.
  destruct (eq q p) as [-> |]; [exact I|discriminate E2].
Qed.
Definition says_b (i : item) (m : MagicInfo) : bool :=
  value_b i "extension" [] (mi_ext m) && value_b i "name" [] (mi_name m) && value_b i "version" [] (mi_version m) &&
  (let t := or_text (attribute "offset" i) (B "0") in value_b i "offset" (B "0") t && decimal_b t (mi_offset m)) &&
  (let t := or_text (attribute "extra" i) (B "nullptr") in value_b i "extra" (B "nullptr") t && named_b parser_eq t (mi_func m) parser_names) &&
  written_b (it_text i) (mi_magic m) && (mi_size m =? lenN (mi_magic m)).
Lemma says_sound i m : says_b i m = true -> says i m.
Proof.
  unfold says_b. cbv zeta. intros H. repeat (apply andb_true_iff in H; let K := fresh "K" in destruct H as (H & K)).
  apply andb_true_iff in K2, K1. destruct K2 as (A1 & A2). destruct K1 as (A3 & A4).
  split; [apply value_sound; exact H|]. split; [apply value_sound; exact K4|]. split; [apply value_sound; exact K3|].
  split; [eexists; split; [apply value_sound; exact A1|apply decimal_sound; exact A2]|].
  split; [eexists; split; [apply value_sound; exact A3|apply (named_sound parser_eq); exact A4]|]. split; [apply written_sound; exact K0|lia].
Qed.
Fixpoint wide_b (t : bytes) : option (list N) :=
  match t with
  | [] => Some []
  | c :: r =>
      if byte_eqb c x5c then
        match r with
        | u :: c1 :: c2 :: c3 :: c4 :: r' =>
            if byte_eqb u x75 then
              match hex_value c1, hex_value c2, hex_value c3, hex_value c4, wide_b r' with
              | Some d1, Some d2, Some d3, Some d4, Some w => Some (4096 * d1 + 256 * d2 + 16 * d3 + d4 :: w)
              | _, _, _, _, _ => None
              end
            else None
        | _ => None
        end
      else if (b2n c <? 128) && negb (byte_eqb c x22) then match wide_b r with Some w => Some (b2n c :: w) | None => None end
      else None
  end.
Lemma wide_sound n : forall t w, (List.length t <= n)%nat -> wide_b t = Some w -> wide_text t w.
Proof.
  induction n as [|n IH]; intros t w L H; [destruct t; [injection H as <-; constructor|cbn in L; lia]|]. destruct t as [|c r]; [injection H as <-; constructor|]. cbn [wide_b] in H.
  destruct (byte_eqb c x5c) eqn:Ec.
  - apply byte_eqb_eq in Ec. subst c. destruct r as [|u [|c1 [|c2 [|c3 [|c4 r]]]]]; try discriminate H. destruct (byte_eqb u x75) eqn:Eu; [|discriminate H]. apply byte_eqb_eq in Eu. subst u.
    destruct (hex_value c1) as [d1|] eqn:E1; [|discriminate H]. destruct (hex_value c2) as [d2|] eqn:E2; [|discriminate H]. destruct (hex_value c3) as [d3|] eqn:E3; [|discriminate H].
    destruct (hex_value c4) as [d4|] eqn:E4; [|discriminate H]. destruct (wide_b r) as [w'|] eqn:E; [|discriminate H]. injection H as <-.
    apply (wt_escape d1 d2 d3 d4 c1 c2 c3 c4 r w'); try (apply digit_hex_value; assumption). apply IH; [cbn in L; lia|exact E].
  - destruct (b2n c <? 128) eqn:E1; [|discriminate H]. destruct (byte_eqb c x22) eqn:E2; [discriminate H|]. cbn [andb negb] in H. destruct (wide_b r) as [w'|] eqn:E; [|discriminate H]. injection H as <-.
    apply wt_plain; [lia| | |apply IH; [cbn in L; lia|exact E]]; intros ->; discriminate.
Qed.
Definition says_ole_b (i : item) (m : OlessInfo) : bool :=
  value_b i "extension" [] (oi_Extension m) && value_b i "name" [] (oi_Name m) && value_b i "version" [] (oi_Version m) &&
  value_b i "ignoreCase" (B "False") (if oi_ignoreCase m then B "True" else B "False") &&
  (let t := or_text (attribute "extra" i) (B "nullptr") in value_b i "extra" (B "nullptr") t && named_b detail_eq t (oi_extraFunc m) detail_names) &&
  match wide_b (it_text i) with Some w => if list_eq_dec N.eq_dec w (oi_matcher m) then true else false | None => false end.
Lemma says_ole_sound i m : says_ole_b i m = true -> says_ole i m.
Proof.
  unfold says_ole_b. cbv zeta. intros H. repeat (apply andb_true_iff in H; let K := fresh "K" in destruct H as (H & K)).
  apply andb_true_iff in K0. destruct K0 as (A3 & A4). destruct (wide_b (it_text i)) as [w|] eqn:Ew; [|discriminate K]. destruct (list_eq_dec N.eq_dec w (oi_matcher m)) as [E|]; [|discriminate K].
  split; [apply value_sound; exact H|]. split; [apply value_sound; exact K3|]. split; [apply value_sound; exact K2|]. split; [apply value_sound; exact K1|].
  split; [eexists; split; [apply value_sound; exact A3|apply (named_sound detail_eq); exact A4]|]. rewrite <- E. apply (wide_sound _ _ _ (le_n _) Ew).
Qed.
Fixpoint all2 {X Y} (f : X -> Y -> bool) (l : list X) (m : list Y) : bool :=
  match l, m with [], [] => true | x :: l, y :: m => f x y && all2 f l m | _, _ => false end.
Lemma all2_sound {X Y} (f : X -> Y -> bool) (R : X -> Y -> Prop) : (forall x y, f x y = true -> R x y) -> forall l m, all2 f l m = true -> Forall2 R l m.
Proof.
  intros S. induction l as [|x l IH]; intros [|y m] H; try discriminate H; [constructor|]. cbn [all2] in H. apply andb_true_iff in H. destruct H as (H & K). constructor; [apply S; exact H|apply IH; exact K].
Qed.
