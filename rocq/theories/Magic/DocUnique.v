(** Parsers for the JSON and XML grammars of [Magic/Spec.v], complete for them: a text
    denotes at most one document, and a text the parser rejects denotes none. *)
From Coq Require Import List NArith ZArith Bool Lia.
From Coq Require Import ZifyBool ZifyNat ZifyN.
From Verif Require Import Lib.Res Lib.Bytes Lib.BytesFacts Lib.NumSpec Lib.NumFacts
     Common.Spec Common.EscapeProofs Magic.Spec.
Import ListNotations.
Local Open Scope N_scope.

Scheme json_value_mut := Induction for json_value Sort Prop
  with json_elements_mut := Induction for json_elements Sort Prop
  with json_members_mut := Induction for json_members Sort Prop.
Combined Scheme json_mut from json_value_mut, json_elements_mut, json_members_mut.

(** ** JSON *)
Definition ws_byte (c : byte) : bool :=
  match c with x20 | x09 | x0a | x0d => true | _ => false end.
Definition digit_byte (c : byte) : bool :=
  match digit_value 10 c with Some _ => true | None => false end.

Fixpoint p_ws (s : bytes) : bytes :=
  match s with c :: r => if ws_byte c then p_ws r else s | [] => [] end.

(** The longest run of bytes satisfying [f]. *)
Fixpoint span (f : byte -> bool) (s : bytes) : bytes * bytes :=
  match s with
  | c :: r => if f c then let '(a, b) := span f r in (c :: a, b) else ([], s)
  | [] => ([], [])
  end.

(** The characters of a string up to its closing quote. *)
Fixpoint p_str (s : bytes) : option (list N * bytes) :=
  match s with
  | [] => None
  | c :: r =>
      if byte_eqb c x22 then Some ([], r)
      else if byte_eqb c x5c then
        match r with
        | e :: r1 =>
            if byte_eqb e x75 then
              match r1 with
              | a :: b :: c :: d :: r2 =>
                  match hex_num [a; b; c; d], p_str r2 with
                  | Some n, Some (v, u) => Some (n :: v, u)
                  | _, _ => None
                  end
              | _ => None
              end
            else
              match json_short_escape e, p_str r1 with
              | Some n, Some (v, u) => Some (n :: v, u)
              | _, _ => None
              end
        | [] => None
        end
      else if (32 <=? b2n c) && (b2n c <? 128) then
        match p_str r with Some (v, u) => Some (b2n c :: v, u) | None => None end
      else None
  end.

Definition p_num (s : bytes) : option (N * bytes) :=
  let '(d, r) := span digit_byte s in
  match d with
  | x30 :: _ :: _ => None
  | _ => match dec_num d with Some n => Some (n, r) | None => None end
  end.

(** [strip n s]: what follows [n] in [s]. *)
Fixpoint strip (n s : bytes) : option bytes :=
  match n, s with
  | [], _ => Some s
  | c :: n', d :: s' => if byte_eqb c d then strip n' s' else None
  | _, [] => None
  end.

(** A fraction and an exponent, either of which may be missing. *)
Definition p_frac (s : bytes) : option (bytes * bytes) :=
  match s with
  | x2e :: r => match span digit_byte r with ([], _) => None | du => Some du end
  | _ => Some ([], s)
  end.
Definition p_digits (s : bytes) : option (N * bytes) :=
  let '(d, u) := span digit_byte s in match dec_num d with Some n => Some (n, u) | None => None end.
Definition p_exponent (s : bytes) : option (Z * bytes) :=
  match s with
  | c :: r =>
      if byte_eqb c x65 || byte_eqb c x45 then
        match r with
        | x2d :: r1 => match p_digits r1 with Some (n, u) => Some ((- Z.of_N n)%Z, u) | None => None end
        | x2b :: r1 => match p_digits r1 with Some (n, u) => Some (Z.of_N n, u) | None => None end
        | _ => match p_digits r with Some (n, u) => Some (Z.of_N n, u) | None => None end
        end
      else Some (0%Z, s)
  | [] => Some (0%Z, s)
  end.
Definition p_unsigned (neg : bool) (s : bytes) : option (jval * bytes) :=
  match p_num s with
  | Some (k, s1) =>
      match p_frac s1 with
      | Some (d, s2) =>
          match p_exponent s2 with
          | Some (x, s3) =>
              if negb neg && Nat.eqb (length s3) (length s1) then Some (JNum k, s3)
              else
                match dec_num (fst (span digit_byte s) ++ d) with
                | Some n => Some (JReal (if neg then - Z.of_N n else Z.of_N n) (x - Z.of_N (lenN d)), s3)
                | None => None
                end
          | None => None
          end
      | None => None
      end
  | None => None
  end.
Definition p_number (s : bytes) : option (jval * bytes) :=
  match s with
  | x2d :: r => p_unsigned true r
  | _ => p_unsigned false s
  end.

(** The bytes that may continue a number. *)
Definition num_byte (c : byte) : bool :=
  digit_byte c || byte_eqb c x2e || byte_eqb c x65 || byte_eqb c x45.

Fixpoint p_value (f : nat) (s : bytes) : option (jval * bytes) :=
  match f with
  | O => None
  | S f =>
      match s with
      | [] => None
      | c :: r =>
          if byte_eqb c x22 then
            match p_str r with Some (v, u) => Some (JStr v, u) | None => None end
          else if byte_eqb c x5b then
            match p_ws r with
            | x5d :: u => Some (JArr [], u)
            | r1 => match p_elements f r1 with Some (l, x5d :: u) => Some (JArr l, u) | _ => None end
            end
          else if byte_eqb c x7b then
            match p_ws r with
            | x7d :: u => Some (JObj [], u)
            | r1 => match p_members f r1 with Some (l, x7d :: u) => Some (JObj l, u) | _ => None end
            end
          else if byte_eqb c x74 then
            match strip [x74; x72; x75; x65] s with Some u => Some (JBool true, u) | None => None end
          else if byte_eqb c x66 then
            match strip [x66; x61; x6c; x73; x65] s with Some u => Some (JBool false, u) | None => None end
          else p_number s
      end
  end
with p_elements (f : nat) (s : bytes) : option (list jval * bytes) :=
  match f with
  | O => None
  | S f =>
      match p_value f s with
      | Some (v, r) =>
          match p_ws r with
          | x2c :: u => match p_elements f (p_ws u) with Some (l, u') => Some (v :: l, u') | None => None end
          | u => Some ([v], u)
          end
      | None => None
      end
  end
with p_members (f : nat) (s : bytes) : option (list (list N * jval) * bytes) :=
  match f with
  | O => None
  | S f =>
      match s with
      | x22 :: r =>
          match p_str r with
          | Some (k, r1) =>
              match p_ws r1 with
              | x3a :: r2 =>
                  match p_value f (p_ws r2) with
                  | Some (v, r3) =>
                      match p_ws r3 with
                      | x2c :: u => match p_members f (p_ws u) with
                                    | Some (l, u') => Some ((k, v) :: l, u') | None => None end
                      | u => Some ([(k, v)], u)
                      end
                  | None => None
                  end
              | _ => None
              end
          | None => None
          end
      | _ => None
      end
  end.

(** The document a text denotes. *)
Definition json_parse (s : bytes) : option jval :=
  match p_value (S (2 * length s)) s with Some (v, []) => Some v | _ => None end.

Lemma p_ws_app w r : json_ws w -> p_ws (w ++ r) = p_ws r.
Proof.
  induction 1 as [|c w Hc H IH]; [reflexivity|]. cbn [app p_ws].
  replace (ws_byte c) with true; [exact IH|]. destruct Hc as [->|[->|[->| ->]]]; reflexivity.
Qed.

Lemma p_ws_stop r : (match r with [] => True | c :: _ => ws_byte c = false end) -> p_ws r = r.
Proof. destruct r as [|c r]; [reflexivity|]. cbn [p_ws]. intros ->. reflexivity. Qed.

Lemma p_str_complete t s : json_str t s -> forall r, p_str (t ++ x22 :: r) = Some (s, r).
Proof.
  induction 1 as [|c t v Hc Hq Hb H IH|c n t v Hc H IH|h n t v Hl Hh H IH]; intros r.
  - reflexivity.
  - cbn [app p_str]. apply byte_eqb_neq in Hq, Hb. rewrite Hq, Hb.
    replace ((32 <=? b2n c) && (b2n c <? 128)) with true by lia. rewrite IH. reflexivity.
  - cbn [app p_str]. change (byte_eqb x5c x22) with false. change (byte_eqb x5c x5c) with true. cbn iota.
    assert (Hu : byte_eqb c x75 = false).
    { apply byte_eqb_neq. intros ->. discriminate Hc. }
    rewrite Hu, Hc, IH. reflexivity.
  - destruct h as [|a [|b [|c [|d [|e h]]]]]; try discriminate Hl.
    cbn [app p_str]. change (byte_eqb x5c x22) with false. change (byte_eqb x5c x5c) with true.
    change (byte_eqb x75 x75) with true. cbn iota. rewrite Hh, IH. reflexivity.
Qed.

Lemma span_app f a r : Forall (fun c => f c = true) a ->
  (match r with [] => True | c :: _ => f c = false end) -> span f (a ++ r) = (a, r).
Proof.
  intros H Hr. induction H as [|c a Hc H IH]; cbn [app span].
  - destruct r as [|c r]; [reflexivity|]. cbn [span]. rewrite Hr. reflexivity.
  - rewrite Hc, IH. reflexivity.
Qed.

Lemma digits_byte t n : dec_num t = Some n -> Forall (fun c => digit_byte c = true) t.
Proof.
  intros H. apply num_digits in H. eapply Forall_impl; [|exact H]. intros c [v E].
  unfold digit_byte. rewrite E. reflexivity.
Qed.

Lemma digit_not c d : digit_byte c = true -> digit_byte d = false -> byte_eqb c d = false.
Proof. intros H1 H2. apply byte_eqb_neq. intros ->. congruence. Qed.

Lemma p_num_complete t n r : json_number t n ->
  (match r with [] => True | c :: _ => digit_byte c = false end) -> p_num (t ++ r) = Some (n, r).
Proof.
  intros [H Hz] Hr. unfold p_num. rewrite span_app by eauto using digits_byte.
  destruct t as [|c [|d t]]; [discriminate H| |].
  - destruct c; rewrite H; reflexivity.
  - destruct c; try (rewrite H; reflexivity). specialize (Hz _ eq_refl). discriminate Hz.
Qed.

Definition follows_number (r : bytes) : Prop := match r with [] => True | c :: _ => num_byte c = false end.

Lemma not_num c : num_byte c = false ->
  digit_byte c = false /\ byte_eqb c x2e = false /\ byte_eqb c x65 = false /\ byte_eqb c x45 = false.
Proof. unfold num_byte. destruct (digit_byte c), (byte_eqb c x2e), (byte_eqb c x65), (byte_eqb c x45); cbn; auto. Qed.

Lemma p_digits_complete d n r : dec_num d = Some n ->
  (match r with [] => True | c :: _ => digit_byte c = false end) -> p_digits (d ++ r) = Some (n, r).
Proof.
  intros H Hr. unfold p_digits. rewrite span_app by eauto using digits_byte. rewrite H. reflexivity.
Qed.

Lemma p_exponent_complete t x r : json_exponent t x -> follows_number r -> p_exponent (t ++ r) = Some (x, r).
Proof.
  intros [[-> ->]|(mark & sign & d & n & -> & Hm & Hd & Hs)] Hr.
  - cbn [app]. destruct r as [|c r]; [reflexivity|]. apply not_num in Hr. destruct Hr as (_ & _ & E1 & E2).
    unfold p_exponent. rewrite E1, E2. reflexivity.
  - cbn [app p_exponent]. replace (byte_eqb mark x65 || byte_eqb mark x45) with true
      by (destruct Hm as [->| ->]; reflexivity).
    assert (Hr' : match r with [] => True | c :: _ => digit_byte c = false end).
    { destruct r; [exact I|]. apply not_num in Hr. tauto. }
    rewrite <- app_assoc. destruct Hs as [[[->| ->] ->]|[-> ->]]; cbn [app];
      try (rewrite (p_digits_complete _ _ _ Hd Hr'); reflexivity).
    pose proof (digits_byte _ _ Hd) as F. destruct d as [|c d]; [discriminate Hd|].
    inversion F as [|? ? Hc _]; subst. cbn [app].
    pose proof (p_digits_complete _ _ _ Hd Hr') as E. cbn [app] in E.
    destruct c; try (rewrite E; reflexivity); discriminate Hc.
Qed.

Lemma exponent_start t x r : json_exponent t x -> follows_number r ->
  match t ++ r with [] => True | c :: _ => digit_byte c = false /\ byte_eqb c x2e = false end.
Proof.
  intros [[-> ->]|(mark & sign & d & n & -> & Hm & _)] Hr; cbn [app].
  - destruct r as [|c r]; [exact I|]. apply not_num in Hr. tauto.
  - destruct Hm as [->| ->]; split; reflexivity.
Qed.

Lemma p_frac_complete t d r : json_fraction t d ->
  (match r with [] => True | c :: _ => digit_byte c = false /\ byte_eqb c x2e = false end) ->
  p_frac (t ++ r) = Some (d, r).
Proof.
  intros [[-> ->]|[-> [n Hn]]] Hr; cbn [app].
  - destruct r as [|c r]; [reflexivity|]. destruct c; try reflexivity. destruct Hr as [_ Hr]; discriminate Hr.
  - cbn [p_frac]. rewrite span_app; [|eauto using digits_byte|destruct r; tauto].
    destruct d; [discriminate Hn|reflexivity].
Qed.

Lemma p_unsigned_complete (neg : bool) i k frac d ex x n r :
  json_number i k -> json_fraction frac d -> json_exponent ex x -> dec_num (i ++ d) = Some n ->
  follows_number r ->
  p_unsigned neg (i ++ frac ++ ex ++ r) =
  Some (if negb neg && Nat.eqb (length (frac ++ ex)) 0 then JNum k
        else JReal (if neg then - Z.of_N n else Z.of_N n) (x - Z.of_N (lenN d)), r).
Proof.
  intros Hi Hf Hx Hn Hr. unfold p_unsigned.
  pose proof (exponent_start _ _ _ Hx Hr) as S1.
  assert (S2 : match frac ++ ex ++ r with [] => True | c :: _ => digit_byte c = false end).
  { destruct Hf as [[-> ->]|[-> _]]; cbn [app]; [|reflexivity]. destruct (ex ++ r); tauto. }
  rewrite (p_num_complete _ _ _ Hi S2), (p_frac_complete _ _ _ Hf S1), (p_exponent_complete _ _ _ Hx Hr).
  destruct Hi as [Hi _].
  rewrite (span_app digit_byte i) by eauto using digits_byte. cbn [fst]. rewrite Hn.
  replace (Nat.eqb (length r) (length (frac ++ ex ++ r))) with (Nat.eqb (length (frac ++ ex)) 0)
    by (rewrite !app_length; lia).
  destruct (negb neg && _); reflexivity.
Qed.

Lemma number_value t n r : json_number t n -> follows_number r -> p_unsigned false (t ++ r) = Some (JNum n, r).
Proof.
  intros H Hr. pose proof (proj1 H) as Hn.
  apply (p_unsigned_complete false t n [] [] [] 0%Z n r H); [left; auto|left; auto| |exact Hr].
  rewrite app_nil_r. exact Hn.
Qed.
Lemma real_value t m e r : json_real t m e -> follows_number r -> p_number (t ++ r) = Some (JReal m e, r).
Proof.
  intros [neg i k frac d ex x n Hi Hf Hx Hn Hs] Hr.
  pose proof (p_unsigned_complete neg i k frac d ex x n r Hi Hf Hx Hn Hr) as E.
  replace (negb neg && Nat.eqb (length (frac ++ ex)) 0) with false in E.
  2:{ destruct Hs as [->|[Hs|Hs]]; [reflexivity| |];
      destruct frac; destruct ex; destruct neg; cbn in *; congruence. }
  destruct neg; cbn [app].
  - cbn [p_number]. rewrite <- !app_assoc. exact E.
  - rewrite <- !app_assoc. destruct Hi as [Hi _]. pose proof (digits_byte _ _ Hi) as F.
    destruct i as [|c i]; [discriminate Hi|]. inversion F as [|? ? Hc _]; subst. cbn [app] in *.
    unfold p_number. destruct c; try exact E; discriminate Hc.
Qed.

(** What a number starts with. *)
Definition number_start (c : byte) : bool := digit_byte c || byte_eqb c x2d.
Lemma real_start t m e : json_real t m e -> exists c r, t = c :: r /\ number_start c = true.
Proof.
  intros [neg i k frac d ex x n [Hi _] _ _ _ _]. destruct neg; cbn [app].
  - do 2 eexists. split; reflexivity.
  - pose proof (digits_byte _ _ Hi) as F. destruct i as [|c i]; [discriminate Hi|].
    inversion F as [|? ? Hc _]; subst. cbn [app]. do 2 eexists. split; [reflexivity|].
    unfold number_start. rewrite Hc. reflexivity.
Qed.

(** What a value, element list or member list starts with. *)
Lemma value_start t v : json_value t v -> exists c r, t = c :: r /\ ws_byte c = false /\ c <> x5d /\ c <> x7d.
Proof.
  intros H. destruct H as [t s [u w H]|t n [H _]|t m e H| | | | | |]; cbn [app];
    try (do 2 eexists; split; [reflexivity|]; split; [reflexivity|split; discriminate]).
  - destruct t as [|c t]; [discriminate H|]. exists c, t. split; [reflexivity|].
    apply digits_byte in H. inversion H as [|? ? Hc _]; subst. 
    split; [destruct c; try reflexivity; discriminate Hc|]. split; intros ->; discriminate Hc.
  - destruct (real_start _ _ _ H) as (c & r & -> & Hc). exists c, r. split; [reflexivity|].
    split; [destruct c; try reflexivity; discriminate Hc|]. split; intros ->; discriminate Hc.
Qed.

Lemma elements_start t l : json_elements t l -> forall r, exists c u,
  p_ws (t ++ r) = c :: u /\ c <> x5d.
Proof.
  intros [w1 t' v w2 H1 H2 H3|w1 t' v w2 ts vs H1 H2 H3 H4] r;
    destruct (value_start _ _ H2) as (c & u & -> & Hc & Hn & _);
    rewrite <- !app_assoc, p_ws_app by exact H1; cbn [app p_ws]; rewrite Hc; eauto.
Qed.
Lemma members_start t l : json_members t l -> forall r, exists u, p_ws (t ++ r) = x22 :: u.
Proof.
  intros [w1 k n w2 w3 t' v w4 H1 H2 H3 H4 H5 H6|w1 k n w2 w3 t' v w4 ts ms H1 H2 H3 H4 H5 H6 H7] r;
    destruct H2 as [u s Hs]; rewrite <- !app_assoc, p_ws_app by exact H1; cbn [app p_ws];
    change (ws_byte quote) with false; cbn iota; eexists; reflexivity.
Qed.

Lemma p_complete :
  (forall t v, json_value t v -> forall f r, (2 * length t < f)%nat ->
     follows_number r -> p_value f (t ++ r) = Some (v, r)) /\
  (forall t l, json_elements t l -> forall f r, (2 * length t + 1 < f)%nat ->
     p_elements f (p_ws (t ++ x5d :: r)) = Some (l, x5d :: r)) /\
  (forall t l, json_members t l -> forall f r, (2 * length t + 1 < f)%nat ->
     p_members f (p_ws (t ++ x7d :: r)) = Some (l, x7d :: r)).
Proof.
  apply json_mut.
  - intros t s [u v H] f r Hf _. destruct f as [|f]; [lia|]. cbn [app p_value].
    change (byte_eqb quote x22) with true. cbn iota.
    rewrite <- app_assoc. cbn [app]. rewrite (p_str_complete _ _ H). reflexivity.
  - intros t n H f r Hf Hr. destruct f as [|f]; [lia|].
    pose proof (number_value _ _ _ H Hr) as E. destruct H as [H _].
    destruct t as [|c t]; [discriminate H|]. apply digits_byte in H. inversion H as [|? ? Hc _]; subst.
    cbn [app p_value] in E |- *.
    rewrite !(digit_not c) by (exact Hc || reflexivity).
    unfold p_number. destruct c; try exact E; discriminate Hc.
  - intros t m e H f r Hf Hr. destruct f as [|f]; [lia|].
    pose proof (real_value _ _ _ _ H Hr) as E. destruct (real_start _ _ _ H) as (c & u & -> & Hc).
    cbn [app p_value] in E |- *.
    assert (N : forall d, number_start d = false -> byte_eqb c d = false).
    { intros d Hd. apply byte_eqb_neq. intros ->. congruence. }
    rewrite !N by reflexivity. exact E.
  - intros f r Hf Hr. destruct f as [|f]; [lia|]. reflexivity.
  - intros f r Hf Hr. destruct f as [|f]; [lia|]. reflexivity.
  - intros w Hw f r Hf _. destruct f as [|f]; [lia|]. cbn [app p_value].
    change (byte_eqb x5b x22) with false. change (byte_eqb x5b x5b) with true. cbn iota.
    rewrite <- app_assoc, p_ws_app by exact Hw. reflexivity.
  - intros t l H IH f r Hf _. destruct f as [|f]; [lia|]. cbn [app p_value length] in *.
    rewrite app_length in Hf. cbn [length] in Hf.
    change (byte_eqb x5b x22) with false. change (byte_eqb x5b x5b) with true. cbn iota.
    rewrite <- app_assoc. cbn [app].
    destruct (elements_start _ _ H (x5d :: r)) as (c & u & E & Hc).
    specialize (IH f r ltac:(lia)). rewrite E in *.
    destruct c; try (rewrite IH; reflexivity). congruence.
  - intros w Hw f r Hf _. destruct f as [|f]; [lia|]. cbn [app p_value].
    change (byte_eqb x7b x22) with false. change (byte_eqb x7b x5b) with false.
    change (byte_eqb x7b x7b) with true. cbn iota.
    rewrite <- app_assoc, p_ws_app by exact Hw. reflexivity.
  - intros t l H IH f r Hf _. destruct f as [|f]; [lia|]. cbn [app p_value length] in *.
    rewrite app_length in Hf. cbn [length] in Hf.
    change (byte_eqb x7b x22) with false. change (byte_eqb x7b x5b) with false.
    change (byte_eqb x7b x7b) with true. cbn iota.
    rewrite <- app_assoc. cbn [app].
    destruct (members_start _ _ H (x7d :: r)) as (u & E).
    specialize (IH f r ltac:(lia)). rewrite E in *. rewrite IH. reflexivity.
  - intros w1 t v w2 Hw1 Hv IHv Hw2 f r Hf. destruct f as [|f]; [lia|].
    rewrite !app_length in Hf. destruct (value_start _ _ Hv) as (c & u & Et & Hc & _).
    rewrite <- !app_assoc, p_ws_app by exact Hw1. rewrite p_ws_stop by (rewrite Et; exact Hc).
    cbn [p_elements]. rewrite IHv; [|lia|].
    + rewrite p_ws_app by exact Hw2. reflexivity.
    + destruct Hw2 as [|d w2 Hd]; [reflexivity|]. destruct Hd as [->|[->|[->| ->]]]; reflexivity.
  - intros w1 t v w2 ts vs Hw1 Hv IHv Hw2 Hts IHts f r Hf. destruct f as [|f]; [lia|].
    rewrite !app_length in Hf. cbn [length] in Hf.
    destruct (value_start _ _ Hv) as (c & u & Et & Hc & _).
    assert (L : (1 <= length t)%nat) by (rewrite Et; cbn; lia).
    rewrite <- !app_assoc, p_ws_app by exact Hw1. rewrite p_ws_stop by (rewrite Et; exact Hc).
    cbn [p_elements]. rewrite IHv; [|lia|].
    + rewrite p_ws_app by exact Hw2. cbn [app p_ws]. change (ws_byte comma) with false. cbn iota.
      change comma with x2c. cbn iota. rewrite IHts by lia. reflexivity.
    + destruct Hw2 as [|d w2 Hd]; [reflexivity|]. destruct Hd as [->|[->|[->| ->]]]; reflexivity.
  - intros w1 k n w2 w3 t v w4 Hw1 Hk Hw2 Hw3 Hv IHv Hw4 f r Hf. destruct f as [|f]; [lia|].
    destruct Hk as [k s Hs]. rewrite <- !app_assoc, p_ws_app by exact Hw1.
    do 4 (rewrite ?app_length in Hf; cbn [length] in Hf).
    destruct (value_start _ _ Hv) as (c & u & Et & Hc & _).
    cbn [app p_ws]. change (ws_byte quote) with false. cbn iota. cbn [p_members].
    change quote with x22. cbn iota. rewrite <- !app_assoc. cbn [app].
    rewrite (p_str_complete _ _ Hs), p_ws_app by exact Hw2. cbn [app p_ws].
    change (ws_byte colon) with false. cbn iota. change colon with x3a. cbn iota.
    rewrite <- ?app_assoc, p_ws_app by exact Hw3. rewrite p_ws_stop by (rewrite Et; exact Hc).
    rewrite IHv; [|lia|].
    + rewrite p_ws_app by exact Hw4. reflexivity.
    + destruct Hw4 as [|d w4 Hd]; [reflexivity|]. destruct Hd as [->|[->|[->| ->]]]; reflexivity.
  - intros w1 k n w2 w3 t v w4 ts ms Hw1 Hk Hw2 Hw3 Hv IHv Hw4 Hts IHts f r Hf. destruct f as [|f]; [lia|].
    destruct Hk as [k s Hs]. rewrite <- !app_assoc, p_ws_app by exact Hw1.
    do 4 (rewrite ?app_length in Hf; cbn [length] in Hf).
    destruct (value_start _ _ Hv) as (c & u & Et & Hc & _).
    cbn [app p_ws]. change (ws_byte quote) with false. cbn iota. cbn [p_members].
    change quote with x22. cbn iota. rewrite <- !app_assoc. cbn [app].
    rewrite (p_str_complete _ _ Hs), p_ws_app by exact Hw2. cbn [app p_ws].
    change (ws_byte colon) with false. cbn iota. change colon with x3a. cbn iota.
    rewrite <- ?app_assoc, p_ws_app by exact Hw3. rewrite p_ws_stop by (rewrite Et; exact Hc).
    rewrite IHv; [|lia|].
    + rewrite p_ws_app by exact Hw4. cbn [app p_ws]. change (ws_byte comma) with false. cbn iota.
      change comma with x2c. cbn iota. rewrite IHts by lia. reflexivity.
    + destruct Hw4 as [|d w4 Hd]; [reflexivity|]. destruct Hd as [->|[->|[->| ->]]]; reflexivity.
Qed.

Lemma json_parse_complete t v : json_value t v -> json_parse t = Some v.
Proof.
  intros H. unfold json_parse. pose proof (proj1 p_complete t v H (S (2 * length t)) [] ltac:(lia) I) as E.
  rewrite app_nil_r in E. rewrite E. reflexivity.
Qed.
Lemma json_value_fun t v v' : json_value t v -> json_value t v' -> v = v'.
Proof. intros H1%json_parse_complete H2%json_parse_complete. congruence. Qed.
Lemma json_reject t : json_parse t = None -> forall v, ~ json_value t v.
Proof. intros H v H1%json_parse_complete. congruence. Qed.

(** ** XML *)
Definition lt_byte (c : byte) : bool := negb (byte_eqb c x3c).
Definition gt_byte (c : byte) : bool := negb (byte_eqb c x3e).

Definition special_byte (c : byte) : bool :=
  match c with x26 | x3c | x3e => true | _ => false end.

(** Character data and decimal references. *)
Fixpoint p_text (f : nat) (s : bytes) : option (list N) :=
  match f with
  | O => None
  | S f =>
      match s with
      | [] => Some []
      | c :: r =>
          if byte_eqb c x26 then
            match r with
            | x23 :: r1 =>
                let '(d, r2) := span digit_byte r1 in
                match dec_num d, r2 with
                | Some n, x3b :: r3 => match p_text f r3 with Some v => Some (n :: v) | None => None end
                | _, _ => None
                end
            | _ => None
            end
          else if (32 <=? b2n c) && (b2n c <? 127) && negb (special_byte c) then
            match p_text f r with Some v => Some (b2n c :: v) | None => None end
          else None
      end
  end.

Lemma p_text_complete t s : xml_text t s -> forall f, (length t < f)%nat -> p_text f t = Some s.
Proof.
  induction 1 as [|c t v Hc Hs H IH|d n t v Hd H IH]; intros f Hf; (destruct f as [|f]; [lia|]).
  - reflexivity.
  - cbn [p_text length] in *.
    assert (E : special_byte c = false).
    { destruct (special_byte c) eqn:E; [|reflexivity]. exfalso. apply Hs. unfold xml_markup.
      destruct c; try discriminate E; auto. }
    assert (E2 : byte_eqb c x26 = false) by (apply byte_eqb_neq; intros ->; discriminate E).
    rewrite E2, E. replace ((32 <=? b2n c) && (b2n c <? 127)) with true by lia.
    cbn [andb negb]. rewrite IH by lia. reflexivity.
  - cbn [p_text length] in *. rewrite app_length in Hf. cbn [length] in Hf.
    change (byte_eqb x26 x26) with true. cbn iota.
    rewrite span_app by (eauto using digits_byte; reflexivity).
    rewrite Hd, IH by lia. reflexivity.
Qed.

Lemma xml_text_no_lt t s : xml_text t s -> ~ In x3c t.
Proof.
  induction 1 as [|c t v Hc Hs H IH|d n t v Hd H IH]; cbn [In].
  - tauto.
  - intros [->|K]; [|exact (IH K)]. apply Hs. unfold xml_markup. tauto.
  - intros [K|[K|K]]; try discriminate K. apply in_app_or in K. destruct K as [K|[K|K]]; [|discriminate K|exact (IH K)].
    apply digits_byte in Hd. rewrite Forall_forall in Hd. specialize (Hd _ K). discriminate Hd.
Qed.

(** The bytes before the first "]]>" and those after it. *)
Fixpoint p_cdata (s : bytes) : option (bytes * bytes) :=
  match s with
  | [] => None
  | c :: r =>
      match s with
      | x5d :: x5d :: x3e :: u => Some ([], u)
      | _ => match p_cdata r with Some (a, b) => Some (c :: a, b) | None => None end
      end
  end.

Definition start_byte (c : byte) : bool :=
  ((65 <=? b2n c) && (b2n c <=? 90)) || ((97 <=? b2n c) && (b2n c <=? 122)) || byte_eqb c x5f.
Definition name_byte (c : byte) : bool := start_byte c || ((48 <=? b2n c) && (b2n c <=? 57)).
Definition name_ok (n : bytes) : bool :=
  match n with c :: t => start_byte c && forallb name_byte t | [] => false end.

Fixpoint p_content (f : nat) (s : bytes) : option (list xnode * bytes) :=
  match f with
  | O => None
  | S f =>
      match s with
      | [] => Some ([], [])
      | x3c :: x2f :: _ => Some ([], s)
      | x3c :: x21 :: _ =>
          match strip cdata_open s with
          | Some r =>
              match p_cdata r with
              | Some (d, u) => match p_content f u with Some (l, u') => Some (XCData d :: l, u') | None => None end
              | None => None
              end
          | None => None
          end
      | x3c :: r =>
          let '(n, r1) := span gt_byte r in
          if name_ok n then
            match r1 with
            | _ :: r2 =>
                match p_content f r2 with
                | Some (ch, r3) =>
                    match strip (x3c :: x2f :: n ++ [x3e]) r3 with
                    | Some u => match p_content f u with
                                | Some (l, u') => Some (XElem n ch :: l, u') | None => None end
                    | None => None
                    end
                | None => None
                end
            | [] => None
            end
          else None
      | _ =>
          let '(t, r) := span lt_byte s in
          match p_text (S (length t)) t, p_content f r with
          | Some v, Some (l, u) => Some (XText v :: l, u)
          | _, _ => None
          end
      end
  end.

Definition xml_parse (s : bytes) : option xnode :=
  match p_content (S (length s)) s with Some ([XElem n l], []) => Some (XElem n l) | _ => None end.

(** What may follow a piece of content: nothing or a closing tag. *)
Definition ends (r : bytes) : Prop := r = [] \/ exists u, r = x3c :: x2f :: u.

Lemma strip_app n r : strip n (n ++ r) = Some r.
Proof. induction n as [|c n IH]; [reflexivity|]. cbn [app strip]. rewrite byte_eqb_refl. exact IH. Qed.

Lemma start_byte_ok c : name_start c -> start_byte c = true.
Proof. unfold start_byte. intros [H|[H| ->]]; [lia|lia|reflexivity]. Qed.
Lemma name_byte_ok c : name_char c -> name_byte c = true.
Proof.
  unfold name_byte. intros [H|H]; [rewrite (start_byte_ok _ H); reflexivity|].
  replace ((48 <=? b2n c) && (b2n c <=? 57)) with true by lia. apply orb_true_r.
Qed.
Lemma name_byte_not c d : name_byte c = true -> name_byte d = false -> byte_eqb c d = false.
Proof. intros H1 H2. apply byte_eqb_neq. intros ->. congruence. Qed.

Lemma name_facts n : xml_name n -> name_ok n = true /\ Forall (fun c => name_byte c = true) n /\
  exists c t, n = c :: t /\ name_byte c = true.
Proof.
  intros (c & t & -> & Hc & Ht). apply start_byte_ok in Hc.
  assert (Hn : name_byte c = true) by (unfold name_byte; rewrite Hc; reflexivity).
  assert (F : Forall (fun c => name_byte c = true) t).
  { eapply Forall_impl; [|exact Ht]. intros. apply name_byte_ok. assumption. }
  split; [|split; [constructor; assumption|eauto]].
  cbn [name_ok]. rewrite Hc. cbn [andb]. apply forallb_forall. rewrite Forall_forall in F. exact F.
Qed.

Lemma p_cdata_complete s r : ~ contains cdata_close s -> p_cdata (s ++ cdata_close ++ r) = Some (s, r).
Proof.
  induction s as [|c s IH]; intros H; [reflexivity|].
  assert (H1 : ~ contains cdata_close s).
  { intros (a & b & ->). apply H. exists (c :: a), b. reflexivity. }
  specialize (IH H1).
  assert (D : forall u, c :: s ++ cdata_close ++ r <> cdata_close ++ u).
  { intros u E. destruct s as [|d [|e s]].
    - cbn in E. discriminate E.
    - cbn in E. discriminate E.
    - cbn in E. injection E as -> -> -> _. apply H. exists [], s. reflexivity. }
  cbn [app p_cdata]. rewrite IH.
  destruct c; try reflexivity.
  destruct (s ++ cdata_close ++ r) as [|d [|e u]] eqn:E; try reflexivity; [destruct d; reflexivity|].
  destruct d; try reflexivity. destruct e; try reflexivity.
  exfalso. apply (D u). reflexivity.
Qed.

Lemma p_content_complete t l : xml_content t l -> forall f r, (length t < f)%nat -> ends r ->
  p_content f (t ++ r) = Some (l, r).
Proof.
  induction 1 as [|t s rest l Hn Ht Hr Hrest IH|s rest l Hs Hrest IH|n body ch rest l Hname Hbody IHb Hrest IH];
    intros f r Hf He; (destruct f as [|f]; [lia|]).
  - destruct He as [->|[u ->]]; reflexivity.
  - rewrite app_length in Hf.
    assert (N : Forall (fun c => lt_byte c = true) t).
    { apply Forall_forall. intros c Hc. unfold lt_byte. apply negb_true_iff, byte_eqb_neq. intros ->.
      exact (xml_text_no_lt _ _ Ht Hc). }
    assert (Hh : match rest ++ r with [] => True | c :: _ => lt_byte c = false end).
    { destruct Hr as [->|[u ->]]; [|reflexivity]. destruct He as [->|[u ->]]; [exact I|reflexivity]. }
    rewrite <- app_assoc.
    pose proof (span_app lt_byte t (rest ++ r) N Hh) as Sp.
    assert (T : p_text (S (length t)) t = Some s) by (eapply p_text_complete; eauto).
    destruct t as [|c t]; [congruence|]. cbn [length] in Hf.
    assert (C : c <> x3c).
    { intros ->. apply (xml_text_no_lt _ _ Ht). left. reflexivity. }
    specialize (IH f r ltac:(lia) He).
    cbn [app p_content] in *.
    destruct c; try congruence; rewrite Sp, T, IH; reflexivity.
  - rewrite !app_length in Hf. rewrite <- !app_assoc. change (length cdata_open) with 9%nat in Hf.
    specialize (IH f r ltac:(lia) He). cbn [p_content].
    pose proof (strip_app cdata_open (s ++ cdata_close ++ rest ++ r)) as E.
    cbn [cdata_open app] in E |- *. rewrite E. rewrite (p_cdata_complete _ _ Hs), IH. reflexivity.
  - destruct (name_facts _ Hname) as (N1 & N2 & c & n' & En & N3).
    cbn [length] in Hf. rewrite app_length in Hf. cbn [length] in Hf. rewrite app_length in Hf. cbn [length] in Hf.
    rewrite app_length in Hf. cbn [length] in Hf.
    set (tail := x3c :: x2f :: n ++ x3e :: rest ++ r).
    assert (E : (x3c :: n ++ x3e :: body ++ x3c :: x2f :: n ++ x3e :: rest) ++ r = x3c :: n ++ x3e :: body ++ tail).
    { unfold tail. cbn [app]. do 4 (rewrite <- ?app_assoc; cbn [app]). reflexivity. }
    rewrite E. clear E.
    assert (Sp : span gt_byte (n ++ x3e :: body ++ tail) = (n, x3e :: body ++ tail)).
    { apply span_app; [|reflexivity]. eapply Forall_impl; [|exact N2]. intros d Hd. cbn beta in Hd.
      unfold gt_byte. rewrite (name_byte_not d x3e Hd eq_refl). reflexivity. }
    assert (B : p_content f (body ++ tail) = Some (ch, tail)).
    { apply IHb; [lia|]. right. eexists. reflexivity. }
    assert (R : p_content f (rest ++ r) = Some (l, r)) by (apply IH; [lia|exact He]).
    assert (T : strip (x3c :: x2f :: n ++ [x3e]) tail = Some (rest ++ r)).
    { replace tail with ((x3c :: x2f :: n ++ [x3e]) ++ rest ++ r); [apply strip_app|].
      unfold tail. cbn [app]. rewrite <- app_assoc. reflexivity. }
    cbn [p_content]. rewrite Sp, N1. rewrite B, T, R.
    subst n. cbn [app]. destruct c; try discriminate N3; reflexivity.
Qed.

Lemma xml_parse_complete t e : xml_document t e -> xml_parse t = Some e.
Proof.
  unfold xml_document, xml_parse. intros H. destruct e as [| |n l]; try contradiction.
  pose proof (p_content_complete _ _ H (S (length t)) [] ltac:(lia) (or_introl eq_refl)) as E.
  rewrite app_nil_r in E. rewrite E. reflexivity.
Qed.
Lemma xml_document_fun t e e' : xml_document t e -> xml_document t e' -> e = e'.
Proof. intros H1%xml_parse_complete H2%xml_parse_complete. congruence. Qed.
Lemma xml_reject t : xml_parse t = None -> forall e, ~ xml_document t e.
Proof. intros H e H1%xml_parse_complete. congruence. Qed.
