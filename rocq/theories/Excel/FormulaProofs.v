(** Reading formulas. *)
From Coq Require Import List NArith ZArith Bool Lia Strings.String Strings.Byte.
From Coq Require Import ZifyBool ZifyNat ZifyN.
From Coq Require Lists.ListDec.
From Verif Require Import Lib.Res Lib.Bytes Lib.BytesFacts Lib.Text Common.Model Common.Spec Common.ReadProofs
     Excel.Number Excel.Tables Excel.Model Excel.Records Excel.Spec Excel.Statements Excel.EngineProofs Excel.CellProofs
     Excel.NumberSpec Excel.NumberProofs Excel.FunctionSpec Excel.FormulaSpec Excel.FormulaStatements Excel.TokenProofs.
Import ListNotations.
Local Open Scope N_scope.
Ltac Zify.zify_post_hook ::= Z.div_mod_to_equations.
Arguments N.pow : simpl never.
Arguments N.mul : simpl never.
Arguments N.add : simpl never.

Lemma token_length t : 1 <= lenN (token_bytes t).
Proof. destruct t; cbn [token_bytes]; rewrite lenN_cons; lia. Qed.
Lemma tokens_length ts : lenN ts <= lenN (tokens_bytes ts).
Proof.
  induction ts as [|t ts IH]; [reflexivity|]. unfold tokens_bytes in *. cbn [map List.concat]. rewrite lenN_cons, lenN_app.
  pose proof (token_length t). lia.
Qed.
Lemma rgce_read p d max : max <= lenN d -> max < 2 ^ 31 -> forall ts off fuel, here d off (tokens_bytes ts) -> Forall token_ok ts ->
  off + lenN (tokens_bytes ts) <= max -> exists xs, (List.length xs = List.length ts)%nat /\
    rgce p d max (List.length ts + fuel) off =
      (r <- rgce p d max fuel (off + lenN (tokens_bytes ts)) ;; Ok (xs ++ fst r, snd r)) /\
    forall before, texts before ts (map (ptg_text before) xs).
Proof.
  intros HM HB. induction ts as [|t ts IH]; intros off fuel H K L.
  - exists []. split; [reflexivity|]. split; [|intros before; constructor]. cbn [List.length Nat.add tokens_bytes map List.concat].
    change (lenN (@nil byte)) with 0. rewrite N.add_0_r. destruct (rgce p d max fuel off) as [[xs i]| | |]; reflexivity.
  - inversion K as [|? ? K1 K2]; subst. unfold tokens_bytes in H, L. cbn [map List.concat] in H, L. fold (tokens_bytes ts) in H, L.
    apply here_app in H. destruct H as [H1 H2]. rewrite lenN_app in L. pose proof (token_length t) as T.
    destruct (read_token p d max HM HB off t) as (x & E & P); [split; [exact H1|split; [exact K1|lia]]|].
    destruct (IH (off + lenN (token_bytes t)) fuel H2 K2) as (xs & LX & EX & PX); [lia|].
    exists (x :: xs). split; [cbn [List.length]; rewrite LX; reflexivity|]. split; [|intros before; constructor; [apply P|apply PX]].
    cbn [List.length Nat.add rgce]. destruct (N.ltb_spec off max); [|lia]. rewrite E. cbn [bind fst snd].
    rewrite u32_small by lia. rewrite EX. unfold tokens_bytes at 2. cbn [map List.concat]. fold (tokens_bytes ts). rewrite lenN_app, N.add_assoc.
    destruct (rgce p d max fuel (off + lenN (token_bytes t) + lenN (tokens_bytes ts))) as [[ys i]| | |]; reflexivity.
Qed.
Lemma rgce_all p d max ts off fuel : max <= lenN d -> max < 2 ^ 31 -> here d off (tokens_bytes ts) -> Forall token_ok ts ->
  off + lenN (tokens_bytes ts) = max -> (List.length ts < fuel)%nat -> exists xs,
    rgce p d max fuel off = Ok (xs, max) /\ forall before, texts before ts (map (ptg_text before) xs).
Proof.
  intros HM HB H K L F. destruct (rgce_read p d max HM HB ts off (fuel - List.length ts) H K) as (xs & LX & E & P); [lia|].
  exists xs. split; [|exact P]. replace fuel with (List.length ts + (fuel - List.length ts))%nat by lia. rewrite E, L.
  destruct (fuel - List.length ts)%nat as [|k] eqn:F'; [lia|]. cbn [rgce]. rewrite N.ltb_irrefl. cbn [bind fst snd]. rewrite app_nil_r. reflexivity.
Qed.
Lemma join_separated l : separated l (join (B ";") l).
Proof.
  induction l as [|s l IH]; [constructor|]. destruct l as [|t l]; [constructor|].
  change (join (B ";") (s :: t :: l)) with (s ++ B ";" ++ join (B ";") (t :: l)). constructor. exact IH.
Qed.

(** ** The record *)
Lemma formula_head p l d : 22 <= lenN d -> lenN d < 2 ^ 31 -> exists fs,
  FormulaRecord p l d =
    (ts <- rgce p d (lenN d) (S (List.length d)) 22 ;; _ <- extra (snd ts) (lenN d) ;;
     Ok (Fields (fs ++ [fld "Value" (Esc (formula_value (takeN 8 (dropN 6 d)))); fld "FormulaString" (Esc (formula_text l (fst ts)))]))).
Proof.
  intros H B. unfold FormulaRecord. cbv zeta. rewrite !us_le by lia. cbn [bind]. unfold load. rewrite !slice_ok by lia. cbn [bind].
  eexists (_ :: _ :: _ :: _ :: _ :: _ :: _ :: _ :: _ :: _ :: _ :: _ :: _ :: [_]). reflexivity.
Qed.
Section Record.
Variables (row col ixfe flags chn cce : N) (value rest : bytes).
Hypothesis HV : lenN value = 8.
Let d := formula_data row col ixfe value flags chn cce rest.
Lemma formula_length : lenN d = 22 + lenN rest.
Proof. unfold d, formula_data. rewrite !lenN_app, !lenN_to_le, HV. lia. Qed.
Lemma formula_value_at : takeN 8 (dropN 6 d) = value.
Proof.
  unfold d, formula_data. rewrite !app_assoc. rewrite <- !app_assoc. rewrite (app_assoc (to_le 2 row)), (app_assoc (to_le 2 row ++ to_le 2 col)).
  change 6 with (lenN ((to_le 2 row ++ to_le 2 col) ++ to_le 2 ixfe)). rewrite dropN_app_exact, <- HV, takeN_app_exact. reflexivity.
Qed.
Lemma formula_rest : here d 22 rest.
Proof.
  exists (to_le 2 row ++ to_le 2 col ++ to_le 2 ixfe ++ value ++ to_le 2 flags ++ to_le 4 chn ++ to_le 2 cce), [].
  unfold d, formula_data. rewrite app_nil_r, <- !app_assoc. split; [reflexivity|]. rewrite !lenN_app, !lenN_to_le, HV. reflexivity.
Qed.
End Record.

(** ** A loop that does not end *)
Section Loop.
Variables (p : platform) (d : bytes) (max : N).
Inductive goes : nat -> N -> N -> Prop :=
| goes_none i : goes O i i
| goes_step k i t n j : i < max -> token p d max i = Ok (t, n) -> goes k (u32 (i + n)) j -> goes (S k) i j.
Lemma goes_fuel k i j : goes k i j -> rgce p d max k i = Fuel.
Proof.
  induction 1 as [i|k i t n j L E _ IH]; [reflexivity|]. cbn [rgce]. destruct (N.ltb_spec i max); [|lia]. rewrite E. cbn [bind snd]. rewrite IH. reflexivity.
Qed.
Lemma fuel_goes k : forall i, rgce p d max k i = Fuel -> (forall i, token p d max i <> Fuel) -> exists j, goes k i j.
Proof.
  induction k as [|k IH]; intros i H T; [exists i; constructor|]. cbn [rgce] in H. destruct (N.ltb_spec i max); [|discriminate].
  destruct (token p d max i) as [[t n]| | |] eqn:E; try discriminate H.
  - cbn [bind snd] in H. destruct (rgce p d max k (u32 (i + n))) as [r| | |] eqn:E2; try discriminate H.
    destruct (IH _ E2 T) as [j G]. exists j. econstructor; eassumption.
  - contradiction (T i).
Qed.
Lemma goes_fun k i j : goes k i j -> forall j', goes k i j' -> j = j'.
Proof.
  induction 1 as [i|k i t n j L E _ IH]; intros j' H'; inversion H' as [|? ? t' n' ? L' E' G']; subst; [reflexivity|].
  rewrite E in E'. injection E' as <- <-. apply IH, G'.
Qed.
Lemma goes_app k : forall m i j l, goes k i j -> goes m j l -> goes (k + m) i l.
Proof.
  intros m i j l H. induction H as [i|k i t n j L E _ IH]; intros G; [exact G|]. cbn [Nat.add]. econstructor; eauto.
Qed.
Lemma goes_split k : forall m i l, goes (k + m) i l -> exists j, goes k i j /\ goes m j l.
Proof.
  induction k as [|k IH]; intros m i l H; [exists i; split; [constructor|exact H]|].
  cbn [Nat.add] in H. inversion H as [|? ? t n ? L E G]; subst. destruct (IH _ _ _ G) as (j & G1 & G2). exists j. split; [econstructor; eassumption|exact G2].
Qed.
Lemma cycle k j : (0 < k)%nat -> goes k j j -> forall m, exists l, goes m j l.
Proof.
  intros K G m. induction m as [m IH] using lt_wf_ind. destruct (le_lt_dec m k) as [M|M].
  - replace k with (m + (k - m))%nat in G by lia. apply goes_split in G. destruct G as (l & G & _). exists l. exact G.
  - destruct (IH (m - k)%nat ltac:(lia)) as (l & G'). exists l. replace m with (k + (m - k))%nat by lia. eapply goes_app; eassumption.
Qed.
(** The indices on the way *)
Lemma goes_list k i j : goes k i j -> exists l, (List.length l = k)%nat /\ (forall a x, nth_error l a = Some x -> x < max /\ goes a i x).
Proof.
  induction 1 as [i|k i t n j L E G (l & LL & LN)].
  - exists []. split; [reflexivity|]. intros [|a] x H; discriminate H.
  - exists (i :: l). split; [cbn [List.length]; rewrite LL; reflexivity|]. intros [|a] x H.
    + injection H as <-. split; [exact L|constructor].
    + destruct (LN a x H) as [B G']. split; [exact B|]. econstructor; eassumption.
Qed.
Lemma repeats (l : list N) m : (forall x, In x l -> x < m) -> (N.to_nat m < List.length l)%nat ->
  exists a b x, (a < b)%nat /\ nth_error l a = Some x /\ nth_error l b = Some x.
Proof.
  intros H L. destruct (Coq.Lists.ListDec.NoDup_dec N.eq_dec l) as [D|D].
  - exfalso. assert (I : incl l (map N.of_nat (seq 0 (N.to_nat m)))).
    { intros x X. apply in_map_iff. exists (N.to_nat x). split; [lia|]. apply in_seq. specialize (H x X). lia. }
    pose proof (NoDup_incl_length D I) as Q. rewrite map_length, seq_length in Q. lia.
  - assert (R : forall l : list N, ~ NoDup l -> exists a b x, (a < b)%nat /\ nth_error l a = Some x /\ nth_error l b = Some x).
    { clear. induction l as [|y l IH]; intros D; [contradiction D; constructor|].
      destruct (in_dec N.eq_dec y l) as [I|I].
      - apply In_nth_error in I. destruct I as (b & Hb). exists O, (S b), y. split; [lia|]. split; [reflexivity|exact Hb].
      - destruct IH as (a & b & x & L & Ha & Hb); [intros D'; apply D; constructor; assumption|].
        exists (S a), (S b), x. split; [lia|]. split; assumption. }
    apply R, D.
Qed.
Lemma endless i : (forall i, token p d max i <> Fuel) -> rgce p d max (S (N.to_nat max)) i = Fuel -> forall k, rgce p d max k i = Fuel.
Proof.
  intros T H k. destruct (fuel_goes _ _ H T) as (j & G). destruct (goes_list _ _ _ G) as (l & LL & LN).
  destruct (repeats l max) as (a & b & x & AB & Ha & Hb).
  - intros x X. apply In_nth_error in X. destruct X as (a & X). apply (LN a x X).
  - rewrite LL. lia.
  - destruct (LN _ _ Ha) as [_ Ga]. destruct (LN _ _ Hb) as [_ Gb].
    replace b with (a + (b - a))%nat in Gb by lia. apply goes_split in Gb. destruct Gb as (y & Ga' & Gc).
    rewrite (goes_fun _ _ _ Ga' _ Ga) in Gc. destruct (le_lt_dec k a) as [M|M].
    + replace a with (k + (a - k))%nat in Ga by lia. apply goes_split in Ga. destruct Ga as (z & Gz & _). apply (goes_fuel _ _ _ Gz).
    + destruct (cycle (b - a) x ltac:(lia) Gc (k - a)) as (z & Gz). apply (goes_fuel k i z).
      replace k with (a + (k - a))%nat by lia. exact (goes_app _ _ _ _ _ Ga Gz).
Qed.
End Loop.
