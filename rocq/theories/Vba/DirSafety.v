(** Reading an arbitrary [dir] stream: defined behaviour and termination. *)
From Coq Require Import List NArith ZArith Bool Lia.
From Coq Require Import ZifyBool ZifyNat ZifyN.
From Verif Require Import Lib.Res Lib.Bytes Lib.BytesFacts Lib.NumFacts Common.Model Common.Spec Common.Fields Common.ReadProofs
     Vba.Model Vba.Analyze Vba.DirSpec Vba.Statements Vba.DirProofs.
Import ListNotations.
Local Open Scope N_scope.
Ltac Zify.zify_post_hook ::= Z.div_mod_to_equations.
Arguments N.pow : simpl never.

(** The outcome has defined behaviour, and its value has the property. *)
Definition yields {A} (P : A -> Prop) (r : res A) : Prop :=
  match r with Ok a => P a | Throw _ => True | UB | Fuel => False end.
Lemma yields_bind {A B} (P : A -> Prop) (Q : B -> Prop) m (f : A -> res B) :
  yields P m -> (forall a, P a -> yields Q (f a)) -> yields Q (bind m f).
Proof. destruct m; cbn; auto. Qed.
Lemma yields_safe {A} (P : A -> Prop) m : yields P m -> safe m.
Proof. destruct m; cbn; auto. Qed.
Lemma safe_yields {A} (m : res A) : safe m -> yields (fun _ => True) m.
Proof. destruct m; cbn; auto. Qed.

Lemma skip_small i n : i + n < 2 ^ 32 -> skip i n = i + n.
Proof. apply u32_small. Qed.

Lemma slice_some m i n : i + n <= lenN m -> exists w, slice m i n = Ok w.
Proof. intros A. exists (takeN n (dropN i m)). apply slice_ok. exact A. Qed.

Section safety.
  Variables (mem : bytes) (len : N).
  Hypothesis H : len + 40 <= lenN mem.
  Hypothesis H32 : len < 2 ^ 32 - 128.
  Hypothesis S : short_lengths mem.
  Let b : buffer := (len, mem).

  Lemma rd_in i : i < lenN mem -> exists v, rd mem i = Ok v.
  Proof. intros A. unfold rd, rdb. destruct (nthN_lt mem i A) as (x & ->). eauto. Qed.
  Lemma ushort_any i : i <= len + 64 -> yields (fun _ => i + 1 <= len) (ReadUShort mem len i false).
  Proof.
    intros A. pose proof P32 as E. unfold ReadUShort. rewrite u32_small by lia. destruct (len <? i + 1) eqn:C; [exact I|].
    destruct (rd_in i) as (x & ->); [lia|]. destruct (rd_in (i + 1)) as (y & ->); [lia|]. cbn. lia.
  Qed.
  Lemma uint_any i : i <= len + 64 -> yields (fun n => i + 3 <= len /\ i + n + 4 < 2 ^ 32) (ReadUInt mem len i true).
  Proof.
    intros A. pose proof P32 as E. destruct (len <? i + 3) eqn:C.
    - unfold ReadUInt. rewrite u32_small by lia. rewrite C. exact I.
    - assert (R : ReadUInt mem len i true = ReadUInt mem (lenN mem) i true).
      { unfold ReadUInt. rewrite u32_small by lia. rewrite C. replace (lenN mem <? i + 3) with false by lia. reflexivity. }
      rewrite R. destruct (slice_some mem i 4) as (w & W); [lia|]. apply slice_window in W.
      rewrite (ReadUInt_value mem i w true) by (try exact W; lia). cbn. split; [lia|]. apply S. exists w. split; [exact W|reflexivity].
  Qed.
  Lemma str_any i : i <= len + 64 -> yields (fun r => i + 4 <= fst r <= len) (ReadStr b i).
  Proof.
    intros A. pose proof P32 as E. unfold ReadStr, b. apply (yields_bind _ _ _ _ (uint_any i A)). intros n [B1 B2].
    unfold Common.Model.ReadString. rewrite (u32_small (i + 4)) by lia. rewrite !u32_small by lia.
    destruct (len <? i + 4 + n) eqn:C; [exact I|]. destruct (slice_some mem (i + 4) n) as (s & ->); [lia|]. cbn. lia.
  Qed.
  Lemma strw_any pl i : sizeof_wchar pl <> 0 -> i <= len + 64 -> yields (fun r => i + 4 <= fst (fst r) <= len) (ReadStrW pl b i).
  Proof.
    intros W A. pose proof P32 as E. unfold ReadStrW, b. apply (yields_bind _ _ _ _ (uint_any i A)). intros n [B1 B2].
    rewrite (u32_small (i + 4)) by lia. rewrite !u32_small by lia.
    destruct (len <? i + 4 + n) eqn:C; [exact I|]. destruct (slice_some mem (i + 4) (i + 4 + n - (i + 4))) as (s & ->); [lia|]. cbn [bind].
    pose proof (N.mul_div_le n (sizeof_wchar pl) W) as D. rewrite N.mul_comm in D.
    destruct (slice_some mem (i + 4) (n / sizeof_wchar pl * sizeof_wchar pl)) as (w & ->); [lia|]. cbn. lia.
  Qed.
  Ltac sk := repeat match goal with |- context [skip ?i ?n] => rewrite (skip_small i n) by (pose proof P32; lia) end.
  Ltac str := match goal with
    | |- yields _ (bind (ReadStr ?bb ?i) _) =>
        apply (yields_bind _ _ _ _ (str_any i ltac:(lia))); intros [? ?] ?; cbn [fst snd] in *; sk
    end.
  Ltac done := cbn [yields fst snd] in *; lia.

  Lemma tail_any i t : i <= len + 2 -> yields (fun j => i <= j <= len + 26) (reference_tail b i t).
  Proof.
    intros A. unfold reference_tail. sk.
    destruct (t =? 51); [str; done|]. destruct (t =? 47); [do 4 str; done|]. destruct (t =? 13); [str; done|].
    destruct (t =? 14); [do 2 str; done|]. done.
  Qed.
  Lemma references_any fuel i acc : i <= len + 32 -> (N.to_nat (len + 40 - i) < fuel)%nat ->
    yields (fun r => fst r <= len + 32) (references fuel b i acc).
  Proof.
    revert i acc. induction fuel as [|k IH]; intros i acc A B; [lia|]. cbn [references fst snd]. fold b.
    eapply yields_bind; [apply ushort_any; first [exact W|cbn [fst b]; lia]|cbn beta]. intros id C. destruct (id =? 22); [|done].
    sk. str. str. eapply yields_bind; [apply ushort_any; first [exact W|cbn [fst b]; lia]|cbn beta]. intros t C2. 
    eapply yields_bind; [apply tail_any; first [exact W|cbn [fst b]; lia]|cbn beta]. intros j C3. apply IH; lia.
  Qed.
  Lemma record_any pl id i m : sizeof_wchar pl <> 0 -> i <= len + 1 -> yields (fun r => i <= fst r <= len + 16) (module_record pl b id i m).
  Proof.
    intros W A. destruct m as [name sn snp snw off code priv ro]. unfold module_record. sk.
    destruct (id =? 25); [str; done|]. destruct (id =? 71); [str; done|].
    destruct (id =? 26); [str; eapply yields_bind; [apply strw_any; first [exact W|cbn [fst b]; lia]|cbn beta]; intros [[? ?] ?] ?; done|].
    destruct (id =? 28); [do 2 str; done|].
    destruct (id =? 49); [eapply yields_bind; [apply uint_any; first [exact W|cbn [fst b]; lia]|cbn beta]; intros ? ?; sk; done|].
    destruct (id =? 30); [done|]. destruct (id =? 44); [done|]. destruct ((id =? 33) || (id =? 34)); [done|].
    destruct (id =? 37); [done|]. destruct (id =? 40); [done|]. done.
  Qed.
  Lemma records_any pl fuel id i m : sizeof_wchar pl <> 0 -> i <= len + 32 -> (N.to_nat (len - i) < fuel)%nat ->
    yields (fun r => i <= fst r <= len + 32) (module_records fuel pl b id i m).
  Proof.
    intros W. revert id i m. induction fuel as [|k IH]; intros id i m A B; [lia|]. cbn [module_records fst snd b].
    destruct (negb (id =? 43) && (i <? len)) eqn:C; [|done].
    eapply yields_bind; [apply ushort_any; first [exact W|cbn [fst b]; lia]|cbn beta]. intros id' C1. sk.
    eapply yields_bind; [apply record_any; first [exact W|cbn [fst b]; lia]|cbn beta]. intros [j m'] C2. cbn [fst] in C2.
    pose proof (IH id' j m' ltac:(lia) ltac:(lia)) as Q. destruct (module_records k pl b id' j m') as [r|e| |]; cbn in Q |- *; try exact Q. lia.
  Qed.
  Lemma modules_any pl code fuel i acc : sizeof_wchar pl <> 0 -> (forall w o, safe (code w o)) -> i <= len + 64 -> (N.to_nat (len - i) < fuel)%nat ->
    safe (modules fuel pl code b i acc).
  Proof.
    intros W Cs. revert i acc. induction fuel as [|k IH]; intros i acc A B; [lia|]. cbn [modules fst snd b].
    destruct (i <? len) eqn:C; [|exact I]. apply (yields_safe (fun _ => True)).
    eapply yields_bind; [apply ushort_any; first [exact W|cbn [fst b]; lia]|cbn beta]. intros id C1.
    eapply yields_bind; [apply records_any; first [exact W|cbn [fst b]; lia]|cbn beta]. intros [j m] C2. cbn [fst] in C2. sk.
    destruct (md_StreamName m); [apply safe_yields; apply IH; lia|].
    apply (yields_bind _ _ _ _ (safe_yields _ (Cs _ _))). intros c _. apply safe_yields. apply IH; lia.
  Qed.
  Theorem project_info_safe pl code version : sizeof_wchar pl <> 0 -> (forall w o, safe (code w o)) -> safe (project_info pl code version b).
  Proof.
    intros W Cs. apply (yields_safe (fun _ => True)). unfold project_info.
    destruct (N.le_gt_cases 40 len) as [L|L].
    - do 5 str.
      match goal with |- context [slice _ (?i + 8) 4] => destruct (slice_some mem (i + 8) 4) as (a & Ea); [lia|]; destruct (slice_some mem (i + 12) 2) as (c & Ec); [lia|] end.
      cbn [snd b]. unfold b at 1 2. cbn [snd]. rewrite Ea, Ec. cbn [bind]. do 2 str.
      eapply yields_bind; [apply references_any; first [exact W|cbn [fst b]; lia]|cbn beta]. intros [j refs] C. cbn [fst] in C. sk.
      eapply yields_bind; [apply safe_yields; apply modules_any; [exact W|exact Cs|lia|cbn [fst b]; lia]|]. intros ms _. exact I.
    - unfold ReadStr, b. unfold ReadUInt. change (u32 (40 + 3)) with 43. replace (len <? 43) with true by lia. exact I.
  Qed.
End safety.
