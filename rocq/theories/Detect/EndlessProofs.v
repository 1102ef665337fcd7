(** Storages inside themselves. *)
From Coq Require Import List NArith ZArith Lia Bool Sorted Strings.String.
From Verif Require Import Lib.Res Lib.Bytes Lib.BytesFacts Lib.Text Common.Model Common.Spec Ole.Model Ole.Spec Ole.Statements
     Vba.FileSpec Detect.Model Detect.Spec Detect.Statements Detect.TreeProofs.
Import ListNotations.
Local Open Scope N_scope.

Section Endless.
Variables (f : bytes) (c : compound) (s : storage) (excel : bytes -> res workbook) (rows : list OlessInfo) (top : N) (loop : list (list N)).
Hypotheses (St : stored_as f c) (Cl : clean c) (Eo : storage_load windows (Some f) = Ok (Opened s)) (Hl : below (c_dir c) top loop top) (Nl : loop <> []).

(** From a storage above one that is inside itself, there is always a next one. *)
Lemma next_below k rest : below (c_dir c) k rest top -> exists n l j m rest', nthN (c_dir c) k = Some n /\ (n_type n = 1 \/ n_type n = 5) /\
  sorted_members node_lt (c_dir c) k l /\ In j l /\ nthN (c_dir c) j = Some m /\ n_type m = 1 /\ plain_name (n_name m) /\ below (c_dir c) j rest' top.
Proof.
  intros B. inversion B as [|? n l j m names ? Hn Ht Hm Ij Hj Tj Pj Bj]; subst.
  - inversion Hl as [|? n l j m names ? Hn Ht Hm Ij Hj Tj Pj Bj]; subst; [contradiction|]. exists n, l, j, m, names. repeat (split; [assumption|]). exact Bj.
  - exists n, l, j, m, names. repeat (split; [assumption|]). exact Bj.
Qed.
Lemma visit_all_in next path name : forall ns t t', In name ns -> visit_all windows excel rows s next path ns t = Ok t' ->
  isDirectory windows s (path ++ name) = Ok true -> exists u u', next ((path ++ name) ++ [slash]) u = Ok u'.
Proof.
  induction ns as [|x ns IH]; intros t t' I E D; [destruct I|]. cbn [visit_all] in E.
  destruct (guessStreamInfo windows excel rows s x (path ++ x) t) as [t1| | |]; cbn [bind] in E; try discriminate E. destruct I as [->|I].
  - rewrite D in E. cbn [bind] in E. destruct (next _ t1) as [u'| | |] eqn:En; cbn [bind] in E; try discriminate E. exists t1, u'. exact En.
  - destruct (isDirectory windows s (path ++ x)) as [b| | |]; cbn [bind] in E; try discriminate E.
    destruct (if b then _ else _) as [t2| | |]; cbn [bind] in E; try discriminate E. eapply IH; eassumption.
Qed.
Lemma no_end fuel : forall names k rest t t', at_path node_lt (c_dir c) 0 names k -> Forall plain_name names -> below (c_dir c) k rest top ->
  recurse windows excel rows s fuel (path_text names ++ [47]) t = Ok t' -> False.
Proof.
  induction fuel as [|fuel IH]; intros names k rest t t' P F B E; [discriminate E|].
  destruct (next_below k rest B) as (n & l & j & m & rest' & Hn & Ht & Hm & Ij & Hj & Tj & Pj & Bj).
  destruct (entries_of f c s St Cl Eo names k n l F P Hn Ht (proj1 Hm)) as (ns & En & F2). rewrite recurse_step, En in E. cbn [bind] in E.
  assert (U : in_use n) by (destruct Ht as [K|K]; [left|right; right]; exact K).
  assert (P' : at_path node_lt (c_dir c) 0 (names ++ [n_name m]) j) by (eapply at_path_snoc; [exact P|exact Hn|exact U|exact Hm|exact Ij|exact Hj]).
  assert (F' : Forall plain_name (names ++ [n_name m])) by (apply Forall_app; split; [exact F|constructor; [exact Pj|constructor]]).
  assert (N' : names ++ [n_name m] <> []) by (destruct names; discriminate).
  assert (Et : (path_text names ++ [47]) ++ n_name m = path_text (names ++ [n_name m])) by (rewrite path_text_snoc, <- app_assoc; reflexivity).
  assert (In' : In (n_name m) ns).
  { clear - F2 Ij Hj. induction F2 as [|i x l ns (m' & Hm' & <-) F2 IH]; [destruct Ij|]. destruct Ij as [->|Ij]; [left; congruence|right; auto]. }
  destruct (visit_all_in _ _ _ _ _ _ In' E) as (u & u' & Eu).
  { rewrite Et, (is_directory f c s St Cl Eo _ j m N' F' P' Hj), Tj. reflexivity. }
  rewrite Et in Eu. apply (IH _ _ _ _ _ P' F' Bj Eu).
Qed.
Lemma guess_never above l : below (c_dir c) 0 above top -> Guess windows excel rows (Some f) <> Ok l.
Proof.
  intros B E. unfold Guess in E. rewrite Eo in E. cbn [bind] in E. destruct (recurse _ _ _ _ _ _ _) as [t| | |] eqn:Er; cbn [bind] in E; try discriminate E.
  apply (no_end _ [] 0 above _ _ (at_here _ _ 0) (Forall_nil _) B Er).
Qed.
(** However long it runs. *)
Lemma recurse_never above fuel t t' : below (c_dir c) 0 above top -> recurse windows excel rows s fuel [47] t <> Ok t'.
Proof. intros B E. apply (no_end fuel [] 0 above t t' (at_here _ _ 0) (Forall_nil _) B E). Qed.
End Endless.
