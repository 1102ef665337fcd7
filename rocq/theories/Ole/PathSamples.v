(** Checkers for paths and streams of the sample files. *)
From Coq Require Import List NArith ZArith Bool Lia Sorted.
From Coq Require Import ZifyBool ZifyNat ZifyN.
From Verif Require Import Lib.Res Lib.Bytes Lib.BytesFacts Common.Model Common.Spec Ole.Model Ole.Spec Ole.Samples.
Import ListNotations.
Local Open Scope N_scope.

Fixpoint units_eqb (a b : list N) : bool :=
  match a, b with
  | [], [] => true
  | x :: a, y :: b => (x =? y) && units_eqb a b
  | _, _ => false
  end.
Lemma units_eqb_eq a : forall b, units_eqb a b = true -> a = b.
Proof.
  induction a as [|x a IH]; intros [|y b] H; try discriminate; [reflexivity|]. cbn [units_eqb] in H.
  apply andb_true_iff in H. destruct H as [H1 H2]. f_equal; [lia|apply IH; exact H2].
Qed.
Fixpoint lex_ltb (a b : list N) : bool :=
  match a, b with
  | x :: a, y :: b => (x <? y) || ((x =? y) && lex_ltb a b)
  | _, _ => false
  end.
Lemma lex_ltb_sound a : forall b, lex_ltb a b = true -> lex_lt a b.
Proof.
  induction a as [|x a IH]; intros [|y b] H; try discriminate. cbn [lex_ltb] in H. cbn [lex_lt].
  apply orb_true_iff in H. destruct H as [H|H]; [left; lia|]. apply andb_true_iff in H. destruct H as [H1 H2].
  right. split; [lia|apply IH; exact H2].
Qed.
Definition name_ltb (a b : list N) : bool := (lenN a <? lenN b) || ((lenN a =? lenN b) && lex_ltb a b).
Definition node_ltb (d : list node) (i j : N) : bool :=
  match nthN d i, nthN d j with Some m, Some n => name_ltb (n_name m) (n_name n) | _, _ => false end.
Lemma node_ltb_sound d i j : node_ltb d i j = true -> node_lt d i j.
Proof.
  unfold node_ltb. destruct (nthN d i) as [m|] eqn:Em; [|discriminate]. destruct (nthN d j) as [n|] eqn:En; [|discriminate].
  intros H. exists m, n. split; [exact Em|]. split; [exact En|]. unfold name_ltb in H. apply orb_true_iff in H.
  destruct H as [H|H]; [left; lia|]. apply andb_true_iff in H. destruct H as [H1 H2]. right. split; [lia|apply lex_ltb_sound; exact H2].
Qed.
Fixpoint inorder (fuel : nat) (d : list node) (i : N) : option (list N) :=
  match fuel with
  | O => None
  | S k =>
      match nthN d i with
      | None => if lenN d <=? i then Some [] else None
      | Some n => match inorder k d (n_prev n), inorder k d (n_next n) with
                  | Some l, Some r => Some (l ++ i :: r)
                  | _, _ => None
                  end
      end
  end.
Lemma inorder_sound d fuel : forall i l, inorder fuel d i = Some l -> siblings d i l.
Proof.
  induction fuel as [|k IH]; intros i l H; [discriminate|]. cbn [inorder] in H. destruct (nthN d i) as [n|] eqn:En.
  - destruct (inorder k d (n_prev n)) as [a|] eqn:Ea; [|discriminate]. destruct (inorder k d (n_next n)) as [b|] eqn:Eb; [|discriminate].
    injection H as <-. apply sib_node with (n := n); [exact En|apply IH; exact Ea|apply IH; exact Eb].
  - destruct (N.leb_spec (lenN d) i) as [L|L]; [|discriminate]. injection H as <-. constructor. exact L.
Qed.
Fixpoint ascending (d : list node) (l : list N) : bool :=
  match l with
  | [] => true
  | i :: r => forallb (node_ltb d i) r && ascending d r
  end.
Lemma ascending_sound d l : ascending d l = true -> StronglySorted (node_lt d) l.
Proof.
  induction l as [|i r IH]; intros H; [constructor|]. cbn [ascending] in H. apply andb_true_iff in H. destruct H as [H1 H2].
  constructor; [apply IH; exact H2|]. apply Forall_forall. intros j Hj. rewrite forallb_forall in H1. apply node_ltb_sound. apply H1. exact Hj.
Qed.
Definition used (d : list node) (k : N) : bool :=
  match nthN d k with Some n => (n_type n =? 1) || (n_type n =? 2) || (n_type n =? 5) | None => false end.
Lemma used_sound d k : used d k = true -> exists n, nthN d k = Some n /\ in_use n.
Proof.
  unfold used. destruct (nthN d k) as [n|]; [|discriminate]. intros H. exists n. split; [reflexivity|].
  unfold in_use. rewrite !orb_true_iff in H. lia.
Qed.
Definition members_of (d : list node) (i : N) : option (list N) :=
  match nthN d i with
  | None => None
  | Some n =>
      match inorder (S (List.length d)) d (n_child n) with
      | Some l => if ascending d l && forallb (fun k => 0 <? k) l && forallb (used d) l then Some l else None
      | None => None
      end
  end.
Lemma members_of_sound d i l : members_of d i = Some l -> sorted_members node_lt d i l.
Proof.
  unfold members_of. destruct (nthN d i) as [n|] eqn:En; [|discriminate].
  destruct (inorder _ d (n_child n)) as [l'|] eqn:El; [|discriminate].
  destruct (ascending d l' && forallb (fun k => 0 <? k) l' && forallb (used d) l') eqn:Ec; [|discriminate].
  intros H. injection H as ->. rewrite !andb_true_iff in Ec. destruct Ec as [[C1 C2] C3].
  split; [exists n; split; [exact En|apply inorder_sound in El; exact El]|]. split; [apply ascending_sound; exact C1|].
  split; apply Forall_forall; intros k Hk.
  - rewrite forallb_forall in C2. apply C2 in Hk. lia.
  - rewrite forallb_forall in C3. apply used_sound. apply C3. exact Hk.
Qed.
Definition named (d : list node) (name : list N) (k : N) : bool :=
  match nthN d k with Some m => units_eqb (n_name m) name | None => false end.
Fixpoint walk (d : list node) (i : N) (names : list (list N)) : option N :=
  match names with
  | [] => Some i
  | name :: r =>
      if used d i then
        match members_of d i with
        | Some l => match find (named d name) l with Some k => walk d k r | None => None end
        | None => None
        end
      else None
  end.
Lemma walk_sound d names : forall i k, walk d i names = Some k -> at_path node_lt d i names k.
Proof.
  induction names as [|name r IH]; intros i k H; cbn [walk] in H; [injection H as <-; constructor|].
  destruct (used d i) eqn:Eu; [|discriminate]. destruct (members_of d i) as [l|] eqn:El; [|discriminate].
  destruct (find (named d name) l) as [j|] eqn:Ef; [|discriminate]. apply used_sound in Eu. destruct Eu as (n & Hn & U).
  apply find_some in Ef. destruct Ef as [Hj Nj]. apply at_member with (n := n) (l := l) (k := j); [exact Hn|exact U|apply members_of_sound; exact El|exact Hj| |apply IH; exact H].
  unfold named in Nj. destruct (nthN d j) as [m|]; [|discriminate]. exists m. split; [reflexivity|apply units_eqb_eq; exact Nj].
Qed.
(** The content of a stream that the chain [l] gives. *)
Definition content_ok (f : bytes) (c : compound) (n : node) (l : list N) (data content : bytes) : bool :=
  bytes_eqb content (takeN (n_size n) data) && (n_size n <=? lenN data) &&
  (if 4096 <=? n_size n then chain_ok (c_fat c) (n_start n) l && secs f (2 ^ c_shift c) l data
   else chain_ok (c_minifat c) (n_start n) l && small_secs c l data).
Lemma content_ok_sound f c n l data content : content_ok f c n l data content = true -> stream_content f c n content.
Proof.
  unfold content_ok. intros H. rewrite !andb_true_iff in H. destruct H as [[H1 H2] H3]. exists l, data.
  split; [apply bytes_eqb_eq; exact H1|]. split; [lia|]. destruct (4096 <=? n_size n); apply andb_true_iff in H3; destruct H3 as [A B].
  - split; [apply chain_ok_sound; exact A|apply secs_ok; exact B].
  - split; [apply chain_ok_sound; exact A|apply small_secs_ok; exact B].
Qed.
