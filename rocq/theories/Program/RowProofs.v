(** Proofs: files for which one parser is called. *)
From Coq Require Import List NArith ZArith Lia Bool Strings.String ZifyBool ZifyNat ZifyN.
From Verif Require Import Lib.Res Lib.Bytes Lib.BytesFacts Lib.Text Common.Model Common.Spec Magic.Table Magic.Model Magic.GuessProofs Zip.Model Asf.Model Asf.Statements Program.Model.
From Verif Require Asf.PropertyLemmas Magic.DocUnique Magic.PropertyLemmas.
From Verif Require Import Magic.Spec Magic.DocProofs Magic.DocBase.
From Verif Require Import Program.Statements Program.ScanProofs Program.SafetyProofs Program.DocProofs Program.PartStatements Program.PartDocs Program.PartProgram Program.LinuxProofs Program.RowStatements.
Import Magic.Table.
Import ListNotations.
Local Open Scope N_scope.

Section Split.
Variables (is : MagicInfo -> bool).
Lemma upto_split l : existsb is l = true -> exists mi, is mi = true /\ l = rows_upto is l ++ mi :: rows_from is l.
Proof.
  induction l as [|m l IH]; [discriminate|]. cbn [existsb rows_upto rows_from]. destruct (is m) eqn:E; [intros _; exists m; auto|].
  cbn [orb]. intros H. destruct (IH H) as (mi & Em & El). exists mi. split; [exact Em|]. cbn [app]. rewrite <- El. reflexivity.
Qed.
Lemma upto_not l mi : In mi (rows_upto is l) -> is mi = false.
Proof. induction l as [|m l IH]; [intros []|]. cbn [rows_upto]. destruct (is m) eqn:E; [intros []|]. intros [<-|I]; [exact E|exact (IH I)]. Qed.
End Split.

(** Rows of which one has a parser that is called. *)
Lemma split_decided f says u mi v q rs : (forall m p, In m u -> mi_func m = Some p -> carries f m -> False) -> (forall m p, In m v -> mi_func m = Some p -> carries f m -> False) ->
  mi_func mi = Some q -> carries f mi -> reports f row_says says (u ++ mi :: v) rs ->
  exists l before after, says q = Ok l /\ carried f u before /\ carried f v after /\ Forall (fun m => In m u /\ mi_func m = None) before /\ Forall (fun m => In m v /\ mi_func m = None) after /\
    rs = map row_says before ++ l ++ map row_says after.
Proof.
  intros Nu Nv F C R. apply reports_app in R. destruct R as (r1 & r2 & R1 & R2 & ->).
  destruct (plain_reports f says u r1 Nu R1) as (before & K1 & -> & A1).
  inversion R2 as [|m x y NC R'|m x y C' F' R'|m p x s y C' F' E R']; subst; [contradiction|congruence|]. rewrite F in F'. injection F' as <-.
  destruct (plain_reports f says v y Nv R') as (after & K2 & -> & A2). exists x, before, after. split; [exact E|]. split; [exact K1|]. split; [exact K2|].
  assert (G : forall w l, carried f w l -> Forall (fun m => mi_func m = None) l -> Forall (fun m => In m w /\ mi_func m = None) l).
  { intros w l K A. apply Forall_forall. intros m I. split; [exact (carried_in f _ _ K m I)|]. revert m I. apply Forall_forall. exact A. }
  split; [apply G; assumption|]. split; [apply G; assumption|]. reflexivity.
Qed.

Section Row.
Variables (pl : platform) (msg : exn -> bytes) (archive : option bytes -> res (list zentry)) (f : bytes) (q : parser) (is : MagicInfo -> bool).
Hypothesis small : lenN f < 2 ^ 32.
Hypothesis only : forall p, called f p -> p = q.
Hypothesis is_called : called f q.
Hypothesis is_row : forall mi, is mi = true -> mi_func mi = Some q.
Hypothesis row_is : forall mi, In mi table -> mi_func mi = Some q -> carries f mi -> is mi = true.
Hypothesis in_table : existsb is table = true.
Hypothesis not_behind : forallb (fun m => negb (is m)) (rows_from is table) = true.
Lemma only_row mi p : In mi table -> mi_func mi = Some p -> carries f mi -> is mi = true.
Proof. intros I F C. apply row_is; [exact I| |exact C]. rewrite F. f_equal. apply only. apply called_row. exists mi. auto. Qed.
Lemma row_decided rs : reports f row_says (parser_says pl msg archive f) table rs -> exists l before after, parser_says pl msg archive f q = Ok l /\
  carried f (rows_upto is table) before /\ carried f (rows_from is table) after /\ Forall (fun mi => In mi table /\ mi_func mi = None) (before ++ after) /\
  rs = map row_says before ++ l ++ map row_says after.
Proof.
  destruct (upto_split is table in_table) as (mi & Em & Et). assert (Tb : forall m, In m (rows_upto is table ++ mi :: rows_from is table) -> In m table) by (intros m I; rewrite Et; exact I).
  assert (Tm : forall m, In m table -> In m (rows_upto is table ++ mi :: rows_from is table)) by (intros m I; rewrite <- Et; exact I).
  assert (Nb : forall m, In m (rows_from is table) -> is m = false) by (intros m I; apply negb_true_iff; exact (proj1 (forallb_forall _ _) not_behind m I)).
  pose proof (upto_not is table) as Nu. pose proof only_row as O. clear not_behind in_table.
  assert (Cm : carries f mi).
  { pose proof is_called as C. apply called_row in C. destruct C as (m & I & F & C). pose proof (row_is m I F C) as Q. apply Tm, in_app_or in I. destruct I as [I|[<-|I]].
    - rewrite (Nu m I) in Q. discriminate Q.
    - exact C.
    - rewrite (Nb m I) in Q. discriminate Q. }
  intros R. assert (R' : reports f row_says (parser_says pl msg archive f) (rows_upto is table ++ mi :: rows_from is table) rs) by (rewrite <- Et; exact R). clear R Et Tm.
  revert Tb Nb Nu Cm R'. generalize (rows_upto is table) (rows_from is table). intros u v Tb Nb Nu Cm R.
  destruct (split_decided f (parser_says pl msg archive f) u mi v q rs) with (5 := R) as (l & before & after & E & K1 & K2 & A1 & A2 & Er).
  - intros m p I F C. pose proof (O m p (Tb m (in_or_app _ _ _ (or_introl I))) F C) as Y. rewrite (Nu m I) in Y. discriminate Y.
  - intros m p I F C. pose proof (O m p (Tb m (in_or_app _ _ _ (or_intror (in_cons _ _ _ I)))) F C) as Y. rewrite (Nb m I) in Y. discriminate Y.
  - apply is_row. exact Em.
  - exact Cm.
  - exists l, before, after. split; [exact E|]. split; [exact K1|]. split; [exact K2|]. split; [|exact Er]. apply Forall_app. split.
    + apply (Forall_impl _ (fun m (H : In m u /\ mi_func m = None) => conj (Tb m (in_or_app _ _ _ (or_introl (proj1 H)))) (proj2 H)) A1).
    + apply (Forall_impl _ (fun m (H : In m v /\ mi_func m = None) => conj (Tb m (in_or_app _ _ _ (or_intror (in_cons _ _ _ (proj1 H))))) (proj2 H)) A2).
Qed.
Lemma row_stopped r : stopped pl msg archive f table r -> parser_says pl msg archive f q = r /\ fails r.
Proof.
  intros (before & mi & after & p & found & Et & R & C & F & S & Nr). assert (K : called f p).
  { apply called_row. exists mi. split; [rewrite Et; apply in_or_app; right; left; reflexivity|]. split; assumption. }
  apply only in K. subst p. split; assumption.
Qed.
Lemma row_results l : parser_says pl msg archive f q = Ok l -> l <> [] -> exists before after, carried f (rows_upto is table) before /\ carried f (rows_from is table) after /\
  Forall (fun mi => In mi table /\ mi_func mi = None) (before ++ after) /\ results pl msg archive (Some f) = Ok (map row_says before ++ l ++ map row_says after).
Proof.
  intros S N. destruct (rows_decided pl msg archive f table) as [(rs & R)|(r & T)].
  - destruct (row_decided rs R) as (l' & before & after & E & K1 & K2 & A & ->). rewrite S in E. injection E as <-. exists before, after. split; [exact K1|]. split; [exact K2|]. split; [exact A|].
    apply results_ok; [exact small|]. eexists. split; [exact R|]. unfold or_unknown. destruct l as [|x l]; [contradiction|].
    destruct (map row_says before ++ (x :: l) ++ map row_says after) as [|o os] eqn:Eo; [|reflexivity]. apply app_eq_nil in Eo. destruct Eo as (_ & Eo). discriminate Eo.
  - apply row_stopped in T. destruct T as (T & Nr). elim (Nr l). rewrite <- T. exact S.
Qed.
Lemma row_fails r : parser_says pl msg archive f q = r -> fails r -> results pl msg archive (Some f) = r.
Proof.
  intros S N. apply results_fail; [exact small|exact N|]. destruct (rows_decided pl msg archive f table) as [(rs & R)|(r' & T)].
  - destruct (row_decided rs R) as (l' & before & after & E & _). elim (N l'). rewrite <- S. exact E.
  - pose proof (row_stopped r' T) as (E & _). rewrite S in E. subst r'. exact T.
Qed.
End Row.

(** The row with the parser is the only one with it. *)
Section One.
Variables (pl : platform) (msg : exn -> bytes) (archive : option bytes -> res (list zentry)) (f : bytes) (q : parser) (is : MagicInfo -> bool).
Hypothesis small : lenN f < 2 ^ 32.
Hypothesis only : forall p, called f p -> p = q.
Hypothesis is_called : called f q.
Hypothesis is_row : forall mi, is mi = true <-> mi_func mi = Some q.
Hypothesis in_table : existsb is table = true.
Hypothesis not_behind : forallb (fun m => negb (is m)) (rows_from is table) = true.
Lemma one_results l : parser_says pl msg archive f q = Ok l -> l <> [] -> exists before after, carried f (rows_upto is table) before /\ carried f (rows_from is table) after /\
  Forall (fun mi => In mi table /\ mi_func mi = None) (before ++ after) /\ results pl msg archive (Some f) = Ok (map row_says before ++ l ++ map row_says after).
Proof. apply row_results; try assumption; intros mi; [apply is_row|intros _ F _; apply is_row; exact F]. Qed.
Lemma one_fails r : parser_says pl msg archive f q = r -> fails r -> results pl msg archive (Some f) = r.
Proof. apply row_fails with is; try assumption; intros mi; [apply is_row|intros _ F _; apply is_row; exact F]. Qed.
End One.
