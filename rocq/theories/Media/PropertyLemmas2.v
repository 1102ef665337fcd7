(** Lemmas about the descriptions of brands. *)
From Coq Require Import List NArith ZArith Bool Lia Strings.String Strings.Byte.
From Verif Require Import Lib.Res Lib.Bytes Lib.BytesFacts Lib.Text Common.Model Common.Spec Common.Fields Magic.Spec Media.Model Media.Spec Media.PropertyLemmas Media.BrandSpec.
Import ListNotations.
Local Open Scope N_scope.

Fixpoint starts (w t : bytes) : bool := match w, t with [], _ => true | a :: w', b :: t' => Byte.eqb a b && starts w' t' | _, _ => false end.
Fixpoint has (w t : bytes) : bool := starts w t || match t with [] => false | _ :: r => has w r end.
Lemma starts_app w : forall t, starts w t = true -> exists z, t = w ++ z.
Proof.
  induction w as [|a w IH]; intros t H; [exists t; reflexivity|]. destruct t as [|b t]; [discriminate H|]. cbn [starts] in H.
  apply andb_prop in H. destruct H as [E H]. apply Byte.byte_dec_bl in E. subst b. destruct (IH t H) as [z ->]. exists z. reflexivity.
Qed.
Lemma has_contains w t : has w t = true -> contains w t.
Proof.
  induction t as [|b t IH]; cbn [has]; intros H; apply orb_prop in H; destruct H as [H|H].
  - destruct (starts_app _ _ H) as [z ->]. exists [], z. reflexivity.
  - discriminate H.
  - destruct (starts_app _ _ H) as [z ->]. exists [], z. reflexivity.
  - destruct (IH H) as (a & z & ->). exists (b :: a), z. reflexivity.
Qed.
Lemma named_phrases : forallb (fun e => has (B (snd e)) (GetBrandName (B (fst e)))) brand_phrases = true.
Proof. vm_compute. reflexivity. Qed.
Lemma named_rows : forallb (fun e => existsb (fun f => bytes_eqb (B (fst f)) (fst e)) brand_phrases) brand_names = true.
Proof. vm_compute. reflexivity. Qed.
Lemma lookup_out rows code : (forall n, ~ In (code, n) rows) -> brand_lookup rows code = B "Unknonw FTYP".
Proof.
  induction rows as [|(c & n) t IH]; intros H; [reflexivity|]. cbn [brand_lookup]. destruct (bytes_eqb code c) eqn:E.
  - apply bytes_eqb_eq in E. subst c. exfalso. apply (H n). left. reflexivity.
  - apply IH. intros m I. apply (H m). right. exact I.
Qed.
Lemma brand_given buffer code v i : window buffer 8 4 code -> be_number_at buffer 12 4 v -> mp4_detail buffer = Ok i -> v_Brand i = GetBrandName code.
Proof.
  intros W V E. destruct (C35_lemma buffer code v W V) as (j & F & _ & _ & N). rewrite F in E. injection E as ->.
  apply (C35_unique code); [exact N|]. unfold GetBrandName.
  assert (D : forall rows, code_named rows (B "Unknonw FTYP") code (brand_lookup rows code)).
  { clear. induction rows as [|(c & n) t IH]; [right; split; [reflexivity|intros n []]|]. cbn [brand_lookup]. destruct (bytes_eqb code c) eqn:E.
    - apply bytes_eqb_eq in E. subst c. left. left. reflexivity.
    - destruct IH as [I|[U I]]; [left; right; exact I|right; split; [exact U|]]. intros m [K|K]; [|exact (I m K)].
      injection K as -> _. rewrite (proj2 (bytes_eqb_eq code code) eq_refl) in E. discriminate E. }
  apply D.
Qed.
Lemma C142_phrase : forall buffer code phrase v, window buffer 8 4 (B code) -> be_number_at buffer 12 4 v -> In (code, phrase) brand_phrases ->
  exists i, mp4_detail buffer = Ok i /\ contains (B phrase) (v_Brand i).
Proof.
  intros buffer code phrase v W V I. destruct (C35_lemma buffer _ v W V) as (i & E & _). exists i. split; [exact E|]. rewrite (brand_given _ _ _ _ W V E).
  apply has_contains. pose proof named_phrases as F. rewrite forallb_forall in F. exact (F _ I).
Qed.
Lemma C142_other : forall buffer code v, window buffer 8 4 code -> be_number_at buffer 12 4 v -> (forall c w, In (c, w) brand_phrases -> code <> B c) ->
  exists i, mp4_detail buffer = Ok i /\ v_Brand i = B "Unknonw FTYP".
Proof.
  intros buffer code v W V N. destruct (C35_lemma buffer _ v W V) as (i & E & _). exists i. split; [exact E|]. rewrite (brand_given _ _ _ _ W V E).
  apply lookup_out. intros n I. pose proof named_rows as F. rewrite forallb_forall in F. apply F in I. cbn [fst] in I. apply existsb_exists in I.
  destruct I as ((c & w) & J & K). cbn [fst] in K. apply bytes_eqb_eq in K. exact (N c w J (eq_sym K)).
Qed.
Lemma C142_missing : forall buffer code v, In code undescribed_brands -> window buffer 8 4 (B code) -> be_number_at buffer 12 4 v ->
  exists i, mp4_detail buffer = Ok i /\ v_Brand i = B "Unknonw FTYP".
Proof.
  intros buffer code v I W V. destruct (C35_lemma buffer _ v W V) as (i & E & _). exists i. split; [exact E|]. rewrite (brand_given _ _ _ _ W V E).
  assert (F : forallb (fun c => bytes_eqb (GetBrandName (B c)) (B "Unknonw FTYP")) undescribed_brands = true) by (vm_compute; reflexivity).
  rewrite forallb_forall in F. apply bytes_eqb_eq. exact (F _ I).
Qed.
Lemma C142_ex : window ftyp_file 8 4 (B "isom") /\ be_number_at ftyp_file 12 4 512 /\ In ("isom", "ISO Base Media File Format")%string brand_phrases /\
  contains (B "Base") (B "ISO Base Media") /\ ~ In "iso5"%string (map fst brand_phrases).
Proof.
  destruct C35_ex as (W & V & _). split; [exact W|]. split; [exact V|]. split; [do 42 right; left; reflexivity|]. split; [apply has_contains; vm_compute; reflexivity|].
  vm_compute. intros H. repeat (destruct H as [H|H]; [discriminate H|]). exact H.
Qed.
