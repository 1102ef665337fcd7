(** What the streams of documents say about the program that wrote them.  Independent of
    [Docs/Model.v]. *)
From Coq Require Import List NArith Bool Strings.String.
From Verif Require Import Lib.Bytes Lib.Text Common.Spec Common.Fields.
Import ListNotations.
Local Open Scope N_scope.

(** The name a table gives to a number; a number that it lacks is unknown. *)
Definition name_in (t : list (N * bytes)) (v : N) (n : bytes) : Prop :=
  In (v, n) t \/ (n = B "Unknown" /\ forall m, ~ In (v, m) t).

(** ** Word.  [MS-DOC] 2.5.1: the FIB has [nFib] at 2, the number [cbRgFcLcb] of 8-byte pairs at
    152, the pairs behind it, and then [cswNew] with, if it is not zero, [nFibNew]. *)
Inductive word_stream (s : bytes) (nFib : N) : option N -> Prop :=
| word_with_new cb csw v : number_at s 2 2 nFib -> number_at s 152 2 cb -> cb <= 255 ->
    number_at s (154 + 8 * cb) 2 csw -> csw <> 0 -> number_at s (156 + 8 * cb) 2 v -> word_stream s nFib (Some v)
| word_without_new cb : number_at s 2 2 nFib -> number_at s 152 2 cb -> cb <= 255 ->
    number_at s (154 + 8 * cb) 2 0 -> word_stream s nFib None.
Definition word_products : list (N * bytes) :=
  [(33, B "WinWord1.0"); (45, B "WinWord2.0"); (101, B "WinWord6.0"); (104, B "Word95_Or_Word6");
   (105, B "Word95Beta"); (193, B "Word97"); (217, B "Word2000"); (257, B "Word2002");
   (268, B "Word2003"); (274, B "Word2005_Compat2003"); (314, B "Word2005")].
(** The versions before Word 97, whose FIB has none of the members from [csw] on. *)
Definition before_word97 (n : N) : Prop := In n [33; 45; 101; 104; 105].

(** ** Visio and Publisher *)
Definition visio_products : list (N * bytes) :=
  [(1, B "Visio 1"); (2, B "Visio 2"); (3, B "Visio 3"); (4, B "Visio 4"); (5, B "Visio 5");
   (6, B "Visio 2000"); (10, B "Visio 2002"); (11, B "Visio 2003 or greater")].
Definition publisher_products : list (N * bytes) :=
  [(125, B "Publisher 3"); (136, B "Publisher 4"); (616, B "Publisher 5"); (717, B "Publisher 6");
   (1000, B "Publisher 10")].

(** ** PowerPoint.  [MS-PPT] 2.3.2 and 2.3.3: the stream [Current User] has 28 bytes at least and
    at 16 the position of the last UserEditAtom, which has 36 bytes and the version at 12. *)
Definition presentation (current s : bytes) (v : N) : Prop :=
  exists o, 28 <= lenN current /\ number_at current 16 4 o /\ o + 36 <= lenN s /\ number_at s (o + 12) 2 v.
(** The builds of PowerPoint *)
Definition builds : list (N * bytes) :=
  [(2623, B "Office XP RTM"); (2716, B "Office 2000 RTM"); (3506, B "Office XP SP1"); (3516, B "Office 97 RTM");
   (3821, B "Office 2000 SP1"); (4128, B "Office 2013 Preview"); (4205, B "Office XP SP2"); (4208, B "Office 97 SR1");
   (4420, B "Office 2013 RTM"); (4518, B "Office 2007 RTM"); (4527, B "Office 2000 SP2"); (4569, B "Office 2013 SP1");
   (4763, B "Office 2010 RTM"); (5507, B "Office 97 SR2"); (5529, B "Office 2003 RTM"); (6029, B "Office 2010 SP1");
   (6211, B "Office 2007 SP1"); (6361, B "Office 2003 SP1"); (6425, B "Office 2007 SP2"); (6501, B "Office XP SP3");
   (6620, B "Office 2000 SP3"); (7015, B "Office 2010 SP2"); (7969, B "Office 2003 SP2"); (8173, B "Office 2003 SP3")].
(** Some build is at most ten away. *)
Definition near (v : N) (b : N * bytes) : Prop := fst b <= v + 10 /\ v <= fst b + 10.

(** ** Windows Installer *)
Definition contains (p s : bytes) : Prop := exists before after, s = before ++ p ++ after.
