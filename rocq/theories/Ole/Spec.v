(** Vocabulary for the properties of compound files, after [MS-CFB].  Independent of
    [Ole/Model.v]. *)
From Coq Require Import List NArith Bool Sorted.
From Verif Require Import Lib.Bytes Common.Spec Common.Fields Common.Utf8.
Import ListNotations.
Local Open Scope N_scope.

(** ** Sectors *)

(** Sector [b] of a file with sectors of [bs] bytes; the header takes the place of one. *)
Definition sector (f : bytes) (bs b : N) (w : bytes) : Prop := window f (bs * (b + 1)) bs w.
(** The bytes of a list of sectors, in order. *)
Definition sectors (f : bytes) (bs : N) (blocks : list N) (data : bytes) : Prop :=
  exists ws, Forall2 (sector f bs) blocks ws /\ data = List.concat ws.
(** Numbers of 32 bits, little endian. *)
Definition words (l : list N) : bytes := List.concat (map (to_le 4) l).

(** ** Sector chains *)
(** [chain t b l]: starting at [b], the table [t] links the sectors [l], and the last of them to
    a number that is no sector of the table, as 0xFFFFFFFE, the end of a chain. *)
Inductive chain (t : list N) : N -> list N -> Prop :=
| chain_end b : lenN t <= b -> chain t b []
| chain_next b c l : nthN t b = Some c -> chain t c l -> chain t b (b :: l).
(** One or more links lead from [b] to [c]. *)
Inductive links (t : list N) : N -> N -> Prop :=
| links_one b c : nthN t b = Some c -> links t b c
| links_more b c d : nthN t b = Some c -> links t c d -> links t b d.
(** The chain from [b] runs into a cycle. *)
Definition endless (t : list N) (b : N) : Prop := exists x, (x = b \/ links t b x) /\ links t x x.
(** A table whose numbers of sectors are below the reserved numbers. *)
Definition table_size (t : list N) : Prop := lenN t <= 4294967292.

(** ** The sectors of the allocation table (FAT) *)

(** The part of the list that is stored in sectors of its own: every one has [bs / 4 - 1]
    numbers and the position of the next; the last one may have fewer. *)
Inductive difat (f : bytes) (bs : N) : N -> list N -> N -> Prop :=
| difat_last s l more :
    sector f bs s (words (l ++ more)) -> l <> [] -> more <> [] -> Forall (fun v => v < 2 ^ 32) (l ++ more) ->
    difat f bs s l 1
| difat_next s l s' l' n :
    sector f bs s (words (l ++ [s'])) -> Forall (fun v => v < 2 ^ 32) (l ++ [s']) ->
    difat f bs s' l' n -> difat f bs s (l ++ l') (n + 1).
(** The whole list: up to 109 numbers in the header, then the sectors above. *)
Definition fat_sectors (f : bytes) (bs : N) (l : list N) : Prop :=
  number_at f 44 4 (lenN l) /\ l <> [] /\
  exists first rest, l = first ++ rest /\
    (forall i v, nthN first i = Some v -> number_at f (76 + 4 * i) 4 v) /\
    ((rest = [] /\ lenN first < 109 /\ number_at f 72 4 0) \/
     (rest = [] /\ lenN first = 109) \/
     (lenN first = 109 /\ exists s n, difat f bs s rest n /\ number_at f 68 4 s /\ number_at f 72 4 n)).

(** ** Directory *)
Record node := mkNode {
  n_name : list N; n_type : N; n_prev : N; n_next : N; n_child : N; n_start : N; n_size : N }.
(** One entry of 128 bytes: the name in UTF-16 with a final zero, its length in bytes, the
    kind (0 unused, 1 storage, 2 stream, 5 root), the links, the first sector, the size.  An
    unused entry has no name. *)
Definition node_bytes (n : node) (w : bytes) : Prop :=
  lenN w = 128 /\
  ((n_type n = 0 /\ n_name n = [] /\ number_at w 64 2 0) \/
   (lenN (n_name n) < 32 /\ Forall (fun c => 0 < c < 65536) (n_name n) /\
    window w 0 (2 * lenN (n_name n)) (units 2 (n_name n)) /\ number_at w (2 * lenN (n_name n)) 2 0 /\
    number_at w 64 2 (2 * lenN (n_name n) + 2))) /\
  number_at w 66 1 (n_type n) /\ number_at w 68 4 (n_prev n) /\ number_at w 72 4 (n_next n) /\
  number_at w 76 4 (n_child n) /\ number_at w 116 4 (n_start n) /\ number_at w 120 4 (n_size n).
(** A name up to the first character whose low byte is zero. *)
Fixpoint visible (l : list N) : list N :=
  match l with
  | [] => []
  | c :: r => if c mod 256 =? 0 then [] else c :: visible r
  end.
Definition in_use (n : node) : Prop := n_type n = 1 \/ n_type n = 2 \/ n_type n = 5.
Definition is_stream (n : node) : Prop := n_type n = 2.

(** ** Compound files *)
Record compound := mkCompound {
  c_shift : N; c_small_shift : N;         (* sizes of sectors and of small sectors, powers of two *)
  c_fat_at : list N; c_fat : list N;      (* sectors of the FAT, the FAT *)
  c_minifat_at : list N; c_minifat : list N;
  c_dir_at : list N; c_dir : list node;
  c_mini_at : list N; c_mini : bytes }.   (* sectors and bytes that hold the small sectors *)
Definition cfb_magic : bytes := [xd0; xcf; x11; xe0; xa1; xb1; x1a; xe1].

(** The numbers of the header that decide whether a file is accepted, and those accepted. *)
Definition header_numbers (f : bytes) (shift small_shift fats difats limit : N) : Prop :=
  number_at f 30 2 shift /\ number_at f 32 2 small_shift /\ number_at f 44 4 fats /\ number_at f 72 4 difats /\
  number_at f 56 4 limit.
Definition good_numbers (shift small_shift fats difats limit : N) : Prop :=
  limit = 4096 /\ 0 < fats /\ (109 <= fats \/ difats = 0) /\ small_shift <= shift /\ 7 <= shift /\ shift <= 30.
(** A header that is accepted and lists all sectors [l] of the FAT itself. *)
Definition header_lists (f : bytes) (shift : N) (l : list N) : Prop :=
  512 <= lenN f /\ lenN f < 2 ^ 63 /\ window f 0 8 cfb_magic /\
  (exists small_shift difats, header_numbers f shift small_shift (lenN l) difats 4096 /\
                              good_numbers shift small_shift (lenN l) difats 4096) /\
  lenN l <= 109 /\ lenN l * 2 ^ shift < 2 ^ 34 /\
  (forall i v, nthN l i = Some v -> number_at f (76 + 4 * i) 4 v).
(** A sector that is not in the file, or not whole. *)
Definition missing (f : bytes) (bs b : N) : Prop := lenN f < bs * (b + 2).

Definition stored_as (f : bytes) (c : compound) : Prop :=
  let bs := 2 ^ c_shift c in
  512 <= lenN f /\ lenN f < 2 ^ 63 /\ window f 0 8 cfb_magic /\
  number_at f 30 2 (c_shift c) /\ number_at f 32 2 (c_small_shift c) /\
  7 <= c_shift c /\ c_shift c <= 30 /\ c_small_shift c <= c_shift c /\
  number_at f 56 4 4096 /\
  fat_sectors f bs (c_fat_at c) /\
  sectors f bs (c_fat_at c) (words (c_fat c)) /\
  Forall (fun v => v < 2 ^ 32) (c_fat c) /\ table_size (c_fat c) /\
  (exists s, number_at f 60 4 s /\ chain (c_fat c) s (c_minifat_at c)) /\
  sectors f bs (c_minifat_at c) (words (c_minifat c)) /\
  Forall (fun v => v < 2 ^ 32) (c_minifat c) /\ table_size (c_minifat c) /\
  (exists s, number_at f 48 4 s /\ chain (c_fat c) s (c_dir_at c)) /\
  (exists ws, Forall2 node_bytes (c_dir c) ws /\ sectors f bs (c_dir_at c) (List.concat ws)) /\
  lenN (c_dir c) <= 4294967295 /\
  (exists root, nthN (c_dir c) 0 = Some root /\ chain (c_fat c) (n_start root) (c_mini_at c)) /\
  sectors f bs (c_mini_at c) (c_mini c).

(** A file whose header is accepted and whose FAT [t] is present. *)
Definition fat_present (f : bytes) (shift : N) (l t : list N) : Prop :=
  header_lists f shift l /\ sectors f (2 ^ shift) l (words t) /\ Forall (fun v => v < 2 ^ 32) t /\ table_size t.

(** ** Streams *)

(** The bytes of small sector [b]. *)
Definition small_sector (c : compound) (b : N) (w : bytes) : Prop :=
  window (c_mini c) (2 ^ c_small_shift c * b) (2 ^ c_small_shift c) w.
(** The content of a stream: its size selects the table; the sectors of its chain, cut to the
    size. *)
Definition stream_content (f : bytes) (c : compound) (n : node) (content : bytes) : Prop :=
  exists l data, content = takeN (n_size n) data /\ n_size n <= lenN data /\
    (if 4096 <=? n_size n
     then chain (c_fat c) (n_start n) l /\ sectors f (2 ^ c_shift c) l data
     else chain (c_minifat c) (n_start n) l /\
          exists ws, Forall2 (small_sector c) l ws /\ data = List.concat ws).

(** ** The tree of names *)

(** The entries of a storage: a binary tree with links [n_prev] and [n_next]; the list is in
    the order of the tree. *)
Inductive siblings (d : list node) : N -> list N -> Prop :=
| sib_none i : lenN d <= i -> siblings d i []
| sib_node i n l r : nthN d i = Some n -> siblings d (n_prev n) l -> siblings d (n_next n) r ->
    siblings d i (l ++ i :: r).
(** The entries of the storage with index [i]. *)
Definition members (d : list node) (i : N) (l : list N) : Prop :=
  exists n, nthN d i = Some n /\ siblings d (n_child n) l.

(** Names are ordered by length, names of one length by their characters. *)
Fixpoint lex_lt (a b : list N) : Prop :=
  match a, b with
  | x :: a', y :: b' => x < y \/ (x = y /\ lex_lt a' b')
  | _, _ => False
  end.
Definition name_lt (a b : list N) : Prop := lenN a < lenN b \/ (lenN a = lenN b /\ lex_lt a b).
Definition node_lt (d : list node) (i j : N) : Prop :=
  exists m n, nthN d i = Some m /\ nthN d j = Some n /\ name_lt (n_name m) (n_name n).
(** The order [MS-CFB] prescribes compares upper-case letters; here for ASCII names. *)
Definition upper (c : N) : N := if (97 <=? c) && (c <=? 122) then c - 32 else c.
Definition cfb_lt (d : list node) (i j : N) : Prop :=
  exists m n, nthN d i = Some m /\ nthN d j = Some n /\
              name_lt (map upper (n_name m)) (map upper (n_name n)).

(** The members of a storage, in use and in ascending order. *)
Definition sorted_members (lt : list node -> N -> N -> Prop) (d : list node) (i : N) (l : list N) : Prop :=
  members d i l /\ StronglySorted (lt d) l /\ Forall (fun k => 0 < k) l /\
  Forall (fun k => exists n, nthN d k = Some n /\ in_use n) l.

(** [at_path d i names k]: entry [k] is reached from entry [i] through entries with these
    names, each one a member of the entry before. *)
Inductive at_path (lt : list node -> N -> N -> Prop) (d : list node) : N -> list (list N) -> N -> Prop :=
| at_here i : at_path lt d i [] i
| at_member i n l k name names j :
    nthN d i = Some n -> in_use n -> sorted_members lt d i l -> In k l ->
    (exists m, nthN d k = Some m /\ n_name m = name) ->
    at_path lt d k names j -> at_path lt d i (name :: names) j.

(** A path as text: every part after a slash. *)
Definition path_text (names : list (list N)) : list N := List.concat (map (fun n => 47 :: n) names).
(** A name that can be part of a path. *)
Definition plain_name (n : list N) : Prop := n <> [] /\ ~ In 47 n.
(** Parts that a path can have: none contains a slash, and the last is not empty, as a slash at
    the end of a path starts no further part.  Other parts may be empty, as in [//name]. *)
Definition path_parts (names : list (list N)) : Prop :=
  Forall (fun n => ~ In 47 n) names /\ last names [] <> [].

(** The bytes that arrive when sectors are read one after the other into one buffer, of which
    [prev] is the content: what the file lacks of a sector keeps the content before; [None] is
    a byte that was never written. *)
Fixpoint arriving (f : bytes) (bs : N) (prev : list (option byte)) (l : list N) : list (option byte) :=
  match l with
  | [] => []
  | b :: r =>
      let w := map Some (takeN bs (dropN (bs * (b + 1)) f)) in
      let now := w ++ dropN (lenN w) prev in
      now ++ arriving f bs now r
  end.
