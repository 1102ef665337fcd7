(** Compound files: fileid/oless/pole.h, the half that reads.

    Memory obtained with [new unsigned char[n]] is indeterminate until it is written, so a
    buffer is a list of optional bytes; computing with an indeterminate byte is undefined,
    copying one is not.  Running out of memory is not modelled.  Block numbers come from
    32-bit fields and block sizes are at most 2^30, so no product below leaves 64 bits. *)
From Coq Require Import List NArith ZArith Bool Strings.String.
From Verif Require Import Lib.Res Lib.Bytes Common.Model.
Import ListNotations.
Local Open Scope N_scope.

(** ** Memory *)
Definition mem := list (option byte).
Definition blank (n : N) : mem := repeatN None n.
(** All the bytes, when each one has been written. *)
Fixpoint known (m : mem) : option bytes :=
  match m with
  | [] => Some []
  | Some b :: t => match known t with Some l => Some (b :: l) | None => None end
  | None :: _ => None
  end.
(** Copying [n] bytes out of a buffer. *)
Definition mslice (m : mem) (off n : N) : res mem :=
  if off + n <=? lenN m then Ok (takeN n (dropN off m)) else UB.
(** Copying [s] into a buffer. *)
Definition mstore (m : mem) (off : N) (s : mem) : res mem :=
  if off + lenN s <=? lenN m then Ok (takeN off m ++ s ++ dropN (off + lenN s) m) else UB.
(** Using [n] bytes of a buffer. *)
Definition mbytes (m : mem) (off n : N) : res bytes :=
  s <- mslice m off n ;;
  match known s with Some l => Ok l | None => UB end.

(** pole.h:578-586 *)
Definition readU16 (m : mem) (off : N) : res N := s <- mbytes m off 2 ;; Ok (le s).
Definition readU32 (m : mem) (off : N) : res N := s <- mbytes m off 4 ;; Ok (le s).

(** ** Header *)

(** pole.h:602-603 *)
Definition pole_magic : bytes := [xd0; xcf; x11; xe0; xa1; xb1; x1a; xe1].

(** pole.h:328-343 *)
Record header := mkHeader {
  id : bytes; b_shift : N; s_shift : N; num_bat : N; dirent_start : N; threshold : N;
  sbat_start : N; num_sbat : N; mbat_start : N; num_mbat : N; bb_blocks : list N }.

(** pole.h:626-637 *)
Definition valid (h : header) : bool :=
  if negb (threshold h =? 4096) then false
  else if num_bat h =? 0 then false
  else if (num_bat h <? 109) && negb (num_mbat h =? 0) then false
  else if b_shift h <? s_shift h then false
  else if b_shift h <=? 6 then false
  else if 31 <=? b_shift h then false
  else true.

(** [n] consecutive numbers of four bytes *)
Fixpoint readU32s (n : nat) (m : mem) (off : N) : res (list N) :=
  match n with
  | O => Ok []
  | S k => v <- readU32 m off ;; l <- readU32s k m (off + 4) ;; Ok (v :: l)
  end.

(** pole.h:639-657 *)
Definition header_load (m : mem) : res header :=
  bsh <- readU16 m 30 ;;
  ssh <- readU16 m 32 ;;
  nb <- readU32 m 44 ;;
  ds <- readU32 m 48 ;;
  th <- readU32 m 56 ;;
  ss <- readU32 m 60 ;;
  ns <- readU32 m 64 ;;
  ms <- readU32 m 68 ;;
  nm <- readU32 m 72 ;;
  i <- mbytes m 0 8 ;;
  l <- readU32s 109 m 76 ;;
  Ok (mkHeader i bsh ssh nb ds th ss ns ms nm l).

(** ** Allocation tables *)

(** pole.h:706-709 *)
Definition Avail : N := 4294967295.
Definition Eof : N := 4294967294.
Definition Bat : N := 4294967293.
Definition MetaBat : N := 4294967292.

(** pole.h:711-719: a new table has 128 free entries *)
Definition new_table : list N := List.repeat Avail 128.

(** [blocks[index] = value] *)
Fixpoint update (t : list N) (index value : N) : list N :=
  match t with
  | [] => []
  | x :: r => if index =? 0 then value :: r else x :: update r (N.pred index) value
  end.
(** pole.h:781-800.  Each round adds a block; a chain longer than the table never ends. *)
Fixpoint follow_loop (fuel : nat) (t : list N) (p : N) : res (list N) :=
  match fuel with
  | O => Fuel
  | S k =>
      if (p =? Eof) || (p =? Bat) || (p =? MetaBat) then Ok []
      else
        match nthN t p with
        | None => Ok []
        | Some n => if lenN t <=? n then Ok [p] else l <- follow_loop k t n ;; Ok (p :: l)
        end
  end.
Definition follow (t : list N) (start : N) : res (list N) :=
  if lenN t <=? start then Ok [] else follow_loop (S (List.length t)) t start.

(** pole.h:820-825.  The loop counter has 32 bits: it never reaches 2^32. *)
Definition table_load (m : mem) (len : N) : res (list N) :=
  if 2 ^ 32 <=? len / 4 then Fuel else readU32s (N.to_nat (len / 4)) m 0.

(** ** Directory *)

(** pole.h:384-401 *)
Record dirent := mkDir {
  d_valid : bool; d_name : list N; d_dir : bool; d_size : N; d_start : N;
  d_prev : N; d_next : N; d_child : N }.

(** pole.h:914 *)
Definition End : N := 4294967295.

(** pole.h:1202: two bytes at a time, until the first of a pair is zero *)
Fixpoint name_loop (fuel : nat) (m : mem) (p name_len actual : N) : res N :=
  match fuel with
  | O => Fuel
  | S k =>
      if actual <? name_len then
        b <- mbytes m (p + actual) 1 ;;
        if le b =? 0 then Ok actual else name_loop k m p name_len (actual + 2)
      else Ok actual
  end.

(** pole.h:1191-1225, the entry at [p].  [actual / 2] characters of the platform's width are
    taken at [p]. *)
Definition load_entry (pl : platform) (m : mem) (p : N) : res dirent :=
  nl <- readU16 m (p + 64) ;;
  let name_len := if 64 <? nl then 64 else nl in
  actual <- name_loop 33 m p name_len 0 ;;
  w <- mbytes m p (actual / 2 * sizeof_wchar pl) ;;
  t <- mbytes m (p + 66) 1 ;;
  let type := le t in
  start <- readU32 m (p + 116) ;;
  size <- readU32 m (p + 120) ;;
  prev <- readU32 m (p + 68) ;;
  next <- readU32 m (p + 72) ;;
  child <- readU32 m (p + 76) ;;
  let v := negb (type =? 0) in
  let v := if negb (type =? 2) && negb (type =? 1) && negb (type =? 5) then false else v in
  let v := if name_len <? 1 then false else v in
  Ok (mkDir v (to_wchars pl w) (negb (type =? 2)) size start prev next child).

(** pole.h:1187-1226 *)
Fixpoint load_entries (pl : platform) (n : nat) (m : mem) (p : N) : res (list dirent) :=
  match n with
  | O => Ok []
  | S k => e <- load_entry pl m p ;; l <- load_entries pl k m (p + 128) ;; Ok (e :: l)
  end.
Definition dirtree_load (pl : platform) (m : mem) (size : N) : res (list dirent) :=
  load_entries pl (N.to_nat (size / 128)) m 0.

(** Wide characters compare as signed numbers of 32 bits with g++ and as unsigned ones of 16
    bits with MSVC. *)
Definition wchar_value (pl : platform) (c : N) : Z := if sizeof_wchar pl =? 4 then signed 32 c else Z.of_N c.
Fixpoint wcompare (pl : platform) (a b : list N) : comparison :=
  match a, b with
  | x :: a', y :: b' =>
      match (wchar_value pl x ?= wchar_value pl y)%Z with Eq => wcompare pl a' b' | c => c end
  | [], [] => Eq
  | [], _ => Lt
  | _, [] => Gt
  end.
(** pole.h:901-909 *)
Definition name_compare (pl : platform) (a b : list N) : comparison :=
  match lenN a ?= lenN b with Eq => wcompare pl a b | c => c end.

(** pole.h:1132-1142.  The recursion follows [prev] and [next]; deeper than the directory is
    long it never ends. *)
Fixpoint find_siblings (fuel : nat) (d : list dirent) (index : N) : res (list N) :=
  match fuel with
  | O => Fuel
  | S k =>
      match nthN d index with
      | None => Ok []
      | Some e =>
          l <- (if d_prev e =? End then Ok [] else find_siblings k d (d_prev e)) ;;
          r <- (if d_next e =? End then Ok [] else find_siblings k d (d_next e)) ;;
          Ok (l ++ index :: r)
      end
  end.
Definition steps (d : list dirent) : nat := S (S (List.length d)).
(** pole.h:1144-1153 *)
Definition children (d : list dirent) (index : N) : res (list N) :=
  match nthN d index with
  | Some e => if d_valid e && (d_child e <? lenN d) then find_siblings (steps d) d (d_child e) else Ok []
  | None => Ok []
  end.

(** pole.h:1155-1175; 0 when there is none *)
Fixpoint find_sibling (fuel : nat) (pl : platform) (d : list dirent) (index : N) (name : list N) : res N :=
  match fuel with
  | O => Fuel
  | S k =>
      match nthN d index with
      | None => Ok 0
      | Some e =>
          if negb (d_valid e) then Ok 0
          else
            match name_compare pl (d_name e) name with
            | Eq => Ok index
            | Gt => if (0 <? d_prev e) && (d_prev e <? lenN d) then find_sibling k pl d (d_prev e) name else Ok 0
            | Lt => if (0 <? d_next e) && (d_next e <? lenN d) then find_sibling k pl d (d_next e) name else Ok 0
            end
      end
  end.
(** pole.h:1177-1185 *)
Definition find_child (pl : platform) (d : list dirent) (index : N) (name : list N) : res N :=
  match nthN d index with
  | Some e => if d_valid e && (d_child e <? lenN d) then find_sibling (steps d) pl d (d_child e) name else Ok 0
  | None => Ok 0
  end.

(** pole.h:1017-1030: the parts of a path between slashes; a trailing slash adds none *)
Definition slash : N := 47.
Fixpoint split_path (s : list N) : list (list N) :=
  match s with
  | [] => []
  | c :: r =>
      if c =? slash then [] :: split_path r
      else match split_path_in r with (w, l) => (c :: w) :: l end
  end
with split_path_in (s : list N) : list N * list (list N) :=
  match s with
  | [] => ([], [])
  | c :: r => if c =? slash then ([], split_path r) else match split_path_in r with (w, l) => (c :: w, l) end
  end.
(** pole.h:1033-1127 without creation: from the root, one part after the other *)
Fixpoint walk (pl : platform) (d : list dirent) (index : N) (names : list (list N)) : res (option N) :=
  match names with
  | [] => Ok (Some index)
  | n :: r => c <- find_child pl d index n ;; if 0 <? c then walk pl d c r else Ok None
  end.
(** pole.h:1010-1129 with [create] false; the entry's index.  [entry] is null for an index
    outside the directory. *)
Definition entry_at (pl : platform) (d : list dirent) (name : list N) : res (option N) :=
  match name with
  | [] => Ok None
  | c :: r =>
      i <- (match c =? slash, r with
            | true, [] => Ok (Some 0)
            | true, _ => walk pl d 0 (split_path r)
            | false, _ => walk pl d 0 (split_path name)
            end) ;;
      match i with
      | Some k => Ok (if k <? lenN d then Some k else None)
      | None => Ok None
      end
  end.

(** ** Storage *)

(** pole.h:434-461 *)
Record storage := mkStorage {
  st_file : bytes; st_header : header; st_bbat : list N; st_sbat : list N;
  st_dir : list dirent; st_sb : list N }.
Definition big_size (h : header) : N := 2 ^ b_shift h.
Definition small_size (h : header) : N := 2 ^ s_shift h.

(** pole.h:1838-1851.  [p = filesize - pos] wraps when the block starts behind the end of the
    file; read as a count it is negative then and nothing is read, but [bytes] is advanced by
    the wrapped number. *)
Fixpoint load_blocks (f : bytes) (bs : N) (blocks : list N) (data : mem) (count maxlen : N) : res (mem * N) :=
  match blocks with
  | [] => Ok (data, count)
  | b :: r =>
      if count <? maxlen then
        let pos := bs * (b + 1) in
        let p := if bs <? maxlen - count then bs else maxlen - count in
        let p := if lenN f <? pos + p then subw 64 (lenN f) pos else p in
        let got := if p <? 2 ^ 63 then takeN p (dropN pos f) else [] in
        data <- mstore data count (map Some got) ;;
        load_blocks f bs r data (u64 (count + p)) maxlen
      else Ok (data, count)
  end.
(** pole.h:1827-1870, the buffer afterwards *)
Definition loadBigBlocks (f : bytes) (bs : N) (blocks : list N) (data : mem) (maxlen : N) : res mem :=
  rmap fst (load_blocks f bs blocks data 0 maxlen).

(** pole.h:2073-2084, for the positions [s], [s + 4], ... below [bs] *)
Fixpoint difat_fill (n : nat) (m : mem) (s : N) (blocks : list N) (k : N) : res (list N * N) :=
  match n with
  | O => Ok (blocks, k)
  | S n' =>
      if lenN blocks <=? k then Ok (blocks, k)
      else v <- readU32 m s ;; difat_fill n' m (s + 4) (update blocks k v) (k + 1)
  end.
(** pole.h:2060-2085, the rounds with [r > 0]: the last number read is the next sector *)
Fixpoint difat_loop (n : nat) (f : bytes) (bs : N) (m : mem) (blocks : list N) (k : N) : res (list N) :=
  match n with
  | O => Ok blocks
  | S n' =>
      match nthN blocks (k - 1) with
      | None => UB
      | Some sector =>
          m <- loadBigBlocks f bs [sector] m bs ;;
          '(blocks, k) <- difat_fill (N.to_nat (bs / 4)) m 0 blocks (k - 1) ;;
          difat_loop n' f bs m blocks k
      end
  end.
(** pole.h:2033-2087 with [bLoading]; [mbat_blocks] and [mbat_data] serve writing only *)
Definition getbbatBlocks (f : bytes) (h : header) : res (list N) :=
  let blocks := takeN (num_bat h) (bb_blocks h) ++ repeatN 0 (num_bat h - 109) in
  if (109 <? num_bat h) && (0 <? num_mbat h) then
    let bs := big_size h in
    m <- loadBigBlocks f bs [mbat_start h] (blank bs) bs ;;
    '(blocks, k) <- difat_fill (N.to_nat (bs / 4)) m 0 blocks 109 ;;
    difat_loop (N.to_nat (num_mbat h - 1)) f bs m blocks k
  else Ok blocks.

(** What [open] reports (pole.h:95). *)
Inductive opened := OpenFailed | NotOLE | BadOLE | Opened (s : storage).

(** The pattern of pole.h:1576-1602: the blocks of a chain, loaded *)
Definition load_chain (f : bytes) (bs : N) (blocks : list N) : res mem :=
  loadBigBlocks f bs blocks (blank (lenN blocks * bs)) (lenN blocks * bs).

(** pole.h:1528-1626; [None] is a file that cannot be opened *)
Definition storage_load (pl : platform) (file : option bytes) : res opened :=
  match file with
  | None => Ok OpenFailed
  | Some f =>
      buffer <- mstore (blank 512) 0 (map Some (takeN 512 f)) ;;
      h <- header_load buffer ;;
      if negb (bytes_eqb (id h) pole_magic) then Ok NotOLE
      else if negb (valid h) then Ok BadOLE
      else
        let bs := big_size h in
        blocks <- getbbatBlocks f h ;;
        m <- load_chain f bs blocks ;;
        bbat <- (if 0 <? lenN blocks * bs then table_load m (lenN blocks * bs) else Ok new_table) ;;
        blocks <- follow bbat (sbat_start h) ;;
        m <- load_chain f bs blocks ;;
        sbat <- (if 0 <? lenN blocks * bs then table_load m (lenN blocks * bs) else Ok new_table) ;;
        blocks <- follow bbat (dirent_start h) ;;
        m <- load_chain f bs blocks ;;
        dir <- dirtree_load pl m (lenN blocks * bs) ;;
        sb_start <- readU32 m 116 ;;
        sb <- follow bbat sb_start ;;
        Ok (Opened (mkStorage f h bbat sbat dir sb))
  end.

(** pole.h:1931-1951 *)
Fixpoint load_small (s : storage) (blocks : list N) (buf data : mem) (count maxlen : N) : res mem :=
  match blocks with
  | [] => Ok data
  | b :: r =>
      let bs := big_size (st_header s) in
      let sbs := small_size (st_header s) in
      if count <? maxlen then
        let pos := b * sbs in
        match nthN (st_sb s) (pos / bs) with
        | None => Ok data
        | Some big =>
            buf <- loadBigBlocks (st_file s) bs [big] buf bs ;;
            let offset := pos mod bs in
            let p := if maxlen - count <? bs - offset then maxlen - count else bs - offset in
            let p := if sbs <? p then sbs else p in
            c <- mslice buf offset p ;;
            data <- mstore data count c ;;
            load_small s r buf data (count + p) maxlen
        end
      else Ok data
  end.
(** pole.h:1918-1972 *)
Definition loadSmallBlock (s : storage) (block : N) (data : mem) : res mem :=
  let bs := big_size (st_header s) in
  load_small s [block] (blank bs) data 0 bs.

(** ** Streams *)

(** pole.h:2159-2162 *)
Definition stream_blocks (s : storage) (e : dirent) : res (list N) :=
  if threshold (st_header s) <=? d_size e then follow (st_bbat s) (d_start e)
  else follow (st_sbat s) (d_start e).

(** The two loops of pole.h:2290-2329; [bs] is the size of the blocks *)
Fixpoint read_loop (load : N -> mem -> res mem) (bs : N) (blocks : list N) (buf data : mem)
         (total maxlen offset : N) : res (mem * N) :=
  match blocks with
  | [] => Ok (data, total)
  | b :: r =>
      if total <? maxlen then
        buf <- load b buf ;;
        let count := bs - offset in
        let count := if maxlen - total <? count then maxlen - total else count in
        c <- mslice buf offset count ;;
        data <- mstore data total c ;;
        read_loop load bs r buf data (total + count) maxlen 0
      else Ok (data, total)
  end.

(** pole.h:2272-2331: the caller's buffer afterwards and the number of bytes *)
Definition stream_read (s : storage) (e : dirent) (blocks : list N) (pos : N) (data : mem) (maxlen : N)
  : res (mem * N) :=
  if maxlen =? 0 then Ok (data, 0)
  else
    let maxlen := if d_size e <? u64 (pos + maxlen) then subw 64 (d_size e) pos else maxlen in
    let h := st_header s in
    let small := d_size e <? threshold h in
    let bs := if small then small_size h else big_size h in
    let load := if small then loadSmallBlock s
                else fun b buf => loadBigBlocks (st_file s) bs [b] buf bs in
    if lenN blocks <=? pos / bs then Ok (data, 0)
    else read_loop load bs (dropN (pos / bs) blocks) (blank bs) data 0 maxlen (pos mod bs).

(** pole.h:1744-1760, 2549-2552: the entry of a stream, when the name denotes one *)
Definition open_stream (pl : platform) (s : storage) (name : list N) : res (option dirent) :=
  i <- entry_at pl (st_dir s) name ;;
  match i with
  | None => Ok None
  | Some k =>
      match nthN (st_dir s) k with
      | Some e => Ok (if d_dir e then None else Some e)
      | None => Ok None
      end
  end.

(** OleCommon.hpp:44-58: the whole stream, or nothing when it cannot be read in full *)
Definition ReadStream (pl : platform) (s : storage) (name : list N) : res mem :=
  e <- open_stream pl s name ;;
  match e with
  | None => Ok []
  | Some e =>
      blocks <- stream_blocks s e ;;
      '(data, n) <- stream_read s e blocks 0 (blank (d_size e)) (d_size e) ;;
      Ok (if n =? d_size e then data else [])
  end.

(** ** Listing *)

(** pole.h:2467-2481 *)
Definition storage_entries (pl : platform) (s : storage) (path : list N) : res (list (list N)) :=
  i <- entry_at pl (st_dir s) path ;;
  match i with
  | None => Ok []
  | Some k =>
      match nthN (st_dir s) k with
      | Some e =>
          if d_dir e then
            l <- children (st_dir s) k ;;
            mapM (fun c => match nthN (st_dir s) c with Some e => Ok (d_name e) | None => UB end) l
          else Ok []
      | None => Ok []
      end
  end.
(** pole.h:2483-2487 *)
Definition isDirectory (pl : platform) (s : storage) (name : list N) : res bool :=
  i <- entry_at pl (st_dir s) name ;;
  match i with
  | None => Ok false
  | Some k => match nthN (st_dir s) k with Some e => Ok (d_dir e) | None => Ok false end
  end.
(** pole.h:2489-2493 *)
Definition exists_ (pl : platform) (s : storage) (name : list N) : res bool :=
  i <- entry_at pl (st_dir s) name ;; Ok (match i with Some _ => true | None => false end).
