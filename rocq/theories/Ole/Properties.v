(** Properties C51-C57: compound files (OLE structured storage).  Statements only; the vocabulary is
    in [Common/Spec.v], [Common/Fields.v], [Ole/Spec.v] and [Ole/Statements.v]. *)
From Coq Require Import List NArith ZArith Bool.
From Verif Require Import Lib.Res Lib.Bytes Common.Spec Common.Fields Common.Utf8
     Ole.Model Ole.Spec Ole.Statements Ole.Samples Ole.PropertyLemmas.
Import ListNotations.
Local Open Scope N_scope.

(** ** C51: opening a file *)
Theorem C51_no_file : forall pl, storage_load pl None = Ok OpenFailed.
Proof. exact C51_none. Qed.
Print Assumptions C51_no_file.

Theorem C51_short_file : forall pl (f : bytes), lenN f < 512 -> storage_load pl (Some f) = UB.
Proof. exact C51_short. Qed.
Print Assumptions C51_short_file.

Theorem C51_other_file : forall pl (f : bytes), 512 <= lenN f -> ~ window f 0 8 cfb_magic -> storage_load pl (Some f) = Ok NotOLE.
Proof. exact C51_not. Qed.
Print Assumptions C51_other_file.

Theorem C51_bad_header : forall pl (f : bytes) a b n m t, 512 <= lenN f -> window f 0 8 cfb_magic -> header_numbers f a b n m t ->
  ~ good_numbers a b n m t -> storage_load pl (Some f) = Ok BadOLE.
Proof. exact C51_bad. Qed.
Print Assumptions C51_bad_header.

Theorem C51_good_header : forall pl (f : bytes) a b n m t, 512 <= lenN f -> window f 0 8 cfb_magic -> header_numbers f a b n m t ->
  good_numbers a b n m t -> settled (storage_load pl (Some f)).
Proof. exact C51_good. Qed.
Print Assumptions C51_good_header.

Theorem C51_safe_refuted : exists f : bytes, window f 0 8 cfb_magic /\ forall pl, storage_load pl (Some f) = UB.
Proof. exact C51_refuted. Qed.
Print Assumptions C51_safe_refuted.

Example C51_example : 512 <= lenN file1 /\ window file1 0 8 cfb_magic /\ header_numbers file1 9 6 1 0 4096 /\ good_numbers 9 6 1 0 4096.
Proof. exact C51_ex. Qed.

(** ** C52: sector chains *)
Theorem C52_chain : forall t b l, table_size t -> (follow t b = Ok l <-> chain t b l).
Proof. exact C52_iff. Qed.
Print Assumptions C52_chain.

Theorem C52_cycle : forall t b, table_size t -> (follow t b = Fuel <-> endless t b).
Proof. exact C52_endless. Qed.
Print Assumptions C52_cycle.

Theorem C52_cycle_forever : forall t b, table_size t -> endless t b -> forall fuel, follow_loop fuel t b = Fuel.
Proof. exact C52_forever. Qed.
Print Assumptions C52_cycle_forever.

Theorem C52_sectors_once : forall t b l, table_size t -> follow t b = Ok l -> NoDup l /\ Forall (fun x => x < lenN t) l.
Proof. exact C52_once. Qed.
Print Assumptions C52_sectors_once.

Theorem C52_termination_refuted : exists f : bytes, lenN f < 4096 /\ forall pl, storage_load pl (Some f) = Fuel.
Proof. exact C52_refuted. Qed.
Print Assumptions C52_termination_refuted.

Example C52_example : table_size (c_fat comp1) /\ chain (c_fat comp1) 5 [5; 6; 7; 8; 9; 10; 11; 12; 13].
Proof. exact C52_ex. Qed.

(** ** C53: well-formed files open *)
Theorem C53_opens_every_file : forall pl (f : bytes) c, supported pl -> stored_as f c ->
  exists s, storage_load pl (Some f) = Ok (Opened s) /\ storage_of f c s.
Proof. exact C53_opens. Qed.
Print Assumptions C53_opens_every_file.

Theorem C53_missing_fat_sector : forall pl (f : bytes) shift l, header_lists f shift l -> Exists (missing f (2 ^ shift)) l -> storage_load pl (Some f) = UB.
Proof. exact C53_missing. Qed.
Print Assumptions C53_missing_fat_sector.

Theorem C53_endless_mini_fat : forall pl (f : bytes) shift l t s, fat_present f shift l t -> number_at f 60 4 s -> endless t s ->
  storage_load pl (Some f) = Fuel.
Proof. exact C53_minifat. Qed.
Print Assumptions C53_endless_mini_fat.

Theorem C53_endless_directory : forall pl (f : bytes) shift l t s s', fat_present f shift l t -> number_at f 60 4 s -> lenN t <= s ->
  number_at f 48 4 s' -> endless t s' -> storage_load pl (Some f) = Fuel.
Proof. exact C53_directory. Qed.
Print Assumptions C53_endless_directory.

Theorem C53_no_directory : forall pl (f : bytes) shift l t s s', fat_present f shift l t -> number_at f 60 4 s -> lenN t <= s ->
  number_at f 48 4 s' -> lenN t <= s' -> storage_load pl (Some f) = UB.
Proof. exact C53_nowhere. Qed.
Print Assumptions C53_no_directory.

Theorem C53_truncated_file_refuted : exists (f : bytes) n, stored_as f comp1 /\ n < lenN f /\ 512 <= n /\ forall pl, storage_load pl (Some (takeN n f)) = UB.
Proof. exact C53_refuted. Qed.
Print Assumptions C53_truncated_file_refuted.

Example C53_example : stored_as file1 comp1 /\ lenN (c_dir comp1) = 8 /\ lenN (c_mini comp1) = 512.
Proof. exact C53_ex. Qed.

(** ** C54: names *)
Theorem C54_names_windows : forall (f : bytes) c s i n e, stored_as f c -> storage_load windows (Some f) = Ok (Opened s) ->
  nthN (c_dir c) i = Some n -> nthN (st_dir s) i = Some e -> d_name e = visible (n_name n).
Proof. exact C54_win. Qed.
Print Assumptions C54_names_windows.

Theorem C54_names_linux : forall (f : bytes) c s i n e, stored_as f c -> storage_load linux64 (Some f) = Ok (Opened s) ->
  nthN (c_dir c) i = Some n -> nthN (st_dir s) i = Some e -> 2 <= lenN (visible (n_name n)) ->
  exists x r, d_name e = x :: r /\ 65536 <= x.
Proof. exact C54_lin. Qed.
Print Assumptions C54_names_linux.

Theorem C54_names_windows_refuted : exists (f : bytes) c s i n e, stored_as f c /\ storage_load windows (Some f) = Ok (Opened s) /\
  nthN (c_dir c) i = Some n /\ nthN (st_dir s) i = Some e /\ d_name e <> n_name n.
Proof. exact C54_refuted_win. Qed.
Print Assumptions C54_names_windows_refuted.

Theorem C54_names_linux_refuted : exists (f : bytes) c s i n e, stored_as f c /\ clean c /\ storage_load linux64 (Some f) = Ok (Opened s) /\
  nthN (c_dir c) i = Some n /\ nthN (st_dir s) i = Some e /\ d_name e <> n_name n.
Proof. exact C54_refuted_lin. Qed.
Print Assumptions C54_names_linux_refuted.

Example C54_example : clean comp1 /\ ~ clean comp4 /\ exists n, nthN (c_dir comp1) 2 = Some n /\ visible (n_name n) = n_notes.
Proof. exact C54_ex. Qed.

(** ** C55: the bytes of streams *)
Theorem C55_reads_content : forall (f : bytes) c names k n content, stored_as f c -> clean c -> names <> [] -> Forall plain_name names ->
  at_path node_lt (c_dir c) 0 names k -> nthN (c_dir c) k = Some n -> is_stream n -> stream_content f c n content ->
  exists s, storage_load windows (Some f) = Ok (Opened s) /\ ReadStream windows s (path_text names) = Ok (map Some content).
Proof. exact C55_reads. Qed.
Print Assumptions C55_reads_content.

Theorem C55_short_chain : forall (f : bytes) c names k n l data, stored_as f c -> clean c -> names <> [] -> Forall plain_name names ->
  at_path node_lt (c_dir c) 0 names k -> nthN (c_dir c) k = Some n -> is_stream n ->
  (if 4096 <=? n_size n
   then chain (c_fat c) (n_start n) l /\ sectors f (2 ^ c_shift c) l data
   else c_minifat c <> [] /\ chain (c_minifat c) (n_start n) l /\ exists ws, Forall2 (small_sector c) l ws /\ data = List.concat ws) ->
  lenN data < n_size n ->
  exists s, storage_load windows (Some f) = Ok (Opened s) /\ ReadStream windows s (path_text names) = Ok [].
Proof. exact C55_short. Qed.
Print Assumptions C55_short_chain.

Theorem C55_exact_outcome : forall (f : bytes) c names k n l, stored_as f c -> clean c -> names <> [] -> Forall plain_name names ->
  at_path node_lt (c_dir c) 0 names k -> nthN (c_dir c) k = Some n -> is_stream n -> 4096 <= n_size n ->
  chain (c_fat c) (n_start n) l ->
  exists s, storage_load windows (Some f) = Ok (Opened s) /\
    ReadStream windows s (path_text names) =
    Ok (if n_size n <=? lenN l * 2 ^ c_shift c
        then takeN (n_size n) (arriving f (2 ^ c_shift c) (repeatN None (2 ^ c_shift c)) l) else []).
Proof. exact C55_exact. Qed.
Print Assumptions C55_exact_outcome.

Theorem C55_never_outside : forall pl (f : bytes) s name, storage_load pl (Some f) = Ok (Opened s) ->
  (exists m, ReadStream pl s name = Ok m) \/ ReadStream pl s name = Fuel.
Proof. exact C55_safe. Qed.
Print Assumptions C55_never_outside.

Theorem C55_unwritten_bytes_refuted : exists (f : bytes) c s names n, stored_as f c /\ clean c /\ at_path node_lt (c_dir c) 0 names n /\
  storage_load windows (Some f) = Ok (Opened s) /\ ReadStream windows s (path_text names) = Ok (repeatN None 4100).
Proof. exact C55_refuted_unwritten. Qed.
Print Assumptions C55_unwritten_bytes_refuted.

Theorem C55_stale_bytes_refuted : exists (f : bytes) c s names n m, stored_as f c /\ clean c /\ at_path node_lt (c_dir c) 0 names n /\
  storage_load windows (Some f) = Ok (Opened s) /\ ReadStream windows s (path_text names) = Ok m /\
  lenN f = 7168 /\ lenN m = 4100 /\ takeN 4096 m = map Some (dropN 3072 f) /\ dropN 4096 m = map Some (takeN 4 (dropN 6656 f)).
Proof. exact C55_refuted_stale. Qed.
Print Assumptions C55_stale_bytes_refuted.

Example C55_example : stored_as file1 comp1 /\ clean comp1 /\ at_path node_lt (c_dir comp1) 0 [n_notes] 2 /\
  (exists n, nthN (c_dir comp1) 2 = Some n /\ is_stream n /\ stream_content file1 comp1 n (counting 70)) /\
  at_path node_lt (c_dir comp1) 0 [n_workbook] 4 /\
  (exists n, nthN (c_dir comp1) 4 = Some n /\ is_stream n /\ stream_content file1 comp1 n (counting 4100)).
Proof. exact C55_ex. Qed.

(** ** C56: finding entries by their path *)
Theorem C56_found_windows : forall (f : bytes) c names k, stored_as f c -> clean c -> names <> [] -> Forall plain_name names ->
  at_path node_lt (c_dir c) 0 names k ->
  exists s, storage_load windows (Some f) = Ok (Opened s) /\ exists_ windows s (path_text names) = Ok true.
Proof. exact C56_found. Qed.
Print Assumptions C56_found_windows.

Theorem C56_absent_windows : forall (f : bytes) c names k name rest n l, stored_as f c -> clean c -> path_parts (names ++ name :: rest) ->
  at_path node_lt (c_dir c) 0 names k -> nthN (c_dir c) k = Some n -> in_use n -> sorted_members node_lt (c_dir c) k l ->
  (forall j m, In j l -> nthN (c_dir c) j = Some m -> n_name m <> name) ->
  exists s, storage_load windows (Some f) = Ok (Opened s) /\
    exists_ windows s (path_text (names ++ name :: rest)) = Ok false /\
    ReadStream windows s (path_text (names ++ name :: rest)) = Ok [].
Proof. exact C56_absent. Qed.
Print Assumptions C56_absent_windows.

Theorem C56_not_found_linux : forall (f : bytes) c s names1 name names2, stored_as f c -> storage_load linux64 (Some f) = Ok (Opened s) ->
  2 <= lenN name -> Forall (fun x => x < 65536) name -> Forall plain_name (names1 ++ name :: names2) ->
  (exists_ linux64 s (path_text (names1 ++ name :: names2)) = Ok false /\ ReadStream linux64 s (path_text (names1 ++ name :: names2)) = Ok []) \/
  (exists_ linux64 s (path_text (names1 ++ name :: names2)) = Fuel /\ ReadStream linux64 s (path_text (names1 ++ name :: names2)) = Fuel).
Proof. exact C56_linux. Qed.
Print Assumptions C56_not_found_linux.

Theorem C56_standard_order_refuted : exists (f : bytes) c s names k, stored_as f c /\ clean c /\ at_path cfb_lt (c_dir c) 0 names k /\
  storage_load windows (Some f) = Ok (Opened s) /\ exists_ windows s (path_text names) = Ok false /\
  ReadStream windows s (path_text names) = Ok [].
Proof. exact C56_refuted_order. Qed.
Print Assumptions C56_standard_order_refuted.

Theorem C56_found_linux_refuted : exists (f : bytes) c s names k, stored_as f c /\ clean c /\ at_path node_lt (c_dir c) 0 names k /\
  storage_load linux64 (Some f) = Ok (Opened s) /\ exists_ linux64 s (path_text names) = Ok false.
Proof. exact C56_refuted_linux. Qed.
Print Assumptions C56_found_linux_refuted.

Example C56_example : at_path node_lt (c_dir comp1) 0 [n_workbook] 4 /\ sorted_members node_lt (c_dir comp1) 0 [1; 2; 4] /\
  forall j m, In j [1; 2; 4] -> nthN (c_dir comp1) j = Some m -> n_name m <> n_zed.
Proof. exact C56_ex. Qed.

Example C56_empty_part_example : path_parts ([] ++ [] :: [n_workbook]) /\ at_path node_lt (c_dir comp1) 0 [] 0 /\
  forall j m, In j [1; 2; 4] -> nthN (c_dir comp1) j = Some m -> n_name m <> [].
Proof. exact C56_empty_ex. Qed.

(** ** C57: listing the entries of a storage *)
Theorem C57_lists_members : forall (f : bytes) c names k n l, stored_as f c -> clean c -> Forall plain_name names ->
  at_path node_lt (c_dir c) 0 names k -> nthN (c_dir c) k = Some n -> n_type n = 1 \/ n_type n = 5 -> members (c_dir c) k l ->
  exists s ns, storage_load windows (Some f) = Ok (Opened s) /\ storage_entries windows s (path_of names) = Ok ns /\
    Forall2 (fun i name => exists m, nthN (c_dir c) i = Some m /\ n_name m = name) l ns.
Proof. exact C57_lists. Qed.
Print Assumptions C57_lists_members.

Theorem C57_cyclic_storage : forall (f : bytes) c names k n, stored_as f c -> clean c -> Forall plain_name names ->
  at_path node_lt (c_dir c) 0 names k -> nthN (c_dir c) k = Some n -> n_type n = 1 \/ n_type n = 5 ->
  (forall l, ~ members (c_dir c) k l) ->
  exists s, storage_load windows (Some f) = Ok (Opened s) /\ storage_entries windows s (path_of names) = Fuel.
Proof. exact C57_endless. Qed.
Print Assumptions C57_cyclic_storage.

Theorem C57_never_outside : forall pl s path, (exists l, storage_entries pl s path = Ok l) \/ storage_entries pl s path = Fuel.
Proof. exact C57_safe. Qed.
Print Assumptions C57_never_outside.

Theorem C57_termination_refuted : exists (f : bytes) s, stored_as f comp3 /\ clean comp3 /\ lenN f < 4096 /\
  storage_load windows (Some f) = Ok (Opened s) /\ storage_entries windows s [47] = Fuel.
Proof. exact C57_refuted. Qed.
Print Assumptions C57_termination_refuted.

Example C57_example : stored_as file1 comp1 /\ clean comp1 /\ members (c_dir comp1) 0 [1; 2; 4] /\
  map (fun i => option_map n_name (nthN (c_dir comp1) i)) [1; 2; 4] = [Some n_data; Some n_notes; Some n_workbook].
Proof. exact C57_ex. Qed.
