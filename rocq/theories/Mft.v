(** Model of MasterFileTableParser (dfir_ntfs/MFT.py:915-1364).  The file object
    is a byte string: seek and read behave as on an ordinary file.  Strings are
    lists of code points. *)
From Verif Require Import Base MappingPairs Frs FileRecord.

Definition ATTR_TYPE_FILE_NAME : Z := 0x30.          (* Attributes.py:14 *)
Definition ATTR_TYPE_VOLUME_INFORMATION : Z := 0x70. (* Attributes.py:18 *)
Definition FILE_NAME_NTFS : Z := 1.                  (* Attributes.py *)
Definition FILE_NUMBER_VOLUME : Z := 3.
Definition FILE_NUMBER_ROOT : Z := 5.
Definition PATH_SEPARATOR : Z := 47.
Definition UNKNOWN_PATH_PLACEHOLDER : list Z := [60; 79; 114; 112; 104; 97; 110; 62].

(** MFT.py:48-75: the classes caught by [except MasterFileTableException]. *)
Definition is_mft_exn (e : exn) : bool :=
  match e with
  | MasterFileTableException | FileRecordSegmentException
  | FileRecordSegmentSignatureException | AttributeException | MappingPairsException => true
  | _ => false
  end.

(** The classes caught by [except FileRecordSegmentException]. *)
Definition is_frs_exn (e : exn) : bool :=
  match e with
  | FileRecordSegmentException | FileRecordSegmentSignatureException
  | AttributeException | MappingPairsException => true
  | _ => false
  end.

(** [for x in g: ...] left at the first [Some]. *)
Fixpoint first_in {A B} (f : A -> result (option B)) (l : list A) (st : status) : result (option B) :=
  match l with
  | [] => match st with Done => Ok None | Raised e => Err e end
  | a :: t => let! r := f a in
              match r with Some b => Ok (Some b) | None => first_in f t st end
  end.
Definition gfirst {A B} (f : A -> result (option B)) (g : gen A) := first_in f (fst g) (snd g).

(** [for x in g: ...] collecting every [Some]. *)
Fixpoint collect_in {A B} (f : A -> result (option B)) (l : list A) (st : status) : result (list B) :=
  match l with
  | [] => match st with Done => Ok [] | Raised e => Err e end
  | a :: t => let! r := f a in
              let! rest := collect_in f t st in
              match r with Some b => Ok (b :: rest) | None => Ok rest end
  end.
Definition gcollect {A B} (f : A -> result (option B)) (g : gen A) := collect_in f (fst g) (snd g).

(** MFT.py:507-515 value_decoded of the attributes that are not skipped,
    followed by the test on the class of the value: the value of a resident
    attribute of type [ty].  The constructor for type 0xA0 calls .seek on the
    bytes (Attributes.py:884-889) and raises. *)
Definition value_of_type (ty : Z) (a : attr) : result (option (list Z)) :=
  match a with
  | Nonresident _ _ _ _ _ _ _ => Ok None
  | Resident t _ v =>
    if t =? ATTR_TYPE_INDEX_ALLOCATION then Err AttributeError_py
    else Ok (if t =? ty then Some v else None)
  end.

(** Attributes.py:456-477, $FILE_NAME getters. *)
Definition fn_parent (v : list Z) : result Z := u64 v 0.
Definition fn_flags (v : list Z) : result Z := u8 v 65.
Definition fn_name (v : list Z) : result (list Z) :=
  let! n := u8 v 64 in Ok (utf16le (slice v 66 (66 + 2 * n))).

Record mft : Type := mk_mft {
  m_data : list Z;
  m_frs_size : Z;
  m_cache : list (Z * list Z);    (* dictionary, in insertion order *)
  m_stats : option (Z * Z)
}.
Definition m_file_size (p : mft) : Z := zlen (m_data p).

(** MFT.py:995-1005 get_file_record_segment_by_number. *)
Definition frs_by_number (p : mft) (n : Z) : result frs :=
  let off := n * m_frs_size p in
  if m_file_size p <? off then Err MasterFileTableException else
  let! buf := read_at (m_data p) off (m_frs_size p) in
  frs_open buf true (Some n).

(** MFT.py:1025-1030: the sequence number a deallocated segment had. *)
Definition effective_sequence (f : frs) : Z :=
  let s := h_sequence (frs_data f) in
  if h_in_use (frs_data f) then s
  else if 2 <=? s then s - 1 else if s =? 0 then 0xFFFF else s.

Fixpoint cache_get (c : list (Z * list Z)) (r : Z) : option (list Z) :=
  match c with
  | [] => None
  | (k, v) :: t => if k =? r then Some v else cache_get t r
  end.

Fixpoint cache_add (c : list (Z * list Z)) (r n : Z) : list (Z * list Z) :=
  match c with
  | [] => [(r, [n])]
  | (k, v) :: t => if k =? r then (k, v ++ [n]) :: t else (k, v) :: cache_add t r n
  end.

Fixpoint open_children (p : mft) (l : list Z) : result (list frs) :=
  match l with
  | [] => Ok []
  | n :: t => let! f := frs_by_number p n in
              let! r := open_children p t in Ok (f :: r)
  end.

(** MFT.py:1035-1043, 1345-1362: add the cached children.  The number is never
    None because one is always suggested. *)
Definition with_children (p : mft) (f : frs) : result file_record :=
  match frs_mft_number f with
  | None => Err TypeError
  | Some num =>
    match cache_get (m_cache p) (encode_ref num (effective_sequence f)) with
    | Some l => let! ch := open_children p l in Ok (mk_fr f ch)
    | None => Ok (mk_fr f [])
    end
  end.

Definition seq_mismatch (f : frs) (expected : option Z) : bool :=
  match expected with
  | None => false
  | Some s => negb (effective_sequence f =? s)
  end.

(** MFT.py:1007-1070 with allow_child_file_record_segment_number = False. *)
Definition by_number_base (p : mft) (n : Z) (expected : option Z) : result file_record :=
  let! f := frs_by_number p n in
  if h_is_base (frs_data f) then
    if seq_mismatch f expected then Err MasterFileTableException else with_children p f
  else Err MasterFileTableException.

(** MFT.py:1062-1066. *)
Fixpoint parent_in_cache (c : list (Z * list Z)) (n : Z) : option Z :=
  match c with
  | [] => None
  | (k, v) :: t => if zin n v then Some k else parent_in_cache t n
  end.

(** MFT.py:1007-1070 get_file_record_by_number. *)
Definition by_number (p : mft) (n : Z) (expected : option Z) (allow : bool) : result file_record :=
  let! f := frs_by_number p n in
  if h_is_base (frs_data f) then
    if seq_mismatch f expected then Err MasterFileTableException else with_children p f
  else if allow then
    if seq_mismatch f expected then Err MasterFileTableException else
    match parent_in_cache (m_cache p) n with
    | Some r => by_number_base p (fst (decode_ref r)) (Some (snd (decode_ref r)))
    | None => Err MasterFileTableException
    end
  else Err MasterFileTableException.

(** MFT.py:1287-1317, the loop of execute_first_pass. *)
Fixpoint first_pass_loop (fuel : nat) (data : list Z) (size pos : Z)
    (c : list (Z * list Z)) (cnt child : Z) : result (list (Z * list Z) * (Z * Z)) :=
  match fuel with
  | O => Err OutOfFuel
  | S fuel =>
    if pos <? zlen data then
      let buf := slice data pos (pos + size) in
      if negb (zlen buf =? size) then Ok (c, (cnt, child)) else
      match frs_open buf true (Some (pos / size)) with
      | Err e => if is_frs_exn e then first_pass_loop fuel data size (pos + size) c cnt child
                 else Err e
      | Ok f =>
        if h_is_base (frs_data f)
        then first_pass_loop fuel data size (pos + size) c (cnt + 1) child
        else first_pass_loop fuel data size (pos + size)
               (cache_add c (h_base_ref (frs_data f)) (pos / size)) (cnt + 1) (child + 1)
      end
    else Ok (c, (cnt, child))
  end.

Definition first_pass (p : mft) : result mft :=
  let! (c, st) := first_pass_loop (S (length (m_data p))) (m_data p) (m_frs_size p) 0
                    (m_cache p) 0 0 in
  Ok (mk_mft (m_data p) (m_frs_size p) c (Some st)).

(** MFT.py:967-993 check_ntfs_version. *)
Definition check_version (p : mft) : result unit :=
  let! f := frs_by_number p FILE_NUMBER_VOLUME in
  let! r := gfirst (fun a =>
      let! v := value_of_type ATTR_TYPE_VOLUME_INFORMATION a in
      match v with
      | None => Ok None
      | Some v => let! major := u8 v 8 in let! minor := u8 v 9 in Ok (Some (major, minor))
      end) (frs_gen f) in
  match r with
  | None => Err MasterFileTableException
  | Some (major, minor) =>
    if negb (major =? 3) then Err MasterFileTableException else
    if minor <? 1 then Err MasterFileTableException else Ok tt
  end.

(** MFT.py:936-965 __init__. *)
Definition mft_open (data : list Z) (do_first_pass : bool) : result mft :=
  if negb (zlist_eqb (slice data 0 4) sig_FILE) then Err FileRecordSegmentSignatureException else
  if negb (zlen (slice data 28 32) =? 4) then Err FileRecordSegmentException else
  let size := fld 4 data 28 in
  if negb (zin size frs_sizes) then Err FileRecordSegmentException else
  let p := mk_mft data size [] None in
  let! _ := check_version p in
  if do_first_pass then first_pass p else Ok p.

(** MFT.py:1319-1364 file_records. *)
Fixpoint file_records_loop (fuel : nat) (p : mft) (in_use_only : bool) (pos : Z) : gen file_record :=
  match fuel with
  | O => ([], Raised OutOfFuel)
  | S fuel =>
    if pos <? m_file_size p then
      let buf := slice (m_data p) pos (pos + m_frs_size p) in
      if negb (zlen buf =? m_frs_size p) then ([], Done) else
      match frs_open buf true (Some (pos / m_frs_size p)) with
      | Err e => if is_frs_exn e then file_records_loop fuel p in_use_only (pos + m_frs_size p)
                 else ([], Raised e)
      | Ok f =>
        if in_use_only && negb (h_in_use (frs_data f))
        then file_records_loop fuel p in_use_only (pos + m_frs_size p) else
        if h_is_base (frs_data f) then
          match with_children p f with
          | Err e => ([], Raised e)
          | Ok fr => gcons fr (file_records_loop fuel p in_use_only (pos + m_frs_size p))
          end
        else file_records_loop fuel p in_use_only (pos + m_frs_size p)
      end
    else ([], Done)
  end.

Definition file_records (p : mft) (in_use_only : bool) : gen file_record :=
  file_records_loop (S (length (m_data p))) p in_use_only 0.

(** FileRecord getters of the base segment used below, MFT.py:887-905. *)
Definition fr_in_use (fr : file_record) : bool := h_in_use (frs_data (fr_base fr)).
Definition fr_directory (fr : file_record) : bool :=
  0 <? Z.land (h_flags (frs_data (fr_base fr))) 2.

(** ** Paths *)

(** str.join and str.split for one-character separators. *)
Fixpoint join (sep : Z) (l : list (list Z)) : list Z :=
  match l with
  | [] => []
  | [x] => x
  | x :: t => x ++ sep :: join sep t
  end.

Fixpoint split_on (sep : Z) (s : list Z) : list (list Z) :=
  match s with
  | [] => [[]]
  | c :: t =>
    if c =? sep then [] :: split_on sep t
    else match split_on sep t with
         | x :: r => (c :: x) :: r
         | [] => [[c]]
         end
  end.

(** MFT.py:1078-1093 compare_name_against_file_record.  [upper] is str.upper,
    a parameter here. *)
Definition compare_name (upper : list Z -> list Z) (cs : bool) (name : list Z) (fr : file_record)
  : result (option Z) :=
  gfirst (fun a =>
    let! v := value_of_type ATTR_TYPE_FILE_NAME a in
    match v with
    | None => Ok None
    | Some v =>
      let! n := fn_name v in
      if (if cs then zlist_eqb n name else zlist_eqb (upper n) (upper name))
      then let! p := fn_parent v in Ok (Some p) else Ok None
    end) (fr_attributes fr).

(** MFT.py:1115-1131: candidates for the last path component. *)
Fixpoint candidates_loop (fuel : nat) (upper : list Z -> list Z) (p : mft) (cs : bool)
    (name : list Z) (must_be_dir : bool) (i : Z) : result (list (Z * file_record)) :=
  match fuel with
  | O => Err OutOfFuel
  | S fuel =>
    if i * m_frs_size p <? m_file_size p then
      match by_number p i None false with
      | Err e => if is_mft_exn e then candidates_loop fuel upper p cs name must_be_dir (i + 1)
                 else Err e
      | Ok fr =>
        let! parent := compare_name upper cs name fr in
        let! rest := candidates_loop fuel upper p cs name must_be_dir (i + 1) in
        match parent with
        | Some r => if fr_in_use fr && (negb must_be_dir || fr_directory fr)
                    then Ok ((r, fr) :: rest) else Ok rest
        | None => Ok rest
        end
      end
    else Ok []
  end.

(** MFT.py:1141-1163: does the chain of parents match?  The recursion is on the
    remaining components, since each round uses one. *)
Fixpoint parents_match (upper : list Z -> list Z) (p : mft) (cs : bool) (ref : Z)
    (comps : list (list Z)) : result bool :=
  let num := fst (decode_ref ref) in
  let seq := snd (decode_ref ref) in
  if num =? FILE_NUMBER_ROOT then Ok (match comps with [] => true | _ => false end) else
  match by_number p num (Some seq) false with
  | Err e => if is_mft_exn e then Ok false else Err e
  | Ok fr =>
    match comps with
    | [] => Ok false
    | c :: t =>
      let! parent := compare_name upper cs c fr in
      match parent with
      | None => Ok false
      | Some r => parents_match upper p cs r t
      end
    end
  end.

Fixpoint try_candidates (upper : list Z -> list Z) (p : mft) (cs : bool) (comps : list (list Z))
    (l : list (Z * file_record)) : result (option file_record) :=
  match l with
  | [] => Ok None
  | (r, fr) :: t => let! ok := parents_match upper p cs r comps in
                    if (ok : bool) then Ok (Some fr) else try_candidates upper p cs comps t
  end.

Definition dot : list Z := [46].
Definition dotdot : list Z := [46; 46].
Definition lin (x : list Z) (l : list (list Z)) : bool := existsb (zlist_eqb x) l.

(** MFT.py:1072-1163 get_file_record_by_path. *)
Definition by_path (upper : list Z -> list Z) (p : mft) (path : list Z) (cs : bool)
  : result (option file_record) :=
  match path with
  | [] => Err MasterFileTableException
  | c :: _ =>
    if negb (c =? PATH_SEPARATOR) || zlist_eqb path [PATH_SEPARATOR; PATH_SEPARATOR]
    then Err MasterFileTableException else
    let strip := (1 <? zlen path) && (last path 0 =? PATH_SEPARATOR) in
    let path := if strip then removelast path else path in
    if zlist_eqb path [PATH_SEPARATOR]
    then let! fr := by_number p FILE_NUMBER_ROOT None true in Ok (Some fr) else
    let comps := split_on PATH_SEPARATOR path in
    let! cands := candidates_loop (S (length (m_data p))) upper p cs (last comps []) strip 0 in
    let comps := rev (removelast (tl comps)) in
    if lin [] comps || lin dot comps || lin dotdot comps then Err MasterFileTableException else
    try_candidates upper p cs comps cands
  end.

(** MFT.py:1171-1195 get_preferred_file_name. *)
Definition preferred (flags : Z) : bool := (0 <? Z.land flags FILE_NAME_NTFS) || (flags =? 0).

Definition preferred_name (fr : file_record) : result (list Z * Z) :=
  let! names := gcollect (fun a =>
    let! v := value_of_type ATTR_TYPE_FILE_NAME a in
    match v with
    | None => Ok None
    | Some v => let! f := fn_flags v in let! n := fn_name v in let! r := fn_parent v in
                Ok (Some (f, (n, r)))
    end) (fr_attributes fr) in
  match names with
  | [] => Err MasterFileTableException
  | (_, first) :: _ =>
    match find (fun x => preferred (fst x)) names with
    | Some (_, x) => Ok x
    | None => Ok first
    end
  end.

(** MFT.py:1243-1272: the walk to the root; [comps] is path_components (the
    nearest component first). *)
Fixpoint climb (fuel : nat) (p : mft) (track : list Z) (fr : file_record) (comps : list (list Z))
  : result (list (list Z)) :=
  match fuel with
  | O => Err OutOfFuel
  | S fuel =>
    let! (name, ref) := preferred_name fr in
    let num := fst (decode_ref ref) in
    let seq := snd (decode_ref ref) in
    let comps := comps ++ [name] in
    if zin num track then Ok (comps ++ [UNKNOWN_PATH_PLACEHOLDER]) else
    match by_number p num (Some seq) false with
    | Err e => if is_mft_exn e then Ok (comps ++ [UNKNOWN_PATH_PLACEHOLDER]) else Err e
    | Ok fr' =>
      if num =? FILE_NUMBER_ROOT then Ok (comps ++ [[]]) else
      if negb (fr_directory fr') then Ok (comps ++ [UNKNOWN_PATH_PLACEHOLDER]) else
      climb fuel p (num :: track) fr' comps
    end
  end.

(** MFT.py:1214-1279: the path for one $FILE_NAME value. *)
Definition path_for (p : mft) (v : list Z) : result (list Z) :=
  let! name := fn_name v in
  let! ref := fn_parent v in
  let num := fst (decode_ref ref) in
  let seq := snd (decode_ref ref) in
  let! comps :=
    (if num =? FILE_NUMBER_ROOT then Ok [name; []] else
     match by_number p num (Some seq) false with
     | Err e => if is_mft_exn e then Ok [name; UNKNOWN_PATH_PLACEHOLDER] else Err e
     | Ok fr =>
       if negb (fr_directory fr) then Ok [name; UNKNOWN_PATH_PLACEHOLDER] else
       climb (S (S (length (m_data p)))) p [num] fr [name]
     end) in
  Ok (join PATH_SEPARATOR (rev comps)).

Fixpoint paths_for (p : mft) (l : list (list Z)) : result (list (list Z * list Z)) :=
  match l with
  | [] => Ok []
  | v :: t => let! s := path_for p v in let! r := paths_for p t in Ok ((s, v) :: r)
  end.

(** MFT.py:1200-1212: preferred names are inserted in front, others appended. *)
Definition order_names (l : list (Z * list Z)) : list (list Z) :=
  fold_left (fun acc x => if preferred (fst x) then snd x :: acc else acc ++ [snd x]) l [].

(** MFT.py:1165-1279 build_full_paths; the pairs of the variant with
    include_attributes, whose first components are the plain result. *)
Definition build_full_paths (p : mft) (fr : file_record) : result (list (list Z * list Z)) :=
  let! names := gcollect (fun a =>
    let! v := value_of_type ATTR_TYPE_FILE_NAME a in
    match v with
    | None => Ok None
    | Some v => let! f := fn_flags v in Ok (Some (f, v))
    end) (fr_attributes fr) in
  paths_for p (order_names names).
