(** Model of the reports of the script /repo/ntfs_parser: process_mft (79-292),
    process_usn (294-329), process_indx (729-861) and process_mem (883-891),
    with format_timestamp (10-14), hexdump (16-62) and format_source (64-71).

    A report is the list of rows given to csv_writer.writerow, with the way it
    ended (rows written before an exception stay written).  A cell is a text, an
    integer, or a timestamp: the number of microseconds since the day with
    ordinal 0; the calendar text made by strftime or str and the quoting of the
    csv module are not modelled.  None is written by the csv module as an empty
    text.  Files are byte strings, as in Mft.v and Usn.v. *)
From Coq Require Import String Ascii.
From Verif Require Import Base MappingPairs Frs FileRecord FragmentedFile Filetime Attributes Mft Carve Wsl Usn.

Definition txt (s : string) : list Z := map (fun c => Z.of_N (N_of_ascii c)) (list_ascii_of_string s).

Inductive cell : Type := Txt (s : list Z) | Num (n : Z) | Stamp (us : Z).
Definition row : Type := list cell.
Definition blank : cell := Txt [].
Definition unsure : cell := Txt (txt "?").

(** ntfs_parser:10-14; the datetime is given by the ordinal of its epoch and
    the microseconds since then. *)
Definition format_timestamp (epoch : Z) (t : option Z) : cell :=
  match t with
  | None => Txt (txt "N/A")
  | Some us => Stamp (epoch * us_per_day + us)
  end.

(** ntfs_parser:64-71; the source text is never None or empty. *)
Definition format_source (source : list Z) (tag : option (list Z)) : cell :=
  match tag with
  | None | Some [] => Txt source
  | Some t => Txt (source ++ txt " (" ++ t ++ txt ")")
  end.

(** [for x in g: ...], the body writing rows. *)
Fixpoint grows_in {A B} (f : A -> gen B) (l : list A) (st : status) : gen B :=
  match l with
  | [] => ([], st)
  | a :: t => match f a with
              | (r, Done) => gapp r (grows_in f t st)
              | (r, Raised e) => (r, Raised e)
              end
  end.
Definition grows {A B} (f : A -> gen B) (g : gen A) : gen B := grows_in f (fst g) (snd g).

(** Rows of a computation that may raise before writing. *)
Definition grun {A B} (r : result A) (k : A -> gen B) : gen B :=
  match r with Ok x => k x | Err e => ([], Raised e) end.
(** One part after another. *)
Definition gseq {B} (g : gen B) (h : gen B) : gen B :=
  match g with (r, Done) => gapp r h | _ => g end.

(** ** The file records *)

(** Attributes.py:12, 15, 20, 25; the other constants are defined elsewhere. *)
Definition ATTR_TYPE_STANDARD_INFORMATION : Z := 0x10.
Definition ATTR_TYPE_OBJECT_ID : Z := 0x40.
Definition ATTR_TYPE_INDEX_ROOT : Z := 0x90.
Definition ATTR_TYPE_EA : Z := 0xE0.
Definition LXATTRB_NAME : list Z := txt "LXATTRB" ++ [0].

(** The variables set in the loop over the attributes, 97-143. *)
Record facts : Type := mk_facts {
  fa_si : option (list Z);
  fa_size : option Z;
  fa_ads : list (list Z);            (* a set, in order of insertion *)
  fa_objid : option Z;
  fa_wsl : option (Z * Z * Z)        (* M, A, CH; None: not wsl_found *)
}.

Definition set_add (x : list Z) (l : list (list Z)) : list (list Z) :=
  if lin x l then l else l ++ [x].

(** 117-128: the entries of an extended attribute. *)
Fixpoint wsl_in (l : list (list Z * Z * list Z)) (st : status) (w : option (Z * Z * Z))
  : result (option (Z * Z * Z)) :=
  match l with
  | [] => match st with Done => Ok w | Raised e => Err e end
  | (name, _, value) :: t =>
    if zlist_eqb name LXATTRB_NAME then
      match lxb_open value with
      | Err ValueError => wsl_in t st w
      | Err e => Err e
      | Ok b => let! a := lxb_atime b in
                let! m := lxb_mtime b in
                let! c := lxb_chtime b in
                wsl_in t st (Some (m, a, c))
      end
    else wsl_in t st w
  end.

(** 104-143: the body of the loop. *)
Definition facts_step (s : facts) (a : attr) : result facts :=
  match a with
  | Resident ty name v =>
    if ty =? ATTR_TYPE_INDEX_ALLOCATION then Err AttributeError_py else
    let si := match fa_si s with
              | None => if ty =? ATTR_TYPE_STANDARD_INFORMATION then Some v else None
              | x => x end in
    let! oid := match fa_objid s with
                | None => if ty =? ATTR_TYPE_OBJECT_ID then oid_timestamp v else Ok None
                | x => Ok x end in
    let! wsl := match fa_wsl s with
                | None => if ty =? ATTR_TYPE_EA
                          then let (l, st) := ea_data v in wsl_in l st None else Ok None
                | x => Ok x end in
    let data := ty =? ATTR_TYPE_DATA in
    let size := match fa_size s, name with
                | None, None => if data then Some (zlen v) else None
                | x, _ => x end in
    let ads := match name with
               | Some n => if data then set_add n (fa_ads s) else fa_ads s
               | None => fa_ads s end in
    Ok (mk_facts si size ads oid wsl)
  | Nonresident ty name _ _ lo _ fsize =>
    let data := ty =? ATTR_TYPE_DATA in
    let size := match fa_size s, name with
                | None, None => if data && (lo =? 0) then Some fsize else None
                | x, _ => x end in
    let ads := match name with
               | Some n => if data then set_add n (fa_ads s) else fa_ads s
               | None => fa_ads s end in
    Ok (mk_facts (fa_si s) size ads (fa_objid s) (fa_wsl s))
  end.

Fixpoint facts_in (s : facts) (l : list attr) (st : status) : result facts :=
  match l with
  | [] => match st with Done => Ok s | Raised e => Err e end
  | a :: t => let! s' := facts_step s a in facts_in s' t st
  end.
Definition facts_of (g : gen attr) : result facts :=
  facts_in (mk_facts None None [] None None) (fst g) (snd g).

(** [sorted] on texts: by code points, a proper prefix first. *)
Fixpoint text_leb (a b : list Z) : bool :=
  match a, b with
  | [], _ => true
  | _ :: _, [] => false
  | x :: s, y :: t => if x <? y then true else if y <? x then false else text_leb s t
  end.
Fixpoint text_insert (x : list Z) (l : list (list Z)) : list (list Z) :=
  match l with
  | [] => [x]
  | y :: t => if text_leb x y then x :: l else y :: text_insert x t
  end.
Fixpoint text_sort (l : list (list Z)) : list (list Z) :=
  match l with [] => [] | x :: t => text_insert x (text_sort t) end.

Definition filetime_cell := format_timestamp ordinal_1601.
Definition yes_no (b : bool) : cell := if b then Txt (txt "Y") else Txt (txt "N").
Definition opt_num (x : option Z) : cell := match x with Some n => Num n | None => blank end.

(** 160-171: the cells M, A, C, E and USN of $STANDARD_INFORMATION. *)
Definition si_cells (si : option (list Z)) : result (list cell) :=
  match si with
  | None => Ok [blank; blank; blank; blank; blank]
  | Some v =>
    let! m := si_mtime v in let! a := si_atime v in
    let! c := si_ctime v in let! e := si_etime v in
    let! u := si_usn v in
    Ok [filetime_cell m; filetime_cell a; filetime_cell c; filetime_cell e; opt_num u]
  end.

(** 192-195, 227-230: the cells M, A, C, E of $FILE_NAME. *)
Definition fn_cells (v : list Z) : result (list cell) :=
  let! m := fna_mtime v in let! a := fna_atime v in
  let! c := fna_ctime v in let! e := fna_etime v in
  Ok [filetime_cell m; filetime_cell a; filetime_cell c; filetime_cell e].

(** 186: EncodeFileRecordSegmentReference(number, sequence number). *)
Definition fr_reference (fr : file_record) : result Z :=
  match frs_mft_number (fr_base fr) with
  | Some n => Ok (encode_ref n (h_sequence (frs_data (fr_base fr))))
  | None => Err TypeError
  end.

(** 145-158, 197: the cells after the $FILE_NAME timestamps. *)
Definition tail_cells (fa : facts) : list cell :=
  let oid := match fa_objid fa with None => blank | Some us => format_timestamp ordinal_1582 (Some us) end in
  let size := match fa_size fa with None => unsure | Some n => Num n end in
  let ads := Txt (join 32 (text_sort (fa_ads fa))) in
  let unix := fun us => format_timestamp ordinal_1970 (Some us) in
  oid :: size :: ads ::
  match fa_wsl fa with
  | None => [blank; blank; blank]
  | Some (m, a, c) => [unix m; unix a; unix c]
  end.

(** 97-199: the rows of the record itself. *)
Definition record_rows (tag : option (list Z)) (fr : file_record) (paths : list (list Z * list Z)) : gen row :=
  grun (facts_of (fr_attributes fr)) (fun fa =>
  grun (si_cells (fa_si fa)) (fun si =>
  grun (fr_reference fr) (fun ref =>
  let d := frs_data (fr_base fr) in
  let head := [format_source (txt "File record") tag; Num ref; yes_no (fr_in_use fr);
               yes_no (fr_directory fr); Num (h_lsn d)] in
  match paths with
  | [] => ([head ++ [blank] ++ si ++ [blank; blank; blank; blank] ++ tail_cells fa], Done)
  | _ =>
    grows (fun x => grun (fn_cells (snd x)) (fun fn =>
             ([head ++ [Txt (fst x)] ++ si ++ fn ++ tail_cells fa], Done))) (paths, Done)
  end))).

(** 215-221: the path of a name found in a directory with these paths. *)
Definition under (dir : option (list Z)) (name : list Z) : list Z :=
  match dir with
  | Some d => join PATH_SEPARATOR [if zlist_eqb d [47; 46] then [] else d; name]
  | None => join PATH_SEPARATOR [txt "<Unknown>"; name]
  end.
Definition first_path (paths : list (list Z * list Z)) : option (list Z) :=
  match paths with [] => None | x :: _ => Some (fst x) end.

Definition DUP_FILE_NAME_INDEX_PRESENT : Z := 0x10000000. (* Attributes.py:83 *)
Definition fn_directory (v : list Z) : result bool :=
  let! a := fna_file_attributes v in Ok (0 <? Z.land a DUP_FILE_NAME_INDEX_PRESENT).

(** 211-234, 247-289: the row for a $FILE_NAME value found elsewhere; the path
    is computed in [path]. *)
Definition name_row (source : cell) (ref : cell) (path : result (list Z)) (v : list Z) : result row :=
  let! s := path in
  let! dir := fn_directory v in
  let! fn := fn_cells v in
  let! size := fna_file_size v in
  Ok ([source; ref; unsure; yes_no dir; blank; Txt s; blank; blank; blank; blank; blank] ++ fn ++
      [blank; Num size; blank; blank; blank; blank]).

(** 205-212: the first $INDEX_ROOT for file names. *)
Definition name_index (fr : file_record) : result (option (list Z)) :=
  gfirst (fun a =>
    let! v := value_of_type ATTR_TYPE_INDEX_ROOT a in
    match v with
    | None => Ok None
    | Some v => let! ty := ir_type_code v in Ok (if ty =? ATTR_TYPE_FILE_NAME then Some v else None)
    end) (fr_attributes fr).

(** 214-241: one index entry. *)
Definition root_entry_rows (tag : option (list Z)) (paths : list (list Z * list Z)) (e : list Z) : gen row :=
  grun (ie_attribute e) (fun v =>
  match v with
  | None => ([], Done)
  | Some v =>
    grun (let! name := fna_name v in
          let! ref := ie_reference e in
          name_row (format_source (txt "Index record") tag) (Num ref) (Ok (under (first_path paths) name)) v)
      (fun r => ([r], Done))
  end).

Definition index_rows (tag : option (list Z)) (fr : file_record) (paths : list (list Z * list Z)) : gen row :=
  if fr_directory fr then
    grun (name_index fr) (fun ir =>
    match ir with
    | None => ([], Done)
    | Some v => grows (root_entry_rows tag paths) (ir_index_entries v)
    end)
  else ([], Done).

(** 251-262, 778-787, 824-833: the first path of the record with this reference,
    None when there is no such record or path. *)
Definition lookup_path (p : mft) (n : Z) (seq : option Z) : result (option (list Z)) :=
  match (let! fr := by_number p n seq true in build_full_paths p fr) with
  | Err e => if is_mft_exn e then Ok None else Err e
  | Ok paths => Ok (first_path paths)
  end.

(** 246-292: one item carved from slack space. *)
Definition slack_item_rows (p : mft) (tag : option (list Z)) (item : carved) : gen row :=
  let source := format_source (txt "Slack") tag in
  match item with
  | CName v =>
    grun (name_row source unsure
            (let! ref := fna_parent v in
             let! dir := lookup_path p (fst (decode_ref ref)) (Some (snd (decode_ref ref))) in
             let! name := fna_name v in
             Ok (under dir name)) v)
      (fun r => ([r], Done))
  | CPartial name =>
    ([[source; unsure; unsure; unsure; blank;
       Txt (join PATH_SEPARATOR [txt "<Unknown, likely the same as above>";
              txt "<Can be partially overwritten or start with a wrong character>" ++ name]);
       blank; blank; blank; blank; blank; unsure; unsure; unsure; unsure; blank; unsure;
       blank; blank; blank; blank]], Done)
  end.

Definition slack_rows (p : mft) (tag : option (list Z)) (fr : file_record) : gen row :=
  grows (fun s => grows (slack_item_rows p tag) (carve [s] true)) (fr_slack fr).

(** 88-292: the body of the loop. *)
Definition mft_record_rows (p : mft) (tag : option (list Z)) (fr : file_record) : gen row :=
  match build_full_paths p fr with
  | Err e => if is_mft_exn e then ([], Done) else ([], Raised e)
  | Ok paths => gseq (record_rows tag fr paths) (gseq (index_rows tag fr paths) (slack_rows p tag fr))
  end.

(** 85. *)
Definition mft_header : row := map (fun s => Txt (txt s))
  ["Source"; "MFT reference number"; "Is in use"; "Is directory"; "Log file sequence number"; "Path";
   "$SI M timestamp"; "$SI A timestamp"; "$SI C timestamp"; "$SI E timestamp"; "$SI USN value";
   "$FN M timestamp"; "$FN A timestamp"; "$FN C timestamp"; "$FN E timestamp"; "$OBJID timestamp";
   "File size"; "ADS list"; "WSL M timestamp"; "WSL A timestamp"; "WSL CH timestamp"]%string.

(** 79-292. *)
Definition process_mft (data : list Z) (header : bool) (tag : option (list Z)) : gen row :=
  grun (mft_open data true) (fun p =>
  gseq (if header then [mft_header] else [], Done) (grows (mft_record_rows p tag) (file_records p false))).

(** ** The change journal *)

(** A resolved list of codes; its text is ' | '.join(...) (USN.py). *)
Definition usn_path (p : mft) (ref : Z) : result (list Z) :=
  let! s := lookup_path p (fst (decode_ref ref)) (Some (snd (decode_ref ref))) in
  Ok (match s with Some s => s | None => [] end).

Record usn_row : Type := mk_usn_row {
  uw_usn : Z; uw_source : list code_item; uw_reason : list code_item; uw_ref : Z; uw_parent : Z;
  uw_time : cell; uw_name : list Z; uw_path : list Z }.

(** 302-329. *)
Definition usn_row_of (p : mft) (r : usn_rec) : result usn_row :=
  let! usn := ur_usn r in
  let! source := ur_source r in
  let! reason := ur_reason r in
  let! ref := ur_file_reference r in
  let! parent := ur_parent_reference r in
  let! (time, name) :=
    (if ur_version r =? 4 then Ok (blank, []) else
     let! t := ur_timestamp r in let! n := ur_file_name r in Ok (filetime_cell t, n)) in
  let! path := usn_path p ref in
  Ok (mk_usn_row usn (resolve_source_codes source) (resolve_reason_codes reason) ref parent time name path).

(** 294-329, without the header row. *)
Definition process_usn (journal mft_data : list Z) : gen usn_row :=
  grun (mft_open mft_data true) (fun p =>
  grows (fun x => grun (usn_row_of p (snd x)) (fun r => ([r], Done))) (usn_records journal)).

(** ** The index buffers *)

(** 770-801, 822-849: the path of a name in an index of the record; note that
    the record looked up is the one the index belongs to. *)
Definition indx_path (p : mft) (n seq : Z) (paths : list (list Z * list Z)) (v : list Z) : result (list Z) :=
  let! parent := fna_parent v in
  let! dir := (if parent =? encode_ref n seq then Ok (first_path paths)
               else lookup_path p n (Some seq)) in
  let! name := fna_name v in
  Ok (under dir name).

(** 770-818: the row of a $FILE_NAME value. *)
Definition indx_row (p : mft) (n seq : Z) (paths : list (list Z * list Z)) (source : list Z) (ref : result cell)
    (v : list Z) : result row :=
  let! s := indx_path p n seq paths v in
  let! ref := ref in
  let! dir := fn_directory v in
  let! fn := fn_cells v in
  let! size := fna_file_size v in
  Ok ([Txt source; ref; yes_no dir; Txt s] ++ fn ++ [Num size]).

(** 763-818: one entry; shorter values are skipped. *)
Definition indx_entry_rows (p : mft) (n seq : Z) (paths : list (list Z * list Z)) (e : list Z) : gen row :=
  grun (ie_attribute e) (fun v =>
  match v with
  | None => ([], Done)
  | Some v =>
    if zlen v <=? 66 then ([], Done) else
    grun (indx_row p n seq paths (txt "Index record") (let! r := ie_reference e in Ok (Num r)) v)
      (fun r => ([r], Done))
  end).

(** 819-861: one name carved from the slack of the index. *)
Definition indx_slack_rows (p : mft) (n seq : Z) (paths : list (list Z * list Z)) (item : carved) : gen row :=
  match item with
  | CName v => grun (indx_row p n seq paths (txt "Index slack") (Ok unsure) v) (fun r => ([r], Done))
  | CPartial _ => ([], Raised AttributeError_py)   (* a text has no get_parent_directory *)
  end.

Definition name_I30 : list Z := txt "$I30".

(** 752-861: one attribute. *)
Definition indx_attr_rows (vol : list Z) (voff cs : Z) (p : mft) (n seq : Z) (paths : list (list Z * list Z))
    (a : attr) : gen row :=
  match a with
  | Resident _ _ _ => ([], Done)
  | Nonresident ty name _ runs _ _ size =>
    if name_eqb name (Some name_I30) && (ty =? ATTR_TYPE_INDEX_ALLOCATION) then
      let f := ff_open vol voff cs runs size in
      gseq (grows (fun b => grows (indx_entry_rows p n seq paths) (ib_index_entries (snd b))) (ia_index_buffers f))
           (grun (ia_slack f) (fun l => grows (indx_slack_rows p n seq paths) (carve l false)))
    else ([], Done)
  end.

(** 738-861: the body of the loop over the file records. *)
Definition indx_record_rows (vol : list Z) (voff cs : Z) (p : mft) (fr : file_record) : gen row :=
  match build_full_paths p fr with
  | Err e => if is_mft_exn e then ([], Done) else ([], Raised e)
  | Ok paths =>
    match frs_mft_number (fr_base fr) with
    | None => ([], Raised TypeError)
    | Some n => grows (indx_attr_rows vol voff cs p n (h_sequence (frs_data (fr_base fr))) paths)
                      (fr_attributes_merged fr)
    end
  end.

(** 729-861, without the header row; the volume has been opened (Volume.v), [cs]
    is its cluster size and [mft_data] the content of its $MFT file. *)
Definition process_indx (vol : list Z) (voff cs : Z) (mft_data : list Z) : gen row :=
  grun (mft_open mft_data true) (fun p =>
  grows (indx_record_rows vol voff cs p) (file_records p false)).

(** ** File control blocks: 883-891, without the header row. *)
Definition plain_time (t : option Z) : cell :=
  match t with Some us => Stamp (ordinal_1601 * us_per_day + us) | None => blank end.
Definition process_mem (data : list Z) : gen row :=
  let (l, st) := fst (carve_fcb data None) in
  (map (fun x => [Num (fc_reference x); plain_time (fc_mtime x); plain_time (fc_atime x);
                  plain_time (fc_ctime x); plain_time (fc_etime x); plain_time (fc_real x)]) l, st).

(** ** Hexadecimal dumps: 16-62. *)

Definition hex_digit (n : Z) : Z := if n <? 10 then 48 + n else 55 + n.

(** '{:X}' of a non-negative number. *)
Fixpoint hex_digits (fuel : nat) (n : Z) (acc : list Z) : list Z :=
  match fuel with
  | O => acc
  | S f => let acc := hex_digit (n mod 16) :: acc in
           if n / 16 =? 0 then acc else hex_digits f (n / 16) acc
  end.
Definition hex (n : Z) : list Z := hex_digits (S (Z.to_nat (Z.log2 n))) n [].
(** '{:0wX}', str.zfill: zeros in front up to the width. *)
Definition zfill (w : Z) (s : list Z) : list Z := repeat 48 (Z.to_nat (w - zlen s)) ++ s.
Definition int2hex (n : Z) : list Z := zfill 2 (hex n).

(** 38-52: the byte [k] of a line with [n] bytes, and what follows. *)
Fixpoint hex_line (k n : Z) (l : list Z) : list Z :=
  match l with
  | [] => []
  | b :: t => int2hex b ++
              (if (k =? 7) && negb (k =? n - 1) then [45] else if negb (k =? n - 1) then [32] else []) ++
              hex_line (k + 1) n t
  end.
Definition ascii_line (l : list Z) : list Z :=
  map (fun b => if (32 <=? b) && (b <=? 126) then b else 46) l.

Definition dump_line (i : Z) (l : list Z) : list Z :=
  let pad := 16 - zlen l in
  zfill 8 (int2hex i) ++ [32; 32] ++ hex_line 0 (zlen l) l ++
  (if 0 <? pad then repeat 32 (Z.to_nat (3 * pad)) else []) ++ [32; 32] ++ ascii_line l.

Fixpoint dump_loop (fuel : nat) (buf : list Z) (i : Z) : result (list Z) :=
  match fuel with
  | O => Err OutOfFuel
  | S f =>
    if negb (i <? zlen buf) then Ok [] else
    let! rest := dump_loop f buf (i + 16) in
    Ok (dump_line i (slice buf i (i + 16)) ++ (if i + 16 <? zlen buf then 10 :: rest else rest))
  end.
Definition hexdump (buf : list Z) : result (list Z) :=
  if zlen buf =? 0 then Ok [45] else dump_loop (S (length buf)) buf 0.
