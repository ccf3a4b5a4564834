(** Model of the carvers in /repo/dfir_ntfs/MFT.py: SlackSpace (600-737) and
    MetadataCarver (1591-1769).

    A file name carved is the buffer given to Attributes.FileName (its getters
    are modelled in Attributes.v).  A recognizable partial name is a list of
    characters.  [except Exception: pass] catches everything the getters
    raise. *)
From Verif Require Import Base Filetime Attributes.

(** ** Slack space *)

(** MFT.py:609-610. *)
Definition ts_not_before : Z := 125000000000000000.
Definition ts_not_after : Z := 145000000000000000.

(** MFT.py:619-620 validate_timestamp. *)
Definition valid_timestamp (t : Z) : bool := (ts_not_before <=? t) && (t <=? ts_not_after).

(** MFT.py:622-629 validate_file_name. *)
Definition valid_file_name (n : list Z) : bool :=
  if (zlen n =? 0) || (255 <? zlen n) then false else
  if zin 47 n || zin 0 n then false else true.

(** MFT.py:644, 658, 661. *)
Definition ff8 : list Z := repeat 255 8.

(** MFT.py:650-661: the position and the buffer of a possible attribute. *)
Definition slack_candidate (v : list Z) (pos : Z) : option (Z * list Z) :=
  if 8 <=? pos then Some (pos - 8, zdrop (pos - 8) v)
  else if pos =? 4 then Some (0, ff8 ++ zdrop 4 v)
  else if pos =? 0 then Some (0, ff8 ++ v)
  else None.

(** MFT.py:663-669: all getters used succeed. *)
Definition slack_name (buf : list Z) : result (list Z) :=
  let! _ := fna_mtime buf in
  let! _ := fna_atime buf in
  let! _ := fna_ctime buf in
  let! _ := fna_etime buf in
  fna_name buf.

(** MFT.py:638-683: the attributes and the position of the first one. *)
Fixpoint slack_loop (fuel : nat) (v : list Z) (pos : Z) : result (list (Z * list Z)) :=
  match fuel with
  | O => Err OutOfFuel
  | S n =>
    if negb (pos <? zlen v) then Ok [] else
    let buf := slice v pos (pos + 32) in
    if negb (zlen buf =? 32) then Ok [] else
    let next := slack_loop n v (pos + 2) in
    if forallb valid_timestamp [fld 8 buf 0; fld 8 buf 8; fld 8 buf 16; fld 8 buf 24] then
      match slack_candidate v pos with
      | Some (apos, abuf) =>
        match slack_name abuf with
        | Ok name =>
          if valid_file_name name
          then let! r := slack_loop n v (pos + 68) in Ok ((apos, abuf) :: r)
          else next
        | Err _ => next
        end
      | None => next
      end
    else next
  end.

(** MFT.py:690. *)
Definition printable (c : Z) : bool :=
  (97 <=? c) && (c <=? 122) || (65 <=? c) && (c <=? 90) || (48 <=? c) && (c <=? 57) ||
  zin c [33; 34; 35; 36; 37; 38; 39; 40; 41; 42; 43; 44; 45; 46; 59; 60; 61; 62; 63; 64; 91; 93; 94; 95; 96;
         123; 124; 125; 126; 32; 9].

(** MFT.py:695-700: skip trailing null characters. *)
Fixpoint skip_nulls (fuel : nat) (s : list Z) (pos : Z) : result Z :=
  match fuel with
  | O => Err OutOfFuel
  | S n =>
    if negb (0 <? pos) then Ok pos else
    if negb (zlist_eqb (slice s pos (pos + 2)) [0; 0]) then Ok pos else skip_nulls n s (pos - 2)
  end.

(** MFT.py:707-725; [acc] is file_name_reversed. *)
Fixpoint partial_name (fuel : nat) (s : list Z) (pos : Z) (acc : list Z) : result (list Z) :=
  match fuel with
  | O => Err OutOfFuel
  | S n =>
    if negb (0 <? pos) then Ok acc else
    let! b1 := index s pos in
    let! b2 := index s (pos + 1) in
    if printable b1 && (b2 =? 0) then partial_name n s (pos - 2) (acc ++ [b1])
    else if 5 <=? zlen acc then Ok acc
    else partial_name n s (pos - 2) []
  end.

Inductive carved := CName (buf : list Z) | CPartial (name : list Z).

(** MFT.py:631-728 carve_internal. *)
Definition carve_internal (v : list Z) (yield_partial : bool) : gen carved :=
  if negb (8 <=? zlen v) then ([], Done) else
  match slack_loop (S (length v)) v (zlen v mod 2) with
  | Err e => ([], Raised e)
  | Ok l =>
    let names := map (fun x => CName (snd x)) l in
    match l with
    | (first, _) :: _ =>
      if yield_partial && (10 <=? first) then
        let s := ztake first v in
        match (let! p := skip_nulls (S (length v)) s (first - 2) in
               if 0 <? p then partial_name (S (length v)) s p [] else Ok []) with
        | Err e => (names, Raised e)
        | Ok acc => if 5 <=? zlen acc then (names ++ [CPartial (rev acc)], Done) else (names, Done)
        end
      else (names, Done)
    | [] => (names, Done)
    end
  end.

(** MFT.py:612, 730-737 carve, for a list of values (a single value is a list
    with one). *)
Fixpoint carve (l : list (list Z)) (yield_partial : bool) : gen carved :=
  match l with
  | [] => ([], Done)
  | v :: t =>
    let (a, s) := carve_internal v yield_partial in
    match s with Done => gapp a (carve t yield_partial) | Raised _ => (a, s) end
  end.

(** ** File control blocks in memory *)

(** MFT.py:1607-1608. *)
Definition fcb_min : Z := 123000000000000000.
Definition fcb_max : Z := 135000000000000000.
Definition fcb_time (t : Z) : bool := negb ((t <? fcb_min) || (fcb_max <? t)).

(** MFT.py:1589. *)
Record fcb := mk_fcb {
  fc_reference : Z;
  fc_mtime : option Z; fc_atime : option Z; fc_ctime : option Z; fc_etime : option Z; fc_real : option Z;
  fc_pos : Z; fc_dup : Z; fc_atime_pos : Z }.

Definition four_times (buf : list Z) : list Z := [fld 8 buf 0; fld 8 buf 8; fld 8 buf 16; fld 8 buf 24].

(** MFT.py:1643-1662: search for the duplicated information. *)
Fixpoint find_dup (fuel : nat) (page : list Z) (at_ pos : Z) : result (option Z) :=
  match fuel with
  | O => Err OutOfFuel
  | S n =>
    if negb ((pos <? zlen page) && (pos <? 144)) then Ok None else
    let buf := slice page (at_ + pos) (at_ + pos + 32) in
    if negb (zlen buf =? 32) then Ok None else
    if forallb fcb_time (four_times buf) then Ok (Some pos) else find_dup n page at_ (pos + 2)
  end.

(** MFT.py:1694-1707: search for the last access timestamp. *)
Fixpoint find_real (fuel : nat) (page : list Z) (at_ pos : Z) : result (option Z) :=
  match fuel with
  | O => Err OutOfFuel
  | S n =>
    if negb ((pos <? zlen page) && (pos <? 208)) then Ok None else
    let buf := slice page (at_ + pos) (at_ + pos + 8) in
    if negb (zlen buf =? 8) then Ok None else
    if fcb_time (le_val buf) then Ok (Some pos) else find_real n page at_ (pos + 2)
  end.

(** MFT.py:1611-1612: both guesses are None, or both are set. *)
Definition guess := option (Z * Z).

Inductive fcb_result := FStop | FMiss | FHit (dup real : Z).

(** MFT.py:1636-1718: the candidate at [at_] of a page. *)
Definition fcb_probe (page : list Z) (g : guess) (at_ : Z) : result fcb_result :=
  match g with
  | None =>
    let! d := find_dup 73 page at_ 0 in
    match d with
    | None => Ok FMiss
    | Some d =>
      let! a := find_real 105 page at_ (d + 56) in
      Ok (match a with Some a => FHit d a | None => FMiss end)
    end
  | Some (gd, ga) =>
    let buf := slice page (at_ + gd) (at_ + gd + 32) in
    if negb (zlen buf =? 32) then Ok FStop else
    if forallb fcb_time (four_times buf) then
      let buf := slice page (at_ + ga) (at_ + ga + 8) in
      if (zlen buf =? 8) && fcb_time (le_val buf) then Ok (FHit gd ga) else Ok FMiss
    else Ok FMiss
  end.

(** MFT.py:1678-1687, 1720-1726: the item for a hit (the timestamps are
    decoded before the search for the last one, without any other effect). *)
Definition fcb_item (page : list Z) (file_pos at_ d a : Z) : result fcb :=
  let dup := slice page (at_ + d) (at_ + d + 32) in
  let! c := decode_filetime (fld 8 dup 0) true in
  let! m := decode_filetime (fld 8 dup 8) true in
  let! e := decode_filetime (fld 8 dup 16) true in
  let! t := decode_filetime (fld 8 dup 24) true in
  let! r := decode_filetime (le_val (slice page (at_ + a) (at_ + a + 8))) true in
  let! ref := u64 page (at_ + 8) in
  Ok (mk_fcb ref m t c e r (file_pos + at_) d a).

(** MFT.py:1628-1733: a page; b'\x02\x07' is MFT.py:43. *)
Fixpoint fcb_page (fuel : nat) (page : list Z) (g : guess) (file_pos at_ : Z) : gen fcb :=
  match fuel with
  | O => ([], Raised OutOfFuel)
  | S n =>
    if negb (at_ <? zlen page) then ([], Done) else
    if negb (zlist_eqb (slice page at_ (at_ + 2)) [2; 7]) then fcb_page n page g file_pos (at_ + 2) else
    match fcb_probe page g at_ with
    | Err e => ([], Raised e)
    | Ok FStop => ([], Done)
    | Ok FMiss => fcb_page n page g file_pos (at_ + 2)
    | Ok (FHit d a) =>
      match fcb_item page file_pos at_ d a with
      | Err e => ([], Raised e)
      | Ok x => gcons x (fcb_page n page g file_pos (at_ + (a + 8)))
      end
    end
  end.

(** MFT.py:1619-1735 carve_fcb_timestamps_internal. *)
Fixpoint fcb_pages (fuel : nat) (data : list Z) (g : guess) (file_pos : Z) : gen fcb :=
  match fuel with
  | O => ([], Raised OutOfFuel)
  | S n =>
    if negb (file_pos <? zlen data) then ([], Done) else
    let page := slice data file_pos (file_pos + 4096) in
    if zlen page <? 512 then ([], Done) else
    let (l, s) := fcb_page 2049 page g file_pos 0 in
    match s with
    | Done => gapp l (fcb_pages n data g (file_pos + 4096))
    | Raised _ => (l, s)
    end
  end.

Definition fcb_all (data : list Z) (g : guess) : gen fcb := fcb_pages (S (length data)) data g 0.

(** Counting in a dictionary, keys in order of insertion. *)
Fixpoint count_key (d : list (Z * Z)) (k : Z) : list (Z * Z) :=
  match d with
  | [] => [(k, 1)]
  | (k', n) :: t => if k' =? k then (k', n + 1) :: t else (k', n) :: count_key t k
  end.

(** [max(d, key = d.get)]: the first key with the greatest count. *)
Fixpoint max_key (best : Z * Z) (d : list (Z * Z)) : Z * Z :=
  match d with
  | [] => best
  | (k, n) :: t => max_key (if snd best <? n then (k, n) else best) t
  end.

(** MFT.py:1615-1766 carve_fcb_timestamps: the items and the guess afterwards
    (the max of an empty dictionary cannot be asked for). *)
Definition carve_fcb (data : list Z) (g : guess) : gen fcb * guess :=
  let (l, s) := fcb_all data g in
  let first := ztake 100 l in
  match (if zlen first <? 100 then s else Done) with
  | Raised e => (([], Raised e), g)
  | Done =>
    if zlen first <? 25 then (([], Raised ValueError), g) else
    match fold_left count_key (map fc_dup first) [], fold_left count_key (map fc_atime_pos first) [] with
    | d :: dt, a :: at_ =>
      let (kd, nd) := max_key d dt in
      let (ka, na) := max_key a at_ in
      let g' := Some (kd, ka) in
      if (nd <? 20) || (na <? 20) then (([], Raised ValueError), g')
      else (fcb_all data g', g')
    | _, _ => (([], Raised ValueError), g)
    end
  end.
