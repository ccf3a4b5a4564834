(** LogFileParser (LogFile.py:617-1319): opening, LSN arithmetic, page reads,
    LSN collection and client data.  The file object is its content [data]. *)
From Verif Require Import Base LogPage Sorting.

(** What __init__ stores and never changes (LogFile.py:650-718).
    [lf_psize] is log_page_size, [lf_size] file_size. *)
Record log_file := {
  lf_size : Z;
  lf_rp1 : option (list Z);
  lf_rp2 : option (list Z);
  lf_psize : Z;
  lf_major : Z;
  lf_minor : Z;
  lf_hl : Z;     (* record_header_length *)
  lf_doff : Z;   (* log_page_data_offset *)
  lf_bits : Z    (* sequence_number_bits *)
}.

(** [try: ... except LogFileException: None] *)
Definition or_none {A} (x : result A) : result (option A) :=
  match x with
  | Ok a => Ok (Some a)
  | Err e => if log_exn e then Ok None else Err e
  end.

Definition page_version (b : list Z) : result (Z * Z) :=
  let! a := rp_major b in let! c := rp_minor b in Ok (a, c).

(** LogFile.py:677-705: log page size, version and restart area to use. *)
Definition choose_restart (r1 r2 : option (list Z)) : result (Z * (Z * Z) * list Z) :=
  match r1, r2 with
  | None, None => Err LogFileException
  | None, Some b | Some b, None =>
    let! ps := rp_log_size b in
    let! v := page_version b in
    let! a := page_area b in
    Ok (ps, v, a)
  | Some b1, Some b2 =>
    let! ps := rp_log_size b1 in
    let! a := page_area b1 in
    let! ps2 := rp_log_size b2 in
    if negb (ps =? ps2) then Err LogFileException else
    let! v := page_version b1 in
    let! v2 := page_version b2 in
    if negb ((fst v =? fst v2) && (snd v =? snd v2)) then Err LogFileException else
    Ok (ps, v, a)
  end.

(** LogFile.py:650-718, __init__ *)
Definition log_open (data : list Z) : result log_file :=
  let raw1 := slice data 0 PAGE_SIZE in
  let raw2 := slice data PAGE_SIZE (2 * PAGE_SIZE) in
  if negb (zlen raw1 =? PAGE_SIZE) || negb (zlen raw2 =? PAGE_SIZE) then Err LogFileException else
  if zlist_eqb raw1 raw2 && zlist_eqb raw2 (repeat 255 (Z.to_nat PAGE_SIZE)) then Err EmptyLogFileException else
  let! r1 := or_none (restart_page raw1) in
  let! r2 := or_none (restart_page raw2) in
  let! c := choose_restart r1 r2 in
  let '(ps, v, area) := c in
  let! hl := ra_header_length area in
  if hl <? 48 then Err LogFileException else
  let! doff := ra_data_offset area in
  let! bits := ra_seq_bits area in
  if (64 <=? bits) || (bits <? 3) then Err LogFileException else
  Ok {| lf_size := zlen data; lf_rp1 := r1; lf_rp2 := r2; lf_psize := ps;
        lf_major := fst v; lf_minor := snd v; lf_hl := hl; lf_doff := doff; lf_bits := bits |}.

Section Parser.
  Variable lf : log_file.

  (** LogFile.py:720-728.  (Division by a page size of 0 cannot happen: the
      restart page constructor only accepts 4096.) *)
  Definition lsn_to_offset (lsn : Z) : Z * Z :=
    let absolute_offset :=
      Z.shiftr (Z.land (Z.shiftl lsn (lf_bits lf)) 0xFFFFFFFFFFFFFFFF) (lf_bits lf - 3) in
    (absolute_offset / lf_psize lf, absolute_offset mod lf_psize lf).

  (** LogFile.py:730-733 *)
  Definition lsn_to_seqnum (lsn : Z) : Z := Z.shiftr lsn (64 - lf_bits lf).

  (** LogFile.py:735-740 *)
  Definition offset_to_lsn (page off seq : Z) : Z :=
    let absolute_offset := page * lf_psize lf + off in
    Z.lor (Z.shiftr absolute_offset 3) (Z.shiftl seq (64 - lf_bits lf)).

  (** LogFile.py:758-768 *)
  Definition wrapped_page : result Z :=
    if (lf_major lf =? 1) && (lf_minor lf =? 1) then Ok 4
    else if 2 <=? lf_major lf then Ok 34
    else Err NotImplementedError.

  Section Data.
    Variable data : list Z.

    (** LogFile.py:742-756 *)
    Definition page_by_number (n : Z) : result (option log_page) :=
      let! buf := read_at data (n * lf_psize lf) (lf_psize lf) in
      if negb (zlen buf =? lf_psize lf) then Ok None else
      match log_record_page buf n (lf_doff lf) with
      | Ok p => Ok (Some p)
      | Err NotImplementedError => Ok None
      | Err e => if log_exn e then Ok None else Err e
      end.

    (** LogFile.py:1254-1275, log_record_pages(mode) with the first page given;
        [n] counts the remaining pages of the file. *)
    Fixpoint pages_loop (n : nat) (i : Z) : gen log_page :=
      match n with
      | O => ([], Done)
      | S n =>
        match page_by_number i with
        | Ok (Some p) => gcons p (pages_loop n (i + 1))
        | Ok None => pages_loop n (i + 1)
        | Err e => ([], Raised e)
        end
      end.

    Definition pages_from (start : Z) : gen log_page :=
      pages_loop (Z.to_nat (lf_size lf / lf_psize lf - start)) start.

    (** The block repeated throughout collect_lsns (813-828, 841-856,
        869-880, ...): get the page, then the header, where a missing page or a
        LogFileException means "nothing there". *)
    Definition fetch (n off : Z) : result (option (list Z)) :=
      let! p := page_by_number n in
      match p with
      | None => Ok None
      | Some p => or_none (header_at p off (lf_hl lf))
      end.

    Definition locate (lsn : Z) : result (option (list Z)) :=
      let (n, off) := lsn_to_offset lsn in
      if n =? 0 then Ok None else fetch n off.

    (** "if candidate_log_record_header.get_this_lsn() == candidate_lsn" *)
    Definition holds_lsn (n off lsn : Z) : result bool :=
      let! h := fetch n off in
      match h with
      | None => Ok false
      | Some h => let! t := lh_this_lsn h in Ok (t =? lsn)
      end.

    (** LogFile.py:866-963, find_next_lsn; [seed] is the variable [lsn] of the
        enclosing loop, which line 886 reads instead of [current_lsn]. *)
    Definition find_next (seed cur : Z) : result (option Z) :=
      let (n, off) := lsn_to_offset cur in
      if n =? 0 then Ok None else
      let! h := fetch n off in
      match h with
      | None => Ok None
      | Some h =>
        let! dl := lh_data_length h in
        if (dl <? 8) || negb (dl mod 8 =? 0) then Ok None else
        let seq := lsn_to_seqnum seed in
        let room := lf_psize lf - off - lf_hl lf in
        if dl <=? room then
          (* the current page *)
          let coff := off + lf_hl lf + dl in
          let clsn := offset_to_lsn n coff seq in
          let! here := holds_lsn n coff clsn in
          if here then Ok (Some clsn) else
          (* the next page *)
          let wraps := lf_size lf <=? (n + 1) * lf_psize lf in
          let! w := if wraps then wrapped_page else Ok 0 in
          let cn := if wraps then w else n + 1 in
          let seq' := if wraps then seq + 1 else seq in
          let clsn := offset_to_lsn cn (lf_doff lf) seq' in
          let! there := holds_lsn cn (lf_doff lf) clsn in
          Ok (if there then Some clsn else None)
        else
          let room' := lf_psize lf - lf_doff lf in
          let left := dl - room in
          let skip := 1 + left / room' in
          let coff := lf_doff lf + left - (skip - 1) * room' in
          let wraps := lf_size lf <=? (n + skip) * lf_psize lf in
          let! w := if wraps then wrapped_page else Ok 0 in
          let pages_left := lf_size lf / lf_psize lf - (n + 1) in
          let cn := if wraps then w + (skip - 1) - pages_left else n + skip in
          let seq' := if wraps then seq + 1 else seq in
          let clsn := offset_to_lsn cn coff seq' in
          let! there := holds_lsn cn coff clsn in
          if there then Ok (Some clsn) else
          let clsn := offset_to_lsn (cn + 1) (lf_doff lf) seq' in
          let! next := holds_lsn (cn + 1) (lf_doff lf) clsn in
          Ok (if next then Some clsn else None)
      end.

    (** LogFile.py:965-995, find_previous_lsn, and 997-1027,
        find_undo_next_lsn: the same code with another field. *)
    Definition find_field (field : list Z -> result Z) (cur : Z) : result (option Z) :=
      let! h := locate cur in
      match h with
      | None => Ok None
      | Some h =>
        let! l := field h in
        let (n, off) := lsn_to_offset l in
        if n =? 0 then Ok None else
        let! there := holds_lsn n off l in
        Ok (if there then Some l else None)
      end.
    Definition find_previous := find_field lh_previous_lsn.
    Definition find_undo := find_field lh_undo_lsn.

    (** Python sets of integers: lists without duplicates, in the order of
        insertion.  The order in which a set is iterated is a parameter. *)
    Definition set_add (x : Z) (s : list Z) : list Z := if zin x s then s else s ++ [x].
    Definition set_adds (l s : list Z) : list Z := fold_left (fun s x => set_add x s) l s.
    Definition set_remove (x : Z) (s : list Z) : list Z := filter (fun y => negb (y =? x)) s.

    (** The loops at 1032-1040, 1044-1052, 1056-1064, 1120-1145: follow [step]
        until nothing or a known LSN is found, adding to the set. *)
    Fixpoint walk (fuel : nat) (step : Z -> result (option Z)) (cur : Z) (s : list Z) : result (list Z) :=
      match fuel with
      | O => Err OutOfFuel
      | S fuel =>
        let! x := step cur in
        match x with
        | None => Ok s
        | Some y => if zin y s then Ok s else walk fuel step y (s ++ [y])
        end
      end.

    (** Enough for every walk (proved). *)
    Definition walk_fuel : nat := S (length data).

    Fixpoint walk_all (step : Z -> Z -> result (option Z)) (seeds s : list Z) : result (list Z) :=
      match seeds with
      | [] => Ok s
      | lsn :: t => let! s := walk walk_fuel (step lsn) lsn s in walk_all step t s
      end.

    (** LogFile.py:775-801: LSNs of one restart page. *)
    Fixpoint client_lsns (cs : list (list Z)) : result (list Z) :=
      match cs with
      | [] => Ok []
      | c :: t =>
        let! a := cr_oldest_lsn c in
        let! b := cr_restart_lsn c in
        let! r := client_lsns t in
        Ok (a :: b :: r)
      end.

    Definition restart_lsns (rp : option (list Z)) : result (list Z) :=
      match rp with
      | None => Ok []
      | Some b =>
        let! c := rp_chkdsk_lsn b in
        let! area := page_area b in
        let! cur := ra_current_lsn area in
        let (cs, st) := clients area in
        let! r := client_lsns cs in
        match st with Raised e => Err e | Done => Ok (c :: cur :: r) end
      end.

    (** LogFile.py:803-808 *)
    Fixpoint page_lsns (ps : list log_page) : result (list Z) :=
      match ps with
      | [] => Ok []
      | p :: t =>
        let! a := lp_last_lsn p in
        let! b := lp_last_end_lsn p in
        let! r := page_lsns t in
        Ok (a :: b :: r)
      end.

    (** LogFile.py:810-837: validate the LSNs, collect new ones. *)
    Fixpoint validate_first (l s new : list Z) : result (list Z * list Z) :=
      match l with
      | [] => Ok (s, new)
      | lsn :: t =>
        let! h := locate lsn in
        match h with
        | None => validate_first t (set_remove lsn s) new
        | Some h =>
          let! this := lh_this_lsn h in
          let s := if negb (lsn =? this) then set_remove lsn s else s in
          let! p := lh_previous_lsn h in
          let! u := lh_undo_lsn h in
          validate_first t s (set_add u (set_add p new))
        end
      end.

    (** LogFile.py:839-859 *)
    Fixpoint validate_new (l new : list Z) : result (list Z) :=
      match l with
      | [] => Ok new
      | lsn :: t =>
        let! h := locate lsn in
        match h with
        | None => validate_new t (set_remove lsn new)
        | Some h =>
          let! this := lh_this_lsn h in
          validate_new t (if negb (lsn =? this) then set_remove lsn new else new)
        end
      end.

    (** ClientData (LogFile.py:1402-1426) *)
    Record client_data := {
      cd_buf : list Z;
      cd_type : Z;
      cd_lsn : Z;
      cd_tid : Z;
      cd_cluster : Z
    }.

    (** LogFile.py:1297-1315: the data in the following pages. *)
    Fixpoint more_data (fuel : nat) (n left : Z) (buf : list Z) : result (list Z) :=
      match fuel with
      | O => Err OutOfFuel
      | S fuel =>
        if left <=? 0 then Ok buf else
        let! n :=
          if lf_size lf <=? (n + 1) * lf_psize lf then wrapped_page else Ok (n + 1) in
        let! p := page_by_number n in
        match p with
        | None => Ok buf
        | Some p =>
          let more :=
            if lf_psize lf - lf_doff lf <=? left
            then zdrop (lf_doff lf) (lp_buf p)
            else slice (lp_buf p) (lf_doff lf) (lf_doff lf + left) in
          more_data fuel n (left - zlen more) (buf ++ more)
        end
      end.

    (** LogFile.py:1277-1319, get_client_data *)
    Definition get_client_data (cluster_size lsn : Z) : result client_data :=
      let (n, off) := lsn_to_offset lsn in
      let! p := page_by_number n in
      match p with
      | None => Err AttributeError_py  (* None.get_log_record_at_offset *)
      | Some p =>
        let! h := header_at p off (lf_hl lf) in
        let! dl := lh_data_length h in
        let! buf :=
          if dl <=? lf_psize lf - off - lf_hl lf
          then Ok (slice h (lf_hl lf) (lf_hl lf + dl))
          else
            let first := zdrop (lf_hl lf) h in
            more_data (S (Z.to_nat dl)) n (dl - zlen first) first in
        let! ty := lh_record_type h in
        let! tid := lh_transaction_id h in
        Ok {| cd_buf := buf; cd_type := ty; cd_lsn := lsn; cd_tid := tid; cd_cluster := cluster_size |}
      end.

    (** NTFSRestartArea (LogFile.py:1441-1548) *)
    Definition ntfs_restart_area (buf : list Z) : result (list Z) :=
      if zlen buf <? 64 then Err ClientException else Ok buf.
    Definition na_major (b : list Z) := u32 b 0.                       (* 1457-1460 *)
    Definition na_checkpoint_lsn (b : list Z) := u64 b 8.              (* 1467-1470 *)
    Definition na_oat_lsn (b : list Z) := u64 b 16.                    (* 1472-1475 *)
    Definition na_names_lsn (b : list Z) := u64 b 24.                  (* 1477-1480 *)
    Definition na_dirty_lsn (b : list Z) := u64 b 32.                  (* 1482-1485 *)
    Definition na_trans_lsn (b : list Z) := u64 b 40.                  (* 1487-1490 *)
    Definition na_cluster_size (b : list Z) : result (option Z) :=     (* 1524-1528 *)
      if 84 <=? zlen b then let! v := u32 b 80 in Ok (Some v) else Ok None.

    (** What collect_lsns changes in the parser: cluster_size, oat_version and
        use_dumps, which does not exist (None) until a restart area was met. *)
    Record config := { cf_cluster : Z; cf_oat : Z; cf_dumps : option bool }.

    Definition LfsClientRecord : Z := 1.   (* LogFile.py:34 *)
    Definition LfsClientRestart : Z := 2.  (* LogFile.py:35 *)

    (** LogFile.py:1066-1097 *)
    Fixpoint restart_areas (l : list Z) (c : config) (new : list Z) : result (config * list Z) :=
      match l with
      | [] => Ok (c, new)
      | lsn :: t =>
        let! cd := get_client_data (cf_cluster c) lsn in
        if negb (cd_type cd =? LfsClientRestart) then restart_areas t c new else
        match ntfs_restart_area (cd_buf cd) with
        | Err ClientException => restart_areas t c new
        | Err e => Err e
        | Ok a =>
          let! cs := na_cluster_size a in
          let cluster :=
            match cs with
            | Some v => if (0 <? v) && (v mod 512 =? 0) then v else cf_cluster c
            | None => cf_cluster c
            end in
          let! major := na_major a in
          let c := {| cf_cluster := cluster;
                      cf_oat := if 1 <=? major then 1 else 0;
                      cf_dumps := Some (negb (2 <=? major)) |} in
          let! l1 := na_checkpoint_lsn a in
          let! l2 := na_oat_lsn a in
          let! l3 := na_names_lsn a in
          let! l4 := na_dirty_lsn a in
          let! l5 := na_trans_lsn a in
          restart_areas t c (set_adds [l1; l2; l3; l4; l5] new)
        end
      end.

    (** LogFile.py:1099-1145 *)
    Fixpoint add_restart (l s : list Z) : result (list Z) :=
      match l with
      | [] => Ok s
      | lsn :: t =>
        let! h := locate lsn in
        match h with
        | None => add_restart t s
        | Some h =>
          let! this := lh_this_lsn h in
          if negb (lsn =? this) then add_restart t s else
          let s := set_add lsn s in
          let! s := walk walk_fuel (find_next lsn) lsn s in
          let! s := walk walk_fuel find_previous lsn s in
          let! s := walk walk_fuel find_undo lsn s in
          add_restart t s
        end
      end.

    (** LogFile.py:773-808: the LSNs to start from. *)
    Definition first_lsns : result (list Z) :=
      let! l1 := restart_lsns (lf_rp1 lf) in
      let! l2 := restart_lsns (lf_rp2 lf) in
      let (ps, st) := pages_from 2 in
      let! l3 := page_lsns ps in
      match st with
      | Raised e => Err e
      | Done => Ok (set_adds (l1 ++ l2 ++ l3) [])
      end.

    (** LogFile.py:770-1147, collect_lsns.  [ord k] is the order in which the
        set is iterated at the [k]-th place that iterates over one. *)
    Variable ord : nat -> list Z -> list Z.

    Definition collect_lsns (c : config) : result (list Z * config) :=
      let! s0 := first_lsns in
      let! v := validate_first (ord 0%nat s0) s0 [] in
      let '(s1, new) := v in
      let! new := validate_new (ord 1%nat new) new in
      let s2 := set_adds (ord 2%nat new) s1 in
      let! s3 := walk_all find_next (ord 3%nat s2) s2 in
      let! s4 := walk_all (fun _ => find_previous) (ord 4%nat s3) s3 in
      let! s5 := walk_all (fun _ => find_undo) (ord 5%nat s4) s4 in
      let! r := restart_areas (ord 6%nat s5) c [] in
      let '(c, new) := r in
      let! s6 := add_restart (ord 7%nat new) s5 in
      Ok (sort_by (fun x => x) s6, c).

    (** LogFile.py:1149-1166, sort_lsns: a dictionary from client IDs to lists,
        keys in the order of insertion. *)
    Fixpoint dict_append (k x : Z) (d : list (Z * list Z)) : list (Z * list Z) :=
      match d with
      | [] => [(k, [x])]
      | (k', l) :: t => if k' =? k then (k', l ++ [x]) :: t else (k', l) :: dict_append k x t
      end.

    Fixpoint group_lsns (l : list Z) (d : list (Z * list Z)) : result (list (Z * list Z)) :=
      match l with
      | [] => Ok d
      | lsn :: t =>
        let (n, off) := lsn_to_offset lsn in
        let! p := page_by_number n in
        match p with
        | None => Err AttributeError_py
        | Some p =>
          let! h := header_at p off (lf_hl lf) in
          let! id := lh_client_id h in
          group_lsns t (dict_append id lsn d)
        end
      end.

    Definition sort_lsns (l : list Z) : result (list (Z * list Z)) :=
      let! d := group_lsns l [] in
      Ok (map (fun e => (fst e, sort_by (fun x => x) (snd e))) d).
  End Data.
End Parser.
