(** LogFileParser.parse_ntfs_records and the recovery of tail and fast pages
    (LogFile.py:1168-1252, 1321-1397). *)
From Verif Require Import Base Sorting LogPage LogFile LogRecord.

(** The file objects: [w_files] by number, 0 being the caller's; a copy made in
    memory is appended.  Closing a copy is not modelled (nothing uses it
    afterwards), nor are file positions (every read and write seeks first).
    [w_cur], [w_old], [w_writable] are file_object, old_file_object, writable. *)
Record world := {
  w_files : list (list Z);
  w_cur : nat;
  w_old : nat;
  w_writable : bool;
  w_cfg : config
}.

Definition w_data (w : world) : list Z := nth (w_cur w) (w_files w) [].

(** LogFile.py:650-652, 714-716: the state after __init__ *)
Definition start_world (data : list Z) : world :=
  {| w_files := [data]; w_cur := 0; w_old := 0; w_writable := false;
     w_cfg := {| cf_cluster := 4096; cf_oat := 1; cf_dumps := None |} |}.

(** LogFile.py:1168-1181 *)
Definition prepare_for_writes (w : world) : world :=
  if w_writable w then w else
  {| w_files := w_files w ++ [w_data w]; w_cur := length (w_files w); w_old := w_cur w; w_writable := true;
     w_cfg := w_cfg w |}.

(** LogFile.py:1183-1191 *)
Definition discard_changes (w : world) : world :=
  if negb (w_writable w) then w else
  {| w_files := w_files w; w_cur := w_old w; w_old := w_old w; w_writable := false; w_cfg := w_cfg w |}.

Fixpoint set_nth {A} (n : nat) (x : A) (l : list A) : list A :=
  match l, n with
  | [], _ => []
  | _ :: t, O => x :: t
  | y :: t, S n => y :: set_nth n x t
  end.

(** io.BytesIO: seek(off); write(bs).  A gap after the end is filled with
    zeros; a position past 2^63 - 1 is an OverflowError; running out of memory
    is not modelled. *)
Definition overwrite (data : list Z) (off : Z) (bs : list Z) : list Z :=
  ztake off data ++ zeros (off - zlen data) ++ bs ++ zdrop (off + zlen bs) data.

Definition write_at (w : world) (off : Z) (bs : list Z) : result world :=
  if off <? 0 then Err ValueError else
  if 9223372036854775807 <? off + zlen bs then Err OverflowError else
  Ok {| w_files := set_nth (w_cur w) (overwrite (w_data w) off bs) (w_files w);
        w_cur := w_cur w; w_old := w_old w; w_writable := w_writable w; w_cfg := w_cfg w |}.

Section Parse.
  Variable lf : log_file.

  (** LogFile.py:1193-1221.  The method may fail, but only before it writes. *)
  Definition apply_tail_page (w : world) : result world :=
    if negb ((lf_major lf =? 1) && (lf_minor lf =? 1)) then Err RuntimeError_py else
    let! p1 := page_by_number lf (w_data w) 2 in
    let! p2 := page_by_number lf (w_data w) 3 in
    let! single :=
      match p1, p2 with
      | None, None => Ok None
      | None, Some b => Ok (Some b)
      | Some a, None => Ok (Some a)
      | Some a, Some b =>
        let! x := lp_last_end_lsn a in
        let! y := lp_last_end_lsn b in
        Ok (Some (if y <? x then a else b))
      end in
    match single with
    | None => Ok w
    | Some p => let! off := lp_file_offset_11 p in write_at w off (lp_raw p)
    end.

  (** LogFile.py:1229-1234 *)
  Fixpoint highest_lsn (ps : list log_page) (h : Z) : result Z :=
    match ps with
    | [] => Ok h
    | p :: t => let! l := lp_last_lsn p in highest_lsn t (if h <? l then l else h)
    end.

  (** LogFile.py:1236-1244: pages 2 to 33; [n] counts the rest. *)
  Fixpoint fast_loop (n : nat) (data : list Z) (h i : Z) : result (list (log_page * Z)) :=
    match n with
    | O => Ok []
    | S n =>
      let! p := page_by_number lf data i in
      match p with
      | None => fast_loop n data h (i + 1)
      | Some p =>
        let! l := lp_last_lsn p in
        let! r := fast_loop n data h (i + 1) in
        Ok (if h <? l then (p, l) :: r else r)
      end
    end.

  (** LogFile.py:1248-1252.  A write may fail after others were done: the world
      reached is returned with the status. *)
  Fixpoint write_fast (ps : list log_page) (w : world) : world * status :=
    match ps with
    | [] => (w, Done)
    | p :: t =>
      match lp_file_offset_2x p with
      | Err e => (w, Raised e)
      | Ok None => (w, Raised TypeError) (* seek(None) *)
      | Ok (Some off) =>
        match write_at w off (lp_raw p) with
        | Err e => (w, Raised e)
        | Ok w => write_fast t w
        end
      end
    end.

  (** LogFile.py:1223-1252 *)
  Definition fast_pages (data : list Z) : result (list log_page) :=
    let! start := wrapped_page lf in
    let (ps, st) := pages_from lf data start in
    let! h := highest_lsn ps 0 in
    match st with
    | Raised e => Err e
    | Done =>
      let! l := fast_loop 32 data h 2 in
      Ok (map fst (sort_by (@snd log_page Z) l))
    end.

  Definition apply_fast_pages (w : world) : world * status :=
    if lf_major lf <? 2 then (w, Raised RuntimeError_py) else
    match fast_pages (w_data w) with
    | Err e => (w, Raised e)
    | Ok ps => write_fast ps w
    end.

  (** What is yielded: a restart area, or a log record with what the loop set
      on it (oat, oat_dump, an_dump). *)
  Inductive item :=
  | Area (buf : list Z) (lsn : Z)
  | Rec (buf : list Z) (lsn tid cluster : Z) (t : oat) (oat_dump : option (list Z * Z)) (an_dump : option (list Z)).

  (** The variables of the loop over one client (1340-1348). *)
  Record loop_state := {
    ls_oat : oat;
    ls_loat : option (list Z * Z);   (* latest_oat_dump *)
    ls_ooat : option (list Z * Z);   (* old_oat_dump *)
    ls_lan : option (list Z);
    ls_oan : option (list Z);
    ls_noat : Z;
    ls_nan : Z
  }.

  Definition loop_start : loop_state :=
    {| ls_oat := []; ls_loat := None; ls_ooat := None; ls_lan := None; ls_oan := None; ls_noat := 0; ls_nan := 0 |}.

  (** self.use_dumps: an AttributeError until a restart area was met. *)
  Definition use_dumps (c : config) : result bool :=
    match cf_dumps c with Some b => Ok b | None => Err AttributeError_py end.

  (** LogFile.py:1357-1383: effect of a log record on the variables. *)
  Definition record_effect (c : config) (b : list Z) (s : loop_state) : result loop_state :=
    let! op := nr_redo_op b in
    if op =? OpenNonresidentAttribute then
      let! name := nr_undo_data b in
      let! i := nr_target b in
      let! entry := nr_redo_data b in
      match entry_reference (cf_oat c) entry with
      | Err ClientException =>
        Ok {| ls_oat := []; ls_loat := ls_loat s; ls_ooat := ls_ooat s; ls_lan := ls_lan s; ls_oan := ls_oan s;
              ls_noat := ls_noat s; ls_nan := ls_nan s |}
      | Err e => Err e
      | Ok r =>
        Ok {| ls_oat := (i, (r, utf16le name)) :: ls_oat s; ls_loat := ls_loat s; ls_ooat := ls_ooat s;
              ls_lan := ls_lan s; ls_oan := ls_oan s; ls_noat := ls_noat s; ls_nan := ls_nan s |}
      end
    else
      let! d := use_dumps c in
      if d && (op =? OpenAttributeTableDump) then
        let! dump := nr_redo_data b in
        Ok {| ls_oat := ls_oat s; ls_loat := Some (dump, cf_oat c); ls_ooat := ls_loat s; ls_lan := ls_lan s;
              ls_oan := ls_oan s; ls_noat := ls_noat s + 1; ls_nan := ls_nan s |}
      else if d && (op =? AttributeNamesDump) then
        let! dump := nr_redo_data b in
        Ok {| ls_oat := ls_oat s; ls_loat := ls_loat s; ls_ooat := ls_ooat s; ls_lan := Some dump;
              ls_oan := ls_lan s; ls_noat := ls_noat s; ls_nan := ls_nan s + 1 |}
      else Ok s.

  (** LogFile.py:1385-1394: the record with the tables. *)
  Definition record_item (c : config) (cd : client_data) (s : loop_state) : result item :=
    let! d := use_dumps c in
    let rec_ := Rec (cd_buf cd) (cd_lsn cd) (cd_tid cd) (cd_cluster cd) (ls_oat s) in
    if d && (0 <? ls_noat s) && (ls_noat s =? ls_nan s) then Ok (rec_ (ls_loat s) (ls_lan s))
    else if d && (0 <? ls_noat s) && negb (ls_noat s =? ls_nan s) then Ok (rec_ (ls_ooat s) (ls_oan s))
    else Ok (rec_ None None).

  (** LogFile.py:1350-1396, the loop over the LSNs of one client. *)
  Fixpoint client_loop (c : config) (data : list Z) (l : list Z) (s : loop_state) : gen item :=
    match l with
    | [] => ([], Done)
    | lsn :: t =>
      match get_client_data lf data (cf_cluster c) lsn with
      | Err e => ([], Raised e)
      | Ok cd =>
        if cd_type cd =? LfsClientRestart then
          match ntfs_restart_area (cd_buf cd) with
          | Err e => ([], Raised e)
          | Ok b => gcons (Area b (cd_lsn cd)) (client_loop c data t s)
          end
        else if cd_type cd =? LfsClientRecord then
          match (let! b := log_record (cd_buf cd) in
                 let! s := record_effect c b s in
                 let! i := record_item c cd s in
                 Ok (i, s)) with
          | Err e => ([], Raised e)
          | Ok (i, s) => gcons i (client_loop c data t s)
          end
        else client_loop c data t s (* NotImplementedError: pass *)
      end
    end.

  (** The loop over the clients; an exception ends everything. *)
  Fixpoint clients_parse (c : config) (data : list Z) (d : list (Z * list Z)) : gen item :=
    match d with
    | [] => ([], Done)
    | (_, l) :: t =>
      match client_loop c data l loop_start with
      | (is, Raised e) => (is, Raised e)
      | (is, Done) => gapp is (clients_parse c data t)
      end
    end.

  Variable ord : nat -> list Z -> list Z.

  (** LogFile.py:1326-1333 *)
  Definition recover (w : world) : world * status :=
    let w := prepare_for_writes w in
    if (lf_major lf =? 1) && (lf_minor lf =? 1) then
      match apply_tail_page w with Ok w => (w, Done) | Err e => (w, Raised e) end
    else if 2 <=? lf_major lf then apply_fast_pages w
    else (w, Done).

  Definition set_config (w : world) (c : config) : world :=
    {| w_files := w_files w; w_cur := w_cur w; w_old := w_old w; w_writable := w_writable w; w_cfg := c |}.

  (** LogFile.py:1321-1397, parse_ntfs_records as a generator: the items, the
      world while they are yielded (it does not change from the first yield to
      the last), and the world and the status at the end.  When collect_lsns
      raises, the settings it changed are left as they were in the model. *)
  Definition parse_ntfs_records (recover_log_data : bool) (w : world) : list item * world * (world * status) :=
    let (w1, st) := if recover_log_data then recover w else (w, Done) in
    match st with
    | Raised e => ([], w1, (w1, Raised e))
    | Done =>
      match collect_lsns lf (w_data w1) ord (w_cfg w1) with
      | Err e => ([], w1, (w1, Raised e))
      | Ok (lsns, c) =>
        let w2 := set_config w1 c in
        match sort_lsns lf (w_data w2) lsns with
        | Err e => ([], w2, (w2, Raised e))
        | Ok d =>
          match clients_parse c (w_data w2) d with
          | (is, Raised e) => (is, w2, (w2, Raised e))
          | (is, Done) => (is, w2, (if recover_log_data then discard_changes w2 else w2, Done))
          end
        end
      end
    end.

  (** Uses of a parser.  [Parse r n] asks for [n] items; a parse that was left
      suspended may be resumed to its end later ([Finish]), after other calls:
      between two items it only reads. *)
  Inductive op := Prepare | Discard | Tail | Fast | Parse (recover_log_data : bool) (n : nat) | Finish (recover_log_data : bool).

  Definition op_step (o : op) (w : world) : world :=
    match o with
    | Prepare => prepare_for_writes w
    | Discard => discard_changes w
    | Tail => match apply_tail_page w with Ok w => w | Err _ => w end
    | Fast => fst (apply_fast_pages w)
    | Parse r n =>
      let '(is, w', (w'', _)) := parse_ntfs_records r w in
      if (0 <? n)%nat && (n <=? length is)%nat then w' else if (0 <? n)%nat then w'' else w
    | Finish r => if r then discard_changes w else w
    end.
End Parse.
