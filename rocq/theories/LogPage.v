(** Pages of the $LogFile journal: sector protection, restart pages, restart
    areas, client records, log record pages and log record headers
    (LogFile.py:134-612). *)
From Verif Require Import Base Usa Crc32.

(** [except LogFileException]: the class and its subclasses
    (LogFile.py:187-229). *)
Definition log_exn (e : exn) : bool :=
  match e with
  | LogFileException | UpdateSequenceArrayException | RestartPageException
  | EmptyLogFileException | RestartAreaException | ClientRecordException
  | LogRecordPageException | ClientException => true
  | _ => false
  end.

Definition PAGE_SIZE : Z := 4096. (* LogFile.py:12 *)

Definition sig_CRC4 : list Z := [67; 82; 67; 52].
Definition sig_RSTR : list Z := [82; 83; 84; 82].
Definition sig_CHKD : list Z := [67; 72; 75; 68].
Definition sig_BAAD : list Z := [66; 65; 65; 68].
Definition sig_RCRD : list Z := [82; 67; 82; 68].

Definition sig_in (s : list Z) (l : list (list Z)) : bool := existsb (zlist_eqb s) l.

(** LogFile.py:134-185, UnprotectSectors.  The [bytearray] is changed in place
    and returned; the model returns the new content. *)
Definition unprotect (buf : list Z) : result (list Z * Z) :=
  if (zlen buf <? 2 * USA_STRIDE) || negb (zlen buf mod USA_STRIDE =? 0)
  then Err UpdateSequenceArrayException else
  let! usa_offset := u16 buf 4 in
  let! usa_size := u16 buf 6 in
  if (usa_offset <? 8) || (USA_STRIDE - 6 <? usa_offset) then Err UpdateSequenceArrayException else
  if (usa_size <? 2) || negb ((usa_size - 1) * USA_STRIDE =? zlen buf) then Err UpdateSequenceArrayException else
  if zlen buf <=? usa_offset + usa_size * 2 then Err UpdateSequenceArrayException else
  let usual :=
    let! r := usa_apply buf usa_offset usa_size in
    match r with
    | None => Err UpdateSequenceArrayException
    | Some out => Ok (out, usa_offset + usa_size * 2)
    end in
  if zlist_eqb (slice buf (usa_offset + 4) (usa_offset + 8)) sig_CRC4 then
    let! crc32_recorded := u32 buf usa_offset in
    let buffer_modified :=
      ztake usa_offset buf ++ zeros (usa_size * 2) ++ zdrop (usa_offset + usa_size * 2) buf in
    if crc32_recorded =? crc32 buffer_modified
    then Ok (buf, usa_offset + usa_size * 2)
    else usual
  else usual.

(** LogFile.py:231-302, RestartPage: the constructor gives the unprotected
    page. *)
Definition rp_major (b : list Z) := u16 b 28.        (* 294-297 *)
Definition rp_minor (b : list Z) := u16 b 26.        (* 299-302 *)
Definition rp_chkdsk_lsn (b : list Z) := u64 b 8.    (* 269-272 *)
Definition rp_system_size (b : list Z) := u32 b 16.  (* 274-277 *)
Definition rp_log_size (b : list Z) := u32 b 20.     (* 279-282 *)
Definition rp_offset (b : list Z) := u16 b 24.       (* 284-287 *)

Definition restart_page (raw : list Z) : result (list Z) :=
  let! u := unprotect raw in
  let buf := fst u in
  if negb (sig_in (ztake 4 buf) [sig_RSTR; sig_CHKD; sig_BAAD]) then Err RestartPageException else
  let! major := rp_major buf in
  let! minor := rp_minor buf in
  if negb (((major =? 1) && (minor =? 1)) || ((major =? 2) && (minor =? 0)) || ((major =? 3) && (minor =? 0)))
  then Err NotImplementedError else
  let! sps := rp_system_size buf in
  if (sps <? 1024) || negb (sps mod 512 =? 0) then Err RestartPageException else
  if negb (sps =? PAGE_SIZE) then Err NotImplementedError else
  let! lps := rp_log_size buf in
  if (lps <? 1024) || negb (lps mod 512 =? 0) then Err RestartPageException else
  if negb (lps =? PAGE_SIZE) then Err NotImplementedError else
  let! ro := rp_offset buf in
  if (ro =? 0) || negb (ro mod 8 =? 0) || (zlen buf <=? ro) || (sps <=? ro)
  then Err RestartPageException else
  Ok buf.

(** LogFile.py:307-405, RestartArea. *)
Definition LFS_NO_CLIENT : Z := 65535. (* LogFile.py:18 *)
Definition ra_current_lsn (b : list Z) := u64 b 0.
Definition ra_clients (b : list Z) := u16 b 8.
Definition ra_free_list (b : list Z) := u16 b 10.
Definition ra_in_use_list (b : list Z) := u16 b 12.
Definition ra_flags (b : list Z) := u16 b 14.
Definition ra_seq_bits (b : list Z) := u32 b 16.
Definition ra_length (b : list Z) := u16 b 20.
Definition ra_array_offset (b : list Z) := u16 b 22.
Definition ra_file_size (b : list Z) := unp_s 8 b 24.
Definition ra_last_data_length (b : list Z) := u32 b 32.
Definition ra_header_length (b : list Z) := u16 b 36.
Definition ra_data_offset (b : list Z) := u16 b 38.
Definition ra_revision (b : list Z) := u32 b 40.

Definition restart_area (raw : list Z) (sps : Z) : result (list Z) :=
  let! cao := ra_array_offset raw in
  if (cao =? 0) || negb (cao mod 8 =? 0) || (zlen raw <=? cao) || (sps <=? cao)
  then Err RestartAreaException else
  let! n := ra_clients raw in
  let! free := ra_free_list raw in
  let! used := ra_in_use_list raw in
  if negb (free =? LFS_NO_CLIENT) && (n <=? free) then Err RestartAreaException else
  if negb (used =? LFS_NO_CLIENT) && (n <=? used) then Err RestartAreaException else
  Ok raw.

(** LogFile.py:289-292, RestartPage.get_restart_area *)
Definition page_area (buf : list Z) : result (list Z) :=
  let! ro := rp_offset buf in
  let! sps := rp_system_size buf in
  restart_area (zdrop ro buf) sps.

(** LogFile.py:410-460, ClientRecord.  get_client_name (456-460) and __str__
    are not modelled: nothing in the parser calls them. *)
Definition cr_oldest_lsn (b : list Z) := u64 b 0.
Definition cr_restart_lsn (b : list Z) := u64 b 8.
Definition cr_name_length (b : list Z) := u32 b 28.

Definition client_record (raw : list Z) : result (list Z) :=
  let! n := cr_name_length raw in
  if 128 <? n then Err ClientRecordException else Ok raw.

(** LogFile.py:395-405, RestartArea.clients; the loop runs get_log_clients()
    times, a number that does not change. *)
Fixpoint clients_loop (n : nat) (area : list Z) (cao i : Z) : gen (list Z) :=
  match n with
  | O => ([], Done)
  | S n =>
    match client_record (zdrop (i * 160 + cao) area) with
    | Ok c => gcons c (clients_loop n area cao (i + 1))
    | Err e => ([], Raised e)
    end
  end.

Definition clients (area : list Z) : gen (list Z) :=
  match ra_clients area, ra_array_offset area with
  | Ok n, Ok cao => clients_loop (Z.to_nat n) area cao 0
  | Err e, _ => ([], Raised e)
  | _, Err e => ([], Raised e)
  end.

(** LogFile.py:465-545, LogRecordPage. *)
Record log_page := {
  lp_buf : list Z;      (* buf *)
  lp_raw : list Z;      (* buf_protected *)
  lp_end : Z;           (* end_of_usa_offset *)
  lp_number : Z;        (* page_number *)
  lp_off : Z            (* data_offset *)
}.

Definition log_record_page (raw : list Z) (number data_offset : Z) : result log_page :=
  let! u := unprotect raw in
  let (buf, e) := u in
  if negb (sig_in (ztake 4 buf) [sig_RCRD; sig_CHKD; sig_BAAD]) then Err LogRecordPageException else
  if (data_offset <? 8) || (data_offset <? e) || negb (data_offset mod 8 =? 0)
  then Err NotImplementedError else
  Ok {| lp_buf := buf; lp_raw := raw; lp_end := e; lp_number := number; lp_off := data_offset |}.

Definition lp_last_lsn (p : log_page) := u64 (lp_buf p) 8.           (* 498-501 *)
Definition lp_file_offset_11 (p : log_page) := unp_s 8 (lp_buf p) 8. (* 503-506 *)
(** 508-512; None (the implicit return value) when the array reaches the field. *)
Definition lp_file_offset_2x (p : log_page) : result (option Z) :=
  if lp_end p <=? 60 then let! v := u32 (lp_buf p) 60 in Ok (Some v) else Ok None.
Definition lp_last_end_lsn (p : log_page) := u64 (lp_buf p) 32.      (* 534-537 *)

(** LogFile.py:550-612, LogRecordHeader, always called with a header length. *)
Definition record_header (raw : list Z) (hl : Z) : result (list Z) :=
  if hl <? 48 then Err NotImplementedError else
  if (hl <? 8) || negb (hl mod 8 =? 0) then Err LogFileException else
  if zlen raw <? hl then Err LogFileException else
  Ok raw.

Definition lh_this_lsn (h : list Z) := u64 h 0.        (* 574-577 *)
Definition lh_previous_lsn (h : list Z) := u64 h 8.    (* 579-582 *)
Definition lh_undo_lsn (h : list Z) := u64 h 16.       (* 584-587 *)
Definition lh_data_length (h : list Z) := u32 h 24.    (* 589-592 *)
Definition lh_client_id (h : list Z) := u32 h 28.      (* 594-597 *)
Definition lh_record_type (h : list Z) := u32 h 32.    (* 599-602 *)
Definition lh_transaction_id (h : list Z) := u32 h 36. (* 604-607 *)

(** LogFile.py:539-545, LogRecordPage.get_log_record_at_offset *)
Definition header_at (p : log_page) (off hl : Z) : result (list Z) :=
  if off <? lp_off p then Err LogFileException else
  record_header (zdrop off (lp_buf p)) hl.
