(** Specification of log recovery and of the records of the NTFS client. *)
From Verif Require Import Base LogPage LogFile LogSpec LogRecord LogParse.
From Coq Require Import Sorted.

(** ** Writes *)

(** [new] is [old] with [bs] written at [off]; a gap before it holds zeros. *)
Definition written (old : list Z) (off : Z) (bs new : list Z) : Prop :=
  forall p, 0 <= p ->
    znth new p =
      if (off <=? p) && (p <? off + zlen bs) then znth bs (p - off)
      else if p <? zlen old then znth old p
      else if p <? off then Some 0 else None.

(** ** The files of a parser *)

(** States reached by any sequence of calls.  The two methods that write state
    that "the file object should be writable". *)
Inductive reach (lf : log_file) (ord : nat -> list Z -> list Z) (data : list Z) : world -> Prop :=
| reach_start : reach lf ord data (start_world data)
| reach_op w o : reach lf ord data w -> (o = Tail \/ o = Fast -> w_writable w = true) ->
    reach lf ord data (op_step lf ord o w).

(** ** Tail and fast pages *)

Definition last_lsn (buf : list Z) : Z := fld 8 buf 8.
Definition last_end_lsn (buf : list Z) : Z := fld 8 buf 32.

(** Page [k] (2 or 3) is the tail page to use: the valid one, or of two valid
    ones that with the greater last end LSN, page 3 if they are equal. *)
Definition tail_page (lf : log_file) (data : list Z) (k : Z) (buf : list Z) : Prop :=
  (exists e, log_page_at lf data k buf e) /\
  ((k = 2 /\ forall buf' e', log_page_at lf data 3 buf' e' -> last_end_lsn buf' < last_end_lsn buf) \/
   (k = 3 /\ forall buf' e', log_page_at lf data 2 buf' e' -> last_end_lsn buf' <= last_end_lsn buf)).

(** Page [k] (2 to 33) is a fast page to apply: its last LSN is above that of
    every page after those. *)
Definition fast_page (lf : log_file) (data : list Z) (k : Z) (p : log_page) : Prop :=
  2 <= k < 34 /\ log_page_at lf data k (lp_buf p) (lp_end p) /\
  lp_raw p = slice data (4096 * k) (4096 * k + 4096) /\ lp_number p = k /\
  0 < last_lsn (lp_buf p) /\
  forall n buf e, 34 <= n < lf_size lf / 4096 -> log_page_at lf data n buf e ->
    last_lsn buf < last_lsn (lp_buf p).

(** Where a fast page belongs. *)
Definition home (p : log_page) : Z := fld 4 (lp_buf p) 60.

(** [new] is [old] with the pages written in turn, each at its home. *)
Inductive pages_written : list Z -> list log_page -> list Z -> Prop :=
| written_none data : pages_written data [] data
| written_page old mid new p ps : written old (home p) (lp_raw p) mid -> pages_written mid ps new ->
    pages_written old (p :: ps) new.

(** ** Log records of the NTFS client *)

Definition resident (b : list Z) : Prop :=
  In (fld 2 b 0) LOGGED_RESIDENT_UPDATES \/ In (fld 2 b 2) LOGGED_RESIDENT_UPDATES.
Definition nonresident (b : list Z) : Prop :=
  In (fld 2 b 0) LOGGED_NONRESIDENT_UPDATES \/ In (fld 2 b 2) LOGGED_NONRESIDENT_UPDATES.

(** The size of a file record in the record: 512-byte blocks, 0 for 1024. *)
Definition frs_size (b : list Z) : Z := if fld 2 b 22 =? 0 then 1024 else fld 2 b 22 * 512.
(** The byte of the target the update starts from: a cluster and 512-byte
    blocks. *)
Definition target_byte (cluster : Z) (b : list Z) : Z :=
  to_signed 64 (fld 8 b 24) * cluster + fld 2 b 20 * 512.

(** The part of a record that an offset and a length field give; an offset that
    is inside the header is not allowed, unless it is 0. *)
Definition part (b : list Z) (o n : Z) (out : list Z) : Prop :=
  (fld 2 b n = 0 /\ out = []) \/
  (fld 2 b n <> 0 /\ ~ 0 < fld 2 b o < 32 /\ out = slice b (fld 2 b o) (fld 2 b o + fld 2 b n)).
Definition redo_part (b : list Z) := part b 4 6.
Definition undo_part (b : list Z) := part b 8 10.

(** A log record as written: header fields, cluster numbers, redo and undo
    data. *)
Record fields := {
  f_redo_op : Z; f_undo_op : Z; f_target : Z; f_record : Z; f_attr : Z; f_block : Z; f_size : Z; f_vcn : Z;
  f_lcns : list Z; f_redo : list Z; f_undo : list Z
}.

Definition written_record (f : fields) : list Z :=
  let ro := 32 + 8 * zlen (f_lcns f) in
  le_bytes 2 (f_redo_op f) ++ le_bytes 2 (f_undo_op f) ++
  le_bytes 2 ro ++ le_bytes 2 (zlen (f_redo f)) ++
  le_bytes 2 (ro + zlen (f_redo f)) ++ le_bytes 2 (zlen (f_undo f)) ++
  le_bytes 2 (f_target f) ++ le_bytes 2 (zlen (f_lcns f)) ++
  le_bytes 2 (f_record f) ++ le_bytes 2 (f_attr f) ++ le_bytes 2 (f_block f) ++ le_bytes 2 (f_size f) ++
  le_bytes 8 (f_vcn f mod 2 ^ 64) ++
  flat_map (fun v => le_bytes 8 (v mod 2 ^ 64)) (f_lcns f) ++ f_redo f ++ f_undo f.

Definition fields_ok (f : fields) : Prop :=
  let u16 x := 0 <= x < 65536 in
  u16 (f_redo_op f) /\ u16 (f_undo_op f) /\ u16 (f_target f) /\ u16 (f_record f) /\ u16 (f_attr f) /\
  u16 (f_block f) /\ u16 (f_size f) /\ - 2 ^ 63 <= f_vcn f < 2 ^ 63 /\
  Forall (fun v => - 2 ^ 63 <= v < 2 ^ 63) (f_lcns f) /\
  32 + 8 * zlen (f_lcns f) + zlen (f_redo f) < 65536 /\ zlen (f_undo f) < 65536.

(** ** Open attributes *)

(** The reference in an open attribute entry; [None] if it is cut. *)
Definition entry_ref (version : Z) (entry : list Z) : option Z :=
  if version <? 1
  then if 44 <=? zlen entry then Some (fld 8 entry 8) else None
  else if 40 <=? zlen entry then Some (fld 8 entry 16) else None.

(** What attribute [i] of the open attribute table is after some log records
    (the latest first): the latest record that opens it counts, unless a cut
    entry came later, which empties the table. *)
Inductive open_as (version : Z) (i : Z) : list (list Z) -> option (Z * list Z) -> Prop :=
| open_never : open_as version i [] None
| open_other b older r : fld 2 b 0 <> 28 -> open_as version i older r -> open_as version i (b :: older) r
| open_cut b older entry name : fld 2 b 0 = 28 -> redo_part b entry -> undo_part b name -> entry_ref version entry = None ->
    open_as version i (b :: older) None
| open_this b older entry name ref : fld 2 b 0 = 28 -> redo_part b entry -> undo_part b name ->
    entry_ref version entry = Some ref -> fld 2 b 12 = i ->
    open_as version i (b :: older) (Some (ref, utf16le name))
| open_another b older entry name ref r : fld 2 b 0 = 28 -> redo_part b entry -> undo_part b name ->
    entry_ref version entry = Some ref -> fld 2 b 12 <> i -> open_as version i older r ->
    open_as version i (b :: older) r.

(** The dumps with operation [op] among some log records, the latest first. *)
Inductive dumps (op : Z) : list (list Z) -> list (list Z) -> Prop :=
| dumps_none : dumps op [] []
| dumps_other b older l : fld 2 b 0 <> op -> dumps op older l -> dumps op (b :: older) l
| dumps_this b older l d : fld 2 b 0 = op -> redo_part b d -> dumps op older l -> dumps op (b :: older) (d :: l).

(** The pair of dumps attached to a record. *)
Definition attached (oats names : list (list Z)) : option (list Z) * option (list Z) :=
  if (length oats =? 0)%nat then (None, None)
  else if (length oats =? length names)%nat then (nth_error oats 0, nth_error names 0)
  else (nth_error oats 1, nth_error names 1).

(** ** The items of one client *)

(** [before]: the log records already met, the latest first. *)
Inductive shows (c : config) : list (list Z) -> list client_data -> list item -> Prop :=
| shows_none before : shows c before [] []
| shows_other before cd cds is : cd_type cd <> 1 -> cd_type cd <> 2 -> shows c before cds is ->
    shows c before (cd :: cds) is
| shows_area before cd cds is : cd_type cd = 2 -> 64 <= zlen (cd_buf cd) -> shows c before cds is ->
    shows c before (cd :: cds) (Area (cd_buf cd) (cd_lsn cd) :: is)
| shows_record before cd cds is t od ad : cd_type cd = 1 -> 32 <= zlen (cd_buf cd) ->
    (forall i, open_as (cf_oat c) i (cd_buf cd :: before) (oat_get t i)) ->
    match cf_dumps c with
    | None => False
    | Some false => od = None /\ ad = None
    | Some true => exists oats names, dumps 29 (cd_buf cd :: before) oats /\ dumps 30 (cd_buf cd :: before) names /\
        (option_map fst od, ad) = attached oats names /\ (forall d v, od = Some (d, v) -> v = cf_oat c)
    end ->
    shows c (cd_buf cd :: before) cds is ->
    shows c before (cd :: cds) (Rec (cd_buf cd) (cd_lsn cd) (cd_tid cd) (cd_cluster cd) t od ad :: is).

(** The log records among some client data, the latest first. *)
Definition records_of (cds : list client_data) : list (list Z) :=
  rev (map cd_buf (filter (fun cd => cd_type cd =? 1) cds)).

(** Data on which the iteration stops with an exception. *)
Definition bad_part (b : list Z) (o n : Z) : Prop := fld 2 b n <> 0 /\ 0 < fld 2 b o < 32.
Inductive stops (c : config) (cd : client_data) : exn -> Prop :=
| stops_area : cd_type cd = 2 -> zlen (cd_buf cd) < 64 -> stops c cd ClientException
| stops_short : cd_type cd = 1 -> zlen (cd_buf cd) < 32 -> stops c cd ClientException
| stops_entry : cd_type cd = 1 -> 32 <= zlen (cd_buf cd) -> fld 2 (cd_buf cd) 0 = 28 ->
    bad_part (cd_buf cd) 8 10 \/ bad_part (cd_buf cd) 4 6 -> stops c cd ClientException
| stops_dump : cd_type cd = 1 -> 32 <= zlen (cd_buf cd) ->
    fld 2 (cd_buf cd) 0 = 29 \/ fld 2 (cd_buf cd) 0 = 30 -> cf_dumps c = Some true ->
    bad_part (cd_buf cd) 4 6 -> stops c cd ClientException
| stops_unset : cd_type cd = 1 -> 32 <= zlen (cd_buf cd) -> cf_dumps c = None -> stops c cd AttributeError_py.

(** The client data of the record of an LSN. *)
Definition data_of (lf : log_file) (data : list Z) (cluster lsn : Z) (cd : client_data) : Prop :=
  exists n off h, lsn_pos lf lsn n off /\ record_at lf data n off h /\ record_data lf data n off h (cd_buf cd) /\
    cd_type cd = fld 4 h 32 /\ cd_lsn cd = lsn /\ cd_tid cd = fld 4 h 36 /\ cd_cluster cd = cluster.

(** The items for the LSNs of one client, and how it ends. *)
Inductive client_items (lf : log_file) (data : list Z) (c : config) : list Z -> list item -> status -> Prop :=
| items_all l cds is : Forall2 (data_of lf data (cf_cluster c)) l cds -> shows c [] cds is ->
    client_items lf data c l is Done
| items_stop l1 x l2 cds cd is e : Forall2 (data_of lf data (cf_cluster c)) l1 cds -> shows c [] cds is ->
    data_of lf data (cf_cluster c) x cd -> stops c cd e ->
    client_items lf data c (l1 ++ x :: l2) is (Raised e).

(** All clients in turn. *)
Inductive all_items (lf : log_file) (data : list Z) (c : config) : list (Z * list Z) -> list item -> status -> Prop :=
| all_none : all_items lf data c [] [] Done
| all_more id l d is is' st : client_items lf data c l is Done -> all_items lf data c d is' st ->
    all_items lf data c ((id, l) :: d) (is ++ is') st
| all_stop id l d is e : client_items lf data c l is (Raised e) -> all_items lf data c ((id, l) :: d) is (Raised e).

(** LSNs grouped by the client of the record. *)
Definition client_of (lf : log_file) (data : list Z) (x id : Z) : Prop :=
  exists n off h, lsn_pos lf x n off /\ record_at lf data n off h /\ fld 4 h 28 = id.
Definition grouped (lf : log_file) (data : list Z) (lsns : list Z) (d : list (Z * list Z)) : Prop :=
  NoDup (map fst d) /\
  forall id xs, In (id, xs) d ->
    xs <> [] /\ StronglySorted Z.lt xs /\ forall x, In x xs <-> In x lsns /\ client_of lf data x id.

Definition item_lsn (i : item) : Z := match i with Area _ x => x | Rec _ x _ _ _ _ _ => x end.

(** ** Checkpoints: a dump of the open attribute table, then one of the names.
    [checkpoints before half l]: the complete pairs [l] among the records
    [before] (latest first in both) and, in [half], a table dump after them. *)
Inductive checkpoints : list (list Z) -> option (list Z) -> list (list Z * list Z) -> Prop :=
| cp_start : checkpoints [] None []
| cp_other b older h l : fld 2 b 0 <> 29 -> fld 2 b 0 <> 30 -> checkpoints older h l -> checkpoints (b :: older) h l
| cp_table b older d l : fld 2 b 0 = 29 -> redo_part b d -> checkpoints older None l -> checkpoints (b :: older) (Some d) l
| cp_names b older d n l : fld 2 b 0 = 30 -> redo_part b n -> checkpoints older (Some d) l ->
    checkpoints (b :: older) None ((d, n) :: l).

(** ** Name dumps: index, length, name and two zero bytes each. *)

Inductive named (dump : list Z) (i : Z) : Z -> list Z -> Prop :=
| named_here p : p + 8 <= zlen dump -> fld 2 dump p = i ->
    named dump i p (utf16le (slice dump (p + 4) (p + 4 + fld 2 dump (p + 2))))
| named_later p n : p + 8 <= zlen dump -> fld 2 dump p <> i -> named dump i (p + 4 + fld 2 dump (p + 2) + 2) n ->
    named dump i p n.

Definition name_entry_image (e : Z * list Z) (enc : list Z) : list Z :=
  le_bytes 2 (fst e) ++ le_bytes 2 (zlen enc) ++ enc ++ [0; 0].

(** ** The target of a nonresident update: from the table, otherwise from the
    dumps (the name is missing if the names dump does not have it). *)
Definition dump_ref (dump : list Z) (version i : Z) : option Z :=
  if i <? zlen dump then entry_ref version (zdrop i dump) else None.

Inductive target (b : list Z) (t : oat) (od : option (list Z * Z)) (ad : option (list Z)) :
  option (Z * option (list Z)) -> Prop :=
| target_resident : ~ nonresident b -> target b t od ad None
| target_open r n : nonresident b -> oat_get t (fld 2 b 12) = Some (r, n) -> target b t od ad (Some (r, Some n))
| target_unknown : nonresident b -> oat_get t (fld 2 b 12) = None ->
    (od = None \/ ad = None \/ exists d v, od = Some (d, v) /\ dump_ref d v (fld 2 b 12) = None) -> target b t od ad None
| target_named d v names r n : nonresident b -> oat_get t (fld 2 b 12) = None ->
    od = Some (d, v) -> ad = Some names -> dump_ref d v (fld 2 b 12) = Some r -> named names (fld 2 b 12) 0 n ->
    target b t od ad (Some (r, Some n))
| target_unnamed d v names r : nonresident b -> oat_get t (fld 2 b 12) = None ->
    od = Some (d, v) -> ad = Some names -> dump_ref d v (fld 2 b 12) = Some r -> (forall n, ~ named names (fld 2 b 12) 0 n) ->
    target b t od ad (Some (r, None)).
