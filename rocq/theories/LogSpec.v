(** Specification of $LogFile structures, against the raw bytes. *)
From Verif Require Import Base FrsSpec UsaSpec Crc32 LogPage LogFile.

(** ** Sector protection *)

Definition log_geometry (raw : list Z) (uo us : Z) : Prop :=
  1024 <= zlen raw /\ zlen raw mod 512 = 0 /\ fld 2 raw 4 = uo /\ fld 2 raw 6 = us /\
  8 <= uo <= 506 /\ 2 <= us /\ (us - 1) * 512 = zlen raw /\ uo + 2 * us < zlen raw.

(** Protected by a checksum instead (DAX volumes): the array holds the CRC-32
    of the block with the array blanked, and the mark "CRC4". *)
Definition crc_protected (raw : list Z) (uo us : Z) : Prop :=
  slice raw (uo + 4) (uo + 8) = [67; 82; 67; 52] /\
  fld 4 raw uo = crc32 (put raw uo (zeros (2 * us))).

(** Where the array keeps byte [p] of a sector tail. *)
Definition saved_at (uo p : Z) : Z := uo + 2 * (p / 512 + 1) + (p mod 512 - 510).

(** Every tail has been restored in turn, so an array entry that lies itself in
    the tail of an earlier sector is read after that tail was restored. *)
Definition tails_in_turn (raw out : list Z) (uo : Z) : Prop :=
  forall p, 0 <= p < zlen raw -> 510 <= p mod 512 ->
    let q := saved_at uo p in
    znth out p =
      if (510 <=? q mod 512) && (q / 512 <? p / 512) then znth out q else znth raw q.

(** [unprotects raw out e]: [out] is the content of the protected block [raw],
    whose array ends at [e]. *)
Definition unprotects (raw out : list Z) (e : Z) : Prop :=
  exists uo us, log_geometry raw uo us /\ e = uo + 2 * us /\
    ((crc_protected raw uo us /\ out = raw) \/
     (~ crc_protected raw uo us /\ all_intact raw uo /\ same_body raw out /\ tails_in_turn raw out uo)).

(** ** Restart pages *)

Definition signed_as (buf : list Z) (s : list Z) : Prop := slice buf 0 4 = s.

Definition version_ok (major minor : Z) : Prop :=
  (major = 1 /\ minor = 1) \/ (major = 2 /\ minor = 0) \/ (major = 3 /\ minor = 0).

(** A restart page the parser supports. *)
Definition restart_ok (raw buf : list Z) : Prop :=
  (exists e, unprotects raw buf e) /\
  (signed_as buf [82; 83; 84; 82] \/ signed_as buf [67; 72; 75; 68] \/ signed_as buf [66; 65; 65; 68]) /\
  version_ok (fld 2 buf 28) (fld 2 buf 26) /\
  fld 4 buf 16 = 4096 /\ fld 4 buf 20 = 4096 /\
  0 < fld 2 buf 24 < 4096 /\ fld 2 buf 24 < zlen buf /\ fld 2 buf 24 mod 8 = 0.

(** The restart area of a restart page: in the page, with the clients array
    inside and list heads that are indices of it (or 0xFFFF). *)
Definition area_ok (buf area : list Z) : Prop :=
  area = zdrop (fld 2 buf 24) buf /\ 24 <= zlen area /\
  0 < fld 2 area 22 < zlen area /\ fld 2 area 22 mod 8 = 0 /\ fld 2 area 22 < fld 4 buf 16 /\
  (fld 2 area 10 = 65535 \/ fld 2 area 10 < fld 2 area 8) /\
  (fld 2 area 12 = 65535 \/ fld 2 area 12 < fld 2 area 8).

(** ** Log record pages and records *)

(** What opening guarantees about a parser. *)
Definition lf_ok (lf : log_file) : Prop :=
  lf_psize lf = 4096 /\ 48 <= lf_hl lf < 65536 /\ 0 <= lf_doff lf < 65536 /\
  3 <= lf_bits lf <= 63 /\ version_ok (lf_major lf) (lf_minor lf) /\ 8192 <= lf_size lf.

(** Page [n] of the file is a log record page with content [buf]. *)
Definition log_page_at (lf : log_file) (data : list Z) (n : Z) (buf : list Z) (e : Z) : Prop :=
  let raw := slice data (4096 * n) (4096 * n + 4096) in
  0 <= n /\ zlen raw = 4096 /\ unprotects raw buf e /\
  (signed_as buf [82; 67; 82; 68] \/ signed_as buf [67; 72; 75; 68] \/ signed_as buf [66; 65; 65; 68]) /\
  8 <= lf_doff lf /\ e <= lf_doff lf /\ lf_doff lf mod 8 = 0.

(** Offset [off] of page [n] holds a record header; [h] is the page from there. *)
Definition record_at (lf : log_file) (data : list Z) (n off : Z) (h : list Z) : Prop :=
  exists buf e, log_page_at lf data n buf e /\
    lf_doff lf <= off /\ lf_hl lf mod 8 = 0 /\ off + lf_hl lf <= 4096 /\ h = zdrop off buf.

(** ** Log sequence numbers: 8-byte units from the start of the file in the low
    bits, the sequence number in the high [lf_bits] bits. *)
Definition lsn_pos (lf : log_file) (lsn n off : Z) : Prop :=
  n * 4096 + off = 8 * (lsn mod 2 ^ (64 - lf_bits lf)) /\ 0 <= off < 4096.

Definition lsn_seq (lf : log_file) (lsn : Z) : Z := lsn / 2 ^ (64 - lf_bits lf).

(** An LSN is that of a record in the file, outside page 0. *)
Definition valid_lsn (lf : log_file) (data : list Z) (lsn : Z) : Prop :=
  exists n off h, lsn_pos lf lsn n off /\ n <> 0 /\ record_at lf data n off h /\ fld 8 h 0 = lsn.

(** The file fits in the offsets an LSN can hold. *)
Definition addressable (lf : log_file) (data : list Z) : Prop := zlen data <= 8 * 2 ^ (64 - lf_bits lf).

(** First page after the last one: 4 in version 1.1, 34 later. *)
Definition first_page (lf : log_file) : Z := if lf_major lf =? 1 then 4 else 34.

(** ** Opening *)

Definition page_size_ok (n : Z) : Prop := 1024 <= n /\ n mod 512 = 0.

(** A restart page that is not damaged but of a kind the parser does not
    support: another version, or pages of another size. *)
Definition restart_unsupported (raw : list Z) : Prop :=
  exists buf e, unprotects raw buf e /\
  (signed_as buf [82; 83; 84; 82] \/ signed_as buf [67; 72; 75; 68] \/ signed_as buf [66; 65; 65; 68]) /\
  (~ version_ok (fld 2 buf 28) (fld 2 buf 26) \/
   (version_ok (fld 2 buf 28) (fld 2 buf 26) /\
    ((page_size_ok (fld 4 buf 16) /\ fld 4 buf 16 <> 4096) \/
     (fld 4 buf 16 = 4096 /\ page_size_ok (fld 4 buf 20) /\ fld 4 buf 20 <> 4096)))).

(** What is kept of a restart page: its content, or nothing if it is damaged. *)
Definition restart_state (raw : list Z) (r : option (list Z)) : Prop :=
  match r with
  | Some buf => restart_ok raw buf
  | None => ~ restart_unsupported raw /\ forall buf, ~ restart_ok raw buf
  end.

(** The settings come from the first page if it is usable, otherwise from the
    second; two usable pages must agree on the version. *)
Inductive settings_from : option (list Z) -> option (list Z) -> list Z -> Prop :=
| from_second : forall b, settings_from None (Some b) b
| from_first : forall b, settings_from (Some b) None b
| from_both : forall b1 b2, fld 2 b1 28 = fld 2 b2 28 -> fld 2 b1 26 = fld 2 b2 26 ->
    settings_from (Some b1) (Some b2) b1.

Definition opened (data : list Z) (lf : log_file) : Prop :=
  let raw1 := slice data 0 4096 in
  let raw2 := slice data 4096 8192 in
  8192 <= zlen data /\ ~ (forall p, 0 <= p < 8192 -> znth data p = Some 255) /\
  restart_state raw1 (lf_rp1 lf) /\ restart_state raw2 (lf_rp2 lf) /\
  lf_size lf = zlen data /\ lf_psize lf = 4096 /\
  exists buf area, settings_from (lf_rp1 lf) (lf_rp2 lf) buf /\ area_ok buf area /\ 40 <= zlen area /\
    lf_major lf = fld 2 buf 28 /\ lf_minor lf = fld 2 buf 26 /\
    lf_hl lf = fld 2 area 36 /\ 48 <= lf_hl lf /\ lf_doff lf = fld 2 area 38 /\
    lf_bits lf = fld 4 area 16 /\ 3 <= lf_bits lf <= 63.

(** ** Client data *)

(** Pages follow each other in the file; the last is followed by [first_page]. *)
Definition next_page (lf : log_file) (n : Z) : Z :=
  if lf_size lf <=? (n + 1) * 4096 then first_page lf else n + 1.

(** The next [left] bytes after page [n]: the data areas of the pages that
    follow, up to a page that is not a log record page. *)
Inductive data_after (lf : log_file) (data : list Z) : Z -> Z -> list Z -> Prop :=
| after_done n left : left <= 0 -> data_after lf data n left []
| after_gap n left : 0 < left -> (forall buf e, ~ log_page_at lf data (next_page lf n) buf e) ->
    data_after lf data n left []
| after_page n left buf e rest : 0 < left -> log_page_at lf data (next_page lf n) buf e ->
    data_after lf data (next_page lf n) (left - Z.min left (4096 - lf_doff lf)) rest ->
    data_after lf data n left (slice buf (lf_doff lf) (lf_doff lf + Z.min left (4096 - lf_doff lf)) ++ rest).

(** The data of the record with header [h] at offset [off] of page [n]: the
    [fld 4 h 24] bytes after the header, in this page first. *)
Definition record_data (lf : log_file) (data : list Z) (n off : Z) (h out : list Z) : Prop :=
  let dl := fld 4 h 24 in
  let room := 4096 - off - lf_hl lf in
  exists rest, data_after lf data n (dl - Z.min dl room) rest /\
    out = slice h (lf_hl lf) (lf_hl lf + Z.min dl room) ++ rest.

(** ** The LSNs to start from *)

(** Those of a restart page: of chkdsk, the current one, and two per client. *)
Definition restart_page_lsn (buf : list Z) (x : Z) : Prop :=
  let area := zdrop (fld 2 buf 24) buf in
  let record i := fld 2 area 22 + 160 * i in
  x = fld 8 buf 8 \/ x = fld 8 area 0 \/
  exists i, 0 <= i < fld 2 area 8 /\ (x = fld 8 area (record i) \/ x = fld 8 area (record i + 8)).

(** The restart area is sound and its client records are in the page, with
    names that fit. *)
Definition restart_readable (buf : list Z) : Prop :=
  exists area, area_ok buf area /\
    forall i, 0 <= i < fld 2 area 8 ->
      fld 2 area 22 + 160 * i + 32 <= zlen area /\ fld 4 area (fld 2 area 22 + 160 * i + 28) <= 128.

(** The last LSN and the last end LSN of a log record page. *)
Definition page_lsn (lf : log_file) (data : list Z) (x : Z) : Prop :=
  exists n buf e, 2 <= n < lf_size lf / 4096 /\ log_page_at lf data n buf e /\
    (x = fld 8 buf 8 \/ x = fld 8 buf 32).

Definition start_lsn (lf : log_file) (data : list Z) (x : Z) : Prop :=
  (exists buf, (lf_rp1 lf = Some buf \/ lf_rp2 lf = Some buf) /\ restart_page_lsn buf x) \/
  page_lsn lf data x.

(** The previous and undo LSNs of the record found where an LSN points. *)
Definition points_to (lf : log_file) (data : list Z) (x y : Z) : Prop :=
  exists n off h, lsn_pos lf x n off /\ n <> 0 /\ record_at lf data n off h /\
    (y = fld 8 h 8 \/ y = fld 8 h 16).

Definition seed_lsn (lf : log_file) (data : list Z) (y : Z) : Prop :=
  valid_lsn lf data y /\
  (start_lsn lf data y \/ exists x, start_lsn lf data x /\ points_to lf data x y).

(** The record of LSN [x] holds a client restart area, which names [y]. *)
Definition restart_area_names (lf : log_file) (data : list Z) (x y : Z) : Prop :=
  exists n off h out, lsn_pos lf x n off /\ record_at lf data n off h /\ fld 4 h 32 = 2 /\
    record_data lf data n off h out /\ 64 <= zlen out /\
    In y [fld 8 out 8; fld 8 out 16; fld 8 out 24; fld 8 out 32; fld 8 out 40].

(** ** The record that follows another *)

(** [len] bytes from offset [off] of page [n], continued in the data areas of
    the pages after it, end at offset [o'] of page [n']. *)
Inductive ends_at (lf : log_file) : Z -> Z -> Z -> Z -> Z -> Prop :=
| ends_here n off len : len <= 4096 - off -> ends_at lf n off len n (off + len)
| ends_later n off len n' o' : 4096 - off < len ->
    ends_at lf (n + 1) (lf_doff lf) (len - (4096 - off)) n' o' -> ends_at lf n off len n' o'.

(** [y] is the LSN of the record after that of [x]: where the latter ends, or,
    if there is none, at the start of the next page; all before the end of the
    file. *)
Definition follows (lf : log_file) (data : list Z) (x y : Z) : Prop :=
  exists n off h n' o', lsn_pos lf x n off /\ n <> 0 /\ record_at lf data n off h /\
    8 <= fld 4 h 24 /\ fld 4 h 24 mod 8 = 0 /\
    ends_at lf n off (lf_hl lf + fld 4 h 24) n' o' /\ (n' + 1) * 4096 < lf_size lf /\
    valid_lsn lf data y /\ lsn_seq lf y = lsn_seq lf x /\
    (lsn_pos lf y n' o' \/
     (lsn_pos lf y (n' + 1) (lf_doff lf) /\
      forall z, lsn_pos lf z n' o' -> lsn_seq lf z = lsn_seq lf x -> ~ valid_lsn lf data z)).

(** No record of the file has a sequence number other than [q]: the log was
    not written a second time from its start. *)
Definition one_pass (lf : log_file) (data : list Z) (q : Z) : Prop :=
  forall x, valid_lsn lf data x -> lsn_seq lf x = q.

(** Chains of previous (offset 8) or undo (offset 16) links. *)
Definition links (lf : log_file) (data : list Z) (field x y : Z) : Prop :=
  exists n off h, lsn_pos lf x n off /\ n <> 0 /\ record_at lf data n off h /\ fld 8 h field = y /\
    valid_lsn lf data y.

Inductive chain (R : Z -> Z -> Prop) : Z -> Z -> Prop :=
| chain_nil x : chain R x x
| chain_cons x y z : R x y -> chain R y z -> chain R x z.
