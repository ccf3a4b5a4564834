(** Small log files, written field by field, for the examples and the
    counterexamples. *)
From Verif Require Import Base FrsSpec LogPage LogFile.

Definition puts (l : list Z) (fs : list (Z * list Z)) : list Z :=
  fold_left (fun l f => put l (fst f) (snd f)) fs l.

(** Fields at increasing offsets, with zeros between them and up to [total]. *)
Fixpoint spread (total pos : Z) (fs : list (Z * list Z)) : list Z :=
  match fs with
  | [] => zeros (total - pos)
  | (off, b) :: t => zeros (off - pos) ++ b ++ spread total (off + zlen b) t
  end.

Definition usn1 : list Z := [1; 0].

(** A restart page of version 1.1 with one client. *)
Definition restart_image (bits current oldest restart : Z) : list Z :=
  protect (spread 4096 0
    [(0, sig_RSTR); (4, le_bytes 2 30); (6, le_bytes 2 9); (8, le_bytes 8 0);
     (16, le_bytes 4 4096); (20, le_bytes 4 4096); (24, le_bytes 2 48); (26, le_bytes 2 1); (28, le_bytes 2 1);
     (48, le_bytes 8 current); (56, le_bytes 2 1); (58, le_bytes 2 65535); (60, le_bytes 2 0);
     (64, le_bytes 4 bits); (68, le_bytes 2 224); (70, le_bytes 2 64); (80, le_bytes 4 0);
     (84, le_bytes 2 48); (86, le_bytes 2 64);
     (112, le_bytes 8 oldest); (120, le_bytes 8 restart); (140, le_bytes 4 8);
     (144, [78; 0; 84; 0; 70; 0; 83; 0])]) usn1.

(** A log record header and its data. *)
Definition record_image (this prev undo ty tid : Z) (payload : list Z) : list Z :=
  le_bytes 8 this ++ le_bytes 8 prev ++ le_bytes 8 undo ++ le_bytes 4 (zlen payload) ++
  le_bytes 4 0 ++ le_bytes 4 ty ++ le_bytes 4 tid ++ zeros 8 ++ payload.

(** A log record page: the last LSNs and records at given offsets. *)
Definition page_image (last last_end : Z) (body : list (Z * list Z)) : list Z :=
  protect (spread 4096 0
    ([(0, sig_RCRD); (4, le_bytes 2 40); (6, le_bytes 2 9); (8, le_bytes 8 last); (32, le_bytes 8 last_end)] ++ body))
    usn1.

Definition lsn40 (seq page off : Z) : Z := seq * 2 ^ 24 + (page * 4096 + off) / 8.

Fixpoint count (k : Z) (n : nat) : list Z :=
  match n with O => [] | S m => k mod 251 :: count (k + 1) m end.
Definition pay (n : nat) : list Z := count 1 n.

(** Four records: [a] in the last page with sequence number 1, then [b], [c]
    and [d] in the first page with sequence number 2. *)
Definition rec_a := lsn40 1 5 64.
Definition rec_b := lsn40 2 4 64.
Definition rec_c := lsn40 2 4 128.
Definition rec_d := lsn40 2 4 192.

Definition wrap_log : list Z :=
  restart_image 40 rec_d 0 0 ++ restart_image 40 rec_d 0 0 ++ zeros 8192 ++
  page_image rec_d rec_d
    [(64, record_image rec_b 0 0 1 1 (pay 16)); (128, record_image rec_c 0 0 1 2 (pay 16));
     (192, record_image rec_d 0 0 1 1 (pay 16))] ++
  page_image rec_a rec_a [(64, record_image rec_a 0 0 1 1 (pay 16))].

(** The same records in a log not yet written a second time. *)
Definition plain_log : list Z :=
  let a := lsn40 1 4 64 in let b := lsn40 1 4 128 in let c := lsn40 1 4 192 in let d := lsn40 1 5 64 in
  restart_image 40 d a 0 ++ restart_image 40 d a 0 ++ zeros 8192 ++
  page_image c c
    [(64, record_image a 0 0 1 1 (pay 16)); (128, record_image b a 0 1 2 (pay 16));
     (192, record_image c 0 b 1 1 (pay 16))] ++
  page_image d d [(64, record_image d c a 1 1 (pay 16))].

(** A record of two pages ending in the last page, before one in the first. *)
Definition rec_x := lsn40 1 5 64.
Definition rec_y := lsn40 2 4 64.

Definition long_log : list Z :=
  let r := record_image rec_x 0 0 1 1 (pay (Z.to_nat 7952)) in
  restart_image 40 rec_x 0 0 ++ restart_image 40 rec_x 0 0 ++ zeros 8192 ++
  page_image rec_y rec_y [(64, record_image rec_y rec_x 0 1 2 (pay 16))] ++
  page_image rec_x 0 [(64, ztake 4032 r)] ++
  page_image rec_x rec_x [(64, zdrop 4032 r)].

(** Three pages, with 10 bits for the offset in an LSN: enough for two. *)
Definition tight_log : list Z :=
  restart_image 54 1544 0 0 ++
  page_image 1544 1544 [(64, record_image 1544 0 0 1 1 (pay 16))] ++
  page_image 0 0 [(64, record_image 1032 0 0 1 1 (pay 16))].

Definition no_order (k : nat) (l : list Z) : list Z := l.
Definition no_config : config := {| cf_cluster := 4096; cf_oat := 0; cf_dumps := None |}.

Definition collected (data : list Z) : result (list Z) :=
  let! lf := log_open data in
  let! r := collect_lsns lf data no_order no_config in
  Ok (fst r).

(** A log of version 1.1 whose records (type and data) follow each other in the
    first log record page. *)
Fixpoint lay (off prev : Z) (rs : list (Z * list Z)) : list (Z * list Z) :=
  match rs with
  | [] => []
  | (ty, payload) :: t =>
    let x := lsn40 1 4 off in
    (off, record_image x prev 0 ty 1 payload) :: lay ((off + 48 + zlen payload + 7) / 8 * 8) x t
  end.

Definition log_of (rs : list (Z * list Z)) : list Z :=
  let body := lay 64 0 rs in
  let last := lsn40 1 4 (fst (List.last body (64, []))) in
  let first := lsn40 1 4 64 in
  restart_image 40 last first first ++ restart_image 40 last first first ++ zeros 8192 ++
  page_image last last body ++ zeros 4096.

(** A restart page of version 2.0, and a log of that version that was cut after
    its first fast page, which is to be written to [home]. *)
Definition restart_image2 (bits current oldest : Z) : list Z :=
  protect (spread 4096 0
    [(0, sig_RSTR); (4, le_bytes 2 30); (6, le_bytes 2 9); (8, le_bytes 8 0);
     (16, le_bytes 4 4096); (20, le_bytes 4 4096); (24, le_bytes 2 48); (26, le_bytes 2 0); (28, le_bytes 2 2);
     (48, le_bytes 8 current); (56, le_bytes 2 1); (58, le_bytes 2 65535); (60, le_bytes 2 0);
     (64, le_bytes 4 bits); (68, le_bytes 2 224); (70, le_bytes 2 64); (80, le_bytes 4 0);
     (84, le_bytes 2 48); (86, le_bytes 2 64);
     (112, le_bytes 8 oldest); (120, le_bytes 8 oldest); (140, le_bytes 4 8);
     (144, [78; 0; 84; 0; 70; 0; 83; 0])]) usn1.

Definition fast_log (home : Z) : list Z :=
  let a := lsn40 1 34 64 in let b := lsn40 1 34 144 in
  restart_image2 40 a a ++ restart_image2 40 a a ++
  page_image b b [(60, le_bytes 4 home); (64, record_image a 0 0 1 1 (pay 32)); (144, record_image b a 0 1 1 (pay 32))].

(** A log of version 1.1 with a tail page whose home is page 4 but whose LSNs
    are below those of page 4. *)
Definition stale_log : list Z :=
  let a := lsn40 1 4 64 in let b := lsn40 1 4 144 in
  restart_image 40 b a 0 ++ restart_image 40 b a 0 ++
  page_image 16384 a [(64, record_image a 0 0 1 1 (pay 32))] ++ zeros 4096 ++
  page_image b b [(64, record_image a 0 0 1 1 (pay 32)); (144, record_image b a 0 1 1 (pay 32))] ++
  zeros 4096.

(** Restart area data, dumps and name dumps of version 1. *)
Definition area_image : list Z := le_bytes 4 1 ++ zeros 76.
Definition table_image (ref : Z) : list Z := zeros 24 ++ puts (zeros 40) [(16, le_bytes 8 ref)].
