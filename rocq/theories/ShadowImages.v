(** A small volume with two shadow copies, for the examples. *)
From Verif Require Import Base FrsSpec LogImages Shadow ShadowSpec.

Definition bk (n : Z) : Z := n * 16384.

Definition guid_a : list Z := repeat 17 16.
Definition guid_b : list Z := repeat 34 16.

Definition sh_header (ty own next : Z) : list Z :=
  vsp_guid ++ le_bytes 4 1 ++ le_bytes 4 ty ++ le_bytes 8 own ++ le_bytes 8 own ++ le_bytes 8 next.

Definition item2_image (size : Z) (guid : list Z) (pos flags : Z) : list Z :=
  le_bytes 8 2 ++ le_bytes 8 size ++ guid ++ le_bytes 8 pos ++ le_bytes 8 flags ++ le_bytes 8 0 ++ zeros 72.
Definition item3_image (diff : Z) (guid : list Z) (bitmap : Z) : list Z :=
  le_bytes 8 3 ++ le_bytes 8 diff ++ guid ++ le_bytes 8 0 ++ le_bytes 8 0 ++ le_bytes 8 bitmap ++ zeros 72.
Definition entry_image (e : entry) : list Z :=
  le_bytes 8 (e_orig e) ++ le_bytes 8 (e_store e) ++ le_bytes 8 (e_vol e) ++ le_bytes 4 (e_flags e) ++ le_bytes 4 (e_alloc e).

(** Pieces at increasing offsets, zeros between them. *)
Fixpoint lay (pos : Z) (fs : list (Z * list Z)) (size : Z) : list Z :=
  match fs with
  | [] => zeros (size - pos)
  | (off, b) :: t => zeros (off - pos) ++ b ++ lay (off + zlen b) t size
  end.

(** Twelve blocks: 0 start block, 1 control block, 2 and 3 table and bitmap
    of the older store, 4 and 5 of the newer one, 6 to 8 saved data, 9 to 11
    data of the volume.  Parameters: offset of the first table, target of the
    forwarder for block 10, block following the control block, block
    following the bitmap of the older store. *)
Definition sh_image (diff fwd next_cb next_bm : Z) : list Z :=
  lay 0
    [(3, [78; 84; 70; 83]);
     (7680, vsp_guid ++ le_bytes 4 1 ++ le_bytes 4 1 ++ le_bytes 8 7680 ++ le_bytes 8 7680 ++ le_bytes 8 0 ++ le_bytes 8 (bk 1));
     (bk 1, sh_header 2 (bk 1) next_cb);
     (bk 1 + 128, item2_image (bk 12) guid_a 1 1024 ++ item3_image diff guid_a (bk 3) ++
                  item2_image (bk 12) guid_b 2 1024 ++ item3_image (bk 4) guid_b (bk 5));
     (bk 2, sh_header 3 (bk 2) 0);
     (bk 2 + 128, entry_image (mk_entry (bk 9) 0 (bk 6) 0 0) ++ entry_image (mk_entry (bk 9) 0 (bk 7) 2 1) ++
                  entry_image (mk_entry (bk 10) fwd 0 1 0) ++ entry_image (mk_entry (bk 11) 0 (bk 8) 2 1));
     (bk 3, sh_header 6 (bk 3) next_bm); (bk 3 + 129, [8]);
     (bk 4, sh_header 3 (bk 4) 0);
     (bk 5, sh_header 6 (bk 5) 0);
     (bk 6, repeat 66 1024); (bk 7, repeat 77 1024); (bk 8, repeat 88 1024);
     (bk 9, repeat 9 1024); (bk 10, repeat 10 1024); (bk 11, repeat 11 1024)] (bk 12).

Definition sh_good : vol := mk_vol (sh_image (bk 2) (bk 11) 0 0) 0.
(** The forwarder leads to an offset that is not a block. *)
Definition sh_bad_forward : vol := mk_vol (sh_image (bk 2) (bk 11 + 512) 0 0) 0.
(** The table of the older store is not a table. *)
Definition sh_bad_table : vol := mk_vol (sh_image (bk 5) (bk 11) 0 0) 0.
(** The control block is followed by itself. *)
Definition sh_cb_loop : vol := mk_vol (sh_image (bk 2) (bk 11) (bk 1) 0) 0.
(** The bitmap is followed by itself. *)
Definition sh_bm_loop : vol := mk_vol (sh_image (bk 2) (bk 11) 0 (bk 3)) 0.

Definition opened (v : vol) (vsize : option Z) : parser :=
  match open_one 5 v vsize with Ok o => o | Err _ => mk_parser false false v v vsize [] [] new_pstate [] 0 end.
Definition chosen (v : vol) (vsize : option Z) (g : list Z) : parser := fst (select_shadow 5 5 (opened v vsize) (ByGuid g)).
