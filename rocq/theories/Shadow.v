(** Model of /repo/dfir_ntfs/ShadowCopy.py: volume shadow copies.

    One model covers ShadowParser (624-1264) and ShadowParserTwoVolumes
    (1266-1800): the second differs from the first in taking the items of type
    3, the metadata blocks and the saved data blocks from another volume.  A
    location of a sector is [LZero] (None in the code), [LLive o] (an offset
    on the volume itself, [(False, o)] with two volumes) or [LStore o] (an
    offset in the diff area, [(True, o)]); ShadowParser drops the distinction
    between the last two, which are read from the same file.

    Simplifications: file objects are byte lists that do not change; [seek]
    raises ValueError for a negative position and OverflowError from 2^63 on
    ([seek_read], as in PartitionTable); MemoryError is not modelled; a
    [uuid.UUID] is its 16 raw bytes.  The parser created for the next store
    reads the same control blocks again and so gets the same lists, which are
    passed on here instead.  The attributes [current_cbi2] and [current_cbi3],
    which only select_shadow uses, are recorded when both have been found (the
    code sets them while it is searching).  Table entries are processed after
    all blocks of the chain are read (the code does it block by block, without
    any effect but the result). *)
From Verif Require Import Base Filetime PartitionTable Sorting.

(** ShadowCopy.py:11. *)
Definition vsp_guid : list Z :=
  [107; 135; 8; 56; 118; 193; 72; 78; 183; 174; 4; 4; 110; 108; 199; 82].

(** ShadowCopy.py:56-102: the classes derived from ShadowCopyException
    ([InvalidVolume] is not one of them). *)
Definition is_shadow_exn (e : exn) : bool :=
  match e with
  | ShadowCopyException | ShadowCopyNotFoundException | ShadowBlockException | StartBlockException
  | ShadowCopiesDisabledException | ControlBlockException | ControlBlockItemException => true
  | _ => false
  end.

(** ShadowCopy.py:110-114 ShadowBlock.__init__. *)
Definition shadow_block (buf : list Z) : result unit :=
  if negb (zlist_eqb (slice buf 0 16) vsp_guid) then Err ShadowCopyException else Ok tt.

(** ShadowCopy.py:163-183 StartBlock.__init__; 249-253 is_supported_volume. *)
Definition start_block (buf : list Z) : result unit :=
  if negb (zlen buf =? 8192) then Err StartBlockException else
  let sig := slice buf 3 7 in
  if negb (zlist_eqb sig [78; 84; 70; 83] || zlist_eqb sig [82; 101; 70; 83]) then Err InvalidVolume else
  let blk := zdrop 7680 buf in
  let! _ := shadow_block blk in
  let! o1 := u64 blk 24 in
  if negb (o1 =? 7680) then Err StartBlockException else
  let! o2 := u64 blk 32 in
  if negb (o2 =? 7680) then Err StartBlockException else
  let! o3 := u64 blk 40 in
  if negb (o3 =? 0) then Err StartBlockException else
  let! ty := u32 blk 20 in
  if negb (ty =? 1) then Err StartBlockException else Ok tt.

(** ShadowCopy.py:185-192 get_first_control_block_offset. *)
Definition first_control_block (buf : list Z) : result Z :=
  let! o := u64 buf 7728 in
  if (0 <? o) && negb (o mod 16384 =? 0) then Err StartBlockException else Ok o.

(** ShadowCopy.py:219-222 is_storage_local. *)
Definition storage_local (buf : list Z) : bool :=
  zlist_eqb (slice buf 7744 7760) (slice buf 7760 7776).

(** ShadowCopy.py:456-470, 485-499, 519-533, 574-588: the constructors of the
    blocks of type [ty] (the test [offset == 0 and offset % 0x4000 != 0] is
    never true). *)
Definition block_ok (ty : Z) (bad : exn) (buf : list Z) : result unit :=
  if negb (zlen buf =? 16384) then Err bad else
  let! _ := shadow_block buf in
  let! t := u32 buf 20 in
  if negb (t =? ty) then Err bad else Ok tt.

(** ShadowCopy.py:261-272 ControlBlock.__init__. *)
Definition control_block_ok (buf : list Z) : result unit :=
  let! _ := block_ok 2 ControlBlockException buf in
  let! rel := u64 buf 24 in
  if (0 <? rel) && negb (rel mod 16384 =? 0) then Err ControlBlockException else Ok tt.

(** ShadowCopy.py:320-383 ControlBlockItem2; 385-454 ControlBlockItem3. *)
Record item2 := mk_item2 { i2_size : Z; i2_guid : list Z; i2_pos : Z; i2_flags : Z; i2_time : Z }.
Record item3 := mk_item3 { i3_diff : Z; i3_guid : list Z; i3_app : Z; i3_loc : Z; i3_bitmap : Z; i3_prev : Z }.
Inductive item := I2 (i : item2) | I3 (i : item3).

(** ShadowCopy.py:326-377; [raw] has 0x80 bytes and type 2. *)
Definition parse_item2 (raw : list Z) : result item2 :=
  let! size := u64 raw 8 in
  if size =? 0 then Err ControlBlockItemException else
  let! pos := u64 raw 32 in
  let! flags := u64 raw 40 in
  let! time := u64 raw 48 in
  Ok (mk_item2 size (slice raw 16 32) pos flags time).

(** ShadowCopy.py:391-448. *)
Definition parse_item3 (raw : list Z) : result item3 :=
  let! diff := u64 raw 8 in
  let! app := u64 raw 32 in
  let! loc := u64 raw 40 in
  let! bm := u64 raw 48 in
  let! prev := u64 raw 72 in
  Ok (mk_item3 diff (slice raw 16 32) app loc bm prev).

(** ShadowCopy.py:289-315 ControlBlock.items; 128 steps are enough. *)
Fixpoint cb_items_from (fuel : nat) (buf : list Z) (off : Z) : gen item :=
  match fuel with
  | O => ([], Raised OutOfFuel)
  | S n =>
    if negb (off <? 16384) then ([], Done) else
    let raw := slice buf off (off + 4) in
    if negb (zlen raw =? 4) then ([], Done) else
    let ty := le_val raw in
    if ty =? 0 then ([], Done) else
    if negb (zin ty [1; 2; 3]) then ([], Raised ControlBlockException) else
    if ty =? 1 then cb_items_from n buf (off + 128) else
    let it := slice buf off (off + 128) in
    if negb (zlen it =? 128) then ([], Raised ControlBlockException) else
    if ty =? 2 then
      match parse_item2 it with
      | Ok i => gcons (I2 i) (cb_items_from n buf (off + 128))
      | Err e => ([], Raised e)
      end
    else
      match parse_item3 it with
      | Ok i => gcons (I3 i) (cb_items_from n buf (off + 128))
      | Err e => ([], Raised e)
      end
  end.

Definition cb_items (buf : list Z) : gen item := cb_items_from 129 buf 128.

(** A volume: file content and offset of the volume in it. *)
Record vol := mk_vol { v_data : list Z; v_off : Z }.

(** The loop over a chain of blocks, as in ShadowCopy.py:704-715, 821-835,
    852-866, 873-887, 912-943 and their copies in 1317-1341, 1434-1448,
    1465-1479, 1486-1500, 1525-1556: [ok] is the constructor, [payload] what is
    kept of a block. *)
Fixpoint chain {A} (fuel : nat) (v : vol) (ok : list Z -> result unit) (payload : list Z -> result A) (curr : Z)
  : result (list A) :=
  match fuel with
  | O => Err OutOfFuel
  | S n =>
    if curr =? 0 then Ok [] else
    let! buf := seek_read (v_data v) (v_off v + curr) 16384 in
    let! _ := ok buf in
    let! own := u64 buf 32 in
    if negb (own =? curr) then Ok [] else
    let! a := payload buf in
    let! next := u64 buf 40 in
    let! rest := chain n v ok payload next in
    Ok (a :: rest)
  end.

Definition control_blocks (fuel : nat) (v : vol) (start : list Z) : result (list (list Z)) :=
  let! o := first_control_block start in
  chain fuel v control_block_ok (fun b => Ok b) o.

(** ShadowCopy.py:56. *)
Record entry := mk_entry { e_orig : Z; e_store : Z; e_vol : Z; e_flags : Z; e_alloc : Z }.

(** ShadowCopy.py:535-559 get_diff_area; 509 steps are enough. *)
Fixpoint diff_entries (fuel : nat) (buf : list Z) (off : Z) : result (list entry) :=
  match fuel with
  | O => Err OutOfFuel
  | S n =>
    if negb (off + 32 <=? zlen buf) then Ok [] else
    let b := slice buf off (off + 32) in
    let! orig := u64 b 0 in
    let! store := u64 b 8 in
    let! vol := u64 b 16 in
    let! flags := u32 b 24 in
    let! alloc := u32 b 28 in
    if negb (orig mod 16384 =? 0) || negb (vol mod 16384 =? 0) || negb (Z.land flags 4294967040 =? 0)
    then Err ShadowBlockException else
    if (0 <? Z.land flags 1) && (0 <? Z.land flags 2) then Err ShadowBlockException else
    if (vol =? 0) && (flags =? 0) then Ok [] else
    let! rest := diff_entries n buf (off + 32) in
    Ok (if Z.land flags 4 =? 0 then mk_entry orig store vol flags alloc :: rest else rest)
  end.

(** ShadowCopy.py:55, 590-609 get_location_description_items; 678 steps are
    enough. *)
Record location := mk_location { l_vol : Z; l_store : Z; l_size : Z }.

Fixpoint location_items (fuel : nat) (buf : list Z) (off : Z) : result (list location) :=
  match fuel with
  | O => Err OutOfFuel
  | S n =>
    if negb (off + 24 <=? zlen buf) then Ok [] else
    let b := slice buf off (off + 24) in
    let! vol := u64 b 0 in
    let! store := u64 b 8 in
    let! size := u64 b 16 in
    if vol =? 0 then Ok [] else
    if size =? 0 then Err ShadowBlockException else
    let! rest := location_items n buf (off + 24) in
    Ok (mk_location vol store size :: rest)
  end.

(** ShadowCopy.py:811-819. *)
Definition bitmap_bytes (size : Z) : Z :=
  let size := if negb (size mod 16384 =? 0) then size + 16384 - size mod 16384 else size in
  let bits := size / 16384 in
  let bits := if negb (bits mod 8 =? 0) then bits + 8 - bits mod 8 else bits in
  bits / 8.

(** ShadowCopy.py:806-866 read_bitmap, read_previous_bitmap. *)
Definition read_bitmap (fuel : nat) (v : vol) (size off : Z) : result (list Z) :=
  let! chunks := chain fuel v (block_ok 6 ShadowBlockException) (fun b => Ok (zdrop 128 b)) off in
  Ok (ztake (bitmap_bytes size) (concat chunks)).

(** ShadowCopy.py:868-887. *)
Definition read_locations (fuel : nat) (v : vol) (off : Z) : result (list location) :=
  let! chunks := chain fuel v (block_ok 5 ShadowBlockException) (fun b => location_items 679 b 128) off in
  Ok (concat chunks).

(** ShadowCopy.py:889-903. *)
Definition read_app_info (v : vol) (off : Z) : result (list Z) :=
  if 0 <? off then
    let! buf := seek_read (v_data v) (v_off v + off) 16384 in
    let! _ := block_ok 4 ShadowBlockException buf in
    let! own := u64 buf 32 in
    if negb (own =? off) then Ok [] else Ok (zdrop 128 buf)
  else Ok [].

(** A dictionary with integer keys, as an association list. *)
Fixpoint dget {A} (d : list (Z * A)) (k : Z) : option A :=
  match d with
  | [] => None
  | (k', v) :: t => if k' =? k then Some v else dget t k
  end.
Definition ddel {A} (d : list (Z * A)) (k : Z) : list (Z * A) := filter (fun p => negb (fst p =? k)) d.
Definition dset {A} (d : list (Z * A)) (k : Z) (v : A) : list (Z * A) := (k, v) :: ddel d k.

Definition entry_eqb (a b : entry) : bool :=
  (e_orig a =? e_orig b) && (e_store a =? e_store b) && (e_vol a =? e_vol b) &&
  (e_flags a =? e_flags b) && (e_alloc a =? e_alloc b).

(** list.remove: the first equal item. *)
Fixpoint remove_first (x : entry) (l : list entry) : list entry :=
  match l with
  | [] => []
  | y :: t => if entry_eqb x y then t else y :: remove_first x t
  end.

(** ShadowCopy.py:922-941: one table entry; the state is the forward context
    and the items so far. *)
Definition diff_step (st : list (Z * Z) * list entry) (e : entry) : list (Z * Z) * list entry :=
  let (ctx, items) := st in
  let (ctx, e) :=
    match dget ctx (e_orig e) with
    | Some new =>
      if Z.land (e_flags e) 2 =? 0
      then (ddel ctx (e_orig e), mk_entry new (e_store e) (e_vol e) (e_flags e) (e_alloc e))
      else (ctx, e)
    | None => (ctx, e)
    end in
  if 0 <? Z.land (e_flags e) 1 then
    if negb (e_orig e =? e_store e) then (dset ctx (e_store e) (e_orig e), items ++ [e])
    else
      (ctx, fold_left (fun items d =>
               if negb (Z.land (e_flags d) 3 =? 0) then items
               else if e_orig d =? e_orig e then remove_first d items else items)
             items items ++ [e])
  else (ctx, items ++ [e]).

Definition diff_process (l : list entry) : list entry := snd (fold_left diff_step l ([], [])).

(** ShadowCopy.py:905-947 read_diff_area. *)
Definition read_diff_area (fuel : nat) (v : vol) (off : Z) : result (list entry) :=
  let! chunks := chain fuel v (block_ok 3 ShadowBlockException) (fun b => diff_entries 510 b 128) off in
  Ok (sort_by e_orig (diff_process (concat chunks))).

(** ShadowCopy.py:777-784: the position of the first item of each offset. *)
Fixpoint diff_index (l : list entry) (pos : Z) (d : list (Z * Z)) : list (Z * Z) :=
  match l with
  | [] => d
  | e :: t =>
    diff_index t (pos + 1)
      (match dget d (e_orig e) with None => dset d (e_orig e) pos | Some _ => d end)
  end.

(** The attributes set by select_shadow (ShadowCopy.py:642-670); [ps_sel] is
    [shadow_selected], [ps_index] is None in a new parser. *)
Record pstate := mk_pstate {
  ps_sel : bool;
  ps_items : option (item2 * item3);
  ps_size : Z;
  ps_bitmap : list Z;
  ps_prev : list Z;
  ps_locs : list location;
  ps_app : list Z;
  ps_diff : list entry;
  ps_index : option (list (Z * Z));
  ps_nulls : list Z;
  ps_retnull : bool }.

(** A new parser; the values other than [ps_sel] and [ps_index] stand for
    None and are never looked at before a store is selected. *)
Definition new_pstate : pstate := mk_pstate false None 0 [] [] [] [] [] None [] false.

Definition set_items p x := mk_pstate (ps_sel p) (Some x) (i2_size (fst x)) (ps_bitmap p) (ps_prev p) (ps_locs p)
  (ps_app p) (ps_diff p) (ps_index p) (ps_nulls p) (ps_retnull p).
Definition set_bitmap p x := mk_pstate (ps_sel p) (ps_items p) (ps_size p) x (ps_prev p) (ps_locs p)
  (ps_app p) (ps_diff p) (ps_index p) (ps_nulls p) (ps_retnull p).
Definition set_prev p x := mk_pstate (ps_sel p) (ps_items p) (ps_size p) (ps_bitmap p) x (ps_locs p)
  (ps_app p) (ps_diff p) (ps_index p) (ps_nulls p) (ps_retnull p).
Definition set_locs p x := mk_pstate (ps_sel p) (ps_items p) (ps_size p) (ps_bitmap p) (ps_prev p) x
  (ps_app p) (ps_diff p) (ps_index p) (ps_nulls p) (ps_retnull p).
Definition set_app p x := mk_pstate (ps_sel p) (ps_items p) (ps_size p) (ps_bitmap p) (ps_prev p) (ps_locs p)
  x (ps_diff p) (ps_index p) (ps_nulls p) (ps_retnull p).
Definition set_diff p x := mk_pstate (ps_sel p) (ps_items p) (ps_size p) (ps_bitmap p) (ps_prev p) (ps_locs p)
  (ps_app p) x (ps_index p) (ps_nulls p) (ps_retnull p).
Definition set_index p x := mk_pstate (ps_sel p) (ps_items p) (ps_size p) (ps_bitmap p) (ps_prev p) (ps_locs p)
  (ps_app p) (ps_diff p) (Some x) (ps_nulls p) (ps_retnull p).
Definition set_done p nulls retnull := mk_pstate true (ps_items p) (ps_size p) (ps_bitmap p) (ps_prev p) (ps_locs p)
  (ps_app p) (ps_diff p) (ps_index p) nulls retnull.

(** ShadowCopy.py:949-972 check_bitmap, for an offset that is not negative. *)
Definition bit_at (bm : list Z) (off : Z) : option bool :=
  let bit := off / 16384 in
  match index bm (bit / 8) with
  | Ok b => Some (0 <? Z.land (Z.shiftr b (bit mod 8)) 1)
  | Err _ => None
  end.

Definition check_bitmap (p : pstate) (off : Z) : bool :=
  let r1 := match bit_at (ps_bitmap p) off with Some b => b | None => false end in
  match bit_at (ps_prev p) off with
  | Some r2 => r1 && r2
  | None => r1
  end.

(** The argument of select_shadow. *)
Inductive selector := ByGuid (g : list Z) | ByPos (p : Z).

(** ShadowCopy.py:742-746 (1352-1356): [break] leaves the inner loop only. *)
Fixpoint find_guid (cbs : list (list Z)) (pos : Z) (found : option (list Z)) : result (option (list Z)) :=
  match cbs with
  | [] => Ok found
  | b :: t =>
    let (l, s) := cb_items b in
    match find (fun i => match i with I2 i => i2_pos i =? pos | I3 _ => false end) l with
    | Some (I2 i) => find_guid t pos (Some (i2_guid i))
    | _ => match s with Done => find_guid t pos found | Raised e => Err e end
    end
  end.

(** All items of the control blocks, for the loops in ShadowCopy.py:750-758
    (1361-1371), which run to the end. *)
Fixpoint all_items (cbs : list (list Z)) : result (list item) :=
  match cbs with
  | [] => Ok []
  | b :: t =>
    let (l, s) := cb_items b in
    match s with
    | Raised e => Err e
    | Done => let! r := all_items t in Ok (l ++ r)
    end
  end.

Definition guid_is (g : option (list Z)) (x : list Z) : bool :=
  match g with Some g => zlist_eqb x g | None => false end.

Definition items2_of (l : list item) (g : option (list Z)) : list item2 :=
  flat_map (fun i => match i with I2 i => if guid_is g (i2_guid i) then [i] else [] | I3 _ => [] end) l.
Definition items3_of (l : list item) (g : option (list Z)) : list item3 :=
  flat_map (fun i => match i with I3 i => if guid_is g (i3_guid i) then [i] else [] | I2 _ => [] end) l.

(** ShadowCopy.py:736-767 (1346-1380): the items of the store selected. *)
Definition find_items (cbs cbs3 : list (list Z)) (sel : selector) : result (item2 * item3) :=
  let! g := match sel with ByGuid g => Ok (Some g) | ByPos p => find_guid cbs p None end in
  let! l3 := all_items cbs3 in
  let! l2 := all_items cbs in
  let m3 := items3_of l3 g in
  let m2 := items2_of l2 g in
  if negb (zlen m3 =? zlen m2) then Err ShadowCopyException else
  match m2, m3 with
  | [i2], [i3] => Ok (i2, i3)
  | [], _ => Err ShadowCopyNotFoundException
  | _, _ => Err ShadowCopyException
  end.

(** ShadowCopy.py:793-799. *)
Definition null_targets (p : pstate) : list Z :=
  flat_map (fun e => if (0 <? Z.land (e_flags e) 1) && check_bitmap p (e_store e) then [e_store e] else []) (ps_diff p).

(** The statement [x = e]: on an exception the state stays as it is. *)
Definition step {A S} (st : S) (e : result A) (k : A -> S * result unit) : S * result unit :=
  match e with Ok a => k a | Err x => (st, Err x) end.

(** ShadowCopy.py:730-804 (1343-1417) select_shadow, apart from the test of
    [use_second_volume]; the state is the parser and the chain of its next
    parsers.  [fuel] is for the block chains, [depth] for the recursion. *)
Fixpoint select (fuel depth : nat) (v : vol) (cbs cbs3 : list (list Z)) (st : pstate * list pstate) (sel : selector)
  : (pstate * list pstate) * result unit :=
  match depth with
  | O => (st, Err OutOfFuel)
  | S d =>
    step st (find_items cbs cbs3 sel) (fun it =>
    let (p, nx) := st in
    let p := set_items p it in
    let (c2, c3) := it in
    step (p, nx) (read_bitmap fuel v (i2_size c2) (i3_bitmap c3)) (fun x =>
    let p := set_bitmap p x in
    step (p, nx) (read_bitmap fuel v (i2_size c2) (i3_prev c3)) (fun x =>
    let p := set_prev p x in
    step (p, nx) (read_locations fuel v (i3_loc c3)) (fun x =>
    let p := set_locs p x in
    step (p, nx) (read_app_info v (i3_app c3)) (fun x =>
    let p := set_app p x in
    step (p, nx) (read_diff_area fuel v (i3_diff c3)) (fun x =>
    let p := set_index (set_diff p x) (diff_index x 0 []) in
    let (nst, r) := select fuel d v cbs cbs3 (new_pstate, []) (ByPos (i2_pos c2 + 1)) in
    let nx := fst nst :: snd nst in
    let fin nx := ((set_done p (null_targets p) (0 <? Z.land (i2_flags c2) 1024), nx), Ok tt) in
    match r with
    | Ok _ => fin nx
    | Err ShadowCopyNotFoundException => fin []
    | Err e => ((p, nx), Err e)
    end))))))
  end.

(** Where a 512-byte sector of a virtual volume is found. *)
Inductive loc := LZero | LLive (o : Z) | LStore (o : Z).

(** [range(0, 32)]. *)
Definition sectors : list Z := map Z.of_nat (seq 0 32).

Definition live_at (o : Z) : list loc := map (fun i => LLive (o + i * 512)) sectors.
Definition store_at (o : Z) : list loc := map (fun i => LStore (o + i * 512)) sectors.
Definition null_block : list loc := repeat LZero 32.

(** [for i in range(0, 32): if sel(i): l[i] = f(i)]. *)
Definition put_sectors (sel : Z -> bool) (f : Z -> result loc) (l : list loc) : result (list loc) :=
  fold_left (fun r i =>
    let! l := r in
    if sel i then let! x := f i in if i <? zlen l then Ok (zset l i x) else Err IndexError
    else Ok l) sectors (Ok l).

Definition bit_set (bm i : Z) : bool := 0 <? Z.land (Z.shiftr bm i) 1.

(** ShadowCopy.py:1009-1021, 1054-1061: the entries from a position on that
    have the given original offset. *)
Fixpoint run_of (l : list entry) (off : Z) : list entry :=
  match l with
  | [] => []
  | e :: t => if e_orig e =? off then e :: run_of t off else []
  end.

Definition entries_at (p : pstate) (index : list (Z * Z)) (off : Z) : list entry :=
  match dget index off with
  | Some pos => run_of (zdrop pos (ps_diff p)) off
  | None => []
  end.

(** ShadowCopy.py:1000-1025 can_switch_to_next_store, for the next parsers;
    false is 0 (or 2 if there is none), true is 1. *)
Fixpoint can_switch (nx : list pstate) (off : Z) : result bool :=
  match nx with
  | [] => Ok false
  | p :: t =>
    match ps_index p with
    | None => Err AttributeError_py
    | Some d =>
      if existsb (fun e => Z.land (e_flags e) 2 =? 0) (entries_at p d off) then Ok true else can_switch t off
    end
  end.

(** The variables of the loop in ShadowCopy.py:1040-1107. *)
Record tstate := mk_tstate {
  t_new : list loc; t_fwd : option Z; t_reg : bool; t_ovl : bool; t_cum : Z }.

Section Translate.
Variable vsize : option Z.
Variable p : pstate.
Variable off : Z.
Variables ign switch bitmap : bool.
(** lookup_in_next_store. *)
Variable lookup : Z -> bool -> result (list loc).

(** ShadowCopy.py:1065-1107: one table entry. *)
Definition t_step (st : tstate) (e : entry) : result tstate :=
  if (0 <? Z.land (e_flags e) 1) && negb (e_orig e =? e_store e) then
    Ok (mk_tstate (t_new st) (Some (e_store e)) (t_reg st) (t_ovl st) (t_cum st))
  else if 0 <? Z.land (e_flags e) 2 then
    if ign then Ok (mk_tstate (t_new st) (t_fwd st) (t_reg st) true (t_cum st)) else
    let! base :=
      if zlen (t_new st) =? 0 then
        if switch then lookup off false
        else if negb bitmap then Ok (live_at off)
        else if ps_retnull p then Ok null_block
        else Ok (live_at off)
      else Ok (t_new st) in
    let! new := put_sectors (bit_set (e_alloc e)) (fun i => Ok (LStore (e_vol e + i * 512))) base in
    Ok (mk_tstate new (t_fwd st) (t_reg st) true (Z.lor (t_cum st) (e_alloc e)))
  else
    let! new :=
      if zlen (t_new st) =? 0 then Ok (store_at (e_vol e))
      else put_sectors (fun i => negb (bit_set (t_cum st) i)) (fun i => Ok (LStore (e_vol e + i * 512))) (t_new st) in
    Ok (mk_tstate new (t_fwd st) true (t_ovl st) (t_cum st)).

Fixpoint t_run (st : tstate) (l : list entry) : result tstate :=
  match l with
  | [] => Ok st
  | e :: t => let! st := t_step st e in t_run st t
  end.

(** ShadowCopy.py:1118-1129. *)
Definition t_rest (fwdlook no_next : bool) (st : tstate) (new : list loc) : result (list loc) :=
    if negb (t_reg st) && negb fwdlook && zin off (ps_nulls p) && negb switch && negb no_next && ps_retnull p
    then Ok null_block
    else if match t_fwd st with None => true | Some _ => false end && negb (t_reg st) && negb (t_ovl st) &&
            bitmap && negb switch && negb no_next && ps_retnull p
    then Ok null_block
    else if zlen new =? 0 then lookup off false else Ok new.

(** ShadowCopy.py:1109-1129. *)
Definition t_finish (fwdlook no_next : bool) (st : tstate) : result (list loc) :=
  let rest := t_rest fwdlook no_next st in
  match t_fwd st with
  | Some f =>
    if negb (t_reg st) then
      if t_ovl st && negb ign then
        let! fo := lookup f true in
        let! new := put_sectors (fun i => negb (bit_set (t_cum st) i)) (fun i => index fo i) (t_new st) in
        rest new
      else lookup f true
    else rest (t_new st)
  | None => rest (t_new st)
  end.
End Translate.

(** ShadowCopy.py:974-1129 (1562-1718) translate_exact_offset, on a parser
    followed by its next parsers. *)
Fixpoint translate (vsize : option Z) (l : list pstate) (off : Z) (ign fwdlook : bool) : result (list loc) :=
  match l with
  | [] => Err AttributeError_py (* not reached: there is no parser *)
  | p :: nx =>
    if negb (off mod 16384 =? 0) then Err ValueError else
    if match vsize with Some s => s <=? off | None => false end then Err ValueError else
    if negb (ps_sel p) then Err ValueError else
    if (ps_size p <=? off) && match vsize with Some s => s <? ps_size p | None => false end then Ok [] else
    let no_next := match nx with [] => true | _ => false end in
    let lookup o fwd :=
      if no_next then
        if negb (check_bitmap p o) then Ok (live_at o)
        else if ps_retnull p && negb fwd then Ok null_block
        else Ok (live_at o)
      else translate vsize nx o true fwd in
    let! switch := can_switch nx off in
    let bitmap := check_bitmap p off in
    match ps_index p with
    | None => Err AttributeError_py
    | Some d =>
      let! st := t_run p off ign switch bitmap lookup (mk_tstate [] None false false 0) (entries_at p d off) in
      t_finish p off ign switch bitmap lookup fwdlook no_next st
    end
  end.

(** An opened parser: a ShadowParser has [sp_two = false] and the same volume
    and control blocks twice. *)
Record parser := mk_parser {
  sp_two : bool; sp_second : bool;
  sp_live : vol; sp_store : vol; sp_vsize : option Z;
  sp_cbs : list (list Z); sp_cbs3 : list (list Z);
  sp_cur : pstate; sp_next : list pstate; sp_pos : Z }.

(** ShadowCopy.py:696-699. *)
Definition start_or_disabled (r : result unit) : result unit :=
  match r with
  | Ok _ => Ok tt
  | Err e => if is_shadow_exn e then Err ShadowCopiesDisabledException else Err e
  end.

(** ShadowCopy.py:681-715 ShadowParser.__init__. *)
Definition open_one (fuel : nat) (v : vol) (vsize : option Z) : result parser :=
  let! start := seek_read (v_data v) (v_off v) 8192 in
  let! _ := start_or_disabled (start_block start) in
  let! cbs := control_blocks fuel v start in
  Ok (mk_parser false (negb (storage_local start)) v v vsize cbs cbs new_pstate [] 0).

(** ShadowCopy.py:1281-1341 ShadowParserTwoVolumes.__init__. *)
Definition open_two (fuel : nat) (v w : vol) (vsize : option Z) : result parser :=
  let! start := seek_read (v_data v) (v_off v) 8192 in
  let! start3 := seek_read (v_data w) (v_off w) 8192 in
  let! _ := start_or_disabled (let! _ := start_block start in start_block start3) in
  if storage_local start then Err NotImplementedError else
  let! cbs := control_blocks fuel v start in
  let! cbs3 := control_blocks fuel w start3 in
  Ok (mk_parser true true v w vsize cbs cbs3 new_pstate [] 0).

Definition set_state (o : parser) (st : pstate * list pstate) (pos : Z) : parser :=
  mk_parser (sp_two o) (sp_second o) (sp_live o) (sp_store o) (sp_vsize o) (sp_cbs o) (sp_cbs3 o)
    (fst st) (snd st) pos.
Definition set_pos (o : parser) (pos : Z) : parser := set_state o (sp_cur o, sp_next o) pos.

(** ShadowCopy.py:730-804, 1343-1417. *)
Definition select_shadow (fuel depth : nat) (o : parser) (sel : selector) : parser * result unit :=
  if negb (sp_two o) && sp_second o then (o, Err NotImplementedError) else
  let (st, r) := select fuel depth (sp_store o) (sp_cbs o) (sp_cbs3 o) (sp_cur o, sp_next o) sel in
  (set_state o st (match r with Ok _ => 0 | Err _ => sp_pos o end), r).

(** ShadowCopy.py:717-728 shadows; the timestamp is in microseconds since
    1601 (None if it cannot be represented). *)
Record shadow_info := mk_info { si_pos : Z; si_time : option Z; si_guid : list Z; si_size : Z }.

Fixpoint shadows_of (l : list item) (s : status) : gen shadow_info :=
  match l with
  | [] => ([], s)
  | I3 _ :: t => shadows_of t s
  | I2 i :: t =>
    match decode_filetime (i2_time i) true with
    | Ok ts => gcons (mk_info (i2_pos i) ts (i2_guid i) (i2_size i)) (shadows_of t s)
    | Err e => ([], Raised e)
    end
  end.

Fixpoint shadows (cbs : list (list Z)) : gen shadow_info :=
  match cbs with
  | [] => ([], Done)
  | b :: t =>
    let (l, s) := cb_items b in
    let (a, sa) := shadows_of l s in
    match sa with Done => gapp a (shadows t) | Raised _ => (a, sa) end
  end.

(** [b'EMPTY           ' * 32] and [b'ORIGINAL        ' * 32]. *)
Definition pattern_empty : list Z :=
  concat (repeat [69; 77; 80; 84; 89; 32; 32; 32; 32; 32; 32; 32; 32; 32; 32; 32] 32).
Definition pattern_original : list Z :=
  concat (repeat [79; 82; 73; 71; 73; 78; 65; 76; 32; 32; 32; 32; 32; 32; 32; 32] 32).

(** ShadowCopy.py:1140-1175 (1729-1751): the sectors of a block. *)
Fixpoint read_sectors (o : parser) (debug : bool) (expect : Z) (l : list loc) : result (list Z) :=
  match l with
  | [] => Ok []
  | x :: t =>
    let data v off :=
      let! d := seek_read (v_data v) (v_off v + off) 512 in
      if negb (zlen d =? 512) then Ok d else
      let! r := read_sectors o debug (expect + 512) t in Ok (d ++ r) in
    let pattern b := let! r := read_sectors o debug (expect + 512) t in Ok (b ++ r) in
    match x with
    | LZero => pattern (if debug then pattern_empty else zeros 512)
    | LLive a => if debug && (a =? expect) then pattern pattern_original else data (sp_live o) a
    | LStore a => if debug && (a =? expect) then pattern pattern_original else data (sp_store o) a
    end
  end.

(** ShadowCopy.py:1131-1175 (1720-1751) read_at_exact_offset. *)
Definition read_block (o : parser) (debug : bool) (off : Z) : result (list Z) :=
  let! l := translate (sp_vsize o) (sp_cur o :: sp_next o) off false false in
  if zlen l =? 0 then Ok [] else read_sectors o debug off l.

(** ShadowCopy.py:1185-1192, 1220-1222: the size of the virtual volume. *)
Definition virtual_size (o : parser) : Z :=
  match sp_vsize o with
  | Some s => if s <? ps_size (sp_cur o) then s else ps_size (sp_cur o)
  | None => ps_size (sp_cur o)
  end.

(** ShadowCopy.py:1177-1202 seek. *)
Definition sp_seek (o : parser) (offset whence : Z) : parser * result Z :=
  if negb (ps_sel (sp_cur o)) then (o, Err ValueError) else
  let go new := if new <? 0 then (o, Err ValueError) else (set_pos o new, Ok new) in
  if whence =? 0 then go offset
  else if whence =? 1 then go (sp_pos o + offset)
  else if whence =? 2 then go (virtual_size o + offset)
  else (o, Err ValueError).

(** ShadowCopy.py:1204-1210 tell. *)
Definition sp_tell (o : parser) : result Z :=
  if negb (ps_sel (sp_cur o)) then Err ValueError else Ok (sp_pos o).

(** ShadowCopy.py:1237-1251 (1781-1795): position and data after the loop;
    [left] is [bytes_left]. *)
Fixpoint read_loop (fuel : nat) (o : parser) (debug : bool) (vs pos left : Z) : Z * result (list Z) :=
  match fuel with
  | O => (pos, Err OutOfFuel)
  | S n =>
    if negb (0 <? left) then (pos, Ok []) else
    if vs <=? pos then (pos, Ok []) else
    match read_block o debug (pos / 16384 * 16384) with
    | Err e => (pos, Err e)
    | Ok b =>
      let d := slice b (pos mod 16384) (pos mod 16384 + left) in
      if negb (zlen d =? 16384) then (pos + zlen d, Ok d) else
      let (pos', r) := read_loop n o debug vs (pos + zlen d) (left - zlen d) in
      (pos', let! r := r in Ok (d ++ r))
    end
  end.

(** ShadowCopy.py:1212-1253 (1753-1797) read; [size = None] is [read()]. *)
Definition sp_read (o : parser) (size : option Z) (debug : bool) : parser * result (list Z) :=
  if sp_two o && debug then (o, Err NotImplementedError) else
  if negb (ps_sel (sp_cur o)) then (o, Err ValueError) else
  let vs := virtual_size o in
  let pos := sp_pos o in
  let size := match size with
              | None => vs - pos
              | Some n => if n <? 0 then vs - pos else n
              end in
  if (size <=? 0) || (vs <=? pos) then (o, Ok []) else
  match read_block o debug (pos / 16384 * 16384) with
  | Err e => (o, Err e)
  | Ok b =>
    let d := slice b (pos mod 16384) (pos mod 16384 + size) in
    let fuel := Z.to_nat (Z.min size (vs - pos) / 16384 + 3) in
    let (pos', r) := read_loop fuel o debug vs (pos + zlen d) (size - zlen d) in
    (set_pos o pos', let! r := r in Ok (d ++ r))
  end.
