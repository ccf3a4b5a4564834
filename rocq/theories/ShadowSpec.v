(** Specifications for shadow copies, independent of the loops of the model. *)
From Verif Require Import Base Sorting Shadow.

(** ** Chains of blocks *)

(** The block at volume offset [a] is valid, says that it is at [a] and that
    [b] is next. *)
Definition link {A} (v : vol) (ok : list Z -> result unit) (payload : list Z -> result A) (a b : Z) : Prop :=
  a <> 0 /\ 0 <= v_off v + a < 2 ^ 63 /\
  let buf := slice (v_data v) (v_off v + a) (v_off v + a + 16384) in
  zlen buf = 16384 /\ ok buf = Ok tt /\ (exists x, payload buf = Ok x) /\ fld 8 buf 32 = a /\ fld 8 buf 40 = b.

Inductive links (R : Z -> Z -> Prop) : Z -> Z -> Prop :=
| links_refl a : links R a a
| links_step a b c : R a b -> links R b c -> links R a c.

(** Following the links from [start] one comes to a block that is reached
    again from itself. *)
Definition loops (R : Z -> Z -> Prop) (start : Z) : Prop :=
  exists a b, links R start a /\ R a b /\ links R b a.

(** ** Translation of sectors *)

Definition is_forward (e : entry) : bool := Z.testbit (e_flags e) 0 && negb (e_orig e =? e_store e).
Definition is_overlay (e : entry) : bool := negb (is_forward e) && Z.testbit (e_flags e) 1.
Definition is_regular (e : entry) : bool := negb (is_forward e) && negb (Z.testbit (e_flags e) 1).

(** The entries of a store for the block at [o], in table order, and the last
    one with a property. *)
Definition at_off (p : pstate) (o : Z) : list entry := filter (fun e => e_orig e =? o) (ps_diff p).
Definition last_of (f : entry -> bool) (l : list entry) : option entry := find f (rev l).

(** Bit [k] of a bitmap taken as one little-endian number; the bit counts in
    the previous bitmap only if that one is long enough. *)
Definition marked (p : pstate) (o : Z) : bool :=
  Z.testbit (le_val (ps_bitmap p)) (o / 16384) &&
  ((8 * zlen (ps_prev p) <=? o / 16384) || Z.testbit (le_val (ps_prev p)) (o / 16384)).

(** Some newer store saved the block (or forwards it). *)
Definition saved_in (nx : list pstate) (o : Z) : bool :=
  existsb (fun p => existsb (fun e => negb (Z.testbit (e_flags e) 1)) (at_off p o)) nx.

(** Where sector [i] of the block at [o] is, for a store and the newer ones
    after it.  [redirected]: the request comes from an older store (overlays
    do not count); [forward]: it comes through a forwarder. *)
Fixpoint sector (l : list pstate) (o : Z) (redirected forward : bool) (i : Z) : loc :=
  match l with
  | [] => LZero
  | p :: nx =>
    let below o' fl :=
      match nx with
      | [] => if marked p o' && ps_retnull p && negb fl then LZero else LLive (o' + i * 512)
      | _ => sector nx o' true fl i
      end in
    let here := at_off p o in
    let overlays := if redirected then [] else filter is_overlay here in
    let covering := last_of (fun e => Z.testbit (e_alloc e) i) overlays in
    let unsaved := match nx with [] => false | _ => negb (saved_in nx o) && ps_retnull p end in
    let null_target := unsaved && negb forward && zin o (ps_nulls p) in
    match last_of is_regular here, last_of is_forward here, overlays, covering with
    | Some _, _, _, Some v => LStore (e_vol v + i * 512)
    | Some r, _, _, None => LStore (e_vol r + i * 512)
    | None, Some f, [], _ => below (e_store f) true
    | None, Some f, _ :: _, c =>
      if null_target then LZero else
      match c with Some v => LStore (e_vol v + i * 512) | None => below (e_store f) true end
    | None, None, [], _ =>
      if null_target then LZero
      else if unsaved && marked p o && match filter is_overlay here with [] => true | _ => false end then LZero
      else below o false
    | None, None, _ :: _, c =>
      if null_target then LZero else
      match c with
      | Some v => LStore (e_vol v + i * 512)
      | None =>
        if saved_in nx o then below o false
        else if marked p o && ps_retnull p then LZero else LLive (o + i * 512)
      end
    end
  end.

(** A store as select_shadow leaves it. *)
Definition selected (p : pstate) : Prop :=
  ps_sel p = true /\ ps_index p = Some (diff_index (ps_diff p) 0 []) /\ sorted_by e_orig (ps_diff p) /\
  bytes_ok (ps_bitmap p) /\ bytes_ok (ps_prev p) /\
  Forall (fun e => 0 <= e_orig e /\ 0 <= e_store e /\ 0 <= e_vol e /\ 0 <= e_flags e /\ 0 <= e_alloc e) (ps_diff p).

(** The offset cannot be translated. *)
Definition bad_offset (vsize : option Z) (o : Z) : Prop :=
  o mod 16384 <> 0 \/ match vsize with Some s => s <= o | None => False end.

(** A forwarder of a store other than the last one that cannot be followed. *)
Definition bad_forward (vsize : option Z) (l : list pstate) : Prop :=
  exists p e, In p (removelast l) /\ In e (ps_diff p) /\ is_forward e = true /\ bad_offset vsize (e_store e).

(** ** Virtual volumes *)

(** The texts shown with [fill] (the argument [debug_fill]) in place of the
    null blocks and of the sectors that are still at their own offset: 16
    characters, again and again. *)
Definition fill_byte (text : list Z) (j : Z) : Z := nth (Z.to_nat (j mod 16)) text 32.
Definition text_empty : list Z := [69; 77; 80; 84; 89].
Definition text_original : list Z := [79; 82; 73; 71; 73; 78; 65; 76].

(** The sector at [own] is not read, but filled with a text. *)
Definition is_filled (fill : bool) (own : Z) (l : loc) : bool :=
  fill && match l with LZero => true | LLive a | LStore a => a =? own end.

(** Byte [j] of the sector at [own], which is to be found at [l]. *)
Definition loc_byte (o : parser) (fill : bool) (own : Z) (l : loc) (j : Z) : option Z :=
  match l with
  | LZero => Some (if fill then fill_byte text_empty j else 0)
  | LLive a =>
    if is_filled fill own l then Some (fill_byte text_original j)
    else znth (v_data (sp_live o)) (v_off (sp_live o) + a + j)
  | LStore a =>
    if is_filled fill own l then Some (fill_byte text_original j)
    else znth (v_data (sp_store o)) (v_off (sp_store o) + a + j)
  end.

(** Byte [x] of the virtual volume. *)
Definition virtual_byte (o : parser) (fill : bool) (x : Z) : option Z :=
  loc_byte o fill (x / 512 * 512)
    (sector (sp_cur o :: sp_next o) (x / 16384 * 16384) false false (x mod 16384 / 512)) (x mod 512).

Definition selected_parser (o : parser) : Prop :=
  Forall selected (sp_cur o :: sp_next o) /\ 0 <= sp_pos o.

(** The offset is too great for a seek. *)
Definition loc_high (o : parser) (l : loc) : Prop :=
  match l with
  | LZero => False
  | LLive a => 2 ^ 63 <= v_off (sp_live o) + a
  | LStore a => 2 ^ 63 <= v_off (sp_store o) + a
  end.

(** The block cannot be read: a forwarder is wrong or an offset too great for
    a seek. *)
Definition block_error (o : parser) (fill : bool) (off : Z) (e : exn) : Prop :=
  (e = ValueError /\ (bad_offset (sp_vsize o) off \/ bad_forward (sp_vsize o) (sp_cur o :: sp_next o))) \/
  (e = OverflowError /\ exists i l, 0 <= i < 32 /\ l = sector (sp_cur o :: sp_next o) off false false i /\
     is_filled fill (off + 512 * i) l = false /\ loc_high o l).

(** In the block with [p] the file ends before [p]. *)
Definition unreadable (o : parser) (fill : bool) (p : Z) : Prop :=
  exists x, p / 16384 * 16384 <= x <= p /\ virtual_byte o fill x = None.

(** The number of bytes a read at [pos] is for. *)
Definition wanted (o : parser) (pos : Z) (size : option Z) : Z :=
  match size with
  | Some n => if n <? 0 then virtual_size o - pos else n
  | None => virtual_size o - pos
  end.

(** What a read at [pos] may give and leave as position; with two volumes
    there is no filling. *)
Definition read_result (o : parser) (fill : bool) (pos : Z) (size : option Z) (pos' : Z) (r : result (list Z)) : Prop :=
  if sp_two o && fill then pos' = pos /\ r = Err NotImplementedError else
  if (wanted o pos size <=? 0) || (virtual_size o <=? pos) then pos' = pos /\ r = Ok [] else
  match r with
  | Ok d =>
    pos' = pos + zlen d /\ zlen d <= wanted o pos size /\
    (forall j, 0 <= j < zlen d -> exists c, znth d j = Some c /\ virtual_byte o fill (pos + j) = Some c) /\
    (zlen d = wanted o pos size \/ virtual_size o <= pos' \/ unreadable o fill pos')
  | Err e => pos <= pos' < virtual_size o /\ block_error o fill (pos' / 16384 * 16384) e
  end.

(** Calls on the file-like object and their outcomes. *)
Inductive op := OSeek (offset whence : Z) | OTell | ORead (size : option Z) (fill : bool).
Inductive outcome := OutPos (r : result Z) | OutData (r : result (list Z)).

(** A history that is right: the position is changed by seek and read only,
    everything read comes from the same virtual volume. *)
Inductive history (o : parser) : Z -> list op -> list outcome -> Z -> Prop :=
| h_nil pos : history o pos [] [] pos
| h_seek pos off wh base ops outs pos' :
    match wh with 0 => base = 0 | 1 => base = pos | _ => wh = 2 /\ base = virtual_size o end ->
    0 <= base + off -> history o (base + off) ops outs pos' ->
    history o pos (OSeek off wh :: ops) (OutPos (Ok (base + off)) :: outs) pos'
| h_seek_neg pos off wh base ops outs pos' :
    match wh with 0 => base = 0 | 1 => base = pos | _ => wh = 2 /\ base = virtual_size o end ->
    base + off < 0 -> history o pos ops outs pos' ->
    history o pos (OSeek off wh :: ops) (OutPos (Err ValueError) :: outs) pos'
| h_seek_bad pos off wh ops outs pos' :
    wh < 0 \/ 2 < wh -> history o pos ops outs pos' ->
    history o pos (OSeek off wh :: ops) (OutPos (Err ValueError) :: outs) pos'
| h_tell pos ops outs pos' :
    history o pos ops outs pos' -> history o pos (OTell :: ops) (OutPos (Ok pos) :: outs) pos'
| h_read pos size fill p r ops outs pos' :
    read_result o fill pos size p r -> history o p ops outs pos' ->
    history o pos (ORead size fill :: ops) (OutData r :: outs) pos'.

(** ** Selecting a store *)

(** The items of type 2 and 3 with a store GUID. *)
Definition the_item2 (l : list item) (g : list Z) (i : item2) : Prop :=
  i2_guid i = g /\ exists a b, l = a ++ I2 i :: b /\ forall j, In (I2 j) (a ++ b) -> i2_guid j <> g.
Definition the_item3 (l : list item) (g : list Z) (i : item3) : Prop :=
  i3_guid i = g /\ exists a b, l = a ++ I3 i :: b /\ forall j, In (I3 j) (a ++ b) -> i3_guid j <> g.

(** What is read for a store. *)
Definition store_read (fuel : nat) (v : vol) (c2 : item2) (c3 : item3) (p : pstate) : Prop :=
  ps_sel p = true /\ ps_items p = Some (c2, c3) /\ ps_size p = i2_size c2 /\
  read_bitmap fuel v (i2_size c2) (i3_bitmap c3) = Ok (ps_bitmap p) /\
  read_bitmap fuel v (i2_size c2) (i3_prev c3) = Ok (ps_prev p) /\
  read_locations fuel v (i3_loc c3) = Ok (ps_locs p) /\
  read_app_info v (i3_app c3) = Ok (ps_app p) /\
  read_diff_area fuel v (i3_diff c3) = Ok (ps_diff p) /\
  ps_index p = Some (diff_index (ps_diff p) 0 []) /\
  ps_nulls p = null_targets p /\ ps_retnull p = Z.testbit (i2_flags c2) 10.

(** The store with the GUID [g] and the newer ones: each has the next stack
    position, and there is no item with the position after the last. *)
Inductive store_chain (fuel : nat) (v : vol) (l2 l3 : list item) : list Z -> list pstate -> Prop :=
| sc_last g c2 c3 p :
    the_item2 l2 g c2 -> the_item3 l3 g c3 -> store_read fuel v c2 c3 p ->
    (forall j, In (I2 j) l2 -> i2_pos j <> i2_pos c2 + 1) ->
    store_chain fuel v l2 l3 g [p]
| sc_next g c2 c3 p j l :
    the_item2 l2 g c2 -> the_item3 l3 g c3 -> store_read fuel v c2 c3 p ->
    In (I2 j) l2 -> i2_pos j = i2_pos c2 + 1 ->
    store_chain fuel v l2 l3 (i2_guid j) l ->
    store_chain fuel v l2 l3 g (p :: l).

Definition pos_of (p : pstate) : option Z := option_map (fun x => i2_pos (fst x)) (ps_items p).

(** None of the block chains of a store has a loop. *)
Definition no_loops (v : vol) (c3 : item3) : Prop :=
  ~ loops (link v (block_ok 6 ShadowBlockException) (fun b => Ok (zdrop 128 b))) (i3_bitmap c3) /\
  ~ loops (link v (block_ok 6 ShadowBlockException) (fun b => Ok (zdrop 128 b))) (i3_prev c3) /\
  ~ loops (link v (block_ok 5 ShadowBlockException) (fun b => location_items 679 b 128)) (i3_loc c3) /\
  ~ loops (link v (block_ok 3 ShadowBlockException) (fun b => diff_entries 510 b 128)) (i3_diff c3).
