(** Specification of the attribute formats. *)
From Verif Require Import Base Attributes FrsSpec UsaSpec.

(** ** Index buffers on disk *)
Definition index_sectors_ok (raw : list Z) : Prop :=
  1024 <= zlen raw /\ zlen raw mod 512 = 0 /\
  40 <= usa_off raw <= 506 /\ (usa_cnt raw - 1) * 512 = zlen raw /\
  usa_off raw + 2 * usa_cnt raw < zlen raw /\
  ztake 4 raw = [73; 78; 68; 88] /\ all_intact raw (usa_off raw).

(** ** Partial $STANDARD_INFORMATION: [frag] was written at byte [off]; field [k]
    is the 8 bytes from [8 * k]. *)
Definition covered (frag : list Z) (off k : Z) : Prop := off <= 8 * k /\ 8 * k + 8 <= off + zlen frag.
Definition covered_field (frag : list Z) (off k : Z) : Z :=
  le_val (ztake 8 (zdrop (8 * k - off) frag)).

(** ** Attribute lists *)

(** The entry in the bytes from [pos] on, and its record length. *)
Definition al_entry_at (v : list Z) (pos : Z) (e : al_entry) (n : Z) : Prop :=
  let name_length := fld 1 v (pos + 6) in
  let name_offset := fld 1 v (pos + 7) in
  pos + 26 <= zlen v /\ n = fld 2 v (pos + 4) /\ 26 <= n /\
  al_type e = fld 4 v pos /\ al_lowest e = fld 8 v (pos + 8) /\
  al_segment e = fld 8 v (pos + 16) /\ al_instance e = fld 2 v (pos + 24) /\
  ((name_length = 0 /\ al_name e = None) \/
   (0 < name_length /\ name_offset + 2 * name_length <= n /\
    al_name e = Some (utf16le (slice v (pos + name_offset) (pos + name_offset + 2 * name_length))))).

Inductive al_walk (v : list Z) : Z -> list al_entry -> Prop :=
| alw_end : forall pos, (forall e n, ~ al_entry_at v pos e n) -> al_walk v pos []
| alw_entry : forall pos e n m l,
    al_entry_at v pos e n -> n <= m < n + 8 -> m mod 8 = 0 ->
    al_walk v (pos + m) l -> al_walk v pos (e :: l).

(** An entry as a writer lays it out: [gap] between the header and the name,
    [extra] after the name inside the record, [pad] up to a multiple of 8. *)
Record al_image : Type := mk_ali {
  ali_type : Z; ali_lowest : Z; ali_segment : Z; ali_instance : Z;
  ali_name : list Z; ali_gap : list Z; ali_extra : list Z; ali_pad : list Z }.

Definition ali_length (i : al_image) : Z :=
  26 + zlen (ali_gap i) + zlen (ali_name i) + zlen (ali_extra i).

Definition ali_ok (i : al_image) : Prop :=
  0 <= ali_type i < 2 ^ 32 /\ 0 <= ali_lowest i < 2 ^ 64 /\ 0 <= ali_segment i < 2 ^ 64 /\
  0 <= ali_instance i < 2 ^ 16 /\
  zlen (ali_name i) mod 2 = 0 /\ zlen (ali_name i) < 512 /\ zlen (ali_gap i) < 230 /\
  ali_length i < 65536 /\ zlen (ali_pad i) < 8 /\ (ali_length i + zlen (ali_pad i)) mod 8 = 0.

Definition ali_bytes (i : al_image) : list Z :=
  le_bytes 4 (ali_type i) ++ le_bytes 2 (ali_length i) ++
  le_bytes 1 (zlen (ali_name i) / 2) ++ le_bytes 1 (26 + zlen (ali_gap i)) ++
  le_bytes 8 (ali_lowest i) ++ le_bytes 8 (ali_segment i) ++ le_bytes 2 (ali_instance i) ++
  ali_gap i ++ ali_name i ++ ali_extra i ++ ali_pad i.

Definition ali_entry (i : al_image) : al_entry :=
  mk_al (ali_type i) (match ali_name i with [] => None | n => Some (utf16le n) end)
        (ali_instance i) (ali_lowest i) (ali_segment i).

(** ** Index entries: positions visited from [pos] on, and how the walk ends.
    [lim]: first free byte; [stop]: whether the end flag is honoured. *)
Inductive ix_walk (v : list Z) (lim : Z) (stop : bool) : Z -> list Z -> status -> Prop :=
| ixw_end : forall pos, lim <= pos \/ zlen v <= pos -> ix_walk v lim stop pos [] Done
| ixw_no_length : forall pos,
    pos < lim -> pos < zlen v -> zlen v < pos + 10 ->
    ix_walk v lim stop pos [] (Raised StructError)
| ixw_short : forall pos,
    pos < lim -> pos + 10 <= zlen v -> fld 2 v (pos + 8) < 16 ->
    ix_walk v lim stop pos [] Done
| ixw_no_attr : forall pos,
    pos < lim -> pos + 10 <= zlen v < pos + 12 -> 16 <= fld 2 v (pos + 8) ->
    ix_walk v lim stop pos [] (Raised StructError)
| ixw_empty : forall pos,
    pos < lim -> pos + 12 <= zlen v -> 16 <= fld 2 v (pos + 8) -> fld 2 v (pos + 10) = 0 ->
    ix_walk v lim stop pos [] Done
| ixw_no_flags : forall pos,
    stop = true -> pos < lim -> pos + 12 <= zlen v < pos + 14 -> 16 <= fld 2 v (pos + 8) ->
    fld 2 v (pos + 10) <> 0 ->
    ix_walk v lim stop pos [pos] (Raised StructError)
| ixw_last : forall pos,
    stop = true -> pos < lim -> pos + 14 <= zlen v -> 16 <= fld 2 v (pos + 8) ->
    fld 2 v (pos + 10) <> 0 -> Z.testbit (fld 2 v (pos + 12)) 1 = true ->
    ix_walk v lim stop pos [pos] Done
| ixw_more : forall pos m l st,
    (stop = true -> pos + 14 <= zlen v /\ Z.testbit (fld 2 v (pos + 12)) 1 = false) ->
    pos < lim -> pos + 12 <= zlen v -> 16 <= fld 2 v (pos + 8) ->
    fld 2 v (pos + 10) <> 0 ->
    fld 2 v (pos + 8) <= m < fld 2 v (pos + 8) + 8 -> m mod 8 = 0 ->
    ix_walk v lim stop (pos + m) l st -> ix_walk v lim stop pos (pos :: l) st.

(** Positions visited: increasing by at least 16, inside the buffer and before
    the first free byte. *)
Fixpoint spaced (lo : Z) (l : list Z) : Prop :=
  match l with [] => True | p :: t => lo <= p /\ spaced (p + 16) t end.

(** An entry as a writer lays it out: reference, lengths, flags, key, rest
    (padding and subnode number) up to the entry length. *)
Record ix_image : Type := mk_ixi { ixi_ref : Z; ixi_flags : Z; ixi_key : list Z; ixi_rest : list Z }.

Definition ixi_length (i : ix_image) : Z := 16 + zlen (ixi_key i) + zlen (ixi_rest i).
Definition ixi_ok (i : ix_image) : Prop :=
  0 <= ixi_ref i < 2 ^ 64 /\ 0 <= ixi_flags i < 2 ^ 16 /\ 0 < zlen (ixi_key i) /\
  ixi_length i < 65536 /\ ixi_length i mod 8 = 0 /\ Z.testbit (ixi_flags i) 1 = false.
Definition ixi_bytes (i : ix_image) : list Z :=
  le_bytes 8 (ixi_ref i) ++ le_bytes 2 (ixi_length i) ++ le_bytes 2 (zlen (ixi_key i)) ++
  le_bytes 2 (ixi_flags i) ++ [0; 0] ++ ixi_key i ++ ixi_rest i.

(** The end entry: no key. *)
Definition ixi_end (flags : Z) (rest : list Z) : list Z :=
  le_bytes 8 0 ++ le_bytes 2 (16 + zlen rest) ++ [0; 0] ++ le_bytes 2 flags ++ [0; 0] ++ rest.

(** [decodes r i]: the entry object of bytes [r] reports what image [i] holds. *)
Definition decodes (r : list Z) (i : ix_image) : Prop :=
  ie_reference r = Ok (ixi_ref i) /\ ie_length r = Ok (ixi_length i) /\
  ie_flags r = Ok (ixi_flags i) /\ ie_attribute r = Ok (Some (ixi_key i)) /\
  ie_vcn r = Ok (if Z.testbit (ixi_flags i) 0 then Some (fld 8 (ixi_bytes i) (ixi_length i - 8)) else None).

(** ** Index allocations: block [i] of [size] bytes as read from the file. *)
Inductive ia_walk (blk : Z -> result (list Z)) (size : Z) : Z -> list (Z * list Z) -> status -> Prop :=
| iaw_end : forall i raw, blk i = Ok raw -> zlen raw <> size -> ia_walk blk size i [] Done
| iaw_raise : forall i e, blk i = Err e -> ia_walk blk size i [] (Raised e)
| iaw_bad : forall i raw l st,
    blk i = Ok raw -> zlen raw = size -> ~ index_sectors_ok raw ->
    ia_walk blk size (i + 1) l st -> ia_walk blk size i l st
| iaw_good : forall i raw out l st,
    blk i = Ok raw -> zlen raw = size -> index_sectors_ok raw -> unprotect_index raw = Ok (Some out) ->
    ia_walk blk size (i + 1) l st -> ia_walk blk size i ((i, out) :: l) st.

(** ** Extended attributes *)
Definition ea_at (buf : list Z) (name : list Z) (flags : Z) (value : list Z) (next : Z) : Prop :=
  let n := fld 1 buf 5 in
  9 <= zlen buf /\ 9 + n + fld 2 buf 6 <= zlen buf /\ next = fld 4 buf 0 /\ next <= zlen buf /\
  flags = fld 1 buf 4 /\ name = slice buf 8 (9 + n) /\ znth buf (8 + n) = Some 0 /\
  value = slice buf (9 + n) (9 + n + fld 2 buf 6).

Inductive ea_walk : list Z -> list (list Z * Z * list Z) -> Prop :=
| eaw_end : forall buf, (forall n f v x, ~ ea_at buf n f v x) -> ea_walk buf []
| eaw_last : forall buf n f v, ea_at buf n f v 0 -> ea_walk buf [(n, f, v)]
| eaw_more : forall buf n f v x l,
    ea_at buf n f v x -> 0 < x -> ea_walk (zdrop x buf) l -> ea_walk buf ((n, f, v) :: l).

Record ea_image : Type := mk_eai { eai_name : list Z; eai_flags : Z; eai_value : list Z; eai_pad : list Z }.
Definition eai_size (i : ea_image) : Z := 9 + zlen (eai_name i) + zlen (eai_value i) + zlen (eai_pad i).
Definition eai_ok (i : ea_image) : Prop :=
  zlen (eai_name i) < 256 /\ 0 <= eai_flags i < 256 /\ zlen (eai_value i) < 65536 /\ eai_size i < 2 ^ 32.
Definition eai_bytes (i : ea_image) (next : Z) : list Z :=
  le_bytes 4 next ++ le_bytes 1 (eai_flags i) ++ le_bytes 1 (zlen (eai_name i)) ++
  le_bytes 2 (zlen (eai_value i)) ++ eai_name i ++ [0] ++ eai_value i ++ eai_pad i.
(** [terminated]: the last entry has a zero next offset (else its own size). *)
Fixpoint eas_bytes (l : list ea_image) (terminated : bool) : list Z :=
  match l with
  | [] => []
  | [i] => eai_bytes i (if terminated then 0 else eai_size i)
  | i :: t => eai_bytes i (eai_size i) ++ eas_bytes t terminated
  end.
Definition eai_entry (i : ea_image) : list Z * Z * list Z := (eai_name i ++ [0], eai_flags i, eai_value i).
