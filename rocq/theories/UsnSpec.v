(** What a change journal holds, independently of the parser. *)
From Verif Require Import Base Filetime Usn.

(** The smallest record of each version. *)
Definition usn_min (k : Z) : Z := if k =? 2 then 62 else if k =? 3 then 78 else 80.

(** [data] has a record of [n] bytes and version [k] at [p]. *)
Definition usn_at (data : list Z) (p n k : Z) : Prop :=
  0 <= p /\ p + n <= zlen data /\ 2 <= k <= 4 /\ usn_min k <= n <= 8192 /\ n mod 8 = 0 /\
  fld 4 data p = n /\ fld 2 data (p + 4) = k.

(** The greedy scan in steps of eight bytes. *)
Inductive usn_walk (data : list Z) : Z -> list (Z * usn_rec) -> Prop :=
| usw_end : forall pos, zlen data <= pos -> usn_walk data pos []
| usw_skip : forall pos l, pos < zlen data -> (forall n k, ~ usn_at data pos n k) ->
    usn_walk data (pos + 8) l -> usn_walk data pos l
| usw_rec : forall pos n k l, usn_at data pos n k -> usn_walk data (pos + n) l ->
    usn_walk data pos ((pos, mk_ur k (slice data pos (pos + n))) :: l).

(** A record of version 2 or 3 as a writer lays it out. *)
Record usn_image : Type := mk_ui {
  ui_v3 : bool; ui_minor : Z; ui_file : Z; ui_parent : Z; ui_usn : Z; ui_time : Z; ui_reason : Z;
  ui_source : Z; ui_security : Z; ui_attributes : Z; ui_gap : list Z; ui_name : list Z; ui_pad : list Z }.

Definition ui_ref (i : usn_image) (r : Z) : list Z := le_bytes (if ui_v3 i then 16 else 8) r.
Definition ui_inc (i : usn_image) : Z := if ui_v3 i then 16 else 0.
Definition ui_version (i : usn_image) : Z := if ui_v3 i then 3 else 2.
Definition ui_size (i : usn_image) : Z := 60 + ui_inc i + zlen (ui_gap i) + zlen (ui_name i) + zlen (ui_pad i).
Definition ui_bytes (i : usn_image) : list Z :=
  le_bytes 4 (ui_size i) ++ le_bytes 2 (ui_version i) ++ le_bytes 2 (ui_minor i) ++
  ui_ref i (ui_file i) ++ ui_ref i (ui_parent i) ++ le_bytes 8 (ui_usn i) ++ le_bytes 8 (ui_time i) ++
  le_bytes 4 (ui_reason i) ++ le_bytes 4 (ui_source i) ++ le_bytes 4 (ui_security i) ++ le_bytes 4 (ui_attributes i) ++
  le_bytes 2 (zlen (ui_name i)) ++ le_bytes 2 (60 + ui_inc i + zlen (ui_gap i)) ++
  ui_gap i ++ ui_name i ++ ui_pad i.
Definition ui_ok (i : usn_image) : Prop :=
  62 + ui_inc i <= ui_size i <= 8192 /\ ui_size i mod 8 = 0 /\ 0 <= ui_minor i < 2 ^ 16 /\
  0 <= ui_file i < 2 ^ (64 + 8 * ui_inc i / 2) /\ 0 <= ui_parent i < 2 ^ (64 + 8 * ui_inc i / 2) /\
  0 <= ui_usn i < 2 ^ 64 /\ 0 <= ui_time i < 2 ^ 64 /\ 0 <= ui_reason i < 2 ^ 32 /\
  0 <= ui_source i < 2 ^ 32 /\ 0 <= ui_security i < 2 ^ 32 /\ 0 <= ui_attributes i < 2 ^ 32 /\
  bytes_ok (ui_gap i) /\ bytes_ok (ui_name i) /\ bytes_ok (ui_pad i).
Definition ui_decodes (r : usn_rec) (i : usn_image) : Prop :=
  ur_version r = ui_version i /\ ur_minor r = Ok (ui_minor i) /\
  ur_file_reference r = Ok (ui_file i) /\ ur_parent_reference r = Ok (ui_parent i) /\
  ur_usn r = Ok (ui_usn i) /\ ur_timestamp r = decode_filetime (ui_time i) true /\
  ur_reason r = Ok (ui_reason i) /\ ur_source r = Ok (ui_source i) /\
  ur_security_id r = Ok (ui_security i) /\ ur_file_attributes r = Ok (ui_attributes i) /\
  ur_file_name r = Ok (utf16le (ui_name i)).

(** A record of version 4 with its extents. *)
Record usn4_image : Type := mk_u4 {
  u4_minor : Z; u4_file : Z; u4_parent : Z; u4_usn : Z; u4_reason : Z; u4_source : Z;
  u4_remaining : Z; u4_extents : list (Z * Z); u4_pad : list Z }.
Definition extent_bytes (e : Z * Z) : list Z := le_bytes 8 (fst e mod 2 ^ 64) ++ le_bytes 8 (snd e mod 2 ^ 64).
Definition u4_size (i : usn4_image) : Z := 64 + 16 * zlen (u4_extents i) + zlen (u4_pad i).
Definition u4_bytes (i : usn4_image) : list Z :=
  le_bytes 4 (u4_size i) ++ le_bytes 2 4 ++ le_bytes 2 (u4_minor i) ++
  le_bytes 16 (u4_file i) ++ le_bytes 16 (u4_parent i) ++ le_bytes 8 (u4_usn i) ++
  le_bytes 4 (u4_reason i) ++ le_bytes 4 (u4_source i) ++ le_bytes 4 (u4_remaining i) ++
  le_bytes 2 (zlen (u4_extents i)) ++ le_bytes 2 16 ++ flat_map extent_bytes (u4_extents i) ++ u4_pad i.
Definition u4_ok (i : usn4_image) : Prop :=
  80 <= u4_size i <= 8192 /\ u4_size i mod 8 = 0 /\ 0 <= u4_minor i < 2 ^ 16 /\
  0 <= u4_file i < 2 ^ 128 /\ 0 <= u4_parent i < 2 ^ 128 /\ 0 <= u4_usn i < 2 ^ 64 /\
  0 <= u4_reason i < 2 ^ 32 /\ 0 <= u4_source i < 2 ^ 32 /\ 0 <= u4_remaining i < 2 ^ 32 /\
  Forall (fun e => - 2 ^ 63 <= fst e < 2 ^ 63 /\ - 2 ^ 63 <= snd e < 2 ^ 63) (u4_extents i) /\ bytes_ok (u4_pad i).
Definition u4_decodes (r : usn_rec) (i : usn4_image) : Prop :=
  ur_version r = 4 /\ ur_minor r = Ok (u4_minor i) /\
  ur_file_reference r = Ok (u4_file i) /\ ur_parent_reference r = Ok (u4_parent i) /\
  ur_usn r = Ok (u4_usn i) /\ ur_reason r = Ok (u4_reason i) /\ ur_source r = Ok (u4_source i) /\
  ur_remaining_extents r = Ok (u4_remaining i) /\
  ur_extents r = (map (fun e => Extent (fst e) (snd e)) (u4_extents i), Done).

(** Some record. *)
Definition any_image : Type := (usn_image + usn4_image)%type.
Definition ai_bytes (a : any_image) : list Z := match a with inl i => ui_bytes i | inr i => u4_bytes i end.
Definition ai_ok (a : any_image) : Prop := match a with inl i => ui_ok i | inr i => u4_ok i end.
Definition ai_decodes (r : usn_rec) (a : any_image) : Prop :=
  match a with inl i => ui_decodes r i | inr i => u4_decodes r i end.

(** Records, each after [8 * k] zero bytes. *)
Definition journal (l : list (nat * any_image)) : list Z :=
  flat_map (fun x => zeros (8 * Z.of_nat (fst x)) ++ ai_bytes (snd x)) l.

(** Reason and source codes: the value of an item. *)
Definition code_value (table : list (Z * String.string)) (c : code_item) : option Z :=
  match c with
  | Hex n => Some n
  | Named s => match find (fun x => String.eqb (snd x) s) table with Some x => Some (fst x) | None => None end
  end.
