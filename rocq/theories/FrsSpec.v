(** Specification of file record segments: multi-sector protection, header
    layout and attribute record layout, written against the raw bytes. *)
From Verif Require Import Base MappingPairsSpec Frs.

(** ** Multi-sector protection (sectors of 512 bytes) *)

(** The last two bytes of sector [k]. *)
Definition tail (raw : list Z) (k : Z) : list Z := slice raw (512 * k + 510) (512 * k + 512).

(** The update sequence number, stored first in the array at [uo]. *)
Definition usn_of (raw : list Z) (uo : Z) : list Z := slice raw uo (uo + 2).

Definition intact (raw : list Z) (uo k : Z) : Prop := tail raw k = usn_of raw uo.

(** [out] is [raw] with the tail of every sector up to the first torn one
    replaced by the bytes saved in the array. *)
Definition restored (raw out : list Z) (uo : Z) : Prop :=
  zlen out = zlen raw /\
  forall p, 0 <= p < zlen raw ->
    (p mod 512 < 510 -> znth out p = znth raw p) /\
    (510 <= p mod 512 -> (forall j, 0 <= j <= p / 512 -> intact raw uo j) ->
       znth out p = znth raw (uo + 2 * (p / 512 + 1) + (p mod 512 - 510))) /\
    (510 <= p mod 512 -> (exists j, 0 <= j <= p / 512 /\ ~ intact raw uo j) ->
       znth out p = znth raw p).

(** ** Header (offsets as on disk) *)
Definition usa_off (raw : list Z) : Z := fld 2 raw 4.
Definition usa_cnt (raw : list Z) : Z := fld 2 raw 6.
Definition first_attr_off (raw : list Z) : Z := fld 2 raw 20.
Definition first_free_off (raw : list Z) : Z := fld 4 raw 24.
Definition declared_size (raw : list Z) : Z := fld 4 raw 28.

Definition size_ok (n : Z) : Prop := n = 1024 \/ n = 4096.

Definition signature_ok (raw : list Z) : Prop :=
  slice raw 0 4 = [70; 73; 76; 69] (* FILE *) \/
  slice raw 0 4 = [66; 65; 65; 68] (* BAAD *) \/
  slice raw 0 4 = [67; 72; 75; 68] (* CHKD *).

Definition usa_ok (raw : list Z) : Prop :=
  42 <= usa_off raw <= 506 /\ (usa_cnt raw - 1) * 512 = zlen raw /\
  usa_off raw + 2 * usa_cnt raw < zlen raw.

Definition header_ok (raw : list Z) : Prop :=
  size_ok (zlen raw) /\ signature_ok raw /\
  size_ok (declared_size raw) /\ declared_size raw <= zlen raw /\
  42 <= first_free_off raw <= declared_size raw /\
  first_attr_off raw mod 8 = 0 /\ 8 <= first_attr_off raw <= declared_size raw - 24 /\
  usa_off raw + 2 * usa_cnt raw <= first_attr_off raw.

(** Every sector that starts before the first free byte is intact. *)
Definition used_intact (raw : list Z) : Prop :=
  forall k, 0 <= k -> 512 * k < first_free_off raw -> 512 * (k + 1) <= zlen raw ->
  intact raw (usa_off raw) k.

(** ** Writing a protected record *)

(** Overwrite the bytes at [off] with [bs]. *)
Definition put (l : list Z) (off : Z) (bs : list Z) : list Z :=
  ztake off l ++ bs ++ zdrop (off + zlen bs) l.

(** Save the number and the tails of the first [n] sectors in the array. *)
Fixpoint put_saved (l src : list Z) (uo : Z) (n : nat) : list Z :=
  match n with
  | O => l
  | S m => put (put_saved l src uo m) (uo + 2 * (Z.of_nat m + 1)) (tail src (Z.of_nat m))
  end.

Fixpoint put_tails (l : list Z) (usn : list Z) (n : nat) : list Z :=
  match n with
  | O => l
  | S m => put (put_tails l usn m) (512 * Z.of_nat m + 510) usn
  end.

(** The record as the driver keeps it in memory: the array filled in. *)
Definition with_array (rec : list Z) (usn : list Z) : list Z :=
  let uo := usa_off rec in
  put_saved (put rec uo usn) rec uo (Z.to_nat (zlen rec / 512)).

(** The record as written to disk. *)
Definition protect (rec : list Z) (usn : list Z) : list Z :=
  put_tails (with_array rec usn) usn (Z.to_nat (zlen rec / 512)).

(** ** Attribute records *)

(** A name of [nl] UTF-16 units at offset [no] of the record at [pos]. *)
Inductive name_at (d : list Z) (pos : Z) : Z -> Z -> option (list Z) -> Prop :=
| name_none : forall no, name_at d pos 0 no None
| name_some : forall nl no, 0 < nl -> no mod 2 = 0 -> pos + no + 2 * nl <= zlen d ->
    name_at d pos nl no (Some (slice d (pos + no) (pos + no + 2 * nl))).

(** [attr_at d ff pos len ty name content]: the bytes at [pos] are an attribute
    record of [len] bytes ending before the first free byte [ff]; the content is
    either the resident value, or mapping pairs, VCN range and file size. *)
Inductive attr_at (d : list Z) (ff pos : Z) : Z (* record length *) -> Z (* type *) ->
    option (list Z) (* raw name *) -> list Z (* value *) + (list Z * (Z * Z) * Z) -> Prop :=
| attr_resident : forall len ty nl no name vl vo,
    pos + 16 <= zlen d ->
    fld 4 d pos = ty -> ty <> 0xFFFFFFFF ->
    fld 4 d (pos + 4) = len -> 8 <= len -> len mod 8 = 0 -> pos + len <= ff ->
    fld 1 d (pos + 8) = 0 ->
    fld 1 d (pos + 9) = nl -> fld 2 d (pos + 10) = no ->
    fld 4 d (pos + 16) = vl -> fld 2 d (pos + 20) = vo ->
    vo mod 8 = 0 -> vo + vl <= len -> pos + vo + vl <= zlen d -> 24 <= vo ->
    name_at d pos nl no name -> (0 < nl -> 24 <= no /\ no + 2 * nl <= vo) ->
    attr_at d ff pos len ty name (inl (slice d (pos + vo) (pos + vo + vl)))
| attr_nonresident : forall len ty nl no name lo hi mpo size,
    pos + 64 <= zlen d ->
    fld 4 d pos = ty -> ty <> 0xFFFFFFFF ->
    fld 4 d (pos + 4) = len -> 8 <= len -> len mod 8 = 0 -> pos + len <= ff ->
    fld 1 d (pos + 8) = 1 ->
    fld 1 d (pos + 9) = nl -> fld 2 d (pos + 10) = no ->
    fld 8 d (pos + 16) = lo -> fld 8 d (pos + 24) = hi -> lo <= hi ->
    fld 2 d (pos + 32) = mpo -> 64 <= mpo < len ->
    to_signed 64 (fld 8 d (pos + 48)) = size ->
    0 <= to_signed 64 (fld 8 d (pos + 56)) <= size ->
    size <= to_signed 64 (fld 8 d (pos + 40)) ->
    name_at d pos nl no name -> (0 < nl -> 64 <= no /\ no + 2 * nl <= mpo) ->
    attr_at d ff pos len ty name (inr (slice d (pos + mpo) (pos + len), (lo, hi), size)).

(** The end marker. *)
Definition end_at (d : list Z) (pos : Z) : Prop :=
  pos + 4 <= zlen d /\ fld 4 d pos = 0xFFFFFFFF.

(** The attribute records from [pos] on, one after the other without gaps,
    ending at [e]; [P] relates what is reported to each record. *)
Inductive attr_seq {A : Type} (d : list Z) (ff : Z)
    (P : A -> Z -> option (list Z) -> list Z + (list Z * (Z * Z) * Z) -> Prop)
  : Z -> list A -> Z -> Prop :=
| seq_nil : forall pos, attr_seq d ff P pos [] pos
| seq_cons : forall pos len ty name c a l e,
    pos < ff -> attr_at d ff pos len ty name c -> P a ty name c ->
    attr_seq d ff P (pos + len) l e -> attr_seq d ff P pos (a :: l) e.

(** What is reported for a record. *)
Definition shows (a : attr) (ty : Z) (name : option (list Z)) (c : list Z + (list Z * (Z * Z) * Z)) : Prop :=
  match a, c with
  | Resident t n v, inl v' => t = ty /\ n = option_map utf16le name /\ v = v'
  | Nonresident t n mp runs lo hi sz, inr (mp', (lo', hi'), sz') =>
      t = ty /\ n = option_map utf16le name /\ mp = Some mp' /\ MP 0 true mp' runs /\
      lo = lo' /\ hi = hi' /\ sz = sz'
  | _, _ => False
  end.

(** Exceptions of the constructor and of the enumeration. *)
Definition exn_frs (e : exn) : Prop :=
  e = FileRecordSegmentException \/ e = FileRecordSegmentSignatureException.

Definition exn_attr (e : exn) : Prop := e = AttributeException \/ e = MappingPairsException.

