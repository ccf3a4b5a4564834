(** What partition tables mean, independently of how they are read. *)
From Verif Require Import Base Utf16 MoveTableSpec.
From Verif Require Import Crc32.

(** [n] bytes at [off], all present. *)
Definition bytes_at (vol : list Z) (off n : Z) (l : list Z) : Prop :=
  0 <= off /\ off + n <= zlen vol /\ l = slice vol off (off + n).

(** A valid copy of the GPT header at byte [off] of a disk with [ss]-byte
    sectors, and the partition array it describes. *)
Record gpt_valid (vol : list Z) (ss off : Z) (hdr arr : list Z) : Prop := {
  gv_sector : bytes_at vol off ss hdr;
  gv_signature : slice hdr 0 8 = [69; 70; 73; 32; 80; 65; 82; 84];
  gv_revision : fld 4 hdr 8 <> 0;
  gv_size : 92 <= fld 4 hdr 12 <= ss;
  gv_crc : crc32 (slice hdr 0 16 ++ [0; 0; 0; 0] ++ slice hdr 20 (fld 4 hdr 12)) = fld 4 hdr 16;
  gv_own_lba : fld 8 hdr 24 * ss = off;
  gv_other_lba : fld 8 hdr 32 <> fld 8 hdr 24 /\ fld 8 hdr 32 <> 0;
  gv_first : 2 + 16384 / ss <= fld 8 hdr 40;
  gv_array_lba : 2 <= fld 8 hdr 72 /\ fld 8 hdr 72 * ss < zlen vol - ss;
  gv_entry_size : exists k, 1 <= k /\ fld 4 hdr 84 = 128 * k;
  gv_array : bytes_at vol (fld 8 hdr 72 * ss) (fld 4 hdr 80 * fld 4 hdr 84) arr;
  gv_array_crc : crc32 arr = fld 4 hdr 88
}.

(** Used entries are those with a non-zero type. *)
Definition gpt_slot (arr : list Z) (size i : Z) : list Z := slice arr (i * size) (i * size + 128).
Definition slot_used (e : list Z) : bool := negb (forallb (Z.eqb 0) (slice e 0 16)).

(** The name: code units up to the first NUL, when the whole field is valid UTF-16. *)
Definition name_of (raw s : list Z) : Prop :=
  (exists t, Forall scalar (s ++ t) /\ ~ In 0 s /\ (t = [] \/ hd 1 t = 0) /\ raw = utf16_encode (s ++ t)) \/
  (s = [] /\ forall t, Forall scalar t -> raw <> utf16_encode t).

(** The four slots of an MBR. *)
Definition mbr_slots (sec : list Z) : list (list Z) := map (fun i => slice sec (446 + 16 * i) (462 + 16 * i)) [0; 1; 2; 3].
Definition slot_type (e : list Z) : Z := fld 1 e 4.
Definition slot_start (e : list Z) : Z := fld 4 e 8.
Definition slot_sectors (e : list Z) : Z := fld 4 e 12.

(** The extended boot record in sector [lba], if that sector is there and signed. *)
Definition ebr_sector (vol : list Z) (ss lba : Z) (sec : list Z) : Prop :=
  bytes_at vol (lba * ss) 512 sec /\ fld 2 sec 510 = 0xAA55.

Definition ebr_link (vol : list Z) (ss lba next : Z) : Prop :=
  exists sec, ebr_sector vol ss lba sec /\ next = fld 4 sec 470.

(** The sectors visited, in order, in the chain that starts at [first], from
    the link [rel] on, when the ones in [seen] have been visited already. *)
Inductive chain_visits (vol : list Z) (ss first : Z) : list Z -> Z -> list Z -> Prop :=
| cv_seen seen rel : In (first + rel) seen -> chain_visits vol ss first seen rel []
| cv_unreadable seen rel : ~ In (first + rel) seen -> (forall sec, ~ ebr_sector vol ss (first + rel) sec) ->
    chain_visits vol ss first seen rel [first + rel]
| cv_last seen rel : ~ In (first + rel) seen -> ebr_link vol ss (first + rel) 0 ->
    chain_visits vol ss first seen rel [first + rel]
| cv_next seen rel next vis : ~ In (first + rel) seen -> ebr_link vol ss (first + rel) next -> next <> 0 ->
    chain_visits vol ss first ((first + rel) :: seen) next vis ->
    chain_visits vol ss first seen rel ((first + rel) :: vis).

(** All chains, one after the other. *)
Inductive chains_visit (vol : list Z) (ss : Z) : list Z -> list Z -> list Z -> Prop :=
| cvs_nil seen : chains_visit vol ss seen [] []
| cvs_cons seen first firsts v w : chain_visits vol ss first seen 0 v ->
    chains_visit vol ss (v ++ seen) firsts w -> chains_visit vol ss seen (first :: firsts) (v ++ w).

(** The logical partition of a sector: boot indicator, type, start, size. *)
Definition logical (vol : list Z) (ss lba : Z) (p : Z * Z * Z * Z) : Prop :=
  exists sec, ebr_sector vol ss lba sec /\ fld 1 sec 450 <> 0 /\
    p = (fld 1 sec 446, fld 1 sec 450, lba + fld 4 sec 454, fld 4 sec 458).

(** The logical partitions of the sectors, in order. *)
Inductive logicals (vol : list Z) (ss : Z) : list Z -> list (Z * Z * Z * Z) -> Prop :=
| lg_nil : logicals vol ss [] []
| lg_yes lba vis p ps : logical vol ss lba p -> logicals vol ss vis ps -> logicals vol ss (lba :: vis) (p :: ps)
| lg_no lba vis ps : (forall p, ~ logical vol ss lba p) -> logicals vol ss vis ps -> logicals vol ss (lba :: vis) ps.

(** Where the extended partitions of the MBR start. *)
Definition extended_starts (vol : list Z) : list Z :=
  map slot_start (filter (fun e => (slot_type e =? 5) || (slot_type e =? 15) || (slot_type e =? 133))
    (mbr_slots (slice vol 0 512))).
