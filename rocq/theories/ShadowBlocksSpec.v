(** Which blocks of a volume with shadow copies are valid, by their bytes. *)
From Coq Require Import String.
From Verif Require Import Base Report.
Local Open Scope Z_scope.

(** 3808876b-c176-4e48-b7ae-04046e6cc752 as it is stored. *)
Definition diff_area : list Z :=
  [0x6B; 0x87; 0x08; 0x38; 0x76; 0xC1; 0x48; 0x4E; 0xB7; 0xAE; 0x04; 0x04; 0x6E; 0x6C; 0xC7; 0x52].

(** The file systems that can have shadow copies. *)
Definition supported (buf : list Z) : Prop := slice buf 3 7 = txt "NTFS" \/ slice buf 3 7 = txt "ReFS".

(** The block at 7680: GUID, version, type, three offsets. *)
Definition started (buf : list Z) : Prop :=
  zlen buf = 8192 /\ supported buf /\ slice buf 7680 7696 = diff_area /\
  fld 4 buf 7700 = 1 /\ fld 8 buf 7704 = 7680 /\ fld 8 buf 7712 = 7680 /\ fld 8 buf 7720 = 0.

(** A block of type [ty]. *)
Definition block_of (ty : Z) (buf : list Z) : Prop :=
  zlen buf = 16384 /\ slice buf 0 16 = diff_area /\ fld 4 buf 20 = ty.
