(** binascii.crc32 (the reflected CRC-32 with polynomial 0xEDB88320), bit by bit. *)
From Verif Require Import Base.

Definition crc_poly : Z := 0xEDB88320.
Definition crc_bit (s : Z) : Z :=
  if Z.odd s then Z.lxor (Z.shiftr s 1) crc_poly else Z.shiftr s 1.
Definition crc_step (s b : Z) : Z :=
  crc_bit (crc_bit (crc_bit (crc_bit (crc_bit (crc_bit (crc_bit (crc_bit (Z.lxor s b)))))))).
Definition crc32 (l : list Z) : Z := Z.lxor (fold_left crc_step l 0xFFFFFFFF) 0xFFFFFFFF.
