(** What the texts of codes have to say. *)
From Coq Require Import String.
From Verif Require Import Base Report LogReportSpec.
Local Open Scope Z_scope.

(** The types of attributes: every multiple of 16 up to 0x100 has a name, except
    0 and 0xF0. *)
Definition type_names : list string := [
  "STANDARD_INFORMATION"; "ATTRIBUTE_LIST"; "FILE_NAME"; "OBJECT_ID"; "SECURITY_DESCRIPTOR"; "VOLUME_NAME"; "VOLUME_INFORMATION";
  "DATA"; "INDEX_ROOT"; "INDEX_ALLOCATION"; "BITMAP"; "REPARSE_POINT"; "EA_INFORMATION"; "EA"; ""; "LOGGED_UTILITY_STREAM"]%string.
Definition type_named (code : Z) (name : string) : Prop :=
  exists k, code = 16 * (k + 1) /\ znth type_names k = Some name /\ name <> ""%string.
Definition type_shown (code : Z) (s : list Z) : Prop :=
  (exists name, type_named code name /\ s = 36 :: txt name) \/
  ((forall name, ~ type_named code name) /\ hex_shown code s).

(** The attributes of files on FAT and exFAT volumes, from bit 0 on. *)
Definition fat_bits : list (Z * string) := [
  (0, "READ_ONLY"); (1, "HIDDEN"); (2, "SYSTEM"); (3, "VOLUME_ID"); (4, "DIRECTORY"); (5, "ARCHIVE")]%string.
Definition exfat_bits : list (Z * string) := [
  (0, "READ_ONLY"); (1, "HIDDEN"); (2, "SYSTEM"); (3, "UNKNOWN8_MACOS"); (4, "DIRECTORY"); (5, "ARCHIVE")]%string.
Definition bits_shown (bits : list (Z * string)) (n : Z) (s : list Z) : Prop :=
  bars (map (fun x => txt (snd x)) (filter (fun x => Z.testbit n (fst x)) bits)) s.
