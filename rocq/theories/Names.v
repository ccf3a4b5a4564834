(** Model of the functions that name codes and are not used by the reports:
    ResolveAttributeType (dfir_ntfs/MFT.py:90-96, the type_str() of both kinds of
    attribute records) and ResolveFileAttributes of dfir_ntfs/addons/FAT.py:90-98
    and dfir_ntfs/addons/exFAT.py:108-116.  (Those of the reports are in Usn.v and
    LogReport.v.) *)
From Coq Require Import String.
From Verif Require Import Base Report LogReport.
Local Open Scope Z_scope.

(** Attributes.py:12-26, 1089-1105: the keys and the names of AttributeTypes. *)
Definition attribute_types : list (Z * string) := [
  (0x10, "$STANDARD_INFORMATION"); (0x20, "$ATTRIBUTE_LIST"); (0x30, "$FILE_NAME"); (0x40, "$OBJECT_ID");
  (0x50, "$SECURITY_DESCRIPTOR"); (0x60, "$VOLUME_NAME"); (0x70, "$VOLUME_INFORMATION"); (0x80, "$DATA");
  (0x90, "$INDEX_ROOT"); (0xA0, "$INDEX_ALLOCATION"); (0xB0, "$BITMAP"); (0xC0, "$REPARSE_POINT");
  (0xD0, "$EA_INFORMATION"); (0xE0, "$EA"); (0x100, "$LOGGED_UTILITY_STREAM")]%string.

(** MFT.py:90-96. *)
Definition resolve_attribute_type (code : Z) : list Z :=
  match find (fun x => fst x =? code) attribute_types with
  | Some (_, name) => txt name
  | None => py_hex code
  end.

(** FAT.py:48-53, 64-71 and exFAT.py:34-36, 55-67: FILE_ATTR_LIST, sorted by key. *)
Definition fat_attr_list : list (Z * string) := [
  (0x01, "READ_ONLY"); (0x02, "HIDDEN"); (0x04, "SYSTEM"); (0x08, "VOLUME_ID"); (0x10, "DIRECTORY"); (0x20, "ARCHIVE")]%string.
Definition exfat_attr_list : list (Z * string) := [
  (0x01, "READ_ONLY"); (0x02, "HIDDEN"); (0x04, "SYSTEM"); (0x08, "UNKNOWN8_MACOS"); (0x10, "DIRECTORY"); (0x20, "ARCHIVE")]%string.

(** FAT.py:90-98, exFAT.py:108-116. *)
Definition resolve_attributes (table : list (Z * string)) (n : Z) : list Z :=
  joined bar (map (fun x => txt (snd x)) (filter (fun x => 0 <? Z.land n (fst x)) table)).
Definition fat_attributes := resolve_attributes fat_attr_list.
Definition exfat_attributes := resolve_attributes exfat_attr_list.
