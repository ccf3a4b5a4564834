(** Model of process_movetable (/repo/ntfs_parser:893-943) and of DecodeString
    (/repo/dfir_ntfs/MoveTable.py:30-55).  As in LogReport.v, the report is a list
    of blocks, each written with '\n\n---\n\n' after it, a block is a list of lines
    and a line a list of cells; ReportText.v gives the text of them. *)
From Coq Require Import String.
From Verif Require Import Base Filetime Attributes MoveTable Report LogReport.

(** The codecs of Python for the bytes from 128 on; -1 marks a byte that has no
    character.  Every byte has a character in cp866, so that s1 is never None. *)
Definition cp866_high : list Z := [
  0x410; 0x411; 0x412; 0x413; 0x414; 0x415; 0x416; 0x417; 0x418; 0x419; 0x41A; 0x41B; 0x41C; 0x41D; 0x41E; 0x41F;
  0x420; 0x421; 0x422; 0x423; 0x424; 0x425; 0x426; 0x427; 0x428; 0x429; 0x42A; 0x42B; 0x42C; 0x42D; 0x42E; 0x42F;
  0x430; 0x431; 0x432; 0x433; 0x434; 0x435; 0x436; 0x437; 0x438; 0x439; 0x43A; 0x43B; 0x43C; 0x43D; 0x43E; 0x43F;
  0x2591; 0x2592; 0x2593; 0x2502; 0x2524; 0x2561; 0x2562; 0x2556; 0x2555; 0x2563; 0x2551; 0x2557; 0x255D; 0x255C; 0x255B; 0x2510;
  0x2514; 0x2534; 0x252C; 0x251C; 0x2500; 0x253C; 0x255E; 0x255F; 0x255A; 0x2554; 0x2569; 0x2566; 0x2560; 0x2550; 0x256C; 0x2567;
  0x2568; 0x2564; 0x2565; 0x2559; 0x2558; 0x2552; 0x2553; 0x256B; 0x256A; 0x2518; 0x250C; 0x2588; 0x2584; 0x258C; 0x2590; 0x2580;
  0x440; 0x441; 0x442; 0x443; 0x444; 0x445; 0x446; 0x447; 0x448; 0x449; 0x44A; 0x44B; 0x44C; 0x44D; 0x44E; 0x44F;
  0x401; 0x451; 0x404; 0x454; 0x407; 0x457; 0x40E; 0x45E; 0xB0; 0x2219; 0xB7; 0x221A; 0x2116; 0xA4; 0x25A0; 0xA0].
Definition cp1252_high : list Z := [
  0x20AC; -1; 0x201A; 0x192; 0x201E; 0x2026; 0x2020; 0x2021; 0x2C6; 0x2030; 0x160; 0x2039; 0x152; -1; 0x17D; -1;
  -1; 0x2018; 0x2019; 0x201C; 0x201D; 0x2022; 0x2013; 0x2014; 0x2DC; 0x2122; 0x161; 0x203A; 0x153; -1; 0x17E; 0x178;
  0xA0; 0xA1; 0xA2; 0xA3; 0xA4; 0xA5; 0xA6; 0xA7; 0xA8; 0xA9; 0xAA; 0xAB; 0xAC; 0xAD; 0xAE; 0xAF;
  0xB0; 0xB1; 0xB2; 0xB3; 0xB4; 0xB5; 0xB6; 0xB7; 0xB8; 0xB9; 0xBA; 0xBB; 0xBC; 0xBD; 0xBE; 0xBF;
  0xC0; 0xC1; 0xC2; 0xC3; 0xC4; 0xC5; 0xC6; 0xC7; 0xC8; 0xC9; 0xCA; 0xCB; 0xCC; 0xCD; 0xCE; 0xCF;
  0xD0; 0xD1; 0xD2; 0xD3; 0xD4; 0xD5; 0xD6; 0xD7; 0xD8; 0xD9; 0xDA; 0xDB; 0xDC; 0xDD; 0xDE; 0xDF;
  0xE0; 0xE1; 0xE2; 0xE3; 0xE4; 0xE5; 0xE6; 0xE7; 0xE8; 0xE9; 0xEA; 0xEB; 0xEC; 0xED; 0xEE; 0xEF;
  0xF0; 0xF1; 0xF2; 0xF3; 0xF4; 0xF5; 0xF6; 0xF7; 0xF8; 0xF9; 0xFA; 0xFB; 0xFC; 0xFD; 0xFE; 0xFF].
Definition in_page (high : list Z) (b : Z) : Z := if b <? 128 then b else nth (Z.to_nat (b - 128)) high (-1).
Definition decode_page (high : list Z) (buf : list Z) : option (list Z) :=
  let s := map (in_page high) buf in if forallb (fun c => 0 <=? c) s then Some s else None.

(** MoveTable.py:30-55 *)
Definition decode_string (buf : list Z) : list Z :=
  match decode_page cp866_high buf, decode_page cp1252_high buf with
  | Some s1, None => s1
  | None, Some s2 => s2
  | None, None => txt "(unknown encoding)"
  | Some s1, Some s2 =>
    if zlist_eqb s1 s2 then s1
    else txt """" ++ s1 ++ txt """ (cp-866), """ ++ s2 ++ txt """ (windows-1252)"
  end.

Definition guid_str (g : list Z) : cell := Txt (guid_text (Some g)).

(** ntfs_parser:900-908 *)
Definition move_header_block (h : list Z) : block :=
  [ln "File header:" [];
   ln " * Machine ID: " [Txt (decode_string (mth_machine_id h))];
   ln " * Volume object ID: " [guid_str (mth_volume_id h)]].

(** 910-943 *)
Definition move_entry_block (e : list Z) : result block :=
  let! ts := mte_guid_timestamps e in
  let '(t1, t2, t3) := ts in
  let! range := mte_timestamp e in
  Ok [ln "Object ID: " [guid_str (mte_object_id e)];
      ln "" [];
      ln "Domain-relative object ID, volume: " [guid_str (fst (mte_droid e))];
      ln "Domain-relative object ID, file: " [guid_str (snd (mte_droid e))];
      ln "" [];
      ln "Machine ID: " [Txt (decode_string (mte_machine_id e))];
      ln "" [];
      ln "Birth domain-relative object ID, volume: " [guid_str (fst (mte_birth_droid e))];
      ln "Birth domain-relative object ID, file: " [guid_str (snd (mte_birth_droid e))];
      ln "" [];
      ln "GUID timestamps:" [];
      ln " * Object ID: " [format_timestamp ordinal_1582 t1];
      ln " * Domain-relative object ID, file: " [format_timestamp ordinal_1582 t2];
      ln " * Birth domain-relative object ID, file: " [format_timestamp ordinal_1582 t3];
      ln "" [];
      ln "Timestamp (range): " [format_timestamp ordinal_1601 (fst range); Txt (txt " - "); format_timestamp ordinal_1601 (snd range)]].

Fixpoint move_blocks (es : list (list Z)) (st : status) : gen block :=
  match es with
  | [] => ([], st)
  | e :: es => match move_entry_block e with
               | Ok b => gcons b (move_blocks es st)
               | Err x => ([], Raised x)
               end
  end.

Definition move_report (data : list Z) : gen block :=
  let s := mt_sector_size data None in
  match mt_header data s with
  | Err x => ([], Raised x)
  | Ok h => let (es, st) := mt_log_entries data s in gcons (move_header_block h) (move_blocks es st)
  end.
