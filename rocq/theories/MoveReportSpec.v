(** What the report on a move table has to show. *)
From Coq Require Import String.
From Verif Require Import Base Filetime Report ReportSpec LogReportSpec.
Local Open Scope Z_scope.

(** ** Code pages *)

(** Code page 866: the capital letters of the Cyrillic alphabet and the first 16
    small ones, box drawing characters, the other small letters, then eight more
    letters and eight signs. *)
Definition boxes : list Z := [
  0x2591; 0x2592; 0x2593; 0x2502; 0x2524; 0x2561; 0x2562; 0x2556; 0x2555; 0x2563; 0x2551; 0x2557; 0x255D; 0x255C; 0x255B; 0x2510;
  0x2514; 0x2534; 0x252C; 0x251C; 0x2500; 0x253C; 0x255E; 0x255F; 0x255A; 0x2554; 0x2569; 0x2566; 0x2560; 0x2550; 0x256C; 0x2567;
  0x2568; 0x2564; 0x2565; 0x2559; 0x2558; 0x2552; 0x2553; 0x256B; 0x256A; 0x2518; 0x250C; 0x2588; 0x2584; 0x258C; 0x2590; 0x2580].
Definition signs866 : list Z := [0x401; 0x451; 0x404; 0x454; 0x407; 0x457; 0x40E; 0x45E; 0xB0; 0x2219; 0xB7; 0x221A; 0x2116; 0xA4; 0x25A0; 0xA0].
Inductive page866 : Z -> Z -> Prop :=
| p8_ascii b : 0 <= b < 128 -> page866 b b
| p8_capital b : 0x80 <= b < 0xB0 -> page866 b (b + 0x390)
| p8_box b c : 0xB0 <= b < 0xE0 -> znth boxes (b - 0xB0) = Some c -> page866 b c
| p8_small b : 0xE0 <= b < 0xF0 -> page866 b (b + 0x360)
| p8_sign b c : 0xF0 <= b < 0x100 -> znth signs866 (b - 0xF0) = Some c -> page866 b c.

(** Windows-1252: Latin-1, with other characters from 0x80 to 0x9F; five bytes
    have none. *)
Definition extra1252 : list (Z * Z) := [
  (0x80, 0x20AC); (0x82, 0x201A); (0x83, 0x192); (0x84, 0x201E); (0x85, 0x2026); (0x86, 0x2020); (0x87, 0x2021); (0x88, 0x2C6);
  (0x89, 0x2030); (0x8A, 0x160); (0x8B, 0x2039); (0x8C, 0x152); (0x8E, 0x17D); (0x91, 0x2018); (0x92, 0x2019); (0x93, 0x201C);
  (0x94, 0x201D); (0x95, 0x2022); (0x96, 0x2013); (0x97, 0x2014); (0x98, 0x2DC); (0x99, 0x2122); (0x9A, 0x161); (0x9B, 0x203A);
  (0x9C, 0x153); (0x9E, 0x17E); (0x9F, 0x178)].
Inductive page1252 : Z -> Z -> Prop :=
| p1_latin b : 0 <= b < 128 \/ 0xA0 <= b < 0x100 -> page1252 b b
| p1_extra b c : In (b, c) extra1252 -> page1252 b c.

(** The text for a name whose code page is not known: one reading if the two
    agree or only one is possible, else both. *)
Inductive name_shown (b : list Z) : list Z -> Prop :=
| ns_one s : Forall2 page866 b s -> (forall t, ~ Forall2 page1252 b t) -> name_shown b s
| ns_same s : Forall2 page866 b s -> Forall2 page1252 b s -> name_shown b s
| ns_both s t : Forall2 page866 b s -> Forall2 page1252 b t -> s <> t ->
    name_shown b (txt """" ++ s ++ txt """ (cp-866), """ ++ t ++ txt """ (windows-1252)").

(** The name stored in [n] bytes at [o]: up to the first zero byte. *)
Definition stored_name (b : list Z) (o n : Z) (m : list Z) : Prop :=
  exists rest, slice b o (o + n) = m ++ rest /\ ~ In 0 m /\ (rest = [] \/ exists t, rest = 0 :: t).

(** ** Blocks *)
Definition id_shown (b : list Z) (o : Z) (s : list Z) : Prop := guid_shown (slice b o (o + 16)) s.
Definition id_time (b : list Z) (o : Z) (c : cell) : Prop :=
  (exists us, guid_dated (slice b o (o + 16)) us /\ c = Stamp (86400000000 * 577736 + us)) \/
  ((forall us, ~ guid_dated (slice b o (o + 16)) us) /\ c = Txt (txt "N/A")).

Inductive header_shown (h : list Z) : list (list cell) -> Prop :=
| hs m name volume : stored_name h 40 16 m -> name_shown m name -> id_shown h 56 volume ->
    header_shown h [text_line "File header:" []; text_line " * Machine ID: " [Txt name]; text_line " * Volume object ID: " [Txt volume]].

(** The time of an entry is known up to 2^32 tenths of a microsecond. *)
Inductive entry_shown (e : list Z) : list (list cell) -> Prop :=
| es oid dv df m name bv bf t1 t2 t3 low high :
    id_shown e 20 oid -> id_shown e 36 dv -> id_shown e 52 df -> stored_name e 68 16 m -> name_shown m name ->
    id_shown e 84 bv -> id_shown e 100 bf -> id_time e 20 t1 -> id_time e 52 t2 -> id_time e 100 t3 ->
    filetime_shown (2 ^ 32 * fld 4 e 116) low -> filetime_shown (2 ^ 32 * fld 4 e 116 + (2 ^ 32 - 1)) high ->
    entry_shown e [
      text_line "Object ID: " [Txt oid]; gap;
      text_line "Domain-relative object ID, volume: " [Txt dv]; text_line "Domain-relative object ID, file: " [Txt df]; gap;
      text_line "Machine ID: " [Txt name]; gap;
      text_line "Birth domain-relative object ID, volume: " [Txt bv]; text_line "Birth domain-relative object ID, file: " [Txt bf]; gap;
      text_line "GUID timestamps:" []; text_line " * Object ID: " [t1]; text_line " * Domain-relative object ID, file: " [t2];
      text_line " * Birth domain-relative object ID, file: " [t3]; gap;
      text_line "Timestamp (range): " [low; Txt [32; 45; 32]; high]].

(** The report tells the entries [e] and [e'] not apart: they have the same
    identifiers and name, and the same time or both one after the year 9999. *)
Definition same_entry (e e' : list Z) : Prop :=
  slice e 20 68 = slice e' 20 68 /\ slice e 84 116 = slice e' 84 116 /\
  (exists m, stored_name e 68 16 m /\ stored_name e' 68 16 m) /\
  (fld 4 e 116 = fld 4 e' 116 \/ (2650467743999999840 <= 2 ^ 32 * fld 4 e 116 /\ 2650467743999999840 <= 2 ^ 32 * fld 4 e' 116)).
