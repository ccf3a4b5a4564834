(** Model of str.encode('utf-8') of Python, with errors = 'strict': what the
    files opened with encoding = 'utf-8' in /repo/ntfs_parser (974-1037) and
    /repo/fat_parser (71) do to the texts written to them.  None stands for
    UnicodeEncodeError (a surrogate). *)
From Verif Require Import Base.

Definition utf8_char (c : Z) : option (list Z) :=
  if c <? 0x80 then Some [c]
  else if c <? 0x800 then Some [0xC0 + c / 64; 0x80 + c mod 64]
  else if (0xD800 <=? c) && (c <=? 0xDFFF) then None
  else if c <? 0x10000 then Some [0xE0 + c / 4096; 0x80 + c / 64 mod 64; 0x80 + c mod 64]
  else Some [0xF0 + c / 262144; 0x80 + c / 4096 mod 64; 0x80 + c / 64 mod 64; 0x80 + c mod 64].

Fixpoint utf8_text (s : list Z) : option (list Z) :=
  match s with
  | [] => Some []
  | c :: t => match utf8_char c, utf8_text t with
              | Some a, Some b => Some (a ++ b)
              | _, _ => None
              end
  end.
