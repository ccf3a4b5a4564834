(** Specifications for the carvers. *)
From Verif Require Import Base Filetime Carve.

(** A scan from [s] in steps of two that takes the first position with [P] and
    goes on [skip] bytes after it. *)
Inductive scan (P : Z -> Prop) (skip : Z -> Z) : Z -> list Z -> Prop :=
| scan_end s : (forall q, s <= q -> q mod 2 = s mod 2 -> ~ P q) -> scan P skip s []
| scan_hit s p l : s <= p -> p mod 2 = s mod 2 -> P p ->
    (forall q, s <= q < p -> q mod 2 = s mod 2 -> ~ P q) ->
    scan P skip (p + skip p) l -> scan P skip s (p :: l).

(** ** Slack space *)

(** The name field of a $FILE_NAME attribute whose timestamps are at [pos];
    it may be cut by the end of the slack. *)
Definition name_field (v : list Z) (pos n : Z) : list Z := utf16le (slice v (pos + 58) (pos + 58 + 2 * n)).

(** Four timestamps from 1997 to 2060, a file name of 1 to 255 characters
    without slash and null, and the parent reference in front (or what is left
    of it). *)
Definition plausible (v : list Z) (pos : Z) : Prop :=
  (8 <= pos \/ pos = 4 \/ pos = 0) /\
  (forall k, 0 <= k < 4 -> 125000000000000000 <= fld 8 v (pos + 8 * k) <= 145000000000000000) /\
  pos + 57 <= zlen v /\
  let name := name_field v pos (fld 1 v (pos + 56)) in
  1 <= zlen name <= 255 /\ ~ In 47 name /\ ~ In 0 name.

(** The attribute: the bytes from the parent reference on, an unknown
    reference being all ones. *)
Definition attribute_at (v : list Z) (pos : Z) : list Z :=
  (if 8 <=? pos then slice v (pos - 8) pos else repeat 255 8) ++ zdrop pos v.

(** The characters before the first attribute, from the last one backwards. *)
Fixpoint chars_before (n : nat) (v : list Z) (pos : Z) : list (Z * Z) :=
  match n with
  | O => []
  | S n => match znth v pos, znth v (pos + 1) with
           | Some a, Some b => (a, b) :: chars_before n v (pos - 2)
           | _, _ => []
           end
  end.

Definition good_char (c : Z * Z) : Prop := printable (fst c) = true /\ snd c = 0.

(** Characters that are no part of a name: runs of less than five good ones,
    each ended by a bad one. *)
Inductive junk : list (Z * Z) -> Prop :=
| junk_nil : junk []
| junk_run r x l : Forall good_char r -> zlen r < 5 -> ~ good_char x -> junk l -> junk (r ++ x :: l).

(** [name] (reversed) is the last run of five or more good characters. *)
Definition last_name (chars : list (Z * Z)) (name : list Z) : Prop :=
  exists nulls j run rest, chars = nulls ++ j ++ run ++ rest /\
    Forall (fun c => c = (0, 0)) nulls /\ (forall x t, j ++ run ++ rest = x :: t -> x <> (0, 0)) /\
    junk j /\ Forall good_char run /\ 5 <= zlen run /\ (forall x t, rest = x :: t -> ~ good_char x) /\
    name = map fst run.

(** The number of characters at positions above 0. *)
Definition nchars (pos : Z) : nat := Z.to_nat ((pos + 1) / 2).

(** A partial name is reported after the names if there are at least ten bytes
    in front of the first attribute, with such a run (the first two bytes of
    the slack are not looked at). *)
Definition partial_for (v : list Z) (ps : list Z) (name : list Z) : Prop :=
  exists p r, ps = p :: r /\ 18 <= p /\ last_name (chars_before (nchars (p - 10)) v (p - 10)) name.

(** What is reported for a value. *)
Definition slack_items (v : list Z) (yield_partial : bool) (l : list carved) : Prop :=
  exists ps tail, scan (plausible v) (fun _ => 68) (zlen v mod 2) ps /\
    l = map (fun p => CName (attribute_at v p)) ps ++ tail /\
    ((exists name, yield_partial = true /\ partial_for v ps name /\ tail = [CPartial (rev name)]) \/
     (tail = [] /\ forall name, yield_partial = true -> ~ partial_for v ps name)).

(** ** File control blocks *)

Definition four_in_range (data : list Z) (p : Z) : Prop :=
  forall k, 0 <= k < 4 -> 123000000000000000 <= fld 8 data (p + 8 * k) <= 135000000000000000.

(** The positions in a block at [p] of a page, the first that fit if nothing
    is known. *)
Definition block_at (page : list Z) (g : guess) (p d a : Z) : Prop :=
  slice page p (p + 2) = [2; 7] /\
  match g with
  | Some (gd, ga) => d = gd /\ a = ga /\
      four_in_range page (p + gd) /\ p + gd + 32 <= zlen page /\
      123000000000000000 <= fld 8 page (p + ga) <= 135000000000000000 /\ p + ga + 8 <= zlen page
  | None =>
      0 <= d < 144 /\ d mod 2 = 0 /\ four_in_range page (p + d) /\ p + d + 32 <= zlen page /\
      (forall d', 0 <= d' < d -> d' mod 2 = 0 -> ~ four_in_range page (p + d')) /\
      d + 56 <= a < 208 /\ a mod 2 = 0 /\
      123000000000000000 <= fld 8 page (p + a) <= 135000000000000000 /\ p + a + 8 <= zlen page /\
      (forall a', d + 56 <= a' < a -> a' mod 2 = 0 ->
         ~ 123000000000000000 <= fld 8 page (p + a') <= 135000000000000000)
  end.

(** What is reported for it. *)
Definition item_for (page : list Z) (file_pos p d a : Z) (x : fcb) : Prop :=
  fc_pos x = file_pos + p /\ fc_dup x = d /\ fc_atime_pos x = a /\ fc_reference x = fld 8 page (p + 8) /\
  decode_filetime (fld 8 page (p + d)) true = Ok (fc_ctime x) /\
  decode_filetime (fld 8 page (p + d + 8)) true = Ok (fc_mtime x) /\
  decode_filetime (fld 8 page (p + d + 16)) true = Ok (fc_etime x) /\
  decode_filetime (fld 8 page (p + d + 24)) true = Ok (fc_atime x) /\
  decode_filetime (fld 8 page (p + a)) true = Ok (fc_real x).

(** A page: blocks are looked for from [s] on, each after the end of the one
    before. *)
Inductive page_items (page : list Z) (g : guess) (file_pos : Z) : Z -> list fcb -> Prop :=
| pi_end s : (forall q d a, s <= q -> q mod 2 = s mod 2 -> ~ block_at page g q d a) -> page_items page g file_pos s []
| pi_hit s p d a x l : s <= p -> p mod 2 = s mod 2 -> block_at page g p d a ->
    (forall q d' a', s <= q < p -> q mod 2 = s mod 2 -> ~ block_at page g q d' a') ->
    item_for page file_pos p d a x -> page_items page g file_pos (p + a + 8) l ->
    page_items page g file_pos s (x :: l).

(** The whole image, page by page of 4096 bytes; a last page shorter than 512
    bytes is not looked at. *)
Inductive image_items (data : list Z) (g : guess) : Z -> list fcb -> Prop :=
| ii_end fp : zlen data < fp + 512 -> image_items data g fp []
| ii_page fp l r : fp + 512 <= zlen data ->
    page_items (slice data fp (fp + 4096)) g fp 0 l -> image_items data g (fp + 4096) r ->
    image_items data g fp (l ++ r).

(** How often a position occurs. *)
Fixpoint occurs (k : Z) (l : list Z) : Z :=
  match l with [] => 0 | x :: t => (if x =? k then 1 else 0) + occurs k t end.

(** The position guessed: the most frequent, the first seen of several. *)
Definition favourite (l : list Z) (k : Z) : Prop :=
  In k l /\ (forall j, occurs j l <= occurs k l) /\
  exists a b, l = a ++ k :: b /\ forall j, In j a -> occurs j l < occurs k l.
