(** Python values used by the model: integers are [Z], byte strings are
    [list Z], exceptions are values, generators are lists of items with a
    final status.  Only definitions here; lemmas are in [BaseLemmas]. *)
From Coq Require Export ZArith List Bool.
Export ListNotations.
Global Open Scope Z_scope.

(** The exception classes the modelled code raises (or lets escape). *)
Inductive exn : Set :=
| ValueError | StructError | IndexError | TypeError | KeyError
| AttributeError_py | NotImplementedError | OverflowError | ZeroDivisionError
| UnboundLocalError
| MasterFileTableException | FileRecordSegmentException
| FileRecordSegmentSignatureException | AttributeException
| MappingPairsException
| BootSectorException | FileSystemException | FileAllocationTableException
| DirectoryEntriesException | FSINFOException | BitmapException
| BootRegionException | BootRegionChecksumException | UpdateSequenceArrayException
| LogFileException | RestartPageException | EmptyLogFileException
| RestartAreaException | ClientRecordException | LogRecordPageException
| ClientException | RuntimeError_py
| GPTException | MBRException | EBRException
| ShadowCopyException | InvalidVolume | ShadowCopyNotFoundException
| ShadowBlockException | StartBlockException | ShadowCopiesDisabledException
| ControlBlockException | ControlBlockItemException
| LogEntryNotUsed
| UserWarningRaised
| OutOfFuel.

Definition exn_eq_dec : forall a b : exn, {a = b} + {a <> b}.
Proof. decide equality. Defined.

Inductive result (A : Type) : Type :=
| Ok : A -> result A
| Err : exn -> result A.
Arguments Ok {A} _.
Arguments Err {A} _.

Definition bind {A B} (x : result A) (f : A -> result B) : result B :=
  match x with Ok a => f a | Err e => Err e end.

Declare Scope res_scope.
Delimit Scope res_scope with res.
Notation "'let!' x ':=' e 'in' k" := (bind e (fun x => k))
  (at level 200, x pattern, e at level 100, k at level 200).

(** [guard c e k]: [if c: raise e], then [k]. *)
Definition guard {A} (c : bool) (e : exn) (k : result A) : result A :=
  if c then Err e else k.

(** How a generator ended. *)
Inductive status : Set := Done | Raised (e : exn).

(** A generator run to its end: items yielded, then the final status. *)
Definition gen (A : Type) : Type := (list A * status)%type.

Definition gcons {A} (a : A) (g : gen A) : gen A := (a :: fst g, snd g).

Definition gapp {A} (l : list A) (g : gen A) : gen A := (l ++ fst g, snd g).

(** Lengths and slices with [Z] indices; recursion is on the list so that a
    64-bit offset read from the data costs nothing. *)
Definition zlen {A} (l : list A) : Z := Z.of_nat (length l).

Fixpoint ztake {A} (n : Z) (l : list A) : list A :=
  match l with
  | [] => []
  | x :: t => if n <=? 0 then [] else x :: ztake (n - 1) t
  end.

Fixpoint zdrop {A} (n : Z) (l : list A) : list A :=
  match l with
  | [] => []
  | x :: t => if n <=? 0 then l else zdrop (n - 1) t
  end.

(** Python [l[a:b]] for [0 <= a]. *)
Definition slice {A} (l : list A) (a b : Z) : list A := ztake (b - a) (zdrop a l).

(** Python [l[i]] for [0 <= i]. *)
Fixpoint znth {A} (l : list A) (i : Z) : option A :=
  match l with
  | [] => None
  | x :: t => if i =? 0 then Some x else znth t (i - 1)
  end.

Definition index {A} (l : list A) (i : Z) : result A :=
  match znth l i with
  | Some x => if i <? 0 then Err IndexError else Ok x
  | None => Err IndexError
  end.

(** Python [l[i] = v] on a bytearray, for [0 <= i < len l]. *)
Fixpoint zset {A} (l : list A) (i : Z) (v : A) : list A :=
  match l with
  | [] => []
  | x :: t => if i =? 0 then v :: t else x :: zset t (i - 1) v
  end.

Fixpoint zrepeat_nat {A} (x : A) (n : nat) : list A :=
  match n with O => [] | S n => x :: zrepeat_nat x n end.

(** [b'\x00' * n] *)
Definition zeros (n : Z) : list Z := repeat 0 (Z.to_nat n).

(** Little-endian unsigned and two's complement values. *)
Fixpoint le_val (l : list Z) : Z :=
  match l with [] => 0 | b :: t => b + 256 * le_val t end.

Definition to_signed (bits v : Z) : Z :=
  if v <? 2 ^ (bits - 1) then v else v - 2 ^ bits.

Definition le_sval (l : list Z) : Z := to_signed (8 * zlen l) (le_val l).

(** Big-endian value. *)
Definition be_val (l : list Z) : Z := le_val (rev l).

(** [struct.unpack('<...', buf[off : off + w])] for one field of [w] bytes. *)
Definition unp (w : Z) (buf : list Z) (off : Z) : result Z :=
  let s := slice buf off (off + w) in
  if zlen s =? w then Ok (le_val s) else Err StructError.

Definition u8 := unp 1.
Definition u16 := unp 2.
Definition u32 := unp 4.
Definition u64 := unp 8.

Definition unp_s (w : Z) (buf : list Z) (off : Z) : result Z :=
  let! v := unp w buf off in Ok (to_signed (8 * w) v).

(** The field values as numbers, once the bytes are known to be present. *)
Definition fld (w : Z) (buf : list Z) (off : Z) : Z := le_val (slice buf off (off + w)).

Definition is_byte (b : Z) : Prop := 0 <= b < 256.
Definition bytes_ok (l : list Z) : Prop := Forall is_byte l.

Definition byteb (b : Z) : bool := (0 <=? b) && (b <? 256).
Definition bytes_okb (l : list Z) : bool := forallb byteb l.

(** Equality of byte strings. *)
Fixpoint zlist_eqb (a b : list Z) : bool :=
  match a, b with
  | [], [] => true
  | x :: a', y :: b' => (x =? y) && zlist_eqb a' b'
  | _, _ => false
  end.

(** Membership of a number in a list ([x in l]). *)
Definition zin (x : Z) (l : list Z) : bool := existsb (Z.eqb x) l.

(** A file object with content [data]: [seek(off); read(n)].  Reading past the
    end gives fewer bytes, as an ordinary file does; a negative offset makes
    [seek] raise. *)
Definition read_at (data : list Z) (off n : Z) : result (list Z) :=
  if off <? 0 then Err ValueError else Ok (slice data off (off + n)).

(** [bytes.decode('utf-16le', errors = 'replace')] as CPython does it, giving
    the list of code points. *)
Fixpoint utf16le (l : list Z) : list Z :=
  match l with
  | [] => []
  | [_] => [65533]
  | a :: b :: t =>
    let u := a + 256 * b in
    if (55296 <=? u) && (u <=? 56319) then
      match t with
      | c :: d :: t' =>
        let v := c + 256 * d in
        if (56320 <=? v) && (v <=? 57343)
        then (65536 + (u - 55296) * 1024 + (v - 56320)) :: utf16le t'
        else 65533 :: utf16le t
      | _ => [65533]
      end
    else if (56320 <=? u) && (u <=? 57343) then 65533 :: utf16le t
    else u :: utf16le t
  end.

(** Little-endian encoding, used by specifications. *)
Fixpoint le_bytes (w : nat) (v : Z) : list Z :=
  match w with
  | O => []
  | S w => v mod 256 :: le_bytes w (v / 256)
  end.

(** [n] rounded up to a multiple of 8, as written in several loops:
    [if n % 8 == 0: n else: n + 8 - n % 8]. *)
Definition align8 (n : Z) : Z := if n mod 8 =? 0 then n else n + 8 - n mod 8.
