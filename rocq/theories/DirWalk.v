(** Model of the directory walks of /repo/dfir_ntfs/addons/FAT.py and exFAT.py.

    The two [process_buf] functions (FAT.py:1569-1650, exFAT.py:1188-1247) have
    the same skeleton: the loop over the entries with the set of the clusters of
    the directories above ([stack]) and [prev_first_cluster].  The skeleton is
    modelled here once; what differs is kept in a record.  Sets are modelled as
    lists; the copies [set(stack)] need no modelling.  The sets and dictionaries
    of the enclosing function (visited and reallocated directories) are a state
    that is passed along.  Python's limit on nested generators is not modelled. *)
From Verif Require Import Base.

Inductive wkind := KSkip | KOther | KFile | KDir (c : Z).

Section Walk.
Context {entry item state : Type}.

Record walker := mk_walker {
  (** The entries of a directory at a path. *)
  w_entries : list Z -> list Z -> gen entry;
  (** An entry that is ignored, that is only reported, a file, a directory with its first cluster. *)
  w_kind : entry -> wkind;
  (** ExpandPath. *)
  w_emit : list Z -> entry -> result item;
  (** What happens after a file or a directory was reported: the new state and
      the data and path of the directory to be walked, if any. *)
  w_enter : state -> list Z -> entry -> result (state * option (list Z * list Z));
  (** Clusters of reallocated directories that were not visited. *)
  w_orphans : state -> list Z;
  (** The data and the path of such a directory. *)
  w_orphan : state -> Z -> result (option (list Z * list Z)) }.

Variable W : walker.

Definition set_remove (x : Z) (l : list Z) : list Z := filter (fun y => negb (y =? x)) l.

Section Loop.
(** The recursive call: state, data, path, stack. *)
Variable rec : state -> list Z -> list Z -> list Z -> state * gen item.

(** FAT.py:1571-1650, exFAT.py:1190-1247: [es] are the entries to come and [fin] is how the generator of the entries ends. *)
Fixpoint items_loop (path : list Z) (es : list entry) (fin : status) (st : state) (prev : option Z) (stack : list Z) : state * gen item :=
  match es with
  | [] => (st, ([], fin))
  | e :: r =>
    let report stack prev :=
      match w_emit W path e with
      | Err x => (st, ([], Raised x))
      | Ok it =>
        match w_enter W st path e with
        | Err x => (st, ([it], Raised x))
        | Ok (st', None) =>
          let '(st2, g) := items_loop path r fin st' prev stack in (st2, gcons it g)
        | Ok (st', Some (buf, path')) =>
          match rec st' buf path' stack with
          | (st2, (l, Raised x)) => (st2, (it :: l, Raised x))
          | (st2, (l, Done)) =>
            let '(st3, g) := items_loop path r fin st2 prev stack in (st3, gapp (it :: l) g)
          end
        end
      end in
    let popped := match prev with Some p => set_remove p stack | None => stack end in
    match w_kind W e with
    | KSkip => items_loop path r fin st prev stack
    | KOther =>
      match w_emit W path e with
      | Err x => (st, ([], Raised x))
      | Ok it => let '(st', g) := items_loop path r fin st prev stack in (st', gcons it g)
      end
    | KFile => report popped prev
    | KDir c => if zin c popped then items_loop path r fin st prev popped else report (c :: popped) (Some c)
    end
  end.
End Loop.

Fixpoint process (fuel : nat) (st : state) (buf path stack : list Z) : state * gen item :=
  match fuel with
  | O => (st, ([], Raised OutOfFuel))
  | S fuel => let '(es, fin) := w_entries W path buf in items_loop (process fuel) path es fin st None stack
  end.

(** FAT.py:1681-1692, exFAT.py:1264-1278: directories that were reallocated. *)
Fixpoint orphans_loop (fuel : nat) (st : state) (cs : list Z) : gen item :=
  match cs with
  | [] => ([], Done)
  | c :: r =>
    match w_orphan W st c with
    | Err x => ([], Raised x)
    | Ok None => orphans_loop fuel st r
    | Ok (Some (buf, path)) =>
      match process fuel st buf path [] with
      | (_, (l, Raised x)) => (l, Raised x)
      | (st', (l, Done)) => gapp l (orphans_loop fuel st' r)
      end
    end
  end.

(** FAT.py:1676-1692, exFAT.py:1259-1278. *)
Definition walk_from (fuel : nat) (st : state) (buf stack : list Z) : gen item :=
  match process fuel st buf [] stack with
  | (_, (l, Raised x)) => (l, Raised x)
  | (st', (l, Done)) => gapp l (orphans_loop fuel st' (w_orphans W st'))
  end.

End Walk.
Arguments walker : clear implicits.
