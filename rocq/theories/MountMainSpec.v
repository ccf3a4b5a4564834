(** Specification of the main program of vsc_mount: what can be asked for. *)
From Coq Require Import String.
From Verif Require Import Base Report.
Local Open Scope Z_scope.

(** A place on a machine: the name of a file and an offset in it. *)
Definition place : Type := list Z * Z.
Inductive wish : Type :=
| Show (volume : place) (position : Z) (altfill : bool) (point : list Z)
| ShowTwo (volume store : place) (position : Z) (point : list Z)
| List (volume : place).

Section Wishes.
Variable int_of : list Z -> option Z.

(** The command lines (the first word is the name of the program). *)
Inductive wants : list (list Z) -> wish -> Prop :=
| w_show p a o n s k z : int_of o = Some n -> int_of s = Some k ->
    wants [p; txt "--mount"; a; o; s; z] (Show (a, n) k false z)
| w_fill p a o n s k z : int_of o = Some n -> int_of s = Some k ->
    wants [p; txt "--mount-altfill"; a; o; s; z] (Show (a, n) k true z)
| w_two p a b o n q i s k z : int_of o = Some n -> int_of q = Some i -> int_of s = Some k ->
    wants [p; txt "--mount-two"; a; b; o; q; s; z] (ShowTwo (a, n) (b, i) k z)
| w_list p a o n : int_of o = Some n -> wants [p; txt "--list"; a; o] (List (a, n)).
End Wishes.
