(** Specification: tables in which every listed path can be looked up. *)
From Verif Require Import Base Frs FrsSpec FileRecord MftSpec.

(** The form in which names are compared. *)
Definition compared (upper : list Z -> list Z) (cs : bool) (v : list Z) : list Z :=
  if cs then name_field v else upper (name_field v).

(** No record has the same name twice (in two directories). *)
Definition names_differ (t : list (Z * frs)) (data : list Z) (size : Z) (upper : list Z -> list Z) (cs : bool) : Prop :=
  forall k seq fr vs, record_at t data size k seq fr -> has_names fr vs -> NoDup (map (compared upper cs) vs).

(** No name is empty or contains a separator. *)
Definition names_plain (t : list (Z * frs)) (data : list Z) (size : Z) : Prop :=
  forall k seq fr vs v, record_at t data size k seq fr -> has_names fr vs -> In v vs -> component (name_field v).
