(** How the text of the report on a log or a move table is read back. *)
From Verif Require Import Base.

(** Lines, each ended by a line feed. *)
Inductive lines_read : list Z -> list (list Z) -> Prop :=
| lr_nil : lines_read [] []
| lr_line l t ls : ~ In 10 l -> lines_read t ls -> lines_read (l ++ 10 :: t) (l :: ls).

Definition dashes : list Z := [45; 45; 45].
(** Blocks: some lines, an empty line, a line with dashes, an empty line. *)
Inductive blocks_read : list (list Z) -> list (list (list Z)) -> Prop :=
| br_nil : blocks_read [] []
| br_block b ls bs : b <> [] -> ~ In dashes b -> blocks_read ls bs -> blocks_read (b ++ [] :: dashes :: [] :: ls) (b :: bs).

Definition log_reads (t : list Z) (bs : list (list (list Z))) : Prop :=
  exists ls, lines_read t ls /\ blocks_read ls bs.
