(** Specification of the report on a volume and its shadow copies. *)
From Coq Require Import String.
From Verif Require Import Base FragmentedFileSpec Shadow ShadowSpec VolumeSpec FatDir Report ReportTextSpec MountSpec.
Local Open Scope Z_scope.

(** [t] is the whole table of the volume at [voff]. *)
Definition table_content (vol : list Z) (voff : Z) (t : list Z) : Prop :=
  exists boot cs runs fsize, table_located vol voff boot cs runs fsize /\ reads (mk_layout vol voff cs runs) fsize 0 fsize t.

(** [d] is the volume shown by a parser, up to the first byte that cannot be
    read. *)
Definition shown_volume (o : parser) (d : list Z) : Prop :=
  zlen d <= virtual_size o /\ volume_bytes o false 0 d /\
  (zlen d = virtual_size o \/ unreadable o false (zlen d)).

(** The report on one table. *)
Definition main_section (vol : list Z) (voff : Z) (rows : list row) : Prop :=
  exists t, table_content vol voff t /\ process_mft t true (Some (txt "main volume")) = (rows, Done).

(** The report on the shadow copy of one catalog item: that copy is selected
    in the parser as it was opened, whatever was selected before. *)
Definition shadow_section (fuel depth : nat) (o : parser) (i : item2) (rows : list row) : Prop :=
  exists o1 d t n, select_shadow fuel depth o (ByGuid (i2_guid i)) = (o1, Ok tt) /\
    shown_volume o1 d /\ table_content d 0 t /\ integer_text n (i2_pos i) /\
    process_mft t false (Some (txt "shadow copy " ++ n)) = (rows, Done).

(** The shadow copies of a volume: none if there is no start block. *)
Definition shadow_items (fuel : nat) (vol : list Z) (voff : Z) (r : option (parser * list item2)) : Prop :=
  match r with
  | None => open_one fuel (mk_vol vol voff) None = Err ShadowCopiesDisabledException
  | Some (o, l) => open_one fuel (mk_vol vol voff) None = Ok o /\
      exists items, all_items (sp_cbs o) = Ok items /\ l = items2 items
  end.

Definition whole_report (fuel depth : nat) (vol : list Z) (voff : Z) (rows : list row) : Prop :=
  exists r main parts, main_section vol voff main /\ shadow_items fuel vol voff r /\ rows = main ++ concat parts /\
    match r with None => parts = [] | Some (o, l) => Forall2 (shadow_section fuel depth o) l parts end.

(** Shadow copies with 2^63 bytes and more are left out. *)
Definition sizes_ok (fuel : nat) (vol : list Z) (voff : Z) : Prop :=
  forall o items i, open_one fuel (mk_vol vol voff) None = Ok o -> all_items (sp_cbs o) = Ok items -> In (I2 i) items -> i2_size i < 2 ^ 63.

(** Every selected shadow copy can be read. *)
Definition copies_readable (fuel depth : nat) (vol : list Z) (voff : Z) : Prop :=
  forall o g o1, open_one fuel (mk_vol vol voff) None = Ok o -> select_shadow fuel depth o (ByGuid g) = (o1, Ok tt) -> readable o1 false.

(** The report on a shadow copy that ends with an exception. *)
Inductive section_fails (fuel depth : nat) (o : parser) (i : item2) (e : exn) : list row -> Prop :=
| sf_select : snd (select_shadow fuel depth o (ByGuid (i2_guid i))) = Err e -> section_fails fuel depth o i e []
| sf_read o1 x : select_shadow fuel depth o (ByGuid (i2_guid i)) = (o1, Ok tt) -> 0 <= x < virtual_size o1 ->
    block_error o1 false (x / 16384 * 16384) e -> section_fails fuel depth o i e []
| sf_table o1 d : select_shadow fuel depth o (ByGuid (i2_guid i)) = (o1, Ok tt) -> shown_volume o1 d ->
    (forall t, ~ table_content d 0 t) -> section_fails fuel depth o i e []
| sf_rows o1 d t n rows : select_shadow fuel depth o (ByGuid (i2_guid i)) = (o1, Ok tt) -> shown_volume o1 d -> table_content d 0 t ->
    integer_text n (i2_pos i) -> process_mft t false (Some (txt "shadow copy " ++ n)) = (rows, Raised e) -> section_fails fuel depth o i e rows.

Inductive report_fails (fuel depth : nat) (vol : list Z) (voff : Z) (e : exn) : list row -> Prop :=
| rf_table : (forall t, ~ table_content vol voff t) -> report_fails fuel depth vol voff e []
| rf_main t rows : table_content vol voff t -> process_mft t true (Some (txt "main volume")) = (rows, Raised e) ->
    report_fails fuel depth vol voff e rows
| rf_open main : main_section vol voff main -> open_one fuel (mk_vol vol voff) None = Err e -> e <> ShadowCopiesDisabledException ->
    report_fails fuel depth vol voff e main
| rf_items main o e' : main_section vol voff main -> open_one fuel (mk_vol vol voff) None = Ok o -> all_items (sp_cbs o) = Err e' ->
    (e = e' \/ e = NotImplementedError) -> report_fails fuel depth vol voff e main
| rf_section main o items l1 i l2 parts part : main_section vol voff main -> open_one fuel (mk_vol vol voff) None = Ok o ->
    all_items (sp_cbs o) = Ok items -> items2 items = l1 ++ i :: l2 -> Forall2 (shadow_section fuel depth o) l1 parts ->
    section_fails fuel depth o i e part -> report_fails fuel depth vol voff e (main ++ concat parts ++ part).
