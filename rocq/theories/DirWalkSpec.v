(** What a walk over directories reports: no stack, only the clusters of the
    directories above. *)
From Verif Require Import Base DirWalk.

Section Spec.
Context {entry item state : Type}.
Variable W : walker entry item state.

(** [walks anc st path buf st' g]: the directory [buf] at [path], with the
    directories above (and itself) starting in the clusters [anc]. *)
Inductive walks : list Z -> state -> list Z -> list Z -> state -> gen item -> Prop :=
| wk_dir anc st path buf es fin st' g : w_entries W path buf = (es, fin) -> lists anc st path es fin st' g -> walks anc st path buf st' g
with lists : list Z -> state -> list Z -> list entry -> status -> state -> gen item -> Prop :=
| ls_end anc st path fin : lists anc st path [] fin st ([], fin)
(** Ignored entries, and directories above. *)
| ls_skip anc st path e r fin st' g : w_kind W e = KSkip \/ (exists c, w_kind W e = KDir c /\ In c anc) ->
    lists anc st path r fin st' g -> lists anc st path (e :: r) fin st' g
(** Entries that cannot be reported. *)
| ls_bad anc st path e r fin x : w_kind W e = KOther \/ w_kind W e = KFile \/ (exists c, w_kind W e = KDir c /\ ~ In c anc) ->
    w_emit W path e = Err x -> lists anc st path (e :: r) fin st ([], Raised x)
(** Entries that are just reported. *)
| ls_other anc st path e r fin it st' l s : w_kind W e = KOther -> w_emit W path e = Ok it ->
    lists anc st path r fin st' (l, s) -> lists anc st path (e :: r) fin st' (it :: l, s)
| ls_error anc st path e r fin it x : w_kind W e = KFile \/ (exists c, w_kind W e = KDir c /\ ~ In c anc) ->
    w_emit W path e = Ok it -> w_enter W st path e = Err x -> lists anc st path (e :: r) fin st ([it], Raised x)
(** Files and directories that are not entered. *)
| ls_file anc st path e r fin it st1 st' l s : w_kind W e = KFile \/ (exists c, w_kind W e = KDir c /\ ~ In c anc) ->
    w_emit W path e = Ok it -> w_enter W st path e = Ok (st1, None) ->
    lists anc st1 path r fin st' (l, s) -> lists anc st path (e :: r) fin st' (it :: l, s)
(** Directories that are entered. *)
| ls_dir anc st path e r fin it c st1 buf path' st2 l st' l' s : w_kind W e = KDir c -> ~ In c anc ->
    w_emit W path e = Ok it -> w_enter W st path e = Ok (st1, Some (buf, path')) ->
    walks (c :: anc) st1 path' buf st2 (l, Done) ->
    lists anc st2 path r fin st' (l', s) -> lists anc st path (e :: r) fin st' (it :: l ++ l', s)
| ls_dir_error anc st path e r fin it c st1 buf path' st2 l x : w_kind W e = KDir c -> ~ In c anc ->
    w_emit W path e = Ok it -> w_enter W st path e = Ok (st1, Some (buf, path')) ->
    walks (c :: anc) st1 path' buf st2 (l, Raised x) -> lists anc st path (e :: r) fin st2 (it :: l, Raised x).

(** The reallocated directories, one after another. *)
Inductive orphans : state -> list Z -> gen item -> Prop :=
| or_end st : orphans st [] ([], Done)
| or_error st c r x : w_orphan W st c = Err x -> orphans st (c :: r) ([], Raised x)
| or_skip st c r g : w_orphan W st c = Ok None -> orphans st r g -> orphans st (c :: r) g
| or_dir st c r buf path st' l l' s : w_orphan W st c = Ok (Some (buf, path)) -> walks [] st path buf st' (l, Done) ->
    orphans st' r (l', s) -> orphans st (c :: r) (l ++ l', s)
| or_dir_error st c r buf path st' l x : w_orphan W st c = Ok (Some (buf, path)) -> walks [] st path buf st' (l, Raised x) ->
    orphans st (c :: r) (l, Raised x).

Inductive full_walk (st : state) (buf stack : list Z) : gen item -> Prop :=
| fw_error st' l x : walks stack st [] buf st' (l, Raised x) -> full_walk st buf stack (l, Raised x)
| fw_ok st' l l' s : walks stack st [] buf st' (l, Done) -> orphans st' (w_orphans W st') (l', s) -> full_walk st buf stack (l ++ l', s).

End Spec.

Scheme walks_mut := Induction for walks Sort Prop
with lists_mut := Induction for lists Sort Prop.
Combined Scheme walks_lists_ind from walks_mut, lists_mut.
