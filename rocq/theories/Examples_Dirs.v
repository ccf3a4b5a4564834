(** The theorems on written directories (C36, C54), applied. *)
From Verif Require Import Base BaseLemmas FieldLemmas Utf16 FatBasic FatDir FatSpec FatDirSpec FatProofs FatDirProofs FatDirWrite
  ExBasic ExSpec ExBasicProofs ExDir ExDirSpec ExDirProofs ExDirWrite Properties_FatDir Properties_ExDir.

(** A file with a long name and one without. *)
Example C36_written_example :
  let files := [(Some ex_long, ex_short); (None, zset ex_short 0 74)] in
  let one (f : option (list Z) * list Z) :=
    (match fst f with None => [] | Some nm => long_slots (build_checksum (slice (snd f) 0 11)) nm end) ++ [snd f] in
  exists e1 e2, dir_entries (fun x => x) (fun x => x) false false (concat (flat_map one files ++ repeat (zeros 32) 12)) = ([FileE e1; FileE e2], Done) /\
    fe_long e1 = Some ex_long /\ fe_long e2 = None.
Proof.
  intros files one.
  assert (X : forall s, In s (map snd files) -> plain_short (fun x => x) (fun x => x) s).
  { intros s S. assert (Y : bytes_okb s && (zlen s =? 32) && ((s_attr s / 8) mod 2 =? 0) && negb (s_order s =? 0) && negb (s_order s =? 0xE5) && validate_short_name (slice s 0 11) = true).
    { revert s S. apply Forall_forall. constructor; [vm_compute; reflexivity|]. constructor; [vm_compute; reflexivity|constructor]. }
    repeat (apply andb_prop in Y as [Y ?]). apply bytes_okb_ok in Y. repeat split; auto; lia. }
  destruct (C36_written (fun x => x) (fun x => x) false files 12) as (es & E & F).
  - constructor; [|constructor; [|constructor]]; (split; [apply X; cbn; auto|cbn [fst]]); auto.
    split; [discriminate|]. split; [|vm_compute; discriminate]. unfold ex_long. repeat constructor; unfold scalar; lia.
  - vm_compute. discriminate.
  - vm_compute. reflexivity.
  - inversion F as [|? e1 ? ? [F1 _] F']; subst. inversion F' as [|? e2 ? ? [F2 _] F'']; subst. inversion F''; subst. exists e1, e2. auto.
Qed.

Definition a_meta : xmeta := mk_xmeta 32 0 0x58210000 0x58210800 0x58211000 100 0 0x80 0x80 0x84 true 0x1234 1000 7 4096.
(** Two files, one with a name of two slots. *)
Example C54_written_example :
  let files := [(a_meta, ex_long ++ ex_long); (a_meta, [97])] in
  let slots := flat_map (fun f => set_head (fst f) (snd f) :: sub_slots (fst f) (snd f)) files ++ repeat (zeros 32) 9 in
  x_entries false (concat slots) = (map (fun f => XFile (set_entry (fst f) (snd f))) files, Done).
Proof.
  intros files slots. apply (C54_written false files 9); [|vm_compute; discriminate|vm_compute; reflexivity].
  assert (M : xmeta_ok a_meta) by (constructor; cbn; unfold is_byte; lia).
  constructor; [|constructor; [|constructor]]; (split; [exact M|]); cbn [snd].
  - split; [unfold ex_long; repeat constructor; unfold scalar; lia|]. split; [|vm_compute; discriminate].
    split; [discriminate|]. split; [|split; discriminate].
    apply Forall_forall. unfold ex_long, x_bad_char. cbn [app]. repeat (constructor; [intros [H|H]; [lia|revert H; vm_compute; intuition discriminate]|]). constructor.
  - split; [repeat constructor; unfold scalar; lia|]. split; [|vm_compute; discriminate].
    split; [discriminate|]. split; [|split; discriminate].
    apply Forall_forall. unfold ex_long, x_bad_char. cbn [app]. repeat (constructor; [intros [H|H]; [lia|revert H; vm_compute; intuition discriminate]|]). constructor.
Qed.
