(** The conditions of [C66_pieces] can be met: the volume [two_pieces]. *)
From Verif Require Import Base BaseLemmas FieldLemmas MappingPairsSpec Frs FrsSpec Sorting FileRecord FileRecordSpec FileRecordProofs
  FragmentedFile FragmentedFileSpec FragmentedFileProofs Attributes AttributesSpec AttributesProofs BootSector BootSectorProofs Volume VolumeSpec VolumeProofs
  VolumeComplete IndexProofs Properties_Volume.

Definition or_empty (r : result frs) : frs := match r with Ok f => f | Err _ => mk_frs [] 0 0 None end.
Definition two_f0 : frs := or_empty (frs_open (slice two_pieces 1536 2560) true (Some 0)).
Definition two_runs : list (option Z * Z) := [(Some 1, 4); (Some 6, 2)].
Definition two_f1 : frs := or_empty (vol_frs (ff_open two_pieces 512 1024 two_runs 6144) 1024 1).
Definition two_list : list Z := entry_image 0 0 ++ entry_image 4 1.
Definition two_e0 : al_entry := nth 0 (fst (al_entries two_list)) (mk_al 0 None 0 0 0).
Definition two_e1 : al_entry := nth 1 (fst (al_entries two_list)) (mk_al 0 None 0 0 0).

(** The parts of the one record of the unnamed data stream. *)
Definition part_mp (f : frs) : option (list Z) :=
  match stream_parts None false (fst (frs_gen f)) with [Nonresident _ _ mp _ _ _ _] => mp | _ => None end.

Example C66_pieces_example :
  table_written two_pieces 512 (slice two_pieces 512 1024) 1024 two_runs 6144 /\
  volume_open two_pieces 512 = Ok (mk_volume (slice two_pieces 512 1024) (ff_open two_pieces 512 1024 two_runs 6144)).
Proof.
  assert (B : bytes_ok two_pieces) by (apply bytes_okb_ok; vm_compute; reflexivity).
  assert (Hv : zlen two_pieces < 2 ^ 63) by (vm_compute; reflexivity).
  assert (E : frs_open (slice two_pieces 1536 2560) true (Some 0) = Ok two_f0) by (vm_compute; reflexivity).
  assert (E1 : vol_frs (ff_open two_pieces 512 1024 two_runs 6144) 1024 1 = Ok two_f1) by (vm_compute; reflexivity).
  assert (EL : find_list two_pieces 512 1024 two_f0 = Ok (Some two_list)) by (vm_compute; reflexivity).
  assert (EG0 : frs_gen two_f0 = (fst (frs_gen two_f0), Done)) by (vm_compute; reflexivity).
  assert (EG1 : frs_gen two_f1 = (fst (frs_gen two_f1), Done)) by (vm_compute; reflexivity).
  assert (ES0 : stream_parts None false (fst (frs_gen two_f0)) = [Nonresident 0x80 None (part_mp two_f0) [(Some 1, 4)] 0 3 6144])
    by (vm_compute; reflexivity).
  assert (ES1 : stream_parts None false (fst (frs_gen two_f1)) = [Nonresident 0x80 None (part_mp two_f1) [(Some 6, 2)] 4 5 0])
    by (vm_compute; reflexivity).
  assert (EA : al_entries two_list = ([two_e0; two_e1], Done)) by (vm_compute; reflexivity).
  assert (EF : filter for_data [two_e0; two_e1] = [two_e0; two_e1]) by (vm_compute; reflexivity).
  assert (EO : sort_by al_lowest [two_e0; two_e1] = [two_e0; two_e1]) by (vm_compute; reflexivity).
  assert (EN0 : segment_number two_e0 = 0) by (vm_compute; reflexivity).
  assert (EN1 : segment_number two_e1 = 1) by (vm_compute; reflexivity).
  assert (EP : vol_parser (ff_open two_pieces 512 1024 two_runs 6144) = Ok 1024) by (vm_compute; reflexivity).
  assert (EB : exists spc bps, bs_open (slice two_pieces 512 1024) = Ok (slice two_pieces 512 1024) /\
     bs_sectors_per_cluster (slice two_pieces 512 1024) = Ok spc /\ bs_bytes_per_sector (slice two_pieces 512 1024) = Ok bps /\
     1024 = spc * bps /\ bs_frs_size (slice two_pieces 512 1024) = Ok 1024 /\ 1024 < 2 ^ 63 /\
     bs_mft_cluster (slice two_pieces 512 1024) = Ok 1).
  { exists 2, 512. vm_compute. auto 10. }
  generalize dependent two_f0. generalize dependent two_f1. generalize dependent two_pieces.
  generalize dependent two_e0. generalize dependent two_e1.
  intros e1 EN1 e0 EA EF EO EN0 vol B Hv EP EB f1 E1 EG1 ES1 f0 E EL EG0 ES0.
  assert (O : opened f0) by (exists (slice vol 1536 2560), true, (Some 0); split; [now apply bytes_ok_slice|exact E]).
  assert (P : 0 < 1024) by lia. assert (O5 : 0 <= 512) by lia.
  assert (RL : record_list vol 512 1024 f0 (Some two_list)) by (apply (find_list_iff vol 512 Hv); [exact P|now apply opened_positive|exact EL]).
  assert (BV : bytes_ok two_list) by (apply (record_list_bytes vol 512 B 1024 f0); [exact P|exact O|exact RL]).
  assert (FB : ff_bytes_ok (ff_open vol 512 1024 two_runs 6144))
    by (apply open_bytes_ok; [exact B|exact Hv|exact P|repeat constructor]).
  assert (W : table_written vol 512 (slice vol 512 1024) 1024 two_runs 6144).
  { exists 1024, 1, f0, [(Some 1, 4)], two_list, [e0; e1], e0, [e1], 1024.
    split; [reflexivity|]. split; [apply boot_ok_iff; [now apply bytes_ok_slice|exact EB]|].
    split; [exact E|].
    split; [exists (fst (frs_gen f0)), (part_mp f0), 3; split; [exact EG0|exact ES0]|].
    split; [discriminate|]. split; [exact RL|]. split; [apply al_entries_iff; [exact BV|exact EA]|].
    split; [rewrite EF; rewrite <- EO at 2; apply sort_by_stable|]. split; [exact EN0|].
    split; [apply (vol_parser_iff (ff_open vol 512 1024 two_runs 6144) 1024); [exact FB|exact EP]|].
    split; [cbn; lia|].
    apply written_piece with (f := f1) (r := [(Some 6, 2)]) (sz := 0).
    - rewrite EN1. apply (vol_frs_iff (ff_open vol 512 1024 two_runs 6144)); [exact FB|lia|lia|exact E1].
    - rewrite EN1. cbn. lia.
    - exists (fst (frs_gen f1)), (part_mp f1), 5. split; [exact EG1|exact ES1].
    - apply written_done. }
  split; [exact W|]. apply (C66_pieces vol 512 _ 1024 two_runs 6144 B Hv O5 P W).
Qed.
