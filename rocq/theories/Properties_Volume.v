(** Property C66: finding the $MFT file of a volume. *)
From Verif Require Import Base BaseLemmas FieldLemmas MappingPairsSpec Frs FrsSpec Sorting FileRecord FileRecordSpec FileRecordProofs
  FragmentedFile FragmentedFileSpec FragmentedFileProofs Attributes AttributesSpec AttributesProofs BootSector BootSectorProofs Volume VolumeSpec VolumeProofs
  VolumeComplete.

(** What the constructor returns: the boot sector, and a file with the runs and
    the size of the table. *)
Theorem C66_located : forall vol voff boot cs runs fsize, bytes_ok vol -> zlen vol < 2 ^ 63 -> 0 <= voff ->
  (volume_open vol voff = Ok (mk_volume boot (ff_open vol voff cs runs fsize)) <->
   table_located vol voff boot cs runs fsize).
Proof. intros vol voff boot cs runs fsize B Hv Ho. now apply volume_open_iff. Qed.
Print Assumptions C66_located.

(** The object always is of that form, at its start. *)
Theorem C66_file : forall vol voff v, bytes_ok vol -> zlen vol < 2 ^ 63 -> 0 <= voff -> volume_open vol voff = Ok v ->
  exists cs runs fsize, vo_file v = ff_open vol voff cs runs fsize /\ table_located vol voff (vo_boot v) cs runs fsize.
Proof.
  intros vol voff v B Hv Ho H.
  assert (X : exists cs runs fsize, v = mk_volume (vo_boot v) (ff_open vol voff cs runs fsize)).
  { unfold volume_open in H. do 9 (apply bind_ok in H as (? & _ & H)).
    apply bind_ok in H as (dr & _ & H). destruct dr as [runs0|]; [|discriminate]. apply bind_ok in H as (sz & _ & H). destruct sz; [|discriminate].
    apply bind_ok in H as (runs & _ & H). injection H as <-. cbn. eauto. }
  destruct X as (cs & runs & fsize & E). exists cs, runs, fsize. rewrite E at 1. split; [reflexivity|].
  apply volume_open_iff; auto. now rewrite H, <- E.
Qed.
Print Assumptions C66_file.

(** A table written in pieces is found, however many there are. *)
Theorem C66_pieces : forall vol voff boot cs runs fsize, bytes_ok vol -> zlen vol < 2 ^ 63 -> 0 <= voff -> 0 < cs ->
  table_written vol voff boot cs runs fsize ->
  volume_open vol voff = Ok (mk_volume boot (ff_open vol voff cs runs fsize)).
Proof.
  intros vol voff boot cs runs fsize B Hv Ho Hc W. apply volume_open_iff; auto. now apply written_located.
Qed.
Print Assumptions C66_pieces.

(** Whatever is read from the file is the content of the table. *)
Theorem C66_content : forall vol voff v, bytes_ok vol -> zlen vol < 2 ^ 63 -> 0 <= voff -> volume_open vol voff = Ok v ->
  exists cs runs fsize, table_located vol voff (vo_boot v) cs runs fsize /\ 0 < cs /\
  forall off n out, 0 <= off -> 0 <= n ->
    (ff_pread (vo_file v) off n = Ok out <-> reads (mk_layout vol voff cs runs) fsize off n out).
Proof.
  intros vol voff v B Hv Ho H. destruct (C66_file vol voff v B Hv Ho H) as (cs & runs & fsize & E & T).
  exists cs, runs, fsize. split; [exact T|].
  destruct T as (fs & c & f0 & runs0 & r & EB & G & OF & M & S & RL & T).
  assert (Bb : bytes_ok (vo_boot v)) by (rewrite EB; now apply bytes_ok_slice).
  destruct (geometry_positive _ _ _ _ Bb G) as (P1 & P2 & P3). split; auto.
  assert (O : opened f0) by (eexists _, true, (Some 0); split; [|exact OF]; now apply bytes_ok_slice).
  assert (OR : opened_record (mk_fr f0 [])) by (split; [exact O|constructor]).
  assert (HP : runs_positive runs).
  { pose proof (main_stream_positive _ _ _ OR M) as P0. destruct r as [w|]; [|now subst].
    destruct T as (l & e0 & t & W & SS & _ & GR).
    apply (grows_positive vol voff cs fsize B P1 f0 [] runs0 t); auto. }
  intros off n out H1 H2. rewrite E. apply (ff_pread_iff (ff_open vol voff cs runs fsize)); auto.
  now apply open_bytes_ok.
Qed.
Print Assumptions C66_content.

Theorem C66_errors : forall vol voff e, bytes_ok vol -> zlen vol < 2 ^ 63 -> volume_open vol voff = Err e ->
  In e [BootSectorException; MasterFileTableException; FileRecordSegmentException; FileRecordSegmentSignatureException;
        AttributeException; MappingPairsException; ValueError; OverflowError; AttributeError_py; StructError].
Proof. intros vol voff e B Hv H. now apply (volume_open_err vol voff B Hv). Qed.
Print Assumptions C66_errors.

(** ** A small volume *)

Definition boot_image (cluster : Z) : list Z :=
  [235; 82; 144; 78; 84; 70; 83; 32; 32; 32; 32; 0; 2; 2] ++ zeros 26 ++ le_bytes 8 100 ++ le_bytes 8 cluster ++ le_bytes 8 9 ++
  [0xF6; 0; 0; 0; 1; 0; 0; 0] ++ zeros 440.

Definition resident_image (ty : Z) (value : list Z) : list Z :=
  le_bytes 4 ty ++ le_bytes 4 (24 + zlen value) ++ zeros 8 ++ le_bytes 4 (zlen value) ++ [24; 0; 0; 0] ++ value.

Definition data_image (lo n lcn size : Z) : list Z :=
  le_bytes 4 0x80 ++ le_bytes 4 72 ++ [1; 0; 0; 0; 0; 0; 0; 0] ++ le_bytes 8 lo ++ le_bytes 8 (lo + n - 1) ++
  [64; 0; 0; 0; 0; 0; 0; 0] ++ le_bytes 8 size ++ le_bytes 8 size ++ le_bytes 8 size ++ [0x11; n; lcn; 0; 0; 0; 0; 0].

Definition entry_image (lo segment : Z) : list Z :=
  le_bytes 4 0x80 ++ [32; 0; 0; 26] ++ le_bytes 8 lo ++ le_bytes 8 (segment + 2 ^ 48) ++ zeros 8.

Definition segment_image (attrs : list Z) : list Z :=
  [70; 73; 76; 69; 48; 0; 3; 0; 0; 0; 0; 0; 0; 0; 0; 0; 1; 0; 1; 0; 56; 0; 1; 0] ++
  le_bytes 4 (64 + zlen attrs) ++ le_bytes 4 1024 ++ zeros 24 ++ attrs ++ [255; 255; 255; 255; 0; 0; 0; 0] ++
  zeros (960 - zlen attrs).

Definition version_image : list Z := resident_image 0x70 (zeros 8 ++ [3; 1; 0; 0; 0; 0; 0; 0]).

(** The table: segments 0 to 3 in the clusters 1 to 4, the others in the clusters
    6 and 7; segment 1 describes the second piece. *)
Definition two_pieces : list Z :=
  zeros 512 ++ boot_image 1 ++ zeros 512 ++
  segment_image (resident_image 0x20 (entry_image 0 0 ++ entry_image 4 1) ++ data_image 0 4 1 6144) ++
  segment_image (data_image 4 2 6 0) ++ zeros 1024 ++ segment_image version_image ++ zeros 1024 ++
  repeat 5 1024 ++ repeat 6 1024.

Example C66_example :
  match volume_open two_pieces 512 with
  | Ok v => ff_runs (vo_file v) = [(Some 1, 4); (Some 6, 2)] /\ ff_size (vo_file v) = 6144 /\
      ff_pread (vo_file v) 4094 1028 = Ok ([0; 0] ++ repeat 5 1024 ++ [6; 6])
  | Err _ => False
  end.
Proof. vm_compute. auto. Qed.

(** Both pieces in segment 0, listed one after the other: the segment is
    enumerated a second time for the second piece, and the table is rejected. *)
Definition one_segment : list Z :=
  boot_image 1 ++ zeros 512 ++
  segment_image (resident_image 0x20 (entry_image 0 0 ++ entry_image 4 0) ++ data_image 0 4 1 6144 ++ data_image 4 2 6 0) ++
  zeros 2048 ++ segment_image version_image ++ zeros 1024 ++ repeat 5 1024 ++ repeat 6 1024.

Definition one_f0 : frs :=
  match frs_open (slice one_segment 1024 2048) true (Some 0) with Ok f => f | Err _ => mk_frs [] 0 0 None end.
Definition one_list : list Z := entry_image 0 0 ++ entry_image 4 0.
Definition one_runs : list (option Z * Z) := [(Some 1, 4); (Some 6, 2)].

Theorem C66_one_segment_refuted : exists vol f0 runs v l, bytes_ok vol /\
  frs_open (slice vol 1024 2048) true (Some 0) = Ok f0 /\ geometry (slice vol 0 512) 1024 1024 1 /\
  main_stream f0 [] runs /\ main_size f0 (clusters runs * 1024) /\ record_list vol 0 1024 f0 (Some v) /\ al_walk v 0 l /\
  map segment_number l = [0; 0] /\ map al_lowest l = [0; 4] /\ parsable (mk_layout vol 0 1024 runs) (clusters runs * 1024) 1024 /\
  volume_open vol 0 = Err MappingPairsException.
Proof.
  assert (B : bytes_ok one_segment) by (apply bytes_okb_ok; vm_compute; reflexivity).
  assert (Hv : zlen one_segment < 2 ^ 63) by (vm_compute; reflexivity).
  assert (E : frs_open (slice one_segment 1024 2048) true (Some 0) = Ok one_f0) by (vm_compute; reflexivity).
  assert (EL : find_list one_segment 0 1024 one_f0 = Ok (Some one_list)) by (vm_compute; reflexivity).
  assert (ER : get_data_runs (mk_fr one_f0 []) None false = Ok (Some one_runs)) by (vm_compute; reflexivity).
  assert (ES : get_data_size (mk_fr one_f0 []) None false = Ok (Some (clusters one_runs * 1024))) by (vm_compute; reflexivity).
  assert (EA : al_entries one_list = (fst (al_entries one_list), Done)) by (vm_compute; reflexivity).
  assert (EN : map segment_number (fst (al_entries one_list)) = [0; 0]) by (vm_compute; reflexivity).
  assert (EV : map al_lowest (fst (al_entries one_list)) = [0; 4]) by (vm_compute; reflexivity).
  assert (EP : vol_parser (ff_open one_segment 0 1024 one_runs (clusters one_runs * 1024)) = Ok 1024) by (vm_compute; reflexivity).
  assert (EX : volume_open one_segment 0 = Err MappingPairsException) by (vm_compute; reflexivity).
  assert (EB : exists spc bps, bs_open (slice one_segment 0 512) = Ok (slice one_segment 0 512) /\
     bs_sectors_per_cluster (slice one_segment 0 512) = Ok spc /\ bs_bytes_per_sector (slice one_segment 0 512) = Ok bps /\
     1024 = spc * bps /\ bs_frs_size (slice one_segment 0 512) = Ok 1024 /\ 1024 < 2 ^ 63 /\
     bs_mft_cluster (slice one_segment 0 512) = Ok 1).
  { exists 2, 512. vm_compute. auto 10. }
  generalize dependent one_segment. generalize dependent one_f0. intros f0 ER ES vol B Hv E EL EP EX EB.
  assert (O : opened f0) by (exists (slice vol 1024 2048), true, (Some 0); split; [now apply bytes_ok_slice|exact E]).
  assert (OR : opened_record (mk_fr f0 [])) by (split; [exact O|constructor]).
  assert (M : main_stream f0 [] one_runs) by (apply main_stream_iff; [exact OR|exact ER]).
  assert (P : 0 < 1024) by lia.
  assert (RL : record_list vol 0 1024 f0 (Some one_list)) by (apply (find_list_iff vol 0 Hv); [exact P|now apply opened_positive|exact EL]).
  assert (BV : bytes_ok one_list) by (apply (record_list_bytes vol 0 B 1024 f0); [exact P|exact O|exact RL]).
  exists vol, f0, one_runs, one_list, (fst (al_entries one_list)). split; [exact B|]. split; [exact E|].
  split; [apply boot_ok_iff; [now apply bytes_ok_slice|exact EB]|]. split; [exact M|].
  split; [apply main_size_iff; [destruct M as (items & l & EI & _); exists items; exact EI|exact ES]|]. split; [exact RL|].
  split; [apply al_entries_iff; [exact BV|exact EA]|]. split; [exact EN|]. split; [exact EV|]. split; [|exact EX].
  apply (vol_parser_iff (ff_open vol 0 1024 one_runs (clusters one_runs * 1024)) 1024); [|exact EP].
  apply open_bytes_ok; [exact B|exact Hv|exact P|]. repeat constructor.
Qed.
Print Assumptions C66_one_segment_refuted.
