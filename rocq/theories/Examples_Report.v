(** The completeness theorems of the reports (C70, C72, C73), applied to tables
    that meet their conditions. *)
From Verif Require Import Base BaseLemmas MappingPairs Frs FrsSpec FileRecord FileRecordSpec Mft MftSpec MftSamples
  Attributes AttributesSpec IndexProofs Usn UsnSpec UsnProofs Report ReportSpec ReportMore ReportMoreSpec Properties_Mft Properties_Report WitnessMft.

(** A directory "d" with an index root of one entry, and a file "c" with times of
    the Linux subsystem. *)
Definition lx_value : list Z :=
  le_bytes 2 0 ++ le_bytes 2 1 ++ zeros 16 ++ le_bytes 4 7 ++ le_bytes 4 8 ++ le_bytes 4 9 ++ le_bytes 8 1000 ++ le_bytes 8 2000 ++ le_bytes 8 3000.
Definition root_value : list Z :=
  let body := ixis [mk_ixi 0x5000000000020 0 (mk_name 9 4 1 [101]) (zeros 4)] ++ ixi_end 2 [] in
  le_bytes 4 0x30 ++ zeros 12 ++ le_bytes 4 16 ++ le_bytes 4 (16 + zlen body) ++ zeros 8 ++ body.
Definition clean_table : list Z :=
  sample_table 1024 3
    (mk_record 1024 9 4 3 0 (mk_attr 0x10 si_value ++ mk_attr 0x30 (mk_name 7 1 1 [100]) ++ mk_attr 0x90 root_value) ++
     mk_file 10 [99] (mk_stream [] [1; 2; 3] ++ mk_stream [113] [1; 2] ++ mk_attr 0xE0 (eas_bytes [mk_eai [76; 88; 65; 84; 84; 82; 66] 0 lx_value []] true))).

Lemma clean_table_bytes : bytes_ok clean_table.
Proof. apply bytes_okb_ok. vm_compute. reflexivity. Qed.
Lemma clean_table_fits : fits clean_table.
Proof. unfold fits. vm_compute. discriminate. Qed.
Lemma clean_table_sound : tableb clean_table (fld 4 clean_table 28) = true.
Proof. vm_compute. reflexivity. Qed.
Lemma clean_table_opens : exists p, mft_open clean_table true = Ok p.
Proof.
  assert (X : match mft_open clean_table true with Ok _ => true | Err _ => false end = true) by (vm_compute; reflexivity).
  destruct (mft_open clean_table true) as [p|]; [eauto|discriminate].
Qed.

Local Opaque clean_table i30_table.
Example C70_complete_example : snd (process_mft clean_table true None) = Done.
Proof.
  destruct clean_table_opens as [p O].
  apply (C70_complete clean_table true None p clean_table_bytes clean_table_fits O).
  intros k seq fr R. cbv beta iota delta [known] in R. exact (tableb_ok clean_table (fld 4 clean_table 28) k seq fr clean_table_sound R).
Qed.
(** The journal of two records. *)
Example C72_complete_example : let j := zeros 8 ++ usn_sample ++ zset usn_sample 8 9 in
  snd (process_usn j clean_table) = Done /\ zlen (fst (process_usn j clean_table)) = 2.
Proof.
  intro j. destruct clean_table_opens as [p O].
  assert (B : bytes_ok j) by (apply bytes_okb_ok; vm_compute; reflexivity).
  destruct (usn_loop_walk j B (S (length j)) 0 ltac:(lia) ltac:(left; reflexivity) ltac:(unfold zlen; lia)) as (recs & EU & W).
  assert (X : map (fun x => (fst x, ur_version (snd x), zlen (ur_raw (snd x)), fld 2 (ur_raw (snd x)) 56, fld 2 (ur_raw (snd x)) 58)) recs =
    [(8, 2, 64, 2, 60); (72, 2, 64, 2, 60)]) by (apply (f_equal fst) in EU; cbn [fst] in EU; rewrite <- EU; vm_compute; reflexivity).
  destruct (C72_complete j clean_table p recs B clean_table_bytes clean_table_fits O (tableb_clean _ _ clean_table_sound) W) as [E L].
  - clear - X. destruct recs as [|[q1 [k1 r1]] [|[q2 [k2 r2]] [|? ?]]]; try discriminate. cbn [map fst snd ur_version ur_raw] in X. injection X as E1 E2 E3 E4 E5 F1 F2 F3 F4 F5.
    subst k1 k2. constructor; [|constructor; [|constructor]]; intros _; cbn [snd ur_version ur_raw Z.eqb Pos.eqb]; unfold name_fits; change (56 + 2) with 58; lia.
  - split; [auto|]. rewrite L. apply (f_equal (@length _)) in X. rewrite map_length in X. unfold zlen. rewrite X. reflexivity.
Qed.

(** The directory "d" with its index buffer. *)
Example C73_complete_example :
  let vol := i30_volume [i30_entry 0x5000000000020 (mk_name 9 4 1 [101]); i30_entry 0x5000000000021 (mk_name 9 4 3 [102; 103])] in
  snd (process_indx vol 0 512 i30_table) = Done.
Proof.
  intro vol.
  assert (X : match mft_open i30_table true with Ok _ => true | Err _ => false end = true) by (vm_compute; reflexivity).
  destruct (mft_open i30_table true) as [p|] eqn:O; [clear X|discriminate].
  assert (T : tableb i30_table (fld 4 i30_table 28) = true) by (vm_compute; reflexivity).
  assert (D : directoriesb vol 0 512 i30_table (fld 4 i30_table 28) = true) by (vm_compute; reflexivity).
  apply (C73_complete vol 0 512 i30_table p); auto.
  - apply bytes_okb_ok. vm_compute. reflexivity.
  - apply bytes_okb_ok. vm_compute. reflexivity.
  - unfold fits. vm_compute. discriminate.
  - exact (tableb_clean _ _ T).
  - intros k fr R. cbv beta iota delta [known] in R. exact (directoriesb_ok vol 0 512 i30_table (fld 4 i30_table 28) k fr D R).
Qed.
