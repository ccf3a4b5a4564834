(** Properties of FAT tables, boot sectors, names and dates (C33, C34, C35, C37, C38, C58). *)
From Verif Require Import Base BaseLemmas FieldLemmas FatBasic FatBoot FatTable FatSpec FatProofs.

(** ** C34: entries *)

(** Reading entry [n] gives bits [w n .. w n + w - 1] of the table (28 of the 32 for FAT32). *)
Theorem C34_entry_bits f n v : fat_ok f -> 0 <= n ->
  (get_element f n = Ok v <-> has_entry (f_type f) (table f) (f_last f) n /\ v = table_entry (f_type f) (table f) n).
Proof. apply get_element_iff. Qed.

(** Every other index is refused. *)
Theorem C34_out_of_range f n e : fat_ok f -> 0 <= n -> get_element f n = Err e ->
  e = FileAllocationTableException /\ ~ has_entry (f_type f) (table f) (f_last f) n.
Proof.
  intros F Hn E. split.
  - rewrite get_element_spec in E by auto. destruct (entryb f n); congruence.
  - intro H. assert (X : get_element f n = Ok (table_entry (f_type f) (table f) n)) by (apply get_element_iff; auto). congruence.
Qed.

(** Round trip: a table written from a list of values, read back at any index. *)
Theorem C34_round_trip w vals pre post size last n v : In w [12; 16; 32] ->
  8 * size >= w * zlen vals -> 0 <= size -> bytes_ok pre -> bytes_ok post -> zlen vals <= last + 1 -> znth vals n = Some v ->
  get_element (mk_fat (pre ++ le_bytes (Z.to_nat size) (table_number w vals) ++ post) (zlen pre) size last w) n =
  Ok (if w =? 32 then v mod 2 ^ 28 else v mod 2 ^ w).
Proof.
  intros W S S0 Bp Bq L V. pose proof (znth_Some_range _ _ _ V) as R. pose proof (zlen_nonneg pre) as Lp.
  set (f := mk_fat _ _ _ _ _).
  assert (F : fat_ok f).
  { repeat split; cbn [f f_type f_off f_size f_data]; auto. apply bytes_ok_app. split; auto. apply bytes_ok_app. split; auto. apply le_bytes_ok. }
  assert (T : table f = le_bytes (Z.to_nat size) (table_number w vals)).
  { unfold table. cbn [f f_data f_off f_size]. apply slice_app_mid; auto. rewrite le_bytes_len. lia. }
  apply get_element_iff; auto; [lia|]. cbn [f f_type f_last]. fold f. rewrite T.
  assert (W2 : 12 <= w <= 32) by (cbn [In] in W; lia).
  split.
  - unfold has_entry. rewrite le_bytes_len. nia.
  - assert (VAL : le_val (le_bytes (Z.to_nat size) (table_number w vals)) = table_number w vals).
    { apply le_val_le_bytes. split; [apply table_number_nonneg; lia|].
      eapply Z.lt_le_trans; [apply table_number_bound; lia|]. rewrite pow256 by lia. apply Z.pow_le_mono_r; lia. }
    unfold table_entry, packed_entry. rewrite VAL.
    destruct (w =? 32) eqn:E; bools.
    + subst w. rewrite (table_number_entry 32 vals ltac:(lia) n v V). symmetry. apply (mod_mod_le v 28 32). lia.
    + symmetry. apply table_number_entry; [lia|exact V].
Qed.

(** Writing one entry changes no other entry. *)
Theorem C34_entries_independent w vals vals' n v size : In w [12; 16; 32] -> zlen vals = zlen vals' ->
  8 * size >= w * zlen vals -> 0 <= size -> znth vals n = Some v -> znth vals' n = Some v ->
  table_entry w (le_bytes (Z.to_nat size) (table_number w vals)) n = table_entry w (le_bytes (Z.to_nat size) (table_number w vals')) n.
Proof.
  intros W L S S0 V V'. assert (W2 : 12 <= w <= 32) by (cbn [In] in W; lia).
  assert (VAL : forall l, zlen l = zlen vals -> le_val (le_bytes (Z.to_nat size) (table_number w l)) = table_number w l).
  { intros l Hl. apply le_val_le_bytes. split; [apply table_number_nonneg; lia|].
    eapply Z.lt_le_trans; [apply table_number_bound; lia|]. rewrite pow256 by lia. apply Z.pow_le_mono_r; lia. }
  unfold table_entry, packed_entry. rewrite !VAL by auto.
  rewrite (table_number_entry w vals ltac:(lia) n v V), (table_number_entry w vals' ltac:(lia) n v V').
  destruct (Z.eqb_spec w 32) as [->|]; [|reflexivity].
  now rewrite (table_number_entry 32 vals ltac:(lia) n v V), (table_number_entry 32 vals' ltac:(lia) n v V').
Qed.

Print Assumptions C34_entry_bits.
Print Assumptions C34_out_of_range.
Print Assumptions C34_round_trip.
Print Assumptions C34_entries_independent.

(** FAT12: F8 0F 00 | 03 40 00 ... : entries 0xFF8, 0x000, 0x003, 0x004 *)
Example C34_example12 :
  map (get_element (mk_fat ([0xF8; 0x0F; 0x00; 0x03; 0x40; 0x00; 0xFF; 0x0F; 0x00] ++ zeros 503) 0 512 4 12)) [0; 1; 2; 3; 4; 5] =
  [Ok 0xFF8; Ok 0; Ok 3; Ok 4; Ok 0xFFF; Err FileAllocationTableException].
Proof. vm_compute. reflexivity. Qed.
Example C34_example32 :
  map (get_element (mk_fat ([0xF8; 0xFF; 0xFF; 0xFF; 0xFF; 0xFF; 0xFF; 0xFF; 0x03; 0x00; 0x00; 0xF0] ++ zeros 500) 0 512 2 32)) [0; 1; 2; 3] =
  [Ok 0x0FFFFFF8; Ok 0x0FFFFFFF; Ok 3; Err FileAllocationTableException].
Proof. vm_compute. reflexivity. Qed.

(** ** C33: chains *)

(** A chain is returned exactly when the table holds one from that cluster. *)
Theorem C33_chain_iff f first l : fat_ok f -> 2 <= first -> first <> fat_bad f ->
  (fat_chain f first = Ok l <-> chain_from (f_type f) (table f) (f_last f) [] first l).
Proof. apply fat_chain_iff. Qed.

(** Following a chain always ends, with a chain or with the table's own exception. *)
Theorem C33_terminates f first : fat_ok f -> 0 <= first ->
  (exists l, fat_chain f first = Ok l) \/ fat_chain f first = Err FileAllocationTableException.
Proof.
  intros F H. pose proof (fat_chain_total f first F H). destruct (fat_chain f first); [eauto|]. right. congruence.
Qed.

Lemma chain_not_bad f first l : 2 <= first -> fat_chain f first = Ok l -> first <> fat_bad f.
Proof.
  intros H E X. unfold fat_chain in E. replace (first =? 0) with false in E by lia. replace (first =? 1) with false in E by lia.
  replace (first =? fat_bad f) with true in E by lia. discriminate.
Qed.

(** It starts at the requested cluster, repeats nothing and stays in the table. *)
Theorem C33_distinct_and_valid f first l : fat_ok f -> 2 <= first -> fat_chain f first = Ok l ->
  (exists r, l = Some first :: r) /\ NoDup (somes l) /\
  forall c, In c (somes l) -> has_entry (f_type f) (table f) (f_last f) c.
Proof.
  intros F H E. pose proof (chain_not_bad f first l H E) as NB.
  apply fat_chain_iff in E; auto. split.
  - inversion E; subst; eauto.
  - split; [eapply chain_nodup; eauto|]. intros c C. eapply chain_in_range; eauto.
Qed.

(** Each element is the table's successor of the one before; a bad cluster can only be last. *)
Theorem C33_successors f first l p a b q : fat_ok f -> 2 <= first -> fat_chain f first = Ok l -> l = p ++ a :: b :: q ->
  exists x, a = Some x /\
    match b with
    | Some y => table_entry (f_type f) (table f) x = y
    | None => table_entry (f_type f) (table f) x = bad (f_type f) /\ q = []
    end.
Proof.
  intros F H E EL. pose proof (chain_not_bad f first l H E) as NB.
  apply fat_chain_iff in E; auto. eapply chain_links; eauto.
Qed.

(** It ends at an end-of-chain mark, a free or reserved mark, or where it would repeat itself. *)
Lemma chain_end w t last seen c l : chain_from w t last seen c l -> forall p x, l = p ++ [Some x] ->
  table_entry w t x < 2 \/ eoc w <= table_entry w t x \/ In (table_entry w t x) (seen ++ somes l).
Proof.
  induction 1 as [seen c H|seen c H|seen c n l H H' IH]; intros p x E.
  - destruct p as [|? [|]]; try discriminate. injection E as <-. cbn [somes flat_map app].
    inversion H as [| |m HE T D]; subst. destruct D as [D|[D|D]]; auto. right. right. apply in_or_app.
    destruct D as [D|D]; [right; left; auto|auto].
  - destruct p as [|? [|? [|]]]; discriminate.
  - destruct p as [|y p]; [injection E as _ ->; inversion H'|]. injection E as <- E.
    destruct (IH p x E) as [?|[?|I]]; auto. right. right. cbn [somes flat_map app]. fold (somes l).
    apply in_app_or in I. apply in_or_app. destruct I as [[<-|I]|I]; [right; now left|auto|right; now right].
Qed.

Theorem C33_end f first l p x : fat_ok f -> 2 <= first -> fat_chain f first = Ok l -> l = p ++ [Some x] ->
  table_entry (f_type f) (table f) x < 2 \/ eoc (f_type f) <= table_entry (f_type f) (table f) x \/
  In (table_entry (f_type f) (table f) x) (somes l).
Proof.
  intros F H E EL. pose proof (chain_not_bad f first l H E) as NB.
  apply fat_chain_iff in E; auto. eapply (chain_end _ _ _ [] _ _ E); eauto.
Qed.

(** A chain that was linked cluster by cluster and ended with a mark is returned whole. *)
Theorem C33_written_chain f c l : fat_ok f -> 2 <= c -> c <> fat_bad f -> linked (f_type f) (table f) (f_last f) (c :: l) -> NoDup (c :: l) ->
  fat_chain f c = Ok (map Some (c :: l)).
Proof. intros F H NB L ND. apply fat_chain_iff; auto. apply linked_chain; auto. Qed.

Print Assumptions C33_chain_iff.
Print Assumptions C33_terminates.
Print Assumptions C33_distinct_and_valid.
Print Assumptions C33_successors.
Print Assumptions C33_end.
Print Assumptions C33_written_chain.

Definition fat16_of (vals : list Z) : fat :=
  mk_fat (le_bytes 512 (table_number 16 vals)) 0 512 (zlen vals - 1) 16.
Example C33_example_chain : fat_chain (fat16_of [0xFFF8; 0xFFFF; 5; 0; 0xFFFF; 4]) 2 = Ok [Some 2; Some 5; Some 4].
Proof. vm_compute. reflexivity. Qed.
Example C33_example_loop : fat_chain (fat16_of [0xFFF8; 0xFFFF; 5; 0; 2; 4]) 2 = Ok [Some 2; Some 5; Some 4].
Proof. vm_compute. reflexivity. Qed.
Example C33_example_bad : fat_chain (fat16_of [0xFFF8; 0xFFFF; 3; 0xFFF7]) 2 = Ok [Some 2; Some 3; None].
Proof. vm_compute. reflexivity. Qed.
Example C33_example_range : fat_chain (fat16_of [0xFFF8; 0xFFFF; 3; 100]) 2 = Err FileAllocationTableException.
Proof. vm_compute. reflexivity. Qed.

(** ** C35: the type *)

(** A boot sector is accepted as FAT32 exactly with the FAT32 layout (16-bit
    table size zero), and as FAT12/16 exactly with the other layout and a
    number of clusters from 1 to 65524. *)
Theorem C35_fat32_iff buf relaxed : bytes_ok buf ->
  (bsbpb_open buf relaxed = Ok true <->
   zlen buf = 512 /\ (relaxed = true \/ boot_marked buf) /\ fat32_layout buf /\ (exists n, clusters true buf n) /\ fld 2 buf 42 = 0).
Proof.
  intro B. pose proof (bsbpb_open_spec buf relaxed B) as S. destruct (bsbpb_open buf relaxed) as [[|]|e].
  - split; auto.
  - split; [discriminate|]. intros (_ & _ & (X & _) & _). destruct S as (_ & _ & (Y & _) & _). congruence.
  - split; [discriminate|]. intro X. exfalso. tauto.
Qed.

Theorem C35_fat16_iff buf relaxed : bytes_ok buf ->
  (bsbpb_open buf relaxed = Ok false <->
   zlen buf = 512 /\ (relaxed = true \/ boot_marked buf) /\ fat16_layout buf /\ exists n, clusters false buf n /\ 0 < n < 65525).
Proof.
  intro B. pose proof (bsbpb_open_spec buf relaxed B) as S. destruct (bsbpb_open buf relaxed) as [[|]|e].
  - split; [discriminate|]. intros (_ & _ & (X & _) & _). destruct S as (_ & _ & (Y & _) & _). congruence.
  - split; auto.
  - split; [discriminate|]. intro X. exfalso. tauto.
Qed.

(** The width the parser works with, for every accepted boot sector. *)
Theorem C35_width buf relaxed f : bytes_ok buf -> bsbpb_open buf relaxed = Ok f ->
  exists n, clusters f buf n /\ fat_type_of f buf = Ok (if f then 32 else if 4085 <=? n then 16 else 12).
Proof. apply fat_type_of_spec. Qed.

(** At most one of the three tests succeeds. *)
Theorem C35_exclusive buf relaxed f : bytes_ok buf -> bsbpb_open buf relaxed = Ok f -> f = false ->
  exists a b, is_fs32 f buf = Ok false /\ is_fs16 f buf = Ok a /\ is_fs12 f buf = Ok b /\ xorb a b = true.
Proof.
  intros B E ->. apply C35_fat16_iff in E as (_ & _ & L & n & C & Hn); auto. pose proof L as (L1 & _).
  pose proof (count16_spec buf B L1) as I. unfold is_fs32, is_fs16, is_fs12.
  destruct (count_of_clusters false buf) as [m|e]; cbn [bind]; [|exfalso; apply I; eauto].
  destruct I as [_ I]. rewrite (clusters_fun _ _ _ _ I C). eexists _, _. split; [|split; [reflexivity|split; [reflexivity|]]].
  - replace (65525 <=? n) with false by lia. unfold fatsz16. rewrite andb_false_r. cbn [bind]. unfold bpb_fat_sectors_16 in L1.
    now replace (fld 2 buf 22 =? 0) with false by lia.
  - lia.
Qed.

(** Refusals. *)
Theorem C35_refusals buf relaxed e : bytes_ok buf -> bsbpb_open buf relaxed = Err e ->
  e = BootSectorException \/ e = TypeError \/ e = NotImplementedError.
Proof. intros B E. pose proof (bsbpb_open_spec buf relaxed B) as S. rewrite E in S. apply S. Qed.

Print Assumptions C35_fat32_iff.
Print Assumptions C35_fat16_iff.
Print Assumptions C35_width.
Print Assumptions C35_exclusive.
Print Assumptions C35_refusals.

Definition boot_sample (bps spc rsvd nf re tot16 fat16 tot32 fat32 : Z) : list Z :=
  [0xEB; 0x58; 0x90] ++ zeros 8 ++ le_bytes 2 bps ++ [spc] ++ le_bytes 2 rsvd ++ [nf] ++ le_bytes 2 re ++ le_bytes 2 tot16 ++
  [0xF8] ++ le_bytes 2 fat16 ++ zeros 8 ++ le_bytes 4 tot32 ++ le_bytes 4 fat32 ++ zeros 470 ++ [0x55; 0xAA].
Example C35_example_12 : bsbpb_open (boot_sample 512 1 1 2 224 2880 9 0 0) false = Ok false /\
  fat_type_of false (boot_sample 512 1 1 2 224 2880 9 0 0) = Ok 12.
Proof. split; vm_compute; reflexivity. Qed.
(** 4084 clusters are FAT12, 4085 FAT16. *)
Example C35_example_edge :
  (fat_type_of false (boot_sample 512 1 1 2 512 (1 + 24 + 32 + 4084) 12 0 0),
   fat_type_of false (boot_sample 512 1 1 2 512 (1 + 24 + 32 + 4085) 12 0 0)) = (Ok 12, Ok 16).
Proof. vm_compute. reflexivity. Qed.
Example C35_example_32 : bsbpb_open (boot_sample 512 8 32 2 0 0 0 1000000 1000) false = Ok true.
Proof. vm_compute. reflexivity. Qed.

(** "Decided by the cluster count alone" fails for FAT32: a volume with the FAT32
    layout is taken as FAT32 with any number of clusters, even a negative one. *)
Theorem C35_count_alone_refuted :
  exists buf, bytes_ok buf /\ bsbpb_open buf false = Ok true /\ clusters true buf (-7) /\ fat_type_of true buf = Ok 32.
Proof.
  exists (boot_sample 512 1 1 2 0 10 0 0 8). split; [|split; [|split]].
  - apply bytes_okb_ok. vm_compute. reflexivity.
  - vm_compute. reflexivity.
  - change (-7) with ((10 - (bpb_reserved (boot_sample 512 1 1 2 0 10 0 0 8) + bpb_fats (boot_sample 512 1 1 2 0 10 0 0 8) *
      fat_sectors true (boot_sample 512 1 1 2 0 10 0 0 8) + 0)) / bpb_sectors_per_cluster (boot_sample 512 1 1 2 0 10 0 0 8)).
    apply (cl true (boot_sample 512 1 1 2 0 10 0 0 8) 10).
    change 10 with (fld 2 (boot_sample 512 1 1 2 0 10 0 0 8) 19) at 2. apply ts_16. vm_compute. discriminate.
  - vm_compute. reflexivity.
Qed.

(** With both table sizes zero the constructor fails with a TypeError, which is
    not one of the library's exceptions. *)
Theorem C35_own_exception_refuted : exists buf, bytes_ok buf /\ bsbpb_open buf false = Err TypeError.
Proof. exists (boot_sample 512 1 1 2 512 5000 0 0 0). split; [apply bytes_okb_ok|]; vm_compute; reflexivity. Qed.

Print Assumptions C35_count_alone_refuted.
Print Assumptions C35_own_exception_refuted.

(** ** C37 (short names) *)

(** The checksum in closed form: rotate right by one bit and add, over the eleven bytes. *)
Theorem C37_short_checksum_formula n : build_checksum n = fold_left (fun c b => (c / 2 + 128 * (c mod 2) + b) mod 256) (slice n 0 11) 0.
Proof. apply build_checksum_rot. Qed.

(** Changing one byte changes it. *)
Theorem C37_short_name_byte a x y b : zlen (a ++ x :: b) = 11 -> is_byte x -> is_byte y -> x <> y ->
  build_checksum (a ++ x :: b) <> build_checksum (a ++ y :: b).
Proof.
  intros L Hx Hy N E. rewrite !build_checksum_rot in E.
  assert (L' : zlen (a ++ y :: b) = 11) by (rewrite zlen_app, zlen_cons in *; lia).
  rewrite !slice_full in E by lia. apply rot_sum_one_byte in E; auto. unfold is_byte; lia.
Qed.

Print Assumptions C37_short_checksum_formula.
Print Assumptions C37_short_name_byte.
Example C37_short_example : build_checksum [0x46; 0x49; 0x4C; 0x45; 0x4E; 0x41; 0x7E; 0x31; 0x54; 0x58; 0x54] = 0x5B.
Proof. vm_compute. reflexivity. Qed.

(** ** C38: dates *)

Theorem C38_date v y m d : 0 <= v < 65536 ->
  (decode_fat_date v = Some (y, m, d) <-> calendar_date y m d /\ 1980 <= y <= 2107 /\ v = fat_date_word y m d).
Proof. apply decode_fat_date_iff. Qed.

Theorem C38_time v h mi s : 0 <= v < 65536 ->
  (decode_fat_time v = Some (h, mi, s) <->
   0 <= h <= 23 /\ 0 <= mi <= 59 /\ 0 <= s <= 59 /\ s mod 2 = 0 /\ v = fat_time_word h mi s).
Proof. apply decode_fat_time_iff. Qed.

(** Two words never give the same date. *)
Theorem C38_date_injective v w d : 0 <= v < 65536 -> 0 <= w < 65536 ->
  decode_fat_date v = Some d -> decode_fat_date w = Some d -> v = w.
Proof.
  destruct d as [[y m] d]. intros Hv Hw E1 E2. apply C38_date in E1; auto. apply C38_date in E2; auto.
  destruct E1 as (_ & _ & ->). destruct E2 as (_ & _ & ->). reflexivity.
Qed.

(** The byte of NT flags is decoded bit by bit and never raises. *)
Theorem C38_nt_byte v : is_byte v -> parse_nt_byte v = Ok (nt_expected v).
Proof. apply parse_nt_byte_spec. Qed.

Print Assumptions C38_date.
Print Assumptions C38_time.
Print Assumptions C38_date_injective.
Print Assumptions C38_nt_byte.
Example C38_example : decode_fat_date 0x5A5D = Some (2025, 2, 29) -> False.
Proof. vm_compute. discriminate. Qed.
Example C38_example_leap : decode_fat_date (fat_date_word 2024 2 29) = Some (2024, 2, 29).
Proof. vm_compute. reflexivity. Qed.
Example C38_example_time : decode_fat_time (fat_time_word 23 59 58) = Some (23, 59, 58).
Proof. vm_compute. reflexivity. Qed.

(** ** C58: short names *)

(** A decoded short name has no path separator, control character or wildcard,
    whatever the code page, as long as the code page and the case conversion
    keep such characters out. *)
Theorem C58_safe dec lower lb le n s :
  (forall l, Forall name_safe l -> Forall name_safe (dec l)) -> (forall l, Forall name_safe l -> Forall name_safe (lower l)) ->
  bytes_ok n -> parse_short_name dec lower lb le n = Some s -> Forall name_safe s.
Proof. apply parse_short_name_safe. Qed.

(** The printed name determines the stored bytes (the first byte of deleted names aside). *)
Theorem C58_injective n m s : bytes_ok n -> bytes_ok m ->
  parse_short_name_raw n = Some s -> parse_short_name_raw m = Some s -> fix_first n = fix_first m.
Proof. apply parse_short_name_raw_inj. Qed.

(** A name is printed as base, dot, extension with the padding removed. *)
Theorem C58_round_trip base ext : base <> [] -> zlen base <= 8 -> zlen ext <= 3 -> ext <> [] ->
  bytes_ok base -> bytes_ok ext -> Forall name_byte base -> Forall name_byte ext ->
  last base 0 <> 32 -> last ext 0 <> 32 -> hd 0 base <> 32 -> hd 0 base <> 0xE5 ->
  parse_short_name_raw (base ++ repeat 32 (8 - length base) ++ ext ++ repeat 32 (3 - length ext)) = Some (base ++ [46] ++ ext).
Proof.
  intros NB Lb Le NE Bb Be Fb Fe LB LE HB HE. unfold zlen in Lb, Le.
  assert (RS : forall l k, l <> [] -> last l 0 <> 32 -> rstrip_space (l ++ repeat 32 k) = l).
  { clear. assert (R0 : forall k, rstrip_space (repeat 32 k) = []) by (induction k as [|k IH]; auto; cbn; now rewrite IH).
    induction l as [|x l IH]; intros k N L; [congruence|]. cbn [app rstrip_space]. destruct l as [|y l].
    - cbn [app]. rewrite R0. cbn [last] in L. now replace (x =? 32) with false by lia.
    - rewrite IH; [reflexivity|discriminate|exact L]. }
  destruct base as [|c b]; [congruence|]. cbn [hd] in HB, HE. inversion Fb as [|? ? Fc Fb']; subst. destruct Fc as [Fc1 Fc2].
  set (base := c :: b) in *.
  set (B8 := base ++ repeat 32 (8 - length base)). set (E3 := ext ++ repeat 32 (3 - length ext)).
  replace (base ++ repeat 32 (8 - length base) ++ E3) with (B8 ++ E3) by (unfold B8; now rewrite <- app_assoc).
  assert (L8 : zlen B8 = 8) by (unfold B8; rewrite zlen_app, zlen_repeat; unfold zlen; lia).
  assert (L3 : zlen E3 = 3) by (unfold E3; rewrite zlen_app, zlen_repeat; unfold zlen; lia).
  assert (C0 : c <> 0 /\ c <> 5) by (split; intros ->; discriminate).
  assert (FX : fix_first (B8 ++ E3) = B8 ++ E3).
  { unfold B8, base. cbn [app fix_first]. replace ((c =? 0) || (c =? 229)) with false by lia. replace (c =? 5) with false by lia. reflexivity. }
  assert (SP : name_byte 32) by (split; reflexivity).
  assert (V : validate_short_name (B8 ++ E3) = true).
  { unfold validate_short_name. replace (zlen (B8 ++ E3) =? 11) with true by (rewrite zlen_app; lia). cbn [negb].
    destruct (list_eqb (B8 ++ E3) dot_entry || list_eqb (B8 ++ E3) dotdot_entry); auto.
    unfold B8, base. cbn [app]. apply andb_true_iff. split.
    - unfold validate_first. replace (c =? 32) with false by lia. rewrite Fc2. replace (c =? 5) with false by lia. replace (c =? 0) with false by lia. now rewrite Fc1.
    - apply forallb_forall. intros x X. enough (Y : name_byte x) by (destruct Y as [Y1 Y2]; now rewrite Y1, Y2).
      unfold E3 in X. rewrite !in_app_iff in X. rewrite Forall_forall in Fb', Fe.
      destruct X as [[X|X]|[X|X]]; [now apply Fb'|apply repeat_spec in X; now subst|now apply Fe|apply repeat_spec in X; now subst]. }
  unfold parse_short_name_raw, parse_short_name. rewrite V, FX. cbn [negb].
  rewrite slice_prefix by lia. rewrite zdrop_app_exact by lia. unfold B8, E3. rewrite !RS by auto.
  destruct ext; [congruence|reflexivity].
Qed.

Print Assumptions C58_safe.
Print Assumptions C58_injective.
Print Assumptions C58_round_trip.
Example C58_example : parse_short_name_raw [0x52; 0x45; 0x41; 0x44; 0x4D; 0x45; 0x20; 0x20; 0x54; 0x58; 0x20] =
  Some [0x52; 0x45; 0x41; 0x44; 0x4D; 0x45; 0x2E; 0x54; 0x58].
Proof. vm_compute. reflexivity. Qed.

(** Long names are not restricted in this way: a stored long name may hold a path separator. *)
Theorem C58_long_names_refuted : exists entities s, build_long_name entities = Some s /\ In 47 s.
Proof. exists [[46; 0; 47; 0; 0; 0]], [46; 47]. split; [vm_compute; reflexivity|right; now left]. Qed.
Print Assumptions C58_long_names_refuted.
