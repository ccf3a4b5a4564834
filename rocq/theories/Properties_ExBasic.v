(** C37, C38 (exFAT), C42, C43: checksums of entry sets, times, time zones and names. *)
From Verif Require Import Base BaseLemmas Utf16 FatBasic FatDir FatSpec FatProofs MappingPairsProofs ExBasic ExSpec ExBasicProofs Properties_ExBoot.

(** ** C37: the checksum of an entry set *)

(** It is the rotating sum of the bytes outside the checksum field. *)
Theorem C37_exfat_value l : x_set_checksum l = if (32 <=? zlen l) && (zlen l mod 32 =? 0) then Ok (rot_total 16 (set_bytes l)) else Err ValueError.
Proof.
  unfold x_set_checksum. destruct (Z.ltb_spec (zlen l) 32), (Z.leb_spec 32 (zlen l)); try lia; cbn [orb andb]; auto.
  destruct (Z.eqb_spec (zlen l mod 32) 0); cbn [negb]; auto. now rewrite set_checksum_spec by lia.
Qed.

(** Changing one byte outside the field changes the checksum. *)
Theorem C37_exfat_detected l i v x c : is_byte x -> is_byte v -> x_set_checksum l = Ok c -> znth l i = Some x -> v <> x -> i <> 2 -> i <> 3 ->
  exists d, x_set_checksum (zset l i v) = Ok d /\ d <> c.
Proof.
  intros X V E N NE I2 I3. pose proof (znth_Some_range _ _ _ N) as R. destruct (zset_split l i v R) as (y & Y & E1 & E2). assert (y = x) by congruence. subst y.
  unfold x_set_checksum in *. rewrite zlen_zset. destruct ((zlen l <? 32) || negb (zlen l mod 32 =? 0)); [discriminate|]. injection E as <-.
  eexists. split; [reflexivity|]. rewrite E2. rewrite E1 at 3. intro Q. apply loop_byte in Q; [congruence|lia|auto|auto|].
  rewrite zlen_ztake. apply zin_false. cbn. lia.
Qed.

(** The field itself is not summed: a stored value that differs is noticed. *)
Theorem C37_exfat_field l v w : x_set_checksum (zset (zset l 2 v) 3 w) = x_set_checksum l.
Proof.
  rewrite !C37_exfat_value. rewrite !zlen_zset. destruct ((32 <=? zlen l) && _) eqn:G; auto. do 2 f_equal. unfold set_bytes. rewrite !zlen_zset.
  rewrite !slice_zset_other by lia. reflexivity.
Qed.
Print Assumptions C37_exfat_value.
Print Assumptions C37_exfat_detected.
Print Assumptions C37_exfat_field.

Example C37_exfat_example : x_set_checksum (repeat 1 32) = Ok 65521 /\ x_set_checksum (zset (repeat 1 32) 31 2) = Ok 65522.
Proof. vm_compute. split; reflexivity. Qed.

(** ** C38: timestamps *)

Lemma stamp_parts v ms10 : 0 <= v < 2 ^ 32 -> x_decode_timestamp v ms10 =
  match decode_fat_time (v mod 65536), decode_fat_date (v / 65536) with
  | Some t, Some d => Some (add_ms (d, t) ((if 199 <? ms10 then 0 else ms10) * 10))
  | _, _ => None
  end.
Proof.
  intro V. unfold x_decode_timestamp, decode_fat_time, decode_fat_date. cbv zeta.
  replace (Z.land v 65535) with (v mod 65536) by (symmetry; apply (land_pow 16); lia).
  replace (Z.land (Z.shiftr v 16) 1048575) with (v / 65536).
  2:{ rewrite shiftr_div by lia. change 1048575 with (2 ^ 20 - 1). rewrite land_pow by lia. change (2 ^ 16) with 65536. rewrite Z.mod_small by (change (2 ^ 32) with 4294967296 in V; change (2 ^ 20) with 1048576; lia). reflexivity. }
  destruct (29 <? _); [reflexivity|]. destruct (59 <? _); [reflexivity|]. destruct (23 <? _); [reflexivity|].
  destruct (_ =? 0); [reflexivity|]. destruct (_ || _); [reflexivity|]. destruct (127 <? _); [reflexivity|]. destruct (date_exists _ _ _); reflexivity.
Qed.

(** A timestamp decodes to the date and time it encodes, plus the given tens of
    milliseconds (0 to 199); everything else decodes to nothing. *)
Theorem C38_exfat v ms10 y m d h mi s ms : 0 <= v < 2 ^ 32 -> is_byte ms10 ->
  (x_decode_timestamp v ms10 = Some (((y, m, d), (h, mi, s)), ms) <->
   exists s0, calendar_date y m d /\ 1980 <= y <= 2107 /\ 0 <= h <= 23 /\ 0 <= mi <= 59 /\ 0 <= s0 <= 59 /\ s0 mod 2 = 0 /\
     v = stamp_word y m d h mi s0 /\ 0 <= ms < 1000 /\ s * 1000 + ms = s0 * 1000 + (if ms10 <=? 199 then ms10 * 10 else 0)).
Proof.
  intros V M. rewrite stamp_parts by auto. change (2 ^ 32) with 4294967296 in V. unfold is_byte in M.
  assert (VT : 0 <= v mod 65536 < 65536) by lia. assert (VD : 0 <= v / 65536 < 65536) by lia.
  replace (if 199 <? ms10 then 0 else ms10) with (if ms10 <=? 199 then ms10 else 0) by (destruct (Z.ltb_spec 199 ms10), (Z.leb_spec ms10 199); lia).
  split.
  - destruct (decode_fat_time (v mod 65536)) as [[[h0 mi0] s0]|] eqn:ET; [|discriminate]. destruct (decode_fat_date (v / 65536)) as [[[y0 m0] d0]|] eqn:ED; [|discriminate].
    unfold add_ms. intro X. injection X as <- <- <- <- <- X1 X2.
    apply decode_fat_time_iff in ET as (T1 & T2 & T3 & T4 & T5); auto. apply decode_fat_date_iff in ED as (D1 & D2 & D3); auto.
    exists s0. do 6 (split; [auto|]). split; [unfold stamp_word; lia|]. destruct (Z.leb_spec ms10 199); lia.
  - intros (s0 & D1 & D2 & T1 & T2 & T3 & T4 & E & R & S).
    assert (EW : v mod 65536 = fat_time_word h mi s0 /\ v / 65536 = fat_date_word y m d) by (unfold stamp_word in E; unfold fat_time_word in *; lia). destruct EW as [EW1 EW2].
    rewrite (proj2 (decode_fat_time_iff (v mod 65536) h mi s0 VT)) by (repeat split; auto; lia).
    rewrite (proj2 (decode_fat_date_iff (v / 65536) y m d VD)) by auto.
    unfold add_ms. assert (s = s0 + (if ms10 <=? 199 then ms10 else 0) * 10 / 1000 /\ ms = ((if ms10 <=? 199 then ms10 else 0) * 10) mod 1000) as [-> ->] by (destruct (Z.leb_spec ms10 199); lia).
    reflexivity.
Qed.

(** Every date and time of the range has an encoding that is decoded to it. *)
Theorem C38_exfat_round_trip y m d h mi s0 : calendar_date y m d -> 1980 <= y <= 2107 -> 0 <= h <= 23 -> 0 <= mi <= 59 -> 0 <= s0 <= 59 -> s0 mod 2 = 0 ->
  x_decode_timestamp (stamp_word y m d h mi s0) 0 = Some (((y, m, d), (h, mi, s0)), 0).
Proof.
  intros D Y H MI S E. assert (B : 1 <= m <= 12 /\ 1 <= d <= 31).
  { destruct D as (k & ML & K). inversion ML as [? I|? I|I|I]; subst; cbn in I; lia. }
  apply C38_exfat; [unfold stamp_word, fat_date_word, fat_time_word; change (2 ^ 32) with 4294967296; lia|unfold is_byte; lia|].
  exists s0. do 7 (split; [auto|]). cbn [Z.leb Z.compare]. split; lia.
Qed.
Print Assumptions C38_exfat.
Print Assumptions C38_exfat_round_trip.

Example C38_exfat_example : x_decode_timestamp (stamp_word 2024 2 29 13 37 58) 150 = Some (((2024, 2, 29), (13, 37, 59)), 500) /\
  x_decode_timestamp (stamp_word 2023 2 29 13 37 58) 0 = None.
Proof. vm_compute. split; reflexivity. Qed.

(** ** C43: time zones *)

(** The top bit says whether there is a zone; the lower seven bits are a two's complement number. *)
Theorem C43_timezone v : is_byte v ->
  x_decode_timezone v = if v <? 128 then None else Some (if v mod 128 <? 64 then v mod 128 else v mod 128 - 128).
Proof.
  intro V. pose proof (all_bytes (fun v => match x_decode_timezone v, (if v <? 128 then None else Some (if v mod 128 <? 64 then v mod 128 else v mod 128 - 128)) with
    | None, None => true | Some a, Some b => a =? b | _, _ => false end) ltac:(vm_compute; reflexivity) v V) as T. cbv beta in T.
  destruct (x_decode_timezone v), (if v <? 128 then None else _); try discriminate; auto. f_equal. now apply Z.eqb_eq.
Qed.

(** Every offset from -64 to 63 quarters of an hour has one encoding. *)
Theorem C43_round_trip q v : -64 <= q <= 63 -> is_byte v -> (x_decode_timezone v = Some q <-> v = 128 + q mod 128).
Proof.
  intros Q V. rewrite C43_timezone by auto. unfold is_byte in V. destruct (Z.ltb_spec v 128); [split; [discriminate|lia]|].
  destruct (Z.ltb_spec (v mod 128) 64); (split; [intro X; injection X as X; lia|intro X; f_equal; lia]).
Qed.
Print Assumptions C43_timezone.
Print Assumptions C43_round_trip.

Example C43_example : x_decode_timezone 0x97 = Some 23 /\ x_decode_timezone 0xD8 = Some (-40) /\ x_decode_timezone 0x17 = None.
Proof. vm_compute. repeat split. Qed.

(** ** C42: names *)

Lemma cut_text l : text_of l (cut_null l).
Proof.
  assert (H : forall n l, zlen l <= Z.of_nat n -> text_of l (cut_null l)); [|apply (H (length l)); unfold zlen; lia]. clear l.
  induction n as [|n IH]; intros l L.
  - destruct l; [apply tx_end; cbn; lia|]. rewrite zlen_cons in L. pose proof (zlen_nonneg l). lia.
  - destruct l as [|a [|b t]]; [apply tx_end; cbn; lia|apply tx_end; cbn; lia|]. cbn [cut_null]. destruct (Z.eqb_spec a 0) as [->|]; cbn [andb].
    + destruct (Z.eqb_spec b 0) as [->|]; [constructor|]. apply tx_unit; [lia|]. apply IH. rewrite !zlen_cons in L. lia.
    + apply tx_unit; [lia|]. apply IH. rewrite !zlen_cons in L. lia.
Qed.

Lemma text_fun l t : text_of l t -> t = cut_null l.
Proof.
  induction 1 as [l L|l|a b l t N _ IH].
  - destruct l as [|a [|b l]]; auto. rewrite !zlen_cons in L. pose proof (zlen_nonneg l). lia.
  - reflexivity.
  - cbn [cut_null]. replace ((a =? 0) && (b =? 0)) with false by lia. now rewrite <- IH.
Qed.

Lemma x_forbidden_iff c : x_forbidden c = true <-> x_bad_char c.
Proof. unfold x_forbidden, x_bad_char. rewrite orb_true_iff, andb_true_iff, zin_In. rewrite !Z.leb_le. tauto. Qed.

Lemma good_name_iff n : n <> [] -> (existsb x_forbidden n = false /\ list_eqb n [46] || list_eqb n [46; 46] = false <-> x_good_name n).
Proof.
  intro NE. unfold x_good_name. rewrite orb_false_iff. split.
  - intros (F & E1 & E2). split; [auto|]. split.
    + intros c I BC. apply x_forbidden_iff in BC. assert (existsb x_forbidden n = true) by (apply existsb_exists; eauto). congruence.
    + split; intros ->; discriminate.
  - intros (_ & G & N1 & N2). split.
    + destruct (existsb x_forbidden n) eqn:E; auto. apply existsb_exists in E as (c & I & F). apply x_forbidden_iff in F. destruct (G c I F).
    + split; match goal with |- ?t = false => destruct t eqn:E; auto; apply fat_list_eqb_eq in E; contradiction end.
Qed.

(** What is returned: a good name as stored, or the beginning of a longer text,
    whatever it contains. *)
Theorem C42_exact es len n :
  x_build_name es len = Some n <-> es <> [] /\ exists t, text_of (concat es) t /\
    let s := utf16le t in s <> [] /\
    ((exists k, len = Some k /\ k < zlen s /\ n = ztake k s) \/
     ((forall k, len = Some k -> zlen s <= k) /\ n = s /\ x_good_name s)).
Proof.
  assert (G : forall (P : list Z -> Prop), (exists t, text_of (concat es) t /\ P (utf16le t)) <-> P (utf16le (cut_null (concat es)))).
  { intro P. split; [intros (t & T & H); now rewrite <- (text_fun _ _ T)|eauto using cut_text]. }
  cbv zeta. rewrite (G (fun s => s <> [] /\ ((exists k, len = Some k /\ k < zlen s /\ n = ztake k s) \/ ((forall k, len = Some k -> zlen s <= k) /\ n = s /\ x_good_name s)))).
  unfold x_build_name. destruct es as [|e es]; [split; [discriminate|tauto]|]. set (s := utf16le _). clearbody s. clear G.
  destruct s as [|c s]; [split; [discriminate|tauto]|]. set (q := c :: s). assert (NE : q <> []) by discriminate. clearbody q. clear c s.
  assert (F : forall r : option (list Z), (if existsb x_forbidden q then None else if list_eqb q [46] || list_eqb q [46; 46] then None else Some q) = r <->
     match r with Some n => n = q /\ x_good_name q | None => ~ x_good_name q end).
  { intro r. pose proof (good_name_iff q NE) as GN. destruct (existsb x_forbidden q); [|destruct (list_eqb q [46] || list_eqb q [46; 46])].
    - split; [intros <-; intro X; apply GN in X as [X _]; discriminate|]. destruct r; [|auto]. intros [_ X]. apply GN in X as [X _]. discriminate.
    - split; [intros <-; intro X; apply GN in X as [_ X]; discriminate|]. destruct r; [|auto]. intros [_ X]. apply GN in X as [_ X]. discriminate.
    - assert (x_good_name q) by tauto. split; [intros <-; auto|]. destruct r; [intros [-> _]; auto|tauto]. }
  split.
  - intro E. split; [discriminate|]. split; [auto|]. destruct len as [k|].
    + destruct (Z.ltb_spec k (zlen q)) as [L|L].
      * left. exists k. injection E as <-. auto.
      * apply F in E as [-> GQ]. right. split; auto. intros k' X. injection X as <-. auto.
    + apply F in E as [-> GQ]. right. split; auto. discriminate.
  - intros (_ & _ & [(k & -> & L & ->)|(L & -> & GQ)]).
    + replace (k <? zlen q) with true by lia. reflexivity.
    + destruct len as [k|]; [|apply F; auto]. specialize (L k eq_refl). replace (k <? zlen q) with false by lia. apply F. auto.
Qed.

(** Names that are not longer than the length field says are good names. *)
Theorem C42_good es len n : x_build_name es len = Some n ->
  (forall k t, len = Some k -> text_of (concat es) t -> zlen (utf16le t) <= k) -> x_good_name n.
Proof.
  intros E H. apply C42_exact in E as (_ & t & T & _ & [(k & -> & L & _)|(_ & -> & G)]); auto. specialize (H k t eq_refl T). lia.
Qed.

(** Without a length field (orphan names) all names are good. *)
Theorem C42_orphan es n : x_build_name es None = Some n -> x_good_name n.
Proof. intro E. apply (C42_good es None n E). discriminate. Qed.

(** A name is never empty unless the length field is zero, and never longer than the field says. *)
Theorem C42_length es k n : 0 < k -> x_build_name es (Some k) = Some n -> 0 < zlen n <= k.
Proof.
  intros K E. apply C42_exact in E as (_ & t & T & NE & [(j & J & L & ->)|(L & -> & _)]).
  - injection J as <-. rewrite zlen_ztake. lia.
  - specialize (L k eq_refl). destruct (utf16le t) as [|c s]; [congruence|]. rewrite zlen_cons in *. pose proof (zlen_nonneg s). lia.
Qed.
Print Assumptions C42_exact.
Print Assumptions C42_good.
Print Assumptions C42_orphan.
Print Assumptions C42_length.

(** The claim is false for names that are cut: "a/b" with the length 2 gives
    "a/", and "..x" with the length 2 gives "..". *)
Definition ex_part (s : list Z) : list Z := utf16_encode s ++ zeros (30 - 2 * zlen s).
Theorem C42_forbidden_refuted : exists es n, bytes_ok (concat es) /\ x_build_name es (Some 2) = Some n /\ In 47 n.
Proof. exists [ex_part [97; 47; 98]], [97; 47]. split; [apply bytes_okb_ok; vm_compute; reflexivity|]. split; [vm_compute; reflexivity|cbn; auto]. Qed.
Theorem C42_dots_refuted : exists es, bytes_ok (concat es) /\ x_build_name es (Some 2) = Some [46; 46].
Proof. exists [ex_part [46; 46; 120]]. split; [apply bytes_okb_ok; vm_compute; reflexivity|]. vm_compute; reflexivity. Qed.

(** The length field counts 16-bit units, but the code compares it with the
    number of characters: behind a character of two units one unit of what
    follows the name is taken as part of it. *)
Theorem C42_units_refuted : exists es n, bytes_ok (concat es) /\
  concat es = utf16_encode [0x1F600] ++ utf16_encode [120] ++ zeros 24 /\ x_build_name es (Some 2) = Some n /\ n = [0x1F600; 120].
Proof.
  exists [utf16_encode [0x1F600; 120] ++ zeros 24], [0x1F600; 120]. split; [apply bytes_okb_ok; vm_compute; reflexivity|]. split; [vm_compute; reflexivity|].
  split; vm_compute; reflexivity.
Qed.
Print Assumptions C42_forbidden_refuted.
Print Assumptions C42_dots_refuted.
Print Assumptions C42_units_refuted.

Example C42_example : x_build_name [ex_part [104; 105]] (Some 2) = Some [104; 105] /\ x_build_name [ex_part [104; 47]] (Some 2) = None.
Proof. vm_compute. split; reflexivity. Qed.
