(** Writing exFAT entry sets. *)
From Verif Require Import Base BaseLemmas FieldLemmas Utf16 FatBasic FatDir FatSpec FatDirSpec FatProofs FatDirProofs FatDirWrite
  ExBasic ExSpec ExBasicProofs ExDir ExDirSpec ExDirProofs Properties_ExBasic.

(** What is written besides the name. *)
Record xmeta := mk_xmeta {
  m_attributes : Z; m_reserved : Z; m_ctime : Z; m_mtime : Z; m_atime : Z;
  m_c10 : Z; m_m10 : Z; m_ctz : Z; m_mtz : Z; m_atz : Z;
  m_no_chain : bool; m_hash : Z; m_valid : Z; m_first : Z; m_size : Z }.
Record xmeta_ok (m : xmeta) : Prop := {
  mo_attributes : 0 <= m_attributes m < 2 ^ 16; mo_reserved : 0 <= m_reserved m < 2 ^ 16;
  mo_ctime : 0 <= m_ctime m < 2 ^ 32; mo_mtime : 0 <= m_mtime m < 2 ^ 32; mo_atime : 0 <= m_atime m < 2 ^ 32;
  mo_c10 : is_byte (m_c10 m); mo_m10 : is_byte (m_m10 m);
  mo_ctz : is_byte (m_ctz m); mo_mtz : is_byte (m_mtz m); mo_atz : is_byte (m_atz m);
  mo_valid : 0 <= m_valid m < 2 ^ 64; mo_first : 0 <= m_first m < 2 ^ 32; mo_size : 0 <= m_size m < 2 ^ 64 }.

Fixpoint chunks (k : nat) (l : list Z) : list (list Z) :=
  match k with O => [] | S k => ztake 30 l :: chunks k (zdrop 30 l) end.

Definition name_entry (p : list Z) : list Z := le_bytes 1 0xC1 ++ le_bytes 1 0 ++ p.
Definition name_count (name : list Z) : Z := (zlen (units_of name) + 14) / 15.
Definition name_slots (name : list Z) : list (list Z) :=
  map name_entry (chunks (Z.to_nat (name_count name)) (utf16_encode name ++ zeros (30 * name_count name - 2 * zlen (units_of name)))).
Definition stream_slot (m : xmeta) (len : Z) : list Z :=
  le_bytes 1 0xC0 ++ le_bytes 1 (if m_no_chain m then 3 else 1) ++ le_bytes 1 0 ++ le_bytes 1 len ++ le_bytes 2 (m_hash m) ++ le_bytes 2 0 ++
  le_bytes 8 (m_valid m) ++ le_bytes 4 0 ++ le_bytes 4 (m_first m) ++ le_bytes 8 (m_size m).
Definition file_rest (m : xmeta) : list Z :=
  le_bytes 2 (m_attributes m) ++ le_bytes 2 (m_reserved m) ++ le_bytes 4 (m_ctime m) ++ le_bytes 4 (m_mtime m) ++ le_bytes 4 (m_atime m) ++
  le_bytes 1 (m_c10 m) ++ le_bytes 1 (m_m10 m) ++ le_bytes 1 (m_ctz m) ++ le_bytes 1 (m_mtz m) ++ le_bytes 1 (m_atz m) ++ le_bytes 7 0.
Definition file_slot (count ck : Z) (m : xmeta) : list Z :=
  le_bytes 1 0x85 ++ le_bytes 1 count ++ le_bytes 2 ck ++ file_rest m.
Definition sub_slots (m : xmeta) (name : list Z) : list (list Z) := stream_slot m (zlen (units_of name)) :: name_slots name.
Definition set_sum (m : xmeta) (name : list Z) : Z :=
  rot_total 16 (le_bytes 1 0x85 ++ le_bytes 1 (1 + name_count name) ++ file_rest m ++ concat (sub_slots m name)).
Definition set_head (m : xmeta) (name : list Z) : list Z := file_slot (1 + name_count name) (set_sum m name) m.

Lemma chunks_spec k : forall l, bytes_ok l -> zlen l = 30 * Z.of_nat k ->
  zlen (chunks k l) = Z.of_nat k /\ concat (chunks k l) = l /\ Forall (fun p => zlen p = 30 /\ bytes_ok p) (chunks k l).
Proof.
  induction k as [|k IH]; intros l B L.
  - destruct l; [repeat split; constructor|]. rewrite zlen_cons in L. pose proof (zlen_nonneg l). lia.
  - cbn [chunks]. destruct (IH (zdrop 30 l)) as (I1 & I2 & I3); [now apply bytes_ok_zdrop|rewrite zlen_zdrop; lia|].
    rewrite zlen_cons, I1. cbn [concat]. rewrite I2, ztake_zdrop. split; [lia|]. split; auto. constructor; auto.
    rewrite zlen_ztake. split; [lia|now apply bytes_ok_ztake].
Qed.

Lemma le_bytes_1_ok n v : bytes_ok (le_bytes n v).
Proof. apply le_bytes_ok. Qed.

Lemma name_entry_facts p : zlen p = 30 -> bytes_ok p ->
  slot_ok (name_entry p) /\ x_type (name_entry p) = 0xC1 /\ x_part (name_entry p) = p.
Proof.
  intros L B. unfold name_entry. split; [split|split].
  - repeat (apply bytes_ok_app; split; [apply le_bytes_ok|]). exact B.
  - lens. lia.
  - unfold x_type. fget.
  - unfold x_part. rewrite app_assoc. rewrite slice_app_r by (lens; lia). apply slice_full. lens. lia.
Qed.

Lemma stream_facts m len : xmeta_ok m -> 0 <= len <= 255 -> let s := stream_slot m len in
  slot_ok s /\ x_type s = 0xC0 /\ fld 1 s 1 = (if m_no_chain m then 3 else 1) /\ fld 1 s 3 = len /\
  fld 8 s 8 = m_valid m /\ fld 4 s 20 = m_first m /\ fld 8 s 24 = m_size m.
Proof.
  intros M L. destruct M. cbv zeta. unfold stream_slot, x_type. split; [split|].
  - repeat (apply bytes_ok_app; split; [apply le_bytes_ok|]). apply le_bytes_ok.
  - lens. reflexivity.
  - change (2 ^ 32) with 4294967296 in *. change (2 ^ 64) with (256 ^ 8) in *. split; [fget|]. split.
    { rewrite fld_app_r by (lens; lia). match goal with |- fld _ _ ?o = _ => replace o with 0 by (lens; lia) end. apply fld_here; [reflexivity|]. destruct (m_no_chain m); lia. }
    repeat split; try fget.
    rewrite <- (app_nil_r (le_bytes 8 (m_size m))). fget.
Qed.

Lemma file_facts m count ck : xmeta_ok m -> 0 <= count <= 255 -> 0 <= ck < 2 ^ 16 -> let s := file_slot count ck m in
  slot_ok s /\ x_type s = 0x85 /\ fld 1 s 1 = count /\ fld 2 s 2 = ck /\ fld 2 s 4 = m_attributes m /\ fld 2 s 6 = m_reserved m /\
  fld 4 s 8 = m_ctime m /\ fld 4 s 12 = m_mtime m /\ fld 4 s 16 = m_atime m /\ fld 1 s 20 = m_c10 m /\ fld 1 s 21 = m_m10 m /\
  fld 1 s 22 = m_ctz m /\ fld 1 s 23 = m_mtz m /\ fld 1 s 24 = m_atz m.
Proof.
  intros M C K. destruct M. unfold is_byte in *. cbv zeta. unfold file_slot, file_rest, x_type. split; [split|].
  - repeat (apply bytes_ok_app; split; [apply le_bytes_ok|]). apply le_bytes_ok.
  - lens. reflexivity.
  - change (2 ^ 32) with 4294967296 in *. change (2 ^ 16) with 65536 in *. repeat split; fget.
Qed.

Lemma units_encode_len name : zlen (utf16_encode name) = 2 * zlen (units_of name).
Proof.
  rewrite <- units_of_encode. induction (units_of name) as [|u l IH]; [reflexivity|]. cbn [flat_map]. rewrite zlen_app, zlen_cons, IH.
  unfold utf16_unit. rewrite le_bytes_len. lia.
Qed.

(** A name that may be written: characters of Unicode, allowed ones, at most 255 units. *)
Definition writable_name (name : list Z) : Prop := Forall scalar name /\ x_good_name name /\ zlen (units_of name) <= 255.

Lemma name_slots_facts name : writable_name name -> let subs := name_slots name in
  1 <= name_count name <= 17 /\ zlen subs = name_count name /\ Forall slot_ok subs /\ Forall (fun s => x_type s = 0xC1) subs /\
  x_name_of (map x_part subs) (Some (zlen (units_of name))) name.
Proof.
  intros (SC & GN & LU) subs. assert (NE : name <> []) by apply GN.
  assert (LU1 : 1 <= zlen (units_of name)).
  { pose proof (units_of_len name). destruct name as [|c s]; [congruence|]. rewrite zlen_cons in H. pose proof (zlen_nonneg s). lia. }
  unfold subs, name_slots. set (u := units_of name) in *. set (k := name_count name).
  assert (K : 1 <= k <= 17 /\ zlen u <= 15 * k) by (unfold k, name_count; fold u; lia). destruct K as [K KU].
  assert (LE : zlen (utf16_encode name) = 2 * zlen u) by apply units_encode_len.
  set (l := utf16_encode name ++ zeros (30 * k - 2 * zlen u)).
  destruct (chunks_spec (Z.to_nat k) l) as (C1 & C2 & C3).
  { apply bytes_ok_app. split; [apply utf16_encode_ok|apply bytes_ok_zeros]. }
  { unfold l. rewrite zlen_app, LE, zlen_zeros by lia. lia. }
  split; [exact K|]. split; [unfold zlen in *; rewrite map_length; lia|]. split; [|split].
  - apply Forall_forall. intros s I. apply in_map_iff in I as (p & <- & I). rewrite Forall_forall in C3. destruct (C3 p I). now apply name_entry_facts.
  - apply Forall_forall. intros s I. apply in_map_iff in I as (p & <- & I). rewrite Forall_forall in C3. destruct (C3 p I). now apply name_entry_facts.
  - assert (MP : map x_part (map name_entry (chunks (Z.to_nat k) l)) = chunks (Z.to_nat k) l).
    { rewrite map_map. rewrite <- map_id. apply map_ext_in. intros p I. rewrite Forall_forall in C3. destruct (C3 p I). now apply name_entry_facts. }
    rewrite MP. exists (utf16_encode name). rewrite C2. split.
    + assert (X : cut_null l = utf16_encode name).
      { unfold l. rewrite <- units_of_encode. apply cut_null_units.
        - apply units_of_range. apply Forall_forall. intros c I. rewrite Forall_forall in SC. split; [auto|]. intros ->. apply (proj1 (proj2 GN) 0 I). left. lia.
        - fold u. destruct (Z.eq_dec (30 * k - 2 * zlen u) 0) as [->|N]; [left; reflexivity|]. right.
          unfold zeros. destruct (Z.to_nat (30 * k - 2 * zlen u)) as [|[|j]] eqn:E; [lia|lia|]. exists (repeat 0 j). reflexivity. }
      rewrite <- X. apply cut_text.
    + cbv zeta. rewrite utf16_round_trip by auto. split; auto. right. split; [|auto]. intros j J. injection J as <-. apply units_of_len.
Qed.

(** The entry that is read back. *)
Definition set_entry (m : xmeta) (name : list Z) : xentry :=
  mk_xentry false ((m_attributes m / 16) mod 2 =? 1) name (x_decode_timestamp (m_atime m) 0) (x_decode_timezone (m_atz m))
    (x_decode_timestamp (m_mtime m) (m_m10 m)) (x_decode_timezone (m_mtz m)) (x_decode_timestamp (m_ctime m) (m_c10 m)) (x_decode_timezone (m_ctz m))
    (m_size m) (m_valid m) (m_attributes m) (m_first m) ((m_reserved m / 32768) mod 2 =? 1) (m_no_chain m).

Lemma written_set m name : xmeta_ok m -> writable_name name ->
  file_set (set_head m name) (sub_slots m name) (set_entry m name) /\ slot_ok (set_head m name) /\ Forall slot_ok (sub_slots m name).
Proof.
  intros M W. destruct (name_slots_facts name W) as (K & KL & OS & TS & NM). destruct W as (SC & GN & LU).
  pose proof (zlen_nonneg (units_of name)) as LU0.
  destruct (stream_facts m (zlen (units_of name)) M ltac:(lia)) as (S1 & S2 & S3 & S4 & S5 & S6 & S7).
  assert (CK : 0 <= set_sum m name < 2 ^ 16). { unfold set_sum, rot_total. rewrite <- (rev_involutive (_ ++ _)). rewrite <- fold_left_rev_right, rev_involutive.
    destruct (rev _) as [|b r]; cbn [fold_right]; [lia|apply rot_range; lia]. }
  destruct (file_facts m (1 + name_count name) (set_sum m name) M ltac:(lia) CK) as (F0 & F1 & F2 & F3 & F4 & F5 & F6 & F7 & F8 & F9 & F10 & F11 & F12 & F13).
  fold (set_head m name) in *. 
  assert (NS : x_names (sub_slots m name) = map x_part (name_slots name)).
  { unfold sub_slots. rewrite names_cons. unfold is_name at 1. unfold x_kind. rewrite S2. cbn -[x_names]. unfold x_names. f_equal.
    clear -TS. induction TS as [|s l T _ IH]; [reflexivity|]. cbn [filter]. unfold is_name, x_kind. rewrite T. cbn -[filter]. f_equal. exact IH. }
  split; [|split; [exact F0|constructor; auto]].
  destruct M. constructor; cbn [set_entry xe_deleted xe_directory xe_name xe_atime xe_atz xe_mtime xe_mtz xe_ctime xe_ctz xe_size xe_valid xe_attributes xe_first xe_encrypted xe_no_chain].
  - exact F1.
  - rewrite F2. unfold sub_slots. rewrite zlen_cons. lia.
  - intros _. rewrite F3. unfold set_sum. f_equal. unfold set_bytes. cbn [concat]. unfold set_head, file_slot. rewrite <- !app_assoc.
    set (tl := file_rest m ++ concat (sub_slots m name)). 
    assert (E1 : slice (le_bytes 1 133 ++ le_bytes 1 (1 + name_count name) ++ le_bytes 2 (set_sum m name) ++ tl) 0 2 = le_bytes 1 133 ++ le_bytes 1 (1 + name_count name)).
    { rewrite app_assoc. rewrite slice_app_l by (lens; lia). apply slice_full. lens. lia. }
    rewrite E1, <- app_assoc. do 2 f_equal. rewrite !app_assoc. rewrite slice_app_r by (lens; lia). symmetry. apply slice_full || (rewrite slice_full; auto).
    all: lens; lia.
  - constructor; [unfold x_sub, x_used; rewrite S2; split; [reflexivity|lia]|].
    eapply Forall_impl; [|exact TS]. cbv beta. intros s T. unfold x_sub, x_used. rewrite T. split; [reflexivity|lia].
  - assert (KZ : zlen (name_slots name) = name_count name) by exact KL. unfold sub_slots at 1.
    destruct (name_slots name) as [|n0 ns] eqn:EN; [change (zlen (@nil (list Z))) with 0 in KZ; lia|].
    exists (stream_slot m (zlen (units_of name))), n0, ns, []. rewrite app_nil_r. rewrite NS, S3, S4, S5, S6, S7.
    inversion TS as [|? ? T0 T1]; subst. do 2 (split; [unfold x_kind; rewrite ?S2; reflexivity|]).
    split; [unfold x_kind; rewrite T0; reflexivity|].
    split. { eapply Forall_impl; [|exact T1]. cbv beta. intros s T. unfold is_vendor, x_kind. rewrite T. cbn. split; [lia|reflexivity]. }
    split; [constructor|]. split; [destruct (m_no_chain m); reflexivity|].
    assert (LU1 : 1 <= zlen (units_of name)).
    { pose proof (units_of_len name). destruct name as [|c s]; [now destruct GN|]. rewrite zlen_cons in H. pose proof (zlen_nonneg s). lia. }
    split; [lia|]. split. { unfold zlen at 1. rewrite map_length. fold (zlen (n0 :: ns)). rewrite KZ. unfold name_count. lia. }
    split; [exact NM|]. do 3 (split; [reflexivity|]). destruct (m_no_chain m); split; auto; discriminate.
  - now rewrite F4.
  - rewrite F4. apply eqb1_iff.
  - rewrite F5. apply eqb1_iff.
  - rewrite F6, F9. apply decode_xtime; auto.
  - rewrite F7, F10. apply decode_xtime; auto.
  - rewrite F8. apply decode_xtime; auto. unfold is_byte; lia.
  - rewrite F11. apply decode_xzone; auto.
  - rewrite F12. apply decode_xzone; auto.
  - rewrite F13. apply decode_xzone; auto.
Qed.
