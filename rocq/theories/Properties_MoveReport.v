(** Property C82: the report of ntfs_parser on a move table. *)
From Coq Require Import List String.
From Verif Require Import Base BaseLemmas FrsProofs FieldLemmas Filetime FiletimeProofs Attributes MoveTable MoveTableSpec MoveTableProofs
  Report ReportSpec ReportProofs LogReport LogReportSpec LogTextProofs ReportText ReportTextSpec ReportTextProofs MoveReport MoveReportSpec MoveReportProofs
  Properties_LogReport Properties_MoveTable.
Local Open Scope Z_scope.

(** ** The entries *)
Definition good_entry (e : list Z) : Prop := bytes_ok e /\ zlen e = 124.
Lemma mts_loop_good fuel buf : bytes_ok buf -> forall pos, Forall good_entry (fst (mts_loop fuel buf pos)).
Proof.
  intros B. induction fuel as [|fuel IH]; intros pos; [constructor|]. cbn [mts_loop]. destruct (negb (pos + 124 <=? zlen buf - 16)); [constructor|].
  destruct (Z.eqb_spec (zlen (slice buf pos (pos + 124))) 124) as [L|L]; cbn [negb]; [|constructor].
  destruct (mte_open (slice buf pos (pos + 124))) as [e|x] eqn:O; [|constructor]. specialize (IH (pos + 124)). destruct (mts_loop fuel buf (pos + 124)) as [es st]. cbn [gcons fst] in *.
  constructor; [|exact IH]. unfold mte_open in O. rewrite L in O. cbn [Z.eqb Pos.eqb negb] in O. apply bind_ok in O as (t & _ & O). destruct (negb _); [discriminate|].
  assert (e = slice buf pos (pos + 124)) as -> by congruence. split; [now apply bytes_ok_slice|exact L].
Qed.
Lemma Forall_filter {A} (P : A -> Prop) f l : Forall P l -> Forall P (filter f l).
Proof. induction 1; cbn [filter]; [constructor|]. destruct (f x); [constructor; auto|auto]. Qed.
Lemma mt_loop_good fuel data s : bytes_ok data -> forall i, Forall good_entry (fst (mt_loop fuel data s i)).
Proof.
  intros B. induction fuel as [|fuel IH]; intros i; [constructor|]. cbn [mt_loop]. cbv zeta. destruct (negb _); [constructor|].
  pose proof (mts_loop_good (S (List.length (slice data (i * s) (i * s + s)))) (slice data (i * s) (i * s + s)) (bytes_ok_slice _ _ _ B) 0) as G.
  fold (mts_entries (slice data (i * s) (i * s + s))) in G. destruct (mts_entries (slice data (i * s) (i * s + s))) as [es st]. cbn [fst] in G.
  destruct st as [|x]; [|cbn [fst]; now apply Forall_filter]. specialize (IH (i + 1)). destruct (mt_loop fuel data s (i + 1)) as [es' st']. cbn [gapp fst] in *.
  apply Forall_app. split; [now apply Forall_filter|exact IH].
Qed.

(** ** C82: one block for the header and one for each entry in use, with its facts *)
Theorem C82_report : forall data, bytes_ok data ->
  match mt_header data (mt_sector_size data None) with
  | Ok h => forall es st, mt_log_entries data (mt_sector_size data None) = (es, st) ->
      exists hb bs, move_report data = (hb :: bs, st) /\ header_shown h hb /\ Forall2 entry_shown es bs
  | Err _ => move_report data = ([], Raised ValueError)
  end.
Proof.
  intros data B. unfold move_report. cbv zeta. set (s := mt_sector_size data None). destruct (mt_header data s) as [h|x] eqn:H.
  - intros es st E. apply C51_header in H as (Eh & L & _). pose proof (mt_loop_good (S (List.length data)) data s B 1) as G. fold (mt_log_entries data s) in G. rewrite E in *.
    cbn [fst] in G. destruct (move_blocks_shown es st G) as (bs & -> & S). exists (move_header_block h), bs. split; [reflexivity|]. split; [|exact S].
    apply header_block_shown; [rewrite Eh; now apply bytes_ok_slice|lia].
  - unfold mt_header, mth_open in H. destruct (negb _); [congruence|]. destruct (negb _); [congruence|discriminate].
Qed.
Print Assumptions C82_report.

(** The size of the sectors is found: a table in sectors of 512 bytes has an
    entry of a known type there, one in sectors of 4096 bytes has zeros. *)
Theorem C82_sector_size : forall data, bytes_ok data ->
  (known_type (slice data 512 636) -> mt_sector_size data None = 512) /\
  (slice data 512 528 = zeros 16 -> mt_sector_size data None = 4096).
Proof.
  intros data B. unfold mt_sector_size. destruct (zlist_eqb (slice data 512 528) (zeros 16)) eqn:E.
  - apply zlist_eqb_eq in E. split; [|auto]. intros K.
    assert (fld 4 (slice data 512 636) 8 = fld 4 (slice data 512 528) 8) as F.
    { unfold fld. rewrite !slice_slice by lia. reflexivity. }
    unfold known_type in K. rewrite F, E in K. vm_compute in K. destruct K; discriminate.
  - apply zlist_eqb_neq in E. split; [auto|contradiction].
Qed.
Print Assumptions C82_sector_size.

(** ** Nothing is lost in the text *)

(** Names: in every mixture of code pages the text determines the bytes. *)
Theorem C82_name : forall b, bytes_ok b -> name_shown b (decode_string b).
Proof. exact decode_name. Qed.
Theorem C82_name_exact : forall a b s, bytes_ok a -> bytes_ok b -> name_shown a s -> name_shown b s -> a = b.
Proof. exact name_unique. Qed.
Print Assumptions C82_name.
Print Assumptions C82_name_exact.

Lemma id_same b b' o s : bytes_ok b -> bytes_ok b' -> 0 <= o -> o + 16 <= zlen b -> o + 16 <= zlen b' -> id_shown b o s -> id_shown b' o s -> slice b o (o + 16) = slice b' o (o + 16).
Proof.
  intros B B' O L L' H H'. assert (K : 16 <= zlen (slice b o (o + 16))) by (rewrite zlen_slice by lia; lia).
  destruct (C77_guid_unique _ _ s (bytes_ok_slice b o (o + 16) B) (bytes_ok_slice b' o (o + 16) B') K H H') as [_ E].
  rewrite !slice_slice in E by lia. replace (o + 0) with o in E by lia. rewrite !Z.min_id in E. exact E.
Qed.
Lemma entry_same e e' b : good_entry e -> good_entry e' -> entry_shown e b -> entry_shown e' b -> same_entry e e'.
Proof.
  intros [B L] [B' L'] H H'. destruct H as [oid dv df m name bv bf t1 t2 t3 low high H1 H2 H3 M N H4 H5 T1 T2 T3 TL TH].
  inversion H' as [oid' dv' df' m' name' bv' bf' t1' t2' t3' low' high' H1' H2' H3' M' N' H4' H5' T1' T2' T3' TL' TH']; subst. unfold same_entry.
  rewrite (slice_split e 20 36 68), (slice_split e' 20 36 68), (slice_split e 36 52 68), (slice_split e' 36 52 68), (slice_split e 84 100 116), (slice_split e' 84 100 116) by lia.
  pose proof (id_same e e' 20 _ B B' ltac:(lia) ltac:(lia) ltac:(lia) H1 H1') as E1. pose proof (id_same e e' 36 _ B B' ltac:(lia) ltac:(lia) ltac:(lia) H2 H2') as E2.
  pose proof (id_same e e' 52 _ B B' ltac:(lia) ltac:(lia) ltac:(lia) H3 H3') as E3. pose proof (id_same e e' 84 _ B B' ltac:(lia) ltac:(lia) ltac:(lia) H4 H4') as E4.
  pose proof (id_same e e' 100 _ B B' ltac:(lia) ltac:(lia) ltac:(lia) H5 H5') as E5. cbn [Z.add Pos.add Pos.succ] in E1, E2, E3, E4, E5.
  rewrite E1, E2, E3, E4, E5. split; [reflexivity|]. split; [reflexivity|]. split.
  - exists m. split; [exact M|]. destruct (stored_bytes e 68 16 _ B ltac:(lia) ltac:(lia) M) as [BM _]. destruct (stored_bytes e' 68 16 _ B' ltac:(lia) ltac:(lia) M') as [BM' _].
    rewrite (name_unique m m' _ BM BM' N N'). exact M'.
  - eapply filetime_far; [apply fld_bound; auto; lia|apply fld_bound; auto; lia|exact TL|exact TL'].
Qed.

(** Two tables with the same report have the same machine and volume, and entries
    that are the same one by one, whatever characters the names hold. *)
Theorem C82_exact : forall data data' h h' es es' st st', bytes_ok data -> bytes_ok data' ->
  mt_header data (mt_sector_size data None) = Ok h -> mt_header data' (mt_sector_size data' None) = Ok h' ->
  mt_log_entries data (mt_sector_size data None) = (es, st) -> mt_log_entries data' (mt_sector_size data' None) = (es', st') ->
  log_text (fst (move_report data)) = log_text (fst (move_report data')) ->
  (exists m, stored_name h 40 16 m /\ stored_name h' 40 16 m) /\ slice h 56 72 = slice h' 56 72 /\ Forall2 same_entry es es'.
Proof.
  intros data data' h h' es es' st st' B B' H H' E E' T.
  pose proof (C82_report data B) as R. pose proof (C82_report data' B') as R'. rewrite H in R. rewrite H' in R'.
  destruct (R _ _ E) as (hb & bs & EQ & HS & ES). destruct (R' _ _ E') as (hb' & bs' & EQ' & HS' & ES'). rewrite EQ, EQ' in T. clear R R' EQ EQ'. cbn [fst log_text flat_map] in T.
  apply C51_header in H as (Hh & LH & _). apply C51_header in H' as (Hh' & LH' & _).
  assert (BH : bytes_ok h) by (rewrite Hh; now apply bytes_ok_slice). assert (BH' : bytes_ok h') by (rewrite Hh'; now apply bytes_ok_slice).
  apply (header_prefix h h' hb hb' _ _ BH BH' ltac:(lia) ltac:(lia) HS HS') in T as [<- T].
  pose proof (mt_loop_good (S (List.length data)) data (mt_sector_size data None) B 1) as G. fold (mt_log_entries data (mt_sector_size data None)) in G. rewrite E in G.
  pose proof (mt_loop_good (S (List.length data')) data' (mt_sector_size data' None) B' 1) as G'. fold (mt_log_entries data' (mt_sector_size data' None)) in G'. rewrite E' in G'. cbn [fst] in G, G'.
  apply (entries_text es es' bs bs' G G' ES ES') in T as <-.
  destruct HS as [m name volume M N V]. inversion HS' as [m' name' volume' M' N' V']; subst name' volume'. split; [|split].
  - exists m. split; [exact M|]. destruct (stored_bytes h 40 16 _ BH ltac:(lia) ltac:(lia) M) as [BM _]. destruct (stored_bytes h' 40 16 _ BH' ltac:(lia) ltac:(lia) M') as [BM' _].
    rewrite (name_unique m m' _ BM BM' N N'). exact M'.
  - exact (id_same h h' 56 _ BH BH' ltac:(lia) ltac:(lia) ltac:(lia) V V').
  - clear - G G' ES ES'. revert es' G' ES'. induction ES as [|e b es bs S ES IH]; intros es' G' ES'; inversion ES' as [|e' ? es'' ? S' ES'']; subst; [constructor|].
    inversion G; subst. inversion G'; subst. constructor; [eapply entry_same; eauto|now apply IH].
Qed.
Print Assumptions C82_exact.

(** ** Examples *)

(** A name of one, of two and of one possible readings. *)
Example C82_name_example :
  decode_string (txt "PC-7") = txt "PC-7" /\ decode_string [80; 0x8A] = txt """P" ++ [0x41A] ++ txt """ (cp-866), ""P" ++ [0x160] ++ txt """ (windows-1252)" /\
  decode_string [0x90] = [0x420].
Proof. vm_compute. auto. Qed.

(** A table with a name that looks like the end of a block. *)
Definition move_id (k : Z) : list Z := le_bytes 4 k ++ [0; 0; 0x00; 0x10; 0x80; 1; 2; 3; 4; 5; 6; 7].
Definition move_sample_entry : list Z :=
  zeros 8 ++ le_bytes 4 2 ++ zeros 8 ++ move_id 1 ++ move_id 2 ++ move_id 3 ++ [65; 10; 10; 45; 45; 45; 10; 10] ++ zeros 8 ++ move_id 4 ++ move_id 5 ++ le_bytes 4 0x01D00000 ++ zeros 4.
Definition move_sample : list Z :=
  mt_signature ++ zeros 24 ++ txt "HOST" ++ zeros 12 ++ move_id 9 ++ zeros 440 ++ move_sample_entry ++ mt_entry 1 0 ++ mt_entry 1 0 ++ mt_entry 1 0 ++ zeros 16.
Example C82_example : exists hb b, move_report move_sample = ([hb; b], Done) /\
  block_text hb = txt "File header:" ++ [10] ++ txt " * Machine ID: HOST" ++ [10] ++ txt " * Volume object ID: 00000009-0000-1000-8001-020304050607" ++ separator /\
  nth 0 b [] = [Txt (txt "Object ID: "); Txt (txt "00000001-0000-1000-8001-020304050607")] /\
  line_text (nth 11 b []) = txt " * Object ID: 1582-10-15 00:00:00.000000" /\
  line_text (nth 15 b []) = txt "Timestamp (range): 2014-11-14 11:41:59.374438 - 2014-11-14 11:49:08.871168".
Proof. eexists. eexists. split; [vm_compute; reflexivity|]. vm_compute. repeat split; reflexivity. Qed.
