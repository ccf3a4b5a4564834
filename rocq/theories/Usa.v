(** The update sequence loop shared by index buffers (Attributes.py:199-216) and
    log pages (LogFile.py:165-182).  None: a sector tail does not carry the
    sequence number (the callers return None or raise). *)
From Verif Require Import Base.

Definition USA_STRIDE : Z := 512. (* Attributes.py:138, LogFile.py *)

Fixpoint usa_loop (fuel : nat) (seqn : list Z) (usa_offset usa_size : Z) (buf : list Z) (i : Z)
  : result (option (list Z)) :=
  match fuel with
  | O => Err OutOfFuel
  | S fuel =>
    if i <? usa_size then
      let update_bytes := slice buf (usa_offset + i * 2) (usa_offset + i * 2 + 2) in
      let offset_in_buf := i * USA_STRIDE - 2 in
      if negb (zlist_eqb seqn (slice buf offset_in_buf (offset_in_buf + 2))) then Ok None else
      let! b0 := index update_bytes 0 in
      let! b1 := index update_bytes 1 in
      usa_loop fuel seqn usa_offset usa_size
        (zset (zset buf offset_in_buf b0) (offset_in_buf + 1) b1) (i + 1)
    else Ok (Some buf)
  end.

Definition usa_apply (buf : list Z) (usa_offset usa_size : Z) : result (option (list Z)) :=
  usa_loop (S (Z.to_nat usa_size)) (slice buf usa_offset (usa_offset + 2)) usa_offset usa_size buf 1.
