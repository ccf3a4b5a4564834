(** UTF-8 as in the Unicode standard (table 3-7, well-formed byte sequences). *)
From Verif Require Import Base.

Definition within (lo hi b : Z) : Prop := lo <= b <= hi.
Definition follows (b : Z) : Prop := within 0x80 0xBF b.

Inductive sequence : list Z -> Z -> Prop :=
| seq_1 : forall a, within 0 0x7F a -> sequence [a] a
| seq_2 : forall a b, within 0xC2 0xDF a -> follows b -> sequence [a; b] ((a - 0xC0) * 64 + (b - 0x80))
| seq_3 : forall a b c,
    (a = 0xE0 /\ within 0xA0 0xBF b \/ within 0xE1 0xEC a /\ follows b \/
     a = 0xED /\ within 0x80 0x9F b \/ within 0xEE 0xEF a /\ follows b) -> follows c ->
    sequence [a; b; c] ((a - 0xE0) * 4096 + (b - 0x80) * 64 + (c - 0x80))
| seq_4 : forall a b c d,
    (a = 0xF0 /\ within 0x90 0xBF b \/ within 0xF1 0xF3 a /\ follows b \/ a = 0xF4 /\ within 0x80 0x8F b) ->
    follows c -> follows d ->
    sequence [a; b; c; d] ((a - 0xF0) * 262144 + (b - 0x80) * 4096 + (c - 0x80) * 64 + (d - 0x80)).

(** The bytes hold this text. *)
Inductive holds_text : list Z -> list Z -> Prop :=
| text_nil : holds_text [] []
| text_cons : forall q c b s, sequence q c -> holds_text b s -> holds_text (q ++ b) (c :: s).
