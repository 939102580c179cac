(** Independent specifications for the primitive encodings (MQTT 5.0 sections 1.5.x
    and the Unicode standard). Nothing here refers to the model of the code. *)
From Verif Require Import Base.

(** Value of a little-endian base-128 digit string (MQTT 1.5.5): every byte
    contributes its low seven bits; every byte but the last has the high bit set. *)
Inductive vbi_denotes : bytes -> N -> Prop :=
| vbi_last b : b < 128 -> vbi_denotes [b] b
| vbi_more b bs n : 128 <= b -> b < 256 -> vbi_denotes bs n ->
                    vbi_denotes (b :: bs) ((b - 128) + 128 * n).

Definition vbi_max : N := 268435455.

(** UTF-8 encoding of a Unicode scalar value (Unicode table 3-6). *)
Definition scalar (c : N) : Prop := c < 0xD800 \/ (0xE000 <= c /\ c < 0x110000).

Definition utf8_encode1 (c : N) : bytes :=
  if c <? 0x80 then [c]
  else if c <? 0x800 then [0xC0 + c / 64; 0x80 + c mod 64]
  else if c <? 0x10000 then
    [0xE0 + c / 4096; 0x80 + (c / 64) mod 64; 0x80 + c mod 64]
  else
    [0xF0 + c / 262144; 0x80 + (c / 4096) mod 64; 0x80 + (c / 64) mod 64; 0x80 + c mod 64].

(** A byte string is well-formed UTF-8 if it encodes a sequence of scalar values. *)
Definition utf8 (bs : bytes) : Prop :=
  exists cs, Forall scalar cs /\ bs = flat_map utf8_encode1 cs.
