(** UTF-8 validation as done by [String::from_utf8] (Rust standard library).
    The library is not part of /repo; this is its documented behaviour (well-formed
    byte sequences of the Unicode standard, table 3-7), used by
    mercurio-core/src/codec.rs 120-123 and mercurio-server/src/auth.rs 64-81. *)
From Verif Require Import Base.

Definition in_range (lo hi b : N) : bool := (lo <=? b) && (b <=? hi).
Definition is_cont (b : N) : bool := in_range 0x80 0xBF b.

(** One step per code point; the recursion is structural on the rest. *)
Fixpoint utf8_valid (bs : bytes) : bool :=
  match bs with
  | [] => true
  | b1 :: r1 =>
      if b1 <? 0x80 then utf8_valid r1
      else
        match r1 with
        | [] => false
        | b2 :: r2 =>
            if in_range 0xC2 0xDF b1 then is_cont b2 && utf8_valid r2
            else
              match r2 with
              | [] => false
              | b3 :: r3 =>
                  if b1 =? 0xE0 then in_range 0xA0 0xBF b2 && is_cont b3 && utf8_valid r3
                  else if in_range 0xE1 0xEC b1 then is_cont b2 && is_cont b3 && utf8_valid r3
                  else if b1 =? 0xED then in_range 0x80 0x9F b2 && is_cont b3 && utf8_valid r3
                  else if in_range 0xEE 0xEF b1 then is_cont b2 && is_cont b3 && utf8_valid r3
                  else
                    match r3 with
                    | [] => false
                    | b4 :: r4 =>
                        if b1 =? 0xF0 then
                          in_range 0x90 0xBF b2 && is_cont b3 && is_cont b4 && utf8_valid r4
                        else if in_range 0xF1 0xF3 b1 then
                          is_cont b2 && is_cont b3 && is_cont b4 && utf8_valid r4
                        else if b1 =? 0xF4 then
                          in_range 0x80 0x8F b2 && is_cont b3 && is_cont b4 && utf8_valid r4
                        else false
                    end
              end
        end
  end.
