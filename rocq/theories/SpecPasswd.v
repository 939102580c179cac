(** What a password file means, independently of Passwd.v. Texts are lists of characters.
    10 line feed, 35 '#', 36 '$', 58 ':'. *)
From Verif Require Import Base.

(** The Unicode characters with the property White_Space. *)
Definition white_space : list N :=
  [0x9; 0xA; 0xB; 0xC; 0xD; 0x20; 0x85; 0xA0; 0x1680; 0x2000; 0x2001; 0x2002; 0x2003; 0x2004;
   0x2005; 0x2006; 0x2007; 0x2008; 0x2009; 0x200A; 0x2028; 0x2029; 0x202F; 0x205F; 0x3000].
Definition space (c : N) : Prop := In c white_space.

(** The lines of a text; a last line without line feed counts unless it is empty. *)
Inductive text_lines : list N -> list (list N) -> Prop :=
| tl_nil : text_lines [] []
| tl_last l : l <> [] -> ~ In 10 l -> text_lines l [l]
| tl_cons l s ls : ~ In 10 l -> text_lines s ls -> text_lines (l ++ 10 :: s) (l :: ls).

Definition blank (l : list N) : Prop := Forall space l.
Definition comment (l : list N) : Prop := exists a r, blank a /\ l = a ++ 35 :: r.
Definition ignored (l : list N) : Prop := blank l \/ comment l.
(** No character [P] at the beginning, at the end. *)
Definition not_first (P : N -> Prop) (l : list N) : Prop := forall c r, l = c :: r -> ~ P c.
Definition not_last (P : N -> Prop) (l : list N) : Prop := forall c r, l = r ++ [c] -> ~ P c.
(** The line [l] gives user [u] the hash [h]: u:h, with space around. *)
Definition entry_line (l u h : list N) : Prop :=
  exists a b, l = a ++ u ++ 58 :: h ++ b /\ blank a /\ blank b /\ ~ In 58 u
    /\ not_first space u /\ not_first (eq 35) u /\ not_last space h.
(** The file gives user [u] the hash [h]: in its last line about [u]. *)
Definition file_maps (ls : list (list N)) (u h : list N) : Prop :=
  exists a l b, ls = a ++ l :: b /\ entry_line l u h /\ forall l' h', In l' b -> ~ entry_line l' u h'.

(** A user name that a password file can hold. *)
Definition plain_name (u : list N) : Prop :=
  ~ In 58 u /\ ~ In 10 u /\ not_first space u /\ not_first (eq 35) u.
(** A hash that a password file can hold: the argon2 crate writes graphic ASCII characters. *)
Definition hash_text (h : list N) : Prop := ~ In 10 h /\ not_last space h.
