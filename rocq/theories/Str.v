(** Readable byte-string literals for examples. *)
From Coq Require Import String Ascii.
From Verif Require Import Base.
Definition str (s : string) : bytes := map N_of_ascii (list_ascii_of_string s).
