(** Model of mercuriod/src/credentials.rs. *)
From Verif Require Import Base Utf8 Codec Maps Auth.

(** [stored.starts_with('$')] *)
Definition is_hash (stored : bytes) : bool := match stored with 36 :: _ => true | _ => false end.

Section Hashed.
  (** [PasswordHash::new] and [Argon2::verify_password] of the argon2 crate are not
      modelled: [verify stored password] is true when the first parses [stored] and the
      second accepts the password. It is a parameter, so every theorem holds for any such function. *)
  Variable verify : bytes -> bytes -> bool.
  (** credentials.rs 24-47 *)
  Definition hashed_validate (creds : credentials) (user password : bytes) : bool :=
    match aget bytes_eqb user creds with
    | None => false
    | Some stored =>
        if is_hash stored then verify stored password
        else if utf8_valid password then bytes_eqb stored password else false
    end.
End Hashed.
