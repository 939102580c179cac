(** Model of the password file and the start-up of the daemon: mercuriod/src/main.rs 138-252.
    A text is the list of its characters (Unicode scalar values), as Rust's [String] presents
    it to [lines], [trim] and [split_once]; its UTF-8 bytes are [encode]. *)
From Coq Require Import String.
From Verif Require Import Base Utf8 Codec SpecCodec Maps Auth Credentials Server Str.
Local Open Scope list_scope.

Notation chars := (list N) (only parsing).
(** The bytes of a [String]. *)
Definition encode (cs : chars) : bytes := flat_map utf8_encode1 cs.

(** A file as [std::fs::read_to_string] sees it: its text, or [None] if it is missing,
    unreadable or not UTF-8. *)
Definition file := option chars.

(** [char::is_whitespace] (Rust standard library): the Unicode property White_Space. *)
Definition is_space (c : N) : bool :=
  in_range 9 13 c || (c =? 32) || (c =? 0x85) || (c =? 0xA0) || (c =? 0x1680)
  || in_range 0x2000 0x200A c || (c =? 0x2028) || (c =? 0x2029) || (c =? 0x202F)
  || (c =? 0x205F) || (c =? 0x3000).

(** [str::lines] (Rust standard library). Simplified: a carriage return before the line feed
    is kept; main.rs 178 trims each line next, which removes it. *)
Fixpoint lines (s : chars) : list chars :=
  match s with
  | [] => []
  | c :: s =>
      if c =? 10 then [] :: lines s
      else match lines s with
           | [] => [[c]]
           | l :: ls => (c :: l) :: ls
           end
  end.

(** [str::trim] (Rust standard library). *)
Fixpoint trim_start (s : chars) : chars :=
  match s with
  | c :: s' => if is_space c then trim_start s' else s
  | [] => []
  end.
Definition trim (s : chars) : chars := rev (trim_start (rev (trim_start s))).

(** [str::split_once] with a character (Rust standard library). *)
Fixpoint split_once (d : N) (s : chars) : option (chars * chars) :=
  match s with
  | [] => None
  | c :: s =>
      if c =? d then Some ([], s)
      else match split_once d s with
           | Some (a, b) => Some (c :: a, b)
           | None => None
           end
  end.

(** main.rs 177-192. The error message is not modelled. *)
Fixpoint load_lines (ls : list chars) (acc : list (chars * chars)) : option (list (chars * chars)) :=
  match ls with
  | [] => Some acc
  | l :: ls =>
      match trim l with
      | [] => load_lines ls acc
      | c :: l' =>
          if c =? 35 then load_lines ls acc
          else match split_once 58 (c :: l') with
               | None => None
               | Some (u, h) => load_lines ls (aput bytes_eqb u h acc)
               end
      end
  end.
(** main.rs 172-194 *)
Definition load_password_file (f : file) : option (list (chars * chars)) :=
  match f with
  | None => None
  | Some content => load_lines (lines content) []
  end.

(** main.rs 233-235 *)
Definition load_password_file_entries (f : file) : list (chars * chars) :=
  match load_password_file f with Some m => m | None => [] end.

(** main.rs 244-247 *)
Definition header : chars :=
  str "# Mercurio password file" ++ 10 :: str "# Managed by `mercuriod passwd`. Do not edit manually." ++ [10].
(** main.rs 248-250: one entry. *)
Definition entry_text (e : chars * chars) : chars := fst e ++ 58 :: snd e ++ [10].
(** main.rs 238-252: the text written, when every write succeeds. [entries] is given in the
    order in which the Rust map is iterated. *)
Definition password_file_text (entries : list (chars * chars)) : chars := header ++ flat_map entry_text entries.

Section Passwd.
  (** The iteration order of the Rust [HashMap], which is arbitrary: a parameter. *)
  Variable order : list (chars * chars) -> list (chars * chars).
  (** main.rs 238-252 *)
  Definition write_password_file (entries : list (chars * chars)) : file :=
    Some (password_file_text (order entries)).
  (** main.rs 197-219: [None] if it fails, before any write. [password] and [confirm] are what
      the user types; [hash] is what argon2 returns for [password]. *)
  Definition add_or_update_user (f : file) (user password confirm hash : chars) : option file :=
    if match password with [] => true | _ => false end then None
    else if negb (bytes_eqb password confirm) then None
    else Some (write_password_file (aput bytes_eqb user hash (load_password_file_entries f))).
  (** main.rs 222-230: [None] if it fails, before any write. *)
  Definition delete_user (f : file) (user : chars) : option file :=
    let entries := load_password_file_entries f in
    match aget bytes_eqb user entries with
    | None => None
    | Some _ => Some (write_password_file (adel bytes_eqb user entries))
    end.
End Passwd.

(** config.rs 113-125, the fields of the section [auth]; [ac_password_file] is the file that
    the path names. *)
Record auth_section := Mk_auth_section {
  ac_enabled : bool;
  ac_allow_anonymous : bool;
  ac_password_file : option file
}.
(** config.rs 10-19: the configuration file. Of the section [server] only [max_connections]
    (lines 42-44), which nothing reads, is kept; Daemon.v has the others. *)
Record settings := Mk_settings {
  st_max_connections : N;
  st_auth : auth_section
}.

(** The map handed to [HashedCredentialValidator::new], as the bytes that CONNECT packets carry. *)
Definition stored_credentials (m : list (chars * chars)) : credentials :=
  map (fun e => (encode (fst e), encode (snd e))) m.

Section Daemon.
  (** As in Credentials.v. *)
  Variable verify : bytes -> bytes -> bool.
  (** main.rs 138-160; [None]: the daemon stops with an error (line 141). *)
  Definition daemon_config (d : settings) : option config :=
    let a := st_auth d in
    if ac_enabled a then
      match ac_password_file a with
      | None => Some (Mk_config true None None)
      | Some f =>
          match load_password_file f with
          | None => None
          | Some m => Some (Mk_config true (Some (hashed_validate verify (stored_credentials m))) None)
          end
      end
    else Some (Mk_config false None None).
End Daemon.
