(** Model of mercurio-server/src/auth.rs. *)
From Verif Require Import Base Utf8 Codec Maps.

(** auth.rs 12-21 *)
Inductive auth_result := AuthSuccess | AuthContinue (challenge : bytes) | AuthFailed (r : reason).

(** auth.rs 27-43: a method is given by its two functions. *)
Record auth_method := Mk_auth_method {
  am_start : option bytes -> auth_result;
  am_continue : bytes -> auth_result
}.

(** auth.rs 49-52: username -> password. Strings are byte lists. *)
Definition credentials := list (bytes * bytes).

(** [iter().position(|&b| b == 0)] as a split at the first NUL. *)
Fixpoint split_nul (bs : bytes) : option (bytes * bytes) :=
  match bs with
  | [] => None
  | b :: bs =>
      if b =? 0 then Some ([], bs)
      else match split_nul bs with Some (u, p) => Some (b :: u, p) | None => None end
  end.

(** auth.rs 64-81 *)
Definition parse_plain_data (data : bytes) : option (bytes * bytes) :=
  match data with
  | [] => None
  | b :: rest =>
      if negb (b =? 0) then None
      else match split_nul rest with
           | None => None
           | Some (u, p) =>
               if negb (utf8_valid u) then None
               else if negb (utf8_valid p) then None
               else Some (u, p)
           end
  end.

(** auth.rs 89-104 *)
Definition plain_start (creds : credentials) (data : option bytes) : auth_result :=
  match data with
  | None => AuthFailed BadAuthenticationMethod
  | Some data =>
      match parse_plain_data data with
      | None => AuthFailed MalformedPacket
      | Some (u, p) =>
          match aget bytes_eqb u creds with
          | Some stored => if bytes_eqb stored p then AuthSuccess else AuthFailed BadUserNameOrPassword
          | None => AuthFailed BadUserNameOrPassword
          end
      end
  end.
(** auth.rs 106-109 *)
Definition plain_continue (_ : bytes) : auth_result := AuthFailed ProtocolError.
(** auth.rs 83-110; the name "PLAIN" (line 85) *)
Definition plain_auth (creds : credentials) : auth_method :=
  Mk_auth_method (plain_start creds) plain_continue.
Definition plain_name : bytes := [80; 76; 65; 73; 78].

(** auth.rs 134-145 *)
Definition simple_validate (creds : credentials) (user password : bytes) : bool :=
  if utf8_valid password then
    match aget bytes_eqb user creds with Some stored => bytes_eqb stored password | None => false end
  else false.

(** auth.rs 147-151, 167-169 *)
Definition auth_manager := list (bytes * auth_method).
Definition register (name : bytes) (m : auth_method) (am : auth_manager) : auth_manager :=
  aput bytes_eqb name m am.
(** auth.rs 172-174 *)
Definition supports_method (am : auth_manager) (name : bytes) : bool :=
  is_some (aget bytes_eqb name am).
(** auth.rs 182-187 *)
Definition start_auth (am : auth_manager) (name : bytes) (data : option bytes) : auth_result :=
  match aget bytes_eqb name am with
  | Some m => am_start m data
  | None => AuthFailed BadAuthenticationMethod
  end.
(** auth.rs 190-195 *)
Definition continue_auth (am : auth_manager) (name : bytes) (data : bytes) : auth_result :=
  match aget bytes_eqb name am with
  | Some m => am_continue m data
  | None => AuthFailed BadAuthenticationMethod
  end.
