(** Model of the start of the daemon: mercuriod/src/config.rs 1-140 and mercuriod/src/main.rs 62-168
    without the subcommand [passwd] (Passwd.v). *)
From Coq Require Import String.
From Verif Require Import Base Codec Maps Str Server Credentials Passwd Listener.

(** ** The configuration file *)

(** A TOML document, as the crate [toml] gives it to serde; what the configuration does not use
    (floats, dates, arrays) is [TOther]. Simplified: serde would take an array in place of a
    section, with the fields in order; here that is an error. *)
Inductive toml :=
| TString (s : chars)
| TInteger (z : Z)
| TBoolean (b : bool)
| TTable (t : list (chars * toml))
| TOther.
Definition table := list (chars * toml).

(** serde's derived visitors: a field that is not there is given by [missing], one that is there
    by [read]; [None] is the error that [toml::from_str] returns. Keys that are no field are
    ignored. *)
Definition field {A : Type} (k : chars) (missing : A) (read : toml -> option A) (t : table) : option A :=
  match aget bytes_eqb k t with
  | None => Some missing
  | Some v => read v
  end.
(** serde: [String] *)
Definition read_string (v : toml) : option chars := match v with TString s => Some s | _ => None end.
(** serde: [bool] *)
Definition read_bool (v : toml) : option bool := match v with TBoolean b => Some b | _ => None end.
(** serde: [u16] and [usize], from TOML's 64-bit signed numbers *)
Definition read_uint (max : Z) (v : toml) : option N :=
  match v with
  | TInteger z => if (0 <=? z)%Z && (z <=? max)%Z then Some (Z.to_N z) else None
  | _ => None
  end.
(** serde: [Option<String>], which is [None] if it is not there *)
Definition read_optional (v : toml) : option (option chars) := option_map Some (read_string v).
(** serde: a struct *)
Definition read_section {A : Type} (read : table -> option A) (v : toml) : option A :=
  match v with TTable t => read t | _ => None end.

(** config.rs 32-49. *)
Record server_section := Mk_server_section {
  ss_host : chars;
  ss_port : N;
  ss_max_connections : N;
  ss_tls : tls_section
}.
(** config.rs 114-126, with the path (Passwd.v has the file that it names) *)
Record auth_file_section := Mk_auth_file_section {
  af_enabled : bool;
  af_allow_anonymous : bool;
  af_password_file : option chars
}.
(** config.rs 10-19 *)
Record daemon_settings := Mk_daemon_settings {
  ds_server : server_section;
  ds_log_level : chars;
  ds_auth : auth_file_section
}.
(** config.rs 62-78, [Default] *)
Definition tls_default : tls_section := Mk_tls_section false None None None.
(** config.rs 51-60, 80-90 *)
Definition server_default : server_section := Mk_server_section (str "127.0.0.1") 1883 10000 tls_default.
(** config.rs 128-140 *)
Definition auth_default : auth_file_section := Mk_auth_file_section false true None.
(** config.rs 8, 100-110 *)
Definition settings_default : daemon_settings := Mk_daemon_settings server_default (str "info") auth_default.

(** config.rs 63-78 *)
Definition read_tls (t : table) : option tls_section :=
  match field (str "enabled") false read_bool t,
        field (str "cert_path") None read_optional t,
        field (str "key_path") None read_optional t,
        field (str "ca_path") None read_optional t with
  | Some e, Some c, Some k, Some a =>
      Some (Mk_tls_section e c k a)
  | _, _, _, _ => None
  end.
(** config.rs 31-49 *)
Definition read_server (t : table) : option server_section :=
  match field (str "host") (str "127.0.0.1") read_string t,
        field (str "port") 1883 (read_uint 65535) t,
        field (str "max_connections") 10000 (read_uint 18446744073709551615) t,
        field (str "tls") tls_default (read_section read_tls) t with
  | Some h, Some p, Some m, Some s => Some (Mk_server_section h p m s)
  | _, _, _, _ => None
  end.
(** config.rs 93-98 *)
Definition read_logging (t : table) : option chars := field (str "level") (str "info") read_string t.
(** config.rs 113-126 *)
Definition read_auth (t : table) : option auth_file_section :=
  match field (str "enabled") false read_bool t,
        field (str "allow_anonymous") true read_bool t,
        field (str "password_file") None read_optional t with
  | Some e, Some a, Some f => Some (Mk_auth_file_section e a f)
  | _, _, _ => None
  end.
(** config.rs 8-19 *)
Definition read_settings (t : table) : option daemon_settings :=
  match field (str "server") server_default (read_section read_server) t,
        field (str "logging") (str "info") (read_section read_logging) t,
        field (str "auth") auth_default (read_section read_auth) t with
  | Some s, Some l, Some a => Some (Mk_daemon_settings s l a)
  | _, _, _ => None
  end.

(** ** The start *)

(** What the machine is like when the daemon is started. Parameters of the model, not modelled
    themselves. *)
Record machine := Mk_machine {
  mc_exists : chars -> bool;                 (* [Path::exists] *)
  mc_document : chars -> option table;       (* [read_to_string] and TOML syntax; [None]: an error of these *)
  mc_password_file : chars -> file;          (* as in Passwd.v *)
  mc_binds : chars -> bool;                  (* [TcpListener::bind] succeeds *)
  mc_loads : tls_files -> bool;              (* [build_acceptor] succeeds, as in Listener.v *)
  mc_verify : bytes -> bytes -> bool         (* argon2, as in Credentials.v *)
}.
(** main.rs 23-42 without subcommand; the path of the configuration is given as characters *)
Record command_line := Mk_command_line {
  cm_config : option chars;                  (* -c *)
  cm_listen : option chars;                  (* -l *)
  cm_verbose : bool                          (* -v *)
}.
(** What becomes of the process. *)
Inductive outcome :=
| Exits (status : N)
| Runs (address : chars) (t : transport) (level : chars) (c : config).

(** [format!("{}", port)]: the digits of a number, the last ones first in [dec_rev] *)
Fixpoint dec_rev (fuel : nat) (n : N) : chars :=
  match fuel with
  | O => []
  | S f => (48 + n mod 10) :: (if n / 10 =? 0 then [] else dec_rev f (n / 10))
  end.
Definition decimal (n : N) : chars := rev (dec_rev 20 n).

(** main.rs 32, 86 *)
Definition default_path : chars := str "/etc/mercurio/config.toml".
(** main.rs 83-91, config.rs 23-27; [None]: exit status 1, by [exit] or by an error of [main] *)
Definition load_settings (m : machine) (c : command_line) : option daemon_settings :=
  let path := match cm_config c with Some p => p | None => default_path end in
  if mc_exists m path then
    match mc_document m path with
    | Some t => read_settings t
    | None => None
    end
  else if bytes_eqb path default_path then Some settings_default
  else None.
(** main.rs 138-160, on the file that the path names *)
Definition auth_of (m : machine) (a : auth_file_section) : auth_section :=
  Mk_auth_section (af_enabled a) (af_allow_anonymous a) (option_map (mc_password_file m) (af_password_file a)).
(** main.rs 94-98. Simplified: the level is handed on as it is; a level that is no filter is
    replaced by "info" (line 100). *)
Definition log_level (c : command_line) (d : daemon_settings) : chars :=
  if cm_verbose c then str "debug" else ds_log_level d.
(** main.rs 104-106 *)
Definition listen_address (c : command_line) (d : daemon_settings) : chars :=
  match cm_listen c with
  | Some a => a
  | None => ss_host (ds_server d) ++ 58 :: decimal (ss_port (ds_server d))
  end.
(** main.rs 82-167: the order is configuration, address, TLS section, password file, TLS files *)
Definition daemon (m : machine) (c : command_line) : outcome :=
  match load_settings m c with
  | None => Exits 1
  | Some d =>
      let address := listen_address c d in
      if mc_binds m address then
        match daemon_tls (ss_tls (ds_server d)) with
        | None => Exits 1
        | Some _ =>
            match daemon_config (mc_verify m) (Mk_settings (ss_max_connections (ds_server d)) (auth_of m (ds_auth d))) with
            | None => Exits 1
            | Some cfg =>
                match daemon_start (mc_loads m) (ss_tls (ds_server d)) with
                | Refused => Exits 1
                | Returned => Exits 0
                | Serves t => Runs address t (log_level c d) cfg
                end
            end
        end
      else Exits 1
  end.
