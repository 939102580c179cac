(** Specification of the configuration of the daemon, independent of the code: what a document
    says, and what may be said. *)
From Coq Require Import String.
From Verif Require Import Base Maps Str Passwd Daemon.

(** The document has the value [v] under the dotted name [p]. *)
Inductive says : table -> list chars -> toml -> Prop :=
| says_here t k v : In (k, v) t -> says t [k] v
| says_inside t k t' p v : In (k, TTable t') t -> says t' p v -> says t (k :: p) v.
Definition silent (t : table) (p : list chars) : Prop := forall v, ~ says t p v.

(** TOML has no document with a key twice. *)
Inductive tidy : toml -> Prop :=
| tidy_value v : (forall t, v <> TTable t) -> tidy v
| tidy_table t : NoDup (map fst t) -> (forall k v, In (k, v) t -> tidy v) -> tidy (TTable t).

(** The settings of mercuriod/contrib/config.toml and their types. *)
Definition a_string (v : toml) : Prop := exists s, v = TString s.
Definition a_boolean (v : toml) : Prop := exists b, v = TBoolean b.
Definition a_number_to (max : Z) (v : toml) : Prop := exists z, v = TInteger z /\ (0 <= z <= max)%Z.
Definition a_table (v : toml) : Prop := exists t, v = TTable t.
Inductive setting : list chars -> (toml -> Prop) -> Prop :=
| set_host : setting [str "server"; str "host"] a_string
| set_port : setting [str "server"; str "port"] (a_number_to 65535)
| set_max : setting [str "server"; str "max_connections"] (a_number_to 18446744073709551615)
| set_tls : setting [str "server"; str "tls"; str "enabled"] a_boolean
| set_cert : setting [str "server"; str "tls"; str "cert_path"] a_string
| set_key : setting [str "server"; str "tls"; str "key_path"] a_string
| set_ca : setting [str "server"; str "tls"; str "ca_path"] a_string
| set_level : setting [str "logging"; str "level"] a_string
| set_auth : setting [str "auth"; str "enabled"] a_boolean
| set_anonymous : setting [str "auth"; str "allow_anonymous"] a_boolean
| set_password_file : setting [str "auth"; str "password_file"] a_string.
Inductive section : list chars -> Prop :=
| sec_server : section [str "server"]
| sec_tls : section [str "server"; str "tls"]
| sec_logging : section [str "logging"]
| sec_auth : section [str "auth"].
(** Every setting that is there has its type. *)
Definition conforms (t : table) : Prop :=
  (forall p P v, setting p P -> says t p v -> P v) /\ (forall p v, section p -> says t p v -> a_table v).

(** The decimal number [n], without superfluous zeros. *)
Definition digit (c : N) : Prop := 48 <= c <= 57.
Definition number_of (ds : chars) : N := fold_left (fun a c => 10 * a + (c - 48)) ds 0.
Definition writes_number (n : N) (ds : chars) : Prop :=
  Forall digit ds /\ ds <> [] /\ number_of ds = n /\ (forall r, ds = 48 :: r -> r = []).

(** The setting is a string, or [d] if it is not set. *)
Definition string_or (t : table) (p : list chars) (d s : chars) : Prop :=
  says t p (TString s) \/ (silent t p /\ s = d).
Definition number_or (t : table) (p : list chars) (d n : N) : Prop :=
  says t p (TInteger (Z.of_N n)) \/ (silent t p /\ n = d).

(** The document that the daemon is started with. *)
Definition with_document (m : machine) (c : command_line) (t : table) : Prop :=
  exists path, (cm_config c = Some path \/ cm_config c = None /\ path = str "/etc/mercurio/config.toml")
    /\ mc_exists m path = true /\ mc_document m path = Some t /\ tidy (TTable t).
