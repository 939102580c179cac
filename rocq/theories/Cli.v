(** The command line client: mercurio/src/main.rs and common.rs, and the choice of the
    transport in mercurio-client/src/client.rs 76-126 and tls.rs 15-51.

    Not modelled: parsing of the command line (clap), logging, host and port, what is
    written to stderr, a broken stdout, a Ctrl-C while no handler is installed (it kills
    the process). *)
From Coq Require Import String.
From Verif Require Import Base Utf8 Codec PacketProps Packets Frame Client Str.

(** ** Arguments *)

(** common.rs 9-53 [ConnectionArgs], without host, port and verbosity. *)
Record connection_args := Mk_connection_args {
  ar_client_id : option bytes;
  ar_username : option bytes;
  ar_password : option bytes;
  ar_keep_alive : N;
  ar_version : bytes;
  ar_tls : bool;
  ar_cafile : option bytes;
  ar_insecure : bool
}.

(** options.rs 36-44 [TlsOptions] *)
Record tls_options := Mk_tls_options {
  tl_enabled : bool;
  tl_ca_path : option bytes;
  tl_skip_verify : bool
}.

(** common.rs 89-96 [parse_protocol_version] *)
Definition parse_version (s : bytes) : version :=
  if bytes_eqb s (str "5") || bytes_eqb s (str "5.0") || bytes_eqb s (str "v5") then V5
  else if bytes_eqb s (str "311") || bytes_eqb s (str "3.1.1") || bytes_eqb s (str "v311") then V3_1_1
  else if bytes_eqb s (str "31") || bytes_eqb s (str "3.1") || bytes_eqb s (str "v31") then V3_1
  else V5.

(** common.rs 57-87 [to_connect_options]: the options of the MQTT layer and those of TLS
    (both are fields of the one [ConnectOptions] in the code). *)
Definition to_connect_options (a : connection_args) : connect_options :=
  Mk_connect_options (ar_client_id a) (ar_username a) (ar_password a) (ar_keep_alive a)
    (op_clean_start options_new) (op_will options_new) (parse_version (ar_version a)).
Definition to_tls_options (a : connection_args) : tls_options :=
  Mk_tls_options (ar_tls a) (ar_cafile a) (ar_insecure a).

(** How the bytes of the connection travel: client.rs 76-126, tls.rs 23-48. [TlsCa p]: the
    certificates in file [p] are trusted (53-70; an unreadable or empty file is an error,
    [ca_loads]); [TlsRoots]: those built into the program. *)
Inductive transport := Plain | TlsAnyone | TlsCa (path : bytes) | TlsRoots.
Definition open_transport (ca_loads : bytes -> bool) (o : tls_options) : option transport :=
  if tl_enabled o then
    if tl_skip_verify o then Some TlsAnyone
    else match tl_ca_path o with
         | Some p => if ca_loads p then Some (TlsCa p) else None
         | None => Some TlsRoots
         end
  else Some Plain.

(** main.rs 232-242 [parse_qos]; [None]: the process exits with status 1. *)
Definition parse_qos (n : N) : option qos :=
  match n with 0 => Some AtMostOnce | 1 => Some AtLeastOnce | 2 => Some ExactlyOnce | _ => None end.

(** ** What is printed *)

(** [String::from_utf8_lossy] (Rust standard library, not part of /repo; its documented
    behaviour): every maximal part of an ill-formed sequence becomes U+FFFD. *)
Definition replacement : bytes := [0xEF; 0xBF; 0xBD].
Definition lead3 (b1 b2 : N) : bool :=
  ((b1 =? 0xE0) && in_range 0xA0 0xBF b2) || (in_range 0xE1 0xEC b1 && is_cont b2)
  || ((b1 =? 0xED) && in_range 0x80 0x9F b2) || (in_range 0xEE 0xEF b1 && is_cont b2).
Definition lead4 (b1 b2 : N) : bool :=
  ((b1 =? 0xF0) && in_range 0x90 0xBF b2) || (in_range 0xF1 0xF3 b1 && is_cont b2)
  || ((b1 =? 0xF4) && in_range 0x80 0x8F b2).
Fixpoint lossy (bs : bytes) : bytes :=
  match bs with
  | [] => []
  | b1 :: r1 =>
      if b1 <? 0x80 then b1 :: lossy r1
      else
        match r1 with
        | [] => replacement
        | b2 :: r2 =>
            if in_range 0xC2 0xDF b1 then
              if is_cont b2 then b1 :: b2 :: lossy r2 else replacement ++ lossy r1
            else if lead3 b1 b2 then
              match r2 with
              | [] => replacement
              | b3 :: r3 => if is_cont b3 then b1 :: b2 :: b3 :: lossy r3 else replacement ++ lossy r2
              end
            else if lead4 b1 b2 then
              match r2 with
              | [] => replacement
              | b3 :: r3 =>
                  if is_cont b3 then
                    match r3 with
                    | [] => replacement
                    | b4 :: r4 => if is_cont b4 then b1 :: b2 :: b3 :: b4 :: lossy r4
                                  else replacement ++ lossy r3
                    end
                  else replacement ++ lossy r2
              end
            else replacement ++ lossy r1
        end
  end.

(** main.rs 208-212 *)
Definition message_line (print_topic : bool) (topic payload : bytes) : bytes :=
  if print_topic then topic ++ str ": " ++ lossy payload ++ [10] else lossy payload ++ [10].

(** ** The two programs *)

(** What [run_publish] and [run_subscribe] do before connecting: give up, or connect with
    these options and then make the first call. *)
Inductive setup :=
| Quits
| Runs (o : connect_options) (t : tls_options) (first : command).

(** main.rs 131-157. [stdin]: what [read_to_string] returns ([None]: an error, e.g. because
    the input is not UTF-8). [publish] (client.rs 513-521) is [publish_with_retain] with
    false. *)
Definition publish_setup (a : connection_args) (topic : bytes) (message : option bytes)
    (stdin : option bytes) (q : N) (retain : bool) : setup :=
  match (match message with Some m => Some m | None => stdin end) with
  | None => Quits
  | Some payload =>
      match parse_qos q with
      | None => Quits
      | Some q => Runs (to_connect_options a) (to_tls_options a) (CmdPublish topic payload q retain)
      end
  end.

(** main.rs 175-197 *)
Definition with_will (o : connect_options) (w : will_options) : connect_options :=
  Mk_connect_options (op_client_id o) (op_username o) (op_password o) (op_keep_alive o)
    (op_clean_start o) (Some w) (op_version o).
Definition subscribe_setup (a : connection_args) (topics : list bytes) (q : N)
    (will_topic will_message : option bytes) (will_qos : N) (will_retain : bool) : setup :=
  match parse_qos q with
  | None => Quits
  | Some q =>
      let o := to_connect_options a in
      let first := CmdSubscribe (map (fun t => (t, q)) topics) in
      match will_topic with
      | Some t =>
          match parse_qos will_qos with
          | None => Quits
          | Some wq =>
              Runs (with_will o (Mk_will_options t (match will_message with Some m => m | None => [] end) wq will_retain))
                (to_tls_options a) first
          end
      | None => Runs o (to_tls_options a) first
      end
  end.

(** Which program runs. *)
Inductive tool := Publisher | Subscriber (print_topic : bool).

(** Where the program is: waiting for the answer to its first call; in the loop of main.rs
    205-222; in [disconnect] (160, 227); gone, with success or failure as exit status. *)
Inductive phase := Asking (first : command) | Listening | Leaving | Exited (success : bool).

(** The connection phase (main.rs 147, 193): any failure ends the program ([?]). [opened]:
    what became of the TCP and TLS handshakes and of writing CONNECT; [answer] as in
    [perform_connect]. *)
Definition start (s : setup) (ca_loads : bytes -> bool) (opened : bool) (answer : option read_out) : phase :=
  match s with
  | Quits => Exited false
  | Runs o t first =>
      match open_transport ca_loads t with
      | None => Exited false
      | Some _ =>
          if opened then
            match perform_connect o answer with
            | COk _ => Asking first
            | CErr _ => Exited false
            | CPanic => Exited false
            end
          else Exited false
      end
  end.

(** What can happen: a packet (or the end) is read, the keep-alive timer fires, the call
    the program makes is served, [recv] returns, Ctrl-C. The boolean says whether writes
    succeed. *)
Inductive tinput := Arrives (r : read_out) (ok : bool) | Timer (ok : bool) | Served (ok : bool) | Takes | Interrupt.
Inductive toutput := Net (o : coutput) | Printed (line : bytes).

Definition answered_ok (out : list coutput) : bool :=
  existsb (fun o => match o with
                    | Answer (Published (COk _)) | Answer (Subscribed (COk _)) | Answer (DisconnectDone (COk _)) => true
                    | _ => false
                    end) out.

(** After the answer to the first call (main.rs 151-160, 197-199) and to the last (160-162,
    227-229). *)
Definition after_first (t : tool) (ok : bool) : phase :=
  if ok then match t with Publisher => Leaving | Subscriber _ => Listening end else Exited false.
Definition after_last (t : tool) (ok : bool) : phase :=
  Exited (match t with Publisher => ok | Subscriber _ => true end).

(** main.rs 206-221: what [recv] returned is printed, or ends the loop. *)
Definition take (print_topic : bool) (out : list coutput) : phase * list toutput :=
  match out with
  | [Received (Some (Message topic payload _ _))] => (Listening, [Printed (message_line print_topic topic payload)])
  | _ => (Leaving, [])
  end.

(** One step of the process; [None] when it is not possible. *)
Definition tstep (t : tool) (p : phase) (c : client) (i : tinput) : option (phase * client * list toutput) :=
  match p with
  | Exited _ => None
  | _ =>
    match i with
    | Arrives r ok =>
        option_map (fun x => (p, fst x, map Net (snd x))) (cstep c (IRead r ok))
    | Timer ok =>
        option_map (fun x => (p, fst x, map Net (snd x))) (cstep c (ITick ok))
    | Served ok =>
        match p with
        | Asking cmd =>
            option_map (fun x => (after_first t (answered_ok (snd x)), fst x, map Net (snd x)))
              (cstep c (ICommand cmd ok))
        | Leaving =>
            option_map (fun x => (after_last t (answered_ok (snd x)), fst x, map Net (snd x)))
              (cstep c (ICommand CmdDisconnect ok))
        | _ => None
        end
    | Takes =>
        match p, t with
        | Listening, Subscriber print_topic =>
            option_map (fun x => (fst (take print_topic (snd x)), fst x, map Net (snd x) ++ snd (take print_topic (snd x))))
              (cstep c IRecv)
        | _, _ => None
        end
    | Interrupt =>
        match p with Listening => Some (Leaving, c, []) | _ => None end
    end
  end.

(** A run of the process. *)
Inductive truns (t : tool) (p : phase) : list tinput -> phase -> client -> list toutput -> Prop :=
| truns_nil : truns t p [] p client_new []
| truns_snoc is p1 c1 outs i p2 c2 out :
    truns t p is p1 c1 outs -> tstep t p1 c1 i = Some (p2, c2, out) ->
    truns t p (is ++ [i]) p2 c2 (outs ++ out).
