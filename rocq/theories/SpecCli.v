(** Vocabulary for statements about the command line client. *)
From Verif Require Import Base Codec SpecCodec Property SpecProperty PacketProps Packets SpecPackets Frame Client SpecClient Cli.

(** What the client library did, and what went to stdout. *)
Definition net (outs : list toutput) : list coutput :=
  flat_map (fun o => match o with Net x => [x] | Printed _ => [] end) outs.
Definition stdout (outs : list toutput) : list bytes :=
  flat_map (fun o => match o with Printed l => [l] | Net _ => [] end) outs.

(** The packets written other than acknowledgements and pings. *)
Definition requests (ks : list packet) : list packet :=
  filter (fun k => match k with PubAck _ | PingReq => false | _ => true end) ks.

(** The PUBLISH packets that arrive, with whether writing worked at that moment; those that
    are kept: all but the ones whose acknowledgement could not be written. *)
Definition publishes_arrived (is : list tinput) : list (publish_packet * bool) :=
  flat_map (fun i => match i with Arrives (RPacket (Publish b)) ok => [(b, ok)] | _ => [] end) is.
Definition kept (is : list tinput) : list publish_packet :=
  map fst (filter (fun x => is_nil (puback_due (fst x)) || snd x) (publishes_arrived is)).
Definition disconnects_arrived (is : list tinput) : list disconnect_packet :=
  flat_map (fun i => match i with Arrives (RPacket (Disconnect d)) _ => [d] | _ => [] end) is.

Definition payload_of (b : publish_packet) : bytes :=
  match pb_payload b with Some d => d | None => [] end.

(** The line a message should give: its payload, after its topic if that was asked for. *)
Definition line_for (print_topic : bool) (b : publish_packet) (l : bytes) : Prop :=
  if print_topic then l = pb_topic b ++ [58; 32] ++ payload_of b ++ [10] else l = payload_of b ++ [10].

(** The quality of service a number names. *)
Definition qos_number (n : N) (q : qos) : Prop :=
  (n = 0 /\ q = AtMostOnce) \/ (n = 1 /\ q = AtLeastOnce) \/ (n = 2 /\ q = ExactlyOnce).

(** [k] is the PUBLISH asked for. *)
Definition says_publish (t d : bytes) (q : qos) (r : bool) (k : packet) : Prop :=
  exists b, k = Publish b /\ pb_topic b = t /\ pb_payload b = Some d /\ pb_qos b = q /\ pb_retain b = r /\
    pb_dup b = false /\ pb_properties b = None /\ (pb_packet_id b = None <-> q = AtMostOnce).

(** The payload of `mercurio pub`: the message given, or else the standard input. *)
Definition payload_given (message stdin : option bytes) (d : bytes) : Prop :=
  message = Some d \/ (message = None /\ stdin = Some d).

(** Arguments that fit the wire format. *)
Definition args_fit (a : connection_args) : Prop :=
  owf wf_str (ar_client_id a) /\ owf wf_str (ar_username a) /\ owf wf_bin (ar_password a) /\ ar_keep_alive a < 65536.

(** The CONNECT says what the arguments say; [w] is the will, if one was asked for. *)
Definition connect_of_args (a : connection_args) (w : option (bytes * bytes * qos * bool)) (c : connect_packet) : Prop :=
  let pl := c_payload c in let f := c_flags c in
  (forall i, ar_client_id a = Some i -> cl_client_id pl = i) /\ (ar_client_id a = None -> cl_client_id pl = []) /\
  cl_user_name pl = ar_username a /\ cl_password pl = ar_password a /\ c_keepalive c = ar_keep_alive a /\
  cf_clean_start f = true /\
  match w with
  | Some (t, d, q, r) => cf_will_flag f = true /\ cl_will_topic pl = Some t /\ cl_will_payload pl = Some d /\
                         cf_will_qos f = q /\ cf_will_retain f = r
  | None => cf_will_flag f = false /\ cl_will_topic pl = None
  end.

(** The names of the versions in the help text. *)
Definition version_name (s : bytes) (v : version) : Prop :=
  (s = [53] /\ v = V5) \/ (s = [51; 49; 49] /\ v = V3_1_1) \/ (s = [51; 49] /\ v = V3_1).

(** The server is authenticated by certificates the user asked for. *)
Definition protected (t : transport) : Prop := match t with TlsCa _ | TlsRoots => True | _ => False end.
