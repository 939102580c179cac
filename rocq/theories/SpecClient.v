(** Vocabulary for statements about the client library. *)
From Verif Require Import Base Codec SpecCodec Property SpecProperty PacketProps Packets SpecPackets Frame Client.

(** ** What the application gives and gets *)

(** The events [recv] has returned. *)
Definition received (outs : list coutput) : list cevent :=
  flat_map (fun o => match o with Received (Some e) => [e] | _ => [] end) outs.

(** The events the application has been or will be told: those returned by [recv], then
    those in the channel, then the one waiting for room in it. *)
Definition told (c : client) (outs : list coutput) : list cevent :=
  received outs ++ cl_queue c ++ match cl_waiting c with Some e => [e] | None => [] end.

Definition is_message (e : cevent) : bool :=
  match e with Message _ _ _ _ => true | Disconnected _ => false end.
Definition messages (es : list cevent) : list cevent := filter is_message es.
Definition farewells (es : list cevent) : list cevent := filter (fun e => negb (is_message e)) es.

(** The answers given to API calls. *)
Definition answers (outs : list coutput) : list reply :=
  flat_map (fun o => match o with Answer r => [r] | _ => [] end) outs.
Definition calls (is : list cinput) : list command :=
  flat_map (fun i => match i with ICommand c _ => [c] | _ => [] end) is.

(** An answer reports success. *)
Definition succeeded (r : reply) : Prop :=
  match r with
  | Published (COk _) | Subscribed (COk _) | Unsubscribed (COk _) | DisconnectDone (COk _) => True
  | _ => False
  end.

(** An answer to this call. *)
Definition answers_call (r : reply) (cmd : command) : Prop :=
  match r, cmd with
  | Published _, CmdPublish _ _ _ _ | Subscribed _, CmdSubscribe _
  | Unsubscribed _, CmdUnsubscribe _ | DisconnectDone _, CmdDisconnect => True
  | _, _ => False
  end.

(** ** What goes over the network *)

(** The packets the client wrote, and those it wrote or tried to write. *)
Definition written (outs : list coutput) : list packet :=
  flat_map (fun o => match o with Wrote k => [k] | _ => [] end) outs.
Definition attempted (outs : list coutput) : list packet :=
  flat_map (fun o => match o with Wrote k | Failed k => [k] | _ => [] end) outs.

(** The packet identifier of a request. *)
Definition request_id (k : packet) : list N :=
  match k with
  | Publish b => match pb_packet_id b with Some i => [i] | None => [] end
  | Subscribe s => [sb_packet_id s]
  | Unsubscribe s => [us_packet_id s]
  | _ => []
  end.
Definition request_ids (outs : list coutput) : list N := flat_map request_id (attempted outs).

(** The PUBLISH packets read, with whether writing worked at that moment. *)
Definition publishes_read (is : list cinput) : list (publish_packet * bool) :=
  flat_map (fun i => match i with IRead (RPacket (Publish b)) ok => [(b, ok)] | _ => [] end) is.

(** The identifier of the PUBACK a PUBLISH calls for, if any. *)
Definition puback_due (b : publish_packet) : list N :=
  match pb_qos b, pb_packet_id b with AtLeastOnce, Some id => [id] | _, _ => [] end.
Definition is_nil {A} (l : list A) : bool := match l with [] => true | _ => false end.

(** The identifiers acknowledged by successful PUBACKs that were written. *)
Definition pubacks (outs : list coutput) : list N :=
  flat_map (fun k => match k with
                     | PubAck a => match ak_reason a with Success => [ak_packet_id a] | _ => [] end
                     | _ => []
                     end) (written outs).

(** The message a PUBLISH carries, as the application sees it. *)
Definition message_of (b : publish_packet) : cevent :=
  Message (pb_topic b) (match pb_payload b with Some d => d | None => [] end) (pb_qos b) (pb_retain b).

(** The DISCONNECT packets read. *)
Definition disconnects_read (is : list cinput) : list disconnect_packet :=
  flat_map (fun i => match i with IRead (RPacket (Disconnect d)) _ => [d] | _ => [] end) is.

(** Every write of the history succeeds. *)
Definition healthy (is : list cinput) : Prop :=
  forall i, In i is ->
  match i with IRead _ ok | ICommand _ ok | ITick ok => ok = true | _ => True end.

(** ** Connecting *)

(** Options that fit the wire format. *)
Definition options_fit (o : connect_options) : Prop :=
  owf wf_str (op_client_id o) /\ owf wf_str (op_username o) /\ owf wf_bin (op_password o) /\
  op_keep_alive o < 65536 /\
  owf (fun w => wf_str (wo_topic w) /\ wf_bin (wo_payload w) /\ wo_qos w <> QInvalid) (op_will o).

(** A CONNECT says what the options say. *)
Definition reflects (o : connect_options) (c : connect_packet) : Prop :=
  let pl := c_payload c in let f := c_flags c in
  c_protocol_version c = op_version o /\
  c_keepalive c = op_keep_alive o /\
  cf_clean_start f = op_clean_start o /\
  (forall i, op_client_id o = Some i -> cl_client_id pl = i) /\
  (op_client_id o = None -> cl_client_id pl = []) /\
  cl_user_name pl = op_username o /\ (cf_user_name f = true <-> op_username o <> None) /\
  cl_password pl = op_password o /\ (cf_password f = true <-> op_password o <> None) /\
  match op_will o with
  | Some w => cf_will_flag f = true /\ cl_will_topic pl = Some (wo_topic w) /\
              cl_will_payload pl = Some (wo_payload w) /\
              cf_will_qos f = wo_qos w /\ cf_will_retain f = wo_retain w
  | None => cf_will_flag f = false /\ cl_will_topic pl = None /\ cl_will_payload pl = None /\
            cf_will_retain f = false
  end.
