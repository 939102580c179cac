(** mercurio-core/src/properties.rs: the 27 MQTT 5 properties. *)
From Verif Require Import Base Utf8 Codec.

(** properties.rs 57-191 ([def_prop!] structs) and 193-223 [enum Property]: one
    constructor per property, carrying the field(s) of the struct. *)
Inductive property :=
| PPayloadFormatIndicator (v : N)
| PMessageExpiryInterval (v : N)
| PContentType (v : bytes)
| PResponseTopic (v : bytes)
| PCorrelationData (v : bytes)
| PSubscriptionIdentifier (v : N)
| PSessionExpiryInterval (v : N)
| PAssignedClientIdentifier (v : bytes)
| PServerKeepAlive (v : N)
| PAuthenticationMethod (v : bytes)
| PAuthenticationData (v : bytes)
| PRequestProblemInformation (v : N)
| PWillDelayInterval (v : N)
| PRequestResponseInformation (v : N)
| PResponseInformation (v : bytes)
| PServerReference (v : bytes)
| PReasonString (v : bytes)
| PReceiveMaximum (v : N)
| PTopicAliasMaximum (v : N)
| PTopicAlias (v : N)
| PMaximumQoS (v : N)
| PRetainAvailable (v : bool)
| PUserProperty (key value : bytes)
| PMaximumPacketSize (v : N)
| PWildcardSubscriptionAvailable (v : bool)
| PSubscriptionIdentifierAvailable (v : bool)
| PSharedSubscriptionAvailable (v : bool).

(** properties.rs 57-191: the [ID] constants. *)
Definition prop_id (q : property) : N :=
  match q with
  | PPayloadFormatIndicator _ => 0x1
  | PMessageExpiryInterval _ => 0x2
  | PContentType _ => 0x3
  | PResponseTopic _ => 0x8
  | PCorrelationData _ => 0x9
  | PSubscriptionIdentifier _ => 0xb
  | PSessionExpiryInterval _ => 0x11
  | PAssignedClientIdentifier _ => 0x12
  | PServerKeepAlive _ => 0x13
  | PAuthenticationMethod _ => 0x15
  | PAuthenticationData _ => 0x16
  | PRequestProblemInformation _ => 0x17
  | PWillDelayInterval _ => 0x18
  | PRequestResponseInformation _ => 0x19
  | PResponseInformation _ => 0x1a
  | PServerReference _ => 0x1c
  | PReasonString _ => 0x1f
  | PReceiveMaximum _ => 0x21
  | PTopicAliasMaximum _ => 0x22
  | PTopicAlias _ => 0x23
  | PMaximumQoS _ => 0x24
  | PRetainAvailable _ => 0x25
  | PUserProperty _ _ => 0x26
  | PMaximumPacketSize _ => 0x27
  | PWildcardSubscriptionAvailable _ => 0x28
  | PSubscriptionIdentifierAvailable _ => 0x29
  | PSharedSubscriptionAvailable _ => 0x2a
  end.

(** The value part written by [def_prop!] (13-55): the fields in order. *)
Definition prop_val_enc (q : property) : bytes :=
  match q with
  | PPayloadFormatIndicator v => u8_enc v
  | PMessageExpiryInterval v => u32_enc v
  | PContentType v => str_enc v
  | PResponseTopic v => str_enc v
  | PCorrelationData v => bin_enc v
  | PSubscriptionIdentifier v => vbi_enc v
  | PSessionExpiryInterval v => u32_enc v
  | PAssignedClientIdentifier v => str_enc v
  | PServerKeepAlive v => u16_enc v
  | PAuthenticationMethod v => str_enc v
  | PAuthenticationData v => bin_enc v
  | PRequestProblemInformation v => u8_enc v
  | PWillDelayInterval v => u32_enc v
  | PRequestResponseInformation v => u8_enc v
  | PResponseInformation v => str_enc v
  | PServerReference v => str_enc v
  | PReasonString v => str_enc v
  | PReceiveMaximum v => u16_enc v
  | PTopicAliasMaximum v => u16_enc v
  | PTopicAlias v => u16_enc v
  | PMaximumQoS v => u8_enc v
  | PRetainAvailable v => bool_enc v
  | PUserProperty key value => str_enc key ++ str_enc value
  | PMaximumPacketSize v => u32_enc v
  | PWildcardSubscriptionAvailable v => bool_enc v
  | PSubscriptionIdentifierAvailable v => bool_enc v
  | PSharedSubscriptionAvailable v => bool_enc v
  end.

(** The field part of [encoded_size]; fixed-width fields use the default
    [size_of_val] (codec.rs 21-23). *)
Definition prop_val_size (q : property) : res N :=
  match q with
  | PPayloadFormatIndicator _ => Ok 1
  | PMessageExpiryInterval _ => Ok 4
  | PContentType v => Ok (str_size v)
  | PResponseTopic v => Ok (str_size v)
  | PCorrelationData v => Ok (bin_size v)
  | PSubscriptionIdentifier v => vbi_size v
  | PSessionExpiryInterval _ => Ok 4
  | PAssignedClientIdentifier v => Ok (str_size v)
  | PServerKeepAlive _ => Ok 2
  | PAuthenticationMethod v => Ok (str_size v)
  | PAuthenticationData v => Ok (bin_size v)
  | PRequestProblemInformation _ => Ok 1
  | PWillDelayInterval _ => Ok 4
  | PRequestResponseInformation _ => Ok 1
  | PResponseInformation v => Ok (str_size v)
  | PServerReference v => Ok (str_size v)
  | PReasonString v => Ok (str_size v)
  | PReceiveMaximum _ => Ok 2
  | PTopicAliasMaximum _ => Ok 2
  | PTopicAlias _ => Ok 2
  | PMaximumQoS _ => Ok 1
  | PRetainAvailable _ => Ok 1
  | PUserProperty key value => Ok (str_size key + str_size value)
  | PMaximumPacketSize _ => Ok 4
  | PWildcardSubscriptionAvailable _ => Ok 1
  | PSubscriptionIdentifierAvailable _ => Ok 1
  | PSharedSubscriptionAvailable _ => Ok 1
  end.

(** properties.rs 28-34 and 36-46: identifier as variable byte integer, then the fields. *)
Definition prop_enc (q : property) : bytes := vbi_enc (prop_id q) ++ prop_val_enc q.
Definition prop_size (q : property) : res N :=
  do a <- vbi_size (prop_id q);
  do b <- prop_val_size q;
  Ok (a + b).

Definition lift {A} (f : A -> property) (r : res (A * bytes)) : res (property * bytes) :=
  do (a, rest) <- r; Ok (f a, rest).

(** properties.rs 231-265 [decode_with_id]. Line 247: the identifier of
    RequestResponseInformation is decoded as RequestProblemInformation. *)
Definition prop_dec_with_id (p : profile) (id : N) (bs : bytes) : res (property * bytes) :=
  match id with
  | 0x1 => lift PPayloadFormatIndicator (u8_dec bs)
  | 0x2 => lift PMessageExpiryInterval (u32_dec bs)
  | 0x3 => lift PContentType (str_dec bs)
  | 0x8 => lift PResponseTopic (str_dec bs)
  | 0x9 => lift PCorrelationData (bin_dec bs)
  | 0xb => lift PSubscriptionIdentifier (vbi_dec p bs)
  | 0x11 => lift PSessionExpiryInterval (u32_dec bs)
  | 0x12 => lift PAssignedClientIdentifier (str_dec bs)
  | 0x13 => lift PServerKeepAlive (u16_dec bs)
  | 0x15 => lift PAuthenticationMethod (str_dec bs)
  | 0x16 => lift PAuthenticationData (bin_dec bs)
  | 0x17 => lift PRequestProblemInformation (u8_dec bs)
  | 0x18 => lift PWillDelayInterval (u32_dec bs)
  | 0x19 => lift PRequestProblemInformation (u8_dec bs)
  | 0x1a => lift PResponseInformation (str_dec bs)
  | 0x1c => lift PServerReference (str_dec bs)
  | 0x1f => lift PReasonString (str_dec bs)
  | 0x21 => lift PReceiveMaximum (u16_dec bs)
  | 0x22 => lift PTopicAliasMaximum (u16_dec bs)
  | 0x23 => lift PTopicAlias (u16_dec bs)
  | 0x24 => lift PMaximumQoS (u8_dec bs)
  | 0x25 => lift PRetainAvailable (bool_dec bs)
  | 0x26 => do (k, r1) <- str_dec bs; do (v, r2) <- str_dec r1; Ok (PUserProperty k v, r2)
  | 0x27 => lift PMaximumPacketSize (u32_dec bs)
  | 0x28 => lift PWildcardSubscriptionAvailable (bool_dec bs)
  | 0x29 => lift PSubscriptionIdentifierAvailable (bool_dec bs)
  | 0x2a => lift PSharedSubscriptionAvailable (bool_dec bs)
  | _ => Err (EReason MalformedPacket)
  end.

(** properties.rs 267-273. *)
Definition prop_dec (p : profile) (bs : bytes) : res (property * bytes) :=
  do (id, r) <- vbi_dec p bs;
  prop_dec_with_id p id r.

(** ** Property sets

    Every packet's property structure is a record of [Option]s. Its encoder calls
    [encode] on the fields in a fixed order, which is the list of properties
    that are present; [olist] and [ulist] turn one field into that list
    (codec.rs 228-265 for [Option] and [Vec]). *)
Definition olist {A} (f : A -> property) (o : option A) : list property :=
  match o with Some a => [f a] | None => [] end.
Definition user_props := list (bytes * bytes).
Definition ulist (o : option user_props) : list property :=
  match o with Some l => map (fun kv => PUserProperty (fst kv) (snd kv)) l | None => [] end.

Definition props_enc (l : list property) : bytes := flat_map prop_enc l.
Fixpoint props_size (l : list property) : res N :=
  match l with
  | [] => Ok 0
  | q :: r => do a <- prop_size q; do b <- props_size r; Ok (a + b)
  end.

(** The [UserProperty(v)] arm shared by all property decoders
    (e.g. publish.rs 72-79): append to the vector, creating it if absent. *)
Definition push_user (o : option user_props) (k v : bytes) : option user_props :=
  match o with
  | Some l => Some (l ++ [(k, v)])
  | None => Some [(k, v)]
  end.

(** The decoding loop shared by all property decoders (e.g. publish.rs 56-91):
    [step] is the packet's match; [None] is its [_ => MalformedPacket] arm.
    [fuel] is the number of bytes; running out is a [Panic], shown impossible. *)
Fixpoint props_loop {A} (p : profile) (step : A -> property -> option A)
    (fuel : nat) (acc : A) (bs : bytes) : res A :=
  match bs with
  | [] => Ok acc
  | _ =>
      match fuel with
      | O => Panic
      | S f =>
          do (q, r) <- prop_dec p bs;
          match step acc q with
          | Some acc' => props_loop p step f acc' r
          | None => Err (EReason MalformedPacket)
          end
      end
  end.

(** [short] is the error for a property length larger than the buffer:
    MalformedPacket in connect.rs 139-141 and subscribe.rs 45-46, PacketIncomplete
    elsewhere. Buffers are shorter than 4 GiB, so [remaining() as u32] is exact. *)
Definition props_dec {A} (p : profile) (short : error) (step : A -> property -> option A)
    (default : A) (bs : bytes) : res (A * bytes) :=
  do (len, r) <- vbi_dec p bs;
  if len =? 0 then Ok (default, r)
  else if blen r <? len then Err short
  else
    do a <- props_loop p step (N.to_nat len) default (btake len r);
    Ok (a, bdrop len r).
