(** mercurio-core/src/codec.rs, qos.rs, protocol.rs, reason.rs: primitive encodings. *)
From Verif Require Import Base Utf8.

(** ** Variable byte integer *)

(** codec.rs 26-43 [encode_var_byte_integer]: the loop, one output byte per
    turn. The argument is a [u32], so five turns always suffice. *)
Fixpoint vbi_enc_loop (fuel : nat) (x : N) : bytes :=
  match fuel with
  | O => []
  | S f =>
      let encoded_byte := x mod 128 in
      let x' := x / 128 in
      if 0 <? x' then N.lor encoded_byte 128 :: vbi_enc_loop f x'
      else [encoded_byte]
  end.
Definition vbi_enc (x : N) : bytes := vbi_enc_loop 5 x.

(** codec.rs 45-69 [decode_var_byte_integer]: [multiplier] and [value] are [u32];
    both multiplications and the addition can overflow. *)
Fixpoint vbi_dec_loop (p : profile) (multiplier value : N) (bs : bytes) : res (N * bytes) :=
  match bs with
  | [] => Err PacketIncomplete
  | b :: r =>
      do t <- u32_mul p (N.land b 127) multiplier;
      do value' <- u32_add p value t;
      if 128 * 128 * 128 <? multiplier then Err (EReason MalformedPacket)
      else
        do multiplier' <- u32_mul p multiplier 128;
        if N.land b 128 =? 0 then Ok (value', r)
        else vbi_dec_loop p multiplier' value' r
  end.
Definition vbi_dec (p : profile) (bs : bytes) : res (N * bytes) := vbi_dec_loop p 1 0 bs.

(** codec.rs 79-87 [VariableByteInteger::encoded_size]; the last arm is
    [unreachable!()]. *)
Definition vbi_size (x : N) : res N :=
  if x <=? 127 then Ok 1
  else if x <=? 16383 then Ok 2
  else if x <=? 2097151 then Ok 3
  else if x <=? 268435455 then Ok 4
  else Panic.

(** ** Fixed-width integers (codec.rs 138-184), big endian ([bytes] crate put/get). *)
Definition u8_enc (x : N) : bytes := [x].
Definition u16_enc (x : N) : bytes := [x / 256; x mod 256].
Definition u32_enc (x : N) : bytes :=
  [x / 16777216; (x / 65536) mod 256; (x / 256) mod 256; x mod 256].

Definition u8_dec (bs : bytes) : res (N * bytes) :=
  match bs with
  | b :: r => Ok (b, r)
  | _ => Err PacketIncomplete
  end.
Definition u16_dec (bs : bytes) : res (N * bytes) :=
  match bs with
  | a :: b :: r => Ok (a * 256 + b, r)
  | _ => Err PacketIncomplete
  end.
Definition u32_dec (bs : bytes) : res (N * bytes) :=
  match bs with
  | a :: b :: c :: d :: r => Ok (((a * 256 + b) * 256 + c) * 256 + d, r)
  | _ => Err PacketIncomplete
  end.

(** [Buf::get_u8] without a check: panics on an empty buffer. *)
Definition get_u8 (bs : bytes) : res (N * bytes) :=
  match bs with
  | b :: r => Ok (b, r)
  | [] => Panic
  end.

(** [Buf::advance(1)]: panics on an empty buffer. *)
Definition advance1 (bs : bytes) : res bytes :=
  match bs with
  | _ :: r => Ok r
  | [] => Panic
  end.

(** codec.rs 186-200: [bool]. *)
Definition bool_enc (b : bool) : bytes := [b2n b].
Definition bool_dec (bs : bytes) : res (bool * bytes) :=
  match bs with
  | b :: r => Ok (negb (b =? 0), r)
  | [] => Err PacketIncomplete
  end.

(** ** Length-prefixed data *)

(** codec.rs 202-226 [Bytes]: [self.len() as u16] truncates. *)
Definition bin_enc (d : bytes) : bytes := u16_enc (blen d mod two16) ++ d.
Definition bin_size (d : bytes) : N := 2 + blen d.
Definition bin_dec (bs : bytes) : res (bytes * bytes) :=
  match bs with
  | a :: b :: r =>
      let length := a * 256 + b in
      if blen r <? length then Err (EReason MalformedPacket)
      else Ok (btake length r, bdrop length r)
  | _ => Err PacketIncomplete
  end.

(** codec.rs 96-125 [String] and 127-136 [&'static str]; [String::from_utf8] is
    [utf8_valid]. *)
Definition str_enc (s : bytes) : bytes := u16_enc (blen s mod two16) ++ s.
Definition str_size (s : bytes) : N := blen s + 2.
Definition str_dec (bs : bytes) : res (bytes * bytes) :=
  match bs with
  | a :: b :: r =>
      let length := a * 256 + b in
      if blen r <? length then Err (EReason MalformedPacket)
      else
        let s := btake length r in
        if utf8_valid s then Ok (s, bdrop length r)
        else Err (EReason MalformedPacket)
  | _ => Err PacketIncomplete
  end.

(** codec.rs 228-244 [Option<T>]; 246-265 [Vec<T>]. *)
Definition opt_enc {A} (enc : A -> bytes) (o : option A) : bytes :=
  match o with Some a => enc a | None => [] end.
Definition vec_enc {A} (enc : A -> bytes) (l : list A) : bytes := flat_map enc l.

(** ** QoS (qos.rs 1-20); [Invalid as u8] is 0xff. *)
Inductive qos := AtMostOnce | AtLeastOnce | ExactlyOnce | QInvalid.
Definition qos_u8 (q : qos) : N :=
  match q with AtMostOnce => 0 | AtLeastOnce => 1 | ExactlyOnce => 2 | QInvalid => 255 end.
Definition qos_from (n : N) : qos :=
  match n with 0 => AtMostOnce | 1 => AtLeastOnce | 2 => ExactlyOnce | _ => QInvalid end.
Definition qos_eqb (a b : qos) : bool := qos_u8 a =? qos_u8 b.

(** ** Protocol version (protocol.rs 11-60). Strings are their UTF-8 bytes. *)
Inductive version := V3_1 | V3_1_1 | V5.
Definition str_MQIsdp : bytes := [77; 81; 73; 115; 100; 112].
Definition str_MQTT : bytes := [77; 81; 84; 84].
Definition protocol_name (v : version) : bytes :=
  match v with V3_1 => str_MQIsdp | V3_1_1 | V5 => str_MQTT end.
Definition protocol_level (v : version) : N :=
  match v with V3_1 => 3 | V3_1_1 => 4 | V5 => 5 end.
Definition supports_properties (v : version) : bool :=
  match v with V5 => true | _ => false end.

(** String equality, [==] on [&str] and [Bytes]. *)
Fixpoint bytes_eqb (a b : bytes) : bool :=
  match a, b with
  | [], [] => true
  | x :: a', y :: b' => (x =? y) && bytes_eqb a' b'
  | _, _ => false
  end.

Definition from_name_and_level (name : bytes) (level : N) : option version :=
  if bytes_eqb name str_MQIsdp && (level =? 3) then Some V3_1
  else if bytes_eqb name str_MQTT && (level =? 4) then Some V3_1_1
  else if bytes_eqb name str_MQTT && (level =? 5) then Some V5
  else None.

(** ** Reason codes (reason.rs 117-233) *)
Definition get_code (r : reason) : N :=
  match r with
  | Success => 0x00
  | NormalDisconnection => 0x00
  | GrantedQoS0 => 0x00
  | GrantedQoS1 => 0x01
  | GrantedQoS2 => 0x02
  | DisconnectWithWillMessage => 0x04
  | NoMatchingSubscribers => 0x10
  | NoSubscriptionExisted => 0x11
  | ContinueAuthentication => 0x18
  | ReAuthenticate => 0x19
  | UnspecifiedError => 0x80
  | MalformedPacket => 0x81
  | ProtocolError => 0x82
  | ImplementationSpecificError => 0x83
  | UnsupportedProtocolVersion => 0x84
  | ClientIdentifierNotValid => 0x85
  | BadUserNameOrPassword => 0x86
  | NotAuthorized => 0x87
  | ServerUnavailable => 0x88
  | ServerBusy => 0x89
  | Banned => 0x8a
  | ServerShuttingDown => 0x8b
  | BadAuthenticationMethod => 0x8c
  | KeepAliveTimeout => 0x8d
  | SessionTakenOver => 0x8e
  | TopicFilterInvalid => 0x8f
  | TopicNameInvalid => 0x90
  | PacketIdentifierInUse => 0x91
  | PacketIdentifierNotFound => 0x92
  | ReceiveMaximumExceeded => 0x93
  | TopicAliasInvalid => 0x94
  | PacketTooLarge => 0x95
  | MessageRateTooHigh => 0x96
  | QuotaExceeded => 0x97
  | AdministrativeAction => 0x98
  | PayloadFormatInvalid => 0x99
  | RetainNotSupported => 0x9a
  | QoSNotSupported => 0x9b
  | UseAnotherServer => 0x9c
  | ServerMoved => 0x9d
  | SharedSubscriptionsNotSupported => 0x9e
  | ConnectionRateExceeded => 0x9f
  | MaximumConnectTime => 0xa0
  | SubscriptionIdentifiersNotSupported => 0xa1
  | WildcardSubscriptionsNotSupported => 0xa2
  end.

(** reason.rs 184-230: the match of [decode]; [None] is the [_] arm. *)
Definition reason_of_code (c : N) : option reason :=
  match c with
  | 0x00 => Some Success
  | 0x01 => Some GrantedQoS1
  | 0x02 => Some GrantedQoS2
  | 0x04 => Some DisconnectWithWillMessage
  | 0x10 => Some NoMatchingSubscribers
  | 0x11 => Some NoSubscriptionExisted
  | 0x18 => Some ContinueAuthentication
  | 0x19 => Some ReAuthenticate
  | 0x80 => Some UnspecifiedError
  | 0x81 => Some MalformedPacket
  | 0x82 => Some ProtocolError
  | 0x83 => Some ImplementationSpecificError
  | 0x84 => Some UnsupportedProtocolVersion
  | 0x85 => Some ClientIdentifierNotValid
  | 0x86 => Some BadUserNameOrPassword
  | 0x87 => Some NotAuthorized
  | 0x88 => Some ServerUnavailable
  | 0x89 => Some ServerBusy
  | 0x8a => Some Banned
  | 0x8b => Some ServerShuttingDown
  | 0x8c => Some BadAuthenticationMethod
  | 0x8d => Some KeepAliveTimeout
  | 0x8e => Some SessionTakenOver
  | 0x8f => Some TopicFilterInvalid
  | 0x90 => Some TopicNameInvalid
  | 0x91 => Some PacketIdentifierInUse
  | 0x92 => Some PacketIdentifierNotFound
  | 0x93 => Some ReceiveMaximumExceeded
  | 0x94 => Some TopicAliasInvalid
  | 0x95 => Some PacketTooLarge
  | 0x96 => Some MessageRateTooHigh
  | 0x97 => Some QuotaExceeded
  | 0x98 => Some AdministrativeAction
  | 0x99 => Some PayloadFormatInvalid
  | 0x9a => Some RetainNotSupported
  | 0x9b => Some QoSNotSupported
  | 0x9c => Some UseAnotherServer
  | 0x9d => Some ServerMoved
  | 0x9e => Some SharedSubscriptionsNotSupported
  | 0x9f => Some ConnectionRateExceeded
  | 0xa0 => Some MaximumConnectTime
  | 0xa1 => Some SubscriptionIdentifiersNotSupported
  | 0xa2 => Some WildcardSubscriptionsNotSupported
  | _ => None
  end.

(** reason.rs 170-178, 180-233: [get_u8] is unchecked. *)
Definition reason_enc (r : reason) : bytes := [get_code r].
Definition reason_dec (bs : bytes) : res (reason * bytes) :=
  do (c, r) <- get_u8 bs;
  match reason_of_code c with
  | Some x => Ok (x, r)
  | None => Err (EReason MalformedPacket)
  end.
