(** mercurio-packets/src: the control packets, their encoders and decoders. *)
From Verif Require Import Base Utf8 Codec Property PacketProps.

(** [.encoded_size()] of an optional property structure, computed over the field
    order of its [encoded_size]. *)
Definition osize {A} (size_list : A -> list property) (o : option A) : res N :=
  match o with Some a => props_size (size_list a) | None => Ok 0 end.
Definition oenc {A} (enc_list : A -> list property) (o : option A) : bytes :=
  match o with Some a => props_enc (enc_list a) | None => [] end.

(** [x as u32] for a [usize]. *)
Definition as_u32 (x : N) : N := x mod two32.

(** [VariableByteInteger(n as u32).encoded_size()], [.encode()]. *)
Definition vsize (n : N) : res N := vbi_size (as_u32 n).
Definition venc (n : N) : bytes := vbi_enc (as_u32 n).

(** ** CONNECT (connect.rs) *)

(** connect.rs 17-25 *)
Record connect_flags := Mk_connect_flags {
  cf_user_name : bool;
  cf_password : bool;
  cf_will_retain : bool;
  cf_will_qos : qos;
  cf_will_flag : bool;
  cf_clean_start : bool
}.

(** connect.rs 27-53: the flag byte; [(will_qos as u8) << 3] drops high bits. *)
Definition connect_flags_byte (f : connect_flags) : N :=
  let b := if cf_user_name f then 128 else 0 in
  let b := if cf_password f then N.lor b 64 else b in
  let b := if cf_will_retain f then N.lor b 32 else b in
  let b := if cf_will_flag f
           then N.lor (N.lor b 4) ((qos_u8 (cf_will_qos f) * 8) mod 256) else b in
  if cf_clean_start f then N.lor b 2 else b.

(** connect.rs 60-90; [byte >> 3] is a division by 8. *)
Definition connect_flags_of_byte (byte : N) : res connect_flags :=
  if negb (N.land byte 1 =? 0) then Err (EReason MalformedPacket)
  else
    let will_flag := negb (N.land byte 4 =? 0) in
    let will_qos := if will_flag then qos_from (N.land (byte / 8) 3) else AtMostOnce in
    match will_qos with
    | QInvalid => Err (EReason MalformedPacket)
    | _ =>
        Ok (Mk_connect_flags (negb (N.land byte 128 =? 0)) (negb (N.land byte 64 =? 0))
              (negb (N.land byte 32 =? 0)) will_qos will_flag (negb (N.land byte 2 =? 0)))
    end.
Definition connect_flags_dec (bs : bytes) : res (connect_flags * bytes) :=
  match bs with
  | [] => Err PacketIncomplete
  | b :: r => do f <- connect_flags_of_byte b; Ok (f, r)
  end.

(** connect.rs 252-260 *)
Record connect_payload := Mk_connect_payload {
  cl_client_id : bytes;
  cl_will_properties : option will_props;
  cl_will_topic : option bytes;
  cl_will_payload : option bytes;
  cl_user_name : option bytes;
  cl_password : option bytes
}.

(** connect.rs 369-376 *)
Record connect_packet := Mk_connect_packet {
  c_protocol_version : version;
  c_flags : connect_flags;
  c_keepalive : N;
  c_properties : option connect_props;
  c_payload : connect_payload
}.

Definition osz (f : bytes -> N) (o : option bytes) : N :=
  match o with Some s => f s | None => 0 end.

(** connect.rs 264-289 [encode_for_version] *)
Definition connect_payload_enc (pl : connect_payload) (v : version) (f : connect_flags) : res bytes :=
  do will <- (if cf_will_flag f then
                do wsz <- (if supports_properties v then osize will_props_size_list (cl_will_properties pl)
                           else Ok 0);
                Ok ((if supports_properties v
                     then venc wsz ++ oenc will_props_list (cl_will_properties pl) else [])
                    ++ opt_enc str_enc (cl_will_topic pl) ++ opt_enc bin_enc (cl_will_payload pl))
              else Ok []);
  Ok (str_enc (cl_client_id pl) ++ will
      ++ (if cf_user_name f then opt_enc str_enc (cl_user_name pl) else [])
      ++ (if cf_password f then opt_enc bin_enc (cl_password pl) else [])).

(** connect.rs 292-321 [encoded_size_for_version] *)
Definition connect_payload_size (pl : connect_payload) (v : version) (f : connect_flags) : res N :=
  do will <- (if cf_will_flag f then
                do props <- (if supports_properties v then
                               do wsz <- osize will_props_size_list (cl_will_properties pl);
                               do vsz <- vsize wsz;
                               Ok (vsz + wsz)
                             else Ok 0);
                Ok (props + osz str_size (cl_will_topic pl) + osz bin_size (cl_will_payload pl))
              else Ok 0);
  Ok (str_size (cl_client_id pl) + will
      + (if cf_user_name f then osz str_size (cl_user_name pl) else 0)
      + (if cf_password f then osz bin_size (cl_password pl) else 0)).

(** connect.rs 380-422 *)
Definition connect_enc (c : connect_packet) : res bytes :=
  let v := c_protocol_version c in
  let name := protocol_name v in
  do psz <- (if supports_properties v then osize connect_props_size_list (c_properties c) else Ok 0);
  do props <- (if supports_properties v then do vsz <- vsize psz; Ok (vsz + psz) else Ok 0);
  do plsz <- connect_payload_size (c_payload c) v (c_flags c);
  let remaining_len := str_size name + 1 + 1 + 2 + props + plsz in
  do pl <- connect_payload_enc (c_payload c) v (c_flags c);
  Ok ([0x10] ++ venc remaining_len
      ++ str_enc name ++ u8_enc (protocol_level v) ++ [connect_flags_byte (c_flags c)]
      ++ u16_enc (c_keepalive c)
      ++ (if supports_properties v then venc psz ++ oenc connect_props_list (c_properties c) else [])
      ++ pl).

(** connect.rs 360-367, 446-462: the payload part of [ConnectPacket::decode]. *)
Definition connect_payload_dec (p : profile) (v : version) (flags : connect_flags) (bs : bytes)
    : res (connect_payload * bytes) :=
  do (client_id, r) <- str_dec bs;
  do (will, r) <-
    (if cf_will_flag flags then
       do (wp, r) <-
         (if supports_properties v then
            do (a, r) <- props_dec p PacketIncomplete will_props_step will_props_default r;
            Ok (Some a, r)
          else Ok (None, r));
       do (wt, r) <- str_dec r;
       do (wd, r) <- bin_dec r;
       Ok ((wp, Some wt, Some wd), r)
     else Ok ((None, None, None), r));
  do (user_name, r) <-
    (if cf_user_name flags then do (u, r) <- str_dec r; Ok (Some u, r) else Ok (None, r));
  do (password, r) <-
    (if cf_password flags then do (u, r) <- bin_dec r; Ok (Some u, r) else Ok (None, r));
  let '(wp, wt, wd) := will in
  Ok (Mk_connect_payload client_id wp wt wd user_name password, r).

(** connect.rs 424-473; the remaining length is read and ignored. *)
Definition connect_dec (p : profile) (bs : bytes) : res (connect_packet * bytes) :=
  do r <- advance1 bs;
  do (_, r) <- vbi_dec p r;
  do (name, r) <- str_dec r;
  do (level, r) <- u8_dec r;
  match from_name_and_level name level with
  | None => Err (EReason UnsupportedProtocolVersion)
  | Some v =>
      do (flags, r) <- connect_flags_dec r;
      do (keepalive, r) <- u16_dec r;
      do (properties, r) <-
        (if supports_properties v then
           do (a, r) <- props_dec p (EReason MalformedPacket) connect_props_step
                          connect_props_default r;
           Ok (Some a, r)
         else Ok (None, r));
      do (payload, r) <- connect_payload_dec p v flags r;
      Ok (Mk_connect_packet v flags keepalive properties payload, r)
  end.

(** ** CONNACK (connack.rs) *)

(** connack.rs 209-214; [flags] (16-19) is the single [session_present] bit. *)
Record connack_packet := Mk_connack_packet {
  ca_protocol_version : version;
  ca_session_present : bool;
  ca_reason_code : reason;
  ca_properties : option connack_props
}.

(** connack.rs 21-30, 32-44: [get_u8] unchecked. *)
Definition connack_flags_enc (session_present : bool) : bytes := [N.land 1 (b2n session_present)].
Definition connack_flags_dec (bs : bytes) : res (bool * bytes) :=
  do (e, r) <- get_u8 bs;
  if negb (N.land 254 e =? 0) then Err (EReason MalformedPacket)
  else Ok (negb (N.land 1 e =? 0), r).

(** connack.rs 168-206: [ConnAckReturnCode::from(reason) as u8]. *)
Definition connack_return_code (r : reason) : N :=
  match r with
  | Success => 0
  | UnsupportedProtocolVersion => 1
  | ClientIdentifierNotValid => 2
  | ServerUnavailable => 3
  | BadUserNameOrPassword => 4
  | NotAuthorized => 5
  | _ => 3
  end.

(** connack.rs 218-253 *)
Definition connack_enc (c : connack_packet) : res bytes :=
  if supports_properties (ca_protocol_version c) then
    do psz <- osize connack_props_size_list (ca_properties c);
    do vsz <- vsize psz;
    let remaining_len := 1 + 1 + vsz + psz in
    Ok ([0x20] ++ venc remaining_len ++ connack_flags_enc (ca_session_present c)
        ++ reason_enc (ca_reason_code c) ++ venc psz ++ oenc connack_props_list (ca_properties c))
  else
    Ok ([0x20] ++ venc (1 + 1) ++ connack_flags_enc (ca_session_present c)
        ++ [connack_return_code (ca_reason_code c)]).

(** connack.rs 255-273 *)
Definition connack_dec (p : profile) (bs : bytes) : res (connack_packet * bytes) :=
  do r <- advance1 bs;
  do (_, r) <- vbi_dec p r;
  do (sp, r) <- connack_flags_dec r;
  do (rc, r) <- reason_dec r;
  do (a, r) <- props_dec p PacketIncomplete connack_props_step connack_props_default r;
  Ok (Mk_connack_packet V5 sp rc (Some a), r).

(** connack.rs 275-302 *)
Definition connack_dec_v3 (p : profile) (bs : bytes) : res (connack_packet * bytes) :=
  do r <- advance1 bs;
  do (_, r) <- vbi_dec p r;
  do (sp, r) <- connack_flags_dec r;
  do (code, r) <- get_u8 r;
  let rc := match code with
            | 0 => Success
            | 1 => UnsupportedProtocolVersion
            | 2 => ClientIdentifierNotValid
            | 3 => ServerUnavailable
            | 4 => BadUserNameOrPassword
            | 5 => NotAuthorized
            | _ => UnspecifiedError
            end in
  Ok (Mk_connack_packet V3_1_1 sp rc None, r).

(** ** PUBLISH (publish.rs) *)

(** publish.rs 93-102 *)
Record publish_packet := Mk_publish_packet {
  pb_dup : bool;
  pb_qos : qos;
  pb_retain : bool;
  pb_topic : bytes;
  pb_packet_id : option N;
  pb_properties : option publish_props;
  pb_payload : option bytes
}.

(** publish.rs 110-115; the shift of the [u8] drops high bits. *)
Definition publish_header (b : publish_packet) : N :=
  N.lor (N.lor (N.lor 0x30 (b2n (pb_dup b) * 8)) ((qos_u8 (pb_qos b) * 2) mod 256))
        (b2n (pb_retain b)).

Definition pid_size (o : option N) : N := match o with Some _ => 2 | None => 0 end.
Definition obytes (o : option bytes) : bytes := match o with Some d => d | None => [] end.

(** publish.rs 106-139 *)
Definition publish_enc (b : publish_packet) : res bytes :=
  do psz <- osize publish_props_size_list (pb_properties b);
  do vsz <- vsize psz;
  let remaining_len := str_size (pb_topic b) + pid_size (pb_packet_id b) + vsz + psz
                       + blen (obytes (pb_payload b)) in
  Ok ([publish_header b] ++ venc remaining_len
      ++ str_enc (pb_topic b) ++ opt_enc u16_enc (pb_packet_id b)
      ++ venc psz ++ oenc publish_props_list (pb_properties b)
      ++ obytes (pb_payload b)).

(** publish.rs 141-183. The payload length is the remaining length minus the
    re-encoded sizes of what was decoded ([usize] subtraction). *)
Definition publish_dec (p : profile) (bs : bytes) : res (publish_packet * bytes) :=
  do (h, r) <- get_u8 bs;
  let dup := negb (N.land h 8 =? 0) in
  let q := qos_from (N.land h 6 / 2) in
  let retain := negb (N.land h 1 =? 0) in
  do (remaining_len, r) <- vbi_dec p r;
  do (topic, r) <- str_dec r;
  do (pid, r) <-
    (match q with
     | AtMostOnce => Ok (None, r)
     | QInvalid => Err (EReason MalformedPacket)
     | _ => do (i, r) <- u16_dec r; Ok (Some i, r)
     end);
  do (a, r) <- props_dec p PacketIncomplete publish_props_step publish_props_default r;
  do psz <- props_size (publish_props_size_list a);
  do vsz <- vsize psz;
  do payload_len <- usize_sub p remaining_len (str_size topic + pid_size pid + psz + vsz);
  if blen r <? payload_len then Err (EReason MalformedPacket)
  else
    Ok (Mk_publish_packet dup q retain topic pid (Some a) (Some (btake payload_len r)),
        bdrop payload_len r).

(** ** PUBACK, PUBREC, PUBREL, PUBCOMP (puback.rs; pubrec.rs, pubrel.rs and
    pubcomp.rs are the same code with another fixed header) *)

(** puback.rs 69-74 *)
Record ack_packet := Mk_ack_packet {
  ak_packet_id : N;
  ak_reason : reason;
  ak_properties : option ack_props
}.

(** puback.rs 78-105; [header] is the first byte. *)
Definition ack_enc (header : N) (a : ack_packet) : res bytes :=
  do psz <- osize ack_props_size_list (ak_properties a);
  do extra <- (if is_some (ak_properties a) || negb (reason_eqb (ak_reason a) Success)
               then do vsz <- vsize psz; Ok (1 + vsz + psz)
               else Ok 0);
  let remaining_len := 2 + extra in
  Ok ([header] ++ venc remaining_len ++ u16_enc (ak_packet_id a)
      ++ (if remaining_len =? 2 then []
          else reason_enc (ak_reason a) ++ venc psz ++ oenc ack_props_list (ak_properties a))).

(** puback.rs 107-131 *)
Definition ack_dec (p : profile) (bs : bytes) : res (ack_packet * bytes) :=
  do r <- advance1 bs;
  do (remaining_len, r) <- vbi_dec p r;
  do (pid, r) <- u16_dec r;
  if remaining_len =? 2 then Ok (Mk_ack_packet pid Success None, r)
  else
    do (rc, r) <- reason_dec r;
    do (a, r) <- props_dec p PacketIncomplete ack_props_step ack_props_default r;
    Ok (Mk_ack_packet pid rc (Some a), r).

(** ** SUBSCRIBE (subscribe.rs) *)

(** subscribe.rs 71-91; [Invalid as u8] is 0xff. *)
Inductive retain_handling :=
  SendRetained | SendRetainedIfNonExisting | DoNotSendRetained | RInvalid.
Definition rh_u8 (h : retain_handling) : N :=
  match h with
  | SendRetained => 0 | SendRetainedIfNonExisting => 1 | DoNotSendRetained => 2 | RInvalid => 255
  end.
Definition rh_from (n : N) : retain_handling :=
  match n with
  | 0 => SendRetained | 1 => SendRetainedIfNonExisting | 2 => DoNotSendRetained | _ => RInvalid
  end.

(** subscribe.rs 93-99 *)
Record sub_options := Mk_sub_options {
  so_qos : qos;
  so_no_local : bool;
  so_retain_as_pub : bool;
  so_retain_handling : retain_handling
}.

(** subscribe.rs 101-120 *)
Definition sub_options_byte (o : sub_options) : N :=
  let e := qos_u8 (so_qos o) in
  let e := if so_no_local o then N.lor e 4 else e in
  let e := if so_retain_as_pub o then N.lor e 8 else e in
  N.lor e ((rh_u8 (so_retain_handling o) * 16) mod 256).

(** subscribe.rs 123-148: [get_u8] unchecked. *)
Definition sub_options_of_byte (opt : N) : res sub_options :=
  match qos_from (N.land opt 3) with
  | QInvalid => Err (EReason ProtocolError)
  | q =>
      match rh_from (opt / 16) with
      | RInvalid => Err (EReason ProtocolError)
      | h => Ok (Mk_sub_options q (negb (N.land opt 4 =? 0)) (negb (N.land opt 8 =? 0)) h)
      end
  end.
Definition sub_options_dec (bs : bytes) : res (sub_options * bytes) :=
  do (opt, r) <- get_u8 bs;
  do o <- sub_options_of_byte opt;
  Ok (o, r).

(** subscribe.rs 150-154 (topic filter, options); 156-182. *)
Definition sub_filter := (bytes * sub_options)%type.
Definition sub_filter_enc (f : sub_filter) : bytes := str_enc (fst f) ++ [sub_options_byte (snd f)].
Definition sub_filter_size (f : sub_filter) : N := str_size (fst f) + 1.
Definition sub_filter_dec (bs : bytes) : res (sub_filter * bytes) :=
  do (s, r) <- str_dec bs;
  do (o, r) <- sub_options_dec r;
  Ok ((s, o), r).

(** subscribe.rs 184-189 *)
Record subscribe_packet := Mk_subscribe_packet {
  sb_packet_id : N;
  sb_properties : option subscribe_props;
  sb_payload : list sub_filter
}.

(** codec.rs 257-265 [Vec::encoded_size]. *)
Definition vec_size {A} (f : A -> N) (l : list A) : N := fold_right (fun a n => f a + n) 0 l.

(** subscribe.rs 193-214 *)
Definition subscribe_enc (s : subscribe_packet) : res bytes :=
  do psz <- osize subscribe_props_size_list (sb_properties s);
  do vsz <- vsize psz;
  let remaining_len := 2 + vsz + psz + vec_size sub_filter_size (sb_payload s) in
  Ok ([0x82] ++ venc remaining_len ++ u16_enc (sb_packet_id s)
      ++ venc psz ++ oenc subscribe_props_list (sb_properties s)
      ++ vec_enc sub_filter_enc (sb_payload s)).

(** The payload loop [while buffer.remaining() > next_packet] of subscribe.rs 233-235
    (same in unsubscribe.rs 140-142, suback.rs 158-160, unsuback.rs 157-159). [fuel]
    is the number of bytes left plus one; running out is a [Panic], shown impossible. *)
Fixpoint payload_loop {A} (dec : bytes -> res (A * bytes)) (fuel : nat) (next_packet : N)
    (bs : bytes) : res (list A * bytes) :=
  if next_packet <? blen bs then
    match fuel with
    | O => Panic
    | S f =>
        do (x, r) <- dec bs;
        do (xs, r) <- payload_loop dec f next_packet r;
        Ok (x :: xs, r)
    end
  else Ok ([], bs).

(** subscribe.rs 216-242 *)
Definition subscribe_dec (p : profile) (bs : bytes) : res (subscribe_packet * bytes) :=
  do r <- advance1 bs;
  do (remaining_len, r) <- vbi_dec p r;
  let buffer_len := blen r in
  do (pid, r) <- u16_dec r;
  do (a, r) <- props_dec p (EReason MalformedPacket) subscribe_props_step subscribe_props_default r;
  if blen r =? 0 then Err (EReason ProtocolError)
  else
    do next_packet <- usize_sub p buffer_len remaining_len;
    do (pl, r) <- payload_loop sub_filter_dec (S (length r)) next_packet r;
    Ok (Mk_subscribe_packet pid (Some a) pl, r).

(** ** SUBACK (suback.rs) *)

(** suback.rs 97-103; a payload element is one reason code (70-95). *)
Record suback_packet := Mk_suback_packet {
  sa_protocol_version : version;
  sa_packet_id : N;
  sa_properties : option ack_props;
  sa_payload : list reason
}.

(** suback.rs 107-138 *)
Definition suback_enc (s : suback_packet) : res bytes :=
  if supports_properties (sa_protocol_version s) then
    do psz <- osize ack_props_size_list (sa_properties s);
    do vsz <- vsize psz;
    let remaining_len := 2 + (vsz + psz) + vec_size (fun _ => 1) (sa_payload s) in
    Ok ([0x90] ++ venc remaining_len ++ u16_enc (sa_packet_id s)
        ++ (venc psz ++ oenc ack_props_list (sa_properties s))
        ++ vec_enc reason_enc (sa_payload s))
  else
    Ok ([0x90] ++ venc (2 + vec_size (fun _ => 1) (sa_payload s)) ++ u16_enc (sa_packet_id s)
        ++ vec_enc reason_enc (sa_payload s)).

(** suback.rs 140-168 *)
Definition suback_dec (p : profile) (bs : bytes) : res (suback_packet * bytes) :=
  do r <- advance1 bs;
  do (remaining_len, r) <- vbi_dec p r;
  let buffer_len := blen r in
  do (pid, r) <- u16_dec r;
  do (a, r) <- props_dec p PacketIncomplete ack_props_step ack_props_default r;
  if blen r =? 0 then Err (EReason ProtocolError)
  else
    do next_packet <- usize_sub p buffer_len remaining_len;
    do (pl, r) <- payload_loop reason_dec (S (length r)) next_packet r;
    Ok (Mk_suback_packet V5 pid (Some a) pl, r).

(** suback.rs 184-192: v3 return codes. *)
Definition suback_v3_code (bs : bytes) : res (reason * bytes) :=
  do (c, r) <- get_u8 bs;
  Ok (match c with
      | 0 => GrantedQoS0
      | 1 => GrantedQoS1
      | 2 => GrantedQoS2
      | 0x80 => UnspecifiedError
      | _ => UnspecifiedError
      end, r).

(** suback.rs 170-204 *)
Definition suback_dec_v3 (p : profile) (bs : bytes) : res (suback_packet * bytes) :=
  do r <- advance1 bs;
  do (remaining_len, r) <- vbi_dec p r;
  let buffer_len := blen r in
  do (pid, r) <- u16_dec r;
  do next_packet <- usize_sub p buffer_len remaining_len;
  do (pl, r) <- payload_loop suback_v3_code (S (length r)) next_packet r;
  Ok (Mk_suback_packet V3_1_1 pid None pl, r).

(** ** UNSUBSCRIBE (unsubscribe.rs) *)

(** unsubscribe.rs 92-97; a payload element is one topic filter (65-90). *)
Record unsubscribe_packet := Mk_unsubscribe_packet {
  us_packet_id : N;
  us_properties : option unsubscribe_props;
  us_payload : list bytes
}.

(** unsubscribe.rs 101-122 *)
Definition unsubscribe_enc (s : unsubscribe_packet) : res bytes :=
  do psz <- osize unsubscribe_props_size_list (us_properties s);
  do vsz <- vsize psz;
  let remaining_len := 2 + vsz + psz + vec_size str_size (us_payload s) in
  Ok ([0xa2] ++ venc remaining_len ++ u16_enc (us_packet_id s)
      ++ venc psz ++ oenc unsubscribe_props_list (us_properties s)
      ++ vec_enc str_enc (us_payload s)).

(** unsubscribe.rs 124-150 *)
Definition unsubscribe_dec (p : profile) (bs : bytes) : res (unsubscribe_packet * bytes) :=
  do r <- advance1 bs;
  do (remaining_len, r) <- vbi_dec p r;
  let buffer_len := blen r in
  do (pid, r) <- u16_dec r;
  do (a, r) <- props_dec p PacketIncomplete unsubscribe_props_step unsubscribe_props_default r;
  if blen r =? 0 then Err (EReason ProtocolError)
  else
    do next_packet <- usize_sub p buffer_len remaining_len;
    do (pl, r) <- payload_loop str_dec (S (length r)) next_packet r;
    Ok (Mk_unsubscribe_packet pid (Some a) pl, r).

(** ** UNSUBACK (unsuback.rs) *)

(** unsuback.rs 96-102 *)
Record unsuback_packet := Mk_unsuback_packet {
  ua_protocol_version : version;
  ua_packet_id : N;
  ua_properties : option ack_props;
  ua_payload : list reason
}.

(** unsuback.rs 106-137 *)
Definition unsuback_enc (s : unsuback_packet) : res bytes :=
  if supports_properties (ua_protocol_version s) then
    do psz <- osize ack_props_size_list (ua_properties s);
    do vsz <- vsize psz;
    let remaining_len := 2 + (vsz + psz + vec_size (fun _ => 1) (ua_payload s)) in
    Ok ([0xb0] ++ venc remaining_len ++ u16_enc (ua_packet_id s)
        ++ venc psz ++ oenc ack_props_list (ua_properties s)
        ++ vec_enc reason_enc (ua_payload s))
  else
    Ok ([0xb0] ++ venc 2 ++ u16_enc (ua_packet_id s)).

(** unsuback.rs 139-167 *)
Definition unsuback_dec (p : profile) (bs : bytes) : res (unsuback_packet * bytes) :=
  do r <- advance1 bs;
  do (remaining_len, r) <- vbi_dec p r;
  let buffer_len := blen r in
  do (pid, r) <- u16_dec r;
  do (a, r) <- props_dec p PacketIncomplete ack_props_step ack_props_default r;
  if blen r =? 0 then Err (EReason ProtocolError)
  else
    do next_packet <- usize_sub p buffer_len remaining_len;
    do (pl, r) <- payload_loop reason_dec (S (length r)) next_packet r;
    Ok (Mk_unsuback_packet V5 pid (Some a) pl, r).

(** unsuback.rs 169-186 *)
Definition unsuback_dec_v3 (p : profile) (bs : bytes) : res (unsuback_packet * bytes) :=
  do r <- advance1 bs;
  do (_, r) <- vbi_dec p r;
  do (pid, r) <- u16_dec r;
  Ok (Mk_unsuback_packet V3_1_1 pid None [], r).

(** ** PINGREQ, PINGRESP (pingreq.rs, pingresp.rs 10-24): the decoder skips one byte. *)
Definition pingreq_enc : bytes := [0xc0] ++ vbi_enc 0.
Definition pingresp_enc : bytes := [0xd0] ++ vbi_enc 0.
Definition ping_dec (bs : bytes) : res (unit * bytes) := do r <- advance1 bs; Ok (tt, r).

(** ** DISCONNECT (disconnect.rs) *)

(** disconnect.rs 77-81 *)
Record disconnect_packet := Mk_disconnect_packet {
  d_reason : reason;
  d_properties : option disconnect_props
}.

(** disconnect.rs 85-97: the property length is not written. *)
Definition disconnect_enc (d : disconnect_packet) : res bytes :=
  do psz <- osize disconnect_props_size_list (d_properties d);
  let remaining_len := 1 + psz in
  Ok ([0xe0] ++ venc remaining_len ++ reason_enc (d_reason d)
      ++ oenc disconnect_props_list (d_properties d)).

(** disconnect.rs 99-123 *)
Definition disconnect_dec (p : profile) (bs : bytes) : res (disconnect_packet * bytes) :=
  do (h, r) <- get_u8 bs;
  if negb (N.land h 15 =? 0) then Err (EReason MalformedPacket)
  else
    do (remaining_len, r) <- vbi_dec p r;
    do (rc, r) <- (if remaining_len <? 1 then Ok (NormalDisconnection, r) else reason_dec r);
    do (props, r) <-
      (if remaining_len <? 2 then Ok (None, r)
       else
         do (a, r) <- props_dec p PacketIncomplete disconnect_props_step disconnect_props_default r;
         Ok (Some a, r));
    Ok (Mk_disconnect_packet rc props, r).

(** ** AUTH (auth.rs) *)

(** auth.rs 77-81 *)
Record auth_packet := Mk_auth_packet {
  au_reason : reason;
  au_properties : auth_props
}.

(** auth.rs 85-97: the property length is not written. *)
Definition auth_enc (a : auth_packet) : res bytes :=
  do psz <- props_size (auth_props_size_list (au_properties a));
  let remaining_len := 1 + psz in
  Ok ([0xf0] ++ venc remaining_len ++ reason_enc (au_reason a)
      ++ props_enc (auth_props_list (au_properties a))).

(** auth.rs 99-113 *)
Definition auth_dec (p : profile) (bs : bytes) : res (auth_packet * bytes) :=
  do (h, r) <- get_u8 bs;
  if negb (N.land h 15 =? 0) then Err (EReason MalformedPacket)
  else
    do (_, r) <- vbi_dec p r;
    do (rc, r) <- reason_dec r;
    do (a, r) <- props_dec p PacketIncomplete auth_props_step auth_props_default r;
    Ok (Mk_auth_packet rc a, r).

(** ** Control packets (lib.rs) *)

(** lib.rs 47-64 *)
Inductive packet :=
| Connect (c : connect_packet)
| ConnAck (c : connack_packet)
| Publish (b : publish_packet)
| PubAck (a : ack_packet)
| PubRec (a : ack_packet)
| PubRel (a : ack_packet)
| PubComp (a : ack_packet)
| Subscribe (s : subscribe_packet)
| SubAck (s : suback_packet)
| Unsubscribe (s : unsubscribe_packet)
| UnsubAck (s : unsuback_packet)
| PingReq
| PingResp
| Disconnect (d : disconnect_packet)
| Auth (a : auth_packet).

(** lib.rs 198-220 *)
Definition packet_enc (k : packet) : res bytes :=
  match k with
  | Connect c => connect_enc c
  | ConnAck c => connack_enc c
  | Publish b => publish_enc b
  | PubAck a => ack_enc 0x40 a
  | PubRec a => ack_enc 0x50 a
  | PubRel a => ack_enc 0x62 a
  | PubComp a => ack_enc 0x70 a
  | Subscribe s => subscribe_enc s
  | SubAck s => suback_enc s
  | Unsubscribe s => unsubscribe_enc s
  | UnsubAck s => unsuback_enc s
  | PingReq => Ok pingreq_enc
  | PingResp => Ok pingresp_enc
  | Disconnect d => disconnect_enc d
  | Auth a => auth_enc a
  end.

Definition lift_packet {A} (f : A -> packet) (r : res (A * bytes)) : res (packet * bytes) :=
  do (a, rest) <- r; Ok (f a, rest).

(** lib.rs 85-112 [PacketType::try_from] and 146-195 [parse_with_version]. *)
Definition parse_with_version (p : profile) (v : version) (bs : bytes) : res (packet * bytes) :=
  match bs with
  | [] => Err PacketIncomplete
  | h :: _ =>
      match h / 16 with
      | 1 => lift_packet Connect (connect_dec p bs)
      | 2 => lift_packet ConnAck
               (if supports_properties v then connack_dec p bs else connack_dec_v3 p bs)
      | 3 => lift_packet Publish (publish_dec p bs)
      | 4 => lift_packet PubAck (ack_dec p bs)
      | 5 => lift_packet PubRec (ack_dec p bs)
      | 6 => lift_packet PubRel (ack_dec p bs)
      | 7 => lift_packet PubComp (ack_dec p bs)
      | 8 => lift_packet Subscribe (subscribe_dec p bs)
      | 9 => lift_packet SubAck
               (if supports_properties v then suback_dec p bs else suback_dec_v3 p bs)
      | 10 => lift_packet Unsubscribe (unsubscribe_dec p bs)
      | 11 => lift_packet UnsubAck
                (if supports_properties v then unsuback_dec p bs else unsuback_dec_v3 p bs)
      | 12 => lift_packet (fun _ => PingReq) (ping_dec bs)
      | 13 => lift_packet (fun _ => PingResp) (ping_dec bs)
      | 14 => lift_packet Disconnect (disconnect_dec p bs)
      | 15 => lift_packet Auth (auth_dec p bs)
      | _ => Err (EReason MalformedPacket)
      end
  end.

(** lib.rs 139-142 *)
Definition parse (p : profile) (bs : bytes) : res (packet * bytes) := parse_with_version p V5 bs.

(** lib.rs 119-137: the completeness check; [len - encoded_size - 1] is a [usize]
    subtraction. *)
Definition check (p : profile) (bs : bytes) : res unit :=
  let len := blen bs in
  if len <? 2 then Err PacketIncomplete
  else
    do (remaining_len, _) <- vbi_dec p (bdrop 1 bs);
    do vsz <- vbi_size remaining_len;
    do a <- usize_sub p len vsz;
    do b <- usize_sub p a 1;
    if remaining_len <=? b then Ok tt else Err PacketIncomplete.
