(** Well-formed values of the wire format. *)
From Verif Require Import Base Codec SpecCodec Property.

(** Values as Rust's types allow them and as the wire can carry them: integers in
    range, strings valid UTF-8 of at most 65535 bytes, binary data of at most 65535
    bytes. *)
Definition wf_str (s : bytes) : Prop := utf8 s /\ blen s <= 65535.
Definition wf_bin (d : bytes) : Prop := is_bytes d /\ blen d <= 65535.

Definition wf_prop (q : property) : Prop :=
  match q with
  | PPayloadFormatIndicator v | PRequestProblemInformation v
  | PRequestResponseInformation v | PMaximumQoS v => v < 256
  | PServerKeepAlive v | PReceiveMaximum v | PTopicAliasMaximum v | PTopicAlias v => v < 65536
  | PMessageExpiryInterval v | PSessionExpiryInterval v | PWillDelayInterval v
  | PMaximumPacketSize v => v < two32
  | PSubscriptionIdentifier v => v <= vbi_max
  | PContentType s | PResponseTopic s | PAssignedClientIdentifier s | PAuthenticationMethod s
  | PResponseInformation s | PServerReference s | PReasonString s => wf_str s
  | PCorrelationData d | PAuthenticationData d => wf_bin d
  | PUserProperty k v => wf_str k /\ wf_str v
  | PRetainAvailable _ | PWildcardSubscriptionAvailable _
  | PSubscriptionIdentifierAvailable _ | PSharedSubscriptionAvailable _ => True
  end.
