(** Common vocabulary of the model: bytes, results, build profiles, reason codes. *)
From Coq Require Export List NArith ZArith Bool Lia.
Export ListNotations.
Open Scope N_scope.

(** A buffer is a list of byte values. Rust's [u8] values are the [N] below 256;
    the predicate [is_bytes] states that bound where a theorem needs it. *)
Notation byte := N (only parsing).
Notation bytes := (list N) (only parsing).

Definition is_byte (b : N) : Prop := b < 256.
Definition is_bytes (bs : bytes) : Prop := Forall is_byte bs.

(** Length of a buffer ([Buf::remaining], [len()]) as a number. *)
Definition blen {A} (bs : list A) : N := N.of_nat (length bs).

(** First/last part of a buffer, indexed by a number. *)
Definition btake {A} (n : N) (bs : list A) : list A := firstn (N.to_nat n) bs.
Definition bdrop {A} (n : N) (bs : list A) : list A := skipn (N.to_nat n) bs.

(** mercurio-core/src/reason.rs 10-57: [enum ReasonCode], same order. *)
Inductive reason :=
| Success | NormalDisconnection | GrantedQoS0 | GrantedQoS1 | GrantedQoS2
| DisconnectWithWillMessage | NoMatchingSubscribers | NoSubscriptionExisted
| ContinueAuthentication | ReAuthenticate | UnspecifiedError | MalformedPacket
| ProtocolError | ImplementationSpecificError | UnsupportedProtocolVersion
| ClientIdentifierNotValid | BadUserNameOrPassword | NotAuthorized
| ServerUnavailable | ServerBusy | Banned | ServerShuttingDown
| BadAuthenticationMethod | KeepAliveTimeout | SessionTakenOver
| TopicFilterInvalid | TopicNameInvalid | PacketIdentifierInUse
| PacketIdentifierNotFound | ReceiveMaximumExceeded | TopicAliasInvalid
| PacketTooLarge | MessageRateTooHigh | QuotaExceeded | AdministrativeAction
| PayloadFormatInvalid | RetainNotSupported | QoSNotSupported
| UseAnotherServer | ServerMoved | SharedSubscriptionsNotSupported
| ConnectionRateExceeded | MaximumConnectTime
| SubscriptionIdentifiersNotSupported | WildcardSubscriptionsNotSupported.

Definition reason_eq_dec (a b : reason) : {a = b} + {a <> b}.
Proof. decide equality. Defined.

(** [a == b] of the derived [PartialEq]. *)
Definition reason_eqb (a b : reason) : bool :=
  if reason_eq_dec a b then true else false.

(** mercurio-core/src/error.rs 11-25: [enum Error]. The payloads of [Io] and
    [Storage] (a message text) are not modelled. *)
Inductive error :=
| PacketIncomplete
| EIo
| EReason (r : reason)
| EStorage.

(** Outcome of a Rust computation: value, [Err], or a panic of the thread/task. *)
Inductive res (A : Type) :=
| Ok (a : A)
| Err (e : error)
| Panic.
Arguments Ok {A} a.
Arguments Err {A} e.
Arguments Panic {A}.

(** The [?] operator. *)
Definition bind {A B} (r : res A) (f : A -> res B) : res B :=
  match r with
  | Ok a => f a
  | Err e => Err e
  | Panic => Panic
  end.

Notation "'do' x <- r ; k" := (bind r (fun x => k))
  (at level 200, x pattern, r at level 100, k at level 200, right associativity).

(** Build profile: [Debug] has overflow checks (a panic), [Release] wraps. *)
Inductive profile := Debug | Release.

Definition two16 : N := 65536.
Definition two32 : N := 4294967296.
Definition two64 : N := 18446744073709551616.

(** [u32] addition and multiplication, [usize] subtraction (64-bit). *)
Definition u32_add (p : profile) (a b : N) : res N :=
  if a + b <? two32 then Ok (a + b)
  else match p with Debug => Panic | Release => Ok ((a + b) mod two32) end.

Definition u32_mul (p : profile) (a b : N) : res N :=
  if a * b <? two32 then Ok (a * b)
  else match p with Debug => Panic | Release => Ok ((a * b) mod two32) end.

Definition usize_sub (p : profile) (a b : N) : res N :=
  if b <=? a then Ok (a - b)
  else match p with Debug => Panic | Release => Ok (two64 + a - b) end.

(** Option helpers used by the encoders. *)
Definition obind {A B} (o : option A) (f : A -> option B) : option B :=
  match o with Some a => f a | None => None end.
Definition is_some {A} (o : option A) : bool :=
  match o with Some _ => true | None => false end.

(** [b as u8]. *)
Definition b2n (b : bool) : N := if b then 1 else 0.
