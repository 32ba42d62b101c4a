(** Wire formats: message.go, message_fragment_headers.go,
    key_seed_update_message.go, negotiation_message.go, session.go 80-98. *)
From Coq Require Import NArith List Bool.
From Verif Require Import Base.
Import ListNotations.
Open Scope N_scope.

(** errors.go: only the kinds that matter to the callers are kept; texts and
    tracebacks are dropped. *)
Inductive gerr :=
| ErrTooShort (expected real : N)
| ErrOutOfRange
| ErrDuplicateChain
| ErrPayloadTooBig
| ErrInvalidChecksum
| ErrCannotDecrypt
| ErrAlreadyClosed
| ErrCanceled
| ErrBackend.

Inductive res (A : Type) : Type :=
| Ok (a : A)
| Err (e : gerr).
Arguments Ok {A} _.
Arguments Err {A} _.

(** ** Message headers *)

(** message.go 118-122: [messageHeadersData] (Type u32, Length u32, flags u8). *)
Record msgHdr := { mType : N; mLength : N; mFlags : N }.
Definition msgHdr_ok (h : msgHdr) : Prop :=
  mType h < 2^32 /\ mLength h < 2^32 /\ mFlags h < 2^8.

(** message.go 205: [binary.Size(messageHeadersData{})]. *)
Definition messageHeadersSize : N := 9.

(** message.go 271-284: [Write] overwrites the first 9 bytes of [b]. *)
Definition hdrWrite (h : msgHdr) (b : bytes) : res (N * bytes) :=
  if len b <? messageHeadersSize then Err (ErrTooShort messageHeadersSize (len b))
  else Ok (messageHeadersSize,
           le_enc 4 (mType h) ++ le_enc 4 (mLength h) ++ [mFlags h] ++ skipn 9 b).

(** message.go 257-269: [Read]. *)
Definition hdrRead (b : bytes) : res (N * msgHdr) :=
  if len b <? messageHeadersSize then Err (ErrTooShort messageHeadersSize (len b))
  else
    let t := le_dec (firstn 4 b) in
    let b := skipn 4 b in
    let l := le_dec (firstn 4 b) in
    let b := skipn 4 b in
    Ok (messageHeadersSize, {| mType := t; mLength := l; mFlags := hd 0 b |}).

(** message.go 131-158: flag bits. *)
Definition flagConfidential : N := 1.
Definition flagFragmented : N := 2.
Definition isConfidential (flags : N) : bool := negb (N.land flags flagConfidential =? 0).
Definition isFragmented (flags : N) : bool := negb (N.land flags flagFragmented =? 0).
(** [*flags |= f] / [*flags &= ^f] on a uint8. *)
Definition setFlag (flags f : N) (v : bool) : N :=
  if v then N.lor flags f else N.land flags (N.lxor 255 f).
Definition setIsConfidential (flags : N) (v : bool) := setFlag flags flagConfidential v.
Definition setIsFragmented (flags : N) (v : bool) := setFlag flags flagFragmented v.

(** message.go 230-233: [Set]: [messageLength(len(payload))] truncates to 32 bits. *)
Definition hdrSet (t : N) (payload : bytes) : msgHdr :=
  {| mType := t; mLength := u32 (len payload); mFlags := 0 |}.

(** ** Packet ("messages container") headers *)

(** message.go 189-195. *)
Record contHdr := { cPacketID : bytes; cHdrSum : bytes; cMsgSum : bytes; cLength : N }.
Definition contHdr_ok (h : contHdr) : Prop :=
  length (cPacketID h) = 8%nat /\ bytes_ok (cPacketID h) /\
  length (cHdrSum h) = 16%nat /\ length (cMsgSum h) = 16%nat /\ cLength h < 2^32.

(** message.go 206. *)
Definition messagesContainerHeadersSize : N := 44.

(** message.go 346-364: [Write] (with packetID.Write, 181-187). *)
Definition contWrite (h : contHdr) (b : bytes) : res (N * bytes) :=
  if len b <? messagesContainerHeadersSize
  then Err (ErrTooShort messagesContainerHeadersSize (len b))
  else Ok (messagesContainerHeadersSize,
           cPacketID h ++ cHdrSum h ++ cMsgSum h ++ le_enc 4 (cLength h) ++ skipn 44 b).

(** message.go 335-344: [ReadAfterIV]; slicing [b[:16]] etc. panics on short
    input. Returns the two tags and the length. *)
Definition contReadAfterIV (b : bytes) : outcome (N * (bytes * bytes * N)) :=
  if len b <? 36 then Panic
  else
    let h := firstn 16 b in
    let b := skipn 16 b in
    let m := firstn 16 b in
    let b := skipn 16 b in
    Ret (messagesContainerHeadersSize - 8, (h, m, le_dec (firstn 4 b))).

(** message.go 318-333: [Read]. *)
Definition contRead (b : bytes) : outcome (res (N * contHdr)) :=
  if len b <? messagesContainerHeadersSize
  then Ret (Err (ErrTooShort messagesContainerHeadersSize (len b)))
  else
    match contReadAfterIV (skipn 8 b) with
    | Panic => Panic
    | Ret (n, (h, m, l)) =>
        Ret (Ok (n + 8, {| cPacketID := firstn 8 b; cHdrSum := h; cMsgSum := m; cLength := l |}))
    end.

(** message.go 162-173: packet ID value and its encoding. *)
Definition packetIDValue (id : bytes) : N := le_dec id.
Definition packetIDBytes (v : N) : bytes := le_enc 8 v.

(** ** Fragment headers *)

(** message_fragment_headers.go 18-22. *)
Record fragHdr := { fChainID : N; fStartPos : N; fTotal : N }.
Definition fragHdr_ok (h : fragHdr) : Prop :=
  fChainID h < 2^64 /\ fStartPos h < 2^64 /\ fTotal h < 2^64.
(** message_fragment_headers.go: [binary.Size] of the struct. *)
Definition messageFragmentHeadersSize : N := 24.

(** message_fragment_headers.go 54-67. *)
Definition fragWrite (h : fragHdr) (b : bytes) : res (N * bytes) :=
  if len b <? messageFragmentHeadersSize
  then Err (ErrTooShort messageFragmentHeadersSize (len b))
  else Ok (messageFragmentHeadersSize,
           le_enc 8 (fChainID h) ++ le_enc 8 (fStartPos h) ++ le_enc 8 (fTotal h) ++ skipn 24 b).

(** message_fragment_headers.go 69-82. *)
Definition fragRead (b : bytes) : res (N * fragHdr) :=
  if len b <? messageFragmentHeadersSize
  then Err (ErrTooShort messageFragmentHeadersSize (len b))
  else
    let c := le_dec (firstn 8 b) in
    let b := skipn 8 b in
    let s := le_dec (firstn 8 b) in
    let b := skipn 8 b in
    let t := le_dec (firstn 8 b) in
    Ok (messageFragmentHeadersSize, {| fChainID := c; fStartPos := s; fTotal := t |}).

(** ** Session ID: session.go 80-98 *)
Record sessID := { sCreatedAt : N; sRandom : N }.
Definition sessID_ok (s : sessID) : Prop := sCreatedAt s < 2^64 /\ sRandom s < 2^64.
Definition sessBytes (s : sessID) : bytes := le_enc 8 (sCreatedAt s) ++ le_enc 8 (sRandom s).
(** [FillFromBytes]: [b[8:]] and [Uint64] panic on short input. *)
Definition sessFill (b : bytes) : outcome sessID :=
  if len b <? 16 then Panic
  else Ret {| sCreatedAt := le_dec (firstn 8 b); sRandom := le_dec (firstn 8 (skipn 8 b)) |}.

(** ** Key seed update message: key_seed_update_message.go 17-28.
    [binary.Write]/[binary.Read] of a struct of fixed-size fields is the
    concatenation of the little-endian fields. *)
Record kxMsg := { kSess : sessID; kIdentity : bytes; kPub : bytes; kMode : N; kFlags : N }.
Definition kxMsg_ok (m : kxMsg) : Prop :=
  sessID_ok (kSess m) /\ length (kIdentity m) = 32%nat /\ length (kPub m) = 32%nat /\
  kMode m < 2^8 /\ kFlags m < 2^8.
Definition kxEncode (m : kxMsg) : bytes :=
  sessBytes (kSess m) ++ kIdentity m ++ kPub m ++ [kMode m] ++ [kFlags m].
Definition kxMsgSize : N := 82.
Definition kxSignatureSize : N := 64.
Definition kxSignedSize : N := 146.
(** [binary.Read] of exactly [kxMsgSize] bytes; fewer bytes are an error. *)
Definition kxDecode (b : bytes) : option kxMsg :=
  if len b <? kxMsgSize then None
  else
    let s := {| sCreatedAt := le_dec (firstn 8 b); sRandom := le_dec (firstn 8 (skipn 8 b)) |} in
    let b := skipn 16 b in
    let i := firstn 32 b in
    let b := skipn 32 b in
    let k := firstn 32 b in
    let b := skipn 32 b in
    Some {| kSess := s; kIdentity := i; kPub := k; kMode := nth 0 b 0; kFlags := nth 1 b 0 |}.

(** key_seed_update_message.go 36-46. *)
Definition kxIsAnswer (flags : N) : bool := negb (N.land flags 1 =? 0).
Definition kxSetIsAnswer (flags : N) (v : bool) : N := setFlag flags 1 v.

(** ** Negotiation control message: negotiation_message.go 3-27 *)
Record negCtl := { nSub : N; nLargest : N; nFlags : N }.
Definition negCtl_ok (m : negCtl) : Prop := nSub m < 2^8 /\ nLargest m < 2^32 /\ nFlags m < 2^8.
Definition negCtlSize : N := 6.
Definition negEncode (m : negCtl) : bytes := [nSub m] ++ le_enc 4 (nLargest m) ++ [nFlags m].
(** negotiator.go 414-421 ([parseMessage]) for this struct. *)
Definition negDecode (b : bytes) : res negCtl :=
  if len b <? negCtlSize then Err (ErrTooShort negCtlSize (len b))
  else Ok {| nSub := nth 0 b 0; nLargest := le_dec (firstn 4 (skipn 1 b)); nFlags := nth 5 b 0 |}.
Definition negIsEnd (flags : N) : bool := negb (N.land flags 1 =? 0).

(** ** Message types: message.go 60-100 *)
Definition messageTypeUndefined : N := 0.
Definition messageTypeKeyExchange : N := 2^32 - 1 - 1.
Definition messageTypeNegotiation : N := 2^32 - 1 - 2.
Definition MessageTypeReadWrite : N := 2^32 - 1 - 3.
(** The const block's iota value of [messageTypeReservedAbove] is 18
    (there is no Reserved6). *)
Definition messageTypeReservedAbove : N := 2^32 - 1 - 18.

(** message.go 85-91. *)
Definition isInternal (t : N) : bool :=
  (t =? messageTypeKeyExchange) || (t =? messageTypeNegotiation).

(** message.go 95-100: uint32 arithmetic wraps. *)
Definition MessageTypeChannel (channelID : N) : outcome N :=
  if messageTypeReservedAbove <=? add32 channelID 1 then Panic
  else Ret (add32 channelID 1).

(** One message as it is put into a packet: header, then payload
    (session.go 1556-1565 [writeMessageSingle], 1704-1715
    [appendToDelayedWriteBuffer]). *)
Definition encodeMsg (t flags : N) (payload : bytes) : bytes :=
  match hdrWrite {| mType := t; mLength := u32 (len payload); mFlags := flags |} (repeat 0 9) with
  | Ok (_, h) => h ++ payload
  | Err _ => []
  end.
