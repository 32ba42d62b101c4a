(** Sealing and opening of packets: session.go 531-535, 1103-1265, 1853-1987;
    message.go 162-187, 285-316, 405-439; crypt.go. *)
From Coq Require Import NArith List Bool.
From Verif Require Import Base MessageModel PacketIDModel ReaderModel ReaderLoopModel.
Import ListNotations.
Open Scope N_scope.

(** message.go 52: the first 32 bytes of [poly1305KeyXORer]
    ("github.com/xaionaro-go/secureio "). *)
Definition poly1305KeyXORer : bytes :=
  [103;105;116;104;117;98;46;99;111;109;47;120;97;105;111;110;97;114;111;45;103;111;47;
   115;101;99;117;114;101;105;111;32].

(** crypt.go 8-10. *)
Definition emptyIV : bytes := repeat 0 24.

(** session.go 66, 75-77. *)
Definition cipherBlockSize : N := 1.
Definition roundSize (size blockSize : N) : N :=
  N.land (add32 size (sub32 blockSize 1)) (N.lxor (sub32 blockSize 1) (2^32 - 1)).

(** key_exchanger.go: order of the four secrets ([secretIDRecentBoth] = 0). *)
Definition secretIDRecentBoth : nat := 0.
Definition secretIDRecentLocal : nat := 1.
Definition secretIDRecentRemote : nat := 2.
Definition secretIDPrevious : nat := 3.
Definition secretIDs : nat := 4.

(** The part of [Session] used for sealing and opening. A nil key is [None]. *)
Record peer := {
  pAux : option bytes;           (* auxCipherKey *)
  pKeys : list (option bytes);   (* cipherKeys; [] before the first key exchange *)
  pRemoteID : option bytes;      (* remoteSessionID.Bytes() *)
  pOwnID : bytes;                (* id.Bytes() *)
  pNext : N                      (* nextPacketID *)
}.

(** session.go 531-535; message.go 405-413. *)
Definition takePacketID (p : peer) : peer * bytes :=
  let v := add64 (pNext p) 1 in
  ({| pAux := pAux p; pKeys := pKeys p; pRemoteID := pRemoteID p; pOwnID := pOwnID p; pNext := v |},
   packetIDBytes v).

Section Crypto.
  (** Oracles: byte number [n] of the key stream of ChaCha20 (8-byte nonce) or
      XChaCha20 (24-byte nonce), BLAKE3-256 and Poly1305. *)
  Variable stream : bytes -> bytes -> nat -> N.
  Variable blake3 : bytes -> bytes.
  Variable poly1305 : bytes -> bytes -> bytes.

  Fixpoint xorFrom (k iv : bytes) (n : nat) (src : bytes) : bytes :=
    match src with
    | [] => []
    | b :: r => N.lxor b (stream k iv n) :: xorFrom k iv (S n) r
    end.
  Definition xorStream (k iv src : bytes) : bytes := xorFrom k iv 0 src.

  (** crypt.go 12-20 ([encrypt] and [decrypt] are the same function);
      chacha20.XORKeyStream panics on a bad key or nonce length. *)
  Definition crypt (k iv src : bytes) : outcome bytes :=
    if (len k =? 32) && ((len iv =? 8) || (len iv =? 12) || (len iv =? 24))
    then Ret (xorStream k iv src) else Panic.

  (** message.go 289-298. A nil key copies nothing. *)
  Definition keyBytes (k : option bytes) : bytes := match k with Some b => b | None => [] end.
  Definition calculatePoly1305Key (pid : bytes) (k : option bytes) : bytes :=
    blake3 (xorb_bytes (firstn 32 (pid ++ firstn 24 (keyBytes k) ++ repeat 0 24)) poly1305KeyXORer).

  (** message.go 300-316. Simplified: [unsafetools.BytesOf] of the struct after
      the two tags is the length field in the byte order of the machine, taken
      as little endian. *)
  Definition headersChecksum (pid : bytes) (k : option bytes) (length : N) : bytes :=
    poly1305 (calculatePoly1305Key pid k) (le_enc 4 length).
  Definition messagesChecksum (pid : bytes) (k : option bytes) (msgs : bytes) : bytes :=
    poly1305 (calculatePoly1305Key pid k) msgs.

  (** message.go 425-430 ([Set]); the length is truncated to 32 bits. *)
  Definition contSet (pid : bytes) (k : option bytes) (msgs : bytes) : contHdr :=
    {| cPacketID := pid; cHdrSum := headersChecksum pid k (u32 (len msgs));
       cMsgSum := messagesChecksum pid k msgs; cLength := u32 (len msgs) |}.

  (** session.go 1861-1962: everything of [sendMessages] between getting the
      key and [backend.Write]; [pid] is the packet ID already taken. The size
      check is modelled in SendModel. *)
  Definition sealPacket (p : peer) (confidential : bool) (pid : bytes) (msgs : bytes) : outcome (res bytes) :=
    let k := if confidential then nth secretIDRecentBoth (pKeys p) None else pAux p in
    match contWrite (contSet pid k msgs) (repeat 0 44) with
    | Err e => Ret (Err e)
    | Ok (_, hdrBytes) =>
        let plain := hdrBytes ++ msgs in
        match k with
        | None => Ret (Ok plain)
        | Some key =>
            let size := roundSize (u32 (len plain)) cipherBlockSize in
            match gslice plain 0 size with
            | None => Panic
            | Some plainBytes =>
                match gslice plainBytes 8 (len plainBytes) with
                | None => Panic
                | Some rest =>
                    let iv := if confidential then pOwnID p ++ pid else pid in
                    match crypt key iv rest with
                    | Panic => Panic
                    | Ret body =>
                        match pAux p with
                        | None => Ret (Ok (pid ++ body))
                        | Some a =>
                            match crypt a emptyIV pid with
                            | Panic => Panic
                            | Ret encID => Ret (Ok (encID ++ body))
                            end
                        end
                    end
                end
            end
        end
    end.

  (** session.go 1853-1987 without waiting, size check and backend: takes the
      next packet ID and seals. *)
  Definition sendPacket (p : peer) (confidential : bool) (msgs : bytes) : peer * outcome (res bytes) :=
    let (p', pid) := takePacketID p in (p', sealPacket p' confidential pid msgs).

  (** session.go 1103-1153: [Ok None] is "the headers' tag does not match",
      [Ok (Some (length, content))] is success. *)
  Definition tryDecrypt (pid encrypted : bytes) (k : option bytes) (iv : bytes)
    : outcome (res (option (N * bytes))) :=
    match (match k with Some key => crypt key iv encrypted | None => Ret encrypted end) with
    | Panic => Panic
    | Ret dec =>
        match contReadAfterIV dec with
        | Panic => Panic
        | Ret (n, (hsum, msum, l)) =>
            if negb (bytes_eqb (headersChecksum pid k l) hsum) then Ret (Ok None)
            else
              match gslice dec n (len dec) with
              | None => Panic
              | Some msgs =>
                  if negb (bytes_eqb (messagesChecksum pid k msgs) msum) then Ret (Err ErrInvalidChecksum)
                  else Ret (Ok (Some (l, msgs)))
              end
        end
    end.

  (** session.go 1155-1169: the content of [ivBuf]. Without a remote session ID
      the buffer keeps whatever size it had in the pool: 0 or the maximal packet
      size, neither of which is a nonce size; [] stands for both. *)
  Definition remoteIV (p : peer) (pid : bytes) : bytes :=
    match pRemoteID p with Some id => id ++ pid | None => [] end.

  (** session.go 1247-1256. *)
  Fixpoint tryKeys (pid encrypted iv : bytes) (ks : list (option bytes)) : outcome (res (option (N * bytes))) :=
    match ks with
    | [] => Ret (Ok None)
    | None :: r => tryKeys pid encrypted iv r
    | Some k :: r =>
        match tryDecrypt pid encrypted (Some k) iv with
        | Ret (Ok None) => tryKeys pid encrypted iv r
        | x => x
        end
    end.

  (** session.go 1171-1184. *)
  Definition decryptPacketIDBytes (p : peer) (encrypted : bytes) : outcome bytes :=
    match pAux p with
    | None => Ret encrypted
    | Some a => crypt a emptyIV encrypted
    end.

  (** session.go 1186-1265: packet ID, length field and content. *)
  Definition decryptPacket (p : peer) (encrypted : bytes) : outcome (res (bytes * N * bytes)) :=
    if len encrypted <? messagesContainerHeadersSize
    then Ret (Err (ErrTooShort messagesContainerHeadersSize (len encrypted)))
    else
      match decryptPacketIDBytes p (firstn 8 encrypted) with
      | Panic => Panic
      | Ret pid =>
          let body := skipn 8 encrypted in
          match tryKeys pid body (remoteIV p pid) (pKeys p) with
          | Panic => Panic
          | Ret (Err e) => Ret (Err e)
          | Ret (Ok (Some (l, m))) => Ret (Ok (pid, l, m))
          | Ret (Ok None) =>
              match tryDecrypt pid body (pAux p) pid with
              | Panic => Panic
              | Ret (Err e) => Ret (Err e)
              | Ret (Ok (Some (l, m))) => Ret (Ok (pid, l, m))
              | Ret (Ok None) => Ret (Err ErrCannotDecrypt)
              end
          end
      end.

  (** session.go 914-944: what [readerLoop] does with the bytes of one packet.
      Receiving also takes a packet ID from the counter (through
      [AcquireMessagesContainerHeaders], session.go 1229), unless the packet is
      too short. *)
  Definition receivePacket (p : peer) (win : option storage) (raw : bytes)
    : outcome (peer * option storage * packet) :=
    match raw with
    | [] => Ret (p, win, RdEmpty)
    | _ :: _ =>
        let p' := if len raw <? messagesContainerHeadersSize then p else fst (takePacketID p) in
        match decryptPacket p raw with
        | Panic => Panic
        | Ret (Err e) => Ret (p', win, PktUndecryptable e)
        | Ret (Ok (pid, l, content)) =>
            match checkAndRemember win (packetIDValue pid) with
            | Panic => Panic
            | Ret (win', false) => Ret (p', win', PktDuplicate)
            | Ret (win', true) => Ret (p', win', PktAccepted l content)
            end
        end
    end.

  Fixpoint receivePackets (p : peer) (win : option storage) (raws : list bytes)
    : outcome (peer * option storage * list packet) :=
    match raws with
    | [] => Ret (p, win, [])
    | raw :: rest =>
        match receivePacket p win raw with
        | Panic => Panic
        | Ret (p', win', pk) =>
            match receivePackets p' win' rest with
            | Panic => Panic
            | Ret (p'', win'', pks) => Ret (p'', win'', pk :: pks)
            end
        end
    end.

  (** What a session does with its packet counter: any sequence of sends and
      receptions. Taking an ID is one atomic addition (session.go 532), so the
      order of the list is the order of these additions whatever the goroutines
      do around them. Result: flag and packet ID of every packet sent. *)
  Inductive action := ActSend (confidential : bool) (msgs : bytes) | ActReceive (raw : bytes).
  Fixpoint traffic (p : peer) (win : option storage) (acts : list action) : outcome (peer * list (bool * bytes)) :=
    match acts with
    | [] => Ret (p, [])
    | ActSend c msgs :: r =>
        match sendPacket p c msgs with
        | (_, Panic) => Panic
        | (p', Ret _) =>
            match traffic p' win r with
            | Panic => Panic
            | Ret (p'', o) => Ret (p'', (c, packetIDBytes (pNext p')) :: o)
            end
        end
    | ActReceive raw :: r =>
        match receivePacket p win raw with
        | Panic => Panic
        | Ret (p', win', _) => traffic p' win' r
        end
    end.
End Crypto.
