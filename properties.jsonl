{"id": "C01", "title": "Message header wire format round trip", "statement": "Writing a message header (type, length, flags) and reading the bytes back yields exactly the same header, always occupies 9 bytes, two different headers never have the same encoding, and the reader never fails on 9 or more bytes.", "quantifier": "all 32-bit types, 32-bit lengths and 8-bit flag values; all trailing bytes; all byte strings on the read side", "why_tests_cant": "2^72 header values; tests round-trip a handful of them.", "anchors": ["message.go: messageHeadersData.Read, messageHeadersData.Write, messageHeadersSize"]}
{"id": "C02", "title": "Packet header wire format round trip", "statement": "Writing a packet header (packet ID, two 16-byte authentication tags, length) and reading the bytes back yields the same header in exactly 44 bytes; any input shorter than 44 bytes is reported as an error instead of being parsed.", "quantifier": "all header field values and all byte strings", "why_tests_cant": "The value space is 2^352; only a few values are sampled by tests.", "anchors": ["message.go: messagesContainerHeadersData.Read, ReadAfterIV, Write, packetID"]}
{"id": "C03", "title": "Fragment header wire format round trip", "statement": "A fragment header (chain ID, start position, total length) survives write-then-read unchanged, always takes 24 bytes, and shorter input is an error.", "quantifier": "all 64-bit field triples and all byte strings", "why_tests_cant": "2^192 values.", "anchors": ["message_fragment_headers.go: messageFragmentHeadersData.Write, Read"]}
{"id": "C04", "title": "Control-plane wire formats round trip", "statement": "A session ID, a key-exchange message and a negotiation control message decode to exactly what was encoded, with fixed sizes 16, 82 (146 signed) and 6.", "quantifier": "all field values", "why_tests_cant": "Value space far beyond enumeration.", "anchors": ["session.go: SessionID.Bytes, SessionID.FillFromBytes", "key_seed_update_message.go: keySeedUpdateMessage", "negotiation_message.go: negotiationControlMessage"]}
{"id": "C05", "title": "Batching is transparent", "statement": "If a sender packs any sequence of messages into one packet, the receiver processes exactly those messages, with the same types and payloads, in the same order, and nothing else.", "quantifier": "all finite sequences of messages (any types, any payloads up to 2^32-1 bytes)", "why_tests_cant": "Unbounded number and size of messages in a packet.", "anchors": ["session.go: appendToDelayedWriteBuffer, writeMessageSingle, processIncomingMessages"]}
{"id": "C06", "title": "Malformed authenticated content cannot crash the message parser", "statement": "For any decrypted packet content and any claimed length, splitting it into messages terminates, never reads outside the received bytes and hands over only byte ranges that lie inside the packet, disjoint and in increasing order.", "quantifier": "all byte strings and all claimed lengths", "why_tests_cant": "All byte strings of all lengths; an out-of-range slice is a crash of the whole process.", "anchors": ["session.go: processIncomingMessages", "message.go: messageHeadersData.Read"]}
{"id": "C07", "title": "Replay protection: a packet is accepted at most once", "statement": "With the duplicate check enabled, whatever order, duplication or loss the network produces, a packet with a given packet ID is accepted at most once.", "quantifier": "all finite sequences of packet IDs offered to a receiver, for every window size", "why_tests_cant": "Depends on every history of accepted IDs; the failing histories need a gap between 65 and the window size.", "anchors": ["packetid_storage.go: Push, shiftValue", "session.go: checkAndRememberPacketID"]}
{"id": "C08", "title": "Grow-only mode delivers packets in strictly increasing order", "statement": "With PacketIDStorageSize = 1 the IDs of accepted packets are strictly increasing, so nothing is ever accepted out of order or twice.", "quantifier": "all finite sequences of packet IDs", "why_tests_cant": "All histories.", "anchors": ["packetid_storage.go: Push", "session.go: init (PacketIDStorageSize == 1)"]}
{"id": "C09", "title": "Fresh packets inside the window are never dropped by the duplicate check", "statement": "A packet whose ID has never been offered before, is not zero, and is newer than everything accepted so far or lags behind the newest accepted ID by less than the window, is accepted.", "quantifier": "all histories and all packet IDs, all window sizes", "why_tests_cant": "A false positive needs a particular history of gaps; tests sample few.", "anchors": ["packetid_storage.go: Push, shiftValue, getAtOffset, setAtOffset"]}
{"id": "C10", "title": "Too old packets are always dropped, newer ones always accepted", "statement": "A packet whose ID lags behind the newest accepted ID by at least the window (rounded up to 64) is rejected and leaves the receiver unchanged; a packet with an ID larger than all accepted ones is accepted.", "quantifier": "all histories, all packet IDs", "why_tests_cant": "All histories.", "anchors": ["packetid_storage.go: Push"]}
{"id": "C11", "title": "Packet IDs and therefore nonces never repeat within a session", "statement": "In one session no two outgoing packets carry the same packet ID, regardless of how sends and receives interleave, until 2^64 IDs are used; the nonce built from session ID and packet ID is thus unique per key.", "quantifier": "all interleavings of sends and (ID-consuming) receives, fewer than 2^64 of them", "why_tests_cant": "A property of every schedule and every count.", "anchors": ["session.go: getNextPacketID, sendMessages, decrypt", "message.go: AcquireMessagesContainerHeaders"]}
{"id": "C12", "title": "Packet IDs are encrypted with fresh keystream", "statement": "With a pre-shared key, an eavesdropper cannot learn the XOR of the packet IDs of two packets from their ciphertexts.", "quantifier": "all pre-shared keys and all pairs of packets", "why_tests_cant": "Needs a statement about all keys.", "anchors": ["session.go: sendMessages, decryptPacketIDBytes", "crypt.go: emptyIV"]}
{"id": "C13", "title": "What one peer seals the other opens", "statement": "A packet sealed by one peer and delivered unmodified is opened by the peer that holds the same key in any of its key slots and knows the sender's session ID, giving back exactly the sealed packet ID and content.", "quantifier": "all contents, packet IDs, keys, session IDs, with or without pre-shared key, any position of the key among the slots provided earlier slots reject the packet", "why_tests_cant": "All keys and contents.", "anchors": ["session.go: sendMessages, decrypt, tryDecrypt, fillWithRemoteIV, decryptPacketIDBytes", "crypt.go"]}
{"id": "C14", "title": "Accepted content is authenticated", "statement": "Whatever bytes arrive, if a packet is accepted then its packet ID, length field and whole content carry valid authentication tags under one of the current session keys or under the auxiliary key; under an ideal tag function changing any bit of the tagged part of a sealed packet makes it rejected.", "quantifier": "all byte strings, all key sets", "why_tests_cant": "All adversarial inputs.", "anchors": ["session.go: decrypt, tryDecrypt, checkHeadersChecksum, checkMessagesChecksum", "message.go: CalculateHeadersChecksumTo, CalculateMessagesChecksumTo"]}
{"id": "C15", "title": "Only a holder of the session key can inject application data", "statement": "After key exchange, every application message delivered to Read or to a handler was sealed under a session key.", "quantifier": "all sequences of bytes an attacker without any key can send", "why_tests_cant": "Quantifies over all attackers.", "anchors": ["session.go: decrypt (fallback to auxCipherKey), processIncomingMessage"]}
{"id": "C16", "title": "Forged packets do not make the session drop genuine ones", "statement": "A packet made without knowing any key never causes a later genuine packet to be rejected by the duplicate check.", "quantifier": "all attacker packets followed by all genuine packets", "why_tests_cant": "Needs attacker-chosen history.", "anchors": ["session.go: readerLoop, decrypt, checkAndRememberPacketID", "packetid_storage.go: Push"]}
{"id": "C17", "title": "Application payload always leaves the host encrypted under the session key", "statement": "Every packet containing application data written by Write/WriteMessage/WriteMessageAsync, fragmented or not, is encrypted under the current session key.", "quantifier": "all message types, payloads and options", "why_tests_cant": "All payload sizes and options; a wrong case is silent on the wire.", "anchors": ["session.go: WriteMessageAsync, writeMessageFragment, sendMessages"]}
{"id": "C18", "title": "Wrong keys never open a packet", "statement": "If tags are collision free, a packet sealed under one key is not opened by a receiver none of whose keys is that key, and trying the wrong keys first never changes the result.", "quantifier": "all keys, contents, slot orders", "why_tests_cant": "All keys and contents.", "anchors": ["session.go: decrypt, tryDecrypt"]}
{"id": "C19", "title": "Fragmentation tiles the message", "statement": "Splitting a message for fragmentation produces non-empty pieces that, in order, are exactly the message; start positions are the running offsets; every fragment with its header fits in the negotiated payload size; splitting always terminates.", "quantifier": "all payloads, all negotiated payload sizes", "why_tests_cant": "All sizes; off-by-one failures sit at specific sizes.", "anchors": ["session.go: writeMessageAsyncAsFragmented, writeMessageFragment"]}
{"id": "C20", "title": "In-order fragments reassemble exactly", "statement": "When all fragments of a message arrive in order into a fresh chain, the message is delivered exactly once, when and only when the last fragment arrives, with exactly the original bytes.", "quantifier": "all messages and all ways of cutting them into non-empty consecutive pieces", "why_tests_cant": "All cut positions.", "anchors": ["pending_chain.go: Init, Merge"]}
{"id": "C21", "title": "Fragments reassemble in any arrival order", "statement": "If the fragments of a message arrive in any order, with any duplicates, the message is delivered exactly when every fragment has arrived, with exactly the original bytes.", "quantifier": "all messages, all fragment sizes, all permutations with duplicates", "why_tests_cant": "Factorially many arrival orders.", "anchors": ["pending_chain.go: Merge, pendingChainIsSetSet, setLeadingOnes64"]}
{"id": "C22", "title": "A reassembled message has the length it was sent with", "statement": "The message handed to the application after reassembly has exactly the announced total length, whatever messages were reassembled before.", "quantifier": "all histories of earlier fragmented messages", "why_tests_cant": "Depends on buffers left by earlier messages.", "anchors": ["pending_chain.go: Init, Reset, Merge", "session.go: processIncomingMessageFragment"]}
{"id": "C23", "title": "Hostile fragment headers cannot crash the receiver", "statement": "No fragment header (chain ID, start position, total length) and payload makes the receiver panic.", "quantifier": "all fragment headers and payloads, all receiver states", "why_tests_cant": "2^192 headers; the crashing ones need 64-bit wrap-around.", "anchors": ["pending_chain.go: Merge", "session.go: processIncomingMessageFragment"]}
{"id": "C24", "title": "Concurrently fragmented messages are all delivered", "statement": "Fragments of up to MaxChainIDDiff different messages may be interleaved on the wire and every message is still delivered.", "quantifier": "all interleavings of fragments of several messages", "why_tests_cant": "Exponentially many interleavings.", "anchors": ["session.go: processIncomingMessageFragment, SessionOptions.MaxChainIDDiff"]}
{"id": "C25", "title": "Fragments of different messages are never mixed", "statement": "A delivered reassembled message consists only of bytes of fragments carrying one and the same chain ID.", "quantifier": "all sequences of fragments", "why_tests_cant": "All interleavings of chain IDs.", "anchors": ["session.go: processIncomingMessageFragment"]}
{"id": "C26", "title": "Reassembly memory is bounded", "statement": "The total number of bytes allocated for incomplete messages never exceeds MaxChainIDDiff * MaxFragmentedMessageSize, whatever arrives.", "quantifier": "all sequences of fragments", "why_tests_cant": "All attacker-chosen sequences.", "anchors": ["session.go: processIncomingMessageFragment", "pending_chain.go: Init"]}
{"id": "C27", "title": "Undecryptable packets end the session only as configured", "statement": "With DetachOnSequentialDecryptFailsCount = n > 0 the session detaches exactly at the n-th consecutive undecryptable packet and any accepted packet in between restarts the count; with 0 undecryptable packets never end the session.", "quantifier": "all sequences of good and bad packets, all n", "why_tests_cant": "All packet sequences.", "anchors": ["session.go: readerLoopDecryptError, readerLoop, SessionOptions.DetachOnSequentialDecryptFailsCount"]}
{"id": "C28", "title": "DetachOnMessagesCount delivers exactly N application messages", "statement": "With DetachOnMessagesCount = N the session processes exactly the first N application messages, however they are batched into packets, and then closes; control messages are not counted; with 0 it never closes for that reason.", "quantifier": "all batchings of all message sequences, all N", "why_tests_cant": "All batchings.", "anchors": ["session.go: processIncomingMessages"]}
{"id": "C29", "title": "Dispatch delivers each message to its own handler, in order", "statement": "Each received message is handed exactly once to the handler or read queue registered for its type, in the order received, and to no other; messages of types nobody registered for are dropped without affecting others.", "quantifier": "all message sequences and all sets of registered types", "why_tests_cant": "All sequences.", "anchors": ["session.go: processIncomingMessage, setMessenger"]}
{"id": "C30", "title": "Read returns messages in order, one per call, unmodified", "statement": "Successive successful Read calls return the payloads of received messages in order of arrival, one message per call, whole; a message that does not fit in the caller's buffer is reported as an error.", "quantifier": "all sequences of incoming messages and buffer sizes", "why_tests_cant": "All histories of arrivals and reads.", "anchors": ["session.go: read, processIncomingMessage", "read_item.go"]}
{"id": "C31", "title": "Read drains queued data and then reports closure", "statement": "After a session is closed Read still returns every message queued before closure and from then on returns an error instead of blocking.", "quantifier": "all interleavings of arrivals, reads and closing", "why_tests_cant": "All interleavings.", "anchors": ["session.go: read, readerLoopCleanup"]}
{"id": "C32", "title": "Session life cycle is monotone", "statement": "Once Closed a session stays Closed; once Closing it can only become Closed; it is Established only after key exchange; no sequence of concurrent API calls and internal events can resurrect it.", "quantifier": "all interleavings of all state-changing operations", "why_tests_cant": "All schedules.", "anchors": ["session_state.go: Set", "session.go: setState and its callers"]}
{"id": "C33", "title": "WaitForState never misses a state change", "statement": "If the session is in one of the awaited states and stays there, a concurrent WaitForState call returns, and it returns only an awaited state or after its context is cancelled.", "quantifier": "all interleavings of waiters and state changes", "why_tests_cant": "Lost wake-ups occur only in rare schedules.", "anchors": ["session_state.go: WaitFor, Set, Load"]}
{"id": "C34", "title": "Pause and unpause succeed only from the documented states", "statement": "SetPause(true) succeeds only from Established, SetPause(false) only from Paused; in any other state an error is returned and the state is unchanged; success moves between exactly these two states.", "quantifier": "all states and all call sequences", "why_tests_cant": "All call sequences.", "anchors": ["session.go: SetPause", "session_state.go: Set"]}
{"id": "C35", "title": "SetPause always returns", "statement": "A SetPause call eventually returns if the reader keeps running, for every pattern of concurrent SetPause calls.", "quantifier": "all interleavings of SetPause calls and the reader loop", "why_tests_cant": "Needs particular schedules.", "anchors": ["session.go: SetPause, waitForUnpause"]}
{"id": "C36", "title": "A paused session can be closed", "statement": "Calling Close on a Paused session eventually brings it to Closed.", "quantifier": "all schedules after Close", "why_tests_cant": "A liveness property over all schedules.", "anchors": ["session.go: Close, startClosing, waitForUnpause, readerLoopCleanup"]}
{"id": "C37", "title": "Close is safe to call at any time and reports repeated calls", "statement": "Close returns an error if the session is already closing or closed, never panics, and the first Close on a live session returns nil.", "quantifier": "all states including a session that was never started, all concurrent calls", "why_tests_cant": "All schedules.", "anchors": ["session.go: Close, startClosing, Start"]}
{"id": "C38", "title": "Data accepted before Close is still sent", "statement": "Messages whose asynchronous write was accepted before Close are handed to the backend before the session is torn down.", "quantifier": "all contents of the aggregation buffer at the moment of Close", "why_tests_cant": "Depends on timing.", "anchors": ["session.go: Close, startClosing, sendDelayedNow, sendMessages"]}
{"id": "C39", "title": "A successful Write means the data was handed to the backend", "statement": "If Write/WriteMessage returns no error then a packet containing the payload was successfully written to the backend.", "quantifier": "all schedules of writes, sends and Close", "why_tests_cant": "All schedules.", "anchors": ["session.go: WriteMessage, waitForSend", "send_info.go: Wait"]}
{"id": "C40", "title": "A failed batch is reported to every writer in it and to nobody else", "statement": "When a batched packet cannot be written, each message merged into that packet, and only those, gets the error; every accepted message gets exactly one outcome.", "quantifier": "all groupings of messages in batches and all backend outcomes", "why_tests_cant": "All groupings.", "anchors": ["session.go: sendDelayedNow, appendToDelayedWriteBuffer", "send_info.go"]}
{"id": "C41", "title": "Aggregation neither loses, duplicates nor reorders messages", "statement": "With send delay enabled and a working backend, the concatenation of all packets sent is exactly the sequence of accepted messages, each once, in the order accepted, for every interleaving of writers and flushes.", "quantifier": "all interleavings of writers and senders", "why_tests_cant": "All schedules.", "anchors": ["session.go: writeMessageAsync, appendToDelayedWriteBuffer, sendDelayedNow"]}
{"id": "C42", "title": "Packets never exceed the negotiated size", "statement": "Every application packet handed to the backend is at most the established payload size plus 53 bytes, and appending to the aggregation buffer never exceeds its capacity.", "quantifier": "all message size sequences, all negotiated sizes", "why_tests_cant": "All size combinations.", "anchors": ["session.go: writeMessageAsync, sendMessages, GetEstablishedPacketSize, appendToDelayedWriteBuffer"]}
{"id": "C43", "title": "Oversized messages are refused as a whole", "statement": "With fragmentation disabled, a message larger than the established payload size is refused with an error and nothing of it is sent; a message of at most that size is never refused for its size.", "quantifier": "all payload sizes and established sizes", "why_tests_cant": "Boundary behaviour for all sizes.", "anchors": ["session.go: WriteMessageAsync, writeMessageAsync"]}
{"id": "C44", "title": "A send handle is never recycled while somebody still holds it", "statement": "A SendInfo object returns to the pool only after every holder released it, and a handle handed out is never simultaneously handed out to another user, so results are never mixed up.", "quantifier": "all interleavings of acquire, share, release, respecting one release per hold", "why_tests_cant": "All schedules.", "anchors": ["send_info.go: AcquireSendInfo, Release, Put, incRefCount"]}
{"id": "C45", "title": "Pooled buffers have the requested size and no shared ownership", "statement": "After Grow(n) a buffer has exactly n usable bytes; a buffer in the pool has no owner; a double release is detected.", "quantifier": "all operation sequences on buffers", "why_tests_cant": "All sequences.", "anchors": ["buffer_pool.go: Grow, Reset, AcquireBuffer, Release"]}
{"id": "C46", "title": "Only messages signed by the expected peer affect the keys", "statement": "When the remote identity is known, no message that is not a valid signature of that identity changes the session's keys, the remembered remote key, the remote session ID or the state of the key exchange.", "quantifier": "all byte strings, all exchange states", "why_tests_cant": "All adversarial messages.", "anchors": ["key_exchanger.go: parseAndCheck, Handle"]}
{"id": "C47", "title": "Trust on first use pins the first identity", "statement": "When the remote identity is unknown, the first correctly self-signed message fixes it; afterwards it never changes and messages not signed by it are ignored.", "quantifier": "all message sequences", "why_tests_cant": "All sequences.", "anchors": ["key_exchanger.go: setRemoteIdentityFromPublicKey, parseAndCheck, Handle"]}
{"id": "C48", "title": "Both peers derive the same keys", "statement": "If each peer's newest (respectively previous) remembered remote key is the other's newest (previous) own key and they use the same pre-shared key, the four derived secrets match slot by slot, with the two mixed slots exchanged.", "quantifier": "all key pairs and pre-shared keys", "why_tests_cant": "All keys.", "anchors": ["key_exchanger.go: generateSharedKeyBySecretID, generateSharedKey, updateSecrets"]}
{"id": "C49", "title": "Different pre-shared keys give different session keys", "statement": "Peers with pre-shared keys whose hashes differ never derive the same session key from the same exchange.", "quantifier": "all pre-shared keys, all exchanges", "why_tests_cant": "All keys.", "anchors": ["key_exchanger.go: generateSharedKey", "hash.go: hash"]}
{"id": "C50", "title": "Key rotation loses no packets", "statement": "While keys are rotated, packets sealed under the sender's current key are always decryptable by the receiver, whatever the order in which packets and key-exchange messages are delivered within one round.", "quantifier": "all delivery schedules of data packets and key-exchange messages during rotations by either side", "why_tests_cant": "All schedules.", "anchors": ["key_exchanger.go: updateLocalKey, setNextRemotePublicKey, updateSecrets", "session.go: setSecrets, decrypt"]}
{"id": "C51", "title": "Old key-exchange messages cannot be replayed", "statement": "A recorded, genuinely signed key-exchange message from an earlier session does not change the key state of a new session.", "quantifier": "all recorded messages", "why_tests_cant": "Quantifies over attackers with transcripts.", "anchors": ["key_exchanger.go: parseAndCheck, Handle"]}
{"id": "C52", "title": "A key is considered confirmed only after the peer answered for that key", "statement": "The key exchanger reports success for a local key only if the peer has received that very key.", "quantifier": "all delivery schedules of answers and retries", "why_tests_cant": "All schedules.", "anchors": ["key_exchanger.go: Handle, sendSuccessNotifications, retryUntilSuccessOrTimeout"]}
{"id": "C53", "title": "No key-exchange message crashes the process", "statement": "Whatever bytes arrive as a key-exchange message, handling it never panics.", "quantifier": "all byte strings, including degenerate public keys", "why_tests_cant": "Degenerate curve points are a measure-zero set.", "anchors": ["key_exchanger.go: generateSharedKey, parseAndCheck, Handle"]}
{"id": "C54", "title": "Local keys get strictly increasing creation stamps and rotation never overlaps", "statement": "Successive local keys have strictly increasing creation stamps even if the clock goes backwards, and no new key is generated while the previous one is unconfirmed.", "quantifier": "all clock readings and all event sequences", "why_tests_cant": "All clocks.", "anchors": ["key_exchanger.go: updateLocalKey, sendSuccessNotifications"]}
{"id": "C55", "title": "Connection callback fires once", "statement": "However many key exchanges and confirmations happen, the negotiation is started exactly once per session and OnConnect is called at most once.", "quantifier": "all event sequences", "why_tests_cant": "All sequences.", "anchors": ["session.go: onKeyExchangeSuccess, onConnect", "negotiator.go: Start"]}
{"id": "C56", "title": "Session IDs never repeat within a process", "statement": "Session IDs created by one process have strictly increasing time stamps, even if the wall clock stalls or jumps backwards, hence are pairwise distinct.", "quantifier": "all clock readings, all numbers of sessions", "why_tests_cant": "All clock behaviours.", "anchors": ["session.go: sessionIDGetterType.Get"]}
{"id": "C57", "title": "Probe packets stay within the configured payload limit", "statement": "Every probe sent during negotiation has a size between the minimal probe size and PayloadSizeLimit.", "quantifier": "all limits, all probe results", "why_tests_cant": "All limits; uses floating point rounding.", "anchors": ["negotiator.go: pingSenderLoop, sendPing"]}
{"id": "C58", "title": "Negotiation finishes on both sides", "statement": "If the network delivers every packet not larger than some size, both peers complete negotiation and become Established.", "quantifier": "all path size limits and option values", "why_tests_cant": "All path limits.", "anchors": ["negotiator.go: pingSenderLoop, finalizer, handleControlMessage, sendControl"]}
{"id": "C59", "title": "The negotiated payload size never exceeds the local limit", "statement": "The established payload size is at most the session's own PayloadSizeLimit and at most the largest size that made a round trip, whatever the peer sends.", "quantifier": "all peers' messages", "why_tests_cant": "All adversarial peers.", "anchors": ["negotiator.go: finalize, handleControlMessage, handlePingPongMessage", "session.go: setEstablishedPayloadSize"]}
{"id": "C60", "title": "Late or duplicated probe replies do not stall an established session", "statement": "A probe reply arriving after negotiation ended is ignored and the session keeps reading.", "quantifier": "all arrival times of replies", "why_tests_cant": "Timing dependent.", "anchors": ["negotiator.go: handlePingPongMessage, Close"]}
{"id": "C61", "title": "Peers with different negotiation settings still communicate", "statement": "If negotiation is disabled on one side and enabled on the other, neither side's reader is blocked.", "quantifier": "all settings pairs and message orders", "why_tests_cant": "Timing and configuration dependent.", "anchors": ["negotiator.go: Start, handleControlMessage, finalizer"]}
{"id": "C62", "title": "Identity directory is stable", "statement": "Opening the same key directory repeatedly always yields the same identity, once created; a missing public key file is restored from the private one.", "quantifier": "all directory contents and all numbers of openings", "why_tests_cant": "All prior contents.", "anchors": ["identity.go: NewIdentity, prepareKeys, loadKeys, generateAndSaveKeys, savePublicKey"]}
{"id": "C63", "title": "A crash while creating an identity is recoverable", "statement": "If the process dies at any point while the key files are being created, the next NewIdentity on that directory either succeeds or returns an error; it never panics.", "quantifier": "all crash points (every prefix of every write)", "why_tests_cant": "All crash points.", "anchors": ["identity.go: saveKeyToPemFile, loadPrivateKeyFromFile, prepareKeys"]}
{"id": "C64", "title": "Keys of wrong length are rejected", "statement": "Constructing an identity from raw key material succeeds exactly when the length is right, otherwise an error is returned, and an identity built from a private key exposes that key's public half.", "quantifier": "all byte strings", "why_tests_cant": "All lengths.", "anchors": ["identity.go: NewIdentityFromPrivateKey, NewRemoteIdentityFromPublicKey"]}
{"id": "C65", "title": "Channel numbers map to distinct, non-reserved message types", "statement": "MessageTypeChannel panics or returns a type that is different for different channels and never equals a reserved or undefined type.", "quantifier": "all 2^32 channel numbers", "why_tests_cant": "The failing number is a single value out of 2^32.", "anchors": ["message.go: MessageTypeChannel, messageTypeReservedAbove"]}
{"id": "C66", "title": "Message type names identify the type", "statement": "The textual name of a channel's message type contains that channel's number, and different channels have different names.", "quantifier": "all channel numbers", "why_tests_cant": "Full number range.", "anchors": ["message.go: MessageType.String"]}
{"id": "C67", "title": "Closing a messenger runs its handler's Close exactly once", "statement": "However many times and from however many goroutines Close is called on a messenger, the handler's Close runs exactly once and waiters are released exactly once.", "quantifier": "all interleavings of Close calls", "why_tests_cant": "All schedules.", "anchors": ["messenger.go: Close, WaitForClosure"]}
{"id": "C68", "title": "Option defaults are as documented", "statement": "Zero-valued options are replaced by the documented defaults, explicit values are kept, special values (zero send delay, zero error count, window size 1, negative window) have the documented meaning.", "quantifier": "all option values", "why_tests_cant": "All option values.", "anchors": ["session.go: init, SessionOptions", "message.go: SetPayloadSizeLimit"]}
{"id": "C69", "title": "Error wrapping and handler chaining preserve meaning", "statement": "Wrapping an error yields nil exactly for nil, and in the wrapped event handler the user's handler is always consulted first while the internal one runs exactly when the user's did not handle the error.", "quantifier": "all errors and handler results", "why_tests_cant": "All handler behaviours.", "anchors": ["errors.go: wrapError", "event_handler.go: wrapErrorHandler, errorHandlerWrapper.Error"]}
{"id": "C70", "title": "Rounding sizes to a block is the smallest sufficient multiple", "statement": "For power-of-two block sizes the rounded size is the least multiple not smaller than the size, as long as it fits 32 bits.", "quantifier": "all sizes and power-of-two block sizes", "why_tests_cant": "All sizes.", "anchors": ["session.go: roundSize"]}
{"id": "C71", "title": "Key stream is never used for two packets", "statement": "No two different packets sent with the same pre-shared key are encrypted with the same key stream, whichever peer or session sends them.", "quantifier": "all pairs of packets of all sessions sharing a pre-shared key", "why_tests_cant": "Relates packets of different peers and sessions.", "anchors": ["session.go: sendMessages (ivBuf), getNextPacketID", "crypt.go"]}
{"id": "C72", "title": "A one-time authentication key authenticates one message", "statement": "The Poly1305 key derived for a packet is used for one message only and determines the whole session key it was derived from.", "quantifier": "all packet IDs, all pairs of keys, both directions", "why_tests_cant": "All keys; relates both peers' traffic.", "anchors": ["message.go: calculatePoly1305Key, CalculateHeadersChecksumTo, CalculateMessagesChecksumTo"]}
{"id": "C73", "title": "The reader finishes after Close whether or not anybody reads", "statement": "Once Close has been called the reader goroutine can reach its end, and with it the session the state Closed, even if the application never calls Read again.", "quantifier": "all contents of the read queue, all schedules", "why_tests_cant": "Needs a full queue at the moment of closing; a liveness property.", "anchors": ["session.go: processIncomingMessage (recvBufQueue), read, messageQueueLength"]}
{"id": "C74", "title": "OnConnect is reported only for sessions that became Established", "statement": "The event handler's OnConnect is called only when the session state has become Established.", "quantifier": "all interleavings of negotiation, key exchange and Close", "why_tests_cant": "Needs Close inside a very small window.", "anchors": ["session.go: startNegotiator (okFunc), onKeyExchangeSuccess, Close"]}
{"id": "C75", "title": "Start does not panic whatever the context", "statement": "Start returns (with or without an error) for every context, including one that is already cancelled or gets cancelled while Start runs.", "quantifier": "all moments of cancellation", "why_tests_cant": "All schedules of cancellation against Start.", "anchors": ["session.go: Start, startKeyExchange, NewMessenger", "key_exchanger.go: newKeyExchanger", "negotiator.go: newNegotiator"]}
{"id": "C76", "title": "An error from SetPause means that nothing changed", "statement": "If SetPause returns an error then the session's state is the one it had before the call.", "quantifier": "all states, all results of interrupting the backend", "why_tests_cant": "Needs a backend whose deadline cannot be set.", "anchors": ["session.go: SetPause, interruptRead"]}
{"id": "C77", "title": "Close completes whether or not the peer sends anything more", "statement": "After Close has returned, the reader goroutine ends and the session becomes Closed, also when nothing more arrives from the peer.", "quantifier": "all interleavings of Close, the backend closer, the reader and SetPause calls", "why_tests_cant": "Depends on the order of single atomic accesses.", "anchors": ["session.go: startBackendCloser, interruptRead, readerLoop, setIsReading, waitForUnpause, resetReadDeadline"]}
{"id": "C78", "title": "Pausing is invisible to the error handling", "statement": "Pausing and unpausing a session, in any pattern, never makes it report a read error or close by itself.", "quantifier": "all interleavings of SetPause calls and the reader", "why_tests_cant": "Depends on the order of single atomic accesses.", "anchors": ["session.go: SetPause, waitForUnpause, readerLoopReadError, resetReadDeadline, interruptRead"]}
{"id": "C79", "title": "No schedule of writers, sender and Close makes the process panic", "statement": "In the aggregation machinery (handles, channels, buffer slices) no interleaving of WriteMessageAsync, Wait, the sender goroutine, its timer and Close panics.", "quantifier": "all interleavings", "why_tests_cant": "A panic needs one particular interleaving of three goroutines; tests never hit it on purpose, and the panic kills the whole process of the user.", "anchors": ["session.go:1640-1691", "session.go:1738-1778", "session.go:1808-1850", "session.go:2231-2260", "send_info.go:107-123"]}
{"id": "C80", "title": "SendNowAndWait is safe on every handle", "statement": "SendNowAndWait may be called on any handle returned by WriteMessageAsync: it flushes the pending data, waits for the result and never breaks the session.", "quantifier": "all handles (aggregated or fragmented messages), all session states", "why_tests_cant": "The only test calls it once on an aggregated message in an established session.", "anchors": ["send_info.go:132-138", "session.go:1808-1850", "session.go:1469-1510"]}
{"id": "C81", "title": "WriteMessageAsync always returns", "statement": "Every call of WriteMessageAsync returns a handle (possibly a finished one with an error), also when the session is closed while the call waits for room in the buffer.", "quantifier": "all interleavings with Close, all message sizes", "why_tests_cant": "A livelock on a rare interleaving is invisible to tests with a timeout-free happy path.", "anchors": ["session.go:1574-1638", "session.go:1640-1691"]}
{"id": "C82", "title": "A message of any size arrives unchanged from end to end", "statement": "A message split into fragments by the sender, whatever its size within the receiver's limit, is delivered by the receiver once, complete and unchanged, if its packets arrive in order.", "quantifier": "all payloads, all fragment sizes, all types outside the reserved range", "why_tests_cant": "Covers every combination of payload length and fragment size at once, through both codecs, the splitting and the reassembly.", "anchors": ["session.go:1469-1544", "session.go:1119-1188", "pending_chain.go", "message_fragment_headers.go"]}
{"id": "C83", "title": "Send handles are not leaked", "statement": "Once every holder has released a send handle, it is in the pool again and can be reused.", "quantifier": "all interleavings of writers, waiters and the sender loop", "why_tests_cant": "A leaked handle is invisible to tests: a new one is allocated and everything works, slower.", "anchors": ["session.go:1640-1691", "send_info.go:66-74", "send_info.go:107-123"]}
{"id": "C84", "title": "Only signed messages can end a session during key exchange", "statement": "A key-exchange message whose signature is not valid never makes the session report an error and close, whether or not the remote identity is known beforehand.", "quantifier": "all byte strings, all exchange states", "why_tests_cant": "Tests send either valid messages or messages whose signature is checked first; the order of checks matters only when the identity is not known yet.", "anchors": ["key_exchanger.go:343-408", "key_exchanger.go:433-488"]}
{"id": "C85", "title": "A session does not take its own key-exchange messages for the peer's", "statement": "A message produced by the session itself and reflected by the network never becomes the pinned remote identity or the remembered remote key.", "quantifier": "all states, all messages of the session", "why_tests_cant": "No test reflects packets; the property is about every message the session can produce.", "anchors": ["key_exchanger.go:343-408", "key_exchanger.go:713-728"]}
{"id": "C86", "title": "Key exchange completes without waiting for the next rotation", "statement": "When both sides are running and the network delivers their messages, both become done within the retry intervals, whatever the order of start.", "quantifier": "all schedules of the two loops, the answers and the deliveries", "why_tests_cant": "Depends on whether the peer's request is handled before or after the first run of the own loop; tests start both sides in one order and wait long enough.", "anchors": ["key_exchanger.go:545-559", "key_exchanger.go:625-651", "key_exchanger.go:713-728"]}
{"id": "C87", "title": "Creating a session ID always terminates", "statement": "sessionIDGetter.Get returns for every behaviour of the clock.", "quantifier": "all clock readings", "why_tests_cant": "Tests run on a clock that moves.", "anchors": ["session.go:361-377"]}
{"id": "C88", "title": "A negative negotiation read timeout switches the timeout off", "statement": "With NegotiatorOptions.ReadTimeout negative, waiting for the next echo never ends in a timeout error, however long it takes.", "quantifier": "all negative values, all waiting times", "why_tests_cant": "The value is only read after a full round of probes; no test sets it to a negative value.", "anchors": ["negotiator.go:84-91", "negotiator.go:314-347"]}
{"id": "C89", "title": "The total negotiation timeout falls back to the best size found", "statement": "When TotalTimeout expires after echoes have arrived, the session becomes established with the best size found; without echoes an error is reported.", "quantifier": "all moments of expiry, all messages received before", "why_tests_cant": "The default is five minutes; tests never reach it, and which of the finalizer and the ping loop notices first depends on the scheduler.", "anchors": ["negotiator.go:93-102", "negotiator.go:203-221", "negotiator.go:348-350"]}
{"id": "C90", "title": "The peer's end of negotiation may arrive at any time", "statement": "An end-of-negotiation message that arrives before the local key exchange has succeeded does not block the reader.", "quantifier": "all arrival times of the message", "why_tests_cant": "Needs one side to finish its key exchange and its whole search before the other side's exchange is confirmed, as happens with a lost confirmation.", "anchors": ["negotiator.go:423-444", "negotiator.go:162-201"]}
{"id": "C91", "title": "Negotiation between honest peers yields a usable payload size", "statement": "When negotiation completes between honest peers, the established payload size is at least the smallest probe size.", "quantifier": "all payload size limits accepted by the session", "why_tests_cant": "Only limits just above the smallest probe size fail; tests use the default.", "anchors": ["negotiator.go:276-287", "negotiator.go:223-229"]}
{"id": "C92", "title": "A session can be closed while it negotiates", "statement": "After Close the reader leaves its loop and the session gets to Closed, whatever the negotiator is doing.", "quantifier": "all schedules of the reader, the ping loop, the finalizer and the closing goroutines", "why_tests_cant": "Depends on whether the finalizer or the ping loop notices the cancellation first; a test that closes during negotiation would hang only under some schedules.", "anchors": ["negotiator.go:187-221", "negotiator.go:511-536", "session.go:819-846"]}
{"id": "C93", "title": "The established size is what was negotiated", "statement": "Once the session has been established, GetEstablishedPayloadSize returns the negotiated size, without blocking, in every later state; before Start it does not crash.", "quantifier": "all session states, all cancellation times, both outcomes of the select", "why_tests_cant": "Two ready channels in a select give either answer; the zero answer appears only around closing or pausing.", "anchors": ["session.go:586-600", "session.go:1480-1501"]}
{"id": "C94", "title": "Packet buffers hold the configured payload", "statement": "For every PayloadSizeLimit the packet size limit (which sizes the buffers) is the limit plus the headers, and with a zero option the limit is a usable default.", "quantifier": "all 2^32 limits, all values given to SetPayloadSizeLimit", "why_tests_cant": "Only the 53 largest and, for the process-wide default, the 16 smallest values fail.", "anchors": ["session.go:472-487", "session.go:552-557", "message.go:32-49"]}
{"id": "C95", "title": "Handlers can be registered at any time", "statement": "SetHandlerFuncs can be called before, during and after the life of a session without crashing the process, and from the moment it returns messages reach the new handler.", "quantifier": "all interleavings of registrations, incoming messages, reads and closing", "why_tests_cant": "Needs a message to arrive in the few instructions between storing the messenger and setting its handler, or a map write at the very instant of a map read.", "anchors": ["session.go:1307-1358", "session.go:2112-2123", "session.go:1074-1080", "messenger.go:59-61"]}
{"id": "C96", "title": "Every messenger is closed with the session", "statement": "After the session has been closed and cleaned up every messenger ever created is closed, so that WaitForClosure returns.", "quantifier": "all interleavings of registrations and closing, any number of messengers", "why_tests_cant": "The window is between a context check and a map write in another goroutine.", "anchors": ["session.go:1309-1320", "session.go:828-838", "session.go:2112-2123"]}
{"id": "C97", "title": "A waiting Read ends with the session even if its channel is replaced", "statement": "Registering a handler for a type neither loses messages already queued for Read nor leaves a waiting Read blocked after the session has ended.", "quantifier": "all interleavings of Read calls, registrations, messages and closing", "why_tests_cant": "Needs a Read that already waits when the handler is registered.", "anchors": ["session.go:2112-2123", "session.go:2167-2185", "session.go:836-838"]}
{"id": "C98", "title": "Errors of a handler reach its onError function", "statement": "When the handle function given to SetHandlerFuncs returns an error, the onError function given with it is called.", "quantifier": "all runs", "why_tests_cant": "The existing test calls HandleError directly.", "anchors": ["session.go:1322-1358", "session.go:1074-1080"]}
{"id": "C99", "title": "MutualConfirmationOfIdentity succeeds only if the peer takes part", "statement": "When MutualConfirmationOfIdentity returns without an error, the expected remote identity took part in this very exchange, and the keys returned come from a private key drawn by this call and a public key signed by that identity.", "quantifier": "all sequences of packets an attacker can send and all interleavings with the exchanger", "why_tests_cant": "Needs an attacker who replays a recorded answer to a victim whose peer is absent.", "anchors": ["identity.go:277-347", "session.go:908-948", "session.go:2057-2101", "key_exchanger.go:433-488"]}
{"id": "C100", "title": "No packet crashes a running session", "statement": "Whatever bytes arrive as a packet, in whatever state, the reader of the session does not panic.", "quantifier": "all configurations, histories and packets", "why_tests_cant": "Panics depend on 64-bit wrap-around in data no test sends; the parser, chains, exchanger and window are each tested alone.", "anchors": ["session.go:908-1013", "session.go:1015-1102", "pending_chain.go"]}
{"id": "C101", "title": "One forged packet cannot abort MutualConfirmationOfIdentity", "statement": "A packet made without any secret does not make MutualConfirmationOfIdentity fail.", "quantifier": "all packets made from public data", "why_tests_cant": "Tests contain no third party.", "anchors": ["identity.go:296-343", "key_exchanger.go:433-445", "session.go:1074-1080"]}
{"id": "C102", "title": "A packet no key opens has no effect beyond the counters", "statement": "A packet that neither the auxiliary key nor a session key opens changes no key, no window, no incomplete message, delivers nothing and sends nothing; only failure counters grow, an error may be reported and the reader may end when the configured numbers are reached.", "quantifier": "all reachable states of a session, all packets", "why_tests_cant": "All reachable states and all packets cannot be enumerated.", "anchors": ["session.go:908-948", "session.go:1186-1265"]}
{"id": "C103", "title": "Everything delivered was in a packet that one of the session's keys opened", "statement": "Each message given to a handler or a reader first appears with a packet that is validly sealed under the auxiliary key or under a session key held at that moment.", "quantifier": "all runs of a session", "why_tests_cant": "Quantifies over all runs.", "anchors": ["session.go:908-1013", "session.go:1074-1102", "session.go:1186-1265"]}
{"id": "C104", "title": "Read keeps the contract of io.Reader", "statement": "Every Read returns a count between 0 and the length of the buffer.", "quantifier": "all sessions, buffer sizes and schedules of arrivals, reads and close", "why_tests_cant": "Tests check the error of a Read on a closed session, not the count; the negative count matters only to callers such as bufio.Reader, which panic on it.", "anchors": ["session.go:2167-2192"]}
{"id": "C105", "title": "Writing functions keep the contract of io.Writer", "statement": "Write, WriteMessage and WriteMessageSingle return a count between 0 and the length of the payload, and a short count comes with an error.", "quantifier": "all payloads, all backends that keep the contract themselves", "why_tests_cant": "Tests compare neither the count of WriteMessageSingle nor sizes other than a few.", "anchors": ["session.go:1360-1391", "session.go:1546-1572", "session.go:1934-1957", "messenger.go:36-56"]}
{"id": "C106", "title": "The caller's buffer is not used after the call", "statement": "The fragments of a message that go to the backend are those of the payload as it was when the call was made, whatever the caller does to its buffer after the call returned.", "quantifier": "all payloads, fragmentations, schedules of the fragment goroutines, cancellation, and later contents of the buffer", "why_tests_cant": "Depends on goroutines that outlive the call; the tests never reuse a buffer.", "anchors": ["session.go:1469-1544", "send_info.go:140-147"]}
{"id": "C107", "title": "The sealing key is that of the newest keys", "statement": "At every moment of an exchange the key used for sealing belongs to the newest own key and the newest accepted key of the peer; it is missing only while one of these is, and once there it never goes away.", "quantifier": "all runs: messages, schedules of loop and answers, clock readings, pre-shared keys", "why_tests_cant": "All runs, not a few orders of events.", "anchors": ["key_exchanger.go:259-341", "key_exchanger.go:416-431", "key_exchanger.go:572-598", "session.go:2074-2082", "session.go:2125-2165"]}
{"id": "C108", "title": "Every exchange message announces the newest own key", "statement": "Each request and answer carries the public key of the newest own key at the moment it is put together, with the sender's identity, session and mode.", "quantifier": "all runs, including keys generated while a request is being repeated", "why_tests_cant": "The interesting case needs a key generated by an answer between generation and sending of a request.", "anchors": ["key_exchanger.go:625-728"]}
{"id": "C109", "title": "WaitForClosure is the end of all writing", "statement": "After WaitForClosure or CloseAndWait has returned, the session does not call the backend's Write any more.", "quantifier": "all schedules of reader, key exchange loop, answering goroutines, fragment goroutines, sender and closer; all ways to end a session", "why_tests_cant": "A goroutine has to be interrupted between its check of the state and its write; the effect shows up only in whatever uses the backend next.", "anchors": ["session.go:638-700", "session.go:1478-1510", "session.go:1950-1957", "session.go:2083-2110", "session.go:2264-2277", "key_exchanger.go:433-488", "key_exchanger.go:752-755"]}
{"id": "C110", "title": "Closing a healthy session reports no error", "statement": "If no write to the backend fails, closing a session causes no call of the application's error handler.", "quantifier": "all schedules of Close against key updates and answers", "why_tests_cant": "Needs a key update or a peer's request within the moment of closing.", "anchors": ["key_exchanger.go:705-711", "session.go:2083-2110", "session.go:2231-2260"]}
{"id": "C111", "title": "A closed exchanger is closed", "statement": "Once the context of the key exchanger is done, no message changes the remembered identity, session or keys of the peer or counts as a successful exchange.", "quantifier": "all states, messages and further runs", "why_tests_cant": "All runs after the end.", "anchors": ["key_exchanger.go:433-488"]}
{"id": "C112", "title": "Concurrent senders do not make the receiver drop packets", "statement": "If the backend loses and reorders nothing, every packet a session writes passes the receiver's packet ID check, for every value of PacketIDStorageSize and however the application's writers, the delayed sender, the key exchanger and the negotiator interleave.", "quantifier": "all window sizes, all numbers of senders, all interleavings of taking a key, taking an ID, waiting and writing", "why_tests_cant": "The order in which goroutines reach backend.Write is decided by the scheduler and by how long the negotiation takes; a test sees a handful of orders and the default window hides most of the damage.", "anchors": ["session.go:531-535", "session.go:1853-1984", "packetid_storage.go:20-46"]}
{"id": "C113", "title": "A packet is sealed under a key the peer still has", "statement": "When a packet is handed to the backend, the session key it is sealed with is the newest one or the one before, so that a peer that followed every key rotation can open it.", "quantifier": "all interleavings of senders, rotations and the end of the negotiation", "why_tests_cant": "Needs two key rotations between two lines of sendMessages; tests never wait that long.", "anchors": ["session.go:1861-1870", "session.go:1895-1902", "session.go:2125-2165"]}
{"id": "C114", "title": "A packet recorded from a running session does nothing when sent again", "statement": "If a packet was handled by a session (something was delivered or the key exchange state changed), the same bytes arriving at any later moment deliver nothing and leave the key exchange alone.", "quantifier": "all sessions, all schedules of packets, key exchanges, writes and reads before and between, all moments of the replay, all window sizes", "why_tests_cant": "A test replays a few packets right away; here keys may have been replaced and the window moved arbitrarily far in between.", "anchors": ["session.go:902-946", "packetid_storage.go:30-72", "session.go:1193-1290"]}
{"id": "C115", "title": "Concurrent key updates act one after the other", "statement": "Whatever the schedule of the goroutines that handle messages, update the key periodically and answer requests, the exchanger ends in a state that handling the same messages and installing the same keys one at a time could have produced; in particular no finished key update is undone by an older one.", "quantifier": "all runs of reader, key update loop and answering goroutines, with every secret computed and stored in a step of its own", "why_tests_cant": "Needs the loop to generate a key and store its secrets between the last key read and the store of an answering goroutine.", "anchors": ["key_exchanger.go:322-341", "key_exchanger.go:433-488", "key_exchanger.go:560-598", "key_exchanger.go:713-716", "session.go:2125-2165"]}
{"id": "C116", "title": "Every session key is made of an own key and a signed key of the peer", "statement": "Whatever messages arrive and however the goroutines of the key exchanger are scheduled, every session key in use is the (masked) shared key of a private key drawn by this exchanger and a public key out of a message with a valid signature of the remote identity, which is the expected one if one was given.", "quantifier": "all message sequences, all schedules of reader, key update loop and answering goroutines, all options", "why_tests_cant": "Adversarial messages and all schedules.", "anchors": ["key_exchanger.go:259-341", "key_exchanger.go:343-488", "key_exchanger.go:560-598", "session.go:2125-2165"]}
{"id": "C117", "title": "Waiting for the session's keys ends well", "statement": "GetCipherKeysWait never panics; it returns nil only after the session's context is done; otherwise it returns four keys, the first of which is present, that were in force at some moment during the call; and once keys have been set, or the context is done, every waiting call returns after at most two more steps of its own.", "quantifier": "any number of concurrent callers of GetCipherKeysWait and setSecrets, all interleavings", "why_tests_cant": "Interleavings of storing the keys, closing the channel and loading the keys.", "anchors": ["session.go:1393-1426", "session.go:2125-2165", "key_exchanger.go:322-341"]}
{"id": "C118", "title": "setSecrets tells whether the keys have changed", "statement": "setSecrets returns true exactly if the call changed the session's keys, so that onReceiveSecrets can tell new keys from old ones.", "quantifier": "all sequences of calls", "why_tests_cant": "Only visible in debug output, from the second key on.", "anchors": ["session.go:2074-2082", "session.go:2125-2165"]}
{"id": "C119", "title": "Becoming established does not stop the reader", "statement": "When a session becomes established, the goroutine that reads from the backend gets back to reading: whatever the applications on both sides have written or go on writing, no schedule makes it wait for the peer, or send, for ever.", "quantifier": "all schedules of both sides' goroutines, all numbers of messages, all capacities of the backend", "why_tests_cant": "Needs a writer to run in the short time between the closing of a channel and the next lock, on both sides at once.", "anchors": ["session.go:2020-2042", "key_exchanger.go:470-523", "negotiator.go:167-188"]}
{"id": "C120", "title": "Close ends the goroutines whatever they wait for", "statement": "After Close the reader and the delayed sender of the session end, so that WaitForClosure returns, also if a backend write is in progress and the peer does not read any more.", "quantifier": "all schedules, all capacities of the backend, all moments of Close", "why_tests_cant": "Needs a peer that has stopped reading and full buffers in between.", "anchors": ["session.go:638-680", "session.go:1808-1851", "session.go:2218-2260"]}
{"id": "C121", "title": "Pings are answered without blocking the readers", "statement": "Within an iteration of the negotiation every ping is answered and every pong acknowledged, and both readers get back to reading, whatever the schedule and the capacity of the backend.", "quantifier": "all schedules of both sides, all numbers of pings, all capacities of the backend", "why_tests_cant": "Needs both readers to write at the same moment while the backend is full.", "anchors": ["negotiator.go:294-311", "negotiator.go:450-484", "session.go:901-947"]}
{"id": "C122", "title": "A backend is given back without an expired deadline", "statement": "When a session has ended without closing its backend, the backend's read deadline is not one that the session has set to interrupt itself; whoever uses the backend next can read from it.", "quantifier": "all schedules of reader, backend closer and arriving packets", "why_tests_cant": "Two goroutines race between counting an interrupt, setting the deadline and removing it; the effect shows up in the next user of the connection.", "anchors": ["session.go:638-680", "session.go:796-846", "session.go:2189-2229"]}
{"id": "C123", "title": "An answered key update is not reported as timed out", "statement": "If a message that means success (an answer, or any valid message unless AnswersMode is AnswerAndWait) is handled while a key update waits for the key it has just made, then that update does not end with the key exchange time-out.", "quantifier": "all schedules of the updating goroutine, the handler, ticker, timer and closing; any number of earlier updates and late answers; any clock readings", "why_tests_cant": "Needs an answer to a retry of the previous update that arrives in the few instructions between emptying the notification channel and making the new key, and a timer of a minute.", "anchors": ["key_exchanger.go:490-523", "key_exchanger.go:601-651", "key_exchanger.go:653-703"]}
{"id": "C124", "title": "An exchanger reports at most one error of its key updates", "statement": "Over the whole life of a key exchanger, errFunc is called at most once by the sending and waiting part of its key updates (failed sends and time-outs), because the first error closes the exchanger.", "quantifier": "all schedules, all resolutions of select, any number of updates, retries and failing writes", "why_tests_cant": "Go's select picks at random among ready cases; the second report needs the ticker or the timer to be ready at the same moment as the context.", "anchors": ["key_exchanger.go:671-711"]}
{"id": "C125", "title": "An accepted exchange message makes its sender's packets readable", "statement": "After a genuine key-exchange message of the expected peer was handled without error, packets that the session which made this message seals under the resulting newest key are opened; it does not matter which messages were handled before.", "quantifier": "all primitives, all states of the exchanger, all messages and earlier sessions of the peer, all packet contents", "why_tests_cant": "Needs two sessions of one peer against one session of the other side (a restarted peer, or a recorded message replayed first), which no test sets up.", "anchors": ["key_exchanger.go:410-414", "key_exchanger.go:463-470", "session.go:1155-1169", "session.go:2282-2288"]}
{"id": "C126", "title": "Only packets the peer made for this session are accepted", "statement": "A packet sealed by the session itself and sent back to it, or sealed in another session, is not accepted, whether or not a pre-shared key is used.", "quantifier": "all primitives, all sessions sharing keys or the pre-shared key, all packet IDs and window sizes", "why_tests_cant": "Tests have no attacker who returns packets to their sender.", "anchors": ["session.go:1186-1265", "session.go:1861-1962", "session.go:811-817"]}
{"id": "C127", "title": "What is sent to a session does not weaken the replay protection of its peer", "statement": "Packets that arrive at session A, whether forged, recorded or reflected, do not change which repeated packets of A its peer B refuses: a peer that refuses every repetition while nothing is sent to A still does so afterwards.", "quantifier": "all primitives, keys, contents and window options; any packets sent to A between any two packets of A; any repetition of A's packets towards B", "why_tests_cant": "Needs two sessions and an attacker that talks to one to deceive the other; the effect is invisible at the attacked session, which drops the packets as duplicates, and appears only with more than 63 such packets between two sends.", "anchors": ["session.go:1222", "session.go:1874", "message.go:405", "session.go:525", "session.go:929", "packetid_storage.go:48"]}
{"id": "C128", "title": "Keys made of the pre-shared key are separated by purpose", "statement": "The key that hides packet IDs and protects unconfidential packets, made of a pre-shared key, is different from what session keys are masked with, and both differ for different pre-shared keys, unless one of the two hash functions collides on inputs that can be named.", "quantifier": "all hash functions with 32-byte results, all pairs of pre-shared keys", "why_tests_cant": "Equality of derived keys for chosen inputs cannot be found by sampling; a purpose string that is left out or shared gives a working session.", "anchors": ["hash.go:11-29", "session.go:510-513", "key_exchanger.go:305-321"]}
{"id": "C129", "title": "EnableInfo turns the information messages on", "statement": "With EnableInfo an application that keeps receiving from InfoOutputChan gets every information message of the session in order until the channel is closed; without it, it gets none; reporting never blocks or panics.", "quantifier": "all option values, all schedules of reporting, receiving and closing, any number of messages", "why_tests_cant": "Tests switch both options on together, so that one option doing the work of the other cannot be seen; losses need more than 1024 waiting messages.", "anchors": ["session.go:204-206", "session.go:331-334", "session.go:444-445", "session.go:842-843", "session.go:1989-2005"]}
{"id": "C130", "title": "Two honest sessions do not trouble each other while each has one key pair", "statement": "Take two sessions which expect each other's identity, have the same pre-shared key (or none) and the default answers mode, and a network which may delay, repeat, reorder and lose packets but makes none. As long as each side has drawn at most one key pair: neither session crashes, no packet of the other side fails to decrypt (the counter of decryption failures stays 0), everything put into the read queue was written by the other side, no error is reported unless the exchanger's time-out has passed, and as soon as one side is established both sides have the same single session key.", "quantifier": "All configurations of that kind, all key pairs, all interleavings of the exchangers' goroutines, writes, closes and clean-ups of both sides, all orders, repetitions and losses of packets, all window sizes. Primitives are arbitrary functions with the documented sizes; Diffie-Hellman agrees and is never zero; no packet has a checksum valid under both keys.", "why_tests_cant": "Interleavings of two sessions with a repeating and reordering network cannot be enumerated, and the state which matters (keys, windows, both exchangers) is not visible from outside.", "anchors": ["session.go:904-1018", "session.go:1853-1987", "session.go:2018-2101", "key_exchanger.go:240-420", "key_exchanger.go:544-755"]}
{"id": "C131", "title": "Between two honest sessions a message is delivered at most once", "statement": "For every run of two honest sessions and any network between them, in which each side draws one key pair: what the application of one side has been given is, together with some remainder, a permutation of what the other application has written. It holds for replay windows from 1 to 64. With the default window of 256 it is false: 65 repeated packets received by the sender move its packet IDs by 65, the receiver's window forgets its marks at a jump of more than 64, and a repeated packet is delivered a second time.", "quantifier": "all honest configurations, key pairs, replay windows from 1 to 64, all interleavings and all delays, losses, repetitions and reorderings of packets (fewer than 2^64 steps)", "why_tests_cant": "Needs a particular combination of repeated packets in both directions and every interleaving of two sessions with an adversarial network; a test sees only a few of them.", "anchors": ["session.go:904-1018", "packetid_storage.go:20-71", "session.go:1853-1987"]}
{"id": "C132", "title": "Between two honest sessions the newest message is delivered when its packet arrives", "statement": "From every state reachable by two honest sessions which draw one key pair each: a message of a legal size written by a side which considers the session established is accepted by its backend, and if its packet arrives at the other side before any later one, the payload is appended to what the application of the other side can read; whatever was lost, repeated or reordered before, and whatever the replay window.", "quantifier": "all reachable states (fewer than 2^64 steps), all payloads, all replay windows including none", "why_tests_cant": "Liveness from arbitrary reachable states of two concurrent sessions; tests start from the initial state only.", "anchors": ["session.go:904-1018", "session.go:1853-1987", "packetid_storage.go:20-71"]}
{"id": "C133", "title": "WriteTo of packet headers keeps the contract of io.WriterTo", "statement": "messagesContainerHeadersData.WriteTo returns, without an error, the number of bytes the writer took; what it writes is the encoded header whatever the pooled buffer had in it; an error of the writer is returned with the writer's count.", "quantifier": "for all headers, all contents of the pooled buffer, all writers", "why_tests_cant": "The test ignores the count; the contract is about every header and every writer.", "anchors": ["message.go:366-388"]}
{"id": "C134", "title": "The minimum functions return the least argument", "statement": "min, umin, u32min and u64min return one of their arguments, and none is smaller; they panic exactly without arguments. The two-argument uses in the packet parser and the negotiator are the minimum of the two.", "quantifier": "for all argument lists, at signed and unsigned types", "why_tests_cant": "The tests try one list each.", "anchors": ["utils.go:3-41", "session.go:965", "negotiator.go:224"]}
{"id": "C135", "title": "Names identify states, keys and packets", "statement": "Different session states have different names and only a value that is no state is called unknown; different secret IDs have different names, numbers included; different packet IDs have different names.", "quantifier": "for all pairs of states, of secret IDs and of packet IDs", "why_tests_cant": "Tests compare a few names; that no two of 2^64 coincide is a statement about all pairs.", "anchors": ["session_state.go:59-77", "key_exchanger.go:71-83", "message.go:162-170"]}
{"id": "C136", "title": "An item for a single big message is not kept in the pool", "statement": "A read item acquired for one-time use (a message larger than the packet size limit) does not return to the pool, so that the pool never keeps more than the packet size limit per item.", "quantifier": "for all limits and messages, under every schedule of the reader, of Read calls and of the pool", "why_tests_cant": "Needs a look into the pool after a message larger than a packet was read; the flag that would keep the item out is never set.", "anchors": ["read_item.go:31-61", "session.go:1082-1101"]}
{"id": "C137", "title": "Reading from a buffer keeps the contract of io.Reader", "statement": "buffer.Read delivers as many bytes as it says; at the end of the data it returns an error or a smaller count and does not panic.", "quantifier": "for all buffers, offsets and sizes asked for", "why_tests_cant": "Depends on the relation between offset, length and the size asked for; the tests read inside the data only.", "anchors": ["buffer_pool.go:42-46"]}
{"id": "C138", "title": "A failing write does not end the key exchange", "statement": "If writing a key-exchange message fails, the message is sent again with the next tick of RetryInterval until Timeout; the exchanger and the session go on. What ends an exchanger is a time-out or the end of the session.", "quantifier": "for every key update, at the first send or at any retry, and for every continuation", "why_tests_cant": "A backend that fails once at the right moment is needed, and the claim is about every continuation.", "anchors": ["key_exchanger.go:653-711", "session.go:2090-2103"]}
{"id": "C139", "title": "CloseAndWait waits", "statement": "When a call of CloseAndWait has returned, the reader, the delayed sender, the backend closer and the exchanger of the session have ended.", "quantifier": "for every number of callers and every schedule", "why_tests_cant": "The tests close each session once; a second caller, or a session that is closing by itself, needs a schedule.", "anchors": ["session.go:2250-2277"]}
{"id": "C140", "title": "Callbacks may use their session while a handler is registered", "statement": "When an application registers a handler (NewMessenger, SetHandlerFuncs), the Close of the handler it replaces, and the event handler that is told about an error of it, may call the methods of the session; the registration returns, and nobody waits for the session's lock for ever.", "quantifier": "for all lists of methods the callbacks call, under every schedule of the registration and of another goroutine that wants the lock", "why_tests_cant": "The tests replace no handler that has a Close, and a deadlock needs one that calls back.", "anchors": ["session.go:2112-2123", "messenger.go:63-76", "session.go:2013-2018"]}
{"id": "C141", "title": "SendNowAndWait returns", "statement": "Whoever calls SendNowAndWait on a handle that WriteMessageAsync returned gets back from the call, provided the goroutines of the session that can go on do go on.", "quantifier": "for every session (with or without a send delay), every moment of establishment and closing, every schedule of caller, delayed sender, timer and other senders", "why_tests_cant": "The call blocks on an unbuffered channel whose only receiver is started under conditions elsewhere (send delay configured, session established); tests use the default options and a session that lives.", "anchors": ["send_info.go:SendNowAndWait", "session.go:onConnect", "session.go:delayedSenderLoop", "session.go:WriteMessageAsync"]}
{"id": "C142", "title": "The handshake between two honest sessions can always be completed", "statement": "Take two honest sessions that trust each other and have done anything at all so far: key-exchange packets lost, repeated, reordered, answered late or not at all, the exchanger stopped in the middle of its work. As long as both sides still work (no side is closing, no exchanger reported its time-out, and no exchanger holds its lock for a second key pair), there is a continuation of at most 24 steps, made only of steps of the two programs and of deliveries of packets already sent, after which both sides consider the session established and hold the same single key. No loss or reordering leads to a state from which the handshake cannot be completed.", "quantifier": "every run of two honest sessions with one key pair each, every state of the exchangers and their answering goroutines, every history of losses, repetitions and reorderings, every window size, every pre-shared key", "why_tests_cant": "the tests run the handshake once over a lossless pipe or a local socket; they cannot show that no interleaving or loss pattern leads to a state from which the handshake cannot end", "anchors": ["key_exchanger.go:433-488", "key_exchanger.go:544-730", "session.go:1853-1987", "packetid_storage.go"]}
{"id": "C143", "title": "Data of two honest sessions can always get through", "statement": "Take two honest sessions that trust each other, after any history of losses, repetitions and reorderings of packets and of steps of the exchangers. As long as both sides still work (no side closing, no exchanger holding its lock for a second key pair), there is a continuation of at most 24 steps to a state in which each side can write any message, and as soon as the packet of that message arrives, exactly this message is appended to what the application of the other side reads.", "quantifier": "every run of two honest sessions with one key pair each, every message of at most 2^32-54 bytes, both directions, every window size", "why_tests_cant": "tests deliver messages over connections that lose nothing; they cannot show the absence of histories after which nothing gets through any more", "anchors": ["key_exchanger.go:433-488", "key_exchanger.go:544-730", "session.go:1853-1987", "session.go:1594-1602"]}
{"id": "C144", "title": "Sessions work over byte streams", "statement": "NewSession takes any io.ReadWriteCloser and IsLossyWriter names TCP as a backend that loses nothing. A reliable, ordered byte stream may join and split writes; whatever it makes of the packets of one peer, the other one gets all their messages, in order.", "quantifier": "for all messages, keys, session IDs, windows and all ways to cut the written bytes into reads", "why_tests_cant": "The tests use unixpacket sockets and UDP, which keep the boundaries of writes.", "anchors": ["session.go:900-950", "session.go:1187-1375", "is_lossy_writer.go:8-26", "message.go:250-388"]}
{"id": "C145", "title": "Every accepted payload limit allows the key exchange", "statement": "A session created with any PayloadSizeLimit can read the key-exchange messages of its peer.", "quantifier": "all 2^32 limits and process-wide defaults, all key-exchange messages, with and without a pre-shared key", "why_tests_cant": "Tests use the default limit or large ones; the loss appears only below 146 bytes or in the last 53 limits, as a silent checksum failure of a packet cut off at the end of the read buffer.", "anchors": ["session.go:473-490", "session.go:551-556", "session.go:904-912", "key_exchanger.go:730-747"]}
{"id": "C146", "title": "Messages within the sender's limit fit into the receiver's buffer", "statement": "Without negotiation, every message the sender's limit allows can be read by the other session, whatever limit that one was given.", "quantifier": "all pairs of limits, all message sizes, all payloads", "why_tests_cant": "Tests give both sides the same options; the loss needs a larger limit on the sending side and a message between the two limits.", "anchors": ["session.go:489", "session.go:904-912", "session.go:1439-1448"]}
{"id": "C147", "title": "A message sent in fragments without an error is not ignored by the receiver", "statement": "Whatever message WriteMessageAsync splits and sends without an error is delivered by a session with default options, if its packets arrive in order.", "quantifier": "all message sizes below 4 GiB, all established sizes, all receivers", "why_tests_cant": "Tests send fragmented messages well below the limit; above the receiver's MaxFragmentedMessageSize every fragment is dropped and nobody is told.", "anchors": ["session.go:1432-1510", "session.go:1046-1054", "session.go:484-486"]}
{"id": "C148", "title": "Detaching leaves the backend usable", "statement": "A session that ends because its reader detaches (DetachOnMessagesCount, DetachOnSequentialDecryptFailsCount) or gives up after a read error, and that nobody else closes, never closes its backend and never leaves a deadline on it; and once the reader has decided to stop, the reader and the backend closer both finish whatever the peer does, also after a read error nobody handles. On a backend with read deadlines nobody's Close closes it, and if the closer is done before the reader, the reader takes the deadline back. Failures are counted per row: a packet some key opens starts the count of DetachOnSequentialDecryptFailsCount anew.", "quantifier": "for all detach options, all sequences of packets, and all interleavings of the reader, the backend closer and the key exchange, while nobody else calls Close and the context does not end by itself", "why_tests_cant": "The closer decides what to do from three counters and a flag that the reader changes concurrently; tests see one interleaving and one pair of options, and a deadline left behind only shows in the next user of the backend.", "anchors": ["session.go:637-680", "session.go:819-900", "session.go:983-1013", "session.go:2219-2231"]}
{"id": "C149", "title": "Close ends the session whatever the detach options are", "statement": "After Close, on a backend without read deadlines, the session's reader leaves Read and the session ends without anything from the peer: the closer closes the backend if it cannot interrupt the reader.", "quantifier": "for all values of DetachOnMessagesCount, DetachOnSequentialDecryptFailsCount and AnswersMode, and all moments of Close", "why_tests_cant": "The closer takes the detaching branch when the counters equal the limits; that they can be equal while the session has not detached needs a message before the end of the key exchange, in the default AnswersMode, which no test produces.", "anchors": ["session.go:654-672", "session.go:1005-1012", "session.go:2219-2231"]}
{"id": "C150", "title": "A message waits for others at most SendDelay", "statement": "A message accepted for aggregation is handed to the backend at most SendDelay after it was accepted, if the sender is not busy.", "quantifier": "for all delays, packet sizes and all patterns of writing", "why_tests_cant": "Tests write one message and wait; the timer starts anew with every further message, so that the delay of the first grows with the traffic, up to the number of messages in a packet.", "anchors": ["session.go:208-220", "session.go:1699-1735", "session.go:1808-1850"]}
{"id": "C151", "title": "An attacker without keys makes two sessions read nothing their peers have not written", "statement": "Take two sessions as in C130 (same pre-shared key, each expects the other's identity, default answers mode, one key pair each) and a network which, besides delaying, repeating, reordering and losing packets, hands either session bytes of its own choice, also packets that session has sent itself. As long as no bytes made by the attacker open under a key of the receiver: no session panics, everything an application reads was written by the other one, a session considered established has the other one's key and so has the other, and with windows of 1 to 64 nothing is read twice.", "quantifier": "all runs of two sessions and all bytes an attacker sends which open under no key of the receiver or were sent by one of the sessions; all configurations with equal pre-shared keys and the default answers mode; at most once: windows of 1 to 64", "why_tests_cant": "An attacker's choice of bytes and of their moment is unbounded; tests send a few corrupted packets to an established session.", "anchors": ["session.go:895-1013", "session.go:1137-1265", "key_exchanger.go:300-488"]}
{"id": "C152", "title": "A key update that ends in silence was answered", "statement": "If the wait of retryUntilSuccessOrTimeout for a key update ends while the key exchanger is still open, then a message meaning success was handled after the key of this very update had been made (or taken up), localKeyCreatedAt has the stamp of that key, and nothing was reported; an announcement left over from an earlier update never ends the wait, whether it is seen by the select, at a retry or when the timer fires", "quantifier": "every run of updates, retries, failing writes, handled messages (also late ones), cancellation and every choice of the selects; every update in the run", "why_tests_cant": "The tests never let an answer to an earlier request arrive between makeSuccessNotifyChanEmpty and getNextKeyCreatedAt", "anchors": ["key_exchanger.go:490-523", "key_exchanger.go:601-651", "key_exchanger.go:653-703"]}
{"id": "C153", "title": "Two sessions which change their keys again and again", "statement": "Take two sessions as in C151, but let each draw any number of key pairs at any moments (initiated or answering). As long as no bytes made by the attacker open under a key of the receiver and no sent packet carries a checksum valid under two of the keys: no session panics, everything an application reads was written by the other one, every cipher key in use is made of one key pair of each side, a session considered established has a key to send with, and with windows of 1 to 64 nothing is read twice.", "quantifier": "all runs of two sessions with any lists of key pairs, all interleavings of key updates, answers, writes, retries and (lost, repeated, reordered, reflected, made up) packets; all configurations with equal pre-shared keys and the default answers mode; at most once: windows of 1 to 64", "why_tests_cant": "A key update during traffic takes place every KeyUpdateInterval (a minute); tests last for seconds and never reorder packets around an update.", "anchors": ["key_exchanger.go:300-488", "key_exchanger.go:560-655", "session.go:895-1013", "session.go:1137-1265"]}
{"id": "C154", "title": "Nothing written around a key update is lost by the sessions themselves", "statement": "If the network loses and reorders nothing, everything written to an established session is read by the other side, also what is written while the key is being changed", "quantifier": "all runs of two established sessions, any number of key updates, in which every packet arrives once and in order", "why_tests_cant": "It takes a write between the moment the new key is installed and the moment the new public key is sent; tests do not write during an update.", "anchors": ["key_exchanger.go:560-600", "key_exchanger.go:628-655", "session.go:1137-1265"]}
{"id": "C155", "title": "Two sessions at work can always agree on a key again", "statement": "Whatever key pairs two honest sessions have drawn and whichever of their packets were lost, delayed, repeated or reordered: as long as neither is closing, at most 26 further steps leave the session established on both sides with the same key to send with, and from then on whatever either side writes is read by the other as soon as its packet arrives. (So losing key-exchange messages, or drawing a new pair while an exchange is under way, never leaves the two sides with keys that cannot meet again.)", "quantifier": "all histories of two honest sessions with any number of key pairs drawn from finite sets, all configurations, all window sizes, all message contents", "why_tests_cant": "Needs all interleavings of two key-exchange loops, their answering goroutines and lossy delivery; a test sees a few of them, and a deadlock of two exchanges may need a particular order of losses.", "anchors": ["key_exchanger.go:433-488", "key_exchanger.go:544-730", "session.go:1853-1987"]}
{"id": "C156", "title": "A negotiation probe comes back as it was sent", "statement": "Every probe has the size asked for; the peer sends the same number of bytes back; what comes back is counted for exactly that size and iteration. A message is counted only if it carries the SHA-512 of everything after the hash, so an answer whose content was replaced does not count unless the hash collides. Reports of the largest size decode to what was encoded, and no message makes the handler panic.", "quantifier": "all sizes from 69 to 2^32-1, all iterations, all byte strings as messages, all functions with 64 byte results as SHA-512", "why_tests_cant": "All byte strings up to the packet size as input; a test checks a handful of probe sizes.", "anchors": ["negotiator.go:240-267", "negotiator.go:389-509", "negotiation_message.go"]}
{"id": "C157", "title": "Nothing is read twice as long as no more than 63 packets in a row are missed", "statement": "Two sessions as in C153 (any number of key pairs, repeated, delayed and reordered packets, an attacker without keys), with any PacketIDStorageSize, the default included. If the newest packet number a session has seen never moves by more than 64 at once, its application reads every message at most as often as it was written. The bound cannot be raised: with a move of 65 a message is read twice.", "quantifier": "all primitives with the stated properties, all configurations and window options, all runs of fewer than 2^64 steps", "why_tests_cant": "The condition concerns which of millions of packets are lost; the table is wrong for one length of the gap and right for the next shorter one, and the second copy has to arrive afterwards.", "anchors": ["packetid_storage.go:20-72", "session.go:895-948", "session.go:811-817"]}
{"id": "C158", "title": "A Read with too small a buffer loses nothing", "statement": "When Read fails because its buffer is shorter than the message at the head of the queue, a later Read with a bigger buffer still gets that message, and the item that holds it returns to the pool of read items once it has been read.", "quantifier": "all packet size limits, queue capacities, messages, numbers of concurrent Read calls and schedules", "why_tests_cant": "Tests read with big buffers; whether a message is gone for good is a statement about every continuation, and a forgotten pool item has no visible effect.", "anchors": ["session.go:2167-2180", "session.go:1074-1101", "read_item.go:31-65"]}
{"id": "C159", "title": "Failed decryptions are reported from the configured number on", "statement": "The reader reports an undecryptable packet to the error handler iff, with it, at least ErrorOnSequentialDecryptFailsCount packets could not be decrypted since the last accepted one, and never if the option is 0; GetUnexpectedPacketIDCount is the number of packets dropped by the duplicate check and nothing else.", "quantifier": "all sequences of read results, option values and contents", "why_tests_cant": "The statement is about every mixture of good, bad, duplicate and empty reads; tests have one wrong key and count nothing.", "anchors": ["session.go:882-899", "session.go:901-950", "session.go:320-324", "session.go:447-453"]}
{"id": "C160", "title": "Undecryptable packets do not end a session silently", "statement": "When packets that cannot be decrypted end the session, the error handler has been told so.", "quantifier": "all option values and sequences of packets", "why_tests_cant": "With the default options one packet ends the session and no test looks whether anything was reported.", "anchors": ["session.go:882-899", "session.go:447-453", "session.go:230-245"]}
{"id": "C161", "title": "With PacketIDStorageSize 1 messages are read in the order of writing", "statement": "Between two honest sessions, one of which has PacketIDStorageSize 1 (grow-only mode), what that session's readers get is what the peer's application wrote, in the order of writing, with some messages possibly left out: never reordered, never repeated.", "quantifier": "For all runs of two sessions with any number of key pairs, any loss, repetition and reordering of packets and an attacker without keys, all options of the other side, fewer than 2^64 steps, and traffic each checksum of which fits one key only.", "why_tests_cant": "Tests send a handful of packets in order; reordering across key changes, repeated packets and forged ones have to be combined in every way.", "anchors": ["packetid_storage.go:20-46", "session.go:462-471", "session.go:901-950"]}
{"id": "C162", "title": "An error about too little data names a demanded length above the real one", "statement": "Every ErrTooShort carries two numbers, the length that was needed and the length that was there. Whatever bytes a peer sends, the needed length of every such error is strictly greater than the real one, and the real one is the length of the data that were refused. This holds for the codecs of all headers, for every error the reader reports to the event handler and for key-exchange messages. It is false for the negotiator: an answer to a probe of 6 to 68 bytes is refused with an error that needs 6 bytes.", "quantifier": "for all byte strings, keys, options and primitives", "why_tests_cant": "Tests compare at most the kind of an error, never the two numbers, and never send a truncated probe answer.", "anchors": ["errors.go:146-166", "message.go:257-284", "message.go:318-364", "message_fragment_headers.go:54-82", "session.go:966-1016", "session.go:1186-1200", "key_exchanger.go:343-347", "negotiator.go:414-421"]}
{"id": "C163", "title": "A pooled header carries nothing over from its earlier use", "statement": "Message headers and packet headers are taken from pools and given back. Whatever an object was used for before - a fragment, a key exchange message, a packet of the peer - the header written for a message has its own type, length and flags (confidential iff it is no key exchange message; fragmented iff it is a fragment), the header written for a packet has the packet ID taken for it and length and tags of its own content, and no acquisition or release panics.", "quantifier": "for all sequences of concurrent writes, of packets read (also broken ones and duplicates), all interleavings and all choices of the pool which object it hands out or drops", "why_tests_cant": "A leak needs a particular object to be handed out to a particular next user; sync.Pool decides that, and tests hardly ever see a reused object with other flags.", "anchors": ["message.go:209-255", "message.go:390-440", "session.go:1380-1392", "session.go:1449-1468", "session.go:1510-1544", "session.go:1874-1890"]}
{"id": "C164", "title": "A header goes back to its pool when its user has finished", "statement": "Every header object that was acquired from a pool is given back when the call that acquired it ends: for message headers, fragment headers and packet headers.", "quantifier": "for all sequences of concurrent writes and of packets read, and all choices of the pool", "why_tests_cant": "A lost object is collected by the runtime and replaced by a new one; nothing visible happens apart from allocations.", "anchors": ["message.go:244-255", "message_fragment_headers.go:28-52", "session.go:918-947", "session.go:1525-1544"]}
{"id": "C165", "title": "Sessions may be created by several goroutines at once", "statement": "When several goroutines create sessions at the same time, nothing panics, the session IDs are pairwise different, and each gets a random half of its own: the next number of the process-wide generator.", "quantifier": "for all seeds, all clock readings, any number of goroutines and all interleavings of their memory accesses", "why_tests_cant": "The generator is used outside of the lock; a clash needs two goroutines within a few instructions of each other, and the crash needs them to meet when an index wraps around.", "anchors": ["session.go:355-377", "session.go:381-395"]}
{"id": "C166", "title": "A failing random source is reported and does not crash the process", "statement": "If the random source fails while an ephemeral key is being made, the failure is reported, the keys stay as they are and the exchanger is closed; the process does not panic.", "quantifier": "for all primitives, options, messages, schedules of the exchanger's goroutines and all moments of failure", "why_tests_cant": "The source of the operating system does not fail in tests; a test that injects a failure meets only one of the two places where keys are made.", "anchors": ["key_exchanger.go:561-598", "key_exchanger.go:633-641", "key_exchanger.go:713-728"]}
{"id": "C167", "title": "Every key-exchange interval is taken without a crash", "statement": "Whatever KeyUpdateInterval, RetryInterval and Timeout a session is given, the key exchanger does not make the process panic, and after its first exchange it goes on updating keys.", "quantifier": "all interval and time-out values, all schedules", "why_tests_cant": "The full range of signed durations, and the crash comes in a goroutine after the first exchange.", "anchors": ["key_exchanger.go: newKeyExchanger", "key_exchanger.go: loop", "key_exchanger.go: retryUntilSuccessOrTimeout"]}
{"id": "C168", "title": "Goroutines may be added while others wait for the end of a session", "statement": "While some goroutine is in WaitForClosure, a request may be handled (or a messenger created) and the session be closed at the same time: no wait group panics, whoever has waited finds all goroutines ended, and nobody waits for ever.", "quantifier": "all interleavings of closing, adding, ending and waiting, any number of workers and waiters", "why_tests_cant": "The crash needs an Add between two accesses inside sync.WaitGroup while the last goroutine ends.", "anchors": ["key_exchanger.go: Handle", "key_exchanger.go: WaitForClosure", "session.go: NewMessenger", "session.go: WaitForClosure"]}
{"id": "C169", "title": "A message may be written before the session is established", "statement": "What becomes of a message (sent whole, sent in fragments, refused) does not depend on whether it is written before or after the negotiation of the payload size has ended.", "quantifier": "all messages, all sizes before and after the negotiation, with and without fragmentation and aggregation", "why_tests_cant": "The size must shrink between the call and the end of the negotiation, and the message lie between the two sizes.", "anchors": ["session.go: WriteMessageAsync", "session.go: writeMessageAsync", "session.go: sendMessages", "session.go: GetEstablishedPayloadSize"]}
{"id": "C170", "title": "The counters of a session are usable on every platform", "statement": "No atomic access to a 64-bit counter of an allocated session panics, whatever the size of a machine word is: the address of every field used with the 64-bit functions of sync/atomic is a multiple of 8.", "quantifier": "Both sizes of machine words, every base address, every list of fields before the counters, every size of the spin locks", "why_tests_cant": "The tests run on the machine of the developer, which has words of 64 bits; the result for 32 bits depends on the sizes of all fields before, which change with the version of Go and of the libraries.", "anchors": ["session.go:108-178", "session.go:531-541", "send_info.go:12-27", "session_state.go:44-50"]}
{"id": "C171", "title": "In the whole exchanger, a waiting exchange is over with the next confirming message", "statement": "When a message confirming the key of the running exchange was handled while the loop waits, the next thing the loop does ends the exchange: it neither sends again nor reports a time-out nor closes the session. (C123 is about the update alone, with abstract answers; here real messages are parsed, checked and answered, and the answering goroutines make keys, too.)", "quantifier": "Every state and schedule of the loop, the handler and the answering goroutines, every message, every oracle of the cryptography", "why_tests_cant": "It needs a confirmation of an older key in the short time between the emptying of the channel and the making of the next key, and the answer to that one before the loop looks.", "anchors": ["key_exchanger.go:490-523", "key_exchanger.go:601-703"]}
{"id": "C172", "title": "Malformed content cannot crash the message parser on any platform", "statement": "For every packet content, every claimed length and every treatment of the messages that does not panic itself, the loop over the messages of a packet does not panic, whatever the size of a machine word is.", "quantifier": "All contents, all treatments of messages, words of 32 and of 64 bits", "why_tests_cant": "The lengths are added as uint, whose size depends on the platform; the tests run with 64 bits, and the content has to announce at least 2^32-9 bytes.", "anchors": ["session.go:952-1018"]}
{"id": "C173", "title": "A session can be created with every value of the options for sizes", "statement": "Creating a session does not panic, whatever MaxChainIDDiff and PacketIDStorageSize are.", "quantifier": "All values of both options (64 bits, signed for the second)", "why_tests_cant": "The limits are those of the memory allocator, 2^42 chains and 2^51 packet IDs; a test would have to know them or reserve the memory.", "anchors": ["session.go:463-472", "session.go:482-484", "session.go:515", "packetid_storage.go:12-18"]}
{"id": "C174", "title": "Writing to a session that has not been started is refused or waits", "statement": "Write, WriteMessage, WriteMessageSingle and WriteMessageAsync on a session that is not started yet return an error or wait for the session; the handle of an asynchronous write can be waited for and released.", "quantifier": "All options, all sizes of messages, sessions before and after Start, cancelled or not", "why_tests_cant": "The tests start every session before they use it; the result does not depend on the schedule but on a nil interface in the operand of a select statement.", "anchors": ["session.go:588-629", "session.go:1361-1480", "session.go:1587-1602", "session.go:1895-1905", "send_info.go:104-147"]}
{"id": "C175", "title": "The duplicate check gives the same verdicts on every platform", "statement": "For every value of PacketIDStorageSize that is an int of the platform and every sequence of 64-bit packet IDs, the duplicate check accepts and rejects the same packets whether Go's uint and int have 32 or 64 bits, and it does not crash.", "quantifier": "all word sizes (32 and 64 bits), all option values, all sequences of packet IDs", "why_tests_cant": "The tests run on 64-bit machines only; a difference needs a distance between packet IDs of 2^32 or more, or a window of almost 2^31 IDs.", "anchors": ["packetid_storage.go:12-18", "packetid_storage.go:20-46", "packetid_storage.go:48-72", "session.go:462-471"]}
{"id": "C176", "title": "An identity returned by a constructor can be given to a session without crashing the process", "statement": "Whatever identity a constructor has returned (NewIdentity, also beside an error; NewIdentityFromPrivateKey; NewRemoteIdentity; NewRemoteIdentityFromPublicKey) or nil, using it as the local or the remote identity of a session does not panic: neither when the session signs its own key-exchange message nor when it checks one that arrives.", "quantifier": "all key material, all contents of the key directory and all file system faults, all incoming messages, both roles", "why_tests_cant": "The tests use identities only in the roles they are made for; the crash needs an identity in the other role, or one that came with an error.", "anchors": ["identity.go:70-73", "identity.go:80-125", "identity.go:349-361", "key_exchanger.go:343-359", "key_exchanger.go:385-409", "key_exchanger.go:704-748"]}
{"id": "C177", "title": "The ephemeral keys handed to the application belong to the keys in use", "statement": "Whoever calls GetEphemeralKeys and then GetCipherKeys gets secrets and keys that belong together: every key is the first 32 bytes of the secret at the same place.", "quantifier": "for every number of goroutines calling setSecrets, GetEphemeralKeys and GetCipherKeys, and every interleaving of their steps", "why_tests_cant": "The readers take no lock; the moment between the two assignments of setSecrets is a few instructions long and no test stops a goroutine there.", "anchors": ["session.go:2125-2165", "session.go:2278-2283", "session.go:1393-1406", "identity.go:342"]}
{"id": "C178", "title": "Unread messages hold memory in proportion to their size", "statement": "The memory that the read queue holds for messages nobody has read yet is at most a constant factor of the bytes of these messages.", "quantifier": "for every packet size limit, queue length, sequence of messages and schedule of the reader, of Read calls and of the pool", "why_tests_cant": "Tests read what they send and do not look at the capacity of queued items; the effect needs a peer that sends many tiny messages to an application that reads slowly.", "anchors": ["session.go:1082-1101", "read_item.go:31-48", "session.go:62"]}
{"id": "C179", "title": "Closing during the negotiation is not reported as an error", "statement": "When the probes of a negotiation cannot be sent, the event handler is told at most once, and not at all if the only cause is that the application has closed the session.", "quantifier": "all interleavings of the sending of probes, failures of the backend and Close", "why_tests_cant": "Close has to hit the short time between two checks; a failing backend has to be simulated at every probe.", "anchors": ["negotiator.go:294-312", "session.go:1965-1969", "session.go:2044-2056", "session.go:2231-2260"]}
