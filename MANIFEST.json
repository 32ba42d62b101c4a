{
 "claims": [
  {
   "property": "C01",
   "status": "proved",
   "theorems": [
    "C01_header_roundtrip",
    "C01_header_injective",
    "C01_reader_total",
    "C01_flags_independent"
   ],
   "note": "Header bytes are checked against a separate description of the layout."
  },
  {
   "property": "C02",
   "status": "proved",
   "theorems": [
    "C02_packet_header_roundtrip",
    "C02_short_is_error",
    "C02_packet_header_injective",
    "C02_packet_id_roundtrip"
   ],
   "note": ""
  },
  {
   "property": "C03",
   "status": "proved",
   "theorems": [
    "C03_fragment_header_roundtrip",
    "C03_short_is_error",
    "C03_fragment_header_injective"
   ],
   "note": ""
  },
  {
   "property": "C04",
   "status": "proved",
   "theorems": [
    "C04_session_id_roundtrip",
    "C04_session_id_injective",
    "C04_kx_message_roundtrip",
    "C04_negotiation_message_roundtrip",
    "C04_short_is_error"
   ],
   "note": ""
  },
  {
   "property": "C05",
   "status": "proved",
   "theorems": [
    "C05_batch_transparent",
    "C05_batch_delivered"
   ],
   "note": "Any list of unfragmented messages whose encoding fits 32 bits, parsed back from one packet by the session's loop; delivered through registered handlers and read queues."
  },
  {
   "property": "C06",
   "status": "partial",
   "theorems": [
    "C06_terminates",
    "C06_no_panic",
    "C06_inside",
    "C06_disjoint_partial",
    "C06_recording_faithful",
    "C06_disjoint_refuted"
   ],
   "note": "Termination, absence of panics in the parser loop and in-bounds ranges are proved for every content and length. Disjointness is proved unless a completed fragmented message whose announced total is shorter than its last fragment is involved: then bytes are parsed twice (C06_disjoint_refuted)."
  },
  {
   "property": "C07",
   "status": "partial",
   "theorems": [
    "C07_replay_refuted",
    "C07_replay_small_windows_partial",
    "C07_replay_partial",
    "C07_disabled"
   ],
   "note": "The full statement is false of the code: refuted for the default window and for every window option above 64 (update() loses bits on jumps of 65..window-1). Proved unconditionally for window options 1..64 and, for every window, for all histories whose forward jumps are at most 64 or at least the window."
  },
  {
   "property": "C08",
   "status": "proved",
   "theorems": [
    "C08_grow_only",
    "C08_exactly"
   ],
   "note": "Grow-only mode (option 1): accepted IDs strictly increase, for all histories. C08_exactly: accepted exactly if greater than 0 and than every ID offered before."
  },
  {
   "property": "C09",
   "status": "proved",
   "theorems": [
    "C09_fresh_accepted"
   ],
   "note": "For all histories and window options."
  },
  {
   "property": "C10",
   "status": "proved",
   "theorems": [
    "C10_stale_rejected",
    "C10_newer_accepted",
    "C10_no_panic"
   ],
   "note": "For all histories and window options."
  },
  {
   "property": "C100",
   "status": "partial",
   "theorems": [
    "C100_one_packet_crashes_refuted",
    "C100_crash_cause_partial"
   ],
   "note": "Refuted: one fragment at position 2^64-1, in a packet without any secret, crashes a session with default options. Partial: unless some accepted packet holds a fragment whose position wraps, and provided the key agreement never yields the zero key (C53), no packet panics."
  },
  {
   "property": "C101",
   "status": "partial",
   "theorems": [
    "C101_one_packet_aborts_refuted",
    "C101_unopened_partial"
   ],
   "note": "Refuted: an empty key-exchange message in a packet without any secret closes the session (OnErrorClose). Packets that no key of the session opens (e.g. without the pre-shared key) do no harm below the limits on failed decryptions (C101_unopened_partial)."
  },
  {
   "property": "C102",
   "status": "proved",
   "theorems": [
    "C102_undecryptable_is_harmless",
    "C102_counted"
   ],
   "note": " The packet is counted and the reader ends exactly at the configured limit (C102_counted)."
  },
  {
   "property": "C103",
   "status": "proved",
   "theorems": [
    "C103_handled_was_sealed"
   ],
   "note": ""
  },
  {
   "property": "C104",
   "status": "partial",
   "theorems": [
    "C104_negative_count_refuted",
    "C104_success_partial",
    "C104_exactly"
   ],
   "note": "False on a closed session or with too small a buffer: the count is -1. Proved for every successful Read; the contract is kept exactly by the calls that return no error."
  },
  {
   "property": "C105",
   "status": "partial",
   "theorems": [
    "C105_write_partial",
    "C105_single_refuted"
   ],
   "note": "False for WriteMessageSingle, which returns the size of the sealed packet. Proved for Write and WriteMessage."
  },
  {
   "property": "C106",
   "status": "partial",
   "theorems": [
    "C106_write_refuted",
    "C106_async_refuted",
    "C106_write_partial"
   ],
   "note": "False for WriteMessageAsync, and for Write when the context ends. Proved for Write while the context lives."
  },
  {
   "property": "C107",
   "status": "partial",
   "theorems": [
    "C107_stale_key_refuted",
    "C107_newest_key_partial",
    "C107_never_lost"
   ],
   "note": "False: a goroutine that answers stores secrets computed before the loop installed a newer key. Proved: it holds between updates if updates do not overlap, and the key never goes away in any run. Premise: 32-byte results of the Diffie-Hellman function and of the hash."
  },
  {
   "property": "C108",
   "status": "proved",
   "theorems": [
    "C108_announces_newest"
   ],
   "note": "Premise: generated pairs are pairs."
  },
  {
   "property": "C109",
   "status": "partial",
   "theorems": [
    "C109_fragment_after_close_refuted",
    "C109_answer_after_close_refuted",
    "C109_late_fragments_partial",
    "C109_no_late_write_partial"
   ],
   "note": "False for fragments of WriteMessageAsync and, if the context given to Start ends, for answers of the key exchange. Proved: without the latter, only fragments about to be written when the session became done are written late; none without fragments."
  },
  {
   "property": "C11",
   "status": "proved",
   "theorems": [
    "C11_packet_ids_unique",
    "C11_nonces_unique",
    "C11_nonce_used"
   ],
   "note": "All interleavings are lists of atomic counter increments; bound: fewer than 2^64 counter uses; distinct session IDs assumed for the two directions."
  },
  {
   "property": "C110",
   "status": "partial",
   "theorems": [
    "C110_spurious_error_refuted",
    "C110_no_failure_partial",
    "C110_quiet_close_partial"
   ],
   "note": "False: an answer or key update that meets the closing session is reported. Proved when none is on its way, and before closing."
  },
  {
   "property": "C111",
   "status": "partial",
   "theorems": [
    "C111_message_in_progress_refuted",
    "C111_closed_exchanger_partial"
   ],
   "note": "False for the message being handled at the moment of Close; proved for all later messages."
  },
  {
   "property": "C112",
   "status": "partial",
   "theorems": [
    "C112_overtaken_refuted",
    "C112_exactly_partial",
    "C112_all_accepted_partial"
   ],
   "note": "Refuted for every PacketIDStorageSize: the packet ID is taken before the wait for the end of the negotiation, so a Write made during the negotiation is sent with an ID that may be older than the window (with size 1: older than any later ID) and is dropped although nothing was lost. C112_exactly_partial: all packets are accepted exactly when none is a whole window behind the largest ID before it; C112_all_accepted_partial gives a condition on the schedule."
  },
  {
   "property": "C113",
   "status": "partial",
   "theorems": [
    "C113_stale_key_refuted",
    "C113_recent_key_partial"
   ],
   "note": "Refuted: the key is taken before that wait, so after two rotations the packet is sealed under a key the peer has dropped. Proved for all runs in which no rotation finds a packet waiting with an outdated key. The number of keys the peer keeps is taken from the exchanger (C50, C107)."
  },
  {
   "property": "C114",
   "status": "partial",
   "theorems": [
    "C114_replay_small_windows_partial",
    "C114_replay_delivered_refuted"
   ],
   "note": "Proved for window options 1 to 64. Refuted for the default window: after a jump of more than 64 (and less than the window) the same application message is read twice."
  },
  {
   "property": "C115",
   "status": "partial",
   "theorems": [
    "C115_lost_update_refuted",
    "C115_serial_partial",
    "C115_serial_loop_partial"
   ],
   "note": "False: lost update by an answering goroutine, which does not hold the lock. Proved: runs without overlapping updates, in particular runs in which only the loop generates keys, end in a state of the exchanger that does each update at once."
  },
  {
   "property": "C116",
   "status": "proved",
   "theorems": [
    "C116_provenance"
   ],
   "note": "All runs of the exchanger with updates taken apart. Premise: 32-byte results of the Diffie-Hellman function and of the hash. The same at session level, with updates taken as one step, is C99_session_keys."
  },
  {
   "property": "C117",
   "status": "proved",
   "theorems": [
    "C117_no_panic",
    "C117_result",
    "C117_woken",
    "C117_callers",
    "C117_nil_cancelled"
   ],
   "note": "Premise on the secrets handed over (four, the first present, at least 32 bytes each) is C117_callers for all runs of the exchanger."
  },
  {
   "property": "C118",
   "status": "partial",
   "theorems": [
    "C118_change_reported_as_none_refuted",
    "C118_first_change_partial"
   ],
   "note": "False from the second change on: the result is false. Proved: true for the first change and only for it, false and nothing stored if the keys are the same."
  },
  {
   "property": "C119",
   "status": "partial",
   "theorems": [
    "C119_deadlock_refuted",
    "C119_livelock_refuted",
    "C119_unbounded_partial",
    "C119_one_sided_partial"
   ],
   "note": "Two sessions without negotiation, connected by a backend of any capacity. False: what was written before the session was established is sent by the goroutine that reads, inside Handle; if both sides do so the two wait in backend.Write for each other for ever, Close included (for every finite capacity; with net.Pipe one message per side is enough), and an application that goes on writing can keep the loop of onConnect going for ever. Holds under every schedule if writes never wait and the applications stop writing, and for every backend if only one side writes."
  },
  {
   "property": "C12",
   "status": "partial",
   "theorems": [
    "C12_xor_of_ids_leaks_refuted",
    "C12_body_apart_partial"
   ],
   "note": "False for the packet ID: its key stream is fixed (nonce of zeros), proved for every cipher, key and pair of packets. What does hold: the body is never encrypted with that nonce (C12_body_apart_partial, packet ID not zero)."
  },
  {
   "property": "C120",
   "status": "partial",
   "theorems": [
    "C120_close_refuted",
    "C120_close_partial"
   ],
   "note": "Backend with read deadlines, which Close does not close: a sender in backend.Write whose peer has stopped reading (here: was closed) never ends, for every finite capacity. Holds under every schedule if backend writes never wait."
  },
  {
   "property": "C121",
   "status": "partial",
   "theorems": [
    "C121_deadlock_refuted",
    "C121_one_sided_refuted",
    "C121_room_partial"
   ],
   "note": "False: pongs and the control messages that follow pongs are written by the goroutine that reads. If the backend holds fewer packets than a side sends pings (12 per iteration), both readers may wait in backend.Write for each other and nothing can happen any more; with net.Pipe it is enough that one side sends two pings. True under every schedule if writes never wait, or if the backend can hold all packets of the iteration."
  },
  {
   "property": "C122",
   "status": "partial",
   "theorems": [
    "C122_deadline_left_refuted",
    "C122_deadline_reset_partial"
   ],
   "note": "False: the backend closer may set the deadline after the reader has removed it; then it stays. Proved for sessions without SetPause in which the closer is not between the two steps when the reader does its last one."
  },
  {
   "property": "C123",
   "status": "partial",
   "theorems": [
    "C123_dropped_refuted",
    "C123_answered_partial"
   ],
   "note": "Refuted: a late answer to a retry of the previous update, handled after the channel was emptied and before the new key is made, fills the notification channel (capacity 1); the notification of the real answer is dropped (default case), the waiting loop discards the stale value, and the time-out closes the session although the exchange succeeded. Proved: if the channel is empty when success is announced, no continuation reports a time-out of this update."
  },
  {
   "property": "C124",
   "status": "partial",
   "theorems": [
    "C124_errors_refuted",
    "C124_one_error_partial"
   ],
   "note": "Refuted: after a failed send the loop may take ticker and timer cases although the context is done, giving three errors. Proved: at most one error if neither ticker nor timer win against a context that is done."
  },
  {
   "property": "C125",
   "status": "partial",
   "theorems": [
    "C125_pinned",
    "C125_unreadable_refuted",
    "C125_readable_partial"
   ],
   "note": "Refuted for all primitives: the session ID of the first message stays for ever (C125_pinned, all runs of the exchanger), so packets of a peer that started a new session, or whose old message was replayed first, are not opened although its key is in use. Proved for the first message and later ones of the same session of the peer."
  },
  {
   "property": "C126",
   "status": "partial",
   "theorems": [
    "C126_reflected_refuted",
    "C126_bound_partial"
   ],
   "note": "Refuted for all primitives, with or without a pre-shared key: packets sealed without session key carry no session ID, so a session accepts its own packet, and its duplicate window then drops genuine ones. Proved for packets under a session key: if opened, then by the session that has learnt the sender's ID, with the sender's content, or a tag fits by accident under another key or nonce."
  },
  {
   "property": "C127",
   "status": "partial",
   "theorems": [
    "C127_ids_exact",
    "C127_replay_refuted",
    "C127_no_replay_partial"
   ],
   "note": "False of the code: receiving takes packet IDs from the sending counter, so 64 packets of 44 bytes or more sent to A (copies of one recorded packet do) make A's next ID jump by 65, which wipes B's window above 64, and B accepts A's earlier packet again (C127_replay_refuted, all primitives). C127_ids_exact gives the ID of every packet sent. C127_no_replay_partial: protection holds while at most 63 packets arrive between two sends and A's packets arrive in order without loss."
  },
  {
   "property": "C128",
   "status": "proved",
   "theorems": [
    "C128_purposes_differ",
    "C128_psk_differ"
   ],
   "note": "As reductions: equal keys give a collision of BLAKE3 or SHA3 whose two inputs are written down. Premise: 32-byte hashes (for the purposes: BLAKE3 output of fixed length)."
  },
  {
   "property": "C129",
   "status": "partial",
   "theorems": [
    "C129_enable_info_refuted",
    "C129_in_order",
    "C129_nothing_lost_partial"
   ],
   "note": "False of the code: ifInfo asks EnableDebug, so EnableInfo alone gives nothing under any schedule and EnableDebug alone gives everything. Proved for all options: order, no invention, no blocking. C129_nothing_lost_partial has EnableDebug in place of EnableInfo and a receiver less than 1024 messages behind."
  },
  {
   "property": "C13",
   "status": "proved",
   "theorems": [
    "C13_open_confidential",
    "C13_open_unconfidential",
    "C13_end_to_end"
   ],
   "note": "Cipher, hash and tag function are arbitrary functions with the right output sizes."
  },
  {
   "property": "C130",
   "status": "proved",
   "theorems": [
    "C130_two_honest_sessions"
   ],
   "note": "Two whole sessions (DuoModel over IntegModel) with any network between them. Runs in which a side draws a second key pair are left out: there C50 shows that packets get lost. A key-exchange message is sealed and handed over in the step which makes it. Instance with all premises checked: C130_example."
  },
  {
   "property": "C131",
   "status": "partial",
   "theorems": [
    "C131_twice_refuted",
    "C131_at_most_once_partial"
   ],
   "note": "Refuted for the default window of 256 (and every window of more than one word): concrete run of 89 steps. Proved for windows from 1 to 64. Model of C130: one unfragmented message per packet, one key pair per side."
  },
  {
   "property": "C132",
   "status": "proved",
   "theorems": [
    "C132_newest_delivered"
   ],
   "note": "Model of C130 (one unfragmented message per packet, one key pair per side); direction B to A, the model is symmetric."
  },
  {
   "property": "C133",
   "status": "partial",
   "theorems": [
    "C133_written_partial",
    "C133_failure",
    "C133_count_refuted",
    "C133_short"
   ],
   "note": "Refuted for every header and every honest writer: 88 is returned for 44 bytes written. Proved: what is written is the encoded header and reads back; errors are passed on with the writer's count."
  },
  {
   "property": "C134",
   "status": "proved",
   "theorems": [
    "C134_signed",
    "C134_unsigned",
    "C134_of_two"
   ],
   "note": "The four functions are one text at four types; the model is generic in the comparison."
  },
  {
   "property": "C135",
   "status": "proved",
   "theorems": [
    "C135_states",
    "C135_no_state",
    "C135_secrets",
    "C135_packets"
   ],
   "note": "Names of states, secret IDs, packet IDs (message type names are C66)."
  },
  {
   "property": "C136",
   "status": "partial",
   "theorems": [
    "C136_kept_refuted",
    "C136_bounded_partial",
    "C136_small_messages"
   ],
   "note": "Refuted for every limit and every larger message: AcquireReadItem never sets isOneTimeUse in the item, so Release pools it. Proved: no pooled item is larger than the largest message so far or the limit; with small messages the pool keeps at most the limit per item."
  },
  {
   "property": "C137",
   "status": "partial",
   "theorems": [
    "C137_end_refuted",
    "C137_inside_partial"
   ],
   "note": "Refuted: a read beyond the data reports the whole size asked for, and every later read panics (also one of no bytes). Proved: inside the data it delivers the next bytes. No caller in the library uses it."
  },
  {
   "property": "C138",
   "status": "partial",
   "theorems": [
    "C138_no_retry_refuted",
    "C138_ends_only_by_partial",
    "C138_working_backend"
   ],
   "note": "Refuted for every update: the first failing write ends the exchanger for good with no time-out reported, and no later message counts as success. Proved: nothing but a failing write, a time-out or the end of the session ends it; with a working backend only the latter two."
  },
  {
   "property": "C139",
   "status": "partial",
   "theorems": [
    "C139_second_refuted",
    "C139_running_refuted",
    "C139_waited_partial",
    "C139_one_winner",
    "C139_goes_on",
    "C139_can_return"
   ],
   "note": "Refuted for every call but the one that closes the session: it returns an error at once, while goroutines run and write. Proved: the call that closes the session has waited for all four, and there is at most one such call. Nobody else ends the flush that call waits for. C139_can_return: from every reachable state the session's own goroutines get the closing call to its return, whether their writes fail or not."
  },
  {
   "property": "C14",
   "status": "proved",
   "theorems": [
    "C14_accepted_is_tagged",
    "C14_unsent_is_forgery",
    "C14_changed_content_rejected",
    "C14_changed_tag_rejected",
    "C14_no_panic"
   ],
   "note": "Ideal tag function: no second preimage for the two tags of the packet at hand (a global injectivity assumption would be contradictory)."
  },
  {
   "property": "C140",
   "status": "partial",
   "theorems": [
    "C140_never_returns_refuted",
    "C140_deadlock_refuted",
    "C140_returns_partial"
   ],
   "note": "Refuted for every callback that calls a method taking the session's lock (GetRemoteIdentity, NewMessenger, SetHandlerFuncs, SetPause, Start): the registration never returns, and the goroutine that handles key-exchange messages stops too. Proved: with other callbacks everybody finishes under every schedule."
  },
  {
   "property": "C141",
   "status": "partial",
   "theorems": [
    "C141_no_delay_refuted",
    "C141_no_delay_happens_refuted",
    "C141_closed_early_refuted",
    "C141_served_partial",
    "C141_met_partial",
    "C141_panic_partial",
    "C141_timer_partial",
    "C141_panic_refuted"
   ],
   "note": "False in every session without a send delay and in a session closed before it is established: the call blocks for ever. Proved: with a running sender the caller is met and then served by the sending under way; it panics only after the context is cancelled. A call waiting for the channel panics when the session is closed meanwhile. Proved: the timer serves a waiting handle too."
  },
  {
   "property": "C142",
   "status": "proved",
   "theorems": [
    "C142_handshake_can_end"
   ],
   "note": "Two sessions of the integrated model and the network between them (DuoModel). For every reachable pair of states in which both sides still work, at most 24 further steps lead to both Established with the one shared key. Premises as for C130 and C132: idealised signature and Diffie-Hellman, no packet whose tag fits two keys. Proved for one side by following loop, delivery, answer and delivery, and for the other by symmetry."
  },
  {
   "property": "C143",
   "status": "proved",
   "theorems": [
    "C143_data_gets_through"
   ],
   "note": "Composition of C142 and C132 in both directions over DuoModel, with the same premises."
  },
  {
   "property": "C144",
   "status": "partial",
   "theorems": [
    "C144_joined_refuted",
    "C144_cut_refuted",
    "C144_streams_refuted",
    "C144_boundaries_partial"
   ],
   "note": "Refuted: a read that holds more or less than one packet is dropped as a whole (unless Poly1305 gives the same tag to a message of another length); both messages are lost. Proved: a backend that keeps the boundaries of writes delivers everything in order."
  },
  {
   "property": "C145",
   "status": "partial",
   "theorems": [
    "C145_large_enough_partial",
    "C145_small_limit_refuted"
   ],
   "note": "Limits from 146 up to 2^32-54 work. Below, and in the last 53 limits (where the packet limit wraps around), no key-exchange message is ever understood, up to Poly1305 collisions."
  },
  {
   "property": "C146",
   "status": "partial",
   "theorems": [
    "C146_not_larger_partial",
    "C146_larger_lost_refuted",
    "C146_different_limits_refuted"
   ],
   "note": "Holds when the receiver's limit is not smaller. Otherwise every message above the receiver's limit is lost, up to Poly1305 collisions."
  },
  {
   "property": "C147",
   "status": "partial",
   "theorems": [
    "C147_within_limit_partial",
    "C147_too_big_dropped_refuted",
    "C147_sent_without_error",
    "C147_default_options_refuted"
   ],
   "note": "False above the receiver's MaxFragmentedMessageSize (default 65536): every fragment is dropped in every order, no event, no error, and the sender sees success. Proved within the limit."
  },
  {
   "property": "C148",
   "status": "proved",
   "theorems": [
    "C148_detaching_leaves_backend",
    "C148_detaching_ends",
    "C148_error_ends",
    "C148_interrupted_gives_back",
    "C148_fails_in_a_row"
   ],
   "note": "All detach options; duplicates, uncounted messages and pausing are left out of the model."
  },
  {
   "property": "C149",
   "status": "partial",
   "theorems": [
    "C149_close_hangs_refuted",
    "C149_close_ends_partial"
   ],
   "note": "Refuted: with the default AnswersMode, a message that reaches DetachOnMessagesCount during the key exchange does not detach, and a later Close takes the detaching branch, cannot interrupt the reader and does not close the backend. Holds without DetachOnMessagesCount or without waiting for answers, if the reader is in Read before the closer looks at it (the race before is C77)."
  },
  {
   "property": "C15",
   "status": "partial",
   "theorems": [
    "C15_injection_refuted",
    "C15_plaintext_delivered_refuted",
    "C15_session_key_partial"
   ],
   "note": "False: packets in clear (no PSK) or under the PSK-derived key are accepted in an established session."
  },
  {
   "property": "C150",
   "status": "partial",
   "theorems": [
    "C150_waits_longer_refuted",
    "C150_bounded_partial"
   ],
   "note": "Refuted: every further message sets the timer anew, so that the first message of a packet may wait (n-1)(SendDelay-1)+SendDelay for n messages. Holds for the last message of every packet; for the others with the bound n SendDelay. Computation takes no time in the model."
  },
  {
   "property": "C151",
   "status": "proved",
   "theorems": [
    "C151_attacked_sessions",
    "C151_attacked_once"
   ],
   "note": "Invariant of DuoProofs kept by arrivals of bytes no key opens (counted only) and of the session's own packets (data: the nonce has the other session's ID, so no key fits; key exchange: opened, but the signature is not the peer's). Premises: ideal primitives, signatures not transferable between the two identities, no accidental checksum. Example with a pre-shared key, junk, reflected packets and repetitions."
  },
  {
   "property": "C152",
   "status": "proved",
   "theorems": [
    "C152_answered"
   ],
   "note": "KxEndProps.v: along every run of KxRetryModel; the history since the last TlKey contains a TlHandle. C152_example: a late answer to the first update does not end the second one."
  },
  {
   "property": "C153",
   "status": "proved",
   "theorems": [
    "C153_rekeyed_sessions",
    "C153_rekeyed_once"
   ],
   "note": "Any number of key pairs on both sides; the attacker may also send back and reorder packets. What is assumed of the bytes: nothing the attacker made up opens under a key of the receiver, and no sent packet has a checksum valid under two keys or for two senders."
  },
  {
   "property": "C154",
   "status": "partial",
   "theorems": [
    "C154_delivery_refuted",
    "C154_delivery_partial",
    "C154_newest_partial"
   ],
   "note": "False: a new key is used for sending as soon as it is made, before the new public key is sent, so that what is written in between cannot be opened by the other side. Partial: if the key the sender uses is one of those the receiver tries, the message is read as soon as its packet arrives; with an attacker's packets as well, if none with a higher ID has arrived."
  },
  {
   "property": "C155",
   "status": "proved",
   "theorems": [
    "C155_keys_renewed"
   ],
   "note": "the schedule is constructed; assumes tags unambiguous and the time of the latest pair below 2^64-1"
  },
  {
   "property": "C156",
   "status": "proved",
   "theorems": [
    "C156_probe_comes_back",
    "C156_only_whole_answers",
    "C156_changed_answer",
    "C156_report_arrives",
    "C156_no_panic",
    "C156_ping_layout"
   ],
   "note": "SHA-512 is a parameter"
  },
  {
   "property": "C157",
   "status": "proved",
   "theorems": [
    "C157_steady_once",
    "C157_bound_is_sharp"
   ],
   "note": "For each side separately. Example with the default window and a move of exactly 64."
  },
  {
   "property": "C158",
   "status": "partial",
   "theorems": [
    "C158_message_lost_refuted",
    "C158_failed_call_exists",
    "C158_item_forgotten_refuted",
    "C158_nothing_forgotten_partial",
    "C158_big_buffers_lose_nothing_partial"
   ],
   "note": "Refuted in general form: a Read that fails with ErrPayloadTooBig has already taken the message from the channel; in every continuation no call returns it, and its item stays marked busy and never reaches the pool. What holds: only such calls forget items, and calls whose buffers are as long as the messages get every message they take."
  },
  {
   "property": "C159",
   "status": "proved",
   "theorems": [
    "C159_reported_from_k",
    "C159_switched_off",
    "C159_unexpected_exact"
   ],
   "note": "For every sequence of read results in which no read error is refused by the handler; the count wraps at 2^64. Whether a packet is a duplicate is the matter of C07-C10."
  },
  {
   "property": "C16",
   "status": "partial",
   "theorems": [
    "C16_window_poisoned_refuted",
    "C16_poisoned_session_refuted",
    "C16_rejected_is_harmless_partial"
   ],
   "note": "False without a pre-shared key; holds for packets that fail to open."
  },
  {
   "property": "C160",
   "status": "partial",
   "theorems": [
    "C160_silent_end_refuted",
    "C160_reported_end_partial",
    "C160_silent_below_refuted"
   ],
   "note": "Refuted for the default options (0 and 3) and all others with a limit of at most 1 and reports from a later failure on: the first undecryptable packet ends the session without a report. Proved when the limit is positive and not below the number to report from. The limits below that number are exactly those for which the session can end silently: as many undecryptable packets as the limit says are enough (C160_silent_below_refuted)."
  },
  {
   "property": "C161",
   "status": "proved",
   "theorems": [
    "C161_grow_only_in_order",
    "C161_default_window_reorders"
   ],
   "note": "Model of C153 (two whole sessions, rekeying, attacker). The second theorem shows that the default window reads the same arrivals in another order."
  },
  {
   "property": "C162",
   "status": "partial",
   "theorems": [
    "C162_codecs",
    "C162_reader",
    "C162_key_exchange",
    "C162_negotiation_partial",
    "C162_negotiation_refuted"
   ],
   "note": "Holds for the header codecs, everything the reader reports and the key exchanger; refuted for the negotiator: parseMessage (negotiator.go 418) names the size of a control message whatever message it was parsing, so a truncated probe answer of 6 to 68 bytes is called shorter than 6."
  },
  {
   "property": "C163",
   "status": "proved",
   "theorems": [
    "C163_message_headers",
    "C163_packet_headers"
   ],
   "note": "Message headers with any number of concurrent calls; packet headers with any number of senders and the reader, the key being fixed and the two tags arbitrary functions."
  },
  {
   "property": "C164",
   "status": "partial",
   "theorems": [
    "C164_message_headers_partial",
    "C164_packet_headers_partial",
    "C164_fragment_headers_refuted",
    "C164_duplicates_refuted"
   ],
   "note": "Message headers always come back; packet headers do except one for every duplicate packet; fragment headers never do (session.go:1528 has no Release)."
  },
  {
   "property": "C165",
   "status": "partial",
   "theorems": [
    "C165_different_stamps",
    "C165_serial_partial",
    "C165_panic_refuted",
    "C165_same_number_refuted"
   ],
   "note": "The time stamps are different in all runs, so the IDs are. The random half is drawn outside of the lock from a source that is not safe for concurrent use: for every seed the first two sessions of a process may crash it (index 1212 of a vector of 607) or get the same number. Proved for calls that do not overlap. math/rand's source is modelled from the Go library, one load or store per step."
  },
  {
   "property": "C166",
   "status": "partial",
   "theorems": [
    "C166_answer_refuted",
    "C166_no_crash_partial",
    "C166_loop_failure_partial"
   ],
   "note": "Refuted for every request that a fresh session accepts before its own first key exists: the answering goroutine ignores the failure and dereferences the missing key. Proved: no crash for all other failures (if no secret is zero), and a failure in the loop is reported once, changes no key and closes the exchanger."
  },
  {
   "property": "C167",
   "status": "partial",
   "theorems": [
    "C167_retry_refuted",
    "C167_update_refuted",
    "C167_no_crash_partial",
    "C167_goes_on_partial",
    "C167_ends_with_context"
   ],
   "note": "Refuted: only the value zero is replaced by a default, and time.NewTicker panics on a negative interval. A negative RetryInterval ends the process when the first request is sent, a negative KeyUpdateInterval when the first update has ended. Proved for zero and positive intervals and every time-out, under every schedule; and for all intervals that the loop does not end before its context."
  },
  {
   "property": "C168",
   "status": "partial",
   "theorems": [
    "C168_reused_refuted",
    "C168_concurrent_refuted",
    "C168_not_waited_refuted",
    "C168_no_panic_partial",
    "C168_waited_partial",
    "C168_woken_partial"
   ],
   "note": "Refuted: Handle looks at the context and calls kx.wg.Add later without anything that keeps the group from becoming empty; if the exchanger is closed in between, Add or the waiter panics, or the waiter does not wait. NewMessenger does the same with stopWaitGroup. Proved for all runs in which the context does not end between check and Add: no panic, the waiters have waited, and all are woken."
  },
  {
   "property": "C169",
   "status": "partial",
   "theorems": [
    "C169_early_refuted",
    "C169_same_partial",
    "C169_small_sent"
   ],
   "note": "Refuted: WriteMessageAsync decides about fragmentation with the size at the moment of the call, the later checks use the negotiated one; with fragmentation on, every message between the two sizes is refused when written early and sent when written later. Proved: in all other cases the result is the same, and small messages written early are sent in one packet."
  },
  {
   "property": "C17",
   "status": "partial",
   "theorems": [
    "C17_unfragmented_partial",
    "C17_session_key_partial",
    "C17_fragments_in_clear_refuted",
    "C17_fragments_ignore_session_keys_refuted",
    "C17_kx_type_refuted"
   ],
   "note": "Holds for messages sent unfragmented with an ordinary type; false for fragmented messages (sent in clear, and keyed with the pre-exchange key) and for types equal to the key-exchange type."
  },
  {
   "property": "C170",
   "status": "partial",
   "theorems": [
    "C170_words32_refuted",
    "C170_never_usable_refuted",
    "C170_words64_partial",
    "C170_together_partial",
    "C170_sendinfo"
   ],
   "note": "Refuted: nextPacketID and nextLocalChainID are 28 bytes apart with words of 32 bits, so exactly one of them is not aligned, whatever the fields before are: either no packet or no fragmented message can be sent on 386, arm and mips without a panic. Proved: with words of 64 bits everything is aligned; the counter of a SendInfo and the state are aligned with both."
  },
  {
   "property": "C171",
   "status": "partial",
   "theorems": [
    "C171_unheard_refuted",
    "C171_heard_partial",
    "C171_second_answer_partial"
   ],
   "note": "Refuted: the channel has one place; a notification about the previous key that came after the channel was emptied takes it, the notification about the answered key is dropped, and if no further answer comes the session is closed with a time-out. Proved for every run: the answer is heard if no message was handled between the beginning of the exchange and the wait, and any answer after the loop has looked at the channel is heard."
  },
  {
   "property": "C172",
   "status": "partial",
   "theorems": [
    "C172_words32_refuted",
    "C172_unsafe_refuted",
    "C172_words64_partial",
    "C172_words32_partial"
   ],
   "note": "Refuted for words of 32 bits: a header announcing 2^32-9 bytes or more makes messageHeadersSize+uint(hdr.Length) overflow, the length check passes and the slice expression panics; nine bytes are enough. Proved: with words of 64 bits the loop is that of C06 for every content; with 32 bits it is, too, if no nine bytes of the content announce such a length."
  },
  {
   "property": "C173",
   "status": "partial",
   "theorems": [
    "C173_limits_refuted",
    "C173_created_refuted",
    "C173_memory_partial",
    "C173_defaults"
   ],
   "note": "Refuted: exactly the options with MaxChainIDDiff > 2^42 or PacketIDStorageSize > 2^51 make the creation panic (linux/amd64); NewSession has no error to return. Proved: below the limits it does not panic and reserves 64 bytes per chain and a bit per packet ID; defaults, negative sizes and 1 work."
  },
  {
   "property": "C174",
   "status": "partial",
   "theorems": [
    "C174_write_refuted",
    "C174_ask_refuted",
    "C174_started_partial",
    "C174_refused",
    "C174_verdict",
    "C174_start_waits"
   ],
   "note": "Refuted: a new session has no context; every write panics, except an asynchronous one of a message that is too big, whose handle panics in Wait and Release. GetEstablishedPayloadSize and GetCipherKeysWait panic, too. Proved: after Start none of these calls panics, and a refusal has its reason."
  },
  {
   "property": "C175",
   "status": "partial",
   "theorems": [
    "C175_words32_refuted",
    "C175_panic_refuted",
    "C175_words64_partial",
    "C175_words32_partial",
    "C175_no_replay32",
    "C175_no_panic32_partial"
   ],
   "note": "False with 32-bit words: the distance is cut to 32 bits, so a never seen ID inside the window is rejected after a jump of 2^32; with a window of 2^31 the check panics. Proved: same verdicts with 64-bit words and, with 32-bit words, while no ID but the first is ahead by 2^32; no crash for windows below 2^31 and no ID accepted twice for windows up to 64, for all IDs."
  },
  {
   "property": "C176",
   "status": "partial",
   "theorems": [
    "C176_local_refuted",
    "C176_remote_refuted",
    "C176_private_both",
    "C176_remote_constructors",
    "C176_new_identity",
    "C176_kept_partial",
    "C176_judged",
    "C176_understood"
   ],
   "note": "Refuted: every remote identity (or nil) used as the local one panics with the first own message; the identity NewIdentity returns beside an error may be empty, and as a remote identity panics with the first message of sufficient length, signed or not. Proved: without an error every constructor gives an identity that is fine in the roles its documentation names; beside an error it is fine in both roles or empty; messages are judged by the key of the remote identity and own messages pass."
  },
  {
   "property": "C177",
   "status": "partial",
   "theorems": [
    "C177_ahead_refuted",
    "C177_shorter_refuted",
    "C177_quiet_partial",
    "C177_readers_partial",
    "C177_soon_in_use",
    "C177_only_given",
    "C177_short_crashes"
   ],
   "note": "False while a call of setSecrets is between its two assignments, and for lists of different lengths (which the key exchanger never hands over). Holds whenever nobody is inside setSecrets; inside it the secrets are those that its next step puts into use."
  },
  {
   "property": "C178",
   "status": "partial",
   "theorems": [
    "C178_empty_messages_refuted",
    "C178_bounded_partial"
   ],
   "note": "Refuted for every factor: n messages without a byte hold n times the packet size limit, for every n up to the length of the queue (1024). Proved: never more than the length of the queue times the larger of the limit and the largest message."
  },
  {
   "property": "C179",
   "status": "partial",
   "theorems": [
    "C179_close_reported_refuted",
    "C179_twice_refuted",
    "C179_alone_partial",
    "C179_bounded",
    "C179_after_cancel_partial"
   ],
   "note": "Refuted: between the change of state and the cancellation of the context by Close every probe left is reported as an error; and each failure of the backend is reported twice (by the loop and by the error function). Proved: if nobody else closes the session there are no reports without a failure, and after one exactly these two; in every run at most two reports for each probe; none once the context is done between two probes."
  },
  {
   "property": "C18",
   "status": "proved",
   "theorems": [
    "C18_wrong_keys_never_open",
    "C18_wrong_keys_do_not_matter"
   ],
   "note": "Collision freedom is stated as: the first tag of this packet does not fit the wrong keys."
  },
  {
   "property": "C19",
   "status": "partial",
   "theorems": [
    "C19_tiles_partial",
    "C19_on_the_wire",
    "C19_size24_refuted",
    "C19_small_size_refuted",
    "C19_huge_refuted"
   ],
   "note": "Proved for payload sizes above 24 and messages below 4 GiB. Refuted outside: payload size 24 and messages whose length is a multiple of 2^32 make the loop endless, smaller payload sizes give one oversized fragment."
  },
  {
   "property": "C20",
   "status": "proved",
   "theorems": [
    "C20_in_order",
    "C20_session"
   ],
   "note": "Chain level for every cut into non-empty pieces; session level for everything the sender produces with a payload size above 24."
  },
  {
   "property": "C21",
   "status": "partial",
   "theorems": [
    "C21_any_order_partial",
    "C21_ideal_delivers_once",
    "C21_session_partial",
    "C21_small_pieces_refuted"
   ],
   "note": "Proved when all pieces but the last have at least 64 bytes (payload size at least 88). Refuted for shorter pieces: the bitmap marks from the start of a 64-byte block, so a message is delivered with a missing piece."
  },
  {
   "property": "C22",
   "status": "partial",
   "theorems": [
    "C22_exact_content_partial",
    "C22_length_iff",
    "C22_stale_tail_refuted"
   ],
   "note": "False: a reused slot buffer is handed over whole. Proved: delivered bytes are the message followed by exactly the stale end of the slot's buffer, so the length is right iff that buffer was not longer."
  },
  {
   "property": "C23",
   "status": "partial",
   "theorems": [
    "C23_no_panic_partial",
    "C23_initial_state_ok",
    "C23_start_wraps_refuted",
    "C23_any_type_refuted"
   ],
   "note": "Proved for all headers with StartPos + length < 2^64, as an invariant from the initial state; refuted otherwise (one 34-byte packet content panics)."
  },
  {
   "property": "C24",
   "status": "partial",
   "theorems": [
    "C24_newest_first_partial",
    "C24_older_discarded_refuted",
    "C24_exactly_partial",
    "C24_lost_refuted"
   ],
   "note": "False: the first fragment of a newer message discards all incomplete older ones. Proved for any interleaving in which the newest message's fragment arrives first. Exactly: from the first fragment of a newer message on, a message of the window is delivered, once, if and only if all its pieces arrive from then on."
  },
  {
   "property": "C25",
   "status": "partial",
   "theorems": [
    "C25_own_slot_partial",
    "C24_newest_first_partial",
    "C25_alias_refuted"
   ],
   "note": "False at distance exactly MaxChainIDDiff (slots alias). Proved below that distance."
  },
  {
   "property": "C26",
   "status": "proved",
   "theorems": [
    "C26_memory_bounded"
   ],
   "note": "Invariant over every reader input from the initial state."
  },
  {
   "property": "C27",
   "status": "partial",
   "theorems": [
    "C27_detach_exactly",
    "C27_zero_means_never_refuted"
   ],
   "note": "n > 0 proved for all packet sequences; the n = 0 half is false: with 0 the first undecryptable packet detaches."
  },
  {
   "property": "C28",
   "status": "partial",
   "theorems": [
    "C28_detach_partial",
    "C28_prefix_count",
    "C28_zero_means_never",
    "C28_key_exchanging_refuted",
    "C28_fragments_refuted"
   ],
   "note": "Proved for unfragmented messages in states other than KeyExchanging; refuted for messages arriving during key exchange and for fragments."
  },
  {
   "property": "C29",
   "status": "proved",
   "theorems": [
    "C29_dispatch",
    "C29_per_type"
   ],
   "note": "Unfragmented messages, with handlers set on all messengers; reassembled messages take the same dispatch (C20_session, C24_newest_first_partial)."
  },
  {
   "property": "C30",
   "status": "proved",
   "theorems": [
    "C30_in_order",
    "C30_one_message_per_call",
    "C30_no_panic"
   ],
   "note": "All interleavings of arriving messages, any number of concurrent Read calls of one message type and pooled items; k-th received message goes to exactly one call, whole and unmodified, or is reported as too big."
  },
  {
   "property": "C31",
   "status": "proved",
   "theorems": [
    "C31_never_blocks",
    "C31_drains_then_error",
    "C31_no_early_error"
   ],
   "note": "For every reachable state of the queue system."
  },
  {
   "property": "C32",
   "status": "proved",
   "theorems": [
    "C32_life_cycle",
    "C32_no_resurrection",
    "C32_established_after_key_exchange"
   ],
   "note": "All interleavings of Start, key exchange, negotiation, SetPause, Close (any number), backend closer and reader cleanup."
  },
  {
   "property": "C33",
   "status": "proved",
   "theorems": [
    "C33_result",
    "C33_returns"
   ],
   "note": "WaitFor and Set in small steps; no lost wake-up: once the awaited state is stored, at most three own steps to return under every schedule of the waiter."
  },
  {
   "property": "C34",
   "status": "proved",
   "theorems": [
    "C34_pause_only_from_documented",
    "C34_in_a_running_session"
   ],
   "note": "All states; an error leaves the state alone for every state from which the call is not allowed (errors after a successful state change are C76)."
  },
  {
   "property": "C35",
   "status": "partial",
   "theorems": [
    "C35_second_pause_refuted",
    "C35_pause_unpause_pause_refuted",
    "C35_close_refuted",
    "C35_no_deadline_refuted",
    "C35_no_panic",
    "C35_returns_partial"
   ],
   "note": "Refuted in four ways, each stuck for every continuation. Partial: returns under every schedule if the reader is outside waitForUnpause and error handling, nothing else interferes and the backend has deadlines. Locks and channels are never misused."
  },
  {
   "property": "C36",
   "status": "partial",
   "theorems": [
    "C36_paused_close_refuted",
    "C36_unpause_first_partial"
   ],
   "note": "Refuted for every paused session whose reader waits: no continuation reaches Closed. A session that is unpaused first is closed under every schedule."
  },
  {
   "property": "C37",
   "status": "partial",
   "theorems": [
    "C37_close_before_start_refuted",
    "C37_close_during_start_refuted",
    "C37_no_panic_partial",
    "C37_at_most_one_succeeds",
    "C37_answer",
    "C37_cancels"
   ],
   "note": "Close on a session that is not completely started panics; afterwards it does not, exactly one call succeeds, and a successful call has cancelled the context."
  },
  {
   "property": "C38",
   "status": "partial",
   "theorems": [
    "C38_buffer_lost_refuted",
    "C38_only_current_write"
   ],
   "note": "Refuted for every content of the buffer: Close sets Closing before flushing and sendMessages refuses in that state. What is true: only the packet whose write is already under way is still written."
  },
  {
   "property": "C39",
   "status": "partial",
   "theorems": [
    "C39_sent_partial",
    "C39_nil_without_sending_refuted"
   ],
   "note": "Proved for waits that end because the handle is finished; refuted when Wait ends by cancellation of the context (nil error, nothing sent). Aggregated messages; fragments are separate."
  },
  {
   "property": "C40",
   "status": "proved",
   "theorems": [
    "C40_own_outcome",
    "C40_same_outcome"
   ],
   "note": "All interleavings of writers, sender, Close and failing writes."
  },
  {
   "property": "C41",
   "status": "proved",
   "theorems": [
    "C41_ordered_once",
    "C41_prefix",
    "C41_everything_is_sent"
   ],
   "note": "Order and at-most-once under every schedule; nothing skipped while established; from every undisturbed state the sender alone sends everything and finishes the handles."
  },
  {
   "property": "C42",
   "status": "proved",
   "theorems": [
    "C42_aggregated",
    "C42_no_overflow",
    "C42_sent_right_away",
    "C42_nothing_refused",
    "C42_single"
   ],
   "note": "Aggregated path for all schedules, direct and fragmented paths for all payload sizes."
  },
  {
   "property": "C43",
   "status": "partial",
   "theorems": [
    "C43_too_big_never_sent",
    "C43_refused",
    "C43_small_refused_refuted",
    "C43_small_accepted_partial",
    "C43_sync_refused_partial",
    "C43_huge_accepted_refuted"
   ],
   "note": "Oversized messages never enter a batch; WriteMessageSingle refuses up to 4 GiB, above that the 32-bit size wraps and a truncated packet is sent with success; a small message is refused as too big only after cancellation."
  },
  {
   "property": "C44",
   "status": "partial",
   "theorems": [
    "C44_held_not_recycled",
    "C44_one_request",
    "C44_fresh_request",
    "C44_no_pool_panic",
    "C44_bare_pointer_refuted",
    "C44_pooled_referenced_refuted"
   ],
   "note": "Proved for every counted reference, in all interleavings; false for the uncounted pointer waitForSend passes on, which may hit a recycled handle and crash the process."
  },
  {
   "property": "C45",
   "status": "partial",
   "theorems": [
    "C45_grow",
    "C45_one_owner",
    "C45_acquired_length",
    "C45_double_release_partial",
    "C45_double_release_refuted"
   ],
   "note": "Grow and ownership proved; a double release is detected only while nobody has re-acquired the buffer."
  },
  {
   "property": "C46",
   "status": "proved",
   "theorems": [
    "C46_unsigned_ignored",
    "C46_no_step"
   ],
   "note": "In every state of the exchanger, and for the whole machine."
  },
  {
   "property": "C47",
   "status": "proved",
   "theorems": [
    "C47_first_pins",
    "C47_only_self_signed",
    "C47_pinned_for_ever",
    "C46_unsigned_ignored"
   ],
   "note": "Holds in every run of the exchanger."
  },
  {
   "property": "C48",
   "status": "proved",
   "theorems": [
    "C48_same_keys",
    "C48_what_the_keys_are"
   ],
   "note": "Premise: the Diffie-Hellman function commutes (and has 32-byte results)."
  },
  {
   "property": "C49",
   "status": "proved",
   "theorems": [
    "C49_different_psk_different_keys",
    "C49_equal_keys_collide"
   ],
   "note": "The first has the premise that the hashed pre-shared keys differ (no key counts as the zero mask). The second removes it: equal keys for different pre-shared keys give a collision of BLAKE3 or SHA3 on named inputs."
  },
  {
   "property": "C50",
   "status": "partial",
   "theorems": [
    "C50_rotation_loses_packets_refuted",
    "C50_decryptable_partial",
    "C50_current_key_survives_partial"
   ],
   "note": "False: the sender seals with its new key before the receiver can know it. Proved: what has to be remembered by both sides for a packet to be decryptable, and that the key that was current survives one rotation by each side in all runs with each update taken as one step (see C115)."
  },
  {
   "property": "C51",
   "status": "partial",
   "theorems": [
    "C51_replay_accepted_refuted",
    "C51_duplicate_partial"
   ],
   "note": "False: every genuine message ever made is accepted by any later session, in any state. An exact repetition of the newest message does not change the keys (C51_duplicate_partial)."
  },
  {
   "property": "C52",
   "status": "partial",
   "theorems": [
    "C52_stale_answer_refuted",
    "C52_first_key_partial"
   ],
   "note": "False from the second key on: a second answer to the previous key confirms the new one. Proved for the first key under all delivery schedules."
  },
  {
   "property": "C53",
   "status": "partial",
   "theorems": [
    "C53_small_order_point_panics_refuted",
    "C53_no_panic_partial",
    "C53_exchanger_no_panic_partial"
   ],
   "note": "False with real X25519: the public key 1 makes the process panic. Proved: nothing else does."
  },
  {
   "property": "C54",
   "status": "partial",
   "theorems": [
    "C54_overlap_refuted",
    "C54_answered_but_timeout_refuted",
    "C54_stamps_increase_partial",
    "C54_no_overlap_partial"
   ],
   "note": "False: the answering goroutine generates a key without the lock. Proved for all runs in which nothing comes between check and generation."
  },
  {
   "property": "C55",
   "status": "proved",
   "theorems": [
    "C55_once"
   ],
   "note": "Key exchange success counter, Start, finalizer and okFunc under every interleaving with messages, timeouts and closing."
  },
  {
   "property": "C56",
   "status": "proved",
   "theorems": [
    "C56_increasing"
   ],
   "note": "For clocks below 2^63 ns."
  },
  {
   "property": "C57",
   "status": "partial",
   "theorems": [
    "C57_small_limit_refuted",
    "C57_tiny_limit_panics_refuted",
    "C57_large_echo_refuted",
    "C57_within_limit_partial"
   ],
   "note": "False for limits below 147 (underflow, panic below 69) and for a peer that returns echoes larger than the limit; true otherwise."
  },
  {
   "property": "C58",
   "status": "partial",
   "theorems": [
    "C58_silent_never_established_refuted",
    "C58_default_options_refuted",
    "C58_ample_path_partial",
    "C58_eight_iterations_partial",
    "C58_both_established_partial"
   ],
   "note": "False with default options for 121 path sizes: the search stops after MaxIterations without telling the peer. True where both searches end properly."
  },
  {
   "property": "C59",
   "status": "partial",
   "theorems": [
    "C59_lying_peer_refuted",
    "C59_at_most_largest_echo_partial",
    "C59_honest_partial"
   ],
   "note": "A lying peer raises the size above the limit; the size never exceeds the largest echo. With a peer that only echoes the probes it got the size stays within the limit (C59_honest_partial)."
  },
  {
   "property": "C60",
   "status": "partial",
   "theorems": [
    "C60_late_echo_blocks_refuted",
    "C60_echo_while_closing_panics_refuted",
    "C60_during_search_partial"
   ],
   "note": "A late echo blocks the reader for ever, or panics; during the search the reader is always released."
  },
  {
   "property": "C61",
   "status": "partial",
   "theorems": [
    "C61_disabled_side_blocks_refuted",
    "C61_enabled_side_waits_refuted",
    "C61_quiet_peer_partial"
   ],
   "note": "With negotiation on one side only, one reader blocks for ever and the other side is never established."
  },
  {
   "property": "C62",
   "status": "proved",
   "theorems": [
    "C62_stable",
    "C62_created",
    "C62_public_restored",
    "C62_private_file_kept",
    "C62_success_saved"
   ],
   "note": "Every directory content, any number of openings; PEM and base64 are modelled in full for the files written by the package."
  },
  {
   "property": "C63",
   "status": "partial",
   "theorems": [
    "C63_dies_while_creating_refuted",
    "C63_public_file_panics_refuted",
    "C63_recovers_partial"
   ],
   "note": "Dying while the private key file is written makes NewIdentity panic for ever; if that file appears as a whole, everything recovers."
  },
  {
   "property": "C64",
   "status": "proved",
   "theorems": [
    "C64_private",
    "C64_public",
    "C64_from_files"
   ],
   "note": "All byte strings."
  },
  {
   "property": "C65",
   "status": "partial",
   "theorems": [
    "C65_distinct_partial",
    "C65_accepts_partial",
    "C65_last_channel_refuted",
    "C65_internal_types",
    "C65_channels_not_internal"
   ],
   "note": "Holds for every channel number but the last: 2^32-1 wraps around, is not refused, and gets the undefined type 0. No channel at all gets a type that the session treats as internal."
  },
  {
   "property": "C66",
   "status": "partial",
   "theorems": [
    "C66_wrong_number_refuted",
    "C66_same_name_refuted",
    "C66_near_partial",
    "C66_not_internal_partial"
   ],
   "note": "False for every channel: channel n is named channel((n+5) mod 256). Only numbers less than 256 apart have different names."
  },
  {
   "property": "C67",
   "status": "proved",
   "theorems": [
    "C67_at_most_once",
    "C67_exactly_once",
    "C67_waiters",
    "C67_progress"
   ],
   "note": "Any number of concurrent Close calls. The example shows that a losing Close returns before the handler's Close has finished."
  },
  {
   "property": "C68",
   "status": "proved",
   "theorems": [
    "C68_defaults"
   ],
   "note": "All option values, against a relation that spells out the documentation. What the reader later does with a zero DetachOnSequentialDecryptFailsCount is C27."
  },
  {
   "property": "C69",
   "status": "proved",
   "theorems": [
    "C69_wrap_nil",
    "C69_user_first",
    "C69_nil_handler",
    "C69_nested"
   ],
   "note": "Any nesting of wrappers; errors.Wrap of the library is an arbitrary function."
  },
  {
   "property": "C70",
   "status": "proved",
   "theorems": [
    "C70_least_multiple",
    "C70_wraps_refuted"
   ],
   "note": "All sizes whose rounding fits 32 bits, all power-of-two blocks; the witness shows that the bound is needed."
  },
  {
   "property": "C71",
   "status": "partial",
   "theorems": [
    "C71_keystream_reuse_refuted",
    "C71_session_key_partial"
   ],
   "note": "False for packets under the auxiliary key: nonce is the packet ID only and both peers start at 1. Under a session key two packets share the nonce only when both the direction and the packet ID are the same (C71_session_key_partial)."
  },
  {
   "property": "C72",
   "status": "partial",
   "theorems": [
    "C72_one_time_key_reused_refuted",
    "C72_tail_of_key_ignored_refuted",
    "C72_hash_input_partial"
   ],
   "note": "False; the derivation is injective in packet ID and the first 24 key bytes."
  },
  {
   "property": "C73",
   "status": "partial",
   "theorems": [
    "C73_reader_stuck_refuted",
    "C73_reader_finishes_partial"
   ],
   "note": "Refuted: with a full queue of 1024 and nobody reading, the reader goroutine never finishes. Partial: it finishes whenever there is room in the queue."
  },
  {
   "property": "C74",
   "status": "partial",
   "theorems": [
    "C74_on_connect_after_close_refuted",
    "C74_on_connect_partial"
   ],
   "note": "Refuted: Close between negotiation and onConnect. Partial: true when the session was not closing."
  },
  {
   "property": "C75",
   "status": "partial",
   "theorems": [
    "C75_start_with_done_context_refuted",
    "C75_start_partial"
   ],
   "note": "Refuted for a cancelled context. Partial: Start never panics and always gets on while its context is not done, under all interleavings."
  },
  {
   "property": "C76",
   "status": "partial",
   "theorems": [
    "C76_error_but_paused_refuted",
    "C76_error_without_effect_partial"
   ],
   "note": "Refuted: a failing interruptRead returns an error although the state is Paused. Partial: true when interruptRead does not fail."
  },
  {
   "property": "C77",
   "status": "partial",
   "theorems": [
    "C77_close_race_refuted",
    "C77_close_after_pause_refuted",
    "C77_close_ends_partial"
   ],
   "note": "Refuted by two races. Partial: ends under every schedule if at that moment the reader is not between its check and setIsReading nor inside waitForUnpause."
  },
  {
   "property": "C78",
   "status": "partial",
   "theorems": [
    "C78_spurious_error_refuted",
    "C78_cycle_partial"
   ],
   "note": "Refuted by a run of four SetPause calls. Partial: a pause that completed and is then lifted leaves no deadline and no error."
  },
  {
   "property": "C79",
   "status": "partial",
   "theorems": [
    "C79_close_panic_refuted",
    "C79_send_now_closed_refuted",
    "C79_no_panic_partial"
   ],
   "note": "Refuted: Close while a writer waits for room panics the sender. Proved for sessions that are not closed."
  },
  {
   "property": "C80",
   "status": "partial",
   "theorems": [
    "C80_send_now_fragment_refuted",
    "C79_send_now_closed_refuted",
    "C79_no_panic_partial"
   ],
   "note": "Refuted for handles of fragmented messages and after close; proved for aggregated messages in an open session."
  },
  {
   "property": "C81",
   "status": "partial",
   "theorems": [
    "C81_spins_forever_refuted",
    "C81_undisturbed_partial"
   ],
   "note": "Refuted: the writer loops forever in the stated situation, which is reachable (C81_example). As long as nobody closes or cancels, every call under way can be finished by the sender and the writer alone (C81_undisturbed_partial)."
  },
  {
   "property": "C82",
   "status": "proved",
   "theorems": [
    "C82_big_message_end_to_end"
   ],
   "note": "Plan of the fragments, codecs, parser loop and reassembly composed."
  },
  {
   "property": "C83",
   "status": "partial",
   "theorems": [
    "C83_returned_partial",
    "C83_leak_refuted"
   ],
   "note": "Holds without waitForSend's poke; every poke that finds the sender loop busy leaks one reference, and the handle never returns to the pool."
  },
  {
   "property": "C84",
   "status": "partial",
   "theorems": [
    "C84_unsigned_closes_refuted",
    "C84_known_identity_partial"
   ],
   "note": "False as long as the identity is unknown: mode and key are checked before the signature."
  },
  {
   "property": "C85",
   "status": "partial",
   "theorems": [
    "C85_reflection_accepted_refuted",
    "C85_known_peer_partial"
   ],
   "note": "False when no identity is expected; holds when the expected identity is known and is not the own one (C85_known_peer_partial)."
  },
  {
   "property": "C86",
   "status": "partial",
   "theorems": [
    "C86_startup_stall_refuted",
    "C86_one_answer_partial"
   ],
   "note": "False: if the peer's request comes before the first run of the own loop, this side sends no request for a whole interval and is not done, whatever the peer does. A request that the peer welcomes is answered in one round trip (C86_one_answer_partial)."
  },
  {
   "property": "C87",
   "status": "partial",
   "theorems": [
    "C87_stuck_clock_refuted",
    "C87_terminates_partial",
    "C87_exactly",
    "C87_result"
   ],
   "note": "False on a clock that stands at the last stamp. C87_exactly and C87_result: when it ends and with which stamp."
  },
  {
   "property": "C88",
   "status": "partial",
   "theorems": [
    "C88_negative_read_timeout_refuted",
    "C88_positive_read_timeout_partial"
   ],
   "note": "Every negative value makes the first wait time out at once."
  },
  {
   "property": "C89",
   "status": "partial",
   "theorems": [
    "C89_total_timeout_refuted",
    "C89_only_while_waiting_partial",
    "C89_late_expiry_partial"
   ],
   "note": "After the timeout nothing is established and nothing is reported, for ever. This can only happen while one of the two ends is missing; a timeout after both does no harm."
  },
  {
   "property": "C90",
   "status": "partial",
   "theorems": [
    "C90_early_end_blocks_refuted",
    "C90_after_start_partial"
   ],
   "note": "Before Start nobody receives the stage signal: the reader blocks for ever."
  },
  {
   "property": "C91",
   "status": "partial",
   "theorems": [
    "C91_zero_size_refuted",
    "C91_probes_are_sent_partial",
    "C91_usable_partial"
   ],
   "note": "Limits 147 to 150 establish the size 0 between honest peers. From 151 on, under every schedule and any loss or reordering, what either side establishes is at least 147 and at most the path and both limits."
  },
  {
   "property": "C92",
   "status": "partial",
   "theorems": [
    "C92_close_hangs_refuted",
    "C92_close_completes_partial"
   ],
   "note": "The closing reader waits for the ping loop, which waits for the finalizer, which is gone. Closing completes if the ping loop's result was taken before."
  },
  {
   "property": "C93",
   "status": "partial",
   "theorems": [
    "C93_established_partial",
    "C93_paused_partial",
    "C93_closed_refuted",
    "C93_not_started_refuted",
    "C93_zero_no_split_refuted"
   ],
   "note": "Holds while established, closing or paused with a live context. A closed session, or a paused one with a cancelled context, may answer 0, upon which a fragmented write puts the whole message into one fragment; before Start the call panics on a nil context."
  },
  {
   "property": "C94",
   "status": "partial",
   "theorems": [
    "C94_packet_limit_partial",
    "C94_overflow_refuted",
    "C94_tiny_default_refuted"
   ],
   "note": "Holds below 2^32-53. Above, the packet limit wraps around to fewer than 53 bytes; a process-wide default below 16 becomes 0."
  },
  {
   "property": "C95",
   "status": "partial",
   "theorems": [
    "C95_message_before_handler_refuted",
    "C95_map_race_refuted",
    "C95_closed_session_refuted",
    "C95_registered_before_start_partial"
   ],
   "note": "False: a message between setMessenger and SetHandler calls a nil handler; the reader reads the map without the lock; on a closed session NewMessenger returns nil, which SetHandlerFuncs dereferences. Safe if all registrations are over before Start and Read is not called before it."
  },
  {
   "property": "C96",
   "status": "partial",
   "theorems": [
    "C96_registration_while_closing_refuted",
    "C96_calm_partial"
   ],
   "note": "False when a registration overlaps with closing: the messenger is stored after the cleanup and WaitForClosure never returns. Holds if no registration is under way when the context ends."
  },
  {
   "property": "C97",
   "status": "partial",
   "theorems": [
    "C97_read_never_returns_refuted",
    "C97_queued_message_lost_refuted",
    "C97_no_registration_partial"
   ],
   "note": "False: setMessenger replaces the channel without closing or draining the old one. Holds without registrations for the type."
  },
  {
   "property": "C98",
   "status": "partial",
   "theorems": [
    "C98_on_error_never_called_refuted",
    "C98_event_handler_partial"
   ],
   "note": "onError is never called in any run; errors go to the event handler of the session, once each."
  },
  {
   "property": "C99",
   "status": "partial",
   "theorems": [
    "C99_success_without_peer_refuted",
    "C99_keys_partial",
    "C99_session_keys"
   ],
   "note": "Refuted: one packet without any secret, holding a recorded answer of the peer to somebody else and an empty message, makes the call succeed with nobody there. Holds: every key is made of a private key drawn in this run and a public key signed by the expected identity."
  }
 ]
}