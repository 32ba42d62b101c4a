# Design of the Rocq model of xaionaro-go/secureio

The subject is the Go package in `/repo` (read as text only). The model lives in
`rocq/theories` (logical name `Verif`). It is a set of total, computable Gallina
functions that follow the Go functions one by one, plus transition systems for
the concurrent parts. Each definition carries a comment with file and lines.

## Layout

For each topic `X` there are up to three files:

* `XModel.v` – definitions only, one per Go function, no proofs;
* `XProofs.v` – lemmas;
* `XProps.v` – the independent specification of the topic's properties, the
  theorems `Cnn_...` (closed by applying lemmas) with `Print Assumptions`
  under each, and `Example`s showing that the hypotheses are met by concrete,
  non-trivial data.

Naming: `Cnn_<words>` is a theorem for property Cnn. `Cnn_..._partial` proves a
weaker statement than the property (the full statement is kept in a comment
beside it). `Cnn_..._refuted` proves that the faithful model does *not* have the
property, by a concrete witness.

## Conventions

* Integers are `N` with explicit wrap-around (`mod 2^32`, `mod 2^64`) where Go
  wraps. Bytes are `N` with a well-formedness predicate `< 256`.
* Go panics (slice out of range, nil dereference, explicit `panic`) are an
  explicit outcome `Panic`; returned errors are values; blocking for ever is an
  explicit `Blocked` outcome or absence of an enabled step.
* Goroutines are modelled as transition systems in which one step is one atomic
  action of the Go program: critical section of a mutex, atomic load/store,
  channel operation. Safety theorems are inductive invariants over all reachable
  states, hence over all schedules of any length.
* Cryptographic primitives (ChaCha20 keystream, Poly1305, BLAKE3/SHA3, X25519,
  ed25519, SHA-512) are arbitrary functions (`Section` variables discharged to
  universally quantified arguments). Whatever is needed of them (DH symmetry,
  no tag collision, ...) is an explicit premise of the theorem, and beside it
  a concrete instance shows that the premises are satisfiable.

## Plan per property

| Id | Modelled | How |
|----|----------|-----|
| C01 | `messageHeadersData.Read/Write` | codec functions; round trip and injectivity by little-endian lemmas |
| C02 | container header `Read/ReadAfterIV/Write` | same |
| C03 | fragment header `Read/Write` | same |
| C04 | `SessionID.Bytes/FillFromBytes`, key seed message, negotiation control message (as `binary.Read/Write` of packed structs) | same |
| C05 | `appendToDelayedWriteBuffer`/`writeMessageSingle` encoding and the loop of `processIncomingMessages` | induction over the message list |
| C06 | the loop of `processIncomingMessages` with explicit slice bounds → `Panic` | invariant of the loop; result never `Panic`, pieces described by an independent "tiling" spec |
| C07 | `packetIDStorage` bit table, Go shift semantics | `_refuted` by a witness history; `_partial`: at most once when every forward jump is ≤ 64 or ≥ window |
| C08 | same with empty table | induction on history |
| C09, C10 | same | invariant: set bits ⊆ accepted IDs |
| C11 | ID counter with interleaved senders/receivers | trace invariant, nonce = session ID ‖ packet ID |
| C12 | encryption of the packet ID under fixed IV | `_refuted`: ciphertext XOR equals plaintext XOR for all keys |
| C13, C14, C18 | `sendMessages` sealing and `decrypt`/`tryDecrypt` with oracle crypto | algebra of XOR stream + tag equality; ideal-tag premise for tamper evidence |
| C15 | same + attacker function built only from public functions | `_refuted` without PSK; `_partial`: with PSK the content was tagged under a session or PSK-derived key |
| C16 | attacker packet + replay window | `_refuted` without PSK |
| C17 | choice of key in `WriteMessageAsync`, `WriteMessageSingle`, `writeMessageFragment` | `_refuted` for fragments; `_partial` for unfragmented |
| C19 | `writeMessageAsyncAsFragmented` | structural recursion with progress measure; divergence for size 24 `_refuted` |
| C20–C22 | `pendingChain` Init/Merge with bitmap words | bitmap invariant; refutations for short fragments and stale buffers |
| C23 | Merge with wrap-around | `_refuted` |
| C24–C26 | `processIncomingMessageFragment` over the slot array (`FragProps`, `FragExactProps`) | refutations and invariants; exactly which messages are delivered |
| C27 | `readerLoop` counters | induction on packet outcome lists; `_refuted` for 0 |
| C28 | `processIncomingMessages` with counting | induction over batches |
| C29–C31 | dispatch and read queues | queue transition system |
| C32 | `Set` with cancel lists + all callers | transition system |
| C33 | `WaitFor`/`Set` small-step | interleaving invariant, progress measure |
| C34–C36 | `SetPause`, `waitForUnpause`, reader, `Close` small-step | guards proved; hangs `_refuted` by invariant "stuck for ever" |
| C37, C38 | `Close`, `startClosing`, `sendMessages` gate | case analysis; `_refuted` for every buffer content and every continuation |
| C39–C42 | aggregation machine: any number of writers, sender, timer, Close, cancellation | invariant over all schedules, history of write calls, decreasing measure of the sender; `_refuted` for waits ended by cancellation |
| C43 | size checks | arithmetic incl. 32-bit truncation |
| C46, C47, C51, C84, C85 | `keyExchanger.Handle` and what it calls, with oracle signature, ECDH and hashes | case analysis of `Handle`, invariant over all runs of the exchanger |
| C48, C49 | `generateSharedKey*`, `updateSecrets` | DH symmetry premise |
| C53 | the same with X25519 written out (RFC 7748, checked against its test vector) | algebra of the ladder at a point of order 4: `_refuted`; `_partial` if no secret is zero |
| C54 | the exchanger as a machine: loop, answering goroutines, timer, clock | `_refuted` run; `_partial` by an invariant of runs without that race |
| C50, C52, C86 | two exchangers and a network that may delay, repeat, reorder, lose | `_refuted` runs, invariants over all schedules |
| C55 | success counters | invariant |
| C56, C87 | `sessionIDGetter.Get` for arbitrary clock sequences | induction |
| C57–C61 | negotiator loop (`pingSenderLoop` as a function of received pongs), handlers with blocking channels | bounds proved for a nondeterministic model of the float rounding; refutations |
| C62–C64 | file system as two optional byte strings, PEM as oracle codec | crash points = prefixes of writes |
| C65, C66 | `MessageTypeChannel`, `String` | arithmetic; `_refuted` at 2^32-1 |
| C67 | atomic swap machine | invariant |
| C68–C70 | `init` defaults, error helpers, `roundSize` | case analysis, bit lemmas |
| C71, C72 | nonces under the auxiliary key, derivation of one-time keys | `_refuted` for every cipher and hash |
| C73 | read queue with its capacity | stuck state for every continuation without Read |
| C44, C45, C83 | pools of send handles (bag of tokens: who holds what) and of buffers | invariant relating the counter to the holders; `_refuted` runs for the uncounted pointer of `waitForSend` and for double releases |
| C82 | plan of the packets a write produces (`SendModel`), composed with the parser and reassembly models | end-to-end theorem |
| C79–C81 | aggregation machine with Close and SendNowAndWait | `_refuted` runs and an invariant "spins for ever"; `_partial` by an invariant of undisturbed sessions |
| C77, C78 | pause machine with the backend closer and read deadlines | `_refuted` runs; `_partial` by a decreasing measure under all schedules |
| C74–C76 | the life-cycle machine of C32, `SetPause` | `_refuted` by short runs, `_partial` for all reachable states |
| C88–C92 | negotiator: search arithmetic, and the machine of reader, ping loop, finalizer and Close | `_refuted` by runs whose end state is shown to persist under every continuation; `_partial` by measures |
| C93, C94 | `GetEstablishedPayloadSize` as a relation (select picks either), packet limit arithmetic | case analysis; `_refuted` for whole ranges |
| C95–C98 | registry machine: registrars, reader, cleanup, Read calls, map-write interval | `_refuted` by runs and invariants of all continuations; `_partial` for disciplined applications |
| C99–C103 | one session put together (`IntegModel`): packets, window, parser, dispatch, exchanger, start, `MutualConfirmationOfIdentity` | `_refuted` for all primitives and options; invariants of all runs (provenance of keys, absence of panics, provenance of messages) |
| C104–C106 | what callers of the io interfaces see (`ApiModel`): counts, and when the caller's memory is read | `_refuted` for all payloads; invariants of the fragment machine |
| C108 | keys of the exchanger over whole runs (`KxKeepProps`, model `KxModel`) | invariant of all runs tying the session's keys to the remembered ones; also gives C50 for one rotation per side |
| C107, C111, C115 | the exchanger with `updateSecrets` taken apart (`KxFineModel`) | `_refuted` runs (stale secrets stored last, message in progress at Close); `_partial` by a simulation: a run without overlapping updates ends where a run of `KxModel` ends |
| C109, C110 | the end of a session (`ClosureModel`): wait groups, who checks the state before writing, how exchange errors are reported | `_refuted` runs; invariants of all schedules |
| C112, C113 | the steps of `sendMessages` with any number of concurrent senders (`SendOrderModel`), combined with the receiver window | invariant (IDs in flight and on the wire are distinct and bounded); runs for every window size |
| C114 | whole session (`IntegModel`) | the IDs offered to the window are tracked over whole runs; C07's window result gives the rest; toy run for the default window |
| C116 | `KxFineModel` | invariant of all runs, including the secrets computed but not stored |
| C117, C118 | setters and waiters of the session's keys (`KeyWaitModel`), any number of each | invariant linking lock, channel and stored keys; `_refuted` run for the result of `setSecrets` |
| C119, C120 | two sessions at the end of the key exchange, backend of any capacity (`ConnectModel`) | `_refuted`: inductive run for every capacity into a state nobody leaves, and a cycle; positive parts by a measure all steps decrease |
| C121 | one iteration of the negotiation on both sides, backend of any capacity (`PongModel`) | `_refuted` run for every capacity below the number of pings; positive part by a measure |
| C122 | `PauseModel` (the last step of the reader's clean-up taken apart) | `_refuted` run with every continuation; positive part by an invariant for sessions without SetPause |
| C123, C124 | notification channel, retries and time-out of a key update (`KxRetryModel`) | `_refuted` runs; invariants on stamps and on an announced success; positive part of C124 for selects that prefer the context |
| C125, C126 | `BindProps` over `KxModel` and `PacketModel` | `_refuted` for all primitives; the session ID is an invariant of all runs; positive parts from the opening theorems of C13 and the soundness of opening |
| C127 | `TrafficProps` over `PacketModel` and `PacketIDModel` | exact ID of every packet sent, by induction on the history; `_refuted` for all primitives by composing sending, receiving and the window; positive part through the gap condition of C07 |
| C128 | `PskProps` over `KxModel` and `IntegModel` | reduction to a collision on named inputs; the two purposes give hash inputs of different length; also replaces the premise of C49 |
| C129 | `LogModel`, `LogProps` | channel as a labelled transition system; `_refuted` for every schedule, by invariant; order and completeness by induction on the schedule against a count of how far the receiver is behind |
| C130 | `DuoModel`, `DuoSpec`, `DuoProofs`, `DuoProps` | two IntegModel sessions and a network; invariant of one side relative to the other (exchanger, window, phase, every packet ever sent, queue), kept by every own step, by every arrival, and monotone in the other side; checked instance |
| C131 | `DuoOnceProps` | log of all packets with their IDs and payloads, tied to the net, the writes and the window of the receiver (`LI`); accepted IDs are distinct for one-word windows, hence a permutation; checked run of 89 steps against the default window |
| C132 | `DuoOnceProps` | same invariant: every accepted ID is at most the last one used, so the next is newer than the window and accepted |
| C133 | UtilModel | refuted: 88 for 44 bytes; written bytes exact |
| C134 | UtilModel | least element, generic in the type |
| C135 | UtilModel | names injective |
| C136 | QueueModel | refuted: one-time items are pooled; bound by the largest message |
| C137 | UtilModel | refuted at the end of the data; exact inside |
| C138 | `KxRetryModel`, `KxRetryEndProps` | refuted for every failing write; causes of the end by induction on runs |
| C139 | `CloseWaitModel`, `CloseWaitProps` | callers on top of ClosureModel; refuted for all but one caller; that one waits |
| C140 | `CallbackModel`, `CallbackProps` | callbacks as lists of methods; deadlock for every list with a locking method, termination by a measure otherwise |
| C141 | `SendNowModel`, `SendNowProps` | transition system of caller, delayed sender and closing; invariant that nobody receives in sessions without a delay |
| C142 | `DuoReach`, `DuoReachHalf`, `DuoReachProps` | possibility of completing the handshake: from every state of the pair at most 24 steps to both established; invariants of C130/C131 along the continuation, one half proved, the other by symmetry |
| C143 | `DuoReachProps` | C142 composed with C132, in both directions by symmetry |
| C144 | `StreamProps` | reads as a re-cut of the written bytes; a sealed prefix with another tail fails the second tag; boundary-keeping backends by induction over the packets |
| C145 | `SizeProps` (with `PacketModel`, `MiscModel`) | size of the sealed key-exchange message against the read buffer of every limit; a cut packet fails its tag |
| C146 | `SizeProps` | the same for application messages and two different limits |
| C147 | `TooBigProps` (with `SendModel`, `ReaderModel`) | fragments of a too big message find an unused slot in every order, so each of them is dropped without an event |
| C148 | `DetachModel`, `DetachProps` | transition system of reader, closer and Close for all detach options; invariant for runs nobody else ends, measure for the end |
| C149 | `DetachModel`, `DetachProps` | run in which the limit is reached during the key exchange and Close hangs; invariant and measure for the other configurations |
| C150 | `DelayModel`, `DelayProps` | timer with discrete time; run that delays the first message once per message of the packet; invariant for the bound that holds |
| C151 | `DuoAttackModel.v`, `DuoAttackSpec.v`, `DuoAttackProofs.v`, `DuoAttackProps.v` | DuoModel plus arrivals of arbitrary bytes; the invariant of `DuoProofs.v` without "no failure counted, no error reported"; accepted IDs split into those of the peer and reflected ones |
| C152 | `KxRetryModel`, `KxEndProps` | invariant over runs of the retry model with the history since the last key: announcements in the channel are never newer than the handled key, and that key can only get the stamp of the running update by a message handled since |
| C153 | `DuoRekeySpec`, `DuoRekeyProofs`, `DuoRekeyProps` | the invariant of C151 with lists of key pairs: every key is of one pair of each side, every packet on the wire was sealed with one of them, and a checksum fits one key only |
| C154 | `DuoRekeyProofs`, `DuoRekeyProps` | a run of two sessions with a write between drawing a pair and sending its public key; delivery when the key is known to the receiver |
| C155 | `DuoRenew`, `DuoRenewHalf`, `DuoRenewProps` | from the invariants of C153: whose newest pair made the first key, then an explicit schedule (ask, answer, finish; twice) and one delivery each way |
| C156 | `NegoWireModel`, `NegoWireProps` | encoder and handler of the negotiation messages on bytes, SHA-512 as a parameter of result length 64 |
| C157 | `DuoSteadyProps` (invariant of C153 with the completeness of the table carried along steps of at most 64) | all runs; concrete runs for 64 and 65 |
| C158 | `ShortReadProps` | On the queue model of C30: what a failed call took stays taken in every continuation; invariant "every busy item has a user" as long as no call failed that way |
| C159 | `FailReportProps` | Reader loop: splitting of a run, events of the next packet as a function of the failures since the last accepted one; counter as a sum over the input |
| C160 | `FailReportProps`, `FailSilentProps` | Default options as witness; with the limit not below the number to report from, from C27 and C159 |
| C161 | `DuoOrderProps` | the accepted numbers of the peer increase; payloads by number |
| C162 | `ShortProps` | invariant over the parsing loop and the reader: every reported pair of lengths is honest; the negotiator refuted for all truncated answers |
| C163 | `HdrPoolModel`, `HdrPoolProps` | state machine of the pools with any number of users; invariant: pooled message headers are blank, a running user holds the header its own call has built so far |
| C164 | `HdrPoolProps` | counting invariant; refutations for fragment headers and duplicates |
| C165 | `SidRaceModel`, `SidRaceProps` | state machine of the goroutines in Get, one memory access per step; invariant for the stamps, invariant tying the vector to the lagged Fibonacci sequence for calls that do not overlap, two refuting runs for every seed |
| C166 | `KxRandModel`, `KxRandProps` | the machine of KxModel with the error branch of updateLocalKey; the invariant of C53 for all failures but one, a refuting run for all primitives |
| C167 | `KxTickModel`, `KxTickProps` | the machine of `KxRetryModel` with the two tickers; a ticker with a non-positive interval panics |
| C168 | `WgModel`, `WgProps` | sync.WaitGroup with one step per atomic access; invariant in three phases of the end |
| C169 | `EarlyModel`, `EarlyProps` | the decision of SendModel with the size at the call and the size at the end of the negotiation as two values |
| C170 | `LayoutModel`, `LayoutProps` | Offsets of the fields of a structure computed for both sizes of words with an arbitrary list of fields before; address modulo 8. |
| C171 | `KxHeardProps` (model: `KxModel`) | Steps of other goroutines keep a notification; without a handled message the channel stays empty; concrete run for the refutation. |
| C172 | `WordModel`, `WordProps` | The parser loop of `ReaderModel` with additions modulo the number of values of a word; equality with `runLoop` where nothing overflows, then C06. |
| C173 | `CreateModel`, `CreateProps` | Sizes of the two slices made from options against the limit of the allocator; exact characterisation of the panics. |
| C174 | `UnstartedModel`, `UnstartedProps` | Calls as functions of the context being nil, alive or cancelled; case analysis. |
| C175 | `PacketIDWordModel`, `PacketIDWordProps` | the storage with a word of W values; equal to `PacketIDModel` step by step when no distance is cut, invariant of the seen IDs for one-word tables, symbolic crash with 2^25 words |
| C176 | `IdentityUseModel`, `IdentityUseProps` | signing and checking with the length panics of ed25519, the content of the identity beside an error; usable exactly if the keys have the right length |
| C177 | `EphemeralModel`, `EphemeralProps` | transition system with the two assignments of `setSecrets` as separate steps and any number of readers; invariant tying lock, secrets and keys; `_refuted` for a reader between the assignments and for lists of different lengths |
| C178 | `UnreadProps` over `QueueModel` | refuted by any number of empty messages (induction on their number); bound by queue length times the larger of limit and largest message, from the invariant of the queue |
| C179 | `ProbeFail{Model,Props}` | labelled transitions of the sending loop, a failing backend and Close; refutations for every number of probes, invariant for runs without a foreign Close |

Every property of the current list can be expressed; none is "not applicable".

## Trusted base

* The Coq 8.16.1 kernel (and `coqchk`), and that the Gallina definitions render
  the Go text faithfully. There is no extraction and no mechanised link to Go.
* Axioms: the aim is "Closed under the global context" for every theorem.
  `Print Assumptions` output is produced at build time below each theorem; any
  standard library axiom it lists is recorded in `ASSUMPTIONS.md`.
* Modelled: message/packet/fragment codecs, replay window, reassembly, packet
  sealing and opening, reader loop control flow, state storage, pause protocol,
  aggregation buffer, pools' reference counting, key exchanger, negotiator,
  identity files, option defaults, message types, messenger close.
* Not modelled: Go memory model below the level of critical sections/atomics,
  garbage collector, `sync.Pool` eviction, real time (timers fire
  nondeterministically), the cryptographic primitives' internals and their
  computational security (X25519 is written out for C53 only; that the library
  computes the same function is trusted), debug/info output channels, `udpnofrag`, error text and
  tracebacks, operating system I/O beyond byte-prefix crash semantics.

## Attempts with wrong programs

`seeded/LOG.jsonl` has one line per attempt. The field `result` means:

- `caught`: at least one proof did not go through. That is weaker than "the
  statement became false": a proof may also fail because its script follows the
  text of the definition. Where this is known to be the case the note says so.
- `survived`: everything was still proved. The note says why the claims stay true
  of the edited program, or which theorem was added.
- `invalid`: the edit changed a type (for instance the last use of a section
  variable disappeared), so that a definition or a statement no longer type
  checked. No proof failed, so the attempt says nothing about the theorems. These
  attempts, once counted as caught, were repeated with an edit that keeps the
  types; the repetition has the same name with a `b`.

`theorems_not_examined` lists theorems of files that could not be compiled after
an earlier failure; they are not counted in `theorems_failed`. The attempts named
`auto…` stop at the first failure and name only that one.
