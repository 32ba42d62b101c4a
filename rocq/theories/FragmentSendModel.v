(** The sending side of fragmentation: session.go 1469-1544
    ([writeMessageAsyncAsFragmented], [writeMessageFragment]). *)
From Coq Require Import NArith List Bool.
From Verif Require Import Base MessageModel.
Import ListNotations.
Open Scope N_scope.

Inductive splitResult :=
| SplitDone (frags : list (N * bytes))   (* start position and content *)
| SplitForever                           (* the loop makes no progress any more *)
| SplitFuel.                             (* never returned, see [splitLoop_no_fuel] *)

(** session.go 1484-1501. [length] is a uint32; [uint32(len(payload))]
    truncates. An iteration with [length = 0] changes nothing, so the loop goes
    on forever (starting a goroutine each time). *)
Fixpoint splitLoop (fuel : nat) (maxPayloadLength curPos : N) (payload : bytes) : splitResult :=
  if 0 <? len payload then
    match fuel with
    | O => SplitFuel
    | S fuel' =>
        let length := if u32 (len payload) <? maxPayloadLength then u32 (len payload) else maxPayloadLength in
        if length =? 0 then SplitForever
        else
          match splitLoop fuel' maxPayloadLength (add64 curPos length) (skipn (N.to_nat length) payload) with
          | SplitDone r => SplitDone ((curPos, firstn (N.to_nat length) payload) :: r)
          | x => x
          end
    end
  else SplitDone [].

(** session.go 1480-1501: [maxFragmentLength] is the established payload size. *)
Definition splitMessage (establishedPayloadSize : N) (payload : bytes) : splitResult :=
  splitLoop (length payload) (sub32 establishedPayloadSize messageFragmentHeadersSize) 0 payload.

(** session.go 1512-1544: the message built for one fragment: type, flags
    (fragmented, not confidential), payload. *)
Definition fragmentMessage (chainID : N) (total : N) (msgType : N) (f : N * bytes) : N * N * bytes :=
  let body :=
    match fragWrite {| fChainID := chainID; fStartPos := fst f; fTotal := total |} (repeat 0 24 ++ snd f) with
    | Ok (_, b) => b
    | Err _ => []
    end in
  (msgType, setIsFragmented 0 true, body).
