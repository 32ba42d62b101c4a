(** The steps of [sendMessages] when several goroutines send at once: where a
    packet gets its key and its packet ID, and when it is written.
    session.go 531-535, 1229, 1410-1426, 1853-1984; message.go 171-173.

    Callers that run concurrently: the application's [WriteMessageSingle] and
    fragments, the delayed sender (1766-1774), the exchanger's loop and its
    answers, the negotiator.  Left out: the content and the encryption (see
    PacketModel.v), failures of [backend.Write]. *)
From Coq Require Import NArith List Bool Arith.
From Verif Require Import Base TS.
Import ListNotations.
Local Open Scope N_scope.

(** How far a goroutine is.  The key is [None] for [auxCipherKey], [Some e] for
    [cipherKeys[secretIDRecentBoth]] as it was after the [e]-th rotation. *)
Inductive oPc :=
| OIdle
| OKey (internal : bool) (k : option N)               (* after 1861-1870 *)
| OHdr (internal : bool) (k : option N) (id : N)      (* after [containerHdr.Set], 1875 *)
| OGo (k : option N) (id : N).                        (* after the wait of 1896-1902 *)

(** A packet on the backend; the last two fields only record the moment of the
    write: the last packet ID given away and the number of rotations. *)
Record written := { wKey : option N; wId : N; wLast : N; wEpoch : N }.

Record osend := {
  oPcs : nat -> oPc;
  oLast : N;          (* [nextPacketID], 532 *)
  oEpoch : N;         (* rotations of the session key so far; 0: no key yet *)
  oEst : bool;        (* [isEstablished] is closed *)
  oCtx : bool;        (* [ctx.Done()] *)
  oDone : bool;       (* [isDone()] *)
  oWire : list written
}.

Definition oInit : osend :=
  {| oPcs := fun _ => OIdle; oLast := 0; oEpoch := 0; oEst := false; oCtx := false; oDone := false; oWire := [] |}.

Definition setPc (s : osend) (i : nat) (p : oPc) : osend :=
  {| oPcs := fupd (oPcs s) i p; oLast := oLast s; oEpoch := oEpoch s; oEst := oEst s; oCtx := oCtx s;
     oDone := oDone s; oWire := oWire s |}.
Definition nextId (s : osend) : osend :=
  {| oPcs := oPcs s; oLast := oLast s + 1; oEpoch := oEpoch s; oEst := oEst s; oCtx := oCtx s;
     oDone := oDone s; oWire := oWire s |}.
Definition putWire (s : osend) (w : written) : osend :=
  {| oPcs := oPcs s; oLast := oLast s; oEpoch := oEpoch s; oEst := oEst s; oCtx := oCtx s;
     oDone := oDone s; oWire := oWire s ++ [w] |}.

Inductive oLabel :=
| OlKey (i : nat) (confidential internal : bool)
| OlId (i : nat)
| OlPass (i : nat)
| OlGiveUp (i : nat)
| OlRefuse (i : nat)
| OlWrite (i : nat)
| OlReceive
| OlRotate
| OlEstablish
| OlClosing
| OlCancel.

Definition oStep (s : osend) (l : oLabel) : option osend :=
  match l with
  (* 1861-1870; 1410-1426: without a key the goroutine waits *)
  | OlKey i conf internal =>
      match oPcs s i with
      | OIdle =>
          if conf then
            if oEpoch s =? 0 then None else Some (setPc s i (OKey internal (Some (oEpoch s))))
          else Some (setPc s i (OKey internal None))
      | _ => None
      end
  (* 1874-1879; 531-535 *)
  | OlId i =>
      match oPcs s i with
      | OKey internal k => Some (setPc (nextId s) i (OHdr internal k (oLast s + 1)))
      | _ => None
      end
  (* 1895-1902 *)
  | OlPass i =>
      match oPcs s i with
      | OHdr internal k id => if internal || oEst s then Some (setPc s i (OGo k id)) else None
      | _ => None
      end
  (* 1898-1900 *)
  | OlGiveUp i =>
      match oPcs s i with
      | OHdr internal k id => if negb internal && oCtx s then Some (setPc s i OIdle) else None
      | _ => None
      end
  (* 1903-1911: too big *)
  | OlRefuse i =>
      match oPcs s i with
      | OGo k id => Some (setPc s i OIdle)
      | _ => None
      end
  (* 1965-1969 *)
  | OlWrite i =>
      match oPcs s i with
      | OGo k id =>
          if oDone s then Some (setPc s i OIdle)
          else Some (setPc (putWire s {| wKey := k; wId := id; wLast := oLast s; wEpoch := oEpoch s |}) i OIdle)
      | _ => None
      end
  (* receiving a packet takes an ID, too: 1229 *)
  | OlReceive => Some (nextId s)
  (* setSecrets, 2125-2165 *)
  | OlRotate =>
      Some {| oPcs := oPcs s; oLast := oLast s; oEpoch := oEpoch s + 1; oEst := oEst s; oCtx := oCtx s;
              oDone := oDone s; oWire := oWire s |}
  (* onConnect, 2028 *)
  | OlEstablish =>
      if (oEpoch s =? 0) || oEst s then None
      else Some {| oPcs := oPcs s; oLast := oLast s; oEpoch := oEpoch s; oEst := true; oCtx := oCtx s;
                   oDone := oDone s; oWire := oWire s |}
  | OlClosing =>
      Some {| oPcs := oPcs s; oLast := oLast s; oEpoch := oEpoch s; oEst := oEst s; oCtx := oCtx s;
              oDone := true; oWire := oWire s |}
  | OlCancel =>
      Some {| oPcs := oPcs s; oLast := oLast s; oEpoch := oEpoch s; oEst := oEst s; oCtx := true;
              oDone := oDone s; oWire := oWire s |}
  end.
