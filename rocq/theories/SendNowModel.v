(** A caller of [SendNowAndWait] (send_info.go 130-147) and the goroutine that
    serves it: session.go 1797-1848 ([startDelayedSender], [delayedSenderLoop]),
    1739-1772 ([sendDelayedNow]), 2020-2042 ([onConnect]), 1435-1465 and 1587-1603
    (where the handle comes from).

    One caller with one handle of a message that is not fragmented; other users of
    the channel and the timer appear as [SnKick]. Reference counts are in
    BatchModel. *)
From Coq Require Import List Bool Arith.
From Verif Require Import Base TS.
Import ListNotations.

Inductive snSnd :=
| SnNone        (* not started *)
| SnSelect      (* 1818 *)
| SnSending     (* in [sendDelayedNow] behind the swap of the batch *)
| SnEnd.        (* left, the channel is closed (1812-1814) *)

Inductive snHnd :=
| SnBatch       (* of the batch that is being filled *)
| SnSwapped     (* of the batch that is being sent *)
| SnDone.       (* its channel is closed *)

Inductive snPc :=
| SnFresh             (* no handle yet *)
| SnHas               (* [WriteMessageAsync] has returned the handle *)
| SnAtSend            (* send_info.go 136: wants to send on [sendDelayedNowChan] *)
| SnAtWait            (* 137: in [Wait] *)
| SnReturned
| SnPanicked.         (* sent on the closed channel *)

Record snState := {
  snDelay : bool;     (* options.SendDelay is not nil behind 459-461 *)
  snEst : bool;       (* [isEstablished] is closed *)
  snCtx : bool;       (* the context is cancelled *)
  snSender : snSnd;
  snHandle : snHnd;
  snCaller : snPc
}.

Definition snInit (delay : bool) : snState :=
  {| snDelay := delay; snEst := false; snCtx := false; snSender := SnNone; snHandle := SnBatch; snCaller := SnFresh |}.

Definition setSnS (s : snState) (x : snSnd) (h : snHnd) (c : snPc) : snState :=
  {| snDelay := snDelay s; snEst := snEst s; snCtx := snCtx s; snSender := x; snHandle := h; snCaller := c |}.

Inductive snLabel :=
| SnEstablish          (* onConnect 2024-2028, in a session that is not closed *)
| SnStart              (* onConnect 2039-2041 *)
| SnCancel             (* the context is cancelled *)
| SnGet                (* WriteMessageAsync returns *)
| SnCall               (* SendNowAndWait is called *)
| SnMeet (skip : bool) (* the sender receives the handle; 1823: already behind it *)
| SnKick               (* the sender receives another handle, or the timer fires *)
| SnSent               (* sendDelayedNow closes the handle of its batch and returns *)
| SnLeave              (* 1826-1828 *)
| SnOnClosed           (* send on a closed channel *)
| SnWake.              (* Wait returns *)

Definition batchSent (h : snHnd) : snHnd := match h with SnSwapped => SnDone | _ => h end.
Definition batchSwap (h : snHnd) (c : snPc) : snHnd :=
  match h, c with
  | SnBatch, SnFresh => SnBatch   (* the message is not in the batch yet *)
  | SnBatch, _ => SnSwapped
  | _, _ => h
  end.

Definition snStep (s : snState) (l : snLabel) : option snState :=
  match l with
  | SnEstablish =>
      if snEst s || snCtx s then None
      else Some {| snDelay := snDelay s; snEst := true; snCtx := snCtx s; snSender := snSender s; snHandle := snHandle s; snCaller := snCaller s |}
  | SnStart =>
      match snSender s with
      | SnNone => if snEst s && snDelay s then Some (setSnS s SnSelect (snHandle s) (snCaller s)) else None
      | _ => None
      end
  | SnCancel => Some {| snDelay := snDelay s; snEst := snEst s; snCtx := true; snSender := snSender s; snHandle := snHandle s; snCaller := snCaller s |}
  | SnGet =>
      match snCaller s with
      | SnFresh =>
          if snEst s || snCtx s then
            if snDelay s && snEst s then Some (setSnS s (snSender s) SnBatch SnHas)   (* 1627 *)
            else Some (setSnS s (snSender s) SnDone SnHas)                            (* 1457-1464, 1594-1600 *)
          else None
      | _ => None
      end
  | SnCall => match snCaller s with SnHas => Some (setSnS s (snSender s) (snHandle s) SnAtSend) | _ => None end
  | SnMeet skip =>
      match snSender s, snCaller s with
      | SnSelect, SnAtSend =>
          match snHandle s with
          | SnBatch => if skip then None else Some (setSnS s SnSending SnSwapped SnAtWait)
          | h => Some (setSnS s (if skip then SnSelect else SnSending) h SnAtWait)
          end
      | _, _ => None
      end
  | SnKick => match snSender s with SnSelect => Some (setSnS s SnSending (batchSwap (snHandle s) (snCaller s)) (snCaller s)) | _ => None end
  | SnSent => match snSender s with SnSending => Some (setSnS s SnSelect (batchSent (snHandle s)) (snCaller s)) | _ => None end
  | SnLeave => match snSender s with SnSelect => if snCtx s then Some (setSnS s SnEnd (snHandle s) (snCaller s)) else None | _ => None end
  | SnOnClosed => match snSender s, snCaller s with SnEnd, SnAtSend => Some (setSnS s SnEnd (snHandle s) SnPanicked) | _, _ => None end
  | SnWake =>
      match snCaller s, snHandle s with
      | SnAtWait, SnDone => Some (setSnS s (snSender s) SnDone SnReturned)
      | SnAtWait, h => if snCtx s then Some (setSnS s (snSender s) h SnReturned) else None
      | _, _ => None
      end
  end.
