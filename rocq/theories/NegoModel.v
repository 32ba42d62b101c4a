(** Negotiation of the payload size: negotiator.go, and the places of session.go
    that start it and wait for it (onConnect 2020-2042, initNegotiator 2044-2056,
    onKeyExchangeSuccess 2058-2072, readerLoopCleanup 819-846). *)
From Coq Require Import NArith ZArith List Bool.
From Verif Require Import Base TS.
Import ListNotations.
Local Open Scope N_scope.

(** ** The search for the largest size (pingSenderLoop, 269-387) *)

Definition negoMin : N := 147.          (* 276 *)
Definition pingsPerIteration : N := 3.  (* 30 *)
Definition pingPongSize : N := 69.      (* binary.Size(negotiationPingPongMessage): 1+64+4 *)

(** 295: [min + uint32(0.999+step*float64(i))] with [step = float64(d)/3]. The
    float is [0.999 + d*i/3] up to an error far below 0.3, and its fraction is
    .999, .332 or .666, so truncation is exact; in thousandths of a third it is
    [(2997 + 1000*d*i) / 3000]. *)
Definition probeSize (mn d i : N) : N := add32 mn (u32 ((2997 + 1000 * (d * i)) / 3000)).

(** 282-313: the sizes of one iteration, in order of sending. [None]: nothing to
    probe any more (285-287). The branch of line 288 is dead, 285 comes first. *)
Definition probeSizes (mn mx : N) : option (list N) :=
  let d := sub32 mx mn in
  if d <=? 3 then None
  else Some (map (probeSize mn d) [3; 2; 1; 0]).

(** sendPing, 240-259: [make([]byte, size)], then [buf[msgSize:]] and [buf[65:]].
    [Panic]: slice bounds out of range. The result is the size of the message. *)
Definition sendPing (size : N) : outcome N :=
  if pingPongSize <=? size then Ret size else Panic.

(** How the loop ends. [VEnd]: with the three control messages of 384-386;
    [VSilent]: by the [return] of 380, without them. *)
Inductive verdict :=
| VEnd
| VSilent
| VNext (mn mx : N).

(** 338: [uint32(step+1)] *)
Definition stepUp (d : N) : N := u32 (d / 3 + 1).

(** 354-381: [best] is [nextMin], the largest size echoed; [iter] is
    [curIterationID] before 364. *)
Definition afterCollect (limit maxIter iter mn mx best : N) : verdict :=
  if best =? mn then VEnd
  else if best =? limit then VEnd
  else
    let nextMax := add32 best (stepUp (sub32 mx mn)) in
    let mx1 := if mx <=? nextMax then u32 (nextMax * 2) else add32 nextMax 1 in
    let mx2 := if limit <? mx1 then limit else mx1 in
    if maxIter <=? iter + 1 then VSilent else VNext best mx2.

(** What the whole loop does, given the largest echo of every iteration: the
    probes sent, iteration by iteration, and the end. [None] for the end: the
    list of echoes is too short, the loop is still collecting. *)
Fixpoint searchFrom (limit maxIter iter mn mx : N) (bests : list N) : list (list N) * option bool :=
  match probeSizes mn mx with
  | None => ([], Some true)
  | Some ps =>
      match bests with
      | [] => ([ps], None)
      | b :: r =>
          match afterCollect limit maxIter iter mn mx b with
          | VEnd => ([ps], Some true)
          | VSilent => ([ps], Some false)
          | VNext mn' mx' =>
              let '(q, e) := searchFrom limit maxIter (iter + 1) mn' mx' r in (ps :: q, e)
          end
      end
  end.
Definition search (limit maxIter : N) (bests : list N) : list (list N) * option bool :=
  searchFrom limit maxIter 0 negoMin limit bests.

(** A path that carries exactly the messages of at most [path] bytes, both ways,
    and loses nothing else: the echoes of one iteration, and their maximum as
    335-339 computes it (0 if there is none). *)
Definition echoes (path : N) (ps : list N) : list N := filter (fun s => s <=? path) ps.
Definition bestOf (l : list N) : N := fold_left N.max l 0.

(** The search over such a path; [fuel] bounds the iterations and is at least
    [maxIter - iter]. Result: how it ends, and the largest echo of all. The second
    [None] is "waits for an echo that never comes", i.e. until the read timeout. *)
Fixpoint pathLoop (fuel : nat) (path limit maxIter iter mn mx rtt : N) : option (bool * N) :=
  match probeSizes mn mx with
  | None => Some (true, rtt)
  | Some ps =>
      match echoes path ps with
      | [] => None
      | es =>
          let rtt' := N.max rtt (bestOf es) in
          match afterCollect limit maxIter iter mn mx (bestOf es) with
          | VEnd => Some (true, rtt')
          | VSilent => Some (false, rtt')
          | VNext mn' mx' =>
              match fuel with
              | O => None
              | S f => pathLoop f path limit maxIter (iter + 1) mn' mx' rtt'
              end
          end
      end
  end.
Definition pathSearch (path limit maxIter : N) : option (bool * N) :=
  pathLoop (N.to_nat maxIter) path limit maxIter 0 negoMin limit 0.

(** ** The read timeout (314-347), durations in nanoseconds.
    A wait of [w] for the next pong ends in errNegotiationTimeout if
    [time.After(readTimeout)] fires first; lines 315-317 change the option but
    not the variable [readTimeout] that 345 uses. *)
Definition infiniteNs : Z := 3600 * 24 * 365 * 10^9.
Definition readTimeoutUsed (optionReadTimeout : Z) : Z :=
  let readTimeout := optionReadTimeout in
  let optionReadTimeout' := if (readTimeout <=? 0)%Z then infiniteNs else optionReadTimeout in
  (* the new value of the option is not used in this iteration *)
  readTimeout.
Definition readTimesOut (optionReadTimeout w : Z) : bool := (readTimeoutUsed optionReadTimeout <=? w)%Z.

(** ** Goroutines: reader, ping loop, finalizer, Close *)

Inductive lphase := LNone | LRun | LStage | LDone.       (* LStage: at 198 *)
Inductive fphase := FNone | FWait (k : nat) | FFinal | FDone.  (* FFinal: at 214 *)
Inductive rdphase :=
| RdFree            (* in the reader loop *)
| RdStage           (* in handleControlMessage at 440 *)
| RdSend            (* in handlePingPongMessage at 478, channel evaluated *)
| RdNil             (* the same with a nil channel *)
| RdClean           (* in readerLoopCleanup, inside this negotiator's Close *)
| RdExit.           (* the session is Closed *)
Inductive chphase := ChOpen | ChClosed | ChNil.
Inductive clphase := ClNone | ClWait | ClShut | ClDone.  (* ClWait: at 529, ClShut: at 534 *)

Record ng := {
  g_kx : N;             (* keyExchangeSuccess count, session.go 2059 *)
  g_cancel : bool;      (* cancelFn != nil *)
  g_sess : bool;        (* the session's context is done *)
  g_ctx : bool;         (* n.ctx is done *)
  g_loop : lphase;
  g_fin : fphase;
  g_rd : rdphase;
  g_ch : chphase;
  g_buf : N;            (* items in recvChan *)
  g_cl : clphase;
  g_once : bool;        (* remoteEndOnce *)
  g_local : N;          (* localLargestRTT *)
  g_remote : N;         (* remoteLargestRTT *)
  g_starts : N;         (* calls of Start *)
  g_ok : N;             (* calls of okFunc, each starts one OnConnect *)
  g_err : N;            (* calls of errFunc *)
  g_end : bool;         (* control messages with the end flag were sent *)
  g_est : option N;     (* established payload size set by finalize *)
  g_panic : bool }.

Definition ng0 : ng :=
  {| g_kx := 0; g_cancel := false; g_sess := false; g_ctx := false; g_loop := LNone; g_fin := FNone;
     g_rd := RdFree; g_ch := ChOpen; g_buf := 0; g_cl := ClNone; g_once := false; g_local := 0; g_remote := 0;
     g_starts := 0; g_ok := 0; g_err := 0; g_end := false; g_est := None; g_panic := false |}.

(** Messages as the handlers see them. *)
Inductive nmsg :=
| MCtl (rtt : N) (fin : bool)
| MPing
| MPong (size : N) (good : bool).   (* [good]: the checksum is right *)

Definition recvCap : N := 32.  (* 140 *)

Definition withRd (s : ng) (r : rdphase) : ng :=
  {| g_kx := g_kx s; g_cancel := g_cancel s; g_sess := g_sess s; g_ctx := g_ctx s; g_loop := g_loop s; g_fin := g_fin s;
     g_rd := r; g_ch := g_ch s; g_buf := g_buf s; g_cl := g_cl s; g_once := g_once s; g_local := g_local s;
     g_remote := g_remote s; g_starts := g_starts s; g_ok := g_ok s; g_err := g_err s; g_end := g_end s;
     g_est := g_est s; g_panic := g_panic s |}.
Definition withStage (s : ng) (l : lphase) (f : fphase) (r : rdphase) : ng :=
  {| g_kx := g_kx s; g_cancel := g_cancel s; g_sess := g_sess s; g_ctx := g_ctx s; g_loop := l; g_fin := f;
     g_rd := r; g_ch := g_ch s; g_buf := g_buf s; g_cl := g_cl s; g_once := g_once s; g_local := g_local s;
     g_remote := g_remote s; g_starts := g_starts s; g_ok := g_ok s; g_err := g_err s; g_end := g_end s;
     g_est := g_est s; g_panic := g_panic s |}.
Definition withBuf (s : ng) (b : N) (r : rdphase) : ng :=
  {| g_kx := g_kx s; g_cancel := g_cancel s; g_sess := g_sess s; g_ctx := g_ctx s; g_loop := g_loop s; g_fin := g_fin s;
     g_rd := r; g_ch := g_ch s; g_buf := b; g_cl := g_cl s; g_once := g_once s; g_local := g_local s;
     g_remote := g_remote s; g_starts := g_starts s; g_ok := g_ok s; g_err := g_err s; g_end := g_end s;
     g_est := g_est s; g_panic := g_panic s |}.
Definition withClose (s : ng) (c : clphase) (h : chphase) (r : rdphase) : ng :=
  {| g_kx := g_kx s; g_cancel := false; g_sess := g_sess s; g_ctx := true; g_loop := g_loop s; g_fin := g_fin s;
     g_rd := r; g_ch := h; g_buf := g_buf s; g_cl := c; g_once := g_once s; g_local := g_local s;
     g_remote := g_remote s; g_starts := g_starts s; g_ok := g_ok s; g_err := g_err s; g_end := g_end s;
     g_est := g_est s; g_panic := g_panic s |}.

(** onKeyExchangeSuccess (session.go 2058-2072), called by the reader: only the
    first call goes on to Start (162-201). With negotiation disabled okFunc is
    called and Close runs at once (no tasks: recvChan is closed and nil). *)
Definition kxSuccess (s : ng) (enabled : bool) : ng :=
  let first := g_kx s =? 0 in
  let s1 :=
    {| g_kx := g_kx s + 1; g_cancel := g_cancel s || first; g_sess := g_sess s; g_ctx := g_ctx s || (first && g_sess s);
       g_loop := if first && enabled then LRun else g_loop s;
       g_fin := if first && enabled then FWait 0 else g_fin s;
       g_rd := g_rd s; g_ch := g_ch s; g_buf := g_buf s; g_cl := g_cl s; g_once := g_once s; g_local := g_local s;
       g_remote := g_remote s; g_starts := g_starts s + (if first then 1 else 0);
       g_ok := g_ok s + (if first && negb enabled then 1 else 0); g_err := g_err s; g_end := g_end s;
       g_est := g_est s; g_panic := g_panic s |} in
  if first && negb enabled then withClose s1 ClDone ChNil (g_rd s1) else s1.

(** Handle (494-509) up to the first point where it can block. Answering a ping
    and the control message of line 482 are sends that do not touch this state. *)
Definition handleMsg (s : ng) (m : nmsg) : ng :=
  match m with
  | MPing => s
  | MCtl rtt fin =>
      let blocks := fin && negb (g_once s) in
      {| g_kx := g_kx s; g_cancel := g_cancel s; g_sess := g_sess s; g_ctx := g_ctx s; g_loop := g_loop s; g_fin := g_fin s;
         g_rd := if blocks then RdStage else g_rd s; g_ch := g_ch s; g_buf := g_buf s; g_cl := g_cl s;
         g_once := g_once s || fin; g_local := g_local s;
         g_remote := rtt; g_starts := g_starts s; g_ok := g_ok s; g_err := g_err s; g_end := g_end s;
         g_est := g_est s; g_panic := g_panic s |}
  | MPong size good =>
      if good && (pingPongSize <=? size) then
        {| g_kx := g_kx s; g_cancel := g_cancel s; g_sess := g_sess s; g_ctx := g_ctx s; g_loop := g_loop s; g_fin := g_fin s;
           g_rd := match g_ch s with ChNil => RdNil | _ => RdSend end; g_ch := g_ch s; g_buf := g_buf s; g_cl := g_cl s;
           g_once := g_once s; g_local := N.max (g_local s) (u32 size);
           g_remote := g_remote s; g_starts := g_starts s; g_ok := g_ok s; g_err := g_err s; g_end := g_end s;
           g_est := g_est s; g_panic := g_panic s |}
      else s
  end.

Inductive glabel :=
| GKx (enabled : bool)  (* a confirmed key exchange *)
| GMsg (m : nmsg)       (* a negotiation message is handled *)
| GPut                  (* 478 goes through, or panics *)
| GTake                 (* 335 *)
| GLoopEnd (ctl : bool) (* the loop is left at 384-387 ([true]) or by 380 / 299 ([false]) *)
| GLoopFail             (* ... by 346-350 *)
| GStageLoop            (* 198 meets 210 *)
| GStageReader          (* 440 meets 210 *)
| GCtx                  (* TotalTimeout expires *)
| GSessClose            (* the session's context is cancelled *)
| GFinCtx               (* 217 *)
| GFinalize             (* 224-227 *)
| GCloseGo              (* 228: the new goroutine runs 516-528 *)
| GCloseShut            (* 529-533 *)
| GCloseNil             (* 534 *)
| GCleanup              (* the reader leaves its loop and closes the messenger *)
| GCleanupDone.

(** [Close] called through the messenger while another [Close] is under way
    returns at once: [cancelFn] is nil and the messenger's [isClosed] is set. *)
Definition gstep (s : ng) (l : glabel) : option ng :=
  if g_panic s then None else
  match l with
  | GKx enabled =>
      match g_rd s with RdFree => if g_sess s then None else Some (kxSuccess s enabled) | _ => None end
  | GMsg m =>
      match g_rd s with RdFree => if g_sess s then None else Some (handleMsg s m) | _ => None end
  | GPut =>
      match g_rd s, g_ch s with
      | RdSend, ChOpen => if g_buf s <? recvCap then Some (withBuf s (g_buf s + 1) RdFree) else None
      | RdSend, _ => Some
          {| g_kx := g_kx s; g_cancel := g_cancel s; g_sess := g_sess s; g_ctx := g_ctx s; g_loop := g_loop s; g_fin := g_fin s;
             g_rd := g_rd s; g_ch := g_ch s; g_buf := g_buf s; g_cl := g_cl s; g_once := g_once s; g_local := g_local s;
             g_remote := g_remote s; g_starts := g_starts s; g_ok := g_ok s; g_err := g_err s; g_end := g_end s;
             g_est := g_est s; g_panic := true |}
      | _, _ => None
      end
  | GTake =>
      match g_loop s with LRun => if 0 <? g_buf s then Some (withBuf s (g_buf s - 1) (g_rd s)) else None | _ => None end
  | GLoopEnd ctl =>
      match g_loop s with
      | LRun => Some
          {| g_kx := g_kx s; g_cancel := g_cancel s; g_sess := g_sess s; g_ctx := g_ctx s; g_loop := LStage; g_fin := g_fin s;
             g_rd := g_rd s; g_ch := g_ch s; g_buf := g_buf s; g_cl := g_cl s; g_once := g_once s; g_local := g_local s;
             g_remote := g_remote s; g_starts := g_starts s; g_ok := g_ok s; g_err := g_err s; g_end := g_end s || ctl;
             g_est := g_est s; g_panic := g_panic s |}
      | _ => None
      end
  | GLoopFail =>
      match g_loop s with
      | LRun => Some
          {| g_kx := g_kx s; g_cancel := g_cancel s; g_sess := true; g_ctx := true; g_loop := LStage; g_fin := g_fin s;
             g_rd := g_rd s; g_ch := g_ch s; g_buf := g_buf s; g_cl := g_cl s; g_once := g_once s; g_local := g_local s;
             g_remote := g_remote s; g_starts := g_starts s; g_ok := g_ok s; g_err := g_err s + 1; g_end := g_end s;
             g_est := g_est s; g_panic := g_panic s |}
      | _ => None
      end
  | GStageLoop =>
      match g_loop s, g_fin s with
      | LStage, FWait k => Some (withStage s LDone (if Nat.eqb k 1 then FFinal else FWait (S k)) (g_rd s))
      | _, _ => None
      end
  | GStageReader =>
      match g_rd s, g_fin s with
      | RdStage, FWait k => Some (withStage s (g_loop s) (if Nat.eqb k 1 then FFinal else FWait (S k)) RdFree)
      | _, _ => None
      end
  | GCtx =>
      if g_cancel s && negb (g_ctx s) then Some
          {| g_kx := g_kx s; g_cancel := g_cancel s; g_sess := g_sess s; g_ctx := true; g_loop := g_loop s; g_fin := g_fin s;
             g_rd := g_rd s; g_ch := g_ch s; g_buf := g_buf s; g_cl := g_cl s; g_once := g_once s; g_local := g_local s;
             g_remote := g_remote s; g_starts := g_starts s; g_ok := g_ok s; g_err := g_err s; g_end := g_end s;
             g_est := g_est s; g_panic := g_panic s |}
      else None
  | GSessClose =>
      if g_sess s then None else Some
          {| g_kx := g_kx s; g_cancel := g_cancel s; g_sess := true; g_ctx := g_ctx s || g_cancel s; g_loop := g_loop s; g_fin := g_fin s;
             g_rd := g_rd s; g_ch := g_ch s; g_buf := g_buf s; g_cl := g_cl s; g_once := g_once s; g_local := g_local s;
             g_remote := g_remote s; g_starts := g_starts s; g_ok := g_ok s; g_err := g_err s; g_end := g_end s;
             g_est := g_est s; g_panic := g_panic s |}
  | GFinCtx =>
      match g_fin s with FWait _ => if g_ctx s then Some (withStage s (g_loop s) FDone (g_rd s)) else None | _ => None end
  | GFinalize =>
      match g_fin s with
      | FFinal => Some
          {| g_kx := g_kx s; g_cancel := g_cancel s; g_sess := g_sess s; g_ctx := g_ctx s; g_loop := g_loop s; g_fin := FDone;
             g_rd := g_rd s; g_ch := g_ch s; g_buf := g_buf s; g_cl := g_cl s; g_once := g_once s; g_local := g_local s;
             g_remote := g_remote s; g_starts := g_starts s; g_ok := g_ok s + 1; g_err := g_err s; g_end := g_end s;
             g_est := Some (N.min (g_local s) (g_remote s)); g_panic := g_panic s |}
      | _ => None
      end
  | GCloseGo =>
      match g_fin s with
      | FDone => if g_cancel s && (0 <? g_ok s) then Some (withClose s ClWait (g_ch s) (g_rd s)) else None
      | _ => None
      end
  | GCloseShut =>
      match g_cl s, g_loop s, g_fin s with
      | ClWait, (LNone | LDone), (FNone | FDone) => Some (withClose s ClShut ChClosed (g_rd s))
      | _, _, _ => None
      end
  | GCloseNil =>
      match g_cl s with ClShut => Some (withClose s ClDone ChNil (g_rd s)) | _ => None end
  | GCleanup =>
      match g_rd s with
      | RdFree =>
          if g_sess s then Some (if g_cancel s then withClose s ClWait (g_ch s) RdClean else withRd s RdExit)
          else None
      | _ => None
      end
  | GCleanupDone =>
      match g_rd s, g_cl s with RdClean, ClDone => Some (withRd s RdExit) | _, _ => None end
  end.

Definition ginit (s : ng) : Prop := s = ng0.

(** ** Two peers over a path: the ends of the two loops are those of
    [pathSearch], a control message carrying the end flag arrives only after it
    was sent, and carries the sender's largest round trip. Pongs change nothing
    but the round trip, which is that of the search; they arrive before the loop
    ends. The search takes less than TotalTimeout. *)
Record gp := { gp_a : ng; gp_b : ng }.
Inductive glab2 := GA (l : glabel) | GB (l : glabel).

Section Pair.
  Variables path limitA limitB maxIter : N.

  Definition mayDo (limit : N) (me other : ng) (l : glabel) : bool :=
    match l with
    | GKx enabled => enabled
    | GLoopEnd ctl =>
        match pathSearch path limit maxIter with
        | Some (e, rtt) => Bool.eqb ctl e && (g_local me =? rtt)
        | None => false
        end
    | GMsg (MPong size good) =>
        good && (size <=? path) && (size <=? limit) && match g_loop me with LRun => true | _ => false end
    | GMsg (MCtl rtt fin) =>
        if fin then g_end other && (rtt =? g_local other) else rtt <=? g_local other
    | GCtx => match g_loop me with LDone => true | _ => false end
    | GLoopFail | GSessClose => false
    | _ => true
    end.

  Definition gstep2 (s : gp) (l : glab2) : option gp :=
    match l with
    | GA l =>
        if mayDo limitA (gp_a s) (gp_b s) l then
          match gstep (gp_a s) l with Some a => Some {| gp_a := a; gp_b := gp_b s |} | None => None end
        else None
    | GB l =>
        if mayDo limitB (gp_b s) (gp_a s) l then
          match gstep (gp_b s) l with Some b => Some {| gp_a := gp_a s; gp_b := b |} | None => None end
        else None
    end.
  Definition gp0 : gp := {| gp_a := ng0; gp_b := ng0 |}.
  Definition gpinit (s : gp) : Prop := s = gp0.
End Pair.
