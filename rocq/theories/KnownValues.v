(** Known values: small facts about single functions of the models, each of which
    tells the function from a nearby wrong one. Read off the code, function by
    function; they carry no property of their own but keep the models honest. *)
From Coq Require Import NArith ZArith List Bool String Ascii Lia.
From Verif Require Import Base TS.
From Verif Require MessageModel PacketModel PacketProps ApiModel ApiProps SendModel ClosureModel MiscModel PacketIDModel IdentityModel NegoModel PauseModel
  PendingChainModel ReaderLoopModel PoolModel QueueModel StateModel BatchModel X25519Model IntegModel ReaderModel KxModel KxProps
  IntegProps DetachModel HdrPoolModel KxRetryModel KxTickModel LayoutModel PacketIDWordModel SidRaceModel.
Import ListNotations.
Local Open Scope N_scope.

(** bufio.Reader.fill takes a count of zero. *)
Example bufio_zero : ApiModel.bufioFill {| ApiModel.rN := 0; ApiModel.rErr := false |} = Ret 0%Z.
Proof. reflexivity. Qed.

(** session.go 1886-1895: what is refused is reported with a count of zero. *)
Example refused_count :
  snd (ApiModel.sendMessagesReturns PacketProps.toyStream PacketProps.toyHash PacketProps.toyPoly
         (fun b => {| ApiModel.rN := Z.of_N (len b); ApiModel.rErr := false |}) 2 (PacketProps.exA true)
         (SendModel.singleUnit 5 (SendModel.singleFlags 5) [1; 2; 3]))
  = Ret {| ApiModel.rN := 0; ApiModel.rErr := true |}.
Proof. vm_compute. reflexivity. Qed.

(** A failed send of the exchanger closes the session (key_exchanger.go 700-712):
    afterwards its context is cancelled like after Close, and one error reported. *)
Example kx_failure_cancels :
  match exec ClosureModel.clStep ClosureModel.clInit
    [ClosureModel.ClTick; ClosureModel.ClLoop true; ClosureModel.ClLoop false; ClosureModel.ClLoop true; ClosureModel.ClCancel] with
  | Some s => (ClosureModel.cDone s, ClosureModel.cCtx s, ClosureModel.cErrors s, ClosureModel.cFlush s) = (true, true, 1%nat, false)
  | None => False
  end.
Proof. vm_compute. reflexivity. Qed.

(** session.go 415-513 with a nil pointer to the options, over UDP. *)
Example nil_options :
  let s := MiscModel.initSession MiscModel.initialLimit MiscModel.initialLossyLimit MiscModel.BackendUDPConn None in
  (MiscModel.sErrorOn s, MiscModel.sDelay s, MiscModel.sPayloadLimit s, MiscModel.sPacketLimit s, MiscModel.sEstablished s)
    = (Some 3, Some 50000%Z, 1392, 1445, 1392) /\
  (MiscModel.sMaxChainDiff s, MiscModel.sMaxFragmented s, MiscModel.sHasAux s) = (8, 65536, false) /\
  MiscModel.sKx s = {| MiscModel.kUpdate := 60000000000; MiscModel.kRetry := 1000000000; MiscModel.kTimeout := 60000000000; MiscModel.kAnswers := 1 |} /\
  MiscModel.sStorage s = Some {| PacketIDModel.latest := 0; PacketIDModel.table := [0; 0; 0; 0] |}.
Proof. vm_compute. repeat split. Qed.
Example default_limit : MiscModel.initialLimit = 65216.
Proof. reflexivity. Qed.
(** The type is uint32. *)
Example limit_setter : map MiscModel.setLimit [0; 15; 16; 1399; 4294967295] = [0; 0; 16; 1392; 4294967280].
Proof. vm_compute. reflexivity. Qed.

(** encoding/pem: a first line without its five dashes is not the begin of a block. *)
Example pem_eol :
  IdentityModel.pemDecode (IdentityModel.pemBegin ++ [65] ++ [IdentityModel.nl] ++ [IdentityModel.nl] ++ IdentityModel.pemEnd ++ [65] ++ IdentityModel.pemEol) = None
  /\ IdentityModel.stripSuffix [4; 5] [1; 2; 4; 5] = Some [1; 2] /\ IdentityModel.stripSuffix [4; 5] [1; 2; 4] = None.
Proof. vm_compute. repeat split. Qed.

(** ** Negotiation *)
(** One iteration sends [negotiationPingsPerIteration]+1 probes, from the largest
    to the smallest, at equal distances. *)
Example one_iteration : NegoModel.probeSizes 100 400 = Some [400; 300; 200; 100] /\
  option_map len (NegoModel.probeSizes 100 400) = Some (NegoModel.pingsPerIteration + 1).
Proof. vm_compute. split; reflexivity. Qed.
(** If the largest probe comes back, the loop ends with the control messages; so
    if only the smallest does. *)
Example ends_at_limit : NegoModel.search 1392 4 [1392] = ([[1392; 977; 562; 147]], Some true).
Proof. vm_compute. reflexivity. Qed.
Example ends_at_minimum : NegoModel.search 1392 4 [147] = ([[1392; 977; 562; 147]], Some true).
Proof. vm_compute. reflexivity. Qed.
(** So if there is nothing left to probe. *)
Example ends_when_narrow : NegoModel.search 150 4 [] = ([], Some true) /\ NegoModel.search 151 4 [] = ([[151; 150; 149; 147]], None).
Proof. vm_compute. split; reflexivity. Qed.
(** Without any echo the loop waits: over a path of 100 bytes it does not end. *)
Example waits_for_an_echo :
  NegoModel.mayDo 100 4 1392 NegoModel.ng0 NegoModel.ng0 (NegoModel.GLoopEnd true) = false /\
  NegoModel.mayDo 100 4 1392 NegoModel.ng0 NegoModel.ng0 (NegoModel.GLoopEnd false) = false.
Proof. vm_compute. split; reflexivity. Qed.
Example nothing_came_back : NegoModel.bestOf [] = 0 /\ NegoModel.bestOf [5; 9; 7] = 9.
Proof. split; reflexivity. Qed.
(** negotiator.go 455-470: a pong of 69 bytes is one, of 68 is not. *)
Example smallest_pong :
  NegoModel.g_local (NegoModel.handleMsg NegoModel.ng0 (NegoModel.MPong 69 true)) = 69 /\
  NegoModel.g_local (NegoModel.handleMsg NegoModel.ng0 (NegoModel.MPong 68 true)) = 0 /\
  NegoModel.g_local (NegoModel.handleMsg NegoModel.ng0 (NegoModel.MPong 70 false)) = 0.
Proof. vm_compute. repeat split. Qed.
(** The context of the negotiation ends before its time-out only after the loop. *)
Example no_early_timeout : NegoModel.mayDo 1000 1392 4 NegoModel.ng0 NegoModel.ng0 NegoModel.GCtx = false.
Proof. reflexivity. Qed.
Example infinite_is_a_year : NegoModel.infiniteNs = 31536000000000000%Z.
Proof. reflexivity. Qed.

(** ** Pause *)
(** sync.Mutex: unlocking what is not locked is fatal (session.go 741). *)
Example unlock_unlocked :
  match PauseModel.pstep true (PauseModel.up_call PauseModel.initPause 0 PauseModel.PUnl) (PauseModel.PUnlock 0) with
  | Some s => PauseModel.p_panic s = true
  | None => False
  end.
Proof. reflexivity. Qed.
(** Reading from a closed backend is an error, but no time-out. *)
Example closed_backend :
  match PauseModel.pstep true (PauseModel.up_reader (PauseModel.up_closer PauseModel.initPause true 3 true) PauseModel.RRead) PauseModel.RClosedErr with
  | Some s => PauseModel.p_reader s = PauseModel.RErr false
  | None => False
  end.
Proof. reflexivity. Qed.

(** ** Pools and queues *)
(** buffer_pool.go 63-65: unsigned, an offset behind the end wraps around. *)
Example buffer_length :
  PoolModel.bfLen {| PoolModel.bfBytes := [1; 2; 3]; PoolModel.bfRest := []; PoolModel.bfOffset := 1; PoolModel.bfRef := 0; PoolModel.bfBusy := false |} = 2 /\
  PoolModel.bfLen {| PoolModel.bfBytes := [1; 2]; PoolModel.bfRest := []; PoolModel.bfOffset := 3; PoolModel.bfRef := 0; PoolModel.bfBusy := false |} = 2^64 - 1.
Proof. vm_compute. split; reflexivity. Qed.
Example new_buffer : PoolModel.bfNew 3 =
  {| PoolModel.bfBytes := [0; 0; 0]; PoolModel.bfRest := []; PoolModel.bfOffset := 0; PoolModel.bfRef := 0; PoolModel.bfBusy := false |}.
Proof. reflexivity. Qed.
(** buffer_pool.go 92-94: a pooled buffer that is in use is a panic. *)
Example busy_in_pool :
  match PoolModel.bpstep 3 {| PoolModel.bpBuf := fun _ => Some {| PoolModel.bfBytes := []; PoolModel.bfRest := []; PoolModel.bfOffset := 0;
                                PoolModel.bfRef := 1; PoolModel.bfBusy := true |};
                              PoolModel.bpPool := fun _ => true; PoolModel.bpOwner := fun _ => []; PoolModel.bpPanic := false |} (PoolModel.BpAcquire 0 0) with
  | Some s => PoolModel.bpPanic s = true
  | None => False
  end.
Proof. reflexivity. Qed.
(** Nobody releases a buffer that does not exist. *)
Example no_such_buffer : PoolModel.bpstep 3 PoolModel.bpInit (PoolModel.BpRelease 0 0) = None /\
  PoolModel.bpstep 3 PoolModel.bpInit (PoolModel.BpReleaseAgain 0 0) = None.
Proof. split; reflexivity. Qed.
Example queue_length : N.of_nat QueueModel.messageQueueLength = 1024.
Proof. vm_compute. reflexivity. Qed.
(** Sending into a closed channel is a panic. *)
Example send_on_closed :
  match QueueModel.qstep 100 4 {| QueueModel.qItems := QueueModel.qItems QueueModel.initQueue; QueueModel.qNext := 1; QueueModel.qPool := []; QueueModel.qChan := [];
      QueueModel.qClosed := true; QueueModel.qReader := QueueModel.RpSending 0; QueueModel.qReads := fun _ => QueueModel.RNone;
      QueueModel.qArrivals := []; QueueModel.qReceived := []; QueueModel.qPanic := false |} QueueModel.QPut with
  | Some q => QueueModel.qPanic q = true
  | None => False
  end.
Proof. reflexivity. Qed.

(** ** The delayed sender *)
(** session.go 590-600: the size is 0 only for a closed session. *)
Example size_seen : forall s, BatchModel.bCtx s = true -> BatchModel.bState s = ReaderModel.SessionStateNew ->
  BatchModel.estSeen 100 s BatchModel.FcZero = None.
Proof. intros s H E. unfold BatchModel.estSeen. rewrite E. reflexivity. Qed.
(** session.go 1819-1823, 1847: a handle which the loop has sent is not sent again:
    the request is only released. *)
Example sent_already :
  match exec (BatchModel.bstep 100 false 1000) BatchModel.initBatch
    [BatchModel.BSender BatchModel.FcGo; BatchModel.BSender BatchModel.FcGo; BatchModel.BSender BatchModel.FcGo; BatchModel.BSender BatchModel.FcGo;
     BatchModel.BSender BatchModel.FcGo;
     BatchModel.BWrite 0 5 [1]; BatchModel.BCheck 0 BatchModel.FcGo; BatchModel.BTry 0 BatchModel.FcGo; BatchModel.BFire; BatchModel.BTimer;
     BatchModel.BSender BatchModel.FcGo; BatchModel.BSender BatchModel.FcGo; BatchModel.BSender BatchModel.FcGo; BatchModel.BSender BatchModel.FcGo;
     BatchModel.BSender BatchModel.FcGo; BatchModel.BSender BatchModel.FcGo; BatchModel.BSender BatchModel.FcGo;
     BatchModel.BNow 0; BatchModel.BNowSend 0] with
  | Some s => (BatchModel.bLoop s, BatchModel.bLoopLast s) = (BatchModel.LRelease 2, 2%nat)
  | None => False
  end.
Proof. vm_compute. reflexivity. Qed.

(** session.go 1834-1845: a message which came while the loop was sending gets the
    whole delay, even if its timer has already fired. *)
Example rearmed :
  match exec (BatchModel.bstep 100 false 1000) BatchModel.initBatch
    (repeat (BatchModel.BSender BatchModel.FcGo) 5 ++
     [BatchModel.BWrite 0 5 [1]; BatchModel.BCheck 0 BatchModel.FcGo; BatchModel.BTry 0 BatchModel.FcGo; BatchModel.BFire; BatchModel.BTimer] ++
     repeat (BatchModel.BSender BatchModel.FcGo) 6 ++
     [BatchModel.BWrite 1 5 [2]; BatchModel.BCheck 1 BatchModel.FcGo; BatchModel.BTry 1 BatchModel.FcGo; BatchModel.BFire; BatchModel.BSender BatchModel.FcGo]) with
  | Some s => (BatchModel.bLoop s, BatchModel.bTimer s, BatchModel.bLast s, BatchModel.bLoopLast s) = (BatchModel.LSelect, BatchModel.TArmed, 3%nat, 2%nat)
  | None => False
  end.
Proof. vm_compute. reflexivity. Qed.

(** ** The life cycle *)
Example fresh_session : (StateModel.lOnConnect StateModel.initLife, StateModel.lConnected StateModel.initLife, StateModel.lCloser StateModel.initLife) = (false, false, false).
Proof. reflexivity. Qed.
(** The goroutine of session.go 637-646 runs once. *)
Example one_backend_closer :
  let run := [StateModel.LStart false; StateModel.LNegotiator; StateModel.LKxState; StateModel.LKxBuild; StateModel.LRun; StateModel.LCtxDone; StateModel.LBackendCloser] in
  (if exec StateModel.lifestep StateModel.initLife run then true else false) = true /\
  exec StateModel.lifestep StateModel.initLife (run ++ [StateModel.LBackendCloser]) = None.
Proof. vm_compute. split; reflexivity. Qed.

(** ** Cryptography *)
(** RFC 7748, 4.1: the base point has u = 9. *)
Example base_point : le_dec X25519Model.basePoint = 9 /\ List.length X25519Model.basePoint = 32%nat.
Proof. vm_compute. split; reflexivity. Qed.
Lemma clamped : forall k, X25519Model.clamp k mod 8 = 0 /\ 2^254 <= X25519Model.clamp k.
Proof.
  intros k. unfold X25519Model.clamp. split.
  - change 8 with (2^3). rewrite <- N.land_ones. apply N.bits_inj. intros i. rewrite N.land_spec, N.lor_spec, N.land_spec, N.bits_0.
    destruct (N.lt_ge_cases i 3) as [H|H].
    + assert (C : i = 0 \/ i = 1 \/ i = 2) by lia. destruct C as [->|[->| ->]]; rewrite (andb_comm (N.testbit k _)); reflexivity.
    + rewrite N.ones_spec_high by exact H. apply andb_false_r.
  - apply N.ldiff_le. apply N.bits_inj. intros i. rewrite N.ldiff_spec, N.lor_spec, N.bits_0. destruct (N.testbit (2^254) i); [|reflexivity].
    rewrite orb_true_r. reflexivity.
Qed.
(** message.go 52 *)
Example xorer : PacketModel.poly1305KeyXORer = map N_of_ascii (list_ascii_of_string "github.com/xaionaro-go/secureio ").
Proof. vm_compute. reflexivity. Qed.
(** The four secrets, key_exchanger.go: both new, local new, remote new, both old. *)
Lemma secret_order : forall s,
  KxModel.secretParts s (N.of_nat PacketModel.secretIDRecentBoth) = (KxModel.kNextLocal s, KxModel.kNextRemote s) /\
  KxModel.secretParts s (N.of_nat PacketModel.secretIDRecentLocal) = (KxModel.kNextLocal s, KxModel.kPrevRemote s) /\
  KxModel.secretParts s (N.of_nat PacketModel.secretIDRecentRemote) = (KxModel.kPrevLocal s, KxModel.kNextRemote s) /\
  KxModel.secretParts s (N.of_nat PacketModel.secretIDPrevious) = (KxModel.kPrevLocal s, KxModel.kPrevRemote s) /\
  (PacketModel.secretIDRecentBoth, PacketModel.secretIDRecentLocal, PacketModel.secretIDRecentRemote,
   PacketModel.secretIDPrevious) = (0, 1, 2, 3)%nat /\
  PacketModel.secretIDs = 4%nat.
Proof. repeat split. Qed.

(** Only messages for the reading application wait for Read. *)
Example queued_type : forall s, ReaderModel.out (IntegModel.iRcv s) =
    [ReaderModel.EvQueue 7 [1]; ReaderModel.EvQueue MessageModel.MessageTypeReadWrite [2]; ReaderModel.EvQueue MessageModel.messageTypeKeyExchange [3]] ->
  IntegModel.queued s = [[2]].
Proof. intros s H. unfold IntegModel.queued. rewrite H. reflexivity. Qed.

(** message.go 230-233 *)
Lemma header_of_payload : forall t payload, len payload < 2^32 ->
  MessageModel.hdrSet t payload = {| MessageModel.mType := t; MessageModel.mLength := len payload; MessageModel.mFlags := 0 |}.
Proof. intros t payload H. unfold MessageModel.hdrSet, u32. rewrite N.mod_small by exact H. reflexivity. Qed.

(** key_exchanger.go 181-198: four values, in this order. *)
Example answers_modes : [KxModel.AnswersModeAnswerAndWait; KxModel.AnswersModeAnswer; KxModel.AnswersModeDisable] = [1; 2; 3].
Proof. reflexivity. Qed.

(** key_exchanger.go 719-728: the flag byte of a message is that of the answer only. *)
Lemma message_flags : forall c s isAnswer,
  match KxModel.publicKeyMessage c s isAnswer with
  | Ret m => MessageModel.kFlags m = if isAnswer then 1 else 0
  | Panic => KxModel.kNextLocalPub s = None
  end.
Proof. intros c s isAnswer. unfold KxModel.publicKeyMessage. destruct (KxModel.kNextLocalPub s); [destruct isAnswer; reflexivity|reflexivity]. Qed.

(** session.go 849-851: a read that fails in a session that is done ends the loop. *)
Lemma done_read_error : forall r i h, ReaderLoopModel.isDoneState (ReaderModel.sessState (ReaderLoopModel.rS r)) = true ->
  ReaderLoopModel.readerLoopReadError r i h = (r, false).
Proof. intros r i h D. unfold ReaderLoopModel.readerLoopReadError. rewrite D. reflexivity. Qed.

(** pending_chain.go 148: all ones for anything from 64 on. *)
Lemma all_ones : forall v, 64 <= v -> PendingChainModel.setLeadingOnes64 v = 2^64 - 1.
Proof.
  intros v H. unfold PendingChainModel.setLeadingOnes64. apply nth_overflow.
  change (List.length PendingChainModel.leadingOnesTable) with 64%nat. lia.
Qed.

(** message.go 60-100: two models of the same constants and of the same function. *)
Lemma same_channels : forall c, MessageModel.MessageTypeChannel c = MiscModel.messageTypeChannel c.
Proof. reflexivity. Qed.
Example same_types :
  [MessageModel.messageTypeUndefined; MessageModel.messageTypeKeyExchange; MessageModel.MessageTypeReadWrite; MessageModel.messageTypeReservedAbove]
  = [MiscModel.mtUndefined; MiscModel.mtKeyExchange; MiscModel.mtReadWrite; MiscModel.mtReservedAbove].
Proof. reflexivity. Qed.

(** key_seed_update_message.go 17-28: the signature, then the message. *)
Example signed_size : MessageModel.kxSignedSize = MessageModel.kxMsgSize + MessageModel.kxSignatureSize.
Proof. reflexivity. Qed.

(** negotiation_message.go 11-25: the lowest bit. *)
Lemma end_flag : forall f, MessageModel.negIsEnd f = N.testbit f 0.
Proof.
  intros f. unfold MessageModel.negIsEnd. destruct (N.testbit f 0) eqn:E.
  - destruct (N.eqb_spec (N.land f 1) 0) as [Z|_]; [|reflexivity].
    apply (f_equal (fun x => N.testbit x 0)) in Z. rewrite N.land_spec, E in Z. discriminate Z.
  - replace (N.land f 1) with 0; [reflexivity|]. apply N.bits_inj. intros i. rewrite N.land_spec, N.bits_0.
    destruct (N.eq_dec i 0) as [->|n]; [rewrite E; reflexivity|].
    change 1 with (2^0). rewrite N.pow2_bits_false by auto. rewrite andb_false_r. reflexivity.
Qed.
Lemma end_flag_set : forall f v, MessageModel.negIsEnd (MessageModel.setFlag f 1 v) = v.
Proof.
  intros f v. rewrite end_flag. unfold MessageModel.setFlag. destruct v.
  - rewrite N.lor_spec. apply orb_true_r.
  - rewrite N.land_spec. apply andb_false_r.
Qed.

(** session.go 510-513: a key of 32 bytes, however long the hash is. *)
Lemma aux_key_length : forall blake3 sha3 c k, IntegModel.auxKey blake3 sha3 c = Some k -> (List.length k <= 32)%nat.
Proof.
  intros blake3 sha3 c k. unfold IntegModel.auxKey. destruct (KxModel.cPSK _); [|discriminate]. intros E.
  apply (f_equal (fun o => match o with Some x => List.length x | None => 0%nat end)) in E. rewrite <- E. apply firstn_le_length.
Qed.

(** session.go 983-1013: the message that reaches DetachOnMessagesCount closes the
    session, and the rest of its packet is not looked at; while keys are exchanged with
    the default mode of answers it does not close it. *)
Example reaches_limit :
  let c := IntegProps.toyIConf None false in
  let s := IntegModel.isessInit None PacketIDModel.NegSize 8 1000 in
  let at_ st := IntegModel.upRcv s (ReaderModel.setSessState (ReaderModel.freshRcv 8 1000 1 [] [7]) st) in
  let hdr := {| MessageModel.mType := 7; MessageModel.mLength := 1; MessageModel.mFlags := 0 |} in
  let state r := match r with Ret (s, o) => Some (IntegModel.stateOf s, o) | Panic => None end in
  let go st := state (IntegModel.iHandle (fun _ _ _ => true) (fun a _ => a) (fun x => x) (fun x => x) c (at_ st) hdr [9]) in
  (go ReaderModel.SessionStateEstablished, go ReaderModel.SessionStateKeyExchanging)
  = (Some (ReaderModel.SessionStateClosing, None), Some (ReaderModel.SessionStateKeyExchanging, None)).
Proof. vm_compute. reflexivity. Qed.

(** session.go 655-672: without deadlines a detaching session cannot interrupt a
    read; the error is reported and the backend stays open. *)
Example cannot_interrupt :
  let c := {| DetachModel.dcMsgs := 1; DetachModel.dcFails := 0; DetachModel.dcWait := true; DetachModel.dcDeadlines := false |} in
  let s d := DetachModel.toCloser DetachModel.detachInit (DetachModel.KSet d) in
  option_map (fun s => (DetachModel.d_errs s, DetachModel.d_open s)) (DetachModel.closerNext c (s true)) = Some (1, true) /\
  option_map (fun s => (DetachModel.d_errs s, DetachModel.d_open s)) (DetachModel.closerNext c (s false)) = Some (0, false).
Proof. vm_compute. split; reflexivity. Qed.

(** RFC 7748, 5: the highest bit is cleared. *)
Lemma clamped_high : forall k, X25519Model.clamp k < 2^255.
Proof.
  intros k. unfold X25519Model.clamp. destruct (N.eq_dec (N.lor (N.land k (2^255 - 8)) (2^254)) 0) as [E|E]; [rewrite E; reflexivity|].
  apply N.log2_lt_pow2; [lia|]. rewrite N.log2_lor. apply N.max_lub_lt; [|reflexivity].
  eapply N.le_lt_trans; [apply N.log2_land|]. eapply N.le_lt_trans; [apply N.le_min_r|]. reflexivity.
Qed.

(** session.go 2140-2180: a message read is taken off the queue. *)
Example taken_once : forall c s r, IntegModel.iTaken (IntegModel.upResult s 1 r) = 1%nat /\ IntegModel.iResult (IntegModel.upResult s 1 r) = Some r /\
  IntegModel.iOver (IntegModel.upResult (IntegModel.isessInit c PacketIDModel.NegSize 8 1000) 0 r) = false.
Proof. intros. repeat split. Qed.

(** message.go 238, 248, 409, 419: a header in use is not acquired, a free one is
    not released; the process crashes. *)
Lemma header_misuse : forall c o,
  (HdrPoolModel.ho_busy o = true ->
   option_map HdrPoolModel.hp_panic (HdrPoolModel.hpstep
     {| HdrPoolModel.hp_pool := [o]; HdrPoolModel.hp_run := []; HdrPoolModel.hp_wire := []; HdrPoolModel.hp_made := 1;
        HdrPoolModel.hp_dropped := 0; HdrPoolModel.hp_frags := 0; HdrPoolModel.hp_fragBack := 0; HdrPoolModel.hp_panic := false |}
     (HdrPoolModel.HCall c (Some 0%nat))) = Some true) /\
  (HdrPoolModel.ho_busy o = false ->
   option_map HdrPoolModel.hp_panic (HdrPoolModel.hpstep
     {| HdrPoolModel.hp_pool := [];
        HdrPoolModel.hp_run := [{| HdrPoolModel.ht_call := c; HdrPoolModel.ht_obj := o; HdrPoolModel.ht_pc := HdrPoolModel.HRelease |}];
        HdrPoolModel.hp_wire := []; HdrPoolModel.hp_made := 1;
        HdrPoolModel.hp_dropped := 0; HdrPoolModel.hp_frags := 0; HdrPoolModel.hp_fragBack := 0; HdrPoolModel.hp_panic := false |}
     (HdrPoolModel.HStep 0)) = Some true) /\
  forall s l, HdrPoolModel.hpstep (HdrPoolModel.hpanic s) l = None.
Proof.
  intros c o. split; [|split].
  - intros H. cbn [HdrPoolModel.hpstep HdrPoolModel.hp_panic HdrPoolModel.hp_pool HdrPoolModel.takeNth].
    unfold HdrPoolModel.acquireHdr. rewrite H. reflexivity.
  - intros H. cbn [HdrPoolModel.hpstep HdrPoolModel.hp_panic HdrPoolModel.hp_run HdrPoolModel.takeNth HdrPoolModel.ht_pc HdrPoolModel.ht_obj].
    unfold HdrPoolModel.releaseHdr. rewrite H. reflexivity.
  - reflexivity.
Qed.
Lemma packet_header_misuse : forall o n,
  (HdrPoolModel.co_busy o = true -> HdrPoolModel.acquireCont o n = Panic) /\
  (HdrPoolModel.co_busy o = false -> HdrPoolModel.releaseCont o = Panic) /\
  forall f g s l, HdrPoolModel.cpstep f g (HdrPoolModel.cpanic s) l = None.
Proof.
  intros o n. split; [|split].
  - intros H. unfold HdrPoolModel.acquireCont. rewrite H. reflexivity.
  - intros H. unfold HdrPoolModel.releaseCont. rewrite H. reflexivity.
  - reflexivity.
Qed.
(** message.go 189-203 and 432-436: nothing but the packet ID is left after Reset. *)
Lemma packet_header_reset : forall o,
  HdrPoolModel.resetCont o = {| HdrPoolModel.co_id := HdrPoolModel.co_id o; HdrPoolModel.co_hsum := repeat 0 16;
    HdrPoolModel.co_msum := repeat 0 16; HdrPoolModel.co_len := 0; HdrPoolModel.co_busy := HdrPoolModel.co_busy o |} /\
  (List.length (HdrPoolModel.co_id HdrPoolModel.newCobj), List.length (HdrPoolModel.co_hsum HdrPoolModel.newCobj),
   List.length (HdrPoolModel.co_msum HdrPoolModel.newCobj), HdrPoolModel.co_len HdrPoolModel.newCobj) = (8%nat, 16%nat, 16%nat, 0).
Proof. intros o. split; reflexivity. Qed.

(** key_exchanger.go 545-557: the ticker is made, and the loop left, only between two
    updates. *)
Lemma ticker_between_updates : forall o s, KxRetryModel.tUp (KxTickModel.kRt s) <> KxRetryModel.UpIdle ->
  KxTickModel.tkStep o s KxTickModel.TkTicker = None /\ KxTickModel.tkStep o s KxTickModel.TkEnd = None.
Proof.
  intros o s H. unfold KxTickModel.tkStep. destruct (KxTickModel.kPanic s); [split; reflexivity|].
  assert (E : KxTickModel.isIdle (KxTickModel.kRt s) = false) by (unfold KxTickModel.isIdle; destruct (KxRetryModel.tUp (KxTickModel.kRt s)); congruence).
  rewrite E. destruct (KxTickModel.kLoop s); split; reflexivity.
Qed.

(** Where Go puts fields: a bool may follow any byte; a sync.RWMutex takes 24 bytes,
    aligned to 4. *)
Example layout_facts :
  LayoutModel.offsetOf 4 [("a"%string, LayoutModel.KBool); ("b"%string, LayoutModel.KBool); ("c"%string, LayoutModel.KU32)] "b"%string = Some 1 /\
  LayoutModel.offsetOf 8 [("a"%string, LayoutModel.KBool); ("b"%string, LayoutModel.KU32); ("c"%string, LayoutModel.KU64)] "c"%string = Some 8 /\
  LayoutModel.offsetOf 4 (LayoutModel.stateStorageFields ++ [("end"%string, LayoutModel.KBool)])%list "end"%string = Some 36 /\
  LayoutModel.offsetOf 8 (LayoutModel.stateStorageFields ++ [("end"%string, LayoutModel.KBool)])%list "end"%string = Some 40 /\
  LayoutModel.offsetOf 8 (("flag"%string, LayoutModel.KBool) :: rev LayoutModel.stateStorageFields)%list "changeChanLocker"%string = Some 4.
Proof. repeat split; vm_compute; reflexivity. Qed.

(** session.go 811-817: without a storage every packet ID is taken, also where a word
    has 32 bits. *)
Lemma no_storage_takes_all : forall W ids, PacketIDWordModel.offerW W None ids = Ret (None, repeat true (List.length ids)).
Proof.
  intros W. induction ids as [|i ids IH]; [reflexivity|].
  cbn [PacketIDWordModel.offerW PacketIDWordModel.checkW List.length repeat]. rewrite IH. reflexivity.
Qed.

(** session.go 355-376: no stamp was given before the first session. *)
Lemma no_stamp_yet : forall vec, SidRaceModel.gs_prev (SidRaceModel.gst0 vec) = 0.
Proof. reflexivity. Qed.
