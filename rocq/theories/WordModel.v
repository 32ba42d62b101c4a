(** The loop over the messages of a packet (session.go 966-1016) with machine
    words of a given size: the code adds lengths as "uint", which has 32 bits on
    386, arm and mips. [procLoop] of ReaderModel.v is the same loop with numbers
    that never overflow; here every addition is made modulo [W], the number of
    values of a word. [uint(hdr.Length)] itself always fits (32 bits). As there,
    [handle] is the treatment of one message and may change [hdr.Length]. *)
From Coq Require Import NArith List Bool.
From Verif Require Import Base MessageModel ReaderModel.
Import ListNotations.
Local Open Scope N_scope.

Section Words.
  Context {St : Type}.
  Variable W : N.
  Variable onErr : St -> gerr -> St.
  Variable handle : St -> msgHdr -> bytes -> outcome (St * option N).

  Definition addW (a b : N) : N := (a + b) mod W.

  (** session.go 966-1016. *)
  Fixpoint procLoopW (fuel : nat) (s : St) (mb : bytes) (l i : N) : loopResult St :=
    if i <? l then
      match fuel with
      | O => LoopFuel
      | S fuel' =>
          if l - i <? messageHeadersSize
          then LoopEnd (onErr s (ErrTooShort messageHeadersSize (l - i)))
          else
            match gslice mb i (addW i messageHeadersSize) with
            | None => LoopPanic
            | Some hb =>
                match hdrRead hb with
                | Err e => LoopEnd (onErr s e)
                | Ok (_, hdr) =>
                    if l - i <? addW messageHeadersSize (mLength hdr)
                    then LoopEnd (onErr s (ErrTooShort (addW messageHeadersSize (mLength hdr)) (l - i)))
                    else
                      match gslice mb (addW i messageHeadersSize) (addW (addW i messageHeadersSize) (mLength hdr)) with
                      | None => LoopPanic
                      | Some msg =>
                          match handle s hdr msg with
                          | Panic => LoopPanic
                          | Ret (s, None) => LoopEnd s
                          | Ret (s, Some newLen) => procLoopW fuel' s mb l (addW i (addW messageHeadersSize newLen))
                          end
                      end
                end
            end
      end
    else LoopEnd s.

  (** session.go 952-1018; [containerLength] has 32 bits. *)
  Definition runLoopW (s : St) (containerLength : N) (mb : bytes) : loopResult St :=
    procLoopW (length mb) s mb (N.min (len mb) containerLength) 0.
End Words.

(** The whole treatment of a packet's messages. *)
Definition processIncomingMessagesW (W : N) (s : rcv) (containerLength : N) (mb : bytes) : loopResult rcv :=
  runLoopW W (fun s e => emit s (EvError e)) handleMsg s containerLength mb.
