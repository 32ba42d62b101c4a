(** What C107 and C115 are about: runs of the exchanger in which updates of the
    session's keys do not overlap. *)
From Coq Require Import NArith List Bool.
From Verif Require Import Base TS MessageModel KxModel KxFineModel.
Import ListNotations.

(** The steps that change a key of the exchange: a message is taken up, or an own
    key is installed. *)
Definition starts (l : flabel) : Prop :=
  match l with
  | FStep (KHandle _) | FStep (KLoopGen _ _ _) | FStep (KAnswerGen _ _ _ _) => True
  | _ => False
  end.

(** The steps that end the exchanger: closing and giving up. *)
Definition stops (l : flabel) : Prop := match l with FStep KCancel | FStep KLoopTimeout => True | _ => False end.

(** Keys change only while nobody is updating, and the exchanger does not end in
    the middle of handling a message. *)
Definition calmStep (s : fxs) (l : flabel) : Prop :=
  (starts l -> settled s) /\ (stops l -> fHandle s = None).

Fixpoint calmRun (step : fxs -> flabel -> option fxs) (s : fxs) (ls : list flabel) : Prop :=
  match ls with
  | [] => True
  | l :: r => calmStep s l /\ match step s l with Some s' => calmRun step s' r | None => True end
  end.

(** The steps of KxModel.v in a run. *)
Definition coarse (ls : list flabel) : list klabel :=
  flat_map (fun l => match l with FStep l => [l] | _ => [] end) ls.

Definition isMsg (l : klabel) : bool := match l with KHandle _ => true | _ => false end.

(** The same steps in the same order, except that a message may be handled later
    in relation to the rest. *)
Definition sameSteps (a b : list klabel) : Prop :=
  filter isMsg a = filter isMsg b /\ filter (fun l => negb (isMsg l)) a = filter (fun l => negb (isMsg l)) b.
