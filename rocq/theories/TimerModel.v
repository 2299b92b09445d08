(** Model of mtTorrent/utils/ScheduledTimer.cpp. *)
From Verif Require Import Base.

(** ScheduledTimer.h: the asio timer with its function ([tmOn]: not disabled), the time the wait ends if there is one, and the
    number of waits that ended whose handlers did not run yet (asio does not take these back) *)
Record timer := { tmOn : bool; tmDue : option Z; tmQueued : nat }.

(** ScheduledTimer.cpp:3-6, 54-57: a new one *)
Definition newTimer : timer := {| tmOn := true; tmDue := None; tmQueued := 0 |}.

(** ScheduledTimer.cpp:13-18, 33-40 [schedule]; a wait under way is given up by asio *)
Definition tmSchedule (t : timer) (d now : Z) : timer :=
  if tmOn t then {| tmOn := true; tmDue := Some (now + d); tmQueued := tmQueued t |} else t.

(** ScheduledTimer.cpp:20-31 [disable]; the handlers still run *)
Definition tmDisable (t : timer) : timer := {| tmOn := false; tmDue := None; tmQueued := tmQueued t |}.

(** Model only: asio's clock reaches [now] *)
Definition tmExpire (t : timer) (now : Z) : timer :=
  match tmDue t with Some x => if x <=? now then {| tmOn := tmOn t; tmDue := None; tmQueued := S (tmQueued t) |} else t | None => t end.

(** ScheduledTimer.cpp:42-52 [checkTimer] of a wait that ended, with what the function returns if it is called; the boolean tells whether it is *)
Definition tmRun (t : timer) (ret now : Z) : timer * bool :=
  match tmQueued t with
  | O => (t, false)
  | S n =>
    let t1 := {| tmOn := tmOn t; tmDue := tmDue t; tmQueued := n |} in
    if tmOn t then (if ret =? 0 then t1 else tmSchedule t1 ret now, true) else (t1, false)
  end.

(** Model only: what happens to a timer *)
Inductive tevt := TSchedule (d now : Z) | TExpire (now : Z) | TRun (ret now : Z) | TDisable.

(** Model only: one event; the boolean tells whether the function was called *)
Definition tstep (t : timer) (e : tevt) : timer * bool :=
  match e with TSchedule d now => (tmSchedule t d now, false) | TExpire now => (tmExpire t now, false) | TRun ret now => tmRun t ret now | TDisable => (tmDisable t, false) end.

(** Model only: a history; the number of calls *)
Fixpoint truns (t : timer) (es : list tevt) : timer * nat :=
  match es with [] => (t, O) | e :: es' => let (t1, b) := tstep t e in let (t2, n) := truns t1 es' in (t2, ((if b then 1 else 0) + n)%nat) end.
