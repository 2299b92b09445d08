(** The checks of a torrent's files as they run: Files::checkFiles and Files::stop of Core/Files.cpp with Torrent::prepareForChecking and
    refreshAfterChecking of Core/Torrent.cpp. What a worker finds is in CheckModel.v, what the torrent does then is in LifeModel.v. *)
From Verif Require Import Base.

(** A worker of Files.cpp:383-390: it checks, it has loaded *finished for the increment of 387, it is done *)
Inductive phase := Busy | Loaded (v : nat) | Gone.

(** A check that was begun: Files.cpp:356 PiecesCheck::rejected, 381 [finished], 383 the workers *)
Record job := { rejected : bool; finished : nat; workers : list phase }.

(** Model only: what is told. [AStarted]: the alert of Torrent.cpp:166; [AFinished]: the one of 181; [OKept]: what was found counts, and the torrent
    goes on (Files.cpp:366-367, Torrent.cpp:171-179). *)
Inductive effect := AStarted (c : nat) | AFinished (c : nat) | OKept (c : nat).

(** Files.h: [checking], [current] is checkState; [jobs] are the checks begun so far *)
Record files := { checking : bool; current : option nat; jobs : list job; out : list effect }.

(** Model only: no check yet *)
Definition newFiles : files := {| checking := false; current := None; jobs := []; out := [] |}.

(** Files.cpp:381-390: four workers *)
Definition newJob : job := {| rejected := false; finished := 0; workers := [Busy; Busy; Busy; Busy] |}.

(** Files.cpp:337-391 [checkFiles] *)
Definition checkFiles (s : files) : files :=
  if checking s then s
  else {| checking := true; current := Some (length (jobs s)); jobs := jobs s ++ [newJob]; out := out s ++ [AStarted (length (jobs s))] |}.

(** Model only: one element of a list replaced *)
Fixpoint put {A} (i : nat) (x : A) (l : list A) : list A :=
  match l, i with [], _ => [] | _ :: l', O => x :: l' | y :: l', S i' => y :: put i' x l' end.

(** Model only: setter *)
Definition setJob (c : nat) (j : job) (s : files) : files := {| checking := checking s; current := current s; jobs := put c j (jobs s); out := out s |}.

(** Files.cpp:79-90 [stop] *)
Definition stop (s : files) : files :=
  if checking s then
    let s1 := match current s with
              | Some c => match nth_error (jobs s) c with Some j => setJob c {| rejected := true; finished := finished j; workers := workers j |} s | None => s end
              | None => s
              end in
    {| checking := false; current := current s1; jobs := jobs s1; out := out s1 |}
  else s.

(** Files.cpp:358-370 localOnFinish and Torrent.cpp:169-182 [refreshAfterChecking] *)
Definition onFinish (c : nat) (rej : bool) (s : files) : files :=
  {| checking := false; current := None; jobs := jobs s; out := out s ++ (if rej then [AFinished c] else [OKept c; AFinished c]) |}.

(** Files.cpp:385-387: worker [w] of the check is through and loads *finished; it is a plain uint32_t which all of them share *)
Definition load (c w : nat) (s : files) : files :=
  match nth_error (jobs s) c with
  | None => s
  | Some j =>
    match nth_error (workers j) w with
    | Some Busy => setJob c {| rejected := rejected j; finished := finished j; workers := put w (Loaded (finished j)) (workers j) |} s
    | _ => s
    end
  end.

(** Files.cpp:387-388: it stores *finished, one more than what it loaded, and compares that *)
Definition store (c w : nat) (s : files) : files :=
  match nth_error (jobs s) c with
  | None => s
  | Some j =>
    match nth_error (workers j) w with
    | Some (Loaded v) =>
      let s1 := setJob c {| rejected := rejected j; finished := S v; workers := put w Gone (workers j) |} s in
      if (S v =? 4)%nat then onFinish c (rejected j) s1 else s1
    | _ => s
    end
  end.

(** Model only: what may happen *)
Inductive event := ECheck | EStop | ELoad (c w : nat) | EStore (c w : nat).
(** Model only: one of those *)
Definition step (e : event) (s : files) : files :=
  match e with ECheck => checkFiles s | EStop => stop s | ELoad c w => load c w s | EStore c w => store c w s end.
(** Model only: any history of those *)
Definition run (es : list event) (s : files) : files := fold_left (fun s e => step e s) es s.
