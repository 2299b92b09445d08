(** What announces over HTTP should do. *)
From Verif Require Import Base HttpModel HttpCommModel.

(** What can happen: a task runs that was posted, a connect ends that was begun, a write ends when there is one, and only an open connection
    brings data. A stream ends that is being connected or is open. *)
Definition possible (e : event) (s : comm) : Prop :=
  match e with
  | EAnnounce _ | EStop => True
  | ERun i => exists x, nth_error (streams s) i = Some x /\ posted x <> []
  | EOpen i => exists x, nth_error (streams s) i = Some x /\ st x = SConnecting
  | EWritten i => exists x, nth_error (streams s) i = Some x /\ st x = SConnected /\ queue x <> []
  | EData i d => exists x, nth_error (streams s) i = Some x /\ st x = SConnected /\ d <> []
  | EEnd i => exists x, nth_error (streams s) i = Some x /\ (st x = SConnecting \/ st x = SConnected)
  end.

(** What happens from the state [s0] on. *)
Inductive history (parse : list Z -> parsed) (s0 : comm) : list event -> comm -> Prop :=
| h_start : history parse s0 [] s0
| h_step es s e : history parse s0 es s -> possible e s -> history parse s0 (es ++ [e]) (step parse e s).

(** The announces asked for, the requests sent, the calls to the owner, the results among them. *)
Fixpoint requests (es : list event) : list (list Z) := match es with [] => [] | EAnnounce r :: es' => r :: requests es' | _ :: es' => requests es' end.
Fixpoint sent (l : list effect) : list (list Z) := match l with [] => [] | ESent d :: l' => d :: sent l' | _ :: l' => sent l' end.
Fixpoint calls (l : list effect) : nat := match l with [] => O | (EFail | EResult _) :: l' => S (calls l') | _ :: l' => calls l' end.
Fixpoint results (l : list effect) : nat := match l with [] => O | EResult _ :: l' => S (results l') | _ :: l' => results l' end.

(** The last call to the owner: [None] when there was none, [Some true] for a result. *)
Fixpoint last_call (c : option bool) (l : list effect) : option bool :=
  match l with [] => c | EFail :: l' => last_call (Some false) l' | EResult _ :: l' => last_call (Some true) l' | _ :: l' => last_call c l' end.

Definition times (d : list Z) (l : list (list Z)) : nat := count_occ (list_eq_dec Z.eq_dec) l d.
Definition no_announce (e : event) : Prop := forall r, e <> EAnnounce r.
Definition no_stop (e : event) : Prop := e <> EStop.

(** The stream an event belongs to. *)
Definition stream_of (e : event) : option nat :=
  match e with EAnnounce _ | EStop => None | ERun i | EOpen i | EWritten i | EData i _ | EEnd i => Some i end.
