(** What announces over HTTPS should do. *)
From Verif Require Import Base HttpModel HttpsModel.

(** What can happen: only an operation that was begun ends. A socket that is connected cannot be connected again (connect(2), EISCONN), and
    only a connected one carries data. A read brings between one byte and all it asked for. *)
Definition possible (e : event) (s : https) : Prop :=
  match e with
  | EAnnounce _ | EStop => True
  | EEnd o ok => In o (ops s) /\ (o = OConnect -> ok = true -> conn s = false) /\ (o = OHandshake -> ok = true -> conn s = true) /\ o <> ORead /\ forall d, o <> OWrite d
  | EWritten d r => In (OWrite d) (ops s) /\ forall n, r = Some n -> conn s = true /\ (n <= length d)%nat /\ (d <> [] -> (0 < n)%nat)
  | ERead r => In ORead (ops s) /\ forall d, r = Some d -> conn s = true /\ (0 < length d <= 512)%nat
  end.

(** What happens from the state [s0] on. *)
Inductive history (parse : list Z -> parsed) (s0 : https) : list event -> https -> Prop :=
| h_start : history parse s0 [] s0
| h_step es s e : history parse s0 es s -> possible e s -> history parse s0 (es ++ [e]) (step parse e s).

(** The announces asked for, the calls to the owner, the results among them. *)
Fixpoint requests (es : list event) : list (list Z) := match es with [] => [] | EAnnounce r :: es' => r :: requests es' | _ :: es' => requests es' end.
Fixpoint calls (l : list effect) : nat := match l with [] => O | (EFail | EResult _) :: l' => S (calls l') | _ :: l' => calls l' end.
Fixpoint results (l : list effect) : nat := match l with [] => O | EResult _ :: l' => S (results l') | _ :: l' => results l' end.

(** The last call to the owner: [None] when there was none, [Some true] for a result. *)
Fixpoint last_call (c : option bool) (l : list effect) : option bool :=
  match l with [] => c | EFail :: l' => last_call (Some false) l' | EResult _ :: l' => last_call (Some true) l' | _ :: l' => last_call c l' end.

Definition is_prefix (a b : list Z) : Prop := exists c, b = a ++ c.
Definition no_stop (e : event) : Prop := e <> EStop.
Definition no_announce (e : event) : Prop := forall r, e <> EAnnounce r.
