(** What a TCP stream should do, over what it was told and what it did. *)
From Verif Require Import Base TcpModel.

(** The buffers written to the stream, and those the stream gave to the socket. *)
Fixpoint asked (es : list event) : list (list Z) :=
  match es with [] => [] | EWrite d :: es' => d :: asked es' | _ :: es' => asked es' end.
Fixpoint made (l : list effect) : list (list Z) :=
  match l with [] => [] | OWrite d :: l' => d :: made l' | _ :: l' => made l' end.

Definition is_call (e : effect) : bool := match e with COpened | CReceived | CClosed _ => true | _ => false end.
Definition is_closed (e : effect) : bool := match e with CClosed _ => true | _ => false end.
Definition is_opened (e : effect) : bool := match e with COpened => true | _ => false end.

(** What can happen to a stream in state [s]: a connect ends which was begun, a write ends which is under way, a receive brings at
    most what it was asked for, the manager assigns what the stream waits for, the timer fires when it is set. An answer of the resolver
    does not come after the close. Times are none at which the clock is a multiple of 2^29 seconds. *)
Definition possible (e : event) (s : tcp) : Prop :=
  match e with
  | EResolve code r => tst s = Connecting \/ (tst s = Disconnected /\ (code <> 0 \/ r = []))
  | EResolverConnect code r n _ _ _ _ => (tst s = Connecting \/ tst s = Disconnected) /\ r <> [] /\ n = 1
  | EConnect _ _ _ _ _ => tst s = Connecting \/ tst s = Disconnected
  | EAccept _ _ _ _ => tst s = Clear /\ address s = None /\ host s = [] /\ queue s = []
  | EWritten _ => 0 < writing s
  | EReceive _ n a now _ _ => 0 <= now /\ now mod 536870912 <> 0 /\ 0 <= aSize a < 4294967296 /\ 0 <= rSize a /\
      exists r, receiving s = Some r /\ 0 <= n <= r
  | EAssign amount _ _ => waitBw s = true /\ 0 < amount /\ quota s + amount < 4294967296
  | ETimeout now => exists t, timer s = Some (Some t) /\ t <= now
  | EInfo _ | EOpened _ _ _ => False
  | EPeer _ _ | EInit _ | EWrite _ | EClose _ | EDoClose => True
  end.

Inductive history (s0 : tcp) : list event -> tcp -> Prop :=
| h_start : history s0 [] s0
| h_step es s e s' : history s0 es s -> possible e s -> step e s = Ok s' -> history s0 (es ++ [e]) s'.
