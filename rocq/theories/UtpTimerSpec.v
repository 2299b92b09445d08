(** For C109. *)
From Verif Require Import Base UtpTimerModel.

(** A close that is posted is run before the next refresh, which is half a second later. *)
Fixpoint prompt (es : list event) (s : timer) : Prop :=
  match es with
  | [] => True
  | e :: es' => match e with ERefresh _ => posted s = O | _ => True end /\ match step1 e s with Ok s' => prompt es' s' | UB => True end
  end.

(** How often something is in the log. *)
Definition times_ (e : effect -> bool) (l : list effect) : nat := length (filter e l).
Definition isSyn (e : effect) : bool := match e with OSyn => true | _ => false end.
Definition isClosed (e : effect) : bool := match e with CClosed => true | _ => false end.
Definition isConnected (e : effect) : bool := match e with CConnected => true | _ => false end.

(** A stream as it begins. *)
Definition begun (s : timer) : Prop := exists now, s = connect now \/ s = connectRemote now.
Definition isResend (e : effect) : bool := match e with OResend => true | _ => false end.

(** A stream that came about by some history in which closes are run promptly. *)
Definition reached (s : timer) : Prop := exists s0 es, begun s0 /\ prompt es s0 /\ run es s0 = Ok s.
