(** What C84 says, on what was called and sent only. *)
From Verif Require Import Base UdpCommModel.

(** the request a call is about *)
Definition about (x : ucall) : Z := match x with USent i | UAgain i | UAnswer i _ | UNone i | UGiven i => i end.
(** the answer was taken or there is none: the request is over *)
Definition over (x : ucall) : bool := match x with UAnswer _ true | UNone _ => true | _ => false end.
Definition given (x : ucall) : bool := match x with UGiven _ => true | _ => false end.
Definition again (x : ucall) : bool := match x with UAgain _ => true | _ => false end.
Definition sent (x : ucall) : bool := match x with USent _ => true | _ => false end.

(** how often something was said about [i] *)
Fixpoint times (f : ucall -> bool) (i : Z) (l : list ucall) : nat :=
  match l with [] => O | x :: r => ((if f x && (about x =? i)%Z then 1 else 0) + times f i r)%nat end.

(** the requests that wait for an answer *)
Definition waiting (s : ucomm) : list (Z * Z) := uPend s ++ match uBusy s with Some l => l | None => [] end.
