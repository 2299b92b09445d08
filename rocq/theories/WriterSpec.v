(** What is said of datagrams that go out *)
From Verif Require Import Base WriterModel.

(** What was sent, in order *)
Fixpoint sent (o : list effect) : list (list Z) := match o with [] => [] | OSent _ d :: o' => d :: sent o' | _ :: o' => sent o' end.
(** Where it was sent *)
Fixpoint sentTo (o : list effect) : list Z := match o with [] => [] | OSent t _ :: o' => t :: sentTo o' | _ :: o' => sentTo o' end.

(** What the owner wrote, in order *)
Fixpoint written (es : list event) : list (list Z) :=
  match es with [] => [] | EWrite d _ :: es' => d :: written es' | EView d _ :: es' => d :: written es' | _ :: es' => written es' end.

(** The owner writes only when nothing is on its way, not again and nothing empty; and what it does succeeds *)
Definition calm (e : event) (s : writer) : Prop :=
  match e with
  | EWrite d ok | EView d ok => d <> [] /\ ok = true /\ connects s = 0%nat
  | EConnected success ok => success = true /\ ok = true
  | EReceive _ _ => True
  | _ => False
  end.
(** All of them *)
Fixpoint calmRun (es : list event) (s : writer) : Prop := match es with [] => True | e :: es' => calm e s /\ calmRun es' (step e s) end.

(** Only [a] answers and only [a] is set or found as the address *)
Definition only (a : Z) (e : event) : Prop :=
  match e with
  | EAddress b => b = a
  | EResolved (Some b) _ => b = a
  | EReceive _ rs => Forall (fun r => match r with RGot f _ => f = a | RInterrupted => True end) rs
  | _ => True
  end.

(** The owner is called *)
Definition isCall (e : effect) : bool := match e with OSent _ _ => false | _ => true end.

(** Nothing fails, nothing is closed and the address is not set again *)
Definition fine (e : event) : Prop :=
  match e with
  | EWrite _ ok | EView _ ok | ERewrite ok | EConnected true ok => ok = true
  | EReceive error _ => error = false
  | _ => False
  end.
