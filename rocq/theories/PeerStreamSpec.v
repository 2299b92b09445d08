(** What a stream to a peer should do, over what it was told and what it did. *)
From Verif Require Import Base PeerStreamModel.

(** What can happen to the stream: the stream below opens once, brings data while it is open and closes once. The owner writes its first
    message at once when it is told that the connection is open, and nothing more until it is given data; over a connection that came from
    outside it writes when it likes. *)
Definition possible (e : event) (s : pstream) : Prop :=
  match e with
  | EWrite _ _ => In CData (log s) \/ (remote s = false /\ In COpened (log s) /\ firstWrite s = true) \/ remote s = true
  | EClose => True
  | EOpened _ => ph s = PConnecting
  | EClosed _ _ => ph s = PConnecting \/ ph s = POpen
  | EData n r => ph s = POpen /\ 0 < n /\ (remote s = true \/ firstWrite s = false) /\ (hs s = HFailed -> r = HFail)
  | EPosted => posted s = true
  end.

Inductive history (s0 : pstream) : list event -> pstream -> Prop :=
| h_start : history s0 [] s0
| h_step es s e : history s0 es s -> possible e s -> history s0 (es ++ [e]) (step e s).

(** What the owner is told, in order: opened before any data, nothing after the end. [q]: 0 before it is open, 1 open, 2 ended. *)
Fixpoint told (q : Z) (l : list effect) : option Z :=
  match l with
  | [] => Some q
  | COpened :: l' => if q =? 0 then told 1 l' else None
  | CData :: l' => if q =? 1 then told 1 l' else None
  | CClosed _ :: l' => if q =? 2 then None else told 2 l'
  | _ :: l' => told q l'
  end.

(** The buffers the owner wrote, and the owner's buffers in what was sent. *)
Fixpoint asked (es : list event) : list (list Z) :=
  match es with [] => [] | EWrite _ d :: es' => d :: asked es' | _ :: es' => asked es' end.
Fixpoint sent (l : list effect) : list (list Z) :=
  match l with [] => [] | OSend _ (PData d) :: l' => d :: sent l' | OSend _ (PStart d) :: l' => d :: sent l' | _ :: l' => sent l' end.

Definition connects (k : kind) (l : list effect) : nat := length (filter (fun e => match e with OConnect k' => kind_eqb k k' | _ => false end) l).

(** The settings of an event ask for the encryption [x]; its result of the encryption handshake is not plain text. *)
Definition with_enc (x : encryption) (e : event) : Prop :=
  match e with EWrite c _ | EOpened c | EClosed c _ => enc c = x | _ => True end.
Definition not_plain (e : event) : Prop := match e with EData _ (HDone plain _) => plain = false | _ => True end.
