(** Which ports are asked from the routers *)
From Verif Require Import Base UpnpModel.

Definition wanted (s : upnp) (p : Z) (t : ptype) : Prop := In {| wPort := p; wType := t |} (uMapping s).

(** The router at [g] said that the port is mapped *)
Definition is_mapped (s : upnp) (g : list Z) (p : Z) (t : ptype) : Prop := exists m, In m (uMapped s) /\ mGateway m = g /\ mPort m = p /\ mType m = t.

Definition one_gateway (g : list Z) (s : upnp) : Prop := Forall (fun v => vGateway v = g) (uDevices s).

(** Requests to a router, of one kind *)
Definition waiting (g : list Z) (add : bool) (l : list request) : list request := filter (fun q => list_eqb (qHost q) g && Bool.eqb (qAdd q) add) l.

(** No request is answered twice *)
Definition fresh_answer (s : upnp) (e : uevent) : Prop :=
  match e with UAnswer id _ => Forall (fun q => qId q = id -> qAnswered q = false) (uPending s) | _ => True end.

Fixpoint answered_once (s : upnp) (es : list uevent) : Prop :=
  match es with [] => True | e :: es' => fresh_answer s e /\ answered_once (ustep s e) es' end.

Definition key (m : mapped) : list Z * Z * ptype := (mGateway m, mPort m, mType m).

(** Why a request may be made: the state is the one after it *)
Definition reason (s : upnp) (q : request) : Prop :=
  (exists v, In v (uDevices s) /\ vGateway v = qHost q /\ vPort v = qGwPort q /\ (qAdd q = true -> vClient v = qClient q)) /\
  (if qAdd q then wanted s (qPort q) (qType q) /\ ~ is_mapped s (qHost q) (qPort q) (qType q)
   else exists m, In m (uMapped s) /\ mPort m = qPort q /\ mType m = qType q /\ ~ (mGateway m = qHost q /\ wanted s (qPort q) (qType q))).

(** Only answers of success, and streams that close *)
Definition served (e : uevent) : Prop := match e with UAnswer _ b => b = true | UClosed _ => True | _ => False end.

(** The router answers the first waiting request with success and closes the connection *)
Definition serve (s : upnp) : upnp := match uPending s with [] => s | q :: _ => ustep (ustep s (UAnswer (qId q) true)) (UClosed (qId q)) end.

Fixpoint serves (k : nat) (s : upnp) : upnp := match k with O => s | S k' => serves k' (serve s) end.

(** The settings after the events *)
Fixpoint last_cfg (c : portCfg) (es : list mevent) : portCfg := match es with [] => c | MSettings d :: es' => last_cfg d es' | _ :: es' => last_cfg c es' end.

(** The same request, but for the stream *)
Definition same_request (v : device) (p : Z) (t : ptype) (q : request) : Prop :=
  qAdd q = true /\ qHost q = vGateway v /\ qGwPort q = vPort v /\ qClient q = vClient v /\ qPort q = p /\ qType q = t.
