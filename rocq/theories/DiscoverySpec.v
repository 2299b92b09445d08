(** What the search for routers should do *)
From Verif Require Import Base XmlModel DiscoveryModel.
From Coq Require Import String Ascii.
From Coq Require Import List.
Import ListNotations.
Close Scope string_scope.

(** Without ':' and '/' *)
Definition plain (l : list Z) : Prop := ~ In 58 l /\ ~ In 47 l.

(** A location that a response gave: of the adapter's own gateway, which has a name, and with a port *)
Definition gives (g c : list Z) (params : list (list Z * list Z)) (l : location) : Prop :=
  exists v u, In (txt "LOCATION"%string, v) params /\ parseUrl v = Some u /\ lGateway l = g /\ lClient l = c /\ pAddress u = g /\ g <> [] /\ pPort u = Some (lPort l) /\ lPort l <> 0 /\ lPath l = pPath u.

(** ... in a response of the history *)
Definition given (es : list devent) (l : location) : Prop := exists g c params, In (DResponse g c params) es /\ gives g c params l.

(** How many locations a history has *)
Fixpoint offers (es : list devent) : nat :=
  match es with [] => O | DResponse _ _ params :: t => (List.length (filter (fun p => list_eqb (fst p) (txt "LOCATION"%string)) params) + offers t)%nat | _ :: t => offers t end.

(** The descriptions asked for, the streams that can still call back *)
Fixpoint queried (log : list effect) : list location := match log with [] => [] | XQuery l :: t => l :: queried t | _ :: t => queried t end.
Definition open (s : disco) : list (location * bool) := filter snd (dStreams s).

Definition quiet_event (e : devent) : Prop := match e with DStart => False | _ => True end.
Definition no_stop (e : devent) : Prop := e <> DStop.

(** Every element whose text is asked for has an element behind it *)
Definition texts : list (list Z) := [txt "friendlyName"%string; txt "serviceType"%string; txt "controlURL"%string].
Definition readable (els : list xel) : Prop := forall i, (i < List.length els)%nat -> In (xname (nth i els noEl)) texts -> exists v, xvalue els i = Ok v.
