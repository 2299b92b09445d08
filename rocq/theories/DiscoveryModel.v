(** The search for routers: mtTorrent/utils/UpnpDiscovery.cpp. Only what it uses of the streams is here: whether the stream's
    callbacks are set (TcpModel.v has the whole stream). A response comes as its header parameters (HttpModel.v), an answer of a router as
    its whole body. Left out: the requests of the search, the text of the request for the description, the adapters without a gateway. *)
From Verif Require Import Base Dec XmlModel.
From Coq Require Import String Ascii.
From Coq Require Import List.
Import ListNotations.
Close Scope string_scope.

(** ** UpnpDiscovery.cpp:11-57 [UrlParser] *)

(** Helper of [parseUrl], UpnpDiscovery.cpp:22: the first byte that passes *)
Fixpoint firstOf (f : Z -> bool) (l : list Z) : option nat :=
  match l with [] => None | c :: t => if f c then Some O else match firstOf f t with Some k => Some (S k) | None => None end end.

(** Helper of [parseUrl], UpnpDiscovery.cpp:30-31: [find_first_of] from a position on, none when it is behind the text *)
Definition findFrom (f : Z -> bool) (from : nat) (l : list Z) : option nat :=
  match firstOf f (skipn from l) with Some k => Some (from + k)%nat | None => None end.

(** Helper of [parseUrl], UpnpDiscovery.cpp:34-53: [substr] with a count, or [None] for all; [None]: std::out_of_range is thrown *)
Definition substr (pos : nat) (n : option nat) (l : list Z) : option (list Z) :=
  if (pos <=? List.length l)%nat then Some (match n with Some k => firstn k (skipn pos l) | None => skipn pos l end) else None.

(** UpnpDiscovery.cpp:13-16; [pPort] is [None] while nothing was written there: the member has no initial value *)
Record url := { pProtocol : list Z; pAddress : list Z; pPort : option Z; pPath : list Z }.

(** Helper of [parseUrl], UpnpDiscovery.cpp:20: find_first_of of a text looks for any of its characters *)
Definition ofProtocol (c : Z) : bool := (c =? 58) || (c =? 47).

(** Helper of [parseUrl], UpnpDiscovery.cpp:48: the number, as much of it as 16 bits hold. A string ends with a zero byte. *)
Definition portOf (s : list Z) : Z := match strtoull (s ++ [0]) with Some (v, _) => u16 v | None => 0 end.

(** UpnpDiscovery.cpp:18-56; [None]: an exception. The count of the port's text is that of unsigned numbers: a path before the port makes it huge. *)
Definition parseUrl (s : list Z) : option url :=
  let '(addrStart, protocol) := match firstOf ofProtocol s with Some e => ((e + 3)%nat, firstn e s) | None => (O, []) end in
  let portStart := findFrom (Z.eqb 58) addrStart s in
  let pathStart := findFrom (Z.eqb 47) addrStart s in
  let address :=
    match portStart, pathStart with
    | None, None => substr addrStart None s
    | Some a, None => substr addrStart (Some (a - addrStart)%nat) s
    | None, Some b => substr addrStart (Some (b - addrStart)%nat) s
    | Some a, Some b => substr addrStart (Some (Nat.min a b - addrStart)%nat) s
    end in
  match address with
  | None => None
  | Some address =>
    let portStr :=
      match portStart with
      | None => Some None
      | Some a =>
        match substr (a + 1) (match pathStart with Some b => if (a + 1 <=? b)%nat then Some (b - (a + 1))%nat else None | None => None end) s with
        | Some t => Some (Some (portOf t))
        | None => None
        end
      end in
    match portStr with
    | None => None
    | Some port =>
      match pathStart with
      | None => Some {| pProtocol := protocol; pAddress := address; pPort := port; pPath := [] |}
      | Some b => match substr b None s with
                  | Some p => Some {| pProtocol := protocol; pAddress := address; pPort := port; pPath := p |}
                  | None => None
                  end
      end
    end
  end.

(** ** UpnpDiscovery.cpp:158-190 [parseDevicesNode] *)

(** Xml.cpp:204-217 [nextSibling(name)] *)
Definition nextNamed (l : list xel) (i : nat) (name : list Z) : res (option nat) := findNamed (S (List.length l)) l (nextSibling l i) name.

(** Helper of [serviceLoop], UpnpDiscovery.cpp:175: an entry of the map is written *)
Fixpoint setService (k v : list Z) (m : list (list Z * list Z)) : list (list Z * list Z) :=
  match m with [] => [(k, v)] | (a, b) :: m' => if list_eqb a k then (a, v) :: m' else (a, b) :: setService k v m' end.

(** UpnpDiscovery.cpp:168-178: the services from one on *)
Fixpoint serviceLoop (fuel : nat) (els : list xel) (a : option nat) (m : list (list Z * list Z)) : res (list (list Z * list Z)) :=
  match a with
  | None => Ok m
  | Some i =>
    match fuel with
    | O => UB
    | S f =>
      bind (xvalueNamed els i (txt "serviceType")) (fun ty =>
      bind (xvalueNamed els i (txt "controlURL")) (fun c =>
      let m := match ty, c with [], _ => m | _, [] => m | _, _ => setService ty c m end in
      bind (nextNamed els i (txt "service")) (fun n => serviceLoop f els n m)))
    end
  end.

(** UpnpDiscovery.cpp:158-190: the devices from one on, with those inside them; the name is the first found *)
Fixpoint deviceLoop (fuel : nat) (els : list xel) (a : option nat) (name : list Z) (m : list (list Z * list Z)) : res (list Z * list (list Z * list Z)) :=
  match a with
  | None => Ok (name, m)
  | Some i =>
    match fuel with
    | O => UB
    | S f =>
      bind (match name with [] => xvalueNamed els i (txt "friendlyName") | _ => Ok name end) (fun name =>
      bind (firstNamed els i (txt "serviceList")) (fun sl =>
      bind (match sl with Some s => bind (firstNamed els s (txt "service")) (fun n => serviceLoop (S (List.length els)) els n m) | None => Ok m end) (fun m =>
      bind (firstNamed els i (txt "deviceList")) (fun dl =>
      bind (match dl with Some d => bind (firstNamed els d (txt "device")) (fun n => deviceLoop f els n name m) | None => Ok (name, m) end) (fun r =>
      bind (nextNamed els i (txt "device")) (fun n => deviceLoop f els n (fst r) (snd r)))))))
    end
  end.

(** UpnpDiscovery.cpp:158-160, 197, from the root *)
Definition parseDevices (els : list xel) : res (list Z * list (list Z * list Z)) :=
  bind (firstNamed els 0 (txt "device")) (fun n => deviceLoop (S (List.length els)) els n [] []).

(** ** The discovery *)

(** UpnpDiscovery.h:45-50 [UpnpLocation] *)
Record location := { lGateway : list Z; lClient : list Z; lPort : Z; lPath : list Z }.

(** Model only: a description is asked for, the owner is told of a device, an exception or undefined behaviour ends the program: [XThrow] for
    a text that is no address, [XUnset] for a port that was never written, [XBody] for a description read outside its elements, [XNull] for a
    call of a function that was taken away *)
Inductive effect := XQuery (l : location) | XDevice (l : location) (name : list Z) (services : list (list Z * list Z)) | XThrow | XUnset | XBody | XNull.

(** UpnpDiscovery.h:34-60: [dSearch], the search is active; [dCb], onNewDevice is set; [dStreams], every stream ever made with what its
    callbacks captured, and whether they are set; [dCur], the one in [stream]; [dDead], the program ended *)
Record disco := { dSearch : bool; dCb : bool; dQueue : list location; dStreams : list (location * bool); dCur : option nat; dDead : bool; dLog : list effect }.

(** UpnpDiscovery.cpp:6-9 *)
Definition newDisco : disco := {| dSearch := false; dCb := false; dQueue := []; dStreams := []; dCur := None; dDead := false; dLog := [] |}.

(** Model only: the program ends *)
Definition dies (e : effect) (s : disco) : disco :=
  {| dSearch := dSearch s; dCb := dCb s; dQueue := dQueue s; dStreams := dStreams s; dCur := dCur s; dDead := true; dLog := dLog s ++ [e] |}.

(** UpnpDiscovery.cpp:73-79: one more in the queue *)
Definition enqueue (l : location) (s : disco) : disco :=
  {| dSearch := dSearch s; dCb := dCb s; dQueue := dQueue s ++ [l]; dStreams := dStreams s; dCur := dCur s; dDead := dDead s; dLog := dLog s |}.

(** UpnpDiscovery.cpp:107-156 [queryNext]: the last of the queue; a stream in use is replaced, not closed *)
Definition queryNext (s : disco) : disco :=
  match rev (dQueue s) with
  | [] => s
  | l :: q => {| dSearch := dSearch s; dCb := dCb s; dQueue := rev q; dStreams := dStreams s ++ [(l, true)]; dCur := Some (List.length (dStreams s)); dDead := dDead s; dLog := dLog s ++ [XQuery l] |}
  end.

(** UpnpDiscovery.cpp:66-81: the parameters of one response; the text "LOCATION" is compared as it is *)
Fixpoint locations (gateway client : list Z) (params : list (list Z * list Z)) (s : disco) : disco :=
  match params with
  | [] => s
  | (k, v) :: params' =>
    if list_eqb k (txt "LOCATION") then
      match parseUrl v with
      | None => dies XThrow s
      | Some u =>
        match pAddress u with
        | [] => locations gateway client params' s
        | _ =>
          match pPort u with
          | None => dies XUnset s
          | Some p =>
            let s := if negb (p =? 0) && list_eqb gateway (pAddress u) then enqueue {| lGateway := gateway; lClient := client; lPort := p; lPath := pPath u |} s else s in
            locations gateway client params' s
          end
        end
      end
    else locations gateway client params' s
  end.

(** UpnpDiscovery.cpp:64-84: a response of the search *)
Definition response (gateway client : list Z) (params : list (list Z * list Z)) (s : disco) : disco :=
  let s := locations gateway client params s in if dDead s then s else queryNext s.

(** UpnpDiscovery.cpp:59-87 [start]; the search is active when there is an adapter *)
Definition start (s : disco) : disco :=
  if dSearch s then s else {| dSearch := true; dCb := true; dQueue := dQueue s; dStreams := dStreams s; dCur := dCur s; dDead := dDead s; dLog := dLog s |}.

(** Helper of [stop], UpnpDiscovery.cpp:98: TcpAsyncStream.cpp:52-65, the callbacks are taken away *)
Definition quiet (i : nat) (l : list (location * bool)) : list (location * bool) :=
  match nth_error l i with Some (a, _) => upd i (a, false) l | None => l end.

(** UpnpDiscovery.cpp:89-103 [stop] *)
Definition stop (s : disco) : disco :=
  {| dSearch := false; dCb := false; dQueue := []; dStreams := match dCur s with Some i => quiet i (dStreams s) | None => dStreams s end; dCur := None; dDead := dDead s; dLog := dLog s |}.

(** UpnpDiscovery.cpp:137-147 and 192-200 [onRootXmlReceive]: a whole answer on stream [i] *)
Definition answer (i : nat) (body : list Z) (s : disco) : disco :=
  match nth_error (dStreams s) i with
  | Some (l, true) =>
    match parseXml body with
    | None => s
    | Some els =>
      match parseDevices els with
      | UB => dies XBody s
      | Ok (name, m) => if dCb s then {| dSearch := dSearch s; dCb := dCb s; dQueue := dQueue s; dStreams := dStreams s; dCur := dCur s; dDead := dDead s; dLog := dLog s ++ [XDevice l name m] |}
                        else dies XNull s
      end
    end
  | _ => s
  end.

(** UpnpDiscovery.cpp:149-152: the stream closed *)
Definition closedStream (i : nat) (s : disco) : disco :=
  match nth_error (dStreams s) i with
  | Some (l, true) => queryNext {| dSearch := dSearch s; dCb := dCb s; dQueue := dQueue s; dStreams := quiet i (dStreams s); dCur := dCur s; dDead := dDead s; dLog := dLog s |}
  | _ => s
  end.

(** Model only: what happens, as the histories of the theorems *)
Inductive devent := DStart | DStop | DResponse (gateway client : list Z) (params : list (list Z * list Z)) | DAnswer (i : nat) (body : list Z) | DClosed (i : nat).

(** UpnpDiscovery.cpp: the functions above, while the program runs; responses come while the search is active (203-250) *)
Definition dstep (s : disco) (e : devent) : disco :=
  if dDead s then s else
  match e with
  | DStart => start s
  | DStop => stop s
  | DResponse g c ps => if dSearch s then response g c ps s else s
  | DAnswer i b => answer i b s
  | DClosed i => closedStream i s
  end.

(** Model only: a history *)
Definition drun (es : list devent) (s : disco) : disco := fold_left dstep es s.
