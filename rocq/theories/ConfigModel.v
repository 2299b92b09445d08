(** Core/Configuration.cpp and Api/Configuration.h: the settings, their file and their changes.
    Files, directories and the default directory ([getDefaultDirectory], 18-45) are outside: the
    default directory is an argument, the file is its text. *)
From Verif Require Import Base XmlModel.
From Coq Require Import String.
From Coq Require Import List.
Import ListNotations.

Open Scope Z_scope.

(** Api/Configuration.h 20 *)
Inductive encryption := EncRefuse | EncAllow | EncRequire.
(** Also Configuration.h 20. *)
Definition encEqb (a b : encryption) : bool := match a, b with EncRefuse, EncRefuse | EncAllow, EncAllow | EncRequire, EncRequire => true | _, _ => false end.

(** Api/Configuration.h 29-46, with the defaults *)
Record connCfg := { tcpPort : Z; udpPort : Z; maxConns : Z; upnp : bool; tcpIn : bool; tcpOut : bool; utpIn : bool; utpOut : bool; preferUtp : bool; enc : encryption }.
(** Also Configuration.h 29-46. *)
Definition connDefault : connCfg := {| tcpPort := 55125; udpPort := 55125; maxConns := 50; upnp := false; tcpIn := true; tcpOut := true; utpIn := true; utpOut := true; preferUtp := false; enc := EncAllow |}.
(** Api/Configuration.h:49-67 *)
Record external := { conn : connCfg; dhtEnabled : bool; maxDown : Z; maxUp : Z; directory : list Z }.
(** Also Api/Configuration.h:49-67. *)
Definition externalDefault : external := {| conn := connDefault; dhtEnabled := true; maxDown := 0; maxUp := 0; directory := [] |}.

(** The kinds of change, Api/Configuration.h 104 *)
Inductive vtype := VConnection | VDht | VFiles | VTransfer.
(** Also Configuration.h 104. *)
Definition vtypeEqb (a b : vtype) : bool := match a, b with VConnection, VConnection | VDht, VDht | VFiles, VFiles | VTransfer, VTransfer => true | _, _ => false end.

(** Helper of [saveText], Configuration.cpp:253-296. *)
Definition b2z (b : bool) : Z := if b then 1 else 0.

(** Configuration.cpp:253-296 the text written by [save] *)
Definition saveText (hashId : list Z) (e : external) : list Z :=
  let c := conn e in
  let b := wRoot [] (txt "config") in
  let b := wChild 1 b (txt "internal") in
  let b := wCData 1 b (txt "hashId") hashId in
  let b := wClose 1 true b (txt "internal") in
  let b := wChild 1 b (txt "external") in
  let b := wChild 2 b (txt "connection") in
  let b := wNumber 2 b (txt "tcpPort") (tcpPort c) in
  let b := wNumber 2 b (txt "udpPort") (udpPort c) in
  let b := wNumber 2 b (txt "maxTorrentConnections") (maxConns c) in
  let b := wNumber 2 b (txt "upnpPortMapping") (b2z (upnp c)) in
  let b := wNumber 2 b (txt "enableTcpIn") (b2z (tcpIn c)) in
  let b := wNumber 2 b (txt "enableTcpOut") (b2z (tcpOut c)) in
  let b := wNumber 2 b (txt "enableUtpIn") (b2z (utpIn c)) in
  let b := wNumber 2 b (txt "enableUtpOut") (b2z (utpOut c)) in
  let b := wClose 2 true b (txt "connection") in
  let b := wChild 2 b (txt "dht") in
  let b := wNumber 2 b (txt "enabled") (b2z (dhtEnabled e)) in
  let b := wClose 2 true b (txt "dht") in
  let b := wChild 2 b (txt "transfer") in
  let b := wNumber 2 b (txt "maxDownloadSpeed") (maxDown e) in
  let b := wNumber 2 b (txt "maxUploadSpeed") (maxUp e) in
  let b := wClose 2 true b (txt "transfer") in
  let b := wChild 2 b (txt "files") in
  let b := wCData 2 b (txt "directory") (directory e) in
  let b := wClose 2 true b (txt "files") in
  let b := wClose 1 true b (txt "external") in
  wClose 0 true b (txt "config").

(** [if (auto i = node->firstNode(name)) field = conv(i->valueNumber())]. For [loadConn], Configuration.cpp:202-220. *)
Definition readNum {A} (l : list xel) (node : nat) (name : list Z) (conv : Z -> A) (old : A) : res A :=
  bind (firstNamed l node name) (fun r => match r with None => Ok old | Some i => bind (xnumber l i) (fun v => Ok (conv v)) end).
(** Helper of [loadExternal], Configuration.cpp:200-238. *)
Definition readText (l : list xel) (node : nat) (name : list Z) (old : list Z) : res (list Z) :=
  bind (firstNamed l node name) (fun r => match r with None => Ok old | Some i => xvalue l i end).
(** Helper of [loadConn], Configuration.cpp:202-220. *)
Definition toBool (v : Z) : bool := negb (v =? 0).
(** Helper of [loadExternal], Configuration.cpp:200-238. *)
Definition inNode {A} (l : list xel) (node : nat) (name : list Z) (old : A) (f : nat -> res A) : res A :=
  bind (firstNamed l node name) (fun r => match r with None => Ok old | Some i => f i end).

(** Configuration.cpp:202-220 *)
Definition loadConn (l : list xel) (i : nat) (c : connCfg) : res connCfg :=
  bind (readNum l i (txt "tcpPort") u16 (tcpPort c)) (fun a1 =>
  bind (readNum l i (txt "udpPort") u16 (udpPort c)) (fun a2 =>
  bind (readNum l i (txt "maxTorrentConnections") u32 (maxConns c)) (fun a3 =>
  bind (readNum l i (txt "upnpPortMapping") toBool (upnp c)) (fun a4 =>
  bind (readNum l i (txt "enableTcpIn") toBool (tcpIn c)) (fun a5 =>
  bind (readNum l i (txt "enableTcpOut") toBool (tcpOut c)) (fun a6 =>
  bind (readNum l i (txt "enableUtpIn") toBool (utpIn c)) (fun a7 =>
  bind (readNum l i (txt "enableUtpOut") toBool (utpOut c)) (fun a8 =>
  Ok {| tcpPort := a1; udpPort := a2; maxConns := a3; upnp := a4; tcpIn := a5; tcpOut := a6; utpIn := a7; utpOut := a8;
        preferUtp := preferUtp c; enc := enc c |})))))))).

(** Configuration.cpp:200-238 *)
Definition loadExternal (l : list xel) (x : nat) (e : external) : res external :=
  bind (inNode l x (txt "connection") (conn e) (fun i => loadConn l i (conn e))) (fun c =>
  bind (inNode l x (txt "dht") (dhtEnabled e) (fun i => readNum l i (txt "enabled") toBool (dhtEnabled e))) (fun d =>
  bind (inNode l x (txt "transfer") (maxDown e, maxUp e) (fun i =>
        bind (readNum l i (txt "maxDownloadSpeed") u32 (maxDown e)) (fun a => bind (readNum l i (txt "maxUploadSpeed") u32 (maxUp e)) (fun b => Ok (a, b))))) (fun t =>
  bind (inNode l x (txt "files") (directory e) (fun i => readText l i (txt "directory") (directory e))) (fun f =>
  Ok {| conn := c; dhtEnabled := d; maxDown := fst t; maxUp := snd t; directory := f |})))).

(** Configuration.cpp:187-243 [load] of the file's text (or no file): the identity, the settings, and [dirty] *)
Definition loadText (defaultDir : list Z) (file : option (list Z)) (hashId : list Z) (e : external) (dirty : bool) : res (list Z * external * bool) :=
  let fix0 := fun e' => match directory e' with
                        | [] => {| conn := conn e'; dhtEnabled := dhtEnabled e'; maxDown := maxDown e'; maxUp := maxUp e'; directory := defaultDir |}
                        | _ => e' end in
  match file with
  | None => Ok (hashId, fix0 e, dirty)
  | Some text =>
    match parseXml text with
    | None => Ok (hashId, fix0 e, dirty)
    | Some l =>
      bind (inNode l 0%nat (txt "internal") hashId (fun i =>
        bind (xvalueNamed l i (txt "hashId")) (fun id => Ok (if zlen id =? 20 then id else hashId)))) (fun h =>
      bind (inNode l 0%nat (txt "external") e (fun i => loadExternal l i e)) (fun e' =>
      Ok (h, fix0 e', false)))
    end
  end.

(** ** Changing settings: 54-143, 151-166, 246-249 *)
(** The module's variables: [file] is what was last written, [called] the callbacks run so far,
    each with its number (56, 67-71: in ascending order). For [saveCfg], Configuration.cpp:246-298. *)
Record cfg := { cHash : list Z; cExt : external; cDirty : bool; cFile : option (list Z); cCbs : list (Z * vtype); cReg : Z; cCalled : list Z }.

(** Configuration.cpp:246-298; [writable]: the file could be opened (which empties it) *)
Definition saveCfg (writable : bool) (s : cfg) : cfg :=
  if cDirty s && writable then
    {| cHash := cHash s; cExt := cExt s; cDirty := cDirty s; cFile := Some (saveText (cHash s) (cExt s)); cCbs := cCbs s; cReg := cReg s; cCalled := cCalled s |}
  else s.

(** Configuration.cpp:59-72 *)
Definition triggerChange (writable : bool) (t : vtype) (s : cfg) : cfg :=
  let s1 := {| cHash := cHash s; cExt := cExt s; cDirty := true; cFile := cFile s; cCbs := cCbs s; cReg := cReg s; cCalled := cCalled s |} in
  let s2 := saveCfg writable s1 in
  {| cHash := cHash s2; cExt := cExt s2; cDirty := cDirty s2; cFile := cFile s2; cCbs := cCbs s2; cReg := cReg s2;
     cCalled := cCalled s2 ++ map fst (filter (fun c => vtypeEqb (snd c) t) (cCbs s2)) |}.

(** Helper of [setConn], Configuration.cpp:84-101. *)
Definition withExt (s : cfg) (e : external) : cfg :=
  {| cHash := cHash s; cExt := e; cDirty := cDirty s; cFile := cFile s; cCbs := cCbs s; cReg := cReg s; cCalled := cCalled s |}.

(** Configuration.cpp:84-101 *)
Definition setConn (w : bool) (v : connCfg) (s : cfg) : cfg :=
  let e := cExt s in let c := conn e in
  if negb (tcpPort v =? tcpPort c) || negb (udpPort v =? udpPort c) || negb (maxConns v =? maxConns c) || xorb (upnp v) (upnp c) ||
     xorb (tcpIn v) (tcpIn c) || xorb (tcpOut v) (tcpOut c) || xorb (utpIn v) (utpIn c) || xorb (utpOut v) (utpOut c) || negb (encEqb (enc v) (enc c))
  then triggerChange w VConnection (withExt s {| conn := v; dhtEnabled := dhtEnabled e; maxDown := maxDown e; maxUp := maxUp e; directory := directory e |})
  else s.
(** Configuration.cpp:103-112 *)
Definition setDht (w : bool) (v : bool) (s : cfg) : cfg :=
  let e := cExt s in
  if xorb v (dhtEnabled e) then triggerChange w VDht (withExt s {| conn := conn e; dhtEnabled := v; maxDown := maxDown e; maxUp := maxUp e; directory := directory e |}) else s.
(** Configuration.cpp:114-123 *)
Definition setFiles (w : bool) (v : list Z) (s : cfg) : cfg :=
  let e := cExt s in
  if list_eqb v (directory e) then s else triggerChange w VFiles (withExt s {| conn := conn e; dhtEnabled := dhtEnabled e; maxDown := maxDown e; maxUp := maxUp e; directory := v |}).
(** Configuration.cpp:125-135 *)
Definition setTransfer (w : bool) (v : Z * Z) (s : cfg) : cfg :=
  let e := cExt s in
  if negb (fst v =? maxDown e) || negb (snd v =? maxUp e)
  then triggerChange w VTransfer (withExt s {| conn := conn e; dhtEnabled := dhtEnabled e; maxDown := fst v; maxUp := snd v; directory := directory e |}) else s.
(** Configuration.cpp:137-143 *)
Definition setAll (w : bool) (v : external) (s : cfg) : cfg :=
  setTransfer w (maxDown v, maxUp v) (setDht w (dhtEnabled v) (setConn w (conn v) (setFiles w (directory v) s))).

(** Configuration.cpp:151-157 *)
Definition registerCb (t : vtype) (s : cfg) : Z * cfg :=
  let n := cReg s + 1 in
  (n, {| cHash := cHash s; cExt := cExt s; cDirty := cDirty s; cFile := cFile s; cCbs := cCbs s ++ [(n, t)]; cReg := n; cCalled := cCalled s |}).
(** Configuration.cpp:159-166 *)
Definition unregisterCb (id : Z) (s : cfg) : cfg :=
  {| cHash := cHash s; cExt := cExt s; cDirty := cDirty s; cFile := cFile s; cCbs := filter (fun c => negb (fst c =? id)) (cCbs s); cReg := cReg s; cCalled := cCalled s |}.
