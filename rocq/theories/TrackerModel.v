(** Model of mtTorrent/Core/TrackerManager.cpp. A communication object is a number, given out in
    order. Pointers to entries of the vector are the index and the generation of the vector's
    storage they were taken in: a reallocation and a [clear] make those taken before invalid. *)
From Verif Require Import Base UriModel.

(** Helper of [addTracker], TrackerManager.cpp:34-67. *)
Definition pUdp : list Z := [117;100;112].
(** Helper of [addTracker], TrackerManager.cpp:34-67. *)
Definition pHttp : list Z := [104;116;116;112].
(** Helper of [addTracker], TrackerManager.cpp:34-67. *)
Definition pHttps : list Z := [104;116;116;112;115].

(** TrackerManager.h:32-43; [ttimer] is the generation of the pointer in the timer's function. *)
Record tinfo := { tproto : list Z; thost : list Z; tport : list Z; tfull : list Z; tcomm : option Z; ttimer : option Z;
                  tfallback : bool; tused : bool; tretry : Z }.

(** [mcap] is the capacity of the vector, [mposted] the functions posted by line TrackerManager.cpp:151, [mlog] what
    the timers were scheduled to (communication object and seconds), [mannounced] the announces
    started (communication object). *)
Record tmgr := { mtr : list tinfo; mcap : nat; mgen : Z; mnextc : Z; mcb : bool; mposted : list (Z * nat); mlog : list (Z * Z); mannounced : list Z }.

(** TrackerManager.h, the initial values of the members. *)
Definition newMgr : tmgr := {| mtr := []; mcap := 0; mgen := 0; mnextc := 0; mcb := false; mposted := []; mlog := []; mannounced := [] |}.

(** Helper of [addTracker], TrackerManager.cpp:34-67. *)
Definition setTr (s : tmgr) (l : list tinfo) : tmgr :=
  {| mtr := l; mcap := mcap s; mgen := mgen s; mnextc := mnextc s; mcb := mcb s; mposted := mposted s; mlog := mlog s; mannounced := mannounced s |}.

(** TrackerManager.cpp:230-239 and 219-228 *)
Fixpoint findHost (h : list Z) (l : list tinfo) : option nat :=
  match l with
  | [] => None
  | t :: l' => if list_eqb (thost t) h then Some O else match findHost h l' with Some k => Some (S k) | None => None end
  end.
(** Also TrackerManager.cpp:230-239, 219-228. *)
Fixpoint findComm (c : Z) (l : list tinfo) : option nat :=
  match l with
  | [] => None
  | t :: l' => if match tcomm t with Some c' => c' =? c | None => false end then Some O else match findComm c l' with Some k => Some (S k) | None => None end
  end.

(** Helper of [addTracker], TrackerManager.cpp:34-67. *)
Definition noInfo : tinfo := {| tproto := []; thost := []; tport := []; tfull := []; tcomm := None; ttimer := None; tfallback := false; tused := false; tretry := 0 |}.

(** [push_back]: with a full vector the storage is replaced (twice as large). For [addTracker], TrackerManager.cpp:34-67. *)
Definition pushBack (s : tmgr) (t : tinfo) : tmgr :=
  let full := Nat.eqb (length (mtr s)) (mcap s) in
  {| mtr := mtr s ++ [t]; mcap := if full then Nat.max 1 (2 * mcap s) else mcap s; mgen := if full then mgen s + 1 else mgen s;
     mnextc := mnextc s; mcb := mcb s; mposted := mposted s; mlog := mlog s; mannounced := mannounced s |}.

(** Helper of [addTracker], TrackerManager.cpp:34-67. *)
Definition updTr (s : tmgr) (i : nat) (f : tinfo -> tinfo) : tmgr := setTr s (upd i (f (nth i (mtr s) noInfo)) (mtr s)).

(** TrackerManager.cpp:34-67; the result, whether anything was added, is left out. *)
Definition addTracker (s : tmgr) (addr : list Z) : tmgr :=
  let u := uriParse addr in
  let info := {| tproto := uprotocol u; thost := uhost u; tport := uport u; tfull := addr; tcomm := None; ttimer := None; tfallback := false; tused := false; tretry := 0 |} in
  if negb (match uport u with [] => true | _ => false end) then
    match findHost (uhost u) (mtr s) with
    | Some k =>
      let i := nth k (mtr s) noInfo in
      if list_eqb (tport i) (uport u) then
        if (list_eqb (tproto i) pHttp || list_eqb (uprotocol u) pHttp) && (list_eqb (tproto i) pUdp || list_eqb (uprotocol u) pUdp) &&
           match tcomm i with None => true | Some _ => false end
        then updTr s k (fun i => {| tproto := pUdp; thost := thost i; tport := tport i; tfull := tfull i; tcomm := tcomm i; ttimer := ttimer i; tfallback := true; tused := tused i; tretry := tretry i |})
        else s
      else pushBack s info
    | None => pushBack s info
    end
  else if list_eqb (uprotocol u) pHttps then pushBack s info
  else s.

(** TrackerManager.cpp:180-203; [ssl]: built with MTT_WITH_SSL. *)
Definition startTracker (ssl : bool) (s : tmgr) (i : nat) : tmgr :=
  let t := nth i (mtr s) noInfo in
  if list_eqb (tproto t) pUdp || list_eqb (tproto t) pHttp || (ssl && list_eqb (tproto t) pHttps) then
    let t' := {| tproto := tproto t; thost := thost t; tport := tport t; tfull := tfull t; tcomm := Some (mnextc s); ttimer := Some (mgen s);
                 tfallback := tfallback t; tused := tused t; tretry := 0 |} in
    {| mtr := upd i t' (mtr s); mcap := mcap s; mgen := mgen s; mnextc := mnextc s + 1; mcb := mcb s; mposted := mposted s; mlog := mlog s;
       mannounced := mannounced s ++ [mnextc s] |}
  else s.

(** Helper of [startAll], TrackerManager.cpp:12-23. *)
Fixpoint startFrom (ssl : bool) (s : tmgr) (i n : nat) : tmgr :=
  match n with O => s | S n' => startFrom ssl (startTracker ssl s i) (S i) n' end.

(** TrackerManager.cpp:12-23 *)
Definition startAll (ssl : bool) (s : tmgr) : tmgr :=
  startFrom ssl {| mtr := mtr s; mcap := mcap s; mgen := mgen s; mnextc := mnextc s; mcb := true; mposted := mposted s; mlog := mlog s; mannounced := mannounced s |}
            0 (length (mtr s)).

(** TrackerManager.cpp:25-32 with 205-217 *)
Definition stopAll (s : tmgr) : tmgr :=
  {| mtr := map (fun t => {| tproto := tproto t; thost := thost t; tport := tport t; tfull := tfull t; tcomm := None; ttimer := None;
                             tfallback := tfallback t; tused := tused t; tretry := 0 |}) (mtr s);
     mcap := mcap s; mgen := mgen s; mnextc := mnextc s; mcb := false; mposted := mposted s; mlog := mlog s; mannounced := mannounced s |}.

(** TrackerManager.cpp:77-81 *)
Definition removeAll (s : tmgr) : tmgr :=
  {| mtr := []; mcap := mcap s; mgen := mgen s + 1; mnextc := mnextc s; mcb := mcb s; mposted := mposted s; mlog := mlog s; mannounced := mannounced s |}.

(** Helper of [onAnnounced], TrackerManager.cpp:115-133. *)
Definition schedule (s : tmgr) (c n : Z) : tmgr :=
  {| mtr := mtr s; mcap := mcap s; mgen := mgen s; mnextc := mnextc s; mcb := mcb s; mposted := mposted s; mlog := mlog s ++ [(c, n)]; mannounced := mannounced s |}.

(** Helper of [onAnnounced], TrackerManager.cpp:115-133. *)
Definition setRetry (t : tinfo) (n : Z) : tinfo :=
  {| tproto := tproto t; thost := thost t; tport := tport t; tfull := tfull t; tcomm := tcomm t; ttimer := ttimer t; tfallback := tfallback t; tused := tused t; tretry := n |}.
(** Helper of [onTrackerFail], TrackerManager.cpp:135-178. *)
Definition setProto (t : tinfo) (p : list Z) (used : bool) : tinfo :=
  {| tproto := p; thost := thost t; tport := tport t; tfull := tfull t; tcomm := tcomm t; ttimer := ttimer t; tfallback := tfallback t; tused := used; tretry := tretry t |}.
(** Helper of [runPosted], TrackerManager.cpp:151-157. *)
Definition noComm (t : tinfo) : tinfo :=
  {| tproto := tproto t; thost := thost t; tport := tport t; tfull := tfull t; tcomm := None; ttimer := ttimer t; tfallback := tfallback t; tused := tused t; tretry := tretry t |}.

(** TrackerManager.cpp:115-133 *)
Definition onAnnounced (s : tmgr) (c interval : Z) : tmgr :=
  if negb (mcb s) then s
  else match findComm c (mtr s) with
       | Some i => schedule (updTr s i (fun t => setRetry t 0)) c interval
       | None => s
       end.

(** TrackerManager.cpp:135-178 *)
Definition onTrackerFail (ssl : bool) (s : tmgr) (c : Z) : tmgr :=
  if negb (mcb s) then s
  else match findComm c (mtr s) with
       | None => s
       | Some i =>
         let t := nth i (mtr s) noInfo in
         if tfallback t && negb (tused t) && list_eqb (tproto t) pUdp then
           let s1 := updTr s i (fun t => setProto t pHttp true) in
           {| mtr := mtr s1; mcap := mcap s1; mgen := mgen s1; mnextc := mnextc s1; mcb := mcb s1; mposted := mposted s1 ++ [(mgen s1, i)]; mlog := mlog s1; mannounced := mannounced s1 |}
         else if tfallback t && tused t && list_eqb (tproto t) pHttp then
           startTracker ssl (updTr s i (fun t => setProto t pUdp (tused t))) i
         else
           let n := u32 (tretry t + 1) in
           schedule (updTr s i (fun t => setRetry t n)) c (u32 (30 * n))
       end.

(** TrackerManager.cpp:151-157: the first function posted is run. *)
Definition runPosted (ssl : bool) (s : tmgr) : res tmgr :=
  match mposted s with
  | [] => Ok s
  | (g, i) :: l =>
    let s1 := {| mtr := mtr s; mcap := mcap s; mgen := mgen s; mnextc := mnextc s; mcb := mcb s; mposted := l; mlog := mlog s; mannounced := mannounced s |} in
    if (g =? mgen s) && Nat.ltb i (length (mtr s)) then Ok (startTracker ssl (updTr s1 i noComm) i) else UB
  end.

(** The timer of an entry fires (TrackerManager.cpp:197). *)
Definition timerFires (s : tmgr) (i : nat) : res tmgr :=
  match ttimer (nth i (mtr s) noInfo) with
  | None => Ok s
  | Some g =>
    if g =? mgen s then
      match tcomm (nth i (mtr s) noInfo) with
      | Some c => Ok {| mtr := mtr s; mcap := mcap s; mgen := mgen s; mnextc := mnextc s; mcb := mcb s; mposted := mposted s; mlog := mlog s; mannounced := mannounced s ++ [c] |}
      | None => UB
      end
    else UB
  end.

(** Model only: the calls and events above, in any order, as the histories of the theorems. *)
Inductive tevent := TAdd (addr : list Z) | TStart | TStop | TRemove | TAnnounced (c interval : Z) | TFailed (c : Z) | TPosted | TTimer (i : nat).

(** Model only: the calls and events above, in any order, as the histories of the theorems. *)
Definition tstep (ssl : bool) (s : tmgr) (e : tevent) : res tmgr :=
  match e with
  | TAdd a => Ok (addTracker s a)
  | TStart => Ok (startAll ssl s)
  | TStop => Ok (stopAll s)
  | TRemove => Ok (removeAll s)
  | TAnnounced c n => Ok (onAnnounced s c n)
  | TFailed c => Ok (onTrackerFail ssl s c)
  | TPosted => runPosted ssl s
  | TTimer i => timerFires s i
  end.

(** Model only: the calls and events above, in any order, as the histories of the theorems. *)
Fixpoint trun (ssl : bool) (s : tmgr) (es : list tevent) : res tmgr :=
  match es with [] => Ok s | e :: es' => bind (tstep ssl s e) (fun s' => trun ssl s' es') end.
