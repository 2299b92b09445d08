(** Model of how the DHT keeps its table, tokens and stored peers fresh: mtTorrent/Core/Dht/Communication.cpp. *)
From Verif Require Import Base AddrModel NodeModel TableModel ResponderModel TimerModel.

(** Communication.h:55-80: the refresh timer, the responder's tokens and stored peers, and, model only, how often the table was
    refreshed *)
Record dfresh := { fsTimer : timer; fsSecrets : secrets; fsValues : values; fsRefreshed : nat }.

(** Communication.cpp:226-239 [refreshTable] with Responder.cpp:269-279 [refresh]; the pings are in PingModel.v *)
Definition refreshTable (s : dfresh) (now random : Z) : dfresh :=
  {| fsTimer := fsTimer s; fsSecrets := rotate (fsSecrets s) random; fsValues := refreshStoredValues (fsValues s) now; fsRefreshed := S (fsRefreshed s) |}.

(** Model only: record update *)
Definition setTimer (s : dfresh) (t : timer) : dfresh := {| fsTimer := t; fsSecrets := fsSecrets s; fsValues := fsValues s; fsRefreshed := fsRefreshed s |}.

(** Communication.cpp:46-60 [start]: the timer is new; seconds are the unit *)
Definition dhtStart (s : dfresh) (now random : Z) : dfresh := let s1 := refreshTable s now random in setTimer s1 (tmSchedule newTimer 305 now).

(** Model only: what happens: the clock, the timer's handler, an announce of a peer with a right token (Responder.cpp:92-110), the DHT
    switched off or on *)
Inductive fevt := FTime (now : Z) | FHandler (now random : Z) | FAnnounce (h : list Z) (peer : addr) (now : Z) | FStop | FStart (now random : Z).

(** the function of the timer, Communication.cpp:58: it returns Duration(0); 66-71 for stop, where the timer is disabled *)
Definition fstep (maxStored : Z) (s : dfresh) (e : fevt) : dfresh :=
  match e with
  | FTime now => setTimer s (tmExpire (fsTimer s) now)
  | FHandler now random => let (t, called) := tmRun (fsTimer s) 0 now in let s1 := setTimer s t in if called : bool then refreshTable s1 now random else s1
  | FAnnounce h p now => {| fsTimer := fsTimer s; fsSecrets := fsSecrets s; fsValues := announcedPeer maxStored (fsValues s) h p now; fsRefreshed := fsRefreshed s |}
  | FStop => setTimer s (tmDisable (fsTimer s))
  | FStart now random => dhtStart s now random
  end.

(** Model only: a history *)
Definition frun (maxStored : Z) (s : dfresh) (es : list fevt) : dfresh := fold_left (fstep maxStored) es s.
