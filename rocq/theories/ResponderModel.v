(** Model of the announce tokens and the stored peers of mtTorrent/Core/Dht/Responder.cpp. *)
From Verif Require Import Base AddrModel.

(** * Tokens *)

(** Responder.h:45: tokenSecret[0], tokenSecret[1] *)
Record secrets := { secret0 : Z; secret1 : Z }.

(** Responder.cpp:9-12; the random numbers are arguments *)
Definition startSecrets (r : Z) : secrets := {| secret0 := r; secret1 := r |}.

(** Responder.cpp:257-267; the characters of an address are ASCII *)
Definition getAnnounceToken (text : list Z) (secret : Z) : Z := fold_left (fun out c => u32 (out + c)) text secret.

(** Responder.cpp:250-255 *)
Definition tokenFor (s : secrets) (text : list Z) : Z := getAnnounceToken text (secret0 s).

(** Responder.cpp:236-248 *)
Definition isValidToken (s : secrets) (token : Z) (text : list Z) : bool :=
  (getAnnounceToken text (secret0 s) =? token) || (getAnnounceToken text (secret1 s) =? token).

(** Responder.cpp:273-278 *)
Definition rotate (s : secrets) (r : Z) : secrets := {| secret0 := r; secret1 := secret0 s |}.

(** * Stored peers *)

(** Responder.h:33-37 *)
Record storedValue := { vaddr : addr; timestamp : Z }.

(** Responder.h:40: std::map from the info hash to the peers, as a list of pairs with distinct keys *)
Definition values := list (list Z * list storedValue).

(** Helper of [announcedPeer], Responder.cpp:187-211. *)
Fixpoint lookup (h : list Z) (m : values) : option (list storedValue) :=
  match m with [] => None | (k, v) :: m' => if list_eqb k h then Some v else lookup h m' end.
(** Helper of [announcedPeer], Responder.cpp:187-211. *)
Fixpoint store (h : list Z) (v : list storedValue) (m : values) : values :=
  match m with [] => [(h, v)] | (k, w) :: m' => if list_eqb k h then (k, v) :: m' else (k, w) :: store h v m' end.

(** Responder.cpp:202-208: replace the first equal address; [None] if there is none *)
Fixpoint replaceValue (v : storedValue) (l : list storedValue) : option (list storedValue) :=
  match l with
  | [] => None
  | x :: l' => if addrEq (vaddr x) (vaddr v) then Some (v :: l') else option_map (cons x) (replaceValue v l')
  end.

(** Responder.cpp:187-211; [maxStored] is the setting maxStoredAnnouncedPeers *)
Definition announcedPeer (maxStored : Z) (m : values) (h : list Z) (peer : addr) (now : Z) : values :=
  let vals := match lookup h m with Some l => l | None => [] end in
  let v := {| vaddr := peer; timestamp := now |} in
  store h (match replaceValue v vals with
           | Some l => l
           | None => if zlen vals <? maxStored then vals ++ [v] else vals
           end) m.

(** Responder.cpp:213-234 *)
Definition refreshStoredValues (m : values) (now : Z) : values :=
  let oldestTime := u64 (now - 1800) in
  filter (fun '(_, v) => match v with [] => false | _ => true end)
    (map (fun '(k, v) => (k, filter (fun x => negb (timestamp x <? oldestTime)) v)) m).

(** Responder.cpp:168-177: the peers written; [count < maxcount] and the right family *)
Fixpoint pickValues (maxcount count : Z) (wantv6 : bool) (l : list storedValue) : list addr :=
  match l with
  | [] => []
  | v :: l' => if (count <? maxcount) && eqb (ipv6 (vaddr v)) wantv6 then vaddr v :: pickValues maxcount (u32 (count + 1)) wantv6 l'
               else pickValues maxcount count wantv6 l'
  end.

(** Responder.cpp:150-185: the peers of the answer; maxcount / 3.0f is exact enough for counts below 2^24 *)
Definition answerPeers (maxResponse : Z) (m : values) (h : list Z) (wantv6 : bool) : list addr :=
  match lookup h m with
  | None => []
  | Some l => pickValues (if wantv6 then maxResponse / 3 else maxResponse) 0 wantv6 l
  end.
