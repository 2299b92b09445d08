(** Alerts for the owner of the library: Core/AlertsManager.cpp and Public/Alerts.h. The mutex is in LockModel.v. *)
From Verif Require Import Base.

(** Alerts.h:7 [firstBit], with [n] more turns of its loop; 0 has no such bit and the loop of the code does not end *)
Fixpoint firstBitFrom (n : nat) (b number : Z) : Z := match n with O => 0 | S n' => if Z.land number b =? 0 then firstBitFrom n' (u64 (Z.shiftl b 1)) number else b end.
(** Alerts.h:7 [firstBit] *)
Definition firstBit (number : Z) : Z := firstBitFrom 64 1 number.

(** Alerts.h:11-16 [Category] *)
Inductive category := Torrent | Metadata | Config.
(** Alerts.h:13-15 *)
Definition categoryMask (c : category) : Z := match c with Torrent => 65535 | Metadata => 983040 | Config => 15728640 end.

(** Alerts.h:18-30 [Id] *)
Inductive id := TorrentFinished | TorrentAdded | TorrentRemoved | TorrentCheckStarted | TorrentCheckFinished | TorrentInterrupted | MetadataInitialized | ConfigChanged.
(** Alerts.h:20-29 *)
Definition idValue (i : id) : Z :=
  let first := firstBit (categoryMask Torrent) in
  match i with
  | TorrentFinished => first
  | TorrentAdded => Z.shiftl first 1
  | TorrentRemoved => Z.shiftl first 2
  | TorrentCheckStarted => Z.shiftl first 3
  | TorrentCheckFinished => Z.shiftl first 4
  | TorrentInterrupted => Z.shiftl first 5
  | MetadataInitialized => firstBit (categoryMask Metadata)
  | ConfigChanged => firstBit (categoryMask Config)
  end.

(** AlertsManager.h:22-25: [mask] is alertsMask, [alerts] the alerts kept, each with its id and its subject (the torrent or the kind of setting, a
    number here). *)
Record manager := { mask : Z; alerts : list (id * Z) }.

(** AlertsManager.h:25: nothing is registered *)
Definition newManager : manager := {| mask := 0; alerts := [] |}.

(** AlertsManager.cpp:64-67 [isAlertRegistered] *)
Definition isAlertRegistered (i : id) (s : manager) : bool := negb (Z.land (mask s) (idValue i) =? 0).

(** AlertsManager.cpp:6-43 [torrentAlert], [metadataAlert] and [configAlert], which differ in the type of the alert only *)
Definition alert (i : id) (subject : Z) (s : manager) : manager :=
  if isAlertRegistered i s then {| mask := mask s; alerts := alerts s ++ [(i, subject)] |} else s.

(** AlertsManager.cpp:50-53 [registerAlerts] *)
Definition registerAlerts (m : Z) (s : manager) : manager := {| mask := m; alerts := alerts s |}.

(** AlertsManager.cpp:55-62 [popAlerts] *)
Definition popAlerts (s : manager) : list (id * Z) * manager := (alerts s, {| mask := mask s; alerts := [] |}).

(** Model only: what may be called *)
Inductive event := ERegister (m : Z) | EAlert (i : id) (subject : Z) | EPop.
(** Model only: a history of those, with what each pop gives *)
Fixpoint run (es : list event) (s : manager) : list (list (id * Z)) * manager :=
  match es with
  | [] => ([], s)
  | ERegister m :: es' => run es' (registerAlerts m s)
  | EAlert i x :: es' => run es' (alert i x s)
  | EPop :: es' => let (l, s1) := popAlerts s in let (ls, s2) := run es' s1 in (l :: ls, s2)
  end.
