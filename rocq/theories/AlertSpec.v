(** What is said of alerts *)
From Verif Require Import Base AlertModel.

(** The bit of an alert, counted from 0, as Alerts.h:11-30 lays them out *)
Definition bitOf (i : id) : Z :=
  match i with
  | TorrentFinished => 0 | TorrentAdded => 1 | TorrentRemoved => 2 | TorrentCheckStarted => 3 | TorrentCheckFinished => 4 | TorrentInterrupted => 5
  | MetadataInitialized => 16 | ConfigChanged => 20
  end.
(** The category its name says *)
Definition categoryOf (i : id) : category := match i with MetadataInitialized => Metadata | ConfigChanged => Config | _ => Torrent end.

(** The alerts of a history that the owner asked for at the time, [m] being what it asks for at first *)
Fixpoint wanted (m : Z) (es : list event) : list (id * Z) :=
  match es with
  | [] => []
  | ERegister m' :: es' => wanted m' es'
  | EAlert i x :: es' => if Z.testbit m (bitOf i) then (i, x) :: wanted m es' else wanted m es'
  | EPop :: es' => wanted m es'
  end.
