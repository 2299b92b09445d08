(** What a .torrent file says (BEP 3, BEP 12), read off the bencoded value. *)
From Verif Require Import Base BencodeSpec LayoutModel TfModel.

Definition textOf (k : list Z) (d : list (list Z * bval)) : list Z := match lookup k KStr d with Some (BStr s) => s | _ => [] end.
Definition numberOf (k : list Z) (d : list (list Z * bval)) : Z := match lookup k KInt d with Some (BInt n) => n | _ => 0 end.
Definition listOf (k : list Z) (d : list (list Z * bval)) : option (list bval) := match lookup k KList d with Some (BList l) => Some l | _ => None end.
Definition dictOf (k : list Z) (d : list (list Z * bval)) : option (list (list Z * bval)) := match lookup k KDict d with Some (BDict e) => Some e | _ => None end.

Definition text (v : bval) : list Z := match v with BStr s => s | _ => [] end.
Definition texts (l : list bval) : list (list Z) := concat (map (fun v => match v with BStr s => [s] | _ => [] end) l).

(** The trackers: all of the announce-list, or the announce address. *)
Definition trackers (d : list (list Z * bval)) : list (list Z) :=
  match listOf kAnnounceList d with
  | Some l => concat (map (fun v => match v with BList t => texts t | _ => [] end) l)
  | None => match textOf kAnnounce d with [] => [] | a => [a] end
  end.

(** A file of a torrent with several: its name, its path below the torrent's directory, its size. *)
Definition file_entry (name : list Z) (f : list (list Z * bval)) : list Z * list (list Z) * Z :=
  let p := match listOf kPath f with Some l => map text l | None => [] end in
  (last p [], name :: removelast p, numberOf kLength f).

Definition entries (v : bval) : list (list Z * bval) := match v with BDict f => f | _ => [] end.

(** The hashes of the pieces: the text cut into groups of 20 bytes. *)
Definition hashes_of (t : list Z) (hs : list (list Z)) : Prop :=
  if zlen t mod 20 =? 0 then concat hs = t /\ Forall (fun h => length h = 20%nat) hs else hs = [].
