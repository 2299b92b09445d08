(** Core/Downloader.cpp:226-262 [refreshPieceSources], with the peers it disconnects (the effect
    on the bookkeeping alone is in DlModel.v), over the checks of a download. *)
From Verif Require Import Base Assoc DlModel.

(** Downloader.cpp:243-254: the peer is disconnected and marked unwanted. *)
Definition dropsSource (s : checkStatus) (n : nat) (peers : list (Z * peerInfo)) (p : Z) : bool :=
  match s, aget p peers with
  | CMismatch, Some i => (n =? 1)%nat || (u32 (suspicion i + 1) >? 2)
  | _, _ => false
  end.

(** Downloader.cpp:231-261: the loop over the sources, the peers and those disconnected *)
Fixpoint sourcesLoop (s : checkStatus) (n : nat) (g : Z) (sources : list Z) (peers : list (Z * peerInfo)) : list (Z * peerInfo) * list Z :=
  match sources with
  | [] => (peers, [])
  | p :: l =>
    let (r, out) := sourcesLoop s n g l (refreshSource s n g peers p) in
    (r, if dropsSource s n peers p then p :: out else out)
  end.

(** The part of the downloader used here: Downloader.h:58, 81. *)
Record susp := { sPeers : list (Z * peerInfo); sGroup : Z }.

(** What happens to it: a check ends (191-224), a peer is first used (417 [peersRequestsInfo[comm]]), a connection is closed (109-127). *)
Inductive sev := SChecked (s : checkStatus) (sources : list Z) | SJoin (p : Z) | SLeave (p : Z).

(** One of them: Downloader.cpp:226-262, 417, 109-127. *)
Definition sstep (d : susp) (e : sev) : susp * list Z :=
  match e with
  | SChecked s sources =>
    let g := match s with CMismatch => u32 (sGroup d + 1) | _ => sGroup d end in
    let (ps, out) := sourcesLoop s (length sources) g sources (sPeers d) in ({| sPeers := ps; sGroup := g |}, out)
  | SJoin p => ({| sPeers := match aget p (sPeers d) with None => aset p noInfo (sPeers d) | Some _ => sPeers d end; sGroup := sGroup d |}, [])
  | SLeave p => ({| sPeers := adel p (sPeers d); sGroup := sGroup d |}, [])
  end.

(** Model only: the events above, in any order, as the histories of the theorems. *)
Definition srun (l : list sev) : susp := fold_left (fun d e => fst (sstep d e)) l {| sPeers := []; sGroup := 0 |}.
