(** C85: what is claimed about threads that wait for each other, and what the claim leaves out. *)
From Verif Require Import Base LockModel LockCodeModel.

(** The order in which the client locks, outermost first. *)
Definition rank (m : mtx) : Z :=
  match m with
  | MTimer k _ => if (k =? tiBandwidth) || (k =? tiUtp) then 0 else if k =? tiTracker then 13 else if k =? tiDht then 14 else 9
  | MWriter _ => 0 | MStreams => 1 | MReceive false _ => 2 | MCallback false _ => 3 | MConnect => 3 | MListener => 4 | MTorrents => 5 | MState _ => 6
  | MThread k _ _ => if k =? poService then 7 else if k =? poStorage then 11 else 13
  | MCheck _ => 8 | MReceive true _ => 9 | MCallback true _ => 10 | MTrackers _ => 12 | MConfig => 12 | MComm _ => 14
  | MResponding => 15 | MRequests _ => 16 | MQueries => 17 | MPeers _ => 18 | MMeta _ => 19 | MDown _ => 19
  | MUp _ => 20 | MNodes _ => 20 | MHashes => 20 | MPexLocal _ => 20 | MPexRemote _ => 20 | MBuffers _ => 20 | MCache _ => 20 | MPieces _ => 20 | MStorage _ => 20
  | MUtp _ => 21 | MResponses => 21 | MTable => 21 | MValues => 21 | MToken => 21 | MUtpWriter _ => 22 | MBandwidth => 22 | MQueue _ _ => 22
  end.

(** What leaves this order: stopping the DHT while peers are looked for, dropping peers for bad pieces, ending a download of
    metadata that has everything, beginning one with peers already connected. *)
Definition calm (a : act) : bool :=
  match a with
  | ADhtStop qs _ => match qs with [] => true | _ => false end
  | APieceChecked _ dropped => Nat.eqb dropped 0
  | AMetaStop _ finished _ _ _ => negb finished
  | AStart _ (StMeta established _) => Nat.eqb established 0
  | AStop _ _ (Some (true, true)) _ _ _ _ _ _ => false
  | ARemove _ _ (Some (true, true)) _ _ _ _ _ _ => false
  | _ => true
  end.

(** What the threads of the pools run; the others run anything. In the pool of a torrent: neither its start nor its stop. *)
Definition runs (p : place) (a : act) : bool :=
  match p with
  | Free => true
  | Worker k _ _ =>
    if k =? poService then
      match a with
      | ATcpWrite own _ | ATcpOpened own _ | ATcpReceive own _ _ _ | ATcpClosed own _ _ _ _ _ _ _ _ | AUtpClosed own _ _ _ _ _ _ _ _ => own
      | AFindPeers _ _ _ | AStopFinding | APing | ATrackersStart _ _ | AAnnounced _ _ _ _ | ATrackerFailed _ _ _ | ATrackerTimer _ _ _ | AHttpTracker _ _
      | APeersTimer _ _ _ | APeersLook _ | AConnectNext _ _ | AConnect _ _ | ATransferTimer _ _ | AUpload _ _ _ | AFlush _ | AFinish _ _ | ASelect _ _ _ | AProgress _
      | AMetaTimer _ _ | AMetaStop _ _ _ _ _ | AMetaLook _ | AChecked _ | ACheck _ _ _ _ _ => true
      | _ => false
      end
    else if k =? poStorage then match a with APieceChecked _ _ | AFlush _ => true | _ => false end
    else if k =? poDht then match a with ARefreshTable _ _ | APing | AFindNode _ _ => true | _ => false end
    else false
  end.

(** Thread i will never be done, whatever runs. *)
Definition stuckFor (s : list thr) (i : nat) : Prop := forall more, exists t, nth_error (lrun s more) i = Some t /\ tRest t <> [].

(** All are done. *)
Definition allDone (s : list thr) : Prop := Forall (fun t => tRest t = []) s.
