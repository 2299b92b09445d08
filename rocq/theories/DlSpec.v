(** What the claims about the downloader mean *)
From Verif Require Import Base LayoutModel ProgressModel ProgressSpec Assoc DlModel.

(** Block [k] of piece [idx] was asked from peer [p] and nothing was heard of it since *)
Definition flagged (info : peerInfo) (idx k : Z) : Prop :=
  exists e, In e (cur info) /\ rIdx e = idx /\ 0 <= k /\ nth (Z.to_nat k) (rBlocks e) false = true.

Definition outstanding (d : dl) (p idx k : Z) : Prop := exists info, aget p (dPeers d) = Some info /\ flagged info idx k.

(** How many are outstanding for a peer *)
Definition ones (l : list bool) : Z := zlen (filter (fun b => b) l).

Definition load (d : dl) (p : Z) : Z :=
  match aget p (dPeers d) with Some info => fold_right (fun e s => ones (rBlocks e) + s) 0 (cur info) | None => 0 end.

(** Someone downloads the piece *)
Definition taken (d : dl) (p idx : Z) : Prop := exists info, aget p (dPeers d) = Some info /\ In idx (map rIdx (cur info)).

(** The peer [p] was seen with the piece [idx] *)
Definition claimed (past : list ((Z -> view) * devent)) (p idx : Z) : Prop := exists vs e, In (vs, e) past /\ has (vs p) idx = true.

(** The torrent's pieces all have blocks, fewer than 65536 *)
Definition plain (t : torrentInfo) (n : Z) : Prop := forall idx, 0 <= idx < n -> 0 < getPieceBlocksCount t idx < 65536.

(** An unfinished piece: as many blocks as the piece has, some missing *)
Definition zeros (l : list Z) : Z := zlen (filter (Z.eqb 0) l).

Definition partway (t : torrentInfo) (idx : Z) (s : pieceState) : Prop :=
  psIndex s = idx /\ zlen (psBlocks s) = getPieceBlocksCount t idx /\ psRemaining s = zeros (psBlocks s) /\ 0 < zeros (psBlocks s).

Definition in_range (n : Z) (l : list (Z * Z)) : Prop := Forall (fun ip => 0 <= fst ip < n) l.

(** What may happen: selections are about the pieces of the torrent, a Have names one of them *)
Definition possible (n : Z) (e : devent) : Prop :=
  match e with
  | MBlock p b => 0 <= bbegin b < 4294967296
  | MHave p idx => 0 <= idx < n
  | MSelect pr sorted => zlen (pieces pr) = n /\ flags_ok pr /\ exact pr /\ in_range n sorted
  | MSort sorted => in_range n sorted
  | MFlags pr => zlen (pieces pr) = n /\ flags_ok pr /\ exact pr
  | _ => True
  end.

(** A block sent by a peer begins inside its piece *)
Definition begins_inside (t : torrentInfo) (e : devent) : Prop :=
  match e with MBlock p b => bbegin b < getPieceBlocksCount t (bindex b) * 16384 | _ => True end.

(** A block was stored for place [k] of piece [idx] *)
Definition stored_at (l : list blockInfo) (idx k : Z) : Prop := exists b, In b l /\ bindex b = idx /\ u32 (bbegin b + 1) / 16384 = k.

Definition start_ok (t : torrentInfo) (n : Z) (pr : progress) (unf : list pieceState) (stored : list blockInfo) : Prop :=
  zlen (pieces pr) = n /\ flags_ok pr /\ exact pr /\ plain t n /\
  Forall (fun u => psBlocks u = [] \/ (partway t (psIndex u) u /\
    forall k, 0 <= k < zlen (psBlocks u) -> nth (Z.to_nat k) (psBlocks u) 1 <> 0 -> stored_at stored (psIndex u) k)) unf.

(** The only reasons to ask again for a block which was asked from that peer: it unchoked, or it just
    answered *)
Definition again (e : devent) (p idx k : Z) : Prop :=
  match e with MUnchoke q => q = p | MBlock q b => q = p /\ bindex b = idx /\ bbegin b / 16384 = k | _ => False end.

(** Nothing more can be asked from the peer: it chokes, or has as many requests as its speed allows, or
    all the missing blocks of its pieces are asked from it and every other piece it could give is being
    downloaded from peers suspected together with it *)
Definition fully_used (t : torrentInfo) (v : view) (d : dl) (p : Z) : Prop :=
  choking v = false -> aget p (dPeers d) <> None -> load d p < limit v ->
  (forall i r k, taken d p i -> aget i (dReqs d) = Some r -> 0 <= k < getPieceBlocksCount t i -> nth (Z.to_nat k) (psBlocks (rPiece r)) 1 = 0 -> outstanding d p i k) /\
  (forall i, In i (map fst (dSorted d)) -> isMissing d i = true -> has v i = true -> exists r, aget i (dReqs d) = Some r /\ (exists q, taken d q i) /\
     (taken d p i \/ exists info, aget p (dPeers d) = Some info /\ suspGroup info <> 0 /\ In (suspGroup info) (rGroups r))).

(** A check of piece [idx] which ended well is among the events *)
Definition verified (t : torrentInfo) (d0 : dl) (es : list ((Z -> view) * devent)) (idx : Z) : Prop :=
  exists es1 vs k es2 d1 r, es = es1 ++ (vs, MChecked k CSuccess) :: es2 /\ drun t d0 es1 = Ok d1 /\ nth_error (dChecking d1) k = Some (idx, r).

(** Selecting files does not change what was received *)
Definition keeps (d : dl) (e : devent) : Prop :=
  match e with MSelect pr _ | MFlags pr => forall i, 0 <= i -> is_received pr i = is_received (dProg d) i | _ => True end.

Inductive history (t : torrentInfo) (n : Z) (d0 : dl) : list ((Z -> view) * devent) -> dl -> Prop :=
| h_start : history t n d0 [] d0
| h_step es d vs e d' : history t n d0 es d -> possible n e -> begins_inside t e -> keeps d e -> dstep t vs d e = Ok d' -> history t n d0 (es ++ [(vs, e)]) d'.
