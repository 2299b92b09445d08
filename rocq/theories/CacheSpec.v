(** What a cache in front of files should do: bytes are the ones stored last. *)
From Verif Require Import Base LayoutModel LayoutSpec StorageModel StorageSpec CacheModel.

(** The byte at [x] after [hist] was stored, one block after the other, over [old]. *)
Definition latest (ps : Z) (hist : list blockData) (old : list Z) (x : Z) : Z :=
  fold_left (fun v b => if (block_start ps (binfo b) <=? x) && (x <? block_start ps (binfo b) + blength (binfo b))
                        then zn (bdata b) (x - block_start ps (binfo b)) else v) hist (zn old x).

(** The blocks a piece is cut into, and requested by. *)
Definition standard (t : torrentInfo) (i : blockInfo) : Prop :=
  0 <= bindex i /\ bindex i * pieceSize t < fullSize t /\
  exists k, 0 <= k /\ bbegin i = k * 16384 /\ bbegin i < size_of_piece (pieceSize t) (fullSize t) (bindex i) /\
    blength i = Z.min 16384 (size_of_piece (pieceSize t) (fullSize t) (bindex i) - bbegin i).

(** Groups which are being flushed have no room left. *)
Definition settled (s : cache) : Prop :=
  forall g, In g (groups s) -> In (gid g) (posted s ++ written s) -> full g = true.

(** What the block says about bytes which are still cached is the same. *)
Definition consistent (t : torrentInfo) (s : cache) (b : blockData) : Prop :=
  forall g c x, In g (groups s) -> In c (gblocks g) -> covers (pieceSize t) (cinfo c) x -> covers (pieceSize t) (binfo b) x ->
    zn (cdata g c) (x - block_start (pieceSize t) (cinfo c)) = zn (bdata b) (x - block_start (pieceSize t) (binfo b)).

(** Blocks are standard ones; a block is stored again with other bytes only when the cached one is
    gone; while the whole cache is flushed nothing is stored; it is thrown away after its flush. *)
Definition allowed (t : torrentInfo) (s : cache) (e : event) : Prop :=
  match e with
  | EStore b => standard t (binfo b) /\ zlen (bdata b) = blength (binfo b) /\ consistent t s b /\ settled s
  | EFlush => settled s
  | EEnd => posted s = [] /\ written s = [] /\ (forall g, In g (groups s) -> gblocks g = [])
  | _ => True
  end.

Fixpoint calm (t : torrentInfo) (size : Z) (s : cache) (es : list event) : Prop :=
  match es with
  | [] => True
  | e :: es' => allowed t s e /\ (forall s', step t size s e = Ok s' -> calm t size s' es')
  end.

(** The blocks stored by these steps. *)
Definition stores (es : list event) : list blockData := flat_map (fun e => match e with EStore b => [b] | _ => [] end) es.

(** Only tasks of the pool. *)
Definition tasks (es : list event) : Prop := Forall (fun e => match e with EWrite _ | EClear _ => True | _ => False end) es.
