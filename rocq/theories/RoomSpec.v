(** The bytes of files in wanted pieces. *)
From Verif Require Import Base LayoutModel LayoutSpec.

(** Piece [p] is wanted: a selected file reaches it. *)
Fixpoint wanted_piece (fs : list file) (sel : list bool) (p : Z) : bool :=
  match fs, sel with
  | f :: fs', s :: sel' => (s && (startPiece f <=? p) && (p <=? endPiece f)) || wanted_piece fs' sel' p
  | _, _ => false
  end.

(** The bytes of [o, o + size) in piece [p]. *)
Definition overlap (ps o size p : Z) : Z := Z.max 0 (Z.min (o + size) ((p + 1) * ps) - Z.max o (p * ps)).

(** The bytes of [o, o + size) in those of the first [n] pieces of which [w] says so. *)
Fixpoint needed (ps o size : Z) (w : Z -> bool) (n : nat) : Z :=
  match n with
  | O => 0
  | S k => needed ps o size w k + (if w (Z.of_nat k) then overlap ps o size (Z.of_nat k) else 0)
  end.

(** What has to be there of every file: all of a selected one, of others the bytes in wanted pieces, if there are any. *)
Fixpoint demands (ps : Z) (n : nat) (w : Z -> bool) (i o : Z) (fs : list file) (sel : list bool) : list (Z * Z) :=
  match fs, sel with
  | f :: fs', s :: sel' =>
    let x := needed ps o (fsize f) w n in
    (if s || negb (x =? 0) then [(i, x)] else []) ++ demands ps n w (i + 1) (o + fsize f) fs' sel'
  | _, _ => []
  end.

(** Only file [idx] of [n] is selected, from file [i] on. *)
Fixpoint only (idx i : Z) (n : nat) : list bool :=
  match n with O => [] | S k => (i =? idx) :: only idx (i + 1) k end.

(** The size of a file on the disk; one which is not there has none. *)
Definition stored (d : option (list Z)) : Z := match d with Some c => zlen c | None => 0 end.

(** The bytes which are not there yet of those asked for. *)
Definition lacking (disk : list (option (list Z))) (l : list (Z * Z)) : Z :=
  fold_right Z.add 0 (map (fun p => Z.max 0 (snd p - stored (nth (Z.to_nat (fst p)) disk None))) l).
