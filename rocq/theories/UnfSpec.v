(** For C115. *)
From Verif Require Import Base DlModel UnfModel.

(** The states of piece [i] that hold data. *)
Definition ofPiece (i : Z) (l : list pieceState) : list pieceState := filter (fun p => (psIndex p =? i) && negb (psSize p =? 0)) l.

(** All that was added. *)
Definition added (ops : list uop) : list pieceState := flat_map (fun o => match o with UAdd l => l | _ => [] end) ops.

(** The bytes of a list of states. *)
Fixpoint bytes (l : list pieceState) : Z := match l with [] => 0 | p :: l' => psSize p + bytes l' end.
