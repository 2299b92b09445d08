(** What is said of moving files *)
From Verif Require Import Base MoveModel.

(** A file system: what is not at the root is in a directory *)
Definition tree (d : disk) : Prop := forall q x, nodeAt (q ++ [x]) d <> None -> nodeAt q d = Some Dir.
