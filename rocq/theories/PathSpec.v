(** Which place a path names: its components, with empty ones and "." left out and ".." going up
    (symbolic links are not considered). *)
From Verif Require Import Base.

(** The parts between separators. *)
Fixpoint parts (l : list Z) : list (list Z) :=
  match l with
  | [] => [[]]
  | c :: l' => if c =? 47 then [] :: parts l' else match parts l' with p :: ps => (c :: p) :: ps | [] => [[c]] end
  end.

Definition go (cur : list (list Z)) (p : list Z) : list (list Z) :=
  if list_eqb p [] || list_eqb p [46] then cur else if list_eqb p [46; 46] then removelast cur else cur ++ [p].

Definition place (l : list Z) : list (list Z) := fold_left go (parts l) [].

(** A name which is one component of a path. *)
Definition plain (p : list Z) : Prop := p <> [] /\ p <> [46] /\ p <> [46; 46] /\ ~ In 47 p /\ ~ In 0 p.

Definition below (d p : list (list Z)) : Prop := exists x y, p = d ++ x :: y.
