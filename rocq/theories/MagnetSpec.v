(** Magnet links. *)
From Verif Require Import Base HexSpec UrlSpec Base32Spec MagnetModel.

Definition white (c : Z) : bool := (c =? 32) || ((9 <=? c) && (c <=? 13)).

(** The spellings of a hash of 20 bytes. *)
Inductive hash_text : list Z -> list Z -> Prop :=
| hash_hex t h : hex_text t h -> length h = 20%nat -> hash_text t h
| hash_base32 t h : bytes_ok h -> length h = 20%nat -> Forall2 same_letter (base32_text false h) t -> hash_text t h
| hash_spaced t h : length t = 44%nat -> Forall (fun c => c < 128) t -> hex_text (filter (fun c => negb (white c)) t) h -> length h = 20%nat -> hash_text t h.

(** The parameters of a link. *)
Inductive param :=
| Hash (text h : list Z)
| Tracker (text u : list Z)
| Name (text n : list Z)
| Other (name : list Z) (value : list Z).

Definition no_char (c : Z) (s : list Z) : Prop := ~ In c s.

Definition param_ok (p : param) : Prop :=
  match p with
  | Hash t h => hash_text t h
  | Tracker t u => url_text t u /\ no_char 38 t
  | Name t n => url_text t n /\ no_char 38 t
  | Other name value => no_char 38 name /\ no_char 61 name /\ no_char 38 value /\ name <> xt /\ name <> tr /\ name <> dn
  end.

Definition spell (p : param) : list Z :=
  match p with
  | Hash t _ => xt ++ [61] ++ btih ++ t
  | Tracker t _ => tr ++ [61] ++ t
  | Name t _ => dn ++ [61] ++ t
  | Other name value => name ++ [61] ++ value
  end.

Fixpoint spell_all (ps : list param) : list Z :=
  match ps with [] => [] | [p] => spell p | p :: ps' => spell p ++ [38] ++ spell_all ps' end.

Definition link_of (ps : list param) : list Z := magnet ++ spell_all ps.

(** What they say. *)
Definition hashes (ps : list param) : list (list Z) := flat_map (fun p => match p with Hash _ h => [h] | _ => [] end) ps.
Definition names (ps : list param) : list (list Z) := flat_map (fun p => match p with Name _ n => [n] | _ => [] end) ps.
Definition trackers (ps : list param) : list (list Z) := flat_map (fun p => match p with Tracker _ u => [u] | _ => [] end) ps.
