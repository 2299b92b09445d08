(** What a table of countries should say, over the list of ranges it was made from. *)
From Verif Require Import Base CountryModel.
From Coq Require Import Sorted.

(** The first of the four bytes of an address. *)
Definition first_byte (a : Z) : Z := a / 16777216.

(** A name that a line of the file can hold. *)
Definition name_ok (c : name) : Prop := c <> [] /\ ~ In 10 c.

(** A list of ranges in the order of their starts, with at most 17733 names. *)
Definition list_ok (rows : list (Z * name)) : Prop :=
  StronglySorted (fun r r' => fst r < fst r') rows /\
  Forall (fun r => 0 <= fst r < 4294967296 /\ name_ok (snd r)) rows /\
  exists names, NoDup names /\ zlen names <= 17733 /\ forall r, In r rows -> In (snd r) names.

(** The range which holds the address [a] is the last one that starts at or before it. *)
Definition holds (rows : list (Z * name)) (a : Z) (r : Z * name) : Prop :=
  exists before after, rows = before ++ r :: after /\ fst r <= a /\ Forall (fun r' => a < fst r') after.

(** After [a], among the addresses with its first byte, begins a range of another country than [c]. *)
Definition changes_after (rows : list (Z * name)) (a : Z) (c : name) : Prop :=
  exists r, In r rows /\ a < fst r /\ first_byte (fst r) = first_byte a /\ snd r <> c.

(** A table a file can hold. *)
Definition table_ok (t : table) : Prop :=
  Forall name_ok (countries t) /\ length (buckets t) = 256%nat /\
  Forall (Forall (fun e => 0 <= fst e < 4294967296 /\ 0 <= snd e < 65536 /\ snd e <> 17733)) (buckets t).
