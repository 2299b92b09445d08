(** For C111. *)
From Verif Require Import Base LogWriterModel.

(** What should be in the file for each thing that was logged: the numbers that are given as int or as 64 bits without sign are cut to 32 bits, and of an address only the
    first four bytes are kept. *)
Definition tokens (i : item) : list token :=
  match i with
  | ILit s | IText s => [TText s]
  | IFloat b => [TFloat b]
  | I16 n | I32 n | I64 n => [TNum n]
  | IInt n | IU64 n => [TNum (n mod 4294967296)]
  | IAddr b port => [TAddr (firstn 4 b) port]
  end.

(** A line that was logged: the place in the code, the time, the items. *)
Record entry := { place : Z; time : list Z; items : list item }.
Definition printed (index : Z) (e : entry) : list token := TFloat (time e) :: flat_map tokens (items e) ++ (if index =? 0 then [] else [TIndex index]) ++ [TEnd].

(** The values are of their types, and text has no 0 in it. *)
Definition item_ok (i : item) : Prop :=
  match i with
  | ILit _ => True
  | IText s => ~ In 0 s
  | IFloat b => length b = 4%nat
  | I16 n => 0 <= n < 65536
  | I32 n => 0 <= n < 4294967296
  | IInt n => -2147483648 <= n < 2147483648
  | I64 n => -9223372036854775808 <= n < 9223372036854775808
  | IU64 n => 0 <= n < 18446744073709551616
  | IAddr b port => (4 <= length b)%nat /\ 0 <= port < 65536
  end.

(** The literals of a line, which are the same each time the same place logs. *)
Definition literals (l : list item) : list (list Z) := flat_map (fun i => match i with ILit s => [s] | _ => [] end) l.

Definition entry_ok (shape : Z -> list (list Z)) (e : entry) : Prop :=
  1 <= place e < 256 /\ length (time e) = 4%nat /\ Forall item_ok (items e) /\ literals (items e) = shape (place e).

(** The lines of a history. *)
Definition logged (es : list event) : list entry := flat_map (fun ev => match ev with ELine id t l _ => [{| place := id; time := t; items := l |}] | _ => [] end) es.

(** The line of the constructor. *)
Definition first (t : list Z) : entry := {| place := 0; time := t; items := [IText [105; 110; 105; 116]] |}.

(** What is kept of a line until it is written. *)
Definition kept (i : item) : list Z :=
  match i with
  | ILit _ => [1]
  | IText s => 2 :: s ++ [0]
  | IFloat b => 3 :: b
  | I16 n => 4 :: le 2 n
  | I32 n => 5 :: le 4 n
  | IInt n | IU64 n => 5 :: le 4 (n mod 4294967296)
  | I64 n => 6 :: le 8 (n mod 18446744073709551616)
  | IAddr b port => 7 :: firstn 4 b ++ le 2 port
  end.
Definition keptLine (e : entry) : list Z := 0 :: place e :: 3 :: time e ++ flat_map kept (items e) ++ [8].
