(** Bencoding (BEP 3), independent of the code but for the last part,
    which says what a user reads from a parsed document. *)
From Verif Require Import Base Dec BencodeModel.

Inductive bval :=
| BInt (n : Z)
| BStr (s : list Z)
| BList (l : list bval)
| BDict (d : list (list Z * bval)).

(** The canonical encoding: [i]number[e], length[:]bytes, [l]items[e], [d]key value ...[e].
    [toString] writes a number in decimal (see [Dec.v]). *)
Fixpoint bencode (v : bval) : list Z :=
  match v with
  | BInt n => [105] ++ toString n ++ [101]
  | BStr s => toString (zlen s) ++ [58] ++ s
  | BList l => [108] ++ concat (map bencode l) ++ [101]
  | BDict d => [100] ++ concat (map (fun kv => (toString (zlen (fst kv)) ++ [58] ++ fst kv) ++ bencode (snd kv)) d) ++ [101]
  end.

(** Numbers the writer can write. *)
Fixpoint bval_ok (v : bval) : Prop :=
  match v with
  | BInt n => 0 <= n < 18446744073709551616
  | BStr s => bytes_ok s
  | BList l => fold_right and True (map bval_ok l)
  | BDict d => fold_right and True (map (fun kv => bytes_ok (fst kv) /\ bval_ok (snd kv)) d)
  end.

(** How many strings, numbers, lists and dictionaries a value has (keys count as strings). *)
Fixpoint nodes (v : bval) : nat :=
  match v with
  | BInt _ | BStr _ => 1
  | BList l => S (list_sum (map nodes l))
  | BDict d => S (list_sum (map (fun kv => S (nodes (snd kv))) d))
  end.

(** The first entry of a dictionary with a key and a kind of value. *)
Inductive kind := KInt | KStr | KList | KDict.
Definition kind_of (v : bval) : kind :=
  match v with BInt _ => KInt | BStr _ => KStr | BList _ => KList | BDict _ => KDict end.
Definition kind_eqb (a b : kind) : bool :=
  match a, b with KInt, KInt | KStr, KStr | KList, KList | KDict, KDict => true | _, _ => false end.

Fixpoint lookup (k : list Z) (t : kind) (d : list (list Z * bval)) : option bval :=
  match d with
  | [] => None
  | (k', v) :: d' => if list_eqb k k' && kind_eqb (kind_of v) t then Some v else lookup k t d'
  end.

(** Object [i] of a parsed document reads as the value [v]: its type is right, numbers and
    texts give their contents (a number read as [int] is cut to 32 bits), the items of a list are met by following siblings, and each
    key of a dictionary is followed by its value and by the next key. *)
Fixpoint reads (m : list Z) (objs : list obj) (v : bval) (i : nat) : Prop :=
  (i < length objs)%nat /\ match v with
  | BInt n => otyp (nth i objs noObj) = TNumber /\ itemBigInt m (nth i objs noObj) = Val n /\
       (n < 9223372036854775808 -> itemInt m (nth i objs noObj) = Val (i32 n))
  | BStr s => otyp (nth i objs noObj) = TText /\ itemText m (nth i objs noObj) = Val s
  | BList l => otyp (nth i objs noObj) = TList /\ osize (nth i objs noObj) = zlen l /\ (fix items (l : list bval) (at_ : option nat) : Prop :=
       match l, at_ with
       | [], None => True
       | v :: l', Some j => reads m objs v j /\ items l' (getNextSibling objs j)
       | _, _ => False
       end) l (getFirstItem objs i)
  | BDict d => otyp (nth i objs noObj) = TDict /\ osize (nth i objs noObj) = zlen d /\ (fix items (d : list (list Z * bval)) (at_ : option nat) : Prop :=
       match d, at_ with
       | [], None => True
       | (k, v) :: d', Some j =>
         (otyp (nth j objs noObj) = TText /\ itemText m (nth j objs noObj) = Val k) /\ getNextSibling objs j = Some (S j) /\ reads m objs v (S j) /\ items d' (getNextSibling objs (S j))
       | _, _ => False
       end) d (getFirstItem objs i)
  end.

(** The value written with the writer's calls. *)
Fixpoint write (v : bval) (data : list Z) : list Z :=
  match v with
  | BInt n => addNumber data n
  | BStr s => addText data s
  | BList l => endArray (fold_left (fun data v => write v data) l (startArray data))
  | BDict d => endMap (fold_left (fun data kv => write (snd kv) (addText data (fst kv))) d (startMap data))
  end.
