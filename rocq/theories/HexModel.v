(** Model of mtTorrent/utils/HexEncoding.cpp. Text is a list of character codes
    0..255 ([char] is signed in C++; a code of 128 or more is negative there and
    fails every comparison below exactly as it does here). *)
From Verif Require Import Base.

(** HexEncoding.cpp:5-15 [fromHexa]. [h] is a [char]; the result is converted to
    [uint8_t]. *)
Definition fromHexa (h : Z) : Z :=
  u8 (if h <=? 57 then h - 48
      else if h <=? 70 then h - 65 + 10
      else if h <=? 102 then h - 97 + 10
      else h).

(** HexEncoding.cpp:21 the accepted characters. *)
Definition hexCharOk (c : Z) : bool :=
  ((48 <=? c) && (c <=? 57)) || ((97 <=? c) && (c <=? 102)) || ((65 <=? c) && (c <=? 70)).

(** [from[k]] on a [const std::string]: the terminating NUL at index [size()],
    undefined beyond it. For [decodeLoop], HexEncoding.cpp:27-33. *)
Definition strAt (from : list Z) (k : nat) : res Z :=
  if Nat.ltb k (length from) then Ok (nth k from 0)
  else if Nat.eqb k (length from) then Ok 0
  else UB.

(** HexEncoding.cpp:27-33 the conversion loop, from output index [i], [n] left. *)
Fixpoint decodeLoop (from : list Z) (i n : nat) : res (list Z) :=
  match n with
  | O => Ok []
  | S n' =>
    bind (strAt from (i * 2)) (fun a =>
    bind (strAt from (i * 2 + 1)) (fun b =>
    bind (decodeLoop from (S i) n') (fun rest =>
    (* to[i] = (f << 4) + s, stored in a uint8_t *)
    Ok (u8 (Z.shiftl (fromHexa a) 4 + fromHexa b) :: rest))))
  end.

(** HexEncoding.cpp:17-36 [decodeHexa]; [None] is the return value [false], after
    which the output buffer is untouched. *)
Definition decodeHexa (from : list Z) (size : nat) : res (option (list Z)) :=
  if forallb hexCharOk from
  then bind (decodeLoop from 0 size) (fun l => Ok (Some l))
  else Ok None.

(** HexEncoding.cpp:38 [hex_chars]. *)
Definition hex_chars : list Z :=
  [48;49;50;51;52;53;54;55;56;57;65;66;67;68;69;70].

(** HexEncoding.cpp:40-53 [hexToString]. *)
Fixpoint hexToString (inp : list Z) : list Z :=
  match inp with
  | [] => []
  | b :: rest =>
      nth (Z.to_nat (Z.shiftr b 4)) hex_chars 0
      :: nth (Z.to_nat (Z.land b 15)) hex_chars 0
      :: hexToString rest
  end.
