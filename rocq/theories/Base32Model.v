(** Model of mtTorrent/utils/Base32.cpp. *)
From Verif Require Import Base.

(** [std::toupper] in the "C" locale. For [b32Char], Base32.cpp:23-36. *)
Definition toUpper (c : Z) : Z := if (97 <=? c) && (c <=? 122) then c - 32 else c.

(** Base32.cpp:23-36 one input character: [Some (value, isPad)], or [None] when the
    function gives up and returns an empty string. *)
Definition b32Char (c : Z) : option (Z * bool) :=
  let i := toUpper c in
  if (65 <=? i) && (i <=? 90) then Some (i - 65, false)
  else if (50 <=? i) && (i <=? 55) then Some (i - 50 + (90 - 65) + 1, false)
  else if i =? 61 then Some (0, true)
  else if i =? 49 then Some (73 - 65, false)
  else None.

(** Base32.cpp:21-36 fill [inbuf] from [grp] (at most 8 characters, position [j]);
    the result is the values read and the updated [pad_start]. *)
Fixpoint b32Group (grp : list Z) (j : Z) (pad : Z) : option (list Z * Z) :=
  match grp with
  | [] => Some ([], pad)
  | c :: rest =>
    match b32Char c with
    | None => None
    | Some (v, isPad) =>
      let pad' := if isPad && (pad =? 0) then j else pad in
      match b32Group rest (j + 1) pad' with
      | None => None
      | Some (vs, p) => Some (v :: vs, p)
      end
    end
  end.

(** Base32.cpp:40-51 [outbuf] from [inbuf] (missing entries are the zeros of
    [inbuf.fill(0)]); entries are [uint8_t]. *)
Definition b32Out (v : list Z) : list Z :=
  let i k := nth k v 0 in
  [ u8 (Z.lor (Z.land (Z.shiftl (i 0%nat) 3) 255) (Z.shiftr (i 1%nat) 2));
    u8 (Z.lor (Z.lor (Z.land (Z.shiftl (Z.land (i 1%nat) 3) 6) 255) (Z.shiftl (i 2%nat) 1))
              (Z.shiftr (Z.land (i 3%nat) 16) 4));
    u8 (Z.lor (Z.land (Z.shiftl (Z.land (i 3%nat) 15) 4) 255) (Z.shiftr (Z.land (i 4%nat) 30) 1));
    u8 (Z.lor (Z.lor (Z.land (Z.shiftl (Z.land (i 4%nat) 1) 7) 255) (Z.shiftl (Z.land (i 5%nat) 31) 2))
              (Z.shiftr (Z.land (i 6%nat) 24) 3));
    u8 (Z.lor (Z.land (Z.shiftl (Z.land (i 6%nat) 7) 5) 255) (i 7%nat)) ].

(** Base32.cpp:53-54. *)
Definition input_output_mapping : list nat := [5;1;1;2;2;3;4;4;5]%nat.

(** Base32.cpp:12-58 the loop over groups of 8 characters; [fuel] bounds the number
    of groups (each takes at least one character). [None]: [return {}]. *)
Fixpoint b32Loop (fuel : nat) (s : list Z) : option (list Z) :=
  match fuel with
  | O => match s with [] => Some [] | _ => None end
  | S fuel' =>
    match s with
    | [] => Some []
    | _ =>
      let available := Nat.min 8 (length s) in
      let pad0 := if Nat.ltb available 8 then Z.of_nat available else 0 in
      match b32Group (firstn available s) 0 pad0 with
      | None => None
      | Some (vs, pad) =>
        match b32Loop fuel' (skipn available s) with
        | None => None
        | Some r => Some (firstn (nth (Z.to_nat pad) input_output_mapping 0%nat) (b32Out vs) ++ r)
        end
      end
    end
  end.

(** Base32.cpp:6-60 [base32decode]. *)
Definition base32decode (s : list Z) : list Z :=
  match b32Loop (length s) s with Some r => r | None => [] end.
