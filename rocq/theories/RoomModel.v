(** Model of making room for selected files: [SelectedFiles] (mtTorrent/Core/Interface.cpp:4-101), the validation of the space and
    the allocation in mtTorrent/Core/Storage.cpp:178-223, 502-565 and 615-655. The disk is as in StorageModel.v. *)
From Verif Require Import Base LayoutModel StorageModel CheckModel.

(** Interface.cpp:10-13: the pieces from [p] on, [n] of them, are set *)
Fixpoint markFrom (n : nat) (p : Z) (l : list bool) : res (list bool) :=
  match n with
  | O => Ok l
  | S n' => if (0 <=? p) && (p <? zlen l) then markFrom n' (p + 1) (upd (Z.to_nat p) true l) else UB
  end.

(** Interface.cpp:7-14; the selection of a file which is behind its end is [UB] *)
Fixpoint markFiles (fs : list file) (sel : list bool) (l : list bool) : res (list bool) :=
  match fs, sel with
  | [], _ => Ok l
  | _, [] => UB
  | f :: fs', s :: sel' =>
    bind (if s then markFrom (Z.to_nat (endPiece f + 1 - startPiece f)) (startPiece f) l else Ok l) (fun l => markFiles fs' sel' l)
  end.

(** Interface.cpp:27-43 (and 78-94): the room for the shared pieces of a file, when its first and its last piece are wanted or not *)
Definition sharedSize (ps : Z) (f : file) (first_ last_ : bool) : Z :=
  let sz := if first_ then Z.min (u32 (ps - startPos f)) (fsize f) else 0 in
  if last_ then Z.min (u64 (sz + endPos f)) (fsize f) else sz.

(** Interface.cpp:16-49, from file [i] on *)
Fixpoint chooseFrom (ps : Z) (i : Z) (fs : list file) (sel : list bool) (wantedPieces : list bool) : res (list (Z * Z)) :=
  match fs, sel with
  | [], _ => Ok []
  | _, [] => UB
  | f :: fs', s :: sel' =>
    bind (if s then Ok [(u32 i, fsize f)]
          else bind (element wantedPieces (startPiece f)) (fun a => bind (element wantedPieces (endPiece f)) (fun b =>
            let sz := sharedSize ps f a b in Ok (if sz =? 0 then [] else [(u32 i, sz)])))) (fun l =>
      bind (chooseFrom ps (i + 1) fs' sel' wantedPieces) (fun l' => Ok (l ++ l')))
  end.

(** Interface.cpp:4-50; [n] is the number of pieces *)
Definition selectedFiles (t : torrentInfo) (n : Z) (sel : list bool) : res (list (Z * Z)) :=
  bind (markFiles (files t) sel (repeat false (Z.to_nat n))) (chooseFrom (pieceSize t) 0 (files t) sel).

(** Interface.cpp:55-62: from file [n] down, to the first of those before it which end in piece [p] *)
Fixpoint firstSharing (fs : list file) (p : Z) (n : nat) : nat :=
  match n with
  | O => O
  | S k => if endPiece (nth k fs noFile) =? p then firstSharing fs p k else n
  end.

(** Interface.cpp:64-100: files from [i] on; [g] is the target *)
Fixpoint shareFrom (ps : Z) (i : Z) (fs : list file) (idx : Z) (g : file) : list (Z * Z) :=
  match fs with
  | [] => []
  | f :: fs' =>
    if startPiece f >? endPiece g then []
    else
      (if i =? idx then [(idx, fsize f)]
       else let sz := sharedSize ps f (startPiece f =? endPiece g) (endPiece f =? startPiece g) in
            if sz =? 0 then [] else [(u32 i, sz)]) ++ shareFrom ps (i + 1) fs' idx g
  end.

(** Interface.cpp:52-101; an index behind the files is [UB] *)
Definition selectedFile (t : torrentInfo) (idx : Z) : res (list (Z * Z)) :=
  bind (element (files t) idx) (fun g =>
    let start := firstSharing (files t) (startPiece g) (Z.to_nat idx) in
    Ok (shareFrom (pieceSize t) (Z.of_nat start) (skipn start (files t)) idx g)).

(** Api/Interface.h [PathValidation]: status, missing and required size *)
Record validation := { vEnough : bool; vMissing : Z; vRequired : Z }.

(** Storage.cpp:206-223 and 629-630: the size of a file on the disk, 0 if there is none *)
Definition sizeOf (d : option (list Z)) : Z := match d with Some c => zlen c | None => 0 end.

(** Storage.cpp:206-223 *)
Definition getAllocatedSize (disk : list (option (list Z))) : list Z := map sizeOf disk.

(** Storage.cpp:615-655; the root of the path exists and its space is known, [available] of it is free *)
Definition validatePath (disk : list (option (list Z))) (available : Z) (l : list (Z * Z)) : validation :=
  let '(missing, required) := fold_left (fun '(m, r) '(i, size) =>
    let existing := sizeOf (nth (Z.to_nat i) disk None) in
    (if existing <? size then u64 (m + (size - existing)) else m, u64 (r + size))) l (0, 0) in
  {| vEnough := negb (available <? missing); vMissing := missing; vRequired := required |}.

(** Storage.cpp:519-529: there is not enough space; the whole size is asked for *)
Definition refused (available : Z) (d : option (list Z)) (size : Z) : bool :=
  (match d with Some c => zlen c <? size | None => true end) && (available <? size).

(** Storage.cpp:197-202: one file after the other; [false] with what was done when one is refused. The folders can be made, the files
    be opened and written; room is only reserved, the space stays. *)
Fixpoint allocateFrom (ps : Z) (fs : list file) (available : Z) (l : list (Z * Z)) (disk : list (option (list Z))) : bool * list (option (list Z)) :=
  match l with
  | [] => (true, disk)
  | (i, size) :: l' =>
    let k := Z.to_nat i in
    let d := nth k disk None in
    if refused available d size then (false, disk)
    else allocateFrom ps fs available l' (upd k (preallocate ps (nth k fs noFile) d size) disk)
  end.

(** Storage.cpp:188-204 *)
Definition preallocateSelection (t : torrentInfo) (available : Z) (l : list (Z * Z)) (disk : list (option (list Z))) : bool * list (option (list Z)) :=
  if vEnough (validatePath disk available l) then allocateFrom (pieceSize t) (files t) available l disk else (false, disk).
