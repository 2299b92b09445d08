(** Model of mtTorrent/Core/State.cpp: the saved state of a torrent and the saved list of
    torrents. Files are modelled by their bytes; a file which cannot be opened is left out. *)
From Verif Require Import Base Dec BencodeModel.

(** Core/Interface.h:47-53 [PieceState]. *)
Record upiece := { upBlocks : list Z; upRemaining : Z; upSize : Z; upIndex : Z }.

(** State.h [TorrentState]; a selection is the flag and the priority of each file. *)
Record tstate := {
  tsName : list Z; tsPieceSize : Z; tsFullSize : Z; tsPath : list Z; tsPieces : list Z;
  tsLast : Z; tsAdded : Z; tsStarted : bool; tsUploaded : Z; tsDownloaded : Z; tsVersion : Z;
  tsUnfinished : list upiece; tsSelection : list (bool * Z) }.

(** Keys as they are written, with their length. For [saveState], State.cpp:13-66. *)
Definition rName : list Z := (* 4:name *) [52;58;110;97;109;101].
(** Helper of [saveState], State.cpp:13-66. *)
Definition rPieceSize : list Z := (* 9:pieceSize *) [57;58;112;105;101;99;101;83;105;122;101].
(** Helper of [saveState], State.cpp:13-66. *)
Definition rFullSize : list Z := (* 8:fullSize *) [56;58;102;117;108;108;83;105;122;101].
(** Helper of [saveState], State.cpp:13-66. *)
Definition rPath : list Z := (* 12:downloadPath *) [49;50;58;100;111;119;110;108;111;97;100;80;97;116;104].
(** Helper of [saveState], State.cpp:13-66. *)
Definition rPieces : list Z := (* 6:pieces *) [54;58;112;105;101;99;101;115].
(** Helper of [saveState], State.cpp:13-66. *)
Definition rLast : list Z := (* 13:lastStateTime *) [49;51;58;108;97;115;116;83;116;97;116;101;84;105;109;101].
(** Helper of [saveState], State.cpp:13-66. *)
Definition rAdded : list Z := (* 9:addedTime *) [57;58;97;100;100;101;100;84;105;109;101].
(** Helper of [saveState], State.cpp:13-66. *)
Definition rStarted : list Z := (* 7:started *) [55;58;115;116;97;114;116;101;100].
(** Helper of [saveState], State.cpp:13-66. *)
Definition rUploaded : list Z := (* 8:uploaded *) [56;58;117;112;108;111;97;100;101;100].
(** Helper of [saveUnfinished], State.cpp:42-50. *)
Definition rDownloaded : list Z := (* 10:downloaded *) [49;48;58;100;111;119;110;108;111;97;100;101;100].
(** Helper of [saveState], State.cpp:13-66. *)
Definition rVersion : list Z := (* 7:version *) [55;58;118;101;114;115;105;111;110].
(** Helper of [saveState], State.cpp:13-66. *)
Definition rUnfinished : list Z := (* 10:unfinished *) [49;48;58;117;110;102;105;110;105;115;104;101;100].
(** Helper of [saveUnfinished], State.cpp:42-50. *)
Definition rBlocks : list Z := (* 6:blocks *) [54;58;98;108;111;99;107;115].
(** Helper of [saveUnfinished], State.cpp:42-50. *)
Definition rRemaining : list Z := (* 9:remaining *) [57;58;114;101;109;97;105;110;105;110;103].
(** Helper of [saveUnfinished], State.cpp:42-50. *)
Definition rIndex : list Z := (* 5:index *) [53;58;105;110;100;101;120].
(** Helper of [saveState], State.cpp:13-66. *)
Definition rSelection : list Z := (* 9:selection *) [57;58;115;101;108;101;99;116;105;111;110].

(** BencodeWriter.cpp:88-92, 94-98, 106-112. *)
Definition rawNumber (d key : list Z) (n : Z) : list Z := addNumber (addRawData d key) n.
(** Also BencodeWriter.cpp:88-92, 94-98, 106-112. *)
Definition rawText (d key text : list Z) : list Z := addText (addRawData d key) text.

(** Helper of [saveSelection], State.cpp:54-60. *)
Definition b2z (b : bool) : Z := if b then 1 else 0.

(** State.cpp:42-50 *)
Definition saveUnfinished (d : list Z) (p : upiece) : list Z :=
  endMap (rawNumber (rawNumber (rawNumber (rawText (startMap d) rBlocks (upBlocks p)) rRemaining (upRemaining p)) rIndex (upIndex p)) rDownloaded (upSize p)).

(** State.cpp:54-60 *)
Definition saveSelection (d : list Z) (s : bool * Z) : list Z :=
  endArray (addNumber (addNumber (startArray d) (b2z (fst s))) (snd s)).

(** State.cpp:13-66: the bytes of the file. *)
Definition saveState (t : tstate) : list Z :=
  let d := startMap (addText (startMap []) [105;110;102;111] (* info *)) in
  let d := rawText d rName (tsName t) in
  let d := rawNumber d rPieceSize (tsPieceSize t) in
  let d := rawNumber d rFullSize (tsFullSize t) in
  let d := endMap d in
  let d := rawText d rPath (tsPath t) in
  let d := rawText d rPieces (tsPieces t) in
  let d := rawNumber d rLast (tsLast t) in
  let d := rawNumber d rAdded (tsAdded t) in
  let d := rawNumber d rStarted (b2z (tsStarted t)) in
  let d := rawNumber d rUploaded (tsUploaded t) in
  let d := rawNumber d rDownloaded (tsDownloaded t) in
  let d := rawNumber d rVersion (tsVersion t) in
  let d := startArray (addRawData d rUnfinished) in
  let d := endArray (fold_left saveUnfinished (tsUnfinished t) d) in
  let d := startArray (addRawData d rSelection) in
  let d := endArray (fold_left saveSelection (tsSelection t) d) in
  endMap d.

(** ** Reading *)

Section Read.
Variable fuel : nat.
Variable m : list Z.
Variable objs : list obj.

(** BencodeParser.cpp:275-280 [getTxt(name)], 303-318 [getInt(name)], [getBigInt(name)]. *)
Definition txtOf (i : nat) (name : list Z) : out (list Z) :=
  obind (getObject fuel m objs i name TText) (fun o => match o with Some j => itemText m (nth j objs noObj) | None => Val [] end).
(** Also BencodeParser.cpp:275-280. *)
Definition intOf (i : nat) (name : list Z) : out Z :=
  obind (getObject fuel m objs i name TNumber) (fun o => match o with Some j => itemInt m (nth j objs noObj) | None => Val 0 end).
(** Also BencodeParser.cpp:275-280. *)
Definition bigOf (i : nat) (name : list Z) : out Z :=
  obind (getObject fuel m objs i name TNumber) (fun o => match o with Some j => itemBigInt m (nth j objs noObj) | None => Val 0 end).

(** BencodeParser.h:56-70: the items met by an iterator from [a] on; in a dictionary
    ([isMap]) every second one (the keys). *)
Fixpoint itemsFrom (f : nat) (isMap : bool) (a : option nat) : out (list nat) :=
  match a with
  | None => Val []
  | Some j =>
    match f with
    | O => NoEnd
    | S f' =>
      match (if isMap then match getNextSibling objs j with None => Undef | Some k => Val (getNextSibling objs k) end else Val (getNextSibling objs j)) with
      | Val n => obind (itemsFrom f' isMap n) (fun l => Val (j :: l))
      | Undef => Undef
      | NoEnd => NoEnd
      end
    end
  end.

(** Helper of [loadState], State.cpp:68-143. *)
Fixpoint omap {A B} (f : A -> out B) (l : list A) : out (list B) :=
  match l with
  | [] => Val []
  | x :: l' => obind (f x) (fun y => obind (omap f l') (fun r => Val (y :: r)))
  end.

(** State.cpp:109-123; [None]: not kept. *)
Definition loadUnfinished (i : nat) : out (option upiece) :=
  if typeEqb (otyp (nth i objs noObj)) TDict then
    obind (getObject fuel m objs i [98;108;111;99;107;115] (* blocks *) TText) (fun o =>
    match o with
    | None => Val None
    | Some j =>
      obind (intOf i [105;110;100;101;120] (* index *)) (fun ix =>
      obind (intOf i [114;101;109;97;105;110;105;110;103] (* remaining *)) (fun rm =>
      obind (intOf i [100;111;119;110;108;111;97;100;101;100] (* downloaded *)) (fun dn =>
      obind (itemText m (nth j objs noObj)) (fun b =>
      Val (match b with
           | [] => None
           | _ => if u32 dn =? 0 then None else Some {| upBlocks := b; upRemaining := u32 rm; upSize := u32 dn; upIndex := u32 ix |}
           end)))))
    end)
  else Val None.

(** State.cpp:131-137; a list without items or with one is undefined (a null pointer is used). *)
Definition loadSelection (i : nat) : out (bool * Z) :=
  if typeEqb (otyp (nth i objs noObj)) TList then
    match getFirstItem objs i with
    | None => Undef
    | Some a =>
      obind (itemInt m (nth a objs noObj)) (fun s =>
      match getNextSibling objs a with
      | None => Undef
      | Some b => obind (itemInt m (nth b objs noObj)) (fun p => Val (negb (s =? 0), u8 p))
      end)
    end
  else Val (false, 50).

End Read.

(** Helper of [loadState], State.cpp:68-143. *)
Definition keep {A} (l : list (option A)) : list A := concat (map (fun o => match o with Some x => [x] | None => [] end) l).

(** State.cpp:68-143: what the object holds after [load], and what is returned. [m] is the text of the
    file with the zero byte [std::string] keeps behind it, [old] what the object held. *)
Definition loadState (fuel : nat) (old : tstate) (m : list Z) (len : Z) : out (bool * tstate) :=
  obind (parse fuel m len) (fun r =>
  if negb (pok r) then Val (false, old)
  else
    let objs := pobjs r in
    obind (getObject fuel m objs 0 [105;110;102;111] (* info *) TDict) (fun pi =>
    obind (match pi with
           | Some i =>
             obind (txtOf fuel m objs i [110;97;109;101] (* name *)) (fun n =>
             obind (intOf fuel m objs i [112;105;101;99;101;83;105;122;101] (* pieceSize *)) (fun ps =>
             obind (bigOf fuel m objs i [102;117;108;108;83;105;122;101] (* fullSize *)) (fun fs =>
             Val (n, u32 ps, u32 fs))))
           | None => Val (tsName old, tsPieceSize old, tsFullSize old)
           end) (fun inf =>
    obind (txtOf fuel m objs 0 [100;111;119;110;108;111;97;100;80;97;116;104] (* downloadPath *)) (fun path =>
    obind (bigOf fuel m objs 0 [108;97;115;116;83;116;97;116;101;84;105;109;101] (* lastStateTime *)) (fun last =>
    obind (bigOf fuel m objs 0 [97;100;100;101;100;84;105;109;101] (* addedTime *)) (fun added =>
    obind (intOf fuel m objs 0 [115;116;97;114;116;101;100] (* started *)) (fun started =>
    obind (bigOf fuel m objs 0 [117;112;108;111;97;100;101;100] (* uploaded *)) (fun up =>
    obind (bigOf fuel m objs 0 [100;111;119;110;108;111;97;100;101;100] (* downloaded *)) (fun down =>
    obind (intOf fuel m objs 0 [118;101;114;115;105;111;110] (* version *)) (fun ver =>
    obind (getObject fuel m objs 0 [112;105;101;99;101;115] (* pieces *) TText) (fun op =>
    obind (match op with Some j => itemText m (nth j objs noObj) | None => Val (tsPieces old) end) (fun pieces =>
    obind (getObject fuel m objs 0 [117;110;102;105;110;105;115;104;101;100] (* unfinished *) TList) (fun ou =>
    obind (match ou with
           | Some j => obind (itemsFrom objs fuel false (getFirstItem objs j)) (fun l => obind (omap (loadUnfinished fuel m objs) l) (fun us => Val (keep us)))
           | None => Val (tsUnfinished old)
           end) (fun unf =>
    obind (getObject fuel m objs 0 [115;101;108;101;99;116;105;111;110] (* selection *) TList) (fun os =>
    obind (match os with
           | Some j => obind (itemsFrom objs fuel false (getFirstItem objs j)) (fun l => omap (loadSelection m objs) l)
           | None => Val (tsSelection old)
           end) (fun sel =>
    Val (true, {| tsName := fst (fst inf); tsPieceSize := snd (fst inf); tsFullSize := snd inf; tsPath := path; tsPieces := pieces;
                  tsLast := last; tsAdded := added; tsStarted := negb (started =? 0); tsUploaded := up; tsDownloaded := down;
                  tsVersion := u32 ver; tsUnfinished := unf; tsSelection := sel |}))))))))))))))))).

(** State.cpp:151-172 [TorrentsList::save]. *)
Definition saveName (d name : list Z) : list Z := endMap (rawText (startMap d) rName name).
(** Also State.cpp:151-172. *)
Definition saveList (names : list (list Z)) : list Z := endArray (fold_left saveName names (startArray [])).

(** State.cpp:174-202 [TorrentsList::load]: the list and what is returned. *)
Definition loadList (fuel : nat) (old : list (list Z)) (m : list Z) (len : Z) : out (bool * list (list Z)) :=
  obind (parse fuel m len) (fun r =>
  if negb (pok r) then Val (false, old)
  else
    let objs := pobjs r in
    obind (itemsFrom objs fuel (typeEqb (otyp (nth 0 objs noObj)) TDict) (getFirstItem objs 0)) (fun l =>
    obind (omap (fun i => txtOf fuel m objs i [110;97;109;101]) l) (fun ns => Val (true, ns)))).
