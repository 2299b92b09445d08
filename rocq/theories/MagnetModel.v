(** Model of parseMagnetLink in mtTorrent/Core/Api/InterfaceImpl.cpp. *)
From Verif Require Import Base HexModel UrlModel Base32Model.

(** Api/Interface.h: the fields of TorrentFileMetadata a link sets *)
Record metadata := { mhash : list Z; mname : list Z; announce : list Z; announceList : list (list Z) }.

(** std::isspace on a char; negative values are not allowed. For [parseTorrentHash], InterfaceImpl.cpp:10-34. *)
Definition dropSpaces (s : list Z) : res (list Z) :=
  if forallb (fun c => c <? 128) s then Ok (filter (fun c => negb (isSpace c)) s) else UB.

(** InterfaceImpl.cpp:10-34; [None] is false *)
Definition parseTorrentHash (from : list Z) : res (option (list Z)) :=
  let b := if Nat.eqb (length from) 32 then base32decode from else [] in
  if Nat.eqb (length from) 32 && Nat.eqb (length b) 20 then Ok (Some b)
  else
    bind (if Nat.eqb (length from) 44 then dropSpaces from else Ok from) (fun from =>
    if Nat.eqb (length from) 40 then decodeHexa from 20 else Ok None).

(** The text before and behind the first [c]; without one all of it and [None]. For [linkLoop], InterfaceImpl.cpp:90-121. *)
Fixpoint cut (c : Z) (s : list Z) : list Z * option (list Z) :=
  match s with
  | [] => ([], None)
  | x :: s' => if x =? c then ([], Some s') else let '(a, b) := cut c s' in (x :: a, b)
  end.

(** Helper of [parameter], InterfaceImpl.cpp:97-114. *)
Definition xt : list Z := [120; 116].
(** Helper of [parameter], InterfaceImpl.cpp:97-114. *)
Definition tr : list Z := [116; 114].
(** Helper of [parameter], InterfaceImpl.cpp:97-114. *)
Definition dn : list Z := [100; 110].
(** Helper of [parameter], InterfaceImpl.cpp:97-114. *)
Definition btih : list Z := [117; 114; 110; 58; 98; 116; 105; 104; 58]. (* urn:btih: For [parseMagnetLink], InterfaceImpl.cpp:78-127. *)
Definition magnet : list Z := [109; 97; 103; 110; 101; 116; 58; 63]. (* magnet:?. For [parameter], InterfaceImpl.cpp:97-114. *)

Definition setHash (h : list Z) (m : metadata) : metadata :=
  {| mhash := h; mname := mname m; announce := announce m; announceList := announceList m |}.
(** Helper of [parameter], InterfaceImpl.cpp:97-114. *)
Definition setName (n : list Z) (m : metadata) : metadata :=
  {| mhash := mhash m; mname := n; announce := announce m; announceList := announceList m |}.

(** InterfaceImpl.cpp:97-114 *)
Definition parameter (name value : list Z) (m : metadata) (correct : bool) : res (metadata * bool) :=
  if list_eqb name xt && Nat.ltb 9 (length value) && list_eqb (firstn 9 value) btih then
    bind (parseTorrentHash (skipn 9 value)) (fun r =>
    match r with Some h => Ok (setHash h m, true) | None => Ok (m, false) end)
  else if list_eqb name tr then
    bind (UrlDecode value) (fun v =>
    Ok ({| mhash := mhash m; mname := mname m;
           announce := match announceList m with [] => v | _ => announce m end;
           announceList := announceList m ++ [v] |}, correct))
  else if list_eqb name dn then bind (UrlDecode value) (fun v => Ok (setName v m, correct))
  else Ok (m, correct).

(** InterfaceImpl.cpp:90-121 on the text from dataPos on. Every pass takes a character, so its length is enough
    fuel. *)
Fixpoint linkLoop (fuel : nat) (s : list Z) (m : metadata) (correct : bool) : res (metadata * bool) :=
  match fuel, s with
  | S fuel', _ :: _ =>
    let '(element, rest) := cut 38 s in
    bind (match cut 61 element with
          | (name, Some value) => parameter name value m correct
          | (_, None) => Ok (m, correct)
          end) (fun '(m, correct) =>
    match rest with Some s' => linkLoop fuel' s' m correct | None => Ok (m, correct) end)
  | _, _ => Ok (m, correct)
  end.

(** InterfaceImpl.cpp:78-127; false is E_InvalidInput *)
Definition parseMagnetLink (link : list Z) (m : metadata) : res (metadata * bool) :=
  if Nat.ltb (length link) 8 then Ok (m, false)
  else
    bind (if list_eqb (firstn 8 link) magnet then linkLoop (length link) (skipn 8 link) m false else Ok (m, false)) (fun '(m, correct) =>
    if correct : bool then Ok (m, true)
    else bind (parseTorrentHash link) (fun r => match r with Some h => Ok (setHash h m, true) | None => Ok (m, false) end)).
