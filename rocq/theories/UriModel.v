(** Model of mtTorrent/utils/Uri.cpp. Text is a list of bytes. *)
From Verif Require Import Base.

(** Uri.h:5-11 *)
Record uri := { uprotocol : list Z; uhost : list Z; uport : list Z; upath : list Z }.

(** [std::find]: what lies before the first [c], and the rest from it on. For [uriParse], Uri.cpp:4-51. *)
Fixpoint cutAt (c : Z) (l : list Z) : list Z * list Z :=
  match l with
  | [] => ([], [])
  | x :: l' => if x =? c then ([], l) else let (a, b) := cutAt c l' in (x :: a, b)
  end.

(** [std::string prot = &*it]: up to the first zero byte. For [uriParse], Uri.cpp:4-51. *)
Definition cString (l : list Z) : list Z := fst (cutAt 0 l).

(** Uri.cpp:4-51 *)
Definition uriParse (u : list Z) : uri :=
  match u with
  | [] => {| uprotocol := []; uhost := []; uport := []; upath := [] |}
  | _ =>
    let (before, from) := cutAt 58 u in
    let '(protocol, rest) :=
      match from with
      | [] => ([], u)
      | _ =>
        let prot := cString from in
        if Nat.ltb 3 (length prot) && list_eqb (firstn 3 prot) [58; 47; 47] then (before, skipn 3 from) else ([], u)
      end in
    let (hostPort, path) := cutAt 47 rest in
    let (host, portPart) := cutAt 58 hostPort in
    {| uprotocol := protocol; uhost := host; uport := match portPart with [] => [] | _ :: p => p end; upath := path |}
  end.
