(** Core/Storage.cpp: where the files of a torrent are. Texts are bytes; the separator is '/'
    (utils/Filesystem.h 3). *)
From Verif Require Import Base.

(** Storage.cpp:13-20 [utf8Path] reads the text up to its first zero byte *)
Fixpoint utf8Path (l : list Z) : list Z := match l with [] => [] | c :: l' => if c =? 0 then [] else c :: utf8Path l' end.

(** Storage.cpp:36-37, 42-43, 582-583 *)
Definition withSeparator (p : list Z) : list Z :=
  match p with [] => [] | _ => if last p 0 =? 47 then p else p ++ [47] end.

(** Storage.cpp:31-38 [init]: backslashes become separators *)
Definition initPath (p : list Z) : list Z := withSeparator (map (fun c => if c =? 92 then 47 else c) p).

(** Storage.cpp:577-594 [getFullpath]; a file is its name and its path *)
Definition getFullpath (f : list Z * list (list Z)) (path : list Z) : list Z :=
  utf8Path (withSeparator path ++ concat (map (fun p => p ++ [47]) (snd f)) ++ fst f).

(** Storage.cpp:567-570 [getRootpath] *)
Definition getRootpath (name path : list Z) : list Z := utf8Path (path ++ name).

(** Storage.cpp:225-239 [deleteAll]: the files removed, and the directory removed with all in it *)
Definition deleteAll (name path : list Z) (files : list (list Z * list (list Z))) : list (list Z) * option (list Z) :=
  (map (fun f => getFullpath f path) files, if (1 <? zlen files) then Some (getRootpath name path) else None).
