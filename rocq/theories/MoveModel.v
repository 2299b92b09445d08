(** Moving the files of a torrent to another directory: Storage::setPath of Core/Storage.cpp and Files::setLocationPath of Core/Files.cpp. The file
    system is the environment; it is modelled as far as std::filesystem is used: a list of places (PathSpec.v) with files and directories. Symbolic
    links, permissions and other volumes are left out, but for the arguments that let a call fail. *)
From Verif Require Import Base PathModel PathSpec.

(** Model only: what is at a place *)
Inductive node := Dir | File (bytes : list Z).
(** Model only: the file system *)
Definition disk := list (list (list Z) * node).

(** Model only: the rest of the place [q] below [a] *)
Fixpoint under (a q : list (list Z)) : option (list (list Z)) :=
  match a, q with
  | [], _ => Some q
  | _, [] => None
  | x :: a', y :: q' => if list_eqb x y then under a' q' else None
  end.
(** Model only: whether the places are the same *)
Definition same (a q : list (list Z)) : bool := match under a q with Some [] => true | _ => false end.
(** Helper of [nodeAt] *)
Fixpoint entry (q : list (list Z)) (d : disk) : option node := match d with [] => None | (p, n) :: d' => if same p q then Some n else entry q d' end.
(** Model only: what is at the place; the root is always there *)
Definition nodeAt (q : list (list Z)) (d : disk) : option node := match q with [] => Some Dir | _ => entry q d end.

(** std::filesystem::exists of Storage.cpp:50, 67, 73, 605 *)
Definition exists_ (p : list Z) (d : disk) : bool := match p with [] => false | _ => match nodeAt (place p) d with Some _ => true | None => false end end.
(** std::filesystem::file_size of Storage.cpp:62: of what is not a file it is static_cast<uintmax_t>(-1), with an error that is not looked at *)
Definition fileSize (p : list Z) (d : disk) : Z := match nodeAt (place p) d with Some (File b) => zlen b | _ => 18446744073709551615 end.
(** Helper of [isEmpty]: nothing is below the place *)
Definition nothingBelow (q : list (list Z)) (d : disk) : bool := negb (existsb (fun e => match under q (fst e) with Some (_ :: _) => true | _ => false end) d).
(** std::filesystem::is_empty of Storage.cpp:67 *)
Definition isEmpty (p : list Z) (d : disk) : bool :=
  match nodeAt (place p) d with Some (File b) => zlen b =? 0 | Some Dir => nothingBelow (place p) d | None => false end.

(** Helper of [rename]: what is at or below [a] is now at or below [b] *)
Definition moved (a b : list (list Z)) (d : disk) : disk :=
  map (fun e => (match under a (fst e) with Some r => b ++ r | None => fst e end, snd e)) (filter (fun e => negb (same (fst e) b)) d).
(** std::filesystem::rename of Storage.cpp:75, which is rename of POSIX; [may] when nothing else forbids it *)
Definition rename (may : bool) (a b : list (list Z)) (d : disk) : option disk :=
  if negb may then None
  else match nodeAt a d with
  | None => None
  | Some n =>
    if same a b then Some d
    else if match under a b with Some _ => true | None => false end then None
    else match nodeAt (removelast b) d with
    | Some Dir =>
      match n, nodeAt b d with
      | _, None => Some (moved a b d)
      | File _, Some (File _) => Some (moved a b d)
      | Dir, Some Dir => if nothingBelow b d then Some (moved a b d) else None
      | _, _ => None
      end
    | _ => None
    end
  end.

(** std::filesystem::path::parent_path of Storage.cpp:603: the text up to its last separator, which is kept here and names the same place *)
Fixpoint parentPath (p : list Z) : list Z := match p with [] => [] | c :: p' => if existsb (Z.eqb 47) p then c :: parentPath p' else [] end.
(** Helper of [createPath]: std::filesystem::create_directories of Storage.cpp:608 *)
Fixpoint makeDirs (done rest : list (list Z)) (d : disk) : option disk :=
  match rest with
  | [] => Some d
  | x :: rest' =>
    let q := done ++ [x] in
    match nodeAt q d with
    | Some Dir => makeDirs q rest' d
    | Some (File _) => None
    | None => makeDirs q rest' ((q, Dir) :: d)
    end
  end.
(** Storage.cpp:601-613 [createPath]; [may] when nothing else forbids it *)
Definition createPath (may : bool) (p : list Z) (d : disk) : option disk :=
  let f := parentPath p in
  if exists_ f d then Some d else match f with [] => None | _ => if may then makeDirs [] (place f) d else None end.

(** Of Status, Api/Interface.h: what Storage.cpp:40-90 gives *)
Inductive status := Success | E_InvalidPath | E_NotEmpty | E_AllocationProblem.

(** Storage.cpp:40-90 [setPath] for a torrent of this name and number of files; the status, the path it then has, and the disk.
    [bad]: exists reports an error (51-52) *)
Definition setPath (bad mayMake mayMove : bool) (name : list Z) (files : nat) (p : list Z) (move : bool) (path : list Z) (d : disk) : status * list Z * disk :=
  let p1 := withSeparator p in
  if list_eqb path p1 then (Success, path, d)
  else if bad then (E_InvalidPath, path, d)
  else
    let there := exists_ (utf8Path p1) d in
    let new := getRootpath name p1 in
    let old := getRootpath name path in
    let go := there && move && negb (files =? 0)%nat in
    if go && (if (files =? 1)%nat then negb (fileSize new d =? 0) else exists_ new d && negb (isEmpty new d)) then (E_NotEmpty, path, d)
    else match (if go && exists_ old d then rename mayMove (place old) (place new) d else Some d) with
    | None => (E_AllocationProblem, path, d)
    | Some d1 =>
      if there then (Success, p1, d1)
      else match createPath mayMake (utf8Path p1) d1 with Some d2 => (Success, p1, d2) | None => (E_InvalidPath, path, d) end
    end.

(** Files.cpp:278-291 [setLocationPath]: whether the stored files are checked again, then as above *)
Definition setLocationPath (bad mayMake mayMove : bool) (name : list Z) (files : nat) (p : list Z) (move : bool) (path : list Z) (d : disk) : bool * (status * list Z * disk) :=
  let r := setPath bad mayMake mayMove name files p move path d in
  (match fst (fst r) with Success => negb move | _ => false end, r).
