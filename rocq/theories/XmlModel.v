(** The XML reader and writer of utils/Xml.cpp. A [string_view] into the document is its text;
    positions are what remains of the document.

    Simplified: [isspace] of a negative [char] (a byte above 127), formally undefined, is taken
    as false, as the C library's table has it. Vector growth has no limit. *)
From Verif Require Import Base.
From Verif Require Export Dec.
From Coq Require Import String Ascii.
From Coq Require Import List.
Import ListNotations.
Close Scope string_scope.

(** A literal of the source as bytes. For [tag], Xml.cpp:41-160. *)
Definition txt (s : string) : list Z := map (fun c => Z.of_nat (nat_of_ascii c)) (list_ascii_of_string s).

(** Xml.h 13 [Type] *)
Inductive xtype := XNode | XString | XAttribute | XCdata.
(** Also Xml.h 13. *)
Definition xtypeEqb (a b : xtype) : bool :=
  match a, b with XNode, XNode | XString, XString | XAttribute, XAttribute | XCdata, XCdata => true | _, _ => false end.

(** Xml.h 10-44 [Element] *)
Record xel := { xname : list Z; xkind : xtype; xhas : bool; xnext : Z; xchild : Z; xattrs : Z }.
(** Also Xml.h 10-44. *)
Definition newEl (n : list Z) (k : xtype) : xel := {| xname := n; xkind := k; xhas := false; xnext := 0; xchild := 0; xattrs := 0 |}.
(** Also Xml.h 10-44. *)
Definition setHas (b : bool) (e : xel) : xel := {| xname := xname e; xkind := xkind e; xhas := b; xnext := xnext e; xchild := xchild e; xattrs := xattrs e |}.
(** Also Xml.h 10-44. *)
Definition setNext (n : Z) (e : xel) : xel := {| xname := xname e; xkind := xkind e; xhas := xhas e; xnext := n; xchild := xchild e; xattrs := xattrs e |}.
(** Also Xml.h 10-44. *)
Definition setChild (n : Z) (e : xel) : xel := {| xname := xname e; xkind := xkind e; xhas := xhas e; xnext := xnext e; xchild := n; xattrs := xattrs e |}.
(** Also Xml.h 10-44. *)
Definition setAttrs (n : Z) (e : xel) : xel := {| xname := xname e; xkind := xkind e; xhas := xhas e; xnext := xnext e; xchild := xchild e; xattrs := n |}.
(** Also Xml.h 10-44. *)
Definition noEl : xel := newEl [] XNode.
(** Also Xml.h 10-44. *)
Definition atEl (i : nat) (l : list xel) : xel := nth i l noEl.
(** Also Xml.h 10-44. *)
Definition onEl (i : nat) (f : xel -> xel) (l : list xel) : list xel := upd i (f (atEl i l)) l.

(** Xml.cpp:17-23 the variables of [parse]; the stack has its top first *)
Record xst := { xels : list xel; xstack : list nat; xprev : nat }.

(** Helper of [attributes], Xml.cpp:114-160. *)
Fixpoint takeW (f : Z -> bool) (l : list Z) : list Z := match l with [] => [] | c :: t => if f c then c :: takeW f t else [] end.
(** Helper of [attributes], Xml.cpp:114-160. *)
Fixpoint dropW (f : Z -> bool) (l : list Z) : list Z := match l with [] => [] | c :: t => if f c then dropW f t else l end.
(** Helper of [cdataEnd], Xml.cpp:47. *)
Definition startsWith (p l : list Z) : bool := list_eqb (firstn (List.length p) l) p.

(** Xml.cpp:47 the first "]]>": the text before it and what follows it *)
Fixpoint cdataEnd (l : list Z) : option (list Z * list Z) :=
  match l with
  | [] => None
  | c :: t => if startsWith [93; 93; 62] l then Some ([], skipn 3 l)
              else match cdataEnd t with None => None | Some (a, b) => Some (c :: a, b) end
  end.

(** Xml.cpp:114-160 the attributes between the tag's name and its end; [None]: parse error *)
Fixpoint attributes (fuel : nat) (s : xst) (l : list Z) : option xst :=
  match fuel with
  | O => Some s
  | S f =>
    let l1 := dropW isSpace l in
    match l1 with
    | [] => Some s
    | _ =>
      let name := takeW (fun c => negb (c =? 61) && negb (isSpace c)) l1 in
      match dropW (fun c => negb (c =? 61)) (skipn (List.length name) l1) with
      | [] => Some s
      | _ :: l2 =>
        match dropW isSpace l2 with
        | [] => None
        | q :: l3 =>
          if negb ((q =? 39) || (q =? 34)) then None else
          let v := takeW (fun c => negb (c =? q)) l3 in
          match skipn (List.length v) l3 with
          | [] => None
          | _ :: l4 =>
            attributes f
              match xstack s with
              | [] => s
              | top :: _ =>
                let els := xels s ++ [setHas true (newEl name XAttribute); newEl v XString] in
                {| xels := onEl top (fun e => setAttrs (u8 (xattrs e + 1)) e) els; xstack := xstack s; xprev := xprev s |}
              end l4
          end
        end
      end
    end
  end.

(** Xml.cpp:101-111 a new node *)
Definition openNode (s : xst) (name : list Z) : xst :=
  let n := List.length (xels s) in
  let els1 := match xprev s with O => xels s | p => onEl p (setNext (u16 (Z.of_nat n - Z.of_nat p))) (xels s) end in
  let els2 := match xstack s with
              | [] => els1
              | top :: _ => if xchild (atEl top els1) =? 0 then onEl top (setChild (u16 (Z.of_nat n - Z.of_nat top))) els1 else els1
              end in
  {| xels := els2 ++ [newEl name XNode]; xstack := n :: xstack s; xprev := O |}.

(** Xml.cpp:76-81 a closing tag *)
Definition closeNode (s : xst) : xst :=
  match xstack s with [] => s | top :: rest => {| xels := xels s; xstack := rest; xprev := top |} end.

(** Helper of [tag], Xml.cpp:41-160. *)
Definition lastOr (d : Z) (l : list Z) : Z := last l d.

(** Xml.cpp:41-160 what follows '<': [Some (s, rest)] or a parse error *)
Definition tag (s : xst) (r : list Z) : option (xst * list Z) :=
  if (8 <? zlen r) && startsWith (txt "![CDATA[") r then
    match cdataEnd (skipn 8 r) with
    | None => None
    | Some (a, b) => Some ({| xels := xels s ++ [newEl a XCdata]; xstack := xstack s; xprev := xprev s |}, b)
    end
  else
    let name := takeW (fun c => negb (c =? 62) && negb (isSpace c)) r in
    let body := takeW (fun c => negb (c =? 62)) r in
    match skipn (List.length body) r with
    | [] => None
    | _ :: rest =>
      let first := hd 62 body in
      let lastc := lastOr 60 body in
      let out := fun s' tagText => match attributes (S (List.length tagText)) s' (skipn (List.length name) tagText) with
                                   | None => None | Some s2 => Some (s2, rest) end in
      if first =? 47 then out (closeNode s) body
      else if lastc =? 47 then out s (removelast body)
      else if (first =? 63) && (lastc =? 63) then out s (removelast body)
      else if (5 <? zlen body) && startsWith (txt "!--") body && (lastc =? 45) && (nth (List.length body - 2) body 0 =? 45) then Some (s, rest)
      else out (openNode s name) body
    end.

(** Xml.cpp:28-37 the text before the next '<' *)
Definition textRun (s : xst) (run : list Z) : xst :=
  match run, xstack s with
  | [], _ => s
  | _, [] => s
  | _, top :: _ => {| xels := onEl top (setHas true) (xels s) ++ [newEl run XString]; xstack := xstack s; xprev := xprev s |}
  end.

(** Xml.cpp:25-161 the loop; every round takes at least one character *)
Fixpoint xloop (fuel : nat) (s : xst) (l : list Z) : option xst :=
  match fuel with
  | O => None
  | S f =>
    match l with
    | [] => Some s
    | _ =>
      let run := takeW (fun c => negb (c =? 60)) l in
      let s1 := textRun s run in
      match skipn (List.length run) l with
      | [] => Some s1
      | _ :: r => match tag s1 r with None => None | Some (s2, rest) => xloop f s2 rest end
      end
    end
  end.

(** Xml.cpp:15-164 [parse] with the elements it leaves *)
Definition parseXml (l : list Z) : option (list xel) :=
  match xloop (S (List.length l)) {| xels := []; xstack := []; xprev := O |} l with
  | None => None
  | Some s => match xels s, xstack s with _ :: _, [] => Some (xels s) | _, _ => None end
  end.

(** Xml.cpp:198-201, 219-222 *)
Definition nextSibling (l : list xel) (i : nat) : option nat := let n := xnext (atEl i l) in if n =? 0 then None else Some (i + Z.to_nat n)%nat.
(** Also Xml.cpp:198-201, 219-222. *)
Definition firstNode (l : list xel) (i : nat) : option nat := let n := xchild (atEl i l) in if n =? 0 then None else Some (i + Z.to_nat n)%nat.

(** Xml.cpp:226-234: [UB] outside the vector *)
Fixpoint findNamed (fuel : nat) (l : list xel) (a : option nat) (name : list Z) : res (option nat) :=
  match a with
  | None => Ok None
  | Some i =>
    match fuel with
    | O => UB
    | S f => if (i <? List.length l)%nat then if list_eqb (xname (atEl i l)) name then Ok (Some i) else findNamed f l (nextSibling l i) name else UB
    end
  end.
(** Xml.cpp:224-237 [firstNode(name)] *)
Definition firstNamed (l : list xel) (i : nat) (name : list Z) : res (option nat) := findNamed (S (List.length l)) l (firstNode l i) name.

(** Xml.cpp:166-171 [value]: always reads the element behind *)
Definition xvalue (l : list xel) (i : nat) : res (list Z) :=
  let e := atEl i l in
  let j := (i + Z.to_nat (xattrs e) + 1)%nat in
  if (j <? List.length l)%nat then
    let v := atEl j l in
    Ok (if (xhas e && xtypeEqb (xkind v) XString) || xtypeEqb (xkind v) XCdata then xname v else [])
  else UB.

(** Xml.cpp:185-191 [value(name)] *)
Definition xvalueNamed (l : list xel) (i : nat) (name : list Z) : res (list Z) :=
  bind (firstNamed l i name) (fun r => match r with None => Ok [] | Some j => xvalue l j end).

(** Xml.cpp:179-183 [valueNumber]: a value's text is followed by '<', ']' or a quote in the document,
    which all end the number *)
Definition xnumber (l : list xel) (i : nat) : res Z :=
  bind (xvalue l i) (fun v => match v with [] => Ok 0 | _ => match strtoull (v ++ [60]) with None => UB | Some (n, _) => Ok n end end).

(** ** Writing: 239-321 *)
(** Xml.cpp:239-258: the opening of a tag at a depth (the root at depth 0 has no line of its own) *)
Definition indent (depth : nat) : list Z := 10 :: repeat 9 depth.
(** Also Xml.cpp:239-258. *)
Definition wRoot (buf name : list Z) : list Z := buf ++ [60] ++ name ++ [62].
(** Also Xml.cpp:239-258. *)
Definition wChild (depth : nat) (buf name : list Z) : list Z := buf ++ indent depth ++ [60] ++ name ++ [62].
(** Xml.cpp:307-321 [close] *)
Definition wClose (depth : nat) (hasChildren : bool) (buf name : list Z) : list Z :=
  buf ++ (if hasChildren then indent depth else []) ++ [60; 47] ++ name ++ [62].
(** Xml.cpp:280-285, 292-296 [addValue] in a parent of the given depth *)
Definition wValue (depth : nat) (buf name value : list Z) : list Z := wClose (S depth) false (wChild (S depth) buf name ++ value) name.
(** Xml.cpp:287-290 *)
Definition wNumber (depth : nat) (buf name : list Z) (n : Z) : list Z := wValue depth buf name (toString n).
(** Xml.cpp:298-305 [addValueCData] *)
Definition wCData (depth : nat) (buf name value : list Z) : list Z :=
  wClose (S depth) false (wChild (S depth) buf name ++ txt "<![CDATA[" ++ value ++ txt "]]>") name.
