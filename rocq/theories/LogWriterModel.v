(** The log files: Core/Logging.cpp and Logging.h. What is logged is kept as bytes and turned into text when the file is written. How numbers are written as digits is
    left out: what goes to the file is a list of tokens. *)
From Verif Require Import Base.

(** Logging.h:60 [DataType] *)
Definition tSTART := 0.
(** Logging.h:60 *)
Definition tPARAM := 1.
(** Logging.h:60 *)
Definition tSTR := 2.
(** Logging.h:60 *)
Definition tFLOAT := 3.
(** Logging.h:60 *)
Definition tUINT16 := 4.
(** Logging.h:60 *)
Definition tUINT := 5.
(** Logging.h:60 *)
Definition tINT64 := 6.
(** Logging.h:60 *)
Definition tADDR := 7.
(** Logging.h:60 *)
Definition tENDL := 8.

(** Logging.h:62-71, 75-86: what a line can be given. A literal is kept by its address, here its text; a float is its 4 bytes; an address its bytes and its port. *)
Inductive item := ILit (s : list Z) | IText (s : list Z) | IFloat (b : list Z) | I16 (n : Z) | I32 (n : Z) | IInt (n : Z) | I64 (n : Z) | IU64 (n : Z) | IAddr (b : list Z) (port : Z).

(** Model only: what is written to the file *)
Inductive token := TText (s : list Z) | TFloat (b : list Z) | TNum (n : Z) | TAddr (b : list Z) (port : Z) | TIndex (n : Z) | TEnd.

(** Logging.h:90-103 *)
Record writer := { data : list Z; lineParams : list (list (list Z)); name : list Z; idx : Z; firstTime : Z }.

(** Model only: setter *)
Definition withData (d : list Z) (w : writer) : writer := {| data := d; lineParams := lineParams w; name := name w; idx := idx w; firstTime := firstTime w |}.
(** Model only: setter *)
Definition withParams (p : list (list (list Z))) (f : Z) (w : writer) : writer := {| data := data w; lineParams := p; name := name w; idx := idx w; firstTime := f |}.

(** Logging.cpp:36-70, 179-192, 205-206 and Logging.h:75-86: the operators << *)
Definition write (i : item) (w : writer) : writer :=
  match i with
  | ILit s => let w1 := if firstTime w =? 0 then w else withParams (upd (Z.to_nat (firstTime w)) (nth (Z.to_nat (firstTime w)) (lineParams w) [] ++ [s]) (lineParams w)) (firstTime w) w in
              withData (data w1 ++ [tPARAM]) w1
  | IText s => withData (data w ++ [tSTR] ++ s ++ [0]) w
  | IFloat b => withData (data w ++ [tFLOAT] ++ b) w
  | I16 n => withData (data w ++ [tUINT16] ++ le 2 n) w
  | I32 n => withData (data w ++ [tUINT] ++ le 4 n) w
  | IInt n | IU64 n => withData (data w ++ [tUINT] ++ le 4 (u32 n)) w
  | I64 n => withData (data w ++ [tINT64] ++ le 8 (u64 n)) w
  | IAddr b port => withData (data w ++ [tADDR] ++ firstn 4 b ++ le 2 port) w
  end.

(** Logging.cpp:165-177 [StartLogLine]; [time] the 4 bytes of the float *)
Definition StartLogLine (id : Z) (time : list Z) (w : writer) : writer :=
  let w1 := write (IFloat time) (withData (data w ++ [tSTART] ++ [id]) w) in
  let p := if zlen (lineParams w1) <=? id then lineParams w1 ++ repeat [] (Z.to_nat (id + 1 - zlen (lineParams w1))) else lineParams w1 in
  withParams p (if id =? 0 then 0 else match nth (Z.to_nat id) p [] with [] => id | _ => 0 end) w1.

(** Model only: [n] bytes at the front, all of them there; and the rest *)
Definition take (n : nat) (d : list Z) : res (list Z * list Z) := if (length d <? n)%nat then UB else Ok (firstn n d, skipn n d).
(** Logging.cpp:139-141: up to a 0, which has to be there *)
Fixpoint takeStr (d : list Z) : res (list Z * list Z) :=
  match d with [] => UB | c :: d' => if c =? 0 then Ok ([], d') else bind (takeStr d') (fun r => let (s, rest) := r in Ok (c :: s, rest)) end.
(** Model only: a value of 8 bytes as int64_t *)
Definition signed64 (n : Z) : Z := if n <? 9223372036854775808 then n else n - 18446744073709551616.

(** Logging.cpp:93-148: the loop of [flush]; [lineId] and [paramPos] are its variables, the fuel is the size of [d] *)
Fixpoint decode (fuel : nat) (params : list (list (list Z))) (index : Z) (lineId : Z) (paramPos : nat) (d : list Z) : res (list token) :=
  match d with
  | [] => Ok []
  | type :: d1 =>
    match fuel with
    | O => UB
    | S fuel' =>
      let number (n : nat) (f : Z -> Z) := bind (take n d1) (fun r => let (b, d2) := r in
                                           bind (decode fuel' params index lineId paramPos d2) (fun ts => Ok (TNum (f (unle b)) :: ts))) in
      if type =? tENDL then bind (decode fuel' params index lineId paramPos d1) (fun ts => Ok ((if index =? 0 then [] else [TIndex index]) ++ TEnd :: ts))
      else if type =? tSTART then bind (take 1 d1) (fun r => let (b, d2) := r in decode fuel' params index (nth 0 b 0) 0 d2)
      else if type =? tUINT16 then number 2%nat (fun x => x)
      else if type =? tUINT then number 4%nat (fun x => x)
      else if type =? tINT64 then number 8%nat signed64
      else if type =? tFLOAT then bind (take 4 d1) (fun r => let (b, d2) := r in bind (decode fuel' params index lineId paramPos d2) (fun ts => Ok (TFloat b :: ts)))
      else if type =? tADDR then bind (take 6 d1) (fun r => let (b, d2) := r in
                                 bind (decode fuel' params index lineId paramPos d2) (fun ts => Ok (TAddr (firstn 4 b) (unle (skipn 4 b)) :: ts)))
      else if type =? tSTR then bind (takeStr d1) (fun r => let (s, d2) := r in bind (decode fuel' params index lineId paramPos d2) (fun ts => Ok (TText s :: ts)))
      else if (type =? tPARAM) && negb (lineId =? 0)
      then match nth_error params (Z.to_nat lineId) with
           | None => UB
           | Some l => match nth_error l paramPos with
                       | None => UB
                       | Some s => bind (decode fuel' params index lineId (S paramPos) d1) (fun ts => Ok (TText s :: ts))
                       end
           end
      else decode fuel' params index lineId paramPos d1
    end
  end.

(** Logging.cpp:72-75: nothing is written while the log has no name, or only the first part of one *)
Definition named (n : list Z) : bool := match rev n with [] => false | c :: _ => negb (c =? 95) end.

(** Logging.cpp:72-152 [flush]; [dirOk]: the folder is there. A file that cannot be opened loses what is written to it, which is left out *)
Definition flush (dirOk : bool) (w : writer) : res (list token * writer) :=
  if (match data w with [] => true | _ => false end) || negb (named (name w)) || negb dirOk then Ok ([], w)
  else bind (decode (length (data w)) (lineParams w) (idx w) 0 0 (data w)) (fun ts => Ok (ts, withParams [[]] (firstTime w) (withData [] w))).

(** Logging.h:117 WRITE_LOG: a line; Logging.cpp:194-203: ENDL flushes *)
Definition line (id : Z) (time : list Z) (items : list item) (dirOk : bool) (w : writer) : res (list token * writer) :=
  let w1 := fold_left (fun w i => write i w) items (StartLogLine id time w) in flush dirOk (withData (data w1 ++ [tENDL]) w1).

(** Logging.cpp:213-221: the constructor, with the name that CREATE_LOG gives (Logging.h:112) and the index (208-211) *)
Definition newWriter (n : list Z) (index : Z) (time : list Z) : writer :=
  let w0 := {| data := []; lineParams := [[]]; name := []; idx := index; firstTime := 0 |} in
  let w1 := write (IText [105; 110; 105; 116]) (StartLogLine 0 time w0) in
  {| data := data w1 ++ [tENDL]; lineParams := lineParams w1; name := n; idx := index; firstTime := firstTime w1 |}.

(** Model only: what happens to a log: a line is logged, NAME_LOG (Logging.h:114) gives the rest of the name, the writer is destroyed or flushed otherwise *)
Inductive event := ELine (id : Z) (time : list Z) (items : list item) (dirOk : bool) | EName (n : list Z) | EFlush (dirOk : bool).

(** Model only: one of those *)
Definition step (ev : event) (w : writer) : res (list token * writer) :=
  match ev with
  | ELine id time items dirOk => line id time items dirOk w
  | EName n => Ok ([], if match rev (name w) with c :: _ => c =? 95 | [] => false end
                       then {| data := data w; lineParams := lineParams w; name := name w ++ n; idx := idx w; firstTime := firstTime w |} else w)
  | EFlush dirOk => flush dirOk w
  end.

(** Model only: any history, with all that went to the file *)
Fixpoint run (es : list event) (w : writer) : res (list token * writer) :=
  match es with [] => Ok ([], w) | ev :: es' => bind (step ev w) (fun r => let (ts, w') := r in bind (run es' w') (fun r' => let (ts', w'') := r' in Ok (ts ++ ts', w''))) end.
