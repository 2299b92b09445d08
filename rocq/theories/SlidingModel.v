(** The sliding average of Core/Utp/UtpStream.cpp:30-67, as it is instantiated at 67: ints, gain 16. The call at 758 is commented out. *)
From Verif Require Import Base.

(** UtpStream.cpp:58-65 *)
Record average := { m_mean : Z; m_average_deviation : Z; m_num_samples : Z }.

(** UtpStream.cpp:33 *)
Definition newAverage : average := {| m_mean := 0; m_average_deviation := 0; m_num_samples := 0 |}.

(** Model only: the value of an int expression; [UB] where it overflows *)
Definition int (x : Z) : res Z := if (-2147483648 <=? x) && (x <=? 2147483647) then Ok x else UB.

(** UtpStream.cpp:35-53 [add_sample]; the division is that of C *)
Definition add_sample (s0 : Z) (a : average) : res average :=
  bind (int (s0 * 64)) (fun s =>
  bind (if 0 <? m_num_samples a then bind (int (m_mean a - s)) (fun d => int (Z.abs d)) else Ok 0) (fun deviation =>
  let n := if m_num_samples a <? 16 then m_num_samples a + 1 else m_num_samples a in
  bind (int (s - m_mean a)) (fun d =>
  bind (int (m_mean a + Z.quot d n)) (fun mean' =>
  if 1 <? n then
    bind (int (deviation - m_average_deviation a)) (fun e =>
    bind (int (m_average_deviation a + Z.quot e (n - 1))) (fun dev' =>
    Ok {| m_mean := mean'; m_average_deviation := dev'; m_num_samples := n |}))
  else Ok {| m_mean := mean'; m_average_deviation := m_average_deviation a; m_num_samples := n |})))).

(** UtpStream.cpp:55 *)
Definition mean (a : average) : res Z := if 0 <? m_num_samples a then bind (int (m_mean a + 32)) (fun x => Ok (Z.quot x 64)) else Ok 0.
(** UtpStream.cpp:56 *)
Definition avg_deviation (a : average) : res Z := if 1 <? m_num_samples a then bind (int (m_average_deviation a + 32)) (fun x => Ok (Z.quot x 64)) else Ok 0.
(** UtpStream.cpp:57 *)
Definition num_samples (a : average) : Z := m_num_samples a.

(** Model only: any samples, in order *)
Fixpoint samples (l : list Z) (a : average) : res average :=
  match l with [] => Ok a | s :: l' => bind (add_sample s a) (samples l') end.
