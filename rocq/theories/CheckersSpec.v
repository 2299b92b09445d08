(** What is said of the checks as they run *)
From Verif Require Import Base CheckersModel.

(** How often it was told *)
Fixpoint startedTimes (c : nat) (o : list effect) : nat := match o with [] => 0%nat | AStarted x :: o' => ((if (x =? c)%nat then 1 else 0) + startedTimes c o')%nat | _ :: o' => startedTimes c o' end.
Fixpoint finishedTimes (c : nat) (o : list effect) : nat := match o with [] => 0%nat | AFinished x :: o' => ((if (x =? c)%nat then 1 else 0) + finishedTimes c o')%nat | _ :: o' => finishedTimes c o' end.

(** How many workers of a check are done *)
Fixpoint gone (l : list phase) : nat := match l with [] => 0%nat | Gone :: l' => S (gone l') | _ :: l' => gone l' end.

(** Whether any worker is not done *)
Definition busy (j : job) : bool := negb (gone (workers j) =? 4)%nat.

(** A history in which no two workers count at the same time *)
Inductive op := OCheck | OStop | OEnd (c w : nat).
Definition expand (o : op) : list event := match o with OCheck => [ECheck] | OStop => [EStop] | OEnd c w => [ELoad c w; EStore c w] end.
Definition serial (os : list op) : list event := flat_map expand os.

(** ... and in which a check begins only when the workers of the last one are done *)
Fixpoint calm (os : list op) (s : files) : Prop :=
  match os with [] => True | o :: os' => (o = OCheck -> existsb busy (jobs s) = false \/ checking s = true) /\ calm os' (run (expand o) s) end.
