(** What an uploader should do, independent of its queue. *)
From Verif Require Import UploaderModel.

(** Bytes sent. *)
Fixpoint sentBytes (out : list answer) : Z :=
  match out with
  | [] => 0
  | a :: out' => b_length (up_block (a_up a)) + sentBytes out'
  end.

(** All requests received. *)
Fixpoint asked (cs : list call) : list upload :=
  match cs with
  | [] => []
  | Ask r _ :: cs' => r :: asked cs'
  | _ :: cs' => asked cs'
  end.

Definition block_eq_dec (a b : block) : {a = b} + {a <> b}.
Proof. decide equality; apply Z.eq_dec. Defined.
Definition upload_eq_dec (a b : upload) : {a = b} + {a <> b}.
Proof. decide equality; [apply block_eq_dec|apply Nat.eq_dec]. Defined.

(** Wire values: lengths are 32 bit, grants are non negative [int]s and the
    bandwidth manager's immediate reply is nothing or what was asked. *)
Definition call_ok (c : call) : Prop :=
  match c with
  | Ask r reply => 0 <= b_length (up_block r) < 4294967296 /\ (forall n, 0 <= n -> 0 <= reply n <= n)
  | Grant n => 0 <= n
  | Run _ _ reply => forall n, 0 <= n -> 0 <= reply n <= n
  | _ => True
  end.

(** Bytes granted by the bandwidth manager during a run, read off the calls. *)
Definition grantedBytes (cs : list call) : Z := u_granted (fst (run cs newUploader)).

(** Somebody will look at the pending requests again: nothing is pending, or a
    job is posted, or an answer of the bandwidth manager is outstanding. *)
Definition awake (u : uploader) : Prop :=
  u_pending u = [] \/ (0 < u_posts u)%nat \/ u_asking u = true.

(** Bytes pending. *)
Fixpoint pendingBytes (l : list upload) : Z :=
  match l with [] => 0 | r :: l' => b_length (up_block r) + pendingBytes l' end.

(** At every point of the run the pending bytes fit 32 bits. *)
Fixpoint light (cs : list call) (u : uploader) : Prop :=
  pendingBytes (u_pending u) < 4294967296 /\
  match cs with [] => True | c :: cs' => light cs' (fst (step c u)) end.
