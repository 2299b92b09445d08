(** What the bandwidth limiter should guarantee, without its data structures. *)
From Verif Require Import BandwidthModel.

(** Bytes handed to users that named channel [c]. *)
Fixpoint handed (c : nat) (out : list request) : Z :=
  match out with
  | [] => 0
  | r :: out' => (if existsb (Nat.eqb c) (r_named r) then r_assigned r else 0) + handed c out'
  end.

(** Milliseconds the limiter credits (a gap above three seconds counts as
    three), and the number of ticks. *)
Fixpoint elapsed (es : list event) : Z :=
  match es with
  | [] => 0
  | Tick dt _ :: es' => Z.min dt 3000 + elapsed es'
  | _ :: es' => elapsed es'
  end.

Fixpoint ticks (es : list event) : Z :=
  match es with
  | [] => 0
  | Tick _ _ :: es' => 1 + ticks es'
  | _ :: es' => ticks es'
  end.

(** Sensible events: sizes and priorities are positive [int]s, a request names
    at most two channels, each once, and time does not run backwards. *)
Definition event_ok (e : event) : Prop :=
  match e with
  | Request _ a p named =>
      0 <= a <= inf /\ 1 <= p <= inf /\ NoDup named /\ zlen named <= 2
  | Tick dt _ => 0 <= dt
  | Close => True
  end.

(** Sum of the priorities of the queued requests that wait on channel [c]. *)
Fixpoint waiting (c : nat) (q : list request) : Z :=
  match q with
  | [] => 0
  | r :: q' => (if existsb (Nat.eqb c) (r_chans r) then r_prio r else 0) + waiting c q'
  end.

(** What the queue still owes. *)
Fixpoint owed (q : list request) : Z :=
  match q with
  | [] => 0
  | r :: q' => (r_size r - r_assigned r) + owed q'
  end.

(** [r'] is request [r], perhaps later. *)
Definition same_request (r r' : request) : Prop :=
  r_user r' = r_user r /\ r_size r' = r_size r /\ r_prio r' = r_prio r /\
  r_chans r' = r_chans r /\ r_named r' = r_named r.

(** Nothing in the run [es] from [s] stops the requests of user [u] on the
    channels [l]: the user stays active, the limiter is not closed, and in each
    tick every limited channel of [l] gains at least one byte for each unit of
    priority waiting on it. *)
Fixpoint roomy (u : nat) (l : list nat) (es : list event) (s : mgr) : Prop :=
  match es with
  | [] => True
  | e :: es' =>
    match e with
    | Tick dt act =>
        act u = true /\
        forall c, In c l -> c_limit (m_chans s c) = 0 \/
          (1000 * waiting c (m_queue s) <= c_limit (m_chans s c) * Z.min dt 3000 + 500
           /\ waiting c (m_queue s) <= inf)
    | Close => False
    | Request _ _ _ _ => True
    end /\
    match step e s with
    | Ok (s1, _) => roomy u l es' s1
    | UB => False
    end
  end.
