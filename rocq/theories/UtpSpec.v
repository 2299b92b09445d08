(** A uTP connection seen from outside. *)
From Coq Require Import Sorted.
From Verif Require Import Base UtpModel.

(** What can happen to a stream, in any order. *)
Inductive event :=
| Write (data : list Z) (grow : bool)
| Packet (m : message)
| Finish (n : nat)       (* the end of a batch of packets: the receiver takes [n] bytes *)
| Timeout
| Close.

Definition do_event (st : stream) (e : event) : option stream :=
  match e with
  | Write data grow => write st data grow
  | Packet m => readUdpPacket st m
  | Finish n => Some (setRecv st (bufs st) (readFinish (rcv st) n))
  | Timeout => Some (timeout st)
  | Close => Some (setStep st CLOSED)
  end.
Fixpoint run (st : stream) (es : list event) : option stream :=
  match es with [] => Some st | e :: es' => match do_event st e with None => None | Some st' => run st' es' end end.

(** All that arrived for the receiver, in order. *)
Definition delivered (st : stream) : list Z := consumed (rcv st) ++ receiveBuffer (rcv st).

(** The sender of the stream cuts its bytes into packets; packet [k] has number [s0 + k]. *)
Section Sender.
Variable packets : list (list Z).
Variable s0 : Z.
Definition number (k : nat) : Z := (s0 + Z.of_nat k) mod 65536.

(** [m] is packet [k], at most half the range of numbers away from the packet expected next. *)
Definition carries (m : message) (k : nat) : Prop := seq_nr m = number k /\ payload m = nth k packets [] /\ (k < length packets)%nat.
Definition near (st : stream) (k : nat) : Prop :=
  forall n, (n <= length packets)%nat -> delivered st = concat (firstn n packets) -> Z.of_nat n - 32768 <= Z.of_nat k < Z.of_nat n + 32767.

(** Every data packet of a run is one of the sender's, in any order, any number of times.  A stream
    that is connecting learns the first number from the first packet. *)
Fixpoint genuine (st : stream) (es : list event) : Prop :=
  match es with
  | [] => True
  | e :: es' =>
    (forall m, e = Packet m -> mtype m = 0 -> exists k, carries m k /\ near st k) /\
    (forall m, e = Packet m -> step st = SYN_SEND -> (mtype m = 0 \/ mtype m = 2 -> seq_nr m = number 0) /\ mtype m <> 1) /\
    (forall st', do_event st e = Some st' -> genuine st' es')
  end.

(** A packet with the number 0 never waits. *)
Fixpoint zero_in_order (st : stream) (es : list event) : Prop :=
  match es with
  | [] => True
  | e :: es' => (forall m, e = Packet m -> mtype m = 0 -> seq_nr m = 0 -> exists k, carries m k /\ near st k /\ delivered st = concat (firstn k packets)) /\ (forall st', do_event st e = Some st' -> zero_in_order st' es')
  end.

(** Packet [k] came, near enough, during the run. *)
Definition arrived (st : stream) (es : list event) (k : nat) : Prop :=
  exists es1 m es2 st1, es = es1 ++ Packet m :: es2 /\ run st es1 = Some st1 /\ mtype m = 0 /\ carries m k /\ near st1 k.
End Sender.

(** [a] is [b] with some items left out. *)
Inductive sub {A} : list A -> list A -> Prop :=
| sub_nil : sub [] []
| sub_skip x a b : sub a b -> sub a (x :: b)
| sub_take x a b : sub a b -> sub (x :: a) (x :: b).

(** The packets sent for the first time, and those sent again. *)
Definition firsts (o : list output) : list (Z * list Z) := flat_map (fun x => match x with SendData s d => [(s, d)] | _ => [] end) o.
Definition repeats (o : list output) : list (Z * list Z) := flat_map (fun x => match x with ResendData s d => [(s, d)] | _ => [] end) o.

(** The bytes given to [write]. *)
Definition written (es : list event) : list Z := flat_map (fun e => match e with Write d _ => d | _ => [] end) es.

(** The packets kept for resending, with number and payload, and the bytes they occupy. *)
Definition kept (st : stream) : list (Z * list Z) := map (fun p => (sequenceOf p, skipn 20 (nth (bufferIdx p) (bufs st) []))) (sentData (snd_ st)).
Definition kept_size (st : stream) : Z := fold_right Z.add 0 (map (fun '(_, d) => 20 + zlen d) (kept st)).
Definition held_back (st : stream) : list Z := skipn (Z.to_nat (bufferPos (snd_ st))) (prepared (snd_ st)).

(** Neither FIN nor RESET nor the end of the stream. *)
Definition not_ending (e : event) : Prop := match e with Packet m => mtype m <> 1 /\ mtype m <> 3 | Close => False | _ => True end.

(** [m] acknowledges the packet [s]: by number, or by a bit of a selective ack. *)
Definition acknowledged (m : message) (s : Z) : Prop := ~ (0 < (s - ack_nr m) mod 65536 < 32768).
Definition selected (m : message) (s : Z) : Prop :=
  exists c i j, In (1, c) (exts m) /\ (i < length c)%nat /\ (j < 8)%nat /\ Z.testbit (nth i c 0) (Z.of_nat j) = true /\ s = (ack_nr m + 2 + 8 * Z.of_nat i + Z.of_nat j) mod 65536.

(** Bit [j] of a bitmask. *)
Definition bit (mask : list Z) (j : nat) : bool := Z.testbit (nth (j / 8) mask 0) (Z.of_nat (j mod 8)).

(** The packets in flight are among 30000 consecutive ones, the one numbered [base] being the oldest
    not acknowledged. *)
Definition in_flight (base : Z) (st : stream) : Prop :=
  exists ids, map fst (kept st) = map (fun i => i mod 65536) ids /\ StronglySorted Z.lt ids /\ Forall (fun i => base <= i < base + 30000) ids.

(** Data packets of a run. *)
Definition data_packets (es : list event) : Z := fold_right Z.add 0 (map (fun e => match e with Packet m => if mtype m =? 0 then 1 else 0 | _ => 0 end) es).

(** Extensions on the wire: the type of the next, the length, the content. *)
Definition first_type (es : list (Z * list Z)) : Z := match es with [] => 0 | (t, _) :: _ => t end.
Fixpoint encode_exts (es : list (Z * list Z)) : list Z :=
  match es with [] => [] | (_, c) :: es' => first_type es' :: zlen c :: c ++ encode_exts es' end.
