(** Model of utils/Bandwidth.{h,cpp}: channels with a limit, queued requests
    and the periodic distribution of quota.

    Simplifications.  A channel is named by a number instead of by the pointer
    GetChannel (Bandwidth.cpp 110-123) returns, and the map from names to
    channels is a function.  [int] and [int64_t] arithmetic is on unbounded
    integers: the theorems ask for request sizes below 2^31, and the sum of the
    priorities of the queued requests is taken to fit an [int].  The mutex is
    not modelled: each call runs alone.  [user->isActive()] is an argument of
    the tick; the calls to [user->assignBandwidth] are the list of requests
    returned, each with the amount in [r_assigned]. *)
From Verif Require Export Base.

(** BandwidthChannel, Bandwidth.h 24-65. *)
Record chan := MkChan {
  c_sum : Z;    (* tmpPrioritySum *)
  c_dist : Z;   (* distributeQuota *)
  c_quota : Z;  (* quotaLeft *)
  c_limit : Z   (* limit, 0 means infinite *)
}.

(** BandwidthRequest, Bandwidth.h 67-93.  [r_chans] is the null terminated
    channel array.  [r_named] is a ghost field: the channels the caller named,
    which requestBandwidth does not keep (Bandwidth.cpp 157-161). *)
Record request := MkReq {
  r_user : nat;
  r_prio : Z;
  r_assigned : Z;
  r_size : Z;
  r_ttl : Z;
  r_chans : list nat;
  r_named : list nat
}.

(** Bandwidth.h 26, 76, 82. *)
Definition inf : Z := 2147483647.
(** Also Bandwidth.h 26, 76, 82. *)
Definition minimumAssign : Z := 16384.
(** Also Bandwidth.h 26, 76, 82. *)
Definition initialTtl : Z := 10000.

(** BandwidthManager, Bandwidth.h 96-125. *)
Record mgr := MkMgr {
  m_queue : list request;
  m_bytes : Z;           (* queuedBytes *)
  m_abort : bool;
  m_chans : nat -> chan
}.

(** Helper of [onChans], Bandwidth.cpp 95-96, 194-199, 206-210. *)
Definition setChan (i : nat) (c : chan) (m : nat -> chan) : nat -> chan :=
  fun j => if Nat.eqb j i then c else m j.

(** Helper of [returnQuota], Bandwidth.cpp 45-51. *)
Definition withQuota (c : chan) (q : Z) : chan :=
  MkChan (c_sum c) (c_dist c) q (c_limit c).
(** Helper of [dropInactive], Bandwidth.cpp 186-212. *)
Definition withSum (c : chan) (s : Z) : chan :=
  MkChan s (c_dist c) (c_quota c) (c_limit c).
(** Helper of [assignBandwidth], Bandwidth.cpp 81-101. *)
Definition withAssigned (r : request) (a : Z) : request :=
  MkReq (r_user r) (r_prio r) a (r_size r) (r_ttl r) (r_chans r) (r_named r).
(** Helper of [distribute], Bandwidth.cpp 229-245. *)
Definition withTtl (r : request) (t : Z) : request :=
  MkReq (r_user r) (r_prio r) (r_assigned r) (r_size r) t (r_chans r) (r_named r).

(** BandwidthChannel::setLimit, Bandwidth.cpp 13-16. *)
Definition setLimit (c : chan) (l : Z) : chan :=
  MkChan (c_sum c) (c_dist c) (c_quota c) l.

(** BandwidthChannel::updateQuota, Bandwidth.cpp 23-43. *)
Definition updateQuota (dt : Z) (c : chan) : chan :=
  if c_limit c =? 0 then c else
  let toAdd := Z.quot (c_limit c * dt + 500) 1000 in
  let q :=
    if inf - c_quota c <? toAdd then inf
    else
      let q1 := c_quota c + toAdd in
      let q2 := if c_limit c <? Z.quot q1 3 then c_limit c * 3 else q1 in
      Z.min q2 inf in
  MkChan (c_sum c) (Z.max q 0) q (c_limit c).

(** BandwidthChannel::returnQuota, Bandwidth.cpp 45-51. *)
Definition returnQuota (amount : Z) (c : chan) : chan :=
  if c_limit c =? 0 then c else withQuota c (c_quota c + amount).

(** BandwidthChannel::useQuota, Bandwidth.cpp 53-59. *)
Definition useQuota (amount : Z) (c : chan) : chan :=
  if c_limit c =? 0 then c else withQuota c (c_quota c - amount).

(** BandwidthChannel::needQueueing, Bandwidth.cpp 61-69. *)
Definition needQueueing (amount : Z) (c : chan) : bool * chan :=
  if c_limit c =? 0 then (false, c)
  else if c_quota c - amount <? c_limit c then (true, c)
  else (false, withQuota c (c_quota c - amount)).

(** Apply [f] to each channel of the list, in order (the loops over
    [channel[j]], Bandwidth.cpp 95-96, 194-199, 206-210). *)
Fixpoint onChans (f : chan -> chan) (l : list nat) (m : nat -> chan) : nat -> chan :=
  match l with
  | [] => m
  | i :: l' => onChans f l' (setChan i (f (m i)) m)
  end.

(** The share loop of BandwidthRequest::assignBandwidth, Bandwidth.cpp 87-93. *)
Fixpoint share (m : nat -> chan) (prio : Z) (l : list nat) (quota : Z) : Z :=
  match l with
  | [] => quota
  | i :: l' =>
    let c := m i in
    if c_limit c =? 0 then share m prio l' quota
    else if c_sum c =? 0 then share m prio l' quota
    else share m prio l' (Z.min (Z.quot (c_dist c * prio) (c_sum c)) quota)
  end.

(** BandwidthRequest::assignBandwidth, Bandwidth.cpp 81-101. *)
Definition assignBandwidth (m : nat -> chan) (r : request)
  : (nat -> chan) * request * Z :=
  let quota := r_size r - r_assigned r in
  if quota =? 0 then (m, r, quota) else
  let q := share m (r_prio r) (r_chans r) quota in
  (onChans (useQuota q) (r_chans r) m, withAssigned r (r_assigned r + q), q).

(** The loop over the named channels in requestBandwidth, Bandwidth.cpp
    157-161: the channels that need queueing, and the charged channels. *)
Fixpoint queueChans (amount : Z) (l : list nat) (m : nat -> chan)
  : list nat * (nat -> chan) :=
  match l with
  | [] => ([], m)
  | i :: l' =>
    let '(b, c) := needQueueing amount (m i) in
    let '(ks, m') := queueChans amount l' (setChan i c m) in
    ((if b then i :: ks else ks), m')
  end.

(** BandwidthManager::requestBandwidth, Bandwidth.cpp 145-169.  The amount
    returned at once, and the new state.  More than two channels to queue on
    would overrun [bwr.channel]. *)
Definition requestBandwidth (s : mgr) (user : nat) (amount prio : Z) (named : list nat)
  : res (Z * mgr) :=
  if m_abort s then Ok (0, s)
  else match named with
  | [] => Ok (amount, s)
  | _ =>
    let '(ks, m) := queueChans amount named (m_chans s) in
    match ks with
    | [] => Ok (amount, MkMgr (m_queue s) (m_bytes s) (m_abort s) m)
    | _ =>
      if (2 <? zlen ks) then UB
      else Ok (0, MkMgr (m_queue s ++ [MkReq user prio 0 amount initialTtl ks named])
                        (m_bytes s + amount) (m_abort s) m)
    end
  end.

(** First loop of updateQuotas, Bandwidth.cpp 186-212: requests kept, requests
    of inactive users, queuedBytes, channels. *)
Fixpoint dropInactive (active : nat -> bool) (q : list request) (bytes : Z) (m : nat -> chan)
  : list request * list request * Z * (nat -> chan) :=
  match q with
  | [] => ([], [], bytes, m)
  | r :: q' =>
    if active (r_user r) then
      let '(keep, out, b, m') :=
        dropInactive active q' bytes (onChans (fun c => withSum c 0) (r_chans r) m) in
      (r :: keep, out, b, m')
    else
      let '(keep, out, b, m') :=
        dropInactive active q' (bytes - (r_size r - r_assigned r))
          (onChans (returnQuota (r_assigned r)) (r_chans r) m) in
      (keep, withAssigned r 0 :: out, b, m')
  end.

(** Inner loop of the second pass, Bandwidth.cpp 216-221. *)
Fixpoint addPrio (prio : Z) (l : list nat) (acc : list nat) (m : nat -> chan)
  : list nat * (nat -> chan) :=
  match l with
  | [] => (acc, m)
  | i :: l' =>
    let acc' := if c_sum (m i) =? 0 then acc ++ [i] else acc in
    addPrio prio l' acc' (setChan i (withSum (m i) (c_sum (m i) + prio)) m)
  end.

(** Second loop of updateQuotas, Bandwidth.cpp 214-222. *)
Fixpoint sumPrios (q : list request) (acc : list nat) (m : nat -> chan)
  : list nat * (nat -> chan) :=
  match q with
  | [] => (acc, m)
  | r :: q' =>
    let '(acc', m') := addPrio (r_prio r) (r_chans r) acc m in
    sumPrios q' acc' m'
  end.

(** The condition to answer a request, Bandwidth.cpp 233. *)
Definition finished (r : request) : bool :=
  (r_assigned r =? r_size r) || (minimumAssign <=? r_assigned r)
  || ((r_ttl r <=? 0) && (0 <? r_assigned r)).

(** Last loop of updateQuotas, Bandwidth.cpp 229-245: requests kept, requests
    to answer, queuedBytes, channels. *)
Fixpoint distribute (dt : Z) (q : list request) (bytes : Z) (m : nat -> chan)
  : list request * list request * Z * (nat -> chan) :=
  match q with
  | [] => ([], [], bytes, m)
  | r :: q' =>
    let '(m1, r1, a) := assignBandwidth m (withTtl r (r_ttl r - dt)) in
    if finished r1 then
      let '(keep, out, b, m') :=
        distribute dt q' (bytes - (a + (r_size r1 - r_assigned r1))) m1 in
      (keep, r1 :: out, b, m')
    else
      let '(keep, out, b, m') := distribute dt q' (bytes - a) m1 in
      (r1 :: keep, out, b, m')
  end.

(** BandwidthManager::updateQuotas, Bandwidth.cpp 171-256.  The answers are
    given from the back of the local queue (248-253). *)
Definition updateQuotas (dt0 : Z) (active : nat -> bool) (s : mgr) : mgr * list request :=
  if m_abort s then (s, [])
  else match m_queue s with
  | [] => (s, [])
  | _ =>
    let dt := if 3000 <? dt0 then 3000 else dt0 in
    let '(q1, out1, b1, m1) := dropInactive active (m_queue s) (m_bytes s) (m_chans s) in
    let '(cs, m2) := sumPrios q1 [] m1 in
    let m3 := onChans (updateQuota dt) cs m2 in
    let '(q2, out2, b2, m4) := distribute dt q1 b1 m3 in
    (MkMgr q2 b2 (m_abort s) m4, rev (out1 ++ out2))
  end.

(** BandwidthManager::close, Bandwidth.cpp 129-143. *)
Definition close (s : mgr) : mgr * list request :=
  (MkMgr [] 0 true (m_chans s), rev (m_queue s)).

(** The initial manager, Bandwidth.h 52-64, 112-122, with the limits the
    application configured (Core.cpp 313-327). *)
Definition init (lim : nat -> Z) : mgr :=
  MkMgr [] 0 false (fun i => MkChan 0 0 0 (lim i)).

(** What the application does: requests (TcpAsyncStream.cpp 451-496,
    Uploader.cpp 73), ticks (Core.cpp 315-332) and closing. *)
Inductive event :=
| Request (user : nat) (amount prio : Z) (named : list nat)
| Tick (dt : Z) (active : nat -> bool)
| Close.

(** One event; the list holds every request answered, with the amount. Model only: the calls and events above, in any order, as the histories of the theorems. *)
Definition step (e : event) (s : mgr) : res (mgr * list request) :=
  match e with
  | Request u a p named =>
    bind (requestBandwidth s u a p named) (fun '(n, s') =>
      Ok (s', if n =? 0 then [] else [MkReq u p n a initialTtl [] named]))
  | Tick dt act => Ok (updateQuotas dt act s)
  | Close => Ok (close s)
  end.

(** Model only: the calls and events above, in any order, as the histories of the theorems. *)
Fixpoint run (es : list event) (s : mgr) : res (mgr * list request) :=
  match es with
  | [] => Ok (s, [])
  | e :: es' =>
    bind (step e s) (fun '(s1, o1) =>
    bind (run es' s1) (fun '(s2, o2) => Ok (s2, o1 ++ o2)))
  end.
