(** Datagrams that come in: utils/UdpAsyncReceiver.cpp. The socket is the environment; what the datagrams mean is in UtpModel.v and DhtCommModel.v. *)
From Verif Require Import Base.

(** What receive_from gives (UdpAsyncReceiver.cpp:56): a datagram with its sender, "interrupted", or another error. When none is left it gives
    would_block. *)
Inductive recv := RGot (from : Z) (data : list Z) | RInterrupted | RError.

(** UdpAsyncReceiver.h:22-36: [size] is the size of tmp.buffer, [endpoint] is tmp.endpoint, [packets] is tmp.packets, [calls] the calls of
    receiveCallback so far. Endpoints are numbers, 0 the one of a new object. *)
Record receiver := { active : bool; size : Z; endpoint : Z; packets : list (list Z); calls : list (Z * list (list Z)) }.

(** UdpAsyncReceiver.h:27 *)
Definition MinBufferSize : Z := 10 * 1024.
(** UdpAsyncReceiver.h:28 *)
Definition MaxBufferSize : Z := 50 * 1024.
(** UdpAsyncReceiver.h:29 *)
Definition MinBufferReadSize : Z := 2048.

(** Model only: a new object *)
Definition newReceiver : receiver := {| active := false; size := 0; endpoint := 0; packets := []; calls := [] |}.

(** UdpAsyncReceiver.cpp:16-21 [listen]; the receive that is begun is the events below *)
Definition listen (s : receiver) : receiver :=
  {| active := true; size := MinBufferSize; endpoint := endpoint s; packets := packets s; calls := calls s |}.

(** UdpAsyncReceiver.cpp:23-27 [stop] *)
Definition stop (s : receiver) : receiver :=
  {| active := false; size := size s; endpoint := endpoint s; packets := packets s; calls := calls s |}.

(** Model only: setter for tmp.endpoint, written by receive_from *)
Definition setEndpoint (e : Z) (s : receiver) : receiver :=
  {| active := active s; size := size s; endpoint := e; packets := packets s; calls := calls s |}.
(** Model only: setter for tmp.buffer's size *)
Definition setSize (n : Z) (s : receiver) : receiver :=
  {| active := active s; size := n; endpoint := endpoint s; packets := packets s; calls := calls s |}.
(** UdpAsyncReceiver.cpp:76: one more packet *)
Definition addPacket (d : list Z) (s : receiver) : receiver :=
  {| active := active s; size := size s; endpoint := endpoint s; packets := packets s ++ [d]; calls := calls s |}.

(** UdpAsyncReceiver.cpp:86-97 [flushPackets], with a callback set *)
Definition flushPackets (s : receiver) : receiver :=
  match packets s with
  | [] => s
  | ps => {| active := active s; size := size s; endpoint := endpoint s; packets := []; calls := calls s ++ [(endpoint s, ps)] |}
  end.

(** The loop of UdpAsyncReceiver.cpp:54-80, over what the socket gives; what it did not ask for is left *)
Fixpoint readLoop (rs : list recv) (pos last : Z) (s : receiver) : list recv * receiver :=
  if size s - pos >=? MinBufferReadSize then
    match rs with
    | [] => ([], s)
    | RInterrupted :: rs' => readLoop rs' pos last s
    | RError :: rs' => (rs', s)
    | RGot e data :: rs' =>
      let s1 := setEndpoint e s in
      let got := firstn (Z.to_nat (size s - pos)) data in
      match got with
      | [] => (rs', s1)
      | _ =>
        let s2 := if last =? e then s1 else flushPackets s1 in
        readLoop rs' (pos + Z.of_nat (length got)) e (addPacket got s2)
      end
    end
  else (rs, s).

(** UdpAsyncReceiver.cpp:40-84 [readSocket]; [available] is what the socket says *)
Definition readSocket (available : Z) (rs : list recv) (s : receiver) : list recv * receiver :=
  let a := Z.min MaxBufferSize available in
  let s1 := if a >? size s then setSize a s else s in
  let (rest, s2) := readLoop rs 0 0 s1 in (rest, flushPackets s2).

(** UdpAsyncReceiver.cpp:29-38 [handle_receive]; whether it begins another receive is whether it is active *)
Definition handle_receive (error : bool) (available : Z) (rs : list recv) (s : receiver) : list recv * receiver :=
  if active s then (if error then (rs, s) else readSocket available rs s) else (rs, s).

(** Model only: the socket is ready again and again, with these values of [available], while nothing more comes *)
Fixpoint wake (avs : list Z) (rs : list recv) (s : receiver) : list recv * receiver :=
  match avs with [] => (rs, s) | a :: avs' => let (rs', s') := handle_receive false a rs s in wake avs' rs' s' end.
