(** Model of the uTP stream: mtTorrent/Core/Utp/UtpStream.cpp, UtpStream.h and the parsing in
    UtpManager.cpp. Clocks, timeouts and round trip times are left out; every moment at which the
    timer could fire is an event. *)
From Verif Require Import Base.

(** UtpStream.cpp:15-21, 22-28; [& 0xFFFF] is taken modulo 2^16 *)
Definition idLowerThan (lhs rhs : Z) : bool := (rhs - lhs) mod 65536 <? (lhs - rhs) mod 65536.
(** Also UtpStream.cpp:15-21, 22-28. *)
Definition idHigherThan (lhs rhs : Z) : bool := (lhs - rhs) mod 65536 <? (rhs - lhs) mod 65536.

(** * Datagrams. For [parseExtensions], UtpStream.cpp:897-912. *)

Definition byteAt (d : list Z) (i : nat) : res Z := match nth_error d i with Some b => Ok b | None => UB end.

(** UtpStream.cpp:897-912; [pos] is the position of [ext], the fuel covers 2 bytes an extension *)
Fixpoint parseExtensions (fuel : nat) (d : list Z) (extensionType : Z) (pos : nat) (dataLeft : Z) : res Z :=
  if extensionType =? 0 then Ok (zlen d - dataLeft)
  else match fuel with
       | O => UB
       | S fuel' =>
         if dataLeft <? 2 then Ok 0
         else bind (byteAt d (pos + 1)) (fun len =>
              if dataLeft - 2 <? len then Ok 0
              else bind (byteAt d pos) (fun next => parseExtensions fuel' d next (pos + 2 + Z.to_nat len) (dataLeft - 2 - len)))
       end.

(** UtpStream.cpp:891-913 *)
Definition parseHeaderSize (d : list Z) : res Z :=
  bind (byteAt d 1) (fun extension => parseExtensions (S (length d)) d extension 20 (zlen d - 20)).

(** UtpManager.cpp:95-106: 0 if the datagram is not uTP *)
Definition getUtpPacketHeaderSize (d : list Z) : res Z :=
  if zlen d <? 20 then Ok 0
  else bind (byteAt d 0) (fun type_ver =>
       if negb (Z.land type_ver 15 =? 1) || (4 <? Z.shiftr type_ver 4) then Ok 0 else parseHeaderSize d).

(** The fields of a packet that the stream uses. For [readDatagram], UtpStream.h:215-232. *)
Record message := { mtype : Z; seq_nr : Z; ack_nr : Z; wnd : Z; exts : list (Z * list Z); payload : list Z }.

(** [n] bytes at [pos], all of them inside the datagram. For [walkExtensions], UtpStream.cpp:495-505. *)
Definition bytesAt (d : list Z) (pos n : nat) : res (list Z) := if (pos + n <=? length d)%nat then Ok (slice pos n d) else UB.

(** UtpStream.cpp:495-505: the extensions as [updateState] walks them, without a check of its own *)
Fixpoint walkExtensions (fuel : nat) (d : list Z) (extType : Z) (pos : nat) : res (list (Z * list Z)) :=
  if extType =? 0 then Ok []
  else match fuel with
       | O => UB
       | S fuel' =>
         bind (byteAt d (pos + 1)) (fun len =>
         bind (bytesAt d (pos + 2) (Z.to_nat len)) (fun content =>
         bind (byteAt d pos) (fun next =>
         bind (walkExtensions fuel' d next (pos + 2 + Z.to_nat len)) (fun rest => Ok ((extType, content) :: rest)))))
       end.

(** UtpStream.h:215-232, UtpManager.cpp:155-159: what the stream is given of a datagram *)
Definition readDatagram (d : list Z) : res (option message) :=
  bind (getUtpPacketHeaderSize d) (fun headerSize =>
  if headerSize =? 0 then Ok None
  else bind (byteAt d 0) (fun type_ver =>
       bind (byteAt d 1) (fun extension =>
       bind (walkExtensions (S (length d)) d extension 20) (fun es =>
       Ok (Some {| mtype := Z.shiftr type_ver 4; seq_nr := unbe (slice 16 2 d); ack_nr := unbe (slice 18 2 d);
                   wnd := unbe (slice 12 4 d); exts := es; payload := skipn (Z.to_nat headerSize) d |}))))).

(** * Buffers *)

(** UtpStream.cpp:592-606; the buffer is filled with [content] by the callers. [None]: with 65536
    buffers in use the 16-bit counter never ends the loop *)
Fixpoint findEmpty (l : list (list Z)) (i : nat) : option nat :=
  match l with [] => None | b :: l' => match b with [] => Some i | _ => findEmpty l' (S i) end end.
(** Also UtpStream.cpp:592-606. *)
Definition createDataBuffer (bufs : list (list Z)) (content : list Z) : option (list (list Z) * nat) :=
  match findEmpty bufs 0 with
  | Some i => if Z.of_nat i <? 65536 then Some (upd i content bufs, i) else None
  | None => if 65536 <=? zlen bufs then None else Some (bufs ++ [content], length bufs)
  end.

(** * Receiving *)

(** UtpStream.h:71, 77, 153-174; [consumed] is everything the receiver took so far *)
Inductive stepType := SYN_SEND | SYN_RECV | CONNECTED | CLOSING | CLOSED.
(** Also UtpStream.h:71, 77, 153-174. *)
Record receiving := { ack : Z; received : list (nat * Z); receiveBuffer : list Z; consumed : list Z;
                      gotData : bool; appended : bool }.

(** UtpStream.cpp:827-838; [state.ack + (uint16_t)1] is an int: it does not wrap *)
Fixpoint flushLoop (bufs : list (list Z)) (a : Z) (rs : list (nat * Z)) (out : list Z) : Z * list (nat * Z) * list Z :=
  match rs with
  | [] => (a, [], out)
  | (i, s) :: rs' => if s =? a + 1 then flushLoop bufs (u16 (a + 1)) rs' (out ++ nth i bufs []) else (a, rs, out)
  end.

(** UtpStream.cpp:872-881: [None] if the sequence number is there already *)
Fixpoint insertReceived (e : nat * Z) (rs : list (nat * Z)) : option (list (nat * Z)) :=
  match rs with
  | [] => Some [e]
  | r :: rs' => if snd r =? snd e then None
                else if idHigherThan (snd r) (snd e) then Some (e :: rs)
                else option_map (cons r) (insertReceived e rs')
  end.

(** UtpStream.cpp:531-554 without [updateState]; the buffers of flushed packets stay filled *)
Definition receiveData (bufs : list (list Z)) (r : receiving) (seq : Z) (data : list Z) : option (list (list Z) * receiving) :=
  if seq =? u16 (ack r + 1) then
    let '(a, rs, out) := flushLoop bufs (u16 (ack r + 1)) (received r) (receiveBuffer r ++ data) in
    Some (bufs, {| ack := a; received := rs; receiveBuffer := out; consumed := consumed r; gotData := true; appended := true |})
  else if idHigherThan seq (ack r) then
    match createDataBuffer bufs data with
    | None => None
    | Some (bufs', i) =>
      let rs := match insertReceived (i, seq) (received r) with Some rs => rs | None => received r end in
      Some (bufs', {| ack := ack r; received := rs; receiveBuffer := receiveBuffer r; consumed := consumed r; gotData := true; appended := appended r |})
    end
  else Some (bufs, r).

(** UtpStream.cpp:176-206; [n] bytes are consumed by the callback; the state packet is an output *)
Definition readFinish (r : receiving) (n : nat) : receiving :=
  if appended r
  then {| ack := ack r; received := received r; receiveBuffer := skipn n (receiveBuffer r);
          consumed := consumed r ++ firstn n (receiveBuffer r); gotData := false; appended := false |}
  else {| ack := ack r; received := received r; receiveBuffer := receiveBuffer r; consumed := consumed r; gotData := false; appended := false |}.

(** UtpStream.cpp:361-374 *)
Definition getSelectiveAckDataSize (r : receiving) : Z :=
  match received r with
  | [] => 0
  | _ => let e := snd (last (received r) (0%nat, 0)) in
         let e := if e <? ack r then Z.lor e 65536 else e in
         let ackDifference := u32 (e - (ack r + 1)) in
         u8 (Z.min (u32 (ackDifference + 7) / 8 + 2) 100)
  end.

(** UtpStream.cpp:387-404, one byte and then the bytes; [None] as the list of entries left: reading behind the
    end of [receivedData] *)
Fixpoint ackByte (j : nat) (mask acc : Z) (ackSeq : Z) (rs : list (nat * Z)) : res (Z * Z * list (nat * Z)) :=
  match j with
  | O => Ok (acc, ackSeq, rs)
  | S j' => match rs with
            | [] => UB
            | (_, s) :: rs' =>
              if s =? ackSeq then
                match rs' with
                | [] => Ok (Z.lor acc mask, ackSeq, [])
                | _ => ackByte j' (u8 (Z.shiftl mask 1)) (Z.lor acc mask) (u16 (ackSeq + 1)) rs'
                end
              else ackByte j' (u8 (Z.shiftl mask 1)) acc (u16 (ackSeq + 1)) rs
            end
  end.
(** Also UtpStream.cpp:387-404. *)
Fixpoint ackBytes (n : nat) (ackSeq : Z) (rs : list (nat * Z)) : res (list Z) :=
  match n with
  | O => Ok []
  | S n' => bind (ackByte 8 1 0 ackSeq rs) (fun '(b, ackSeq', rs') => bind (ackBytes n' ackSeq' rs') (fun l => Ok (b :: l)))
  end.

(** UtpStream.cpp:376-405: the bitmask, [size - 2] bytes *)
Definition prepareSelectiveAckData (r : receiving) (size : Z) : res (list Z) :=
  ackBytes (Z.to_nat (size - 2)) (u16 (ack r + 2)) (received r).

(** UtpStream.cpp:354-358 *)
Definition selectiveAck (r : receiving) : res (list Z) :=
  let size := getSelectiveAckDataSize r in if size =? 0 then Ok [] else prepareSelectiveAckData r size.

(** * Sending *)

(** UtpStream.h:107-142, 95 *)
Record sentPacket := { bufferIdx : nat; sequenceOf : Z; resent : bool; needResend : bool }.
(** Also UtpStream.h:107-142, 95. *)
Record sending := { sequence : Z; sentData : list sentPacket; sentDataWithoutAckSize : Z; duplicateAckCounter : Z;
                    prepared : list Z; bufferPos : Z; workingMaxSize : Z; probeId : Z; probeSendingFinished : bool;
                    last_ack : Z; peer_wnd_size : Z }.

(** What goes to the network: data packets with their sequence number and payload, the first time
    or again. The header bytes of the buffers are left zero in this model. For [resendLoop], UtpStream.cpp:771-790. *)
Inductive output := SendData (seq : Z) (data : list Z) | ResendData (seq : Z) (data : list Z).

(** Helper of [sendData], UtpStream.cpp:626-665. *)
Record stream := { step : stepType; bufs : list (list Z); rcv : receiving; snd_ : sending; outs : list output }.

(** UtpStream.cpp:628-638: the size of the packet, and the probe *)
Definition packetSize (s : sending) (dataSize : Z) : Z * Z :=
  if workingMaxSize s <? dataSize then
    if negb (probeSendingFinished s) && (probeId s =? 0) && negb (sequence s =? 0)
    then (Z.min dataSize (u32 (workingMaxSize s + 1452) / 2), sequence s)
    else (workingMaxSize s, probeId s)
  else (dataSize, probeId s).

(** UtpStream.cpp:626-665: sends the first bytes of [data] and returns the others *)
Definition sendData (st : stream) (data : list Z) : option (stream * list Z) :=
  let s := snd_ st in
  let '(n, probe) := packetSize s (zlen data) in
  let content := firstn (Z.to_nat n) data in
  match createDataBuffer (bufs st) (repeat 0 20 ++ content) with
  | None => None
  | Some (bs, i) =>
    Some ({| step := step st; bufs := bs; rcv := rcv st;
             snd_ := {| sequence := u16 (sequence s + 1);
                        sentData := sentData s ++ [{| bufferIdx := i; sequenceOf := sequence s; resent := false; needResend := false |}];
                        sentDataWithoutAckSize := u64 (sentDataWithoutAckSize s + zlen (nth i bs []));
                        duplicateAckCounter := duplicateAckCounter s; prepared := prepared s; bufferPos := bufferPos s;
                        workingMaxSize := workingMaxSize s; probeId := probe; probeSendingFinished := probeSendingFinished s;
                        last_ack := last_ack s; peer_wnd_size := peer_wnd_size s |};
             outs := outs st ++ [SendData (sequence s) content] |}, skipn (Z.to_nat n) data)
  end.

(** Helper of [prepare], UtpStream.cpp:126-144. *)
Definition setPrepared (st : stream) (p : list Z) (pos : Z) : stream :=
  let s := snd_ st in
  {| step := step st; bufs := bufs st; rcv := rcv st;
     snd_ := {| sequence := sequence s; sentData := sentData s; sentDataWithoutAckSize := sentDataWithoutAckSize s;
                duplicateAckCounter := duplicateAckCounter s; prepared := p; bufferPos := pos;
                workingMaxSize := workingMaxSize s; probeId := probeId s; probeSendingFinished := probeSendingFinished s;
                last_ack := last_ack s; peer_wnd_size := peer_wnd_size s |};
     outs := outs st |}.

(** UtpStream.cpp:126-144: keep [data] for later; [grow]: whether the capacity of the vector was too small *)
Definition prepare (st : stream) (data : list Z) (grow : bool) : stream :=
  let s := snd_ st in
  if grow then setPrepared st (skipn (Z.to_nat (bufferPos s)) (prepared s) ++ data) 0
  else setPrepared st (prepared s ++ data) (bufferPos s).

(** UtpStream.cpp:122-147; every turn sends at least a byte, [None] if one does not *)
Fixpoint writeLoop (fuel : nat) (st : stream) (data : list Z) (grow : bool) : option stream :=
  match data with
  | [] => Some st
  | _ =>
    if (1048576 <? sentDataWithoutAckSize (snd_ st)) || negb (match prepared (snd_ st) with [] => true | _ => false end)
    then Some (prepare st data grow)
    else match fuel with
         | O => None
         | S fuel' => match sendData st data with None => None | Some (st', rest) => writeLoop fuel' st' rest grow end
         end
  end.

(** UtpStream.cpp:114-148 *)
Definition write (st : stream) (data : list Z) (grow : bool) : option stream :=
  match step st with CLOSED => Some st | _ => writeLoop (length data) st data grow end.

(** UtpStream.cpp:738-765 without the times *)
Definition ackSentPacket (bs : list (list Z)) (s : sending) (p : sentPacket) : list (list Z) * sending :=
  let size := zlen (nth (bufferIdx p) bs []) in
  let probed := (sequenceOf p =? probeId s) && negb (sequenceOf p =? 0) in
  let w := if probed then u32 (size - 20) else workingMaxSize s in
  (upd (bufferIdx p) [] bs,
   {| sequence := sequence s; sentData := sentData s; sentDataWithoutAckSize := u64 (sentDataWithoutAckSize s - size);
      duplicateAckCounter := duplicateAckCounter s; prepared := prepared s; bufferPos := bufferPos s;
      workingMaxSize := w; probeId := if probed then 0 else probeId s;
      probeSendingFinished := if probed && (1400 <? w) then true else probeSendingFinished s;
      last_ack := last_ack s; peer_wnd_size := peer_wnd_size s |}).

(** Helper of [ackSentDataBuffer], UtpStream.cpp:667-691. *)
Definition setSent (s : sending) (l : list sentPacket) (dups la : Z) : sending :=
  {| sequence := sequence s; sentData := l; sentDataWithoutAckSize := sentDataWithoutAckSize s;
     duplicateAckCounter := dups; prepared := prepared s; bufferPos := bufferPos s;
     workingMaxSize := workingMaxSize s; probeId := probeId s; probeSendingFinished := probeSendingFinished s;
     last_ack := la; peer_wnd_size := peer_wnd_size s |}.

(** UtpStream.cpp:670-677: acknowledge the packets up to [a]; the packets left, and whether any was *)
Fixpoint ackLoop (bs : list (list Z)) (s : sending) (a : Z) (l : list sentPacket) : list (list Z) * sending * list sentPacket :=
  match l with
  | [] => (bs, s, [])
  | p :: l' => if idHigherThan (sequenceOf p) a then (bs, s, l)
               else let '(bs', s') := ackSentPacket bs s p in ackLoop bs' s' a l'
  end.

(** UtpStream.cpp:667-691; message type 0 is ST_DATA *)
Definition ackSentDataBuffer (bs : list (list Z)) (s : sending) (m : message) : list (list Z) * sending :=
  let '(bs', s', l) := ackLoop bs s (ack_nr m) (sentData s) in
  if (length l <? length (sentData s))%nat then (bs', setSent s' l 0 (ack_nr m))
  else if negb (mtype m =? 0) && (last_ack s =? ack_nr m) then (bs', setSent s' l (u32 (duplicateAckCounter s + 1)) (last_ack s))
  else (bs', setSent s' l (duplicateAckCounter s) (last_ack s)).

(** UtpStream.cpp:708-722: acknowledge the packet [a] *)
Fixpoint ackOne (bs : list (list Z)) (s : sending) (a : Z) (l : list sentPacket) : list (list Z) * sending * list sentPacket :=
  match l with
  | [] => (bs, s, [])
  | p :: l' => if idLowerThan (sequenceOf p) a then let '(bs', s', l'') := ackOne bs s a l' in (bs', s', p :: l'')
               else if sequenceOf p =? a then let '(bs', s') := ackSentPacket bs s p in (bs', s', l')
               else (bs, s, l)
  end.

(** UtpStream.cpp:698-705: the sequence numbers of the bits set, in order *)
Definition ackedNumbers (a : Z) (mask : list Z) : list Z :=
  flat_map (fun '(i, b) => flat_map (fun j => if Z.testbit b (Z.of_nat j) then [u16 (a + u16 (2 + Z.of_nat i * 8 + Z.of_nat j))] else []) (seq 0 8))
           (combine (seq 0 (length mask)) mask).

(** Helper of [ackSelective], UtpStream.cpp:693-736. *)
Fixpoint ackEach (bs : list (list Z)) (s : sending) (l : list sentPacket) (acks : list Z) : list (list Z) * sending * list sentPacket :=
  match acks with
  | [] => (bs, s, l)
  | a :: acks' => let '(bs', s', l') := ackOne bs s a l in ackEach bs' s' l' acks'
  end.

(** UtpStream.cpp:771-790: resend up to [lastIdx]; the packets and what is sent *)
Fixpoint resendLoop (bs : list (list Z)) (lastIdx : Z) (l : list sentPacket) : list sentPacket * list output :=
  match l with
  | [] => ([], [])
  | p :: l' => if idHigherThan (sequenceOf p) lastIdx then (l, [])
               else let '(l'', o) := resendLoop bs lastIdx l' in
                    if resent p && negb (needResend p) then (p :: l'', o)
                    else ({| bufferIdx := bufferIdx p; sequenceOf := sequenceOf p; resent := true; needResend := false |} :: l'',
                          ResendData (sequenceOf p) (skipn 20 (nth (bufferIdx p) bs [])) :: o)
  end.

(** UtpStream.cpp:767-793 *)
Definition resendPackets (st : stream) (lastIdx : Z) : stream :=
  let s := snd_ st in
  let '(l, o) := resendLoop (bufs st) lastIdx (sentData s) in
  {| step := step st; bufs := bufs st; rcv := rcv st; snd_ := setSent s l 0 (last_ack s); outs := outs st ++ o |}.

(** Helper of [ackSelective], UtpStream.cpp:693-736. *)
Definition withSending (st : stream) (bs : list (list Z)) (s : sending) : stream :=
  {| step := step st; bufs := bs; rcv := rcv st; snd_ := s; outs := outs st |}.

(** UtpStream.cpp:693-736: the oldest of the last three acks, minus one, is the last packet resent *)
Definition ackSelective (st : stream) (m : message) (mask : list Z) : stream :=
  let acks := ackedNumbers (ack_nr m) mask in
  let '(bs, s, l) := ackEach (bufs st) (snd_ st) (sentData (snd_ st)) acks in
  let st' := withSending st bs (setSent s l (duplicateAckCounter s) (last_ack s)) in
  if (2 <? length acks)%nat then resendPackets st' (u16 (nth (length acks - 3) acks 0 - 1)) else st'.

(** UtpStream.cpp:433-436; as in [writeLoop], every turn sends at least a byte *)
Fixpoint flushPrepared (fuel : nat) (st : stream) (rest : list Z) (maxSentData : Z) : option (stream * list Z) :=
  match rest with
  | [] => Some (st, [])
  | _ => if sentDataWithoutAckSize (snd_ st) <? maxSentData
         then match fuel with
              | O => None
              | S fuel' => match sendData st rest with None => None | Some (st', rest') => flushPrepared fuel' st' rest' maxSentData end
              end
         else Some (st, rest)
  end.

(** Helper of [flushSendData], UtpStream.cpp:407-463. *)
Fixpoint resendCount (l : list sentPacket) : Z :=
  match l with [] => 0 | p :: l' => if needResend p then 1 + resendCount l' else 0 end.

(** UtpStream.cpp:407-463 *)
Definition flushSendData (st : stream) : option stream :=
  let s := snd_ st in
  let st1 := if 2 <? duplicateAckCounter s then resendPackets st (u16 (last_ack s + 1))
             else let c := u16 (resendCount (sentData s)) in
                  if c =? 0 then st else resendPackets st (u16 (last_ack s + Z.min c 100)) in
  let maxSentData := u64 (sentDataWithoutAckSize (snd_ st1) + peer_wnd_size (snd_ st1)) in
  let pending := skipn (Z.to_nat (bufferPos s)) (prepared s) in
  match flushPrepared (length pending) st1 pending maxSentData with
  | None => None
  | Some (st2, rest) =>
    if (length rest =? length pending)%nat then Some st2
    else match rest with
         | [] => Some (setPrepared st2 [] 0)
         | _ => let pos := zlen (prepared s) - zlen rest in
                if 100000 <? pos then Some (setPrepared st2 rest 0) else Some (setPrepared st2 (prepared s) pos)
         end
  end.

(** Helper of [updateState], UtpStream.cpp:465-524. *)
Definition setWnd (st : stream) (w : Z) (sp : stepType) (a la : Z) : stream :=
  let s := snd_ st in let r := rcv st in
  {| step := sp; bufs := bufs st;
     rcv := {| ack := a; received := received r; receiveBuffer := receiveBuffer r; consumed := consumed r; gotData := gotData r; appended := appended r |};
     snd_ := {| sequence := sequence s; sentData := sentData s; sentDataWithoutAckSize := sentDataWithoutAckSize s;
                duplicateAckCounter := duplicateAckCounter s; prepared := prepared s; bufferPos := bufferPos s;
                workingMaxSize := workingMaxSize s; probeId := probeId s; probeSendingFinished := probeSendingFinished s;
                last_ack := la; peer_wnd_size := w |};
     outs := outs st |}.

(** UtpStream.cpp:465-524: [None] if a buffer loop hangs, [Some (st, false)] if the packet is too old *)
Definition updateState (st : stream) (m : message) : option (stream * bool) :=
  if (mtype m =? 0) && idLowerThan (seq_nr m) (ack (rcv st)) then Some (st, false)
  else
    let '(bs, s) := ackSentDataBuffer (bufs st) (snd_ st) m in
    let st1 := withSending st bs s in
    let st2 := match step st with
               | SYN_SEND => setWnd st1 (wnd m) CONNECTED (u16 (seq_nr m - 1)) (ack_nr m)
               | SYN_RECV => setWnd st1 (wnd m) CONNECTED (ack (rcv st1)) (ack_nr m)
               | sp => setWnd st1 (wnd m) sp (ack (rcv st1)) (last_ack s)
               end in
    let st3 := fold_left (fun st '(t, c) => if t =? 1 then ackSelective st m c else st) (exts m) st2 in
    match flushSendData st3 with None => None | Some st4 => Some (st4, true) end.

(** UtpStream.cpp:795-808 *)
Definition clearSendData (st : stream) : stream :=
  let s := snd_ st in
  {| step := step st; bufs := fold_left (fun bs p => upd (bufferIdx p) [] bs) (sentData s) (bufs st); rcv := rcv st;
     snd_ := {| sequence := sequence s; sentData := []; sentDataWithoutAckSize := 0; duplicateAckCounter := duplicateAckCounter s;
                prepared := []; bufferPos := 0; workingMaxSize := workingMaxSize s; probeId := probeId s;
                probeSendingFinished := probeSendingFinished s; last_ack := last_ack s; peer_wnd_size := peer_wnd_size s |};
     outs := outs st |}.

(** Helper of [readUdpPacket], UtpStream.cpp:150-174, 526-580. *)
Definition setStep (st : stream) (sp : stepType) : stream := {| step := sp; bufs := bufs st; rcv := rcv st; snd_ := snd_ st; outs := outs st |}.
(** Helper of [readUdpPacket], UtpStream.cpp:150-174, 526-580. *)
Definition setRecv (st : stream) (bs : list (list Z)) (r : receiving) : stream := {| step := step st; bufs := bs; rcv := r; snd_ := snd_ st; outs := outs st |}.

(** UtpStream.cpp:150-174, 526-580; [close] only posts the closing, which is the event [Close] below. The FIN
    that [checkEof] answers is left out. *)
Definition readUdpPacket (st : stream) (m : message) : option stream :=
  if mtype m =? 2 then match updateState st m with None => None | Some (st', _) => Some st' end
  else if mtype m =? 0 then
    match payload m with
    | [] => Some st
    | _ => match updateState st m with
           | None => None
           | Some (st', false) => Some st'
           | Some (st', true) => match step st' with
                                 | CLOSED => Some st'
                                 | _ => match receiveData (bufs st') (rcv st') (seq_nr m) (payload m) with
                                        | None => None
                                        | Some (bs, r) => Some (setRecv st' bs r)
                                        end
                                 end
           end
    end
  else if mtype m =? 1 then match step st with CLOSED => Some st | _ => Some (clearSendData (setStep st CLOSING)) end
  else if mtype m =? 3 then Some (clearSendData st)
  else Some st.

(** UtpStream.cpp:219-227: the timeout of [refresh] *)
Definition timeout (st : stream) : stream :=
  if 0 <? sentDataWithoutAckSize (snd_ st) then
    let s := snd_ st in
    let l := map (fun p => {| bufferIdx := bufferIdx p; sequenceOf := sequenceOf p; resent := resent p; needResend := true |}) (sentData s) in
    let st' := withSending st (bufs st) (setSent s l (duplicateAckCounter s) (last_ack s)) in
    match l with [] => st' | p :: _ => resendPackets st' (sequenceOf p) end
  else st.

(** UtpStream.h:72-97, 107-142, UtpStream.cpp:79-92, 101-112: a stream after [init] or
    [connectRemote]; 303-309: the SYN takes a sequence number *)
Definition newStream (sp : stepType) (sequence0 ack0 : Z) : stream :=
  {| step := sp; bufs := []; rcv := {| ack := ack0; received := []; receiveBuffer := []; consumed := []; gotData := false; appended := false |};
     snd_ := {| sequence := sequence0; sentData := []; sentDataWithoutAckSize := 0; duplicateAckCounter := 0; prepared := []; bufferPos := 0;
                workingMaxSize := 576; probeId := 0; probeSendingFinished := false; last_ack := 0; peer_wnd_size := 1048576 |};
     outs := [] |}.
