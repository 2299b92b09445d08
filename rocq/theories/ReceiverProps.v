(** C102: datagrams that come in *)
From Verif Require Import Base BaseLemmas ReceiverModel ReceiverSpec ReceiverProofs.
From Coq Require Import Lia List.
Import ListNotations.

(** One read of the socket while small datagrams wait: those it takes are passed on in order and unaltered, at least one when there is one, but each
    is credited to the sender of the first datagram behind it that has another sender, if there is one. *)
Theorem C102_read : forall av rs s rest s', Forall (fits 2048) rs -> packets s = [] -> 10240 <= size s -> readSocket av rs s = (rest, s') ->
  exists used, rs = used ++ rest /\ (rs <> [] -> used <> []) /\ passed s' = passed s ++ map snd (datagrams used) /\ passedFrom s' = passedFrom s ++ credited (datagrams used).
Proof.
  intros av rs s rest s' F P M E. apply readSocket_ok in E; [|exact F|exact P|exact M]. destruct E as (used & U1 & U2 & _ & _ & _ & U3). exists used. repeat split; auto.
  rewrite !passed_snd, U2, map_app. now rewrite credited_snd.
Qed.
Print Assumptions C102_read.

(** Once it listens, every small datagram that waits is passed on, in order and once, when the socket was ready as often as there are datagrams. *)
Theorem C102_all : forall avs rs s, Forall (fits 2048) rs -> packets s = [] -> 10240 <= size s -> active s = true -> (length rs <= length avs)%nat ->
  fst (wake avs rs s) = [] /\ passed (snd (wake avs rs s)) = passed s ++ map snd (datagrams rs).
Proof.
  induction avs as [|av avs I]; intros rs s F P M A L; cbn [length] in L.
  - destruct rs; [|cbn [length] in L; lia]. cbn. rewrite app_nil_r. now split.
  - cbn [wake]. unfold handle_receive. rewrite A. destruct (readSocket av rs s) as (rest, s') eqn:E. apply readSocket_ok in E; [|exact F|exact P|exact M]. destruct E as (used & U1 & U2 & U3 & U4 & U5 & U6).
    assert (L2 : (length rest <= length avs)%nat).
    { destruct rs as [|r rs]; [destruct used, rest; cbn in U1; try discriminate; cbn; lia|]. assert (N : used <> []) by (apply U6; discriminate). apply (f_equal (@length _)) in U1. rewrite app_length in U1. cbn [length] in *. destruct used; [congruence|]. cbn [length] in U1. lia. }
    assert (F2 : Forall (fits 2048) rest) by (rewrite U1 in F; apply Forall_app in F; tauto). destruct (I rest s' F2 U3 U4 (eq_trans U5 A) L2) as (I1 & I2). split; [exact I1|]. rewrite I2.
    rewrite !passed_snd, U2, map_app, credited_snd, U1, datagrams_app, map_app, app_assoc. reflexivity.
Qed.
Print Assumptions C102_all.

(** When all that wait are from one sender, each is passed on with its sender. *)
Theorem C102_sender_partial : forall av rs s rest s' e, Forall (fits 2048) rs -> packets s = [] -> 10240 <= size s -> Forall (fun p => fst p = e) (datagrams rs) ->
  readSocket av rs s = (rest, s') -> exists used, rs = used ++ rest /\ (rs <> [] -> used <> []) /\ passedFrom s' = passedFrom s ++ datagrams used.
Proof.
  intros av rs s rest s' e F P M Q E. apply readSocket_ok in E; [|exact F|exact P|exact M]. destruct E as (used & U1 & U2 & _ & _ & _ & U3). exists used. repeat split; auto.
  rewrite U2. f_equal. apply (credited_same e). rewrite U1, datagrams_app in Q. apply Forall_app in Q. tauto.
Qed.
Print Assumptions C102_sender_partial.

(** The claim "a datagram is passed on with the address it came from" is false: of two that wait from different senders, the first is passed on as if
    the second sender had sent it. So it is for any two. *)
Theorem C102_sender_refuted : forall av s a b da db, a <> b -> packets s = [] -> 10240 <= size s -> da <> [] -> db <> [] ->
  Z.of_nat (length da) <= 2048 -> Z.of_nat (length db) <= 2048 ->
  passedFrom (snd (readSocket av [RGot a da; RGot b db] s)) = passedFrom s ++ [(b, da); (b, db)].
Proof.
  intros av s a b da db N P M A B LA LB. unfold readSocket. set (s1 := if _ >? _ then _ else s).
  assert (S1 : packets s1 = [] /\ 10240 <= size s1 /\ passedFrom s1 = passedFrom s).
  { unfold s1. destruct (_ >? _) eqn:G; [|auto]. rewrite Z.gtb_ltb in G. apply Z.ltb_lt in G. cbn [setSize size packets]. repeat split; [exact P|lia]. }
  destruct S1 as (A1 & A2 & A3). assert (F : Forall (fits MinBufferReadSize) [RGot a da; RGot b db]) by (repeat apply Forall_cons; try apply Forall_nil; cbn [fits]; unfold MinBufferReadSize; now split).
  destruct (readLoop [RGot a da; RGot b db] 0 0 s1) as (rest, s2) eqn:R. cbn [snd]. assert (R' := R). apply readLoop_ok in R; [|exact F|now left|lia]. destruct R as (used & U1 & U2 & _).
  assert (rest = []) as ->.
  { cbn [readLoop] in R'. unfold MinBufferReadSize in R'. destruct (Z.geb_spec (size s1 - 0) 2048); [|lia]. rewrite firstn_all2 in R' by lia. destruct da as [|x da]; [congruence|]. set (t := addPacket _ _) in R'.
    assert (St : size t = size s1) by (unfold t, flushPackets, setEndpoint; cbn [packets]; rewrite A1; now destruct (0 =? a)). rewrite St in R'. destruct (Z.geb_spec (size s1 - (0 + Z.of_nat (length (x :: da)))) 2048); [|lia]. rewrite firstn_all2 in R' by lia. destruct db as [|y db]; [congruence|].
    cbn [readLoop] in R'. match type of R' with (if ?c then _ else _) = _ => destruct c end; injection R'; congruence. }
  rewrite app_nil_r in U1. subst used. rewrite U2, A3, A1. cbn [datagrams credited credit map app]. destruct (Z.eqb_spec b a); [congruence|]. reflexivity.
Qed.
Print Assumptions C102_sender_refuted.

(** A datagram with nothing in it ends the read; those behind it wait for the next time. *)
Theorem C102_empty : forall av s e rs, packets s = [] -> 10240 <= size s -> fst (readSocket av (RGot e [] :: rs) s) = rs /\ passedFrom (snd (readSocket av (RGot e [] :: rs) s)) = passedFrom s.
Proof.
  intros av s e rs P M. unfold readSocket. set (s1 := if _ >? _ then _ else s). assert (S1 : packets s1 = [] /\ 10240 <= size s1 /\ passedFrom s1 = passedFrom s).
  { unfold s1. destruct (_ >? _) eqn:G; [|auto]. rewrite Z.gtb_ltb in G. apply Z.ltb_lt in G. cbn [setSize size packets]. repeat split; [exact P|lia]. }
  destruct S1 as (A1 & A2 & A3). cbn [readLoop]. unfold MinBufferReadSize. destruct (Z.geb_spec (size s1 - 0) 2048); [|lia]. rewrite firstn_nil. cbn [fst snd]. split; [reflexivity|]. unfold flushPackets, setEndpoint. cbn [packets]. rewrite A1. exact A3.
Qed.
Print Assumptions C102_empty.

(** The claim "a datagram is passed on whole" is false: what no longer fits into the buffer is cut off, although nothing was passed on yet and the read
    could have begun anew. *)
Theorem C102_cut_refuted : forall s e a b, size s = 10240 -> packets s = [] -> Z.of_nat (length a) = 8192 -> (2048 < length b)%nat ->
  passedFrom (snd (readSocket 0 [RGot e a; RGot e b] s)) = passedFrom s ++ [(e, a); (e, firstn 2048 b)].
Proof.
  intros s e a b M P A B. unfold readSocket, MaxBufferSize. rewrite M. change (Z.min (50 * 1024) 0 >? 10240) with false. cbn match. cbn [readLoop]. rewrite M. change (10240 - 0 >=? MinBufferReadSize) with true. cbn match.
  rewrite firstn_all2 by lia. destruct a as [|x a]; [cbn in A; discriminate|]. set (aa := x :: a) in *. set (t := addPacket aa _).
  assert (T : size t = 10240 /\ packets t = [aa] /\ endpoint t = e /\ passedFrom t = passedFrom s) by (unfold t, flushPackets, setEndpoint; cbn [packets]; rewrite P; destruct (0 =? e); unfold addPacket, passedFrom; cbn; rewrite ?P; auto).
  destruct T as (T1 & T2 & T3 & T4). rewrite T1. replace (10240 - (0 + Z.of_nat (length aa))) with 2048 by lia. change (2048 >=? MinBufferReadSize) with true. cbn match. change (Z.to_nat 2048) with 2048%nat.
  destruct (firstn 2048 b) as [|y g] eqn:G; [apply (f_equal (@length _)) in G; rewrite firstn_length in G; cbn [length] in G; lia|]. rewrite <- G. rewrite Z.eqb_refl.
  match goal with |- context [if ?x >=? MinBufferReadSize then _ else _] => destruct (x >=? MinBufferReadSize) end; cbn [snd]; match goal with |- passedFrom (flushPackets ?q) = _ => destruct (flush_passed q) as (-> & _) end;
  unfold addPacket, setEndpoint; cbn [endpoint packets]; rewrite T2; cbn [app map]; f_equal; exact T4.
Qed.
Print Assumptions C102_cut_refuted.

(** Whatever comes, one read passes on no more bytes than the buffer has, and that has at most 50 KiB. *)
Theorem C102_bounded : forall av rs s rest s', packets s = [] -> 10240 <= size s <= 51200 -> readSocket av rs s = (rest, s') ->
  bytes (passed s') <= bytes (passed s) + size s' /\ 10240 <= size s' <= 51200 /\ packets s' = [].
Proof.
  intros av rs s rest s' P M E. unfold readSocket in E. set (s1 := if _ >? _ then _ else s) in E.
  assert (S1 : packets s1 = [] /\ 10240 <= size s1 <= 51200 /\ passed s1 = passed s).
  { unfold s1. destruct (_ >? _) eqn:G; [|auto]. rewrite Z.gtb_ltb in G. apply Z.ltb_lt in G. unfold MaxBufferSize in *. cbn [setSize size packets]. repeat split; [exact P|lia|lia]. }
  destruct S1 as (A1 & A2 & A3). destruct (readLoop rs 0 0 s1) as (rest1, s2) eqn:R. injection E as <- <-. apply readLoop_bytes in R as (R1 & R2); [|lia]. destruct (flush_rest s2) as (B1 & B2 & _).
  rewrite passed_flush, bytes_app, B1, B2, R1. rewrite A1, A3 in R2. cbn [bytes fold_right] in R2. repeat split; lia.
Qed.
Print Assumptions C102_bounded.

(** Stopped, or on an error, nothing is read or passed on. *)
Theorem C102_stop : forall error av rs s, handle_receive error av rs (stop s) = (rs, stop s) /\ handle_receive true av rs s = (rs, s).
Proof. intros. unfold handle_receive. cbn. split; [reflexivity|]. now destruct (active s). Qed.
Print Assumptions C102_stop.

(** The hypotheses are met: an object that listens; packets of two senders with an interruption between; the sizes. *)
Example C102_meets_listen : packets (listen newReceiver) = [] /\ size (listen newReceiver) = 10240 /\ active (listen newReceiver) = true.
Proof. repeat split. Qed.
Example C102_meets_fits : Forall (fits 2048) [RGot 1 [5]; RInterrupted; RGot 1 [6; 6]; RGot 2 [7]; RGot 1 [8]].
Proof. repeat apply Forall_cons; try apply Forall_nil; cbn; try exact I; split; try discriminate; lia. Qed.
Example C102_meets_read : readSocket 12000 [RGot 1 [5]; RInterrupted; RGot 1 [6; 6]; RGot 2 [7]; RGot 1 [8]; RGot 3 []; RGot 1 [9]] (listen newReceiver) =
  ([RGot 1 [9]], {| active := true; size := 12000; endpoint := 3; packets := []; calls := [(2, [[5]; [6; 6]]); (1, [[7]]); (3, [[8]])] |}).
Proof. vm_compute. reflexivity. Qed.
Example C102_meets_sender : passedFrom (snd (readSocket 0 [RGot 4 [5]; RGot 4 [6]] (listen newReceiver))) = [(4, [5]); (4, [6])].
Proof. vm_compute. reflexivity. Qed.
Example C102_meets_cut : exists a b : list Z, Z.of_nat (length a) = 8192 /\ (2048 < length b)%nat.
Proof. exists (repeat 0 (Z.to_nat 8192)), (repeat 1 (Z.to_nat 3000)). rewrite !repeat_length. lia. Qed.
