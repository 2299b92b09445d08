From Verif Require Import Base BaseLemmas ReceiverModel ReceiverSpec.
From Coq Require Import Lia List.
Import ListNotations.

Lemma passedFrom_app : forall a z e p c, passedFrom {| active := a; size := z; endpoint := e; packets := p; calls := c |} = concat (map (fun c => map (fun d => (fst c, d)) (snd c)) c).
Proof. reflexivity. Qed.

Lemma datagrams_app : forall a b, datagrams (a ++ b) = datagrams a ++ datagrams b.
Proof. induction a as [|[e d| |] a I]; intros b; cbn [app datagrams]; [reflexivity| |apply I|apply I]. now rewrite I. Qed.

Lemma flush_passed : forall s, passedFrom (flushPackets s) = passedFrom s ++ map (fun d => (endpoint s, d)) (packets s) /\ packets (flushPackets s) = [] /\ size (flushPackets s) = size s /\
  active (flushPackets s) = active s /\ endpoint (flushPackets s) = endpoint s.
Proof.
  intros s. unfold flushPackets. destruct (packets s) as [|p ps] eqn:E; [cbn [map]; rewrite app_nil_r; now rewrite E|]. cbn [packets size active endpoint]. split; [|auto].
  unfold passedFrom. cbn [calls]. rewrite map_app, concat_app. cbn [map concat fst snd]. now rewrite app_nil_r.
Qed.

Lemma readLoop_ok : forall rs pos last s rest s', Forall (fits MinBufferReadSize) rs -> packets s = [] \/ endpoint s = last -> 0 <= pos -> readLoop rs pos last s = (rest, s') ->
  exists used, rs = used ++ rest /\ passedFrom (flushPackets s') = passedFrom s ++ map (fun d => (credit last (datagrams used), d)) (packets s) ++ credited (datagrams used) /\
    size s' = size s /\ active s' = active s /\ (MinBufferReadSize <= size s - pos -> rs <> [] -> used <> []).
Proof.
  assert (Stop : forall rs last s, packets s = [] \/ endpoint s = last -> exists used, rs = used ++ rs /\ passedFrom (flushPackets s) = passedFrom s ++ map (fun d => (credit last (datagrams used), d)) (packets s) ++ credited (datagrams used) /\
    size s = size s /\ active s = active s).
  { intros rs last s P. exists []. cbn [app datagrams credit credited]. rewrite app_nil_r. destruct (flush_passed s) as (-> & _). repeat split. destruct P as [->| ->]; reflexivity. }
  induction rs as [|r rs I]; intros pos last s rest s' F P L E; cbn [readLoop] in E.
  - assert (E' : ([], s) = (rest, s')) by (destruct (size s - pos >=? MinBufferReadSize); exact E). injection E' as <- <-. destruct (Stop [] last s P) as (u & U1 & U2 & U3 & U4). exists u. repeat split; auto.
  - inversion F as [|r0 l0 F1 F2]. subst. rewrite Z.geb_leb in E. destruct (Z.leb_spec MinBufferReadSize (size s - pos)) as [G|G].
    + destruct r as [e data| |]; cbn [fits] in F1.
      * destruct F1 as (F1 & F3). rewrite firstn_all2 in E by lia. destruct data as [|b data]; [congruence|].
        set (s2 := if last =? e then setEndpoint e s else flushPackets (setEndpoint e s)) in *. set (d := b :: data) in *.
        assert (E2 : readLoop rs (pos + Z.of_nat (length d)) e (addPacket d s2) = (rest, s')) by exact E.
        assert (S2 : packets s2 = (if last =? e then packets s else []) /\ endpoint s2 = e /\ size s2 = size s /\ active s2 = active s /\
          passedFrom s2 = passedFrom s ++ (if last =? e then [] else map (fun p => (e, p)) (packets s))).
        { unfold s2. destruct (last =? e); [rewrite app_nil_r; repeat split|]. destruct (flush_passed (setEndpoint e s)) as (A1 & A2 & A3 & A4 & A5). rewrite A1, A2, A3, A4, A5. repeat split. }
        destruct S2 as (A1 & A2 & A3 & A4 & A5). apply (I _ e) in E2; [|exact F2|now right|lia]. destruct E2 as (used & U1 & U2 & U3 & U4 & _). exists (RGot e d :: used). cbn [app datagrams credit credited].
        split; [now rewrite U1|]. split; [|split; [now rewrite U3|split; [now rewrite U4|discriminate]]].
        rewrite U2. change (passedFrom (addPacket d s2)) with (passedFrom s2). change (packets (addPacket d s2)) with (packets s2 ++ [d]). rewrite A5, A1, map_app. cbn [map].
        rewrite (Z.eqb_sym e last). destruct (Z.eqb_spec last e) as [->|N]; rewrite <- !app_assoc; reflexivity.
      * apply (I pos last) in E; [|exact F2|exact P|exact L]. destruct E as (used & U1 & U2 & U3 & U4 & _). exists (RInterrupted :: used). cbn [app datagrams]. repeat split; auto; [now rewrite U1|discriminate].
      * destruct F1.
    + injection E as <- <-. destruct (Stop (r :: rs) last s P) as (u & U1 & U2 & U3 & U4). exists u. repeat split; auto; intros; lia.
Qed.

Lemma readSocket_ok : forall av rs s rest s', Forall (fits MinBufferReadSize) rs -> packets s = [] -> MinBufferSize <= size s -> readSocket av rs s = (rest, s') ->
  exists used, rs = used ++ rest /\ passedFrom s' = passedFrom s ++ credited (datagrams used) /\ packets s' = [] /\ MinBufferSize <= size s' /\ active s' = active s /\ (rs <> [] -> used <> []).
Proof.
  intros av rs s rest s' F P M E. unfold readSocket in E. set (s1 := if _ >? _ then _ else s) in E.
  assert (S1 : packets s1 = [] /\ MinBufferSize <= size s1 /\ active s1 = active s /\ passedFrom s1 = passedFrom s).
  { unfold s1. destruct (_ >? _) eqn:G; [|auto]. rewrite Z.gtb_ltb in G. apply Z.ltb_lt in G. cbn [setSize size packets active]. repeat split; [exact P|lia]. }
  destruct S1 as (A1 & A2 & A3 & A4). destruct (readLoop rs 0 0 s1) as (rest1, s2) eqn:R. injection E as <- <-. apply readLoop_ok in R; [|exact F|now left|lia]. destruct R as (used & U1 & U2 & U3 & U4 & U5).
  exists used. split; [exact U1|]. rewrite A4, A1 in U2. cbn [map app] in U2. split; [exact U2|]. destruct (flush_passed s2) as (_ & B2 & B3 & B4 & _). rewrite B2, B3, B4, U3, U4. repeat split; auto.
  intros N. apply U5; [|exact N]. unfold MinBufferReadSize, MinBufferSize in *. lia.
Qed.

Lemma passed_snd : forall s, passed s = map snd (passedFrom s).
Proof.
  intros s. unfold passed, passedFrom. induction (calls s) as [|(e, l) c I]; [reflexivity|]. cbn [map concat fst snd]. rewrite map_app, <- I. f_equal. rewrite map_map. cbn. symmetry. apply map_id.
Qed.

Lemma credited_snd : forall ds, map snd (credited ds) = map snd ds.
Proof. induction ds as [|(e, d) ds I]; [reflexivity|]. cbn. now rewrite I. Qed.

Lemma credit_same : forall e ds, Forall (fun p => fst p = e) ds -> credit e ds = e.
Proof. intros e. induction ds as [|(f, d) ds I]; intros F; [reflexivity|]. apply Forall_inv in F as F1. apply Forall_inv_tail in F as F2. cbn [fst] in F1. rewrite F1. cbn [credit]. rewrite Z.eqb_refl. now apply I. Qed.

Lemma credited_same : forall e ds, Forall (fun p => fst p = e) ds -> credited ds = ds.
Proof.
  intros e. induction ds as [|(f, d) ds I]; intros F; [reflexivity|]. apply Forall_inv in F as F1. apply Forall_inv_tail in F as F2. cbn [fst] in F1. rewrite F1. cbn [credited]. rewrite I by exact F2. now rewrite credit_same.
Qed.

Lemma bytes_app : forall a b, bytes (a ++ b) = bytes a + bytes b.
Proof. induction a as [|x a I]; intros b; [reflexivity|]. cbn [app bytes fold_right]. fold (bytes (a ++ b)). fold (bytes a). rewrite I. lia. Qed.

Lemma passed_flush : forall s, passed (flushPackets s) = passed s ++ packets s.
Proof.
  intros s. unfold flushPackets. destruct (packets s) as [|p ps] eqn:E; [now rewrite app_nil_r|]. unfold passed. cbn [calls]. rewrite map_app, concat_app. cbn. now rewrite app_nil_r.
Qed.

Lemma flush_rest : forall s, size (flushPackets s) = size s /\ packets (flushPackets s) = [] /\ active (flushPackets s) = active s.
Proof. intros s. unfold flushPackets. destruct (packets s) eqn:E; auto. Qed.

Lemma readLoop_bytes : forall rs pos last s rest s', 0 <= pos <= size s -> readLoop rs pos last s = (rest, s') ->
  size s' = size s /\ bytes (passed s') + bytes (packets s') <= bytes (passed s) + bytes (packets s) + (size s - pos).
Proof.
  induction rs as [|r rs I]; intros pos last s rest s' P E; cbn [readLoop] in E.
  - assert (E' : ([], s) = (rest, s')) by (destruct (size s - pos >=? MinBufferReadSize); exact E). injection E' as <- <-. split; [reflexivity|lia].
  - destruct (size s - pos >=? MinBufferReadSize); [|injection E as <- <-; split; [reflexivity|lia]]. destruct r as [e data| |].
    + set (got := firstn (Z.to_nat (size s - pos)) data) in *. assert (G : Z.of_nat (length got) <= size s - pos) by (unfold got; rewrite firstn_length; lia). clearbody got.
      destruct got as [|b got]; [injection E as <- <-; split; [reflexivity|]; change (passed (setEndpoint e s)) with (passed s); change (packets (setEndpoint e s)) with (packets s); lia|].
      set (s2 := if last =? e then setEndpoint e s else flushPackets (setEndpoint e s)) in *. set (d := b :: got) in *.
      assert (E2 : readLoop rs (pos + Z.of_nat (length d)) e (addPacket d s2) = (rest, s')) by exact E.
      assert (S2 : size s2 = size s /\ passed s2 ++ packets s2 = passed s ++ packets s).
      { unfold s2. destruct (last =? e); [split; reflexivity|]. destruct (flush_rest (setEndpoint e s)) as (-> & -> & _). rewrite passed_flush. split; [reflexivity|]. now rewrite app_nil_r. }
      destruct S2 as (A1 & A2). apply I in E2; [|change (size (addPacket d s2)) with (size s2); lia]. destruct E2 as (B1 & B2). change (size (addPacket d s2)) with (size s2) in *.
      change (passed (addPacket d s2)) with (passed s2) in *. change (packets (addPacket d s2)) with (packets s2 ++ [d]) in *. rewrite bytes_app in B2. cbn [bytes fold_right] in B2.
      assert (A3 : bytes (passed s2) + bytes (packets s2) = bytes (passed s) + bytes (packets s)) by (rewrite <- !bytes_app; now rewrite A2). lia.
    + now apply I in E.
    + injection E as <- <-. split; [reflexivity|lia].
Qed.
