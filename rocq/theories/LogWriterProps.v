(** C111: the log has what was logged. *)
From Verif Require Import Base BaseLemmas LogWriterModel LogWriterSpec.

(** ** Reading back *)

Ltac types := repeat match goal with |- context [?a =? ?b] => let r := eval vm_compute in (a =? b) in lazymatch r with true => change (a =? b) with true | false => change (a =? b) with false end end;
  cbn [andb negb]; cbv iota.

Lemma take_app n a b : length a = n -> take n (a ++ b) = Ok (a, b).
Proof.
  intros <-. unfold take. rewrite app_length. replace (length a + length b <? length a)%nat with false by (symmetry; apply Nat.ltb_ge; lia).
  rewrite firstn_app, Nat.sub_diag, firstn_all, firstn_O, app_nil_r, skipn_app, Nat.sub_diag, skipn_all. reflexivity.
Qed.

Lemma takeStr_app s r : ~ In 0 s -> takeStr (s ++ 0 :: r) = Ok (s, r).
Proof.
  induction s as [|c s I]; intros N; [reflexivity|]. cbn [app takeStr]. destruct (Z.eqb_spec c 0) as [-> | X]; [destruct N; left; reflexivity|].
  rewrite I by (intros H; apply N; right; exact H). reflexivity.
Qed.

Lemma signed64_mod n : -9223372036854775808 <= n < 9223372036854775808 -> signed64 (n mod 18446744073709551616) = n.
Proof.
  intros B. unfold signed64. destruct (Z.neg_nonneg_cases n) as [N|N].
  - replace (n mod 18446744073709551616) with (n + 18446744073709551616).
    + destruct (Z.ltb_spec (n + 18446744073709551616) 9223372036854775808); lia.
    + symmetry. rewrite <- (Z.mod_add n 1) by lia. apply Z.mod_small. lia.
  - rewrite Z.mod_small by lia. destruct (Z.ltb_spec n 9223372036854775808); lia.
Qed.

(** One item is read back, given what follows is. *)
Lemma decode_item P x id pos i rest ts : item_ok i ->
  (forall s, i = ILit s -> id <> 0 /\ exists l, nth_error P (Z.to_nat id) = Some l /\ nth_error l pos = Some s) ->
  (forall f, (length rest <= f)%nat -> decode f P x id (match i with ILit _ => S pos | _ => pos end) rest = Ok ts) ->
  forall f, (length (kept i ++ rest) <= f)%nat -> decode f P x id pos (kept i ++ rest) = Ok (tokens i ++ ts).
Proof.
  intros K L H f F. rewrite app_length in F.
  assert (forall n (g : Z -> Z) t (b : list Z) v f', length b = n -> (length rest <= f')%nat -> (match i with ILit _ => S pos | _ => pos end) = pos -> g (unle b) = v -> t = b ++ rest ->
    bind (take n t) (fun r => let (c, d2) := r in bind (decode f' P x id pos d2) (fun ts => Ok (TNum (g (unle c)) :: ts))) = Ok ([TNum v] ++ ts)) as NUM.
  { intros n g t b v f' LB LF PP V ->. rewrite take_app by exact LB. cbn [bind]. rewrite PP in H. rewrite (H f' LF). cbn [bind app]. rewrite V. reflexivity. }
  destruct i as [s | s | b | n | n | n | n | n | b port]; cbn [kept tokens item_ok] in *; (destruct f as [|f]; [cbn [length] in F; lia|]); cbn [app decode length] in *.
  - unfold tENDL, tSTART, tUINT16, tUINT, tINT64, tFLOAT, tADDR, tSTR, tPARAM. types. destruct (L s eq_refl) as (NZ & l & N1 & N2). destruct (Z.eqb_spec id 0) as [X|X]; [contradiction|]. cbn [negb].
    rewrite N1, N2, H by lia. reflexivity.
  - unfold tENDL, tSTART, tUINT16, tUINT, tINT64, tFLOAT, tADDR, tSTR. types. rewrite <- app_assoc. cbn [app]. rewrite takeStr_app by exact K. cbn [bind]. rewrite app_length in F. cbn [length] in F. rewrite H by lia. reflexivity.
  - unfold tENDL, tSTART, tUINT16, tUINT, tINT64, tFLOAT. types. rewrite take_app by exact K. cbn [bind]. rewrite H by lia. reflexivity.
  - unfold tENDL, tSTART, tUINT16. types. apply (NUM 2%nat (fun x => x) _ (le 2 n) n f); [apply le_length | cbn [le length] in F; lia | reflexivity | apply unle_le; exact K | reflexivity].
  - unfold tENDL, tSTART, tUINT16, tUINT. types. apply (NUM 4%nat (fun x => x) _ (le 4 n) n f); [apply le_length | cbn [le length] in F; lia | reflexivity | apply unle_le; exact K | reflexivity].
  - unfold tENDL, tSTART, tUINT16, tUINT. types. apply (NUM 4%nat (fun x => x) _ (le 4 (n mod 4294967296)) (n mod 4294967296) f); [apply le_length | cbn [le length] in F; lia | reflexivity | apply unle_le; apply Z.mod_pos_bound; lia | reflexivity].
  - unfold tENDL, tSTART, tUINT16, tUINT, tINT64. types. apply (NUM 8%nat signed64 _ (le 8 (n mod 18446744073709551616)) n f); [apply le_length | cbn [le length] in F; lia | reflexivity | | reflexivity].
    rewrite unle_le by (apply Z.mod_pos_bound; lia). apply signed64_mod. exact K.
  - unfold tENDL, tSTART, tUINT16, tUINT. types. apply (NUM 4%nat (fun x => x) _ (le 4 (n mod 4294967296)) (n mod 4294967296) f); [apply le_length | cbn [le length] in F; lia | reflexivity | apply unle_le; apply Z.mod_pos_bound; lia | reflexivity].
  - unfold tENDL, tSTART, tUINT16, tUINT, tINT64, tFLOAT, tADDR. types. destruct K as [K1 K2].
    assert (length (firstn 4 b) = 4%nat) as L4 by (rewrite firstn_length; lia).
    change (firstn 4 b ++ le 2 port) with (firstn 4 b ++ le 2 port). rewrite take_app by (rewrite app_length, L4; reflexivity). cbn [bind].
    rewrite app_length, L4 in F. cbn [le length] in F. rewrite H by lia. cbn [bind app].
    rewrite firstn_app, L4, Nat.sub_diag, firstn_O, app_nil_r, firstn_all2, skipn_app, L4, Nat.sub_diag by lia. rewrite skipn_all2 by lia. cbn [skipn app]. rewrite unle_le by exact K2. reflexivity.
Qed.

Lemma decode_items P x id rest ts : forall l pos, Forall item_ok l ->
  (literals l <> [] -> id <> 0 /\ exists pre, nth_error P (Z.to_nat id) = Some (pre ++ literals l) /\ length pre = pos) ->
  (forall pos' f, (length rest <= f)%nat -> decode f P x id pos' rest = Ok ts) ->
  forall f, (length (flat_map kept l ++ rest) <= f)%nat -> decode f P x id pos (flat_map kept l ++ rest) = Ok (flat_map tokens l ++ ts).
Proof.
  induction l as [|i l I]; intros pos K L H f F; [exact (H pos f F)|]. inversion K as [|a b K1 K2]; subst. cbn [flat_map] in *. rewrite <- app_assoc in F |- *. rewrite <- app_assoc.
  apply decode_item; [exact K1 | | | exact F].
  - intros s ->. cbn [literals flat_map] in L. destruct (L ltac:(discriminate)) as (NZ & pre & N & Q). split; [exact NZ|]. eexists. split; [exact N|]. rewrite nth_error_app2 by lia. rewrite Q, Nat.sub_diag. reflexivity.
  - apply I; [exact K2 | | exact H]. intros NL. destruct i as [s | | | | | | | |]; cbn [literals flat_map app] in L; try (exact (L NL)).
    destruct (L ltac:(discriminate)) as (NZ & pre & N & Q). split; [exact NZ|]. exists (pre ++ [s]). split; [rewrite <- app_assoc; exact N | rewrite app_length; cbn; lia].
Qed.

(** The lines whose literals are known are read back. *)
Definition known (P : list (list (list Z))) (e : entry) : Prop :=
  0 <= place e < 256 /\ length (time e) = 4%nat /\ Forall item_ok (items e) /\ (literals (items e) <> [] -> place e <> 0 /\ nth_error P (Z.to_nat (place e)) = Some (literals (items e))).

Lemma decode_lines P x : forall es, Forall (known P) es -> forall f id pos, (length (flat_map keptLine es) <= f)%nat -> decode f P x id pos (flat_map keptLine es) = Ok (flat_map (printed x) es).
Proof.
  induction es as [|e es I]; intros K f id pos F; [destruct f; reflexivity|]. inversion K as [|a b (K0 & K1 & K2 & K3) K4]; subst. cbn [flat_map] in *. change (keptLine e) with (0 :: place e :: 3 :: time e ++ flat_map kept (items e) ++ [8]) in F |- *.
  cbn [app] in F |- *. destruct f as [|f]; [cbn [length] in F; lia|]. cbn [decode]. unfold tENDL, tSTART. types. cbn [length] in F.
  change (place e :: 3 :: (time e ++ flat_map kept (items e) ++ [8]) ++ flat_map keptLine es) with ([place e] ++ (3 :: (time e ++ flat_map kept (items e) ++ [8]) ++ flat_map keptLine es)).
  rewrite take_app by reflexivity. cbn [bind nth]. destruct f as [|f]; [lia|]. destruct f as [|f]; [lia|].
  rewrite <- app_assoc in F |- *. change (3 :: time e ++ (flat_map kept (items e) ++ [8]) ++ flat_map keptLine es) with (kept (IFloat (time e)) ++ ((flat_map kept (items e) ++ [8]) ++ flat_map keptLine es)).
  unfold printed at 1. cbn [app].
  match goal with |- _ = Ok (TFloat (time e) :: ?r) => change (TFloat (time e) :: r) with (tokens (IFloat (time e)) ++ r) end.
  apply decode_item; [exact K1 | discriminate | | cbn [kept app length] in *; repeat rewrite ?app_length in *; cbn [length] in *; repeat rewrite ?app_length in *; cbn [length] in *; lia]. clear f F. intros f F. rewrite <- app_assoc in F |- *. rewrite <- app_assoc.
  apply decode_items; [exact K2 | | | exact F].
  - intros NL. destruct (K3 NL) as [K5 K6]. split; [exact K5|]. exists []. split; [exact K6 | reflexivity].
  - clear f F. intros pos' f F. cbn [app length] in *. destruct f as [|f]; [lia|]. cbn [decode]. unfold tENDL. types. rewrite I by (exact K4 || lia). cbn [bind]. rewrite <- app_assoc. reflexivity.
Qed.

(** ** Writing *)

Lemma write_items : forall l w, (firstTime w <> 0 -> (Z.to_nat (firstTime w) < length (lineParams w))%nat) ->
  let w' := fold_left (fun w i => write i w) l w in
  data w' = data w ++ flat_map kept l /\ name w' = name w /\ idx w' = idx w /\ firstTime w' = firstTime w /\
  lineParams w' = if firstTime w =? 0 then lineParams w else upd (Z.to_nat (firstTime w)) (nth (Z.to_nat (firstTime w)) (lineParams w) [] ++ literals l) (lineParams w).
Proof.
  induction l as [|i l I]; intros w B; cbn [fold_left].
  - cbn. rewrite !app_nil_r, upd_nth. destruct (firstTime w =? 0); repeat split.
  - destruct w as [d p n x ft]. cbn [firstTime lineParams data name idx] in *.
    assert (forall d', write i {| data := d; lineParams := p; name := n; idx := x; firstTime := ft |} = {| data := d'; lineParams := p; name := n; idx := x; firstTime := ft |} -> d' = d ++ kept i ->
      literals (i :: l) = literals l -> let w' := fold_left (fun w i => write i w) l (write i {| data := d; lineParams := p; name := n; idx := x; firstTime := ft |}) in
      data w' = d ++ flat_map kept (i :: l) /\ name w' = n /\ idx w' = x /\ firstTime w' = ft /\ lineParams w' = if ft =? 0 then p else upd (Z.to_nat ft) (nth (Z.to_nat ft) p [] ++ literals (i :: l)) p) as K.
    { intros d' W -> L. rewrite W, L. destruct (I {| data := d ++ kept i; lineParams := p; name := n; idx := x; firstTime := ft |} B) as (I1 & I2 & I3 & I4 & I5). cbn [firstTime lineParams data name idx] in *.
      cbn zeta. rewrite I1, <- app_assoc. repeat split; assumption. }
    destruct i as [s | s | b | m | m | m | m | m | b port]; try (refine (K _ _ _ _); reflexivity). clear K.
    cbn [write firstTime lineParams]. destruct (Z.eqb_spec ft 0) as [-> | X].
    + match goal with |- context [fold_left _ l ?w1] => destruct (I w1) as (I1 & I2 & I3 & I4 & I5) end; [cbn; congruence|]. cbn [withData firstTime lineParams data name idx] in *.
      rewrite I1, <- app_assoc. repeat split; assumption.
    + match goal with |- context [fold_left _ l ?w1] => destruct (I w1) as (I1 & I2 & I3 & I4 & I5) end.
      { cbn [withData withParams firstTime lineParams]. intros _. rewrite upd_length. exact (B X). }
      cbn [withData withParams firstTime lineParams data name idx] in *. rewrite I1, <- app_assoc. repeat split; try assumption. rewrite I5. destruct (Z.eqb_spec ft 0); [contradiction|].
      rewrite nth_upd_same by (exact (B X)). rewrite upd_upd_same. cbn [literals flat_map]. rewrite <- app_assoc. reflexivity.
Qed.

(** ** Histories *)

(** What is kept are the lines [pend], the literals of which are known. *)
Definition Linv (shape : Z -> list (list Z)) (index : Z) (w : writer) (pend : list entry) : Prop :=
  data w = flat_map keptLine pend /\ idx w = index /\ Forall (known (lineParams w)) pend /\ (0 < length (lineParams w))%nat /\
  (forall i, 0 <= i -> nth (Z.to_nat i) (lineParams w) [] = [] \/ nth (Z.to_nat i) (lineParams w) [] = shape i).

Lemma Linv_new shape n index t : length t = 4%nat -> Linv shape index (newWriter n index t) [first t].
Proof.
  intros T. assert (lineParams (newWriter n index t) = [[]]) as LP by reflexivity. unfold Linv. rewrite LP. split; [cbn; rewrite <- app_assoc, app_nil_r; reflexivity|]. split; [reflexivity|]. split.
  - constructor; [|constructor]. split; [cbn; lia|]. split; [exact T|]. split; [|intros []; reflexivity]. constructor; [|constructor]. cbn. intros [H | [H | [H | [H | []]]]]; discriminate H.
  - split; [cbn; lia|]. intros i I. left. destruct (Z.to_nat i) as [|[|k]]; reflexivity.
Qed.

Lemma Linv_flush shape index w pend dirOk : Linv shape index w pend ->
  exists out w', flush dirOk w = Ok (out, w') /\ name w' = name w /\
    ((named (name w) = true /\ dirOk = true /\ out = flat_map (printed index) pend /\ Linv shape index w' []) \/ ((named (name w) = false \/ dirOk = false) /\ out = [] /\ w' = w)).
Proof.
  intros (D & X & K & L & P). unfold flush. destruct (named (name w)) eqn:N, dirOk; rewrite ?orb_true_r; cbn [negb]; rewrite ?orb_true_r, ?orb_false_r;
    try (exists [], w; split; [reflexivity|]; split; [reflexivity|]; right; split; [|split; reflexivity]; (left; reflexivity) || (right; reflexivity)).
  assert (Linv shape index (withParams [[]] (firstTime w) (withData [] w)) []) as E.
  { split; [reflexivity|]. split; [exact X|]. split; [constructor|]. split; [cbn; lia|]. intros i I. left. cbn. destruct (Z.to_nat i) as [|[|k]]; reflexivity. }
  destruct (data w) as [|c d] eqn:DD.
  - exists [], w. split; [reflexivity|]. split; [reflexivity|]. left. destruct pend as [|e pend]; [|discriminate D]. repeat split; try assumption.
  - rewrite D, X. rewrite decode_lines by (exact K || lia). cbn [bind]. eexists _, _. split; [reflexivity|]. split; [reflexivity|]. left. repeat split; try exact E; apply E.
Qed.

Lemma pad_nth (p : list (list (list Z))) k i : nth i (p ++ repeat [] k) [] = nth i p [].
Proof.
  destruct (Nat.lt_ge_cases i (length p)) as [H|H]; [apply app_nth1; exact H|]. rewrite app_nth2, (nth_overflow p) by exact H. generalize (i - length p)%nat. clear.
  induction k as [|k I]; intros [|j]; cbn; try reflexivity. apply I.
Qed.

(** Before its end, a line is kept. *)
Lemma Linv_line shape index w pend e : Linv shape index w pend -> entry_ok shape e ->
  let w1 := fold_left (fun w i => write i w) (items e) (StartLogLine (place e) (time e) w) in
  Linv shape index (withData (data w1 ++ [tENDL]) w1) (pend ++ [e]) /\ name w1 = name w.
Proof.
  intros (D & X & K & L & P) (E0 & E1 & E2 & E3). set (id := place e) in *.
  set (w0 := StartLogLine id (time e) w). set (p := lineParams w0).
  assert (forall i, nth i p [] = nth i (lineParams w) []) as PN.
  { intros i. unfold p, w0, StartLogLine. cbn [write withData withParams lineParams]. destruct (zlen (lineParams w) <=? id); [apply pad_nth | reflexivity]. }
  assert (Z.to_nat id < length p)%nat as PL.
  { unfold p, w0, StartLogLine. cbn [write withData withParams lineParams]. unfold zlen. destruct (Z.leb_spec (Z.of_nat (length (lineParams w))) id); [rewrite app_length, repeat_length; lia | lia]. }
  assert (length (lineParams w) <= length p)%nat as PG.
  { unfold p, w0, StartLogLine. cbn [write withData withParams lineParams]. destruct (zlen (lineParams w) <=? id); [rewrite app_length; lia | lia]. }
  assert (firstTime w0 = match nth (Z.to_nat id) p [] with [] => id | _ => 0 end) as FT.
  { unfold w0, StartLogLine. cbn [withParams firstTime]. destruct (Z.eqb_spec id 0); [lia|]. reflexivity. }
  assert (data w0 = data w ++ 0 :: id :: 3 :: time e) as DW by (unfold w0, StartLogLine; cbn; rewrite <- !app_assoc; reflexivity).
  assert (name w0 = name w /\ idx w0 = idx w) as [NW XW] by (split; reflexivity).
  destruct (write_items (items e) w0) as (W1 & W2 & W3 & W4 & W5).
  { fold p. rewrite FT. destruct (nth (Z.to_nat id) p []); [intros _; exact PL | congruence]. }
  cbn zeta. split; [|rewrite W2; exact NW]. fold p in W5.
  assert (forall i, (Z.to_nat id <> i)%nat -> nth i (lineParams (fold_left (fun w i => write i w) (items e) w0)) [] = nth i (lineParams w) []) as QO.
  { intros i N. rewrite W5. destruct (Z.eqb_spec (firstTime w0) 0) as [Q0 | Q0]; [apply PN|].
    assert (firstTime w0 = id) as Q1 by (rewrite FT in Q0 |- *; destruct (nth (Z.to_nat id) p []); [reflexivity | congruence]). rewrite Q1, nth_upd_other by congruence. apply PN. }
  assert (nth (Z.to_nat id) (lineParams (fold_left (fun w i => write i w) (items e) w0)) [] = shape id) as QS.
  { rewrite W5, FT. destruct (nth (Z.to_nat id) p []) as [|s0 l0] eqn:NN.
    - destruct (Z.eqb_spec id 0); [lia|]. rewrite nth_upd_same by exact PL. rewrite NN. exact E3.
    - cbn [Z.eqb]. rewrite NN. rewrite PN in NN. destruct (P id ltac:(lia)) as [Q | Q]; congruence. }
  assert (length (lineParams (fold_left (fun w i => write i w) (items e) w0)) = length p) as QL by (rewrite W5; destruct (firstTime w0 =? 0); [reflexivity | apply upd_length]).
  unfold withData. split; [|split; [|split; [|split]]]; cbn [data idx lineParams].
  - rewrite W1, DW, D, flat_map_app. cbn [flat_map]. unfold keptLine. fold id. rewrite app_nil_r, <- !app_assoc. cbn [app]. rewrite <- ?app_assoc. reflexivity.
  - rewrite W3. exact X.
  - apply Forall_app. split.
    + eapply Forall_impl; [|exact K]. intros a (A0 & A1 & A2 & A3). split; [exact A0|]. split; [exact A1|]. split; [exact A2|]. intros NL. destruct (A3 NL) as [A4 A5]. split; [exact A4|].
      assert (Z.to_nat (place a) < length (lineParams w))%nat as A6 by (apply nth_error_Some; congruence).
      rewrite (nth_error_nth' _ []) by lia. f_equal. apply (nth_error_nth _ _ []) in A5. destruct (Nat.eq_dec (Z.to_nat id) (Z.to_nat (place a))) as [Q | Q].
      * rewrite <- Q, QS. rewrite <- Q in A5. destruct (P id ltac:(lia)) as [R | R]; congruence.
      * rewrite QO by exact Q. exact A5.
    + constructor; [|constructor]. split; [fold id; lia|]. split; [exact E1|]. split; [exact E2|]. intros _. fold id. split; [lia|].
      rewrite (nth_error_nth' _ []) by lia. f_equal. rewrite QS. symmetry. exact E3.
  - lia.
  - intros i I. destruct (Z.eq_dec i id) as [-> | N]; [right; exact QS|]. rewrite QO by lia. exact (P i I).
Qed.

Lemma run_pend shape index : forall es w pend, Linv shape index w pend -> Forall (entry_ok shape) (logged es) ->
  exists out w' done pend', run es w = Ok (out, w') /\ pend ++ logged es = done ++ pend' /\ out = flat_map (printed index) done /\ Linv shape index w' pend'.
Proof.
  induction es as [|ev es I]; intros w pend V E; [exists [], w, [], pend; split; [reflexivity|]; split; [apply app_nil_r | split; [reflexivity | exact V]]|].
  cbn [run]. cbn [logged flat_map] in E. apply Forall_app in E. destruct E as [E1 E2]. fold (logged es) in E2.
  assert (forall w1 out1 done1 pend1 more, step ev w = Ok (out1, w1) -> logged (ev :: es) = more ++ logged es -> pend ++ more = done1 ++ pend1 -> out1 = flat_map (printed index) done1 -> Linv shape index w1 pend1 ->
    exists out w' done pend', bind (step ev w) (fun r => let (ts, w') := r in bind (run es w') (fun r' => let (ts', w'') := r' in Ok (ts ++ ts', w''))) = Ok (out, w') /\
      pend ++ logged (ev :: es) = done ++ pend' /\ out = flat_map (printed index) done /\ Linv shape index w' pend') as K.
  { intros w1 out1 done1 pend1 more S M Q O1 V1. rewrite S. cbn [bind]. destruct (I w1 pend1 V1 E2) as (out2 & w2 & done2 & pend2 & R & Q2 & O2 & V2). rewrite R. cbn [bind].
    exists (out1 ++ out2), w2, (done1 ++ done2), pend2. split; [reflexivity|]. split; [rewrite M, app_assoc, Q, <- !app_assoc, Q2; reflexivity|]. split; [rewrite flat_map_app; congruence | exact V2]. }
  destruct ev as [id t l dirOk | n | dirOk].
  - set (e := {| place := id; time := t; items := l |}). inversion E1 as [|a b E3 _]; subst. destruct (Linv_line shape index w pend e V E3) as [V1 N1].
    cbn [step]. unfold line. cbn zeta. destruct (Linv_flush shape index _ _ dirOk V1) as (out & w' & F & N & [(A & B & O1 & V2) | (A & O1 & ->)]).
    + refine (K w' out (pend ++ [e]) [] [e] F eq_refl _ O1 V2). rewrite app_nil_r. reflexivity.
    + refine (K _ out [] (pend ++ [e]) [e] F eq_refl eq_refl O1 V1).
  - refine (K _ [] [] pend [] eq_refl eq_refl _ eq_refl _); [apply app_nil_r|]. destruct (match rev (name w) with c :: _ => c =? 95 | [] => false end); exact V.
  - destruct (Linv_flush shape index w pend dirOk V) as (out & w' & F & N & [(A & B & O1 & V2) | (A & O1 & ->)]).
    + refine (K w' out pend [] [] F eq_refl eq_refl O1 V2).
    + refine (K w out [] pend [] F eq_refl _ O1 V). apply app_nil_r.
Qed.

(** ** The property *)

(** Whatever was logged and whenever the log got its name: no byte outside of what is kept is read, the file has the first lines that were logged, as they were logged and in
    order, and the others are kept. Text must have no 0 in it. *)
Theorem C111_printed_partial shape n index t es : length t = 4%nat -> Forall (entry_ok shape) (logged es) ->
  exists out w done pend, run es (newWriter n index t) = Ok (out, w) /\ first t :: logged es = done ++ pend /\ out = flat_map (printed index) done /\ data w = flat_map keptLine pend.
Proof.
  intros T E. destruct (run_pend shape index es (newWriter n index t) [first t] (Linv_new shape n index t T) E) as (out & w & done & pend & R & Q & O1 & V).
  exists out, w, done, pend. split; [exact R|]. split; [exact Q|]. split; [exact O1 | apply V].
Qed.

(** A log with a name has all that was logged in its file after each line, if the folder is there; and one without writes nothing. *)
Theorem C111_at_once shape n index t es id time items dirOk : length t = 4%nat -> Forall (entry_ok shape) (logged (es ++ [ELine id time items dirOk])) ->
  exists out w out' w', run es (newWriter n index t) = Ok (out, w) /\ step (ELine id time items dirOk) w = Ok (out', w') /\
    if named (name w) && dirOk then out ++ out' = flat_map (printed index) (first t :: logged (es ++ [ELine id time items dirOk])) /\ data w' = [] else out' = [].
Proof.
  intros T E. assert (logged (es ++ [ELine id time items dirOk]) = logged es ++ [{| place := id; LogWriterSpec.time := time; LogWriterSpec.items := items |}]) as LE by (unfold logged; rewrite flat_map_app; reflexivity).
  rewrite LE in E. apply Forall_app in E. destruct E as [E1 E2].
  destruct (run_pend shape index es (newWriter n index t) [first t] (Linv_new shape n index t T) E1) as (out & w & done & pend & R & Q & O1 & V). inversion E2 as [|a b E3 _]; subst a b.
  destruct (Linv_line shape index w pend _ V E3) as [V1 N1]. cbn [place LogWriterSpec.time LogWriterSpec.items] in V1, N1.
  destruct (Linv_flush shape index _ _ dirOk V1) as (out' & w' & F & N & C). cbn [withData name] in N, C. rewrite N1 in N, C.
  exists out, w, out', w'. split; [exact R|]. split; [exact F|]. destruct C as [(A & -> & O2 & V2) | (A & O2 & _)].
  - rewrite A. cbn [andb]. split; [|apply V2]. rewrite O1, O2, <- flat_map_app, app_assoc, <- Q. rewrite LE. reflexivity.
  - destruct A as [-> | ->]; [exact O2 | rewrite andb_false_r; exact O2].
Qed.

(** With a 0 in a text what follows it is taken for the kinds of items: bytes after the end are read. *)
Theorem C111_printed_refuted : exists s t, bytes_ok s /\ length t = 4%nat /\ line 1 t [IText s] true (newWriter [76] 0 t) = UB.
Proof. exists [97; 0; 5], [0; 0; 0; 0]. split; [repeat (apply Forall_cons; [unfold is_byte; lia|]); apply Forall_nil|]. split; [reflexivity|]. vm_compute. reflexivity. Qed.

(** A size of 4 GB is logged as 0, the number -1 as 4294967295, and two IPv6 addresses of a network as the same. *)
Theorem C111_value_refuted t w : length t = 4%nat -> w = newWriter [76] 0 t ->
  (exists w', line 1 t [IU64 4294967296] true w = Ok (printed 0 (first t) ++ printed 0 {| place := 1; time := t; items := [I32 0] |}, w')) /\
  (exists w', line 1 t [IInt (-1)] true w = Ok (printed 0 (first t) ++ printed 0 {| place := 1; time := t; items := [I32 4294967295] |}, w')) /\
  exists a b, a <> b /\ length a = 16%nat /\ length b = 16%nat /\ line 1 t [IAddr a 80] true w = line 1 t [IAddr b 80] true w.
Proof.
  intros T ->. destruct t as [|t0 [|t1 [|t2 [|t3 [|t4 t]]]]]; try discriminate T. split; [|split].
  - eexists. vm_compute. reflexivity.
  - eexists. vm_compute. reflexivity.
  - exists (repeat 32 15 ++ [1]), (repeat 32 15 ++ [2]). split; [discriminate|]. split; [reflexivity|]. split; [reflexivity|]. vm_compute. reflexivity.
Qed.

Lemma write_name i w : name (write i w) = name w.
Proof. destruct i; try reflexivity. cbn [write]. destruct (firstTime w =? 0); reflexivity. Qed.
Lemma writes_name l : forall w, name (fold_left (fun w i => write i w) l w) = name w.
Proof. induction l as [|i l IH]; intros w; [reflexivity|]. cbn [fold_left]. rewrite IH. apply write_name. Qed.
Lemma start_name id t w : name (StartLogLine id t w) = name w.
Proof. unfold StartLogLine. cbv zeta. reflexivity. Qed.
Lemma flush_name ok w o w' : flush ok w = Ok (o, w') -> name w' = name w.
Proof.
  unfold flush. destruct (_ || _)%bool; [intros [= <- <-]; reflexivity|].
  destruct (decode _ _ _ _ _ _); [|discriminate]. cbn [bind]. intros [= <- <-]. reflexivity.
Qed.
Lemma flush_unnamed ok w : named (name w) = false -> flush ok w = Ok ([], w).
Proof. intros N. unfold flush. rewrite N. cbn [negb]. rewrite orb_true_r. reflexivity. Qed.

Lemma ends_ p : match rev (p ++ [95]) with c :: _ => c =? 95 | [] => false end = true /\ named (p ++ [95]) = false.
Proof. unfold named. rewrite rev_app_distr. split; reflexivity. Qed.
Lemma ends_not p n c : c <> 95 -> match rev (p ++ [95] ++ n ++ [c]) with x :: _ => x =? 95 | [] => false end = false /\ named (p ++ [95] ++ n ++ [c]) = true.
Proof. intros C. unfold named. rewrite !app_assoc, rev_app_distr. cbn [rev app]. destruct (Z.eqb_spec c 95); [contradiction|]. auto. Qed.

Lemma run_name es : forall w o w', match rev (name w) with x :: _ => x =? 95 | [] => false end = false -> run es w = Ok (o, w') -> name w' = name w.
Proof.
  induction es as [|ev es IH]; intros w o w' N R; [injection R as <- <-; reflexivity|]. cbn [run] in R.
  destruct (step ev w) as [[o1 w1]|] eqn:S1; [|discriminate]. cbn [bind] in R. destruct (run es w1) as [[o2 w2]|] eqn:R2; [|discriminate].
  cbn [bind] in R. injection R as <- <-.
  assert (E : name w1 = name w).
  { destruct ev as [id t l ok|n|ok]; cbn [step] in S1.
    - unfold line in S1. cbv zeta in S1. apply flush_name in S1. rewrite S1. cbn [withData name]. rewrite writes_name. apply start_name.
    - rewrite N in S1. injection S1 as <- <-. reflexivity.
    - exact (flush_name _ _ _ _ S1). }
  rewrite <- E. apply (IH w1 o2 w2); [rewrite E; exact N | exact R2].
Qed.

(** A log that was given the first part of a name, "p_", has nothing in a file until it is given the rest, whatever is logged; then its name is "p_n",
    whatever it is told later. *)
Theorem C111_name shape p n c index t es1 es2 : length t = 4%nat -> Forall (entry_ok shape) (logged (es1 ++ EName (n ++ [c]) :: es2)) -> c <> 95 ->
  Forall (fun ev => match ev with EName _ => False | _ => True end) es1 ->
  (exists w1, run es1 (newWriter (p ++ [95]) index t) = Ok ([], w1) /\ name w1 = p ++ [95]) /\
  exists out w2, run (es1 ++ EName (n ++ [c]) :: es2) (newWriter (p ++ [95]) index t) = Ok (out, w2) /\ name w2 = p ++ [95] ++ n ++ [c].
Proof.
  intros T E C NN. destruct (ends_ p) as [E1 E2].
  assert (G : forall w, name w = p ++ [95] -> exists w1, run es1 w = Ok ([], w1) /\ name w1 = p ++ [95]).
  { clear E. induction NN as [|ev es1 Nev NN IH]; intros w Nw; [exists w; auto|]. cbn [run].
    destruct ev as [id tm l ok|x|ok]; [|contradiction|]; cbn [step].
    - unfold line. cbv zeta. rewrite flush_unnamed by (cbn [withData name]; rewrite writes_name, start_name, Nw; exact E2). cbn [bind].
      match goal with |- context[run es1 ?w1] => destruct (IH w1) as (w2 & R & N2); [cbn [withData name]; rewrite writes_name, start_name; exact Nw|] end.
      rewrite R. cbn [bind app]. exists w2. auto.
    - rewrite flush_unnamed by (rewrite Nw; exact E2). cbn [bind]. destruct (IH w Nw) as (w2 & R & N2). rewrite R. cbn [bind app]. exists w2. auto. }
  destruct (G (newWriter (p ++ [95]) index t) eq_refl) as (w1 & R1 & N1). split; [exists w1; auto|].
  destruct (C111_printed_partial shape (p ++ [95]) index t (es1 ++ EName (n ++ [c]) :: es2) T E) as (out & w2 & d & q & R & _).
  exists out, w2. split; [exact R|]. clear E.
  assert (A : forall es w o1 w1 o w2, run es w = Ok (o1, w1) -> run (es ++ EName (n ++ [c]) :: es2) w = Ok (o, w2) ->
    exists o2, run (EName (n ++ [c]) :: es2) w1 = Ok (o2, w2)).
  { clear. induction es as [|ev es IH]; intros w o1 w1 o w2 A B.
    - injection A as <- <-. exists o. exact B.
    - cbn [run app] in A, B. destruct (step ev w) as [[a b]|]; [|discriminate]. cbn [bind] in A, B.
      destruct (run es b) as [[a1 b1]|] eqn:R1; [|discriminate]. destruct (run (es ++ _) b) as [[a2 b2]|] eqn:R2; [|discriminate].
      cbn [bind] in A, B. injection A as <- <-. injection B as <- <-. exact (IH _ _ _ _ _ R1 R2). }
  destruct (A _ _ _ _ _ _ R1 R) as (o2 & R2). cbn [run step] in R2. rewrite N1, E1 in R2. cbn [bind] in R2.
  match type of R2 with context[run es2 ?x] => destruct (run es2 x) as [[o3 w3]|] eqn:R3; [|discriminate] end. cbn [bind] in R2. injection R2 as <- <-.
  destruct (ends_not p n c C) as [F1 _]. apply run_name in R3; cbn [name] in *; rewrite <- app_assoc in *; [exact R3|exact F1].
Qed.
Print Assumptions C111_name.

Example C111_ex : exists w, run [ELine 3 [1; 2; 3; 4] [ILit [65]; I16 7; IText [66; 67]] true; EName [78]; ELine 3 [5; 6; 7; 8] [ILit [65]; I16 8; IText [68]] true] (newWriter [80; 95] 2 [0; 0; 0; 0]) =
  Ok ([TFloat [0; 0; 0; 0]; TText [105; 110; 105; 116]; TIndex 2; TEnd; TFloat [1; 2; 3; 4]; TText [65]; TNum 7; TText [66; 67]; TIndex 2; TEnd;
       TFloat [5; 6; 7; 8]; TText [65]; TNum 8; TText [68]; TIndex 2; TEnd], w).
Proof. eexists. vm_compute. reflexivity. Qed.
Example C111_ok_ex : entry_ok (fun i => if i =? 3 then [[65]] else []) {| place := 3; time := [1; 2; 3; 4]; items := [ILit [65]; I16 7; IText [66; 67]; I64 (-5); IAddr [1; 2; 3; 4] 80] |}.
Proof.
  split; [cbn; lia|]. split; [reflexivity|]. split; [|reflexivity]. repeat (apply Forall_cons; [cbn; try tauto; try lia|]). apply Forall_nil.
Qed.

Print Assumptions C111_printed_partial.
Print Assumptions C111_at_once.
Print Assumptions C111_printed_refuted.
Print Assumptions C111_value_refuted.
