(** C79: peers which send bad data are disconnected. *)
From Verif Require Import Base Assoc DlModel DlProofs2 DlProofs4 SuspectModel.

(** The pieces a peer helped with which failed their check, since the last one which did not or
    since it was first used; [None]: it is not used. *)
Definition strike (p : Z) (o : option Z) (e : sev) : option Z :=
  match e with
  | SJoin q => if q =? p then match o with None => Some 0 | _ => o end else o
  | SLeave q => if q =? p then None else o
  | SChecked s sources =>
    if existsb (Z.eqb p) sources then
      match s with CSuccess => option_map (fun _ => 0) o | CMismatch => option_map (fun k => k + 1) o | CError => o end
    else o
  end.
Definition strikes (p : Z) (l : list sev) : option Z := fold_left (strike p) l None.

(** The sources of a piece are a set. *)
Definition sets (l : list sev) : Prop := Forall (fun e => match e with SChecked _ sources => NoDup sources | _ => True end) l.

Definition suspOf (q : Z) (P : list (Z * peerInfo)) : option Z := option_map suspicion (aget q P).
Definition groupOf (q : Z) (P : list (Z * peerInfo)) : option Z := option_map suspGroup (aget q P).

Lemma suspOf_set_same p i P : suspOf p (aset p i P) = Some (suspicion i).
Proof. unfold suspOf. now rewrite aget_set_same. Qed.
Lemma groupOf_set_same p i P : groupOf p (aset p i P) = Some (suspGroup i).
Proof. unfold groupOf. now rewrite aget_set_same. Qed.
Lemma suspOf_set_other p q i P : q <> p -> suspOf q (aset p i P) = suspOf q P.
Proof. intros N. unfold suspOf. now rewrite aget_set_other. Qed.
Lemma groupOf_set_other p q i P : q <> p -> groupOf q (aset p i P) = groupOf q P.
Proof. intros N. unfold groupOf. now rewrite aget_set_other. Qed.

Definition after (s : checkStatus) (o : option Z) : option Z :=
  match s with CSuccess => option_map (fun _ => 0) o | CMismatch => option_map (fun k => u32 (k + 1)) o | CError => o end.

Definition clearGroup (h : Z) (P : list (Z * peerInfo)) : list (Z * peerInfo) :=
  map (fun pi => (fst pi, if suspGroup (snd pi) =? h then {| cur := cur (snd pi); asked := asked (snd pi); suspGroup := 0; suspicion := suspicion (snd pi) |} else snd pi)) P.
Lemma clear_get h P q : aget q (clearGroup h P) = option_map (fun i => if suspGroup i =? h then {| cur := cur i; asked := asked i; suspGroup := 0; suspicion := suspicion i |} else i) (aget q P).
Proof. unfold clearGroup. apply (aget_map (fun _ i => if suspGroup i =? h then {| cur := cur i; asked := asked i; suspGroup := 0; suspicion := suspicion i |} else i)). Qed.
Lemma clear_susp h P q : suspOf q (clearGroup h P) = suspOf q P.
Proof. unfold suspOf. rewrite clear_get. destruct (aget q P) as [i|]; [|reflexivity]. cbn. now destruct (suspGroup i =? h). Qed.
Lemma clear_group h P q : groupOf q (clearGroup h P) = option_map (fun x => if x =? h then 0 else x) (groupOf q P).
Proof. unfold groupOf. rewrite clear_get. destruct (aget q P) as [i|]; [|reflexivity]. cbn. now destruct (suspGroup i =? h). Qed.

Lemma one_susp s n g P p q : suspOf q (refreshSource s n g P p) = if q =? p then after s (suspOf q P) else suspOf q P.
Proof.
  unfold refreshSource. destruct (aget p P) as [i|] eqn:E.
  2:{ destruct (Z.eqb_spec q p) as [->|N]; [|reflexivity]. unfold suspOf. rewrite E. now destruct s. }
  assert (SP : suspOf p P = Some (suspicion i)) by (unfold suspOf; now rewrite E).
  destruct s; cbn [after].
  - destruct (Z.eqb_spec q p) as [->|N]; [rewrite suspOf_set_same, SP; reflexivity|now rewrite suspOf_set_other].
  - cbn [suspicion]. destruct ((n =? 1)%nat || (u32 (suspicion i + 1) >? 2)).
    + match goal with |- context [if _ then ?a else map _ _] => set (P1 := a) end.
      assert (X : suspOf q P1 = if q =? p then option_map (fun k => u32 (k + 1)) (suspOf q P) else suspOf q P).
      { unfold P1. destruct (Z.eqb_spec q p) as [->|N]; [rewrite suspOf_set_same, SP; reflexivity|now rewrite suspOf_set_other]. }
      destruct (suspGroup i =? 0); [exact X|]. change (suspOf q (clearGroup (suspGroup i) P1) = if q =? p then option_map (fun k => u32 (k + 1)) (suspOf q P) else suspOf q P). now rewrite clear_susp.
    + destruct (Z.eqb_spec q p) as [->|N]; [rewrite suspOf_set_same, SP; reflexivity|now rewrite suspOf_set_other].
  - now destruct (q =? p).
Qed.

Lemma loop_susp s n g l : forall P q, NoDup l -> suspOf q (fst (sourcesLoop s n g l P)) = if existsb (Z.eqb q) l then after s (suspOf q P) else suspOf q P.
Proof.
  induction l as [|p l IH]; intros P q N; [reflexivity|]. inversion N as [|x y N1 N2]; subst. cbn [sourcesLoop existsb].
  specialize (IH (refreshSource s n g P p) q N2). destruct (sourcesLoop s n g l (refreshSource s n g P p)) as [r out]. cbn [fst] in *. rewrite IH, one_susp.
  destruct (Z.eqb_spec q p) as [->|M]; [|reflexivity]. cbn [orb]. replace (existsb (Z.eqb p) l) with false; [reflexivity|].
  symmetry. apply Bool.not_true_is_false. intros X. apply existsb_exists in X as (z & I & E). apply Z.eqb_eq in E. subst. contradiction.
Qed.

Lemma drops_susp s n P P' p : suspOf p P = suspOf p P' -> dropsSource s n P p = dropsSource s n P' p.
Proof. unfold suspOf, dropsSource. destruct s; auto. destruct (aget p P), (aget p P'); cbn; intros E; try discriminate; auto. injection E as ->. reflexivity. Qed.

Lemma loop_out s n g l : forall P, NoDup l -> snd (sourcesLoop s n g l P) = filter (dropsSource s n P) l.
Proof.
  induction l as [|p l IH]; intros P N; [reflexivity|]. inversion N as [|x y N1 N2]; subst. cbn [sourcesLoop filter]. specialize (IH (refreshSource s n g P p) N2).
  destruct (sourcesLoop s n g l (refreshSource s n g P p)) as [r out]. cbn [snd] in *. rewrite IH.
  assert (E : filter (dropsSource s n (refreshSource s n g P p)) l = filter (dropsSource s n P) l).
  { clear - N1. induction l as [|a l IH]; [reflexivity|]. cbn [filter]. rewrite IH by (intros H; apply N1; now right).
    rewrite (drops_susp s n (refreshSource s n g P p) P a); [reflexivity|]. rewrite one_susp. destruct (Z.eqb_spec a p); [subst; exfalso; apply N1; now left|reflexivity]. }
  rewrite E. now destruct (dropsSource s n P p).
Qed.

Lemma step_susp d e q : match e with SChecked _ l => NoDup l | _ => True end -> suspOf q (sPeers (fst (sstep d e))) =
  match e with
  | SJoin p => if p =? q then match suspOf q (sPeers d) with None => Some 0 | o => o end else suspOf q (sPeers d)
  | SLeave p => if p =? q then None else suspOf q (sPeers d)
  | SChecked s l => if existsb (Z.eqb q) l then after s (suspOf q (sPeers d)) else suspOf q (sPeers d)
  end.
Proof.
  intros N. destruct e as [s l|p|p]; cbn [sstep].
  - pose proof (loop_susp s (length l) (match s with CMismatch => u32 (sGroup d + 1) | _ => sGroup d end) l (sPeers d) q N) as X.
    destruct (sourcesLoop _ _ _ _ _) as [r out]. exact X.
  - cbn [fst sPeers]. destruct (Z.eqb_spec p q) as [->|M].
    + unfold suspOf. destruct (aget q (sPeers d)) as [i|] eqn:E; [now rewrite E|]. rewrite aget_set_same. reflexivity.
    + destruct (aget p (sPeers d)); [reflexivity|]. apply suspOf_set_other. congruence.
  - cbn [fst sPeers]. unfold suspOf. destruct (Z.eqb_spec p q) as [->|M]; [now rewrite aget_del_same|]. rewrite aget_del_other by congruence. reflexivity.
Qed.

Lemma srun_snoc l e : srun (l ++ [e]) = fst (sstep (srun l) e).
Proof. unfold srun. now rewrite fold_left_app. Qed.
Lemma strikes_snoc p l e : strikes p (l ++ [e]) = strike p (strikes p l) e.
Proof. unfold strikes. now rewrite fold_left_app. Qed.

Lemma strikes_bound p l : match strikes p l with None => True | Some k => 0 <= k <= zlen l end.
Proof.
  induction l as [|e l IH] using rev_ind; [exact I|]. rewrite strikes_snoc. unfold zlen in *. rewrite app_length. cbn [length].
  destruct e as [s src|q|q]; cbn [strike].
  - destruct (existsb (Z.eqb p) src), s, (strikes p l); cbn; lia.
  - destruct (q =? p), (strikes p l); cbn; lia.
  - destruct (q =? p), (strikes p l); cbn; lia.
Qed.

(** C79: what the downloader counts against a peer is the number of pieces it helped with which
    failed since the last good one. *)
Theorem C79_strikes : forall l p, sets l -> zlen l < 4294967296 -> option_map suspicion (aget p (sPeers (srun l))) = strikes p l.
Proof.
  intros l p. change (sets l -> zlen l < 4294967296 -> suspOf p (sPeers (srun l)) = strikes p l).
  induction l as [|e l IH] using rev_ind; intros S Z; [reflexivity|]. apply Forall_app in S as [S1 S2]. inversion S2 as [|x y S3 _]; subst.
  assert (Z' : zlen l < 4294967295) by (unfold zlen in *; rewrite app_length in Z; cbn [length] in Z; lia).
  specialize (IH S1 ltac:(lia)). rewrite srun_snoc, step_susp, strikes_snoc, IH by exact S3. pose proof (strikes_bound p l) as B.
  destruct e as [s src|q|q]; cbn [strike]; [|now destruct (q =? p), (strikes p l)|reflexivity]. destruct (existsb (Z.eqb p) src); [|reflexivity]. destruct s; cbn [after]; auto.
  destruct (strikes p l) as [k|]; [|reflexivity]. cbn. f_equal. unfold u32. rewrite Z.mod_small; lia.
Qed.
Print Assumptions C79_strikes.

(** C79: after a check exactly these peers are disconnected: of a piece which failed, the one peer
    which sent all of it, or those which helped with at least two other failed pieces since their
    last good one. *)
Theorem C79_dropped_exactly : forall l s sources p, sets l -> zlen l < 4294967295 -> NoDup sources ->
  (In p (snd (sstep (srun l) (SChecked s sources))) <->
   s = CMismatch /\ In p sources /\ exists k, strikes p l = Some k /\ (length sources = 1%nat \/ 2 <= k)).
Proof.
  intros l s sources p S Z N. cbn [sstep].
  pose proof (loop_out s (length sources) (match s with CMismatch => u32 (sGroup (srun l) + 1) | _ => sGroup (srun l) end) sources (sPeers (srun l)) N) as X.
  destruct (sourcesLoop _ _ _ _ _) as [r out]. cbn [snd] in *. subst out. rewrite filter_In. rewrite <- (C79_strikes l p S) by lia.
  pose proof (strikes_bound p l) as B. rewrite <- (C79_strikes l p S) in B by lia. unfold dropsSource.
  destruct s; [split; [intros [_ E]; discriminate|intros (E & _); discriminate]| |split; [intros [_ E]; discriminate|intros (E & _); discriminate]].
  destruct (aget p (sPeers (srun l))) as [i|]; cbn [option_map] in *.
  - assert (U : u32 (suspicion i + 1) = suspicion i + 1) by (unfold u32; apply Z.mod_small; lia). rewrite U. split.
    + intros [I E]. split; [reflexivity|]. split; [exact I|]. exists (suspicion i). split; [reflexivity|]. apply Bool.orb_true_iff in E as [E|E]; [left; now apply Nat.eqb_eq|right; lia].
    + intros (_ & I & k & E & [L|L]); (split; [exact I|]); apply Bool.orb_true_iff; [left; now apply Nat.eqb_eq|]. injection E as <-. right. lia.
  - split; [intros [_ E]; discriminate|intros (_ & _ & k & E & _); discriminate].
Qed.
Print Assumptions C79_dropped_exactly.

(** ** Groups *)

Lemma one_group s n g P p q : groupOf q (refreshSource s n g P p) =
  match groupOf p P with
  | None => groupOf q P
  | Some h =>
    match s with
    | CSuccess => if q =? p then Some 0 else groupOf q P
    | CMismatch => if dropsSource s n P p then (if h =? 0 then groupOf q P else option_map (fun x => if x =? h then 0 else x) (groupOf q P))
                   else if q =? p then Some g else groupOf q P
    | CError => groupOf q P
    end
  end.
Proof.
  unfold refreshSource, dropsSource. unfold groupOf at 2. destruct (aget p P) as [i|] eqn:E; [|reflexivity]. cbn [option_map].
  assert (SP : groupOf p P = Some (suspGroup i)) by (unfold groupOf; now rewrite E).
  destruct s.
  - destruct (Z.eqb_spec q p) as [->|N]; [now rewrite groupOf_set_same|now rewrite groupOf_set_other].
  - cbn [suspicion]. destruct ((n =? 1)%nat || (u32 (suspicion i + 1) >? 2)).
    + match goal with |- context [if _ then ?a else map _ _] => set (P1 := a) end.
      assert (X : groupOf q P1 = groupOf q P).
      { unfold P1. destruct (Z.eq_dec q p) as [->|N]; [rewrite groupOf_set_same, SP; reflexivity|now rewrite groupOf_set_other]. }
      destruct (suspGroup i =? 0); [exact X|]. change (groupOf q (clearGroup (suspGroup i) P1) = option_map (fun x => if x =? suspGroup i then 0 else x) (groupOf q P)). now rewrite clear_group, X.
    + destruct (Z.eqb_spec q p) as [->|N]; [now rewrite groupOf_set_same|now rewrite groupOf_set_other].
  - reflexivity.
Qed.

Lemma known_group q P : groupOf q P = None <-> suspOf q P = None.
Proof. unfold groupOf, suspOf. destruct (aget q P); split; cbn; congruence. Qed.

(** How the groups change in the loop over a failed piece's sources. *)
Lemma loop_group n g l : forall P, NoDup l -> g <> 0 -> (forall q h, In q l -> groupOf q P = Some h -> h <> g) -> let P' := fst (sourcesLoop CMismatch n g l P) in
  forall q, match groupOf q P with
            | None => groupOf q P' = None
            | Some h => exists h', groupOf q P' = Some h' /\
                (if existsb (Z.eqb q) l && negb (dropsSource CMismatch n P q) then h' = g else (h = g -> h' = g) /\ (h' = h \/ h' = 0))
            end.
Proof.
  induction l as [|p l IH]; intros P N G F P' q.
  - unfold P'. cbn. destruct (groupOf q P) as [h|]; [exists h; auto|reflexivity].
  - inversion N as [|x y N1 N2]; subst. set (P1 := refreshSource CMismatch n g P p).
    assert (PE : P' = fst (sourcesLoop CMismatch n g l P1)).
    { unfold P'. cbn [sourcesLoop]. fold P1. now destruct (sourcesLoop CMismatch n g l P1). }
    assert (O : forall q, groupOf q P1 = match groupOf p P with None => groupOf q P | Some h => if dropsSource CMismatch n P p then (if h =? 0 then groupOf q P else option_map (fun x => if x =? h then 0 else x) (groupOf q P)) else if q =? p then Some g else groupOf q P end).
    { intros q0. unfold P1. rewrite one_group. reflexivity. }
    assert (NP : existsb (Z.eqb p) l = false).
    { apply Bool.not_true_is_false. intros X. apply existsb_exists in X as (z & I & E). apply Z.eqb_eq in E. subst. contradiction. }
    specialize (IH P1 N2 G). assert (F1 : forall q h, In q l -> groupOf q P1 = Some h -> h <> g).
    { intros q0 h I E. assert (q0 <> p) by (intros ->; contradiction). rewrite O in E. destruct (groupOf p P) as [hp|] eqn:GP; [|apply (F q0); [now right|exact E]].
      destruct (dropsSource CMismatch n P p).
      - destruct (hp =? 0); [apply (F q0); [now right|exact E]|]. destruct (groupOf q0 P) as [h0|] eqn:G0; [|discriminate]. cbn in E. injection E as <-.
        destruct (h0 =? hp); [lia|]. apply (F q0); [now right|exact G0].
      - destruct (Z.eqb_spec q0 p); [contradiction|]. apply (F q0); [now right|exact E]. }
    specialize (IH F1 q). cbn zeta in IH. rewrite <- PE in IH.
    assert (DQ : q <> p -> dropsSource CMismatch n P1 q = dropsSource CMismatch n P q).
    { intros M. apply drops_susp. unfold P1. rewrite one_susp. destruct (Z.eqb_spec q p); [contradiction|reflexivity]. }
    cbn [existsb]. destruct (groupOf q P) as [h|] eqn:GQ.
    + (* known *)
      assert (K : exists h1, groupOf q P1 = Some h1 /\ (if (q =? p) && negb (dropsSource CMismatch n P p) then h1 = g else (h = g -> h1 = g) /\ (h1 = h \/ h1 = 0))).
      { rewrite O, GQ. destruct (groupOf p P) as [hp|] eqn:GP.
        - destruct (dropsSource CMismatch n P p).
          + rewrite Bool.andb_false_r. destruct (Z.eqb_spec hp 0); [exists h; auto|]. cbn. eexists. split; [reflexivity|]. destruct (Z.eqb_spec h hp); [|auto]. subst h. split; [|auto].
            intros ->. exfalso. apply (F p g); [now left|exact GP|reflexivity].
          + cbn [negb]. rewrite Bool.andb_true_r. destruct (q =? p); [exists g; auto|exists h; auto].
        - destruct (Z.eqb_spec q p) as [->|M]; [congruence|]. cbn [andb]. exists h. auto. }
      destruct K as (h1 & K1 & K2). rewrite K1 in IH. destruct IH as (h' & I1 & I2). exists h'. split; [exact I1|].
      destruct (Z.eqb_spec q p) as [->|M].
      * cbn [orb]. rewrite NP in I2. cbn [andb] in I2. destruct (dropsSource CMismatch n P p); cbn [negb andb] in *; [|now apply I2]. destruct K2 as [K2 K3], I2 as [I2 I3]. split; [tauto|]. destruct I3 as [->|I3]; auto.
      * cbn [orb andb] in *. rewrite (DQ M) in I2. destruct (existsb (Z.eqb q) l && negb (dropsSource CMismatch n P q)); [exact I2|]. destruct K2 as [K2 K3], I2 as [I2 I3]. split; [tauto|]. destruct I3 as [->|I3]; auto.
    + assert (K : groupOf q P1 = None). { apply known_group. unfold P1. rewrite one_susp. apply known_group in GQ. rewrite GQ. now destruct (q =? p). }
      now rewrite K in IH.
Qed.

Lemma success_group n g l : forall P q, groupOf q (fst (sourcesLoop CSuccess n g l P)) = if existsb (Z.eqb q) l then option_map (fun _ => 0) (groupOf q P) else groupOf q P.
Proof.
  induction l as [|p l IH]; intros P q; [reflexivity|]. cbn [sourcesLoop existsb]. specialize (IH (refreshSource CSuccess n g P p) q).
  destruct (sourcesLoop CSuccess n g l (refreshSource CSuccess n g P p)) as [r out]. cbn [fst] in *. rewrite IH, one_group.
  destruct (Z.eqb_spec q p) as [->|M].
  - cbn [orb]. destruct (groupOf p P); [|now destruct (existsb (Z.eqb p) l)]. now destruct (existsb (Z.eqb p) l).
  - cbn [orb]. now destruct (groupOf p P).
Qed.

Lemma error_same n g l : forall P, fst (sourcesLoop CError n g l P) = P.
Proof.
  induction l as [|p l IH]; intros P; [reflexivity|]. cbn [sourcesLoop]. specialize (IH (refreshSource CError n g P p)). destruct (sourcesLoop CError n g l (refreshSource CError n g P p)). cbn [fst] in *.
  subst. unfold refreshSource. now destruct (aget p P).
Qed.

(** The groups given so far are at most the counter. *)
Lemma group_bound l : sets l -> zlen l < 4294967296 -> 0 <= sGroup (srun l) <= zlen l /\ forall q h, groupOf q (sPeers (srun l)) = Some h -> 0 <= h <= sGroup (srun l).
Proof.
  induction l as [|e l IH] using rev_ind; intros S Z; [split; [unfold zlen; cbn; lia|discriminate]|]. apply Forall_app in S as [S1 S2]. inversion S2 as [|x y S3 _]; subst.
  assert (ZL : zlen (l ++ [e]) = zlen l + 1) by (unfold zlen; rewrite app_length; cbn [length]; lia). destruct (IH S1 ltac:(lia)) as [B1 B2]. clear IH. rewrite srun_snoc. destruct e as [s src|p|p]; cbn [sstep].
  - destruct s.
    + pose proof (success_group (length src) (sGroup (srun l)) src (sPeers (srun l))) as X. destruct (sourcesLoop _ _ _ _ _) as [r out]. cbn [fst sGroup sPeers] in *. split; [lia|].
      intros q h E. rewrite X in E. destruct (existsb (Z.eqb q) src); [|eauto]. destruct (groupOf q (sPeers (srun l))); [|discriminate]. cbn in E. injection E as <-. lia.
    + assert (U : u32 (sGroup (srun l) + 1) = sGroup (srun l) + 1) by (unfold u32; apply Z.mod_small; lia). rewrite U.
      pose proof (loop_group (length src) (sGroup (srun l) + 1) src (sPeers (srun l)) S3 ltac:(lia) ltac:(intros q h _ E; specialize (B2 q h E); lia)) as X. cbn zeta in X.
      destruct (sourcesLoop _ _ _ _ _) as [r out]. cbn [fst sGroup sPeers] in *. split; [lia|]. intros q h E. specialize (X q). destruct (groupOf q (sPeers (srun l))) as [h0|] eqn:G0; [|congruence].
      destruct X as (h' & X1 & X2). rewrite X1 in E. injection E as ->. specialize (B2 q h0 G0). destruct (_ && _); [lia|]. destruct X2 as [_ [->| ->]]; lia.
    + pose proof (error_same (length src) (sGroup (srun l)) src (sPeers (srun l))) as X. destruct (sourcesLoop _ _ _ _ _) as [r out]. cbn [fst sGroup sPeers] in *. subst r. split; [lia|exact B2].
  - cbn [fst sGroup sPeers]. split; [lia|]. intros q h E. destruct (aget p (sPeers (srun l))) eqn:A; [eauto|]. destruct (Z.eq_dec q p) as [->|M]; [rewrite groupOf_set_same in E; cbn in E; injection E as <-; lia|].
    rewrite groupOf_set_other in E by exact M. eauto.
  - cbn [fst sGroup sPeers]. split; [lia|]. intros q h E. unfold groupOf in E. destruct (Z.eq_dec q p) as [->|M]; [rewrite aget_del_same in E; discriminate|]. rewrite aget_del_other in E by exact M. eauto.
Qed.

(** C79: after a failed piece those of its sources which stay are in one new group, in which nobody
    else is: they will not be asked for blocks of the same piece again (C61). Nobody else gets into
    any group. *)
Theorem C79_groups : forall l sources, sets l -> zlen l < 4294967295 -> NoDup sources -> let d := srun l in let '(d', out) := sstep d (SChecked CMismatch sources) in
  sGroup d' <> 0 /\ (forall p i, aget p (sPeers d) = Some i -> suspGroup i <> sGroup d') /\
  forall p i, aget p (sPeers d) = Some i -> exists i', aget p (sPeers d') = Some i' /\ cur i' = cur i /\ asked i' = asked i /\
    (In p sources /\ ~ In p out -> suspGroup i' = sGroup d') /\ (~ In p sources \/ In p out -> suspGroup i' = suspGroup i \/ suspGroup i' = 0).
Proof.
  intros l sources S Z N d. destruct (group_bound l S ltac:(lia)) as [B1 B2]. fold d in B1, B2. cbn [sstep].
  assert (U : u32 (sGroup d + 1) = sGroup d + 1) by (unfold u32; apply Z.mod_small; lia). rewrite U.
  pose proof (loop_group (length sources) (sGroup d + 1) sources (sPeers d) N ltac:(lia) ltac:(intros q h _ E; specialize (B2 q h E); lia)) as X. cbn zeta in X.
  pose proof (loop_out CMismatch (length sources) (sGroup d + 1) sources (sPeers d) N) as Y.
  assert (W : forall q, option_map (fun i => (cur i, asked i)) (aget q (fst (sourcesLoop CMismatch (length sources) (sGroup d + 1) sources (sPeers d)))) = option_map (fun i => (cur i, asked i)) (aget q (sPeers d))).
  { assert (FL : forall s n g l P, fst (sourcesLoop s n g l P) = fold_left (refreshSource s n g) l P).
    { intros s n g l0. induction l0 as [|a l0 IH]; intros P; [reflexivity|]. cbn [sourcesLoop fold_left]. rewrite <- IH. now destruct (sourcesLoop s n g l0 (refreshSource s n g P a)). }
    intros q. rewrite FL. apply (proj2 (refreshSources_keeps CMismatch (length sources) (sGroup d + 1) sources (sPeers d))). }
  destruct (sourcesLoop _ _ _ _ _) as [r out]. cbn [fst snd sGroup sPeers] in *. split; [lia|]. split.
  { intros p i E. specialize (B2 p (suspGroup i)). unfold groupOf in B2. rewrite E in B2. specialize (B2 eq_refl). lia. }
  intros p i E. specialize (X p). specialize (W p). unfold groupOf in X. rewrite E in X, W. cbn [option_map] in X, W. destruct X as (h' & X1 & X2). destruct (aget p r) as [i'|] eqn:R; [|discriminate X1]. cbn in X1, W. injection X1 as X1. injection W as W1 W2.
  exists i'. split; [reflexivity|]. split; [exact W1|]. split; [exact W2|]. rewrite X1, Y. rewrite filter_In.
  destruct (existsb (Z.eqb p) sources) eqn:EX.
  - apply existsb_exists in EX as (z & IZ & EZ). apply Z.eqb_eq in EZ. subst z. destruct (dropsSource CMismatch (length sources) (sPeers d) p); cbn [negb andb] in X2.
    + split; [intros [_ H]; exfalso; tauto|intros _; tauto].
    + split; [intros _; exact X2|intros [H|[_ H]]; [contradiction|discriminate]].
  - assert (NI : ~ In p sources). { intros I. assert (existsb (Z.eqb p) sources = true) by (apply existsb_exists; exists p; split; [exact I|apply Z.eqb_refl]). congruence. }
    cbn [andb] in X2. split; [tauto|intros _; tauto].
Qed.
Print Assumptions C79_groups.

(** C79: a good piece clears all of its sources and changes nobody else. *)
Theorem C79_cleared : forall l sources p i, sets l -> NoDup sources -> aget p (sPeers (srun l)) = Some i ->
  exists i', aget p (sPeers (fst (sstep (srun l) (SChecked CSuccess sources)))) = Some i' /\
    (In p sources -> suspicion i' = 0 /\ suspGroup i' = 0) /\ (~ In p sources -> suspicion i' = suspicion i /\ suspGroup i' = suspGroup i) /\
    snd (sstep (srun l) (SChecked CSuccess sources)) = [].
Proof.
  intros l sources p i S N E. cbn [sstep]. pose proof (success_group (length sources) (sGroup (srun l)) sources (sPeers (srun l)) p) as X.
  pose proof (loop_susp CSuccess (length sources) (sGroup (srun l)) sources (sPeers (srun l)) p N) as W. pose proof (loop_out CSuccess (length sources) (sGroup (srun l)) sources (sPeers (srun l)) N) as Y.
  destruct (sourcesLoop _ _ _ _ _) as [r out]. cbn [fst snd sPeers] in *. unfold groupOf, suspOf in *. rewrite E in X, W. cbn [option_map after] in X, W.
  destruct (aget p r) as [i'|]; cbn [option_map] in X, W; [|destruct (existsb (Z.eqb p) sources); discriminate X]. exists i'. split; [reflexivity|].
  assert (EX : existsb (Z.eqb p) sources = true <-> In p sources).
  { rewrite existsb_exists. split; [intros (z & I & Q); apply Z.eqb_eq in Q; now subst|intros I; exists p; split; [exact I|apply Z.eqb_refl]]. }
  split; [intros I; apply EX in I; rewrite I in X, W; injection X as X; injection W as W; auto|]. split.
  - intros I. destruct (existsb (Z.eqb p) sources); [exfalso; tauto|]. injection X as X. injection W as W. auto.
  - subst out. clear. induction sources as [|a l0 IH]; [reflexivity|]. exact IH.
Qed.
Print Assumptions C79_cleared.

(** ** What that misses *)

(** Finding: a peer which sends bad data in every other piece it helps with is never disconnected,
    as long as it has company: each good piece clears it. *)
Theorem C79_alternating_refuted : forall p q n, p <> q -> let round := [SChecked CMismatch [p; q]; SChecked CSuccess [p; q]] in
  forall k, (2 * n + 2 < 4294967295)%Z -> (k <= Z.to_nat n)%nat ->
  forall s, snd (sstep (srun ([SJoin p; SJoin q] ++ concat (repeat round k))) (SChecked s [p; q])) = [].
Proof.
  intros p q n M round k L K s. set (h := [SJoin p; SJoin q] ++ concat (repeat round k)).
  assert (ZH : zlen h = 2 + 2 * Z.of_nat k).
  { unfold h, zlen. rewrite app_length. cbn [length]. clear. induction k as [|k IH]; [reflexivity|]. cbn [repeat concat]. rewrite app_length. unfold round at 1. cbn [length]. lia. }
  assert (NS : NoDup [p; q]) by (constructor; [intros [X|[]]; congruence|constructor; [intros []|constructor]]).
  assert (S : sets h).
  { unfold h. apply Forall_app. split; [repeat constructor|]. clear - NS. induction k as [|k IH]; [constructor|]. cbn [repeat concat]. apply Forall_app. split; [constructor; [exact NS|constructor; [exact NS|constructor]]|exact IH]. }
  assert (ST : forall x, x = p \/ x = q -> strikes x h = Some 0).
  { intros x X. unfold strikes, h. rewrite fold_left_app. cbn [fold_left].
    assert (S0 : strike x (strike x None (SJoin p)) (SJoin q) = Some 0).
    { cbn [strike]. destruct X as [->| ->]; rewrite Z.eqb_refl; [now destruct (q =? p)|]. now destruct (p =? q). }
    rewrite S0. assert (EX : existsb (Z.eqb x) [p; q] = true) by (cbn [existsb]; destruct X as [->| ->]; rewrite Z.eqb_refl; cbn; auto using Bool.orb_true_r).
    clear - EX. induction k as [|k IH]; [reflexivity|]. cbn [repeat concat]. rewrite fold_left_app. replace (fold_left (strike x) round (Some 0)) with (Some 0); [exact IH|]. unfold round. cbn [fold_left]. unfold strike. rewrite EX. reflexivity. }
  destruct (snd (sstep (srun h) (SChecked s [p; q]))) as [|x out] eqn:E; [reflexivity|]. exfalso.
  assert (I : In x (snd (sstep (srun h) (SChecked s [p; q])))) by (rewrite E; now left).
  apply C79_dropped_exactly in I as (_ & IP & c & SC & D); [|exact S|lia|exact NS].
  rewrite ST in SC by (destruct IP as [->|[->|[]]]; auto). injection SC as <-. destruct D as [D|D]; [discriminate D|lia].
Qed.
Print Assumptions C79_alternating_refuted.

(** Finding: a peer which never sent a wrong byte is disconnected for good with the one it shared
    three pieces with: who of them sent the wrong data makes no difference. *)
Theorem C79_innocent_refuted : forall p q, p <> q ->
  snd (sstep (srun [SJoin p; SJoin q; SChecked CMismatch [p; q]; SChecked CMismatch [p; q]]) (SChecked CMismatch [p; q])) = [p; q].
Proof.
  intros p q M. assert (NS : NoDup [p; q]) by (constructor; [intros [X|[]]; congruence|constructor; [intros []|constructor]]).
  set (h := [SJoin p; SJoin q; SChecked CMismatch [p; q]; SChecked CMismatch [p; q]]). assert (S : sets h) by (repeat (first [apply Forall_nil|apply Forall_cons; [first [exact I|exact NS]|]])).
  cbn [sstep]. pose proof (loop_out CMismatch (length [p; q]) (u32 (sGroup (srun h) + 1)) [p; q] (sPeers (srun h)) NS) as Y.
  destruct (sourcesLoop _ _ _ _ _) as [r out]. cbn [snd] in *. subst out. cbn [filter length].
  assert (D : forall x, x = p \/ x = q -> dropsSource CMismatch 2 (sPeers (srun h)) x = true).
  { intros x X. pose proof (C79_strikes h x S ltac:(reflexivity)) as T. assert (SX : strikes x h = Some 2).
    { unfold strikes, h. cbn [fold_left strike existsb]. destruct X as [->| ->]; rewrite !Z.eqb_refl; cbn [orb].
      - destruct (Z.eqb_spec q p); [congruence|]. reflexivity.
      - destruct (Z.eqb_spec p q); [congruence|]. destruct (Z.eqb_spec q p); [congruence|]. reflexivity. }
    rewrite SX in T. unfold dropsSource. destruct (aget x (sPeers (srun h))) as [i|]; [|discriminate]. cbn in T. injection T as T. rewrite T. reflexivity. }
  now rewrite !D by auto.
Qed.
Print Assumptions C79_innocent_refuted.

Example C79_example : let h := [SJoin 1; SJoin 2; SJoin 3; SChecked CMismatch [1; 2]; SChecked CSuccess [2; 3]; SChecked CMismatch [1; 3]] in
  sets h /\ strikes 1 h = Some 2 /\ strikes 2 h = Some 0 /\ strikes 3 h = Some 1 /\ snd (sstep (srun h) (SChecked CMismatch [1; 2; 3])) = [1] /\
  snd (sstep (srun h) (SChecked CMismatch [2])) = [2].
Proof.
  split; [repeat constructor; cbn; intuition discriminate|]. vm_compute. repeat split.
Qed.
