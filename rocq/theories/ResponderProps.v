(** C34: announce tokens.  C35: announced peers. *)
From Coq Require Import Permutation.
From Verif Require Import Base BaseLemmas AddrModel AddrSpec ResponderModel ResponderSpec ResponderProofs.

(** A token is accepted from the address it was given to, at once and after one rotation. *)
Theorem C34_accepted : forall s text r, isValidToken s (tokenFor s text) text = true /\ isValidToken (rotate s r) (tokenFor s text) text = true.
Proof. intros s text r. unfold isValidToken, tokenFor, rotate. cbn. rewrite Z.eqb_refl. split; [reflexivity|apply orb_true_r]. Qed.
Print Assumptions C34_accepted.

(** Exactly which address and secrets make a token good: those whose characters add up to the
    same. *)
Theorem C34_accepted_iff : forall s token text, 0 <= secret0 s < 2 ^ 32 -> 0 <= secret1 s < 2 ^ 32 ->
  (isValidToken s token text = true <-> token = (secret0 s + sum text) mod 2 ^ 32 \/ token = (secret1 s + sum text) mod 2 ^ 32).
Proof.
  intros s token text H0 H1. unfold isValidToken. rewrite !token_sum by assumption. rewrite orb_true_iff, !Z.eqb_eq. intuition congruence.
Qed.
Print Assumptions C34_accepted_iff.

(** A token of an address is refused from another one, if the characters of the two add up to
    different sums, not by chance apart by the difference of the secrets. Missing: addresses
    with equal sums. *)
Theorem C34_other_address_partial : forall s a b, 0 <= secret0 s < 2 ^ 32 -> 0 <= secret1 s < 2 ^ 32 ->
  Z.abs (sum a - sum b) < 2 ^ 32 -> sum a <> sum b -> (secret0 s + sum a) mod 2 ^ 32 <> (secret1 s + sum b) mod 2 ^ 32 ->
  isValidToken s (tokenFor s a) b = false.
Proof.
  intros s a b H0 H1 D N Q. destruct (isValidToken s (tokenFor s a) b) eqn:E; [|reflexivity]. exfalso. apply C34_accepted_iff in E; [|assumption|assumption]. unfold tokenFor in E. rewrite token_sum in E by assumption.
  destruct E as [E|E]; [|contradiction]. change (2 ^ 32) with 4294967296 in *. lia.
Qed.
Print Assumptions C34_other_address_partial.

(** An old token is refused after two rotations unless the new secrets happen to give the same. *)
Theorem C34_expires : forall s text r1 r2, 0 <= secret0 s < 2 ^ 32 -> 0 <= r1 < 2 ^ 32 -> 0 <= r2 < 2 ^ 32 -> r1 <> secret0 s -> r2 <> secret0 s ->
  isValidToken (rotate (rotate s r1) r2) (tokenFor s text) text = false.
Proof.
  intros s text r1 r2 H0 H1 H2 N1 N2. destruct (isValidToken (rotate (rotate s r1) r2) (tokenFor s text) text) eqn:E; [|reflexivity]. exfalso.
  apply C34_accepted_iff in E; [|assumption|assumption]. unfold tokenFor in E. rewrite token_sum in E by assumption. cbn [rotate secret0 secret1] in E. change (2 ^ 32) with 4294967296 in *. destruct E; lia.
Qed.
Print Assumptions C34_expires.

(** Finding: the token of an address is good for every address spelled with the same characters. *)
Theorem C34_permuted_refuted : forall s a b, 0 <= secret0 s < 2 ^ 32 -> 0 <= secret1 s < 2 ^ 32 -> Permutation a b -> isValidToken s (tokenFor s a) b = true.
Proof.
  intros s a b H0 H1 P. apply C34_accepted_iff; [assumption|assumption|]. unfold tokenFor. rewrite token_sum by assumption. rewrite (sum_perm _ _ P). now left.
Qed.
Print Assumptions C34_permuted_refuted.

(** 12.0.0.1 and 21.0.0.1; 10.0.0.1 and 10.0.0.2. *)
Example C34_meets : Permutation [49; 50; 46; 48; 46; 48; 46; 49] [50; 49; 46; 48; 46; 48; 46; 49] /\
  isValidToken (startSecrets 77) (tokenFor (startSecrets 77) [49; 48; 46; 48; 46; 48; 46; 49]) [49; 48; 46; 48; 46; 48; 46; 50] = false.
Proof. split; [apply perm_swap|reflexivity]. Qed.

(** No more than the set number of peers is stored for a torrent, none twice. Missing: an IPv6
    address that begins with the bytes of an IPv4 address of the same port. *)
Theorem C35_stored_partial : forall maxStored os h, 0 <= maxStored -> Forall op_ok os -> no_clash (peers_of os) ->
  zlen (stored (run maxStored os []) h) <= maxStored /\
  NoDup (map (fun v => meaning (vaddr v)) (stored (run maxStored os []) h)) /\
  Forall (fun v => In (vaddr v) (peers_of os)) (stored (run maxStored os []) h).
Proof.
  intros maxStored os h M F N.
  destruct (run_list maxStored (peers_of os) os h [] N (incl_refl _) F ltac:(constructor)) as (A & B & C).
  - refine (conj _ (conj _ _)); [cbn; assumption|constructor|constructor].
  - refine (conj A (conj B _)). eapply Forall_impl; [|exact C]. cbn. tauto.
Qed.
Print Assumptions C35_stored_partial.

(** Answers hold the first peers of the family asked for, as many as allowed. *)
Theorem C35_answer : forall maxResponse m h v6, 0 <= maxResponse < 2 ^ 32 ->
  answerPeers maxResponse m h v6 = firstn (Z.to_nat (if v6 then maxResponse / 3 else maxResponse)) (map vaddr (filter (fun v => eqb (ipv6 (vaddr v)) v6) (stored m h))).
Proof.
  intros maxResponse m h v6 M. unfold answerPeers, stored. destruct (lookup h m) as [l|]; [|cbn; now rewrite firstn_nil]. rewrite pickValues_ok by (destruct v6; lia). now rewrite Z.sub_0_r.
Qed.
Print Assumptions C35_answer.

(** A peer announced while there is room stays for half an hour. *)
Theorem C35_kept_partial : forall maxStored before h p now after, 0 <= maxStored ->
  let os := before ++ Announce h p now :: after in
  Forall op_ok os -> no_clash (peers_of os) -> Forall (fun o => now <= time_of o <= now + 1800) after ->
  zlen (stored (run maxStored before []) h) < maxStored ->
  exists v, In v (stored (run maxStored os []) h) /\ meaning (vaddr v) = meaning p.
Proof.
  intros maxStored before h p now after M os F N T R. unfold os, run. rewrite fold_left_app. cbn [fold_left]. set (m := fold_left (do_op maxStored) before []) in *.
  apply Forall_app in F. destruct F as [F1 F2]. inversion F2 as [|? ? F3 F4]; subst.
  assert (I : peers_of os = peers_of before ++ p :: peers_of after) by (unfold os, peers_of; now rewrite flat_map_app).
  assert (I1 : incl (peers_of before) (peers_of os)) by (rewrite I; intros x Hx; apply in_or_app; now left).
  assert (I2 : incl (peers_of after) (peers_of os)) by (rewrite I; intros x Hx; apply in_or_app; right; now right).
  assert (I3 : incl (peers_of [Announce h p now]) (peers_of os)) by (rewrite I; intros x [<-|[]]; apply in_or_app; right; now left).
  assert (K : keys_ok m) by (apply (run_keys maxStored before); constructor).
  assert (L : list_ok maxStored (peers_of os) (stored m h)) by (apply (run_list maxStored (peers_of os) before h []); [assumption|assumption|assumption|constructor|refine (conj _ (conj _ _)); [cbn; assumption|constructor|constructor]]).
  destruct (run_stays maxStored (peers_of os) after h p now (announcedPeer maxStored m h p now)) as (v & V1 & V2 & _); try assumption.
  - now apply store_keys.
  - exact (op_list maxStored _ m _ h N I3 F3 K L).
  - rewrite announce_stored, list_eqb_refl. set (w := {| vaddr := p; timestamp := now |}). destruct (replaceValue w (stored m h)) as [l|] eqn:E.
    + destruct F3 as [_ O]. destruct L as (_ & _ & L). destruct (replace_some (peers_of os) w (stored m h) l N) as (_ & _ & W & _); try assumption; [apply I3; now left|]. exists w. split; [assumption|]. cbn. split; [reflexivity|lia].
    + unfold m. fold (run maxStored before []). destruct (Z.ltb_spec (zlen (stored (run maxStored before []) h)) maxStored); [|lia]. exists w. split; [apply in_or_app; right; now left|]. cbn. split; [reflexivity|lia].
  - exists v. auto.
Qed.
Print Assumptions C35_kept_partial.

(** After a refresh nothing older than half an hour is left. *)
Theorem C35_expired : forall maxStored os now h, Forall op_ok os -> 1800 <= now < 2 ^ 63 ->
  Forall (fun v => now - 1800 <= timestamp v) (stored (run maxStored (os ++ [Refresh now]) []) h).
Proof.
  intros maxStored os now h F T. unfold run. rewrite fold_left_app. cbn [fold_left do_op]. fold (run maxStored os []). rewrite refresh_stored by (apply run_keys; constructor).
  apply Forall_forall. intros v Hv. apply filter_In in Hv. destruct Hv as [_ Hv]. unfold u64 in Hv. rewrite Z.mod_small in Hv by lia. destruct (Z.ltb_spec (timestamp v) (now - 1800)); [discriminate|assumption].
Qed.
Print Assumptions C35_expired.

Definition v4 (a b c d p : Z) : addr := {| addrBytes := [a; b; c; d] ++ repeat 0 12; port := p; ipv6 := false |}.
Definition v6 (a b c d p : Z) : addr := {| addrBytes := [a; b; c; d] ++ repeat 7 12; port := p; ipv6 := true |}.

Example C35_meets : let os := [Announce [1] (v4 1 2 3 4 5) 2000; Announce [1] (v6 9 2 3 4 5) 2001; Announce [1] (v4 1 2 3 4 5) 2002; Refresh 3801; Announce [1] (v4 1 2 3 5 5) 3802] in
  map vaddr (stored (run 2 os []) [1]) = [v4 1 2 3 4 5; v6 9 2 3 4 5].
Proof. reflexivity. Qed.

(** Finding: the announce of an IPv6 peer removes an IPv4 peer whose 4 bytes and port it shares. *)
Theorem C35_family_refuted : forall maxStored a b c d p t1 t2, 0 < maxStored -> is_byte a -> is_byte b -> is_byte c -> is_byte d ->
  map vaddr (stored (run maxStored [Announce [1] (v4 a b c d p) t1; Announce [1] (v6 a b c d p) t2] []) [1]) = [v6 a b c d p].
Proof.
  intros maxStored a b c d p t1 t2 M A B C D. unfold run. cbn [fold_left do_op]. rewrite !announce_stored. cbn [list_eqb Z.eqb Pos.eqb andb stored lookup replaceValue].
  change (zlen (@nil storedValue)) with 0. destruct (Z.ltb_spec 0 maxStored); [|lia]. cbn [app replaceValue vaddr].
  assert (E : addrEq (v4 a b c d p) (v6 a b c d p) = true).
  { unfold addrEq, v4, v6. cbn [port addrBytes ipv6 addrSize memcmp hd tl app repeat]. rewrite !Z.ltb_irrefl, Z.eqb_refl. reflexivity. }
  rewrite E. reflexivity.
Qed.
Print Assumptions C35_family_refuted.
