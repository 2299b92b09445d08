(** C70: addresses are split into protocol, host, port and path. *)
From Verif Require Import Base BaseLemmas UriModel.

Lemma cutAt_app c a : forall b, Forall (fun x => x <> c) a -> match b with [] => True | x :: _ => x = c end -> cutAt c (a ++ b) = (a, b).
Proof.
  induction a as [|x a IH]; intros b H B; cbn [app].
  - destruct b as [|y b]; [reflexivity|]. subst y. cbn. now rewrite Z.eqb_refl.
  - inversion H; subst. cbn. destruct (Z.eqb_spec x c); [contradiction|]. now rewrite IH.
Qed.

Lemma cutAt_none c a : Forall (fun x => x <> c) a -> cutAt c a = (a, []).
Proof. intros H. rewrite <- (app_nil_r a) at 1. now apply cutAt_app. Qed.

Lemma cutAt_join c l : fst (cutAt c l) ++ snd (cutAt c l) = l.
Proof. induction l as [|x l IH]; [reflexivity|]. cbn. destruct (x =? c); [reflexivity|]. destruct (cutAt c l). cbn in *. now rewrite IH. Qed.

Definition without (cs : list Z) (l : list Z) : Prop := Forall (fun x => ~ In x cs) l.
Lemma without_one cs c l : without cs l -> In c cs -> Forall (fun x => x <> c) l.
Proof. intros H I. revert H. apply Forall_impl. intros x N ->. contradiction. Qed.

(** An address written from its parts; no protocol and no port are empty texts. *)
Definition uri_text (p h t q : list Z) : list Z :=
  (match p with [] => [] | _ => p ++ [58; 47; 47] end) ++ h ++ (match t with [] => [] | _ => [58] ++ t end) ++ q.

(** C70. Whatever protocol, host, port and path (without the characters which separate them):
    the parts read are those written. A host is not empty. *)
Theorem C70_parts : forall p h t q, without [0; 58] p -> without [0; 58; 47] h -> without [0; 47] t ->
  Forall (fun x => x <> 0) q -> match q with [] => True | c :: _ => c = 47 end -> h <> [] ->
  (p = [] -> t = [] -> Forall (fun x => x <> 58) q) ->
  uriParse (uri_text p h t q) = {| uprotocol := p; uhost := h; uport := t; upath := q |}.
Proof.
  intros p h t q P H T Q0 Q NE NC.
  assert (T0 : Forall (fun x => x <> 0) t) by (eapply without_one; [exact T|cbn; auto]).
  assert (H0 : Forall (fun x => x <> 0) h) by (eapply without_one; [exact H|cbn; auto]).
  set (rest := h ++ (match t with [] => [] | _ => [58] ++ t end) ++ q).
  assert (REST : forall protocol, (let (hostPort, path) := cutAt 47 rest in let (host, portPart) := cutAt 58 hostPort in
      {| uprotocol := protocol; uhost := host; uport := match portPart with [] => [] | _ :: p => p end; upath := path |}) =
      {| uprotocol := protocol; uhost := h; uport := t; upath := q |}).
  { intros protocol. unfold rest. rewrite app_assoc. rewrite (cutAt_app 47 (h ++ match t with [] => [] | _ => [58] ++ t end) q).
    - rewrite (cutAt_app 58 h).
      + destruct t; reflexivity.
      + eapply without_one; [exact H|cbn; auto].
      + destruct t; [exact I|reflexivity].
    - apply Forall_app. split; [eapply without_one; [exact H|cbn; auto]|]. destruct t as [|a t]; [constructor|]. constructor; [discriminate|].
      eapply without_one; [exact T|cbn; auto].
    - exact Q. }
  assert (R0 : Forall (fun x => x <> 0) rest).
  { unfold rest. apply Forall_app. split; [exact H0|]. apply Forall_app. split; [|exact Q0].
    destruct t; [constructor|]. constructor; [discriminate|exact T0]. }
  unfold uri_text. fold rest. destruct p as [|p0 p'].
  - cbn [app]. unfold uriParse. destruct rest as [|r0 r'] eqn:ER; [unfold rest in ER; destruct h; [congruence|discriminate]|].
    rewrite <- ER in *. clear r0 r' ER.
    assert (C : exists b f, cutAt 58 rest = (b, f) /\ (f = [] \/ list_eqb (firstn 3 (cString f)) [58; 47; 47] = false)).
    { unfold rest. destruct t as [|t0 t'].
      - cbn [app]. exists (h ++ q), []. split; [|auto]. apply cutAt_none. apply Forall_app. split; [eapply without_one; [exact H|cbn; auto]|now apply NC].
      - exists h, (58 :: t0 :: t' ++ q). split.
        + cbn [app]. apply cutAt_app; [eapply without_one; [exact H|cbn; auto]|reflexivity].
        + right. inversion T as [|? ? Ta _]; subst. inversion T0 as [|? ? Tz Tt]; subst. unfold cString. 
          rewrite cutAt_none by (constructor; [discriminate|constructor; [assumption|]]; apply Forall_app; auto). cbn [fst firstn].
          destruct (list_eqb _ _) eqn:E; [|reflexivity]. apply list_eqb_spec in E. injection E as E _. subst t0. exfalso. apply Ta. cbn. auto. }
    destruct C as (b & f & -> & [-> | E]).
    + apply REST.
    + destruct f; [apply REST|]. rewrite E, andb_false_r. apply REST.
  - set (p := p0 :: p') in *.
    unfold uriParse. replace ((p ++ [58; 47; 47]) ++ rest) with (p ++ 58 :: 47 :: 47 :: rest) by (rewrite <- app_assoc; reflexivity).
    assert (p ++ 58 :: 47 :: 47 :: rest = p0 :: p' ++ 58 :: 47 :: 47 :: rest) as EP by reflexivity. rewrite EP at 1. clear EP.
    rewrite (cutAt_app 58 p) by first [reflexivity | eapply without_one; [exact P|cbn; auto]].
    assert (CS : cString (58 :: 47 :: 47 :: rest) = 58 :: 47 :: 47 :: rest).
    { unfold cString. rewrite cutAt_none; [reflexivity|]. repeat (constructor; [discriminate|]). exact R0. }
    rewrite CS. cbn [firstn skipn]. change (list_eqb [58; 47; 47] [58; 47; 47]) with true.
    replace (Nat.ltb 3 (length (58 :: 47 :: 47 :: rest))) with true; [apply REST|].
    symmetry. apply Nat.ltb_lt. cbn [length]. unfold rest. rewrite app_length. destruct h; [congruence|]. cbn [length]. lia.
Qed.
Print Assumptions C70_parts.

(** Nothing is invented: the parts of any text, put together, are the text (a ":" before an
    empty port is lost). *)
Theorem C70_nothing_lost : forall u, let r := uriParse u in
  exists sep1 sep2, u = uprotocol r ++ sep1 ++ uhost r ++ sep2 ++ uport r ++ upath r /\
    (sep1 = [] \/ sep1 = [58; 47; 47]) /\ (sep2 = [] \/ sep2 = [58]) /\ (sep1 = [] -> uprotocol r = []) /\ (sep2 = [] -> uport r = []).
Proof.
  intros u. cbn zeta. destruct u as [|c u]; [exists [], []; auto 8|]. set (w := c :: u). unfold uriParse. fold w. 
  change (match w with [] => _ | _ :: _ => ?x end) with x.
  assert (R : forall proto rest sep1 whole, whole = proto ++ sep1 ++ rest -> (sep1 = [] \/ sep1 = [58; 47; 47]) -> (sep1 = [] -> proto = []) ->
    let r := (let (hostPort, path) := cutAt 47 rest in let (host, portPart) := cutAt 58 hostPort in
      {| uprotocol := proto; uhost := host; uport := match portPart with [] => [] | _ :: p => p end; upath := path |}) in
    exists sep1 sep2, whole = uprotocol r ++ sep1 ++ uhost r ++ sep2 ++ uport r ++ upath r /\
    (sep1 = [] \/ sep1 = [58; 47; 47]) /\ (sep2 = [] \/ sep2 = [58]) /\ (sep1 = [] -> uprotocol r = []) /\ (sep2 = [] -> uport r = [])).
  { intros proto rest sep1 whole EW S1 S2. pose proof (cutAt_join 47 rest) as J1. destruct (cutAt 47 rest) as [hp path]. cbn [fst snd] in J1.
    pose proof (cutAt_join 58 hp) as J2. assert (C2 : match snd (cutAt 58 hp) with [] => True | x :: _ => x = 58 end).
    { clear. induction hp as [|x l IH]; [exact I|]. cbn. destruct (Z.eqb_spec x 58); [exact e|]. destruct (cutAt 58 l). exact IH. }
    destruct (cutAt 58 hp) as [host pp]. cbn [fst snd] in *. cbn zeta. exists sep1, (match pp with [] => [] | _ => [58] end).
    cbn [uprotocol uhost uport upath]. split.
    - rewrite EW, <- J1, <- J2. rewrite <- !app_assoc. do 3 f_equal. destruct pp as [|x pp]; [reflexivity|]. subst x. reflexivity.
    - refine (conj S1 (conj _ (conj S2 _))); destruct pp; auto. discriminate. }
  pose proof (cutAt_join 58 w) as J. destruct (cutAt 58 w) as [b f]. cbn [fst snd] in J. destruct f as [|x f].
  - apply (R [] w []); auto.
  - destruct (_ && _) eqn:E; [|apply (R [] w []); auto]. apply andb_prop in E as [_ E]. apply list_eqb_spec in E.
    apply (R b (skipn 3 (x :: f)) [58; 47; 47]); auto; [|discriminate].
    rewrite <- J. f_equal. rewrite <- (firstn_skipn 3 (x :: f)) at 1. f_equal.
    assert (PF : forall l, exists r, l = cString l ++ r) by (intros l; exists (snd (cutAt 0 l)); symmetry; apply cutAt_join).
    destruct (PF (x :: f)) as (r & Er). rewrite Er. rewrite firstn_app.
    assert (3 <= length (cString (x :: f)))%nat.
    { apply (f_equal (@length Z)) in E. rewrite firstn_length in E. cbn [length] in E. lia. }
    replace (3 - length (cString (x :: f)))%nat with O by lia. cbn [firstn]. now rewrite app_nil_r.
Qed.
Print Assumptions C70_nothing_lost.

(** "udp://tr.org:80/announce" *)
Example C70_meets : without [0; 58] [117;100;112] /\ without [0; 58; 47] [116;114;46;111;114;103] /\ without [0; 47] [56;48] /\
  uriParse [117;100;112;58;47;47;116;114;46;111;114;103;58;56;48;47;97] = {| uprotocol := [117;100;112]; uhost := [116;114;46;111;114;103]; uport := [56;48]; upath := [47;97] |}.
Proof. unfold without. refine (conj _ (conj _ (conj _ eq_refl))); repeat constructor; cbn; intuition discriminate. Qed.

(** Finding: the host of an IPv6 address is cut at its first colon: "[::1]:80" has the host "["
    and the port ":1]:80". *)
Theorem C70_ipv6_refuted : let r := uriParse [91;58;58;49;93;58;56;48] in uhost r = [91] /\ uport r = [58;49;93;58;56;48].
Proof. split; reflexivity. Qed.
Print Assumptions C70_ipv6_refuted.
