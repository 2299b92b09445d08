(** C76, C77: where files are stored and what is deleted. *)
From Verif Require Import Base BaseLemmas PathModel PathSpec.

Lemma parts_nonempty l : parts l <> [].
Proof. destruct l as [|c l]; [discriminate|]. cbn [parts]. destruct (c =? 47); [discriminate|]. destruct (parts l); discriminate. Qed.

Lemma parts_app a b : parts (a ++ 47 :: b) = parts a ++ parts b.
Proof.
  induction a as [|c a IH]; [reflexivity|]. cbn [app parts]. rewrite IH. destruct (c =? 47); [reflexivity|]. pose proof (parts_nonempty a). destruct (parts a); [congruence|reflexivity].
Qed.

Lemma parts_plain p : ~ In 47 p -> parts p = [p].
Proof.
  induction p as [|c p IH]; intros N; [reflexivity|]. cbn [parts]. destruct (Z.eqb_spec c 47) as [->|X]; [exfalso; apply N; now left|]. rewrite IH; [reflexivity|]. intros I. apply N. now right.
Qed.

Lemma go_plain cur p : plain p -> go cur p = cur ++ [p].
Proof.
  intros (A & B & C & _). unfold go. destruct (list_eqb p []) eqn:E; [apply list_eqb_spec in E; congruence|]. destruct (list_eqb p [46]) eqn:E2; [apply list_eqb_spec in E2; congruence|].
  destruct (list_eqb p [46; 46]) eqn:E3; [apply list_eqb_spec in E3; congruence|]. reflexivity.
Qed.
Lemma go_empty cur : go cur [] = cur.
Proof. reflexivity. Qed.

Lemma utf8_id l : ~ In 0 l -> utf8Path l = l.
Proof. induction l as [|c l IH]; intros N; [reflexivity|]. cbn [utf8Path]. destruct (Z.eqb_spec c 0) as [->|X]; [exfalso; apply N; now left|]. rewrite IH; [reflexivity|]. intros I. apply N. now right. Qed.

(** The parts of the rest of a path behind the separator. *)
Lemma parts_rest dirs name : Forall plain dirs -> plain name -> parts (concat (map (fun p => p ++ [47]) dirs) ++ name) = dirs ++ [name].
Proof.
  intros F P. induction F as [|d dirs D F IH]; cbn [map concat app].
  - apply parts_plain. apply P.
  - rewrite <- !app_assoc. cbn [app]. rewrite parts_app, parts_plain by apply D. cbn [app]. now rewrite IH.
Qed.

Lemma fold_plain l : Forall plain l -> forall cur, fold_left go l cur = cur ++ l.
Proof. induction 1 as [|p l P F IH]; intros cur; cbn [fold_left]; [now rewrite app_nil_r|]. rewrite go_plain by assumption. rewrite IH, <- app_assoc. reflexivity. Qed.

Lemma place_sep d b : place (d ++ 47 :: b) = fold_left go (parts b) (place d).
Proof. unfold place. rewrite parts_app, fold_left_app. reflexivity. Qed.

Lemma place_with_sep d : place (withSeparator d) = place d.
Proof.
  unfold withSeparator. destruct d as [|c d]; [reflexivity|]. destruct (last (c :: d) 0 =? 47); [reflexivity|]. rewrite place_sep. reflexivity.
Qed.

Lemma withSep_cases d : withSeparator d = [] /\ d = [] \/ exists a, withSeparator d = a ++ [47].
Proof.
  unfold withSeparator. destruct d as [|c d]; [auto|]. right. destruct (Z.eqb_spec (last (c :: d) 0) 47) as [E|E]; [|eauto]. exists (removelast (c :: d)). rewrite <- E. apply app_removelast_last. discriminate.
Qed.

Lemma place_full d b : place (withSeparator d ++ b) = fold_left go (parts b) (place d).
Proof.
  destruct (withSep_cases d) as [[E ->]|(a & E)]; [reflexivity|]. rewrite <- (place_with_sep d), E. rewrite <- app_assoc. cbn [app]. rewrite place_sep.
  rewrite (place_sep a []). reflexivity.
Qed.

Lemma nozero_rest dirs name : Forall plain dirs -> plain name -> ~ In 0 (concat (map (fun p => p ++ [47]) dirs) ++ name).
Proof.
  intros F P I. apply in_app_iff in I as [I|I]; [|now apply P]. apply in_concat in I as (x & I1 & I2). apply in_map_iff in I1 as (d & <- & I1). rewrite Forall_forall in F. specialize (F d I1).
  apply in_app_iff in I2 as [I2|[I2|[]]]; [now apply F|discriminate].
Qed.

Lemma nozero_sep d : ~ In 0 d -> ~ In 0 (withSeparator d).
Proof. intros N. unfold withSeparator. destruct d; [auto|]. destruct (_ =? 47); [auto|]. intros I. apply in_app_iff in I as [I|[I|[]]]; [auto|discriminate]. Qed.

(** C76: a file whose name and path are plain names is stored below the download directory, at
    exactly this path. Missing: other names (below). *)
Theorem C76_below_partial : forall dir name path, ~ In 0 dir -> plain name -> Forall plain path ->
  place (getFullpath (name, path) dir) = place dir ++ path ++ [name].
Proof.
  intros dir name path N P F. unfold getFullpath. cbn [fst snd]. rewrite utf8_id.
  - rewrite place_full, parts_rest by assumption. rewrite fold_plain; [reflexivity|]. apply Forall_app. split; [exact F|repeat constructor; apply P].
  - intros I. apply in_app_iff in I as [I|I]; [now apply (nozero_sep dir)|]. now apply (nozero_rest path name).
Qed.
Print Assumptions C76_below_partial.

(** C76: different such files are at different places. *)
Theorem C76_distinct : forall dir f g, ~ In 0 dir -> plain (fst f) -> Forall plain (snd f) -> plain (fst g) -> Forall plain (snd g) ->
  place (getFullpath f dir) = place (getFullpath g dir) -> f = g.
Proof.
  intros dir [n p] [n' p'] N F1 F2 G1 G2 E. cbn [fst snd] in *. rewrite !C76_below_partial in E by assumption. apply app_inv_head in E. apply app_inj_tail in E as [-> ->]. reflexivity.
Qed.
Print Assumptions C76_distinct.

Example ex_full : place (getFullpath ([98], [[116]; [97]]) (initPath [47; 100; 92; 101])) = [[100]; [101]; [116]; [97]; [98]].
Proof. reflexivity. Qed.

(** Finding: nothing keeps ".." out: a torrent can write files anywhere. Here "../x" in the
    directory "/d" of a torrent named "..". *)
Theorem C76_escape_refuted : exists dir f, ~ In 0 dir /\ ~ below (place dir) (place (getFullpath f dir)) /\ fst f = [120] /\ snd f = [[46; 46]].
Proof.
  exists [47; 100; 47], ([120], [[46; 46]]). split; [cbn; intros H; repeat destruct H as [H|H]; discriminate || contradiction|]. split; [|auto].
  vm_compute. intros (x & y & E). destruct y; discriminate.
Qed.
Print Assumptions C76_escape_refuted.

(** C77: deleting a torrent whose name, files and paths are plain removes only what is below the
    torrent's own directory, or (a single file) the file itself. Missing: other names. *)
Theorem C77_delete_partial : forall dir name files, ~ In 0 dir -> plain name -> Forall (fun f => plain (fst f) /\ Forall plain (snd f)) files ->
  (Forall (fun f => exists q, snd f = name :: q) files ->
   Forall (fun p => below (place dir ++ [name]) (place p)) (fst (deleteAll name (withSeparator dir) files))) /\
  match snd (deleteAll name (withSeparator dir) files) with Some t => place t = place dir ++ [name] | None => True end.
Proof.
  intros dir name files N P F. split.
  - intros H. cbn [deleteAll fst]. apply Forall_map. rewrite Forall_forall in *. intros [n p] I. destruct (F _ I) as [F1 F2]. destruct (H _ I) as (q & E). cbn [fst snd] in *. subst p.
    rewrite C76_below_partial by (try assumption; now apply nozero_sep). rewrite place_with_sep. unfold below.
    destruct q as [|x q]; [exists n, []|exists x, (q ++ [n])]; cbn [app]; rewrite <- !app_assoc; reflexivity.
  - cbn [deleteAll snd]. destruct (1 <? zlen files); [|exact I]. unfold getRootpath. rewrite utf8_id.
    + rewrite place_full, parts_plain by apply P. cbn [fold_left]. now apply go_plain.
    + intros J. apply in_app_iff in J as [J|J]; [now apply (nozero_sep dir)|now apply P].
Qed.
Print Assumptions C77_delete_partial.

Example ex_delete : let fs := [([98], [[116]; [97]]); ([99], [[116]])] in
  plain [116] /\ Forall (fun f => plain (fst f) /\ Forall plain (snd f)) fs /\ map place (fst (deleteAll [116] (withSeparator [47; 100]) fs)) = [[[100]; [116]; [97]; [98]]; [[100]; [116]; [99]]].
Proof.
  assert (A : forall c, c <> 46 -> c <> 47 -> c <> 0 -> plain [c]).
  { intros c C1 C2 C3. unfold plain. repeat split; try congruence; intros [H|[]]; congruence. }
  cbn zeta. split; [apply A; lia|]. split; [repeat constructor; apply A; cbn; lia|]. reflexivity.
Qed.

(** Finding: a torrent of several files without a name: deleting its files removes the whole
    download directory, with the files of every other torrent. *)
Theorem C77_no_name_refuted : forall dir a b, ~ In 0 dir -> exists t, snd (deleteAll [] (withSeparator dir) [a; b]) = Some t /\ place t = place dir.
Proof.
  intros dir a b N. cbn. eexists. split; [reflexivity|]. unfold getRootpath. rewrite app_nil_r. rewrite utf8_id by (now apply nozero_sep). apply place_with_sep.
Qed.
Print Assumptions C77_no_name_refuted.

(** Finding: with the name ".." it is the directory above. *)
Theorem C77_parent_refuted : forall dir a b, ~ In 0 dir -> exists t, snd (deleteAll [46; 46] (withSeparator dir) [a; b]) = Some t /\ place t = removelast (place dir).
Proof.
  intros dir a b N. cbn. eexists. split; [reflexivity|]. unfold getRootpath. rewrite utf8_id; [apply place_full|].
  intros J. apply in_app_iff in J as [J|J]; [now apply (nozero_sep dir)|]. cbn in J. repeat destruct J as [J|J]; discriminate || contradiction.
Qed.
Print Assumptions C77_parent_refuted.

(** Finding: a zero byte ends a path: files with different names are one file. *)
Theorem C76_zero_refuted : exists dir f g, ~ In 0 dir /\ f <> g /\ getFullpath f dir = getFullpath g dir.
Proof. exists [47], ([97; 0; 98], []), ([97; 0; 99], []). split; [cbn; intros [H|[]]; discriminate|]. split; [discriminate|reflexivity]. Qed.
Print Assumptions C76_zero_refuted.
