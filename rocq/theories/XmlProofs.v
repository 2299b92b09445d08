(** Reading a document made of well-formed tokens. *)
From Verif Require Import Base BaseLemmas XmlModel.
From Coq Require Import String.
From Coq Require Import List.
Import ListNotations.
Local Close Scope string_scope.

(** A token: the text before a tag, and the tag. *)
Inductive xtag := TOpen (name : list Z) | TClose (name : list Z) | TCdata (v : list Z).
Definition token : Type := list Z * xtag.
Definition renderTag (t : xtag) : list Z :=
  match t with TOpen n => n ++ [62] | TClose n => 47 :: n ++ [62] | TCdata v => txt "![CDATA[" ++ v ++ [93; 93; 62] end.
Definition render (l : list token) : list Z := concat (map (fun t => fst t ++ 60 :: renderTag (snd t)) l).

Definition nameChar (c : Z) : bool := negb (c =? 62) && negb (isSpace c).
Definition name_ok (n : list Z) : Prop :=
  forallb nameChar n = true /\ n <> [] /\ hd 0 n <> 47 /\ hd 0 n <> 63 /\ hd 0 n <> 33 /\ last n 0 <> 47.
Definition no_lt (l : list Z) : Prop := forallb (fun c => negb (c =? 60)) l = true.
Definition cdata_ok (v : list Z) : Prop := forall a b, v <> a ++ [93; 93; 62] ++ b.
Definition tag_ok (t : xtag) : Prop := match t with TOpen n => name_ok n | TClose n => forallb nameChar n = true | TCdata v => cdata_ok v end.
Definition token_ok (t : token) : Prop := no_lt (fst t) /\ tag_ok (snd t).

Definition execTag (s : xst) (t : xtag) : xst :=
  match t with
  | TOpen n => openNode s n
  | TClose _ => closeNode s
  | TCdata v => {| xels := xels s ++ [newEl v XCdata]; xstack := xstack s; xprev := xprev s |}
  end.
Definition exec (s : xst) (t : token) : xst := execTag (textRun s (fst t)) (snd t).

Lemma takeW_app f a c b : forallb f a = true -> f c = false -> takeW f (a ++ c :: b) = a.
Proof. induction a as [|x a IH]; cbn; intros H E; [now rewrite E|]. apply andb_true_iff in H as [H1 H2]. now rewrite H1, IH. Qed.

Lemma skipn_len {A} (a b : list A) : skipn (List.length a) (a ++ b) = b.
Proof. induction a; cbn; auto. Qed.

Lemma list_eqb_iff a b : list_eqb a b = true <-> a = b.
Proof. apply list_eqb_spec. Qed.

Lemma startsWith_iff p l : startsWith p l = true <-> exists r, l = p ++ r.
Proof.
  unfold startsWith. rewrite list_eqb_iff. split.
  - intros E. exists (skipn (List.length p) l). rewrite <- E at 1. symmetry. apply firstn_skipn.
  - intros (r & ->). rewrite firstn_app, Nat.sub_diag, firstn_all. cbn [firstn]. apply app_nil_r.
Qed.

Lemma cdataEnd_ok v rest : cdata_ok v -> cdataEnd (v ++ 93 :: 93 :: 62 :: rest) = Some (v, rest).
Proof.
  induction v as [|c v IH]; intros H; [reflexivity|]. cbn [app cdataEnd].
  destruct (startsWith [93; 93; 62] (c :: v ++ 93 :: 93 :: 62 :: rest)) eqn:E.
  - exfalso. apply startsWith_iff in E as (r & E). cbn [app] in E. destruct v as [|d [|e v]]; cbn [app] in E; try congruence.
    injection E as -> -> -> _. apply (H [] v). reflexivity.
  - rewrite IH; [reflexivity|]. intros a b E2. apply (H (c :: a) b). rewrite E2. reflexivity.
Qed.

Lemma nameChar_gt n : forallb nameChar n = true -> forallb (fun c => negb (c =? 62)) n = true.
Proof. intros H. apply forallb_forall. intros x I. eapply forallb_forall in H; [|exact I]. unfold nameChar in H. now apply andb_true_iff in H. Qed.

Lemma attributes_nil f s : attributes (S f) s [] = Some s.
Proof. reflexivity. Qed.

Lemma cdata_first r : startsWith (txt "![CDATA[") r = true -> hd 0 r = 33.
Proof. intros H. apply startsWith_iff in H as (x & ->). reflexivity. Qed.

Lemma last_app_ne (n : list Z) d d' : n <> [] -> last n d = last n d'.
Proof. induction n as [|x n IH]; [congruence|]. intros _. destruct n; [reflexivity|]. cbn [last] in *. apply IH. congruence. Qed.

Lemma tag_ok_exec s t rest : tag_ok t -> tag s (renderTag t ++ rest) = Some (execTag s t, rest).
Proof.
  destruct t as [n|n|v]; cbn [tag_ok renderTag execTag]; intros H.
  - destruct H as (H1 & H2 & H3 & H4 & H5 & H6). rewrite <- app_assoc. cbn [app]. unfold tag.
    destruct ((8 <? zlen (n ++ 62 :: rest)) && startsWith (txt "![CDATA[") (n ++ 62 :: rest)) eqn:E.
    { exfalso. apply andb_true_iff in E as [_ E]. apply cdata_first in E. destruct n; [congruence|]. cbn in E, H5. congruence. }
    rewrite (takeW_app nameChar) by (assumption || reflexivity). rewrite takeW_app by (try apply nameChar_gt; assumption || reflexivity).
    rewrite skipn_len. cbn zeta.
    assert (F : hd 62 n = hd 0 n) by (destruct n; [congruence|reflexivity]). rewrite F.
    unfold lastOr. rewrite (last_app_ne n 60 0) by assumption.
    destruct (Z.eqb_spec (hd 0 n) 47); [congruence|]. destruct (Z.eqb_spec (last n 0) 47); [congruence|].
    destruct (Z.eqb_spec (hd 0 n) 63); [congruence|]. cbn [andb].
    destruct ((5 <? zlen n) && startsWith (txt "!--") n && (last n 0 =? 45) && (nth (List.length n - 2) n 0 =? 45)) eqn:C.
    { exfalso. apply andb_true_iff in C as [C _]. apply andb_true_iff in C as [C _]. apply andb_true_iff in C as [_ C].
      apply startsWith_iff in C as (x & ->). now apply H5. }
    rewrite skipn_all. rewrite attributes_nil. reflexivity.
  - cbn [app]. rewrite <- app_assoc. cbn [app]. unfold tag.
    destruct ((8 <? zlen (47 :: n ++ 62 :: rest)) && startsWith (txt "![CDATA[") (47 :: n ++ 62 :: rest)) eqn:E.
    { exfalso. apply andb_true_iff in E as [_ E]. apply cdata_first in E. discriminate. }
    change (47 :: n ++ 62 :: rest) with ((47 :: n) ++ 62 :: rest).
    assert (H' : forallb nameChar (47 :: n) = true) by (cbn [forallb]; now rewrite H).
    rewrite (takeW_app nameChar) by (assumption || reflexivity). rewrite takeW_app by (try apply nameChar_gt; assumption || reflexivity).
    rewrite skipn_len. cbn zeta. cbn [hd]. change (47 =? 47) with true. cbn iota. rewrite skipn_all, attributes_nil. reflexivity.
  - unfold tag. change (txt "![CDATA[") with [33;91;67;68;65;84;65;91]. rewrite <- !app_assoc.
    assert (L : (8 <? zlen ([33;91;67;68;65;84;65;91] ++ v ++ [93; 93; 62] ++ rest)) = true).
    { apply Z.ltb_lt. rewrite !zlen_app. pose proof (zlen_nonneg v). pose proof (zlen_nonneg rest). change (zlen [33;91;67;68;65;84;65;91]) with 8. change (zlen [93;93;62]) with 3. lia. }
    rewrite L. cbn [andb].
    assert (S : startsWith [33;91;67;68;65;84;65;91] ([33;91;67;68;65;84;65;91] ++ v ++ [93; 93; 62] ++ rest) = true) by (apply startsWith_iff; eauto).
    rewrite S. change (skipn 8 ([33;91;67;68;65;84;65;91] ++ v ++ [93; 93; 62] ++ rest)) with (v ++ [93; 93; 62] ++ rest). cbn [app].
    rewrite cdataEnd_ok by assumption. reflexivity.
Qed.

Lemma xloop_tokens toks : forall s fuel, Forall token_ok toks -> (List.length toks < fuel)%nat -> xloop fuel s (render toks) = Some (fold_left exec toks s).
Proof.
  induction toks as [|[run t] toks IH]; intros s fuel H L.
  - destruct fuel; [cbn in L; lia|]. reflexivity.
  - inversion H as [|x y [H1 H2] H3]; subst. cbn [fst snd] in *. destruct fuel as [|f]; [cbn in L; lia|]. unfold render. cbn [map concat fst snd]. fold (render toks).
    rewrite <- app_assoc. cbn [app xloop].
    assert (E : takeW (fun c => negb (c =? 60)) (run ++ 60 :: renderTag t ++ render toks) = run) by (apply takeW_app; [exact H1|reflexivity]).
    destruct (run ++ 60 :: renderTag t ++ render toks) eqn:R; [destruct run; discriminate|]. rewrite <- R in *. rewrite E, skipn_len.
    rewrite tag_ok_exec by assumption. cbn [fold_left]. apply IH; [assumption|]. cbn [List.length] in L. lia.
Qed.

Lemma render_length toks : (List.length toks <= List.length (render toks))%nat.
Proof. induction toks as [|t toks IH]; [reflexivity|]. unfold render. cbn [map concat List.length]. fold (render toks). rewrite !app_length. cbn [List.length]. lia. Qed.

(** The elements of any document made of well-formed tokens. *)
Lemma parse_tokens toks : Forall token_ok toks ->
  parseXml (render toks) = (let s := fold_left exec toks {| xels := []; xstack := []; xprev := O |} in
                            match xels s, xstack s with _ :: _, [] => Some (xels s) | _, _ => None end).
Proof. intros H. unfold parseXml. rewrite xloop_tokens; [reflexivity|assumption|]. pose proof (render_length toks). lia. Qed.
