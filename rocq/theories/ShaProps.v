(** C48: SHA-1. *)
From Verif Require Import Base BaseLemmas ShaModel ShaSpec ShaProofs.

(** The hash is that of the standard. Its length field has 64 bits. *)
Theorem C48_sha1 : forall d, bytes_ok d -> 8 * zlen d < 2 ^ 64 -> SHA1 d = sha1 d.
Proof.
  intros d B L. unfold SHA1, sha1, update. pose proof (updateLoop_ok (length d) reset [] d B) as U. cbn [app] in U.
  rewrite (final_ok _ d B L) by (apply U; [unfold zlen in L; lia|lia|exact fed_reset]).
  unfold vlist. cbn [flat_map]. now rewrite app_nil_r.
Qed.
Print Assumptions C48_sha1.

(** Data given in several parts hashes as the whole. *)
Theorem C48_parts : forall ds, bytes_ok (concat ds) -> 8 * zlen (concat ds) < 2 ^ 64 ->
  flat_map (be 4) (final (fold_left update ds reset)) = sha1 (concat ds).
Proof.
  intros ds B L. assert (G : forall s m, bytes_ok (m ++ concat ds) -> 8 * zlen (m ++ concat ds) < 2 ^ 64 -> fed s m -> fed (fold_left update ds s) (m ++ concat ds)).
  { clear. induction ds as [|d ds IH]; intros s m B L F; cbn; [now rewrite app_nil_r|]. cbn in B, L. rewrite app_assoc in *. apply IH; [assumption|assumption|].
    apply updateLoop_ok; [now apply bytes_ok_app in B| |lia|assumption]. unfold zlen in L. rewrite app_length in L. lia. }
  unfold sha1. rewrite (final_ok _ (concat ds) B L) by (apply (G reset []); [exact B|exact L|exact fed_reset]). unfold vlist. cbn [flat_map]. now rewrite app_nil_r.
Qed.
Print Assumptions C48_parts.

(** The test vector "abc" of the standard, for the specification. *)
Example C48_abc : sha1 [97; 98; 99] = [0xa9; 0x99; 0x3e; 0x36; 0x47; 0x06; 0x81; 0x6a; 0xba; 0x3e; 0x25; 0x71; 0x78; 0x50; 0xc2; 0x6c; 0x9c; 0xd0; 0xd8; 0x9d].
Proof. vm_compute. reflexivity. Qed.
