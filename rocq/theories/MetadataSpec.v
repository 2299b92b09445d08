(** What a metadata download is meant to do, in terms of the events only. *)
From Verif Require Import Base MetadataModel.

(** How many parts of 16 KiB a size has. *)
Definition parts (sz : Z) : Z := (sz + 16383) / 16384.

(** Part [k] of some metadata; the last one may be shorter. *)
Definition part (k : Z) (M : list Z) : list Z := slice (Z.to_nat (k * 16384)) (Z.to_nat 16384) M.

(** Started and not stopped again. *)
Definition live (evs : list mevent) : bool :=
  fold_left (fun a e => match e with MStart => true | MStop => false | _ => a end) evs false.

(** The size named in the first handshake of a peer able to send metadata. *)
Fixpoint announced (evs : list mevent) : option Z :=
  match evs with
  | [] => None
  | MHandshake _ sz true :: evs' => if sz =? 0 then announced evs' else Some sz
  | _ :: evs' => announced evs'
  end.

(** Part [k] arrived as [d]: a data message for the right size while downloading. *)
Definition arrived (evs : list mevent) (k : Z) (d : list Z) : Prop :=
  exists pre p t post, evs = pre ++ MMessage p (LData k t d) :: post /\ live pre = true /\ announced pre = Some t.

(** The same, and none arrived for [k] before. *)
Definition first_arrival (evs : list mevent) (k : Z) (d : list Z) : Prop :=
  exists pre p t post, evs = pre ++ MMessage p (LData k t d) :: post /\ live pre = true /\ announced pre = Some t /\
    forall d', ~ arrived pre k d'.

(** Numbers are in the range of their types, and no part is longer than [Load] lets through
    (see [C27_loaded_fits]). *)
Definition event_ok (e : mevent) : Prop :=
  match e with
  | MHandshake _ sz _ => 0 <= sz < 4294967296
  | MMessage _ (LData k t d) => 0 <= k < 4294967296 /\ 0 <= t < 4294967296 /\ zlen d <= 16384
  | _ => True
  end.
