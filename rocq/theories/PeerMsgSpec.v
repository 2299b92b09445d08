(** The peer wire protocol (BEP 3, BEP 5, BEP 10), independent of the code (only the last part
    below names the reader's result type). *)
From Verif Require Import Base PeerMsgModel.

Inductive message :=
| KeepAlive
| Choke | Unchoke | Interested | NotInterested
| Have (index : Z)
| Bitfield (bits : list Z)
| Request (index begin length : Z)
| Piece (index begin : Z) (data : list Z)
| Cancel (index begin length : Z)
| Port (port : Z)
| Extended (ext : Z) (payload : list Z)
| Handshake (reserved hash peer : list Z).

(** A length-prefixed message: four bytes of length, then the body. *)
Definition framed (body : list Z) : list Z := be 4 (zlen body) ++ body.

Definition encode (m : message) : list Z :=
  match m with
  | KeepAlive => framed []
  | Choke => framed [0]
  | Unchoke => framed [1]
  | Interested => framed [2]
  | NotInterested => framed [3]
  | Have i => framed (4 :: be 4 i)
  | Bitfield b => framed (5 :: b)
  | Request i b l => framed (6 :: be 4 i ++ be 4 b ++ be 4 l)
  | Piece i b d => framed (7 :: be 4 i ++ be 4 b ++ d)
  | Cancel i b l => framed (8 :: be 4 i ++ be 4 b ++ be 4 l)
  | Port p => framed (9 :: be 2 p)
  | Extended e d => framed (20 :: e :: d)
  | Handshake r h p =>
      19 :: [66;105;116;84;111;114;114;101;110;116;32;112;114;111;116;111;99;111;108]
      ++ r ++ h ++ p
  end.

Definition is32 (v : Z) : Prop := 0 <= v < 4294967296.

(** Messages with fields in range, non-empty piece and extension data. *)
Definition fields_ok (m : message) : Prop :=
  match m with
  | Have i => is32 i
  | Bitfield b => bytes_ok b
  | Request i b l | Cancel i b l => is32 i /\ is32 b /\ is32 l
  | Piece i b d => is32 i /\ is32 b /\ bytes_ok d /\ d <> []
  | Port p => 0 <= p < 65536
  | Extended e d => is_byte e /\ bytes_ok d /\ d <> []
  | Handshake r h p => bytes_ok r /\ bytes_ok h /\ bytes_ok p /\
      length r = 8%nat /\ length h = 20%nat /\ length p = 20%nat
  | _ => True
  end.

(** The largest frame the 16-bit size of the reader can describe. *)
Definition small (m : message) : Prop := zlen (encode m) < 65536.

Definition message_ok (m : message) : Prop := fields_ok m /\ small m.

(** The stream of a sequence of messages. *)
Definition encodes (ms : list message) : list Z := concat (map encode ms).

(** A tail that is not (yet) a whole message. *)
Definition partial_of (t : list Z) : Prop :=
  exists m n, message_ok m /\ (n < length (encode m))%nat /\ t = firstn n (encode m).

(** A buffer that fits in memory. *)
Definition fits (l : list Z) : Prop := zlen l < 18446744073709551616.

(** What the reader should produce for a message. *)
Definition understood (m : message) : pmsg :=
  let size := zlen (encode m) in
  match m with
  | KeepAlive => {| mid := idKeepAlive; mfields := FNone; messageSize := size |}
  | Choke => {| mid := idChoke; mfields := FNone; messageSize := size |}
  | Unchoke => {| mid := idUnchoke; mfields := FNone; messageSize := size |}
  | Interested => {| mid := idInterested; mfields := FNone; messageSize := size |}
  | NotInterested => {| mid := idNotInterested; mfields := FNone; messageSize := size |}
  | Have i => {| mid := idHave; mfields := FHave i; messageSize := size |}
  | Bitfield b => {| mid := idBitfield; mfields := FBitfield b; messageSize := size |}
  | Request i b l => {| mid := idRequest; mfields := FRequest i b l; messageSize := size |}
  | Piece i b d => {| mid := idPiece; mfields := FPiece i b (zlen d) d; messageSize := size |}
  | Cancel i b l => {| mid := idCancel; mfields := FRequest i b l; messageSize := size |}
  | Port p => {| mid := idPort; mfields := FPort p; messageSize := size |}
  | Extended e d => {| mid := idExtended; mfields := FExtended e d; messageSize := size |}
  | Handshake r h p => {| mid := idHandshake; mfields := FHandshake r h p; messageSize := size |}
  end.

(** The bytes a receive buffer holds. *)
Definition content (rb : readBuffer) : list Z := firstn (rused rb) (rdata rb).
