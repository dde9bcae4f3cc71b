(* Wire formats of the messages the library sends (u-blox interface description), independent of the code. *)
From Verif Require Import Base UbxSpec.

(* The nine serial writes that make up one frame. *)
Definition frame_writes (cls id : Z) (pl : list Z) : list (list Z) :=
  [[0xB5]; [0x62]; [cls]; [id]; [Zlen pl mod 256]; [Zlen pl / 256]; pl;
   [ck_a_of (ubx_body cls id pl)]; [ck_b_of (ubx_body cls id pl)]].

(* CFG-VALSET payload for one key *)
Definition valset_payload (version layer key : Z) (value : list Z) : list Z :=
  [version; layer; 0; 0] ++ le32 key ++ value.
(* CFG-VALGET payload *)
Definition valget_payload (version layer key : Z) : list Z :=
  [version; layer; 0; 0] ++ le32 key ++ repeat 0 8.
(* CFG-PRT payload: port, reserved, txReady, mode, baud rate, in mask, out mask, flags, reserved *)
Definition prt_payload (port mode baud inmask outmask flags : Z) : list Z :=
  [port; 0] ++ le16 0 ++ le32 mode ++ le32 baud ++ le16 inmask ++ le16 outmask ++ le16 flags ++ [0; 0].
(* CFG-NAV5: mask, dynamic model, rest zero *)
Definition nav5_payload (mask model : Z) : list Z := le16 mask ++ [model] ++ repeat 0 33.
Definition rate_payload (meas nav ref : Z) : list Z := le16 meas ++ le16 nav ++ le16 ref.
(* CFG-TMODE3 with the bytes the call does not set taken from the old buffer *)
Definition tmode3_payload (old : list Z) (flags dur acc : Z) : list Z :=
  firstn 2 old ++ le16 flags ++ firstn 20 (skipn 4 old) ++ le32 dur ++ le32 acc ++ firstn 8 (skipn 32 old).


(* value bytes configure() transmits, by its size argument *)
Definition value_bytes (size data : Z) : list Z :=
  if size =? 1 then [data mod 256; 0; 0; 0] else if size =? 2 then le32 data else [0; 0; 0; 0].

(* the protocol-24+ variants: one or more CFG-VALSET frames *)
Definition valset1 (key data : Z) : list (list Z) :=
  frame_writes 0x06 0x8A (valset_payload 0 1 key [data mod 256; 0; 0; 0]).


(* ------------------------------------------------ C52: shape of CFG-VALSET items *)
(* Storage size of a configuration item, from bits 28..30 of its key (u-blox interface description):
   1 = one bit (stored in a byte), 2 = one byte, 3 = two bytes, 4 = four bytes, 5 = eight bytes. *)
Definition item_size (key : Z) : option nat :=
  match (key / 2 ^ 28) mod 8 with
  | 1 | 2 => Some 1%nat | 3 => Some 2%nat | 4 => Some 4%nat | 5 => Some 8%nat | _ => None
  end.
(* the cfgData part of a VALSET payload: a sequence of key/value items, nothing left over *)
Inductive cfg_items : list Z -> list (Z * list Z) -> Prop :=
| items_nil : cfg_items [] []
| items_cons key v rest l n :
    0 <= key < 2 ^ 32 -> item_size key = Some n -> length v = n -> cfg_items rest l ->
    cfg_items (le32 key ++ v ++ rest) ((key, v) :: l).

(* position by position: which of the 40 payload bytes the call determines *)
Definition survey_fixed (i : nat) : option Z :=
  match i with
  | 2%nat => Some 1 | 3%nat => Some 0
  | 24%nat => Some 60 | 25%nat | 26%nat | 27%nat => Some 0
  | 28%nat => Some 3 | 29%nat | 30%nat | 31%nat => Some 0
  | _ => None
  end.
