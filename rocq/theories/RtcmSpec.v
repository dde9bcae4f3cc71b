(* RTCM 3 transport frames, independent of the code:
   D3, 6 reserved bits + 10 bits payload length (big endian), payload, CRC-24Q of everything before it. *)
From Verif Require Import Base CrcSpec.

Definition rtcm_len (h1 h2 : Z) : Z := (h1 mod 4) * 256 + h2.

(* f has the layout of a frame with an n-byte payload; nothing is said about its CRC *)
Definition rtcm_shape (n : Z) (f : list Z) : Prop :=
  exists h1 h2 pl c, f = [0xD3; h1; h2] ++ pl ++ c /\ Zlen pl = n /\ rtcm_len h1 h2 = n /\ length c = 3%nat.
(* a well-formed frame *)
Definition rtcm_frame (n : Z) (f : list Z) : Prop := rtcm_shape n f /\ block_ok f.

(* ---------------------------------------------------------------- segmentation of a byte stream *)
Inductive ritem :=
| RNoise (b : Z)            (* a byte outside any frame *)
| REmpty (h1 : Z)           (* header announcing an empty payload *)
| RGood (f : list Z)        (* complete frame, right CRC *)
| RBad (f : list Z).        (* complete frame, wrong CRC *)
Definition ritem_bytes (it : ritem) : list Z :=
  match it with RNoise b => [b] | REmpty h1 => [0xD3; h1; 0] | RGood f | RBad f => f end.
Definition ritem_ok (it : ritem) : Prop :=
  match it with
  | RNoise b => b <> 0xD3
  | REmpty h1 => h1 mod 4 = 0
  | RGood f => exists n, 1 <= n <= 1018 /\ rtcm_frame n f
  | RBad f => exists n, 1 <= n <= 1018 /\ rtcm_shape n f /\ ~ block_ok f
  end.
Definition ritems_bytes (its : list ritem) : list Z := flat_map ritem_bytes its.

(* what may be left at the end: nothing, an unfinished frame, or a frame too long for the 1024-byte buffer *)
Definition rtail_ok (t : list Z) : Prop :=
  t = [] \/
  (exists r, t = 0xD3 :: r /\
    (Zlen r < 2 \/ exists h1 h2 q, r = h1 :: h2 :: q /\ 1 <= rtcm_len h1 h2 /\
       (Zlen q < rtcm_len h1 h2 + 3 \/ 1019 <= rtcm_len h1 h2))).

Definition rquiet (n : nat) : list (list (Z * list Z)) := repeat [] n.
(* observable effect: per byte, the (listener, frame) pairs handed over *)
Definition ritem_outs (ls : list Z) (it : ritem) : list (list (Z * list Z)) :=
  match it with
  | RGood f => rquiet (length f - 1) ++ [map (fun l => (l, f)) ls]
  | _ => rquiet (length (ritem_bytes it))
  end.
Definition ritems_outs (ls : list Z) (its : list ritem) : list (list (Z * list Z)) := flat_map (ritem_outs ls) its.
Definition ritem_complete (it : ritem) : bool := match it with RGood _ | RBad _ => true | _ => false end.
