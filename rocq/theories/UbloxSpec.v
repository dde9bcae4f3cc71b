(* A byte stream that mixes UBX frames, RTCM frames and noise, independent of the code. *)
From Verif Require Import Base UbxSpec RtcmSpec UbloxModel.

Inductive ditem :=
| DNoise (b : Z)
| DUbx (it : item)       (* a complete UBX frame (good, bad checksum, or oversized header), from its B5 on *)
| DRtcm (it : ritem).    (* a complete RTCM frame (good or bad CRC) or an empty header, from its D3 on *)
Definition is_noise (it : item) : bool := match it with Noise _ => true | _ => false end.
Definition is_rnoise (it : ritem) : bool := match it with RNoise _ => true | _ => false end.
Definition ditem_bytes (d : ditem) : list Z :=
  match d with DNoise b => [b] | DUbx it => 0xB5 :: item_bytes it | DRtcm it => ritem_bytes it end.
(* p: the previous byte outside RTCM frames; a frame counts as ending in D3 there *)
Definition ditem_ok (p : Z) (d : ditem) : Prop :=
  match d with
  | DNoise b => b <> 0xD3 /\ ~ (p = 0xB5 /\ b = 0x62)
  | DUbx it => item_ok 0xB5 it /\ is_noise it = false
  | DRtcm it => ritem_ok it /\ is_rnoise it = false
  end.
Definition ditem_last (d : ditem) : Z :=
  match d with DNoise b => b | DUbx it => item_last it | DRtcm _ => 0xD3 end.
Fixpoint ditems_ok (p : Z) (ds : list ditem) : Prop :=
  match ds with [] => True | d :: r => ditem_ok p d /\ ditems_ok (ditem_last d) r end.
Definition ditems_bytes (ds : list ditem) : list Z := flat_map ditem_bytes ds.
Definition ditem_mem (mem : list Z) (d : ditem) : list Z := match d with DUbx it => item_mem mem it | _ => mem end.
(* what has to come out, in order: got_ubx calls for good UBX frames, nreg copies of each good RTCM frame *)
Definition ditem_events (ls : list listener) (nreg : nat) (iface : Z) (mem : list Z) (d : ditem) : list event :=
  match d with
  | DUbx (Good cls id pl) => map EvUbx (calls_for ls cls id (pl ++ skipn (length pl) mem))
  | DRtcm (RGood f) => repeat (EvRtk iface f) nreg
  | _ => []
  end.
Fixpoint ditems_events ls nreg iface mem (ds : list ditem) : list event :=
  match ds with
  | [] => []
  | d :: r => ditem_events ls nreg iface mem d ++ ditems_events ls nreg iface (ditem_mem mem d) r
  end.

(* A good MON-VER frame occurs in the stream r received by a fresh reader, as one of the frames of its segmentation. *)
Definition ver_seen (r : list Z) : Prop :=
  exists its t, r = items_bytes its ++ t /\ items_ok 0 its /\ tail_ok (items_last 0 its) t /\ 0 < count (is_good_of 10 4) its.

(* c is an interleaving of a and b *)
Inductive shuffle {A} : list A -> list A -> list A -> Prop :=
| sh_nil : shuffle [] [] []
| sh_l x a b c : shuffle a b c -> shuffle (x :: a) b (x :: c)
| sh_r x a b c : shuffle a b c -> shuffle a (x :: b) (x :: c).
