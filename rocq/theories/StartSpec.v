(* Vocabulary of C87, construction while bytes arrive at any time: where a version reply ends, what is known, what is handed out,
   which commands are sent.  From the byte-level specification (UbxSpec.v) and plain reception (feed), nothing of the constructor. *)
From Verif Require Import Base UbxSpec UbxModel UbxStream UbxTx UbxTxSpec UbloxModel UbloxSpec UbloxThm UbloxConc.
Local Open Scope list_scope.
Local Open Scope Z_scope.

(* of the bytes q received after the bytes p, one is the last byte of a good version reply: cut p ++ q into frames, noise and a rest *)
Definition reply_ends (p q : list Z) : Prop :=
  exists its1 its2 pl t,
    p ++ q = items_bytes (its1 ++ Good 0x0A 0x04 pl :: its2) ++ t /\
    items_ok 0 (its1 ++ Good 0x0A 0x04 pl :: its2) /\ tail_ok (items_last 0 (its1 ++ Good 0x0A 0x04 pl :: its2)) t /\
    Zlen p < Zlen (items_bytes (its1 ++ [Good 0x0A 0x04 pl])).

(* the protocol version a plain reader knows after the bytes p *)
Definition knows (u : uninit) (p : list Z) (v : Z) : Prop := exists x o, feed [] (ubx_init u) p = Ok (x, o) /\ v = major x.

(* the calls listener nav has received when the bytes p have arrived, the first of them (pa) before it was registered *)
Definition hears (u : uninit) (nav : Z) (pa p : list Z) (cs : list call) : Prop :=
  exists x oa y outs, feed [] (ubx_init u) pa = Ok (x, oa) /\ feed [nav_ml nav] x p = Ok (y, outs) /\ cs = flat_map fst outs.

(* the commands after the version is known: those for the versions known when disable_nmea and set_nav_rate start *)
Definition set_up (u : uninit) (before during : list Z) (w : list (list Z)) : Prop :=
  exists p1 q1 m1 p2 q2 m2, during = p1 ++ q1 /\ knows u (before ++ p1) m1 /\ during = p2 ++ q2 /\ knows u (before ++ p2) m2 /\
    w = nmea_writes m1 ++ rate_writes m2 ++ setup_messages.
