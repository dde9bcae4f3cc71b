(* C60: from received bytes to ephemerides.  A UBLOX object s whose first listener is its own NavParser (identity nid),
   other listeners ls; nv: the state of that parser.  dev_read: UBLOX::read_cb with the parser attached. *)
From Verif Require Import Base UbxSpec UbxModel UbxProofs UbxStream UbxMain UbxMore UbxHist UbxApi UbxEx
  UbxTx UbxTxSpec UbxTxApi CrcSpec RtcmModel RtcmSpec RtcmProofs RtcmApi Properties_Rtcm UbloxModel UbloxSpec UbloxProofs UbloxApi UbloxThm Properties_Ublox
  BitModel UtcModel UtcSpec Dbl NavModel NavSpec NavGpsSpec NavObj NavGpsThm Properties_NavGps NavDev.

(* Whatever is received outside base mode: the stream cut into items and a rest, the parser processes exactly the
   RXM-SFRBX messages among them, in order, each once (sfr_msgs). *)
Theorem C60_parser_sees_every_frame junk u ru n s ls nid nv its t s' ev :
  uninit_ok u -> runinit_ok ru -> UReach u ru n s -> u_type s <> T_BASE ->
  Forall listener_ok ls -> (forall l, In l ls -> lid l <> nid) -> u_ls s = map build (mkListener nid [(0x02, 0x13)] :: ls) ->
  parsing_message (u_ubx s) = false -> items_ok (prev (u_ubx s)) its -> tail_ok (items_last (prev (u_ubx s)) its) t ->
  bytes_ok (items_bytes its ++ t) -> ublox_read s (items_bytes its ++ t) = Ok (s', ev) ->
  dev_read junk nid s nv (items_bytes its ++ t) =
    (let* (nv', v) := nav_run junk nv (map NMsg (sfr_msgs (inbuf (u_ubx s)) its)) in Ok (s', nv', ev, v)).
Proof.
  intros Hu Hru HR HT Hls HL EL HP Hok Ht Hb E.
  rewrite (dev_read_split junk nid _ s nv s' ev E), (nav_input u ru n s ls nid its t s' ev Hu Hru HR HT Hls HL EL HP Hok Ht Hb E). reflexivity.
Qed.
Print Assumptions C60_parser_sees_every_frame.
(* in base mode, for streams that mix UBX and RTCM frames *)
Theorem C60_parser_sees_every_frame_base junk u ru n s ls nid nv ds s' ev :
  uninit_ok u -> runinit_ok ru -> UReach u ru n s -> u_type s = T_BASE ->
  Forall listener_ok ls -> (forall l, In l ls -> lid l <> nid) -> u_ls s = map build (mkListener nid [(0x02, 0x13)] :: ls) ->
  parsing_message (u_ubx s) = false -> rtcm_parsing (u_rtcm s) = false -> ditems_ok (prev (u_ubx s)) ds -> bytes_ok (ditems_bytes ds) ->
  ublox_read s (ditems_bytes ds) = Ok (s', ev) ->
  dev_read junk nid s nv (ditems_bytes ds) =
    (let* (nv', v) := nav_run junk nv (map NMsg (dsfr_msgs (inbuf (u_ubx s)) ds)) in Ok (s', nv', ev, v)).
Proof.
  intros Hu Hru HR HT Hls HL EL HP HRp Hok Hb E.
  rewrite (dev_read_split junk nid _ s nv s' ev E), (nav_input_base u ru n s ls nid ds s' ev Hu Hru HR HT Hls HL EL HP HRp Hok Hb E). reflexivity.
Qed.
Print Assumptions C60_parser_sees_every_frame_base.
(* a payload with as many words as the constellation's decoder reads determines everything: no effect of older bytes *)
Theorem C60_complete_frames_suffice junk s pl x y : 4 <= Zlen pl -> sfr_need (nth 0 pl 0) <= Zlen pl ->
  convertUBX junk s (sfrbx_of (pl ++ x)) = convertUBX junk s (sfrbx_of (pl ++ y)).
Proof. exact (complete_frames junk s pl x y). Qed.
Print Assumptions C60_complete_frames_suffice.
(* byte 2 and bytes 4..7, among them the number of words, are never looked at *)
Theorem C60_word_count_ignored junk s b0 b1 b2 b3 r2 h h' w : length h = 4%nat -> length h' = 4%nat ->
  convertUBX junk s (sfrbx_of ([b0; b1; b2; b3] ++ h ++ w)) = convertUBX junk s (sfrbx_of ([b0; b1; r2; b3] ++ h' ++ w)).
Proof. exact (header_ignored junk s b0 b1 b2 b3 r2 h h' w). Qed.
Print Assumptions C60_word_count_ignored.
(* so a valid frame of four bytes repeats the words of the frame before it, for any satellite it names *)
Theorem C60_short_frame_repeats_words mem p g sv r f : length mem = 2048%nat -> (48 <= length p <= 2048)%nat ->
  sfr_msgs mem [Good 0x02 0x13 p; Noise 0xB5; Good 0x02 0x13 [g; sv; r; f]] =
  [sfrbx_of p; mkSf g sv f (sf_dw (sfrbx_of p))].
Proof. exact (short_frame mem p g sv r f). Qed.
Print Assumptions C60_short_frame_repeats_words.

(* ---------------------------------------------------------------- examples *)
Definition sfr_pl (gnss sv : Z) (ws : list Z) : list Z := [gnss; sv; 0; 0; 10; 0; 2; 0] ++ flat_map le32 ws.
Definition sfr (gnss sv : Z) (ws : list Z) : list Z := ubx_frame 2 0x13 (sfr_pl gnss sv ws).
Definition nav1 : nav := nav_ecb (nav_init st0) 7.
Definition dshown (r : outcome (ublox * nav * list event * list nev)) : option (list (Z * list Z)) :=
  option_map (map (fun x => fst x)) (match r with Ok (_, _, _, v) => Some (map show v) | UB _ => None end).
(* three subframes of satellite 21 between noise: one ephemeris; the same with a four-byte frame for satellite 5 after
   each: a second "ephemeris", for satellite 5, made of satellite 21's words *)
Definition dv : ublox := Properties_Ublox.d1.
Definition its0 : list item :=
  [Noise 1; Noise 0xB5; Good 2 0x13 (sfr_pl 0 21 v1); Noise 9; Noise 0xB5; Good 2 0x13 (sfr_pl 0 21 w4); Noise 0xB5; Good 1 7 [1; 2]; Noise 0xB5; Good 2 0x13 (sfr_pl 0 21 w0)].
Example C60_case : items_ok (prev (u_ubx dv)) its0 /\ bytes_ok (items_bytes its0) /\ parsing_message (u_ubx dv) = false /\ u_type dv <> T_BASE /\
  u_ls dv = map build (mkListener 77 [(2, 0x13)] :: [l9]) /\
  dshown (dev_read junk0 77 dv nav1 (items_bytes its0)) = Some [(7, [21; 0; 2062; 78; 1563660018; 1563660018])].
Proof.
  split.
  { assert (EP : prev (u_ubx dv) <> 0xB5) by (vm_compute; discriminate). cbn [its0 items_ok item_ok item_last item_bytes last].
    repeat split; try lia; try (vm_compute; congruence); intros [? ?]; discriminate. }
  split; [apply bytes_ok_dec; vm_compute; reflexivity|]. split; [vm_compute; reflexivity|]. split; [vm_compute; discriminate|].
  split; vm_compute; reflexivity.
Qed.
Definition short5 : list Z := ubx_frame 2 0x13 [0; 5; 0; 0].
Example C60_short_case :
  dshown (dev_read junk0 77 dv nav1 (sfr 0 21 v1 ++ short5 ++ sfr 0 21 w4 ++ short5 ++ sfr 0 21 w0 ++ short5)) =
  Some [(7, [21; 0; 2062; 78; 1563660018; 1563660018]); (7, [5; 0; 2062; 78; 1563660018; 1563660018])].
Proof. vm_compute. reflexivity. Qed.
