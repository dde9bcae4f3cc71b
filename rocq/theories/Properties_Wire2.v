(* C81, C82: from the bytes on the port to the user's callbacks for Galileo and GLONASS satellites. *)
From Coq Require Import Permutation.
From Verif Require Import Base UbxSpec UbxModel UbxProofs UbxStream UbxMain UbxMore UbxHist UbxApi UbxEx
  UbxTx UbxTxSpec UbxTxApi CrcSpec RtcmModel RtcmSpec RtcmProofs RtcmApi Properties_Rtcm UbloxModel UbloxSpec UbloxProofs UbloxApi UbloxThm Properties_Ublox
  BitModel UtcModel UtcSpec Dbl NavModel NavSpec NavStrSpec NavGloSpec NavGlo NavGloThm NavGpsSpec NavGalSpec NavGal NavGalThm NavSafe NavObj NavGpsThm NavGpsApi NavIso Properties_NavGps Properties_NavGlo Properties_NavGal
  NavDev Properties_NavDev NavWire Properties_Wire NavWireGal NavWireGlo.
Local Open Scope Z_scope.

(* ---- C81.  A UBLOX object s of any history outside base mode, between frames, its parser nv after any history h.  While a
   segmented stream is received (every RXM-SFRBX frame names its satellite, those of Galileo satellite sv are complete, no
   GPS frame has the same satellite number), the ephemeris callbacks called for sv are one round of all registered ones,
   in registration order, for every page of the satellite that makes the held words a consistent set (gal_fires), with a
   record holding the values of the words then held (gal_release).  Other satellites, other messages, noise and rejected frames have no part in it. *)
Theorem C81_galileo_from_the_port junk st u ru n s ls nid h nv ev0 sv its t s' nv' ev v :
  uninit_ok u -> runinit_ok ru -> UReach u ru n s -> u_type s <> T_BASE ->
  Forall listener_ok ls -> (forall l, In l ls -> lid l <> nid) -> u_ls s = map build (mkListener nid [(0x02, 0x13)] :: ls) ->
  sv <> 0 -> row_ok (st (sv - 1)) -> msgs_ok h -> nav_run junk (nav_init st) h = Ok (nv, ev0) ->
  parsing_message (u_ubx s) = false -> items_ok (prev (u_ubx s)) its -> tail_ok (items_last (prev (u_ubx s)) its) t -> bytes_ok (items_bytes its ++ t) ->
  gal_stream sv (map DUbx its) -> dev_read junk nid s nv (items_bytes its ++ t) = Ok (s', nv', ev, v) ->
  exists rs, filter (ev_for sv) v = flat_map (fun d => map (fun c => EvEph c d) (ecbs h)) rs /\
    Forall2 (gal_release sv) (gal_fires (l_hist sv (row_held (st (sv - 1))) h) (gal_pages sv (map DUbx its))) rs.
Proof.
  intros Hu Hru HR HT Hls HL EL NZ HRow HM HN HPm Hok Ht Hb HG HD.
  destruct (dev_part junk u ru n s ls nid nv its t s' nv' ev v Hu Hru HR HT Hls HL EL HPm Hok Ht Hb HD) as [R F].
  exact (galwire_core junk (nav_init st) sv h nv ev0 _ _ nv' v NZ HRow eq_refl HM HN F HG R).
Qed.
Print Assumptions C81_galileo_from_the_port.
(* in base mode, the frames mixed with RTCM frames *)
Theorem C81_galileo_from_the_port_base junk st u ru n s ls nid h nv ev0 sv ds s' nv' ev v :
  uninit_ok u -> runinit_ok ru -> UReach u ru n s -> u_type s = T_BASE ->
  Forall listener_ok ls -> (forall l, In l ls -> lid l <> nid) -> u_ls s = map build (mkListener nid [(0x02, 0x13)] :: ls) ->
  sv <> 0 -> row_ok (st (sv - 1)) -> msgs_ok h -> nav_run junk (nav_init st) h = Ok (nv, ev0) ->
  parsing_message (u_ubx s) = false -> rtcm_parsing (u_rtcm s) = false -> ditems_ok (prev (u_ubx s)) ds -> bytes_ok (ditems_bytes ds) ->
  gal_stream sv ds -> dev_read junk nid s nv (ditems_bytes ds) = Ok (s', nv', ev, v) ->
  exists rs, filter (ev_for sv) v = flat_map (fun d => map (fun c => EvEph c d) (ecbs h)) rs /\
    Forall2 (gal_release sv) (gal_fires (l_hist sv (row_held (st (sv - 1))) h) (gal_pages sv ds)) rs.
Proof.
  intros Hu Hru HR HT Hls HL EL NZ HRow HM HN HPm HRp Hok Hb HG HD.
  destruct (dev_part_base junk u ru n s ls nid nv ds s' nv' ev v Hu Hru HR HT Hls HL EL HPm HRp Hok Hb HD) as [R F].
  exact (galwire_core junk (nav_init st) sv h nv ev0 _ _ nv' v NZ HRow eq_refl HM HN F HG R).
Qed.
Print Assumptions C81_galileo_from_the_port_base.
(* In particular: if the satellite's pages in the stream are word 2, then words 0, 1, 3, 4, 5, 6 in any order, each once
   (word k being W k), then whatever was held before exactly one round of calls is made, with the values of these words, if the time stamp
   is valid and the four issue-of-data values agree, and none otherwise. *)
Theorem C81_one_set_one_ephemeris junk st u ru n s ls nid h nv ev0 sv its t s' nv' ev v W :
  uninit_ok u -> runinit_ok ru -> UReach u ru n s -> u_type s <> T_BASE ->
  Forall listener_ok ls -> (forall l, In l ls -> lid l <> nid) -> u_ls s = map build (mkListener nid [(0x02, 0x13)] :: ls) ->
  sv <> 0 -> row_ok (st (sv - 1)) -> msgs_ok h -> nav_run junk (nav_init st) h = Ok (nv, ev0) ->
  parsing_message (u_ubx s) = false -> items_ok (prev (u_ubx s)) its -> tail_ok (items_last (prev (u_ubx s)) its) t -> bytes_ok (items_bytes its ++ t) ->
  gal_stream sv (map DUbx its) -> one_set W (gal_pages sv (map DUbx its)) -> dev_read junk nid s nv (items_bytes its ++ t) = Ok (s', nv', ev, v) ->
  (set_agrees W = false -> filter (ev_for sv) v = []) /\
  (set_agrees W = true -> exists d, filter (ev_for sv) v = map (fun c => EvEph c d) (ecbs h) /\ gal_content sv (W 0) (W 1) (W 2) (W 3) (W 4) (W 5) d).
Proof.
  intros Hu Hru HR HT Hls HL EL NZ HRow HM HN HPm Hok Ht Hb HG HW HD.
  destruct (C81_galileo_from_the_port junk st u ru n s ls nid h nv ev0 sv its t s' nv' ev v Hu Hru HR HT Hls HL EL NZ HRow HM HN HPm Hok Ht Hb HG HD) as (rs & E & F).
  exact (one_round sv W _ _ rs (ecbs h) v HW E F).
Qed.
Print Assumptions C81_one_set_one_ephemeris.
Theorem C81_one_set_one_ephemeris_base junk st u ru n s ls nid h nv ev0 sv ds s' nv' ev v W :
  uninit_ok u -> runinit_ok ru -> UReach u ru n s -> u_type s = T_BASE ->
  Forall listener_ok ls -> (forall l, In l ls -> lid l <> nid) -> u_ls s = map build (mkListener nid [(0x02, 0x13)] :: ls) ->
  sv <> 0 -> row_ok (st (sv - 1)) -> msgs_ok h -> nav_run junk (nav_init st) h = Ok (nv, ev0) ->
  parsing_message (u_ubx s) = false -> rtcm_parsing (u_rtcm s) = false -> ditems_ok (prev (u_ubx s)) ds -> bytes_ok (ditems_bytes ds) ->
  gal_stream sv ds -> one_set W (gal_pages sv ds) -> dev_read junk nid s nv (ditems_bytes ds) = Ok (s', nv', ev, v) ->
  (set_agrees W = false -> filter (ev_for sv) v = []) /\
  (set_agrees W = true -> exists d, filter (ev_for sv) v = map (fun c => EvEph c d) (ecbs h) /\ gal_content sv (W 0) (W 1) (W 2) (W 3) (W 4) (W 5) d).
Proof.
  intros Hu Hru HR HT Hls HL EL NZ HRow HM HN HPm HRp Hok Hb HG HW HD.
  destruct (C81_galileo_from_the_port_base junk st u ru n s ls nid h nv ev0 sv ds s' nv' ev v Hu Hru HR HT Hls HL EL NZ HRow HM HN HPm HRp Hok Hb HG HD) as (rs & E & F).
  exact (one_round sv W _ _ rs (ecbs h) v HW E F).
Qed.
Print Assumptions C81_one_set_one_ephemeris_base.

(* ---- C82.  The same for GLONASS; frames complete and times before the end of 2037 (before2038, calm), the static Galileo store initially zero.  The
   parser has no undefined behaviour on such a stream, and the calls are as glo_story says: the satellite's own strings
   follow the rule of C40 under the clock that the GPS ephemerides of the same stream move. *)
Theorem C82_glonass_from_the_port junk st u ru n s ls nid h nv ev0 sv its t s2 ev2 :
  uninit_ok u -> runinit_ok ru -> UReach u ru n s -> u_type s <> T_BASE ->
  Forall listener_ok ls -> (forall l, In l ls -> lid l <> nid) -> u_ls s = map build (mkListener nid [(0x02, 0x13)] :: ls) ->
  junk_ok junk -> (forall sv, 1 <= sv <= 255 -> st (sv - 1) = repeat 0 380) -> (forall o, In o h -> calm o) -> nav_run junk (nav_init st) h = Ok (nv, ev0) ->
  parsing_message (u_ubx s) = false -> items_ok (prev (u_ubx s)) its -> tail_ok (items_last (prev (u_ubx s)) its) t -> bytes_ok (items_bytes its ++ t) ->
  (forall pl, In pl (sfr_pls (map DUbx its)) -> before2038 pl) -> ublox_read s (items_bytes its ++ t) = Ok (s2, ev2) ->
  exists nv' v, dev_read junk nid s nv (items_bytes its ++ t) = Ok (s2, nv', ev2, v) /\
    glo_story sv (ecbs h) (gcbs h) (g_hist sv (glog junk (nav_init st) sv h)) (n_time nv) (sfr_pls (map DUbx its)) v.
Proof. exact (glo_device junk st u ru n s ls nid h nv ev0 sv its t s2 ev2). Qed.
Print Assumptions C82_glonass_from_the_port.
Theorem C82_glonass_from_the_port_base junk st u ru n s ls nid h nv ev0 sv ds s2 ev2 :
  uninit_ok u -> runinit_ok ru -> UReach u ru n s -> u_type s = T_BASE ->
  Forall listener_ok ls -> (forall l, In l ls -> lid l <> nid) -> u_ls s = map build (mkListener nid [(0x02, 0x13)] :: ls) ->
  junk_ok junk -> (forall sv, 1 <= sv <= 255 -> st (sv - 1) = repeat 0 380) -> (forall o, In o h -> calm o) -> nav_run junk (nav_init st) h = Ok (nv, ev0) ->
  parsing_message (u_ubx s) = false -> rtcm_parsing (u_rtcm s) = false -> ditems_ok (prev (u_ubx s)) ds -> bytes_ok (ditems_bytes ds) ->
  (forall pl, In pl (sfr_pls ds) -> before2038 pl) -> ublox_read s (ditems_bytes ds) = Ok (s2, ev2) ->
  exists nv' v, dev_read junk nid s nv (ditems_bytes ds) = Ok (s2, nv', ev2, v) /\
    glo_story sv (ecbs h) (gcbs h) (g_hist sv (glog junk (nav_init st) sv h)) (n_time nv) (sfr_pls ds) v.
Proof. exact (glo_device_base junk st u ru n s ls nid h nv ev0 sv ds s2 ev2). Qed.
Print Assumptions C82_glonass_from_the_port_base.
(* In particular, with the clock set: strings 1, 2 and 3 in any order and then string 4, of one superframe mark, all passing
   the check, with anything of other satellites, strings failing the check and almanac strings between, and no other accepted string 4
   of the satellite before or after: exactly one round of calls, in registration order, of a record with these strings'
   values and their times of day -- whatever was held before. *)
Theorem C82_one_set_one_ephemeris sv ecb gcb mk ka kb kc pa pb pc pd p0 p1 p2 p3 p4 T t v : sv <> 255 -> t <> mkUtc 0 0 -> Permutation [ka; kb; kc] [1; 2; 3] ->
  str_frame sv ka mk pa -> str_frame sv kb mk pb -> str_frame sv kc mk pc -> str_frame sv 4 mk pd ->
  Forall (outside sv) (p0 ++ p4) -> Forall (inside sv mk) (p1 ++ p2 ++ p3) ->
  glo_story sv ecb gcb T t (p0 ++ [pa] ++ p1 ++ [pb] ++ p2 ++ [pc] ++ p3 ++ [pd] ++ p4) v ->
  exists g m1 m2 m3 tof toe, filter (gev_for sv) v = map (fun c => EvGeph c g) gcb /\
    Permutation [(ka, pwords pa); (kb, pwords pb); (kc, pwords pc)] [(1, m1); (2, m2); (3, m3)] /\
    glo_content sv (nth 3 pd 0) (mkG mk (Some (m1, tof)) (Some (m2, toe)) (Some m3) (Some (pwords pd))) g /\ tod1 m1 tof /\ tod2 m2 toe.
Proof. exact (one_glo_set sv ecb gcb mk ka kb kc pa pb pc pd p0 p1 p2 p3 p4 T t v). Qed.
Print Assumptions C82_one_set_one_ephemeris.
(* hence, of the bytes on the port *)
Theorem C82_strings_from_the_port junk st u ru n s ls nid h nv ev0 sv its t s2 ev2 mk ka kb kc pa pb pc pd p0 p1 p2 p3 p4 :
  uninit_ok u -> runinit_ok ru -> UReach u ru n s -> u_type s <> T_BASE ->
  Forall listener_ok ls -> (forall l, In l ls -> lid l <> nid) -> u_ls s = map build (mkListener nid [(0x02, 0x13)] :: ls) ->
  junk_ok junk -> (forall sv, 1 <= sv <= 255 -> st (sv - 1) = repeat 0 380) -> (forall o, In o h -> calm o) -> nav_run junk (nav_init st) h = Ok (nv, ev0) ->
  parsing_message (u_ubx s) = false -> items_ok (prev (u_ubx s)) its -> tail_ok (items_last (prev (u_ubx s)) its) t -> bytes_ok (items_bytes its ++ t) ->
  (forall pl, In pl (sfr_pls (map DUbx its)) -> before2038 pl) -> ublox_read s (items_bytes its ++ t) = Ok (s2, ev2) ->
  Permutation [ka; kb; kc] [1; 2; 3] -> sv <> 255 -> n_time nv <> mkUtc 0 0 ->
  sfr_pls (map DUbx its) = p0 ++ [pa] ++ p1 ++ [pb] ++ p2 ++ [pc] ++ p3 ++ [pd] ++ p4 ->
  str_frame sv ka mk pa -> str_frame sv kb mk pb -> str_frame sv kc mk pc -> str_frame sv 4 mk pd ->
  Forall (outside sv) (p0 ++ p4) -> Forall (inside sv mk) (p1 ++ p2 ++ p3) ->
  exists nv' v g m1 m2 m3 tof toe, dev_read junk nid s nv (items_bytes its ++ t) = Ok (s2, nv', ev2, v) /\
    filter (gev_for sv) v = map (fun c => EvGeph c g) (gcbs h) /\
    Permutation [(ka, pwords pa); (kb, pwords pb); (kc, pwords pc)] [(1, m1); (2, m2); (3, m3)] /\
    glo_content sv (nth 3 pd 0) (mkG mk (Some (m1, tof)) (Some (m2, toe)) (Some m3) (Some (pwords pd))) g /\ tod1 m1 tof /\ tod2 m2 toe.
Proof.
  intros Hu Hru HR HT Hls HL EL HJ HZ HC HN HPm Hok Ht Hb HB E2 HP N5 NT ES Fa Fb Fc Fd HO HI.
  destruct (glo_device junk st u ru n s ls nid h nv ev0 sv its t s2 ev2 Hu Hru HR HT Hls HL EL HJ HZ HC HN HPm Hok Ht Hb HB E2) as (nv' & v & R & S). rewrite ES in S.
  destruct (one_glo_set sv _ _ mk ka kb kc pa pb pc pd p0 p1 p2 p3 p4 _ _ v N5 NT HP Fa Fb Fc Fd HO HI S) as (g & m1 & m2 & m3 & tof & toe & X).
  exists nv', v, g, m1, m2, m3, tof, toe. split; [exact R|exact X].
Qed.
Print Assumptions C82_strings_from_the_port.
Theorem C82_strings_from_the_port_base junk st u ru n s ls nid h nv ev0 sv ds s2 ev2 mk ka kb kc pa pb pc pd p0 p1 p2 p3 p4 :
  uninit_ok u -> runinit_ok ru -> UReach u ru n s -> u_type s = T_BASE ->
  Forall listener_ok ls -> (forall l, In l ls -> lid l <> nid) -> u_ls s = map build (mkListener nid [(0x02, 0x13)] :: ls) ->
  junk_ok junk -> (forall sv, 1 <= sv <= 255 -> st (sv - 1) = repeat 0 380) -> (forall o, In o h -> calm o) -> nav_run junk (nav_init st) h = Ok (nv, ev0) ->
  parsing_message (u_ubx s) = false -> rtcm_parsing (u_rtcm s) = false -> ditems_ok (prev (u_ubx s)) ds -> bytes_ok (ditems_bytes ds) ->
  (forall pl, In pl (sfr_pls ds) -> before2038 pl) -> ublox_read s (ditems_bytes ds) = Ok (s2, ev2) ->
  Permutation [ka; kb; kc] [1; 2; 3] -> sv <> 255 -> n_time nv <> mkUtc 0 0 ->
  sfr_pls ds = p0 ++ [pa] ++ p1 ++ [pb] ++ p2 ++ [pc] ++ p3 ++ [pd] ++ p4 ->
  str_frame sv ka mk pa -> str_frame sv kb mk pb -> str_frame sv kc mk pc -> str_frame sv 4 mk pd ->
  Forall (outside sv) (p0 ++ p4) -> Forall (inside sv mk) (p1 ++ p2 ++ p3) ->
  exists nv' v g m1 m2 m3 tof toe, dev_read junk nid s nv (ditems_bytes ds) = Ok (s2, nv', ev2, v) /\
    filter (gev_for sv) v = map (fun c => EvGeph c g) (gcbs h) /\
    Permutation [(ka, pwords pa); (kb, pwords pb); (kc, pwords pc)] [(1, m1); (2, m2); (3, m3)] /\
    glo_content sv (nth 3 pd 0) (mkG mk (Some (m1, tof)) (Some (m2, toe)) (Some m3) (Some (pwords pd))) g /\ tod1 m1 tof /\ tod2 m2 toe.
Proof.
  intros Hu Hru HR HT Hls HL EL HJ HZ HC HN HPm HRp Hok Hb HB E2 HP N5 NT ES Fa Fb Fc Fd HO HI.
  destruct (glo_device_base junk st u ru n s ls nid h nv ev0 sv ds s2 ev2 Hu Hru HR HT Hls HL EL HJ HZ HC HN HPm HRp Hok Hb HB E2) as (nv' & v & R & S). rewrite ES in S.
  destruct (one_glo_set sv _ _ mk ka kb kc pa pb pc pd p0 p1 p2 p3 p4 _ _ v N5 NT HP Fa Fb Fc Fd HO HI S) as (g & m1 & m2 & m3 & tof & toe & X).
  exists nv', v, g, m1, m2, m3, tof, toe. split; [exact R|exact X].
Qed.
Print Assumptions C82_strings_from_the_port_base.

(* ---------------------------------------------------------------- examples *)
(* satellite 19: words 2, 4, 1, 3, 6, 0, 5, a frame of GPS satellite 21 and noise between *)
Definition gpl (ws : list Z) : list Z := sfr_pl 2 19 ws.
Definition gx : list item :=
  [Noise 1; Noise 0xB5; Good 2 0x13 (gpl p2); Noise 0xB5; Good 2 0x13 (gpl p4); Noise 0xB5; Good 2 0x13 (sfr_pl 0 21 w0); Noise 0xB5; Good 2 0x13 (gpl p1); Noise 0xB5;
   Good 2 0x13 (gpl p3); Noise 0xB5; Good 2 0x13 (gpl p6); Noise 0xB5; Good 2 0x13 (gpl p0); Noise 0xB5; Good 2 0x13 (gpl p5); Noise 7].
Definition gW (k : Z) : Z := inav (pwords (gpl (nth (Z.to_nat k) [p0; p1; p2; p3; p4; p5; p6] []))).
Lemma gx_page k : 0 <= k <= 6 -> is_page k (gW k) (pwords (gpl (nth (Z.to_nat k) [p0; p1; p2; p3; p4; p5; p6] []))).
Proof.
  intros H. assert (C : k = 0 \/ k = 1 \/ k = 2 \/ k = 3 \/ k = 4 \/ k = 5 \/ k = 6) by lia.
  destruct C as [->|[->|[->|[->|[->|[->| ->]]]]]]; (split; [vm_compute; reflexivity|split; [reflexivity|vm_compute; reflexivity]]).
Qed.
Example C81_hypotheses : UReach u0 ru0 0 dv /\ u_type dv <> T_BASE /\ u_ls dv = map build (mkListener 77 [(2, 0x13)] :: [l9]) /\
  row_ok (gst (19 - 1)) /\ nav_run junk0 (nav_init gst) [NEcb 7] = Ok (nav_ecb (nav_init gst) 7, []) /\ parsing_message (u_ubx dv) = false /\ items_ok (prev (u_ubx dv)) gx /\
  bytes_ok (items_bytes gx ++ []) /\ gal_stream 19 (map DUbx gx) /\ one_set gW (gal_pages 19 (map DUbx gx)) /\ set_agrees gW = true.
Proof.
  split; [exact d1_reach|]. split; [vm_compute; discriminate|]. split; [vm_compute; reflexivity|]. split; [exact (proj1 zero_row)|].
  split; [reflexivity|]. split; [vm_compute; reflexivity|]. split.
  { assert (EP : prev (u_ubx dv) <> 0xB5) by (vm_compute; discriminate). cbn [gx app items_ok item_ok item_last item_bytes last].
    repeat split; try lia; try (vm_compute; congruence); intros [? ?]; discriminate. }
  split; [apply bytes_ok_dec; vm_compute; reflexivity|]. split.
  { intros pl Hp. cbv [sfr_pls gx map flat_map Z.eqb Pos.eqb andb app] in Hp. cbn [In] in Hp.
    repeat (destruct Hp as [<-|Hp]; [split; [vm_compute; discriminate|intros E; split; [vm_compute; discriminate || (vm_compute in E; discriminate)|intros _; vm_compute; discriminate || (vm_compute in E; discriminate)]]|]). contradiction. }
  split; [|vm_compute; reflexivity].
  exists [4; 1; 3; 6; 0; 5], (pwords (gpl p2)), (map (fun p => pwords (gpl p)) [p4; p1; p3; p6; p0; p5]). split; [vm_compute; reflexivity|]. split.
  { apply NoDup_Permutation; [repeat constructor; cbn [In]; intuition discriminate|repeat constructor; cbn [In]; intuition discriminate|intros x; cbn [In]; intuition]. }
  split; [exact (gx_page 2 ltac:(lia))|]. cbn [map].
  repeat apply Forall2_cons; try apply Forall2_nil; [exact (gx_page 4 ltac:(lia))|exact (gx_page 1 ltac:(lia))|exact (gx_page 3 ltac:(lia))|exact (gx_page 6 ltac:(lia))|exact (gx_page 0 ltac:(lia))|exact (gx_page 5 ltac:(lia))].
Qed.
Example C81_case : dshown (dev_read junk0 77 dv (nav_ecb (nav_init gst) 7) (items_bytes gx)) = Some [(FN_PRINT, []); (7, [19; 2; 2078; 74; 1573014018; 1573014018])].
Proof. vm_compute. reflexivity. Qed.

(* GLONASS satellite 4: strings 2, 1, a spoilt string 4, an almanac string of another satellite, 3, then 4; callback 8 *)
Definition gpls (sv mk : Z) (ws : list Z) : list Z := [6; sv; 0; 13; 4; 0; 2; 0] ++ flat_map le32 (ws ++ [mk * 65536]).
Definition hist1 : list nop := [NTime (mkUtc 1563660018 0); NGcb 8].
Definition nvg : nav := nav_gcb (nav_settime (nav_init gst) (mkUtc 1563660018 0)) 8.
Definition bad4 := [0x24a4eab2; 0x1334; 0x448da800].
Definition hx : list item :=
  [Noise 0xB5; Good 2 0x13 (gpls 4 9 str2); Noise 0xB5; Good 2 0x13 (gpls 4 9 str1); Noise 0xB5; Good 2 0x13 (gpls 4 9 bad4); Noise 0xB5;
   Good 2 0x13 (gpls 5 9 str4); Noise 0xB5; Good 2 0x13 (gpls 4 9 str3); Noise 0xB5; Good 2 0x13 (gpls 4 9 str4)].
Example C82_hypotheses : nav_run gjunk (nav_init gst) hist1 = Ok (nvg, []) /\ (forall o, In o hist1 -> calm o) /\ items_ok (prev (u_ubx dv)) hx /\
  bytes_ok (items_bytes hx ++ []) /\ (forall pl, In pl (sfr_pls (map DUbx hx)) -> before2038 pl) /\ n_time nvg <> mkUtc 0 0 /\
  sfr_pls (map DUbx hx) = [] ++ [gpls 4 9 str2] ++ [] ++ [gpls 4 9 str1] ++ [gpls 4 9 bad4; gpls 5 9 str4] ++ [gpls 4 9 str3] ++ [] ++ [gpls 4 9 str4] ++ [] /\
  str_frame 4 2 9 (gpls 4 9 str2) /\ str_frame 4 1 9 (gpls 4 9 str1) /\ str_frame 4 3 9 (gpls 4 9 str3) /\ str_frame 4 4 9 (gpls 4 9 str4) /\
  Forall (inside 4 9) [gpls 4 9 bad4; gpls 5 9 str4] /\ Permutation [2; 1; 3] [1; 2; 3] /\
  match ublox_read dv (items_bytes hx ++ []) with Ok _ => True | UB _ => False end.
Proof.
  split; [reflexivity|]. split.
  { intros o [<-|[<-|[]]]; cbn [calm]; [|exact I]. unfold normal. cbn [sec nsec]. lia. }
  split.
  { assert (EP : prev (u_ubx dv) <> 0xB5) by (vm_compute; discriminate). cbn [hx app items_ok item_ok item_last item_bytes last].
    repeat split; try lia; try (vm_compute; congruence); intros [? ?]; discriminate. }
  split; [apply bytes_ok_dec; vm_compute; reflexivity|]. split.
  { intros pl Hp. cbv [sfr_pls hx map flat_map Z.eqb Pos.eqb andb app] in Hp. cbn [In] in Hp.
    repeat (destruct Hp as [<-|Hp]; [split; [vm_compute; discriminate|split; [vm_compute; discriminate|split; intros E; vm_compute in E; discriminate]]|]). contradiction. }
  split; [discriminate|]. split; [vm_compute; reflexivity|]. split; [repeat split; vm_compute; reflexivity|]. split; [repeat split; vm_compute; reflexivity|].
  split; [repeat split; vm_compute; reflexivity|]. split; [repeat split; vm_compute; reflexivity|]. split.
  { repeat apply Forall_cons; try apply Forall_nil; intros E1 E2; vm_compute in E1, E2; discriminate. }
  split; [apply perm_swap|]. vm_compute. exact I.
Qed.
Example C82_case : match dev_read gjunk 77 dv nvg (items_bytes hx) with Ok (_, _, _, v) => Some (map gshow v) | UB _ => None end =
  Some [(-3, []); (-3, []); (-3, []); (-3, []); (-3, []); (8, [4; 6; 95; 6; 0; 3; 0; 1563655500; 0; 1563655950])].
Proof. vm_compute. reflexivity. Qed.
