(* C80: from the bytes on the port to the user's GPS ephemeris callbacks. *)
From Coq Require Import Permutation.
From Verif Require Import Base UbxSpec UbxModel UbxProofs UbxStream UbxMain UbxMore UbxHist UbxApi UbxEx
  UbxTx UbxTxSpec UbxTxApi CrcSpec RtcmModel RtcmSpec RtcmProofs RtcmApi Properties_Rtcm UbloxModel UbloxSpec UbloxProofs UbloxApi UbloxThm Properties_Ublox
  BitModel UtcModel UtcSpec Dbl NavModel NavSpec NavGpsSpec NavObj NavGpsThm NavGpsApi NavIso Properties_NavGps NavDev Properties_NavDev NavWire.
Local Open Scope Z_scope.

(* A UBLOX object s of any history outside base mode, between frames; its parser nv after any history h that left nothing
   pending for satellite sv.  The bytes received are a segmented stream its (and possibly an unfinished rest t) that
   contains three RXM-SFRBX frames with subframes ka, kb, kc -- 1, 2, 3 in some order -- of issue i of that satellite, with
   anything unrelated before, between and after them.  Then the calls made to ephemeris callbacks for that satellite are
   exactly: none if subframe 3 came first and the issue held from before was not i; otherwise one call of each registered
   callback, in registration order, with a record holding the transmitted values (gps_content). *)
Theorem C80_gps_from_the_port junk st u ru n s ls nid h nv ev0 sv i ka kb kc pa pb pc i0 i1 i2 i3 t s' nv' ev v :
  uninit_ok u -> runinit_ok ru -> bytes_ok (un_inbuf u) -> UReach u ru n s -> u_type s <> T_BASE ->
  Forall listener_ok ls -> (forall l, In l ls -> lid l <> nid) -> u_ls s = map build (mkListener nid [(0x02, 0x13)] :: ls) ->
  junk_ok junk -> msgs_ok h -> no_galileo sv h -> no_pending sv h -> nav_run junk (nav_init st) h = Ok (nv, ev0) ->
  forall its, its = i0 ++ [Good 0x02 0x13 pa] ++ i1 ++ [Good 0x02 0x13 pb] ++ i2 ++ [Good 0x02 0x13 pc] ++ i3 ->
  parsing_message (u_ubx s) = false -> items_ok (prev (u_ubx s)) its -> tail_ok (items_last (prev (u_ubx s)) its) t -> bytes_ok (items_bytes its ++ t) ->
  Forall (unrelated sv) (i0 ++ i1 ++ i2 ++ i3) -> Permutation [ka; kb; kc] [1; 2; 3] ->
  carries sv ka i pa -> carries sv kb i pb -> carries sv kc i pc ->
  dev_read junk nid s nv (items_bytes its ++ t) = Ok (s', nv', ev, v) ->
  (ka = 3 -> cur (t_hist sv h) <> i -> filter (ev_for sv) v = []) /\
  (ka <> 3 \/ cur (t_hist sv h) = i -> exists d m1 m2 m3, filter (ev_for sv) v = map (fun n => EvEph n d) (ecbs h) /\ gps_content sv m1 m2 m3 d /\
     Permutation [(ka, pl_words pa); (kb, pl_words pb); (kc, pl_words pc)] [(1, m1); (2, m2); (3, m3)]).
Proof. exact (wire_nonbase junk st u ru n s ls nid h nv ev0 sv i ka kb kc pa pb pc i0 i1 i2 i3 t s' nv' ev v). Qed.
Print Assumptions C80_gps_from_the_port.
(* the same in base mode, the frames mixed with RTCM frames *)
Theorem C80_gps_from_the_port_base junk st u ru n s ls nid h nv ev0 sv i ka kb kc pa pb pc d0 d1 d2 d3 s' nv' ev v :
  uninit_ok u -> runinit_ok ru -> bytes_ok (un_inbuf u) -> UReach u ru n s -> u_type s = T_BASE ->
  Forall listener_ok ls -> (forall l, In l ls -> lid l <> nid) -> u_ls s = map build (mkListener nid [(0x02, 0x13)] :: ls) ->
  junk_ok junk -> msgs_ok h -> no_galileo sv h -> no_pending sv h -> nav_run junk (nav_init st) h = Ok (nv, ev0) ->
  forall ds, ds = d0 ++ [DUbx (Good 0x02 0x13 pa)] ++ d1 ++ [DUbx (Good 0x02 0x13 pb)] ++ d2 ++ [DUbx (Good 0x02 0x13 pc)] ++ d3 ->
  parsing_message (u_ubx s) = false -> rtcm_parsing (u_rtcm s) = false -> ditems_ok (prev (u_ubx s)) ds -> bytes_ok (ditems_bytes ds) ->
  Forall (dunrelated sv) (d0 ++ d1 ++ d2 ++ d3) -> Permutation [ka; kb; kc] [1; 2; 3] ->
  carries sv ka i pa -> carries sv kb i pb -> carries sv kc i pc ->
  dev_read junk nid s nv (ditems_bytes ds) = Ok (s', nv', ev, v) ->
  (ka = 3 -> cur (t_hist sv h) <> i -> filter (ev_for sv) v = []) /\
  (ka <> 3 \/ cur (t_hist sv h) = i -> exists d m1 m2 m3, filter (ev_for sv) v = map (fun n => EvEph n d) (ecbs h) /\ gps_content sv m1 m2 m3 d /\
     Permutation [(ka, pl_words pa); (kb, pl_words pb); (kc, pl_words pc)] [(1, m1); (2, m2); (3, m3)]).
Proof. exact (wire_base junk st u ru n s ls nid h nv ev0 sv i ka kb kc pa pb pc d0 d1 d2 d3 s' nv' ev v). Qed.
Print Assumptions C80_gps_from_the_port_base.

(* ---------------------------------------------------------------- examples *)
(* a receiver switched on in the middle of a frame: subframes 2, 3, 4 or 5, then 1 of satellite 21, one of satellite 20 and
   a BeiDou message between; callback 7 registered *)
Definition x0 : list item := [Noise 1; Noise 0xB5].
Definition x1 : list item := [Noise 0xB5].
Definition x2 : list item := [Noise 0xB5; Good 2 0x13 (sfr_pl 0 21 w1); Noise 9; Noise 0xB5; Good 2 0x13 (sfr_pl 0 20 w0); Noise 0xB5; Good 2 0x13 (sfr_pl 3 21 w0); Noise 0xB5].
Definition x3 : list item := [Noise 5].
Definition xs : list item := x0 ++ [Good 2 0x13 (sfr_pl 0 21 w4)] ++ x1 ++ [Good 2 0x13 (sfr_pl 0 21 w0)] ++ x2 ++ [Good 2 0x13 (sfr_pl 0 21 v1)] ++ x3.
Lemma u0_bytes : bytes_ok (un_inbuf u0).
Proof. apply bytes_ok_dec. vm_compute. reflexivity. Qed.
Lemma carries_ex k ws : length ws = 10%nat -> gps_id (pl_words (sfr_pl 0 21 ws)) = k -> gps_issue (pl_words (sfr_pl 0 21 ws)) = 78 -> carries 21 k 78 (sfr_pl 0 21 ws).
Proof.
  intros Hl H1 H2. unfold carries. split; [|repeat split; assumption].
  do 10 (destruct ws as [|? ws]; [discriminate|]). destruct ws; [|discriminate]. unfold Zlen. cbn [sfr_pl flat_map le32 app length]. lia.
Qed.
Example C80_hypotheses : UReach u0 ru0 0 dv /\ u_type dv <> T_BASE /\ u_ls dv = map build (mkListener 77 [(2, 0x13)] :: [l9]) /\ bytes_ok (un_inbuf u0) /\
  no_pending 21 [NEcb 7] /\ nav_run junk0 (nav_init st0) [NEcb 7] = Ok (nav1, []) /\ parsing_message (u_ubx dv) = false /\ items_ok (prev (u_ubx dv)) xs /\
  bytes_ok (items_bytes xs ++ []) /\ Forall (unrelated 21) (x0 ++ x1 ++ x2 ++ x3) /\ Permutation [2; 3; 1] [1; 2; 3] /\
  carries 21 2 78 (sfr_pl 0 21 w4) /\ carries 21 3 78 (sfr_pl 0 21 w0) /\ carries 21 1 78 (sfr_pl 0 21 v1).
Proof.
  split; [exact d1_reach|]. split; [vm_compute; discriminate|]. split; [vm_compute; reflexivity|]. split; [exact u0_bytes|].
  split; [repeat split|]. split; [reflexivity|]. split; [vm_compute; reflexivity|]. split.
  { assert (EP : prev (u_ubx dv) <> 0xB5) by (vm_compute; discriminate). cbn [xs x0 x1 x2 x3 app items_ok item_ok item_last item_bytes last].
    repeat split; try lia; try (vm_compute; congruence); intros [? ?]; discriminate. }
  split; [apply bytes_ok_dec; vm_compute; reflexivity|]. split.
  { cbn [x0 x1 x2 x3 app]. repeat apply Forall_cons; try apply Forall_nil; try exact I; cbn [unrelated]; intros _ _; (split; [vm_compute; discriminate|]).
    - intros _. split; [vm_compute; discriminate|]. intros _. vm_compute. repeat split; discriminate.
    - intros H. vm_compute in H. discriminate.
    - intros _. split; [vm_compute; discriminate|]. intros H. vm_compute in H. discriminate. }
  split; [apply perm_trans with [2; 1; 3]; [apply perm_skip, perm_swap|apply perm_swap]|].
  split; [|split]; apply carries_ex; vm_compute; reflexivity.
Qed.
Example C80_case : dshown (dev_read junk0 77 dv nav1 (items_bytes xs)) = Some [(FN_BEIDOU, []); (7, [21; 0; 2062; 78; 1563660018; 1563660018])].
Proof. vm_compute. reflexivity. Qed.
Definition db : ublox := Properties_Ublox.d2.
(* in base mode, an RTCM frame between the subframes *)
Definition ys : list ditem := [DNoise 1] ++ [DUbx (Good 2 0x13 (sfr_pl 0 21 w4))] ++ [DRtcm (RGood rf0)] ++ [DUbx (Good 2 0x13 (sfr_pl 0 21 w0))] ++
  [DUbx (Good 2 0x13 (sfr_pl 0 21 w1))] ++ [DUbx (Good 2 0x13 (sfr_pl 0 21 v1))] ++ [].
Example C80_base_case : UReach u0 ru0 1 db /\ u_type db = T_BASE /\ ditems_ok (prev (u_ubx db)) ys /\ bytes_ok (ditems_bytes ys) /\
  Forall (dunrelated 21) ([DNoise 1] ++ [DRtcm (RGood rf0)] ++ [DUbx (Good 2 0x13 (sfr_pl 0 21 w1))] ++ []) /\
  dshown (dev_read junk0 77 db nav1 (ditems_bytes ys)) = Some [(7, [21; 0; 2062; 78; 1563660018; 1563660018])].
Proof.
  split; [exact d2_reach|]. split; [apply d2_facts|]. split.
  { assert (EP : prev (u_ubx db) <> 0xB5) by (vm_compute; discriminate).
    cbn [ys app ditems_ok ditem_ok item_ok ritem_ok is_noise is_rnoise ditem_last].
    destruct rf0_frame as [Hf _]. repeat split; try lia; try (exists 2; split; [lia|exact Hf]); vm_compute; congruence. }
  split; [apply bytes_ok_dec; vm_compute; reflexivity|]. split; [|vm_compute; reflexivity].
  cbn [app]. repeat apply Forall_cons; try apply Forall_nil; try exact I. cbn [dunrelated unrelated]. intros _ _. split; [vm_compute; discriminate|].
  intros _. split; [vm_compute; discriminate|]. intros _. vm_compute. repeat split; discriminate.
Qed.
