(* C99: the example program read_serial, the whole of main.
   read_serial_main (ReadSerial.v): construction (rx1, rx2: what arrives during the two queries), the handler, the log file, the two ephemeris callbacks
   registered one after the other (si_before w, rb, rc: what arrives before, between and after).  Specification: `cut_queries` (C98), `starting` (C96),
   `shows` (C95, nothing displayed), `phase` (ReadSerial.v): the text of C91, frame by frame. *)
From Coq Require Import String.
From Verif Require Import Base UbxSpec UbxModel UbxProofs UbxStream UbxMain UbxMore UbxHist UbxApi
  UbxTx UbxTxSpec UbxTxApi CrcSpec RtcmModel RtcmSpec RtcmProofs RtcmApi UbloxModel UbloxSpec UbloxProofs UbloxApi UbloxThm UbloxCfg
  BitModel UtcModel UtcSpec Dbl NavModel NavSpec NavGpsSpec NavStrSpec NavGloSpec NavGalSpec NavObj NavGpsThm NavDev NavSafe NavWire DeviceSafe
  NavShow TextSpec ConsoleSpec Console ReportSpec ExShow ExShowThm RosModel RosSpec UtcShow UtcShowThm ExSat ExSatThm SerialProg LogProg UbloxStart StationProg StationStart StationMix StationCut ReadSerial.
From Verif Require Import UbxEx Properties_Rtcm Properties_Ublox Properties_NavGps Properties_NavGal Properties_NavDev Properties_Safe Properties_Examples Properties_Console Properties_Station Properties_Begin Properties_Mix Properties_Program.
Local Open Scope string_scope.
Local Open Scope list_scope.
Local Open Scope Z_scope.

(* bytes with clocks: with what was begun before (pa) they make the frames td and the beginning pb of another *)
Definition takes (pa rb : list (utc * Z)) (td : timed) (pb : list (utc * Z)) : Prop := timed_ok td /\ pa ++ rb = timed_bytes td ++ pb.
Definition handled (s : ublox) : ublox := ublox_register s (build (mkListener 2 [(0x02, 0x15); (0x01, 0x07)])).

(* from the start of main to its end, with everything cut anywhere: by the ends of the queries (q: begun when the driver is made), by the registration of
   the first callback (pa, at whatever clock) and of the second (pb), and by the interruption (tail).  Nothing is written after construction; if the log file cannot be
   opened the exception leaves main after the text of the first part *)
Theorem C99_serial log u ru out0 st w rx1 rx2 ds1 ds2 q s e0 ds0 pa rb tb pb rc tc tail s1 e1 s2 e2 s3 e3 : memory_ok u ru out0 st (si_junk w) -> greets u ds1 ds2 ->
  ctor u ru out0 1 (ditems_bytes ds1) (ditems_bytes ds2) = Ok (Some s, e0) -> cut_queries ds1 ds2 rx1 rx2 q ->
  q ++ si_before w = ditems_bytes ds0 ++ map snd pa -> takes pa rb tb pb -> takes pb rc tc tail ->
  no_rtcm ds0 -> meets (handled s) ds0 -> ublox_read (handled s) (ditems_bytes ds0) = Ok (s1, e1) -> unfinished T_NONE (prev (u_ubx s1)) (map snd pa) ->
  no_rtcm (frames tb) -> meets s1 (frames tb) -> ublox_read s1 (ditems_bytes (frames tb)) = Ok (s2, e2) -> unfinished T_NONE (prev (u_ubx s2)) (map snd pb) ->
  no_rtcm (frames tc) -> meets s2 (frames tc) -> ublox_read s2 (ditems_bytes (frames tc)) = Ok (s3, e3) -> unfinished T_NONE (prev (u_ubx s3)) (map snd tail) ->
  exists sx n0 n1 n2 n3 h2 h3 t0 t1 t2 t3 ev,
    read_serial_main log rb rc w u ru out0 (nav_init st) rx1 rx2 =
      Ok (match log with Some false => mkRun (Uncaught "Unable to open file") (t0 ++ t1) "" | _ => mkRun (Returns 0) (t0 ++ t1 ++ t2 ++ t3) "" end, ev) /\
    starting (si_junk w) (ublox_blank u ru out0 1) (nav_init st) ds1 ds2 sx n0 t0 /\ u_ubx s = u_ubx sx /\
    shows (si_junk w) false no_display (handled s) n0 (map FromPort ds0) s1 n1 t1 /\
    phase (si_junk w) 3 4 s1 (nav_ecb n1 3) [] tb s2 n2 h2 t2 /\ phase (si_junk w) 3 4 s2 (nav_gcb n2 4) h2 tc s3 n3 h3 t3 /\
    ser_of ev = queries ds1 ++ setup_writes (major (u_ubx s)) /\ rtk_of ev = [].
Proof.
  intros HM HG EC HQ HA (HTb & EB) (HTc & EC2) HN0 (A1 & A2 & A3) E1 HU1 HN1 (B1 & B2 & B3) E2 HU2 HN2 (C1 & C2 & C3) E3 HU3.
  pose proof HM as (Hu & Hru & Hz & HJ & Hst). pose proof HG as (HN & Hok & Hb & HC).
  unfold read_serial_main. rewrite (main_cut (serial_rest log rb rc) w u ru out0 st ds1 ds2 rx1 rx2 q _ _ (fun s n x r => serial_rest_late log rb rc w s n q x r) HJ Hu Hru Hz Hst HN Hok Hb HC EC HQ).
  destruct (C96_connected u ru out0 st (si_junk w) ds1 ds2 s e0 HM HG EC) as (sx & n0 & t0 & Q1 & Q2 & Q3 & (R1 & R2 & R3 & R4 & R5 & R6) & _ & Q6 & Q7).
  assert (EB2 : combine (map fst pa) (map snd pa) ++ rb = timed_bytes tb ++ pb) by (rewrite <- combine_split; exact EB).
  assert (HLn : length (map fst pa) = length (map snd pa)) by (rewrite !map_length; reflexivity).
  destruct (serial_whole log u ru s n0 (early q w) ds0 (map snd pa) (map fst pa) rb tb pb rc tc tail s1 e1 s2 e2 s3 e3 Hu Hru HJ R1 R2 R3 R4 R5 R6 HA HLn EB2 EC2 HTb HTc HN0 A1 A2 A3 E1 HU1 HN1 B1 B2 B3 E2 HU2 HN2 C1 C2 C3 E3 HU3)
    as (n1 & n2 & n3 & h2 & h3 & t1 & t2 & t3 & ev & P1 & P2 & P3 & P4 & P5 & P6).
  exists sx, n0, n1, n2, n3, h2, h3, t0, t1, t2, t3, (e0 ++ ev). split.
  { unfold station_main. change (si_junk (early q w)) with (si_junk w). rewrite Q1. cbn [bind]. rewrite P4. cbn [bind]. destruct log as [[|]|]; reflexivity. }
  split; [exact Q2|]. split; [exact Q3|]. split; [exact P1|]. split; [exact P2|]. split; [exact P3|].
  split; [rewrite ser_of_app, Q6, P5, app_nil_r; reflexivity|rewrite rtk_of_app, Q7; exact P6].
Qed.
Print Assumptions C99_serial.
(* no version reply: the exception of the constructor leaves main *)
Theorem C99_refused log rb rc u ru out0 st w rx1 rx2 ds1 ds2 q ev : memory_ok u ru out0 st (si_junk w) -> greets u ds1 ds2 ->
  ctor u ru out0 1 (ditems_bytes ds1) (ditems_bytes ds2) = Ok (None, ev) -> cut_queries ds1 ds2 rx1 rx2 q ->
  exists s n t, starting (si_junk w) (ublox_blank u ru out0 1) (nav_init st) ds1 ds2 s n t /\
    read_serial_main log rb rc w u ru out0 (nav_init st) rx1 rx2 = Ok (mkRun (Uncaught "Unable to connect.  Please check your serial port configuration") t "", ev) /\
    existsb is_ver (ds1 ++ ds2) = false /\ ser_of ev = ver_poll ++ ver_poll /\ rtk_of ev = [].
Proof.
  intros HM HG EC HQ. pose proof HM as (Hu & Hru & Hz & HJ & Hst). pose proof HG as (HN & Hok & Hb & HC).
  unfold read_serial_main. rewrite (main_cut (serial_rest log rb rc) w u ru out0 st ds1 ds2 rx1 rx2 q _ _ (fun s n x r => serial_rest_late log rb rc w s n q x r) HJ Hu Hru Hz Hst HN Hok Hb HC EC HQ).
  destruct (connecting_shows (si_junk w) u ru out0 st ds1 ds2 None ev HJ Hu Hru Hz Hst HN Hok Hb HC EC) as (n & t & sx & Q1 & Q2 & _ & Q4 & Q5 & Q6).
  exists sx, n, t. split; [exact Q2|]. unfold station_main. change (si_junk (early q w)) with (si_junk w). rewrite Q1. auto.
Qed.
Print Assumptions C99_refused.
(* the specification leaves no choice (starting: C96_text_determined) *)
Theorem C99_text_determined junk s n ds tb tc s1 n1 t1 s2 n2 h2 t2 s3 n3 h3 t3 s1' n1' t1' s2' n2' h2' t2' s3' n3' h3' t3' :
  shows junk false no_display s n (map FromPort ds) s1 n1 t1 -> phase junk 3 4 s1 (nav_ecb n1 3) [] tb s2 n2 h2 t2 -> phase junk 3 4 s2 (nav_gcb n2 4) h2 tc s3 n3 h3 t3 ->
  shows junk false no_display s n (map FromPort ds) s1' n1' t1' -> phase junk 3 4 s1' (nav_ecb n1' 3) [] tb s2' n2' h2' t2' -> phase junk 3 4 s2' (nav_gcb n2' 4) h2' tc s3' n3' h3' t3' ->
  t1' = t1 /\ t2' = t2 /\ t3' = t3.
Proof.
  intros A B C A' B' C'. destruct (shows_fun junk false no_display (fun _ => "") no_displays _ _ _ _ _ _ _ _ _ A A') as (<- & <- & <-).
  assert (NE : n_ecb (nav_ecb n1 3) <> []) by (cbn [nav_ecb n_ecb]; destruct (n_ecb n1); discriminate).
  destruct (phase_fun junk 3 4 tb _ _ _ _ _ _ _ _ _ _ _ NE B B') as (<- & <- & <- & <- & X).
  assert (NE2 : n_ecb (nav_gcb n2 4) <> []) by (change (n_ecb (nav_gcb n2 4)) with (n_ecb n2); rewrite X; exact NE).
  destruct (phase_fun junk 3 4 tc _ _ _ _ _ _ _ _ _ _ _ NE2 C C') as (_ & _ & _ & <- & _). auto.
Qed.
Print Assumptions C99_text_determined.

(* ---------------------------------------------------------------- case: the three subframes of GPS satellite 21, the first divided by the end of the second query,
   the second by the registration of the first callback, the third by that of the second; the interruption comes inside a fourth frame *)
Definition k1 : list Z := ditem_bytes (DUbx (Good 2 0x13 (sfr_pl 0 21 v1))).
Definition k2 : list Z := ditem_bytes (DUbx (Good 2 0x13 (sfr_pl 0 21 w4))).
Definition k3 : list Z := ditem_bytes (DUbx (Good 2 0x13 (sfr_pl 0 21 w0))).
Definition z0 : utc := mkUtc 0 0.
Definition at0 (l : list Z) : list (utc * Z) := map (pair z0) l.
Definition rxA : list Z := ditems_bytes g1.
Definition rxB : list Z := ditems_bytes g2 ++ firstn 5 k1.
Definition rw : site := mkSite junk0 (rtcm_init ru0) true (skipn 5 k1 ++ [7] ++ firstn 9 k2) [].
Definition rbx : list (utc * Z) := at0 (skipn 9 k2 ++ [10] ++ firstn 11 k3).
Definition rcx : list (utc * Z) := at0 (firstn (length k3 - 12) (skipn 11 k3)) ++ [(mkUtc 1563664000 0, last k3 0)] ++ at0 (firstn 3 k1).
Definition dA : list ditem := [DUbx (Good 2 0x13 (sfr_pl 0 21 v1)); DNoise 7].
Definition tB : timed := [(DUbx (Good 2 0x13 (sfr_pl 0 21 w4)), repeat z0 (length k2)); (DNoise 10, [z0])].
Definition tC : timed := [(DUbx (Good 2 0x13 (sfr_pl 0 21 w0)), repeat z0 (length k3 - 1) ++ [mkUtc 1563664000 0])].
Definition sA : ublox := Eval vm_compute in st_or (handled sg) (ublox_read (handled sg) (ditems_bytes dA)).
Definition sB : ublox := Eval vm_compute in st_or sA (ublox_read sA (ditems_bytes (frames tB))).
Definition sC : ublox := Eval vm_compute in st_or sB (ublox_read sB (ditems_bytes (frames tC))).
Example C99_hypotheses : cut_queries g1 g2 rxA rxB (firstn 5 k1) /\ firstn 5 k1 ++ si_before rw = ditems_bytes dA ++ map snd (at0 (firstn 9 k2)) /\
  takes (at0 (firstn 9 k2)) rbx tB (at0 (firstn 11 k3)) /\ takes (at0 (firstn 11 k3)) rcx tC (at0 (firstn 3 k1)) /\
  (no_rtcm dA /\ meets (handled sg) dA) /\ (no_rtcm (frames tB) /\ meets sA (frames tB)) /\ (no_rtcm (frames tC) /\ meets sB (frames tC)) /\
  (exists e1 e2 e3, ublox_read (handled sg) (ditems_bytes dA) = Ok (sA, e1) /\ ublox_read sA (ditems_bytes (frames tB)) = Ok (sB, e2) /\ ublox_read sB (ditems_bytes (frames tC)) = Ok (sC, e3)) /\
  unfinished T_NONE (prev (u_ubx sA)) (map snd (at0 (firstn 9 k2))) /\ unfinished T_NONE (prev (u_ubx sB)) (map snd (at0 (firstn 11 k3))) /\ unfinished T_NONE (prev (u_ubx sC)) (map snd (at0 (firstn 3 k1))).
Proof.
  assert (HO : forall before k d, ditem_ok before d -> no_rtcm [d] -> forallb (fun b => (0 <=? b) && (b <? 256)) (ditem_bytes d) = true -> skipn k (ditem_bytes d) <> [] -> unfinished T_NONE before (firstn k (ditem_bytes d))).
  { intros before k d H1 H2 H3 H4. right. exists d, (skipn k (ditem_bytes d)). split; [right; exact H2|]. split; [exact H1|]. split; [apply bytes_ok_dec; exact H3|]. split; [exact H4|symmetry; apply firstn_skipn]. }
  assert (W : forall g sv ws, 0 <= g < 256 -> 0 <= sv < 256 -> length ws = 10%nat -> msg_ok (msg g sv ws)) by (intros; apply words_ok; assumption).
  assert (HC : forall l, (l = [msg 0 21 v1] \/ l = [msg 0 21 w4] \/ l = [msg 0 21 w0]) -> forall m, In m l -> calm (NMsg m)).
  { intros l [->|[->| ->]] m [<-|[]]; (split; [apply W; [lia|lia|reflexivity]|]); (split; [intros _ _; vm_compute; congruence|intros X; vm_compute in X; congruence]). }
  assert (HN : forall ds, forallb (fun d => match d with DRtcm _ => false | _ => true end) ds = true -> no_rtcm ds).
  { intros ds H it Hin. rewrite forallb_forall in H. specialize (H _ Hin). discriminate H. }
  assert (MS : forall l : list Z, map snd (at0 l) = l) by (induction l as [|b l IH]; [reflexivity|cbn [at0 map snd]; f_equal; exact IH]). rewrite !MS.
  assert (HP : forall x t, x = mkUtc 1563664000 0 \/ x = z0 -> In t [x] -> printable t) by (intros x t [->| ->] [<-|[]]; unfold printable, z0; cbn; lia).
  assert (HR : forall n, Forall printable (repeat z0 n)).
  { intros n. apply Forall_forall. intros t Ht. apply repeat_spec in Ht. subst t. exact (HP z0 z0 (or_intror eq_refl) (or_introl eq_refl)). }
  split; [|split; [vm_compute; reflexivity|split; [split|split; [split|split; [split|split; [split|split; [split|split; [|split; [|split]]]]]]]]].
  - exists (firstn 0 k1). split; [vm_compute; reflexivity|]. split; [left; reflexivity|]. change (existsb is_ver g1) with false. cbv iota. split; [vm_compute; reflexivity|].
    apply (HO _ 5%nat (DUbx (Good 2 0x13 (sfr_pl 0 21 v1)))); [cbn [ditem_ok item_ok]; repeat split; try lia; vm_compute; congruence|apply HN; reflexivity|vm_compute; reflexivity|vm_compute; discriminate].
  - constructor; [split; [cbn [fst snd]; rewrite repeat_length; reflexivity|apply HR]|]. constructor; [split; [reflexivity|exact (HR 1%nat)]|constructor].
  - vm_compute. reflexivity.
  - constructor; [|constructor]. split; [vm_compute; reflexivity|]. cbn [snd]. apply Forall_app. split; [apply HR|]. apply Forall_forall. intros t. apply HP. left. reflexivity.
  - vm_compute. reflexivity.
  - apply HN. reflexivity.
  - split; [cbn [dA ditems_ok ditem_ok item_ok ditem_last is_noise]; repeat split; try lia; try (vm_compute; congruence); intros [? ?]; lia|]. split; [apply bytes_ok_dec; vm_compute; reflexivity|]. apply HC. left. vm_compute. reflexivity.
  - apply HN. reflexivity.
  - split; [cbn [tB frames map fst ditems_ok ditem_ok item_ok ditem_last is_noise]; repeat split; try lia; try (vm_compute; congruence); intros [? ?]; lia|]. split; [apply bytes_ok_dec; vm_compute; reflexivity|]. apply HC. right. left. vm_compute. reflexivity.
  - apply HN. reflexivity.
  - split; [cbn [tC frames map fst ditems_ok ditem_ok item_ok ditem_last is_noise]; repeat split; try lia; try (vm_compute; congruence); intros [? ?]; lia|]. split; [apply bytes_ok_dec; vm_compute; reflexivity|]. apply HC. right. right. vm_compute. reflexivity.
  - eexists _, _, _. split; [vm_compute; reflexivity|]. split; vm_compute; reflexivity.
  - apply (HO _ 9%nat (DUbx (Good 2 0x13 (sfr_pl 0 21 w4)))); [cbn [ditem_ok item_ok]; repeat split; try lia; vm_compute; congruence|apply HN; reflexivity|vm_compute; reflexivity|vm_compute; discriminate].
  - apply (HO _ 11%nat (DUbx (Good 2 0x13 (sfr_pl 0 21 w0)))); [cbn [ditem_ok item_ok]; repeat split; try lia; vm_compute; congruence|apply HN; reflexivity|vm_compute; reflexivity|vm_compute; discriminate].
  - apply (HO _ 3%nat (DUbx (Good 2 0x13 (sfr_pl 0 21 v1)))); [cbn [ditem_ok item_ok]; repeat split; try lia; vm_compute; congruence|apply HN; reflexivity|vm_compute; reflexivity|vm_compute; discriminate].
Qed.
Example C99_case : match read_serial_main None rbx rcx rw u0 ru0 out00 (nav_init st0) rxA rxB with
  | Ok (r, ev) => r = mkRun (Returns 0) (greeting ++
      line "!!!!!!!!!!!!!!!!!!!!!!!!!!!!!!!!!!!!!!!!!!!!!!!!!!!!!!!!!!" ++ line "GPS sat: 21, now = 2019/7/20 23:6:40, toe = 2019/7/20 22:0:18, tof = 2019/7/20 22:0:18" ++
      line "!!!!!!!!!!!!!!!!!!!!!!!!!!!!!!!!!!!!!!!!!!!!!!!!!!!!!!!!!!" ++ line "Total GPS: 1: 21, ")%string "" /\ length (ser_of ev) = 108%nat
  | _ => False end.
Proof. vm_compute. split; reflexivity. Qed.
