(* C91: everything the program read_serial prints while it receives.
   prog (SerialProg.v): the program over received bytes, each with the clock at that moment.  output: the text frame by frame, over
   said (ConsoleSpec, the driver), told (ReportSpec, the parser's report) and event_text (ExSatThm, the announcements with the totals). *)
From Coq Require Import String.
From Verif Require Import Base UbxSpec UbxModel UbxProofs UbxStream UbxMain UbxMore UbxHist UbxApi
  UbxTx UbxTxSpec UbxTxApi CrcSpec RtcmModel RtcmSpec RtcmProofs RtcmApi UbloxModel UbloxSpec UbloxProofs UbloxApi UbloxThm
  BitModel UtcModel UtcSpec Dbl NavModel NavSpec NavGpsSpec NavStrSpec NavGloSpec NavGalSpec NavObj NavGpsThm NavDev NavSafe DeviceSafe
  NavShow TextSpec ConsoleSpec Console ReportSpec ExShow UtcShow UtcShowThm ExSat ExSatThm SerialProg.
From Verif Require Import UbxEx Properties_Rtcm Properties_Ublox Properties_NavGps Properties_NavGal Properties_NavDev Properties_Safe.
Local Open Scope string_scope.
Local Open Scope list_scope.
Local Open Scope Z_scope.

(* a driver in any state between frames, a parser that got calm messages only so far (before 2038: C57), any stream of noise and UBX frames that
   the driver processes (C85 says which), any clock readings: the program does not fail, and its text is, frame by frame, the one specified *)
Theorem C91_text junk u ru k s n nid ec gc ls td s' ev : uninit_ok u -> runinit_ok ru -> junk_ok junk -> UReach u ru k s -> u_type s <> T_BASE -> calm_parser junk n ->
  Forall listener_ok ls -> (forall l, In l ls -> lid l <> nid) -> u_ls s = map build (mkListener nid [(0x02, 0x13)] :: ls) ->
  parsing_message (u_ubx s) = false -> rtcm_parsing (u_rtcm s) = false ->
  no_rtcm (frames td) -> ditems_ok (prev (u_ubx s)) (frames td) -> bytes_ok (ditems_bytes (frames td)) -> timed_ok td ->
  (forall m, In m (dsfr_msgs (inbuf (u_ubx s)) (frames td)) -> calm (NMsg m)) ->
  ublox_read s (ditems_bytes (frames td)) = Ok (s', ev) ->
  exists n' f' t, prog junk nid ec gc s n f_none (timed_bytes td) = Ok (s', n', f', t) /\ output junk ec gc s n [] td t /\
    (n_ecb n <> [] -> forall t', output junk ec gc s n [] td t' -> t' = t).
Proof.
  intros Hu Hru HJ HR HT HC Hls HL EL HP HRp HN Hok Hb HTd HM E.
  pose proof (reach_idle u ru k s (parser_and nid ls) Hu Hru HR EL HP HRp) as HId.
  assert (Hll : Forall listener_ok (parser_and nid ls)).
  { constructor; [|exact Hls]. constructor; [|constructor]. split; unfold byte_ok; cbn; lia. }
  assert (HCo : forall o, In o (flat_map (to_nav nid) ev) -> calm o).
  { destruct (plain_demux (u_type s) _ (frames td) s HN Hll HId Hok Hb) as [(x & EX & _)|[_ EX]]; [|congruence].
    match type of EX with _ = Ok (_, ?z) => assert (EV : ev = z) by congruence end. rewrite EV. unfold parser_and. rewrite (nav_of_events nid ls _ _ _ HL).
    intros o Ho. apply in_map_iff in Ho. destruct Ho as (m & <- & Hm). exact (HM m Hm). }
  destruct (program_text junk u ru k nid ec gc ls Hu Hru HJ Hls HL td s n f_none [] s' ev HR HT HId (calm_parser_si junk n HJ HC) (fi_none ec gc) HN Hok Hb HTd E HCo) as (n' & f' & t & EP & OT).
  exists n', f', t. split; [exact EP|]. split; [exact OT|]. intros NE t' OT'. exact (output_fun junk ec gc td s n [] t' t NE OT' OT).
Qed.
Print Assumptions C91_text.
(* a stream without version replies and navigation data: the program prints nothing at all *)
Theorem C91_silence junk u ru k s n nid ec gc ls td s' ev : uninit_ok u -> runinit_ok ru -> junk_ok junk -> UReach u ru k s -> u_type s <> T_BASE -> calm_parser junk n ->
  Forall listener_ok ls -> (forall l, In l ls -> lid l <> nid) -> u_ls s = map build (mkListener nid [(0x02, 0x13)] :: ls) ->
  parsing_message (u_ubx s) = false -> rtcm_parsing (u_rtcm s) = false ->
  no_rtcm (frames td) -> ditems_ok (prev (u_ubx s)) (frames td) -> bytes_ok (ditems_bytes (frames td)) -> timed_ok td ->
  (forall cls id pl, In (DUbx (Good cls id pl)) (frames td) -> (cls, id) <> (0x0A, 0x04) /\ (cls, id) <> (0x02, 0x13)) ->
  ublox_read s (ditems_bytes (frames td)) = Ok (s', ev) ->
  exists n' f', prog junk nid ec gc s n f_none (timed_bytes td) = Ok (s', n', f', "").
Proof.
  intros Hu Hru HJ HR HT HC Hls HL EL HP HRp HN Hok Hb HTd HQ E.
  assert (HD : forall ds mem, (forall cls id pl, In (DUbx (Good cls id pl)) ds -> (cls, id) <> (0x02, 0x13)) -> dsfr_msgs mem ds = []).
  { induction ds as [|d ds IH]; intros mem H; [reflexivity|]. cbn [dsfr_msgs]. rewrite IH by (intros cls id pl Hin; apply (H cls id pl); right; exact Hin). rewrite app_nil_r.
    destruct d as [b|[b|c i pl|c i pl ka kb|c i w]|it]; try reflexivity. cbn [sfr_msgs app]. rewrite app_nil_r. pose proof (H c i pl (or_introl eq_refl)) as X.
    destruct (Z.eqb_spec c 2) as [->|]; [|reflexivity]. destruct (Z.eqb_spec i 19) as [->|]; [congruence|reflexivity]. }
  destruct (C91_text junk u ru k s n nid ec gc ls td s' ev Hu Hru HJ HR HT HC Hls HL EL HP HRp HN Hok Hb HTd) as (n' & f' & t & EP & OT & _); [|exact E|].
  { rewrite HD by (intros cls id pl Hin; exact (proj2 (HQ cls id pl Hin))). intros m []. }
  exists n', f'. rewrite EP. rewrite (output_plain junk ec gc td s n [] t); [reflexivity| |exact OT].
  apply forallb_forall. intros [d cs] Hin. cbn [fst]. assert (HI : In d (frames td)) by (change d with (fst (d, cs)); apply in_map; exact Hin).
  destruct d as [b|[b|c i pl|c i pl ka kb|c i w]|it]; try reflexivity; [|exfalso; exact (HN it HI)].
  destruct (HQ c i pl HI) as [Q1 Q2]. cbn [plain_frame].
  destruct (Z.eqb_spec c 10) as [->|]; [destruct (Z.eqb_spec i 4) as [->|]; [congruence|reflexivity]|].
  destruct (Z.eqb_spec c 2) as [->|]; [destruct (Z.eqb_spec i 19) as [->|]; [congruence|reflexivity]|reflexivity].
Qed.
Print Assumptions C91_silence.

(* ---------------------------------------------------------------- example: the three subframes of GPS satellite 21, with a version reply between them *)
Definition mv_pl : list Z := firstn (length mv_frame - 8) (skipn 6 mv_frame).
Definition pds : list ditem := [DUbx (Good 2 0x13 (sfr_pl 0 21 v1)); DNoise 10; DUbx (Good 2 0x13 (sfr_pl 0 21 w4)); DUbx (Good 10 4 mv_pl); DUbx (Good 2 0x13 (sfr_pl 0 21 w0))].
Definition ptd : timed := map (fun d => (d, repeat (mkUtc 0 0) (length (ditem_bytes d) - 1) ++ [mkUtc 1563664000 0])) pds.
Example C91_hypotheses : UReach u0 ru0 0 dv /\ u_type dv <> T_BASE /\ calm_parser junk0 nav1 /\ Forall listener_ok [l9] /\ u_ls dv = map build (mkListener 77 [(2, 0x13)] :: [l9]) /\
  parsing_message (u_ubx dv) = false /\ rtcm_parsing (u_rtcm dv) = false /\ ditems_ok (prev (u_ubx dv)) (frames ptd) /\ bytes_ok (ditems_bytes (frames ptd)) /\ timed_ok ptd /\
  (forall m, In m (dsfr_msgs (inbuf (u_ubx dv)) (frames ptd)) -> calm (NMsg m)).
Proof.
  split; [exact d1_reach|]. split; [vm_compute; discriminate|]. split; [exact nav1_calm|]. split; [constructor; [exact l9_ok|constructor]|].
  split; [vm_compute; reflexivity|]. split; [vm_compute; reflexivity|]. split; [vm_compute; reflexivity|]. change (frames ptd) with pds. split.
  { cbn [pds ditems_ok ditem_ok item_ok ditem_last is_noise]. repeat split; try lia; try (vm_compute; congruence). }
  split; [apply bytes_ok_dec; vm_compute; reflexivity|]. split.
  { unfold ptd, timed_ok. apply Forall_forall. intros [d cs] H. apply in_map_iff in H. destruct H as (d0 & E & H). apply pair_equal_spec in E. destruct E as [-> <-]. cbn [fst snd]. split.
    - rewrite app_length, repeat_length. cbn [length]. unfold pds in H. cbn [In] in H. repeat (destruct H as [<-|H]; [vm_compute; reflexivity|]). destruct H.
    - apply Forall_app. split; [|constructor; [unfold printable; cbn; lia|constructor]]. apply Forall_forall. intros t Ht. apply repeat_spec in Ht. subst t. unfold printable. cbn. lia. }
  assert (E : dsfr_msgs (inbuf (u_ubx dv)) pds = [msg 0 21 v1; msg 0 21 w4; msg 0 21 w0]) by (vm_compute; reflexivity). intros m Hm. rewrite E in Hm.
  assert (W : forall g sv ws, 0 <= g < 256 -> 0 <= sv < 256 -> length ws = 10%nat -> msg_ok (msg g sv ws)) by (intros; apply words_ok; assumption).
  destruct Hm as [<-|[<-|[<-|[]]]]; (split; [apply W; [lia|lia|reflexivity]|]); (split; [intros _ _; vm_compute; congruence|intros X; vm_compute in X; congruence]).
Qed.
Example C91_case : match prog junk0 77 7 8 dv nav1 f_none (timed_bytes ptd) with
  | Ok (_, _, _, t) => t = (line "Connected:" ++ line "Module: ZED-F9P" ++ line "Protocol Version: 27.11" ++ line "" ++
      line "!!!!!!!!!!!!!!!!!!!!!!!!!!!!!!!!!!!!!!!!!!!!!!!!!!!!!!!!!!" ++ line "GPS sat: 21, now = 2019/7/20 23:6:40, toe = 2019/7/20 22:0:18, tof = 2019/7/20 22:0:18" ++
      line "!!!!!!!!!!!!!!!!!!!!!!!!!!!!!!!!!!!!!!!!!!!!!!!!!!!!!!!!!!" ++ line "Total GPS: 1: 21, ")%string
  | _ => False end.
Proof. vm_compute. reflexivity. Qed.
