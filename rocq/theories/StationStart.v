(* C96: src/examples/base.cpp and src/examples/rover.cpp from the start of main: the driver is constructed (ublox.cpp:29-58) while the
   receiver talks, and then the rest (StationProg.v) follows; what is printed, how main ends, what is written to the receiver. *)
From Coq Require Import String.
From Verif Require Import Base UbxSpec UbxModel UbxProofs UbxStream UbxMain UbxMore UbxHist UbxApi
  UbxTx UbxTxSpec UbxTxApi CrcSpec RtcmModel RtcmSpec RtcmProofs RtcmApi UbloxModel UbloxSpec UbloxProofs UbloxApi UbloxThm UbloxCfg
  BitModel UtcModel UtcSpec Dbl NavModel NavSpec NavGpsSpec NavStrSpec NavGloSpec NavGalSpec NavStr NavBits NavGps NavObj NavGpsThm NavGlo NavGloThm NavPage NavGal NavGalThm
  NavDev NavSafe NavWire DeviceSafe NavShow NavShowThm TextSpec ConsoleSpec Console ReportSpec ExShow ExShowThm RosModel RosSpec Calendar UtcShow UtcShowThm ExSat ExSatThm SerialProg LogProg StationProg.
Local Open Scope string_scope.
Local Open Scope list_scope.
Local Open Scope Z_scope.

(* ---------------------------------------------------------------- model *)
(* one query of the version: UBX::get_version ubx.cpp:65-89 with the listeners (only the parser, number 1) and the text; rx: what arrives
   while it waits *)
Definition ask_port (junk : list Z) (dbg : rtcm) (s : ublox) (n : nav) (rx : list Z) : outcome (ublox * nav * list event * bool * string) :=
  let s0 := uw_ubx s (w_ver (u_ubx s) false) in
  let* (s1, e1) := usend send_ver_poll s0 in
  let* (s2, n2, _, e2, t) := station junk (fun _ _ _ => "") 1 2 false s1 n dbg (map Port rx) in
  Ok (s2, n2, e1 ++ e2, got_ver (u_ubx s2), t).
(* UBLOX::UBLOX ublox.cpp:29-58: the object (nothing: std::runtime_error), the parser, the text.  The seven commands at the end are sent
   without a byte arriving between them (arrivals there: C87) *)
Definition connecting (junk : list Z) (u : uninit) (ru : runinit) (out0 : list Z) (n : nav) (rx1 rx2 : list Z) : outcome (option ublox * nav * list event * string) :=
  let finish s n e t := let* (s', e') := usends (ctor_sends (major (u_ubx s))) s in Ok (Some s', n, e ++ e', t) in
  let* (s1, n1, e1, ok1, t1) := ask_port junk (rtcm_init ru) (ublox_blank u ru out0 1) n rx1 in
  if ok1 then finish s1 n1 e1 t1
  else
    let* (s2, n2, e2, ok2, t2) := ask_port junk (rtcm_init ru) s1 n1 rx2 in
    if ok2 then finish s2 n2 (e1 ++ e2) (t1 ++ retry_text 2 ++ t2)%string
    else Ok (None, n2, e1 ++ e2, (t1 ++ retry_text 2 ++ t2 ++ retry_text 3)%string).
Definition no_connection : string := "Unable to connect.  Please check your serial port configuration".
(* base.cpp:77-109: the port comes from argv[1] if given (Serial: modelled by what arrives); rest: base_rest or rover_rest *)
Definition station_main (rest : site -> ublox -> nav -> outcome (run * list event)) (w : site) (u : uninit) (ru : runinit) (out0 : list Z) (n : nav) (rx1 rx2 : list Z)
  : outcome (run * list event) :=
  let* (r, n1, e, t) := connecting (si_junk w) u ru out0 n rx1 rx2 in
  match r with
  | None => Ok (mkRun (Uncaught no_connection) t "", e)
  | Some s => let* (x, e2) := rest w s n1 in Ok (mkRun (r_end x) (t ++ r_out x)%string (r_err x), e ++ e2)
  end.
Definition base_main := station_main base_rest.
(* rover.cpp:81-110 *)
Definition rover_main := station_main rover_rest.

(* ---------------------------------------------------------------- specification *)
(* no handler is registered yet: nothing of it is shown *)
Definition no_display : display := mkDisplay 0x01 0x01 unit (fun _ _ => True) (fun _ => "").
(* what is printed while the receiver sends the frames ds1 during the first query and ds2 during the second, if there is one; s: the driver, n: its parser afterwards *)
Definition starting (junk : list Z) (s0 : ublox) (n0 : nav) (ds1 ds2 : list ditem) (s : ublox) (n : nav) (t : string) : Prop :=
  exists s1 n1 t1, shows junk false no_display s0 n0 (map FromPort ds1) s1 n1 t1 /\
    if existsb is_ver ds1 then s = s1 /\ n = n1 /\ t = t1
    else exists t2, shows junk false no_display s1 n1 (map FromPort ds2) s n t2 /\
      t = (t1 ++ second_try_line ++ t2 ++ (if existsb is_ver ds2 then "" else third_try_line))%string.

(* ---------------------------------------------------------------- proofs *)
Lemma no_displays : displays (fun _ => "") no_display.
Proof. split; [reflexivity|split; reflexivity]. Qed.
Lemma none_shown ls : shown_as no_display (fun _ => "") 2 ls.
Proof.
  intros r i mem d xs _. assert (X : forall l : list unit, joined (map (lines no_display) l) = "") by (induction l as [|x l IH]; [reflexivity|exact IH]). rewrite X.
  generalize (ditems_events ls r i mem [d]). induction l as [|e l IH]; [reflexivity|]. change (e :: l) with ([e] ++ l). rewrite console_app, IH.
  destruct e; try reflexivity. unfold console, only. cbn [map fold_right]. destruct (_ =? _); [|reflexivity]. destruct (_ && _); reflexivity.
Qed.
Lemma mute_only : only (k_cls no_display) (k_id no_display) (fun _ => "") = only 1 1 (fun _ => "").
Proof. reflexivity. Qed.
(* the handler that shows nothing *)
Lemma calls_mute junk nid hid : forall e n, calls_shown junk (fun _ _ _ => "") nid hid n e = calls_shown junk (only 1 1 (fun _ => "")) nid hid n e.
Proof.
  induction e as [|x e IH]; intros n; [reflexivity|]. cbn [calls_shown]. destruct (nav_only junk n (to_nav nid x)) as [[n1 t1]|k]; cbn [bind]; [|reflexivity]. rewrite IH.
  replace (console (only 1 1 (fun _ => "")) hid [x]) with (console (fun _ _ _ => "") hid [x]); [reflexivity|].
  destruct x; try reflexivity. unfold console, only. cbn [map fold_right]. destruct (_ =? _); [|reflexivity]. destruct (_ && _); reflexivity.
Qed.
Lemma station_mute junk nid hid link : forall l s n d, station junk (fun _ _ _ => "") nid hid link s n d l = station junk (only 1 1 (fun _ => "")) nid hid link s n d l.
Proof.
  induction l as [|[b|buf] l IH]; intros s n d; cbn [station]; [reflexivity| |].
  - destruct (ublox_say s b) as [t|k]; cbn [bind]; [|reflexivity]. destruct (ublox_byte s b) as [[s1 e1]|k]; cbn [bind]; [|reflexivity]. rewrite calls_mute.
    destruct (calls_shown junk (only 1 1 (fun _ => "")) nid hid n e1) as [[n1 t1]|k]; cbn [bind]; [|reflexivity]. rewrite IH. reflexivity.
  - destruct link; [|apply IH]. destruct (rtcm_says [] d buf) as [t|k]; cbn [bind]; [|reflexivity]. destruct (rover_cb d buf) as [[d1 e1]|k]; cbn [bind]; [|reflexivity]. rewrite IH. reflexivity.
Qed.
Lemma station_reads junk h nid hid link : forall bs s n d s1 n1 d1 e t, station junk h nid hid link s n d (map Port bs) = Ok (s1, n1, d1, e, t) -> ublox_read s bs = Ok (s1, e).
Proof.
  induction bs as [|b bs IH]; intros s n d s1 n1 d1 e t H; cbn [map station ublox_read] in *; [congruence|].
  apply bind_inv in H. destruct H as (x & _ & H). destruct (ublox_byte s b) as [[sa ea]|k]; cbn [bind] in *; [|discriminate]. apply bind_inv in H. destruct H as ([na ta] & _ & H).
  apply bind_inv in H. destruct H as (((((sb, nb), db), eb), tb) & HQ & H). rewrite (IH _ _ _ _ _ _ _ _ HQ). cbn [bind]. congruence.
Qed.
Lemma mem_after T ls : forall ds s s' ev, no_rtcm ds -> Forall listener_ok ls -> idle_as T ls s -> ditems_ok (prev (u_ubx s)) ds -> bytes_ok (ditems_bytes ds) ->
  ublox_read s (ditems_bytes ds) = Ok (s', ev) -> inbuf (u_ubx s') = fold_left ditem_mem ds (inbuf (u_ubx s)) /\ (forall r, ditems_ok (prev (u_ubx s)) (ds ++ r) -> ditems_ok (prev (u_ubx s')) r).
Proof.
  induction ds as [|d ds IH]; intros s s' ev HN Hls HI Hok Hb E.
  - cbn [ditems_bytes flat_map ublox_read] in E. assert (s' = s) by congruence. subst. split; [reflexivity|]. intros r H. exact H.
  - change (ditems_bytes (d :: ds)) with (ditem_bytes d ++ ditems_bytes ds) in *. apply bytes_ok_app in Hb. destruct Hb as [Hb1 Hb2]. destruct Hok as [Hd Hds].
    assert (HN' : no_rtcm ds) by (intros it Hin; apply (HN it); right; exact Hin). rewrite ublox_read_app in E.
    assert (X : exists s1 e1, ublox_read s (ditem_bytes d) = Ok (s1, e1) /\ idle_as T ls s1 /\ prev (u_ubx s1) = ditem_last d /\ inbuf (u_ubx s1) = ditem_mem (inbuf (u_ubx s)) d).
    { destruct d as [b|it|it]; cbn [ditem_ok ditem_bytes ditem_last ditem_mem] in *.
      - destruct Hd as [Hne Hn]. inversion Hb1 as [|? ? Hbb _]; subst. destruct (read_noise_both _ _ s b HI Hbb Hne Hn) as (x & E2 & I2 & _ & EU).
        exists x, []. cbn [ublox_read]. rewrite E2. cbn [bind]. split; [reflexivity|]. split; [exact I2|]. rewrite EU. split; reflexivity.
      - destruct Hd as [Hi Hn]. destruct (ubx_item_idle _ _ s it Hls HI Hi Hn Hb1) as [(x & E2 & I2 & _ & P2 & M2)|[_ E2]]; [eauto 8|].
        rewrite E2 in E. discriminate E.
      - exfalso. exact (HN it (or_introl eq_refl)). }
    destruct X as (s1 & e1 & E1 & I1 & P1 & M1). rewrite E1 in E. cbn [bind] in E. destruct (ublox_read s1 (ditems_bytes ds)) as [[s2 e2]|k] eqn:E2; cbn [bind] in E; [|discriminate].
    assert (s2 = s') by congruence. subst s2. rewrite <- P1 in Hds. destruct (IH s1 s' e2 HN' Hls I1 Hds Hb2 E2) as [A B].
    split; [cbn [fold_left]; rewrite <- M1; exact A|]. intros r H. cbn [app] in H. destruct H as [_ H]. apply B. rewrite P1. exact H.
Qed.
Lemma unchanged s : got_ver (u_ubx s) = false -> uw_out (uw_ubx s (w_ver (u_ubx s) false)) (u_out s) = s.
Proof. intros H. rewrite (w_ver_false _ H). destruct s. reflexivity. Qed.
Definition l0 : listener := mkListener 1 [(0x02, 0x13)].
(* one query *)
Lemma ask_shows junk dbg s n ds s' ev ok : junk_ok junk -> UInv s -> idle_as T_NONE [l0] s -> small_counters (u_ubx s) -> got_ver (u_ubx s) = false -> SI n ->
  no_rtcm ds -> ditems_ok (prev (u_ubx s)) ds -> bytes_ok (ditems_bytes ds) -> (forall m, In m (dsfr_msgs (inbuf (u_ubx s)) ds) -> calm (NMsg m)) ->
  get_version s (ditems_bytes ds) = Ok (s', ev, ok) ->
  exists n' t, ask_port junk dbg s n (ditems_bytes ds) = Ok (s', n', ev, ok, t) /\ shows junk false no_display s n (map FromPort ds) s' n' t /\
    ser_of ev = ver_poll /\ rtk_of ev = [] /\ ok = existsb is_ver ds /\ got_ver (u_ubx s') = ok /\ UInv s' /\ idle_as T_NONE [l0] s' /\ small_counters (u_ubx s') /\ SI n' /\ (calm_parser junk n -> calm_parser junk n') /\
    inbuf (u_ubx s') = fold_left ditem_mem ds (inbuf (u_ubx s)) /\ (forall r, ditems_ok (prev (u_ubx s)) (ds ++ r) -> ditems_ok (prev (u_ubx s')) r).
Proof.
  intros HJ HU HI HS HV HN0 HN Hok Hb HC E.
  assert (Hl : Forall listener_ok [l0]) by (repeat constructor; cbn; lia).
  destruct (wait_says [l0] s ds s' ev ok Hl HU HI HS HN Hok Hb E) as (_ & EOK & HU' & HI' & HS' & _).
  assert (HO : Zlen (u_out s) = 2048) by apply HU.
  unfold get_version in E. unfold ask_port. unfold usend in *. change (u_out (uw_ubx s (w_ver (u_ubx s) false))) with (u_out s) in *.
  assert (EP : send_ver_poll (u_out s) = Ok (u_out s, frame_writes 0x0A 0x04 [])) by (unfold send_ver_poll, send_out, send_message; reflexivity).
  rewrite EP in *. cbn [bind] in *. rewrite (unchanged s HV) in *.
  destruct (ublox_read s (ditems_bytes ds)) as [[s2 e2]|k] eqn:ER; cbn [bind] in E; [|discriminate].
  assert (s2 = s') by congruence. assert (EV : got_ver (u_ubx s2) = ok) by congruence. subst s2.
  destruct (ports_arrive ds) as (A1 & A2 & A3).
  destruct (calm_events T_NONE 1 [] s ds s' e2 (or_intror HN) (Forall_nil _) (fun l H => match H with end) HI Hok Hb ER) as (EEV & _ & _ & _ & HCo).
  assert (HX : Forall2 (holds no_display) (dframes_of (k_cls no_display) (k_id no_display) ds) (map (fun _ => tt) (dframes_of (k_cls no_display) (k_id no_display) ds))).
  { generalize (dframes_of (k_cls no_display) (k_id no_display) ds). induction l as [|x l IH]; constructor; [exact I|exact IH]. }
  destruct (station_stream junk T_NONE no_display (fun _ => "") 2 1 [] false no_displays HJ (Forall_nil _) (fun l H => match H with end) (none_shown _)
    (map FromPort ds) s n dbg s' e2 (map (fun _ => tt) (dframes_of (k_cls no_display) (k_id no_display) ds))) as (n1 & d1 & e & t & Q1 & Q2 & Q3 & _ & Q5 & Q6 & _ & Q8);
    try rewrite A2; try rewrite A3; [right; exact HN|exact HI|exact HN0|discriminate|exact Hok|exact Hb|constructor|exact ER|exact (HCo HC)|exact HX|].
  rewrite A1 in Q1. pose proof (station_reads _ _ _ _ _ _ _ _ _ _ _ _ _ _ Q1) as RR. assert (e = e2) by congruence. subst e.
  destruct (mem_after T_NONE [l0] ds s s' e2 HN Hl HI Hok Hb ER) as [M1 M2].
  exists n1, t. rewrite station_mute. change (only 1 1 (fun _ => "")) with (only (k_cls no_display) (k_id no_display) (fun _ => "")). rewrite Q1. cbn [bind].
  split; [congruence|]. split; [exact Q2|]. assert (EE : ev = map EvSer (frame_writes 10 4 []) ++ e2) by congruence.
  split; [rewrite EE, ser_of_app, ser_of_ser, Q3; apply app_nil_r|]. split; [rewrite EE, rtk_of_app, rtk_of_ser, EEV; exact (none_forwarded _ _ _ ds _ HN)|]. split; [exact EOK|]. split; [exact EV|]. split; [exact HU'|]. split; [exact HI'|]. split; [exact HS'|]. split; [exact Q6|]. split; [exact Q8|]. split; assumption.
Qed.
Lemma retry2 : retry_text 2 = second_try_line. Proof. reflexivity. Qed.
Lemma retry3 : retry_text 3 = third_try_line. Proof. reflexivity. Qed.
Lemma no_rtcm_app a b : no_rtcm (a ++ b) -> no_rtcm a /\ no_rtcm b.
Proof. intros H. split; intros it Hin; apply (H it), in_or_app; [left|right]; exact Hin. Qed.
Lemma ditems_ok_pre : forall a b p, ditems_ok p (a ++ b) -> ditems_ok p a.
Proof. induction a as [|d a IH]; intros b p H; [exact I|]. destruct H as [H1 H2]. split; [exact H1|exact (IH b _ H2)]. Qed.
(* construction *)
Lemma connecting_shows junk u ru out0 st ds1 ds2 r ev : junk_ok junk -> uninit_ok u -> runinit_ok ru -> Zlen out0 = 2048 -> (forall sv, 1 <= sv <= 255 -> st (sv - 1) = repeat 0 380) ->
  no_rtcm (ds1 ++ ds2) -> ditems_ok 0 (ds1 ++ ds2) -> bytes_ok (ditems_bytes (ds1 ++ ds2)) ->
  (forall m, In m (dsfr_msgs (inbuf (ubx_init u)) (ds1 ++ ds2)) -> calm (NMsg m)) ->
  ctor u ru out0 1 (ditems_bytes ds1) (ditems_bytes ds2) = Ok (r, ev) ->
  exists n t sx, connecting junk u ru out0 (nav_init st) (ditems_bytes ds1) (ditems_bytes ds2) = Ok (r, n, ev, t) /\
    starting junk (ublox_blank u ru out0 1) (nav_init st) ds1 ds2 sx n t /\ calm_parser junk n /\ rtk_of ev = [] /\
    (match r with
     | None => existsb is_ver (ds1 ++ ds2) = false /\ ser_of ev = ver_poll ++ ver_poll
     | Some s => existsb is_ver (ds1 ++ ds2) = true /\ ser_of ev = (if existsb is_ver ds1 then ver_poll else ver_poll ++ ver_poll) ++ setup_writes (major (u_ubx s)) /\ (exists o, s = uw_out sx o) /\ UReach u ru 0 s /\ u_type s = T_NONE /\ u_ls s = map build [l0] /\ parsing_message (u_ubx s) = false /\ rtcm_parsing (u_rtcm s) = false
     end).
Proof.
  intros HJ Hu Hru Hz Hst HN Hok Hb HC EC. pose proof EC as EC0.
  assert (HN1 : no_rtcm ds1 /\ no_rtcm ds2) by (apply no_rtcm_app; exact HN). destruct HN1 as [HN1 HN2].
  unfold ditems_bytes in Hb. rewrite flat_map_app in Hb. apply bytes_ok_app in Hb. destruct Hb as [Hb1 Hb2]. fold (ditems_bytes ds1) in Hb1. fold (ditems_bytes ds2) in Hb2.
  rewrite dmsgs_app in HC.
  assert (HI0 : idle_as T_NONE [l0] (ublox_blank u ru out0 1)).
  { split; [reflexivity|]. split; [reflexivity|]. split; [apply init_idle; exact Hu|]. destruct Hru. apply RS_idle; try assumption; reflexivity. }
  assert (HS0 : small_counters (ubx_init u)) by (apply (reach_small u _ Hu); constructor).
  pose proof (blank_inv u ru out0 1 Hu Hru Hz) as HU0. unfold ctor in EC. unfold connecting. cbv zeta.
  assert (HP0 : calm_parser junk (nav_init st)) by (exists st, [], []; split; [exact Hst|split; [intros o []|reflexivity]]).
  pose proof (calm_parser_si junk _ HJ HP0) as HSI0.
  assert (FIN : forall s0 s1 e, usends (ctor_sends (major (u_ubx s0))) s0 = Ok (s1, e) -> idle_as T_NONE [l0] s0 -> UInv s0 ->
    ser_of e = setup_writes (major (u_ubx s1)) /\ rtk_of e = [] /\ (exists o, s1 = uw_out s0 o) /\ u_type s1 = T_NONE /\ u_ls s1 = map build [l0] /\ parsing_message (u_ubx s1) = false /\ rtcm_parsing (u_rtcm s1) = false).
  { intros sa sb e EF HI HU. destruct (setup_sent sa (major (u_ubx sa))) as (o & e' & EU & SW); [apply HU|]. assert (sb = uw_out sa o) by congruence. assert (e' = e) by congruence. subst sb e'.
    destruct HI as (I1 & I2 & I3 & I4). split; [exact SW|]. split; [exact (proj2 (proj2 (usends_frame _ _ _ _ EF)))|]. split; [exists o; reflexivity|]. split; [exact I1|]. split; [exact I2|]. split; [apply idle_parsing; exact I3|apply (rst_parsing _ [] I4); reflexivity]. }
  destruct (get_version (ublox_blank u ru out0 1) (ditems_bytes ds1)) as [[[s1 e1] ok1]|k] eqn:E1; cbn [bind] in EC; [|discriminate].
  destruct (ask_shows junk (rtcm_init ru) _ (nav_init st) ds1 s1 e1 ok1 HJ HU0 HI0 HS0 eq_refl HSI0 HN1 (ditems_ok_pre _ _ _ Hok) Hb1 (fun m Hm => HC m (in_or_app _ _ _ (or_introl Hm))) E1)
    as (n1 & t1 & Q1 & Q2 & W1 & X1 & -> & V1 & U1 & I1 & S1 & SI1 & C1 & M1 & K1).
  rewrite Q1. cbn [bind]. rewrite existsb_app. unfold starting. destruct (existsb is_ver ds1) eqn:EV1; cbn [orb] in *.
  - destruct (usends (ctor_sends (major (u_ubx s1))) s1) as [[s' e']|k] eqn:EU; cbn [bind] in *; [|discriminate]. assert (r = Some s') by congruence. subst r.
    exists n1, t1, s1. split; [congruence|]. split; [exists s1, n1, t1; auto|]. destruct (FIN _ _ _ EU I1 U1) as (F0 & FK & F1 & F2). assert (EE : ev = e1 ++ e') by congruence. split; [exact (C1 HP0)|]. split; [rewrite EE, rtk_of_app, X1, FK; reflexivity|]. split; [reflexivity|].
    split; [rewrite EE, ser_of_app, W1, F0; reflexivity|]. split; [exact F1|]. split; [|exact F2]. exact (U_new u ru out0 1 _ _ s' ev Hz Hb1 Hb2 EC0).
  - destruct (get_version s1 (ditems_bytes ds2)) as [[[s2 e2] ok2]|k] eqn:E2; cbn [bind] in EC; [|discriminate].
    destruct (ask_shows junk (rtcm_init ru) s1 n1 ds2 s2 e2 ok2 HJ U1 I1 S1 V1 SI1 HN2 (K1 ds2 Hok) Hb2) as (n2 & t2 & R1 & R2 & W2 & X2 & -> & V2 & U2 & I2 & S2 & SI2 & C2 & _ & _); [|exact E2|].
    { intros m Hm. apply HC. apply in_or_app. right. change (inbuf (u_ubx (ublox_blank u ru out0 1))) with (inbuf (ubx_init u)) in M1. rewrite <- M1. exact Hm. }
    rewrite R1. cbn [bind]. destruct (existsb is_ver ds2) eqn:EV2.
    + destruct (usends (ctor_sends (major (u_ubx s2))) s2) as [[s' e']|k] eqn:EU; cbn [bind] in *; [|discriminate]. assert (r = Some s') by congruence. subst r.
      exists n2, (t1 ++ retry_text 2 ++ t2)%string, s2. split; [congruence|]. split; [exists s1, n1, t1; split; [exact Q2|]; exists t2; split; [exact R2|]; rewrite retry2, sapp_nil_r; reflexivity|].
      destruct (FIN _ _ _ EU I2 U2) as (F0 & FK & F1 & F2). assert (EE : ev = (e1 ++ e2) ++ e') by congruence. split; [exact (C2 (C1 HP0))|]. split; [rewrite EE, !rtk_of_app, X1, X2, FK; reflexivity|]. split; [reflexivity|].
      split; [rewrite EE, !ser_of_app, W1, W2, F0; reflexivity|]. split; [exact F1|]. split; [|exact F2]. exact (U_new u ru out0 1 _ _ s' ev Hz Hb1 Hb2 EC0).
    + assert (r = None) by congruence. subst r. exists n2, (t1 ++ retry_text 2 ++ t2 ++ retry_text 3)%string, s2. split; [congruence|].
      split; [exists s1, n1, t1; split; [exact Q2|]; exists t2; split; [exact R2|]; rewrite retry2, retry3; reflexivity|]. assert (EE : ev = e1 ++ e2) by congruence. split; [exact (C2 (C1 HP0))|]. split; [rewrite EE, rtk_of_app, X1, X2; reflexivity|]. split; [reflexivity|]. rewrite EE, ser_of_app, W1, W2. reflexivity.
Qed.
Lemma starting_fun junk s0 n0 ds1 ds2 s n t s' n' t' : starting junk s0 n0 ds1 ds2 s n t -> starting junk s0 n0 ds1 ds2 s' n' t' -> s = s' /\ n = n' /\ t = t'.
Proof.
  intros (a & b & c & H & K) (a' & b' & c' & H' & K'). destruct (shows_fun junk false no_display (fun _ => "") no_displays _ _ _ _ _ _ _ _ _ H H') as (-> & -> & ->).
  destruct (existsb is_ver ds1).
  - destruct K as (-> & -> & ->). destruct K' as (-> & -> & ->). auto.
  - destruct K as (x & K & ->). destruct K' as (x' & K' & ->). destruct (shows_fun junk false no_display (fun _ => "") no_displays _ _ _ _ _ _ _ _ _ K K') as (-> & -> & ->). auto.
Qed.
