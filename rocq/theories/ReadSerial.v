(* C99: src/examples/read_serial.cpp from the start of main to its end: the driver is constructed while the receiver talks (StationStart.v), the
   handler is registered, the log file is opened, the two ephemeris callbacks are registered one after the other, and the program runs until it is interrupted. *)
From Coq Require Import String.
From Verif Require Import Base UbxSpec UbxModel UbxProofs UbxStream UbxMain UbxMore UbxHist UbxApi
  UbxTx UbxTxSpec UbxTxApi CrcSpec RtcmModel RtcmSpec RtcmProofs RtcmApi UbloxModel UbloxSpec UbloxProofs UbloxApi UbloxThm UbloxCfg
  BitModel UtcModel UtcSpec Dbl NavModel NavSpec NavGpsSpec NavStrSpec NavGloSpec NavGalSpec NavStr NavBits NavGps NavObj NavGpsThm NavGlo NavGloThm NavPage NavGal NavGalThm
  NavDev NavSafe NavWire DeviceSafe NavShow NavShowThm TextSpec ConsoleSpec Console ReportSpec ExShow ExShowThm RosModel RosSpec Calendar UtcShow UtcShowThm ExSat ExSatThm SerialProg LogProg UbloxStart
  StationProg StationStart StationMix StationCut.
Local Open Scope string_scope.
Local Open Scope list_scope.
Local Open Scope Z_scope.

(* ---------------------------------------------------------------- model *)
Definition no_file : string := "Unable to open file".
(* read_serial.cpp:136-163 (the rest of main after `ublox::UBLOX ublox(ser)`).  Parser 1, handler 2 (its got_ubx does nothing, :49-55), callbacks 3, 4.
   log: the log file: None no second argument, Some whether it can be opened (logger.h:28-35); its contents: C53.  si_before w: the bytes up to the
   registration of the first callback; rb: up to that of the second; rc: until the program is interrupted, with the clock at each.  No byte arrives
   after that (deleting the logger while the port still calls it is outside this model).  The correction link is not used *)
Definition serial_rest (log : option bool) (rb rc : list (utc * Z)) (w : site) (s : ublox) (n : nav) : outcome (run * list event) :=
  let s0 := ublox_register s (subscribe (subscribe (mkML 2 []) 0x01 0x07) 0x02 0x15) in
  let* (s1, n1, _, e1, t1) := station (si_junk w) (fun _ _ _ => "") 1 2 false s0 n (si_dbg w) (map Port (si_before w)) in
  match log with
  | Some false => Ok (mkRun (Uncaught no_file) t1 "", e1)
  | _ =>
      let* (s2, n2, f2, t2) := prog (si_junk w) 1 3 4 s1 (nav_ecb n1 3) f_none rb in
      let* (_, e2) := ublox_read s1 (map snd rb) in
      let* (_, _, _, t3) := prog (si_junk w) 1 3 4 s2 (nav_gcb n2 4) f2 rc in
      let* (_, e3) := ublox_read s2 (map snd rc) in
      Ok (mkRun (Returns 0) (t1 ++ t2 ++ t3)%string "", e1 ++ e2 ++ e3)
  end.
(* read_serial.cpp:120-163 *)
Definition read_serial_main (log : option bool) (rb rc : list (utc * Z)) := station_main (serial_rest log rb rc).

(* ---------------------------------------------------------------- specification *)
(* `output` of C91, for a part of the run: with the states and the history of announcements at its beginning and its end *)
Inductive phase (junk : list Z) (ec gc : Z) : ublox -> nav -> history -> timed -> ublox -> nav -> history -> string -> Prop :=
| ph_end s n h : phase junk ec gc s n h [] s n h ""
| ph_frame s n h d cs now r s1 e n1 v x y ts s' n' h' t :
    ublox_read s (ditem_bytes d) = Ok (s1, e) -> said d s1 x ->
    nav_run junk n (map NMsg (dsfr_msgs (inbuf (u_ubx s)) [d])) = Ok (n1, v) -> told v y ->
    now = last cs (mkUtc 0 0) -> announced ec gc h now v ts ->
    phase junk ec gc s1 n1 (h ++ map (pair now) v) r s' n' h' t ->
    phase junk ec gc s n h ((d, cs) :: r) s' n' h' (x ++ y ++ joined ts ++ t).

(* ---------------------------------------------------------------- proofs *)
Lemma phase_run junk u ru k nid ec gc ls : uninit_ok u -> runinit_ok ru -> junk_ok junk -> Forall listener_ok ls -> (forall l, In l ls -> lid l <> nid) ->
  forall td s n f h s' ev, UReach u ru k s -> u_type s <> T_BASE -> idle_as (u_type s) (parser_and nid ls) s -> SI n -> FI ec gc h f ->
  no_rtcm (frames td) -> ditems_ok (prev (u_ubx s)) (frames td) -> bytes_ok (ditems_bytes (frames td)) -> timed_ok td ->
  ublox_read s (ditems_bytes (frames td)) = Ok (s', ev) -> (forall o, In o (flat_map (to_nav nid) ev) -> calm o) ->
  exists n' f' h' t, prog junk nid ec gc s n f (timed_bytes td) = Ok (s', n', f', t) /\ phase junk ec gc s n h td s' n' h' t /\
    UReach u ru k s' /\ u_type s' = u_type s /\ idle_as (u_type s') (parser_and nid ls) s' /\ SI n' /\ FI ec gc h' f'.
Proof.
  intros Hu Hru HJ Hls HL. induction td as [|[d cs] td IH]; intros s n f h s' ev HR HT HId HI HF HN Hok Hb HTd E HC.
  - cbn [frames map ditems_bytes flat_map ublox_read] in E. assert (s' = s) by congruence. subst s'. exists n, f, h, ""%string. split; [reflexivity|]. split; [constructor|]. auto 8.
  - cbn [frames map fst] in *. cbn [ditems_ok] in Hok. destruct Hok as [Hd Hds]. change (ditems_bytes (d :: map fst td)) with (ditem_bytes d ++ ditems_bytes (frames td)) in *.
    apply bytes_ok_app in Hb. destruct Hb as [Hbd Hbds]. rewrite ublox_read_app in E.
    destruct (ublox_read s (ditem_bytes d)) as [[s1 e1]|q] eqn:E1; cbn [bind] in E; [|discriminate].
    destruct (ublox_read s1 (ditems_bytes (frames td))) as [[s2 e2]|q] eqn:E2; cbn [bind] in E; [|discriminate]. assert (s2 = s') by congruence. assert (ev = e1 ++ e2) by congruence. subst s2 ev.
    rewrite flat_map_app in HC.
    assert (HN1 : no_rtcm [d]) by (intros it [X|[]]; apply (HN it); left; exact X). assert (HN2 : no_rtcm (frames td)) by (intros it X; apply (HN it); right; exact X).
    inversion HTd as [|? ? [HL1 HP1] HT2]; subst. cbn [fst snd] in *.
    destruct (frame_step u ru k s nid ls d s1 e1 Hu Hru HR Hls HL HId HN1 Hd Hbd E1) as (HB1 & T1 & P1 & _).
    destruct (frame_shown junk u ru k s n f h nid ec gc ls d cs s1 e1 Hu Hru HJ HR HT Hls HL HId HN1 Hd Hbd E1 (fun o X => HC o (in_or_app _ _ _ (or_introl X))) HI HF HL1 HP1)
      as (n1 & f1 & v & x & y & ts & EPr & SX & EN & TY & TA & I1 & F1).
    rewrite <- T1 in HB1, HT. rewrite <- P1 in Hds.
    destruct (IH s1 n1 f1 _ s' e2 (U_read u ru k s _ s1 e1 HR Hbd E1) HT HB1 I1 F1 HN2 Hds Hbds HT2 E2 (fun o X => HC o (in_or_app _ _ _ (or_intror X)))) as (n' & f' & h' & t & EPt & OT & R1 & R2 & R3 & R4 & R5).
    exists n', f', h', (x ++ y ++ joined ts ++ t)%string. split; [|split; [econstructor; eauto|]].
    + cbn [timed_bytes flat_map fst snd]. fold (timed_bytes td). rewrite prog_app, EPr. cbn [bind]. rewrite EPt. cbn [bind]. rewrite !sapp_assoc. reflexivity.
    + split; [exact R1|]. split; [congruence|]. auto.
Qed.
(* the text of a part is determined, and so is its end *)
Lemma phase_fun junk ec gc : forall td s n h s1 n1 h1 t s2 n2 h2 t', n_ecb n <> [] -> phase junk ec gc s n h td s1 n1 h1 t -> phase junk ec gc s n h td s2 n2 h2 t' ->
  s1 = s2 /\ n1 = n2 /\ h1 = h2 /\ t = t' /\ n_ecb n1 = n_ecb n.
Proof.
  induction td as [|[d cs] td IH]; intros s n h sa na ha t sb nb hb t' HE H H'.
  - inversion H; subst. inversion H'; subst. auto.
  - inversion H as [|s0 n0 h0 d0 cs0 now r s1 e n1 v x y ts q1 q2 q3 z A B C D N E F]; subst.
    inversion H' as [|s0' n0' h0' d0' cs0' now' r' s1' e' n1' v' x' y' ts' q1' q2' q3' z' A' B' C' D' N' E' F']; subst.
    assert (s1' = s1) by congruence. assert (n1' = n1) by congruence. assert (v' = v) by congruence. subst s1' n1' v'.
    assert (X : n_ecb n1 = n_ecb n /\ exists d, In (EvFell FN_PRINT) v -> v = EvFell FN_PRINT :: map (fun c => EvEph c d) (n_ecb n)).
    { destruct (dsfr_msgs (inbuf (u_ubx s)) [d]) as [|m r0] eqn:ED.
      - cbn [map nav_run] in C. assert (n1 = n) by congruence. assert (v = []) by congruence. subst. split; [reflexivity|]. exists eph_new. intros [].
      - assert (r0 = []).
        { destruct d as [b|it|it]; cbn [dsfr_msgs] in ED; rewrite app_nil_r in ED; try discriminate ED.
          destruct it; cbn [sfr_msgs] in ED; rewrite ?app_nil_r in ED; try discriminate ED. destruct (_ && _); [congruence|discriminate ED]. }
        subst r0. cbn [map] in C. destruct (message_report junk n m n1 v C) as [X1 X2]. split; [exact X1|].
        destruct D as [(d1 & c1 & E1 & _)|(N1 & _)]; [|exists eph_new; contradiction]. destruct (X2 ltac:(rewrite E1; left; reflexivity)) as (d0 & X3). exists d0. intros _. exact X3. }
    destruct X as [X1 (dd & X2)].
    rewrite (said_fun d s1 x x' B B'), (told_fun v dd _ y y' HE X2 D D'), (announced_fun ec gc h _ v ts ts' E E').
    destruct (IH s1 n1 _ _ _ _ _ _ _ _ _ ltac:(rewrite X1; exact HE) F F') as (-> & -> & -> & -> & X5). repeat split. congruence.
Qed.
Lemma timed_snd : forall td, timed_ok td -> map snd (timed_bytes td) = ditems_bytes (frames td).
Proof.
  induction 1 as [|[d cs] td [HL _] _ IH]; [reflexivity|]. cbn [timed_bytes flat_map frames map fst snd ditems_bytes] in *. rewrite map_app. fold (timed_bytes td). rewrite IH. f_equal.
  revert HL. generalize (ditem_bytes d). clear. induction cs as [|c cs IH]; intros [|b l] H; try discriminate H; [reflexivity|]. cbn in *. f_equal. apply IH. congruence.
Qed.
Lemma snd_combine {A} (cs : list A) : forall p : list Z, length cs = length p -> map snd (combine cs p) = p.
Proof. induction cs as [|c cs IH]; intros [|b p] H; try discriminate H; [reflexivity|]. cbn in *. f_equal. apply IH. congruence. Qed.
Lemma combine_split {A B} (l : list (A * B)) : l = combine (map fst l) (map snd l).
Proof. induction l as [|[a b] l IH]; [reflexivity|]. cbn. f_equal. exact IH. Qed.
(* the beginning of a frame, with the clock *)
Lemma prog_creeps junk T ls ec gc s n f pb x r : creeps s (map snd pb) x r -> idle_as T ls s -> prog junk 1 ec gc s n f pb = Ok (late s x r, n, f, ""%string).
Proof.
  intros HX HI. destruct (creeps_self T ls s _ x r s HX HI eq_refl eq_refl) as [A B]. rewrite (combine_split pb).
  apply (prog_quiet junk 1 ec gc (map snd pb) (map fst pb) s n f (late s x r) [] ""%string); [rewrite !map_length; reflexivity|exact A|reflexivity|exact B].
Qed.
Lemma prog_moved junk T ls ec gc s n f pb x r rest : creeps s (map snd pb) x r -> idle_as T ls s -> prog junk 1 ec gc (late s x r) n f rest = prog junk 1 ec gc s n f (pb ++ rest).
Proof.
  intros HX HI. rewrite prog_app, (prog_creeps junk T ls ec gc s n f pb x r HX HI). cbn [bind append].
  destruct (prog junk 1 ec gc (late s x r) n f rest) as [[[[? ?] ?] ?]|?]; reflexivity.
Qed.
Lemma read_moved T ls s p x r rest : creeps s p x r -> idle_as T ls s -> ublox_read (late s x r) rest = ublox_read s (p ++ rest).
Proof.
  intros HX HI. destruct (creeps_self T ls s _ x r s HX HI eq_refl eq_refl) as [A B]. rewrite ublox_read_app, A. cbn [bind app].
  destruct (ublox_read (late s x r) rest) as [[? ?]|?]; reflexivity.
Qed.
Definition hl : listener := mkListener 2 [(0x02, 0x15); (0x01, 0x07)].
Lemma si_ecb n c : SI n -> SI (nav_ecb n c). Proof. intros [H1 H2 H3 H4]. split; [exact H1|exact H2|exact H3|exact H4]. Qed.
Lemma si_gcb n c : SI n -> SI (nav_gcb n c). Proof. intros [H1 H2 H3 H4]. split; [exact H1|exact H2|exact H3|exact H4]. Qed.
Lemma mute_shows junk u ru s n dbg ds s1 e1 : uninit_ok u -> runinit_ok ru -> junk_ok junk -> UReach u ru 0 s -> u_type s <> T_BASE ->
  u_ls s = map build [mkListener 1 [(0x02, 0x13)]] -> parsing_message (u_ubx s) = false -> rtcm_parsing (u_rtcm s) = false -> calm_parser junk n ->
  no_rtcm ds -> ditems_ok (prev (u_ubx s)) ds -> bytes_ok (ditems_bytes ds) -> (forall m, In m (dsfr_msgs (inbuf (u_ubx s)) ds) -> calm (NMsg m)) ->
  ublox_read (ublox_register s (build hl)) (ditems_bytes ds) = Ok (s1, e1) ->
  exists n1 d1 e t, station junk (fun _ _ _ => "") 1 2 false (ublox_register s (build hl)) n dbg (map Port (ditems_bytes ds)) = Ok (s1, n1, d1, e, t) /\
    shows junk false no_display (ublox_register s (build hl)) n (map FromPort ds) s1 n1 t /\ ser_of e = [] /\ rtk_of e = [] /\
    UReach u ru 0 s1 /\ u_type s1 = u_type s /\ idle_as (u_type s1) (parser_and 1 [hl]) s1 /\ SI n1.
Proof.
  intros Hu Hru HJ HR HT EL HP HRp HC HN Hok Hb HM E. set (s0 := ublox_register s (build hl)) in *.
  assert (Hl : listener_ok hl) by (constructor; [split; unfold byte_ok; cbn; lia|constructor; [split; unfold byte_ok; cbn; lia|constructor]]).
  assert (HR0 : UReach u ru 0 s0) by (apply U_listen; [exact HR|exact Hl]).
  assert (EL0 : u_ls s0 = map build (parser_and 1 [hl])) by (unfold s0, ublox_register; cbn [u_ls uw_ls]; rewrite EL; reflexivity).
  pose proof (reach_idle u ru 0%nat s0 _ Hu Hru HR0 EL0 HP HRp) as HId. change (u_type s0) with (u_type s) in HId.
  assert (Hls : Forall listener_ok [hl]) by (constructor; [exact Hl|constructor]).
  assert (HL : forall l, In l [hl] -> lid l <> 1) by (intros l [<-|[]]; discriminate).
  destruct (calm_events (u_type s) 1 _ s0 ds s1 e1 (or_intror HN) Hls HL HId Hok Hb E) as (EV & _ & _ & _ & HCo).
  destruct (ports_arrive ds) as (A1 & A2 & A3).
  assert (HX : Forall2 (holds no_display) (dframes_of (k_cls no_display) (k_id no_display) ds) (map (fun _ => tt) (dframes_of (k_cls no_display) (k_id no_display) ds))).
  { generalize (dframes_of (k_cls no_display) (k_id no_display) ds). induction l as [|x l IH]; constructor; [exact I|exact IH]. }
  destruct (station_stream junk (u_type s) no_display (fun _ => "") 2 1 [hl] false no_displays HJ Hls HL (none_shown _) (map FromPort ds) s0 n dbg s1 e1
    (map (fun _ => tt) (dframes_of (k_cls no_display) (k_id no_display) ds))) as (n1 & d1 & e & t & Q1 & Q2 & Q3 & Q4 & Q5 & Q6 & _);
    try rewrite A2; try rewrite A3; [right; exact HN|exact HId|exact (calm_parser_si junk n HJ HC)|discriminate|exact Hok|exact Hb|constructor|exact E|exact (HCo HM)|exact HX|].
  rewrite A1 in Q1. exists n1, d1, e, t. rewrite station_mute. split; [exact Q1|]. split; [exact Q2|]. split; [rewrite Q3; reflexivity|].
  split; [rewrite Q4, EV; exact (none_forwarded _ _ _ ds _ HN)|]. split; [exact (U_read u ru 0%nat s0 _ s1 e1 HR0 Hb E)|].
  assert (HTy : u_type s1 = u_type s) by apply Q5. split; [exact HTy|]. split; [rewrite HTy; exact Q5|exact Q6].
Qed.
(* one part of the run with callbacks, cut in the middle of frames at both ends: p, cs what was begun before, pb the beginning of the next frame *)
Lemma phase_cut junk u ru s n f h p cs x r rb tb pb s2 e2 : uninit_ok u -> runinit_ok ru -> junk_ok junk ->
  UReach u ru 0 s -> u_type s <> T_BASE -> idle_as (u_type s) (parser_and 1 [hl]) s -> SI n -> FI 3 4 h f ->
  creeps s p x r -> length cs = length p -> combine cs p ++ rb = timed_bytes tb ++ pb ->
  no_rtcm (frames tb) -> ditems_ok (prev (u_ubx s)) (frames tb) -> bytes_ok (ditems_bytes (frames tb)) -> (forall m, In m (dsfr_msgs (inbuf (u_ubx s)) (frames tb)) -> calm (NMsg m)) -> timed_ok tb ->
  ublox_read s (ditems_bytes (frames tb)) = Ok (s2, e2) -> unfinished T_NONE (prev (u_ubx s2)) (map snd pb) ->
  exists n2 f2 h2 t x2 r2, prog junk 1 3 4 (late s x r) n f rb = Ok (late s2 x2 r2, n2, f2, t) /\ phase junk 3 4 s n h tb s2 n2 h2 t /\
    ublox_read (late s x r) (map snd rb) = Ok (late s2 x2 r2, e2) /\ creeps s2 (map snd pb) x2 r2 /\ ser_of e2 = [] /\ rtk_of e2 = [] /\
    UReach u ru 0 s2 /\ u_type s2 <> T_BASE /\ idle_as (u_type s2) (parser_and 1 [hl]) s2 /\ SI n2 /\ FI 3 4 h2 f2.
Proof.
  intros Hu Hru HJ HR HT HId HI HF HX HLn EB HN Hok Hb HM HTd E HU.
  assert (Hl : listener_ok hl) by (constructor; [split; unfold byte_ok; cbn; lia|constructor; [split; unfold byte_ok; cbn; lia|constructor]]).
  assert (Hls : Forall listener_ok [hl]) by (constructor; [exact Hl|constructor]).
  assert (HL : forall l, In l [hl] -> lid l <> 1) by (intros l [<-|[]]; discriminate).
  destruct (calm_events (u_type s) 1 _ s (frames tb) s2 e2 (or_intror HN) Hls HL HId Hok Hb E) as (EV & _ & _ & _ & HCo).
  destruct (phase_run junk u ru 0%nat 1 3 4 [hl] Hu Hru HJ Hls HL tb s n f h s2 e2 HR HT HId HI HF HN Hok Hb HTd E (HCo HM)) as (n2 & f2 & h2 & t & P1 & P2 & P3 & P4 & P5 & P6 & P7).
  destruct (cut_any _ _ s2 _ P5 HU) as (x2 & r2 & HX2).
  exists n2, f2, h2, t, x2, r2.
  assert (HXp : creeps s (map snd (combine cs p)) x r) by (rewrite (snd_combine cs p HLn); exact HX).
  split.
  { rewrite (prog_moved junk _ _ 3 4 s n f (combine cs p) x r rb HXp HId), EB, prog_app, P1. cbn [bind].
    rewrite (prog_creeps junk _ _ 3 4 s2 n2 f2 pb x2 r2 HX2 P5). cbn [bind]. rewrite sapp_nil_r. reflexivity. }
  split; [exact P2|]. split.
  { rewrite (read_moved _ _ s p x r (map snd rb) HX HId). rewrite <- (snd_combine cs p HLn) at 1. rewrite <- map_app, EB, map_app, (timed_snd tb HTd), ublox_read_app, E. cbn [bind].
    destruct (creeps_self _ _ s2 _ x2 r2 s2 HX2 P5 eq_refl eq_refl) as [A _]. rewrite A. cbn [bind]. rewrite app_nil_r. reflexivity. }
  split; [exact HX2|]. split; [exact (reads_never_send u ru 0%nat s _ s2 e2 Hu Hru HR Hb E)|]. split; [rewrite EV; exact (none_forwarded _ _ _ (frames tb) _ HN)|].
  split; [exact P3|]. split; [rewrite P4; exact HT|]. split; [exact P5|]. split; [exact P6|exact P7].
Qed.
(* the rest of main *)
Lemma serial_whole log u ru s n w ds0 p cs rb tb pb rc tc tail s1 e1 s2 e2 s3 e3 : uninit_ok u -> runinit_ok ru -> junk_ok (si_junk w) ->
  UReach u ru 0 s -> u_type s <> T_BASE -> u_ls s = map build [mkListener 1 [(0x02, 0x13)]] -> parsing_message (u_ubx s) = false -> rtcm_parsing (u_rtcm s) = false -> calm_parser (si_junk w) n ->
  si_before w = ditems_bytes ds0 ++ p -> length cs = length p -> combine cs p ++ rb = timed_bytes tb ++ pb -> pb ++ rc = timed_bytes tc ++ tail -> timed_ok tb -> timed_ok tc ->
  no_rtcm ds0 -> ditems_ok (prev (u_ubx s)) ds0 -> bytes_ok (ditems_bytes ds0) -> (forall m, In m (dsfr_msgs (inbuf (u_ubx s)) ds0) -> calm (NMsg m)) ->
  ublox_read (ublox_register s (build hl)) (ditems_bytes ds0) = Ok (s1, e1) -> unfinished T_NONE (prev (u_ubx s1)) p ->
  no_rtcm (frames tb) -> ditems_ok (prev (u_ubx s1)) (frames tb) -> bytes_ok (ditems_bytes (frames tb)) -> (forall m, In m (dsfr_msgs (inbuf (u_ubx s1)) (frames tb)) -> calm (NMsg m)) ->
  ublox_read s1 (ditems_bytes (frames tb)) = Ok (s2, e2) -> unfinished T_NONE (prev (u_ubx s2)) (map snd pb) ->
  no_rtcm (frames tc) -> ditems_ok (prev (u_ubx s2)) (frames tc) -> bytes_ok (ditems_bytes (frames tc)) -> (forall m, In m (dsfr_msgs (inbuf (u_ubx s2)) (frames tc)) -> calm (NMsg m)) ->
  ublox_read s2 (ditems_bytes (frames tc)) = Ok (s3, e3) -> unfinished T_NONE (prev (u_ubx s3)) (map snd tail) ->
  exists n1 n2 n3 h2 h3 t1 t2 t3 ev, shows (si_junk w) false no_display (ublox_register s (build hl)) n (map FromPort ds0) s1 n1 t1 /\
    phase (si_junk w) 3 4 s1 (nav_ecb n1 3) [] tb s2 n2 h2 t2 /\ phase (si_junk w) 3 4 s2 (nav_gcb n2 4) h2 tc s3 n3 h3 t3 /\
    serial_rest log rb rc w s n = Ok (match log with Some false => mkRun (Uncaught no_file) t1 "" | _ => mkRun (Returns 0) (t1 ++ t2 ++ t3)%string "" end, ev) /\
    ser_of ev = [] /\ rtk_of ev = [].
Proof.
  intros Hu Hru HJ HR HT EL HP HRp HC EA HLn EB EC HTb HTc HN0 Hok0 Hb0 HM0 E1 HU1 HN1 Hok1 Hb1 HM1 E2 HU2 HN2 Hok2 Hb2 HM2 E3 HU3.
  destruct (mute_shows (si_junk w) u ru s n (si_dbg w) ds0 s1 e1 Hu Hru HJ HR HT EL HP HRp HC HN0 Hok0 Hb0 HM0 E1) as (n1 & d1 & ea & t1 & Q1 & Q2 & Q3 & Q4 & Q5 & Q6 & Q7 & Q8).
  destruct (cut_any _ _ s1 p Q7 HU1) as (x & r & HX). destruct (creeps_self _ _ s1 p x r s1 HX Q7 eq_refl eq_refl) as [A B].
  assert (HT1 : u_type s1 <> T_BASE) by (rewrite Q6; exact HT).
  destruct (phase_cut (si_junk w) u ru s1 (nav_ecb n1 3) f_none [] p cs x r rb tb pb s2 e2 Hu Hru HJ Q5 HT1 Q7 (si_ecb n1 3 Q8) (fi_none 3 4) HX HLn EB HN1 Hok1 Hb1 HM1 HTb E2 HU2)
    as (n2 & f2 & h2 & t2 & x2 & r2 & P1 & P2 & P3 & P4 & P5 & P6 & P7 & P8 & P9 & P10 & P11).
  destruct (phase_cut (si_junk w) u ru s2 (nav_gcb n2 4) f2 h2 (map snd pb) (map fst pb) x2 r2 rc tc tail s3 e3 Hu Hru HJ P7 P8 P9 (si_gcb n2 4 P10) P11 P4 ltac:(rewrite !map_length; reflexivity)
    ltac:(rewrite <- combine_split; exact EC) HN2 Hok2 Hb2 HM2 HTc E3 HU3)
    as (n3 & f3 & h3 & t3 & x3 & r3 & R1 & R2 & R3 & R4 & R5 & R6 & _).
  exists n1, n2, n3, h2, h3, t1, t2, t3, (match log with Some false => ea | _ => ea ++ e2 ++ e3 end).
  split; [exact Q2|]. split; [exact P2|]. split; [exact R2|]. split.
  - unfold serial_rest. change (subscribe (subscribe (mkML 2 []) 1 7) 2 21) with (build hl). rewrite EA, map_app, station_app, Q1. cbn [bind].
    rewrite (ports_silent (si_junk w) (fun _ _ _ => "") 1 2 false p s1 n1 d1 (late s1 x r) A B). cbn [bind]. rewrite app_nil_r, sapp_nil_r.
    destruct log as [[|]|]; try reflexivity; rewrite P1; cbn [bind]; rewrite P3; cbn [bind]; rewrite R1; cbn [bind]; rewrite R3; reflexivity.
  - destruct log as [[|]|]; try (split; assumption); rewrite !ser_of_app, !rtk_of_app, Q3, Q4, P5, P6, R5, R6; split; reflexivity.
Qed.
Lemma serial_rest_late log rb rc w s n q x r : idle_as T_NONE [l0] s -> creeps s q x r -> serial_rest log rb rc w (late s x r) n = serial_rest log rb rc (early q w) s n.
Proof.
  intros HI HC. unfold serial_rest. cbn [early si_junk si_dbg si_udp si_before si_after]. change (subscribe (subscribe (mkML 2 []) 1 7) 2 21) with (build hl).
  rewrite (before_late _ _ _ s n _ q x r _ HI HC). reflexivity.
Qed.
