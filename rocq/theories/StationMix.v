(* C97: base and rover when what the receiver sends and what the correction link sends arrive in any order, byte by byte, and when the program is
   stopped in the middle of a frame.  Program: StationProg.v (`station`, `base_rest`, `rover_rest`), StationStart.v. *)
From Coq Require Import String.
From Verif Require Import Base UbxSpec UbxModel UbxProofs UbxStream UbxMain UbxMore UbxHist UbxApi
  UbxTx UbxTxSpec UbxTxApi CrcSpec RtcmModel RtcmSpec RtcmProofs RtcmApi UbloxModel UbloxSpec UbloxProofs UbloxApi UbloxThm UbloxCfg
  BitModel UtcModel UtcSpec Dbl NavModel NavSpec NavGpsSpec NavStrSpec NavGloSpec NavGalSpec NavStr NavBits NavGps NavObj NavGpsThm NavGlo NavGloThm NavPage NavGal NavGalThm
  NavDev NavSafe DeviceSafe NavShow NavShowThm TextSpec ConsoleSpec Console ReportSpec ExShow ExShowThm RosModel RosSpec Calendar UtcShow UtcShowThm ExSat ExSatThm SerialProg LogProg StationProg.
Local Open Scope string_scope.
Local Open Scope list_scope.
Local Open Scope Z_scope.

(* ---------------------------------------------------------------- specification *)
Definition datagrams (nets : list (list ritem)) : list arrival := map Net (map ritems_bytes nets).
(* a: the arrivals as they happen.  l: frames and datagrams in the order in which they are complete: a datagram that arrives inside a frame
   comes before it.  tail: the bytes of a frame that is not complete when the program is stopped *)
Inductive arrive : list chunk -> list Z -> list arrival -> Prop :=
| av_end nets tail a : shuffle (map Port tail) (datagrams nets) a -> arrive (map FromNet nets) tail a
| av_frame d p b nets m l tail a : ditem_bytes d = p ++ [b] -> shuffle (map Port p) (datagrams nets) m -> arrive l tail a ->
    arrive (map FromNet nets ++ FromPort d :: l) tail (m ++ Port b :: a).
(* tail begins a frame that could follow; not a correction frame unless the program is a base *)
Definition unfinished (T : Z) (before : Z) (tail : list Z) : Prop :=
  tail = [] \/ exists d q, (T = T_BASE \/ no_rtcm [d]) /\ ditem_ok before d /\ bytes_ok (ditem_bytes d) /\ q <> [] /\ ditem_bytes d = tail ++ q.

(* ---------------------------------------------------------------- proofs: nothing happens before the last byte of a frame *)
Lemma rtcm_quiet ls it z : ritem_ok it -> bytes_ok (ritem_bytes it) -> z <> [] -> forall q p s, ritem_bytes it = p ++ q ++ z -> RSt s p ->
  exists s1, rtcm_feed ls s q = Ok (s1, rquiet (length q)) /\ rtcm_says ls s q = Ok "".
Proof.
  intros Hit Hby Hz. induction q as [|b q IH]; intros p s EB HS; [exists s; split; reflexivity|].
  assert (HB : bytes_ok p /\ byte_ok b).
  { rewrite EB in Hby. apply bytes_ok_app in Hby. destruct Hby as [H1 H2]. inversion H2; auto. }
  cbn [app] in EB. assert (NQ : q ++ z <> []) by (destruct q; [exact Hz|discriminate]).
  destruct (rsay_step ls s p b it (q ++ z) HS (proj1 HB) (proj2 HB) Hit EB) as (ES & s1 & c & E1 & HS1). specialize (HS1 NQ).
  assert (EC : c = []).
  { destruct (rstep ls s p b HS (proj2 HB) (proj1 HB)) as [s2 E2 HS2 HN1|s2 it' cs E2 HS2 Hit' EB' EO HN1|E2 HL]; [congruence| |congruence].
    exfalso. apply NQ. assert (EE : ritem_bytes it' ++ (q ++ z) = ritem_bytes it ++ []) by (rewrite app_nil_r, EB', EB, <- app_assoc; reflexivity).
    apply ritem_unique in EE; [tauto|assumption|assumption]. }
  subst c. destruct (IH (p ++ [b]) s1) as (s2 & F1 & F2); [rewrite EB, <- app_assoc; reflexivity|exact HS1|].
  exists s2. cbn [rtcm_feed rtcm_says]. rewrite ES, E1. cbn [bind]. rewrite F1, F2. cbn [bind]. split; [reflexivity|]. destruct (q ++ z); [congruence|reflexivity].
Qed.
Lemma rtk_quiet s n : rtk_events s (rquiet n) = [].
Proof. unfold rtk_events, rquiet. induction n as [|n IH]; [reflexivity|exact IH]. Qed.
Lemma ubx_quiet n : ubx_events (quiet n) = [].
Proof. unfold ubx_events, quiet. induction n as [|n IH]; [reflexivity|exact IH]. Qed.
Lemma frame_quiet T ls s d p q : (T = T_BASE \/ no_rtcm [d]) -> idle_as T ls s -> ditem_ok (prev (u_ubx s)) d -> bytes_ok (ditem_bytes d) ->
  ditem_bytes d = p ++ q -> q <> [] -> exists sp, ublox_read s p = Ok (sp, []) /\ ublox_says s p = Ok "".
Proof.
  intros HT HB Hok Hby EB Hq. destruct p as [|x a]; [exists s; split; reflexivity|].
  destruct d as [b|it|it]; cbn [ditem_ok ditem_bytes] in *.
  - exfalso. assert (X : a ++ q = []) by (cbn [app] in EB; congruence). apply app_eq_nil in X. tauto.
  - destruct Hok as [Hok Hn]. assert (x = 0xB5) by (cbn [app] in EB; congruence). assert (EA : item_bytes it = a ++ q) by (cbn [app] in EB; congruence). subst x. clear EB.
    inversion Hby as [|? ? Hb5 Hit]; subst.
    destruct (read_noise_both T ls s 0xB5 HB Hb5) as (s1 & E1 & HB1 & HC1 & EU1); [lia|lia|].
    assert (ES : ublox_say s 0xB5 = Ok "") by (apply (noise_says T ls s 0xB5 HB Hb5); lia).
    cbn [ublox_says ublox_read]. rewrite ES, E1. cbn [bind].
    destruct a as [|y a]; [exists s1; split; reflexivity|].
    assert (y = 0x62) by (destruct it; cbn [is_noise] in Hn; [discriminate| | |]; cbn [item_bytes app] in EA; congruence). subst y.
    rewrite EA in Hit. pose proof Hit as Hita. apply bytes_ok_app in Hita. destruct Hita as [Hita _]. inversion Hita as [|? ? H62 Ha]; subst.
    destruct HB1 as (HT1 & HL1 & HI1 & HR1). assert (HP1 : prev (u_ubx s1) = 0xB5) by (rewrite EU1; reflexivity).
    destruct (rnoise_byte (rls s1) (u_rtcm s1) 0x62 HR1 H62) as (r2 & Er2 & HR2); [lia|].
    assert (HTL : forall t z, a = t ++ z -> tail_ok (prev (u_ubx s1)) (0x62 :: t)).
    { intros t z Et. rewrite HP1. apply (item_prefix_tail it (0x62 :: t) (z ++ q) Hok Hn); [rewrite EA, Et; cbn [app]; rewrite <- app_assoc; reflexivity|discriminate|]. destruct z; [exact Hq|discriminate]. }
    assert (HX : exists x2, read_cb (map build ls) (u_ubx s1) 0x62 = Ok (x2, [], false)).
    { destruct (exec_tail (map build ls) (u_ubx s1) [0x62] HI1 (HTL [] a eq_refl)) as (x' & EF & _); [constructor; [exact H62|constructor]|].
      cbn [feed] in EF. destruct (read_cb (map build ls) (u_ubx s1) 0x62) as [[[x2 c2] o2]|k]; cbn [bind] in EF; [|discriminate].
      cbn [quiet repeat length] in EF. injection EF as -> -> ->. eauto. }
    destruct HX as (x2 & Ex2). set (s2 := uw_rtcm (uw_ubx s1 x2) r2).
    assert (Eb2 : ublox_byte s1 0x62 = Ok (s2, [])).
    { apply (byte_both s1 0x62 x2 [] false); [apply idle_parsing; exact HI1|apply (rst_parsing _ [] HR1); reflexivity| |exact Er2]. rewrite HL1. exact Ex2. }
    assert (Els : u_ls s2 = map build ls) by (unfold s2; cbn [uw_rtcm uw_ubx u_ls]; exact HL1).
    assert (HPR : forall t z xa o, a = t ++ z -> z <> [] -> feed (u_ls s2) (u_ubx s2) t = Ok (xa, o) -> parsing_message xa = true).
    { rewrite Els. change (u_ubx s2) with x2. intros t z xa o Et Hz EF.
      destruct (exec_tail (map build ls) (u_ubx s1) (0x62 :: t) HI1 (HTL t z Et)) as (x' & EF' & _ & _ & HPa).
      { constructor; [exact H62|]. rewrite Et in Ha. apply bytes_ok_app in Ha. tauto. }
      cbn [feed] in EF'. rewrite Ex2 in EF'. cbn [bind] in EF'. rewrite EF in EF'. cbn [bind] in EF'. injection EF' as -> _. apply HPa. discriminate. }
    destruct (exec_tail (map build ls) (u_ubx s1) (0x62 :: a) HI1 (HTL a [] ltac:(symmetry; apply app_nil_r))) as (x' & EF & _); [constructor; [exact H62|exact Ha]|].
    cbn [feed] in EF. rewrite Ex2 in EF. cbn [bind] in EF. destruct (feed (map build ls) x2 a) as [[x3 outs]|k] eqn:EFa; cbn [bind] in EF; [|discriminate].
    assert (EO : outs = quiet (length a)) by (cbn [length quiet repeat] in EF; unfold quiet; congruence). subst outs.
    exists (uw_ubx s2 x3). cbn [ublox_read ublox_says].
    rewrite (say_both s1 0x62 ""); [|apply idle_parsing; exact HI1|apply (rst_parsing _ [] HR1); reflexivity|exact (ubx_say_quiet _ _ _ _ _ Ex2)|apply rnoise_say; [exact HR1|exact H62|lia]].
    rewrite Eb2. cbn [bind]. rewrite (run_ubx a s2 HPR), (run_ubx_says a s2 HPR), Els. change (u_ubx s2) with x2. rewrite EFa, (ubx_says_quiet _ _ a x2 x3 _ EFa). cbn [lift_ubx bind append].
    rewrite ubx_quiet. split; reflexivity.
  - destruct HT as [->|HT]; [|exfalso; exact (HT it (or_introl eq_refl))]. destruct Hok as [Hok Hn]. destruct HB as (HT & HL & HI & HR).
    destruct (rtcm_quiet (rls s) it q Hok Hby Hq (x :: a) [] (u_rtcm s) EB HR) as (r' & EF & EX).
    assert (HD : exists body, ritem_bytes it = 0xD3 :: body).
    { destruct (ritem_cases it Hok) as [(b & -> & _)|[(h & -> & _)|(h1 & h2 & z & EZ & _)]]; [discriminate Hn|eexists; reflexivity|eauto]. }
    destruct HD as [body EH]. rewrite EH in EB. cbn [app] in EB. assert (x = 0xD3) by congruence. subst x. assert (EBo : body = a ++ q) by congruence. clear EB.
    set (x1 := w_prev (u_ubx s) 0xD3).
    assert (Ex : read_cb (u_ls s) (u_ubx s) 0xD3 = Ok (x1, [], false)) by (apply read_noise; [apply HI|lia]).
    cbn [rtcm_feed rtcm_says] in EF, EX. destruct (rtcm_say (u_rtcm s) 0xD3) as [t1|k] eqn:ET1; cbn [bind] in EX; [|discriminate].
    destruct (rtcm_byte (rls s) (u_rtcm s) 0xD3) as [[r1 c1]|k] eqn:Er; cbn [bind] in EF, EX; [|discriminate].
    destruct (rtcm_says (rls s) r1 a) as [t2|k] eqn:ET2; cbn [bind] in EX; [|discriminate].
    assert (X : (t1 ++ t2)%string = ""%string) by congruence. apply sapp_empty in X. destruct X as [-> ->].
    destruct (rtcm_feed (rls s) r1 a) as [[r2 outs]|k] eqn:Er2; cbn [bind] in EF; [|discriminate].
    cbn [length rquiet repeat] in EF. fold (rquiet (length a)) in EF. injection EF as -> -> ->.
    set (s1 := uw_rtcm (uw_ubx s x1) r1).
    assert (Eb : ublox_byte s 0xD3 = Ok (s1, [])).
    { unfold ublox_byte. rewrite (idle_parsing _ HI). rewrite (proj2 (rst_parsing _ [] HR) eq_refl). cbn [andb].
      unfold to_ubx. rewrite Ex. cbn [bind]. unfold to_rtcm. cbn [uw_ubx u_nreg u_rtcm]. fold (rls s). rewrite Er. cbn [bind map app flat_map]. reflexivity. }
    assert (HP1 : parsing_message (u_ubx s1) = false) by (unfold s1; cbn [uw_rtcm uw_ubx u_ubx]; unfold x1; apply idle_parsing, idle_prev; exact HI).
    assert (HPR : forall t z xa o, a = t ++ z -> z <> [] -> rtcm_feed (rls s1) (u_rtcm s1) t = Ok (xa, o) -> rtcm_parsing xa = true).
    { change (rls s1) with (rls s). change (u_rtcm s1) with r1. intros t z xa o Et Hz EFt.
      apply (ritem_prefix_pending (rls s) (u_rtcm s) it (0xD3 :: t) (z ++ q) xa ([] :: o) HR Hok Hby); [rewrite EH, EBo, Et, <- app_assoc; reflexivity|discriminate|destruct z; [congruence|discriminate]|].
      cbn [rtcm_feed]. rewrite Er. cbn [bind]. rewrite EFt. reflexivity. }
    exists (uw_rtcm s1 r'). cbn [ublox_read ublox_says].
    rewrite (say_both s 0xD3 ""); [|apply idle_parsing; exact HI|apply (rst_parsing _ [] HR); reflexivity|exact (ubx_say_quiet _ _ _ _ _ Ex)|exact ET1].
    rewrite Eb. cbn [bind]. rewrite (run_rtcm a s1 HT HP1 HPR), (run_rtcm_says a s1 HT HP1 HPR). change (rls s1) with (rls s). change (u_rtcm s1) with r1. rewrite Er2, ET2. cbn [lift_rtcm bind append].
    rewrite rtk_quiet. split; reflexivity.
Qed.

(* ---------------------------------------------------------------- proofs: silent bytes and datagrams commute *)
Lemma nets_station junk h nid hid link : forall nets s s' n d,
  station junk h nid hid link s n d (map Net nets) = (let* (_, n2, d2, e2, t2) := station junk h nid hid link s' n d (map Net nets) in Ok (s, n2, d2, e2, t2)).
Proof.
  induction nets as [|x nets IH]; intros s s' n d; [reflexivity|]. cbn [map station]. destruct link; [|apply IH].
  destruct (rtcm_says [] d x) as [t|k]; cbn [bind]; [|reflexivity]. destruct (rover_cb d x) as [[d1 e1]|k]; cbn [bind]; [|reflexivity].
  rewrite (IH s s' n d1). destruct (station junk h nid hid true s' n d1 (map Net nets)) as [[[[[s2 n2] d2] e2] t2]|k]; reflexivity.
Qed.
Lemma nets_same junk h nid hid link : forall nets s n d s2 n2 d2 e2 t2, station junk h nid hid link s n d (map Net nets) = Ok (s2, n2, d2, e2, t2) -> s2 = s /\ n2 = n.
Proof.
  induction nets as [|x nets IH]; intros s n d s2 n2 d2 e2 t2 H; cbn [map station] in H; [split; congruence|]. destruct link; [|exact (IH _ _ _ _ _ _ _ _ H)].
  apply bind_inv in H. destruct H as (t & _ & H). apply bind_inv in H. destruct H as ([d1 e1] & _ & H). apply bind_inv in H. destruct H as (((((sb, nb), db), eb), tb) & HQ & H).
  destruct (IH _ _ _ _ _ _ _ _ HQ) as [-> ->]. split; congruence.
Qed.
Lemma silent_mix junk h nid hid link nets : forall ps m, shuffle (map Port ps) (map Net nets) m -> forall s n d sp, ublox_read s ps = Ok (sp, []) -> ublox_says s ps = Ok "" ->
  station junk h nid hid link s n d m = station junk h nid hid link sp n d (map Net nets).
Proof.
  intros ps m H. remember (map Port ps) as A eqn:EA. remember (map Net nets) as B eqn:EB. revert ps nets EA EB.
  induction H as [|x A B m H IH|x A B m H IH]; intros ps nets EA EB s n d sp ER EX.
  - destruct ps; [|discriminate EA]. cbn [ublox_read] in ER. assert (s = sp) by congruence. subst. reflexivity.
  - destruct ps as [|b ps]; [discriminate EA|]. cbn [map] in EA. assert (x = Port b) by congruence. assert (EA' : A = map Port ps) by congruence. subst x. clear EA.
    cbn [ublox_read ublox_says] in ER, EX. destruct (ublox_say s b) as [t|k] eqn:ET; cbn [bind] in EX; [|discriminate]. destruct (ublox_byte s b) as [[s1 e1]|k] eqn:E1; cbn [bind] in ER, EX; [|discriminate].
    destruct (ublox_read s1 ps) as [[s2 e2]|k] eqn:E2; cbn [bind] in ER; [|discriminate]. destruct (ublox_says s1 ps) as [t2|k] eqn:EX2; cbn [bind] in EX; [|discriminate].
    assert (s2 = sp) by congruence. assert (EE : e1 ++ e2 = []) by congruence. apply app_eq_nil in EE. destruct EE as [-> ->]. assert (X : (t ++ t2)%string = ""%string) by congruence. apply sapp_empty in X. destruct X as [-> ->]. subst s2.
    cbn [station]. rewrite ET, E1. cbn [bind calls_shown]. rewrite (IH ps nets EA' EB s1 n d sp E2 EX2). destruct (station junk h nid hid link sp n d B) as [[[[[s3 n3] d3] e3] t3]|k]; reflexivity.
  - destruct nets as [|y nets]; [discriminate EB|]. cbn [map] in EB. assert (x = Net y) by congruence. assert (EB' : B = map Net nets) by congruence. subst x. clear EB.
    cbn [station]. destruct link; [|exact (IH ps nets EA EB' s n d sp ER EX)].
    destruct (rtcm_says [] d y) as [t|k]; cbn [bind]; [|reflexivity]. destruct (rover_cb d y) as [[d1 e1]|k]; cbn [bind]; [|reflexivity].
    rewrite (IH ps nets EA EB' s n d1 sp ER EX). reflexivity.
Qed.
Lemma ports_silent junk h nid hid link ps s n d sp : ublox_read s ps = Ok (sp, []) -> ublox_says s ps = Ok "" -> station junk h nid hid link s n d (map Port ps) = Ok (sp, n, d, [], ""%string).
Proof. intros ER EX. rewrite (station_silent junk h nid hid link d ps s n sp [] ER EX). reflexivity. Qed.
(* the arrivals in their order, and frame by frame *)
Lemma arrivals_nets nets l : arrivals (map FromNet nets ++ l) = datagrams nets ++ arrivals l.
Proof. unfold datagrams. induction nets as [|x nets IH]; [reflexivity|]. change (arrivals (map FromNet (x :: nets) ++ l)) with (Net (ritems_bytes x) :: arrivals (map FromNet nets ++ l)). rewrite IH. reflexivity. Qed.
Lemma frames_nets nets l : port_frames (map FromNet nets ++ l) = port_frames l /\ net_frames (map FromNet nets ++ l) = nets ++ net_frames l.
Proof. induction nets as [|x nets [A B]]; [split; reflexivity|]. split; [exact A|]. change (net_frames (map FromNet (x :: nets) ++ l)) with (x :: net_frames (map FromNet nets ++ l)). rewrite B. reflexivity. Qed.
Fixpoint ditems_last (p : Z) (ds : list ditem) : Z := match ds with [] => p | d :: r => ditems_last (ditem_last d) r end.

Lemma station_mix junk T k show hid nid ls link : displays show k ->
  Forall listener_ok ls -> (forall l, In l ls -> lid l <> nid) -> shown_as k show hid (parser_and nid ls) ->
  forall l tail a, arrive l tail a -> forall s n dbg s' ev xs, (T = T_BASE \/ no_rtcm (port_frames l)) -> idle_as T (parser_and nid ls) s ->
  ditems_ok (prev (u_ubx s)) (port_frames l) -> bytes_ok (ditems_bytes (port_frames l)) -> unfinished T (ditems_last (prev (u_ubx s)) (port_frames l)) tail ->
  ublox_read s (ditems_bytes (port_frames l)) = Ok (s', ev) -> Forall2 (holds k) (dframes_of (k_cls k) (k_id k) (port_frames l)) xs ->
  exists st, ublox_read s' tail = Ok (st, []) /\ forall h, station junk h nid hid link s n dbg a =
    (let* (_, n2, d2, e2, t2) := station junk h nid hid link s n dbg (arrivals l) in Ok (st, n2, d2, e2, t2)).
Proof.
  intros HK Hls HL HW l tail a HA. induction HA as [nets tail a HS|d p b nets m l tail a ED HS HA IH]; intros s n dbg s' ev xs HT HId Hok Hb HU E HX.
  - pose proof (frames_nets nets []) as [P1 _]. pose proof (arrivals_nets nets []) as P2. rewrite app_nil_r in P1, P2. rewrite P1 in *. rewrite P2. cbn [arrivals flat_map]. rewrite app_nil_r.
    cbn [port_frames flat_map ditems_bytes ublox_read ditems_last] in *. assert (s' = s) by congruence. subst s'.
    assert (HQ : exists sp, ublox_read s tail = Ok (sp, []) /\ ublox_says s tail = Ok ""%string).
    { destruct HU as [->|(d & q & U1 & U2 & U3 & U4 & U5)]; [exists s; split; reflexivity|]. exact (frame_quiet T (parser_and nid ls) s d tail q U1 HId U2 U3 U5 U4). }
    destruct HQ as (sp & Q1 & Q2). exists sp. split; [exact Q1|]. intros h. unfold datagrams in *. rewrite (silent_mix junk h nid hid link _ tail a HS s n dbg sp Q1 Q2). apply nets_station.
  - destruct (frames_nets nets (FromPort d :: l)) as [P1 _]. rewrite P1 in *. rewrite (arrivals_nets nets (FromPort d :: l)).
    change (port_frames (FromPort d :: l)) with (d :: port_frames l) in *. change (arrivals (FromPort d :: l)) with (map Port (ditem_bytes d) ++ arrivals l).
    change (ditems_bytes (d :: port_frames l)) with (ditem_bytes d ++ ditems_bytes (port_frames l)) in *. apply bytes_ok_app in Hb. destruct Hb as [Hb1 Hb2]. destruct Hok as [Hok1 Hok2]. cbn [ditems_last] in HU.
    rewrite ublox_read_app in E. destruct (ublox_read s (ditem_bytes d)) as [[s1 e1]|q] eqn:E1; cbn [bind] in E; [|discriminate].
    destruct (ublox_read s1 (ditems_bytes (port_frames l))) as [[s2 e2]|q] eqn:E2; cbn [bind] in E; [|discriminate]. assert (s2 = s') by congruence. subst s2.
    rewrite dframes_cons in HX. apply Forall2_app_inv_l in HX. destruct HX as (xs1 & xs2 & HX1 & HX2 & ->).
    assert (HT1 : T = T_BASE \/ no_rtcm [d]) by (destruct HT as [HT|HT]; [left; exact HT|right; intros it [Ed|[]]; exact (HT it (or_introl Ed))]).
    assert (HT2 : T = T_BASE \/ no_rtcm (port_frames l)) by (destruct HT as [HT|HT]; [left; exact HT|right; intros it Hin; exact (HT it (or_intror Hin))]).
    destruct (frame_facts T k show hid nid ls s d s1 e1 xs1 HT1 HK Hls HL HW HId Hok1 Hb1 E1 HX1) as (HId1 & HP1 & _).
    rewrite <- HP1 in Hok2, HU.
    destruct (frame_quiet T (parser_and nid ls) s d p [b] HT1 HId Hok1 Hb1 ED ltac:(discriminate)) as (sp & Q1 & Q2).
    (* the state after the frame does not depend on the parser and the datagrams *)
    pose proof (fun n0 dbg0 => IH s1 n0 dbg0 s' e2 xs2 HT2 HId1 Hok2 Hb2 HU E2 HX2) as IH'. clear IH.
    assert (HI : exists st, ublox_read s' tail = Ok (st, []) /\ forall h n0 dbg0, station junk h nid hid link s1 n0 dbg0 a = (let* (_, n2, d2, e2, t2) := station junk h nid hid link s1 n0 dbg0 (arrivals l) in Ok (st, n2, d2, e2, t2))).
    { destruct (IH' n dbg) as (st & R1 & _). exists st. split; [exact R1|]. intros h n0 dbg0. destruct (IH' n0 dbg0) as (st' & R1' & R2'). assert (st' = st) by congruence. subst st'. apply R2'. }
    destruct HI as (st & R1 & R2). exists st. split; [exact R1|]. intros h. rewrite ED, map_app, <- app_assoc. cbn [map app].
    rewrite ED, ublox_read_app, Q1 in E1. cbn [bind ublox_read] in E1. destruct (ublox_byte sp b) as [[sb eb]|q] eqn:EB; cbn [bind] in E1; [|discriminate]. assert (sb = s1) by congruence. subst sb.
    rewrite !station_app. unfold datagrams in *. rewrite (silent_mix junk h nid hid link _ p m HS s n dbg sp Q1 Q2), (nets_station junk h nid hid link (map ritems_bytes nets) sp s n dbg).
    destruct (station junk h nid hid link s n dbg (map Net (map ritems_bytes nets))) as [[[[[sx nx] dx] ex] tx]|q] eqn:NS; cbn [bind] in *; [|reflexivity].
    destruct (nets_same _ _ _ _ _ _ _ _ _ _ _ _ _ _ NS) as [-> ->]. rewrite station_app, (ports_silent junk h nid hid link p s n dx sp Q1 Q2). cbn [bind station]. rewrite EB.
    destruct (ublox_say sp b) as [t|q]; cbn [bind]; [|reflexivity]. destruct (calls_shown junk h nid hid n eb) as [[n1 t1]|q]; cbn [bind]; [|reflexivity]. rewrite R2.
    destruct (station junk h nid hid link s1 n1 dx (arrivals l)) as [[[[[s3 n3] d3] e3] t3]|q]; reflexivity.
Qed.
(* every interleaving of the receiver's bytes with the datagrams is one of these *)
Lemma shuffle_nil_l {A} : forall (b c : list A), shuffle [] b c -> c = b.
Proof. induction b as [|x b IH]; intros c H; inversion H; subst; [reflexivity|]. f_equal. apply IH. assumption. Qed.
Lemma ditem_snoc p d : ditem_ok p d -> exists q b, ditem_bytes d = q ++ [b].
Proof.
  intros H. destruct (@exists_last Z (ditem_bytes d)) as (q & b & E); [|exists q, b; exact E]. destruct d as [b|it|it]; cbn [ditem_bytes ditem_ok] in *; try discriminate.
  destruct H as [Hok Hn]. destruct (ritem_cases it Hok) as [(b & -> & _)|[(h & -> & _)|(h1 & h2 & z & EZ & _)]]; [discriminate|discriminate|rewrite EZ; discriminate].
Qed.
Lemma shuffle_split {A} : forall (a1 : list A) x a2 b c, shuffle (a1 ++ x :: a2) b c -> exists b1 b2 c1 c2, b = b1 ++ b2 /\ c = c1 ++ x :: c2 /\ shuffle a1 b1 c1 /\ shuffle a2 b2 c2.
Proof.
  intros a1 x a2 b c H. remember (a1 ++ x :: a2) as A0 eqn:EA. revert a1 EA. induction H as [|y a b c H IH|y a b c H IH]; intros a1 EA.
  - destruct a1; discriminate EA.
  - destruct a1 as [|z a1]; cbn [app] in EA.
    + exists [], b, [], c. assert (y = x) by congruence. assert (a = a2) by congruence. subst. repeat split; [constructor|exact H].
    + assert (y = z) by congruence. assert (EA' : a = a1 ++ x :: a2) by congruence. subst y. destruct (IH a1 EA') as (b1 & b2 & c1 & c2 & -> & -> & S1 & S2).
      exists b1, b2, (z :: c1), c2. split; [reflexivity|]. split; [reflexivity|]. split; [constructor; exact S1|exact S2].
  - destruct (IH a1 EA) as (b1 & b2 & c1 & c2 & -> & -> & S1 & S2). exists (y :: b1), b2, (y :: c1), c2. split; [reflexivity|]. split; [reflexivity|]. split; [constructor; exact S1|exact S2].
Qed.
Lemma any_order ds : forall p tail nets a, ditems_ok p ds -> shuffle (map Port (ditems_bytes ds ++ tail)) (datagrams nets) a ->
  exists l, arrive l tail a /\ port_frames l = ds /\ net_frames l = nets.
Proof.
  induction ds as [|d ds IH]; intros p tail nets a Hok HS.
  - cbn [ditems_bytes flat_map app] in HS. exists (map FromNet nets). split; [exact (av_end nets tail a HS)|]. destruct (frames_nets nets []) as [A B]. rewrite app_nil_r in A, B. rewrite A, B, app_nil_r. split; reflexivity.
  - destruct Hok as [Hd Hds]. change (ditems_bytes (d :: ds)) with (ditem_bytes d ++ ditems_bytes ds) in HS. destruct (ditem_snoc p d Hd) as (q & b & EB).
    rewrite EB, <- !app_assoc in HS. cbn [app] in HS. rewrite map_app in HS. cbn [map] in HS. apply shuffle_split in HS. destruct HS as (b1 & b2 & c1 & c2 & EN & -> & S1 & S2).
    unfold datagrams in EN. rewrite map_map in EN. apply map_eq_app in EN. destruct EN as (n1 & n2 & -> & <- & <-).
    destruct (IH (ditem_last d) tail n2 c2 Hds) as (l & HA & HP & HN); [unfold datagrams; rewrite map_map; exact S2|].
    exists (map FromNet n1 ++ FromPort d :: l). split; [apply (av_frame d q b); [exact EB|unfold datagrams; rewrite map_map; exact S1|exact HA]|].
    destruct (frames_nets n1 (FromPort d :: l)) as [A B]. rewrite A, B. split; [change (d :: port_frames l = d :: ds); congruence|change (n1 ++ net_frames l = n1 ++ n2); congruence].
Qed.

(* ---------------------------------------------------------------- proofs: a role configured inside a frame *)
Lemma rtcm_byte_alike ls ls' s b s1 c : rtcm_byte ls s b = Ok (s1, c) -> exists c', rtcm_byte ls' s b = Ok (s1, c').
Proof.
  unfold rtcm_byte. destruct (rtcm_switch s b) as [s0|k]; cbn [bind]; [|discriminate]. destruct (is_ckc (r_st s0)); [|intros H; exists []; congruence].
  unfold rtcm_decode. cbv zeta. destruct (check_crc (rw_mlen (rw_new _ true) _)) as [ok|k]; cbn [bind]; [|discriminate]. intros H. apply (f_equal (fun z => match z with Ok (a, _) => a | UB _ => s1 end)) in H. cbv beta iota in H. rewrite H. eexists. reflexivity.
Qed.
Lemma rnoise_alike s b : RSt s [] -> byte_ok b -> b <> 0xD3 -> exists s', (forall ls, rtcm_byte ls s b = Ok (s', [])) /\ RSt s' [].
Proof.
  intros HS Hb Hn. destruct (rnoise_byte [] s b HS Hb Hn) as (s' & E & HS'). exists s'. split; [|exact HS']. intros ls.
  destruct (rnoise_byte ls s b HS Hb Hn) as (s2 & E2 & _). destruct (rtcm_byte_alike [] ls s b s' [] E) as (c & E3). congruence.
Qed.
Lemma prefix_alike ls d p q u r0 : no_rtcm [d] -> Idle u -> RSt r0 [] -> ditem_ok (prev u) d -> bytes_ok (ditem_bytes d) -> ditem_bytes d = p ++ q -> q <> [] ->
  exists x r, forall s, u_ls s = map build ls -> u_ubx s = u -> u_rtcm s = r0 -> ublox_read s p = Ok (uw_rtcm (uw_ubx s x) r, []).
Proof.
  intros HN HI HR Hok Hby EB Hq. destruct p as [|x a]; [exists u, r0; intros s _ <- <-; cbn [ublox_read]; destruct s; reflexivity|].
  destruct d as [b|it|it]; cbn [ditem_ok ditem_bytes] in *; [| |exfalso; exact (HN it (or_introl eq_refl))].
  { exfalso. assert (X : a ++ q = []) by (cbn [app] in EB; congruence). apply app_eq_nil in X. tauto. }
  destruct Hok as [Hok Hn]. assert (x = 0xB5) by (cbn [app] in EB; congruence). assert (EA : item_bytes it = a ++ q) by (cbn [app] in EB; congruence). subst x. clear EB.
  inversion Hby as [|? ? Hb5 Hit]; subst.
  destruct (rnoise_alike r0 0xB5 HR Hb5 ltac:(lia)) as (r1 & ER1 & HR1). set (u1 := w_prev u 0xB5).
  assert (EU1 : forall l, read_cb l u 0xB5 = Ok (u1, [], false)) by (intros l; apply read_noise; [apply HI|lia]).
  assert (HI1 : Idle u1) by (apply idle_prev; exact HI).
  assert (EB1 : forall s, u_ubx s = u -> u_rtcm s = r0 -> ublox_byte s 0xB5 = Ok (uw_rtcm (uw_ubx s u1) r1, [])).
  { intros s Eu Er. apply (byte_both s 0xB5 u1 [] false); [rewrite Eu; apply idle_parsing; exact HI|rewrite Er; apply (rst_parsing _ [] HR); reflexivity|rewrite Eu; apply EU1|rewrite Er; apply ER1]. }
  destruct a as [|y a].
  { exists u1, r1. intros s _ Eu Er. cbn [ublox_read]. rewrite (EB1 s Eu Er). reflexivity. }
  assert (y = 0x62) by (destruct it; cbn [is_noise] in Hn; [discriminate| | |]; cbn [item_bytes app] in EA; congruence). subst y.
  rewrite EA in Hit. pose proof Hit as Hita. apply bytes_ok_app in Hita. destruct Hita as [Hita _]. inversion Hita as [|? ? H62 Ha]; subst.
  destruct (rnoise_alike r1 0x62 HR1 H62 ltac:(lia)) as (r2 & ER2 & HR2).
  assert (HTL : forall t z, a = t ++ z -> tail_ok (prev u1) (0x62 :: t)).
  { intros t z Et. change (prev u1) with 0xB5. apply (item_prefix_tail it (0x62 :: t) (z ++ q) Hok Hn); [rewrite EA, Et; cbn [app]; rewrite <- app_assoc; reflexivity|discriminate|]. destruct z; [exact Hq|discriminate]. }
  assert (HX : exists x2, read_cb (map build ls) u1 0x62 = Ok (x2, [], false)).
  { destruct (exec_tail (map build ls) u1 [0x62] HI1 (HTL [] a eq_refl)) as (x' & EF & _); [constructor; [exact H62|constructor]|].
    cbn [feed] in EF. destruct (read_cb (map build ls) u1 0x62) as [[[x2 c2] o2]|k]; cbn [bind] in EF; [|discriminate].
    cbn [quiet repeat length] in EF. injection EF as -> -> ->. eauto. }
  destruct HX as (x2 & Ex2).
  assert (HPR : forall t z xa o, a = t ++ z -> z <> [] -> feed (map build ls) x2 t = Ok (xa, o) -> parsing_message xa = true).
  { intros t z xa o Et Hz EF. destruct (exec_tail (map build ls) u1 (0x62 :: t) HI1 (HTL t z Et)) as (x' & EF' & _ & _ & HPa).
    { constructor; [exact H62|]. rewrite Et in Ha. apply bytes_ok_app in Ha. tauto. }
    cbn [feed] in EF'. rewrite Ex2 in EF'. cbn [bind] in EF'. rewrite EF in EF'. cbn [bind] in EF'. injection EF' as -> _. apply HPa. discriminate. }
  destruct (exec_tail (map build ls) u1 (0x62 :: a) HI1 (HTL a [] ltac:(symmetry; apply app_nil_r))) as (x' & EF & _); [constructor; [exact H62|exact Ha]|].
  cbn [feed] in EF. rewrite Ex2 in EF. cbn [bind] in EF. destruct (feed (map build ls) x2 a) as [[x3 outs]|k] eqn:EFa; cbn [bind] in EF; [|discriminate].
  assert (EO : outs = quiet (length a)) by (cbn [length quiet repeat] in EF; unfold quiet; congruence). subst outs.
  exists x3, r2. intros s El Eu Er. cbn [ublox_read]. rewrite (EB1 s Eu Er). cbn [bind].
  set (s1 := uw_rtcm (uw_ubx s u1) r1).
  assert (Eb2 : ublox_byte s1 0x62 = Ok (uw_rtcm (uw_ubx s1 x2) r2, [])).
  { apply (byte_both s1 0x62 x2 [] false); [apply idle_parsing; exact HI1|apply (rst_parsing _ [] HR1); reflexivity|cbn [s1 uw_rtcm uw_ubx u_ls u_ubx]; rewrite El; exact Ex2|apply ER2]. }
  rewrite Eb2. cbn [bind]. set (s2 := uw_rtcm (uw_ubx s1 x2) r2). assert (Els : u_ls s2 = map build ls) by exact El.
  rewrite run_ubx; [|rewrite Els; exact HPR]. rewrite Els. change (u_ubx s2) with x2. rewrite EFa. cbn [lift_ubx bind]. rewrite ubx_quiet. reflexivity.
Qed.
Lemma usends_alike x r fs : forall s, usends fs (uw_rtcm (uw_ubx s x) r) = (let* (s', e) := usends fs s in Ok (uw_rtcm (uw_ubx s' x) r, e)).
Proof.
  induction fs as [|f fs IH]; intros s; [reflexivity|]. cbn [usends]. unfold usend. change (u_out (uw_rtcm (uw_ubx s x) r)) with (u_out s). destruct (f (u_out s)) as [[o w]|k]; cbn [bind]; [|reflexivity].
  change (uw_out (uw_rtcm (uw_ubx s x) r) o) with (uw_rtcm (uw_ubx (uw_out s o) x) r). rewrite IH. destruct (usends fs (uw_out s o)) as [[s2 e2]|k]; reflexivity.
Qed.
Lemma base_alike x r s i b : config_base (uw_rtcm (uw_ubx s x) r) i b = (let* (s', e) := config_base s i b in Ok (uw_rtcm (uw_ubx s' x) r, e)).
Proof. unfold config_base. rewrite <- usends_alike. reflexivity. Qed.
Lemma rover_alike x r s i : config_rover (uw_rtcm (uw_ubx s x) r) i = (let* (s', e) := config_rover s i in Ok (uw_rtcm (uw_ubx s' x) r, e)).
Proof.
  unfold config_rover. set (fs := map _ _). change (uw_mode (uw_rtcm (uw_ubx s x) r) (u_nreg (uw_rtcm (uw_ubx s x) r)) T_ROVER (u_rtk (uw_rtcm (uw_ubx s x) r))) with (uw_rtcm (uw_ubx (uw_mode s (u_nreg s) T_ROVER (u_rtk s)) x) r).
  rewrite usends_alike. destruct (usends fs _) as [[s2 e2]|k]; reflexivity.
Qed.
Lemma cut_silent T ls s p : idle_as T ls s -> unfinished T_NONE (prev (u_ubx s)) p ->
  exists x r, ublox_read s p = Ok (uw_rtcm (uw_ubx s x) r, []) /\ ublox_says s p = Ok ""%string /\
    forall s2 T2, idle_as T2 ls s2 -> u_ubx s2 = u_ubx s -> u_rtcm s2 = u_rtcm s -> ublox_read s2 p = Ok (uw_rtcm (uw_ubx s2 x) r, []) /\ ublox_says s2 p = Ok ""%string.
Proof.
  intros HI [->|(d & q & [H|HN] & Hok & Hb & Hq & EB)].
  - exists (u_ubx s), (u_rtcm s). split; [destruct s; reflexivity|]. split; [reflexivity|]. intros s2 T2 _ <- <-. split; [destruct s2; reflexivity|reflexivity].
  - discriminate H.
  - pose proof HI as (HT & HL & HId & HR). destruct (prefix_alike ls d p q (u_ubx s) (u_rtcm s) HN HId HR Hok Hb EB Hq) as (x & r & HX).
    destruct (frame_quiet T ls s d p q (or_intror HN) HI Hok Hb EB Hq) as (sp & _ & Q2).
    exists x, r. split; [apply HX; [exact HL|reflexivity|reflexivity]|]. split; [exact Q2|].
    intros s2 T2 HI2 Eu Er. split; [apply HX; [apply HI2|exact Eu|exact Er]|].
    destruct (frame_quiet T2 ls s2 d p q (or_intror HN) HI2 ltac:(rewrite Eu; exact Hok) Hb EB Hq) as (sp2 & _ & Q3). exact Q3.
Qed.
Definition framed (w : site) (ds0 : list ditem) (l : list chunk) : site := mkSite (si_junk w) (si_dbg w) (si_udp w) (ditems_bytes ds0) (arrivals l).
(* base.cpp:86-109: what happens depends on the frames only *)
Lemma base_mixed u ru s n w ds0 p l tail s1 e1 s2 e2 s3 e3 xs0 xs : uninit_ok u -> runinit_ok ru -> junk_ok (si_junk w) ->
  UReach u ru 0 s -> u_type s <> T_BASE -> u_ls s = map build [mkListener 1 [(0x02, 0x13)]] -> parsing_message (u_ubx s) = false -> rtcm_parsing (u_rtcm s) = false -> calm_parser (si_junk w) n ->
  si_udp w = true -> si_before w = ditems_bytes ds0 ++ p -> arrive l tail (map Port p ++ si_after w) ->
  no_rtcm ds0 -> ditems_ok (prev (u_ubx s)) ds0 -> bytes_ok (ditems_bytes ds0) -> (forall m, In m (dsfr_msgs (inbuf (u_ubx s)) ds0) -> calm (NMsg m)) ->
  Forall2 svin_payload (dframes_of 0x01 0x3B ds0) xs0 ->
  ublox_read (ublox_register s (build (mkListener 2 [(0x01, 0x3B); (0x01, 0x07)]))) (ditems_bytes ds0) = Ok (s1, e1) -> unfinished T_NONE (prev (u_ubx s1)) p -> config_base s1 3 true = Ok (s2, e2) ->
  ditems_ok (prev (u_ubx s2)) (port_frames l) -> bytes_ok (ditems_bytes (port_frames l)) -> unfinished T_BASE (ditems_last (prev (u_ubx s2)) (port_frames l)) tail ->
  Forall2 svin_payload (dframes_of 0x01 0x3B (port_frames l)) xs ->
  ublox_read s2 (ditems_bytes (port_frames l)) = Ok (s3, e3) ->
  base_rest w s n = base_rest (framed w ds0 l) s n.
Proof.
  intros Hu Hru HJ HR HT EL HP HRp HC EU EB HA HN Hok0 Hb0 HM0 HX0 E1 HCut E2 Hok Hb HUn HX E3.
  assert (HS : role_listener base_display [(0x01, 0x3B); (0x01, 0x07)]).
  { split; [left; reflexivity|]. constructor; [split; unfold byte_ok; cbn; lia|]. constructor; [split; unfold byte_ok; cbn; lia|constructor]. }
  destruct (role_before base_display show_svin _ u ru 0%nat s n (si_junk w) (si_dbg w) ds0 s1 e1 xs0 Hu Hru HJ base_displays HS HR HT EL HP HRp HC HN Hok0 Hb0 HM0 HX0 E1)
    as (n1 & d1 & ea & t1 & Q1 & -> & _ & _ & _ & _ & HI1 & _).
  set (sl := [(0x01, 0x3B); (0x01, 0x07)]) in *.
  assert (Hls : Forall listener_ok [mkListener 2 sl]) by (constructor; [apply HS|constructor]).
  assert (HL : forall x, In x [mkListener 2 sl] -> lid x <> 1) by (intros x [<-|[]]; discriminate).
  assert (ES2 : exists o, s2 = uw_out (uw_mode s1 (S (u_nreg s1)) T_BASE 3) o) by (destruct (usends_frame _ _ _ _ E2) as [H _]; exact H). destruct ES2 as (o & ES2).
  assert (HI2 : idle_as T_BASE (parser_and 1 [mkListener 2 sl]) s2) by (rewrite ES2; destruct HI1 as (_ & I2 & I3 & I4); split; [reflexivity|]; split; [exact I2|]; split; [exact I3|exact I4]).
  destruct (cut_silent _ _ s1 p HI1 HCut) as (x & r & C1 & C2 & C3). destruct (C3 s2 T_BASE HI2 ltac:(rewrite ES2; reflexivity) ltac:(rewrite ES2; reflexivity)) as [C4 C5].
  destruct (station_mix (si_junk w) T_BASE base_display show_svin 2 1 [mkListener 2 sl] false base_displays Hls HL (role_heard _ _ sl base_displays HS) l tail _ HA s2 n1 (si_dbg w) s3 e3 xs
    (or_introl eq_refl) HI2 Hok Hb HUn E3 HX) as (st & _ & HM). specialize (HM base_handler). rewrite station_app, (ports_silent _ _ _ _ _ p s2 n1 (si_dbg w) _ C4 C5) in HM. cbn [bind] in HM.
  unfold base_rest. cbn [framed si_junk si_dbg si_udp si_before si_after]. change (subscribe (subscribe (mkML 2 []) 1 7) 1 59) with (build (mkListener 2 sl)).
  change (only (k_cls base_display) (k_id base_display) show_svin) with base_handler in Q1.
  rewrite EB, map_app, station_app, Q1. cbn [bind]. rewrite (ports_silent _ _ _ _ _ p s1 n1 (si_dbg w) _ C1 C2). cbn [bind]. rewrite EU. cbn [negb]. rewrite base_alike, E2. cbn [bind].
  rewrite app_nil_r, !sapp_nil_r.
  destruct (station (si_junk w) base_handler 1 2 false (uw_rtcm (uw_ubx s2 x) r) n1 (si_dbg w) (si_after w)) as [[[[[sa na] da] eb] tb]|k];
    destruct (station (si_junk w) base_handler 1 2 false s2 n1 (si_dbg w) (arrivals l)) as [[[[[sb nb] db] eb'] tb']|k']; cbn [bind app append] in *; try discriminate HM; [|congruence].
  assert (eb = eb') by congruence. assert (tb = tb') by congruence. subst. reflexivity.
Qed.
(* rover.cpp:90-110 *)
Lemma rover_mixed u ru r s n w ds0 p l tail s1 e1 s2 e2 s3 e3 xs0 xs : uninit_ok u -> runinit_ok ru -> junk_ok (si_junk w) ->
  UReach u ru r s -> u_type s <> T_BASE -> u_ls s = map build [mkListener 1 [(0x02, 0x13)]] -> parsing_message (u_ubx s) = false -> rtcm_parsing (u_rtcm s) = false -> calm_parser (si_junk w) n ->
  si_udp w = true -> si_before w = ditems_bytes ds0 ++ p -> arrive l tail (map Port p ++ si_after w) ->
  no_rtcm ds0 -> ditems_ok (prev (u_ubx s)) ds0 -> bytes_ok (ditems_bytes ds0) -> (forall m, In m (dsfr_msgs (inbuf (u_ubx s)) ds0) -> calm (NMsg m)) ->
  Forall2 rel_payload (dframes_of 0x01 0x3C ds0) xs0 ->
  ublox_read (ublox_register s (build (mkListener 2 [(0x01, 0x3C)]))) (ditems_bytes ds0) = Ok (s1, e1) -> unfinished T_NONE (prev (u_ubx s1)) p -> config_rover s1 3 = Ok (s2, e2) ->
  no_rtcm (port_frames l) -> ditems_ok (prev (u_ubx s2)) (port_frames l) -> bytes_ok (ditems_bytes (port_frames l)) -> unfinished T_ROVER (ditems_last (prev (u_ubx s2)) (port_frames l)) tail ->
  Forall2 rel_payload (dframes_of 0x01 0x3C (port_frames l)) xs ->
  ublox_read s2 (ditems_bytes (port_frames l)) = Ok (s3, e3) ->
  rover_rest w s n = rover_rest (framed w ds0 l) s n.
Proof.
  intros Hu Hru HJ HR HT EL HP HRp HC EU EB HA HN Hok0 Hb0 HM0 HX0 E1 HCut E2 HN1 Hok Hb HUn HX E3.
  assert (HS : role_listener rover_display [(0x01, 0x3C)]).
  { split; [left; reflexivity|]. constructor; [split; unfold byte_ok; cbn; lia|constructor]. }
  destruct (role_before rover_display show_rel _ u ru r s n (si_junk w) (si_dbg w) ds0 s1 e1 xs0 Hu Hru HJ rover_displays HS HR HT EL HP HRp HC HN Hok0 Hb0 HM0 HX0 E1)
    as (n1 & d1 & ea & t1 & Q1 & -> & _ & _ & _ & HR1 & HI1 & _).
  set (sl := [(0x01, 0x3C)]) in *.
  assert (Hls : Forall listener_ok [mkListener 2 sl]) by (constructor; [apply HS|constructor]).
  assert (HL : forall x, In x [mkListener 2 sl] -> lid x <> 1) by (intros x [<-|[]]; discriminate).
  assert (HZ : Zlen (u_out s1) = 2048) by (destruct (ureach_inv u ru r s1 Hu Hru HR1) as ((_ & _ & _ & Z) & _); exact Z).
  destruct (config_rover_spec s1 3 HZ) as (o & ev & EC & _). rewrite E2 in EC. assert (ES2 : s2 = uw_out (uw_mode s1 (u_nreg s1) T_ROVER 3) o) by congruence.
  assert (HI2 : idle_as T_ROVER (parser_and 1 [mkListener 2 sl]) s2) by (rewrite ES2; destruct HI1 as (_ & I2 & I3 & I4); split; [reflexivity|]; split; [exact I2|]; split; [exact I3|exact I4]).
  destruct (cut_silent _ _ s1 p HI1 HCut) as (x & rr & C1 & C2 & C3). destruct (C3 s2 T_ROVER HI2 ltac:(rewrite ES2; reflexivity) ltac:(rewrite ES2; reflexivity)) as [C4 C5].
  destruct (station_mix (si_junk w) T_ROVER rover_display show_rel 2 1 [mkListener 2 sl] true rover_displays Hls HL (role_heard _ _ sl rover_displays HS) l tail _ HA s2 n1 (si_dbg w) s3 e3 xs
    (or_intror HN1) HI2 Hok Hb HUn E3 HX) as (st & _ & HM). specialize (HM rover_handler). rewrite station_app, (ports_silent _ _ _ _ _ p s2 n1 (si_dbg w) _ C4 C5) in HM. cbn [bind] in HM.
  unfold rover_rest. cbn [framed si_junk si_dbg si_udp si_before si_after]. change (subscribe (mkML 2 []) 1 60) with (build (mkListener 2 sl)).
  change (only (k_cls rover_display) (k_id rover_display) show_rel) with rover_handler in Q1.
  rewrite EB, map_app, station_app, Q1. cbn [bind]. rewrite (ports_silent _ _ _ _ _ p s1 n1 (si_dbg w) _ C1 C2). cbn [bind]. rewrite EU. cbn [negb]. rewrite rover_alike, E2. cbn [bind].
  rewrite app_nil_r, !sapp_nil_r.
  destruct (station (si_junk w) rover_handler 1 2 true (uw_rtcm (uw_ubx s2 x) rr) n1 (si_dbg w) (si_after w)) as [[[[[sa na] da] eb] tb]|k];
    destruct (station (si_junk w) rover_handler 1 2 true s2 n1 (si_dbg w) (arrivals l)) as [[[[[sb nb] db] eb'] tb']|k']; cbn [bind app append] in *; try discriminate HM; [|congruence].
  assert (eb = eb') by congruence. assert (tb = tb') by congruence. subst. reflexivity.
Qed.
