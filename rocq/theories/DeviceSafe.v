(* C85: a UBLOX object with its parser member does not run into undefined behaviour on a stream of UBX frames, text and
   (as a base) RTCM frames. *)
From Verif Require Import Base UbxSpec UbxModel UbxProofs UbxStream UbxMain UbxMore UbxHist UbxApi
  UbxTx UbxTxSpec UbxTxApi CrcSpec RtcmModel RtcmSpec RtcmProofs RtcmApi UbloxModel UbloxSpec UbloxProofs UbloxApi UbloxThm
  BitModel UtcModel UtcSpec Dbl NavModel NavSpec NavGpsSpec NavStrSpec NavGloSpec NavGalSpec NavObj NavGpsThm NavDev NavSafe.

(* ---------------------------------------------------------------- specification *)
(* a parser that has so far been given only calm messages and times (NavSafe) *)
Definition calm_parser (junk : list Z) (n : nav) : Prop :=
  exists st h ev, (forall sv, 1 <= sv <= 255 -> st (sv - 1) = repeat 0 380) /\ (forall o, In o h -> calm o) /\
    nav_run junk (nav_init st) h = Ok (n, ev).

(* ---------------------------------------------------------------- proofs *)
Lemma dev_read_app junk id a : forall b s n, dev_read junk id s n (a ++ b) =
  (let* (s1, n1, e1, v1) := dev_read junk id s n a in let* (s2, n2, e2, v2) := dev_read junk id s1 n1 b in Ok (s2, n2, e1 ++ e2, v1 ++ v2)).
Proof.
  induction a as [|x a IH]; intros b s n; cbn [app dev_read bind].
  - destruct (dev_read junk id s n b) as [[[[s2 n2] e2] v2]|k]; reflexivity.
  - destruct (ublox_byte s x) as [[s1 e1]|k]; cbn [bind]; [|reflexivity].
    destruct (nav_run junk n (flat_map (to_nav id) e1)) as [[n1 v1]|k]; cbn [bind]; [|reflexivity]. rewrite IH.
    destruct (dev_read junk id s1 n1 a) as [[[[s2 n2] e2] v2]|k]; cbn [bind]; [|reflexivity].
    destruct (dev_read junk id s2 n2 b) as [[[[s3 n3] e3] v3]|k]; cbn [bind]; [|reflexivity]. rewrite !app_assoc. reflexivity.
Qed.

Lemma si_run junk : junk_ok junk -> forall h s s' ev, (forall o, In o h -> calm o) -> SI s -> nav_run junk s h = Ok (s', ev) -> SI s'.
Proof.
  intros HJ. induction h as [|o h IH]; intros s s' ev HC HI E; cbn [nav_run] in E.
  - assert (s = s') by congruence. subst. exact HI.
  - destruct (calm_step junk s o HJ (HC o (or_introl eq_refl)) HI) as (s1 & e1 & E1 & I1). rewrite E1 in E. cbn [bind] in E.
    destruct (nav_run junk s1 h) as [[s2 e2]|k] eqn:E2; cbn [bind] in E; [|discriminate]. assert (s2 = s') by congruence. subst s2.
    apply (IH s1 s' e2 (fun x Hx => HC x (or_intror Hx)) I1 E2).
Qed.
Lemma calm_parser_si junk n : junk_ok junk -> calm_parser junk n -> SI n.
Proof. intros HJ (st & h & ev & HZ & HC & E). apply (si_run junk HJ h (nav_init st) n ev HC (si_init st HZ) E). Qed.
Lemma calm_parser_more junk n h n' ev : calm_parser junk n -> (forall o, In o h -> calm o) -> nav_run junk n h = Ok (n', ev) -> calm_parser junk n'.
Proof.
  intros (st & h0 & ev0 & HZ & HC & E0) HC1 E1. exists st, (h0 ++ h), (ev0 ++ ev). split; [exact HZ|]. split.
  - intros o Hin. apply in_app_or in Hin. destruct Hin as [H|H]; [exact (HC o H)|exact (HC1 o H)].
  - rewrite nav_run_app, E0. cbn [bind]. rewrite E1. reflexivity.
Qed.

Lemma ver_item ds : (forall pl, ~ In (DUbx (Good 10 4 pl)) ds) -> existsb is_ver ds = false.
Proof.
  intros H. destruct (existsb is_ver ds) eqn:E; [|reflexivity]. exfalso. apply existsb_exists in E. destruct E as (d & Hin & Hd).
  destruct d as [b|it|it]; try discriminate. destruct it as [b|c i pl|c i pl ka kb|c i m]; try discriminate.
  cbn in Hd. apply andb_prop in Hd. destruct Hd as [A B]. apply Z.eqb_eq in A. apply Z.eqb_eq in B. subst. exact (H pl Hin).
Qed.

Lemma nav_of_events nid ls k i ds : (forall l, In l ls -> lid l <> nid) -> forall mem,
  flat_map (to_nav nid) (ditems_events (mkListener nid [(0x02, 0x13)] :: ls) k i mem ds) = map NMsg (dsfr_msgs mem ds).
Proof.
  intros HL. assert (HRt : forall m f, flat_map (to_nav nid) (repeat (EvRtk i f) m) = []) by (induction m; intros; [reflexivity|exact (IHm f)]).
  induction ds as [|d ds IH]; intros mem; [reflexivity|].
  cbn [ditems_events dsfr_msgs]. rewrite flat_map_app, map_app, IH. f_equal.
  destruct d as [b|it|it]; cbn [ditem_events].
  - reflexivity.
  - destruct it as [b|c j pl|c j pl ka kb|c j m]; try reflexivity. rewrite (nav_calls_for nid ls c j _ HL). cbn [sfr_msgs].
    rewrite app_nil_r. destruct ((c =? 2) && (j =? 19)); reflexivity.
  - destruct it; try reflexivity. apply HRt.
Qed.

Lemma reach_idle u ru n s ls : uninit_ok u -> runinit_ok ru -> UReach u ru n s -> u_ls s = map build ls ->
  parsing_message (u_ubx s) = false -> rtcm_parsing (u_rtcm s) = false -> idle_as (u_type s) ls s.
Proof.
  intros Hu Hru HR HL H1 H2. destruct (ureach_inv u ru n s Hu Hru HR) as ((K1 & (p & K2) & _ & _) & _).
  split; [reflexivity|]. split; [exact HL|]. split; [apply inv_idle; assumption|]. apply (rst_parsing _ _ K2) in H2. subst p. exact K2.
Qed.

(* a whole stream: nothing goes wrong, and the object is between frames again, ready for the next one *)
Lemma device_stream junk u ru k s n nid ls ds : uninit_ok u -> runinit_ok ru -> junk_ok junk ->
  UReach u ru k s -> calm_parser junk n ->
  Forall listener_ok ls -> (forall l, In l ls -> lid l <> nid) -> u_ls s = map build (mkListener nid [(0x02, 0x13)] :: ls) ->
  parsing_message (u_ubx s) = false -> rtcm_parsing (u_rtcm s) = false ->
  ditems_ok (prev (u_ubx s)) ds -> bytes_ok (ditems_bytes ds) -> (u_type s = T_BASE \/ no_rtcm ds) ->
  (forall pl, ~ In (DUbx (Good 10 4 pl)) ds) -> (forall m, In m (dsfr_msgs (inbuf (u_ubx s)) ds) -> calm (NMsg m)) ->
  exists s' n' v, dev_read junk nid s n (ditems_bytes ds) =
      Ok (s', n', ditems_events (mkListener nid [(0x02, 0x13)] :: ls) k (u_rtk s) (inbuf (u_ubx s)) ds, v) /\
    nav_run junk n (map NMsg (dsfr_msgs (inbuf (u_ubx s)) ds)) = Ok (n', v) /\
    UReach u ru k s' /\ calm_parser junk n' /\ u_ls s' = u_ls s /\ u_type s' = u_type s /\
    parsing_message (u_ubx s') = false /\ rtcm_parsing (u_rtcm s') = false.
Proof.
  intros Hu Hru HJ HR HC Hls HL EL HP HRp Hok Hb HT HV HM.
  set (ll := mkListener nid [(0x02, 0x13)] :: ls) in *.
  assert (Hll : Forall listener_ok ll).
  { constructor; [|exact Hls]. constructor; [|constructor]. split; unfold byte_ok; cbn; lia. }
  pose proof (reach_idle u ru k s ll Hu Hru HR EL HP HRp) as HId. destruct (ureach_inv u ru k s Hu Hru HR) as (_ & EN).
  assert (HD : exists s', ublox_read s (ditems_bytes ds) = Ok (s', ditems_events ll k (u_rtk s) (inbuf (u_ubx s)) ds) /\ idle_as (u_type s) ll s' /\ same_cfg s s').
  { rewrite <- EN. destruct HT as [HT|HT].
    - rewrite HT in HId |- *. destruct (base_demux ll ds s Hll HId Hok Hb) as [H|[Hv _]]; [exact H|]. rewrite (ver_item ds HV) in Hv. discriminate.
    - destruct (plain_demux (u_type s) ll ds s HT Hll HId Hok Hb) as [H|[Hv _]]; [exact H|]. rewrite (ver_item ds HV) in Hv. discriminate. }
  destruct HD as (s' & E & (_ & _ & I1 & I2) & (C1 & C2 & C3 & C4 & C5)).
  assert (HMs : forall o, In o (map NMsg (dsfr_msgs (inbuf (u_ubx s)) ds)) -> calm o).
  { intros o Hin. apply in_map_iff in Hin. destruct Hin as (m & <- & Hin). exact (HM m Hin). }
  destruct (calm_run junk HJ (map NMsg (dsfr_msgs (inbuf (u_ubx s)) ds)) n HMs (calm_parser_si junk n HJ HC)) as (n' & v & EN').
  exists s', n', v. rewrite (dev_read_split junk nid _ s n s' _ E). unfold ll at 1. rewrite (nav_of_events nid ls k (u_rtk s) ds HL), EN'. cbn [bind].
  split; [reflexivity|]. split; [reflexivity|]. split; [exact (U_read u ru k s _ s' _ HR Hb E)|].
  split; [exact (calm_parser_more junk n _ n' v HC HMs EN')|]. split; [exact C2|]. split; [exact C1|].
  split; [apply idle_parsing; exact I1|apply (rst_parsing _ [] I2); reflexivity].
Qed.

(* ... and at any point inside it *)
Lemma device_prefix junk u ru k s n nid ls ds bs rest : uninit_ok u -> runinit_ok ru -> junk_ok junk ->
  UReach u ru k s -> calm_parser junk n ->
  Forall listener_ok ls -> (forall l, In l ls -> lid l <> nid) -> u_ls s = map build (mkListener nid [(0x02, 0x13)] :: ls) ->
  parsing_message (u_ubx s) = false -> rtcm_parsing (u_rtcm s) = false ->
  ditems_ok (prev (u_ubx s)) ds -> bytes_ok (ditems_bytes ds) -> (u_type s = T_BASE \/ no_rtcm ds) ->
  (forall pl, ~ In (DUbx (Good 10 4 pl)) ds) -> (forall m, In m (dsfr_msgs (inbuf (u_ubx s)) ds) -> calm (NMsg m)) ->
  bs ++ rest = ditems_bytes ds -> exists s' n' ev v, dev_read junk nid s n bs = Ok (s', n', ev, v).
Proof.
  intros Hu Hru HJ HR HC Hls HL EL HP HRp Hok Hb HT HV HM EB.
  destruct (device_stream junk u ru k s n nid ls ds Hu Hru HJ HR HC Hls HL EL HP HRp Hok Hb HT HV HM) as (s' & n' & v & E & _).
  rewrite <- EB, dev_read_app in E. destruct (dev_read junk nid s n bs) as [[[[s1 n1] e1] v1]|q]; cbn [bind] in E; [|discriminate]. eauto.
Qed.

(* ---------------------------------------------------------------- an RTCM frame longer than the reader's buffer *)
Lemma long_prefix ls s h1 h2 q a b sa o : RSt s [] -> bytes_ok ([0xD3; h1; h2] ++ q) -> 1019 <= rtcm_len h1 h2 <= 1023 ->
  [0xD3; h1; h2] ++ q = a ++ b -> a <> [] -> rtcm_feed ls s a = Ok (sa, o) -> rtcm_parsing sa = true.
Proof.
  intros HS Hb Hn E Ha EF.
  assert (Hba : bytes_ok a) by (rewrite E in Hb; apply bytes_ok_app in Hb; tauto).
  destruct (rsegment ls a s [] HS) as (its & t & E1 & Hits & _ & HC); [constructor|exact Hba|]. cbn [app] in E1.
  destruct its as [|it its].
  - cbn in E1. subst t. destruct HC as [(s' & outs & EF' & HS' & _)|[_ EF']]; rewrite EF in EF'; [|discriminate].
    injection EF' as <- _. destruct (rtcm_parsing sa) eqn:EP; [reflexivity|]. apply (rst_parsing sa a HS') in EP. congruence.
  - exfalso. inversion Hits as [|? ? Hi _]; subst. cbn [ritems_bytes flat_map] in E. rewrite <- !app_assoc in E. cbn [app] in E.
    destruct (ritem_cases it Hi) as [(y & -> & Hy)|[(h & -> & Hh)|(x & y & q' & EB & ES & Hn' & Hq')]].
    + cbn in E. injection E as <- _. congruence.
    + cbn in E. injection E as -> -> _. unfold rtcm_len in Hn. rewrite Hh in Hn. lia.
    + rewrite EB in E. cbn [app] in E. injection E as -> -> _. lia.
Qed.
Lemma long_frame_base u ru n s h1 h2 q : uninit_ok u -> runinit_ok ru -> UReach u ru n s -> u_type s = T_BASE ->
  parsing_message (u_ubx s) = false -> rtcm_parsing (u_rtcm s) = false ->
  bytes_ok ([0xD3; h1; h2] ++ q) -> 1019 <= rtcm_len h1 h2 <= 1023 -> 1022 <= Zlen q ->
  ublox_read s ([0xD3; h1; h2] ++ q) = UB UB_oob_write.
Proof.
  intros Hu Hru HR HT HP HRp Hb Hn Hq. destruct (ureach_inv u ru n s Hu Hru HR) as ((K1 & (p & K2) & _ & _) & _).
  pose proof (inv_idle _ K1 HP) as HI. apply (rst_parsing _ _ K2) in HRp. subst p.
  assert (EF : rtcm_feed (rls s) (u_rtcm s) ([0xD3; h1; h2] ++ q) = UB UB_oob_write).
  { destruct (rsegment (rls s) ([0xD3; h1; h2] ++ q) (u_rtcm s) [] K2) as (its & t & E & Hok & Ht & HC); [constructor|exact Hb|].
    destruct HC as [(r' & outs & EF & HS' & _)|[_ EF]]; [|exact EF]. exfalso.
    assert (its = []) as ->.
    { destruct its as [|it its]; [reflexivity|exfalso]. inversion Hok as [|? ? Hi _]; subst. cbn [ritems_bytes flat_map] in E. rewrite <- !app_assoc in E. cbn [app] in E.
      destruct (ritem_cases it Hi) as [(y & -> & Hy)|[(h & -> & Hh)|(x & y & q' & EB & ES & Hn' & Hq')]].
      + cbn in E. injection E as <- _. congruence.
      + cbn in E. injection E as -> -> _. unfold rtcm_len in Hn. rewrite Hh in Hn. lia.
      + rewrite EB in E. cbn [app] in E. injection E as -> -> _. lia. }
    cbn in E. subst t. inversion HS' as [|? ? ? EB EL]; subst.
    unfold Zlen in *. cbn [length app] in *. lia. }
  cbn [app] in *. inversion Hb as [|? ? HD3 Hbq]; subst.
  set (x1 := w_prev (u_ubx s) 0xD3).
  assert (Ex : read_cb (u_ls s) (u_ubx s) 0xD3 = Ok (x1, [], false)) by (apply read_noise; [apply HI|lia]).
  change (rtcm_feed (rls s) (u_rtcm s) (0xD3 :: h1 :: h2 :: q)) with
    (let* (r, c) := rtcm_byte (rls s) (u_rtcm s) 0xD3 in let* (r2, cs) := rtcm_feed (rls s) r (h1 :: h2 :: q) in Ok (r2, c :: cs)) in EF.
  destruct (rtcm_byte (rls s) (u_rtcm s) 0xD3) as [[r1 c1]|k] eqn:Er; cbn [bind] in EF.
  2:{ destruct (rstep (rls s) (u_rtcm s) [] 0xD3 K2 HD3 (Forall_nil _)) as [r E _ _|r it cs E _ _ _ _ _|E HL]; rewrite Er in E; try discriminate.
      change (@Zlen Z []) with 0 in HL. lia. }
  set (s1 := uw_rtcm (uw_ubx s x1) r1).
  assert (Eb : ublox_byte s 0xD3 = Ok (s1, flat_map (fun c => got_rtcm s (snd c)) c1)).
  { unfold ublox_byte. rewrite (idle_parsing _ HI). rewrite (proj2 (rst_parsing _ [] K2) eq_refl). cbn [andb].
    unfold to_ubx. rewrite Ex. cbn [bind]. unfold to_rtcm. cbn [uw_ubx u_nreg u_rtcm]. fold (rls s). rewrite Er. cbn [bind map app]. reflexivity. }
  assert (ER : ublox_read s1 (h1 :: h2 :: q) = lift_rtcm s1 (rtcm_feed (rls s1) r1 (h1 :: h2 :: q))).
  { apply run_rtcm; [exact HT|unfold s1; cbn [uw_rtcm uw_ubx u_ubx]; unfold x1; apply idle_parsing, idle_prev; exact HI|].
    intros a b xa o Eab Hb' EFa.
    apply (long_prefix (rls s) (u_rtcm s) h1 h2 q (0xD3 :: a) b xa (c1 :: o) K2); [exact Hb|exact Hn|cbn [app]; rewrite Eab; reflexivity|discriminate|].
    cbn [rtcm_feed]. rewrite Er. cbn [bind]. change (rtcm_feed (rls s) r1 a = Ok (xa, o)) in EFa. rewrite EFa. reflexivity. }
  change (ublox_read s (0xD3 :: h1 :: h2 :: q)) with (let* (s1, e1) := ublox_byte s 0xD3 in let* (s2, e2) := ublox_read s1 (h1 :: h2 :: q) in Ok (s2, e1 ++ e2)).
  rewrite Eb. cbn [bind]. rewrite ER. change (rls s1) with (rls s).
  destruct (rtcm_feed (rls s) r1 (h1 :: h2 :: q)) as [[r2 outs]|k]; cbn [bind lift_rtcm] in EF |- *; [discriminate|]. congruence.
Qed.
