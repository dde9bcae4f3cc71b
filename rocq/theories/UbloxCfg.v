(* C58: the exact bytes config_base and config_rover send. *)
From Verif Require Import Base UbxSpec UbxModel UbxTx UbxTxSpec UbxTxProofs UbxTxApi UbxProofs UbxStream UbxMain UbxHist RtcmModel RtcmProofs RtcmApi UbloxModel UbloxSpec UbloxProofs UbloxApi UbloxThm.

Definition valset4 (key data : Z) : list (list Z) :=
  frame_writes 0x06 0x8A (valset_payload 0 1 key (le32 data)).
(* CFG-MSGOUT-RTCM_3X_TYPE<t>_USB for t = 4072.0, 4072.1, 1077, 1087, 1097, 1127, 1230 (u-blox interface description) *)
Definition usb_rtcm_rates (rate : Z) : list (list Z) :=
  valset1 0x20910301 rate ++ valset1 0x20910384 rate ++ valset1 0x209102cf rate ++ valset1 0x209102d4 rate ++
  valset1 0x2091031b rate ++ valset1 0x209102d9 rate ++ valset1 0x20910306 rate.
(* the CFG-TMODE3 frame config_base ends with: bytes 0..11 are what is left of the CFG-VALSET frame before it (so the
   reserved byte is 1, ecefX is the key 0x40030010 and ecefY is 119), bytes 12..23 and 32..39 are older *)
Definition survey_after_valset (out : list Z) : list Z :=
  [0; 1] ++ le16 1 ++ le32 0x40030010 ++ le32 119 ++ firstn 12 (skipn 12 out) ++ le32 60 ++ le32 3 ++ firstn 8 (skipn 32 out).
(* MSGOUT-UBX_NAV_SVIN_USB = 1, TMODE-MODE = survey-in, TMODE-SVIN_ACC_LIMIT = 50 m (0.1 mm), TMODE-SVIN_MIN_DUR = 119 s *)
Definition stationary_writes (out : list Z) : list (list Z) :=
  valset1 0x2091008b 1 ++ valset1 0x20030001 1 ++ valset4 0x40030011 500000 ++ valset4 0x40030010 119 ++
  frame_writes 0x06 0x71 (survey_after_valset out).

Lemma configure_exact h t version layer data key size : length h = 12%nat -> byte_ok version -> byte_ok layer -> 
  12 <= Zlen (h ++ t) ->
  configure (h ++ t) version layer data key size
  = Ok (valset_payload version layer key (value_bytes size data) ++ t, frame_writes 0x06 0x8A (valset_payload version layer key (value_bytes size data))).
Proof.
  intros Hh Hv Hy Hlen.
  unfold configure. rewrite !le32_u32, (u8_id version Hv), (u8_id layer Hy), u8_le.
  unlist Hh. unfold valset_payload, value_bytes, le32.
  generalize (data mod 256) as d0. generalize ((data / 256) mod 256) as d1. generalize ((data / 65536) mod 256) as d2.
  generalize ((data / 16777216) mod 256) as d3.
  generalize (key mod 256) as k0. generalize ((key / 256) mod 256) as k1. generalize ((key / 65536) mod 256) as k2.
  generalize ((key / 16777216) mod 256) as k3. intros.
  do 3 put_go.
  destruct (Z.eqb_spec size 1) as [E1|E1]; destruct (Z.eqb_spec size 2) as [E2|E2]; try lia; cbn [bind];
    repeat put_go; rewrite send_out_spec by (reflexivity || lia); reflexivity.
Qed.
Definition vcell (key : Z) (v : list Z) := valset_payload 0 1 key v.
Lemma vlen key size data : length (valset_payload 0 1 key (value_bytes size data)) = 12%nat.
Proof. unfold valset_payload, value_bytes. destruct (size =? 1); [reflexivity|]. destruct (size =? 2); reflexivity. Qed.

(* a run of configure calls on a buffer h ++ t, h the 12 bytes they use *)
Definition cfg3 : Type := (Z * Z * Z)%type.   (* key, value, size *)
Definition cfg_send (c : cfg3) (o : list Z) : outcome sent := let '(k, v, z) := c in configure o 0 1 v k z.
Definition cfg_pl (c : cfg3) : list Z := let '(k, v, z) := c in valset_payload 0 1 k (value_bytes z v).
Lemma usends_cfg s t : 2036 = Zlen t -> forall cs fs h, length h = 12%nat -> exists h', length h' = 12%nat /\
  (h' = match rev cs with [] => h | c :: _ => cfg_pl c end) /\
  usends (map cfg_send cs ++ fs) (uw_out s (h ++ t)) =
  (let* (s2, e2) := usends fs (uw_out s (h' ++ t)) in Ok (s2, map EvSer (flat_map (fun c => frame_writes 6 0x8A (cfg_pl c)) cs) ++ e2)).
Proof.
  intros Ht. induction cs as [|c cs IH]; intros fs h Hh.
  - exists h. split; [exact Hh|]. split; [reflexivity|]. cbn [map app flat_map rev]. destruct (usends fs (uw_out s (h ++ t))) as [[a b]|k]; reflexivity.
  - assert (E : cfg_send c (h ++ t) = Ok (cfg_pl c ++ t, frame_writes 6 0x8A (cfg_pl c))).
    { destruct c as [[k v] z]. unfold cfg_send, cfg_pl. apply configure_exact; [exact Hh|unfold byte_ok; lia..|].
      rewrite Zlen_app. pose proof (Zlen_nonneg h). lia. }
    assert (Hc : length (cfg_pl c) = 12%nat) by (destruct c as [[k v] z]; apply vlen).
    destruct (IH fs (cfg_pl c) Hc) as (h' & Hh' & EH & EU). exists h'. split; [exact Hh'|]. split.
    { rewrite EH. cbn [rev]. destruct (rev cs); reflexivity. }
    change (map cfg_send (c :: cs) ++ fs) with (cfg_send c :: map cfg_send cs ++ fs).
    rewrite (usends_cons _ _ (uw_out s (h ++ t)) _ _ E). change (uw_out (uw_out s (h ++ t)) (cfg_pl c ++ t)) with (uw_out s (cfg_pl c ++ t)).
    rewrite EU. destruct (usends fs (uw_out s (h' ++ t))) as [[a b]|k]; cbn [bind]; [|reflexivity].
    cbn [flat_map]. rewrite map_app, app_assoc. reflexivity.
Qed.

Definition rate_cfg (rate : Z) : list cfg3 := map (fun k => (k, rate, 1)) rtcm_keys.
Lemma rates_spec r : flat_map (fun c => frame_writes 6 0x8A (cfg_pl c)) (rate_cfg r) = usb_rtcm_rates r.
Proof. reflexivity. Qed.
Definition stat_cfg : list cfg3 := [(0x2091008b, 1, 1); (0x20030001, 1, 1); (0x40030011, 500000, 2); (0x40030010, 119, 2)].

Lemma out_split s : Zlen (u_out s) = 2048 -> exists h t, s = uw_out s (h ++ t) /\ u_out s = h ++ t /\ length h = 12%nat /\ 2036 = Zlen t.
Proof.
  intros Hz. destruct (split_at 12 (u_out s)) as (h & t & E & Hh); [unfold Zlen in Hz; lia|].
  exists h, t. split; [rewrite <- E; destruct s; reflexivity|]. split; [exact E|]. split; [exact Hh|]. rewrite E, Zlen_app in Hz. unfold Zlen in *. lia.
Qed.

Lemma base_sends s i st : Zlen (u_out s) = 2048 ->
  exists s' ev, config_base s i st = Ok (s', ev) /\ ubx_of ev = [] /\ rtk_of ev = [] /\
    ser_of ev = usb_rtcm_rates 1 ++ (if st then stationary_writes (u_out s) else []).
Proof.
  intros Hz. destruct (out_split s Hz) as (h & t & ES & EO & Hh & Ht). assert (E0 : config_base s i st = config_base (uw_out s (h ++ t)) i st) by (rewrite <- ES; reflexivity). rewrite E0. clear E0. unfold config_base.
  change (uw_mode (uw_out s (h ++ t)) (S (u_nreg (uw_out s (h ++ t)))) T_BASE i) with (uw_out (uw_mode s (S (u_nreg s)) T_BASE i) (h ++ t)).
  generalize (uw_mode s (S (u_nreg s)) T_BASE i) as b. intros b.
  destruct st.
  - change (map (fun k o => configure o 0 1 1 k 1) rtcm_keys ++ _) with (map cfg_send (rate_cfg 1 ++ stat_cfg) ++ [start_survey_in]).
    destruct (usends_cfg b t Ht (rate_cfg 1 ++ stat_cfg) [start_survey_in] h Hh) as (h' & Hh' & EH & EU). rewrite EU. clear EU.
    assert (HZ : Zlen (h' ++ t) = 2048) by (rewrite Zlen_app; unfold Zlen in *; lia).
    rewrite (usends_cons _ _ (uw_out b (h' ++ t)) _ _ (tx_survey (h' ++ t) HZ)). cbn [usends bind].
    eexists _, _. split; [reflexivity|]. rewrite !ubx_of_app, !rtk_of_app, !ser_of_app, !ubx_of_ser, !rtk_of_ser, !ser_of_ser.
    split; [reflexivity|]. split; [reflexivity|]. rewrite flat_map_app, rates_spec, <- app_assoc. f_equal.
    change (ser_of []) with (@nil (list Z)). rewrite app_nil_r. unfold stationary_writes. rewrite EO.
    change (rev (rate_cfg 1 ++ stat_cfg)) with (rev stat_cfg ++ rev (rate_cfg 1)) in EH. cbn [stat_cfg rev app] in EH.
    assert (EP : tmode3_payload (h' ++ t) 1 60 3 = survey_after_valset (h ++ t)).
    { clear - EH Hh Ht. rewrite EH. destruct (split_at 28 t) as (a & t' & -> & Ha); [unfold Zlen in Ht; lia|]. unlist Hh. unlist Ha. reflexivity. }
    rewrite EP. cbn [flat_map stat_cfg]. rewrite <- !app_assoc. reflexivity.
  - change (map (fun k o => configure o 0 1 1 k 1) rtcm_keys ++ []) with (map cfg_send (rate_cfg 1) ++ []).
    destruct (usends_cfg b t Ht (rate_cfg 1) [] h Hh) as (h' & Hh' & EH & EU). rewrite EU. cbn [usends bind].
    eexists _, _. split; [reflexivity|]. rewrite app_nil_r, ubx_of_ser, rtk_of_ser, ser_of_ser. split; [reflexivity|]. split; [reflexivity|].
    rewrite rates_spec, app_nil_r. reflexivity.
Qed.
Lemma rover_sends s i : Zlen (u_out s) = 2048 ->
  exists s' ev, config_rover s i = Ok (s', ev) /\ ubx_of ev = [] /\ rtk_of ev = [] /\ ser_of ev = usb_rtcm_rates 0.
Proof.
  intros Hz. destruct (out_split s Hz) as (h & t & ES & EO & Hh & Ht). assert (E0 : config_rover s i = config_rover (uw_out s (h ++ t)) i) by (rewrite <- ES; reflexivity). rewrite E0. clear E0. unfold config_rover.
  change (uw_mode (uw_out s (h ++ t)) (u_nreg (uw_out s (h ++ t))) T_ROVER (u_rtk (uw_out s (h ++ t)))) with (uw_out (uw_mode s (u_nreg s) T_ROVER (u_rtk s)) (h ++ t)).
  generalize (uw_mode s (u_nreg s) T_ROVER (u_rtk s)) as b. intros b.
  change (map (fun k o => configure o 0 1 0 k 1) rtcm_keys) with (map cfg_send (rate_cfg 0) ++ []).
  destruct (usends_cfg b t Ht (rate_cfg 0) [] h Hh) as (h' & Hh' & EH & EU). rewrite EU. cbn [usends bind].
  eexists _, _. split; [reflexivity|]. rewrite app_nil_r, ubx_of_ser, rtk_of_ser, ser_of_ser. auto.
Qed.
Lemma base_sends_reach u ru n s i st : uninit_ok u -> runinit_ok ru -> UReach u ru n s ->
  exists s' ev, config_base s i st = Ok (s', ev) /\ ubx_of ev = [] /\ rtk_of ev = [] /\
    ser_of ev = usb_rtcm_rates 1 ++ (if st then stationary_writes (u_out s) else []).
Proof. intros Hu Hr H. apply base_sends. destruct (ureach_inv u ru n s Hu Hr H) as [HI _]. apply HI. Qed.
Lemma rover_sends_reach u ru n s i : uninit_ok u -> runinit_ok ru -> UReach u ru n s ->
  exists s' ev, config_rover s i = Ok (s', ev) /\ ubx_of ev = [] /\ rtk_of ev = [] /\ ser_of ev = usb_rtcm_rates 0.
Proof. intros Hu Hr H. apply rover_sends. destruct (ureach_inv u ru n s Hu Hr H) as [HI _]. apply HI. Qed.
