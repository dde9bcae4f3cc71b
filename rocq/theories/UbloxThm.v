(* Statements about class UBLOX used by Properties_Ublox. *)
From Verif Require Import Base UbxSpec UbxModel UbxProofs UbxStream UbxMain UbxMore UbxHist UbxApi
  UbxTx UbxTxSpec UbxTxApi CrcSpec RtcmModel RtcmSpec RtcmProofs RtcmApi UbloxModel UbloxSpec UbloxProofs UbloxApi.

Lemma reach_base_idle u ru n s ls : uninit_ok u -> runinit_ok ru -> UReach u ru n s ->
  u_type s = T_BASE -> u_ls s = map build ls -> parsing_message (u_ubx s) = false -> rtcm_parsing (u_rtcm s) = false -> base_idle ls s.
Proof.
  intros Hu Hru HR HT HL H1 H2. destruct (ureach_inv u ru n s Hu Hru HR) as ((K1 & (p & K2) & _ & _) & _).
  split; [exact HT|]. split; [exact HL|]. split; [apply inv_idle; assumption|]. apply (rst_parsing _ _ K2) in H2. subst p. exact K2.
Qed.

Lemma demux_reach u ru n s ls ds :
  uninit_ok u -> runinit_ok ru -> UReach u ru n s -> u_type s = T_BASE -> Forall listener_ok ls -> u_ls s = map build ls ->
  parsing_message (u_ubx s) = false -> rtcm_parsing (u_rtcm s) = false ->
  ditems_ok (prev (u_ubx s)) ds -> bytes_ok (ditems_bytes ds) ->
  (exists s', ublox_read s (ditems_bytes ds) = Ok (s', ditems_events ls n (u_rtk s) (inbuf (u_ubx s)) ds) /\
     parsing_message (u_ubx s') = false /\ rtcm_parsing (u_rtcm s') = false /\ u_type s' = T_BASE /\ u_rtk s' = u_rtk s)
  \/ ((exists pl, In (DUbx (Good 10 4 pl)) ds) /\ ublox_read s (ditems_bytes ds) = UB UB_cstring).
Proof.
  intros Hu Hru HR HT Hls HL H1 H2 Hok Hb. pose proof (reach_base_idle u ru n s ls Hu Hru HR HT HL H1 H2) as HB.
  destruct (ureach_inv u ru n s Hu Hru HR) as (_ & EN).
  destruct (base_demux ls ds s Hls HB Hok Hb) as [(s' & E & (T & _ & I & R) & HC)|[Hv E]].
  - left. exists s'. rewrite EN in E. split; [exact E|]. split; [apply idle_parsing; exact I|]. split; [apply (rst_parsing _ [] R); reflexivity|].
    split; [exact T|]. apply HC.
  - right. split; [|exact E]. apply existsb_exists in Hv. destruct Hv as (d & Hin & Hd). destruct d as [b|it|it]; try discriminate.
    destruct it as [b|c i pl|c i pl ka kb|c i m]; try discriminate. cbn in Hd. apply andb_prop in Hd. destruct Hd as [A B].
    apply Z.eqb_eq in A. apply Z.eqb_eq in B. subst. exists pl. exact Hin.
Qed.

(* a 0xD3 received while idle in base mode hides the announced number of bytes from the UBX reader *)
Lemma stray_d3 u ru n s h1 h2 q : uninit_ok u -> runinit_ok ru -> UReach u ru n s -> u_type s = T_BASE ->
  parsing_message (u_ubx s) = false -> rtcm_parsing (u_rtcm s) = false ->
  bytes_ok ([0xD3; h1; h2] ++ q) -> 1 <= rtcm_len h1 h2 <= 1018 -> Zlen q = rtcm_len h1 h2 + 3 ->
  exists s' ev, ublox_read s ([0xD3; h1; h2] ++ q) = Ok (s', ev) /\ ubx_of ev = [] /\
    parsing_message (u_ubx s') = false /\ rtcm_parsing (u_rtcm s') = false /\ inbuf (u_ubx s') = inbuf (u_ubx s).
Proof.
  intros Hu Hru HR HT H1 H2 Hb Hn Hq. destruct (ureach_inv u ru n s Hu Hru HR) as ((_ & _ & (ls & Hls & EL) & _) & _).
  pose proof (reach_base_idle u ru n s ls Hu Hru HR HT EL H1 H2) as HB. cbn [app] in *.
  assert (HS : rtcm_shape (rtcm_len h1 h2) (0xD3 :: h1 :: h2 :: q)) by (apply shape_intro; lia).
  assert (HI : exists it, ritem_ok it /\ is_rnoise it = false /\ ritem_bytes it = 0xD3 :: h1 :: h2 :: q).
  { destruct (rsegment [] (0xD3 :: h1 :: h2 :: q) (u_rtcm s) []) as (its & t & E & Hok & Ht & _); [apply HB|constructor|exact Hb|]. cbn [app] in E.
    destruct its as [|it its].
    - exfalso. cbn in E. subst t. destruct Ht as [Ht|(r & E & Ht)]; [discriminate|]. injection E as <-. rewrite !Zlen_cons in Ht. pose proof (Zlen_nonneg q).
      destruct Ht as [Ht|(x & y & q' & E & Hn' & Ht)]; [lia|]. injection E as <- <- <-. lia.
    - inversion Hok as [|? ? Hi _]; subst. exists it. split; [exact Hi|]. cbn [ritems_bytes flat_map] in E. rewrite <- app_assoc in E.
      destruct (ritem_cases it Hi) as [(b & -> & Hb')|[(h & -> & Hh)|(x & y & q' & EB & ES & Hn' & Hq')]].
      + cbn in E. injection E as <- _. congruence.
      + cbn in E. injection E as -> -> _. unfold rtcm_len in Hn. rewrite Hh in Hn. lia.
      + split; [destruct it; try discriminate ES; reflexivity|]. rewrite EB in E. cbn [app] in E. injection E as -> -> E.
        destruct (app_eq_len q q' [] (flat_map ritem_bytes its ++ t)) as [-> _]; [unfold Zlen in *; lia|rewrite app_nil_r; exact E|exact EB]. }
  destruct HI as (it & Hi & Hn0 & EB). rewrite <- EB in Hb |- *.
  destruct (rtcm_item_base ls s it HB Hi Hn0 Hb) as (s' & E & (T & _ & I & R) & _ & _ & EM).
  exists s', (ditem_events ls (u_nreg s) (u_rtk s) (inbuf (u_ubx s)) (DRtcm it)). split; [exact E|].
  split; [|split; [apply idle_parsing; exact I|]; split; [apply (rst_parsing _ [] R); reflexivity|exact EM]].
  destruct it; try reflexivity. cbn [ditem_events]. generalize (u_nreg s). clear. intros m. induction m as [|m IH]; [reflexivity|exact IH].
Qed.

(* outside base mode *)
Lemma nonbase_reach u ru n s bs : uninit_ok u -> runinit_ok ru -> UReach u ru n s -> u_type s <> T_BASE -> bytes_ok bs ->
  (exists s' outs, ublox_read s bs = Ok (s', map EvUbx (flat_map fst outs)) /\
     feed (u_ls s) (u_ubx s) bs = Ok (u_ubx s', outs))
  \/ (ublox_read s bs = UB UB_cstring /\ feed (u_ls s) (u_ubx s) bs = UB UB_cstring)
  \/ (ublox_read s bs = UB UB_oob_write).
Proof.
  intros Hu Hru HR HT Hb. destruct (ureach_inv u ru n s Hu Hru HR) as ((K1 & (p & K2) & _ & _) & _).
  destruct (read_any bs s p K1 K2 Hb) as [(s' & ev & p' & fs & E & _ & _ & _ & _ & _ & _ & HTy)|[[E ER]|[E _]]].
  - left. destruct (HTy HT) as [_ (outs & EF & ->)]. exists s', outs. auto.
  - right. left. auto.
  - right. right. exact E.
Qed.
(* short streams cannot overflow the correction buffer *)
Lemma nonbase_short u ru n s bs : uninit_ok u -> runinit_ok ru -> UReach u ru n s -> u_type s <> T_BASE -> bytes_ok bs ->
  rtcm_parsing (u_rtcm s) = false -> Zlen bs <= 1024 -> ublox_read s bs <> UB UB_oob_write.
Proof.
  intros Hu Hru HR HT Hb HP HL. destruct (ureach_inv u ru n s Hu Hru HR) as ((K1 & (p & K2) & _ & _) & _).
  apply (rst_parsing _ _ K2) in HP. subst p.
  destruct (read_any bs s [] K1 K2 Hb) as [(s' & ev & p' & fs & E & _)|[[E ER]|[E HL']]]; rewrite E; try discriminate.
  change (@Zlen Z []) with 0 in HL'. lia.
Qed.

(* a valid RTCM frame that stops UBX reception for good *)
Definition swallow_frame : list Z := [0xD3; 0; 6; 0xB5; 0x62; 1; 7; 0; 0; 0xA6; 0xBA; 0x4D].
Lemma swallow u ru n s bs : uninit_ok u -> runinit_ok ru -> UReach u ru n s -> u_type s <> T_BASE -> bytes_ok bs ->
  parsing_message (u_ubx s) = false -> rtcm_parsing (u_rtcm s) = false ->
  exists s', ublox_read s (swallow_frame ++ bs) = Ok (s', []).
Proof.
  intros Hu Hru HR HT Hb HP HP2. destruct (ureach_inv u ru n s Hu Hru HR) as ((K1 & (p & K2) & (ls & Hls & EL) & _) & _).
  apply (rst_parsing _ _ K2) in HP2. subst p. pose proof (inv_idle _ K1 HP) as HI.
  change (swallow_frame ++ bs) with ([0xD3; 0; 6; 0xB5; 0x62] ++ [1; 7; 0; 0] ++ [0xA6; 0xBA; 0x4D] ++ bs).
  rewrite ublox_read_app.
  assert (Hb1 : bytes_ok [0xD3; 0; 6; 0xB5; 0x62]) by (repeat constructor; unfold byte_ok; lia).
  set (x4 := w_prev (w_prev (w_prev (w_prev (u_ubx s) 0xD3) 0) 6) 0xB5).
  assert (HI4 : Idle x4) by (do 4 apply idle_prev; exact HI).
  assert (F4 : forall r, feed (u_ls s) (u_ubx s) ([0xD3; 0; 6; 0xB5] ++ r) = (let* (a, o) := feed (u_ls s) x4 r in Ok (a, quiet 4 ++ o))).
  { intros r. cbn [app feed]. rewrite read_noise by (apply HI || lia). cbn [bind].
    rewrite read_noise by (apply HI || lia). cbn [bind]. rewrite read_noise by (apply HI || (cbn; lia)). cbn [bind].
    rewrite read_noise by (apply HI || (cbn; lia)). cbn [bind]. fold x4. destruct (feed (u_ls s) x4 r) as [[a o]|k]; reflexivity. }
  assert (TT : forall a, bytes_ok a -> (Zlen a < 4 \/ exists r, a = [1; 7; 0; 0] ++ r) -> exists x', feed (u_ls s) x4 (0x62 :: a) = Ok (x', quiet (S (length a))) /\ parsing_message x' = true).
  { intros a Ha HA. destruct (exec_tail (u_ls s) x4 (0x62 :: a) HI4) as (x' & EF & _ & _ & HPm).
    - right. split; [reflexivity|]. exists a. split; [reflexivity|]. destruct HA as [HA|(r & ->)]; [left; exact HA|right].
      exists 1, 7, 0, r. split; [reflexivity|]. split; [lia|left; reflexivity].
    - constructor; [unfold byte_ok; lia|exact Ha].
    - exists x'. split; [exact EF|]. apply HPm. discriminate. }
  destruct (read_any [0xD3; 0; 6; 0xB5; 0x62] s [] K1 K2 Hb1) as [(s1 & ev & p' & fs & E & HC & _ & _ & _ & _ & _ & HTy)|[[E ER]|[E HL]]].
  2:{ exfalso. specialize (ER HT). change [0xD3; 0; 6; 0xB5; 0x62] with ([0xD3; 0; 6; 0xB5] ++ [0x62]) in ER. rewrite F4 in ER.
      destruct (TT [] (Forall_nil _) (or_introl eq_refl)) as (x' & EF & _). rewrite EF in ER. discriminate. }
  2:{ exfalso. change (Zlen [0xD3; 0; 6; 0xB5; 0x62]) with 5 in HL. change (@Zlen Z []) with 0 in HL. lia. }
  rewrite E. cbn [bind]. destruct (HTy HT) as [_ (outs & EF & ->)].
  change [0xD3; 0; 6; 0xB5; 0x62] with ([0xD3; 0; 6; 0xB5] ++ [0x62]) in EF. rewrite F4 in EF.
  destruct (TT [] (Forall_nil _) (or_introl eq_refl)) as (x5 & EF5 & _). cbn [length] in EF5. rewrite EF5 in EF. cbn [bind] in EF.
  assert (EX : u_ubx s1 = x5) by congruence. assert (EO : outs = quiet 4 ++ quiet 1) by congruence. subst outs.
  assert (ELS : u_ls s1 = u_ls s) by apply HC.
  assert (STEP : forall a, feed (u_ls s) x4 (0x62 :: a) = (let* (x, o) := feed (u_ls s) x5 a in Ok (x, quiet 1 ++ o))).
  { intros a. change (0x62 :: a) with ([0x62] ++ a). rewrite feed_app, EF5. cbn [bind]. destruct (feed (u_ls s) x5 a) as [[x o]|k]; reflexivity. }
  set (rest := [1; 7; 0; 0] ++ [0xA6; 0xBA; 0x4D] ++ bs).
  assert (Hrest : bytes_ok rest) by (unfold rest; repeat (constructor; [unfold byte_ok; lia|]); exact Hb).
  rewrite run_ubx.
  - rewrite ELS, EX. destruct (TT rest Hrest) as (x' & EF' & _); [right; eexists; reflexivity|].
    rewrite STEP in EF'. destruct (feed (u_ls s) x5 rest) as [[x6 o6]|k] eqn:E6; cbn [bind] in EF'; [|discriminate].
    cbn [lift_ubx bind]. exists (uw_ubx s1 x6). f_equal. f_equal.
    assert (E7 : quiet 1 ++ o6 = quiet (S (length rest))) by congruence.
    assert (E8 : flat_map fst o6 = flat_map fst (quiet (S (length rest)))) by (rewrite <- E7; reflexivity).
    rewrite flat_quiet in E8. unfold ubx_events. rewrite E8. reflexivity.
  - rewrite ELS, EX. intros a b xa o Eab Hbn EFa.
    assert (Ha : bytes_ok a) by (rewrite Eab in Hrest; apply bytes_ok_app in Hrest; tauto).
    destruct (TT a Ha) as (x' & EF' & HPx).
    + destruct (Z.ltb_spec (Zlen a) 4) as [H4|H4]; [left; exact H4|right]. unfold rest in Eab. symmetry in Eab.
      destruct (split_prefix [1; 7; 0; 0] a b _ Eab) as (r & -> & _); [unfold Zlen in H4; cbn [length]; lia|]. eauto.
    + rewrite STEP, EFa in EF'. cbn [bind] in EF'. congruence.
Qed.

(* ---------------------------------------------------------------- forwarding *)
Lemma forward_sound u ru n s bs s' ev : uninit_ok u -> runinit_ok ru -> UReach u ru n s -> bytes_ok bs -> ublox_read s bs = Ok (s', ev) ->
  (u_type s <> T_BASE -> rtk_of ev = []) /\
  exists fs, Forall good_rtcm fs /\ rtk_of ev = flat_map (fun f => repeat (u_rtk s, f) n) fs.
Proof.
  intros Hu Hru HR Hb E. destruct (ureach_inv u ru n s Hu Hru HR) as ((K1 & (p & K2) & _ & _) & EN).
  destruct (read_any bs s p K1 K2 Hb) as [(s1 & e1 & p1 & fs & E1 & _ & _ & _ & _ & EK & HF & HTy)|[[E1 _]|[E1 _]]]; rewrite E in E1; [|discriminate..].
  assert (e1 = ev) by congruence. subst e1. unfold copies in EK. rewrite EN in EK. split.
  - intros HT. destruct (HTy HT) as [-> _]. exact EK.
  - exists fs. auto.
Qed.
Lemma reads_never_send u ru n s bs s' ev : uninit_ok u -> runinit_ok ru -> UReach u ru n s -> bytes_ok bs -> ublox_read s bs = Ok (s', ev) -> ser_of ev = [].
Proof.
  intros Hu Hru HR Hb E. destruct (ureach_inv u ru n s Hu Hru HR) as ((K1 & (p & K2) & _ & _) & EN).
  destruct (read_any bs s p K1 K2 Hb) as [(s1 & e1 & p1 & fs & E1 & _ & _ & _ & ES & _)|[[E1 _]|[E1 _]]]; rewrite E in E1; [|discriminate..]. congruence.
Qed.
Lemma good_frame_forwarded u ru n s f m : uninit_ok u -> runinit_ok ru -> UReach u ru n s -> u_type s = T_BASE ->
  parsing_message (u_ubx s) = false -> rtcm_parsing (u_rtcm s) = false -> 1 <= m <= 1018 -> rtcm_frame m f -> bytes_ok f ->
  exists s', ublox_read s f = Ok (s', repeat (EvRtk (u_rtk s) f) n).
Proof.
  intros Hu Hru HR HT H1 H2 Hm Hf Hb. destruct (ureach_inv u ru n s Hu Hru HR) as ((_ & _ & (ls & Hls & EL) & _) & EN).
  pose proof (reach_base_idle u ru n s ls Hu Hru HR HT EL H1 H2) as HB.
  destruct (rtcm_item_base ls s (RGood f) HB) as (s' & E & _); [exists m; auto|reflexivity|exact Hb|].
  exists s'. cbn [ditem_events ritem_bytes] in E. rewrite EN in E. exact E.
Qed.
Lemma modes u ru n s i st : uninit_ok u -> runinit_ok ru -> UReach u ru n s ->
  (exists s' ev, config_base s i st = Ok (s', ev) /\ u_type s' = T_BASE /\ u_rtk s' = i /\ UReach u ru (S n) s' /\ u_ls s' = u_ls s /\
     u_ubx s' = u_ubx s /\ u_rtcm s' = u_rtcm s) /\
  (exists s' ev, config_rover s i = Ok (s', ev) /\ u_type s' = T_ROVER /\ u_rtk s' = i /\ UReach u ru n s' /\ u_ls s' = u_ls s /\
     u_ubx s' = u_ubx s /\ u_rtcm s' = u_rtcm s).
Proof.
  intros Hu Hru HR. destruct (ureach_inv u ru n s Hu Hru HR) as ((_ & _ & _ & HO) & _). split.
  - destruct (config_base_spec s i st HO) as (o & ev & E & _). do 2 eexists. split; [exact E|]. repeat split. eapply U_base; eassumption.
  - destruct (config_rover_spec s i HO) as (o & ev & E & _). do 2 eexists. split; [exact E|]. repeat split. eapply U_rover; eassumption.
Qed.

(* ---------------------------------------------------------------- rover *)
(* the correction callback called chunk by chunk *)
Fixpoint rover_chunks (d : rtcm) (cs : list (list Z)) : outcome (rtcm * list event) :=
  match cs with
  | [] => Ok (d, [])
  | c :: r =>
      let* (d1, e1) := rover_cb d c in
      let* (d2, e2) := rover_chunks d1 r in
      Ok (d2, e1 ++ e2)
  end.
Lemma rtcm_feed_app ls a : forall s b,
  rtcm_feed ls s (a ++ b) = (let* (s1, o1) := rtcm_feed ls s a in let* (s2, o2) := rtcm_feed ls s1 b in Ok (s2, o1 ++ o2)).
Proof.
  induction a as [|x a IH]; intros s b; cbn [app rtcm_feed bind].
  - destruct (rtcm_feed ls s b) as [[s2 o2]|k]; reflexivity.
  - destruct (rtcm_byte ls s x) as [[s1 c]|k]; cbn [bind]; [|reflexivity]. rewrite IH.
    destruct (rtcm_feed ls s1 a) as [[s2 o2]|k]; cbn [bind]; [|reflexivity].
    destruct (rtcm_feed ls s2 b) as [[s3 o3]|k]; cbn [bind]; reflexivity.
Qed.
Lemma rover_feed cs : forall d,
  rover_chunks d cs = (let* (d', _) := rtcm_feed [] d (concat cs) in Ok (d', map EvSer cs)).
Proof.
  induction cs as [|c cs IH]; intros d; [reflexivity|]. cbn [rover_chunks concat map]. rewrite rtcm_feed_app. unfold rover_cb.
  destruct (rtcm_feed [] d c) as [[d1 o1]|k]; cbn [bind]; [|reflexivity]. rewrite IH.
  destruct (rtcm_feed [] d1 (concat cs)) as [[d2 o2]|k]; cbn [bind]; reflexivity.
Qed.
Lemma rover_verbatim ru d cs : runinit_ok ru -> RReach ru d -> rtcm_parsing d = false -> bytes_ok (concat cs) ->
  (exists d', rover_chunks d cs = Ok (d', map EvSer cs)) \/
  (rover_chunks d cs = UB UB_oob_write /\
   exists its h1 h2 q, concat cs = ritems_bytes its ++ [0xD3; h1; h2] ++ q /\ Forall ritem_ok its /\
     1019 <= rtcm_len h1 h2 <= 1023 /\ 1022 <= Zlen q).
Proof.
  intros Hru HR HP Hb. rewrite rover_feed. destruct (overflow_iff ru d [] (concat cs) Hru HR HP Hb) as [H1 H2].
  destruct (rtcm_feed [] d (concat cs)) as [[d' o]|k] eqn:E; cbn [bind].
  - left. eauto.
  - right. specialize (H2 k eq_refl). subst k. split; [reflexivity|]. apply H1. eauto.
Qed.
Lemma rover_overflow ru d cs : runinit_ok ru -> RReach ru d -> rtcm_parsing d = false -> bytes_ok (concat cs) ->
  (exists its h1 h2 q, concat cs = ritems_bytes its ++ [0xD3; h1; h2] ++ q /\ Forall ritem_ok its /\
     1019 <= rtcm_len h1 h2 <= 1023 /\ 1022 <= Zlen q) -> rover_chunks d cs = UB UB_oob_write.
Proof.
  intros Hru HR HP Hb H. rewrite rover_feed. destruct (overflow_iff ru d [] (concat cs) Hru HR HP Hb) as [H1 H2].
  destruct (proj2 H1 H) as [k E]. rewrite E. cbn [bind]. f_equal. apply H2. exact E.
Qed.

Lemma shuffle_l {A} (a : list A) : shuffle a [] a.
Proof. induction a; [constructor|]. constructor. exact IHa. Qed.
Lemma shuffle_r {A} (b : list A) : shuffle [] b b.
Proof. induction b; [constructor|]. constructor. exact IHb. Qed.
Lemma shuffle_mid {A} (a x y : list A) : shuffle a (x ++ y) (x ++ a ++ y).
Proof.
  induction x as [|z x IH]; cbn [app]; [|constructor; exact IH].
  induction a as [|z a IH]; cbn [app]; [apply shuffle_r|constructor; exact IH].
Qed.
(* the bytes of one sender stay in order *)
Lemma shuffle_count {A} (a b c : list A) : shuffle a b c -> length c = (length a + length b)%nat.
Proof. intros H. induction H; cbn [length]; lia. Qed.

Lemma no_sync_cons p l : no_sync l -> (p = 0xB5 -> hd 0 l <> 0x62) -> no_sync (p :: l).
Proof.
  intros Hn Hp a b E. destruct a as [|x a]; cbn [app] in E.
  - injection E as -> ->. apply Hp; reflexivity.
  - injection E as -> E. apply (Hn a b). exact E.
Qed.
Lemma no_b5_no_sync l : ~ In 0xB5 l -> no_sync l.
Proof. intros Hn a b E. apply Hn. rewrite E. apply in_or_app. right. left. reflexivity. Qed.

Lemma interleaved_lost u s ls cls id pl c :
  uninit_ok u -> Reach u s -> parsing_message s = false -> Forall listener_ok ls ->
  bytes_ok (ubx_frame cls id pl) -> bytes_ok c -> c <> [] -> hd 0 c <> 0x62 ->
  ~ In 0xB5 c -> ~ In 0xB5 (tl (ubx_frame cls id pl)) ->
  exists w s', shuffle (frame_writes cls id pl) [c] w /\
    feed (map build ls) s (concat w) = Ok (s', repeat ([], false) (length (concat w))) /\ parsing_message s' = false.
Proof.
  intros Hu HR HP Hls Hbf Hbc Hne Hhd HB1 HB2. apply (reach_idle_iff u s Hu HR) in HP. rename HP into HI.
  set (w := [0xB5] :: c :: tl (frame_writes cls id pl)).
  assert (EC : concat w = 0xB5 :: c ++ tl (ubx_frame cls id pl)).
  { unfold w, frame_writes, ubx_frame, ubx_body. cbn [tl concat app]. reflexivity. }
  assert (HS : no_sync (prev s :: concat w)).
  { rewrite EC. apply no_sync_cons; [|cbn; lia]. apply no_sync_cons.
    - apply no_b5_no_sync. intros Hin. apply in_app_or in Hin. tauto.
    - intros _. destruct c as [|z c]; [congruence|]. exact Hhd. }
  destruct (noise_items (concat w) (prev s) HS) as (Hok & EB & _).
  destruct (exec_items ls (map Noise (concat w)) s Hls HI (reach_small u s Hu HR) Hok) as [(s' & E & HI' & _)|[Hv _]].
  - rewrite EB, EC. constructor; [unfold byte_ok; lia|]. apply bytes_ok_app. split; [exact Hbc|]. inversion Hbf; subst. assumption.
  - exists w, s'. split; [|split; [|apply idle_parsing; exact HI']].
    + unfold w. unfold frame_writes. cbn [tl]. apply sh_l. apply sh_r. apply shuffle_l.
    + rewrite EB in E. rewrite E. f_equal. f_equal. generalize (inbuf s). clear.
      induction (concat w) as [|b l IH]; intros m; [reflexivity|]. cbn [map items_outs item_outs item_bytes length quiet repeat app item_mem]. f_equal. apply IH.
  - exfalso. revert Hv. clear. intros Hv.
    assert (G : forall l, count (is_good_of 10 4) (map Noise l) = 0) by (intros l; induction l as [|b l IH]; [reflexivity|]; cbn [map]; rewrite count_cons; cbn [is_good_of]; lia).
    rewrite G in Hv. lia.
Qed.
Lemma adjacent_received u s ls cls id pl a b :
  uninit_ok u -> Reach u s -> parsing_message s = false -> Forall listener_ok ls -> byte_ok cls -> byte_ok id -> ubx_payload_ok pl -> (cls, id) <> (10, 4) ->
  bytes_ok (concat a) -> no_sync (prev s :: concat a) -> bytes_ok (concat b) -> no_sync (ck_b_of (ubx_body cls id pl) :: concat b) ->
  shuffle (frame_writes cls id pl) (a ++ b) (a ++ frame_writes cls id pl ++ b) /\
  exists s' outs d, feed (map build ls) s (concat (a ++ frame_writes cls id pl ++ b)) = Ok (s', outs) /\
    deliveries outs = [d] /\ delivered ls (cls, id, pl) d.
Proof.
  intros Hu HR HP Hls Hc Hi Hpl Hne Ha Hna Hb Hnb. split; [apply shuffle_mid|].
  assert (EB : concat (a ++ frame_writes cls id pl ++ b) = chunks_bytes [CNoise (concat a); CFrame cls id pl; CNoise (concat b)]).
  { rewrite !concat_app. unfold chunks_bytes. cbn [flat_map chunk_bytes]. rewrite app_nil_r. f_equal. }
  rewrite EB. destruct (ls_stream u s ls [CNoise (concat a); CFrame cls id pl; CNoise (concat b)] Hu HR HP Hls) as [(s' & outs & E & _ & HD & _)|[(pl' & Hin) _]].
  - cbn [chunks_ok chunk_ok chunk_bytes]. split; [split; assumption|]. split; [split; [exact Hc|split; [exact Hi|exact Hpl]]|]. split; [|exact I].
    split; [exact Hb|].
    assert (EL : forall p, last (ubx_frame cls id pl) p = ck_b_of (ubx_body cls id pl)).
    { intros p. unfold ubx_frame. change [ck_a_of (ubx_body cls id pl); ck_b_of (ubx_body cls id pl)] with ([ck_a_of (ubx_body cls id pl)] ++ [ck_b_of (ubx_body cls id pl)]).
      rewrite !app_assoc. apply last_last. }
    rewrite EL. exact Hnb.
  - cbn [chunk_frames flat_map app] in HD. inversion HD as [|? d ? ds HD1 HD2 E1 E2]; subst. inversion HD2; subst.
    exists s', outs, d. split; [exact E|]. split; [congruence|exact HD1].
  - exfalso. cbn [chunk_frames flat_map app In] in Hin. destruct Hin as [Hin|[]]. congruence.
Qed.

(* ---------------------------------------------------------------- constructor *)
Lemma ver_feed u ls r x outs : uninit_ok u -> Forall listener_ok ls -> bytes_ok r ->
  feed (map build ls) (ubx_init u) r = Ok (x, outs) -> (got_ver x = true <-> ver_seen r).
Proof.
  intros Hu Hls Hb EF. pose proof (init_idle u Hu) as HI.
  assert (SM : small_counters (ubx_init u)) by (apply (reach_small u _ Hu); constructor).
  assert (G : forall its t, r = items_bytes its ++ t -> items_ok 0 its -> tail_ok (items_last 0 its) t -> got_ver x = (0 <? count (is_good_of 10 4) its)).
  { intros its t E Hok Ht. rewrite E in Hb, EF. apply bytes_ok_app in Hb. destruct Hb as [Hb1 Hb2].
    destruct (exec_items ls its (ubx_init u) Hls HI SM Hok Hb1) as [(s1 & E1 & HI1 & _ & HP1)|[_ E1]]; rewrite feed_app, E1 in EF; cbn [bind] in EF; [|discriminate].
    destruct HP1 as (HP & _ & _ & _ & _ & _ & HV & _). change (prev (ubx_init u)) with 0 in HP. rewrite <- HP in Ht.
    destruct (exec_tail (map build ls) s1 t HI1 Ht Hb2) as (s2 & E2 & HT & _). rewrite E2 in EF. cbn [bind] in EF.
    assert (s2 = x) by congruence. subst s2. destruct HT as (_ & _ & _ & _ & HV2 & _). rewrite HV2, HV. reflexivity. }
  split.
  - intros HV. destruct (UbxStream.segmentation r 0 Hb) as (its & t & E & Hok & Ht). exists its, t. split; [exact E|]. split; [exact Hok|]. split; [exact Ht|].
    rewrite (G its t E Hok Ht) in HV. lia.
  - intros (its & t & E & Hok & Ht & Hc). rewrite (G its t E Hok Ht). lia.
Qed.
Lemma ver_seen_app a b : bytes_ok (a ++ b) -> ver_seen a -> ver_seen (a ++ b).
Proof.
  intros Hb (its & t & E & Hok & Ht & Hc). subst a.
  destruct (UbxStream.segmentation (t ++ b) (items_last 0 its)) as (its2 & t2 & E2 & Hok2 & Ht2).
  { rewrite <- app_assoc in Hb. apply bytes_ok_app in Hb. tauto. }
  exists (its ++ its2), t2. rewrite items_bytes_app, <- !app_assoc, E2. split; [reflexivity|].
  split; [apply items_ok_app; auto|]. split; [rewrite items_last_app; exact Ht2|]. rewrite count_app. pose proof (count_nonneg (is_good_of 10 4) its2). lia.
Qed.

Definition ver_poll : list (list Z) := frame_writes 0x0A 0x04 [].
Definition rate_on (c i : Z) : list (list Z) := frame_writes 0x06 0x01 [c; i; 1].
Definition setup_messages : list (list Z) :=
  rate_on 0x01 0x07 ++ rate_on 0x01 0x3C ++ rate_on 0x01 0x11 ++ rate_on 0x02 0x15 ++ rate_on 0x02 0x13.
Definition setup_writes (proto : Z) : list (list Z) :=
  (if proto <=? 23 then frame_writes 0x06 0x00 (prt_payload 3 0 921600 0x21 0x21 0x8C0) ++ frame_writes 0x06 0x08 (rate_payload 200 1 0)
   else valset1 0x10770002 0 ++ valset1 0x10780002 0 ++ valset1 0x30210001 200 ++ valset1 0x30210002 1 ++ valset1 0x20210003 0)
  ++ setup_messages.

Lemma usends_cons f fs s o w : f (u_out s) = Ok (o, w) ->
  usends (f :: fs) s = (let* (s2, e2) := usends fs (uw_out s o) in Ok (s2, map EvSer w ++ e2)).
Proof. intros E. cbn [usends]. unfold usend. rewrite E. reflexivity. Qed.
Lemma enable_spec c i o : Zlen o = 2048 -> byte_ok c -> byte_ok i -> exists o', Zlen o' = 2048 /\ enable_message c i 1 o = Ok (o', rate_on c i).
Proof.
  intros Ho Hc Hi. unfold byte_ok in *. destruct (tx_old o 0 200 c i 1 Ho) as (_ & _ & _ & (o' & H1 & E)); [lia|].
  exists o'. split; [exact H1|]. rewrite E. unfold rate_on. rewrite !Z.mod_small by lia. reflexivity.
Qed.
Lemma setup_sent s m : Zlen (u_out s) = 2048 -> exists o ev, usends (ctor_sends m) s = Ok (uw_out s o, ev) /\ ser_of ev = setup_writes m.
Proof.
  intros Hz. unfold ctor_sends, setup_writes.
  assert (HM : forall o1, Zlen o1 = 2048 -> exists o ev, usends [enable_message 1 7 1; enable_message 1 60 1; enable_message 1 17 1; enable_message 2 21 1; enable_message 2 19 1] (uw_out s o1) = Ok (uw_out s o, ev) /\ ser_of ev = setup_messages).
  { intros o1 H1.
    destruct (enable_spec 1 7 o1 H1) as (o2 & H2 & E2); [unfold byte_ok; lia..|].
    destruct (enable_spec 1 60 o2 H2) as (o3 & H3 & E3); [unfold byte_ok; lia..|].
    destruct (enable_spec 1 17 o3 H3) as (o4 & H4 & E4); [unfold byte_ok; lia..|].
    destruct (enable_spec 2 21 o4 H4) as (o5 & H5 & E5); [unfold byte_ok; lia..|].
    destruct (enable_spec 2 19 o5 H5) as (o6 & H6 & E6); [unfold byte_ok; lia..|].
    rewrite (usends_cons _ _ (uw_out s o1) _ _ E2), (usends_cons _ _ (uw_out (uw_out s o1) o2) _ _ E3), (usends_cons _ _ (uw_out (uw_out (uw_out s o1) o2) o3) _ _ E4),
      (usends_cons _ _ (uw_out (uw_out (uw_out (uw_out s o1) o2) o3) o4) _ _ E5), (usends_cons _ _ (uw_out (uw_out (uw_out (uw_out (uw_out s o1) o2) o3) o4) o5) _ _ E6).
    cbn [usends bind]. exists o6. eexists. split; [reflexivity|]. rewrite !ser_of_app, !ser_of_ser. reflexivity. }
  destruct (Z.leb_spec m 23) as [H|H].
  - destruct (tx_old (u_out s) m 200 0 0 1 Hz H) as ((o1 & H1 & E1) & _).
    destruct (tx_old o1 m 200 0 0 1 H1 H) as (_ & _ & (o2 & H2 & E2) & _).
    rewrite (usends_cons _ _ _ _ _ E1), (usends_cons _ _ (uw_out s o1) _ _ E2).
    destruct (HM o2 H2) as (o & ev & E & ES). change (uw_out (uw_out s o1) o2) with (uw_out s o2). rewrite E. cbn [bind].
    exists o. eexists. split; [reflexivity|]. rewrite !ser_of_app, !ser_of_ser, ES, <- app_assoc. reflexivity.
  - destruct (tx_new (u_out s) m 200 0 0 1 Hz H) as ((o1 & H1 & E1) & _).
    destruct (tx_new o1 m 200 0 0 1 H1 H) as (_ & _ & (o2 & H2 & E2) & _).
    rewrite (usends_cons _ _ _ _ _ E1), (usends_cons _ _ (uw_out s o1) _ _ E2).
    destruct (HM o2 H2) as (o & ev & E & ES). change (uw_out (uw_out s o1) o2) with (uw_out s o2). rewrite E. cbn [bind].
    exists o. eexists. split; [reflexivity|]. rewrite !ser_of_app, !ser_of_ser, ES, <- !app_assoc. reflexivity.
Qed.

Lemma w_ver_false x : got_ver x = false -> w_ver x false = x.
Proof. intros H. rewrite <- H. destruct x; reflexivity. Qed.

Lemma ctor_spec u ru out0 nav rx1 rx2 r ev :
  uninit_ok u -> runinit_ok ru -> Zlen out0 = 2048 -> bytes_ok rx1 -> bytes_ok rx2 ->
  ctor u ru out0 nav rx1 rx2 = Ok (r, ev) ->
  (ver_seen rx1 -> exists s, r = Some s /\ ser_of ev = ver_poll ++ setup_writes (major (u_ubx s))) /\
  (~ ver_seen rx1 -> ver_seen (rx1 ++ rx2) -> exists s, r = Some s /\ ser_of ev = ver_poll ++ ver_poll ++ setup_writes (major (u_ubx s))) /\
  (~ ver_seen (rx1 ++ rx2) -> r = None /\ ser_of ev = ver_poll ++ ver_poll).
Proof.
  intros Hu Hru Hz Hb1 Hb2 H. pose proof (blank_inv u ru out0 nav Hu Hru Hz) as HB. unfold ctor in H.
  set (l0 := mkListener nav [(0x02, 0x13)]).
  assert (Hl0 : Forall listener_ok [l0]) by (repeat constructor; cbn; lia).
  assert (EL0 : u_ls (ublox_blank u ru out0 nav) = map build [l0]) by reflexivity.
  destruct (get_version_spec _ rx1 HB Hb1 eq_refl) as [(s1 & e1 & o1 & w1 & E1 & HI1 & HC1 & F1 & S1 & _)|[[E1 _]|E1]]; rewrite E1 in H; cbn [bind] in H; [|discriminate..].
  rewrite EL0 in F1. change (w_ver (u_ubx (ublox_blank u ru out0 nav)) false) with (ubx_init u) in F1.
  pose proof (ver_feed u [l0] rx1 _ _ Hu Hl0 Hb1 F1) as HV1.
  assert (HT1 : u_type s1 = T_NONE /\ u_ls s1 = map build [l0]) by (destruct HC1 as (A & B & _); split; assumption).
  assert (HMON : ver_seen rx1 -> ver_seen (rx1 ++ rx2)) by (apply ver_seen_app; apply bytes_ok_app; split; assumption).
  destruct (got_ver (u_ubx s1)) eqn:EV1.
  - destruct (setup_sent s1 (major (u_ubx s1))) as (o & e' & EU & ES); [apply HI1|]. rewrite EU in H. cbn [bind] in H.
    assert (r = Some (uw_out s1 o)) by congruence. assert (ev = e1 ++ e') by congruence. subst r ev.
    assert (HVV : ver_seen rx1) by (apply HV1; reflexivity).
    split; [|split; intros; exfalso; tauto]. intros _. exists (uw_out s1 o). split; [reflexivity|]. rewrite ser_of_app, S1, ES. reflexivity.
  - assert (HNV : ~ ver_seen rx1) by (intros HV; apply HV1 in HV; discriminate).
    destruct (get_version_spec _ rx2 HI1 Hb2 (proj1 HT1)) as [(s2 & e2 & o2 & w2 & E2 & HI2 & HC2 & F2 & S2 & _)|[[E2 _]|E2]]; rewrite E2 in H; cbn [bind] in H; [|discriminate..].
    rewrite (proj2 HT1), w_ver_false in F2 by exact EV1.
    assert (F12 : feed (map build [l0]) (ubx_init u) (rx1 ++ rx2) = Ok (u_ubx s2, o1 ++ o2)).
    { rewrite feed_app, F1. cbn [bind]. rewrite F2. reflexivity. }
    assert (Hb12 : bytes_ok (rx1 ++ rx2)) by (apply bytes_ok_app; split; assumption).
    pose proof (ver_feed u [l0] (rx1 ++ rx2) _ _ Hu Hl0 Hb12 F12) as HV2.
    destruct (got_ver (u_ubx s2)) eqn:EV2.
    + destruct (setup_sent s2 (major (u_ubx s2))) as (o & e' & EU & ES); [apply HI2|]. rewrite EU in H. cbn [bind] in H.
      assert (r = Some (uw_out s2 o)) by congruence. assert (ev = (e1 ++ e2) ++ e') by congruence. subst r ev.
      assert (HVV : ver_seen (rx1 ++ rx2)) by (apply HV2; reflexivity).
      split; [intros; tauto|]. split; [|intros; tauto]. intros _ _. exists (uw_out s2 o). split; [reflexivity|]. rewrite !ser_of_app, S1, S2, ES, <- app_assoc. reflexivity.
    + assert (r = None) by congruence. assert (ev = e1 ++ e2) by congruence. subst r ev.
      assert (HNV2 : ~ ver_seen (rx1 ++ rx2)) by (intros HV; apply HV2 in HV; discriminate).
      split; [intros; tauto|]. split; [intros; tauto|]. intros _. split; [reflexivity|]. rewrite ser_of_app, S1, S2. reflexivity.
Qed.
