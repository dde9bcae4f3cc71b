(* The structures in use: what a listener reads out of a delivered message (C79), and the agreement of the offsets written in
   the models of the node, the console program, the ephemeris parser and the senders with the declarations of MsgLayout.
   Look-ups sysId and sigId (C78). *)
From Coq Require Import String List.
From Verif Require Import Base UbxSpec UbxModel UbxTx UbxStream UbxHist UbxApi UbxEx MsgLayout MsgSpec MsgThm Dbl NavModel NavDev RosSpec RosModel.
Import ListNotations.
Local Open Scope string_scope.
Local Open Scope list_scope.
Local Open Scope Z_scope.

(* ---------------------------------------------------------------- delivery *)
Lemma doc_facts d : In d documented ->
  byte_ok (d_cls d) /\ byte_ok (d_id d) /\ (d_cls d, d_id d) <> (10, 4) /\
  (forall name o k, In (name, o, k) (d_rows d) -> 0 <= o /\ o + klen k <= d_len d).
Proof.
  intros H.
  assert (A : forallb (fun d => (0 <=? d_cls d) && (d_cls d <? 256) && (0 <=? d_id d) && (d_id d <? 256) && negb (pair_eqb (d_cls d, d_id d) (10, 4))
     && forallb (fun r => (0 <=? snd (fst r)) && (snd (fst r) + klen (snd r) <=? d_len d)) (d_rows d)) documented = true) by (vm_compute; reflexivity).
  rewrite forallb_forall in A. specialize (A _ H). rewrite !Bool.andb_true_iff in A. destruct A as [[[[[A B] C] D] E] G].
  apply Z.leb_le in A. apply Z.ltb_lt in B. apply Z.leb_le in C. apply Z.ltb_lt in D. unfold byte_ok.
  split; [lia|]. split; [lia|]. split.
  - intros X. injection X as X1 X2. unfold pair_eqb in E. cbn [fst snd] in E. rewrite X1, X2 in E. discriminate E.
  - intros name o k Hr. rewrite forallb_forall in G. specialize (G _ Hr). cbn [fst snd] in G. apply andb_prop in G. destruct G as [G1 G2].
    apply Z.leb_le in G1. apply Z.leb_le in G2. auto.
Qed.

(* a member inside the received payload does not depend on the rest of the message object *)
Lemma member_prefix p o s pl rest : locate UBX_message p = Some (o, s) -> 0 <= o -> o + width s <= Zlen pl ->
  member (pl ++ rest) p = member pl p.
Proof.
  intros L Ho Hl. unfold member. rewrite L. f_equal. f_equal. unfold Zlen in Hl.
  rewrite skipn_app, firstn_app. replace (Z.to_nat (width s) - length (skipn (Z.to_nat o) pl))%nat with 0%nat by (rewrite skipn_length; lia).
  rewrite firstn_O, app_nil_r. reflexivity.
Qed.
Lemma width_klen s k : fits s k = true -> width s = klen k.
Proof. unfold fits. intros G. apply andb_prop in G. destruct G as [B _]. apply Z.eqb_eq in B. exact B. Qed.
Lemma row_locate d name o k : In d documented -> In (name, o, k) (d_rows d) ->
  exists s, locate UBX_message [MsgLayout.F (d_struct d); MsgLayout.F name] = Some (o, s) /\ width s = klen k.
Proof.
  intros Hd Hr. pose proof rows_all as A. rewrite forallb_forall in A. specialize (A _ Hd). rewrite forallb_forall in A.
  specialize (A _ Hr). unfold row_good in A. cbn [fst snd] in A.
  destruct (locate UBX_message [MsgLayout.F (d_struct d); MsgLayout.F name]) as [[o' s]|] eqn:L; [|discriminate].
  apply andb_prop in A. destruct A as [A G0]. apply andb_prop in A. destruct A as [E G]. apply Z.eqb_eq in E. subst o'.
  exists s. split; [reflexivity|apply width_klen; exact G].
Qed.
Lemma delivered_members u s ls d pl :
  uninit_ok u -> Reach u s -> parsing_message s = false -> Forall listener_ok ls -> In d documented -> ubx_payload_ok pl ->
  d_len d <= Zlen pl ->
  exists s' msg, feed (map build ls) s (ubx_frame (d_cls d) (d_id d) pl)
      = Ok (s', quiet (7 + length pl) ++ [(calls_for ls (d_cls d) (d_id d) msg, true)]) /\
    forall name o k, In (name, o, k) (d_rows d) -> member msg [MsgLayout.F (d_struct d); MsgLayout.F name] = Some (doc_value k pl o).
Proof.
  intros Hu Hs Hp Hls Hd Hpl Hlen. destruct (doc_facts d Hd) as (Bc & Bi & Nv & Rows).
  destruct (ls_frame u s ls (d_cls d) (d_id d) pl Hu Hs Hp Hls Bc Bi Hpl) as (s' & E & _ & _); [congruence|].
  exists s', (overlay pl (inbuf s)). split; [exact E|]. intros name o k Hr.
  destruct (Rows name o k Hr) as [Ho Hk]. destruct (row_locate d name o k Hd Hr) as (sc & L & W).
  unfold overlay. rewrite (member_prefix _ o sc _ _ L Ho) by lia.
  apply members_documented; [exact Hd|exact Hr|]. destruct Hpl as [_ B]. exact B.
Qed.
Lemma delivered_measurements u s ls pl n :
  uninit_ok u -> Reach u s -> parsing_message s = false -> Forall listener_ok ls -> ubx_payload_ok pl ->
  0 <= n < 30 -> rawx_group (n + 1) <= Zlen pl ->
  exists s' msg, feed (map build ls) s (ubx_frame 0x02 0x15 pl)
      = Ok (s', quiet (7 + length pl) ++ [(calls_for ls 0x02 0x15 msg, true)]) /\
    forall name o k, In (name, o, k) doc_rawx_group ->
      member msg [MsgLayout.F "RXM_RAWX"; MsgLayout.F "meas"; MsgLayout.I n; MsgLayout.F name] = Some (doc_value k pl (rawx_group n + o)).
Proof.
  intros Hu Hs Hp Hls Hpl Hn Hlen.
  destruct (ls_frame u s ls 0x02 0x15 pl Hu Hs Hp Hls) as (s' & E & _ & _); [unfold byte_ok; lia|unfold byte_ok; lia|exact Hpl|discriminate|].
  exists s', (overlay pl (inbuf s)). split; [exact E|]. intros name o k Hr.
  assert (A : forallb (fun r => match locate meas_t [MsgLayout.F (fst (fst r))] with
     | Some (o, s) => (o =? snd (fst r)) && (0 <=? o) && (o + width s <=? 32) | None => false end) doc_rawx_group = true) by (vm_compute; reflexivity).
  rewrite forallb_forall in A. specialize (A _ Hr). cbn [fst snd] in A.
  destruct (locate meas_t [MsgLayout.F name]) as [[o' sc]|] eqn:L; [|discriminate].
  rewrite !Bool.andb_true_iff in A. destruct A as [[E1 E2] E3]. apply Z.eqb_eq in E1. subst o'. apply Z.leb_le in E2. apply Z.leb_le in E3.
  pose proof (locate_elem "RXM_RAWX" "meas" RXM_RAWX 16 30 meas_t n [MsgLayout.F name] o sc eq_refl eq_refl L) as LL.
  rewrite idx_ok in LL by exact Hn. change (sizeof meas_t) with 32 in LL. unfold rawx_group in Hlen.
  unfold overlay. rewrite (member_prefix _ _ sc _ _ LL) by lia.
  apply rawx_groups; [exact Hn|exact Hr|]. destruct Hpl as [_ B]. exact B.
Qed.

(* ---------------------------------------------------------------- the offsets used in the models *)
Definition rd (p : list sel) (f : list Z -> Z) : Prop := forall m, member m p = Some (f m).
Ltac rdtac := intros m; unfold member;
  match goal with |- context[locate UBX_message ?p] => let v := eval vm_compute in (locate UBX_message p) in change (locate UBX_message p) with v end;
  cbv beta iota; f_equal.
Lemma one_byte m o : of_le (firstn 1 (skipn o m)) = nth o m 0.
Proof. revert m. induction o as [|o IH]; intros [|b m]; cbn [skipn nth]; try reflexivity; [cbn; lia|apply IH]. Qed.
Ltac rd8 := rdtac; apply one_byte.
Ltac rd32 := rdtac; reflexivity.
Ltac rdi8 := rdtac; unfold value, i8_at, i8, u8_at; change (8 * width I8) with 8; rewrite <- one_byte; reflexivity.
Lemma node_pvt :
  rd [MsgLayout.F "NAV_PVT"; MsgLayout.F "iTOW"] (fun m => u32_at m 0) /\
  rd [MsgLayout.F "NAV_PVT"; MsgLayout.F "year"] (fun m => pvt_i m Vyear) /\
  rd [MsgLayout.F "NAV_PVT"; MsgLayout.F "month"] (fun m => pvt_i m Vmonth) /\
  rd [MsgLayout.F "NAV_PVT"; MsgLayout.F "day"] (fun m => pvt_i m Vday) /\
  rd [MsgLayout.F "NAV_PVT"; MsgLayout.F "hour"] (fun m => pvt_i m Vhour) /\
  rd [MsgLayout.F "NAV_PVT"; MsgLayout.F "min"] (fun m => pvt_i m Vmin) /\
  rd [MsgLayout.F "NAV_PVT"; MsgLayout.F "sec"] (fun m => pvt_i m Vsec) /\
  rd [MsgLayout.F "NAV_PVT"; MsgLayout.F "nano"] (fun m => pvt_i m Vnano) /\
  rd [MsgLayout.F "NAV_PVT"; MsgLayout.F "tAcc"] (fun m => pvt_i m VtAcc) /\
  rd [MsgLayout.F "NAV_PVT"; MsgLayout.F "valid"] (fun m => pvt_i m Vvalid) /\
  rd [MsgLayout.F "NAV_PVT"; MsgLayout.F "fixType"] (fun m => pvt_i m VfixType) /\
  rd [MsgLayout.F "NAV_PVT"; MsgLayout.F "flags"] (fun m => pvt_i m Vflags) /\
  rd [MsgLayout.F "NAV_PVT"; MsgLayout.F "flags2"] (fun m => pvt_i m Vflags2) /\
  rd [MsgLayout.F "NAV_PVT"; MsgLayout.F "numSV"] (fun m => pvt_i m VnumSV).
Proof. unfold pvt_i. repeat split; first [rd32 | rd8]. Qed.
(* the scaled members: pvt_d m f is the member at the offset, times the literal *)
Definition rdd (p : list sel) (lit : dbl) (f : list Z -> dbl) : Prop := forall m, option_map (fun v => sc v lit) (member m p) = Some (f m).
Ltac rddtac := intros m; unfold member;
  match goal with |- context[locate UBX_message ?p] => let v := eval vm_compute in (locate UBX_message p) in change (locate UBX_message p) with v end;
  cbv beta iota; cbn [option_map]; f_equal.
Ltac rdd32 := rddtac; reflexivity.
Ltac rdd8 := rddtac; unfold value; rewrite one_byte; reflexivity.
Lemma node_pvt_scaled :
  rdd [MsgLayout.F "NAV_PVT"; MsgLayout.F "lat"] D_1EM7 (fun m => pvt_d m Vlla0) /\
  rdd [MsgLayout.F "NAV_PVT"; MsgLayout.F "lon"] D_1EM7 (fun m => pvt_d m Vlla1) /\
  rdd [MsgLayout.F "NAV_PVT"; MsgLayout.F "height"] D_1EM3 (fun m => pvt_d m Vlla2) /\
  rdd [MsgLayout.F "NAV_PVT"; MsgLayout.F "hMSL"] D_1EM3 (fun m => pvt_d m VhMSL) /\
  rdd [MsgLayout.F "NAV_PVT"; MsgLayout.F "hAcc"] D_1EM3 (fun m => pvt_d m VhAcc) /\
  rdd [MsgLayout.F "NAV_PVT"; MsgLayout.F "vAcc"] D_1EM3 (fun m => pvt_d m VvAcc) /\
  rdd [MsgLayout.F "NAV_PVT"; MsgLayout.F "velN"] D_1EM3 (fun m => pvt_d m Vvel0) /\
  rdd [MsgLayout.F "NAV_PVT"; MsgLayout.F "velE"] D_1EM3 (fun m => pvt_d m Vvel1) /\
  rdd [MsgLayout.F "NAV_PVT"; MsgLayout.F "velD"] D_1EM3 (fun m => pvt_d m Vvel2) /\
  rdd [MsgLayout.F "NAV_PVT"; MsgLayout.F "gSpeed"] D_1EM3 (fun m => pvt_d m VgSpeed) /\
  rdd [MsgLayout.F "NAV_PVT"; MsgLayout.F "headMot"] D_1EM5 (fun m => pvt_d m VheadMot) /\
  rdd [MsgLayout.F "NAV_PVT"; MsgLayout.F "sAcc"] D_1EM3 (fun m => pvt_d m VsAcc) /\
  rdd [MsgLayout.F "NAV_PVT"; MsgLayout.F "headAcc"] D_1EM5 (fun m => pvt_d m VheadAcc) /\
  rdd [MsgLayout.F "NAV_PVT"; MsgLayout.F "pDOP"] D_1EM2 (fun m => pvt_d m VpDOP) /\
  rdd [MsgLayout.F "NAV_PVT"; MsgLayout.F "headVeh"] D_1EM5 (fun m => pvt_d m VheadVeh).
Proof. unfold pvt_d. repeat split; rdd32. Qed.
Lemma node_others :
  rd [MsgLayout.F "NAV_RELPOSNED"; MsgLayout.F "refStationId"] (fun m => u16_at m 2) /\
  rd [MsgLayout.F "NAV_RELPOSNED"; MsgLayout.F "iTow"] (fun m => u32_at m 4) /\
  rdd [MsgLayout.F "NAV_RELPOSNED"; MsgLayout.F "relPosN"] D_1EM2 (fun m => rel_d m Rned0) /\
  rdd [MsgLayout.F "NAV_RELPOSNED"; MsgLayout.F "relPosE"] D_1EM2 (fun m => rel_d m Rned1) /\
  rdd [MsgLayout.F "NAV_RELPOSNED"; MsgLayout.F "relPosD"] D_1EM2 (fun m => rel_d m Rned2) /\
  rdd [MsgLayout.F "NAV_RELPOSNED"; MsgLayout.F "relPosLength"] D_1EM2 (fun m => rel_d m Rlen) /\
  rd [MsgLayout.F "NAV_RELPOSNED"; MsgLayout.F "relPosHeading"] (fun m => i32_at m 24) /\
  rd [MsgLayout.F "NAV_RELPOSNED"; MsgLayout.F "relPosHPN"] (fun m => i8_at m 32) /\
  rd [MsgLayout.F "NAV_RELPOSNED"; MsgLayout.F "relPosHPE"] (fun m => i8_at m 33) /\
  rd [MsgLayout.F "NAV_RELPOSNED"; MsgLayout.F "relPosHPD"] (fun m => i8_at m 34) /\
  rd [MsgLayout.F "NAV_RELPOSNED"; MsgLayout.F "relPosHPLength"] (fun m => i8_at m 35) /\
  rd [MsgLayout.F "NAV_RELPOSNED"; MsgLayout.F "accN"] (fun m => u32_at m 36) /\
  rd [MsgLayout.F "NAV_RELPOSNED"; MsgLayout.F "accE"] (fun m => u32_at m 40) /\
  rd [MsgLayout.F "NAV_RELPOSNED"; MsgLayout.F "accD"] (fun m => u32_at m 44) /\
  rd [MsgLayout.F "NAV_RELPOSNED"; MsgLayout.F "accLength"] (fun m => u32_at m 48) /\
  rd [MsgLayout.F "NAV_RELPOSNED"; MsgLayout.F "accHeading"] (fun m => u32_at m 52) /\
  rd [MsgLayout.F "NAV_RELPOSNED"; MsgLayout.F "flags"] (fun m => u32_at m 60) /\
  rd [MsgLayout.F "NAV_SVIN"; MsgLayout.F "dur"] (fun m => svin_i m Sdur) /\
  rd [MsgLayout.F "NAV_SVIN"; MsgLayout.F "meanAcc"] (fun m => svin_i m SmeanAcc) /\
  rd [MsgLayout.F "NAV_SVIN"; MsgLayout.F "obs"] (fun m => svin_i m Sobs) /\
  rd [MsgLayout.F "NAV_SVIN"; MsgLayout.F "valid"] (fun m => svin_i m Svalid) /\
  rd [MsgLayout.F "NAV_SVIN"; MsgLayout.F "active"] (fun m => svin_i m Sactive) /\
  rdd [MsgLayout.F "NAV_SVIN"; MsgLayout.F "meanX"] D_1EM2 (fun m => svin_d m Smean0) /\
  rdd [MsgLayout.F "NAV_SVIN"; MsgLayout.F "meanY"] D_1EM2 (fun m => svin_d m Smean1) /\
  rdd [MsgLayout.F "NAV_SVIN"; MsgLayout.F "meanZ"] D_1EM2 (fun m => svin_d m Smean2) /\
  rdd [MsgLayout.F "NAV_SVIN"; MsgLayout.F "meanXHP"] D_1EM3 (fun m => svin_d m Shp0) /\
  rdd [MsgLayout.F "NAV_SVIN"; MsgLayout.F "meanYHP"] D_1EM3 (fun m => svin_d m Shp1) /\
  rdd [MsgLayout.F "NAV_SVIN"; MsgLayout.F "meanZHP"] D_1EM3 (fun m => svin_d m Shp2) /\
  rd [MsgLayout.F "NAV_POSECEF"; MsgLayout.F "iTOW"] (fun m => u32_at m 0) /\
  rd [MsgLayout.F "NAV_POSECEF"; MsgLayout.F "ecefX"] (fun m => i32_at m 4) /\
  rd [MsgLayout.F "NAV_POSECEF"; MsgLayout.F "ecefY"] (fun m => i32_at m 8) /\
  rd [MsgLayout.F "NAV_POSECEF"; MsgLayout.F "ecefZ"] (fun m => i32_at m 12) /\
  rd [MsgLayout.F "NAV_VELECEF"; MsgLayout.F "iTOW"] (fun m => u32_at m 0) /\
  rd [MsgLayout.F "NAV_VELECEF"; MsgLayout.F "ecefVX"] (fun m => i32_at m 4) /\
  rd [MsgLayout.F "NAV_VELECEF"; MsgLayout.F "ecefVY"] (fun m => i32_at m 8) /\
  rd [MsgLayout.F "NAV_VELECEF"; MsgLayout.F "ecefVZ"] (fun m => i32_at m 12) /\
  rd [MsgLayout.F "RXM_RAWX"; MsgLayout.F "rcvTow"] (fun m => u64_at m 0) /\
  rd [MsgLayout.F "RXM_RAWX"; MsgLayout.F "week"] (fun m => u16_at m 8) /\
  rd [MsgLayout.F "RXM_RAWX"; MsgLayout.F "numMeas"] (fun m => i8_at m 11) /\
  rd [MsgLayout.F "RXM_SFRBX"; MsgLayout.F "gnssId"] (fun m => sf_gnss (sfrbx_of m)) /\
  rd [MsgLayout.F "RXM_SFRBX"; MsgLayout.F "svId"] (fun m => sf_sv (sfrbx_of m)) /\
  rd [MsgLayout.F "RXM_SFRBX"; MsgLayout.F "freqId"] (fun m => sf_freq (sfrbx_of m)).
Proof. unfold rel_d, svin_i, svin_d. repeat split; first [rd32 | rd8 | rdi8 | rdd32 | rdd8]. Qed.

(* ---------------------------------------------------------------- the senders *)
(* each sender is a sequence of member assignments followed by send_message with the size of the structure *)
Definition send_struct (name : string) (m : list Z) : outcome sent :=
  match class_id name, size_of_struct name with
  | Some (c, i), Some n => send_out c i m n
  | _, _ => UB UB_oob_read
  end.
Definition clear_struct (name : string) (m : list Z) : outcome (list Z) :=       (* memset(&out_message_, 0, sizeof(name)) *)
  match size_of_struct name with Some n => UbxTx.put m 0 (zeros (Z.to_nat n)) | None => UB UB_oob_write end.
Definition setm (m : list Z) (st f : string) (v : Z) : outcome (list Z) := assign m [MsgLayout.F st; MsgLayout.F f] v.
(* the senders as written in ubx.cpp: 493-512, 514-521, 133-139, 145-155, 169-175, 188-195, 217-226 *)
Definition configure_src (m : list Z) (version layer data key size : Z) : outcome sent :=
  let* m := clear_struct "CFG_VALSET" m in
  let* m := setm m "CFG_VALSET" "version" version in
  let* m := setm m "CFG_VALSET" "layer" layer in
  let* m := (if size =? 1 then assign m [MsgLayout.F "CFG_VALSET"; MsgLayout.F "cfgData"; MsgLayout.F "bytes"; MsgLayout.I 0] data else Ok m) in
  let* m := (if size =? 2 then assign m [MsgLayout.F "CFG_VALSET"; MsgLayout.F "cfgData"; MsgLayout.F "word"] data else Ok m) in
  let* m := setm m "CFG_VALSET" "cfgDataKey" key in
  send_struct "CFG_VALSET" m.
Definition get_configuration_src (m : list Z) (version layer key : Z) : outcome sent :=
  let* m := clear_struct "CFG_VALGET" m in
  let* m := setm m "CFG_VALGET" "version" version in
  let* m := setm m "CFG_VALGET" "layer" layer in
  let* m := setm m "CFG_VALGET" "cfgDataKey" key in
  send_struct "CFG_VALGET" m.
Definition start_survey_in_src (m : list Z) : outcome sent :=
  let* m := setm m "CFG_TMODE3" "flags" 1 in
  let* m := setm m "CFG_TMODE3" "svinMinDur" 60 in
  let* m := setm m "CFG_TMODE3" "svinAccLimit" 3 in
  send_struct "CFG_TMODE3" m.
Definition disable_nmea_old_src (m : list Z) : outcome sent :=
  let* m := clear_struct "CFG_PRT" m in
  let* m := setm m "CFG_PRT" "portID" (Z.lor 3 1) in
  let* m := setm m "CFG_PRT" "baudrate" 921600 in
  let* m := setm m "CFG_PRT" "outProtoMask" (Z.lor 1 0x20) in
  let* m := setm m "CFG_PRT" "inProtoMask" (Z.lor 1 0x20) in
  let* m := setm m "CFG_PRT" "flags" (Z.lor (Z.lor 0xC0 0x800) 0) in
  send_struct "CFG_PRT" m.
Definition set_dynamic_mode_old_src (m : list Z) : outcome sent :=
  let* m := clear_struct "CFG_NAV5" m in
  let* m := setm m "CFG_NAV5" "mask" 1 in
  let* m := setm m "CFG_NAV5" "dynModel" 8 in
  send_struct "CFG_NAV5" m.
Definition set_nav_rate_old_src (period : Z) (m : list Z) : outcome sent :=
  let* m := clear_struct "CFG_RATE" m in
  let* m := setm m "CFG_RATE" "measRate" (u8 period) in
  let* m := setm m "CFG_RATE" "navRate" 1 in
  let* m := setm m "CFG_RATE" "timeRef" 0 in
  send_struct "CFG_RATE" m.
Definition enable_message_src (cls id rate : Z) (m : list Z) : outcome sent :=
  let* m := clear_struct "CFG_MSG" m in
  let* m := setm m "CFG_MSG" "msgClass" cls in
  let* m := setm m "CFG_MSG" "msgID" id in
  let* m := setm m "CFG_MSG" "rate" rate in
  send_struct "CFG_MSG" m.
Lemma le16_to_le v : to_le 2 v = le16 v. Proof. reflexivity. Qed.
Lemma le32_to_le v : to_le 4 v = le32 (u32 v).
Proof.
  unfold le32, u32. cbn [to_le]. change (2 ^ 32) with 4294967296. pose proof (Z.div_mod v 4294967296 ltac:(lia)) as E.
  set (w := v mod 4294967296) in *. set (q := v / 4294967296) in *.
  assert (E1 : v mod 256 = w mod 256) by (rewrite E, Z.add_comm; replace (4294967296 * q) with (16777216 * q * 256) by ring; apply Z.mod_add; lia).
  assert (E2 : v / 256 = w / 256 + 16777216 * q) by (rewrite E at 1; rewrite Z.add_comm; replace (4294967296 * q) with (16777216 * q * 256) by ring; apply Z.div_add; lia).
  assert (E3 : v / 256 / 256 = w / 65536 + 65536 * q).
  { rewrite E2. replace (16777216 * q) with (65536 * q * 256) by ring. rewrite Z.div_add, Z.div_div by lia. reflexivity. }
  assert (E4 : v / 256 / 256 / 256 = w / 16777216 + 256 * q).
  { rewrite E3. replace (65536 * q) with (256 * q * 256) by ring. rewrite Z.div_add, Z.div_div by lia. reflexivity. }
  rewrite E1, E4, E3, E2. replace (16777216 * q) with (65536 * q * 256) by ring. replace (65536 * q) with (256 * q * 256) by ring.
  replace (256 * q) with (q * 256) by ring. rewrite !Z.mod_add by lia. reflexivity.
Qed.
Ltac stp := match goal with
  | |- context[clear_struct ?n ?m] => let v := eval vm_compute in (size_of_struct n) in unfold clear_struct at 1; change (size_of_struct n) with v; cbv beta iota
  | |- context[locate UBX_message ?p] => let v := eval vm_compute in (locate UBX_message p) in change (locate UBX_message p) with v; cbv beta iota
  end.
Lemma senders_as_declared :
  (forall m v l d k n, configure_src m v l d k n = configure m v l d k n) /\
  (forall m v l k, get_configuration_src m v l k = get_configuration m v l k) /\
  (forall m, start_survey_in_src m = start_survey_in m) /\
  (forall j m, j <= 23 -> disable_nmea_old_src m = disable_nmea j m) /\
  (forall j m, j <= 23 -> set_dynamic_mode_old_src m = set_dynamic_mode j m) /\
  (forall j p m, j <= 23 -> set_nav_rate_old_src p m = set_nav_rate j p m) /\
  (forall c i r m, enable_message_src c i r m = enable_message c i r m).
Proof.
  assert (X : forall A (a b : outcome (list Z)) (f g : list Z -> outcome A), a = b -> (forall x, f x = g x) -> bind a f = bind b g)
    by (intros A a b f g -> H; destruct b; cbn [bind]; auto).
  assert (B8 : forall v, to_le 1 v = [u8 v]) by reflexivity.
  repeat split; intros;
   unfold configure_src, configure, get_configuration_src, get_configuration, start_survey_in_src, start_survey_in, disable_nmea_old_src, disable_nmea,
     set_dynamic_mode_old_src, set_dynamic_mode, set_nav_rate_old_src, set_nav_rate, enable_message_src, enable_message;
   try (match goal with H : ?j <= 23 |- _ => apply Z.leb_le in H; rewrite H end);
   repeat (apply X; [unfold setm, assign; repeat stp; cbn [width]; try (destruct (_ =? _); [|reflexivity]); rewrite ?le16_to_le; rewrite <- ?le32_to_le; try reflexivity|intros ?]);
   try reflexivity.
Qed.

(* ---------------------------------------------------------------- C78 *)
Lemma sysId_known s : sat_ok s -> sysId (sat_number s) = gnss_id s.
Proof.
  destruct s as [n|n|n|n|n|n|]; cbn [sat_ok sat_number gnss_id]; intros H; unfold sysId; try reflexivity;
    try destruct (Z.leb_spec n 5);
    repeat match goal with |- context[?a <=? ?b] => destruct (Z.leb_spec a b); cbn [andb]; try lia end;
    try reflexivity; match goal with |- context[?a =? ?b] => destruct (Z.eqb_spec a b); lia end.
Qed.
Lemma sysId_only v : sysId v <> -1 -> exists s, sat_ok s /\ sat_number s = v.
Proof.
  unfold sysId. intros H.
  destruct ((1 <=? v) && (v <=? 32)) eqn:E1; [apply andb_prop in E1; rewrite !Z.leb_le in E1; exists (GPS v); cbn; lia|].
  destruct ((33 <=? v) && (v <=? 64)) eqn:E2; [apply andb_prop in E2; rewrite !Z.leb_le in E2; exists (BDS (v - 27)); cbn [sat_ok sat_number]; destruct (Z.leb_spec (v - 27) 5); lia|].
  destruct ((65 <=? v) && (v <=? 96)) eqn:E3; [apply andb_prop in E3; rewrite !Z.leb_le in E3; exists (GLO (v - 64)); cbn [sat_ok sat_number]; lia|].
  destruct ((120 <=? v) && (v <=? 158)) eqn:E4; [apply andb_prop in E4; rewrite !Z.leb_le in E4; exists (SBAS v); cbn [sat_ok sat_number]; lia|].
  destruct ((159 <=? v) && (v <=? 163)) eqn:E5; [apply andb_prop in E5; rewrite !Z.leb_le in E5; exists (BDS (v - 158)); cbn [sat_ok sat_number]; destruct (Z.leb_spec (v - 158) 5); lia|].
  destruct ((193 <=? v) && (v <=? 197)) eqn:E6; [apply andb_prop in E6; rewrite !Z.leb_le in E6; exists (QZS (v - 192)); cbn [sat_ok sat_number]; lia|].
  destruct ((211 <=? v) && (v <=? 246)) eqn:E7; [apply andb_prop in E7; rewrite !Z.leb_le in E7; exists (GAL (v - 210)); cbn [sat_ok sat_number]; lia|].
  destruct (Z.eqb_spec v 255); [|congruence]. exists GLO_unknown. cbn. split; [exact Logic.I|lia].
Qed.
Lemma sat_number_inj s t : sat_ok s -> sat_ok t -> sat_number s = sat_number t -> s = t.
Proof.
  destruct s, t; cbn [sat_ok sat_number]; intros; try reflexivity;
    repeat match goal with H : context[?a <=? ?b] |- _ => destruct (Z.leb_spec a b) end; first [f_equal; lia | exfalso; lia].
Qed.
Lemma sigId_inj x y : sigId (ubx_gnss x) (ubx_sig x) = sigId (ubx_gnss y) (ubx_sig y) -> x = y.
Proof. destruct x, y; vm_compute; congruence. Qed.
