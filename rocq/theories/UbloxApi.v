(* class UBLOX: histories and the statements used by Properties_Ublox. *)
From Verif Require Import Base UbxSpec UbxModel UbxProofs UbxStream UbxMain UbxMore UbxHist UbxApi
  UbxTx UbxTxSpec UbxTxApi RtcmModel RtcmSpec RtcmProofs RtcmApi UbloxModel UbloxSpec UbloxProofs.

(* read_cb called chunk by chunk *)
Fixpoint ublox_chunks (s : ublox) (cs : list (list Z)) : outcome (ublox * list event) :=
  match cs with
  | [] => Ok (s, [])
  | c :: r =>
      let* (s1, e1) := ublox_read s c in
      let* (s2, e2) := ublox_chunks s1 r in
      Ok (s2, e1 ++ e2)
  end.
Lemma chunks_concat cs : forall s, ublox_chunks s cs = ublox_read s (concat cs).
Proof.
  induction cs as [|c cs IH]; intros s; [reflexivity|]. cbn [ublox_chunks concat]. rewrite ublox_read_app.
  destruct (ublox_read s c) as [[s1 e1]|k]; cbn [bind]; [|reflexivity]. rewrite IH. reflexivity.
Qed.
Lemma chunking s cs cs' : concat cs = concat cs' -> ublox_chunks s cs = ublox_chunks s cs'.
Proof. intros E. rewrite !chunks_concat, E. reflexivity. Qed.

(* the bytes that arrive during construction *)
Definition csched_ok (c : csched) : Prop :=
  bytes_ok (c_a c) /\ bytes_ok (c_b c) /\ bytes_ok (c_0 c) /\ bytes_ok (c_1 c) /\ bytes_ok (c_g c) /\ bytes_ok (c_2 c).

(* Every state of a UBLOX object: construction (U_new: bytes arrive only during the two waits for the version; U_start: at any time),
   then any sequence of received chunks, config_base and config_rover calls (alone, or while bytes arrive: U_base_rx, U_rover_rx) and
   registerUBXListener calls.  n counts the config_base calls. *)
Inductive UReach (u : uninit) (ru : runinit) : nat -> ublox -> Prop :=
| U_new out0 nav rx1 rx2 s ev :
    Zlen out0 = 2048 -> bytes_ok rx1 -> bytes_ok rx2 -> ctor u ru out0 nav rx1 rx2 = Ok (Some s, ev) -> UReach u ru 0 s
| U_start out0 nav c bs s ev :
    Zlen out0 = 2048 -> csched_ok c -> bytes_ok bs -> shuffle setup_acts (map ARx bs) (c_setup c) ->
    ctor_any u ru out0 nav c = Ok (Some s, ev) -> UReach u ru 0 s
| U_read n s bs s' ev : UReach u ru n s -> bytes_ok bs -> ublox_read s bs = Ok (s', ev) -> UReach u ru n s'
| U_base n s i st s' ev : UReach u ru n s -> config_base s i st = Ok (s', ev) -> UReach u ru (S n) s'
| U_rover n s i s' ev : UReach u ru n s -> config_rover s i = Ok (s', ev) -> UReach u ru n s'
| U_base_rx n s i st bs h s' ev : UReach u ru n s -> bytes_ok bs -> shuffle (base_acts i st) (map ARx bs) h -> conc s h = Ok (s', ev) -> UReach u ru (S n) s'
| U_rover_rx n s i bs h s' ev : UReach u ru n s -> bytes_ok bs -> shuffle (rover_acts i) (map ARx bs) h -> conc s h = Ok (s', ev) -> UReach u ru n s'
| U_listen n s l : UReach u ru n s -> listener_ok l -> UReach u ru n (ublox_register s (build l)).

Definition UInv (s : ublox) : Prop :=
  Inv (u_ubx s) /\ (exists p, RSt (u_rtcm s) p) /\ (exists ls, Forall listener_ok ls /\ u_ls s = map build ls) /\ Zlen (u_out s) = 2048.

(* ---------------------------------------------------------------- one byte *)
Lemma ubx_only_cfg s b s' ev : to_ubx s b = Ok (s', ev) -> same_cfg s s' /\ u_rtcm s' = u_rtcm s.
Proof.
  unfold to_ubx. intros H. destruct (read_cb (u_ls s) (u_ubx s) b) as [[[x c] o]|k]; cbn [bind] in H; [|discriminate].
  assert (s' = uw_ubx s x) by congruence. subst s'. split; [repeat split|reflexivity].
Qed.

Definition rtk_of (ev : list event) : list (Z * list Z) :=
  flat_map (fun e => match e with EvRtk i f => [(i, f)] | _ => [] end) ev.
Definition ser_of (ev : list event) : list (list Z) :=
  flat_map (fun e => match e with EvSer b => [b] | _ => [] end) ev.
Definition ubx_of (ev : list event) : list call :=
  flat_map (fun e => match e with EvUbx c => [c] | _ => [] end) ev.
Lemma rtk_of_app a b : rtk_of (a ++ b) = rtk_of a ++ rtk_of b. Proof. apply flat_map_app. Qed.
Lemma ser_of_app a b : ser_of (a ++ b) = ser_of a ++ ser_of b. Proof. apply flat_map_app. Qed.
Lemma ubx_of_app a b : ubx_of (a ++ b) = ubx_of a ++ ubx_of b. Proof. apply flat_map_app. Qed.
Lemma rtk_of_ubx c : rtk_of (map EvUbx c) = []. Proof. induction c; [reflexivity|exact IHc]. Qed.
Lemma ser_of_ubx c : ser_of (map EvUbx c) = []. Proof. induction c; [reflexivity|exact IHc]. Qed.
Lemma ubx_of_ubx c : ubx_of (map EvUbx c) = c. Proof. induction c; [reflexivity|]. cbn. f_equal. exact IHc. Qed.
Lemma ser_of_ser w : ser_of (map EvSer w) = w. Proof. induction w; [reflexivity|]. cbn. f_equal. exact IHw. Qed.
Lemma ubx_of_ser w : ubx_of (map EvSer w) = []. Proof. induction w; [reflexivity|exact IHw]. Qed.
Lemma rtk_of_ser w : rtk_of (map EvSer w) = []. Proof. induction w; [reflexivity|exact IHw]. Qed.

Definition good_rtcm (f : list Z) : Prop := exists n, 1 <= n <= 1018 /\ rtcm_frame n f.
Definition copies (s : ublox) (fs : list (list Z)) : list (Z * list Z) := flat_map (fun f => repeat (u_rtk s, f) (u_nreg s)) fs.

Lemma rquiet_last n : last (rquiet n) [] = [].
Proof. induction n as [|n IH]; [reflexivity|]. destruct n; [reflexivity|exact IH]. Qed.
(* the RTCM side of one byte, from any pending bytes *)
Lemma to_rtcm_step s b p : RSt (u_rtcm s) p -> byte_ok b ->
  (exists s' ev p' fs, to_rtcm s b = Ok (s', ev) /\ same_cfg s s' /\ u_ubx s' = u_ubx s /\ RSt (u_rtcm s') p' /\ Zlen p' <= Zlen p + 1 /\
     ubx_of ev = [] /\ ser_of ev = [] /\ rtk_of ev = copies s fs /\ Forall good_rtcm fs /\ (u_type s <> T_BASE -> fs = [] /\ ev = []))
  \/ (to_rtcm s b = UB UB_oob_write /\ 1024 <= Zlen p).
Proof.
  intros HR Hb. unfold to_rtcm. fold (rls s). pose proof (Zlen_nonneg p) as Hp0.
  destruct (rstep (rls s) (u_rtcm s) p b HR Hb (rst_pending_bytes _ _ HR)) as [r E HR' _|r it cs E HR' Hit EB EO _|E HL]; rewrite E; cbn [bind].
  - left. exists (uw_rtcm s r), [], (p ++ [b]), []. cbn [flat_map]. rewrite Zlen_app. change (Zlen [b]) with 1.
    repeat split; try exact HR'; try lia; try constructor.
  - left. destruct it as [y|h|f|f]; cbn [ritem_outs] in EO.
    1,2,4: assert (cs = []) as -> by (apply (f_equal (fun l => last l [])) in EO; rewrite last_last in EO; rewrite <- EO; apply rquiet_last);
      exists (uw_rtcm s r), [], [], []; cbn [flat_map]; change (@Zlen Z []) with 0;
      repeat split; try exact HR'; try lia; try constructor.
    assert (cs = map (fun l => (l, f)) (rls s)) as ->.
    { apply (f_equal (fun l => last l [])) in EO. rewrite !last_last in EO. symmetry. exact EO. }
    assert (EV : flat_map (fun c => got_rtcm s (snd c)) (map (fun l => (l, f)) (rls s)) =
                 if u_type s =? T_BASE then repeat (EvRtk (u_rtk s) f) (u_nreg s) else []).
    { unfold rls, got_rtcm. induction (u_nreg s) as [|m IH]; cbn [repeat map flat_map snd].
      - destruct (u_type s =? T_BASE); reflexivity.
      - rewrite IH. destruct (u_type s =? T_BASE); reflexivity. }
    rewrite EV. exists (uw_rtcm s r), (if u_type s =? T_BASE then repeat (EvRtk (u_rtk s) f) (u_nreg s) else []), [], (if u_type s =? T_BASE then [f] else []).
    change (@Zlen Z []) with 0.
    split; [reflexivity|]. split; [repeat split|]. split; [reflexivity|]. split; [exact HR'|]. split; [lia|].
    assert (G : forall m, ubx_of (repeat (EvRtk (u_rtk s) f) m) = [] /\ ser_of (repeat (EvRtk (u_rtk s) f) m) = [] /\
                  rtk_of (repeat (EvRtk (u_rtk s) f) m) = repeat (u_rtk s, f) m).
    { induction m as [|m (I1 & I2 & I3)]; [repeat split|]. cbn. unfold rtk_of in I3. rewrite I3. repeat split; assumption. }
    destruct (G (u_nreg s)) as (G1 & G2 & G3).
    destruct (Z.eqb_spec (u_type s) T_BASE) as [HT|HT].
    + split; [exact G1|]. split; [exact G2|]. split; [unfold copies; cbn [flat_map]; rewrite app_nil_r; exact G3|].
      split; [constructor; [exact Hit|constructor]|]. intros; contradiction.
    + repeat split; try constructor.
  - right. split; [reflexivity|exact HL].
Qed.

Lemma to_ubx_step s b : Inv (u_ubx s) -> byte_ok b ->
  (exists s' ev x c o, to_ubx s b = Ok (s', ev) /\ read_cb (u_ls s) (u_ubx s) b = Ok (x, c, o) /\ s' = uw_ubx s x /\ ev = map EvUbx c /\ Inv x)
  \/ (to_ubx s b = UB UB_cstring /\ read_cb (u_ls s) (u_ubx s) b = UB UB_cstring).
Proof.
  intros HI Hb. unfold to_ubx. destruct (inv_step (u_ls s) (u_ubx s) b HI Hb) as [(x & c & o & E & HI')|E]; rewrite E; cbn [bind].
  - left. exists (uw_ubx s x), (map EvUbx c), x, c, o. auto.
  - right. auto.
Qed.

(* one byte in any state *)
Lemma byte_step s b p : Inv (u_ubx s) -> RSt (u_rtcm s) p -> byte_ok b ->
  (exists s' ev p' fs, ublox_byte s b = Ok (s', ev) /\ same_cfg s s' /\ Inv (u_ubx s') /\ RSt (u_rtcm s') p' /\ Zlen p' <= Zlen p + 1 /\
     ser_of ev = [] /\ rtk_of ev = copies s fs /\ Forall good_rtcm fs /\
     (u_type s <> T_BASE -> fs = [] /\ exists c o, read_cb (u_ls s) (u_ubx s) b = Ok (u_ubx s', c, o) /\ ev = map EvUbx c))
  \/ (ublox_byte s b = UB UB_cstring /\ (u_type s <> T_BASE -> read_cb (u_ls s) (u_ubx s) b = UB UB_cstring))
  \/ (ublox_byte s b = UB UB_oob_write /\ 1024 <= Zlen p).
Proof.
  intros HI HR Hb. pose proof (Zlen_nonneg p). unfold ublox_byte. destruct (parsing_message (u_ubx s)) eqn:EP.
  - destruct (to_ubx_step s b HI Hb) as [(s' & ev & x & c & o & E & ER & -> & -> & HI')|[E ER]]; rewrite E.
    + left. exists (uw_ubx s x), (map EvUbx c), p, []. rewrite ser_of_ubx, rtk_of_ubx.
      repeat split; try apply HI'; try exact HR; try lia; try constructor. exists c, o. auto.
    + right. left. auto.
  - destruct (rtcm_parsing (u_rtcm s) && (u_type s =? T_BASE)) eqn:EB.
    + apply andb_prop in EB. destruct EB as [_ EB]. apply Z.eqb_eq in EB.
      destruct (to_rtcm_step s b p HR Hb) as [(s' & ev & p' & fs & E & HC & EU & HR' & HL & E1 & E2 & E3 & HF & _)|[E HL]]; rewrite E.
      * left. exists s', ev, p', fs. split; [reflexivity|]. split; [exact HC|]. rewrite EU. split; [exact HI|]. split; [exact HR'|]. split; [exact HL|].
        split; [exact E2|]. split; [exact E3|]. split; [exact HF|]. intros; contradiction.
      * right. right. auto.
    + destruct (to_ubx_step s b HI Hb) as [(s1 & ev1 & x & c & o & E & ER & -> & -> & HI')|[E ER]]; rewrite E; cbn [bind].
      2:{ right. left. auto. }
      destruct (to_rtcm_step (uw_ubx s x) b p HR Hb) as [(s' & ev & p' & fs & E' & HC & EU & HR' & HL & E1 & E2 & E3 & HF & HT)|[E' HL]]; rewrite E'; cbn [bind].
      * left. exists s', (map EvUbx c ++ ev), p', fs. split; [reflexivity|]. split; [exact HC|]. rewrite EU. split; [exact HI'|]. split; [exact HR'|]. split; [exact HL|].
        rewrite ser_of_app, rtk_of_app, ser_of_ubx, rtk_of_ubx, E2, E3. split; [reflexivity|]. split; [reflexivity|]. split; [exact HF|].
        intros HTy. destruct (HT HTy) as [-> ->]. split; [reflexivity|]. exists c, o. rewrite app_nil_r. split; [exact ER|reflexivity].
      * right. right. auto.
Qed.

Lemma copies_same s s' fs : same_cfg s s' -> copies s' fs = copies s fs.
Proof. intros (_ & _ & EN & ER & _). unfold copies. rewrite EN, ER. reflexivity. Qed.
Lemma copies_app s a b : copies s (a ++ b) = copies s a ++ copies s b.
Proof. apply flat_map_app. Qed.

(* a whole stream in any state *)
Lemma read_any : forall bs s p, Inv (u_ubx s) -> RSt (u_rtcm s) p -> bytes_ok bs ->
  (exists s' ev p' fs, ublox_read s bs = Ok (s', ev) /\ same_cfg s s' /\ Inv (u_ubx s') /\ RSt (u_rtcm s') p' /\
     ser_of ev = [] /\ rtk_of ev = copies s fs /\ Forall good_rtcm fs /\
     (u_type s <> T_BASE -> fs = [] /\ exists outs, feed (u_ls s) (u_ubx s) bs = Ok (u_ubx s', outs) /\ ev = ubx_events outs))
  \/ (ublox_read s bs = UB UB_cstring /\ (u_type s <> T_BASE -> feed (u_ls s) (u_ubx s) bs = UB UB_cstring))
  \/ (ublox_read s bs = UB UB_oob_write /\ 1024 < Zlen p + Zlen bs).
Proof.
  induction bs as [|b r IH]; intros s p HI HR Hb.
  - left. exists s, [], p, []. repeat split; try exact HI; try apply HI; try exact HR; try constructor. exists []. auto.
  - inversion Hb as [|? ? Hb0 Hbr]; subst. cbn [ublox_read feed]. rewrite Zlen_cons. pose proof (Zlen_nonneg r).
    destruct (byte_step s b p HI HR Hb0) as [(s1 & e1 & p1 & f1 & E & HC & HI1 & HR1 & HL & ES & EK & HF & HT)|[[E ER]|[E HL]]]; rewrite E; cbn [bind].
    + destruct (IH s1 p1 HI1 HR1 Hbr) as [(s2 & e2 & p2 & f2 & E2 & HC2 & HI2 & HR2 & ES2 & EK2 & HF2 & HT2)|[[E2 ER2]|[E2 HL2]]]; rewrite E2; cbn [bind].
      * left. exists s2, (e1 ++ e2), p2, (f1 ++ f2). split; [reflexivity|]. split; [eapply same_cfg_trans; eassumption|]. split; [exact HI2|]. split; [exact HR2|].
        rewrite ser_of_app, rtk_of_app, ES, ES2, EK, EK2, (copies_same s s1), copies_app by exact HC.
        split; [reflexivity|]. split; [reflexivity|]. split; [apply Forall_app; split; assumption|].
        intros HTy. destruct (HT HTy) as [-> (c & o & Er & ->)]. assert (HT1 : u_type s1 <> T_BASE) by (destruct HC as [-> _]; exact HTy).
        destruct (HT2 HT1) as [-> (outs & Ef & ->)]. destruct HC as (_ & EL & _). rewrite EL in Ef. split; [reflexivity|].
        exists ((c, o) :: outs). rewrite Er. cbn [bind]. rewrite Ef. cbn [bind]. split; [reflexivity|].
        unfold ubx_events. cbn [flat_map fst]. rewrite map_app. reflexivity.
      * right. left. split; [reflexivity|]. intros HTy. destruct (HT HTy) as [_ (c & o & Er & _)].
        assert (HT1 : u_type s1 <> T_BASE) by (destruct HC as [-> _]; exact HTy). destruct HC as (_ & EL & _).
        rewrite Er. cbn [bind]. rewrite <- EL, (ER2 HT1). reflexivity.
      * right. right. split; [reflexivity|lia].
    + right. left. split; [reflexivity|]. intros HTy. rewrite (ER HTy). reflexivity.
    + right. right. split; [reflexivity|lia].
Qed.

(* ---------------------------------------------------------------- invariant *)
Lemma usends_frame fs : forall s s' ev, usends fs s = Ok (s', ev) ->
  (exists o, s' = uw_out s o) /\ ubx_of ev = [] /\ rtk_of ev = [].
Proof.
  induction fs as [|f fs IH]; intros s s' ev H; cbn [usends] in H.
  - assert (s' = s) by congruence. assert (ev = []) by congruence. subst. split; [exists (u_out s); destruct s; reflexivity|split; reflexivity].
  - unfold usend in H. destruct (f (u_out s)) as [[o w]|k]; cbn [bind] in H; [|discriminate].
    destruct (usends fs (uw_out s o)) as [[s2 e2]|k] eqn:E; cbn [bind] in H; [|discriminate].
    destruct (IH _ _ _ E) as ((o2 & E2) & E3 & E4). assert (s' = s2) by congruence. assert (ev = map EvSer w ++ e2) by congruence. subst.
    split; [exists o2; reflexivity|]. rewrite ubx_of_app, rtk_of_app, E3, E4, ubx_of_ser, rtk_of_ser. split; reflexivity.
Qed.

Definition len_ok (f : list Z -> outcome sent) : Prop := forall o, Zlen o = 2048 -> exists o' w, f o = Ok (o', w) /\ Zlen o' = 2048.
Lemma usends_ok fs : Forall len_ok fs -> forall s, Zlen (u_out s) = 2048 ->
  exists o ev, usends fs s = Ok (uw_out s o, ev) /\ Zlen o = 2048.
Proof.
  induction fs as [|f fs IH]; intros HF s Hz; cbn [usends].
  - exists (u_out s), []. split; [destruct s; reflexivity|exact Hz].
  - inversion HF as [|? ? Hf Hfs]; subst. unfold usend. destruct (Hf (u_out s) Hz) as (o & w & E & Ho). rewrite E. cbn [bind].
    destruct (IH Hfs (uw_out s o) Ho) as (o2 & ev & E2 & Ho2). rewrite E2. cbn [bind].
    exists o2, (map EvSer w ++ ev). split; [reflexivity|exact Ho2].
Qed.
Lemma len_configure data key size : len_ok (fun o => configure o 0 1 data key size).
Proof.
  intros o Ho. destruct (tx_configure o 0 1 data key size Ho) as (o' & H & E); [unfold byte_ok; lia..|]. eauto.
Qed.
Lemma len_survey : len_ok start_survey_in.
Proof.
  intros o Ho. rewrite (tx_survey o Ho). do 2 eexists. split; [reflexivity|]. unfold tmode3_payload.
  unfold Zlen in *. rewrite !app_length, !firstn_length, !skipn_length. cbn [le16 le32 length]. lia.
Qed.
Lemma len_poll : len_ok send_ver_poll.
Proof. intros o Ho. unfold send_ver_poll, send_out. destruct (tx_send 0x0A 0x04 o 0 Ho) as (w & E & _); [lia|]. rewrite E. eexists _, _. split; [reflexivity|exact Ho]. Qed.
Lemma len_ctor major : Forall len_ok (ctor_sends major).
Proof.
  unfold ctor_sends.
  assert (HE : forall c i, len_ok (enable_message c i 1)).
  { intros c i o Ho. destruct (Z.leb_spec major 23) as [H|H].
    - destruct (tx_old o major 200 c i 1 Ho H) as (_ & _ & _ & (o' & H1 & E)). eauto.
    - destruct (tx_new o major 200 c i 1 Ho H) as (_ & _ & _ & (o' & H1 & E)). eauto. }
  repeat (constructor; [first [apply HE | idtac]|]); try constructor.
  - intros o Ho. destruct (Z.leb_spec major 23) as [H|H].
    + destruct (tx_old o major 200 0 0 1 Ho H) as ((o' & H1 & E) & _). eauto.
    + destruct (tx_new o major 200 0 0 1 Ho H) as ((o' & H1 & E) & _). eauto.
  - intros o Ho. destruct (Z.leb_spec major 23) as [H|H].
    + destruct (tx_old o major 200 0 0 1 Ho H) as (_ & _ & (o' & H1 & E) & _). eauto.
    + destruct (tx_new o major 200 0 0 1 Ho H) as (_ & _ & (o' & H1 & E) & _). eauto.
Qed.
Lemma len_base st : Forall len_ok (map (fun k o => configure o 0 1 1 k 1) rtcm_keys ++
  if st : bool then
    [(fun o => configure o 0 1 1 0x2091008b 1); (fun o => configure o 0 1 1 0x20030001 1);
     (fun o => configure o 0 1 500000 0x40030011 2); (fun o => configure o 0 1 119 0x40030010 2);
     start_survey_in]
  else []).
Proof.
  apply Forall_app. split; [repeat (constructor; [apply len_configure|]); constructor|].
  destruct st; [|constructor]. repeat (constructor; [first [apply len_configure | apply len_survey]|]); constructor.
Qed.
Lemma len_rover : Forall len_ok (map (fun k o => configure o 0 1 0 k 1) rtcm_keys).
Proof. repeat (constructor; [apply len_configure|]); constructor. Qed.

Lemma uinv_out s o : UInv s -> Zlen o = 2048 -> UInv (uw_out s o).
Proof. intros (H1 & H2 & H3 & H4) Ho. exact (conj H1 (conj H2 (conj H3 Ho))). Qed.
Lemma uinv_mode s n t i : UInv s -> UInv (uw_mode s n t i).
Proof. intros (H1 & H2 & H3 & H4). exact (conj H1 (conj H2 (conj H3 H4))). Qed.
Lemma uinv_read s bs s' ev : UInv s -> bytes_ok bs -> ublox_read s bs = Ok (s', ev) -> UInv s' /\ same_cfg s s'.
Proof.
  intros (H1 & (p & H2) & (ls & Hls & EL) & H4) Hb E.
  destruct (read_any bs s p H1 H2 Hb) as [(s1 & e1 & p1 & f1 & E1 & HC & HI & HR & _)|[[E1 _]|[E1 _]]]; rewrite E1 in E; [|discriminate..].
  assert (s1 = s') by congruence. subst s1. split; [|exact HC]. split; [exact HI|]. split; [exists p1; exact HR|].
  destruct HC as (_ & EL' & _ & _ & EO). split; [exists ls; rewrite EL'; auto|rewrite EO; exact H4].
Qed.

Lemma config_base_spec s i st : Zlen (u_out s) = 2048 ->
  exists o ev, config_base s i st = Ok (uw_out (uw_mode s (S (u_nreg s)) T_BASE i) o, ev) /\ Zlen o = 2048.
Proof. intros Hz. unfold config_base. apply usends_ok; [apply len_base|exact Hz]. Qed.
Lemma config_rover_spec s i : Zlen (u_out s) = 2048 ->
  exists o ev, config_rover s i = Ok (uw_out (uw_mode s (u_nreg s) T_ROVER i) o, ev) /\ Zlen o = 2048.
Proof.
  intros Hz. unfold config_rover.
  destruct (usends_ok _ len_rover (uw_mode s (u_nreg s) T_ROVER (u_rtk s)) Hz) as (o & ev & E & Ho). rewrite E. cbn [bind].
  exists o, ev. split; [reflexivity|exact Ho].
Qed.

Lemma get_version_spec s rx : UInv s -> bytes_ok rx -> u_type s = T_NONE ->
  (exists s' ev outs o, get_version s rx = Ok (s', ev, got_ver (u_ubx s')) /\ UInv s' /\ same_cfg (uw_out s o) s' /\
     feed (u_ls s) (w_ver (u_ubx s) false) rx = Ok (u_ubx s', outs) /\
     ser_of ev = frame_writes 0x0A 0x04 [] /\ ubx_of ev = flat_map fst outs /\ rtk_of ev = [])
  \/ (get_version s rx = UB UB_cstring /\ feed (u_ls s) (w_ver (u_ubx s) false) rx = UB UB_cstring)
  \/ get_version s rx = UB UB_oob_write.
Proof.
  intros HI Hb HT. unfold get_version, usend.
  change (u_out (uw_ubx s (w_ver (u_ubx s) false))) with (u_out s).
  assert (HO : Zlen (u_out s) = 2048) by apply HI.
  assert (EP : send_ver_poll (u_out s) = Ok (u_out s, frame_writes 0x0A 0x04 [])).
  { unfold send_ver_poll, send_out. destruct (tx_send 0x0A 0x04 (u_out s) 0 HO) as (w & E & _); [lia|].
    unfold send_message. reflexivity. }
  rewrite EP. cbn [bind].
  set (s1 := uw_out (uw_ubx s (w_ver (u_ubx s) false)) (u_out s)).
  assert (HI1 : UInv s1).
  { destruct HI as ((A & B & C & D) & H2 & H3 & H4). split; [|split; [exact H2|split; [exact H3|exact H4]]].
    split; [exact A|]. split; [exact B|]. split; [exact C|exact D]. }
  destruct HI1 as (K1 & (p & K2) & K3 & K4).
  destruct (read_any rx s1 p K1 K2 Hb) as [(s2 & e2 & p2 & f2 & E2 & HC & HI2 & HR2 & ES & EK & _ & HTy)|[[E2 ER]|[E2 _]]]; rewrite E2; cbn [bind].
  - left. destruct HTy as [-> (outs & EF & ->)]; [change (u_type s1) with (u_type s); rewrite HT; discriminate|].
    exists s2, (map EvSer (frame_writes 10 4 []) ++ ubx_events outs), outs, (u_out s). split; [reflexivity|].
    split; [apply (uinv_read s1 rx s2 (ubx_events outs)); [split; [exact K1|]; split; [exists p; exact K2|]; split; assumption|exact Hb|exact E2]|].
    split; [exact HC|]. split; [exact EF|]. unfold ubx_events. rewrite ser_of_app, ubx_of_app, rtk_of_app, ser_of_ser, ser_of_ubx, ubx_of_ser, ubx_of_ubx, rtk_of_ser, rtk_of_ubx, app_nil_r.
    repeat split.
  - right. left. split; [reflexivity|]. apply ER. change (u_type s1) with (u_type s). rewrite HT. discriminate.
  - right. right. reflexivity.
Qed.

Lemma blank_inv u ru out0 nav : uninit_ok u -> runinit_ok ru -> Zlen out0 = 2048 -> UInv (ublox_blank u ru out0 nav).
Proof.
  intros Hu Hru Hz. split; [|split; [|split]].
  - apply (reach_inv u _ Hu). constructor.
  - apply (rreach_inv ru _ Hru). constructor.
  - exists [mkListener nav [(0x02, 0x13)]]. split; [|reflexivity].
    constructor; [|constructor]. constructor; [|constructor]. split; unfold byte_ok; cbn; lia.
  - exact Hz.
Qed.

Lemma sends_inv s fs s' ev : Forall len_ok fs -> UInv s -> usends fs s = Ok (s', ev) -> UInv s' /\ exists o, s' = uw_out s o.
Proof.
  intros HF HI E. destruct (usends_ok fs HF s) as (o & e & E' & Ho); [apply HI|]. rewrite E in E'.
  assert (s' = uw_out s o) by congruence. subst s'. split; [apply uinv_out; assumption|eauto].
Qed.

Lemma ctor_inv u ru out0 nav rx1 rx2 s ev : uninit_ok u -> runinit_ok ru -> Zlen out0 = 2048 -> bytes_ok rx1 -> bytes_ok rx2 ->
  ctor u ru out0 nav rx1 rx2 = Ok (Some s, ev) -> UInv s /\ u_nreg s = 0%nat /\ u_type s = T_NONE.
Proof.
  intros Hu Hru Hz Hb1 Hb2 H. pose proof (blank_inv u ru out0 nav Hu Hru Hz) as HB. unfold ctor in H.
  destruct (get_version_spec _ rx1 HB Hb1 eq_refl) as [(s1 & e1 & o1 & w1 & E1 & HI1 & HC1 & _)|[[E1 _]|E1]]; rewrite E1 in H; cbn [bind] in H; [|discriminate..].
  assert (HT1 : u_type s1 = T_NONE /\ u_nreg s1 = 0%nat) by (destruct HC1 as (A & _ & B & _); split; assumption).
  destruct (got_ver (u_ubx s1)).
  - destruct (usends (ctor_sends (major (u_ubx s1))) s1) as [[s' e']|k] eqn:EU; cbn [bind] in H; [|discriminate].
    destruct (sends_inv _ _ _ _ (len_ctor _) HI1 EU) as [HI' [o ->]]. assert (s = uw_out s1 o) by congruence. subst s. split; [exact HI'|tauto].
  - destruct (get_version_spec _ rx2 HI1 Hb2 (proj1 HT1)) as [(s2 & e2 & o2 & w2 & E2 & HI2 & HC2 & _)|[[E2 _]|E2]]; rewrite E2 in H; cbn [bind] in H; [|discriminate..].
    assert (HT2 : u_type s2 = T_NONE /\ u_nreg s2 = 0%nat) by (destruct HC2 as (A & _ & B & _); cbn in A, B; split; [rewrite A|rewrite B]; tauto).
    destruct (got_ver (u_ubx s2)); [|discriminate].
    destruct (usends (ctor_sends (major (u_ubx s2))) s2) as [[s' e']|k] eqn:EU; cbn [bind] in H; [|discriminate].
    destruct (sends_inv _ _ _ _ (len_ctor _) HI2 EU) as [HI' [o ->]]. assert (s = uw_out s2 o) by congruence. subst s. split; [exact HI'|tauto].
Qed.

(* ---------------------------------------------------------------- schedules *)
Lemma conc_app a b : forall s, conc s (a ++ b) = (let* (s1, e1) := conc s a in let* (s2, e2) := conc s1 b in Ok (s2, e1 ++ e2)).
Proof.
  induction a as [|x a IH]; intros s; cbn [app conc bind].
  - destruct (conc s b) as [[s2 e2]|k]; reflexivity.
  - destruct (act_step s x) as [[s1 e1]|k]; cbn [bind]; [|reflexivity]. rewrite IH.
    destruct (conc s1 a) as [[s2 e2]|k]; cbn [bind]; [|reflexivity].
    destruct (conc s2 b) as [[s3 e3]|k]; cbn [bind]; [rewrite app_assoc; reflexivity|reflexivity].
Qed.
Lemma conc_rx bs : forall s, conc s (map ARx bs) = ublox_read s bs.
Proof.
  induction bs as [|b bs IH]; intros s; [reflexivity|]. cbn [map conc act_step ublox_read].
  destruct (ublox_byte s b) as [[s1 e1]|k]; cbn [bind]; [rewrite IH; reflexivity|reflexivity].
Qed.
Definition act_ok (a : act) : Prop := match a with ATx f => forall m, len_ok (f m) | ARx b => byte_ok b | _ => True end.
Lemma act_step_inv s a : UInv s -> act_ok a ->
  (exists s1 e1, act_step s a = Ok (s1, e1) /\ UInv s1 /\ (match a with ATx _ => False | _ => True end -> u_out s1 = u_out s /\ ser_of e1 = []))
  \/ (exists b, a = ARx b /\ (ublox_byte s b = UB UB_cstring \/ ublox_byte s b = UB UB_oob_write)).
Proof.
  intros HI Ha. destruct a as [b|f|t|i|]; cbn [act_step act_ok] in *.
  - pose proof HI as (K1 & (p & K2) & _). destruct (byte_step s b p K1 K2 Ha) as [(s' & ev & p' & fs & E & HC & _ & _ & _ & ES & _)|[[E _]|[E _]]]; [left|right; eauto..].
    exists s', ev. split; [exact E|].
    assert (ER : ublox_read s [b] = Ok (s', ev)) by (cbn [ublox_read]; rewrite E; cbn [bind]; rewrite app_nil_r; reflexivity).
    destruct (uinv_read s [b] s' ev HI) as [HI1 _]; [constructor; [exact Ha|constructor]|exact ER|]. split; [exact HI1|].
    intros _. split; [|exact ES]. destruct HC as (_ & _ & _ & _ & EO). exact EO.
  - left. destruct (Ha (major (u_ubx s)) (u_out s)) as (o & w & E & Ho); [apply HI|]. unfold usend. rewrite E. cbn [bind].
    eexists. eexists. split; [reflexivity|]. split; [apply uinv_out; assumption|]. intros [].
  - left. eexists. eexists. split; [reflexivity|]. split; [apply uinv_mode; exact HI|]. intros _. split; reflexivity.
  - left. eexists. eexists. split; [reflexivity|]. split; [apply uinv_mode; exact HI|]. intros _. split; reflexivity.
  - left. eexists. eexists. split; [reflexivity|]. split; [apply uinv_mode; exact HI|]. intros _. split; reflexivity.
Qed.
Lemma conc_inv h : forall s s' ev, UInv s -> Forall act_ok h -> conc s h = Ok (s', ev) -> UInv s'.
Proof.
  induction h as [|a h IH]; intros s s' ev HI HF E; cbn [conc] in E; [assert (s' = s) as -> by congruence; exact HI|].
  inversion HF as [|? ? Ha HF']; subst.
  destruct (act_step s a) as [[s1 e1]|k] eqn:E1; cbn [bind] in E; [|discriminate].
  destruct (conc s1 h) as [[s2 e2]|k] eqn:E2; cbn [bind] in E; [|discriminate].
  destruct (act_step_inv s a HI Ha) as [(s1' & e1' & E1' & HI1 & HN)|(b & -> & [Eb|Eb])]; [|cbn in E1; congruence..].
  assert (s1' = s1) as -> by congruence. assert (s2 = s') as -> by congruence. exact (IH s1 s' e2 HI1 HF' E2).
Qed.
Definition is_reg (a : act) : bool := match a with AReg => true | _ => false end.
Lemma byte_nreg s b s' ev : ublox_byte s b = Ok (s', ev) -> u_nreg s' = u_nreg s.
Proof.
  unfold ublox_byte, to_ubx, to_rtcm. intros E. destruct (parsing_message (u_ubx s)).
  - destruct (read_cb (u_ls s) (u_ubx s) b) as [[[x c] o]|k]; cbn [bind] in E; [|discriminate]. assert (s' = uw_ubx s x) as -> by congruence. reflexivity.
  - destruct (rtcm_parsing (u_rtcm s) && (u_type s =? T_BASE)).
    + destruct (rtcm_byte _ _ b) as [[r cs]|k]; cbn [bind] in E; [|discriminate]. assert (s' = uw_rtcm s r) as -> by congruence. reflexivity.
    + destruct (read_cb (u_ls s) (u_ubx s) b) as [[[x c] o]|k]; cbn [bind] in E; [|discriminate].
      destruct (rtcm_byte _ _ b) as [[r cs]|k]; cbn [bind] in E; [|discriminate]. assert (s' = uw_rtcm (uw_ubx s x) r) as -> by congruence. reflexivity.
Qed.
Lemma conc_nreg h : forall s s' ev, conc s h = Ok (s', ev) -> u_nreg s' = (length (filter is_reg h) + u_nreg s)%nat.
Proof.
  induction h as [|a h IH]; intros s s' ev E; cbn [conc] in E; [assert (s' = s) as -> by congruence; reflexivity|].
  destruct (act_step s a) as [[s1 e1]|k] eqn:E1; cbn [bind] in E; [|discriminate].
  destruct (conc s1 h) as [[s2 e2]|k] eqn:E2; cbn [bind] in E; [|discriminate].
  assert (s2 = s') as -> by congruence. rewrite (IH s1 s' e2 E2). cbn [filter].
  destruct a as [b|f|t|i|]; cbn [act_step is_reg] in *.
  - rewrite (byte_nreg s b s1 e1 E1). reflexivity.
  - unfold usend in E1. destruct (f (major (u_ubx s)) (u_out s)) as [[o w]|k]; cbn [bind] in E1; [|discriminate].
    assert (s1 = uw_out s o) as -> by congruence. reflexivity.
  - assert (s1 = uw_mode s (u_nreg s) t (u_rtk s)) as -> by congruence. reflexivity.
  - assert (s1 = uw_mode s (u_nreg s) (u_type s) i) as -> by congruence. reflexivity.
  - assert (s1 = uw_mode s (S (u_nreg s)) (u_type s) (u_rtk s)) as -> by congruence. cbn [length]. change (u_nreg (uw_mode s (S (u_nreg s)) (u_type s) (u_rtk s))) with (S (u_nreg s)). lia.
Qed.
Lemma shuffle_regs prog bs h : shuffle prog (map ARx bs) h -> length (filter is_reg h) = length (filter is_reg prog).
Proof.
  intros H. remember (map ARx bs) as r eqn:Er. revert bs Er. induction H as [|a p r h H IH|a p r h H IH]; intros bs Er.
  - reflexivity.
  - cbn [filter]. destruct (is_reg a); cbn [length]; rewrite (IH bs Er); reflexivity.
  - destruct bs as [|b bs]; [discriminate|]. cbn [map] in Er. injection Er as -> ->. exact (IH bs eq_refl).
Qed.
Lemma shuffle_forall {A} (P : A -> Prop) a b c : shuffle a b c -> Forall P a -> Forall P b -> Forall P c.
Proof.
  intros H. induction H as [|x a b c H IH|x a b c H IH]; intros Ha Hb; [constructor| |].
  - inversion Ha; subst. constructor; auto.
  - inversion Hb; subst. constructor; auto.
Qed.

Lemma rates_ok v : Forall act_ok (rates_tx v).
Proof. unfold rates_tx, rtcm_keys. cbn [map]. repeat (constructor; [intros m; apply len_configure|]). constructor. Qed.
Lemma base_ok i st : Forall act_ok (base_acts i st).
Proof.
  unfold base_acts. apply Forall_app. split; [repeat constructor|]. apply Forall_app. split; [apply rates_ok|].
  destruct st; [|constructor]. repeat (constructor; [intros m; first [apply len_configure|exact len_survey]|]). constructor.
Qed.
Lemma rover_ok i : Forall act_ok (rover_acts i).
Proof. unfold rover_acts. apply Forall_app. split; [repeat constructor|]. apply Forall_app. split; [apply rates_ok|repeat constructor]. Qed.
Lemma rx_ok bs : bytes_ok bs -> Forall act_ok (map ARx bs).
Proof. intros H. induction H; constructor; assumption. Qed.
Lemma setup_ok : Forall act_ok setup_acts.
Proof.
  unfold setup_acts.
  assert (G : forall m f, In f (ctor_sends m) -> len_ok f) by (intros m; apply Forall_forall; exact (len_ctor m)).
  repeat (constructor; [intros m; apply (G m); unfold ctor_sends; cbn [In]; tauto|]). constructor.
Qed.
Lemma shuffle_act_ok prog bs h : shuffle prog (map ARx bs) h -> Forall act_ok prog -> bytes_ok bs -> Forall act_ok h.
Proof. intros HS HP Hb. apply (shuffle_forall _ _ _ _ HS); [exact HP|apply rx_ok; exact Hb]. Qed.

Lemma register_inv s l : UInv s -> listener_ok l -> UInv (ublox_register s (build l)).
Proof.
  intros (H1 & H2 & (ls & Hls & EL) & H4) Hl. split; [exact H1|]. split; [exact H2|]. split; [|exact H4].
  exists (ls ++ [l]). split; [apply Forall_app; split; [exact Hls|constructor; [exact Hl|constructor]]|].
  cbn [ublox_register uw_ls u_ls]. rewrite EL, map_app. reflexivity.
Qed.
Lemma nav_ml_build nav : nav_ml nav = build (mkListener nav [(0x02, 0x13)]). Proof. reflexivity. Qed.
Lemma nav_l_ok nav : listener_ok (mkListener nav [(0x02, 0x13)]).
Proof. constructor; [|constructor]. split; unfold byte_ok; cbn; lia. Qed.
Lemma raw_inv u ru out0 t : uninit_ok u -> runinit_ok ru -> Zlen out0 = 2048 -> UInv (mkUblox (ubx_init u) out0 [] (rtcm_init ru) 0 t 0).
Proof.
  intros Hu Hru Hz. split; [|split; [|split]].
  - apply (reach_inv u _ Hu). constructor.
  - apply (rreach_inv ru _ Hru). constructor.
  - exists []. split; [constructor|reflexivity].
  - exact Hz.
Qed.
(* construction with bytes arriving at any time: the object before the first store to got_ver_ *)
Lemma start_prefix u ru out0 nav c sa ea sb eb s0 e0 : uninit_ok u -> runinit_ok ru -> Zlen out0 = 2048 -> csched_ok c ->
  ublox_read (mkUblox (ubx_init u) out0 [] (rtcm_init ru) 0 (c_type0 c) 0) (c_a c) = Ok (sa, ea) ->
  ublox_read (ublox_register sa (nav_ml nav)) (c_b c) = Ok (sb, eb) ->
  ublox_read (uw_mode sb (u_nreg sb) T_NONE (u_rtk sb)) (c_0 c) = Ok (s0, e0) ->
  UInv sa /\ UInv sb /\ UInv s0 /\ u_nreg s0 = 0%nat /\ u_type s0 = T_NONE /\ u_ls s0 = [nav_ml nav] /\ u_ls sb = [nav_ml nav] /\ u_ls sa = [] /\ u_rtk s0 = 0.
Proof.
  intros Hu Hru Hz (Ha & Hb & H0 & _) Ea Eb E0.
  destruct (uinv_read _ _ _ _ (raw_inv u ru out0 (c_type0 c) Hu Hru Hz) Ha Ea) as [HIa (_ & La & Na & Ra & _)]. cbn [u_ls u_nreg u_rtk] in La, Na, Ra.
  rewrite nav_ml_build in Eb. destruct (uinv_read _ _ _ _ (register_inv sa _ HIa (nav_l_ok nav)) Hb Eb) as [HIb (_ & Lb & Nb & Rb & _)].
  cbn [ublox_register uw_ls u_ls u_nreg u_rtk] in Lb, Nb, Rb. rewrite La in Lb. rewrite Na in Nb. rewrite Ra in Rb. cbn [app] in Lb. rewrite <- nav_ml_build in Lb.
  destruct (uinv_read _ _ _ _ (uinv_mode sb (u_nreg sb) T_NONE (u_rtk sb) HIb) H0 E0) as [HI0 (T0 & L0 & N0 & R0 & _)].
  cbn [uw_mode u_ls u_nreg u_type u_rtk] in T0, L0, N0, R0. repeat split; try exact (proj1 HIa); try congruence; try apply HIa; try apply HIb; try apply HI0.
Qed.
Lemma start_inv u ru out0 nav c bs s ev : uninit_ok u -> runinit_ok ru -> Zlen out0 = 2048 -> csched_ok c -> bytes_ok bs ->
  shuffle setup_acts (map ARx bs) (c_setup c) -> ctor_any u ru out0 nav c = Ok (Some s, ev) -> UInv s /\ u_nreg s = 0%nat.
Proof.
  intros Hu Hru Hz Hc Hbs HS H. unfold ctor_any in H. cbv zeta in H.
  destruct (ublox_read _ (c_a c)) as [[sa ea]|k] eqn:Ea; cbn [bind] in H; [|discriminate].
  destruct (ublox_read _ (c_b c)) as [[sb eb]|k] eqn:Eb; cbn [bind] in H; [|discriminate].
  destruct (ublox_read _ (c_0 c)) as [[s0 e0]|k] eqn:E0; cbn [bind] in H; [|discriminate].
  destruct (start_prefix u ru out0 nav c sa ea sb eb s0 e0 Hu Hru Hz Hc Ea Eb E0) as (_ & _ & HI0 & N0 & T0 & _).
  destruct Hc as (_ & _ & _ & H1 & Hg & H2).
  assert (FIN : forall s1 e1, UInv s1 -> u_nreg s1 = 0%nat -> (let* (s', e') := conc s1 (c_setup c) in Ok (Some s', e1 ++ e')) = Ok (Some s, ev) -> UInv s /\ u_nreg s = 0%nat).
  { intros s1 e1 HI1 N1 E. destruct (conc s1 (c_setup c)) as [[s' e']|k] eqn:EC; cbn [bind] in E; [|discriminate].
    assert (s' = s) as -> by congruence. split; [exact (conc_inv _ _ _ _ HI1 (shuffle_act_ok _ _ _ HS setup_ok Hbs) EC)|].
    rewrite (conc_nreg _ _ _ _ EC), (shuffle_regs _ _ _ HS), N1. reflexivity. }
  destruct (get_version_spec s0 (c_1 c) HI0 H1 T0) as [(s1 & e1 & o1 & w1 & E1 & HI1 & (T1 & _ & N1 & _) & _)|[[E1 _]|E1]]; rewrite E1 in H; cbn [bind] in H; [|discriminate..].
  cbn [uw_out u_type u_nreg] in T1, N1. destruct (got_ver (u_ubx s1)); [apply (FIN s1 _ HI1 ltac:(congruence) H)|].
  destruct (ublox_read s1 (c_g c)) as [[sg eg]|k] eqn:Eg; cbn [bind] in H; [|discriminate].
  destruct (uinv_read _ _ _ _ HI1 Hg Eg) as [HIg (Tg & _ & Ng & _)].
  destruct (get_version_spec sg (c_2 c) HIg H2 ltac:(congruence)) as [(s2 & e2 & o2 & w2 & E2 & HI2 & (T2 & _ & N2 & _) & _)|[[E2 _]|E2]]; rewrite E2 in H; cbn [bind] in H; [|discriminate..].
  cbn [uw_out u_type u_nreg] in T2, N2. destruct (got_ver (u_ubx s2)); [|discriminate]. apply (FIN s2 _ HI2 ltac:(congruence) H).
Qed.

Lemma ureach_inv u ru n s : uninit_ok u -> runinit_ok ru -> UReach u ru n s -> UInv s /\ u_nreg s = n.
Proof.
  intros Hu Hru H. induction H as [out0 nav rx1 rx2 s ev Hz Hb1 Hb2 E|out0 nav c bs s ev Hz Hc Hb HS E|n s bs s' ev _ [HI EN] Hb E|n s i st s' ev _ [HI EN] E|n s i s' ev _ [HI EN] E
    |n s i st bs h s' ev _ [HI EN] Hb HS E|n s i bs h s' ev _ [HI EN] Hb HS E|n s l _ [HI EN] Hl].
  - destruct (ctor_inv u ru out0 nav rx1 rx2 s ev Hu Hru Hz Hb1 Hb2 E) as (A & B & _). auto.
  - exact (start_inv u ru out0 nav c bs s ev Hu Hru Hz Hc Hb HS E).
  - destruct (uinv_read s bs s' ev HI Hb E) as [HI' HC]. split; [exact HI'|]. destruct HC as (_ & _ & -> & _). exact EN.
  - destruct (config_base_spec s i st) as (o & e & E' & Ho); [apply HI|]. rewrite E in E'. assert (s' = uw_out (uw_mode s (S (u_nreg s)) T_BASE i) o) by congruence. subst s'.
    split; [apply uinv_out; [apply uinv_mode; exact HI|exact Ho]|]. cbn. congruence.
  - destruct (config_rover_spec s i) as (o & e & E' & Ho); [apply HI|]. rewrite E in E'. assert (s' = uw_out (uw_mode s (u_nreg s) T_ROVER i) o) by congruence. subst s'.
    split; [apply uinv_out; [apply uinv_mode; exact HI|exact Ho]|]. exact EN.
  - split; [exact (conc_inv _ _ _ _ HI (shuffle_act_ok _ _ _ HS (base_ok i st) Hb) E)|]. rewrite (conc_nreg _ _ _ _ E), (shuffle_regs _ _ _ HS), EN. destruct st; reflexivity.
  - split; [exact (conc_inv _ _ _ _ HI (shuffle_act_ok _ _ _ HS (rover_ok i) Hb) E)|]. rewrite (conc_nreg _ _ _ _ E), (shuffle_regs _ _ _ HS), EN. reflexivity.
  - split; [|exact EN]. exact (register_inv s l HI Hl).
Qed.

Lemma inv_idle x : Inv x -> parsing_message x = false -> Idle x.
Proof.
  intros (HS & HB & HM & HC) HP. apply zlen_2048 in HB. unfold parsing_message, Idle, st_inv in *.
  destruct (st x); try (destruct HS as (E1 & E2 & _); rewrite E1, E2 in HP; discriminate); try contradiction.
  repeat split; assumption.
Qed.
