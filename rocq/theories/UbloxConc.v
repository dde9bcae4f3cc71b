(* Two threads on one UBLOX object: the application thread runs a configuration function, the receive thread runs
   UBLOX::read_cb.  A schedule is an interleaving of the atomic actions of both.  Granularity: one iteration of the loop of read_cb
   (ublox.cpp:122-138), one store to a member, one UBX sender function (the senders touch only out_message_ and the port, which the
   receive thread never touches, and read major_version_ once, at their start).  Memory is sequentially consistent (the C++
   standard calls these data races; this is the most favourable reading of the code). *)
From Verif Require Import Base UbxSpec UbxModel UbxProofs UbxStream UbxMain UbxMore UbxHist UbxApi
  UbxTx UbxTxSpec UbxTxApi CrcSpec RtcmModel RtcmSpec RtcmProofs RtcmApi UbloxModel UbloxSpec UbloxProofs UbloxApi UbloxThm.

(* ---------------------------------------------------------------- alone, the programs are the functions of UbloxModel *)
Lemma conc_tx fs : forall s, conc s (map (fun f => ATx (fun _ => f)) fs) = usends fs s.
Proof.
  induction fs as [|f fs IH]; intros s; [reflexivity|]. cbn [map conc act_step usends].
  destruct (usend f s) as [[s1 e1]|k]; cbn [bind]; [rewrite IH; reflexivity|reflexivity].
Qed.
Lemma base_alone s i st : conc s (base_acts i st) = config_base s i st.
Proof.
  unfold base_acts, config_base. cbn [app conc act_step bind].
  replace (rates_tx 1 ++ _) with (map (fun f => ATx (fun _ => f)) (map (fun k o => configure o 0 1 1 k 1) rtcm_keys ++
          if st then [(fun o => configure o 0 1 1 0x2091008b 1); (fun o => configure o 0 1 1 0x20030001 1);
             (fun o => configure o 0 1 500000 0x40030011 2); (fun o => configure o 0 1 119 0x40030010 2); start_survey_in] else [])).
  2:{ destruct st; reflexivity. }
  rewrite conc_tx. unfold uw_mode. cbn [u_ubx u_out u_ls u_rtcm u_nreg u_type u_rtk].
  destruct (usends _ _) as [[s2 e2]|k]; reflexivity.
Qed.
Lemma rover_alone s i : conc s (rover_acts i) = config_rover s i.
Proof.
  unfold rover_acts, config_rover. change ([AType T_ROVER] ++ rates_tx 0 ++ [AIface i]) with (AType T_ROVER :: (rates_tx 0 ++ [AIface i])).
  cbn [conc act_step bind]. rewrite conc_app.
  replace (rates_tx 0) with (map (fun f => ATx (fun _ => f)) (map (fun k o => configure o 0 1 0 k 1) rtcm_keys)) by (unfold rates_tx; rewrite map_map; reflexivity).
  rewrite conc_tx. destruct (usends _ _) as [[s2 e2]|k]; cbn [bind conc act_step app]; [|reflexivity].
  rewrite app_nil_r. reflexivity.
Qed.

(* ---------------------------------------------------------------- senders and the receive thread do not see each other *)
Definition tx_ok (a : act) : Prop := match a with ATx f => forall m, len_ok (f m) | ARx _ => True | _ => False end.

Lemma read_out_indep bs : forall s o, ublox_read (uw_out s o) bs = (let* (s1, e1) := ublox_read s bs in Ok (uw_out s1 o, e1)).
Proof.
  induction bs as [|b bs IH]; intros s o; [reflexivity|]. cbn [ublox_read].
  assert (E : ublox_byte (uw_out s o) b = (let* (s1, e1) := ublox_byte s b in Ok (uw_out s1 o, e1))).
  { unfold ublox_byte, to_ubx, to_rtcm. cbn [uw_out u_ubx u_out u_ls u_rtcm u_nreg u_type u_rtk].
    destruct (parsing_message (u_ubx s)).
    - destruct (read_cb (u_ls s) (u_ubx s) b) as [[[x c] ok]|k]; reflexivity.
    - destruct (rtcm_parsing (u_rtcm s) && (u_type s =? T_BASE)).
      + destruct (rtcm_byte (repeat 0 (u_nreg s)) (u_rtcm s) b) as [[r cs]|k]; reflexivity.
      + destruct (read_cb (u_ls s) (u_ubx s) b) as [[[x c] ok]|k]; cbn [bind]; [|reflexivity].
        cbn [uw_ubx uw_out u_ubx u_out u_ls u_rtcm u_nreg u_type u_rtk].
        destruct (rtcm_byte (repeat 0 (u_nreg s)) (u_rtcm s) b) as [[r cs]|k]; reflexivity. }
  rewrite E. destruct (ublox_byte s b) as [[s1 e1]|k]; cbn [bind]; [|reflexivity].
  rewrite IH. destruct (ublox_read s1 bs) as [[s2 e2]|k]; reflexivity.
Qed.

(* the receive thread's effects, sequentially *)
Lemma conc_receives h : forall s, Zlen (u_out s) = 2048 -> UInv s -> bytes_ok (rx_of h) -> Forall tx_ok h ->
  match ublox_read s (rx_of h) with
  | UB k => conc s h = UB k
  | Ok (sr, er) => exists o ev, conc s h = Ok (uw_out sr o, ev) /\ Zlen o = 2048 /\
      ubx_of ev = ubx_of er /\ rtk_of ev = rtk_of er /\ ser_of er = []
  end.
Proof.
  induction h as [|a h IH]; intros s HO HI Hb HF.
  - cbn. exists (u_out s), []. destruct s; repeat split; assumption.
  - inversion HF as [|? ? Ha HF']; subst. destruct a as [b|f| | |]; try contradiction; cbn [conc act_step].
    + change (rx_of (ARx b :: h)) with (b :: rx_of h) in *. cbn [ublox_read].
      inversion Hb as [|? ? Hb0 Hb1]; subst.
      destruct (ublox_byte s b) as [[s1 e1]|k] eqn:E1; cbn [bind]; [|reflexivity].
      assert (ER : ublox_read s [b] = Ok (s1, e1)) by (cbn [ublox_read]; rewrite E1; cbn [bind]; rewrite app_nil_r; reflexivity).
      destruct (uinv_read s [b] s1 e1 HI) as [HI1 HC]; [constructor; [exact Hb0|constructor]|exact ER|].
      assert (ES : ser_of e1 = []).
      { destruct HI as (K1 & (p & K2) & _). destruct (byte_step s b p K1 K2 Hb0) as [(s' & ev & p' & fs & E & _ & _ & _ & _ & ES & _)|[[E _]|[E _]]]; rewrite E in E1; [|discriminate..].
        assert (ev = e1) by congruence. subst ev. exact ES. }
      assert (HO1 : Zlen (u_out s1) = 2048) by apply HI1.
      specialize (IH s1 HO1 HI1 Hb1 HF'). destruct (ublox_read s1 (rx_of h)) as [[sr er]|k]; cbn [bind].
      * destruct IH as (o & ev & E & Ho & U1 & U2 & U3). rewrite E. cbn [bind]. exists o, (e1 ++ ev).
        rewrite !ubx_of_app, !rtk_of_app, ser_of_app, U1, U2, U3, ES. repeat split. exact Ho.
      * rewrite IH. reflexivity.
    + destruct (Ha (major (u_ubx s)) (u_out s) HO) as (o & w & E & Ho). unfold usend. rewrite E. cbn [bind].
      change (rx_of (ATx f :: h)) with (rx_of h) in *.
      specialize (IH (uw_out s o) Ho (uinv_out s o HI Ho) Hb HF'). rewrite read_out_indep in IH.
      destruct (ublox_read s (rx_of h)) as [[sr er]|k]; cbn [bind] in IH.
      * destruct IH as (o2 & ev & E2 & Ho2 & U1 & U2 & U3). change (uw_out (uw_out sr o) o2) with (uw_out sr o2) in E2. rewrite E2. cbn [bind].
        exists o2, (map EvSer w ++ ev). rewrite ubx_of_app, rtk_of_app, ubx_of_ser, rtk_of_ser. repeat split; assumption.
      * rewrite IH. reflexivity.
Qed.

(* ---------------------------------------------------------------- what is sent *)
(* senders run one after the other on the message buffer *)
Fixpoint tx_run (fs : list (list Z -> outcome sent)) (o : list Z) : outcome (list Z * list (list Z)) :=
  match fs with
  | [] => Ok (o, [])
  | f :: r => let* (o1, w1) := f o in let* (o2, w2) := tx_run r o1 in Ok (o2, w1 ++ w2)
  end.
Lemma usends_tx fs : forall s, usends fs s = (let* (o, w) := tx_run fs (u_out s) in Ok (uw_out s o, map EvSer w)).
Proof.
  induction fs as [|f fs IH]; intros s; [destruct s; reflexivity|]. cbn [usends tx_run]. unfold usend.
  destruct (f (u_out s)) as [[o w]|k]; cbn [bind]; [|reflexivity]. rewrite IH. change (u_out (uw_out s o)) with o.
  destruct (tx_run fs o) as [[o2 w2]|k]; cbn [bind]; [|reflexivity]. rewrite map_app. reflexivity.
Qed.
Definition txs (h : list act) : list (Z -> list Z -> outcome sent) := flat_map (fun a => match a with ATx f => [f] | _ => [] end) h.
(* the version known to each sender when it starts *)
Fixpoint vers_at (s : ublox) (h : list act) : list Z :=
  match h with
  | [] => []
  | a :: r =>
      (match a with ATx _ => [major (u_ubx s)] | _ => [] end) ++
      (match act_step s a with Ok (s1, _) => vers_at s1 r | UB _ => [] end)
  end.
Fixpoint apply_all {A B} (fs : list (A -> B)) (xs : list A) : list B :=
  match fs, xs with f :: fr, x :: xr => f x :: apply_all fr xr | _, _ => [] end.

(* any schedule: the port gets what the senders write one after the other *)
Lemma conc_sends h : forall s s' ev, UInv s -> Forall act_ok h -> conc s h = Ok (s', ev) ->
  UInv s' /\ length (vers_at s h) = length (txs h) /\ tx_run (apply_all (txs h) (vers_at s h)) (u_out s) = Ok (u_out s', ser_of ev).
Proof.
  induction h as [|a h IH]; intros s s' ev HI HF E.
  - cbn in E. assert (s = s' /\ ev = []) as [<- ->] by (split; congruence). repeat split; exact HI || apply HI.
  - inversion HF as [|? ? Ha HF']; subst. cbn [conc] in E.
    destruct (act_step s a) as [[s1 e1]|k] eqn:E1; cbn [bind] in E; [|discriminate].
    destruct (conc s1 h) as [[s2 e2]|k] eqn:E2; cbn [bind] in E; [|discriminate].
    assert (s2 = s' /\ ev = e1 ++ e2) as [-> ->] by (split; congruence).
    destruct (act_step_inv s a HI Ha) as [(s1' & e1' & E1' & HI1 & HN)|(b & -> & [Eb|Eb])]; [|cbn in E1; congruence..].
    assert (s1' = s1 /\ e1' = e1) as [-> ->] by (split; congruence).
    destruct (IH s1 s' e2 HI1 HF' E2) as (HI' & HL & HT). split; [exact HI'|]. cbn [vers_at]. rewrite E1, ser_of_app.
    change (txs (a :: h)) with ((match a with ATx f => [f] | _ => [] end) ++ txs h).
    destruct a as [b|f|t|i|]; cbn [app]; try (destruct (HN I) as [EO ES]; rewrite ES, <- EO; cbn [app]; auto).
    cbn [length apply_all tx_run]. split; [rewrite HL; reflexivity|].
    cbn [act_step] in E1. unfold usend in E1. destruct (f (major (u_ubx s)) (u_out s)) as [[o w]|k]; cbn [bind] in E1; [|discriminate].
    assert (s1 = uw_out s o /\ e1 = map EvSer w) as [-> ->] by (split; congruence). cbn [bind]. change (u_out (uw_out s o)) with o in HT. rewrite HT.
    cbn [bind]. rewrite ser_of_ser. reflexivity.
Qed.
(* the only undefined behaviour is that of reading *)
Lemma conc_ub h : forall s k, UInv s -> Forall act_ok h -> conc s h = UB k -> k = UB_cstring \/ k = UB_oob_write.
Proof.
  induction h as [|a h IH]; intros s k HI HF E; [discriminate|]. inversion HF as [|? ? Ha HF']; subst. cbn [conc] in E.
  destruct (act_step_inv s a HI Ha) as [(s1 & e1 & E1 & HI1 & _)|(b & -> & [Eb|Eb])].
  - rewrite E1 in E. cbn [bind] in E. destruct (conc s1 h) as [[s2 e2]|k2] eqn:E2; cbn [bind] in E; [discriminate|].
    assert (k2 = k) by congruence. subst k2. apply (IH s1 k HI1 HF' E2).
  - cbn [act_step] in E. rewrite Eb in E. cbn [bind] in E. left. congruence.
  - cbn [act_step] in E. rewrite Eb in E. cbn [bind] in E. right. congruence.
Qed.

(* versions in a schedule of senders and received bytes: those after the bytes received before each sender *)
Fixpoint befores (h : list act) : list (list Z) :=
  match h with
  | [] => []
  | ARx b :: r => map (cons b) (befores r)
  | ATx _ :: r => [] :: befores r
  | _ :: r => befores r
  end.
Definition version_after (s : ublox) (p : list Z) : Z := match ublox_read s p with Ok (s1, _) => major (u_ubx s1) | UB _ => 0 end.
Lemma version_out s o p : version_after (uw_out s o) p = version_after s p.
Proof. unfold version_after. rewrite read_out_indep. destruct (ublox_read s p) as [[s1 e1]|k]; reflexivity. Qed.
Lemma version_cons s b s1 e1 p : ublox_byte s b = Ok (s1, e1) -> version_after s (b :: p) = version_after s1 p.
Proof. intros E. unfold version_after. cbn [ublox_read]. rewrite E. cbn [bind]. destruct (ublox_read s1 p) as [[s2 e2]|k]; reflexivity. Qed.
Lemma vers_before h : forall s s' ev, Forall tx_ok h -> conc s h = Ok (s', ev) -> vers_at s h = map (version_after s) (befores h).
Proof.
  induction h as [|a h IH]; intros s s' ev HF E; [reflexivity|]. inversion HF as [|? ? Ha HF']; subst. cbn [conc] in E.
  destruct (act_step s a) as [[s1 e1]|k] eqn:E1; cbn [bind] in E; [|discriminate].
  destruct (conc s1 h) as [[s2 e2]|k] eqn:E2; cbn [bind] in E; [|discriminate].
  cbn [vers_at]. rewrite E1, (IH s1 s2 e2 HF' E2). destruct a as [b|f| | |]; try contradiction; cbn [app befores map].
  - rewrite map_map. apply map_ext. intros p. symmetry. apply (version_cons s b s1 e1 p). exact E1.
  - cbn [act_step] in E1. unfold usend in E1. destruct (f (major (u_ubx s)) (u_out s)) as [[o w]|k]; cbn [bind] in E1; [|discriminate].
    assert (s1 = uw_out s o) as -> by congruence. f_equal. apply map_ext. intros p. apply version_out.
Qed.
Lemma befores_prefix h p : In p (befores h) -> exists q, rx_of h = p ++ q.
Proof.
  revert p. induction h as [|a h IH]; intros p Hp; [destruct Hp|]. destruct a as [b|f| | |]; cbn [befores] in Hp; try exact (IH p Hp).
  - apply in_map_iff in Hp. destruct Hp as (p' & <- & Hp'). destruct (IH p' Hp') as (q & E). exists q.
    change (rx_of (ARx b :: h)) with (b :: rx_of h). rewrite E. reflexivity.
  - destruct Hp as [<-|Hp]; [exists (rx_of h); reflexivity|exact (IH p Hp)].
Qed.

(* ---------------------------------------------------------------- schedules of a program and received bytes *)
Lemma shuffle_rx prog bs h : shuffle prog (map ARx bs) h -> rx_of prog = [] -> rx_of h = bs.
Proof.
  intros H. remember (map ARx bs) as r eqn:Er. revert bs Er. induction H as [|a p r h H IH|a p r h H IH]; intros bs Er Hp.
  - destruct bs; [reflexivity|discriminate].
  - change (rx_of (a :: p)) with ((match a with ARx b => [b] | _ => [] end) ++ rx_of p) in Hp.
    change (rx_of (a :: h)) with ((match a with ARx b => [b] | _ => [] end) ++ rx_of h).
    apply app_eq_nil in Hp. destruct Hp as [-> Hp]. apply IH; assumption.
  - destruct bs as [|b bs]; [discriminate|]. cbn [map] in Er. injection Er as -> ->.
    change (rx_of (ARx b :: h)) with (b :: rx_of h). rewrite (IH bs eq_refl Hp). reflexivity.
Qed.
Lemma shuffle_txs prog bs h : shuffle prog (map ARx bs) h -> txs h = txs prog.
Proof.
  intros H. remember (map ARx bs) as r eqn:Er. revert bs Er. induction H as [|a p r h H IH|a p r h H IH]; intros bs Er.
  - reflexivity.
  - change (txs (a :: p)) with ((match a with ATx f => [f] | _ => [] end) ++ txs p).
    change (txs (a :: h)) with ((match a with ATx f => [f] | _ => [] end) ++ txs h). rewrite (IH bs Er). reflexivity.
  - destruct bs as [|b bs]; [discriminate|]. cbn [map] in Er. injection Er as -> ->. change (txs (ARx b :: h)) with (txs h). exact (IH bs eq_refl).
Qed.


(* senders that do not look at the version *)
Definition fixed_tx (f : Z -> list Z -> outcome sent) : Prop := forall m o, f m o = f 0 o.
Lemma tx_run_fixed fs : forall ms o, Forall fixed_tx fs -> length ms = length fs -> tx_run (apply_all fs ms) o = tx_run (map (fun f => f 0) fs) o.
Proof.
  induction fs as [|f fs IH]; intros [|m ms] o HF HL; try discriminate; [reflexivity|]. inversion HF as [|? ? Hf HF']; subst.
  cbn [apply_all map tx_run]. rewrite (Hf m o). destruct (f 0 o) as [[o1 w1]|k]; cbn [bind]; [|reflexivity].
  rewrite IH; [reflexivity|exact HF'|cbn in HL; lia].
Qed.
Lemma base_fixed i st : Forall fixed_tx (txs (base_acts i st)).
Proof. destruct st; cbn [base_acts rates_tx rtcm_keys map app txs flat_map]; repeat (constructor; [intros m o; reflexivity|]); constructor. Qed.
Lemma rover_fixed i : Forall fixed_tx (txs (rover_acts i)).
Proof. cbn [rover_acts rates_tx rtcm_keys map app txs flat_map]; repeat (constructor; [intros m o; reflexivity|]); constructor. Qed.

Lemma conc_fixed prog bs h s s' ev s0 ev0 : UInv s -> bytes_ok bs -> shuffle prog (map ARx bs) h -> Forall act_ok prog -> Forall fixed_tx (txs prog) ->
  conc s h = Ok (s', ev) -> conc s prog = Ok (s0, ev0) -> ser_of ev = ser_of ev0 /\ u_out s' = u_out s0.
Proof.
  intros HI Hb HS Hok Hfx E E0.
  destruct (conc_sends h s s' ev HI (shuffle_forall _ _ _ _ HS Hok (rx_ok bs Hb)) E) as (_ & HL & HT).
  destruct (conc_sends prog s s0 ev0 HI Hok E0) as (_ & HL0 & HT0).
  rewrite (shuffle_txs _ _ _ HS) in *. rewrite tx_run_fixed in HT, HT0 by assumption. rewrite HT in HT0. split; congruence.
Qed.

(* config_base / config_rover while bytes arrive: the commands sent are those sent when nothing arrives *)
Lemma base_any_schedule s i st bs h s' ev : UInv s -> bytes_ok bs -> shuffle (base_acts i st) (map ARx bs) h -> conc s h = Ok (s', ev) ->
  exists s0 ev0, config_base s i st = Ok (s0, ev0) /\ ser_of ev = ser_of ev0.
Proof.
  intros HI Hb HS E. destruct (config_base_spec s i st) as (o & ev0 & E0 & _); [apply HI|]. eexists. eexists. split; [exact E0|].
  rewrite <- base_alone in E0. exact (proj1 (conc_fixed _ bs h s s' ev _ ev0 HI Hb HS (base_ok i st) (base_fixed i st) E E0)).
Qed.
Lemma rover_any_schedule s i bs h s' ev : UInv s -> bytes_ok bs -> shuffle (rover_acts i) (map ARx bs) h -> conc s h = Ok (s', ev) ->
  exists s0 ev0, config_rover s i = Ok (s0, ev0) /\ ser_of ev = ser_of ev0.
Proof.
  intros HI Hb HS E. destruct (config_rover_spec s i) as (o & ev0 & E0 & _); [apply HI|]. eexists. eexists. split; [exact E0|].
  rewrite <- rover_alone in E0. exact (proj1 (conc_fixed _ bs h s s' ev _ ev0 HI Hb HS (rover_ok i) (rover_fixed i) E E0)).
Qed.

(* ---------------------------------------------------------------- the version changes only with a MON-VER message *)
Lemma switch_major s b e s1 : read_switch s b = Ok (e, s1) -> major s1 = major s.
Proof.
  intros E. unfold read_switch in E. destruct (st s); try (injection E as <- <-; reflexivity).
  - destruct (_ && _); injection E as <- <-; reflexivity.
  - destruct (_ >? _); injection E as <- <-; reflexivity.
  - destruct (head s <? mlen s); [|injection E as <- <-; reflexivity].
    destruct (aset _ _ _) as [bf|]; cbn [bind] in E; [|discriminate].
    destruct (_ =? _); injection E as <- <-; reflexivity.
Qed.
Lemma read_cb_version ls s b x c o : read_cb ls s b = Ok (x, c, o) ->
  major x = major s \/ (forall l, In l ls -> subscribed l 10 4 = true -> exists msg, In (mkCall (ml_id l) 10 4 msg) c).
Proof.
  intros H. unfold read_cb in H. destruct (read_switch s b) as [[e s1]|] eqn:E; cbn [bind] in H; [|discriminate]. apply switch_major in E.
  destruct e; [left; injection H as <- _ _; exact E|]. destruct (is_ckb (st s1)); [|left; injection H as <- _ _; exact E].
  unfold decode_message in H. destruct (calculate_checksum _ _ _ _) as [[a0 b0]|]; cbn [bind] in H; [|discriminate].
  destruct (negb _ || negb _); cbn [bind] in H; [left; injection H as <- _ _; exact E|].
  destruct (decode_switch (w_nmsg s1 (u32 (nmsg s1 + 1)))) as [s2|] eqn:E2; cbn [bind] in H; [|discriminate].
  apply decode_switch_frame in E2. destruct E2 as [E2 EV]. destruct (UbxProofs.is_ver (w_nmsg s1 (u32 (nmsg s1 + 1)))) eqn:EI.
  - right. intros l Hl Hs. injection H as _ <- _. unfold UbxProofs.is_ver in EI. apply andb_prop in EI. destruct EI as [A B]. apply Z.eqb_eq in A. apply Z.eqb_eq in B.
    exists (inbuf s2). unfold notify. apply in_map_iff. exists l.
    assert (M1 : mcls s2 = 10) by (rewrite E2; exact A). assert (M2 : mtyp s2 = 4) by (rewrite E2; exact B). rewrite M1, M2.
    split; [reflexivity|]. apply filter_In. split; assumption.
  - left. injection H as <- _ _. destruct (EV eq_refl) as (EM & _). change (major s2 = major s). rewrite EM. exact E.
Qed.
Lemma byte_version s b s1 e1 l : ublox_byte s b = Ok (s1, e1) -> In l (u_ls s) -> subscribed l 10 4 = true ->
  (forall msg, ~ In (mkCall (ml_id l) 10 4 msg) (ubx_of e1)) -> major (u_ubx s1) = major (u_ubx s) /\ u_ls s1 = u_ls s.
Proof.
  intros E Hl Hs HN. unfold ublox_byte, to_ubx, to_rtcm in E.
  assert (G : forall x c o, read_cb (u_ls s) (u_ubx s) b = Ok (x, c, o) -> (forall msg, In (mkCall (ml_id l) 10 4 msg) c -> In (mkCall (ml_id l) 10 4 msg) (ubx_of e1)) -> major x = major (u_ubx s)).
  { intros x c o ER HI. destruct (read_cb_version _ _ _ _ _ _ ER) as [H|H]; [exact H|]. destruct (H l Hl Hs) as (msg & Hm). exfalso. exact (HN msg (HI msg Hm)). }
  destruct (parsing_message (u_ubx s)).
  - destruct (read_cb (u_ls s) (u_ubx s) b) as [[[x c] o]|k] eqn:ER; cbn [bind] in E; [|discriminate].
    assert (s1 = uw_ubx s x /\ e1 = map EvUbx c) as [-> ->] by (split; congruence). split; [|reflexivity].
    apply (G x c o eq_refl). rewrite ubx_of_ubx. auto.
  - destruct (rtcm_parsing (u_rtcm s) && (u_type s =? T_BASE)).
    + destruct (rtcm_byte (repeat 0 (u_nreg s)) (u_rtcm s) b) as [[r cs]|k]; cbn [bind] in E; [|discriminate].
      assert (s1 = uw_rtcm s r) as -> by congruence. split; reflexivity.
    + destruct (read_cb (u_ls s) (u_ubx s) b) as [[[x c] o]|k] eqn:ER; cbn [bind] in E; [|discriminate].
      destruct (rtcm_byte _ _ b) as [[r cs]|k]; cbn [bind] in E; [|discriminate].
      assert (s1 = uw_rtcm (uw_ubx s x) r) as -> by congruence.
      assert (e1 = map EvUbx c ++ flat_map (fun c => got_rtcm (uw_ubx s x) (snd c)) cs) as EE by congruence. split; [|reflexivity].
      apply (G x c o eq_refl). rewrite EE, ubx_of_app, ubx_of_ubx. intros msg Hm. apply in_or_app. left. exact Hm.
Qed.
Lemma read_version p : forall s q sr er l, ublox_read s (p ++ q) = Ok (sr, er) -> In l (u_ls s) -> subscribed l 10 4 = true ->
  (forall msg, ~ In (mkCall (ml_id l) 10 4 msg) (ubx_of er)) -> version_after s p = major (u_ubx s).
Proof.
  induction p as [|b p IH]; intros s q sr er l E Hl Hs HN; [reflexivity|]. cbn [app ublox_read] in E.
  destruct (ublox_byte s b) as [[s1 e1]|k] eqn:E1; cbn [bind] in E; [|discriminate].
  destruct (ublox_read s1 (p ++ q)) as [[s2 e2]|k] eqn:E2; cbn [bind] in E; [|discriminate].
  assert (er = e1 ++ e2) as -> by congruence. rewrite ubx_of_app in HN.
  destruct (byte_version s b s1 e1 l E1 Hl Hs) as [EM EL]; [intros msg Hm; apply (HN msg); apply in_or_app; left; exact Hm|].
  rewrite (version_cons s b s1 e1 p E1), (IH s1 q s2 e2 l E2); [exact EM|rewrite EL; exact Hl|exact Hs|].
  intros msg Hm. apply (HN msg). apply in_or_app. right. exact Hm.
Qed.

(* ---------------------------------------------------------------- the set-up of the constructor while bytes arrive *)
Definition nmea_writes (m : Z) : list (list Z) :=
  if m <=? 23 then frame_writes 0x06 0x00 (prt_payload 3 0 921600 0x21 0x21 0x8C0) else valset1 0x10770002 0 ++ valset1 0x10780002 0.
Definition rate_writes (m : Z) : list (list Z) :=
  if m <=? 23 then frame_writes 0x06 0x08 (rate_payload 200 1 0) else valset1 0x30210001 200 ++ valset1 0x30210002 1 ++ valset1 0x20210003 0.
Lemma setup_split m : setup_writes m = nmea_writes m ++ rate_writes m ++ setup_messages.
Proof. unfold setup_writes, nmea_writes, rate_writes. destruct (m <=? 23); rewrite <- !app_assoc; reflexivity. Qed.
Lemma nmea_sent m o : Zlen o = 2048 -> exists o', Zlen o' = 2048 /\ disable_nmea m o = Ok (o', nmea_writes m).
Proof.
  intros Ho. unfold nmea_writes. destruct (Z.leb_spec m 23) as [H|H].
  - destruct (tx_old o m 200 0 0 1 Ho H) as ((o1 & H1 & E1) & _). eauto.
  - destruct (tx_new o m 200 0 0 1 Ho H) as ((o1 & H1 & E1) & _). eauto.
Qed.
Lemma rate_sent m o : Zlen o = 2048 -> exists o', Zlen o' = 2048 /\ set_nav_rate m 200 o = Ok (o', rate_writes m).
Proof.
  intros Ho. unfold rate_writes. destruct (Z.leb_spec m 23) as [H|H].
  - destruct (tx_old o m 200 0 0 1 Ho H) as (_ & _ & (o1 & H1 & E1) & _). eauto.
  - destruct (tx_new o m 200 0 0 1 Ho H) as (_ & _ & (o1 & H1 & E1) & _). eauto.
Qed.
Lemma act_tx h bs prog : shuffle prog (map ARx bs) h -> Forall (fun a => is_tx a = true) prog -> Forall act_ok prog -> Forall tx_ok h.
Proof.
  intros HS HT HA. apply (shuffle_forall _ _ _ _ HS).
  - rewrite Forall_forall in *. intros a Ha. specialize (HT a Ha). specialize (HA a Ha). destruct a; try discriminate. exact HA.
  - clear. induction bs; constructor; [exact I|assumption].
Qed.
Lemma setup_any_schedule s bs h s' ev : UInv s -> bytes_ok bs -> shuffle setup_acts (map ARx bs) h -> conc s h = Ok (s', ev) ->
  exists p1 q1 p2 q2 sr er, bs = p1 ++ q1 /\ bs = p2 ++ q2 /\
    ser_of ev = nmea_writes (version_after s p1) ++ rate_writes (version_after s p2) ++ setup_messages /\
    ublox_read s bs = Ok (sr, er) /\ ubx_of ev = ubx_of er /\ rtk_of ev = rtk_of er /\ u_ubx s' = u_ubx sr /\ u_rtcm s' = u_rtcm sr.
Proof.
  intros HI Hb HS E.
  assert (HTX : Forall tx_ok h) by (apply (act_tx h bs setup_acts HS); [repeat constructor|exact setup_ok]).
  assert (HAC : Forall act_ok h) by (apply (shuffle_forall _ _ _ _ HS); [exact setup_ok|apply rx_ok; exact Hb]).
  assert (ERX : rx_of h = bs) by (apply (shuffle_rx _ _ _ HS); reflexivity).
  assert (EO : Zlen (u_out s) = 2048) by apply HI.
  pose proof (conc_receives h s EO HI) as HRV. rewrite ERX in HRV. specialize (HRV Hb HTX).
  destruct (ublox_read s bs) as [[sr er]|k] eqn:ER; [|rewrite E in HRV; discriminate].
  destruct HRV as (o & ev' & E' & Ho & U1 & U2 & _). rewrite E in E'. assert (ev' = ev) by congruence. subst ev'.
  assert (s' = uw_out sr o) as -> by congruence.
  destruct (conc_sends h s _ ev HI HAC E) as (_ & HL & HT). rewrite (vers_before h s _ ev HTX E), (shuffle_txs _ _ _ HS) in HT.
  rewrite (vers_before h s _ ev HTX E), (shuffle_txs _ _ _ HS), map_length in HL.
  pose proof (befores_prefix h) as HP. rewrite ERX in HP.
  destruct (befores h) as [|p1 [|p2 [|p3 [|p4 [|p5 [|p6 [|p7 [|p8 r]]]]]]]]; try discriminate.
  destruct (HP p1) as (q1 & Q1); [left; reflexivity|]. destruct (HP p2) as (q2 & Q2); [right; left; reflexivity|].
  exists p1, q1, p2, q2, sr, er. split; [exact Q1|]. split; [exact Q2|]. split; [|repeat split; assumption].
  cbn [map txs flat_map setup_acts app apply_all] in HT.
  destruct (nmea_sent (version_after s p1) (u_out s) EO) as (o1 & H1 & E1).
  destruct (rate_sent (version_after s p2) o1 H1) as (o2 & H2 & E2).
  destruct (enable_spec 1 7 o2 H2) as (o3 & H3 & E3); [unfold byte_ok; lia..|].
  destruct (enable_spec 1 60 o3 H3) as (o4 & H4 & E4); [unfold byte_ok; lia..|].
  destruct (enable_spec 1 17 o4 H4) as (o5 & H5 & E5); [unfold byte_ok; lia..|].
  destruct (enable_spec 2 21 o5 H5) as (o6 & H6 & E6); [unfold byte_ok; lia..|].
  destruct (enable_spec 2 19 o6 H6) as (o7 & H7 & E7); [unfold byte_ok; lia..|].
  cbn [tx_run] in HT. rewrite E1 in HT. cbn [bind] in HT. rewrite E2 in HT. cbn [bind] in HT. rewrite E3 in HT. cbn [bind] in HT.
  rewrite E4 in HT. cbn [bind] in HT. rewrite E5 in HT. cbn [bind] in HT. rewrite E6 in HT. cbn [bind] in HT. rewrite E7 in HT. cbn [bind] in HT.
  rewrite app_nil_r in HT. unfold setup_messages. congruence.
Qed.

(* ---------------------------------------------------------------- config_base while bytes arrive: where frames go *)
Lemma byte_rtk s b s1 e1 : UInv s -> byte_ok b -> ublox_byte s b = Ok (s1, e1) ->
  same_cfg s s1 /\ UInv s1 /\ Forall (fun w => fst w = u_rtk s /\ good_rtcm (snd w)) (rtk_of e1) /\ (u_nreg s = 0%nat -> rtk_of e1 = []).
Proof.
  intros HI Hb E. pose proof HI as (K1 & (p & K2) & _).
  destruct (byte_step s b p K1 K2 Hb) as [(s' & ev & p' & fs & E' & HC & _ & _ & _ & _ & EK & HG & _)|[[E' _]|[E' _]]]; rewrite E in E'; [|discriminate..].
  assert (s' = s1 /\ ev = e1) as [-> ->] by (split; congruence). split; [exact HC|].
  assert (ER : ublox_read s [b] = Ok (s1, e1)) by (cbn [ublox_read]; rewrite E; cbn [bind]; rewrite app_nil_r; reflexivity).
  split; [apply (uinv_read s [b] s1 e1 HI); [constructor; [exact Hb|constructor]|exact ER]|]. rewrite EK. unfold copies. split.
  - apply Forall_forall. intros w Hw. apply in_flat_map in Hw. destruct Hw as (f & Hf & Hw). apply repeat_spec in Hw. subst w.
    split; [reflexivity|]. exact (proj1 (Forall_forall _ _) HG f Hf).
  - intros ->. clear. induction fs; [reflexivity|exact IHfs].
Qed.

(* what remains of config_base, and what holds of the object then *)
Definition base_rest (i : Z) (s : ublox) (prog : list act) : Prop :=
  (Forall (fun a => is_tx a = true) prog /\ u_rtk s = i) \/
  (exists p, Forall (fun a => is_tx a = true) p /\ ((prog = AReg :: p /\ u_rtk s = i) \/
     (prog = AIface i :: AReg :: p /\ u_nreg s = 0%nat) \/ (exists t, prog = AType t :: AIface i :: AReg :: p /\ u_nreg s = 0%nat))).
Lemma base_forwards i prog bs h : shuffle prog (map ARx bs) h -> forall s s' ev, base_rest i s prog -> UInv s -> Forall act_ok prog -> bytes_ok bs ->
  conc s h = Ok (s', ev) -> Forall (fun w => fst w = i /\ good_rtcm (snd w)) (rtk_of ev).
Proof.
  intros H. remember (map ARx bs) as r eqn:Er. revert bs Er.
  induction H as [|a p r h H IH|a p r h H IH]; intros bs Er s s' ev HB HI HA Hb E; cbn [conc] in E.
  - assert (ev = []) as -> by congruence. constructor.
  - inversion HA as [|? ? Ha HA']; subst. destruct (act_step s a) as [[s1 e1]|k] eqn:E1; cbn [bind] in E; [|discriminate].
    destruct (conc s1 h) as [[s2 e2]|k] eqn:E2; cbn [bind] in E; [|discriminate].
    assert (ev = e1 ++ e2) as -> by congruence. rewrite rtk_of_app. apply Forall_app.
    assert (HX : rtk_of e1 = [] /\ UInv s1 /\ base_rest i s1 p).
    { destruct a as [b|f|t|j|]; cbn [act_step] in E1.
      - exfalso. destruct HB as [[HT _]|(q & HQ & [[Eq _]|[[Eq _]|(t & Eq & _)]])]; [apply Forall_inv in HT; discriminate|discriminate..].
      - destruct HB as [[HT Hi]|(q & HQ & [[Eq _]|[[Eq _]|(t & Eq & _)]])]; [|discriminate..].
        destruct (Ha (major (u_ubx s)) (u_out s)) as (o & w & Ef & Ho); [apply HI|]. unfold usend in E1. rewrite Ef in E1. cbn [bind] in E1.
        assert (s1 = uw_out s o /\ e1 = map EvSer w) as [-> ->] by (split; congruence). split; [apply rtk_of_ser|]. split; [apply uinv_out; assumption|].
        left. apply Forall_inv_tail in HT. split; [exact HT|exact Hi].
      - assert (s1 = uw_mode s (u_nreg s) t (u_rtk s) /\ e1 = []) as [-> ->] by (split; congruence). split; [reflexivity|]. split; [apply uinv_mode; exact HI|].
        destruct HB as [[HT Hi]|(q & HQ & [[Eq _]|[[Eq _]|(t' & Eq & Hn)]])]; [apply Forall_inv in HT; discriminate|discriminate..|].
        right. exists q. split; [exact HQ|]. right. left. split; [congruence|exact Hn].
      - assert (s1 = uw_mode s (u_nreg s) (u_type s) j /\ e1 = []) as [-> ->] by (split; congruence). split; [reflexivity|]. split; [apply uinv_mode; exact HI|].
        destruct HB as [[HT Hi]|(q & HQ & [[Eq _]|[[Eq Hn]|(t' & Eq & _)]])]; [apply Forall_inv in HT; discriminate|discriminate| |discriminate].
        right. exists q. split; [exact HQ|]. left. split; [congruence|]. cbn. congruence.
      - assert (s1 = uw_mode s (S (u_nreg s)) (u_type s) (u_rtk s) /\ e1 = []) as [-> ->] by (split; congruence). split; [reflexivity|]. split; [apply uinv_mode; exact HI|].
        destruct HB as [[HT Hi]|(q & HQ & [[Eq Hi]|[[Eq _]|(t' & Eq & _)]])]; [apply Forall_inv in HT; discriminate| |discriminate..].
        left. split; [congruence|exact Hi]. }
    destruct HX as (HX1 & HX2 & HX3). rewrite HX1. split; [constructor|]. exact (IH bs eq_refl s1 s2 e2 HX3 HX2 HA' Hb E2).
  - destruct bs as [|b bs]; [discriminate|]. cbn [map] in Er. injection Er as -> ->. inversion Hb as [|? ? Hb0 Hb1]; subst.
    cbn [act_step] in E. destruct (ublox_byte s b) as [[s1 e1]|k] eqn:E1; cbn [bind] in E; [|discriminate].
    destruct (conc s1 h) as [[s2 e2]|k] eqn:E2; cbn [bind] in E; [|discriminate].
    assert (ev = e1 ++ e2) as -> by congruence. rewrite rtk_of_app. apply Forall_app.
    destruct (byte_rtk s b s1 e1 HI Hb0 E1) as (HC & HI1 & HF & H0). destruct HC as (_ & _ & EN & EK & _).
    split.
    + destruct HB as [[HT Hi]|(q & HQ & [[Eq Hi]|[[Eq Hn]|(t' & Eq & Hn)]])]; [rewrite <- Hi; exact HF|rewrite <- Hi; exact HF|rewrite (H0 Hn); constructor|rewrite (H0 Hn); constructor].
    + apply (IH bs eq_refl s1 s2 e2); try assumption. unfold base_rest. rewrite EN, EK. exact HB.
Qed.
Lemma first_base_forwards s i st bs h s' ev : UInv s -> u_nreg s = 0%nat -> bytes_ok bs -> shuffle (base_acts i st) (map ARx bs) h -> conc s h = Ok (s', ev) ->
  Forall (fun w => fst w = i /\ good_rtcm (snd w)) (rtk_of ev).
Proof.
  intros HI Hn Hb HS E. apply (base_forwards i _ bs h HS s s' ev); try assumption; [|apply base_ok].
  right. eexists. split; [|right; right; exists T_BASE; split; [reflexivity|exact Hn]]. destruct st; repeat constructor.
Qed.

(* the object at the end of the version query: the constructor up to ublox.cpp:47 *)
Inductive polled (u : uninit) (ru : runinit) : ublox -> Prop :=
| polled_first out0 nav rx1 s ev : Zlen out0 = 2048 -> bytes_ok rx1 ->
    get_version (ublox_blank u ru out0 nav) rx1 = Ok (s, ev, true) -> polled u ru s
| polled_second out0 nav rx1 rx2 s1 ev1 s ev : Zlen out0 = 2048 -> bytes_ok rx1 -> bytes_ok rx2 ->
    get_version (ublox_blank u ru out0 nav) rx1 = Ok (s1, ev1, false) -> get_version s1 rx2 = Ok (s, ev, true) -> polled u ru s.
Lemma polled_inv u ru s : uninit_ok u -> runinit_ok ru -> polled u ru s -> UInv s.
Proof.
  intros Hu Hru H.
  assert (G : forall out0 nav rx1 s1 ev1 b, Zlen out0 = 2048 -> bytes_ok rx1 -> get_version (ublox_blank u ru out0 nav) rx1 = Ok (s1, ev1, b) -> UInv s1 /\ u_type s1 = T_NONE).
  { intros out0 nav rx1 s1 ev1 b Hz Hb E.
    destruct (get_version_spec (ublox_blank u ru out0 nav) rx1 (blank_inv u ru out0 nav Hu Hru Hz) Hb eq_refl) as [(s2 & e2 & o2 & w2 & E2 & HI & HC & _)|[[E2 _]|E2]]; rewrite E in E2; [|discriminate..].
    assert (s2 = s1) by congruence. subst s2. split; [exact HI|]. exact (proj1 HC). }
  destruct H as [out0 nav rx1 s ev Hz Hb E|out0 nav rx1 rx2 s1 ev1 s ev Hz Hb1 Hb2 E1 E2].
  - exact (proj1 (G out0 nav rx1 s ev true Hz Hb E)).
  - destruct (G out0 nav rx1 s1 ev1 false Hz Hb1 E1) as [HI HT].
    destruct (get_version_spec s1 rx2 HI Hb2 HT) as [(s2 & e2 & o2 & w2 & E3 & HI2 & _)|[[E3 _]|E3]]; rewrite E2 in E3; [|discriminate..].
    assert (s2 = s) by congruence. subst s2. exact HI2.
Qed.
