From Verif Require Import Base UbxSpec UbxModel UbxStream UbxHist UbxTx UbxTxSpec RtcmModel RtcmApi UbloxModel UbloxSpec UbloxProofs UbloxApi UbloxThm SerialModel SerialProofs.

Lemma replay_bytes ls l file ds : Zlen file < 2 ^ 31 -> count_occ Z.eq_dec ls l = 1%nat -> logger_play MREAD ls file = Done (Ok ds) ->
  concat (got (SLis l) ds) = file /\ Forall (fun c => (1 <= length c <= 14)%nat) (got (SLis l) ds).
Proof.
  intros Hf Hc E. rewrite (play_small ls file Hf) in E. assert (ds = to_all ls (chunks14 file)) by congruence. subst ds.
  rewrite got_to_all, Hc, flat_map_one. split; [apply chunks14_concat|].
  destruct (chunks14_sizes file) as (cs & r & E2 & HC & HR). rewrite E2. apply Forall_app. split.
  - eapply Forall_impl; [|exact HC]. cbn. lia.
  - destruct r as [|x r]; [constructor|]. constructor; [cbn [length] in *; lia|constructor].
Qed.

(* record, close, replay into a UBLOX object in the same state: same result as the live session *)
Lemma replay_decodes h live ls l ds s :
  lev_bytes h = concat live -> Zlen (concat live) < 2 ^ 31 -> count_occ Z.eq_dec ls l = 1%nat ->
  logger_play MREAD ls (disk (wlog_close (wlog_run h))) = Done (Ok ds) ->
  ublox_chunks s (got (SLis l) ds) = ublox_chunks s live.
Proof.
  intros E Hz Hc EP. rewrite wlog_closed, E in EP. destruct (replay_bytes ls l (concat live) ds Hz Hc EP) as [EC _]. apply chunking. exact EC.
Qed.

(* crash while recording: the replay gives a prefix of the events *)
Lemma crash_decodes h ls l ds s s1 ev :
  Zlen (lev_bytes h) < 2 ^ 31 -> count_occ Z.eq_dec ls l = 1%nat ->
  logger_play MREAD ls (disk (wlog_run h)) = Done (Ok ds) ->
  ublox_read s (lev_bytes h) = Ok (s1, ev) ->
  exists s' ev1 ev2, ublox_chunks s (got (SLis l) ds) = Ok (s', ev1) /\ ev = ev1 ++ ev2.
Proof.
  intros Hz Hc EP ER. destruct (wlog_crash h) as [rest E]. rewrite E in Hz. rewrite Zlen_app in Hz. pose proof (Zlen_nonneg rest).
  destruct (replay_bytes ls l _ ds (Z.le_lt_trans _ _ _ (ltac:(lia) : Zlen (disk (wlog_run h)) <= Zlen (disk (wlog_run h)) + Zlen rest) Hz) Hc EP) as [EC _]. rewrite chunks_concat, EC. rewrite E, ublox_read_app in ER.
  destruct (ublox_read s (disk (wlog_run h))) as [[s' e1]|k]; cbn [bind] in ER; [|discriminate].
  destruct (ublox_read s' rest) as [[s2 e2]|k]; cbn [bind] in ER; [|discriminate].
  exists s', e1, e2. split; [reflexivity|congruence].
Qed.

(* no byte arrives during construction *)
Lemma ctor_silent u ru out0 nav :
  exists ev, ctor u ru out0 nav [] [] = Ok (None, ev) /\ ser_of ev = ver_poll ++ ver_poll.
Proof.
  assert (EP : forall o, send_ver_poll o = Ok (o, ver_poll)) by reflexivity.
  assert (EG : forall s, get_version s [] = Ok (uw_out (uw_ubx s (w_ver (u_ubx s) false)) (u_out s), map EvSer ver_poll ++ [], false)).
  { intros s. unfold get_version, usend. rewrite EP. cbn [bind]. reflexivity. }
  unfold ctor. rewrite EG. cbn [bind]. rewrite EG. cbn [bind]. eexists. split; [reflexivity|].
  rewrite !ser_of_app, !ser_of_ser, !app_nil_r. reflexivity.
Qed.
