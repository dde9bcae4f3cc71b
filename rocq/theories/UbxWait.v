(* UBX::wait_for_response ubx.cpp:91-112: clears got_ack_ and got_nack_, spins until one of them is set or 1000 ms have passed, returns
   got_ack_.  The receive thread runs meanwhile: rx is whatever it handles between the clearing of the flags and the last test of
   got_ack_ (an arbitrary byte list, so every schedule and every timing is covered). *)
From Verif Require Import Base UbxSpec UbxModel UbxProofs UbxStream UbxMain UbxMore UbxHist UbxApi.

Definition wait_for_response (ls : list mlistener) (s : ubx) (rx : list Z) : outcome (ubx * list byte_out * bool) :=
  let* (s', outs) := feed ls (clear_ack s) rx in Ok (s', outs, got_ack s').

Lemma notify_in ls s l c i : In l ls ->
  (exists k, In k (notify ls s) /\ c_lid k = ml_id l /\ c_cls k = c /\ c_id k = i) -> mcls s = c /\ mtyp s = i.
Proof.
  intros _ (k & Hk & _ & E1 & E2). unfold notify in Hk. apply in_map_iff in Hk. destruct Hk as (x & <- & _). split; assumption.
Qed.
Lemma in_notify ls s l : In l ls -> subscribed l (mcls s) (mtyp s) = true -> In (mkCall (ml_id l) (mcls s) (mtyp s) (inbuf s)) (notify ls s).
Proof. intros Hl Hs. unfold notify. apply in_map_iff. exists l. split; [reflexivity|]. apply filter_In. split; assumption. Qed.

Lemma byte_ack ls s b s' c ok l : read_cb ls s b = Ok (s', c, ok) -> In l ls -> subscribed l 5 1 = true ->
  (got_ack s' = true <-> got_ack s = true \/ exists k, In k c /\ c_lid k = ml_id l /\ c_cls k = 5 /\ c_id k = 1).
Proof.
  intros H Hl Hs. destruct ok.
  2:{ pose proof (flags_quiet ls s b s' c H) as (E & _). rewrite E.
      assert (c = []) as ->.
      { unfold read_cb in H. destruct (read_switch s b) as [[e s1]|]; cbn [bind] in H; [|discriminate]. destruct e; [congruence|].
        destruct (is_ckb (st s1)); [|congruence]. unfold decode_message in H. destruct (calculate_checksum _ _ _ _) as [[a0 b0]|]; cbn [bind] in H; [|discriminate].
        destruct (negb _ || negb _); cbn [bind] in H; [congruence|]. destruct (decode_switch _) as [s2|]; cbn [bind] in H; [|discriminate]. congruence. }
      split; [tauto|]. intros [H1|(k & [] & _)]. exact H1. }
  unfold read_cb in H. destruct (read_switch s b) as [[e s1]|] eqn:E; cbn [bind] in H; [|discriminate].
  assert (EA : got_ack s1 = got_ack s).
  { unfold read_switch in E. destruct (st s); try (injection E as <- <-; reflexivity).
    - destruct (_ && _); injection E as <- <-; reflexivity.
    - destruct (_ >? _); injection E as <- <-; reflexivity.
    - destruct (head s <? mlen s); [|injection E as <- <-; reflexivity].
      destruct (aset _ _ _) as [bf|]; cbn [bind] in E; [|discriminate].
      destruct (_ =? _); injection E as <- <-; reflexivity. }
  destruct e; [congruence|]. destruct (is_ckb (st s1)); [|congruence].
  unfold decode_message in H. destruct (calculate_checksum _ _ _ _) as [[a0 b0]|]; cbn [bind] in H; [|discriminate].
  destruct (negb _ || negb _); cbn [bind] in H; [congruence|].
  destruct (decode_switch (w_nmsg s1 (u32 (nmsg s1 + 1)))) as [s2|] eqn:E2; cbn [bind] in H; [|discriminate].
  apply decode_switch_frame in E2. destruct E2 as [E2 _].
  assert (M1 : mcls s2 = mcls s1) by (rewrite E2; reflexivity). assert (M2 : mtyp s2 = mtyp s1) by (rewrite E2; reflexivity).
  assert (MA : got_ack s2 = got_ack s1 || ((mcls s1 =? 5) && (mtyp s1 =? 1))) by (rewrite E2; reflexivity).
  assert (EC : c = notify ls s2) by congruence.
  assert (ES : got_ack s' = got_ack s2) by (injection H as <- _; reflexivity).
  rewrite ES, MA, EA, orb_true_iff, EC. split.
  - intros [H1|H1]; [left; exact H1|]. right. apply andb_prop in H1. destruct H1 as [H1 H2]. apply Z.eqb_eq in H1. apply Z.eqb_eq in H2.
    eexists. split; [apply (in_notify ls s2 l Hl)|]; [rewrite M1, M2, H1, H2; exact Hs|]. cbn. rewrite M1, M2. auto.
  - intros [H1|H1]; [left; exact H1|]. right. destruct (notify_in ls s2 l 5 1 Hl H1) as [N1 N2]. rewrite M1 in N1. rewrite M2 in N2. rewrite N1, N2. reflexivity.
Qed.
Lemma feed_ack ls l rx : In l ls -> subscribed l 5 1 = true -> forall s s' outs, feed ls s rx = Ok (s', outs) ->
  (got_ack s' = true <-> got_ack s = true \/ exists k, In k (flat_map fst outs) /\ c_lid k = ml_id l /\ c_cls k = 5 /\ c_id k = 1).
Proof.
  intros Hl Hs. induction rx as [|b rx IH]; intros s s' outs E; cbn [feed] in E.
  - assert (s' = s /\ outs = []) as [-> ->] by (split; congruence). split; [tauto|]. intros [H|(k & [] & _)]. exact H.
  - destruct (read_cb ls s b) as [[[s1 c] ok]|k] eqn:E1; cbn [bind] in E; [|discriminate].
    destruct (feed ls s1 rx) as [[s2 o2]|k] eqn:E2; cbn [bind] in E; [|discriminate].
    assert (s' = s2 /\ outs = (c, ok) :: o2) as [-> ->] by (split; congruence). cbn [flat_map fst].
    rewrite (IH s1 s2 o2 E2), (byte_ack ls s b s1 c ok l E1 Hl Hs). split.
    + intros [[H|(k & Hk & H)]|(k & Hk & H)]; [left; exact H|right; exists k; split; [apply in_or_app; left; exact Hk|exact H]|right; exists k; split; [apply in_or_app; right; exact Hk|exact H]].
    + intros [H|(k & Hk & H)]; [left; left; exact H|]. apply in_app_or in Hk. destruct Hk as [Hk|Hk]; [left; right; eauto|right; eauto].
Qed.
Lemma wait_iff_ack ls l s rx s' outs r : In l ls -> subscribed l 5 1 = true -> wait_for_response ls s rx = Ok (s', outs, r) ->
  (r = true <-> exists k, In k (flat_map fst outs) /\ c_lid k = ml_id l /\ c_cls k = 5 /\ c_id k = 1).
Proof.
  intros Hl Hs E. unfold wait_for_response in E. destruct (feed ls (clear_ack s) rx) as [[s1 o1]|k] eqn:E1; cbn [bind] in E; [|discriminate].
  assert (s1 = s' /\ o1 = outs /\ r = got_ack s') as (-> & -> & ->) by (repeat split; congruence).
  rewrite (feed_ack ls l rx Hl Hs _ _ _ E1). cbn [clear_ack w_nack w_ack got_ack]. split; [intros [H|H]; [discriminate|exact H]|tauto].
Qed.
(* for bytes in the grammar of frames, damaged frames and noise, whoever listens *)
Lemma wait_items u s ls its s' outs r : uninit_ok u -> Reach u s -> parsing_message s = false -> Forall listener_ok ls ->
  items_ok (prev s) its -> bytes_ok (items_bytes its) -> wait_for_response (map build ls) s (items_bytes its) = Ok (s', outs, r) ->
  (r = true <-> exists pl, In (5, 1, pl) (good_frames its)).
Proof.
  intros Hu HR HP Hls Hok Hb E. unfold wait_for_response in E.
  assert (HR' : Reach u (clear_ack s)) by (apply R_clear_ack; exact HR).
  destruct (exec_items ls its (clear_ack s) Hls (proj1 (reach_idle_iff u _ Hu HR') HP) (reach_small u _ Hu HR') Hok Hb) as [(s1 & E1 & _ & _ & HQ)|[_ E1]];
    rewrite E1 in E; cbn [bind] in E; [|discriminate].
  assert (r = got_ack s1) as -> by congruence. destruct HQ as (_ & _ & _ & _ & HA & _). rewrite HA. cbn [clear_ack w_nack w_ack got_ack orb].
  split.
  - intros H. apply good_count. lia.
  - intros (pl & H). clear -H. induction its as [|it its IH]; [destruct H|]. rewrite count_cons. pose proof (count_nonneg (is_good_of 5 1) its) as HN.
    unfold good_frames in H. cbn [flat_map] in H. apply in_app_or in H. destruct H as [H|H].
    + destruct it; try (destruct H; fail). destruct H as [H|[]]. injection H as -> -> ->. cbn [is_good_of]. change ((5 =? 5) && (1 =? 1)) with true. cbn iota. lia.
    + specialize (IH H). destruct (is_good_of 5 1 it); lia.
Qed.
