(* Construction while bytes arrive at any time (C87): what decides whether a version reply counts, and what is delivered. *)
From Verif Require Import Base UbxSpec UbxModel UbxProofs UbxStream UbxMain UbxMore UbxHist UbxApi UbxOrigin
  UbxTx UbxTxSpec UbxTxProofs RtcmModel RtcmSpec RtcmProofs RtcmApi UbloxModel UbloxSpec UbloxProofs UbloxApi UbloxThm UbloxConc StartSpec Console.
Local Open Scope list_scope.
Local Open Scope Z_scope.


(* ---------------------------------------------------------------- got_ver_ is written, never read, by the reader *)
Lemma slot_ver s i v : version_slot (w_ver s v) i = (let* x := version_slot s i in Ok (w_ver x v)).
Proof.
  unfold version_slot. change (inbuf (w_ver s v)) with (inbuf s). destruct (str_prefix (inbuf s) (ext_off i) lit_protver) as [p|k]; cbn [bind]; [|reflexivity].
  assert (E : (if p then extract_version_string (w_ver s v) (ext_off i) else Ok (w_ver s v)) = (let* x := (if p then extract_version_string s (ext_off i) else Ok s) in Ok (w_ver x v))).
  { destruct p; [|reflexivity]. unfold extract_version_string. change (inbuf (w_ver s v)) with (inbuf s).
    destruct (copy_until_dot 5 (inbuf s) (ext_off i + 8)) as [[t1 q]|k]; cbn [bind]; [|reflexivity]. destruct (atoi t1) as [ma|k]; cbn [bind]; [|reflexivity].
    destruct (copy_until_nul 5 (inbuf s) q) as [t2|k]; cbn [bind]; [|reflexivity]. destruct (atoi t2) as [mi|k]; reflexivity. }
  rewrite E. destruct (if p then extract_version_string s (ext_off i) else Ok s) as [x|k]; cbn [bind]; [|reflexivity].
  change (inbuf (w_ver x v)) with (inbuf x). destruct (str_prefix (inbuf x) (ext_off i) lit_mod) as [m|k]; cbn [bind]; [|reflexivity].
  destruct m; [|reflexivity]. unfold extract_module_name. change (inbuf (w_ver x v)) with (inbuf x). change (modname (w_ver x v)) with (modname x).
  destruct (copy_name 10 (inbuf x) (ext_off i + 4) (modname x) 0) as [nm|k]; reflexivity.
Qed.
Lemma loop_ver n : forall i s v, version_loop n i (w_ver s v) = (let* x := version_loop n i s in Ok (w_ver x v)).
Proof.
  induction n as [|n IH]; intros i s v; [reflexivity|]. cbn [version_loop]. rewrite slot_ver. destruct (version_slot s i) as [x|k]; cbn [bind]; [apply IH|reflexivity].
Qed.
Lemma switch_ver s s' : decode_switch s = Ok s' -> exists f, forall v, decode_switch (w_ver s v) = Ok (w_ver s' (v || f)).
Proof.
  unfold decode_switch. intros H. assert (Q : s = s' -> exists f, forall v, Ok (w_ver s v) = Ok (w_ver s' (v || f))).
  { intros ->. exists false. intros v. rewrite orb_false_r. reflexivity. }
  assert (X : (exists f, forall v, (if mcls s =? 5 then if mtyp s =? 1 then Ok (w_ack (w_ver s v) true) else if mtyp s =? 0 then Ok (w_nack (w_ver s v) true) else Ok (w_ver s v)
     else if mcls s =? 10 then if mtyp s =? 4 then version_cb (w_ver s v) else Ok (w_ver s v) else Ok (w_ver s v)) = Ok (w_ver s' (v || f)))); [|exact X].
  destruct (mcls s =? 5).
  - destruct (mtyp s =? 1); [exists false; intros v; rewrite orb_false_r; assert (s' = w_ack s true) by congruence; subst s'; reflexivity|].
    destruct (mtyp s =? 0); [exists false; intros v; rewrite orb_false_r; assert (s' = w_nack s true) by congruence; subst s'; reflexivity|]. apply Q. congruence.
  - destruct (mcls s =? 10); [|apply Q; congruence]. destruct (mtyp s =? 4); [|apply Q; congruence].
    exists true. intros v. rewrite orb_true_r. unfold version_cb in *. rewrite loop_ver.
    destruct (version_loop 20 0 s) as [x|k]; cbn [bind] in *; [|discriminate]. change (modname (w_ver x v)) with (modname x).
    destruct (print_name (modname x)); cbn [bind] in *; [|discriminate]. assert (s' = w_ver x true) by congruence. subst s'. reflexivity.
Qed.
Lemma rswitch_ver s b v : read_switch (w_ver s v) b = (let* (e, x) := read_switch s b in Ok (e, w_ver x v)).
Proof.
  unfold read_switch. change (st (w_ver s v)) with (st s). destruct (st s).
  - change (prev (w_ver s v)) with (prev s). destruct ((b =? START_BYTE_2) && (prev s =? START_BYTE_1)); reflexivity.
  - reflexivity.
  - reflexivity.
  - reflexivity.
  - cbv zeta. change (mlen (w_ver s v)) with (mlen s). 
    match goal with |- (if ?c then _ else _) = _ => change c with (mlen (w_st (w_mlen s (u16 (Z.lor (mlen s) (Z.shiftl b 8)))) GOT_LENGTH2) >? BUFFER_SIZE) end.
    destruct (mlen (w_st (w_mlen s (u16 (Z.lor (mlen s) (Z.shiftl b 8)))) GOT_LENGTH2) >? BUFFER_SIZE); reflexivity.
  - change (head (w_ver s v)) with (head s). change (mlen (w_ver s v)) with (mlen s). change (inbuf (w_ver s v)) with (inbuf s).
    destruct (head s <? mlen s); [|reflexivity]. destruct (aset (inbuf s) (head s) b) as [buf|k]; cbn [bind]; [|reflexivity]. cbv zeta.
    change (head (w_inbuf (w_ver s v) buf)) with (head s). change (mlen (w_inbuf (w_ver s v) buf)) with (mlen s).
    change (head (w_inbuf s buf)) with (head s). change (mlen (w_inbuf s buf)) with (mlen s). destruct (head s =? mlen s - 1); reflexivity.
  - reflexivity.
  - reflexivity.
  - reflexivity.
Qed.
Lemma read_ver ls s b s' c ok : read_cb ls s b = Ok (s', c, ok) -> exists f, forall v, read_cb ls (w_ver s v) b = Ok (w_ver s' (v || f), c, ok).
Proof.
  unfold read_cb. intros H. destruct (read_switch s b) as [[early s1]|k] eqn:ES; cbn [bind] in H; [|discriminate].
  assert (Q : forall x, (forall v, (let* (e, y) := read_switch (w_ver s v) b in if e then Ok (y, [], false) else if is_ckb (st y) then
      let* (s2, calls, k) := decode_message ls y in if k then Ok (w_prev (w_flags (w_st s2 START) false true) b, calls, true)
      else Ok (w_prev (w_flags (w_st (w_nerr s2 (u32 (nerr s2 + 1))) START) false false) b, calls, false) else Ok (w_prev y b, [], false)) = Ok (w_ver s' (v || x), c, ok)) ->
    exists f, forall v, (let* (e, y) := read_switch (w_ver s v) b in if e then Ok (y, [], false) else if is_ckb (st y) then
      let* (s2, calls, k) := decode_message ls y in if k then Ok (w_prev (w_flags (w_st s2 START) false true) b, calls, true)
      else Ok (w_prev (w_flags (w_st (w_nerr s2 (u32 (nerr s2 + 1))) START) false false) b, calls, false) else Ok (w_prev y b, [], false)) = Ok (w_ver s' (v || f), c, ok)).
  { intros x Hx. exists x. exact Hx. }
  destruct early.
  { apply (Q false). intros v. rewrite rswitch_ver, ES, orb_false_r. cbn [bind]. assert (s' = s1) by congruence. subst s'. congruence. }
  destruct (is_ckb (st s1)) eqn:EK.
  2: { apply (Q false). intros v. rewrite rswitch_ver, ES, orb_false_r. cbn [bind]. change (st (w_ver s1 v)) with (st s1). rewrite EK.
       assert (s' = w_prev s1 b) by congruence. subst s'. assert (c = []) by congruence. assert (ok = false) by congruence. subst c ok. reflexivity. }
  unfold decode_message in *. destruct (calculate_checksum (mcls s1) (mtyp s1) (mlen s1) (inbuf s1)) as [[a d]|k] eqn:EC; cbn [bind] in H; [|discriminate].
  destruct (negb (a =? cka s1) || negb (d =? ckb s1)) eqn:EB; cbn [bind] in H.
  { apply (Q false). intros v. rewrite rswitch_ver, ES, orb_false_r. cbn [bind]. change (st (w_ver s1 v)) with (st s1). rewrite EK.
    change (mcls (w_ver s1 v)) with (mcls s1). change (mtyp (w_ver s1 v)) with (mtyp s1). change (mlen (w_ver s1 v)) with (mlen s1). change (inbuf (w_ver s1 v)) with (inbuf s1).
    rewrite EC. cbn [bind]. change (cka (w_ver s1 v)) with (cka s1). change (ckb (w_ver s1 v)) with (ckb s1). rewrite EB. cbn [bind].
    match type of H with Ok (?x, _, _) = _ => assert (s' = x) by congruence end. subst s'. assert (c = []) by congruence. assert (ok = false) by congruence. subst c ok. reflexivity. }
  cbv zeta in H. destruct (decode_switch (w_nmsg s1 (u32 (nmsg s1 + 1)))) as [s2|k] eqn:ED; cbn [bind] in H; [|discriminate].
  destruct (switch_ver _ _ ED) as (f & Hf). apply (Q f). intros v. rewrite rswitch_ver, ES. cbn [bind]. change (st (w_ver s1 v)) with (st s1). rewrite EK.
  change (mcls (w_ver s1 v)) with (mcls s1). change (mtyp (w_ver s1 v)) with (mtyp s1). change (mlen (w_ver s1 v)) with (mlen s1). change (inbuf (w_ver s1 v)) with (inbuf s1).
  rewrite EC. cbn [bind]. change (cka (w_ver s1 v)) with (cka s1). change (ckb (w_ver s1 v)) with (ckb s1). rewrite EB. cbv zeta.
  change (nmsg (w_ver s1 v)) with (nmsg s1). change (w_nmsg (w_ver s1 v) (u32 (nmsg s1 + 1))) with (w_ver (w_nmsg s1 (u32 (nmsg s1 + 1))) v). rewrite Hf. cbn [bind].
  match type of H with Ok (?x, _, _) = _ => assert (s' = x) by congruence end. subst s'. assert (ECC : notify ls s2 = c) by congruence. assert (ok = true) by congruence. subst ok c. reflexivity.
Qed.
Lemma feed_ver ls bs : forall s s' o, feed ls s bs = Ok (s', o) -> exists f, forall v, feed ls (w_ver s v) bs = Ok (w_ver s' (v || f), o).
Proof.
  induction bs as [|b r IH]; intros s s' o E; cbn [feed] in *.
  - exists false. intros v. rewrite orb_false_r. assert (s = s') by congruence. assert (o = []) by congruence. subst. reflexivity.
  - destruct (read_cb ls s b) as [[[s1 c] ok]|k] eqn:E1; cbn [bind] in E; [|discriminate].
    destruct (feed ls s1 r) as [[s2 o2]|k] eqn:E2; cbn [bind] in E; [|discriminate].
    destruct (read_ver ls s b s1 c ok E1) as (f & Hf). destruct (IH s1 s2 o2 E2) as (g & Hg).
    exists (f || g). intros v. rewrite Hf. cbn [bind]. rewrite Hg. cbn [bind]. rewrite orb_assoc. injection E as E3 E4. subst s' o. reflexivity.
Qed.
Lemma w_ver_same x : w_ver x (got_ver x) = x.
Proof. destruct x. reflexivity. Qed.

(* ---------------------------------------------------------------- where in the stream a reader is *)
Definition At (s : ubx) (p : list Z) : Prop :=
  exists its t s1 o, p = items_bytes its ++ t /\ items_ok 0 its /\ tail_ok (items_last 0 its) t /\
    Idle s1 /\ small_counters s1 /\ prev s1 = items_last 0 its /\ feed [] s1 t = Ok (s, o).
Lemma at_start u : uninit_ok u -> At (ubx_init u) [].
Proof.
  intros Hu. exists [], [], (ubx_init u), []. split; [reflexivity|]. split; [exact I|]. split; [left; reflexivity|]. split; [apply init_idle; exact Hu|].
  split; [apply (reach_small u _ Hu); constructor|]. split; reflexivity.
Qed.
Lemma tail_keeps s t s' o v : Idle s -> tail_ok (prev s) t -> bytes_ok t -> feed [] s t = Ok (s', o) ->
  got_ver s' = got_ver s /\ feed [] (w_ver s v) t = Ok (w_ver s' v, o).
Proof.
  intros HI Ht Hb E. destruct (exec_tail [] s t HI Ht Hb) as (x & E' & HT & _). assert (x = s') by congruence. subst x.
  split; [apply HT|]. destruct (feed_ver [] t s s' o E) as (f & Hf).
  assert (HI0 : Idle (w_ver s false)) by exact HI.
  destruct (exec_tail [] (w_ver s false) t HI0 Ht Hb) as (y & E0 & HT0 & _). rewrite Hf in E0. cbn [orb] in E0. assert (y = w_ver s' f) by congruence. subst y.
  destruct HT0 as (_ & _ & _ & _ & HV & _). change (f = false) in HV. subst f. rewrite Hf, orb_false_r. reflexivity.
Qed.
Lemma at_clear s p v : bytes_ok p -> At s p -> At (w_ver s v) p.
Proof.
  intros Hb (its & t & s1 & o & E & Hok & Ht & HI & HS & HP & EF). subst p. apply bytes_ok_app in Hb. rewrite <- HP in Ht.
  destruct (tail_keeps s1 t s o v HI Ht (proj2 Hb) EF) as [_ EF']. exists its, t, (w_ver s1 v), o. rewrite HP in Ht.
  split; [reflexivity|]. split; [exact Hok|]. split; [exact Ht|]. split; [exact HI|]. split; [exact HS|]. split; [exact HP|exact EF'].
Qed.
(* a good version reply is among the items its2, after its *)
Lemma count_in its : 0 < count (is_good_of 10 4) its -> exists a pl b, its = a ++ Good 10 4 pl :: b.
Proof.
  induction its as [|it its IH]; intros H; [unfold count in H; cbn in H; lia|]. rewrite count_cons in H.
  destruct (is_good_of 10 4 it) eqn:E.
  - destruct it as [b|cls id pl|cls id pl ka kb|cls id n]; try discriminate E. cbn [is_good_of] in E. apply andb_prop in E. destruct E as [E1 E2].
    apply Z.eqb_eq in E1, E2. subst. exists [], pl, its. reflexivity.
  - destruct IH as (a & pl & b & ->); [lia|]. exists (it :: a), pl, b. reflexivity.
Qed.
Lemma at_read s p q s' ls o : bytes_ok (p ++ q) -> At s p -> feed ls s q = Ok (s', o) ->
  At s' (p ++ q) /\ (got_ver s = false -> (got_ver s' = true <-> reply_ends p q)).
Proof.
  intros Hb (its & t & s1 & o1 & E & Hok & Ht & HI & HS & HP & EF) EQ. subst p.
  rewrite <- app_assoc in Hb. apply bytes_ok_app in Hb. destruct Hb as [Hb1 Hb2].
  destruct (UbxStream.segmentation (t ++ q) (items_last 0 its) Hb2) as (its2 & t2 & E2 & Hok2 & Ht2).
  destruct (feed_ls ls [] _ _ _ _ EQ) as (oq & EQ0).
  assert (EF2 : feed [] s1 (t ++ q) = Ok (s', o1 ++ oq)) by (rewrite feed_app, EF; cbn [bind]; rewrite EQ0; reflexivity).
  rewrite E2 in EF2, Hb2. apply bytes_ok_app in Hb2. destruct Hb2 as [Hb3 Hb4].
  rewrite <- HP in Hok2. destruct (exec_items [] its2 s1 (Forall_nil _) HI HS Hok2 Hb3) as [(s2 & E3 & HI2 & HS2 & HP2)|[_ E3]].
  2: { rewrite feed_app in EF2. change (map build []) with (@nil mlistener) in E3. rewrite E3 in EF2. discriminate. }
  change (map build []) with (@nil mlistener) in E3. rewrite feed_app, E3 in EF2. cbn [bind] in EF2.
  destruct (feed [] s2 t2) as [[x o3]|k] eqn:E4; cbn [bind] in EF2; [|discriminate]. assert (x = s') by congruence. subst x. clear EF2.
  destruct HP2 as (P1 & _ & _ & _ & _ & _ & P7 & _). rewrite HP in P1, Hok2.
  assert (EALL : (items_bytes its ++ t) ++ q = items_bytes (its ++ its2) ++ t2) by (rewrite items_bytes_app, <- !app_assoc, E2; reflexivity).
  assert (HOKA : items_ok 0 (its ++ its2)) by (apply items_ok_app; split; assumption).
  assert (HTA : tail_ok (items_last 0 (its ++ its2)) t2) by (rewrite items_last_app; exact Ht2).
  split.
  { exists (its ++ its2), t2, s2, o3. split; [exact EALL|]. split; [exact HOKA|]. split; [exact HTA|]. split; [exact HI2|]. split; [exact HS2|]. split; [rewrite items_last_app; exact P1|exact E4]. }
  intros HV.
  assert (HBt : bytes_ok t) by (apply (proj1 (bytes_ok_app t q)); rewrite E2; apply bytes_ok_app; split; assumption).
  assert (HV1 : got_ver s1 = false).
  { destruct (tail_keeps s1 t s o1 false HI) as [X _]; [rewrite HP; exact Ht|exact HBt|exact EF|congruence]. }
  assert (HV' : got_ver s' = (0 <? count (is_good_of 10 4) its2)).
  { rewrite <- P1 in Ht2. destruct (tail_keeps s2 t2 s' o3 false HI2 Ht2 Hb4 E4) as [X _]. rewrite X, P7, HV1. reflexivity. }
  rewrite HV', Z.ltb_lt. split.
  - intros HC. destruct (count_in its2 HC) as (a & pl & b & EI). exists (its ++ a), b, pl, t2.
    assert (EQI : (its ++ a) ++ Good 10 4 pl :: b = its ++ its2) by (rewrite EI, <- app_assoc; reflexivity).
    rewrite EQI. split; [exact EALL|]. split; [exact HOKA|]. split; [exact HTA|].
    rewrite <- app_assoc, items_bytes_app, !Zlen_app. apply Z.nle_gt. intros HL.
    (* the tail would hold whole items *)
    assert (HX : exists r, t = items_bytes (a ++ [Good 10 4 pl]) ++ r).
    { assert (EB : t ++ q = items_bytes (a ++ [Good 10 4 pl]) ++ (items_bytes b ++ t2)).
      { rewrite E2, EI. replace (a ++ Good 10 4 pl :: b) with ((a ++ [Good 10 4 pl]) ++ b) by (rewrite <- app_assoc; reflexivity).
        rewrite items_bytes_app, <- app_assoc. reflexivity. }
      assert (HLn : (length (items_bytes (a ++ [Good 10 4 pl])) <= length t)%nat) by (unfold Zlen in HL; lia).
      clear - EB HLn. revert EB HLn. generalize (items_bytes (a ++ [Good 10 4 pl])) as w. generalize (items_bytes b ++ t2) as z. intros z w. revert t.
      induction w as [|c w IH]; intros t EB HL; [exists t; reflexivity|]. destruct t as [|d t]; [cbn in HL; lia|]. cbn in EB, HL.
      assert (c = d) by congruence. assert (E' : t ++ q = w ++ z) by congruence. destruct (IH t E') as (r & ->); [lia|]. subst c. exists r. reflexivity. }
    destruct HX as (r & Er).
    assert (HOKa : items_ok (items_last 0 its) (a ++ [Good 10 4 pl])).
    { rewrite EI in Hok2. replace (a ++ Good 10 4 pl :: b) with ((a ++ [Good 10 4 pl]) ++ b) in Hok2 by (rewrite <- app_assoc; reflexivity).
      apply items_ok_app in Hok2. tauto. }
    rewrite Er in HBt. apply bytes_ok_app in HBt.
    destruct (UbxStream.segmentation r (items_last (items_last 0 its) (a ++ [Good 10 4 pl])) (proj2 HBt)) as (its3 & t3 & E5 & Hok3 & Ht3).
    destruct (UbxOrigin.segmentation_unique [] ((a ++ [Good 10 4 pl]) ++ its3) (items_last 0 its) t t3) as [X _].
    + exact I.
    + apply items_ok_app. split; assumption.
    + exact Ht.
    + rewrite items_last_app. exact Ht3.
    + cbn [items_bytes flat_map app]. rewrite Er, (items_bytes_app (a ++ [Good 10 4 pl]) its3), <- app_assoc, E5. reflexivity.
    + destruct a; discriminate.
  - intros (j1 & j2 & pl & tt & EJ & HJ & HTJ & HLJ). rewrite EALL in EJ.
    destruct (UbxOrigin.segmentation_unique (its ++ its2) (j1 ++ Good 10 4 pl :: j2) 0 t2 tt HOKA HJ HTA HTJ EJ) as [EI _].
    assert (HCASE : (exists z, its = j1 ++ Good 10 4 pl :: z) \/ (exists z, its2 = z ++ Good 10 4 pl :: j2)).
    { clear - EI. revert its EI. induction j1 as [|x j1 IH]; intros its EI.
      - destruct its as [|y its]; [right; exists []; exact EI|]. cbn in EI. left. exists its. cbn. congruence.
      - destruct its as [|y its]; [right; exists (x :: j1); exact EI|]. cbn in EI. assert (EI' : its ++ its2 = j1 ++ Good 10 4 pl :: j2) by congruence.
        destruct (IH its EI') as [(z & ->)|(z & E)]; [left; exists z; cbn; congruence|right; exists z; exact E]. }
    destruct HCASE as [(z & Ez)|(z & ->)].
    + exfalso. rewrite Ez in HLJ. replace (j1 ++ Good 10 4 pl :: z) with ((j1 ++ [Good 10 4 pl]) ++ z) in HLJ by (rewrite <- app_assoc; reflexivity).
      rewrite (items_bytes_app (j1 ++ [Good 10 4 pl]) z), !Zlen_app in HLJ. pose proof (Zlen_nonneg (items_bytes z)). pose proof (Zlen_nonneg t). lia.
    + rewrite count_app, count_cons. pose proof (count_nonneg (is_good_of 10 4) z). pose proof (count_nonneg (is_good_of 10 4) j2).
      change (is_good_of 10 4 (Good 10 4 pl)) with true. cbv iota. lia.
Qed.

(* ---------------------------------------------------------------- what the receive path has done so far *)

Definition Heard (u : uninit) (nav : Z) (pa p : list Z) (s : ublox) (cs : list call) : Prop :=
  At (u_ubx s) (pa ++ p) /\
  exists x oa y outs v, feed [] (ubx_init u) pa = Ok (x, oa) /\ feed [nav_ml nav] x p = Ok (y, outs) /\ cs = flat_map fst outs /\ u_ubx s = w_ver y v.

Lemma heard_hears u nav pa p s cs : Heard u nav pa p s cs -> hears u nav pa p cs.
Proof. intros (_ & x & oa & y & outs & v & E1 & E2 & E3 & _). exists x, oa, y, outs. auto. Qed.
Lemma heard_knows u nav pa p s cs : Heard u nav pa p s cs -> knows u (pa ++ p) (major (u_ubx s)).
Proof.
  intros (_ & x & oa & y & outs & v & E1 & E2 & E3 & E4). destruct (feed_ls _ [] p x y outs E2) as (o' & E5).
  exists y, (oa ++ o'). rewrite feed_app, E1. cbn [bind]. rewrite E5, E4. split; reflexivity.
Qed.
(* more bytes, from the same position, with the flag set to anything *)
Lemma heard_feed u nav pa p s cs q s' v outs : bytes_ok (pa ++ p ++ q) -> Heard u nav pa p s cs -> feed [nav_ml nav] (w_ver (u_ubx s) v) q = Ok (u_ubx s', outs) ->
  Heard u nav pa (p ++ q) s' (cs ++ flat_map fst outs) /\ (v = false -> (got_ver (u_ubx s') = true <-> reply_ends (pa ++ p) q)).
Proof.
  intros Hb (HA & x & oa & y & o & w & E1 & E2 & -> & E4) E.
  assert (HB : bytes_ok (pa ++ p)) by (rewrite app_assoc in Hb; apply bytes_ok_app in Hb; tauto).
  pose proof (at_clear _ _ v HB HA) as HA'. rewrite app_assoc in Hb. destruct (at_read _ _ q _ _ _ Hb HA' E) as [HA2 HR]. rewrite <- app_assoc in HA2.
  split; [|intros ->; apply HR; reflexivity]. split; [exact HA2|]. rewrite E4 in E.
  destruct (feed_ver _ q _ _ _ E) as (f & Hf). specialize (Hf (got_ver y)). change (w_ver (w_ver (w_ver y w) v) (got_ver y)) with (w_ver y (got_ver y)) in Hf. rewrite w_ver_same in Hf.
  exists x, oa, (w_ver (u_ubx s') (got_ver y || f)), (o ++ outs), (got_ver (u_ubx s')). split; [exact E1|]. split.
  - rewrite feed_app, E2. cbn [bind]. rewrite Hf. reflexivity.
  - split; [rewrite flat_map_app; reflexivity|]. change (u_ubx s' = w_ver (u_ubx s') (got_ver (u_ubx s'))). symmetry. apply w_ver_same.
Qed.
Lemma heard_read u nav pa p s cs q s' ev : UInv s -> u_type s <> T_BASE -> u_ls s = [nav_ml nav] -> bytes_ok (pa ++ p ++ q) ->
  Heard u nav pa p s cs -> ublox_read s q = Ok (s', ev) ->
  Heard u nav pa (p ++ q) s' (cs ++ ubx_of ev) /\ ser_of ev = [] /\ rtk_of ev = [].
Proof.
  intros (K1 & (r & K2) & _) HT HL Hb HH E. assert (Hq : bytes_ok q) by (rewrite !bytes_ok_app in Hb; tauto).
  destruct (read_any q s r K1 K2 Hq) as [(s1 & e1 & p1 & f1 & E1 & HC & HI & HR & HS & HK & _ & HX)|[[E1 _]|[E1 _]]]; rewrite E1 in E; [|discriminate..].
  assert (s1 = s' /\ e1 = ev) as [-> ->] by (split; congruence). destruct (HX HT) as [-> (outs & EF & ->)].
  split; [|split; [exact HS|exact HK]]. rewrite HL, <- (w_ver_same (u_ubx s)) in EF.
  destruct (heard_feed u nav pa p s cs q s' (got_ver (u_ubx s)) outs Hb HH EF) as [HH' _].
  unfold ubx_events. rewrite ubx_of_ubx. exact HH'.
Qed.
Lemma feed_nobody : forall bs s s' o, feed [] s bs = Ok (s', o) -> flat_map fst o = [].
Proof.
  induction bs as [|b r IH]; intros s s' o E; cbn [feed] in E; [assert (o = []) by congruence; subst; reflexivity|].
  destruct (read_cb [] s b) as [[[s1 c] ok]|k] eqn:E1; cbn [bind] in E; [|discriminate].
  destruct (feed [] s1 r) as [[s2 o2]|k] eqn:E2; cbn [bind] in E; [|discriminate].
  assert (o = (c, ok) :: o2) as -> by congruence. cbn [flat_map fst]. rewrite (IH _ _ _ E2), app_nil_r. revert E1. unfold read_cb, decode_message.
  destruct (read_switch s b) as [[early x]|k]; cbn [bind]; [|discriminate]. destruct early; [congruence|]. destruct (is_ckb (st x)); [|congruence].
  destruct (calculate_checksum (mcls x) (mtyp x) (mlen x) (inbuf x)) as [[a d]|k]; cbn [bind]; [|discriminate].
  destruct (negb (a =? cka x) || negb (d =? ckb x)); cbn [bind]; [congruence|]. cbv zeta.
  destruct (decode_switch (w_nmsg x (u32 (nmsg x + 1)))) as [y|k]; cbn [bind]; [|discriminate]. change (notify [] y) with (@nil call). congruence.
Qed.
Lemma heard_start u ru out0 nav t pa sa ea : uninit_ok u -> runinit_ok ru -> Zlen out0 = 2048 -> bytes_ok pa -> (t <> T_BASE \/ pa = []) ->
  ublox_read (mkUblox (ubx_init u) out0 [] (rtcm_init ru) 0 t 0) pa = Ok (sa, ea) ->
  Heard u nav pa [] (ublox_register sa (nav_ml nav)) [] /\ ubx_of ea = [] /\ ser_of ea = [] /\ rtk_of ea = [].
Proof.
  intros Hu Hru Hz Hb HT E. set (r := mkUblox (ubx_init u) out0 [] (rtcm_init ru) 0 t 0) in *.
  assert (G : exists o, feed [] (ubx_init u) pa = Ok (u_ubx sa, o) /\ ubx_of ea = [] /\ ser_of ea = [] /\ rtk_of ea = []).
  { destruct HT as [HT| ->]; [|exists []; cbn [ublox_read] in E; assert (sa = r /\ ea = []) as [-> ->] by (split; congruence); repeat split].
    destruct (raw_inv u ru out0 t Hu Hru Hz) as (K1 & (p & K2) & _).
    destruct (read_any pa r p K1 K2 Hb) as [(s1 & e1 & p1 & f1 & E1 & HC & HI & HR & HS & HK & _ & HX)|[[E1 _]|[E1 _]]]; rewrite E1 in E; [|discriminate..].
    assert (s1 = sa /\ e1 = ea) as [-> ->] by (split; congruence). destruct (HX HT) as [-> (outs & EF & ->)]. exists outs. split; [exact EF|].
    split; [|split; [exact HS|exact HK]]. unfold ubx_events. rewrite ubx_of_ubx. exact (feed_nobody _ _ _ _ EF). }
  destruct G as (o & EF & E1 & E2 & E3). split; [|auto]. split.
  - rewrite app_nil_r. change (At (u_ubx sa) pa). refine (proj1 (at_read (ubx_init u) [] pa (u_ubx sa) [] o Hb (at_start u Hu) EF)).
  - exists (u_ubx sa), o, (u_ubx sa), [], (got_ver (u_ubx sa)). split; [exact EF|]. split; [reflexivity|]. split; [reflexivity|]. symmetry. apply w_ver_same.
Qed.

(* ---------------------------------------------------------------- the constructor *)

Lemma heard_setup u nav pa p s cs bs h s' ev : UInv s -> u_type s = T_NONE -> u_ls s = [nav_ml nav] -> bytes_ok (pa ++ p ++ bs) ->
  Heard u nav pa p s cs -> shuffle setup_acts (map ARx bs) h -> conc s h = Ok (s', ev) ->
  set_up u (pa ++ p) bs (ser_of ev) /\ hears u nav pa (p ++ bs) (cs ++ ubx_of ev) /\ rtk_of ev = [] /\ knows u (pa ++ p ++ bs) (major (u_ubx s')).
Proof.
  intros HI HT HL Hb HH HS E. assert (Hbs : bytes_ok bs) by (rewrite !bytes_ok_app in Hb; tauto). assert (HT' : u_type s <> T_BASE) by (rewrite HT; discriminate).
  destruct (setup_any_schedule s bs h s' ev HI Hbs HS E) as (p1 & q1 & p2 & q2 & sr & er & Q1 & Q2 & EW & ER & EU & EK & EX & _).
  destruct (heard_read u nav pa p s cs bs sr er HI HT' HL Hb HH ER) as (HH' & _ & HK).
  assert (V : forall a b, bs = a ++ b -> knows u ((pa ++ p) ++ a) (version_after s a)).
  { intros a b EB. rewrite EB in ER, Hb. unfold version_after.
    assert (RA : forall a b s sr er, ublox_read s (a ++ b) = Ok (sr, er) -> exists s1 e1, ublox_read s a = Ok (s1, e1)).
    { clear. induction a as [|x a IH]; intros b s sr er E; [eexists _, _; reflexivity|]. cbn [app ublox_read] in *.
      destruct (ublox_byte s x) as [[s1 e1]|k]; cbn [bind] in *; [|discriminate].
      destruct (ublox_read s1 (a ++ b)) as [[s2 e2]|k] eqn:E2; cbn [bind] in E; [|discriminate].
      destruct (IH _ _ _ _ E2) as (s3 & e3 & E3). rewrite E3. cbn [bind]. eexists _, _. reflexivity. }
    destruct (RA a b s sr er ER) as (s1 & e1 & E1). rewrite E1.
    destruct (heard_read u nav pa p s cs a s1 e1 HI HT' HL) as (HH1 & _); [|exact HH|exact E1|].
    - rewrite !bytes_ok_app in *. tauto.
    - rewrite <- app_assoc. exact (heard_knows _ _ _ _ _ _ HH1). }
  split; [exists p1, q1, (version_after s p1), p2, q2, (version_after s p2); split; [exact Q1|]; split; [exact (V p1 q1 Q1)|]; split; [exact Q2|]; split; [exact (V p2 q2 Q2)|exact EW]|].
  split; [rewrite EU; exact (heard_hears _ _ _ _ _ _ HH')|]. split; [congruence|]. rewrite EX. exact (heard_knows _ _ _ _ _ _ HH').
Qed.

Theorem ctor_any_spec u ru out0 nav c bs r ev : uninit_ok u -> runinit_ok ru -> Zlen out0 = 2048 -> csched_ok c -> bytes_ok bs ->
  shuffle setup_acts (map ARx bs) (c_setup c) -> (c_type0 c <> T_BASE \/ c_a c = [] /\ c_b c = []) ->
  ctor_any u ru out0 nav c = Ok (r, ev) ->
  let p := c_a c ++ c_b c ++ c_0 c in
  let p2 := p ++ c_1 c ++ c_g c in
  rtk_of ev = [] /\
  ((reply_ends p (c_1 c) /\ exists s w, r = Some s /\ ser_of ev = ver_poll ++ w /\ set_up u (p ++ c_1 c) bs w /\
      hears u nav (c_a c) (c_b c ++ c_0 c ++ c_1 c ++ bs) (ubx_of ev) /\ knows u (p ++ c_1 c ++ bs) (major (u_ubx s)))
   \/ (~ reply_ends p (c_1 c) /\ reply_ends p2 (c_2 c) /\ exists s w, r = Some s /\ ser_of ev = ver_poll ++ ver_poll ++ w /\ set_up u (p2 ++ c_2 c) bs w /\
      hears u nav (c_a c) (c_b c ++ c_0 c ++ c_1 c ++ c_g c ++ c_2 c ++ bs) (ubx_of ev) /\ knows u (p2 ++ c_2 c ++ bs) (major (u_ubx s)))
   \/ (~ reply_ends p (c_1 c) /\ ~ reply_ends p2 (c_2 c) /\ r = None /\ ser_of ev = ver_poll ++ ver_poll /\
      hears u nav (c_a c) (c_b c ++ c_0 c ++ c_1 c ++ c_g c ++ c_2 c) (ubx_of ev))).
Proof.
  intros Hu Hru Hz Hc Hbs HS HT H. unfold ctor_any in H. cbv zeta in H. pose proof Hc as (Ba & Bb & B0 & B1 & Bg & B2).
  destruct (ublox_read _ (c_a c)) as [[sa ea]|k] eqn:Ea; cbn [bind] in H; [|discriminate].
  destruct (ublox_read _ (c_b c)) as [[sb eb]|k] eqn:Eb; cbn [bind] in H; [|discriminate].
  destruct (ublox_read _ (c_0 c)) as [[s0 e0]|k] eqn:E0; cbn [bind] in H; [|discriminate].
  destruct (start_prefix u ru out0 nav c sa ea sb eb s0 e0 Hu Hru Hz Hc Ea Eb E0) as (HIa & HIb & HI0 & N0 & T0 & L0 & Lb & La & _).
  destruct (uinv_read _ _ _ _ (raw_inv u ru out0 (c_type0 c) Hu Hru Hz) Ba Ea) as [_ (Ta & _)]. change (u_type sa = c_type0 c) in Ta.
  destruct (heard_start u ru out0 nav (c_type0 c) (c_a c) sa ea Hu Hru Hz Ba ltac:(tauto) Ea) as (HHa & Ua & Sa & Ka).
  set (A := c_a c) in *. set (B := c_b c) in *. set (C0 := c_0 c) in *. set (C1 := c_1 c) in *. set (CG := c_g c) in *. set (C2 := c_2 c) in *.
  (* the bytes before type_ = NONE *)
  assert (HHb : Heard u nav A B sb (ubx_of eb) /\ ser_of eb = [] /\ rtk_of eb = []).
  { destruct HT as [HT|[_ HB]].
    - rewrite nav_ml_build in Eb, HHa. pose proof (register_inv sa _ HIa (nav_l_ok nav)) as HIr. rewrite <- nav_ml_build in *.
      apply (heard_read u nav A [] (ublox_register sa (nav_ml nav)) [] B sb eb); [exact HIr|cbn [ublox_register uw_ls u_type]; congruence|cbn [ublox_register uw_ls u_ls]; rewrite La; reflexivity| |exact HHa|exact Eb].
      cbn [app]. rewrite !bytes_ok_app. tauto.
    - rewrite HB in *. cbn [ublox_read] in Eb. assert (sb = ublox_register sa (nav_ml nav) /\ eb = []) as [-> ->] by (split; congruence). split; [exact HHa|split; reflexivity]. }
  destruct HHb as (HHb & Sb & Kb).
  (* ... before the first store *)
  destruct (heard_read u nav A B (uw_mode sb (u_nreg sb) T_NONE (u_rtk sb)) (ubx_of eb) C0 s0 e0) as (HH0 & S0 & K0);
    [apply uinv_mode; exact HIb|discriminate|exact Lb|rewrite !bytes_ok_app; tauto|exact HHb|exact E0|].
  assert (NB : forall T, T = T_NONE -> T <> T_BASE) by (intros T ->; discriminate).
  (* the first wait *)
  destruct (get_version_spec s0 C1 HI0 B1 T0) as [(s1 & e1 & o1 & w1 & E1 & HI1 & (T1 & L1 & N1 & _) & F1 & W1 & U1 & K1)|[[E1 _]|E1]]; rewrite E1 in H; cbn [bind] in H; [|discriminate..].
  cbn [uw_out u_type u_ls u_nreg] in T1, L1, N1. rewrite L0 in F1.
  destruct (heard_feed u nav A (B ++ C0) s0 _ C1 s1 false o1 ltac:(rewrite !bytes_ok_app; tauto) HH0 F1) as [HH1 R1]. specialize (R1 eq_refl). rewrite <- U1 in HH1.
  cbv zeta. destruct (got_ver (u_ubx s1)) eqn:G1.
  { destruct (conc s1 (c_setup c)) as [[s' e']|k] eqn:EC; cbn [bind] in H; [|discriminate].
    assert (r = Some s' /\ ev = (ea ++ eb ++ e0 ++ e1) ++ e') as [-> ->] by (split; congruence).
    destruct (heard_setup u nav A ((B ++ C0) ++ C1) s1 _ bs _ s' e' HI1 ltac:(congruence) ltac:(congruence) ltac:(rewrite !bytes_ok_app; tauto) HH1 HS EC) as (X1 & X2 & X3 & X4).
    rewrite !rtk_of_app, !ser_of_app, !ubx_of_app, Ka, Kb, K0, K1, X3, Sa, Sb, S0, W1, Ua. cbn [app]. split; [reflexivity|]. left.
    split; [apply R1; reflexivity|]. exists s', (ser_of e'). split; [reflexivity|]. split; [reflexivity|].
    rewrite <- !app_assoc in *. cbn [app] in *. split; [exact X1|]. split; [exact X2|exact X4]. }
  assert (NR1 : ~ reply_ends (A ++ B ++ C0) C1) by (intros X; apply R1 in X; discriminate).
  (* between the waits *)
  destruct (ublox_read s1 CG) as [[sg eg]|k] eqn:Eg; cbn [bind] in H; [|discriminate].
  destruct (uinv_read _ _ _ _ HI1 Bg Eg) as [HIg (Tg & Lg & Ng & _)].
  destruct (heard_read u nav A ((B ++ C0) ++ C1) s1 _ CG sg eg HI1 (NB (u_type s1) ltac:(congruence)) ltac:(congruence) ltac:(rewrite !bytes_ok_app; tauto) HH1 Eg) as (HHg & Sg & Kg).
  (* the second wait *)
  destruct (get_version_spec sg C2 HIg B2 ltac:(congruence)) as [(s2 & e2 & o2 & w2 & E2 & HI2 & (T2 & L2 & N2 & _) & F2 & W2 & U2 & K2)|[[E2 _]|E2]]; rewrite E2 in H; cbn [bind] in H; [|discriminate..].
  cbn [uw_out u_type u_ls u_nreg] in T2, L2, N2. assert (LG : u_ls sg = [nav_ml nav]) by congruence. rewrite LG in F2.
  destruct (heard_feed u nav A (((B ++ C0) ++ C1) ++ CG) sg _ C2 s2 false o2 ltac:(rewrite !bytes_ok_app; tauto) HHg F2) as [HH2 R2]. specialize (R2 eq_refl). rewrite <- U2 in HH2.
  destruct (got_ver (u_ubx s2)) eqn:G2.
  - destruct (conc s2 (c_setup c)) as [[s' e']|k] eqn:EC; cbn [bind] in H; [|discriminate].
    assert (r = Some s' /\ ev = ((ea ++ eb ++ e0 ++ e1) ++ eg ++ e2) ++ e') as [-> ->] by (split; congruence).
    destruct (heard_setup u nav A ((((B ++ C0) ++ C1) ++ CG) ++ C2) s2 _ bs _ s' e' HI2 ltac:(congruence) ltac:(congruence) ltac:(rewrite !bytes_ok_app; tauto) HH2 HS EC) as (X1 & X2 & X3 & X4).
    rewrite !rtk_of_app, !ser_of_app, !ubx_of_app, Ka, Kb, K0, K1, Kg, K2, X3, Sa, Sb, S0, W1, Sg, W2, Ua. cbn [app]. split; [reflexivity|]. right. left.
    rewrite <- !app_assoc in *. cbn [app] in *.
    split; [exact NR1|]. split; [apply R2; reflexivity|]. exists s', (ser_of e'). split; [reflexivity|]. split; [reflexivity|].
    split; [exact X1|]. split; [exact X2|exact X4].
  - assert (r = None /\ ev = (ea ++ eb ++ e0 ++ e1) ++ eg ++ e2) as [-> ->] by (split; congruence).
    rewrite !rtk_of_app, !ser_of_app, !ubx_of_app, Ka, Kb, K0, K1, Kg, K2, Sa, Sb, S0, W1, Sg, W2, Ua. cbn [app]. split; [reflexivity|]. right. right.
    rewrite <- !app_assoc in *. cbn [app] in *.
    split; [exact NR1|]. split; [intros X; apply R2 in X; discriminate|]. split; [reflexivity|]. split; [reflexivity|exact (heard_hears _ _ _ _ _ _ HH2)].
Qed.

Lemma read_ub q s k : UInv s -> bytes_ok q -> ublox_read s q = UB k -> k = UB_cstring \/ k = UB_oob_write.
Proof.
  intros (K1 & (r & K2) & _) Hq E.
  destruct (read_any q s r K1 K2 Hq) as [(s1 & e1 & p1 & f1 & E1 & _)|[[E1 _]|[E1 _]]]; rewrite E1 in E; [discriminate|left; congruence|right; congruence].
Qed.
Theorem ctor_any_faults u ru out0 nav c bs k : uninit_ok u -> runinit_ok ru -> Zlen out0 = 2048 -> csched_ok c -> bytes_ok bs ->
  shuffle setup_acts (map ARx bs) (c_setup c) -> ctor_any u ru out0 nav c = UB k -> k = UB_cstring \/ k = UB_oob_write.
Proof.
  intros Hu Hru Hz Hc Hbs HS H. unfold ctor_any in H. cbv zeta in H. pose proof Hc as (Ba & Bb & B0 & B1 & Bg & B2).
  assert (HIr : UInv (mkUblox (ubx_init u) out0 [] (rtcm_init ru) 0 (c_type0 c) 0)) by (apply raw_inv; assumption).
  destruct (ublox_read _ (c_a c)) as [[sa ea]|k1] eqn:Ea; cbn [bind] in H; [|assert (k1 = k) by congruence; subst k1; exact (read_ub _ _ _ HIr Ba Ea)].
  destruct (uinv_read _ _ _ _ HIr Ba Ea) as [HIa _].
  assert (HIq : UInv (ublox_register sa (nav_ml nav))) by (rewrite nav_ml_build; exact (register_inv sa _ HIa (nav_l_ok nav))).
  destruct (ublox_read _ (c_b c)) as [[sb eb]|k1] eqn:Eb; cbn [bind] in H; [|assert (k1 = k) by congruence; subst k1; exact (read_ub _ _ _ HIq Bb Eb)].
  destruct (uinv_read _ _ _ _ HIq Bb Eb) as [HIb _]. pose proof (uinv_mode sb (u_nreg sb) T_NONE (u_rtk sb) HIb) as HIm.
  destruct (ublox_read _ (c_0 c)) as [[s0 e0]|k1] eqn:E0; cbn [bind] in H; [|assert (k1 = k) by congruence; subst k1; exact (read_ub _ _ _ HIm B0 E0)].
  destruct (start_prefix u ru out0 nav c sa ea sb eb s0 e0 Hu Hru Hz Hc Ea Eb E0) as (_ & _ & HI0 & N0 & T0 & _).
  assert (FIN : forall s1 e1, UInv s1 -> (let* (s', e') := conc s1 (c_setup c) in Ok (Some s', e1 ++ e')) = UB k -> k = UB_cstring \/ k = UB_oob_write).
  { intros s1 e1 HI1 E. destruct (conc s1 (c_setup c)) as [[s' e']|k1] eqn:EC; cbn [bind] in E; [discriminate|]. assert (k1 = k) by congruence. subst k1.
    exact (conc_ub _ _ _ HI1 (shuffle_act_ok _ _ _ HS setup_ok Hbs) EC). }
  destruct (get_version_spec s0 (c_1 c) HI0 B1 T0) as [(s1 & e1 & o1 & w1 & E1 & HI1 & (T1 & _) & _)|[[E1 _]|E1]]; rewrite E1 in H; cbn [bind] in H; [|left; congruence|right; congruence].
  cbn [uw_out u_type] in T1. destruct (got_ver (u_ubx s1)); [exact (FIN s1 _ HI1 H)|].
  destruct (ublox_read s1 (c_g c)) as [[sg eg]|k1] eqn:Eg; cbn [bind] in H; [|assert (k1 = k) by congruence; subst k1; exact (read_ub _ _ _ HI1 Bg Eg)].
  destruct (uinv_read _ _ _ _ HI1 Bg Eg) as [HIg (Tg & _)].
  destruct (get_version_spec sg (c_2 c) HIg B2 ltac:(congruence)) as [(s2 & e2 & o2 & w2 & E2 & HI2 & _)|[[E2 _]|E2]]; rewrite E2 in H; cbn [bind] in H; [|left; congruence|right; congruence].
  destruct (got_ver (u_ubx s2)); [exact (FIN s2 _ HI2 H)|discriminate].
Qed.
