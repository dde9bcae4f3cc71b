(* ECEF histories, observations, ephemeris copies. *)
From Coq Require Import QArith Qround Qabs Qpower Lqa.
From Verif Require Import Base UbxModel UbxTx RtcmModel UbloxModel BitModel UtcModel UtcSpec UtcProofs Dbl UtcDouble NavModel NavSpec NavAcc NavObj NavDev RosModel RosSpec RosProofs.
Local Open Scope Z_scope.

(* ---------------------------------------------------------------- ECEF *)
(* the last message of a kind in a history *)
Definition pick (cls id : Z) (o : rop) : option (list Z) :=
  match o with RUbx c i m => if (c =? cls) && (i =? id) then Some m else None | _ => None end.
Fixpoint last_msg (cls id : Z) (h : list rop) : option (list Z) :=
  match h with [] => None | o :: r => match last_msg cls id r with Some m => Some m | None => pick cls id o end end.
Lemma last_msg_snoc c i h o : last_msg c i (h ++ [o]) = match pick c i o with Some m => Some m | None => last_msg c i h end.
Proof. induction h as [|x h IH]; cbn [app last_msg]; [destruct (pick c i o); reflexivity|]. rewrite IH. destruct (pick c i o); [reflexivity|]. reflexivity. Qed.

(* what the node's ECEF message contains after a history *)
Definition ecef_shown (h : list rop) : ecef :=
  let zero := (d0, d0, d0) in
  mkEcef 0
    (match last_msg 0x01 0x07 h with Some m => (sc (i32_at m 28) D_1EM7, sc (i32_at m 24) D_1EM7, sc (i32_at m 32) D_1EM3) | None => zero end)
    (match last_msg 0x01 0x01 h with Some m => (d_of_int (i32_at m 4), d_of_int (i32_at m 8), d_of_int (i32_at m 12)) | None => zero end)
    (match last_msg 0x01 0x07 h with Some m => sc (u32_at m 40) D_1EM3 | None => d0 end)
    (match last_msg 0x01 0x07 h with Some m => sc (u32_at m 44) D_1EM3 | None => d0 end)
    (match last_msg 0x01 0x11 h with Some m => (d_of_int (i32_at m 12), d0, d0) | None => zero end)
    (match last_msg 0x01 0x07 h with Some m => sc (u32_at m 68) D_1EM3 | None => d0 end).
Definition is_ecef (p : pub) : bool := match p with PubEcef _ => true | _ => false end.
Definition ecefs (p : list pub) : list ecef := flat_map (fun q => match q with PubEcef e => [e] | _ => [] end) p.
(* times of week of the last position and velocity message *)
Definition pos_tow (h : list rop) (d : Z) : Z :=
  fold_left (fun t o => match o with RUbx c i m => if (c =? 0x01) && ((i =? 0x07) || (i =? 0x01)) then u32_at m 0 else t | _ => t end) h d.
Definition vel_tow (h : list rop) (d : Z) : Z := match last_msg 0x01 0x11 h with Some m => u32_at m 0 | None => d end.

Lemma pos_tow_snoc h o d : pos_tow (h ++ [o]) d = match o with RUbx c i m => if (c =? 0x01) && ((i =? 0x07) || (i =? 0x01)) then u32_at m 0 else pos_tow h d | _ => pos_tow h d end.
Proof. unfold pos_tow. rewrite fold_left_app. reflexivity. Qed.

Definition ros_inv (t0 : ros) (h : list rop) (s : ros) : Prop :=
  r_ecef s = ecef_shown h /\ r_pvt s = r_pvt t0 /\ r_pos s = pos_tow h (r_pos t0) /\ r_vel s = vel_tow h (r_vel t0).
(* ECEF messages published by one more message *)
Definition ecef_count (t0 : ros) (h : list rop) (o : rop) : nat :=
  let agree := (pos_tow (h ++ [o]) (r_pos t0) =? r_pvt t0) && (pos_tow (h ++ [o]) (r_pos t0) =? vel_tow (h ++ [o]) (r_vel t0)) in
  match o with
  | RUbx c i _ =>
      if (c =? 0x01) && (i =? 0x07) then (if agree then 1 else 0)%nat
      else if (c =? 0x01) && ((i =? 0x01) || (i =? 0x11)) then (if agree then 2 else 1)%nat else 0%nat
  | _ => 0%nat
  end.
(* only the order in which the kernel unfolds definitions *)
Local Strategy expand [pvt_d].
Local Strategy 1000 [sc d_of_int i32_at u32_at].
Lemma ros_step_inv t0 h s o s' p : ros_inv t0 h s -> ros_step s o = Ok (s', p) ->
  ros_inv t0 (h ++ [o]) s' /\ ecefs p = repeat (ecef_shown (h ++ [o])) (ecef_count t0 h o).
Proof.
  intros (A & B & C & D) H. unfold ros_inv, ecef_count, vel_tow in *.
  rewrite pos_tow_snoc. unfold ecef_shown. rewrite !last_msg_snoc. unfold ecef_shown in A.
  destruct o as [c i m|e|g]; cbn [pick ros_step] in *.
  - unfold ros_got_ubx in H. destruct (Z.eqb_spec c 1) as [->|Hc].
    + cbn [andb]. destruct (Z.eqb_spec i 7) as [->|H7].
      { change (7 =? 1) with false. change (7 =? 17) with false. cbn [orb andb].
        assert (E0 : pvtCB s m = (s', p)) by congruence. assert (s' = fst (pvtCB s m) /\ p = snd (pvtCB s m)) as [-> ->] by (rewrite E0; split; reflexivity). clear H E0.
        unfold pvtCB, tows_agree. cbn [fst snd r_ecef r_pvt r_pos r_vel]. rewrite A, B, D. cbn [em_fix em_pos em_vel]. split; [repeat split|].
        destruct (_ && _); reflexivity. }
      destruct (Z.eqb_spec i 60) as [->|H60].
      { change (60 =? 1) with false. change (60 =? 17) with false. cbn [orb].
        unfold relposCB in H. destruct (d2u32 _); cbn [bind] in H; [|discriminate].
        assert (s' = s) by congruence. subst s'. match type of H with Ok (_, ?x) = _ => assert (p = x) by congruence end. subst p. split; [auto|reflexivity]. }
      destruct (Z.eqb_spec i 1) as [->|H1].
      { change (1 =? 17) with false. cbn [orb andb].
        assert (E0 : posECEFCB s m = (s', p)) by congruence. assert (s' = fst (posECEFCB s m) /\ p = snd (posECEFCB s m)) as [-> ->] by (rewrite E0; split; reflexivity). clear H E0.
        unfold posECEFCB, tows_agree. cbn [fst snd r_ecef r_pvt r_pos r_vel]. rewrite A, B, D. cbn [em_fix em_pos em_vel em_lla em_hacc em_vacc em_sacc]. split; [repeat split|].
        destruct (_ && _); reflexivity. }
      destruct (Z.eqb_spec i 17) as [->|H17].
      { cbn [orb]. 
        assert (E0 : velECEFCB s m = (s', p)) by congruence. assert (s' = fst (velECEFCB s m) /\ p = snd (velECEFCB s m)) as [-> ->] by (rewrite E0; split; reflexivity). clear H E0.
        assert (V : exists v0, em_vel (r_ecef s) = (v0, d0, d0)) by (rewrite A; cbn [em_vel]; destruct (last_msg 1 17 h); eauto).
        destruct V as [v0 V]. unfold velECEFCB, tows_agree. rewrite V. cbn [fst snd r_ecef r_pvt r_pos r_vel]. rewrite A, B, C.
        cbn [em_fix em_pos em_vel em_lla em_hacc em_vacc em_sacc]. split; [repeat split|]. destruct (_ && _); reflexivity. }
      cbn [orb]. destruct (i =? 59).
      { assert (s' = s /\ p = svinCB m) as [-> ->] by (split; congruence). split; [auto|reflexivity]. }
      assert (s' = s /\ p = []) as [-> ->] by (split; congruence). split; [auto|reflexivity].
    + cbn [andb]. destruct (c =? 2).
      * destruct (i =? 21).
        -- destruct (obsCB m) as [q|k] eqn:EO; cbn [bind] in H; [|discriminate]. assert (s' = s /\ p = q) as [-> ->] by (split; congruence). split; [auto|].
           unfold obsCB in EO. destruct (d2int _); cbn [bind] in EO; [|discriminate]. destruct (fromGPS _ _); cbn [bind] in EO; [|discriminate].
           destruct (0 <? i8_at m 11); [discriminate|]. match type of EO with Ok ?x = _ => assert (q = x) by congruence end. subst q. reflexivity.
        -- assert (s' = s /\ p = []) as [-> ->] by (split; congruence). split; [auto|reflexivity].
      * assert (s' = s /\ p = []) as [-> ->] by (split; congruence). split; [auto|reflexivity].
  - assert (s' = s /\ p = ephCB e) as [-> ->] by (split; congruence). split; [auto|reflexivity].
  - assert (s' = s /\ p = gephCB g) as [-> ->] by (split; congruence). split; [auto|reflexivity].
Qed.
(* all ECEF messages of a history, in order *)
Fixpoint all_ecefs (t0 : ros) (done h : list rop) : list ecef :=
  match h with [] => [] | o :: r => repeat (ecef_shown (done ++ [o])) (ecef_count t0 done o) ++ all_ecefs t0 (done ++ [o]) r end.
Lemma ros_run_inv t0 : forall h done s s' p, ros_inv t0 done s -> ros_run s h = Ok (s', p) ->
  ros_inv t0 (done ++ h) s' /\ ecefs p = all_ecefs t0 done h.
Proof.
  induction h as [|o r IH]; intros done s s' p HI H; cbn [ros_run] in H.
  - assert (s' = s /\ p = []) as [-> ->] by (split; congruence). rewrite app_nil_r. auto.
  - destruct (ros_step s o) as [[s1 p1]|k] eqn:E1; cbn [bind] in H; [|discriminate].
    destruct (ros_run s1 r) as [[s2 p2]|k] eqn:E2; cbn [bind] in H; [|discriminate].
    destruct (ros_step_inv _ _ _ _ _ _ HI E1) as [HI1 EC1]. destruct (IH _ _ _ _ HI1 E2) as [HI2 EC2].
    assert (s' = s2 /\ p = p1 ++ p2) as [-> ->] by (split; congruence). rewrite <- app_assoc in HI2. split; [exact HI2|].
    unfold ecefs in *. rewrite flat_map_app, EC1, EC2. reflexivity.
Qed.
Lemma ros_inv0 t0 : r_ecef t0 = ecef_new -> ros_inv t0 [] t0.
Proof. intros H. repeat split; assumption. Qed.

(* ---------------------------------------------------------------- observations *)
Lemma obs_never s m s' p : ros_got_ubx s 0x02 0x15 m = Ok (s', p) -> s' = s /\ (exists t, p = [PubObs t 0]) /\ i8_at m 11 <= 0.
Proof.
  change (ros_got_ubx s 2 21 m) with (let* q := obsCB m in Ok (s, q)). unfold obsCB. intros H.
  destruct (d2int _); cbn [bind] in H; [|discriminate]. destruct (fromGPS _ _); cbn [bind] in H; [|discriminate].
  destruct (Z.ltb_spec 0 (i8_at m 11)); [discriminate|]. cbn [bind] in H. split; [congruence|]. split; [|lia]. match type of H with Ok (_, [PubObs ?t 0]) = _ => exists t end. congruence.
Qed.
(* with measurements announced, the first statement of the loop writes outside the vector *)
Lemma obs_write s tow week leap num rest d : length tow = 8%nat -> w_ok week -> 1 <= num <= 127 ->
  f64_of_bits (of_le tow) = Some d -> (exists t, (let* x := d2i32 (dtrunc (dmul d D_1E3)) in fromGPS week x) = Ok t) ->
  ros_got_ubx s 0x02 0x15 (rawx_bytes tow week leap num ++ rest) = UB UB_oob_write.
Proof.
  intros HL HW HN HD [t HT]. change (ros_got_ubx s 2 21 (rawx_bytes tow week leap num ++ rest)) with (let* q := obsCB (rawx_bytes tow week leap num ++ rest) in Ok (s, q)).
  do 9 (destruct tow as [|? tow]; try discriminate HL). unfold obsCB.
  set (m := rawx_bytes _ week leap num ++ rest).
  match type of HD with f64_of_bits (of_le ?l) = _ => change (u64_at m 0) with (of_le l) end. rewrite HD. cbn [option_map d2int].
  destruct (d2i32 (dtrunc (dmul d D_1E3))) as [x|k]; cbn [bind] in *; [|discriminate].
  rewrite (at16 m 8 week HW eq_refl), HT. cbn [bind]. change (i8_at m 11) with (i8 num).
  assert (E : i8 num = num) by (unfold i8, sgn; change (2 ^ 8) with 256; change (2 ^ (8 - 1)) with 128; rewrite Z.mod_small by lia; destruct (Z.ltb_spec num 128); lia).
  rewrite E. destruct (Z.ltb_spec 0 num); [reflexivity|lia].
Qed.
(* with none announced, one empty message, stamped with the converted time *)
Lemma obs_empty s tow week leap rest d x t : length tow = 8%nat -> w_ok week ->
  f64_of_bits (of_le tow) = Some d -> d2i32 (dtrunc (dmul d D_1E3)) = Ok x -> fromGPS week x = Ok t ->
  ros_got_ubx s 0x02 0x15 (rawx_bytes tow week leap 0 ++ rest) = Ok (s, [PubObs (sec t mod 2 ^ 32, nsec t mod 2 ^ 32) 0]).
Proof.
  intros HL HW HD HX HT. change (ros_got_ubx s 2 21 (rawx_bytes tow week leap 0 ++ rest)) with (let* q := obsCB (rawx_bytes tow week leap 0 ++ rest) in Ok (s, q)).
  do 9 (destruct tow as [|? tow]; try discriminate HL). unfold obsCB.
  set (m := rawx_bytes _ week leap 0 ++ rest).
  match type of HD with f64_of_bits (of_le ?l) = _ => change (u64_at m 0) with (of_le l) end. rewrite HD. cbn [option_map d2int]. rewrite HX. cbn [bind].
  rewrite (at16 m 8 week HW eq_refl), HT. cbn [bind]. reflexivity.
Qed.
(* a time of week that is not a number, or too large for an int once in milliseconds *)
Lemma obs_no_time s tow week leap num rest : length tow = 8%nat ->
  (f64_of_bits (of_le tow) = None \/ exists d, f64_of_bits (of_le tow) = Some d /\ ~ (- 2 ^ 31 <= dtrunc (dmul d D_1E3) < 2 ^ 31)) ->
  ros_got_ubx s 0x02 0x15 (rawx_bytes tow week leap num ++ rest) = UB UB_convert.
Proof.
  intros HL HD. change (ros_got_ubx s 2 21 (rawx_bytes tow week leap num ++ rest)) with (let* q := obsCB (rawx_bytes tow week leap num ++ rest) in Ok (s, q)).
  do 9 (destruct tow as [|? tow]; try discriminate HL). unfold obsCB.
  set (m := rawx_bytes _ week leap num ++ rest).
  match type of HD with f64_of_bits (of_le ?l) = _ \/ _ => change (u64_at m 0) with (of_le l) end.
  destruct HD as [E | [d [E N]]]; rewrite E; cbn [option_map d2int]; [reflexivity|].
  unfold d2i32. destruct ((- 2 ^ 31 <=? dtrunc (dmul d D_1E3)) && (dtrunc (dmul d D_1E3) <? 2 ^ 31)) eqn:B; [|reflexivity].
  exfalso. apply N. apply andb_prop in B. destruct B as [B1 B2]. apply Z.leb_le in B1. apply Z.ltb_lt in B2. split; assumption.
Qed.
(* the value of the eight bytes of an R8 *)
Lemma f64_value s ex fr : s = 0 \/ s = 1 -> 0 <= ex < 2048 -> 0 <= fr < 2 ^ 52 ->
  match f64_of_bits (s * 2 ^ 63 + ex * 2 ^ 52 + fr) with
  | None => ex = 2047
  | Some d => ex <> 2047 /\ (dQ d == (if s =? 0 then 1 else -1) * (if ex =? 0 then inject_Z fr * Qpower (2 # 1) (-1074) else (1 + inject_Z fr / inject_Z (2 ^ 52)) * Qpower (2 # 1) (ex - 1023)))%Q
  end.
Proof.
  intros Hs He Hf. unfold f64_of_bits. set (w := s * 2 ^ 63 + ex * 2 ^ 52 + fr).
  assert (E1 : w / 2 ^ 63 = s).
  { unfold w. change (2 ^ 63) with (2048 * 2 ^ 52). change (2 ^ 52) with 4503599627370496 in *. symmetry. apply (Z.div_unique _ _ _ (ex * 4503599627370496 + fr)); lia. }
  assert (E2 : w mod 2 ^ 52 = fr) by (unfold w; change (2 ^ 63) with (2048 * 2 ^ 52); change (2 ^ 52) with 4503599627370496 in *; symmetry; apply (Z.mod_unique _ _ (s * 2048 + ex)); lia).
  assert (E3 : (w / 2 ^ 52) mod 2048 = ex).
  { replace (w / 2 ^ 52) with (s * 2048 + ex). - symmetry. apply (Z.mod_unique _ _ s); lia.
    - unfold w. change (2 ^ 63) with (2048 * 2 ^ 52). change (2 ^ 52) with 4503599627370496 in *. apply (Z.div_unique _ _ _ fr); lia. }
  rewrite E1, E2, E3. clear E1 E2 E3 w. destruct (Z.eqb_spec ex 2047) as [->|N]; [reflexivity|].
  destruct (Z.eqb_spec ex 0) as [->|N0]; (split; [assumption|]); unfold dQ; cbn [dm de].
  - rewrite inject_Z_mult. destruct Hs as [-> | ->]; cbn [Z.eqb]; ring.
  - replace (ex - 1023) with (ex - 1075 + 52) by lia. rewrite (Qpower_plus (2 # 1) (ex - 1075) 52) by discriminate.
    change (Qpower (2 # 1) 52) with (inject_Z (2 ^ 52)). rewrite inject_Z_mult, inject_Z_plus. set (P := Qpower (2 # 1) (ex - 1075)). set (B := inject_Z (2 ^ 52)). set (F := inject_Z fr).
    assert (HB : ~ (B == 0)%Q) by (unfold B; discriminate). destruct Hs as [-> | ->]; cbn [Z.eqb]; [change (inject_Z 1) with 1%Q|change (inject_Z (-1)) with (-(1))%Q]; field; exact HB.
Qed.

Lemma trunc_floor x : 0 <= dm x -> (inject_Z (dtrunc x) <= dQ x)%Q /\ (dQ x < inject_Z (dtrunc x) + 1)%Q /\ 0 <= dtrunc x.
Proof.
  intros H. rewrite dtrunc_nonneg by exact H. split; [|split]; [| |apply dfloor_nonneg; exact H]; unfold dfloor, dQ; destruct (Z.leb_spec 0 (de x)) as [L|L].
  - rewrite inject_Z_mult. rewrite Zpower_Qpower by exact L. apply Qle_refl.
  - assert (P : 0 < 2 ^ (- de x)) by (apply Z.pow_pos_nonneg; lia).
    assert (E : (Qpower (2 # 1) (de x) == / inject_Z (2 ^ (- de x)))%Q) by (rewrite Zpower_Qpower by lia; rewrite Qpower_opp, Qinv_involutive; reflexivity). rewrite E.
    apply Qle_shift_div_l; [change 0%Q with (inject_Z 0); rewrite <- Zlt_Qlt; exact P|]. rewrite <- inject_Z_mult, <- Zle_Qle. pose proof (Z.mul_div_le (dm x) _ P). lia.
  - rewrite inject_Z_mult. rewrite Zpower_Qpower by exact L. change (inject_Z 2) with (2 # 1)%Q. lra.
  - assert (P : 0 < 2 ^ (- de x)) by (apply Z.pow_pos_nonneg; lia).
    assert (E : (Qpower (2 # 1) (de x) == / inject_Z (2 ^ (- de x)))%Q) by (rewrite Zpower_Qpower by lia; rewrite Qpower_opp, Qinv_involutive; reflexivity). rewrite E.
    apply Qlt_shift_div_r; [change 0%Q with (inject_Z 0); rewrite <- Zlt_Qlt; exact P|]. change 1%Q with (inject_Z 1). rewrite <- inject_Z_plus, <- inject_Z_mult, <- Zlt_Qlt.
    pose proof (Z.mul_succ_div_gt (dm x) _ P). lia.
Qed.
Lemma tow_ms d : (0 <= dQ d)%Q -> (dQ d <= 604800 # 1)%Q ->
  exists x, d2i32 (dtrunc (dmul d D_1E3)) = Ok x /\ 0 <= x <= 604800000 /\
    (inject_Z x <= 1000 * dQ d + (1 # 10000000))%Q /\ (1000 * dQ d < inject_Z x + 1 + (1 # 10000000))%Q.
Proof.
  intros H0 H1. assert (Pp : (0 < Qpower (2 # 1) (de d))%Q) by (apply Qpower_0_lt; reflexivity).
  assert (Hm : 0 <= dm d).
  { destruct (Z.le_gt_cases 0 (dm d)) as [|N]; [assumption|exfalso]. unfold dQ in H0.
    assert (inject_Z (dm d) < 0)%Q by (change 0%Q with (inject_Z 0); rewrite <- Zlt_Qlt; exact N). nra. }
  set (r := dmul d D_1E3). assert (Er : r = mkD (rnd53 (dm d * 1000)) (de d)) by (unfold r, dmul, D_1E3; cbn [dm de]; rewrite Z.add_0_r; reflexivity).
  pose proof (rnd53_err (dm d * 1000)) as HE. assert (Hr : 0 <= rnd53 (dm d * 1000)) by (apply rnd_nonneg; lia).
  destruct (trunc_floor r) as (A & B & C); [rewrite Er; exact Hr|].
  set (x := dtrunc r) in *. assert (V : (Qabs (dQ r - 1000 * dQ d) <= 1 # 10000000)%Q).
  { rewrite Er. unfold dQ. cbn [dm de]. unfold dQ in H1. set (P := Qpower (2 # 1) (de d)) in *. set (z := rnd53 (dm d * 1000)) in *.
    assert (E1 : (inject_Z (2 ^ 53) * Qabs (inject_Z z - 1000 * inject_Z (dm d)) <= 1000 * inject_Z (dm d))%Q).
    { rewrite (Z.abs_eq (dm d * 1000)) in HE by lia. assert (Q1 : (inject_Z (2 ^ 53 * Z.abs (z - dm d * 1000)) <= inject_Z (dm d * 1000))%Q) by (rewrite <- Zle_Qle; exact HE).
      rewrite inject_Z_mult in Q1. rewrite (inject_Z_mult (dm d)) in Q1.
      assert (E2 : (Qabs (inject_Z z - 1000 * inject_Z (dm d)) == inject_Z (Z.abs (z - dm d * 1000)))%Q).
      { replace (Z.abs (z - dm d * 1000)) with (Z.abs (z + - (dm d * 1000))) by reflexivity.
        assert (F : (inject_Z z - 1000 * inject_Z (dm d) == inject_Z (z - dm d * 1000))%Q) by (unfold Z.sub; rewrite inject_Z_plus, inject_Z_opp, inject_Z_mult; change (inject_Z 1000) with 1000%Q; ring).
        rewrite F. reflexivity. }
      rewrite E2. change (inject_Z 1000) with 1000%Q in Q1. rewrite (Qmult_comm 1000). exact Q1. }
    assert (F : (inject_Z z * P - 1000 * (inject_Z (dm d) * P) == (inject_Z z - 1000 * inject_Z (dm d)) * P)%Q) by ring.
    rewrite F, Qabs_Qmult, (Qabs_pos P) by (apply Qlt_le_weak; exact Pp).
    set (a := Qabs (inject_Z z - 1000 * inject_Z (dm d))) in *. set (M := inject_Z (dm d)) in *. change (inject_Z (2 ^ 53)) with (9007199254740992 # 1)%Q in E1. nra. }
  assert (V2 : (dQ r - 1000 * dQ d <= 1 # 10000000)%Q /\ (- (dQ r - 1000 * dQ d) <= 1 # 10000000)%Q).
  { split; [eapply Qle_trans; [apply Qle_Qabs|exact V]|]. eapply Qle_trans; [apply Qle_Qabs|]. rewrite Qabs_opp. exact V. }
  destruct V2 as [V1 V2].
  assert (U : x < 604800001) by (rewrite Zlt_Qlt; change (inject_Z 604800001) with (604800001 # 1)%Q; lra).
  exists x. split; [unfold d2i32; replace ((- 2 ^ 31 <=? x) && (x <? 2 ^ 31)) with true; [reflexivity|]; symmetry; apply andb_true_intro; change (2 ^ 31) with 2147483648; split; [apply Z.leb_le|apply Z.ltb_lt]; lia|].
  split; [lia|]. split; lra.
Qed.
(* every epoch whose time of week is a time of week *)
Lemma obs_epoch s tow week leap num rest d : length tow = 8%nat -> 0 <= week <= 3549 -> 0 <= num <= 127 ->
  f64_of_bits (of_le tow) = Some d -> (0 <= dQ d)%Q -> (dQ d <= 604800 # 1)%Q ->
  exists x t, (inject_Z x <= 1000 * dQ d + (1 # 10000000))%Q /\ (1000 * dQ d < inject_Z x + 1 + (1 # 10000000))%Q /\
    nanos t = (315964818 + week * 604800 + x / 1000 + x mod 1000) * 1000000000 /\
    sec t = 315964818 + week * 604800 + x / 1000 + (if 2 <=? x mod 1000 then 1 else 0) /\
    ros_got_ubx s 0x02 0x15 (rawx_bytes tow week leap num ++ rest) =
      if num =? 0 then Ok (s, [PubObs (sec t mod 2 ^ 32, nsec t mod 2 ^ 32) 0]) else UB UB_oob_write.
Proof.
  intros HL HW HN HD H0 H1. destruct (tow_ms d H0 H1) as (x & HX & Hx & A & B).
  destruct (fromGPS_spec week x) as [F _]; [lia|change (2 ^ 31) with 2147483648; lia|].
  destruct F as (t & HT & C & D); [change (2 ^ 31) with 2147483648; lia|].
  exists x, t. split; [exact A|]. split; [exact B|]. split; [exact C|]. split; [exact D|].
  assert (Hwk : w_ok week) by (unfold w_ok; change (2 ^ 16) with 65536; lia).
  destruct (Z.eqb_spec num 0) as [->|N]; [exact (obs_empty s tow week leap rest d x t HL Hwk HD HX HT)|].
  apply (obs_write s tow week leap num rest d HL Hwk); [lia|exact HD|]. exists t. rewrite HX. exact HT.
Qed.
Lemma sig_shift x : sigId (ubx_gnss x) (ubx_sig x) = msg_label x - 1.
Proof. destruct x; reflexivity. Qed.
Lemma sig_none g s : (forall x, ~ (ubx_gnss x = g /\ ubx_sig x = s)) -> sigId g s = -1.
Proof.
  intros H. unfold sigId.
  pose proof (H GPS_L1CA) as A1. pose proof (H GPS_L2CL) as A2. pose proof (H GPS_L2CM) as A3. pose proof (H GAL_E1C) as A4.
  pose proof (H GAL_E1B) as A5. pose proof (H GAL_E5BI) as A6. pose proof (H GAL_E5BQ) as A7. pose proof (H BDS_B1I_D1) as A8.
  pose proof (H BDS_B1I_D2) as A9. pose proof (H BDS_B2I_D1) as A10. pose proof (H BDS_B2I_D2) as A11. pose proof (H QZS_L1CA) as A12.
  pose proof (H GLO_L1) as A13. pose proof (H GLO_L2) as A14. clear H. cbn [ubx_gnss ubx_sig] in *.
  repeat match goal with |- (if ?c then _ else _) = _ => let E := fresh in destruct c eqn:E; [exfalso; apply andb_true_iff in E; destruct E as [E1 E2]; apply Z.eqb_eq in E1; apply Z.eqb_eq in E2; subst g s;
    match goal with A : ~ (?a = ?a /\ ?b = ?b) |- _ => apply A; split; reflexivity end|clear E] end.
  reflexivity.
Qed.

(* ---------------------------------------------------------------- consequences for ECEF *)
Lemma in_all_ecefs t0 e : forall h done, In e (all_ecefs t0 done h) -> exists h1 h2, h = h1 ++ h2 /\ e = ecef_shown (done ++ h1).
Proof.
  induction h as [|o r IH]; intros done H; cbn [all_ecefs] in H; [destruct H|]. apply in_app_iff in H. destruct H as [H|H].
  - apply repeat_spec in H. exists [o], r. auto.
  - destruct (IH _ H) as (h1 & h2 & -> & ->). exists (o :: h1), h2. rewrite <- app_assoc. auto.
Qed.
Lemma shown_fixed h : em_fix (ecef_shown h) = 0 /\ exists v, em_vel (ecef_shown h) = (v, d0, d0).
Proof. split; [reflexivity|]. unfold ecef_shown. cbn [em_vel]. destruct (last_msg 1 17 h); eauto. Qed.
Lemma exact_int v : Z.abs v <= 2 ^ 53 -> exactly (d_of_int v) (inject_Z v).
Proof. intros H. unfold exactly, d_of_int, dQ. cbn [dm de]. rewrite rnd53_id by exact H. change (Qpower (2 # 1) 0) with 1%Q. ring. Qed.
Lemma pos_shown h itow x y z acc rest : sl_ok x -> sl_ok y -> sl_ok z ->
  em_pos (ecef_shown (h ++ [RUbx 0x01 0x01 (ecef_bytes itow x y z acc ++ rest)])) = d3 (x, y, z).
Proof.
  intros Hx Hy Hz. unfold ecef_shown. cbn [em_pos]. rewrite last_msg_snoc. cbn [pick]. change ((1 =? 1) && (1 =? 1)) with true. cbv iota.
  set (m := ecef_bytes itow x y z acc ++ rest).
  rewrite (at32s m 4 x), (at32s m 8 y), (at32s m 12 z) by (assumption || reflexivity). reflexivity.
Qed.
Lemma vel_shown h itow x y z acc rest : sl_ok z ->
  em_vel (ecef_shown (h ++ [RUbx 0x01 0x11 (ecef_bytes itow x y z acc ++ rest)])) = (d_of_int z, d0, d0).
Proof.
  intros Hz. unfold ecef_shown. cbn [em_vel]. rewrite last_msg_snoc. cbn [pick]. change ((1 =? 1) && (17 =? 17)) with true. cbv iota.
  set (m := ecef_bytes itow x y z acc ++ rest). rewrite (at32s m 12 z) by (assumption || reflexivity). reflexivity.
Qed.
(* messages whose time of week differs from the never assigned one *)
Lemma count_other t0 h c i m : u32_at m 0 <> r_pvt t0 ->
  (c = 0x01 /\ i = 0x07 -> ecef_count t0 h (RUbx c i m) = 0%nat) /\
  (c = 0x01 /\ i = 0x01 -> ecef_count t0 h (RUbx c i m) = 1%nat).
Proof.
  intros HT. unfold ecef_count. rewrite pos_tow_snoc. split; intros [-> ->].
  - change ((1 =? 1) && ((7 =? 7) || (7 =? 1))) with true. change ((1 =? 1) && (7 =? 7)) with true. cbv iota.
    destruct (Z.eqb_spec (u32_at m 0) (r_pvt t0)); [contradiction|reflexivity].
  - change ((1 =? 1) && ((1 =? 7) || (1 =? 1))) with true. change ((1 =? 1) && (1 =? 7)) with false. cbv iota.
    destruct (Z.eqb_spec (u32_at m 0) (r_pvt t0)); [contradiction|reflexivity].
Qed.

(* ---------------------------------------------------------------- a mean position west of Greenwich *)
Lemma svin_negative x : - 2 ^ 31 <= x < 0 -> forall d, nearly d (deci (x mod 2 ^ 32) 2) -> (inject_Z 21474836 < dQ d)%Q.
Proof.
  intros H d Hd. unfold nearly, within, deci in Hd. change (2 ^ 31) with 2147483648 in H.
  assert (EM : x mod 2 ^ 32 = x + 4294967296) by (change (2 ^ 32) with 4294967296; rewrite <- (Z.mod_add x 1) by lia; apply Z.mod_small; lia).
  rewrite EM in Hd. set (v := x + 4294967296) in *. assert (2147483648 <= v < 4294967296) by lia. clearbody v. clear EM H.
  change (inject_Z (10 ^ 2)) with (inject_Z 100) in Hd. set (q := (inject_Z v / inject_Z 100)%Q) in *.
  assert (Q1 : (inject_Z 2147483648 / inject_Z 100 <= q)%Q).
  { unfold q, Qdiv. apply Qmult_le_compat_r; [rewrite <- Zle_Qle; lia|discriminate]. }
  clearbody q. assert (A0 : (0 <= q)%Q) by (eapply Qle_trans; [|exact Q1]; discriminate).
  rewrite (Qabs.Qabs_pos q) in Hd by exact A0. pose proof (Qabs.Qle_Qabs (- (dQ d - q))) as A. rewrite Qabs.Qabs_opp in A.
  set (a := Qabs.Qabs (dQ d - q)) in *. clearbody a. set (w := dQ d) in *. clearbody w.
  change (inject_Z (2 ^ 50)) with (1125899906842624 # 1)%Q in Hd. change (inject_Z 2147483648 / inject_Z 100)%Q with (2147483648 # 100)%Q in Q1.
  change (inject_Z 21474836) with (21474836 # 1)%Q. lra.
Qed.
(* ---------------------------------------------------------------- times in ephemeris messages *)
Lemma rostime_exact t : 0 <= sec t < 2 ^ 32 -> normal t -> rostime t = (sec t, nsec t).
Proof. intros H1 H2. unfold rostime, u32, normal in *. rewrite !Z.mod_small; [reflexivity|change (2 ^ 32) with 4294967296; lia|exact H1]. Qed.
Lemma eph_copied e g :
  (exists i d toe toc, ephCB e = [PubEph i d toe toc] /\ (forall f, d f = ed e f) /\
     (forall f, ~ In f [Fiode1; Fiode2; Fiode3; Fgot1; Fgot2; Fgot3] -> i f = Some (ei e f)) /\
     (0 <= sec (e_toe e) < 2 ^ 32 -> normal (e_toe e) -> toe = (sec (e_toe e), nsec (e_toe e))) /\
     (0 <= sec (e_toc e) < 2 ^ 32 -> normal (e_toc e) -> toc = (sec (e_toc e), nsec (e_toc e)))) /\
  (exists i d toe tof, gephCB g = [PubGeph i d toe tof] /\ (forall f, d f = gd g f) /\
     (forall f, ~ In f [Ggot1; Ggot2; Ggot3; Ggot4; Gmark] -> i f = Some (gi g f)) /\
     (0 <= sec (g_toe g) < 2 ^ 32 -> normal (g_toe g) -> toe = (sec (g_toe g), nsec (g_toe g))) /\
     (0 <= sec (g_tof g) < 2 ^ 32 -> normal (g_tof g) -> tof = (sec (g_tof g), nsec (g_tof g)))).
Proof.
  split; do 4 eexists; (split; [reflexivity|]); (split; [reflexivity|]); (split; [|split; apply rostime_exact]);
  intros f Hf; destruct f; cbn [eph_sync geph_sync]; try reflexivity; exfalso; apply Hf; cbn; tauto.
Qed.
Notation dz := Dbl.d0.
Lemma in_ecefs e p : In (PubEcef e) p -> In e (ecefs p).
Proof. intros H. unfold ecefs. apply in_flat_map. exists (PubEcef e). split; [exact H|left; reflexivity]. Qed.
Lemma ecef_lost t0 h s p e : r_ecef t0 = ecef_new -> ros_run t0 h = Ok (s, p) -> In (PubEcef e) p -> em_fix e = 0 /\ exists v, em_vel e = (v, dz, dz).
Proof.
  intros H0 H He. apply in_ecefs in He. rewrite (proj2 (ros_run_inv t0 h [] t0 s p (ros_inv0 t0 H0) H)) in He.
  apply in_all_ecefs in He. destruct He as (h1 & h2 & _ & ->). apply shown_fixed.
Qed.
Lemma ecef_units h itow x y z acc rest : sl_ok x -> sl_ok y -> sl_ok z ->
  (exists a b c, em_pos (ecef_shown (h ++ [RUbx 0x01 0x01 (ecef_bytes itow x y z acc ++ rest)])) = (a, b, c) /\
     exactly a (inject_Z x) /\ exactly b (inject_Z y) /\ exactly c (inject_Z z)) /\
  (exists a b c, em_vel (ecef_shown (h ++ [RUbx 0x01 0x11 (ecef_bytes itow x y z acc ++ rest)])) = (a, b, c) /\
     exactly a (inject_Z z) /\ exactly b 0%Q /\ exactly c 0%Q).
Proof.
  intros Hx Hy Hz. split.
  - rewrite (pos_shown h itow x y z acc rest Hx Hy Hz). exists (d_of_int x), (d_of_int y), (d_of_int z). split; [reflexivity|].
    repeat split; apply exact_int; apply small_i; assumption.
  - rewrite (vel_shown h itow x y z acc rest Hz). exists (d_of_int z), dz, dz. split; [reflexivity|].
    split; [apply exact_int, small_i; assumption|]. split; reflexivity.
Qed.
