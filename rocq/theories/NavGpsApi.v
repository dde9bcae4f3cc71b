(* Statements about the parser's GPS behaviour. *)
From Coq Require Import QArith Permutation.
From Verif Require Import Base ZBits BitSpec BitModel BitProofs UtcModel UtcSpec UtcProofs Dbl NavModel NavSpec NavGpsSpec NavBits NavGps NavObj NavAcc NavGpsThm.
Local Open Scope Z_scope.

(* ------------------------------------------------ when *)
Lemma gps_release junk st sv h s ev m : junk_ok junk -> msgs_ok h -> no_galileo sv h -> msg_ok m ->
  nav_run junk (nav_init st) h = Ok (s, ev) -> sf_gnss m = 0 -> sf_sv m = sv ->
  exists s' ev' r, convertUBX junk s m = Ok (s', ev', r) /\
    (t_full (t_recv (t_hist sv h) (sf_dw m)) = false -> ev' = []) /\
    (t_full (t_recv (t_hist sv h) (sf_dw m)) = true ->
      exists d m1 m2 m3, ev' = map (fun c => EvEph c d) (ecbs h) /\
        last_sf sv 1 (h ++ [NMsg m]) = Some m1 /\ last_sf sv 2 (h ++ [NMsg m]) = Some m2 /\
        last_sf sv 3 (h ++ [NMsg m]) = Some m3 /\ gps_content sv m1 m2 m3 d).
Proof.
  intros HJ HM HN Hm HR G SV. pose proof (hist_inv junk st sv HJ h s ev HM HN HR) as HI.
  assert (EG : is_gps sv m = true) by (unfold is_gps; lia).
  destruct (gps_message junk sv h s m HJ Hm EG HI) as (s' & d & EC & _ & _ & HD). rewrite EC.
  eexists s', _, _. split; [reflexivity|]. destruct (t_full _).
  - split; [discriminate|]. intros _. destruct HD as (m1 & m2 & m3 & r & E1 & E2 & E3 & -> & HCt).
    exists r, m1, m2, m3. cbn [calls_eph]. auto.
  - split; [|discriminate]. intros _. rewrite HD. reflexivity.
Qed.

(* the content of a subframe 3 has no influence on whether anything is released *)
Lemma sf3_not_examined junk st sv h s ev m m' : junk_ok junk -> msgs_ok h -> no_galileo sv h -> msg_ok m -> msg_ok m' ->
  nav_run junk (nav_init st) h = Ok (s, ev) -> sf_gnss m = 0 -> sf_sv m = sv -> sf_gnss m' = 0 -> sf_sv m' = sv ->
  gps_id (sf_dw m) = 3 -> gps_id (sf_dw m') = 3 ->
  exists s1 ev1 r1 s2 ev2 r2, convertUBX junk s m = Ok (s1, ev1, r1) /\ convertUBX junk s m' = Ok (s2, ev2, r2) /\ length ev1 = length ev2.
Proof.
  intros HJ HM HN Hm Hm' HR G SV G' SV' I3 I3'.
  destruct (gps_release junk st sv h s ev m HJ HM HN Hm HR G SV) as (s1 & ev1 & r1 & E1 & F1 & T1).
  destruct (gps_release junk st sv h s ev m' HJ HM HN Hm' HR G' SV') as (s2 & ev2 & r2 & E2 & F2 & T2).
  exists s1, ev1, r1, s2, ev2, r2. split; [exact E1|]. split; [exact E2|].
  assert (ET : t_recv (t_hist sv h) (sf_dw m) = t_recv (t_hist sv h) (sf_dw m')) by (unfold t_recv; rewrite I3, I3'; reflexivity).
  rewrite ET in *. destruct (t_full _).
  - destruct (T1 eq_refl) as (d1 & _ & _ & _ & -> & _). destruct (T2 eq_refl) as (d2 & _ & _ & _ & -> & _). rewrite !map_length. reflexivity.
  - rewrite F1, F2 by reflexivity. reflexivity.
Qed.

(* ------------------------------------------------ a complete set *)
(* traffic that neither repeats a subframe 1, 2 or 3 of satellite sv nor is a Galileo page of that number: messages of other
   numbers or constellations, the satellite's own subframes 4 and 5, and calls *)
Definition quiet_for (sv : Z) (h : list nop) : Prop := forall m, In (NMsg m) h -> sf_sv m = sv ->
  sf_gnss m <> 2 /\ (sf_gnss m = 0 -> gps_id (sf_dw m) <> 1 /\ gps_id (sf_dw m) <> 2 /\ gps_id (sf_dw m) <> 3).
Lemma t_hist_not_full sv h : t_full (t_hist sv h) = false.
Proof.
  destruct h as [|o h _] using rev_ind; [reflexivity|]. rewrite t_hist_snoc. revert o. unfold t_op.
  assert (H : forall x, t_full x = false -> forall o, t_full match o with NMsg m => if is_gps sv m then t_step x (sf_dw m) else x | _ => x end = false).
  { intros x Hx [m| | |]; try exact Hx. destruct (is_gps sv m); [|exact Hx]. unfold t_step. destruct (t_full (t_recv x (sf_dw m))) eqn:E; [reflexivity|exact E]. }
  intros o. apply H. clear o. induction h as [|o h IH] using rev_ind; [reflexivity|]. rewrite t_hist_snoc. apply H. exact IH.
Qed.
Lemma t_hist_quiet sv x : quiet_for sv x -> forall h, t_hist sv (h ++ x) = t_hist sv h /\
  forall k, k = 1 \/ k = 2 \/ k = 3 -> last_sf sv k (h ++ x) = last_sf sv k h.
Proof.
  induction x as [|o x IH] using rev_ind; intros HQ h; [rewrite app_nil_r; auto|].
  destruct (IH (fun m Hm => HQ m (in_or_app _ _ _ (or_introl Hm))) h) as [E1 E2].
  rewrite app_assoc. rewrite t_hist_snoc, E1. split; [|intros k Hk; rewrite last_sf_snoc, (E2 k Hk)].
  - destruct o as [m| | |]; try reflexivity. unfold t_op. destruct (is_gps sv m) eqn:E; [|reflexivity].
    unfold is_gps in E. destruct (HQ m) as [_ H]; [apply in_or_app; right; left; reflexivity|lia|]. destruct H as (H1 & H2 & H3); [lia|].
    unfold t_step. assert (ER : t_recv (t_hist sv h) (sf_dw m) = t_hist sv h).
    { unfold t_recv. replace (gps_id (sf_dw m) =? 1) with false by lia. replace (gps_id (sf_dw m) =? 2) with false by lia.
      replace (gps_id (sf_dw m) =? 3) with false by lia. reflexivity. }
    rewrite ER, t_hist_not_full. reflexivity.
  - destruct o as [m| | |]; try reflexivity. unfold l_op. destruct (is_gps sv m) eqn:E; [|reflexivity].
    unfold is_gps in E. destruct (HQ m) as [_ H]; [apply in_or_app; right; left; reflexivity|lia|]. destruct H as (H1 & H2 & H3); [lia|].
    cbn [andb]. replace (gps_id (sf_dw m) =? k) with false by lia. reflexivity.
Qed.
Lemma t_hist_gps sv h m : is_gps sv m = true -> t_hist sv (h ++ [NMsg m]) = t_step (t_hist sv h) (sf_dw m) /\
  forall k, last_sf sv k (h ++ [NMsg m]) = if gps_id (sf_dw m) =? k then Some (sf_dw m) else last_sf sv k h.
Proof.
  intros E. split; [rewrite t_hist_snoc; unfold t_op; rewrite E; reflexivity|].
  intros k. rewrite last_sf_snoc. unfold l_op. rewrite E. reflexivity.
Qed.

Definition no_pending (sv : Z) (h : list nop) : Prop :=
  tk1 (t_hist sv h) = None /\ tk2 (t_hist sv h) = None /\ tk3 (t_hist sv h) = None.
Definition gps_msg (sv k i : Z) (m : sfrbx) : Prop :=
  msg_ok m /\ sf_gnss m = 0 /\ sf_sv m = sv /\ gps_id (sf_dw m) = k /\ gps_issue (sf_dw m) = i.

Definition rc (t : track) (id iss : Z) : track :=
  if id =? 1 then mkT (Some iss) (tk2 t) (tk3 t) iss else if id =? 2 then mkT (tk1 t) (Some iss) (tk3 t) iss
  else if id =? 3 then mkT (tk1 t) (tk2 t) (Some (cur t)) (cur t) else t.
Lemma t_recv_rc t dw : t_recv t dw = rc t (gps_id dw) (gps_issue dw). Proof. reflexivity. Qed.
Lemma rc_six ka kb kc i c0 :
  (ka = 1 /\ kb = 2 /\ kc = 3) \/ (ka = 1 /\ kb = 3 /\ kc = 2) \/ (ka = 2 /\ kb = 1 /\ kc = 3) \/
  (ka = 2 /\ kb = 3 /\ kc = 1) \/ (ka = 3 /\ kb = 1 /\ kc = 2) \/ (ka = 3 /\ kb = 2 /\ kc = 1) ->
  t_full (rc (let t' := rc (let t' := rc (mkT None None None c0) ka i in if t_full t' then mkT None None None (cur t') else t') kb i in
    if t_full t' then mkT None None None (cur t') else t') kc i) = negb (ka =? 3) || (c0 =? i).
Proof.
  intros HK. repeat (destruct HK as [(-> & -> & ->)|HK]); [..|destruct HK as (-> & -> & ->)];
  cbn; rewrite ?Z.eqb_refl; try reflexivity; cbn; rewrite ?Z.eqb_refl; try reflexivity; cbn; try reflexivity; apply Z.eqb_sym.
Qed.
(* a, b, c: subframes ka, kb, kc (1, 2, 3 in some order) of one issue, with other traffic between them *)
Lemma gps_set junk st sv i h x y a b c ka kb kc s ev :
  junk_ok junk -> msgs_ok (h ++ [NMsg a] ++ x ++ [NMsg b] ++ y) -> no_galileo sv h -> quiet_for sv x -> quiet_for sv y ->
  no_pending sv h -> Permutation.Permutation [ka; kb; kc] [1; 2; 3] ->
  gps_msg sv ka i a -> gps_msg sv kb i b -> gps_msg sv kc i c ->
  nav_run junk (nav_init st) (h ++ [NMsg a] ++ x ++ [NMsg b] ++ y) = Ok (s, ev) ->
  exists s' ev' r, convertUBX junk s c = Ok (s', ev', r) /\
    (ka = 3 -> cur (t_hist sv h) <> i -> ev' = []) /\
    (ka <> 3 \/ cur (t_hist sv h) = i -> exists d m1 m2 m3, ev' = map (fun n => EvEph n d) (ecbs (h ++ x ++ y)) /\ gps_content sv m1 m2 m3 d /\
       Permutation.Permutation [(ka, sf_dw a); (kb, sf_dw b); (kc, sf_dw c)] [(1, m1); (2, m2); (3, m3)]).
Proof.
  intros HJ HM HN QX QY (P1 & P2 & P3) HP (Ma & Ga & Sa & Ia & Ua) (Mb & Gb & Sb & Ib & Ub) (Mc & Gc & Sc & Ic & Uc) HR.
  set (H := h ++ [NMsg a] ++ x ++ [NMsg b] ++ y) in *.
  assert (HNG : no_galileo sv H).
  { intros m Hm SV. unfold H in Hm. rewrite !in_app_iff in Hm. destruct Hm as [Hm|[Hm|[Hm|[Hm|Hm]]]].
    - exact (HN m Hm SV).
    - destruct Hm as [Hm|[]]. injection Hm as <-. lia.
    - exact (proj1 (QX m Hm SV)).
    - destruct Hm as [Hm|[]]. injection Hm as <-. lia.
    - exact (proj1 (QY m Hm SV)). }
  destruct (gps_release junk st sv H s ev c HJ HM HNG Mc HR Gc Sc) as (s' & ev' & r & EC & F & T).
  exists s', ev', r. split; [exact EC|].
  assert (EGa : is_gps sv a = true) by (unfold is_gps; lia). assert (EGb : is_gps sv b = true) by (unfold is_gps; lia).
  assert (EGc : is_gps sv c = true) by (unfold is_gps; lia).
  assert (EH : t_hist sv H = t_step (t_step (t_hist sv h) (sf_dw a)) (sf_dw b) /\
    forall k, k = 1 \/ k = 2 \/ k = 3 -> last_sf sv k H = if gps_id (sf_dw b) =? k then Some (sf_dw b) else if gps_id (sf_dw a) =? k then Some (sf_dw a) else last_sf sv k h).
  { replace H with ((((h ++ [NMsg a]) ++ x) ++ [NMsg b]) ++ y) by (unfold H; rewrite <- !app_assoc; reflexivity).
    destruct (t_hist_quiet sv y QY (((h ++ [NMsg a]) ++ x) ++ [NMsg b])) as [Y1 Y2].
    destruct (t_hist_gps sv ((h ++ [NMsg a]) ++ x) b EGb) as [B1 B2].
    destruct (t_hist_quiet sv x QX (h ++ [NMsg a])) as [X1 X2]. destruct (t_hist_gps sv h a EGa) as [A1' A2'].
    split; [rewrite Y1, B1, X1, A1'; reflexivity|]. intros k Hk. rewrite (Y2 k Hk), B2, (X2 k Hk), A2'. reflexivity. }
  destruct EH as [ET EL]. rewrite ET in F, T.
  assert (ECb : ecbs H = ecbs (h ++ x ++ y)).
  { unfold H, ecbs. rewrite !flat_map_app. reflexivity. }
  destruct (t_hist_gps sv H c EGc) as [_ LC]. rewrite !LC, (EL 1), (EL 2), (EL 3) in T by auto. rewrite Ia, Ib, Ic in T.
  assert (HK : (ka = 1 /\ kb = 2 /\ kc = 3) \/ (ka = 1 /\ kb = 3 /\ kc = 2) \/ (ka = 2 /\ kb = 1 /\ kc = 3) \/
    (ka = 2 /\ kb = 3 /\ kc = 1) \/ (ka = 3 /\ kb = 1 /\ kc = 2) \/ (ka = 3 /\ kb = 2 /\ kc = 1)).
  { assert (N : NoDup [ka; kb; kc]) by (apply (Permutation.Permutation_NoDup (Permutation.Permutation_sym HP)); repeat constructor; cbn; intuition discriminate).
    assert (I : forall z, In z [ka; kb; kc] -> z = 1 \/ z = 2 \/ z = 3).
    { intros z Hz. apply (Permutation.Permutation_in _ HP) in Hz. cbn in Hz. intuition. }
    pose proof (I ka ltac:(cbn; auto)) as I1. pose proof (I kb ltac:(cbn; auto)) as I2. pose proof (I kc ltac:(cbn; auto)) as I3.
    inversion N as [|? ? N1 N']. inversion N' as [|? ? N2 _]. cbn [In] in N1, N2.
    assert (M1 : kb <> ka) by tauto. assert (M2 : kc <> ka) by tauto. assert (M3 : kc <> kb) by tauto. clear - I1 I2 I3 M1 M2 M3. destruct I1 as [E1|[E1|E1]], I2 as [E2|[E2|E2]], I3 as [E3|[E3|E3]]; rewrite E1, E2, E3 in *; try congruence; tauto. }
  assert (TS : t_full (t_recv (t_step (t_step (t_hist sv h) (sf_dw a)) (sf_dw b)) (sf_dw c)) = negb (ka =? 3) || (cur (t_hist sv h) =? i)).
  { clear - HK P1 P2 P3 Ia Ib Ic Ua Ub Uc. unfold t_step. rewrite !t_recv_rc, Ia, Ib, Ic, Ua, Ub, Uc.
    destruct (t_hist sv h) as [x1 x2 x3 c0]. cbn [tk1 tk2 tk3 cur] in *. subst x1 x2 x3. apply rc_six. exact HK. }
  rewrite TS in F, T. split.
  - intros K NE. apply F. rewrite K. cbn [Z.eqb Pos.eqb negb orb]. lia.
  - intros HC. destruct T as (d & m1 & m2 & m3 & E1 & E2 & E3 & E4 & HCt); [destruct HC as [HC|HC]; lia|].
    exists d, m1, m2, m3. rewrite <- ECb. split; [exact E1|]. split; [exact HCt|]. clear Ia Ib Ic.
    repeat (destruct HK as [(K1 & K2 & K3)|HK]); [..|destruct HK as (K1 & K2 & K3)]; subst ka kb kc;
    cbn [Z.eqb Pos.eqb] in E2, E3, E4; injection E2 as <-; injection E3 as <-; injection E4 as <-.
    + reflexivity.
    + apply Permutation.perm_skip. apply Permutation.perm_swap.
    + apply Permutation.perm_swap.
    + etransitivity; [apply Permutation.perm_skip; apply Permutation.perm_swap|apply Permutation.perm_swap].
    + etransitivity; [apply Permutation.perm_swap|]. apply Permutation.perm_skip. apply Permutation.perm_swap.
    + etransitivity; [apply Permutation.perm_swap|]. etransitivity; [apply Permutation.perm_skip; apply Permutation.perm_swap|]. apply Permutation.perm_swap.
Qed.

(* ------------------------------------------------ parity *)
Definition same_data (dw dw' : list Z) : Prop := forall i, 0 <= i < 10 -> dword dw i / 64 mod 2 ^ 24 = dword dw' i / 64 mod 2 ^ 24.
Lemma same_dbit dw dw' : same_data dw dw' -> forall k, 0 <= k < 240 -> dbit dw k = dbit dw' k.
Proof.
  intros H k Hk. unfold dbit. pose proof (H (k / 24) ltac:(lia)) as E.
  assert (X : forall w, Z.testbit w (29 - k mod 24) = Z.testbit (w / 64 mod 2 ^ 24) (23 - k mod 24)).
  { intros w. rewrite Z.mod_pow2_bits_low by lia. change 64 with (2 ^ 6). rewrite Z.div_pow2_bits by lia. f_equal. lia. }
  rewrite X, E, <- X. reflexivity.
Qed.
Lemma same_dfield dw dw' : same_data dw dw' -> forall n p, 0 <= p -> p + Z.of_nat n <= 240 -> dfield dw p n = dfield dw' p n.
Proof.
  intros H. induction n as [|n IH]; intros p Hp Hn; [reflexivity|]. cbn [dfield]. rewrite IH, (same_dbit dw dw' H) by lia. reflexivity.
Qed.
Lemma same_dfieldS dw dw' : same_data dw dw' -> forall n p, 0 <= p < 240 -> p + Z.of_nat n <= 240 -> dfieldS dw p n = dfieldS dw' p n.
Proof. intros H n p Hp Hn. unfold dfieldS. rewrite (same_dbit dw dw' H), (same_dfield dw dw' H) by lia. reflexivity. Qed.
Ltac sd H := repeat match goal with |- context [dfield ?d ?p ?n] => rewrite (same_dfield d _ H n p) by lia | |- context [dfieldS ?d ?p ?n] => rewrite (same_dfieldS d _ H n p) by lia end.
Lemma decode_same junk junk' dw dw' e : junk_ok junk -> junk_ok junk' -> dw_ok dw -> dw_ok dw' -> same_data dw dw' ->
  decodeGPS junk dw e = decodeGPS junk' dw' e.
Proof.
  intros [J1 J2] [J3 J4] D D' H. rewrite !decodeGPS_ok by assumption. cbv zeta. unfold gps_id. rewrite (same_dfield dw dw' H 3 43) by lia.
  assert (E1 : forall e, sf1 dw e = sf1 dw' e).
  { intros e0. unfold sf1.
    rewrite (same_dfield dw dw' H 2 58), (same_dfield dw dw' H 4 60), (same_dfield dw dw' H 6 64), (same_dfield dw dw' H 1 72), (same_dfield dw dw' H 8 168),
      (same_dfield dw dw' H 16 176), (same_dfieldS dw dw' H 8 192), (same_dfieldS dw dw' H 16 200), (same_dfieldS dw dw' H 22 216), (same_dfieldS dw dw' H 8 160),
      (same_dfield dw dw' H 2 70), (same_dfield dw dw' H 10 48) by lia. reflexivity. }
  assert (E2 : forall e, sf2 dw e = sf2 dw' e).
  { intros e0. unfold sf2.
    rewrite (same_dfield dw dw' H 8 48), (same_dfieldS dw dw' H 16 56), (same_dfieldS dw dw' H 16 72), (same_dfieldS dw dw' H 32 88), (same_dfieldS dw dw' H 16 120),
      (same_dfield dw dw' H 32 136), (same_dfieldS dw dw' H 16 168), (same_dfield dw dw' H 32 184), (same_dfield dw dw' H 16 216), (same_dfield dw dw' H 1 232) by lia. reflexivity. }
  assert (E3 : forall e, sf3 dw e = sf3 dw' e).
  { intros e0. unfold sf3.
    rewrite (same_dfieldS dw dw' H 16 48), (same_dfieldS dw dw' H 32 64), (same_dfieldS dw dw' H 16 96), (same_dfieldS dw dw' H 32 112), (same_dfieldS dw dw' H 16 144),
      (same_dfieldS dw dw' H 32 160), (same_dfieldS dw dw' H 24 192), (same_dfield dw dw' H 8 216), (same_dfieldS dw dw' H 14 224) by lia. reflexivity. }
  rewrite E1, E2, E3. reflexivity.
Qed.
Lemma parity_ignored junk junk' s m dw' : junk_ok junk -> junk_ok junk' -> dw_ok (sf_dw m) -> dw_ok dw' -> sf_gnss m = 0 -> same_data (sf_dw m) dw' ->
  convertUBX junk s m = convertUBX junk' s (mkSf (sf_gnss m) (sf_sv m) (sf_freq m) dw').
Proof.
  intros J J' D D' G H. unfold convertUBX. cbn [sf_gnss sf_sv sf_freq sf_dw]. rewrite G. cbn [Z.eqb].
  destruct (slot _ _ _) as [l i]. rewrite (decode_same junk junk' (sf_dw m) dw' _ J J' D D' H). reflexivity.
Qed.
