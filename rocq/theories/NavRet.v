(* C59: the value convertUBX returns. *)
From Verif Require Import Base BitModel UtcModel UtcSpec Dbl NavModel NavSpec NavGpsSpec NavBits NavGps NavAcc NavObj NavGpsThm NavStrSpec NavStr NavGloSpec NavDay NavGlo NavGloThm.

Lemma finish_false e e' d b : gps_finish e = Ok (e', d, b) -> b = false.
Proof.
  unfold gps_finish. destruct (gps_complete e); [|congruence].
  destruct (fromGPS _ _) as [t|k]; cbn [bind]; [|discriminate]. destruct (fromGPS _ _) as [t2|k]; cbn [bind]; [|discriminate].
  cbv zeta. congruence.
Qed.
Lemma gps_result junk s m s' ev r : junk_ok junk -> msg_ok m -> sf_gnss m = 0 -> convertUBX junk s m = Ok (s', ev, r) ->
  r = Some (negb ((1 <=? gps_id (sf_dw m)) && (gps_id (sf_dw m) <=? 5))) /\ (forall c e, In (EvEph c e) ev -> r = Some false).
Proof.
  intros [J1 J2] (Hdw & _) G E. pose proof (convert_gps junk s m G) as HV. rewrite decodeGPS_ok in HV by assumption. cbv zeta in HV.
  set (e0 := seti FgnssID 0 (start_rec s m)) in HV. clearbody e0.
  assert (K : forall e1, match gps_finish e1 with
              | Ok (e', d, b) => exists s', convertUBX junk s m = Ok (s', calls_eph (n_ecb s) d, Some b) /\ eph_of s' (sf_sv m) = e' /\
                same_but s s' (sf_sv m) /\ n_rows s' = n_rows s /\ n_time s' = match d with Some e1 => e_toe e1 | None => n_time s end
              | UB k => convertUBX junk s m = UB k end -> r = Some false).
  { intros e1 H. destruct (gps_finish e1) as [((e', d), b)|k] eqn:EF; [|rewrite H in E; discriminate].
    apply finish_false in EF. subst b. destruct H as (x & EV & _). rewrite EV in E. congruence. }
  pose proof (dfield_range (sf_dw m) 43 3) as R. fold (gps_id (sf_dw m)) in R. change (2 ^ Z.of_nat 3) with 8 in R.
  destruct (Z.eqb_spec (gps_id (sf_dw m)) 1) as [X1|X1].
  { rewrite (K _ HV), X1. split; [reflexivity|auto]. }
  destruct (Z.eqb_spec (gps_id (sf_dw m)) 2) as [X2|X2].
  { rewrite (K _ HV), X2. split; [reflexivity|auto]. }
  destruct (Z.eqb_spec (gps_id (sf_dw m)) 3) as [X3|X3].
  { rewrite (K _ HV), X3. split; [reflexivity|auto]. }
  destruct HV as (x & EV & _). rewrite EV in E.
  assert (HE : ev = []) by (cbn [calls_eph] in E; congruence).
  assert (HR : r = Some ((gps_id (sf_dw m) =? 0) || (gps_id (sf_dw m) =? 6) || (gps_id (sf_dw m) =? 7))) by congruence.
  split; [rewrite HR; f_equal; lia|]. rewrite HE. intros c e [].
Qed.

Lemma glonass_result junk st sv h s ev m s' ev' r : msgs_ok h -> msg_ok m -> is_glo sv m = true ->
  clocks_ok (glog junk (nav_init st) sv h) -> clock_ok (n_time s) -> nav_run junk (nav_init st) h = Ok (s, ev) ->
  convertUBX junk s m = Ok (s', ev', r) ->
  let T := g_hist sv (glog junk (nav_init st) sv h) in let t := n_time s in let dw := sf_dw m in
  r = Some ((negb (sv =? 255) && negb ((sec t =? 0) && (nsec t =? 0)) && negb (str_accept (bn dw))) || g_fires sv T t dw).
Proof.
  intros HM Hm HG HC Ht HR E T t dw.
  pose proof (glo_hist junk st sv h s ev HM HC HR) as HI. destruct (gcb_hist junk h (nav_init st) s ev HR) as [HGc _]. cbn [nav_init n_gcb app] in HGc.
  pose proof (glo_message junk s m sv T (gcbs h) HGc Hm HG Ht HI) as HX. cbv zeta in HX. fold t dw in HX.
  destruct (g_usable sv t dw && late t dw); [rewrite HX in E; discriminate|].
  destruct HX as (x & g & EV & _). rewrite EV in E. congruence.
Qed.
