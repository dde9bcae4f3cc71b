(* What holds of every GLONASS ephemeris delivered (C55), over histories of calls; composition of NavGloThm.v. *)
From Verif Require Import Base UtcModel UtcSpec Dbl NavModel NavSpec NavGpsSpec NavStrSpec NavStr NavGloSpec NavGlo NavGloThm NavObj NavGpsThm.

Lemma delivered junk st sv h s ev m s' ev' r c g : msgs_ok h -> msg_ok m -> is_glo sv m = true ->
  clocks_ok (glog junk (nav_init st) sv h) -> clock_ok (n_time s) -> nav_run junk (nav_init st) h = Ok (s, ev) ->
  convertUBX junk s m = Ok (s', ev', r) -> In (EvGeph c g) ev' ->
  let T := g_hist sv (glog junk (nav_init st) sv h) in
  g_fires sv T (n_time s) (sf_dw m) = true /\ glo_content sv (sf_freq m) (g_step sv T (n_time s, sf_dw m)) g.
Proof.
  intros H1 H2 H3 H4 H5 H6 HC HI T. destruct (glonass_release junk st sv h s ev m H1 H2 H3 H4 H5 H6) as [A B]. cbv zeta in A, B.
  assert (D : ~ (g_usable sv (n_time s) (sf_dw m) = true /\ (str_no (sf_dw m) = 1 \/ str_no (sf_dw m) = 2) /\ 2147634000 <= sec (n_time s))).
  { intros (X1 & X2 & X3). rewrite (A X1 X2 X3) in HC. discriminate. }
  destruct (B D) as (s2 & g2 & r2 & EC & EG & _). fold T in EC, EG. rewrite HC in EC. assert (E : ev' = (if g_usable sv (n_time s) (sf_dw m) && ((1 <=? str_no (sf_dw m)) && (str_no (sf_dw m) <=? 4)) then [EvFell FN_GLOFRAME] else []) ++
       (if g_fires sv T (n_time s) (sf_dw m) then map (fun c => EvGeph c g2) (gcbs h) else [])) by congruence. clear EC HC. subst ev'.
  apply in_app_or in HI. destruct HI as [HI|HI].
  - destruct (g_usable _ _ _ && _); [destruct HI as [HI|[]]; discriminate|destruct HI].
  - destruct (g_fires sv T (n_time s) (sf_dw m)); [|destruct HI]. split; [reflexivity|]. apply in_map_iff in HI. destruct HI as (c' & E & _). assert (g2 = g) by congruence. subst g2. apply EG. reflexivity.
Qed.
Lemma hist_snoc sv L x : g_step sv (g_hist sv L) x = g_hist sv (L ++ [x]).
Proof. unfold g_hist. rewrite fold_left_app. reflexivity. Qed.
Lemma delivered_time_of_day junk st sv h s ev m s' ev' r c g : msgs_ok h -> msg_ok m -> is_glo sv m = true ->
  clocks_ok (glog junk (nav_init st) sv h) -> clock_ok (n_time s) -> nav_run junk (nav_init st) h = Ok (s, ev) ->
  convertUBX junk s m = Ok (s', ev', r) -> In (EvGeph c g) ev' ->
  let L := glog junk (nav_init st) sv h in
  exists m1 m2, from_log sv L 1 (str_mark (sf_dw m)) m1 /\ from_log sv L 2 (str_mark (sf_dw m)) m2 /\
  nsec (g_toe g) = 0 /\ nsec (g_tof g) = 0 /\
  (sec (g_tof g) + 10800) mod 86400 = (3600 * sfield m1 9 5 + 60 * sfield m1 14 6 + 30 * sfield m1 20 1) mod 86400 /\
  (sec (g_toe g) + 10800) mod 86400 = (900 * sfield m2 9 7) mod 86400.
Proof.
  intros H1 H2 H3 H4 H5 H6 HC HI L. destruct (delivered junk st sv h s ev m s' ev' r c g H1 H2 H3 H4 H5 H6 HC HI) as [HF HG]. fold L in HF, HG.
  destruct (fires_one_mark sv L (n_time s) (sf_dw m) HF) as (m1 & m2 & m3 & x1 & x2 & HM). cbv zeta in HM. destruct HM as (K1 & K2 & _ & _ & _ & _ & F1 & F2 & _).
  exists m1, m2. split; [exact F1|]. split; [exact F2|]. rewrite hist_snoc in *. exact (time_of_day sv (sf_freq m) (L ++ [(n_time s, sf_dw m)]) g m1 m2 x1 x2 HG K1 K2).
Qed.
Lemma delivered_within_12_hours junk st sv h s ev m s' ev' r c g L1 L2 a : msgs_ok h -> msg_ok m -> is_glo sv m = true ->
  clocks_ok (glog junk (nav_init st) sv h) -> clock_ok (n_time s) -> nav_run junk (nav_init st) h = Ok (s, ev) ->
  convertUBX junk s m = Ok (s', ev', r) -> In (EvGeph c g) ev' ->
  glog junk (nav_init st) sv h = L1 ++ L2 ->
  (forall t d, In (t, d) L2 -> inwin a t /\ tod_ok d) -> inwin a (n_time s) ->
  (exists t d, In (t, d) L2 /\ g_usable sv t d = true /\ str_no d = 1) -> (exists t d, In (t, d) L2 /\ g_usable sv t d = true /\ str_no d = 2) ->
  Z.abs (nanos (n_time s) - nanos (g_toe g)) <= H12 /\ Z.abs (nanos (n_time s) - nanos (g_tof g)) <= H12.
Proof.
  intros H1 H2 H3 H4 H5 H6 HC HI EL HW HN E1 E2. destruct (delivered junk st sv h s ev m s' ev' r c g H1 H2 H3 H4 H5 H6 HC HI) as [HF HG]. rewrite EL in *.
  apply (released_times sv L1 L2 a (n_time s) (sf_dw m) (sf_freq m) g); try assumption; [|apply H5].
  intros t d I. destruct (HW t d I) as [X1 X2]. split; [exact X1|]. split; [|exact X2]. assert (I' : In (t, d) (L1 ++ L2)) by (apply in_or_app; right; exact I). apply (H4 t d I').
Qed.
(* a rejected string: the value returned *)
Lemma rejected_result junk s m : msg_ok m -> sf_gnss m = 6 -> str_accept (bn (sf_dw m)) = false ->
  exists s', convertUBX junk s m = Ok (s', [], Some (negb (sf_sv m =? 255) && negb ((sec (n_time s) =? 0) && (nsec (n_time s) =? 0)))) /\
    geph_of s' (sf_sv m) = geph_of s (sf_sv m) /\ same_but_g s s' (sf_sv m).
Proof.
  intros (Hdw & _) G6 HA. pose proof (convert_glo junk s m G6) as HV.
  assert (HD : decodeGlonass (n_gcb s) (n_time s) 6 (sf_sv m) (sf_freq m) (sf_dw m) (geph_of s (sf_sv m)) =
     Ok (geph_of s (sf_sv m), [], negb (sf_sv m =? 255) && negb ((sec (n_time s) =? 0) && (nsec (n_time s) =? 0)))).
  { unfold decodeGlonass. destruct (sf_sv m =? 255); [reflexivity|]. unfold utc_eq. cbn [sec nsec]. destruct ((sec (n_time s) =? 0) && (nsec (n_time s) =? 0)); [reflexivity|]. cbv zeta. rewrite gloTest_ok by apply Hdw. rewrite HA. reflexivity. }
  rewrite HD in HV. destruct HV as (s' & E1 & E2 & E3). exists s'. auto.
Qed.
