(* The navigation parser's clock over a whole history of calls, and what follows while it has never been set. *)
From Verif Require Import Base UtcModel Dbl NavModel NavSpec NavObj NavGpsThm NavGloThm ExSatThm.

(* ---------------------------------------------------------------- specification *)
(* the times the parser was told, in order: by setGPSTime, and by the GPS messages that made a delivery (the reference time of the
   record delivered) *)
Fixpoint heard (junk : list Z) (s : nav) (h : list nop) : list utc :=
  match h with
  | [] => []
  | o :: r =>
      match nav_step junk s o with
      | UB _ => []
      | Ok (s', ev) => match o with
                       | NTime t => [t]
                       | NMsg m => if sf_gnss m =? 0 then match ev with EvEph _ e :: _ => [e_toe e] | _ => [] end else []
                       | _ => []
                       end ++ heard junk s' r
      end
  end.
Definition never_set : utc := mkUtc 0 0.

(* ---------------------------------------------------------------- proof *)
Lemma last_cons_app {A} (a b : list A) (d : A) : last (a ++ b) d = last b (last a d).
Proof.
  revert d. induction a as [|x a IH]; intros d; [reflexivity|]. destruct a as [|y a].
  - cbn [app last]. destruct b as [|z b]; [reflexivity|]. cbn [last]. clear IH. revert z. induction b as [|w b IHb]; intros z; [reflexivity|apply IHb].
  - change (last ((x :: y :: a) ++ b) d) with (last ((y :: a) ++ b) d). change (last (x :: y :: a) d) with (last (y :: a) d). apply IH.
Qed.
Lemma ecb_step junk s o s' ev : nav_step junk s o = Ok (s', ev) -> n_ecb s <> [] -> n_ecb s' <> [].
Proof.
  intros E N. destruct o as [m|t|c|c]; cbn [nav_step] in E.
  - apply bindE in E. destruct E as ([[s1 e1] r] & E1 & E). assert (s' = s1) by congruence. subst s1.
    destruct (Z.eq_dec (sf_gnss m) 0) as [G|G0]; [|destruct (Z.eq_dec (sf_gnss m) 2) as [G|G2]; [|destruct (Z.eq_dec (sf_gnss m) 6) as [G|G6]]].
    + pose proof (convert_gps junk s m G) as HV. destruct (decodeGPS _ _ _) as [((e', d), b')|k]; [|congruence]. destruct HV as (x & EV & _ & SB & _). assert (s' = x) by congruence. subst x. destruct SB as (_ & _ & SB & _). congruence.
    + pose proof (convert_gal junk s m G) as HV. destruct (decodeGalileo _ _ _ _) as [(((st, e'), d), b')|k]; [|congruence]. destruct HV as (x & EV & _ & SB & _). assert (s' = x) by congruence. subst x. destruct SB as (_ & _ & SB & _). congruence.
    + pose proof (convert_glo junk s m G) as HV. destruct (decodeGlonass _ _ _ _ _ _ _) as [((g', d), b')|k]; [|congruence]. destruct HV as (x & EV & _ & SB). assert (s' = x) by congruence. subst x. destruct SB as (_ & _ & SB & _). congruence.
    + destruct (convert_other junk s m G0 G2 G6) as (x & EV & _ & SB & _). assert (s' = x) by congruence. subst x. destruct SB as (_ & _ & SB & _). congruence.
  - assert (s' = nav_settime s t) by congruence. subst. exact N.
  - assert (s' = nav_ecb s c) by congruence. subst. cbn [nav_ecb n_ecb]. destruct (n_ecb s); discriminate.
  - assert (s' = nav_gcb s c) by congruence. subst. exact N.
Qed.
Lemma clock_run junk : forall h s s' ev, n_ecb s <> [] -> nav_run junk s h = Ok (s', ev) -> n_time s' = last (heard junk s h) (n_time s).
Proof.
  induction h as [|o h IH]; intros s s' ev N E; cbn [nav_run] in E; [assert (s' = s) by congruence; subst; reflexivity|].
  apply bindE in E. destruct E as ([s1 e1] & E1 & E). apply bindE in E. destruct E as ([s2 e2] & E2 & E). assert (s' = s2) by congruence. subst s2. clear E.
  cbn [heard]. rewrite E1. rewrite last_cons_app. pose proof (clock junk s o s1 e1 E1) as C. rewrite (IH s1 s' e2 (ecb_step _ _ _ _ _ E1 N) E2). f_equal.
  destruct o as [m|t|c|c]; [|exact C|exact C|exact C]. destruct (sf_gnss m =? 0); [|exact C]. destruct C as (d & -> & C). rewrite C. destruct d as [e|]; cbn [calls_eph]; [|reflexivity].
  destruct (n_ecb s) as [|c cs]; [congruence|reflexivity].
Qed.
Lemma clock_of_history junk st c h s ev : nav_run junk (nav_init st) (NEcb c :: h) = Ok (s, ev) ->
  n_time s = last (heard junk (nav_ecb (nav_init st) c) h) never_set.
Proof.
  intros E. cbn [nav_run nav_step bind] in E. apply bindE in E. destruct E as ([s2 e2] & E2 & E). assert (s = s2) by congruence. subst s2.
  rewrite (clock_run junk h (nav_ecb (nav_init st) c) s e2); [reflexivity|discriminate|exact E2].
Qed.

Lemma glo_unset junk s m : sf_gnss m = 6 -> n_time s = never_set -> exists s', convertUBX junk s m = Ok (s', [], Some false) /\ n_time s' = never_set.
Proof.
  intros G T. pose proof (convert_glo junk s m G) as HV. rewrite T in HV.
  assert (HD : decodeGlonass (n_gcb s) never_set 6 (sf_sv m) (sf_freq m) (sf_dw m) (geph_of s (sf_sv m)) = Ok (geph_of s (sf_sv m), [], false)).
  { unfold decodeGlonass. destruct (sf_sv m =? 255); reflexivity. }
  rewrite HD in HV. destruct HV as (s' & E & _ & SB). exists s'. split; [exact E|]. destruct SB as (_ & _ & _ & _ & SB & _). congruence.
Qed.
Lemma silent_run junk : forall h s s' ev, n_ecb s <> [] -> n_time s = never_set -> heard junk s h = [] -> nav_run junk s h = Ok (s', ev) ->
  n_time s' = never_set /\ (forall c g, ~ In (EvGeph c g) ev).
Proof.
  induction h as [|o h IH]; intros s s' ev N T HH E; cbn [nav_run] in E; [assert (s' = s) by congruence; assert (ev = []) by congruence; subst; split; [exact T|intros c g []]|].
  apply bindE in E. destruct E as ([s1 e1] & E1 & E). apply bindE in E. destruct E as ([s2 e2] & E2 & E). assert (s' = s2) by congruence. assert (ev = (e1 ++ e2)%list) by congruence. subst s2 ev. clear E.
  assert (T1 : n_time s1 = never_set).
  { assert (R : nav_run junk s [o] = Ok (s1, (e1 ++ [])%list)) by (cbn [nav_run]; rewrite E1; reflexivity). rewrite (clock_run junk [o] s s1 _ N R).
    cbn [heard] in HH |- *. rewrite E1 in HH |- *. apply app_eq_nil in HH. destruct HH as [-> _]. exact T. }
  assert (HH1 : heard junk s1 h = []) by (cbn [heard] in HH; rewrite E1 in HH; apply app_eq_nil in HH; apply HH).
  destruct (IH s1 s' e2 (ecb_step _ _ _ _ _ E1 N) T1 HH1 E2) as [T2 Q]. split; [exact T2|].
  intros c g I. apply in_app_or in I. destruct I as [I|I]; [|exact (Q c g I)].
  destruct o as [m|t|c'|c']; cbn [nav_step] in E1; try (assert (X : e1 = []) by congruence; rewrite X in I; exact I).
  apply bindE in E1. destruct E1 as ([[s3 e3] r] & E3 & E1). assert (e1 = e3) by congruence. subst e3.
  pose proof (convert_origin _ _ _ _ _ _ E3) as O. rewrite Forall_forall in O. specialize (O _ I). cbn [origin] in O. destruct O as (m' & [M|[]] & G & _). assert (m' = m) by congruence. subst m'.
  destruct (glo_unset junk s m G T) as (x & EX & _). assert (X : e1 = []) by congruence. rewrite X in I. exact I.
Qed.
Lemma silent_until_told junk st c h s ev : heard junk (nav_ecb (nav_init st) c) h = [] -> nav_run junk (nav_init st) (NEcb c :: h) = Ok (s, ev) ->
  (forall c' g, ~ In (EvGeph c' g) ev) /\ (forall m, sf_gnss m = 6 -> exists s', convertUBX junk s m = Ok (s', [], Some false)).
Proof.
  intros HH E. cbn [nav_run nav_step bind] in E. apply bindE in E. destruct E as ([s2 e2] & E2 & E). assert (s = s2) by congruence. assert (ev = e2) by (cbn [app] in E; congruence). subst s2 ev.
  destruct (silent_run junk h (nav_ecb (nav_init st) c) s e2) as [T Q]; [discriminate|reflexivity|exact HH|exact E2|]. split; [exact Q|].
  intros m G. destruct (glo_unset junk s m G T) as (x & EX & _). exists x. exact EX.
Qed.
