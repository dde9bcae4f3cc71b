(* Proofs about UtcShow.v. *)
From Coq Require Import String Ascii.
From Verif Require Import Base TextSpec UtcModel UtcSpec UtcProofs Calendar Dbl ExShow ExShowThm UtcShow.
Local Open Scope string_scope.
Local Open Scope Z_scope.

(* ---------------------------------------------------------------- civil counts days *)
Definition shift (k : Z) (x : date) : date := let '(y, m, d) := x in (y + 400 * k, m, d).
Definition validb (x : date) : bool := let '(y, m, d) := x in (1 <=? m) && (m <=? 12) && (1 <=? d) && (d <=? month_days y m).
Lemma leap_400 y k : leap (y + 400 * k) = leap y.
Proof.
  unfold leap. replace ((y + 400 * k) mod 4) with (y mod 4) by (rewrite Z.mul_comm; replace (k * 400) with ((k * 100) * 4) by ring; rewrite Z.mod_add; lia).
  replace ((y + 400 * k) mod 100) with (y mod 100) by (replace (400 * k) with ((4 * k) * 100) by ring; rewrite Z.mod_add; lia).
  replace ((y + 400 * k) mod 400) with (y mod 400) by (rewrite (Z.mul_comm 400 k), Z.mod_add; lia). reflexivity.
Qed.
Lemma month_400 y k m : month_days (y + 400 * k) m = month_days y m.
Proof. unfold month_days. rewrite leap_400. reflexivity. Qed.
Lemma tomorrow_shift k x : tomorrow (shift k x) = shift k (tomorrow x).
Proof.
  destruct x as [[y m] d]. unfold shift, tomorrow. rewrite month_400. destruct (d <? month_days y m); [reflexivity|]. destruct (m <? 12); [reflexivity|]. f_equal. f_equal. ring.
Qed.
Lemma valid_shift k x : valid (shift k x) <-> valid x.
Proof. destruct x as [[y m] d]. unfold shift, valid. rewrite month_400. tauto. Qed.
Lemma civil_shift n k : civil (n + 146097 * k) = shift k (civil n).
Proof.
  unfold civil. replace (n + 146097 * k + 719468) with (n + 719468 + k * 146097) by ring. rewrite Z.div_add, Z.mod_add by lia.
  unfold shift. f_equal. f_equal. ring.
Qed.
(* years of a cycle, counted from 1 March: first day, length, and the formula of civil for the year of a day *)
Definition ystart (y : Z) : Z := 365 * y + y / 4 - y / 100.
Definition ylen (y : Z) : Z := if leap (y + 1) then 366 else 365.
Definition yform (x : Z) : Z := x - x / 1460 + x / 36524 - x / 146096.
Lemma yform_step x : 0 <= x -> yform x <= yform (x + 1).
Proof.
  intros H. unfold yform.
  assert (E1 : (x + 1) / 1460 <= x / 1460 + 1) by lia.
  assert (E2 : (x + 1) / 146096 - x / 146096 <= (x + 1) / 36524 - x / 36524).
  { change 146096 with (36524 * 4). rewrite <- !Z.div_div by lia.
    assert (A : x / 36524 <= (x + 1) / 36524 <= x / 36524 + 1) by lia. set (p := x / 36524) in *. set (q := (x + 1) / 36524) in *. clearbody p q. lia. }
  lia.
Qed.
Lemma yform_mono a b : 0 <= a <= b -> yform a <= yform b.
Proof.
  intros H. replace b with (a + Z.of_nat (Z.to_nat (b - a))) by lia. induction (Z.to_nat (b - a)) as [|k IH]; [rewrite Z.add_0_r; lia|].
  etransitivity; [exact IH|]. replace (a + Z.of_nat (S k)) with (a + Z.of_nat k + 1) by lia. apply yform_step. lia.
Qed.
Fixpoint years (fuel : nat) (y : Z) : bool :=
  match fuel with O => true | S f =>
    (yform (ystart y) / 365 =? y) && (yform (ystart y + ylen y - 1) / 365 =? y) &&
    (ystart y + ylen y =? (if y =? 399 then 146097 else ystart (y + 1))) && years f (y + 1) end.
Lemma years_ok : years 400 0 = true. Proof. vm_compute. reflexivity. Qed.
Lemma years_spec fuel : forall y z, years fuel y = true -> y <= z < y + Z.of_nat fuel ->
  yform (ystart z) / 365 = z /\ yform (ystart z + ylen z - 1) / 365 = z /\ ystart z + ylen z = (if z =? 399 then 146097 else ystart (z + 1)).
Proof.
  induction fuel as [|f IH]; intros y z H Hz; [lia|]. cbn [years] in H. rewrite !andb_true_iff, !Z.eqb_eq in H. destruct H as (((A & B) & C) & D).
  destruct (Z.eq_dec z y) as [->|Hn]; [auto|]. apply (IH (y + 1)); [exact D|lia].
Qed.
Lemma in_year x y : 0 <= y < 400 -> ystart y <= x < ystart y + ylen y -> yform x / 365 = y.
Proof.
  intros Hy Hx. destruct (years_spec 400 0 y years_ok ltac:(lia)) as (A & B & _).
  assert (P : 0 <= ystart y) by (unfold ystart; lia).
  pose proof (yform_mono (ystart y) x ltac:(lia)). pose proof (yform_mono x (ystart y + ylen y - 1) ltac:(lia)).
  set (a := yform (ystart y)) in *. set (c := yform (ystart y + ylen y - 1)) in *. set (v := yform x) in *. clearbody a c v. lia.
Qed.
Lemma find_year x : 0 <= x < 146097 -> exists y, 0 <= y < 400 /\ ystart y <= x < ystart y + ylen y.
Proof.
  intros Hx. assert (P : forall k : nat, (k < 400)%nat -> x < ystart (Z.of_nat k) + ylen (Z.of_nat k) -> exists y, 0 <= y < 400 /\ ystart y <= x < ystart y + ylen y).
  { induction k as [|k IH]; intros Hk HL.
    - exists 0. split; [lia|]. split; [exact (proj1 Hx)|exact HL].
    - destruct (Z.ltb_spec x (ystart (Z.of_nat (S k)))) as [H|H].
      + apply IH; [lia|]. destruct (years_spec 400 0 (Z.of_nat k) years_ok ltac:(lia)) as (_ & _ & C).
        destruct (Z.eqb_spec (Z.of_nat k) 399); [lia|]. rewrite C. replace (Z.of_nat k + 1) with (Z.of_nat (S k)) by lia. exact H.
      + exists (Z.of_nat (S k)). split; [lia|]. lia. }
  apply (P 399%nat); [lia|]. destruct (years_spec 400 0 399 years_ok ltac:(lia)) as (_ & _ & C). change (Z.of_nat 399) with 399. rewrite C. exact (proj2 Hx).
Qed.

(* days of a year that starts on 1 March of year y *)
Definition dat (y doy : Z) : date :=
  let mp := (5 * doy + 2) / 153 in
  let m := if mp <? 10 then mp + 3 else mp - 9 in
  (y + (if m <=? 2 then 1 else 0), m, doy - (153 * mp + 2) / 5 + 1).
Definition same (x y : date) : bool := let '(a, b, c) := x in let '(d, e, f) := y in (a =? d) && (b =? e) && (c =? f).
Lemma same_eq x y : same x y = true -> x = y.
Proof. destruct x as [[a b] c], y as [[d e] f]. cbn. rewrite !andb_true_iff, !Z.eqb_eq. intros ((-> & ->) & ->). reflexivity. Qed.
Fixpoint days (fuel : nat) (y doy : Z) : bool :=
  match fuel with O => true | S f =>
    validb (dat y doy) && same (tomorrow (dat y doy)) (match f with O => (y + 1, 3, 1) | _ => dat y (doy + 1) end) && days f y (doy + 1) end.
Lemma days_spec fuel : forall y doy k, days fuel y doy = true -> doy <= k < doy + Z.of_nat fuel ->
  validb (dat y k) = true /\ tomorrow (dat y k) = if k =? doy + Z.of_nat fuel - 1 then (y + 1, 3, 1) else dat y (k + 1).
Proof.
  induction fuel as [|f IH]; intros y doy k H Hk; [lia|]. cbn [days] in H. rewrite !andb_true_iff in H. destruct H as ((A & B) & C).
  destruct (Z.eq_dec k doy) as [->|Hn].
  - split; [exact A|]. rewrite (same_eq _ _ B). destruct f as [|f]; [replace (doy =? _) with true by lia; reflexivity|].
    replace (doy =? _) with false by lia. reflexivity.
  - destruct (IH y (doy + 1) k C ltac:(lia)) as [V T]. split; [exact V|]. rewrite T. replace (doy + 1 + Z.of_nat f - 1) with (doy + Z.of_nat (S f) - 1) by lia. reflexivity.
Qed.
Lemma days_leap : days 366 3 0 = true. Proof. vm_compute. reflexivity. Qed.
Lemma days_plain : days 365 4 0 = true. Proof. vm_compute. reflexivity. Qed.
Definition later (k : Z) (x : date) : date := let '(y, m, d) := x in (y + k, m, d).
Lemma dat_later y k doy : dat (y + k) doy = later k (dat y doy).
Proof. unfold dat, later. f_equal. f_equal. ring. Qed.
(* only February looks at the year, and its year is the next one *)
Lemma month_same y y' m : leap (y + 1) = leap (y' + 1) -> month_days (y + (if m <=? 2 then 1 else 0)) m = month_days (y' + (if m <=? 2 then 1 else 0)) m.
Proof. intros H. unfold month_days. destruct (Z.eqb_spec m 2) as [->|_]; [cbn; rewrite H; reflexivity|reflexivity]. Qed.
Lemma dat_step y doy : 0 <= doy < ylen y -> validb (dat y doy) = true /\ tomorrow (dat y doy) = if doy =? ylen y - 1 then (y + 1, 3, 1) else dat y (doy + 1).
Proof.
  intros H.
  assert (TR : forall y0, leap (y0 + 1) = leap (y + 1) -> validb (dat y0 doy) = true ->
    tomorrow (dat y0 doy) = (if doy =? ylen y - 1 then (y0 + 1, 3, 1) else dat y0 (doy + 1)) ->
    validb (dat y doy) = true /\ tomorrow (dat y doy) = if doy =? ylen y - 1 then (y + 1, 3, 1) else dat y (doy + 1)).
  { intros y0 HL V T.
    assert (E1 : (if doy =? ylen y - 1 then (y + 1, 3, 1) else dat y (doy + 1)) = later (y - y0) (if doy =? ylen y - 1 then (y0 + 1, 3, 1) else dat y0 (doy + 1))).
    { destruct (doy =? ylen y - 1); [cbn; f_equal; f_equal; ring|]. rewrite <- dat_later. f_equal. ring. }
    enough (G : validb (dat y doy) = true /\ tomorrow (dat y doy) = later (y - y0) (tomorrow (dat y0 doy))) by (destruct G as [G1 G2]; split; [exact G1|]; etransitivity; [exact G2|]; rewrite T; symmetry; exact E1).
    clear E1 T. revert V. unfold dat. cbv zeta. set (mp := (5 * doy + 2) / 153). set (m := if mp <? 10 then mp + 3 else mp - 9). set (d := doy - (153 * mp + 2) / 5 + 1).
    unfold validb, tomorrow, later. rewrite (month_same y0 y m HL). intros V. split; [exact V|].
    destruct (d <? _); [f_equal; f_equal; ring|]. destruct (m <? 12); f_equal; f_equal; ring. }
  unfold ylen in H. destruct (leap (y + 1)) eqn:EL.
  - destruct (days_spec 366 3 0 doy days_leap ltac:(lia)) as [V T]. apply (TR 3); [reflexivity|exact V|]. rewrite T. unfold ylen. rewrite EL. reflexivity.
  - destruct (days_spec 365 4 0 doy days_plain ltac:(lia)) as [V T]. apply (TR 4); [reflexivity|exact V|]. rewrite T. unfold ylen. rewrite EL. reflexivity.
Qed.
Lemma civil_dat y doy : 0 <= y < 400 -> 0 <= doy < ylen y -> ystart y + doy < 146097 -> civil (ystart y + doy - 719468) = dat y doy.
Proof.
  intros Hy Hd HL. assert (P : 0 <= ystart y) by (unfold ystart; lia). unfold civil. replace (ystart y + doy - 719468 + 719468) with (ystart y + doy) by ring.
  rewrite (Z.div_small (ystart y + doy) 146097), (Z.mod_small (ystart y + doy) 146097) by lia. fold (yform (ystart y + doy)). cbv zeta.
  rewrite (in_year (ystart y + doy) y Hy) by lia. fold (ystart y). replace (ystart y + doy - ystart y) with doy by ring.
  unfold dat. f_equal. f_equal. ring.
Qed.
Lemma civil_step n : valid (civil n) /\ tomorrow (civil n) = civil (n + 1).
Proof.
  set (x := (n + 719468) mod 146097). set (k := (n + 719468) / 146097).
  assert (E : n = x - 719468 + 146097 * k) by (unfold x, k; lia). assert (B : 0 <= x < 146097) by (unfold x; lia). clearbody x k. subst n.
  replace (x - 719468 + 146097 * k + 1) with (x + 1 - 719468 + 146097 * k) by ring. rewrite !civil_shift, tomorrow_shift, valid_shift.
  destruct (find_year x B) as (y & Hy & Hx). destruct (years_spec 400 0 y years_ok ltac:(lia)) as (_ & _ & C).
  set (doy := x - ystart y). assert (Ex : x = ystart y + doy) by (unfold doy; ring). assert (Hd : 0 <= doy < ylen y) by lia. clearbody doy. subst x.
  rewrite (civil_dat y doy Hy Hd) by lia. destruct (dat_step y doy Hd) as [V T]. split.
  - destruct (dat y doy) as [[a b] c]. cbn in V. rewrite !andb_true_iff, !Z.leb_le in V. cbn. lia.
  - rewrite T. clear T V. destruct (Z.eqb_spec doy (ylen y - 1)) as [->|Hn].
    + replace (ystart y + (ylen y - 1) + 1 - 719468) with (ystart y + ylen y - 719468) by ring. rewrite C. destruct (Z.eqb_spec y 399) as [->|H9].
      * vm_compute (civil _). reflexivity.
      * replace (ystart (y + 1) - 719468) with (ystart (y + 1) + 0 - 719468) by ring.
        destruct (years_spec 400 0 (y + 1) years_ok ltac:(lia)) as (_ & _ & C1).
        assert (0 < ylen (y + 1)) by (unfold ylen; destruct (leap (y + 1 + 1)); lia).
        rewrite (civil_dat (y + 1) 0); [|lia|lia|].
        -- f_equal. unfold dat. cbn. f_equal. f_equal. ring.
        -- clear C C1 Hx Hd. unfold ystart. lia.
    + replace (ystart y + doy + 1 - 719468) with (ystart y + (doy + 1) - 719468) by ring. rewrite civil_dat; [reflexivity|exact Hy|lia|].
      destruct (Z.eqb_spec y 399) as [->|H9]; [lia|]. unfold ystart in *. lia.
Qed.
Lemma month_pos y m : 28 <= month_days y m <= 31.
Proof. unfold month_days. destruct (m =? 2), (leap y), (m =? 4), (m =? 6), (m =? 9), (m =? 11); cbn; lia. Qed.
Lemma tomorrow_inj x y : valid x -> valid y -> tomorrow x = tomorrow y -> x = y.
Proof.
  destruct x as [[y1 m1] d1], y as [[y2 m2] d2]. unfold valid, tomorrow. intros H1 H2 E. pose proof (month_pos y1 m1). pose proof (month_pos y2 m2).
  destruct (Z.ltb_spec d1 (month_days y1 m1)), (Z.ltb_spec d2 (month_days y2 m2)), (Z.ltb_spec m1 12), (Z.ltb_spec m2 12); try (exfalso; congruence || (injection E; lia));
    assert (X : y1 = y2 /\ m1 = m2) by (injection E; lia); destruct X as [-> ->]; f_equal; (lia || (injection E; lia)).
Qed.
Lemma on_day_civil n : on_day n (civil n).
Proof.
  assert (P : forall k : nat, on_day (Z.of_nat k) (civil (Z.of_nat k))).
  { induction k as [|k IH]; [exact D_epoch|]. replace (Z.of_nat (S k)) with (Z.of_nat k + 1) by lia. rewrite <- (proj2 (civil_step (Z.of_nat k))). apply D_next. exact IH. }
  assert (Q : forall k : nat, on_day (- Z.of_nat k) (civil (- Z.of_nat k))).
  { induction k as [|k IH]; [exact D_epoch|]. apply D_prev; [apply civil_step|]. rewrite (proj2 (civil_step _)). replace (- Z.of_nat (S k) + 1) with (- Z.of_nat k) by lia. exact IH. }
  destruct (Z_le_gt_dec 0 n); [specialize (P (Z.to_nat n)); rewrite Z2Nat.id in P by lia; exact P|].
  specialize (Q (Z.to_nat (- n))). rewrite Z2Nat.id in Q by lia. rewrite Z.opp_involutive in Q. exact Q.
Qed.
Lemma on_day_is n x : on_day n x -> x = civil n.
Proof.
  induction 1 as [|n x H IH|n x V H IH]; [vm_compute; reflexivity| |].
  - subst x. apply civil_step.
  - apply tomorrow_inj; [exact V|apply civil_step|]. rewrite IH. symmetry. apply civil_step.
Qed.
Lemma on_day_fun n x y : on_day n x -> on_day n y -> x = y.
Proof. intros A B. apply on_day_is in A, B. congruence. Qed.
(* the other direction: dates do not repeat *)
Definition before (x y : date) : Prop :=
  let '(y1, m1, d1) := x in let '(y2, m2, d2) := y in y1 < y2 \/ y1 = y2 /\ (m1 < m2 \/ m1 = m2 /\ d1 < d2).
Lemma before_trans x y z : before x y -> before y z -> before x z.
Proof. destruct x as [[? ?] ?], y as [[? ?] ?], z as [[? ?] ?]. unfold before. lia. Qed.
Lemma before_tomorrow x : before x (tomorrow x).
Proof. destruct x as [[y m] d]. unfold tomorrow. destruct (d <? month_days y m); [cbn; lia|]. destruct (m <? 12); cbn; lia. Qed.
Lemma civil_increases n k : n < k -> before (civil n) (civil k).
Proof.
  intros H. assert (P : forall j : nat, before (civil n) (civil (n + 1 + Z.of_nat j))).
  { induction j as [|j IH].
    - rewrite Z.add_0_r. rewrite <- (proj2 (civil_step n)). apply before_tomorrow.
    - eapply before_trans; [exact IH|]. replace (n + 1 + Z.of_nat (S j)) with (n + 1 + Z.of_nat j + 1) by lia. rewrite <- (proj2 (civil_step _)). apply before_tomorrow. }
  specialize (P (Z.to_nat (k - n - 1))). rewrite Z2Nat.id in P by lia. replace (n + 1 + (k - n - 1)) with k in P by lia. exact P.
Qed.
Lemma civil_inj n k : civil n = civil k -> n = k.
Proof.
  intros H. destruct (Z.lt_trichotomy n k) as [L|[L|L]]; [|exact L|]; apply civil_increases in L; rewrite H in L; destruct (civil k) as [[? ?] ?]; cbn in L; lia.
Qed.
(* the year of a day *)
Lemma civil_year n : - 2 ^ 36 <= n <= 2 ^ 36 -> let '(y, _, _) := civil n in - 2 ^ 31 <= y - 1900 /\ y < 2 ^ 31.
Proof.
  intros H. unfold civil. set (z := n + 719468). pose proof (Z.mod_pos_bound z 146097 ltac:(lia)) as B. set (doe := z mod 146097) in *.
  assert (Y : 0 <= (doe - doe / 1460 + doe / 36524 - doe / 146096) / 365 <= 400) by (clearbody doe; clear H; lia).
  set (yoe := (doe - doe / 1460 + doe / 36524 - doe / 146096) / 365) in *.
  assert (E : - 2 ^ 36 / 146097 - 10 <= z / 146097 <= 2 ^ 36 / 146097 + 10) by (subst z; change (2 ^ 36) with 68719476736 in *; lia).
  set (era := z / 146097) in *. clearbody era yoe. change (- 2 ^ 36 / 146097) with (-470369) in E. change (2 ^ 36 / 146097) with 470368 in E. change (2 ^ 31) with 2147483648.
  match goal with |- context [if ?c then 1 else 0] => destruct c end; lia.
Qed.

(* ---------------------------------------------------------------- the text *)
Definition stamp (x : date) (h mi s : Z) : string :=
  let '(y, m, d) := x in number y ++ "/" ++ number m ++ "/" ++ number d ++ " " ++ number h ++ ":" ++ number mi ++ ":" ++ number s.
Definition printable (t : utc) : Prop := - (604800 * 2 ^ 31) - 604800 < sec t < 604800 * 2 ^ 31.

Lemma weeks_ok t : - 2 ^ 63 <= sec t < 2 ^ 63 ->
  d2i32 (rnd53 (Z.quot (sec t) SEC_IN_WEEK)) = if (- (604800 * 2 ^ 31) - 604800 <? sec t) && (sec t <? 604800 * 2 ^ 31) then Ok (Z.quot (sec t) 604800) else UB UB_convert.
Proof.
  intros H. unfold SEC_IN_WEEK. change (2 ^ 63) with 9223372036854775808 in H. set (q := Z.quot (sec t) 604800).
  assert (E : sec t = 604800 * q + Z.rem (sec t) 604800) by apply Z.quot_rem'.
  assert (B : (0 <= sec t -> 0 <= Z.rem (sec t) 604800 < 604800) /\ (sec t <= 0 -> -604800 < Z.rem (sec t) 604800 <= 0)).
  { split; intros S; [apply Z.rem_bound_pos; lia|]. pose proof (Z.rem_bound_pos (- sec t) 604800 ltac:(lia) ltac:(lia)). rewrite Z.rem_opp_l in * by lia. lia. }
  set (r := Z.rem (sec t) 604800) in *. clearbody q r. destruct B as [B1 B2]. assert (B : 0 <= sec t /\ 0 <= r < 604800 \/ sec t < 0 /\ -604800 < r <= 0) by lia. clear B1 B2.
  rewrite rnd53_id by (change (2 ^ 53) with 9007199254740992; lia). unfold d2i32. change (2 ^ 31) with 2147483648.
  destruct (Z.leb_spec (- (2147483648)) q), (Z.ltb_spec q 2147483648), (Z.ltb_spec (- (604800 * 2147483648) - 604800) (sec t)), (Z.ltb_spec (sec t) (604800 * 2147483648)); cbn [andb]; try reflexivity; exfalso; lia.
Qed.
Lemma show_utc_text t : printable t -> show_utc t = Ok (stamp (civil (sec t / 86400)) (sec t mod 86400 / 3600) (sec t mod 3600 / 60) (sec t mod 60)).
Proof.
  unfold printable. intros H. unfold show_utc. rewrite weeks_ok by (change (2 ^ 63) with 9223372036854775808; change (2 ^ 31) with 2147483648 in H; lia).
  change (2 ^ 31) with 2147483648 in *. destruct (Z.ltb_spec (- (604800 * 2147483648) - 604800) (sec t)); [|lia]. destruct (Z.ltb_spec (sec t) (604800 * 2147483648)); [|lia]. cbn [andb bind].
  unfold gmtime_date. pose proof (civil_year (sec t / 86400)) as Y. change (2 ^ 36) with 68719476736 in Y. specialize (Y ltac:(lia)).
  destruct (civil (sec t / 86400)) as [[y m] d]. change (2 ^ 31) with 2147483648 in *.
  destruct (Z.leb_spec (- (2147483648)) (y - 1900)); [|lia]. destruct (Z.ltb_spec (y - 1900) 2147483648); [|lia]. cbn [andb bind]. unfold ck32. change (2 ^ 31) with 2147483648.
  destruct (Z.leb_spec (- (2147483648)) y); [|lia]. destruct (Z.ltb_spec y 2147483648); [|lia]. cbn [andb bind]. unfold stamp.
  replace (sec t mod 86400 mod 3600) with (sec t mod 3600) by lia. replace (sec t mod 86400 mod 60) with (sec t mod 60) by lia. reflexivity.
Qed.
Lemma show_utc_fails t : - 2 ^ 63 <= sec t < 2 ^ 63 -> ~ printable t -> show_utc t = UB UB_convert.
Proof.
  intros H N. unfold show_utc. rewrite weeks_ok by exact H. unfold printable in N.
  destruct (Z.ltb_spec (- (604800 * 2 ^ 31) - 604800) (sec t)), (Z.ltb_spec (sec t) (604800 * 2 ^ 31)); cbn [andb bind]; try reflexivity. exfalso. lia.
Qed.
(* reading a text back *)
Fixpoint free (c : ascii) (s : string) : Prop := match s with EmptyString => True | String x s => x <> c /\ free c s end.
Lemma split_at c : forall a b r s, free c a -> free c b -> a ++ String c r = b ++ String c s -> a = b /\ r = s.
Proof.
  induction a as [|x a IH]; intros [|y b] r s Ha Hb E; cbn in *.
  - split; congruence.
  - exfalso. apply (proj1 Hb). congruence.
  - exfalso. apply (proj1 Ha). congruence.
  - destruct (IH b r s (proj2 Ha) (proj2 Hb) ltac:(congruence)) as [-> ->]. split; congruence.
Qed.
Lemma dec_free c z : (forall k, 0 <= k < 10 -> c <> ascii_of_N (Z.to_N (48 + k))) -> c <> "-"%char -> free c (dec z).
Proof.
  intros HD HM. assert (U : forall u, free c (DecimalString.NilEmpty.string_of_uint u)).
  { induction u; cbn; auto; split; try exact IHu; intros X; symmetry in X; revert X.
    - apply (HD 0); lia. - apply (HD 1); lia. - apply (HD 2); lia. - apply (HD 3); lia. - apply (HD 4); lia. - apply (HD 5); lia. - apply (HD 6); lia. - apply (HD 7); lia. - apply (HD 8); lia. - apply (HD 9); lia. }
  unfold dec. destruct (Z.to_int z) as [u|u]; cbn; [apply U|split; [congruence|apply U]].
Qed.
Lemma sep c : In c ["/"%char; " "%char; ":"%char] -> forall z, free c (dec z).
Proof.
  intros H z. apply dec_free; [|destruct H as [<-|[<-|[<-|[]]]]; discriminate]. intros k Hk E. apply (f_equal N_of_ascii) in E. rewrite N_ascii_embedding in E by lia.
  apply (f_equal Z.of_N) in E. rewrite Z2N.id in E by lia. destruct H as [<-|[<-|[<-|[]]]]; vm_compute (N_of_ascii _) in E; cbn [Z.of_N] in E; lia.
Qed.
Lemma dec_inj a b : dec a = dec b -> a = b.
Proof. intros H. unfold dec in H. apply soi_inj in H. rewrite <- (DecimalZ.of_to a), <- (DecimalZ.of_to b), H. reflexivity. Qed.
Lemma stamp_inj x h m s y h' m' s' : stamp x h m s = stamp y h' m' s' -> x = y /\ h = h' /\ m = m' /\ s = s'.
Proof.
  destruct x as [[y1 m1] d1], y as [[y2 m2] d2]. unfold stamp. intros E.
  assert (S1 := sep "/"%char ltac:(cbn; auto)). assert (S2 := sep " "%char ltac:(cbn; auto)). assert (S3 := sep ":"%char ltac:(cbn; auto)).
  apply split_at in E; auto. destruct E as [E1 E]. apply split_at in E; auto. destruct E as [E2 E]. apply split_at in E; auto. destruct E as [E3 E].
  apply split_at in E; auto. destruct E as [E4 E]. apply split_at in E; auto. destruct E as [E5 E6]. apply dec_inj in E1, E2, E3, E4, E5, E6. subst. auto.
Qed.
Lemma show_utc_same a b x : show_utc a = Ok x -> show_utc b = Ok x -> - 2 ^ 63 <= sec a < 2 ^ 63 -> - 2 ^ 63 <= sec b < 2 ^ 63 -> sec a = sec b.
Proof.
  intros HA HB RA RB.
  assert (D : forall t, printable t \/ ~ printable t) by (intros t; unfold printable; lia).
  destruct (D a) as [PA|PA]; [|rewrite (show_utc_fails a RA PA) in HA; discriminate]. destruct (D b) as [PB|PB]; [|rewrite (show_utc_fails b RB PB) in HB; discriminate].
  rewrite show_utc_text in HA, HB by assumption. assert (E : stamp (civil (sec a / 86400)) (sec a mod 86400 / 3600) (sec a mod 3600 / 60) (sec a mod 60) = stamp (civil (sec b / 86400)) (sec b mod 86400 / 3600) (sec b mod 3600 / 60) (sec b mod 60)) by congruence.
  apply stamp_inj in E. destruct E as (E1 & E2 & E3 & E4). apply civil_inj in E1. lia.
Qed.
