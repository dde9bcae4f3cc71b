(* Accuracy of the scaled fields. *)
From Coq Require Import QArith Qabs.
From Verif Require Import Base UtcModel Dbl NavModel NavSpec.
Local Open Scope Z_scope.

Lemma sc_exact raw e : Z.abs raw <= 2 ^ 53 -> sc raw (mkD (2 ^ 52) e) = mkD (raw * 2 ^ 52) e.
Proof.
  intros H. unfold sc, dmul, d_of_int. cbn [dm de]. rewrite (rnd53_id raw) by exact H. rewrite rnd53_exact by (exact H || lia). reflexivity.
Qed.
Ltac qpow := match goal with |- context [Qpower ?b ?e] => let v := eval vm_compute in (Qpower b e) in change (Qpower b e) with v end.
Ltac zp := match goal with |- context [2 ^ ?k] => let v := eval vm_compute in (2 ^ k) in change (2 ^ k) with v end.
Ltac exact_const := intros; unfold exactly, times2; match goal with |- context [sc _ ?c] => unfold c end; change 4503599627370496 with (2 ^ 52);
  rewrite sc_exact by assumption; unfold dQ; cbn [dm de]; qpow; repeat zp; unfold Qeq, Qdiv, Qmult, Qinv, inject_Z; cbn [Qnum Qden]; lia.

Lemma ex5 raw : Z.abs raw <= 2 ^ 53 -> exactly (sc raw P2_5) (times2 raw 5). Proof. exact_const. Qed.
Lemma ex19 raw : Z.abs raw <= 2 ^ 53 -> exactly (sc raw P2_19) (times2 raw 19). Proof. exact_const. Qed.
Lemma ex29 raw : Z.abs raw <= 2 ^ 53 -> exactly (sc raw P2_29) (times2 raw 29). Proof. exact_const. Qed.
Lemma ex30 raw : Z.abs raw <= 2 ^ 53 -> exactly (sc raw P2_30) (times2 raw 30). Proof. exact_const. Qed.
Lemma ex31 raw : Z.abs raw <= 2 ^ 53 -> exactly (sc raw P2_31) (times2 raw 31). Proof. exact_const. Qed.

(* scale constants that are not exact, and conversion to radians *)
Lemma near_Z (r n : Z) (p : positive) (d : positive) :
  2 ^ 50 * Z.abs (r * Zpos d - n * Zpos p) <= Z.abs n * Zpos p ->
  (inject_Z (2 ^ 50) * Qabs ((r # p) - (n # d)) <= Qabs (n # d))%Q.
Proof.
  intros H. unfold Qle, Qabs, Qminus, Qplus, Qopp, Qmult, inject_Z. cbn [Qnum Qden].
  replace (- n * Zpos p) with (- (n * Zpos p)) by lia. fold (r * Zpos d - n * Zpos p).
  replace (r * Zpos d + - (n * Zpos p)) with (r * Zpos d - n * Zpos p) by lia. rewrite !Pos2Z.inj_mul.
  set (A := Z.abs (r * Zpos d - n * Zpos p)) in *. nia.
Qed.
Ltac near_const raw := intros; unfold nearly, within, semi, times2, pi20; match goal with |- context [sc raw ?c] => unfold c | |- context [sc2 raw ?c _] => unfold c, sc2, D_PI end;
  unfold sc, dmul, d_of_int; cbn [dm de]; rewrite (rnd53_id raw) by assumption; unfold dQ; cbn [dm de Z.add]; qpow; repeat zp;
  unfold Qle, Qabs, Qminus, Qplus, Qopp, Qdiv, Qmult, Qinv, inject_Z; cbn [Qnum Qden Pos.mul];
  rewrite ?Pos2Z.inj_mul;
  repeat match goal with |- context [rnd53 ?z] => lazymatch z with context [rnd53 _] => fail | _ => 
     let E := fresh "E" in pose proof (rnd53_err z) as E; change (2 ^ 53) with 9007199254740992 in E; let r := fresh "r" in set (r := rnd53 z) in *; clearbody r end end; lia.
Lemma nr33 raw : Z.abs raw <= 2 ^ 53 -> nearly (sc raw P2_33) (times2 raw 33). Proof. near_const raw. Qed.
Lemma nr43 raw : Z.abs raw <= 2 ^ 53 -> nearly (sc raw P2_43) (times2 raw 43). Proof. near_const raw. Qed.
Lemma nr55 raw : Z.abs raw <= 2 ^ 53 -> nearly (sc raw P2_55) (times2 raw 55). Proof. near_const raw. Qed.
Lemma nr32 raw : Z.abs raw <= 2 ^ 53 -> nearly (sc raw P2_32) (times2 raw 32). Proof. near_const raw. Qed.
Lemma nr34 raw : Z.abs raw <= 2 ^ 53 -> nearly (sc raw P2_34) (times2 raw 34). Proof. near_const raw. Qed.
Lemma nr40 raw : Z.abs raw <= 2 ^ 53 -> nearly (sc raw P2_40) (times2 raw 40). Proof. near_const raw. Qed.
Lemma nr46 raw : Z.abs raw <= 2 ^ 53 -> nearly (sc raw P2_46) (times2 raw 46). Proof. near_const raw. Qed.
Lemma nr31pi raw : Z.abs raw <= 2 ^ 53 -> nearly (sc2 raw P2_31 D_PI) (semi raw 31). Proof. near_const raw. Qed.
Lemma nr43pi raw : Z.abs raw <= 2 ^ 53 -> nearly (sc2 raw P2_43 D_PI) (semi raw 43). Proof. near_const raw. Qed.
Lemma wi59 raw : Z.abs raw <= 2 ^ 53 -> within 48 (sc raw P2_59) (times2 raw 59). Proof. near_const raw. Qed.

(* GLONASS: kilometres to metres *)
Lemma sc2_1000 raw e : Z.abs raw <= 2 ^ 43 -> sc2 raw (mkD (2 ^ 52) e) D_1E3 = mkD (1000 * raw * 2 ^ 52) (e + 0).
Proof.
  intros H. unfold sc2. rewrite sc_exact by (change (2 ^ 43) with 8796093022208 in H; change (2 ^ 53) with 9007199254740992; lia).
  unfold dmul, D_1E3. cbn [dm de]. replace (raw * 2 ^ 52 * 1000) with (1000 * raw * 2 ^ 52) by lia.
  rewrite rnd53_exact; [reflexivity|lia|]. change (2 ^ 43) with 8796093022208 in H. change (2 ^ 53) with 9007199254740992. lia.
Qed.
Ltac exact_km := intros; unfold exactly, times2; match goal with |- context [sc2 _ ?c _] => unfold c end; change 4503599627370496 with (2 ^ 52);
  rewrite sc2_1000 by assumption; unfold dQ; cbn [dm de Z.add]; qpow; repeat zp; unfold Qeq, Qdiv, Qmult, Qinv, inject_Z; cbn [Qnum Qden]; lia.
Lemma ex11k raw : Z.abs raw <= 2 ^ 43 -> exactly (sc2 raw P2_11 D_1E3) (times2 (1000 * raw) 11). Proof. exact_km. Qed.
Lemma ex20k raw : Z.abs raw <= 2 ^ 43 -> exactly (sc2 raw P2_20 D_1E3) (times2 (1000 * raw) 20). Proof. exact_km. Qed.
Lemma ex30k raw : Z.abs raw <= 2 ^ 43 -> exactly (sc2 raw P2_30 D_1E3) (times2 (1000 * raw) 30). Proof. exact_km. Qed.
