(* The record store of the parser: one record per satellite number. *)
From Verif Require Import Base BitModel CrcModel UtcModel Dbl NavModel.

(* the last element with property p *)
Fixpoint lookup {A} (p : A -> bool) (l : list A) : option A :=
  match l with [] => None | x :: r => match lookup p r with Some y => Some y | None => if p x then Some x else None end end.

Lemma last_match_spec {A} (p : A -> bool) : forall l k acc,
  last_match p l k acc = match lookup p l with Some _ => last_match p l k None | None => acc end.
Proof.
  induction l as [|x r IH]; intros k acc; [reflexivity|]. cbn [last_match lookup].
  rewrite (IH (S k)). rewrite (IH (S k) (if p x then Some k else None)).
  destruct (lookup p r); [reflexivity|]. destruct (p x); reflexivity.
Qed.
Lemma last_match_some {A} (p : A -> bool) d : forall l k y, lookup p l = Some y ->
  exists i, last_match p l k None = Some (k + i)%nat /\ (i < length l)%nat /\ nth i l d = y /\ p y = true /\
    lookup p (skipn (S i) l) = None.
Proof.
  induction l as [|x r IH]; intros k y H; [discriminate|]. cbn [lookup] in H. cbn [last_match].
  destruct (lookup p r) as [z|] eqn:E.
  - injection H as <-. destruct (IH (S k) z eq_refl) as (i & H1 & H2 & H3 & H4 & H5). exists (S i).
    rewrite last_match_spec, E, H1. repeat split; try assumption; [f_equal; lia|cbn; lia].
  - destruct (p x) eqn:Ep; [|discriminate]. injection H as <-. exists 0%nat. rewrite last_match_spec, E.
    repeat split; try assumption; [f_equal; lia|cbn; lia].
Qed.
Lemma last_match_none {A} (p : A -> bool) l k : lookup p l = None -> last_match p l k None = None.
Proof. intros H. rewrite last_match_spec, H. reflexivity. Qed.

Lemma lookup_app {A} (p : A -> bool) a b : lookup p (a ++ b) = match lookup p b with Some y => Some y | None => lookup p a end.
Proof.
  induction a as [|x a IH]; cbn [app lookup]; [destruct (lookup p b); reflexivity|]. rewrite IH. destruct (lookup p b); reflexivity.
Qed.
Lemma lookup_true {A} (p : A -> bool) l y : lookup p l = Some y -> p y = true.
Proof.
  induction l as [|x r IH]; [discriminate|]. cbn [lookup]. destruct (lookup p r) as [z|]; [intros H; injection H as <-; auto|].
  destruct (p x) eqn:E; [intros H; injection H as <-; assumption|discriminate].
Qed.

Definition found {A} (p : A -> bool) (new : A) (l : list A) : A := match lookup p l with Some y => y | None => new end.

Lemma slot_spec {A} (p : A -> bool) (new d : A) l : exists l' i, slot p new l = (l', i) /\ nth i l' d = found p new l /\
  forall x, p x = true ->
    lookup p (put l' i x) = Some x /\
    (forall q, q x = false -> (forall y, p y = true -> q y = false) -> lookup q (put l' i x) = lookup q l).
Proof.
  unfold slot, found. destruct (lookup p l) as [y|] eqn:E.
  - destruct (last_match_some p d l 0 y E) as (i & H1 & H2 & H3 & H4 & H5). rewrite H1. exists l, i. split; [reflexivity|].
    split; [assumption|]. intros x Hx. unfold put. split.
    + rewrite lookup_app. cbn [lookup]. rewrite H5, Hx. reflexivity.
    + intros q Hq Hpq. rewrite lookup_app. cbn [lookup]. rewrite Hq.
      assert (EL : l = firstn i l ++ y :: skipn (S i) l).
      { rewrite <- (firstn_skipn i l) at 1. f_equal. rewrite <- H3. clear - H2. revert i H2.
        induction l as [|a l IH]; intros i H; [cbn in H; lia|]. destruct i as [|i]; [reflexivity|]. cbn [nth skipn]. apply IH. cbn in H. lia. }
      transitivity (lookup q (firstn i l ++ y :: skipn (S i) l)); [|rewrite <- EL; reflexivity]. rewrite lookup_app. cbn [lookup]. rewrite (Hpq y H4).
      destruct (lookup q (skipn (S i) l)); reflexivity.
  - rewrite last_match_none by assumption. exists (l ++ [new]), (length l). split; [reflexivity|].
    split; [rewrite app_nth2, Nat.sub_diag by lia; reflexivity|]. intros x Hx. unfold put.
    rewrite firstn_app, Nat.sub_diag, firstn_all. cbn [firstn]. rewrite app_nil_r.
    replace (skipn (S (length l)) (l ++ [new])) with (@nil A) by (symmetry; apply skipn_all2; rewrite app_length; cbn; lia).
    split; [rewrite lookup_app; cbn [lookup]; rewrite Hx; reflexivity|].
    intros q Hq _. rewrite lookup_app. cbn [lookup]. rewrite Hq. reflexivity.
Qed.

(* the record of a satellite number: shared by all constellations but GLONASS *)
Definition eph_of (s : nav) (sv : Z) : eph := found (fun e => ei e Fsat =? sv) eph_new (n_eph s).
Definition geph_of (s : nav) (sv : Z) : geph := found (fun g => gi g Gsat =? sv) (gseti Gsat sv geph_new) (n_geph s).
Lemma geph_of_sat s sv : gi (geph_of s sv) Gsat = sv.
Proof.
  unfold geph_of, found. destruct (lookup _ (n_geph s)) as [y|] eqn:E; [|reflexivity]. apply lookup_true in E. lia.
Qed.

(* the record a decoder starts from *)
Definition start_rec (s : nav) (m : sfrbx) : eph := seti FgnssID (sf_gnss m) (seti Fsat (sf_sv m) (eph_of s (sf_sv m))).

(* two parser states that agree except for one non-GLONASS record, or one GLONASS record *)
Definition same_but (s s' : nav) (sv : Z) : Prop :=
  (forall v, v <> sv -> eph_of s' v = eph_of s v) /\ (forall v, geph_of s' v = geph_of s v) /\ n_ecb s' = n_ecb s /\ n_gcb s' = n_gcb s.
Definition same_but_g (s s' : nav) (sv : Z) : Prop :=
  (forall v, eph_of s' v = eph_of s v) /\ (forall v, v <> sv -> geph_of s' v = geph_of s v) /\ n_ecb s' = n_ecb s /\ n_gcb s' = n_gcb s /\
  n_time s' = n_time s /\ n_rows s' = n_rows s.

Lemma store_ok s m (e : eph) l i t rs : slot (fun e => ei e Fsat =? sf_sv m) eph_new (n_eph s) = (l, i) -> ei e Fsat = sf_sv m ->
  let s' := mkNav (put l i e) (n_geph s) t (n_ecb s) (n_gcb s) rs in eph_of s' (sf_sv m) = e /\ same_but s s' (sf_sv m).
Proof.
  intros E He. destruct (slot_spec (fun e => ei e Fsat =? sf_sv m) eph_new eph_new (n_eph s)) as (l' & i' & E' & _ & H).
  rewrite E in E'. injection E' as <- <-. destruct (H e) as [H1 H2]; [lia|]. cbv zeta. split.
  - unfold eph_of, found. cbn [n_eph]. rewrite H1. reflexivity.
  - split; [|repeat split]. intros v Hv. unfold eph_of, found. cbn [n_eph].
    rewrite (H2 (fun e => ei e Fsat =? v)); [reflexivity|cbn; lia|]. intros y Hy. cbn in *. lia.
Qed.
Lemma store_ok_g s m (g : geph) l i : slot (fun g => gi g Gsat =? sf_sv m) (gseti Gsat (sf_sv m) geph_new) (n_geph s) = (l, i) -> gi g Gsat = sf_sv m ->
  let s' := mkNav (n_eph s) (put l i g) (n_time s) (n_ecb s) (n_gcb s) (n_rows s) in geph_of s' (sf_sv m) = g /\ same_but_g s s' (sf_sv m).
Proof.
  intros E He. destruct (slot_spec (fun g => gi g Gsat =? sf_sv m) (gseti Gsat (sf_sv m) geph_new) geph_new (n_geph s)) as (l' & i' & E' & _ & H).
  rewrite E in E'. injection E' as <- <-. destruct (H g) as [H1 H2]; [lia|]. cbv zeta. split.
  - unfold geph_of, found. cbn [n_geph]. rewrite H1. reflexivity.
  - split; [reflexivity|]. split; [|repeat split]. intros v Hv. unfold geph_of, found. cbn [n_geph].
    rewrite (H2 (fun g => gi g Gsat =? v)); [reflexivity|cbn; lia|]. intros y Hy. cbn in *. lia.
Qed.

(* records keep their satellite number *)
Lemma sat_seti f v e : f <> Fsat -> ei (seti f v e) Fsat = ei e Fsat.
Proof. intros H. cbn [seti ei]. destruct f; try reflexivity. congruence. Qed.
Lemma gsat_seti f v e : f <> Gsat -> gi (gseti f v e) Gsat = gi e Gsat.
Proof. intros H. cbn [gseti gi]. destruct f; try reflexivity. congruence. Qed.

(* invert a monadic definition *)
Lemma bind_inv {A B} (x : outcome A) (f : A -> outcome B) r : bind x f = Ok r -> exists a, x = Ok a /\ f a = Ok r.
Proof. destruct x; [eauto|discriminate]. Qed.
Ltac ninv H := repeat (cbv zeta in H; match type of H with
  | bind ?x _ = Ok _ => let a := fresh "v" in let E := fresh "EV" in apply bind_inv in H; destruct H as (a & E & H); try destruct a as [? ?]; cbv beta iota in H
  | Ok _ = Ok _ => injection H as H
  | UB _ = Ok _ => discriminate H end).

Lemma gps_finish_sat e e' d r : gps_finish e = Ok (e', d, r) -> ei e' Fsat = ei e Fsat.
Proof. unfold gps_finish. destruct (gps_complete e); intros H; ninv H; subst; reflexivity. Qed.
Lemma decodeGPS_sat junk dw e e' d r : decodeGPS junk dw e = Ok (e', d, r) -> ei e' Fsat = ei e Fsat.
Proof.
  unfold decodeGPS. intros H. cbv zeta in H. apply bind_inv in H. destruct H as (sub & _ & H). apply bind_inv in H. destruct H as (b & _ & H).
  destruct (_ || _); [ninv H; subst; reflexivity|].
  destruct (_ =? 1); [|destruct (_ =? 2); [|destruct (_ =? 3)]].
  - apply bind_inv in H. destruct H as (e1 & H1 & H). apply gps_finish_sat in H. rewrite H. unfold gps_sf1 in H1. ninv H1. subst. reflexivity.
  - apply bind_inv in H. destruct H as (e1 & H1 & H). apply gps_finish_sat in H. rewrite H. unfold gps_sf2 in H1. ninv H1. subst. reflexivity.
  - apply bind_inv in H. destruct H as (e1 & H1 & H). apply gps_finish_sat in H. rewrite H. unfold gps_sf3 in H1. ninv H1. subst. reflexivity.
  - ninv H; subst; reflexivity.
Qed.
Lemma glo_string_sat now buf g g' ev r : glo_string now buf g = Ok (g', ev, r) -> gi g' Gsat = gi g Gsat.
Proof.
  unfold glo_string. intros H. apply bind_inv in H. destruct H as (f & _ & H). destruct (_ || _); [ninv H; subst; reflexivity|].
  apply bind_inv in H. destruct H as (g1 & H1 & H).
  assert (E : gi g1 Gsat = gi g Gsat).
  { destruct (f =? 1); [|destruct (f =? 2); [|destruct (f =? 3)]];
    [unfold glo_f1 in H1|unfold glo_f2 in H1|unfold glo_f3 in H1|unfold glo_f4 in H1]; ninv H1; subst; reflexivity. }
  destruct (_ || _); ninv H; subst; exact E.
Qed.
Lemma decodeGlonass_sat cbs now gnss sv freq dw g g' ev r : gi g Gsat = sv ->
  decodeGlonass cbs now gnss sv freq dw g = Ok (g', ev, r) -> gi g' Gsat = sv.
Proof.
  intros Hg. unfold decodeGlonass. destruct (sv =? 255); [intros H; injection H as <- <- <-; exact Hg|].
  destruct (utc_eq now _); [intros H; injection H as <- <- <-; exact Hg|]. intros H. cbv zeta in H.
  apply bind_inv in H. destruct H as (ok & _ & H). destruct (negb ok); [injection H as <- <- <-; exact Hg|].
  apply bind_inv in H. destruct H as (b12 & _ & H). apply bind_inv in H. destruct H as (b13 & _ & H).
  apply bind_inv in H. destruct H as (((g1, ev1), r1) & H1 & H). apply glo_string_sat in H1.
  assert (E : gi g1 Gsat = sv). { rewrite H1. destruct (_ =? gi g Gmark); exact Hg. }
  destruct (negb r1); injection H as <- <- <-; [exact E|reflexivity].
Qed.
Lemma gal_inav_sat buff e e' b : gal_inav buff e = Ok (e', b) -> ei e' Fsat = ei e Fsat.
Proof.
  unfold gal_inav. intros H.
  repeat (cbv zeta in H; match type of H with
  | bind ?x _ = Ok _ => let a := fresh "v" in apply bind_inv in H; destruct H as (a & _ & H)
  | (if ?c then _ else _) = Ok _ => destruct c
  | Ok _ = Ok _ => injection H as <- <-; reflexivity end).
Qed.
Lemma decodeGalileo_sat cbs st dw e st' e' ev r : decodeGalileo cbs st dw e = Ok (st', e', ev, r) -> ei e' Fsat = ei e Fsat.
Proof.
  unfold decodeGalileo. intros H.
  repeat (cbv zeta in H; match type of H with
  | bind (gal_inav _ _) _ = Ok _ => let E := fresh in apply bind_inv in H; destruct H as ((e1, ok1) & E & H); apply gal_inav_sat in E; rewrite <- E; clear E
  | bind ?x _ = Ok _ => let a := fresh "v" in apply bind_inv in H; destruct H as (a & _ & H)
  | (if ?c then _ else _) = Ok _ => destruct c
  | UB _ = Ok _ => discriminate H
  | Ok _ = Ok _ => injection H as <- <- <- <-; reflexivity end).
Qed.

Definition calls_eph (cbs : list Z) (d : option eph) : list nev :=
  match d with Some e => map (fun c => EvEph c e) cbs | None => [] end.

(* convertUBX, constellation by constellation *)
Lemma convert_gps junk s m : sf_gnss m = 0 ->
  match decodeGPS junk (sf_dw m) (start_rec s m) with
  | UB k => convertUBX junk s m = UB k
  | Ok (e', d, b) => exists s', convertUBX junk s m = Ok (s', calls_eph (n_ecb s) d, Some b) /\ eph_of s' (sf_sv m) = e' /\
      same_but s s' (sf_sv m) /\ n_rows s' = n_rows s /\ n_time s' = match d with Some e1 => e_toe e1 | None => n_time s end
  end.
Proof.
  intros G. unfold convertUBX. rewrite G. cbn [Z.eqb].
  destruct (slot_spec (fun e => ei e Fsat =? sf_sv m) eph_new eph_new (n_eph s)) as (l & i & ES & EN & _). rewrite ES, EN.
  fold (eph_of s (sf_sv m)). unfold start_rec. rewrite G.
  destruct (decodeGPS junk (sf_dw m) (seti FgnssID 0 (seti Fsat (sf_sv m) (eph_of s (sf_sv m))))) as [((e', d), b)|k] eqn:E; cbn [bind]; [|reflexivity].
  eexists. split; [reflexivity|]. apply decodeGPS_sat in E.
  destruct (store_ok s m e' l i (match d with Some e1 => e_toe e1 | None => n_time s end) (n_rows s) ES E) as [H1 H2].
  split; [exact H1|]. split; [exact H2|]. split; reflexivity.
Qed.
Lemma convert_gal junk s m : sf_gnss m = 2 ->
  match decodeGalileo (n_ecb s) (n_rows s) (sf_dw m) (start_rec s m) with
  | UB k => convertUBX junk s m = UB k
  | Ok (st, e', ev, b) => exists s', convertUBX junk s m = Ok (s', ev, Some b) /\ eph_of s' (sf_sv m) = e' /\
      same_but s s' (sf_sv m) /\ n_rows s' = st /\ n_time s' = n_time s
  end.
Proof.
  intros G. unfold convertUBX. rewrite G. cbn [Z.eqb].
  destruct (slot_spec (fun e => ei e Fsat =? sf_sv m) eph_new eph_new (n_eph s)) as (l & i & ES & EN & _). rewrite ES, EN.
  fold (eph_of s (sf_sv m)). unfold start_rec. rewrite G.
  destruct (decodeGalileo (n_ecb s) (n_rows s) (sf_dw m) (seti FgnssID 2 (seti Fsat (sf_sv m) (eph_of s (sf_sv m))))) as [(((st, e'), ev), b)|k] eqn:E; cbn [bind]; [|reflexivity].
  eexists. split; [reflexivity|]. apply decodeGalileo_sat in E.
  destruct (store_ok s m e' l i (n_time s) st ES E) as [H1 H2].
  split; [exact H1|]. split; [exact H2|]. split; reflexivity.
Qed.
Lemma convert_glo junk s m : sf_gnss m = 6 ->
  match decodeGlonass (n_gcb s) (n_time s) 6 (sf_sv m) (sf_freq m) (sf_dw m) (geph_of s (sf_sv m)) with
  | UB k => convertUBX junk s m = UB k
  | Ok (g', ev, b) => exists s', convertUBX junk s m = Ok (s', ev, Some b) /\ geph_of s' (sf_sv m) = g' /\ same_but_g s s' (sf_sv m)
  end.
Proof.
  intros G. unfold convertUBX. rewrite G. cbn [Z.eqb Pos.eqb].
  destruct (slot_spec (fun g => gi g Gsat =? sf_sv m) (gseti Gsat (sf_sv m) geph_new) geph_new (n_geph s)) as (l & i & ES & EN & _). rewrite ES, EN.
  fold (geph_of s (sf_sv m)).
  destruct (decodeGlonass (n_gcb s) (n_time s) 6 (sf_sv m) (sf_freq m) (sf_dw m) (geph_of s (sf_sv m))) as [((g', ev), b)|k] eqn:E; cbn [bind]; [|reflexivity].
  eexists. split; [reflexivity|]. apply decodeGlonass_sat in E; [|apply geph_of_sat].
  exact (store_ok_g s m g' l i ES E).
Qed.
Lemma convert_other junk s m : sf_gnss m <> 0 -> sf_gnss m <> 2 -> sf_gnss m <> 6 ->
  exists s', convertUBX junk s m = Ok (s', [EvFell (if sf_gnss m =? 3 then FN_BEIDOU else FN_CONVERT)], None) /\
    eph_of s' (sf_sv m) = start_rec s m /\ same_but s s' (sf_sv m) /\ n_rows s' = n_rows s /\ n_time s' = n_time s.
Proof.
  intros G0 G2 G6. unfold convertUBX. replace (sf_gnss m =? 6) with false by lia.
  destruct (slot_spec (fun e => ei e Fsat =? sf_sv m) eph_new eph_new (n_eph s)) as (l & i & ES & EN & _). rewrite ES, EN.
  fold (eph_of s (sf_sv m)). replace (sf_gnss m =? 0) with false by lia. replace (sf_gnss m =? 2) with false by lia.
  destruct (store_ok s m (start_rec s m) l i (n_time s) (n_rows s) ES) as [H1 H2]; [reflexivity|].
  destruct (sf_gnss m =? 3); eexists; (split; [reflexivity|]); (split; [exact H1|]); (split; [exact H2|]); split; reflexivity.
Qed.
