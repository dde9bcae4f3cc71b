(* C94: the parts of class NMEA left out of NmeaModel: the message on standard error (nmea.cpp:76-82) and new_data() (nmea.cpp:39-44). *)
From Verif Require Import Base NmeaModel NmeaProofs NmeaThm.

(* ---------------------------------------------------------------- model *)
(* does read_cb write "NMEA Bad Message"?  nmea.cpp:50-82: the length is incremented, set to 2 by "$G"; CR LF returns before the test *)
Definition nmea_bad (s : nmea) (b : Z) : bool :=
  let len := if (b =? N_START2) && (n_prev s =? N_START1) then 2 else u64 (n_len s + 1) in
  negb ((b =? N_END2) && (n_prev s =? N_END1)) && (N_SIZE <=? len).
(* one flag per byte *)
Fixpoint nmea_bads (s : nmea) (bs : list Z) : outcome (nmea * list bool) :=
  match bs with
  | [] => Ok (s, [])
  | b :: r =>
      let* (s1, ok, t) := nmea_read s b in
      let* (s2, o) := nmea_bads s1 r in
      Ok (s2, nmea_bad s b :: o)
  end.
(* calls on the object: read_cb, restart, new_data; the member new_data_ is not initialised (v: its value in memory) *)
Inductive ncall := NC_byte (b : Z) | NC_restart | NC_new.
Fixpoint nmea_calls (s : nmea) (v : bool) (cs : list ncall) : outcome (nmea * bool * list bool) :=
  match cs with
  | [] => Ok (s, v, [])
  | NC_byte b :: r => let* (s1, ok, t) := nmea_read s b in nmea_calls s1 v r
  | NC_restart :: r => nmea_calls (nmea_restart s) v r
  | NC_new :: r =>
      (* tmp = new_data_; new_data_ = false; return tmp *)
      let* (s2, v2, o) := nmea_calls s false r in
      Ok (s2, v2, v :: o)
  end.

(* ---------------------------------------------------------------- proofs *)
Lemma news : forall cs s v s' v' o, nmea_calls s v cs = Ok (s', v', o) ->
  o = match o with [] => [] | _ :: r => v :: repeat false (length r) end.
Proof.
  induction cs as [|c cs IH]; intros s v s' v' o E; cbn [nmea_calls] in E.
  - assert (o = []) by congruence. subst. reflexivity.
  - destruct c as [b| |].
    + destruct (nmea_read s b) as [[[s1 ok] t]|k]; cbn [bind] in E; [exact (IH _ _ _ _ _ E)|discriminate E].
    + exact (IH _ _ _ _ _ E).
    + destruct (nmea_calls s false cs) as [[[s2 v2] o2]|k] eqn:EC; cbn [bind] in E; [|discriminate E].
      assert (EO : o = v :: o2) by congruence. subst o. f_equal. specialize (IH _ _ _ _ _ EC). rewrite IH at 1. destruct o2; [reflexivity|]. reflexivity.
Qed.
Lemma bads_feed : forall bs s s' o, nmea_feed s bs = Ok (s', o) -> exists f, nmea_bads s bs = Ok (s', f) /\ length f = length bs.
Proof.
  induction bs as [|b bs IH]; intros s s' o E; cbn [nmea_feed nmea_bads] in *.
  - exists []. split; [congruence|reflexivity].
  - destruct (nmea_read s b) as [[[s1 ok] t]|k]; cbn [bind] in *; [|discriminate E].
    destruct (nmea_feed s1 bs) as [[s2 o2]|k] eqn:EF; cbn [bind] in E; [|discriminate E].
    destruct (IH _ _ _ EF) as (f & EB & L). rewrite EB. cbn [bind]. assert (s2 = s') by congruence. subst. eexists. split; [reflexivity|]. cbn [length]. lia.
Qed.
Lemma bad_step s b : NInv s -> match nmea_read s b with
  | Ok (s', _, _) => NInv s' /\ n_prev s' = b /\
      (if (b =? 71) && (n_prev s =? 36) then n_len s' = 2 /\ nmea_bad s b = false
       else if (b =? 10) && (n_prev s =? 13) then n_len s' = 0 /\ nmea_bad s b = false
       else if n_len s =? 81 then n_len s' = 0 /\ nmea_bad s b = true else n_len s' = n_len s + 1 /\ nmea_bad s b = false)
  | UB _ => True end.
Proof.
  assert (C : forall x y u v : Z, ~ (x = u /\ y = v) -> (x =? u) && (y =? v) = false) by (intros; lia).
  intros HI. pose proof (nmea_step s b HI) as ST. destruct (nmea_read s b) as [[[s' ok] t]|k] eqn:ER; [|exact I].
  pose proof (ninv_step s b s' ok t HI ER) as HI'. split; [apply HI'|].
  destruct HI as [HB HL]. unfold nmea_bad, N_SIZE, N_START1, N_START2, N_END1, N_END2. rewrite u64_small by lia.
  destruct ST as [l E1 E2 E _|E1 E2 _ E|E1 E2 _ E|N1 N2 L E|N1 N2 L E]; try (rewrite ER in E; discriminate E).
  - assert (s' = mkNmea 2 true false 71 ([36; 71] ++ l)) by congruence. subst s'. cbn [n_prev n_len]. rewrite E1, E2. split; [reflexivity|]. cbn. split; reflexivity.
  - assert (X : s' = mkNmea 0 false true 10 (repeat 0 (Z.to_nat N_SIZE))) by congruence. rewrite X. cbn [n_prev n_len]. rewrite E1, E2. split; [reflexivity|]. cbn. split; reflexivity.
  - assert (X : s' = mkNmea (n_len s + 1) (n_start s) (n_end s) b (stored s b)) by congruence. rewrite X. cbn [n_prev n_len]. split; [reflexivity|].
    rewrite (C _ _ _ _ N1), (C _ _ _ _ N2). replace (n_len s =? 81) with false by lia. cbn [negb andb]. split; [reflexivity|lia].
  - assert (X : s' = mkNmea 0 false false b (stored s b)) by congruence. rewrite X. cbn [n_prev n_len]. split; [reflexivity|].
    rewrite (C _ _ _ _ N1), (C _ _ _ _ N2). replace (n_len s =? 81) with true by lia. cbn [negb andb]. split; [reflexivity|lia].
Qed.
(* bytes without "$G" and CR LF *)
Fixpoint nbads (f : list bool) : Z := match f with [] => 0 | b :: r => (if b then 1 else 0) + nbads r end.
Lemma plain_count : forall bs s, NInv s -> plain (n_prev s :: bs) -> exists s' f, nmea_bads s bs = Ok (s', f) /\ nbads f = (n_len s + Zlen bs) / 82 /\ n_len s' = (n_len s + Zlen bs) mod 82.
Proof.
  induction bs as [|b bs IH]; intros s HI HP.
  - destruct HI as [HB HL]. exists s, []. cbn [nmea_bads nbads]. change (Zlen (@nil Z)) with 0. split; [reflexivity|]. lia.
  - cbn [nmea_bads]. pose proof (bad_step s b HI) as X. pose proof (nmea_step s b HI) as ST.
    assert (N1 : ~ (b = 71 /\ n_prev s = 36)) by (intros [-> E]; apply (proj1 (HP [] bs)); rewrite E; reflexivity).
    assert (N2 : ~ (b = 10 /\ n_prev s = 13)) by (intros [-> E]; apply (proj2 (HP [] bs)); rewrite E; reflexivity).
    destruct ST as [l E1 E2 E _|E1 E2 _ E|E1 E2 _ E|_ _ L E|_ _ L E]; try lia; rewrite E in *; cbn [bind]; destruct X as (HI' & EP & X);
      replace ((b =? 71) && (n_prev s =? 36)) with false in X by lia; replace ((b =? 10) && (n_prev s =? 13)) with false in X by lia.
    + replace (n_len s =? 81) with false in X by lia. destruct X as [XL XB]. destruct (IH _ HI') as (s' & f & EB & EN & EL); [rewrite EP; exact (plain_tl _ _ HP)|].
      rewrite EB. cbn [bind]. exists s', (nmea_bad s b :: f). split; [reflexivity|]. cbn [nbads]. rewrite XB, EN, EL, XL, Zlen_cons. split; [|f_equal; lia]. replace (n_len s + 1 + Zlen bs) with (n_len s + (1 + Zlen bs)) by lia. lia.
    + replace (n_len s =? 81) with true in X by lia. destruct X as [XL XB]. destruct (IH _ HI') as (s' & f & EB & EN & EL); [rewrite EP; exact (plain_tl _ _ HP)|].
      rewrite EB. cbn [bind]. exists s', (nmea_bad s b :: f). split; [reflexivity|]. cbn [nbads]. rewrite XB, EN, EL, XL, L, Zlen_cons.
      replace (81 + (1 + Zlen bs)) with (Zlen bs + 1 * 82) by lia. rewrite Z.div_add, Z.mod_add by lia. split; [lia|f_equal; lia].
Qed.
(* how long is the last line: j bytes without a CR LF *)
Definition no_eol (bs : list Z) : Prop := forall a b, bs <> a ++ [13; 10] ++ b.
Lemma bads_snoc : forall bs s b s1 f, nmea_bads s bs = Ok (s1, f) -> nmea_bads s (bs ++ [b]) = match nmea_read s1 b with Ok (s2, _, _) => Ok (s2, f ++ [nmea_bad s1 b]) | UB k => UB k end.
Proof.
  induction bs as [|c bs IH]; intros s b s1 f E; cbn [nmea_bads app] in *.
  - assert (s1 = s) by congruence. assert (f = []) by congruence. subst. destruct (nmea_read s b) as [[[s2 ok] t]|k]; reflexivity.
  - destruct (nmea_read s c) as [[[sa ok] t]|k]; cbn [bind] in *; [|discriminate E]. destruct (nmea_bads sa bs) as [[s2 o]|k] eqn:EB; cbn [bind] in E; [|discriminate E].
    assert (s2 = s1) by congruence. assert (EF : f = nmea_bad s c :: o) by congruence. subst s2. rewrite (IH _ b _ _ EB), EF. destruct (nmea_read s1 b) as [[[s2 ok2] t2]|k]; reflexivity.
Qed.
(* no CR LF ends in the last part w of a ++ w *)
Definition one_line (a w : list Z) : Prop := no_eol (last a 0 :: w).
Lemma no_eol_snoc l x b : no_eol (l ++ [x]) -> ~ (x = 13 /\ b = 10) -> no_eol (l ++ [x; b]).
Proof.
  intros H N p q E. destruct q as [|q0 q] using rev_ind.
  - rewrite app_nil_r in E. apply (app_inj_tail_iff (l ++ [x]) (p ++ [13]) b 10) in E || idtac.
    assert (E2 : (l ++ [x]) ++ [b] = (p ++ [13]) ++ [10]) by (rewrite <- !app_assoc; exact E). apply app_inj_tail in E2. destruct E2 as [E2 ->]. apply app_inj_tail in E2. destruct E2 as [_ ->]. apply N. split; reflexivity.
  - assert (E2 : (l ++ [x]) ++ [b] = (p ++ [13; 10] ++ q) ++ [q0]) by (rewrite <- !app_assoc; exact E). apply app_inj_tail in E2. destruct E2 as [E2 _]. exact (H p q E2).
Qed.
Lemma last_cons_app (a w : list Z) : last (last a 0 :: w) 0 = last (a ++ w) 0.
Proof.
  destruct w as [|y w] using rev_ind; [rewrite app_nil_r; reflexivity|]. rewrite app_comm_cons, !app_assoc, !last_last. reflexivity.
Qed.
Lemma one_line_snoc a w b : one_line a w -> ~ (last (a ++ w) 0 = 13 /\ b = 10) -> one_line a (w ++ [b]).
Proof.
  unfold one_line. intros H N. rewrite <- last_cons_app in N. rewrite app_comm_cons.
  destruct (exists_last (l := last a 0 :: w) ltac:(discriminate)) as (l & x & EL). rewrite EL in *. rewrite last_last in N. rewrite <- app_assoc. apply no_eol_snoc; assumption.
Qed.
Lemma bads_pre : forall bs s0 b s f, nmea_bads s0 (bs ++ [b]) = Ok (s, f) -> exists s1 f1 ok t, nmea_bads s0 bs = Ok (s1, f1) /\ nmea_read s1 b = Ok (s, ok, t) /\ f = f1 ++ [nmea_bad s1 b].
Proof.
  induction bs as [|c bs IH]; intros s0 b s f E; cbn [nmea_bads app] in *.
  - destruct (nmea_read s0 b) as [[[s1 ok] t]|k] eqn:ER; cbn [bind] in E; [|discriminate E]. exists s0, [], ok, t. split; [reflexivity|]. split; [congruence|]. cbn [app]. congruence.
  - destruct (nmea_read s0 c) as [[[sa ok] t]|k0]; cbn [bind] in *; [|discriminate E]. destruct (nmea_bads sa (bs ++ [b])) as [[s3 o3]|k2] eqn:EB2; cbn [bind] in E; [|discriminate E].
    destruct (IH _ _ _ _ EB2) as (s1 & f1 & ok1 & t1 & E1 & E2 & E3). rewrite E1. cbn [bind]. exists s1, (nmea_bad s0 c :: f1), ok1, t1. split; [reflexivity|]. split; [congruence|]. cbn [app]. congruence.
Qed.
(* the stored length never exceeds the bytes received since the last CR LF *)
Lemma line_length buf0 : Zlen buf0 = 82 -> forall bs s f, nmea_bads (nmea_init buf0) bs = Ok (s, f) ->
  NInv s /\ n_prev s = last bs 0 /\ exists a w, bs = a ++ w /\ n_len s <= Zlen w /\ one_line a w.
Proof.
  intros HZ bs. induction bs as [|b bs IH] using rev_ind; intros s f E.
  - cbn [nmea_bads] in E. assert (s = nmea_init buf0) by congruence. subst s. split; [split; [exact HZ|cbn; lia]|]. split; [reflexivity|]. exists [], []. split; [reflexivity|].
    split; [cbn; lia|]. intros [|? [|? ?]] ?; discriminate.
  - destruct (bads_pre _ _ _ _ _ E) as (s1 & f1 & ok & t & E1 & ER & _). destruct (IH _ _ E1) as (HI & EP & a & w & EW & EL & NE). pose proof (bad_step s1 b HI) as X.
    rewrite ER in X. destruct X as (HI' & EPV & X). split; [exact HI'|]. split; [rewrite last_last; exact EPV|]. rewrite EP in X.
    assert (N0 : n_len s = 0 -> exists a w, bs ++ [b] = a ++ w /\ n_len s <= Zlen w /\ one_line a w).
    { intros EZ. exists (bs ++ [b]), []. rewrite app_nil_r. split; [reflexivity|]. split; [rewrite EZ; cbn; lia|]. intros [|? [|? ?]] ? X2; discriminate X2. }
    destruct ((b =? 71) && (last bs 0 =? 36)) eqn:C1.
    + assert (EB : b = 71) by lia. assert (EL1 : last bs 0 = 36) by lia. destruct bs as [|y bs _] using rev_ind; [discriminate EL1|]. rewrite last_last in EL1. subst y.
      exists bs, [36; b]. split; [rewrite <- app_assoc; reflexivity|]. split; [unfold Zlen; cbn [length]; lia|]. rewrite EB.
      intros [|p0 [|p1 [|p2 [|p3 p]]]] q X2; discriminate X2.
    + destruct ((b =? 10) && (last bs 0 =? 13)) eqn:C2; [apply N0; lia|].
      destruct (n_len s1 =? 81); [apply N0; lia|]. exists a, (w ++ [b]). split; [rewrite EW, app_assoc; reflexivity|]. split; [rewrite Zlen_app; unfold Zlen at 2; cbn [length]; lia|].
      apply one_line_snoc; [exact NE|]. rewrite <- EW. lia.
Qed.
Lemma one_line_tail a x w : one_line a (x ++ w) -> one_line (a ++ x) w.
Proof.
  unfold one_line. intros H p q E. destruct x as [|y x _] using rev_ind.
  - cbn [app] in H. rewrite app_nil_r in E. exact (H p q E).
  - rewrite app_assoc, last_last in E. apply (H ((last a 0 :: x) ++ p) q). rewrite <- (app_assoc (last a 0 :: x)), <- E, <- app_assoc. reflexivity.
Qed.
Lemma bad_means_long buf0 bs b s f : Zlen buf0 = 82 -> nmea_bads (nmea_init buf0) (bs ++ [b]) = Ok (s, f) -> last f false = true ->
  exists a w, bs ++ [b] = a ++ w /\ Zlen w = 82 /\ one_line a w.
Proof.
  intros HZ E HF. destruct (bads_pre _ _ _ _ _ E) as (s1 & f1 & ok & t & E1 & ER & EF). rewrite EF, last_last in HF.
  destruct (line_length buf0 HZ _ _ _ E1) as (HI & EP & a & w & EW & EL & NE). pose proof (bad_step s1 b HI) as X. rewrite ER in X. destruct X as (_ & _ & X). rewrite HF, EP in X.
  destruct ((b =? 71) && (last bs 0 =? 36)); [destruct X; discriminate|]. destruct ((b =? 10) && (last bs 0 =? 13)) eqn:C2; [destruct X; discriminate|].
  destruct (Z.eqb_spec (n_len s1) 81) as [E81|]; [|destruct X; discriminate].
  assert (NW : one_line a (w ++ [b])) by (apply one_line_snoc; [exact NE|rewrite <- EW; lia]).
  set (n := (length w - 81)%nat). exists (a ++ firstn n w), (skipn n w ++ [b]). split; [rewrite EW, <- !app_assoc; f_equal; rewrite app_assoc, firstn_skipn; reflexivity|].
  split; [rewrite Zlen_app; unfold Zlen in *; rewrite skipn_length; cbn [length]; lia|].
  apply one_line_tail. rewrite app_assoc, firstn_skipn. exact NW.
Qed.
Lemma short_part : forall l s c s' f, NInv s -> n_len s <= c -> (n_prev s = 36 -> 1 <= c) -> c + Zlen l <= 81 -> nmea_bads s l = Ok (s', f) ->
  f = repeat false (length l) /\ NInv s' /\ n_prev s' = last l (n_prev s).
Proof.
  induction l as [|b l IH]; intros s c s' f HI HL HP HC E; cbn [nmea_bads] in E.
  - assert (s' = s) by congruence. assert (f = []) by congruence. subst. split; [reflexivity|]. split; [exact HI|reflexivity].
  - rewrite Zlen_cons in HC. pose proof (Zlen_nonneg l) as HN. pose proof (bad_step s b HI) as X. destruct (nmea_read s b) as [[[s1 ok] t]|k]; cbn [bind] in E; [|discriminate E]. destruct X as (HI' & EP & X).
    destruct (nmea_bads s1 l) as [[s2 o]|k] eqn:EB; cbn [bind] in E; [|discriminate E]. assert (s2 = s') by congruence. assert (EF : f = nmea_bad s b :: o) by congruence. subst s2.
    assert (HB : 0 <= n_len s) by apply HI. assert (Y : n_len s1 <= c + 1 /\ nmea_bad s b = false).
    { destruct ((b =? 71) && (n_prev s =? 36)) eqn:C1; [assert (n_prev s = 36) by lia; specialize (HP ltac:(assumption)); destruct X as [X1 X2]; split; [lia|exact X2]|].
      destruct ((b =? 10) && (n_prev s =? 13)); [destruct X as [X1 X2]; split; [lia|exact X2]|]. destruct (Z.eqb_spec (n_len s) 81); [lia|]. destruct X as [X1 X2]; split; [lia|exact X2]. }
    destruct Y as [Y1 Y2]. destruct (IH s1 (c + 1) s' o HI' Y1 ltac:(lia) ltac:(lia) EB) as (R1 & R2 & R3). split; [rewrite EF, Y2, R1; reflexivity|]. split; [exact R2|].
    rewrite R3, EP. destruct l; [reflexivity|]. cbn [last]. clear. revert z. induction l as [|y l IH]; intros z; [reflexivity|apply IH].
Qed.
Lemma bads_app : forall a s b, nmea_bads s (a ++ b) = match nmea_bads s a with Ok (s1, f) => match nmea_bads s1 b with Ok (s2, g) => Ok (s2, f ++ g) | UB k => UB k end | UB k => UB k end.
Proof.
  induction a as [|x a IH]; intros s b; cbn [app nmea_bads]; [destruct (nmea_bads s b) as [[s2 g]|k]; reflexivity|].
  destruct (nmea_read s x) as [[[s1 ok] t]|k]; cbn [bind]; [|reflexivity]. rewrite IH. destruct (nmea_bads s1 a) as [[s2 f]|k]; cbn [bind]; [|reflexivity].
  destruct (nmea_bads s2 b) as [[s3 g]|k]; reflexivity.
Qed.
Definition eol (l : list Z) : list Z := l ++ [13; 10].
Lemma short_lines : forall ls s s' f, NInv s -> n_len s = 0 -> n_prev s <> 36 -> Forall (fun l => Zlen l <= 80) ls -> nmea_bads s (flat_map eol ls) = Ok (s', f) ->
  f = repeat false (length (flat_map eol ls)).
Proof.
  induction ls as [|l ls IH]; intros s s' f HI HL HP HF E.
  - cbn [flat_map nmea_bads] in E. cbn. congruence.
  - change (flat_map eol (l :: ls)) with (eol l ++ flat_map eol ls) in *. inversion HF as [|? ? H1 H2]; subst. unfold eol at 1 in E. unfold eol at 1.
    replace (l ++ [13; 10]) with ((l ++ [13]) ++ [10]) in * by (rewrite <- app_assoc; reflexivity). rewrite <- app_assoc, bads_app in E.
    destruct (nmea_bads s (l ++ [13])) as [[s1 f1]|k] eqn:E1; [|discriminate E].
    destruct (short_part (l ++ [13]) s 0 s1 f1 HI ltac:(lia) ltac:(lia) ltac:(rewrite Zlen_app; unfold Zlen at 2; cbn [length]; lia) E1) as (R1 & R2 & R3). rewrite last_last in R3.
    cbn [app nmea_bads] in E. pose proof (bad_step s1 10 R2) as X. destruct (nmea_read s1 10) as [[[s2 ok] t]|k]; cbn [bind] in E; [|discriminate E].
    rewrite R3 in X. cbn [Z.eqb Pos.eqb andb] in X. destruct X as (X1 & X2 & X3 & X4).
    destruct (nmea_bads s2 (flat_map eol ls)) as [[s3 g]|k] eqn:E2; cbn [bind] in E; [|discriminate E].
    rewrite (IH s2 s3 g X1 X3 ltac:(lia) H2 E2) in E. rewrite X4, R1 in E. assert (EF : f = repeat false (length (l ++ [13])) ++ false :: repeat false (length (flat_map eol ls))) by congruence.
    rewrite EF. replace (length (((l ++ [13]) ++ [10]) ++ flat_map eol ls)) with (Nat.add (length (l ++ [13])) (S (length (flat_map eol ls)))) by (rewrite (app_length _ (flat_map eol ls)), (app_length _ [10]); cbn [length]; lia).
    rewrite repeat_app. reflexivity.
Qed.
Lemma new_data_calls buf0 v cs s' v' o : nmea_calls (nmea_init buf0) v cs = Ok (s', v', o) -> forall k, nth k o false = true -> k = 0%nat /\ v = true.
Proof.
  intros E k H. rewrite (news _ _ _ _ _ _ E) in H. destruct o as [|x o]; [destruct k; discriminate H|]. destruct k as [|k]; [split; [reflexivity|exact H]|].
  cbn [nth] in H. exfalso. revert k H. induction (length o) as [|n IH]; intros [|k] H; try discriminate H. exact (IH _ H).
Qed.
(* parsing_message() *)
Lemma start_step s b : NInv s -> n_start s && n_end s = false -> match nmea_read s b with
  | Ok (s', _, _) => n_start s' && n_end s' = false /\
      n_start s' = (if (b =? 71) && (n_prev s =? 36) then true else if (b =? 10) && (n_prev s =? 13) then false else if n_len s =? 81 then false else n_start s)
  | UB _ => True end.
Proof.
  assert (C : forall x y u v : Z, ~ (x = u /\ y = v) -> (x =? u) && (y =? v) = false) by (intros; lia).
  intros HI HF. pose proof (nmea_step s b HI) as ST. destruct (nmea_read s b) as [[[s' ok] t]|k] eqn:ER; [|exact I].
  destruct ST as [l E1 E2 E _|E1 E2 _ E|E1 E2 _ E|N1 N2 L E|N1 N2 L E]; try (rewrite ER in E; discriminate E).
  - assert (X : s' = mkNmea 2 true false 71 ([36; 71] ++ l)) by congruence. rewrite X, E1, E2. split; reflexivity.
  - assert (X : s' = mkNmea 0 false true 10 (repeat 0 (Z.to_nat N_SIZE))) by congruence. rewrite X, E1, E2. split; reflexivity.
  - assert (X : s' = mkNmea (n_len s + 1) (n_start s) (n_end s) b (stored s b)) by congruence. rewrite X. cbn [n_start n_end]. split; [exact HF|].
    rewrite (C _ _ _ _ N1), (C _ _ _ _ N2). replace (n_len s =? 81) with false by lia. reflexivity.
  - assert (X : s' = mkNmea 0 false false b (stored s b)) by congruence. rewrite X. cbn [n_start n_end]. split; [reflexivity|].
    rewrite (C _ _ _ _ N1), (C _ _ _ _ N2). replace (n_len s =? 81) with true by lia. reflexivity.
Qed.
Lemma no_eol_app w b : no_eol w -> (w <> [] -> ~ (last w 0 = 13 /\ b = 10)) -> no_eol (w ++ [b]).
Proof.
  intros H N. destruct w as [|y w _] using rev_ind.
  - intros [|? [|? ?]] q X; discriminate X.
  - rewrite last_last in N. rewrite <- app_assoc. apply no_eol_snoc; [exact H|]. apply N. destruct w; discriminate.
Qed.
Lemma no_eol_pre w b : no_eol (w ++ [b]) -> no_eol w /\ (w <> [] -> ~ (last w 0 = 13 /\ b = 10)).
Proof.
  intros H. split.
  - intros p q E. apply (H p (q ++ [b])). rewrite E, <- !app_assoc. reflexivity.
  - intros NE [E1 E2]. destruct w as [|y w _] using rev_ind; [contradiction|]. rewrite last_last in E1. subst. apply (H w []). rewrite <- !app_assoc. reflexivity.
Qed.
Lemma parsing_flag buf0 : Zlen buf0 = 82 -> forall bs s f, nmea_bads (nmea_init buf0) bs = Ok (s, f) ->
  n_start s && n_end s = false /\
  (n_start s = true <-> exists a w, bs = a ++ [36; 71] ++ w /\ no_eol w /\ ~ In true (skipn (length a + 2) f)).
Proof.
  intros HZ bs. induction bs as [|b bs IH] using rev_ind; intros s f E.
  - cbn [nmea_bads] in E. assert (s = nmea_init buf0) by congruence. subst s. split; [reflexivity|]. split; [discriminate|]. intros ([|? ?] & w & X & _); discriminate X.
  - destruct (bads_pre _ _ _ _ _ E) as (s1 & f1 & ok & t & E1 & ER & EF). destruct (IH _ _ E1) as [HX HP]. destruct (line_length buf0 HZ _ _ _ E1) as (HI & EP & _).
    pose proof (start_step s1 b HI HX) as Y. pose proof (bad_step s1 b HI) as X. rewrite ER in X, Y. destruct Y as [Y0 Y]. destruct X as (_ & _ & X). split; [exact Y0|]. rewrite EP in X, Y.
    assert (L1 : length f1 = length bs).
    { clear - E1. revert E1. generalize (nmea_init buf0). revert f1 s1. induction bs as [|c bs IH]; intros f1 s1 s0 E1; cbn [nmea_bads] in E1; [assert (f1 = []) by congruence; subst; reflexivity|].
      destruct (nmea_read s0 c) as [[[sa ok] t]|k]; cbn [bind] in E1; [|discriminate E1]. destruct (nmea_bads sa bs) as [[s2 o]|k] eqn:EB; cbn [bind] in E1; [|discriminate E1].
      assert (EF : f1 = nmea_bad s0 c :: o) by congruence. rewrite EF. cbn [length]. rewrite (IH _ _ _ EB). reflexivity. }
    destruct ((b =? 71) && (last bs 0 =? 36)) eqn:C1.
    { split; [intros _|intros _; exact Y]. assert (EB : b = 71) by lia. assert (EL : last bs 0 = 36) by lia. destruct bs as [|y bs _] using rev_ind; [discriminate EL|]. rewrite last_last in EL. subst y b.
      exists bs, []. split; [rewrite <- app_assoc; reflexivity|]. split; [intros [|? ?] ? Z; discriminate Z|]. rewrite EF. rewrite app_length in L1. cbn [length] in L1.
      rewrite skipn_all2 by (rewrite app_length; cbn [length]; lia). intros []. }
    split.
    + intros HS. rewrite HS in Y. destruct ((b =? 10) && (last bs 0 =? 13)) eqn:C2; [discriminate Y|]. destruct (n_len s1 =? 81); [discriminate Y|]. destruct X as [_ XB].
      destruct (proj1 HP (eq_sym Y)) as (a & w & EW & NE & NB). exists a, (w ++ [b]). split; [rewrite EW, <- !app_assoc; reflexivity|]. split.
      * apply no_eol_app; [exact NE|]. intros NW [L13 B10]. assert (last bs 0 = last w 0).
        { rewrite EW. destruct w as [|y w _] using rev_ind; [contradiction|]. rewrite !app_assoc, !last_last. reflexivity. } lia.
      * rewrite EF, XB. apply (f_equal (@length Z)) in EW. rewrite !app_length in EW. cbn [length] in EW. rewrite skipn_app. intros Hin. apply in_app_or in Hin. destruct Hin as [Hin|Hin]; [exact (NB Hin)|].
        replace (length a + 2 - length f1)%nat with 0%nat in Hin by lia. destruct Hin as [Hin|[]]. discriminate Hin.
    + intros (a & w & EW & NE & NB). destruct w as [|y w _] using rev_ind.
      { exfalso. rewrite app_nil_r in EW. assert (EW2 : bs ++ [b] = (a ++ [36]) ++ [71]) by (rewrite <- app_assoc; exact EW). apply app_inj_tail in EW2. destruct EW2 as [-> ->]. rewrite last_last in C1. discriminate C1. }
      rewrite !app_assoc in EW. apply app_inj_tail in EW. destruct EW as [EW ->]. rewrite <- app_assoc in EW. destruct (no_eol_pre w y NE) as [NE1 NE2].
      assert (LW : length bs = (length a + 2 + length w)%nat) by (rewrite EW, !app_length; cbn [length]; lia).
      rewrite EF, skipn_app in NB. replace (length a + 2 - length f1)%nat with 0%nat in NB by lia. cbn [skipn] in NB.
      assert (NB1 : ~ In true (skipn (length a + 2) f1)) by (intros Z; apply NB; apply in_or_app; left; exact Z).
      assert (NB2 : nmea_bad s1 y = false) by (destruct (nmea_bad s1 y); [exfalso; apply NB; apply in_or_app; right; left; reflexivity|reflexivity]).
      rewrite Y. destruct ((y =? 10) && (last bs 0 =? 13)) eqn:C2.
      * exfalso. destruct w as [|z w _] using rev_ind.
        -- rewrite EW, app_nil_r in C2. change (a ++ [36; 71]) with (a ++ [36] ++ [71]) in C2. rewrite app_assoc, last_last in C2. lia.
        -- rewrite EW, !app_assoc, last_last in C2. rewrite last_last in NE2. apply NE2; [destruct w; discriminate|lia].
      * destruct (n_len s1 =? 81); [destruct X as [_ X]; congruence|]. apply HP. exists a, w. split; [exact EW|]. split; assumption.
Qed.
Lemma parsing_char buf0 bs s f : Zlen buf0 = 82 -> nmea_bads (nmea_init buf0) bs = Ok (s, f) ->
  (nmea_parsing s = true <-> exists a w, bs = a ++ [36; 71] ++ w /\ no_eol w /\ ~ In true (skipn (length a + 2) f)).
Proof.
  intros HZ E. destruct (parsing_flag buf0 HZ bs s f E) as [H1 H2]. rewrite <- H2. unfold nmea_parsing. destruct (n_start s), (n_end s); split; intros X; try reflexivity; try discriminate X; discriminate H1.
Qed.
Lemma quiet_start : forall bs s s' f, NInv s -> n_start s = false -> plain (n_prev s :: bs) -> nmea_bads s bs = Ok (s', f) -> n_start s' = false.
Proof.
  induction bs as [|b bs IH]; intros s s' f HI HS HP E; cbn [nmea_bads] in E; [congruence|].
  pose proof (start_step s b HI) as Y. pose proof (bad_step s b HI) as X. rewrite HS in Y. specialize (Y eq_refl).
  destruct (nmea_read s b) as [[[s1 ok] t]|k]; cbn [bind] in E; [|discriminate E]. destruct X as (HI' & EP & _). destruct Y as [_ Y].
  destruct (nmea_bads s1 bs) as [[s2 o]|k] eqn:EB; cbn [bind] in E; [|discriminate E]. assert (s2 = s') by congruence. subst s2.
  destruct ((b =? 71) && (n_prev s =? 36)) eqn:C1.
  { exfalso. assert (E71 : b = 71) by lia. assert (E36 : n_prev s = 36) by lia. apply (proj1 (HP [] bs)). rewrite E36, E71. reflexivity. }
  apply (IH s1 s' o HI'); [destruct ((b =? 10) && (n_prev s =? 13)); [exact Y|destruct (n_len s =? 81); exact Y]|rewrite EP; exact (plain_tl _ _ HP)|exact EB].
Qed.
Lemma restart_spec s bs : NInv s -> plain (n_prev s :: bs) -> exists s' f, nmea_bads (nmea_restart s) bs = Ok (s', f) /\ nmea_parsing s' = false /\ nbads f = Zlen bs / 82.
Proof.
  intros [H1 H2] HP. assert (HI : NInv (nmea_restart s)) by (split; [exact H1|cbn; lia]).
  destruct (plain_count bs (nmea_restart s) HI HP) as (s' & f & E1 & E2 & _). exists s', f. split; [exact E1|]. split; [|exact E2].
  unfold nmea_parsing. rewrite (quiet_start bs (nmea_restart s) s' f HI eq_refl HP E1). reflexivity.
Qed.
Lemma nbads_count f : nbads f = Z.of_nat (count_occ Bool.bool_dec f true).
Proof.
  induction f as [|[|] f IH]; [reflexivity| |]; cbn [count_occ nbads].
  - destruct (Bool.bool_dec true true); [lia|congruence].
  - destruct (Bool.bool_dec false true); [congruence|lia].
Qed.
