From Verif Require Import Base SerialModel.
Fixpoint split14 (fuel : nat) (l : list Z) : list (list Z) :=
  match fuel with O => [] | S f => match l with [] => [] | _ => firstn 14 l :: split14 f (skipn 14 l) end end.
(* the chunks a file is cut into: 14 bytes each, the last one possibly shorter *)
Definition chunks14 (l : list Z) : list (list Z) := split14 (S (length l)) l.
Definition to_all (ls : list Z) (cs : list (list Z)) : list delivery := flat_map (fun c => map (fun l => (SLis l, c)) ls) cs.
(* what sink k receives *)
Definition got (k : sink) (ds : list delivery) : list (list Z) :=
  flat_map (fun d => match fst d, k with SLis a, SLis b => if a =? b then [snd d] else [] | SCb a, SCb b => if a =? b then [snd d] else [] | _, _ => [] end) ds.

Lemma split14_concat f : forall l, (length l < f)%nat -> concat (split14 f l) = l.
Proof.
  induction f as [|f IH]; intros l H; [lia|]. cbn [split14]. destruct l as [|x l]; [reflexivity|]. cbn [concat].
  rewrite IH; [apply firstn_skipn|]. rewrite skipn_length. cbn [length] in *. lia.
Qed.
Lemma split14_sizes f : forall l, (length l < f)%nat ->
  exists cs r, split14 f l = cs ++ (match r with [] => [] | _ => [r] end) /\ Forall (fun c => length c = 14%nat) cs /\ (length r < 14)%nat.
Proof.
  induction f as [|f IH]; intros l H; [lia|]. cbn [split14]. destruct l as [|x l]; [exists [], []; repeat constructor; cbn; lia|].
  destruct (Nat.ltb_spec (length (x :: l)) 14) as [Hs|Hs].
  - exists [], (x :: l). rewrite firstn_all2 by lia. rewrite skipn_all2 by lia. split; [destruct f; reflexivity|]. split; [constructor|exact Hs].
  - destruct (IH (skipn 14 (x :: l))) as (cs & r & E & HC & HR). { rewrite skipn_length. cbn [length] in *. lia. }
    exists (firstn 14 (x :: l) :: cs), r. rewrite E. split; [reflexivity|]. split; [|exact HR]. constructor; [rewrite firstn_length; lia|exact HC].
Qed.
Lemma chunks14_concat l : concat (chunks14 l) = l.
Proof. apply split14_concat. lia. Qed.
Lemma chunks14_sizes l : exists cs r, chunks14 l = cs ++ (match r with [] => [] | _ => [r] end) /\ Forall (fun c => length c = 14%nat) cs /\ (length r < 14)%nat.
Proof. apply split14_sizes. lia. Qed.

Lemma u32_small x : 0 <= x < 2 ^ 32 -> u32 x = x.
Proof. intros H. unfold u32. apply Z.mod_small. exact H. Qed.
Lemma i32_small x : 0 <= x < 2 ^ 31 -> i32 x = x.
Proof. intros H. unfold i32, sgn. change (2 ^ 32) with 4294967296 in *. change (2 ^ 31) with 2147483648 in *. change (2 ^ (32 - 1)) with 2147483648. rewrite Z.mod_small by lia. destruct (x <? 2147483648) eqn:E; lia. Qed.

Lemma play_loop_spec ls f : forall done rest, (length rest < f)%nat -> Zlen (done ++ rest) < 2 ^ 31 ->
  play_loop f ls (done ++ rest) (Zlen (done ++ rest)) (Zlen done) = Ok (to_all ls (split14 f rest)).
Proof.
  induction f as [|f IH]; intros done rest Hf Hz; [lia|].
  assert (P31 : 2 ^ 31 = 2147483648) by reflexivity. assert (P32 : 2 ^ 32 = 4294967296) by reflexivity.
  rewrite Zlen_app in Hz. pose proof (Zlen_nonneg done). pose proof (Zlen_nonneg rest).
  cbn [play_loop split14]. rewrite Zlen_app, (u32_small (Zlen done)) by lia.
  destruct rest as [|x rest].
  - change (Zlen []) with 0. replace (Zlen done <? Zlen done + 0) with false by lia. reflexivity.
  - set (r := x :: rest) in *. assert (Hr : 1 <= Zlen r) by (unfold r; rewrite Zlen_cons; pose proof (Zlen_nonneg rest); lia).
    replace (Zlen done <? Zlen done + Zlen r) with true by lia.
    replace (Zlen done + Zlen r - Zlen done) with (Zlen r) by lia. rewrite u32_small by lia. rewrite i32_small by lia.
    set (c := if 14 <=? Zlen r then 14 else Zlen r).
    assert (Hc : 1 <= c <= Zlen r /\ c <= 14) by (unfold c; destruct (Z.leb_spec 14 (Zlen r)); lia).
    assert (EF : firstn (Z.to_nat c) r = firstn 14 r).
    { unfold c. destruct (Z.leb_spec 14 (Zlen r)); [reflexivity|]. rewrite !firstn_all2; [reflexivity| |]; unfold Zlen in *; lia. }
    assert (ES : skipn (Z.to_nat c) r = skipn 14 r).
    { unfold c. destruct (Z.leb_spec 14 (Zlen r)); [reflexivity|]. rewrite !skipn_all2; [reflexivity| |]; unfold Zlen in *; lia. }
    assert (E0 : skipn (Z.to_nat (Zlen done)) (done ++ r) = r).
    { unfold Zlen. rewrite Nat2Z.id. rewrite skipn_app, skipn_all, Nat.sub_diag. reflexivity. }
    rewrite E0, EF. replace (2 ^ 31 <=? Zlen done + c) with false by lia.
    assert (EL : Zlen (firstn 14 r) = c) by (rewrite <- EF; unfold Zlen; rewrite firstn_length; unfold Zlen in *; lia).
    specialize (IH (done ++ firstn 14 r) (skipn 14 r)). rewrite <- app_assoc, firstn_skipn, !Zlen_app, EL in IH.
    rewrite IH; [reflexivity| |lia]. rewrite skipn_length. unfold r in *. cbn [length] in *. lia.
Qed.

Lemma play_small ls file : Zlen file < 2 ^ 31 -> logger_play MREAD ls file = Done (Ok (to_all ls (chunks14 file))).
Proof.
  intros H. assert (P31 : 2 ^ 31 = 2147483648) by reflexivity. assert (P32 : 2 ^ 32 = 4294967296) by reflexivity. pose proof (Zlen_nonneg file).
  unfold logger_play. rewrite u32_small by lia. rewrite firstn_all2 by (unfold Zlen; lia). f_equal.
  apply (play_loop_spec ls (S (length file)) [] file); [lia|exact H].
Qed.
Lemma play_truncated ls file : u32 (Zlen file) < 2 ^ 31 ->
  logger_play MREAD ls file = Done (Ok (to_all ls (chunks14 (firstn (Z.to_nat (u32 (Zlen file))) file)))).
Proof.
  intros H. assert (P31 : 2 ^ 31 = 2147483648) by reflexivity. assert (P32 : 2 ^ 32 = 4294967296) by reflexivity. pose proof (Zlen_nonneg file).
  unfold logger_play. set (len := u32 (Zlen file)) in *. set (g := firstn (Z.to_nat len) file).
  assert (Hl : 0 <= len <= Zlen file). { unfold len, u32. pose proof (Z.mod_pos_bound (Zlen file) (2 ^ 32)). split; [lia|apply Z.mod_le; lia]. }
  assert (Eg : Zlen g = len) by (unfold g, Zlen in *; rewrite firstn_length; lia).
  f_equal. pose proof (play_loop_spec ls (S (length file)) [] g) as HP. cbn [app] in HP. rewrite Eg in HP. change (Zlen []) with 0 in HP. rewrite HP; [|unfold Zlen in *; lia|exact H].
  f_equal. f_equal. unfold chunks14.
  assert (GEN : forall f1 f2 l, (length l < f1)%nat -> (length l < f2)%nat -> split14 f1 l = split14 f2 l).
  { clear. induction f1 as [|f1 IH]; intros f2 l H1 H2; [lia|]. destruct f2 as [|f2]; [lia|]. cbn [split14]. destruct l as [|x l]; [reflexivity|]. f_equal.
    apply IH; rewrite skipn_length; cbn [length] in *; lia. }
  apply GEN; unfold Zlen in *; lia.
Qed.

(* 2^31 bytes or more (after truncation of the size to 32 bits): the index overflows *)
Lemma play_loop_over ls len buf : 2 ^ 31 <= len < 2 ^ 32 -> forall f idx, 0 <= idx < 2 ^ 31 -> (Z.to_nat (len - idx) < f)%nat ->
  play_loop f ls buf len idx = UB UB_overflow.
Proof.
  assert (P31 : 2 ^ 31 = 2147483648) by reflexivity. assert (P32 : 2 ^ 32 = 4294967296) by reflexivity.
  intros Hl. induction f as [|f IH]; intros idx Hi Hf; [lia|]. cbn [play_loop]. rewrite u32_small by lia. replace (idx <? len) with true by lia. rewrite u32_small by lia.
  set (c := if 14 <=? len - idx then 14 else i32 (len - idx)).
  assert (Hc : 1 <= c <= 14 /\ c <= len - idx).
  { unfold c. destruct (Z.leb_spec 14 (len - idx)); [lia|]. rewrite i32_small by lia. lia. }
  destruct (Z.leb_spec (2 ^ 31) (idx + c)) as [Ho|Ho]; [reflexivity|]. rewrite IH by lia. reflexivity.
Qed.
Lemma play_over ls file : 2 ^ 31 <= u32 (Zlen file) -> logger_play MREAD ls file = Done (UB UB_overflow).
Proof.
  intros H. assert (P31 : 2 ^ 31 = 2147483648) by reflexivity. assert (P32 : 2 ^ 32 = 4294967296) by reflexivity. pose proof (Zlen_nonneg file).
  unfold logger_play. f_equal. apply play_loop_over.
  - split; [exact H|]. unfold u32. apply Z.mod_pos_bound. lia.
  - lia.
  - rewrite Z.sub_0_r. assert (u32 (Zlen file) <= Zlen file) by (unfold u32; apply Z.mod_le; lia). unfold Zlen in *. lia.
Qed.

Lemma got_to_all l ls cs : got (SLis l) (to_all ls cs) = flat_map (fun c => repeat c (count_occ Z.eq_dec ls l)) cs.
Proof.
  unfold got, to_all. induction cs as [|c cs IH]; [reflexivity|]. cbn [flat_map]. rewrite flat_map_app, IH. f_equal. clear.
  induction ls as [|a ls IH]; [reflexivity|]. cbn [map flat_map fst snd count_occ]. rewrite IH.
  destruct (Z.eqb_spec a l) as [He|Hn]; destruct (Z.eq_dec a l); try congruence; reflexivity.
Qed.
Lemma flat_map_one {A} (cs : list A) : flat_map (fun c => repeat c 1) cs = cs.
Proof. induction cs as [|c cs IH]; [reflexivity|]. cbn in *. rewrite IH. reflexivity. Qed.

Lemma wlog_inv h : forall w, disk (fold_left lev_step h w) ++ pend (fold_left lev_step h w) =
  disk w ++ pend w ++ flat_map (fun e => match e with LRead b => b | LDrain _ => [] end) h.
Proof.
  induction h as [|e h IH]; intros w; cbn [fold_left flat_map]; [rewrite app_nil_r; reflexivity|]. rewrite IH. destruct e as [b|n]; cbn [lev_step wlog_read_cb wlog_drain disk pend].
  - rewrite <- !app_assoc. reflexivity.
  - cbn [app]. rewrite <- !app_assoc. f_equal. rewrite app_assoc, firstn_skipn. reflexivity.
Qed.
Definition lev_bytes (h : list lev) : list Z := flat_map (fun e => match e with LRead b => b | LDrain _ => [] end) h.
Lemma wlog_crash h : exists rest, lev_bytes h = disk (wlog_run h) ++ rest.
Proof. exists (pend (wlog_run h)). unfold wlog_run. rewrite wlog_inv. reflexivity. Qed.
Lemma wlog_closed h : disk (wlog_close (wlog_run h)) = lev_bytes h.
Proof. cbn [wlog_close disk]. unfold wlog_run. rewrite wlog_inv. reflexivity. Qed.

(* histories of an interface *)
Definition regs (h : list sev) : list Z := flat_map (fun e => match e with SAddL l => [l] | _ => [] end) h.
Definition cb_of (h : list sev) : option Z := fold_left (fun a e => match e with SAddC c => Some c | _ => a end) h None.
Lemma si_run_app h1 : forall s h2, si_run s (h1 ++ h2) = (let (s1, d1) := si_run s h1 in let (s2, d2) := si_run s1 h2 in (s2, d1 ++ d2)).
Proof.
  induction h1 as [|e h1 IH]; intros s h2; cbn [app si_run].
  - destruct (si_run s h2); reflexivity.
  - destruct (si_step s e) as [s1 d1]. rewrite IH. destruct (si_run s1 h1) as [s2 d2]. destruct (si_run s2 h2) as [s3 d3]. rewrite app_assoc. reflexivity.
Qed.
Lemma si_state h : forall s, fst (si_run s h) = mkSi (si_ls s ++ regs h) (fold_left (fun a e => match e with SAddC c => Some c | _ => a end) h (si_cb s)).
Proof.
  induction h as [|e h IH]; intros s; cbn [si_run regs flat_map fold_left].
  - rewrite app_nil_r. destruct s; reflexivity.
  - destruct (si_step s e) as [s1 d1] eqn:E. specialize (IH s1). destruct (si_run s1 h) as [s2 d2]. cbn [fst] in *. rewrite IH.
    destruct e as [l|c|b]; cbn [si_step] in E; assert (E1 := f_equal fst E); cbn [fst] in E1; subst s1; cbn [add_listener add_callback si_ls si_cb].
    + rewrite <- app_assoc. reflexivity.
    + reflexivity.
    + reflexivity.
Qed.
(* the calls made for one received buffer in a history *)
Lemma si_receive h1 b h2 : exists d1 d2,
  snd (si_run si_init (h1 ++ SRecv b :: h2)) =
  d1 ++ (match cb_of h1 with Some c => [(SCb c, b)] | None => [] end ++ map (fun l => (SLis l, b)) (regs h1)) ++ d2 /\
  d1 = snd (si_run si_init h1).
Proof.
  rewrite si_run_app. pose proof (si_state h1 si_init) as HS. destruct (si_run si_init h1) as [s1 d1]. cbn [fst] in HS. cbn [si_run si_step].
  destruct (si_run s1 h2) as [s2 d2]. exists d1, d2. cbn [snd]. split; [|reflexivity]. rewrite HS. unfold receive_callback. cbn [si_cb si_ls si_init app]. reflexivity.
Qed.
(* everything one listener gets *)
Fixpoint heard (n : nat) (l : Z) (h : list sev) : list (list Z) :=
  match h with
  | [] => []
  | SAddL a :: r => heard (if a =? l then S n else n) l r
  | SAddC _ :: r => heard n l r
  | SRecv b :: r => repeat b n ++ heard n l r
  end.
Lemma got_app k a b : got k (a ++ b) = got k a ++ got k b.
Proof. unfold got. apply flat_map_app. Qed.
Lemma got_map l b ls : got (SLis l) (map (fun x => (SLis x, b)) ls) = repeat b (count_occ Z.eq_dec ls l).
Proof.
  pose proof (got_to_all l ls [b]) as H. unfold to_all in H. cbn [flat_map] in H. rewrite !app_nil_r in H. exact H.
Qed.
Lemma heard_spec l h : forall s, got (SLis l) (snd (si_run s h)) = heard (count_occ Z.eq_dec (si_ls s) l) l h.
Proof.
  induction h as [|e h IH]; intros s; [reflexivity|]. cbn [si_run]. destruct (si_step s e) as [s1 d1] eqn:E.
  specialize (IH s1). destruct (si_run s1 h) as [s2 d2]. cbn [snd] in *. rewrite got_app, IH.
  destruct e as [a|c|b]; cbn [si_step] in E; assert (E1 := f_equal fst E); assert (E2 := f_equal snd E); cbn [fst snd] in E1, E2; subst s1 d1; cbn [heard add_listener add_callback si_ls].
  - rewrite count_occ_app. cbn [count_occ]. destruct (Z.eqb_spec a l) as [He|Hn]; destruct (Z.eq_dec a l); try congruence; cbn [got flat_map app]; f_equal; lia.
  - reflexivity.
  - f_equal. unfold receive_callback. rewrite got_app, got_map. destruct (si_cb s); reflexivity.
Qed.
