(* Lifetime.v extended by the UBX listeners a program registers with its UBLOX object, and the three long-running example programs:
     UBX::registerListener / decode_message   src/parsers/ubx.cpp:446-458   plain pointers; every decoded message asks every listener whether it is
                                              subscribed (a virtual call), and nothing removes a listener
     src/examples/base.cpp:81-106, rover.cpp:86-110, read_serial.cpp:134-166   construction order, and destruction at the end of main in the reverse order
   A Logger attached with add_listener (read_serial.cpp:141-146) is, for lifetimes, an object on the port that is never configured as base or rover. *)
From Verif Require Import Base UbloxSpec Lifetime.

(* Do e um: the library event e; if it is a reception, um o tells whether object o completes a UBX message from the buffer *)
Inductive pev := Do (e : ev) (um : Z -> bool) | NewH (x : Z) | DelH (x : Z) | Listen (o x : Z).   (* Listen: o.registerUBXListener(&x) *)
Record pstate := mkP { p_w : world; p_hs : Z -> list Z; p_al : Z -> bool }.
Definition p_empty : pstate := mkP empty_world (fun _ => []) (fun _ => false).
(* every listener of every object that completes a message is called: is it still there? *)
Definition handlers_fine (s : pstate) (i : Z) (um : Z -> bool) : bool :=
  match w_ifc (p_w s) i with
  | None => false
  | Some f => forallb (fun o => negb (um o) || forallb (p_al s) (p_hs s o)) (i_ls f)
  end.
(* None: a destroyed object is used *)
(* ubx.cpp:446-458 (registerListener, decode_message) on top of Lifetime.step *)
Definition pstep (s : pstate) (e : pev) : option pstate :=
  match e with
  | Do e um =>
      match step (p_w s) e with
      | Dangling => None
      | Ran w _ => if match e with Recv i _ _ => handlers_fine s i um | _ => true end then Some (mkP w (p_hs s) (p_al s)) else None
      end
  | NewH x => Some (mkP (p_w s) (p_hs s) (upd (p_al s) x true))
  | DelH x => Some (mkP (p_w s) (p_hs s) (upd (p_al s) x false))
  | Listen o x => Some (mkP (p_w s) (upd (p_hs s) o (p_hs s o ++ [x])) (p_al s))
  end.
Fixpoint prun (s : pstate) (h : list pev) : option pstate :=
  match h with [] => Some s | e :: r => match pstep s e with None => None | Some s1 => prun s1 r end end.

(* ---------------------------------------------------------------- specification: read off the history *)
Definition lib (h : list pev) : list ev := flat_map (fun e => match e with Do e _ => [e] | _ => [] end) h.
Definition alive_h (h : list pev) (x : Z) : Prop := In (NewH x) h /\ ~ In (DelH x) h.
Definition puses_ok (h : list pev) (e : pev) : Prop :=
  match e with
  | Do e _ => uses_ok (lib h) e
  | NewH x => ~ In (NewH x) h
  | DelH x => alive_h h x
  | Listen o x => alive_o (lib h) o /\ alive_h h x
  end.
Definition pclient_ok (h : list pev) : Prop := forall h1 e h2, h = h1 ++ e :: h2 -> puses_ok h1 e.
Definition psafe (h : list pev) (i : Z) (fr : Z -> list (list Z)) (um : Z -> bool) : Prop :=
  safe_recv (lib h) i fr /\
  forall o x, In o (attached (lib h) i) -> um o = true -> In (Listen o x) h -> alive_h h x.

(* ---------------------------------------------------------------- proofs *)
Lemma lib_app a b : lib (a ++ b) = lib a ++ lib b. Proof. apply flat_map_app. Qed.
Lemma p_prefix h e : pclient_ok (h ++ [e]) -> pclient_ok h /\ puses_ok h e.
Proof.
  intros H. split.
  - intros h1 x h2 E. apply (H h1 x (h2 ++ [e])). rewrite E, <- app_assoc. reflexivity.
  - apply (H h e []). reflexivity.
Qed.
Lemma p_lib h : pclient_ok h -> client_ok (lib h).
Proof.
  induction h as [|e h IH] using rev_ind; intros HC; [intros h1 x h2 E; destruct h1; discriminate|].
  apply p_prefix in HC. destruct HC as [HC HU]. specialize (IH HC). rewrite lib_app. destruct e as [e um|x|x|o x]; cbn [lib flat_map app]; [|rewrite app_nil_r; exact IH..].
  intros h1 y h2 E. destruct h2 as [|z h2 _] using rev_ind.
  - apply app_inj_tail in E. destruct E as [<- <-]. exact HU.
  - rewrite app_comm_cons, app_assoc in E. apply app_inj_tail in E. destruct E as [E _]. exact (IH _ _ _ E).
Qed.
Lemma prun_snoc h e : forall s, prun s (h ++ [e]) = match prun s h with None => None | Some s1 => pstep s1 e end.
Proof. induction h as [|x h IH]; intros s; cbn [app prun]; [destruct (pstep s e); reflexivity|]. destruct (pstep s x); [apply IH|reflexivity]. Qed.
Lemma psnoc (h : list pev) e x : In x (h ++ [e]) <-> In x h \/ x = e.
Proof. rewrite in_app_iff. cbn. intuition congruence. Qed.
Lemma fresh_h h x : pclient_ok h -> ~ In (NewH x) h -> ~ In (DelH x) h.
Proof. intros HC HN HI. apply in_split in HI. destruct HI as (h1 & h2 & ->). destruct (HC _ _ _ eq_refl) as [H _]. apply HN, in_or_app. left. exact H. Qed.
Definition PRel (h : list pev) (s : pstate) : Prop :=
  Rel (lib h) (p_w s) /\ (forall o x, In x (p_hs s o) <-> In (Listen o x) h) /\ (forall x, p_al s x = true <-> alive_h h x).
Definition psafe_all (h : list pev) : Prop := forall h1 i bf fr um h2, h = h1 ++ Do (Recv i bf fr) um :: h2 -> psafe h1 i fr um.
Lemma handlers_fine_iff h s i um : PRel h s -> alive_i (lib h) i ->
  (handlers_fine s i um = true <-> forall o x, In o (attached (lib h) i) -> um o = true -> In (Listen o x) h -> alive_h h x).
Proof.
  intros (HR & HH & HA) HI. unfold handlers_fine. rewrite (rel_ifc _ _ i HR HI). cbn [i_ls]. rewrite forallb_forall. split.
  - intros H o x Ho Hm Hx. specialize (H o Ho). rewrite Hm in H. cbn [negb orb] in H. rewrite forallb_forall in H. apply HA, H, HH. exact Hx.
  - intros H o Ho. destruct (um o) eqn:Hm; [|reflexivity]. cbn [negb orb]. apply forallb_forall. intros x Hx. apply HA, (H o x Ho Hm), HH. exact Hx.
Qed.
Lemma recv_ran h w i bf fr w' es : Rel h w -> alive_i h i -> step w (Recv i bf fr) = Ran w' es -> w' = w /\ safe_recv h i fr.
Proof.
  intros HR HI E. assert (W : w' = w).
  { cbn [step] in E. destruct (w_ifc w i) as [f|]; [|discriminate]. destruct (callback w bf (i_cb f)); [|discriminate]. destruct (deliver w bf fr (i_ls f)); [congruence|discriminate]. }
  split; [exact W|]. cbn [step] in E. rewrite (rel_ifc h w i HR HI) in E. cbn [i_cb i_ls] in E.
  destruct (callback_spec h w bf (last_rover h i) HR) as [C1 C2]. destruct (deliver_spec h w bf fr (attached h i) HR) as [D1 D2].
  destruct (callback w bf (last_rover h i)) as [x1|]; [|discriminate]. destruct (deliver w bf fr (attached h i)) as [x2|]; [|discriminate].
  split; [|split].
  - intros o Ho. apply (proj1 D1); [discriminate|exact Ho].
  - apply C1. discriminate.
  - intros o Ho. apply (proj1 D1); [discriminate|exact Ho].
Qed.
Lemma prel_do h s e um w : PRel h s -> Rel (lib h ++ [e]) w -> PRel (h ++ [Do e um]) (mkP w (p_hs s) (p_al s)).
Proof.
  intros (HR & HH & HA) HW. split; [rewrite lib_app; exact HW|]. cbn [p_hs p_al]. split.
  - intros o x. rewrite psnoc, HH. intuition congruence.
  - intros x. rewrite HA. unfold alive_h. rewrite !psnoc. intuition congruence.
Qed.
Lemma prel_other h s e : PRel h s -> pclient_ok (h ++ [e]) -> (forall e' um, e <> Do e' um) -> exists s', pstep s e = Some s' /\ PRel (h ++ [e]) s'.
Proof.
  intros (HR & HH & HA) HC HE. apply p_prefix in HC. destruct HC as [HC HU]. destruct e as [e um|y|y|o y]; [exfalso; apply (HE e um); reflexivity|..];
    (eexists; split; [reflexivity|]); (split; [rewrite lib_app; cbn [lib flat_map]; rewrite app_nil_r; exact HR|]); cbn [p_hs p_al]; split.
  - intros o x. rewrite psnoc, HH. intuition congruence.
  - intros x. unfold upd, alive_h. rewrite !psnoc. destruct (Z.eqb_spec x y) as [->|HN].
    + cbn in HU. pose proof (fresh_h h y HC HU). intuition congruence.
    + rewrite HA. unfold alive_h. intuition congruence.
  - intros o x. rewrite psnoc, HH. intuition congruence.
  - intros x. unfold upd, alive_h. rewrite !psnoc. destruct (Z.eqb_spec x y) as [->|HN]; [intuition congruence|].
    rewrite HA. unfold alive_h. intuition congruence.
  - intros p x. unfold upd. rewrite psnoc. destruct (Z.eqb_spec p o) as [->|HN].
    + rewrite in_app_iff, HH. cbn [In]. intuition congruence.
    + rewrite HH. intuition congruence.
  - intros x. rewrite HA. unfold alive_h. rewrite !psnoc. intuition congruence.
Qed.
Lemma prel_nil : PRel [] p_empty.
Proof. split; [exact rel_empty|]. split; [intros o x; reflexivity|]. intros x. split; [discriminate|intros [[] _]]. Qed.
Lemma psafe_prefix h e : psafe_all (h ++ [e]) -> psafe_all h.
Proof. intros H h1 i bf fr um h2 E. apply (H h1 i bf fr um (h2 ++ [e])). rewrite E, <- app_assoc. reflexivity. Qed.
Lemma prun_safe h : pclient_ok h -> psafe_all h -> exists s, prun p_empty h = Some s /\ PRel h s.
Proof.
  induction h as [|e h IH] using rev_ind; intros HC HS; [exists p_empty; split; [reflexivity|exact prel_nil]|].
  pose proof (p_prefix h e HC) as [HC' HU]. destruct (IH HC' (psafe_prefix h e HS)) as (s & E & HP). rewrite prun_snoc, E.
  destruct e as [e um|y|y|o y]; [|apply prel_other; [exact HP|exact HC|discriminate]..].
  cbn [pstep]. destruct (is_recv e) eqn:ER.
  - destruct e as [?|?|? ? ?|?|? ?|? ?|i bf fr]; try discriminate ER.
    destruct (HS h i bf fr um [] eq_refl) as [HA HB]. destruct HP as (HR & HX). destruct (recv_step (lib h) (p_w s) i bf fr HR HU) as [H1 _]. rewrite (H1 HA).
    assert (EF : handlers_fine s i um = true) by (apply (handlers_fine_iff h s i um (conj HR HX) HU); exact HB). rewrite EF.
    eexists. split; [reflexivity|]. apply (prel_do h s _ um _ (conj HR HX)). apply rel_recv. exact HR.
  - destruct (rel_step (lib h) (p_w s) e) as (w' & E' & HR'); [pose proof (p_lib _ HC) as HL; rewrite lib_app in HL; exact HL|exact (proj1 HP)|exact ER|].
    rewrite E'. exists (mkP w' (p_hs s) (p_al s)). split; [destruct e; try reflexivity; discriminate|]. apply (prel_do h s e um w' HP HR').
Qed.
Lemma prun_ran h : forall s, pclient_ok h -> prun p_empty h = Some s -> PRel h s /\ psafe_all h.
Proof.
  induction h as [|e h IH] using rev_ind; intros s HC E.
  - cbn in E. assert (s = p_empty) as -> by congruence. split; [exact prel_nil|]. intros h1 i bf fr um h2 H. destruct h1; discriminate.
  - pose proof (p_prefix h e HC) as [HC' HU]. rewrite prun_snoc in E. destruct (prun p_empty h) as [s1|] eqn:E1; [|discriminate].
    destruct (IH s1 HC' eq_refl) as [HP HS].
    assert (HL : (forall i bf fr um, e = Do (Recv i bf fr) um -> psafe h i fr um) -> psafe_all (h ++ [e])).
    { intros HX h1 i bf fr um h2 EQ. destruct h2 as [|y h2 _] using rev_ind.
      - apply app_inj_tail in EQ. destruct EQ as [<- EQ]. exact (HX i bf fr um EQ).
      - rewrite app_comm_cons, app_assoc in EQ. apply app_inj_tail in EQ. destruct EQ as [EQ _]. exact (HS _ _ _ _ _ _ EQ). }
    destruct e as [e um|y|y|o y];
      [|(split; [destruct (prel_other h s1 _ HP HC) as (s' & E' & HP'); [discriminate|]; rewrite E in E'; assert (s' = s) as -> by congruence; exact HP'|apply HL; discriminate])..].
    cbn [pstep] in E. destruct (step (p_w s1) e) as [w es|] eqn:ES; [|discriminate]. destruct (is_recv e) eqn:ER.
    + destruct e as [?|?|? ? ?|?|? ?|? ?|i bf fr]; try discriminate ER. destruct (handlers_fine s1 i um) eqn:EF; [|discriminate].
      destruct (recv_ran (lib h) (p_w s1) i bf fr w es (proj1 HP) HU ES) as [-> HA].
      split; [assert (s = mkP (p_w s1) (p_hs s1) (p_al s1)) as -> by congruence; apply prel_do; [exact HP|apply rel_recv; exact (proj1 HP)]|].
      apply HL. intros i' bf' fr' um' EQ. assert (i' = i /\ fr' = fr /\ um' = um) as (-> & -> & ->) by (repeat split; congruence).
      split; [exact HA|]. apply (handlers_fine_iff h s1 i um HP HU). exact EF.
    + destruct (rel_step (lib h) (p_w s1) e) as (w' & E' & HR'); [pose proof (p_lib _ HC) as HQ; rewrite lib_app in HQ; exact HQ|exact (proj1 HP)|exact ER|].
      assert (w' = w) as -> by congruence. split; [|apply HL; intros i bf fr um' EQ; assert (e = Recv i bf fr) as -> by congruence; discriminate].
      assert (s = mkP w (p_hs s1) (p_al s1)) as -> by (destruct e; try discriminate ER; cbv iota in E; congruence). apply prel_do; assumption.
Qed.
Lemma prun_iff h : pclient_ok h ->
  (prun p_empty h <> None <-> forall h1 i bf fr um h2, h = h1 ++ Do (Recv i bf fr) um :: h2 -> psafe h1 i fr um).
Proof.
  intros HC. split.
  - intros H. destruct (prun p_empty h) as [s|] eqn:E; [|congruence]. exact (proj2 (prun_ran h s HC E)).
  - intros H. destruct (prun_safe h HC H) as (s & E & _). rewrite E. discriminate.
Qed.

(* ---------------------------------------------------------------- the example programs *)
Definition lone (e : ev) : pev := Do e (fun _ => false).
(* serial port 10, UBLOX object 1, UBX handler 30, correction link 20, logger 40; the last four events are the end of main *)
(* base.cpp:81-106; its end destroys in the reverse order *)
Definition base_main : list pev :=
  [lone (NewI 10); lone (New 1 10 true); NewH 30; Listen 1 30; lone (NewI 20); lone (Base 1 20);
   lone (DelI 20); DelH 30; lone (Del 1); lone (DelI 10)].
(* rover.cpp:86-110 *)
Definition rover_main : list pev :=
  [lone (NewI 10); lone (New 1 10 true); NewH 30; Listen 1 30; lone (NewI 20); lone (Rover 1 20);
   lone (DelI 20); DelH 30; lone (Del 1); lone (DelI 10)].
(* read_serial.cpp:134-166 with a log file *)
Definition log_main : list pev :=
  [lone (NewI 10); lone (New 1 10 true); NewH 30; Listen 1 30; lone (New 40 10 true);
   lone (Del 40); DelH 30; lone (Del 1); lone (DelI 10)].
Definition is_rx (e : pev) : Prop := exists i bf fr um, e = Do (Recv i bf fr) um.

(* receptions change nothing that later receptions depend on *)
Lemma shuffle_split {A} (m r h : list A) : shuffle m r h -> forall h1 x h2, h = h1 ++ x :: h2 ->
  exists m1 r1, shuffle m1 r1 h1 /\ (exists m2, m = m1 ++ m2) /\ (exists r2, r = r1 ++ r2).
Proof.
  induction 1 as [|y a b c H IH|y a b c H IH]; intros h1 x h2 E.
  - destruct h1; discriminate.
  - destruct h1 as [|z h1]; [exists [], []; repeat split; [constructor|eexists; reflexivity|eexists; reflexivity]|].
    cbn [app] in E. assert (z = y) as -> by congruence. destruct (IH h1 x h2) as (m1 & r1 & S1 & (m2 & ->) & (r2 & ->)); [congruence|].
    exists (y :: m1), r1. repeat split; [constructor; exact S1|eexists; reflexivity|eexists; reflexivity].
  - destruct h1 as [|z h1]; [exists [], []; repeat split; [constructor|eexists; reflexivity|eexists; reflexivity]|].
    cbn [app] in E. assert (z = y) as -> by congruence. destruct (IH h1 x h2) as (m1 & r1 & S1 & (m2 & ->) & (r2 & ->)); [congruence|].
    exists m1, (y :: r1). repeat split; [constructor; exact S1|eexists; reflexivity|eexists; reflexivity].
Qed.
Lemma shuffle_in_rx m r h e : shuffle m r h -> Forall is_rx r -> ~ is_rx e -> (In e h <-> In e m).
Proof.
  intros HS. induction HS as [|y a b c H IH|y a b c H IH]; intros HF HN.
  - reflexivity.
  - cbn [In]. rewrite (IH HF HN). reflexivity.
  - pose proof (Forall_inv HF) as HY. rewrite <- (IH (Forall_inv_tail HF) HN). cbn [In]. split; [intros [->|HI]; [contradiction|exact HI]|auto].
Qed.
(* readings that ignore receptions *)
Definition quiet (e : ev) : bool := negb (is_recv e).
Lemma readings_filter h : forall o i,
  port_of h o = port_of (filter quiet h) o /\ is_base h o = is_base (filter quiet h) o /\ rtk_at h o = rtk_at (filter quiet h) o /\
  attached h i = attached (filter quiet h) i /\ last_rover h i = last_rover (filter quiet h) i.
Proof.
  induction h as [|e h IH] using rev_ind; intros o i; [repeat split|]. destruct (IH o i) as (E1 & E2 & E3 & E4 & E5). rewrite filter_app. cbn [filter].
  destruct (readings h e o i) as (-> & -> & -> & _ & -> & ->). destruct (quiet e) eqn:EQ.
  - destruct (readings (filter quiet h) e o i) as (-> & -> & -> & _ & -> & ->). rewrite E1, E2, E3, E4, E5. repeat split.
  - destruct e; try discriminate EQ. rewrite !app_nil_r. repeat split; assumption.
Qed.
Lemma shuffle_quiet m r h : shuffle m r h -> Forall is_rx r -> filter quiet (lib h) = filter quiet (lib m).
Proof.
  intros HS. induction HS as [|y a b c H IH|y a b c H IH]; intros HF; [reflexivity| |].
  - change (y :: c) with ([y] ++ c). change (y :: a) with ([y] ++ a). rewrite !lib_app, !filter_app, IH by exact HF. reflexivity.
  - change (y :: c) with ([y] ++ c). rewrite lib_app, filter_app, IH by exact (Forall_inv_tail HF). destruct (Forall_inv HF) as (i & bf & fr & um & ->). reflexivity.
Qed.
Lemma lib_in h e : In e (lib h) <-> exists um, In (Do e um) h.
Proof.
  unfold lib. rewrite in_flat_map. split.
  - intros (x & Hx & He). destruct x as [e' um|x|x|o x]; [destruct He as [->|[]]; eauto|destruct He..].
  - intros (um & H). exists (Do e um). split; [exact H|left; reflexivity].
Qed.
Lemma quiet_in h e : quiet e = true -> (In e (lib h) <-> In e (filter quiet (lib h))).
Proof. intros HQ. rewrite filter_In. tauto. Qed.
(* safety of a reception depends on the main thread's part of the history only *)
Lemma psafe_main m r h i fr um : shuffle m r h -> Forall is_rx r -> Forall (fun e => ~ is_rx e) m -> (psafe h i fr um <-> psafe m i fr um).
Proof.
  intros HS HF HM. pose proof (shuffle_quiet m r h HS HF) as EQ.
  assert (HD : forall e, quiet e = true -> (In e (lib h) <-> In e (lib m))) by (intros e He; rewrite (quiet_in h e He), (quiet_in m e He), EQ; reflexivity).
  assert (AO : forall o, alive_o (lib h) o <-> alive_o (lib m) o).
  { intros o. unfold alive_o. rewrite (HD (Del o)) by reflexivity. split; intros [(j & Hj) H]; (split; [exists j; apply HD; [reflexivity|exact Hj]|exact H]). }
  assert (AI : forall j, alive_i (lib h) j <-> alive_i (lib m) j).
  { intros j. unfold alive_i. rewrite (HD (NewI j)), (HD (DelI j)) by reflexivity. reflexivity. }
  assert (RD : forall o j, port_of (lib h) o = port_of (lib m) o /\ is_base (lib h) o = is_base (lib m) o /\ rtk_at (lib h) o = rtk_at (lib m) o /\
     attached (lib h) j = attached (lib m) j /\ last_rover (lib h) j = last_rover (lib m) j).
  { intros o j. destruct (readings_filter (lib h) o j) as (->&->&->&->&->). destruct (readings_filter (lib m) o j) as (->&->&->&->&->). rewrite EQ. repeat split. }
  assert (NR : forall e, (forall e' u, e <> Do e' u) -> (In e h <-> In e m)).
  { intros e He. apply (shuffle_in_rx m r h e HS HF). intros (i' & bf & f & u & ->). eapply He. reflexivity. }
  unfold psafe, safe_recv, alive_h. destruct (RD 0 i) as (_ & _ & _ & -> & ->).
  split; intros ((S1 & S2 & S3) & S4); (split; [split; [|split]|]).
  1,5: intros o Ho; apply AO, S1; exact Ho.
  1,4: intros o Ho; destruct (S2 o Ho) as [X1 X2]; destruct (RD o i) as (EP & _); rewrite ?EP in X2; rewrite ?EP; split; [apply AO; exact X1|apply AI; exact X2].
  1,3: intros o Ho; destruct (RD o i) as (_ & EB & ER & _); specialize (S3 o Ho); rewrite EB, ER in S3 || rewrite <- EB, <- ER in S3; intros HB HN; apply AI; auto.
  all: intros o x Ho Hu Hx; apply (NR (Listen o x)) in Hx; try discriminate; destruct (S4 o x Ho Hu Hx) as [Y1 Y2];
    (split; [apply (NR (NewH x)); [discriminate|exact Y1]|intros Y3; apply Y2; apply (NR (DelH x)); [discriminate|exact Y3]]).
Qed.
(* ---- deciding the three programs: run every prefix of main followed by one reception *)
Lemma p_app h e : pclient_ok h -> puses_ok h e -> pclient_ok (h ++ [e]).
Proof.
  intros HC HU h1 x h2 E. destruct h2 as [|y h2 _] using rev_ind.
  - apply app_inj_tail in E. destruct E as [<- <-]. exact HU.
  - rewrite app_comm_cons, app_assoc in E. apply app_inj_tail in E. destruct E as [E _]. exact (HC _ _ _ E).
Qed.
Lemma p_sub a b : pclient_ok (a ++ b) -> pclient_ok a.
Proof. intros H h1 x h2 E. apply (H h1 x (h2 ++ b)). rewrite E, <- app_assoc. reflexivity. Qed.
Lemma p_nil : pclient_ok []. Proof. intros h1 e h2 E. destruct h1; discriminate. Qed.
Ltac mem := cbn [In]; first [left; reflexivity | right; mem].
Ltac nomem := let H := fresh in intros H; cbn [In] in H; repeat (destruct H as [H|H]; [discriminate H|]); exact H.
Ltac use1 := unfold puses_ok, alive_h; cbn [lib flat_map app lone uses_ok]; unfold alive_o, alive_i;
  repeat match goal with |- _ /\ _ => split | |- exists _, _ => eexists; mem | |- ~ In _ _ => nomem | |- In _ _ => mem
    | |- forall j b, ~ In (New _ j b) _ => intros ? ?; nomem
    | |- forall _, _ => let p := fresh in let b := fresh in let H := fresh in intros p b H; cbn [In] in H; repeat (destruct H as [H|H]; [try discriminate H; assert (p = 10) by congruence; subst p|]); try destruct H end.
Ltac run_client := repeat (match goal with |- pclient_ok ?l => let k := eval compute in (length l) in match k with 0%nat => exact p_nil | S ?n =>
   let a := eval cbv [firstn] in (firstn n l) in let b := eval cbv [skipn] in (skipn n l) in match b with [?e] => change l with (a ++ [e]); apply p_app; [|use1] end end end).
Lemma base_client : pclient_ok base_main. Proof. unfold base_main. run_client. Qed.
Lemma rover_client : pclient_ok rover_main. Proof. unfold rover_main. run_client. Qed.
Lemma log_client : pclient_ok log_main. Proof. unfold log_main. run_client. Qed.

(* safety of a reception after a given history, as a computation *)
Definition aib (h : list ev) (i : Z) : bool := existsb (fun e => match e with NewI j => j =? i | _ => false end) h && negb (existsb (fun e => match e with DelI j => j =? i | _ => false end) h).
Definition aob (h : list ev) (o : Z) : bool := existsb (fun e => match e with New p _ true => p =? o | _ => false end) h && negb (existsb (fun e => match e with Del p => p =? o | _ => false end) h).
Definition ahb (h : list pev) (x : Z) : bool := existsb (fun e => match e with NewH y => y =? x | _ => false end) h && negb (existsb (fun e => match e with DelH y => y =? x | _ => false end) h).
Lemma ex_iff {A} (p : A -> bool) (q : A) l (P : Prop) : (forall a, p a = true <-> a = q) -> (existsb p l = true <-> In q l).
Proof. intros H. rewrite existsb_exists. split; [intros (a & Ha & E); apply H in E; subst a; exact Ha|intros Hq; exists q; split; [exact Hq|apply H; reflexivity]]. Qed.
Lemma nex_iff {A} (p : A -> bool) (q : A) l (P : Prop) : (forall a, p a = true <-> a = q) -> (negb (existsb p l) = true <-> ~ In q l).
Proof. intros H. rewrite <- (ex_iff p q l P H). destruct (existsb p l); cbn; intuition congruence. Qed.
Ltac evd := let a := fresh in intros a; destruct a; cbv iota; try (split; [discriminate|congruence]); rewrite Z.eqb_eq; split; congruence.
Lemma aib_iff h i : aib h i = true <-> alive_i h i.
Proof. unfold aib, alive_i. rewrite andb_true_iff, (ex_iff _ (NewI i) h True), (nex_iff _ (DelI i) h True) by evd. reflexivity. Qed.
Lemma aob_iff h o : aob h o = true <-> alive_o h o.
Proof.
  unfold aob, alive_o. rewrite andb_true_iff, (nex_iff _ (Del o) h True) by evd. rewrite existsb_exists. split; intros [H1 H2]; (split; [|exact H2]).
  - destruct H1 as (e & He & E). destruct e as [?|?|p i ok|?|? ?|? ?|? ? ?]; try discriminate. destruct ok; [|discriminate]. apply Z.eqb_eq in E. subst p. eauto.
  - destruct H1 as (i & Hi). exists (New o i true). split; [exact Hi|apply Z.eqb_refl].
Qed.
Lemma ahb_iff h x : ahb h x = true <-> alive_h h x.
Proof. unfold ahb, alive_h. rewrite andb_true_iff, (ex_iff _ (NewH x) h True), (nex_iff _ (DelH x) h True) by evd. reflexivity. Qed.
Definition psafeb (h : list pev) (i : Z) (fr : Z -> list (list Z)) (um : Z -> bool) : bool :=
  let l := lib h in
  forallb (aob l) (attached l i) &&
  match last_rover l i with None => true | Some o => aob l o && aib l (port_of l o) end &&
  forallb (fun o => negb (is_base l o) || match fr o with [] => true | _ :: _ => aib l (rtk_at l o) end) (attached l i) &&
  forallb (fun o => negb (um o) || forallb (fun e => match e with Listen p x => negb (p =? o) || ahb h x | _ => true end) h) (attached l i).
Lemma psafeb_iff h i fr um : psafeb h i fr um = true <-> psafe h i fr um.
Proof.
  unfold psafeb, psafe, safe_recv. rewrite !andb_true_iff, !forallb_forall. split.
  - intros [[[H1 H2] H3] H4]. split; [split; [|split]|].
    + intros o Ho. apply aob_iff, H1, Ho.
    + intros o Ho. rewrite Ho in H2. apply andb_true_iff in H2. rewrite aob_iff, aib_iff in H2. exact H2.
    + intros o Ho HB HN. specialize (H3 o Ho). rewrite HB in H3. cbn [negb orb] in H3. destruct (fr o); [congruence|]. apply aib_iff. exact H3.
    + intros o x Ho Hu Hx. specialize (H4 o Ho). rewrite Hu in H4. cbn [negb orb] in H4. rewrite forallb_forall in H4. specialize (H4 _ Hx). cbv beta iota in H4.
      rewrite Z.eqb_refl in H4. apply ahb_iff. exact H4.
  - intros [(H1 & H2 & H3) H4]. repeat split.
    + intros o Ho. apply aob_iff, H1, Ho.
    + destruct (last_rover (lib h) i) as [o|]; [|reflexivity]. apply andb_true_iff. rewrite aob_iff, aib_iff. apply H2. reflexivity.
    + intros o Ho. destruct (is_base (lib h) o) eqn:HB; [|reflexivity]. cbn [negb orb]. destruct (fr o) eqn:EF; [reflexivity|]. apply aib_iff, H3; [exact Ho|exact HB|congruence].
    + intros o Ho. destruct (um o) eqn:HU; [|reflexivity]. cbn [negb orb]. apply forallb_forall. intros e He. destruct e as [?|?|?|p x]; try reflexivity.
      destruct (Z.eqb_spec p o) as [->|HN]; [|reflexivity]. cbn [negb orb]. apply ahb_iff. exact (H4 o x Ho HU He).
Qed.
Lemma not_rx_main m : forallb (fun e => match e with Do (Recv _ _ _) _ => false | _ => true end) m = true -> Forall (fun e => ~ is_rx e) m.
Proof. rewrite forallb_forall, Forall_forall. intros H e He (i & bf & fr & um & ->). discriminate (H _ He). Qed.
Lemma prefix_in {A} (m1 m2 : list A) : exists k, (k <= length (m1 ++ m2))%nat /\ m1 = firstn k (m1 ++ m2).
Proof. exists (length m1). split; [rewrite app_length; lia|]. rewrite firstn_app, Nat.sub_diag, firstn_all, firstn_O, app_nil_r. reflexivity. Qed.
(* P: the claimed condition on a reception, in terms of what main has done so far *)
Lemma prun_main main (P : list pev -> Z -> (Z -> list (list Z)) -> (Z -> bool) -> Prop) r h :
  forallb (fun e => match e with Do (Recv _ _ _) _ => false | _ => true end) main = true ->
  (forall m1 r1 h1 i fr um, shuffle m1 r1 h1 -> Forall is_rx r1 -> (P h1 i fr um <-> P m1 i fr um)) ->
  (forall k i fr um, (k <= length main)%nat -> alive_i (lib (firstn k main)) i ->
     (psafeb (firstn k main) i fr um = true <-> P (firstn k main) i fr um)) ->
  shuffle main r h -> Forall is_rx r -> pclient_ok h ->
  (prun p_empty h <> None <-> forall h1 i bf fr um h2, h = h1 ++ Do (Recv i bf fr) um :: h2 -> P h1 i fr um).
Proof.
  intros HN HP HK HS HF HC. rewrite (prun_iff h HC).
  assert (HX : forall h1 i bf fr um h2, h = h1 ++ Do (Recv i bf fr) um :: h2 -> (psafe h1 i fr um <-> P h1 i fr um)).
  { intros h1 i bf fr um h2 E. destruct (shuffle_split main r h HS h1 _ h2 E) as (m1 & r1 & S1 & (m2 & E2) & (r2 & E3)).
    rewrite E3 in HF. apply Forall_app in HF. destruct HF as [HF1 _].
    assert (HM1 : Forall (fun e => ~ is_rx e) m1) by (apply not_rx_main in HN; rewrite E2 in HN; apply Forall_app in HN; tauto).
    rewrite (psafe_main m1 r1 h1 i fr um S1 HF1 HM1), (HP m1 r1 h1 i fr um S1 HF1).
    assert (HA : alive_i (lib h1) i) by exact (HC h1 _ h2 E).
    assert (HA1 : alive_i (lib m1) i).
    { pose proof (shuffle_quiet m1 r1 h1 S1 HF1) as EQ. destruct HA as [A1 A2]. split.
      - apply (quiet_in m1); [reflexivity|]. rewrite <- EQ. apply quiet_in; [reflexivity|exact A1].
      - intros A3. apply A2. apply (quiet_in h1); [reflexivity|]. rewrite EQ. apply quiet_in; [reflexivity|exact A3]. }
    rewrite <- psafeb_iff. destruct (prefix_in m1 m2) as (k & Hk & Ek). rewrite <- E2 in Hk, Ek. rewrite Ek in HA1 |- *. apply HK; assumption. }
  split; intros H h1 i bf fr um h2 E; apply (HX h1 i bf fr um h2 E), (H h1 i bf fr um h2 E).
Qed.
(* events of main that matter here *)
Lemma in_main m1 r1 h1 e : shuffle m1 r1 h1 -> Forall is_rx r1 -> ~ is_rx e -> (In e h1 <-> In e m1).
Proof. intros HS HF HE. exact (shuffle_in_rx m1 r1 h1 e HS HF HE). Qed.
Lemma nrx_lone e : is_recv e = false -> ~ is_rx (lone e).
Proof. intros HE (i & bf & fr & um & H). unfold lone in H. assert (e = Recv i bf fr) as -> by congruence. discriminate HE. Qed.
Lemma nrx_delh x : ~ is_rx (DelH x). Proof. intros (i & bf & fr & um & H). discriminate H. Qed.
Lemma alive_two m i : (In (NewI i) (lib m) -> i = 10 \/ i = 20) -> alive_i (lib m) i -> (i = 10 \/ i = 20).
Proof. intros H [A _]. exact (H A). Qed.

Definition base_ok (h1 : list pev) (i : Z) (fr : Z -> list (list Z)) (um : Z -> bool) : Prop :=
  i = 10 -> (In (lone (DelI 20)) h1 -> fr 1 = []) /\ (In (DelH 30) h1 -> um 1 = false) /\ ~ In (lone (Del 1)) h1.
Definition rover_ok (h1 : list pev) (i : Z) (fr : Z -> list (list Z)) (um : Z -> bool) : Prop :=
  i = 10 -> (In (DelH 30) h1 -> um 1 = false) /\ ~ In (lone (Del 1)) h1.
Definition log_ok (h1 : list pev) (i : Z) (fr : Z -> list (list Z)) (um : Z -> bool) : Prop := ~ In (lone (Del 40)) h1.

Ltac two main HA k i := destruct HA as [HA _];
  assert (HB : In (NewI i) (lib main)) by (rewrite <- (firstn_skipn k main), lib_app; apply in_or_app; left; exact HA);
  cbn in HB; repeat (destruct HB as [HB|HB]; [first [discriminate HB|assert (i = 10) by congruence; tauto|assert (i = 20) by congruence; tauto]|]); destruct HB.
Ltac dead HA := exfalso; destruct HA as [HA1 HA2]; first [apply HA2; cbn; tauto | cbn in HA1; intuition congruence].
Lemma base_k k i fr um : (k <= length base_main)%nat -> alive_i (lib (firstn k base_main)) i ->
  (psafeb (firstn k base_main) i fr um = true <-> base_ok (firstn k base_main) i fr um).
Proof.
  intros Hk HA. assert (HI : i = 10 \/ i = 20) by two base_main HA k i.
  unfold base_ok. do 11 (try (destruct k as [|k])); try (exfalso; cbn in Hk; lia); destruct HI as [-> | ->]; try dead HA.
  all: destruct (um 1) eqn:U; destruct (fr 1) eqn:F; cbv; rewrite ?U, ?F; intuition congruence.
Qed.
Lemma rover_k k i fr um : (k <= length rover_main)%nat -> alive_i (lib (firstn k rover_main)) i ->
  (psafeb (firstn k rover_main) i fr um = true <-> rover_ok (firstn k rover_main) i fr um).
Proof.
  intros Hk HA. assert (HI : i = 10 \/ i = 20) by two rover_main HA k i.
  unfold rover_ok. do 11 (try (destruct k as [|k])); try (exfalso; cbn in Hk; lia); destruct HI as [-> | ->]; try dead HA.
  all: destruct (um 1) eqn:U; cbv; rewrite ?U; intuition congruence.
Qed.
Lemma log_k k i fr um : (k <= length log_main)%nat -> alive_i (lib (firstn k log_main)) i ->
  (psafeb (firstn k log_main) i fr um = true <-> log_ok (firstn k log_main) i fr um).
Proof.
  intros Hk HA. assert (HI : i = 10 \/ i = 20) by two log_main HA k i.
  unfold log_ok. do 10 (try (destruct k as [|k])); try (exfalso; cbn in Hk; lia); destruct HI as [-> | ->]; try dead HA.
  all: destruct (um 1) eqn:U; destruct (um 40) eqn:V; cbv; rewrite ?U, ?V; intuition congruence.
Qed.
Ltac okm := let HS := fresh in let HF := fresh in intros ? ? ? ? ? ? HS HF;
  repeat match goal with |- context[In ?e ?h1] => match type of HS with shuffle _ _ h1 => rewrite (in_main _ _ _ e HS HF) by first [apply nrx_lone; reflexivity|apply nrx_delh] end end; reflexivity.
Lemma base_iff r h : shuffle base_main r h -> Forall is_rx r -> pclient_ok h ->
  (prun p_empty h <> None <-> forall h1 i bf fr um h2, h = h1 ++ Do (Recv i bf fr) um :: h2 -> base_ok h1 i fr um).
Proof. apply (prun_main base_main base_ok); [reflexivity|unfold base_ok; okm|exact base_k]. Qed.
Lemma rover_iff r h : shuffle rover_main r h -> Forall is_rx r -> pclient_ok h ->
  (prun p_empty h <> None <-> forall h1 i bf fr um h2, h = h1 ++ Do (Recv i bf fr) um :: h2 -> rover_ok h1 i fr um).
Proof. apply (prun_main rover_main rover_ok); [reflexivity|unfold rover_ok; okm|exact rover_k]. Qed.
Lemma log_iff r h : shuffle log_main r h -> Forall is_rx r -> pclient_ok h ->
  (prun p_empty h <> None <-> forall h1 i bf fr um h2, h = h1 ++ Do (Recv i bf fr) um :: h2 -> log_ok h1 i fr um).
Proof. apply (prun_main log_main log_ok); [reflexivity|unfold log_ok; okm|exact log_k]. Qed.

(* ---- main with one reception after its first k events *)
Definition rx (um : bool) (fs : list (list Z)) : pev := Do (Recv 10 [] (fun _ => fs)) (fun _ => um).
Definition late (k : nat) (main : list pev) (e : pev) : list pev := firstn k main ++ e :: skipn k main.
Lemma late_shuffle k main e : shuffle main [e] (late k main e).
Proof.
  unfold late. rewrite <- (firstn_skipn k main) at 1. induction (firstn k main) as [|x l IH]; cbn [app]; [|apply sh_l; exact IH].
  apply sh_r. induction (skipn k main) as [|x l IH]; [constructor|apply sh_l; exact IH].
Qed.
Lemma late_client k main um fs : pclient_ok main -> alive_i (lib (firstn k main)) 10 -> pclient_ok (late k main (rx um fs)).
Proof.
  intros HC HA h1 e h2 E. unfold late in E.
  assert (HK : forall a, (exists b, main = a ++ b) -> forall x, puses_ok a x -> forall a1 a2, a = a1 ++ a2 -> puses_ok (a1 ++ rx um fs :: a2) x).
  { intros a _ x HX a1 a2 ->. unfold puses_ok, alive_h in HX |- *.
    assert (I1 : forall y, (forall f u, y <> Do f u) -> (In y (a1 ++ rx um fs :: a2) <-> In y (a1 ++ a2))).
    { intros y Hy. rewrite !in_app_iff. cbn [In]. split; [intros [H|[H|H]]; [tauto| |tauto]|tauto]. exfalso. apply (Hy (Recv 10 [] (fun _ => fs)) (fun _ => um)). symmetry. exact H. }
    assert (I2 : forall y, is_recv y = false -> (In y (lib (a1 ++ rx um fs :: a2)) <-> In y (lib (a1 ++ a2)))).
    { intros y Hy. rewrite (lib_app a1 a2). change (rx um fs :: a2) with ([rx um fs] ++ a2). rewrite !lib_app, !in_app_iff. cbn [lib flat_map rx app In].
      split; [intros [H|[[H|[]]|H]]; [tauto| |tauto]|tauto]. subst y. discriminate Hy. }
    assert (AI : forall j, alive_i (lib (a1 ++ rx um fs :: a2)) j <-> alive_i (lib (a1 ++ a2)) j) by (intros j; unfold alive_i; rewrite !I2 by reflexivity; reflexivity).
    assert (AO : forall o, alive_o (lib (a1 ++ rx um fs :: a2)) o <-> alive_o (lib (a1 ++ a2)) o).
    { intros o. unfold alive_o. rewrite (I2 (Del o)) by reflexivity. split; intros [[j Hj] H]; (split; [exists j|exact H]); [rewrite I2 in Hj by reflexivity|rewrite I2 by reflexivity]; exact Hj. }
    destruct x as [x u|x|x|o x].
    - destruct x as [i|i|o i ok|o|o i|o i|i bf fr]; cbn [uses_ok] in *.
      + rewrite I2 by reflexivity. exact HX.
      + apply AI. exact HX.
      + rewrite AI. split; [tauto|]. intros j b. rewrite I2 by reflexivity. apply HX.
      + apply AO. exact HX.
      + rewrite AO, AI. split; [tauto|]. split; [tauto|]. intros p b. rewrite I2, AI by reflexivity. apply HX.
      + rewrite AO, AI. split; [tauto|]. split; [tauto|]. intros p b. rewrite I2, AI by reflexivity. apply HX.
      + apply AI. exact HX.
    - rewrite I1 by discriminate. exact HX.
    - rewrite !I1 by discriminate. exact HX.
    - rewrite !I1 by discriminate. rewrite AO. exact HX. }
  assert (HD : (exists d, firstn k main = h1 ++ e :: d) \/ (h1 = firstn k main /\ e = rx um fs) \/ exists d, h1 = firstn k main ++ rx um fs :: d /\ skipn k main = d ++ e :: h2).
  { clear HA HC HK. revert h1 E. induction (firstn k main) as [|y l IH]; intros h1 E.
    - destruct h1 as [|z h1]; cbn [app] in E; [right; left; split; congruence|]. right. right. exists h1. cbn [app]. split; congruence.
    - destruct h1 as [|z h1]; cbn [app] in E; [left; exists l; cbn [app]; congruence|]. destruct (IH h1) as [(d & H)|[(H1 & H2)|(d & H1 & H2)]]; [congruence|..].
      + left. exists d. cbn [app]. congruence.
      + right. left. split; [congruence|exact H2].
      + right. right. exists d. cbn [app]. split; [congruence|exact H2]. }
  destruct HD as [(d & H)|[(-> & ->)|(d & -> & H)]].
  - apply (HC h1 e (d ++ skipn k main)). rewrite <- (firstn_skipn k main) at 1. rewrite H, <- app_assoc. reflexivity.
  - exact HA.
  - apply (HK (firstn k main ++ d)); [|apply (HC _ e h2)|reflexivity].
    + exists (e :: h2). rewrite <- app_assoc, <- H. symmetry. apply firstn_skipn.
    + rewrite <- app_assoc, <- H. symmetry. apply firstn_skipn.
Qed.
