(* C71 for the ROS node: UBLOX_ROS::UBLOX_ROS (src/ros/ublox_ros.cpp:50-108) makes its serial port as a local variable, which is destroyed when the
   constructor returns; the UBLOX object made on it (ublox_) and the correction link (udp_) are members and live on.  On top of Shutdown.v. *)
From Verif Require Import Base UbloxSpec Lifetime Shutdown.

(* ---------------------------------------------------------------- model *)
(* serial port 10, UBLOX object 1, correction link 20.  ublox_ros.cpp:71-72 ser, :75 ublox_, :77-89 udp_ and the role, :108 the end of the constructor: ~ser.
   Then the node spins (:420-427), and its members go in the reverse order of ublox_ros.h:52-53.  The constructor of UBLOX has not thrown; the
   listeners of messages (subscribe, :91-107) are registered nowhere (C62) *)
Definition ros_main (rtk : Z) : list pev :=
  [lone (NewI 10); lone (New 1 10 true)] ++
  (if Z.testbit rtk 1 then lone (NewI 20) :: (if rtk =? 2 then [lone (Rover 1 20)] else if rtk =? 3 then [lone (Base 1 20)] else []) else []) ++
  [lone (DelI 10)] ++
  (if Z.testbit rtk 1 then [lone (DelI 20)] else []) ++ [lone (Del 1)].

(* ---------------------------------------------------------------- proofs *)
Definition ros_ok (h1 : list pev) (i : Z) (fr : Z -> list (list Z)) (um : Z -> bool) : Prop :=
  i = 20 -> In (lone (Rover 1 20)) h1 -> ~ In (lone (DelI 10)) h1.
Definition m_none : list pev := [lone (NewI 10); lone (New 1 10 true); lone (DelI 10); lone (Del 1)].
Definition m_link (l : list pev) : list pev := [lone (NewI 10); lone (New 1 10 true); lone (NewI 20)] ++ l ++ [lone (DelI 10); lone (DelI 20); lone (Del 1)].
Lemma ros_main_cases rtk : ros_main rtk = if Z.testbit rtk 1 then if rtk =? 2 then m_link [lone (Rover 1 20)] else if rtk =? 3 then m_link [lone (Base 1 20)] else m_link [] else m_none.
Proof. unfold ros_main. destruct (Z.testbit rtk 1); [|reflexivity]. destruct (rtk =? 2); [reflexivity|]. destruct (rtk =? 3); reflexivity. Qed.
Lemma none_client : pclient_ok m_none. Proof. unfold m_none. run_client. Qed.
Definition m_rover : list pev := [lone (NewI 10); lone (New 1 10 true); lone (NewI 20); lone (Rover 1 20); lone (DelI 10); lone (DelI 20); lone (Del 1)].
Definition m_base : list pev := [lone (NewI 10); lone (New 1 10 true); lone (NewI 20); lone (Base 1 20); lone (DelI 10); lone (DelI 20); lone (Del 1)].
Definition m_only : list pev := [lone (NewI 10); lone (New 1 10 true); lone (NewI 20); lone (DelI 10); lone (DelI 20); lone (Del 1)].
Lemma mrover_client : pclient_ok m_rover. Proof. unfold m_rover. run_client. Qed.
Lemma mbase_client : pclient_ok m_base. Proof. unfold m_base. run_client. Qed.
Lemma monly_client : pclient_ok m_only. Proof. unfold m_only. run_client. Qed.
Lemma ros_client rtk : pclient_ok (ros_main rtk).
Proof.
  rewrite ros_main_cases. destruct (Z.testbit rtk 1); [|exact none_client]. destruct (rtk =? 2); [exact mrover_client|]. destruct (rtk =? 3); [exact mbase_client|exact monly_client].
Qed.
Ltac cases_k main k HA i Hk := assert (HI : i = 10 \/ i = 20) by two main HA k i; unfold ros_ok;
  do 8 (try (destruct k as [|k])); try (exfalso; cbn in Hk; lia); destruct HI as [-> | ->]; try dead HA.
Lemma none_k k i fr um : (k <= length m_none)%nat -> alive_i (lib (firstn k m_none)) i -> (psafeb (firstn k m_none) i fr um = true <-> ros_ok (firstn k m_none) i fr um).
Proof. intros Hk HA. cases_k m_none k HA i Hk. all: destruct (um 1) eqn:U; cbv; rewrite ?U; intuition congruence. Qed.
Lemma mrover_k k i fr um : (k <= length m_rover)%nat -> alive_i (lib (firstn k m_rover)) i -> (psafeb (firstn k m_rover) i fr um = true <-> ros_ok (firstn k m_rover) i fr um).
Proof. intros Hk HA. cases_k m_rover k HA i Hk. all: destruct (um 1) eqn:U; cbv; rewrite ?U; intuition congruence. Qed.
Lemma mbase_k k i fr um : (k <= length m_base)%nat -> alive_i (lib (firstn k m_base)) i -> (psafeb (firstn k m_base) i fr um = true <-> ros_ok (firstn k m_base) i fr um).
Proof. intros Hk HA. cases_k m_base k HA i Hk. all: destruct (um 1) eqn:U; destruct (fr 1) eqn:F; cbv; rewrite ?U, ?F; intuition congruence. Qed.
Lemma monly_k k i fr um : (k <= length m_only)%nat -> alive_i (lib (firstn k m_only)) i -> (psafeb (firstn k m_only) i fr um = true <-> ros_ok (firstn k m_only) i fr um).
Proof. intros Hk HA. cases_k m_only k HA i Hk. all: destruct (um 1) eqn:U; cbv; rewrite ?U; intuition congruence. Qed.
Lemma ros_iff rtk r h : shuffle (ros_main rtk) r h -> Forall is_rx r -> pclient_ok h ->
  (prun p_empty h <> None <-> forall h1 i bf fr um h2, h = h1 ++ Do (Recv i bf fr) um :: h2 -> ros_ok h1 i fr um).
Proof.
  rewrite ros_main_cases. destruct (Z.testbit rtk 1).
  2:{ apply (prun_main m_none ros_ok); [reflexivity|unfold ros_ok; okm|exact none_k]. }
  destruct (rtk =? 2); [|destruct (rtk =? 3)].
  - apply (prun_main m_rover ros_ok); [reflexivity|unfold ros_ok; okm|exact mrover_k].
  - apply (prun_main m_base ros_ok); [reflexivity|unfold ros_ok; okm|exact mbase_k].
  - apply (prun_main m_only ros_ok); [reflexivity|unfold ros_ok; okm|exact monly_k].
Qed.
Lemma ros_iff_role rtk r h : shuffle (ros_main rtk) r h -> Forall is_rx r -> pclient_ok h ->
  (prun p_empty h <> None <-> (rtk = 2 -> forall h1 bf fr um h2, h = h1 ++ Do (Recv 20 bf fr) um :: h2 -> ~ In (lone (DelI 10)) h1)).
Proof.
  intros HS HF HC. rewrite (ros_iff rtk r h HS HF HC).
  (* who is a rover *)
  assert (HR : forall h1 x h2, h = h1 ++ x :: h2 -> In (lone (Rover 1 20)) h1 -> rtk = 2).
  { intros h1 x h2 E HI. assert (HM : In (lone (Rover 1 20)) (ros_main rtk)).
    { apply (in_main _ _ _ _ HS HF); [apply nrx_lone; reflexivity|]. rewrite E. apply in_or_app. left. exact HI. }
    rewrite ros_main_cases in HM. destruct (Z.testbit rtk 1); [|cbn in HM; exfalso; intuition discriminate].
    destruct (Z.eqb_spec rtk 2) as [->|N]; [reflexivity|]. destruct (rtk =? 3); cbn in HM; exfalso; intuition discriminate. }
  (* when the port is gone the rover has been made *)
  assert (HD : rtk = 2 -> forall h1 x h2, h = h1 ++ x :: h2 -> In (lone (DelI 10)) h1 -> In (lone (Rover 1 20)) h1).
  { intros -> h1 x h2 E HI. destruct (shuffle_split _ r h HS h1 x h2 E) as (m1 & r1 & S1 & (m2 & E2) & (r2 & E3)). rewrite E3 in HF. apply Forall_app in HF. destruct HF as [HF1 _].
    apply (in_main _ _ _ _ S1 HF1); [apply nrx_lone; reflexivity|]. apply (in_main _ _ _ _ S1 HF1) in HI; [|apply nrx_lone; reflexivity].
    destruct (prefix_in m1 m2) as (k & Hk & Ek). rewrite <- E2 in Hk, Ek. change (ros_main 2) with m_rover in Hk, Ek. rewrite Ek in HI |- *. clear - HI Hk.
    do 8 (try (destruct k as [|k])); try (exfalso; cbn in Hk; lia); cbn in HI |- *; intuition (try discriminate). }
  unfold ros_ok. split.
  - intros H E h1 bf fr um h2 EH HI. exact (H h1 20 bf fr um h2 EH eq_refl (HD E h1 _ h2 EH HI) HI).
  - intros H h1 i bf fr um h2 EH -> HI. exact (H (HR h1 _ h2 EH HI) h1 bf fr um h2 EH).
Qed.
(* what reaches the node once its constructor has returned *)
Lemma ros_deaf rtk r h h1 i bf fr um h2 : shuffle (ros_main rtk) r h -> Forall is_rx r -> pclient_ok h -> h = h1 ++ Do (Recv i bf fr) um :: h2 -> In (lone (DelI 10)) h1 ->
  i = 20 /\ Z.testbit rtk 1 = true /\ (rtk <> 2 -> recv_effects (lib h1) i bf fr = []).
Proof.
  intros HS HF HC E HI. pose proof (HC h1 _ h2 E) as [HA1 HA2].
  destruct (shuffle_split _ r h HS h1 _ h2 E) as (m1 & r1 & S1 & (m2 & E2) & (r2 & E3)). rewrite E3 in HF. apply Forall_app in HF. destruct HF as [HF1 _].
  pose proof (shuffle_quiet m1 r1 h1 S1 HF1) as EQ.
  assert (HB : In (NewI i) (lib m1)) by (apply (quiet_in m1); [reflexivity|]; rewrite <- EQ; apply quiet_in; [reflexivity|exact HA1]).
  assert (HN : ~ (i = 10)).
  { intros ->. apply HA2. apply lib_in. eexists. exact HI. }
  assert (HB2 : In (NewI i) (lib (ros_main rtk))) by (rewrite E2, lib_app; apply in_or_app; left; exact HB).
  assert (HT : i = 20 /\ Z.testbit rtk 1 = true).
  { rewrite ros_main_cases in HB2. destruct (Z.testbit rtk 1).
    - split; [|reflexivity]. destruct (rtk =? 2); [|destruct (rtk =? 3)]; cbn in HB2; intuition congruence.
    - exfalso. cbn in HB2. intuition congruence. }
  destruct HT as [-> HT]. split; [reflexivity|]. split; [exact HT|]. intros HN2.
  assert (A0 : attached (lib h1) 20 = []).
  { destruct (attached (lib h1) 20) as [|o l] eqn:EA; [reflexivity|]. exfalso. assert (X : In o (attached (lib h1) 20)) by (rewrite EA; left; reflexivity).
    unfold attached in X. apply in_flat_map in X. destruct X as (e & He & Ho). destruct e as [?|?|p j ok|?|? ?|? ?|? ? ?]; try destruct Ho.
    destruct (Z.eqb_spec j 20) as [->|]; [|destruct Ho].
    assert (Y : In (New p 20 ok) (lib (ros_main rtk))).
    { rewrite E2, lib_app. apply in_or_app. left. apply (quiet_in m1); [reflexivity|]. rewrite <- EQ. apply quiet_in; [reflexivity|exact He]. }
    rewrite ros_main_cases, HT in Y. destruct (rtk =? 2); [|destruct (rtk =? 3)]; cbn in Y; intuition congruence. }
  assert (R0 : last_rover (lib h1) 20 = None).
  { destruct (last_rover (lib h1) 20) as [o|] eqn:EL; [|reflexivity]. exfalso. apply last_rover_in in EL.
    assert (Y : In (Rover o 20) (lib (ros_main rtk))).
    { rewrite E2, lib_app. apply in_or_app. left. apply (quiet_in m1); [reflexivity|]. rewrite <- EQ. apply quiet_in; [reflexivity|exact EL]. }
    rewrite ros_main_cases, HT in Y. destruct (Z.eqb_spec rtk 2); [contradiction|]. destruct (rtk =? 3); cbn in Y; intuition congruence. }
  unfold recv_effects. rewrite A0, R0. reflexivity.
Qed.
