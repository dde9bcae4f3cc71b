(* Concrete states, listeners and frames used by the examples beside the property theorems. *)
From Verif Require Import Base UbxSpec UbxModel UbxProofs UbxStream UbxMain UbxMore UbxVersion UbxHist UbxApi.

Definition u0 : uninit := mkUninit (repeat 7 (Z.to_nat 2048)) 99 98 (repeat 0 (Z.to_nat 10)).
Lemma u0_ok : uninit_ok u0.
Proof. split; vm_compute; reflexivity. Qed.

(* two listeners: one on NAV-PVT and ACK-ACK, one on ACK-ACK only *)
Definition ls0 : list listener := [mkListener 1 [(1, 7); (5, 1)]; mkListener 2 [(5, 1)]].
Lemma ls0_ok : Forall listener_ok ls0.
Proof. repeat constructor; cbn; lia. Qed.

(* history: noise, an ACK-ACK frame, then a corrupt frame *)
Definition hist0 : list Z := [0; 0xB5; 0xB5] ++ ubx_frame 5 1 [6; 1] ++ [0xB5; 0x62; 1; 7; 1; 0; 9; 0; 0].
Definition after (bs : list Z) : ubx :=
  match feed (map build ls0) (ubx_init u0) bs with Ok (s, _) => s | UB _ => ubx_init u0 end.
Definition s0 : ubx := after hist0.

Lemma bytes_ok_dec l : forallb (fun b => (0 <=? b) && (b <? 256)) l = true -> bytes_ok l.
Proof.
  intros H. apply Forall_forall. intros x Hx. rewrite forallb_forall in H. specialize (H x Hx). unfold byte_ok. lia.
Qed.

Lemma after_reach bs : bytes_ok bs -> Reach u0 (after bs).
Proof.
  intros H. unfold after. destruct (feed _ _ bs) as [[s o]|] eqn:E; [|constructor].
  eapply reach_feed; [exact ls0_ok|exact H|constructor|exact E].
Qed.
Lemma s0_reach : Reach u0 s0.
Proof. apply after_reach. apply bytes_ok_dec. vm_compute. reflexivity. Qed.
Lemma s0_facts : parsing_message s0 = false /\ nmsg s0 = 1 /\ nerr s0 = 1 /\ got_ack s0 = true.
Proof. vm_compute. auto. Qed.

(* a MON-VER payload: 40 bytes of versions, then MOD=ZED-F9P and PROTVER=27.11 in 30-byte rows *)
Definition pad30 (l : list Z) : list Z := l ++ repeat 0 (30 - length l).
Definition monver_pl : list Z :=
  repeat 65 40 ++ pad30 [77;79;68;61;90;69;68;45;70;57;80] ++ pad30 (PROTVER ++ [50;55;46;49;49]).
Lemma monver_pl_ok : ubx_payload_ok monver_pl.
Proof. split; [vm_compute; split; discriminate|apply bytes_ok_dec; vm_compute; reflexivity]. Qed.

Lemma payload_ok_dec pl : (1 <=? Zlen pl) && (Zlen pl <=? 2048) = true ->
  forallb (fun b => (0 <=? b) && (b <? 256)) pl = true -> ubx_payload_ok pl.
Proof. intros H1 H2. split; [lia|apply bytes_ok_dec; exact H2]. Qed.

Fixpoint no_sync_b (l : list Z) : bool :=
  match l with
  | [] => true
  | a :: r => negb ((a =? 0xB5) && (match r with b :: _ => b =? 0x62 | [] => false end)) && no_sync_b r
  end.
Lemma no_sync_dec l : no_sync_b l = true -> no_sync l.
Proof.
  intros H a b E. subst l. induction a as [|x a IH]; cbn [app no_sync_b] in H.
  - discriminate.
  - apply andb_true_iff in H. apply IH. apply H.
Qed.
