(* std::vector of listeners walked by a range-for loop while it is being extended: by another thread, or by a listener that
   registers a further one from inside its callback.  Models the loops over listeners_ of
     UBX::decode_message        src/parsers/ubx.cpp:446-450     (registerListener 455-458)
     RTCM::decode               src/parsers/rtcm.cpp:168-171    (registerListener 179-182)
     receive_callback           include/UBLOX/async_comm_adapter.h:31-34 and 56-59 (add_listener serial_interface.h:19)
     Logger::play               src/examples/logger.h:52-55
   Interleaving is at the granularity of one read of a vector element; memory is sequentially consistent (the C++ standard calls the
   concurrent case a data race, so this is the most favourable reading of the code). *)
From Coq Require Import ZArith List Lia Bool.
Import ListNotations.
Open Scope nat_scope.

(* A vector: the identity of its current allocation, its elements, its capacity.  Allocation identities are never reused, so an
   iterator into allocation a is dangling as soon as the current allocation is another one. *)
Record vec := mkVec { v_alloc : nat; v_elems : list Z; v_cap : nat }.
Definition vec_new : vec := mkVec 0 [] 0.
(* push_back: in place if there is room; otherwise a new allocation of twice the size (libstdc++, libc++), the old one is freed *)
Definition push_back (v : vec) (l : Z) : vec :=
  if length (v_elems v) <? v_cap v then mkVec (v_alloc v) (v_elems v ++ [l]) (v_cap v)
  else mkVec (S (v_alloc v)) (v_elems v ++ [l]) (Nat.max 1 (2 * length (v_elems v))).
Definition pushes (v : vec) (ls : list Z) : vec := fold_left push_back ls v.

Inductive run := Done (v : vec) (calls : list Z) | UseAfterFree.
Definition called (l : Z) (r : run) : run := match r with Done v cs => Done v (l :: cs) | UseAfterFree => UseAfterFree end.

(* for (auto &l : listeners_) if (l->subscribed(c, i)) l->got_ubx(c, i, m);   ubx.cpp:446-450
   The iterator points into allocation a; the end of the range was fixed when the loop began: n elements remain, the next has
   index k.  sub l: what l->subscribed(c, i) returns.  Before each read of *it the vector is extended by the listeners in the
   next element of ps (registrations made since the previous read).  The element is read once for subscribed and once more for got_ubx. *)
Fixpoint ubx_loop (sub : Z -> bool) (a k n : nat) (ps : list (list Z)) (v : vec) : run :=
  match n with
  | O => Done v []
  | S n' =>
      let v1 := pushes v (hd [] ps) in
      if v_alloc v1 =? a then
        let l := nth k (v_elems v1) 0%Z in
        if sub l then
          let v2 := pushes v1 (hd [] (tl ps)) in
          if v_alloc v2 =? a then called (nth k (v_elems v2) 0%Z) (ubx_loop sub a (S k) n' (tl (tl ps)) v2) else UseAfterFree
        else ubx_loop sub a (S k) n' (tl ps) v1
      else UseAfterFree
  end.
Definition ubx_dispatch (sub : Z -> bool) (ps : list (list Z)) (v : vec) : run :=
  ubx_loop sub (v_alloc v) 0 (length (v_elems v)) ps v.
(* for (auto& l : listeners_) l->read_cb(buf, size);   async_comm_adapter.h:31-34, rtcm.cpp:168-171, logger.h:52-55 *)
Fixpoint all_loop (a k n : nat) (ps : list (list Z)) (v : vec) : run :=
  match n with
  | O => Done v []
  | S n' =>
      let v1 := pushes v (hd [] ps) in
      if v_alloc v1 =? a then called (nth k (v_elems v1) 0%Z) (all_loop a (S k) n' (tl ps) v1) else UseAfterFree
  end.
(* the whole loop, async_comm_adapter.h:31-34 and the like *)
Definition all_dispatch (ps : list (list Z)) (v : vec) : run := all_loop (v_alloc v) 0 (length (v_elems v)) ps v.

(* ---------------------------------------------------------------- specification *)
(* how often the loop reads an element of the vector *)
Definition reads (sub : Z -> bool) (ls : list Z) : nat := length ls + length (filter sub ls).
(* registrations made before the last of r reads *)
Definition early (ps : list (list Z)) (r : nat) : list Z := concat (firstn r ps).

(* ---------------------------------------------------------------- proofs *)
Lemma push_elems v l : v_elems (push_back v l) = v_elems v ++ [l].
Proof. unfold push_back. destruct (_ <? _); reflexivity. Qed.
Lemma pushes_elems ls : forall v, v_elems (pushes v ls) = v_elems v ++ ls.
Proof.
  induction ls as [|l ls IH]; intros v; [symmetry; apply app_nil_r|]. cbn [pushes fold_left].
  change (fold_left push_back ls (push_back v l)) with (pushes (push_back v l) ls). rewrite IH, push_elems, <- app_assoc. reflexivity.
Qed.
Lemma alloc_mono ls : forall v, v_alloc v <= v_alloc (pushes v ls).
Proof.
  induction ls as [|l ls IH]; intros v; [apply Nat.le_refl|]. cbn [pushes fold_left].
  change (fold_left push_back ls (push_back v l)) with (pushes (push_back v l) ls). specialize (IH (push_back v l)).
  assert (v_alloc v <= v_alloc (push_back v l)) by (unfold push_back; destruct (_ <? _); cbn; lia). lia.
Qed.
Lemma pushes_app v a b : pushes v (a ++ b) = pushes (pushes v a) b.
Proof. unfold pushes. apply fold_left_app. Qed.
(* room for all: same allocation and capacity; otherwise another allocation *)
Lemma pushes_room ls : forall v, length (v_elems v) + length ls <= v_cap v -> v_alloc (pushes v ls) = v_alloc v /\ v_cap (pushes v ls) = v_cap v.
Proof.
  induction ls as [|l ls IH]; intros v H; [auto|]. cbn [length] in H. cbn [pushes fold_left].
  change (fold_left push_back ls (push_back v l)) with (pushes (push_back v l) ls).
  assert (E : push_back v l = mkVec (v_alloc v) (v_elems v ++ [l]) (v_cap v)) by (unfold push_back; destruct (Nat.ltb_spec (length (v_elems v)) (v_cap v)); [reflexivity|lia]).
  destruct (IH (push_back v l)) as [A B]; [rewrite E; cbn; rewrite app_length; cbn; lia|]. rewrite A, B, E. auto.
Qed.
Lemma pushes_full ls : forall v, length (v_elems v) <= v_cap v -> v_cap v < length (v_elems v) + length ls -> v_alloc v < v_alloc (pushes v ls).
Proof.
  induction ls as [|l ls IH]; intros v H0 H; [cbn in H; lia|]. cbn [length] in H. cbn [pushes fold_left].
  change (fold_left push_back ls (push_back v l)) with (pushes (push_back v l) ls).
  destruct (Nat.ltb_spec (length (v_elems v)) (v_cap v)) as [HL|HL].
  - assert (E : push_back v l = mkVec (v_alloc v) (v_elems v ++ [l]) (v_cap v)) by (unfold push_back; destruct (Nat.ltb_spec (length (v_elems v)) (v_cap v)); [reflexivity|lia]).
    specialize (IH (push_back v l)). rewrite E in *. cbn in IH. rewrite app_length in IH. cbn in IH. apply IH; lia.
  - pose proof (alloc_mono ls (push_back v l)) as HM. unfold push_back in *. destruct (Nat.ltb_spec (length (v_elems v)) (v_cap v)); [lia|]. cbn [v_alloc] in HM. lia.
Qed.
Lemma nth_pushes v ls k : k < length (v_elems v) -> nth k (v_elems (pushes v ls)) 0%Z = nth k (v_elems v) 0%Z.
Proof. intros H. rewrite pushes_elems. apply app_nth1. exact H. Qed.

Lemma firstn_S_hd {A} (ps : list (list A)) r : concat (firstn (S r) ps) = hd [] ps ++ concat (firstn r (tl ps)).
Proof. destruct ps as [|p ps]; [destruct r; reflexivity|reflexivity]. Qed.

(* the loop over the remaining elements rest, from any intermediate vector *)
Lemma ubx_loop_spec sub a : forall rest pre more ps v,
  v_elems v = pre ++ rest ++ more -> v_alloc v = a -> length (v_elems v) <= v_cap v ->
  let P := early ps (reads sub rest) in
  ubx_loop sub a (length pre) (length rest) ps v =
  if length (v_elems v) + length P <=? v_cap v then Done (pushes v P) (filter sub rest) else UseAfterFree.
Proof.
  induction rest as [|l rest IH]; intros pre more ps v EV EA HC; cbn zeta.
  - cbn. rewrite Nat.add_0_r. destruct (Nat.leb_spec (length (v_elems v)) (v_cap v)); [reflexivity|lia].
  - cbn [length ubx_loop]. unfold early.
    assert (ER : reads sub (l :: rest) = S (if sub l then S (reads sub rest) else reads sub rest)).
    { unfold reads. cbn [filter length]. destruct (sub l); cbn [length]; lia. }
    rewrite ER. clear ER. rewrite firstn_S_hd. set (p1 := hd [] ps). set (q := tl ps).
    assert (EK : nth (length pre) (v_elems v) 0%Z = l) by (rewrite EV, app_nth2, Nat.sub_diag by lia; reflexivity).
    assert (HK : length pre < length (v_elems v)) by (rewrite EV, !app_length; cbn; lia).
    rewrite (nth_pushes v p1 _ HK), EK. cbn [filter].
    rewrite app_length. destruct (Nat.le_gt_cases (length (v_elems v) + length p1) (v_cap v)) as [H1|H1].
    2:{ pose proof (pushes_full p1 v HC H1). destruct (Nat.eqb_spec (v_alloc (pushes v p1)) a); [lia|].
        destruct (Nat.leb_spec (length (v_elems v) + (length p1 + length (concat (firstn (if sub l then S (reads sub rest) else reads sub rest) q)))) (v_cap v)); [lia|reflexivity]. }
    destruct (pushes_room p1 v H1) as [EA1 EC1]. rewrite EA1, EA, Nat.eqb_refl.
    assert (EV1 : v_elems (pushes v p1) = pre ++ (l :: rest) ++ (more ++ p1)) by (rewrite pushes_elems, EV, <- !app_assoc; reflexivity).
    assert (EL1 : length (v_elems (pushes v p1)) = length (v_elems v) + length p1) by (rewrite pushes_elems, app_length; reflexivity).
    destruct (sub l) eqn:ES.
    + rewrite firstn_S_hd. set (p2 := hd [] q). set (r := tl q). rewrite app_length.
      rewrite (nth_pushes (pushes v p1) p2) by lia. rewrite (nth_pushes v p1 _ HK), EK.
      destruct (Nat.le_gt_cases (length (v_elems v) + length p1 + length p2) (v_cap v)) as [H2|H2].
      2:{ pose proof (pushes_full p2 (pushes v p1)) as HF. rewrite EC1, EL1 in HF. specialize (HF H1 H2).
          destruct (Nat.eqb_spec (v_alloc (pushes (pushes v p1) p2)) a); [lia|].
          destruct (Nat.leb_spec (length (v_elems v) + (length p1 + (length p2 + length (concat (firstn (reads sub rest) r))))) (v_cap v)); [lia|reflexivity]. }
      destruct (pushes_room p2 (pushes v p1)) as [EA2 EC2]; [rewrite EC1, EL1; exact H2|]. rewrite EA2, EA1, EA, Nat.eqb_refl.
      assert (EV2 : v_elems (pushes (pushes v p1) p2) = (pre ++ [l]) ++ rest ++ ((more ++ p1) ++ p2)).
      { rewrite pushes_elems, EV1, <- !app_assoc. reflexivity. }
      assert (EL2 : length (v_elems (pushes (pushes v p1) p2)) = length (v_elems v) + length p1 + length p2) by (rewrite pushes_elems, app_length; lia).
      specialize (IH (pre ++ [l]) _ r _ EV2). cbn zeta in IH. rewrite app_length in IH. cbn [length] in IH. rewrite Nat.add_1_r in IH.
      rewrite IH; [|rewrite EA2, EA1; exact EA|rewrite EC2, EC1, EL2; exact H2]. rewrite EC2, EC1, EL2. unfold early.
      set (R := concat (firstn (reads sub rest) r)).
      destruct (Nat.leb_spec (length (v_elems v) + length p1 + length p2 + length R) (v_cap v)) as [H3|H3];
        destruct (Nat.leb_spec (length (v_elems v) + (length p1 + (length p2 + length R))) (v_cap v)); try lia; [|reflexivity].
      cbn [called]. rewrite !pushes_app. reflexivity.
    + assert (EV2 : v_elems (pushes v p1) = (pre ++ [l]) ++ rest ++ (more ++ p1)) by (rewrite EV1, <- !app_assoc; reflexivity).
      specialize (IH (pre ++ [l]) _ q _ EV2). cbn zeta in IH. rewrite app_length in IH. cbn [length] in IH. rewrite Nat.add_1_r in IH.
      rewrite IH; [|rewrite EA1; exact EA|rewrite EC1, EL1; exact H1]. rewrite EC1, EL1. unfold early.
      set (R := concat (firstn (reads sub rest) q)).
      destruct (Nat.leb_spec (length (v_elems v) + length p1 + length R) (v_cap v)) as [H3|H3];
        destruct (Nat.leb_spec (length (v_elems v) + (length p1 + length R)) (v_cap v)); try lia; [|reflexivity].
      rewrite !pushes_app. reflexivity.
Qed.
Lemma ubx_dispatch_spec sub ps v : length (v_elems v) <= v_cap v ->
  ubx_dispatch sub ps v =
  let P := early ps (reads sub (v_elems v)) in
  if length (v_elems v) + length P <=? v_cap v then Done (pushes v P) (filter sub (v_elems v)) else UseAfterFree.
Proof.
  intros HC. unfold ubx_dispatch. apply (ubx_loop_spec sub (v_alloc v) (v_elems v) [] [] ps v); [rewrite app_nil_r; reflexivity|reflexivity|exact HC].
Qed.

Lemma all_loop_spec a : forall rest pre more ps v,
  v_elems v = pre ++ rest ++ more -> v_alloc v = a -> length (v_elems v) <= v_cap v ->
  let P := early ps (length rest) in
  all_loop a (length pre) (length rest) ps v =
  if length (v_elems v) + length P <=? v_cap v then Done (pushes v P) rest else UseAfterFree.
Proof.
  induction rest as [|l rest IH]; intros pre more ps v EV EA HC; cbn zeta.
  - cbn. rewrite Nat.add_0_r. destruct (Nat.leb_spec (length (v_elems v)) (v_cap v)); [reflexivity|lia].
  - cbn [length all_loop]. unfold early. rewrite firstn_S_hd. set (p1 := hd [] ps). set (q := tl ps).
    assert (EK : nth (length pre) (v_elems v) 0%Z = l) by (rewrite EV, app_nth2, Nat.sub_diag by lia; reflexivity).
    assert (HK : length pre < length (v_elems v)) by (rewrite EV, !app_length; cbn; lia).
    rewrite (nth_pushes v p1 _ HK), EK, app_length.
    destruct (Nat.le_gt_cases (length (v_elems v) + length p1) (v_cap v)) as [H1|H1].
    2:{ pose proof (pushes_full p1 v HC H1). destruct (Nat.eqb_spec (v_alloc (pushes v p1)) a); [lia|].
        destruct (Nat.leb_spec (length (v_elems v) + (length p1 + length (concat (firstn (length rest) q)))) (v_cap v)); [lia|reflexivity]. }
    destruct (pushes_room p1 v H1) as [EA1 EC1]. rewrite EA1, EA, Nat.eqb_refl.
    assert (EL1 : length (v_elems (pushes v p1)) = length (v_elems v) + length p1) by (rewrite pushes_elems, app_length; reflexivity).
    assert (EV2 : v_elems (pushes v p1) = (pre ++ [l]) ++ rest ++ (more ++ p1)) by (rewrite pushes_elems, EV, <- !app_assoc; reflexivity).
    specialize (IH (pre ++ [l]) _ q _ EV2). cbn zeta in IH. rewrite app_length in IH. cbn [length] in IH. rewrite Nat.add_1_r in IH.
    rewrite IH; [|rewrite EA1; exact EA|rewrite EC1, EL1; exact H1]. rewrite EC1, EL1. unfold early.
    set (R := concat (firstn (length rest) q)).
    destruct (Nat.leb_spec (length (v_elems v) + length p1 + length R) (v_cap v)) as [H3|H3];
      destruct (Nat.leb_spec (length (v_elems v) + (length p1 + length R)) (v_cap v)); try lia; [|reflexivity].
    cbn [called]. rewrite !pushes_app. reflexivity.
Qed.
Lemma all_dispatch_spec ps v : length (v_elems v) <= v_cap v ->
  all_dispatch ps v =
  let P := early ps (length (v_elems v)) in
  if length (v_elems v) + length P <=? v_cap v then Done (pushes v P) (v_elems v) else UseAfterFree.
Proof.
  intros HC. unfold all_dispatch. apply (all_loop_spec (v_alloc v) (v_elems v) [] [] ps v); [rewrite app_nil_r; reflexivity|reflexivity|exact HC].
Qed.

(* the capacity of a vector that was only ever extended: the least power of two that holds its elements *)
Lemma built_cap ls : ls <> [] -> exists e, v_cap (pushes vec_new ls) = 2 ^ e /\ length ls <= 2 ^ e < 2 * length ls.
Proof.
  induction ls as [|l ls IH] using rev_ind; intros H; [congruence|]. rewrite pushes_app. cbn [pushes fold_left].
  change (fold_left push_back ls vec_new) with (pushes vec_new ls). rewrite app_length. cbn [length].
  destruct ls as [|x ls0] eqn:EL.
  - exists 0. cbn. lia.
  - rewrite <- EL in *. destruct IH as (e & EC & HB); [rewrite EL; discriminate|].
    assert (EE : v_elems (pushes vec_new ls) = ls) by (rewrite pushes_elems; reflexivity).
    unfold push_back. rewrite EE, EC. destruct (Nat.ltb_spec (length ls) (2 ^ e)) as [H1|H1]; cbn [v_cap].
    + exists e. lia.
    + assert (length ls = 2 ^ e) by lia. exists (S e). rewrite Nat.pow_succ_r'. rewrite Nat.max_r by lia. lia.
Qed.
Lemma built_wf ls : length (v_elems (pushes vec_new ls)) <= v_cap (pushes vec_new ls).
Proof.
  rewrite pushes_elems. cbn [vec_new v_elems app]. destruct ls as [|x ls]; [cbn; lia|].
  destruct (built_cap (x :: ls)) as (e & -> & H); [discriminate|]. lia.
Qed.

(* vectors that were only ever extended *)
Lemma built_elems ls : v_elems (pushes vec_new ls) = ls.
Proof. rewrite pushes_elems. reflexivity. Qed.
Lemma cap_pos ls l : 1 <= v_cap (pushes vec_new (l :: ls)).
Proof. destruct (built_cap (l :: ls)) as (e & -> & H); [discriminate|]. cbn [length] in H. lia. Qed.
(* the outcome of a walk from the number of listeners and of early registrations alone *)
Lemma built_dispatch {A} ls P (f : vec -> A) (g : A) : ls <> [] ->
  exists e, length ls <= 2 ^ e < 2 * length ls /\ (length ls + length P <= 2 ^ e ->
       (if length (v_elems (pushes vec_new ls)) + length P <=? v_cap (pushes vec_new ls) then f (pushes (pushes vec_new ls) P) else g) = f (pushes vec_new (ls ++ P))) /\ (2 ^ e < length ls + length P ->
       (if length (v_elems (pushes vec_new ls)) + length P <=? v_cap (pushes vec_new ls) then f (pushes (pushes vec_new ls) P) else g) = g).
Proof.
  intros H. destruct (built_cap ls H) as (e & EC & HB). exists e. split; [exact HB|]. rewrite EC, built_elems, <- pushes_app.
  split; intros HP; destruct (Nat.leb_spec (length ls + length P) (2 ^ e)); try lia; reflexivity.
Qed.
Lemma ubx_dispatch_built sub ls ps : ls <> [] ->
  exists e, length ls <= 2 ^ e < 2 * length ls /\ (length ls + length (early ps (reads sub ls)) <= 2 ^ e ->
       ubx_dispatch sub ps (pushes vec_new ls) = Done (pushes vec_new (ls ++ early ps (reads sub ls))) (filter sub ls)) /\ (2 ^ e < length ls + length (early ps (reads sub ls)) -> ubx_dispatch sub ps (pushes vec_new ls) = UseAfterFree).
Proof.
  intros H. destruct (built_dispatch ls (early ps (reads sub ls)) (fun v => Done v (filter sub ls)) UseAfterFree H) as (e & HB & H1 & H2).
  exists e. split; [exact HB|]. rewrite ubx_dispatch_spec by apply built_wf. cbn zeta. rewrite built_elems in *. split; assumption.
Qed.
Lemma all_dispatch_built ls ps : ls <> [] ->
  exists e, length ls <= 2 ^ e < 2 * length ls /\ (length ls + length (early ps (length ls)) <= 2 ^ e ->
       all_dispatch ps (pushes vec_new ls) = Done (pushes vec_new (ls ++ early ps (length ls))) ls) /\ (2 ^ e < length ls + length (early ps (length ls)) -> all_dispatch ps (pushes vec_new ls) = UseAfterFree).
Proof.
  intros H. destruct (built_dispatch ls (early ps (length ls)) (fun v => Done v ls) UseAfterFree H) as (e & HB & H1 & H2).
  exists e. split; [exact HB|]. rewrite all_dispatch_spec by apply built_wf. cbn zeta. rewrite built_elems in *. split; assumption.
Qed.
(* a full vector (1, 2, 4, 8, ... listeners) has no room: one registration before the last read is enough *)
Lemma pow2_uniq e f n : n = 2 ^ f -> n <= 2 ^ e < 2 * n -> e = f.
Proof.
  intros -> [H1 H2]. destruct (Nat.lt_trichotomy e f) as [H|[H|H]]; [|exact H|].
  - pose proof (Nat.pow_lt_mono_r 2 e f). lia.
  - assert (2 ^ S f <= 2 ^ e) by (apply Nat.pow_le_mono_r; lia). rewrite Nat.pow_succ_r' in H0. lia.
Qed.
Lemma full_dispatch sub ls ps f : length ls = 2 ^ f -> early ps (reads sub ls) <> [] -> ubx_dispatch sub ps (pushes vec_new ls) = UseAfterFree.
Proof.
  intros HL HP. assert (H0 : ls <> []) by (intros ->; cbn in HL; pose proof (Nat.pow_nonzero 2 f); lia).
  destruct (ubx_dispatch_built sub ls ps H0) as (e & HB & _ & H). apply H. rewrite (pow2_uniq e f _ HL HB), <- HL.
  destruct (early ps (reads sub ls)); [congruence|cbn; lia].
Qed.
(* registrations made between walks only *)
Lemma quiet_dispatch sub ls : ubx_dispatch sub [] (pushes vec_new ls) = Done (pushes vec_new ls) (filter sub ls) /\
  all_dispatch [] (pushes vec_new ls) = Done (pushes vec_new ls) ls.
Proof.
  rewrite ubx_dispatch_spec, all_dispatch_spec by apply built_wf. unfold early. rewrite !firstn_nil. cbn zeta. cbn [concat length].
  rewrite Nat.add_0_r, built_elems. destruct (Nat.leb_spec (length ls) (v_cap (pushes vec_new ls))) as [H|H]; [split; reflexivity|].
  pose proof (built_wf ls). rewrite built_elems in H0. lia.
Qed.
