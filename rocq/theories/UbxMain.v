(* Consequences of the stream refinement: the lemmas behind the UBX receive properties. *)
From Verif Require Import Base ZBits UbxSpec UbxModel UbxProofs UbxStream.

(* ---------------------------------------------------------------- refinement on every stream *)
Lemma idle_not_parsing s : Idle s -> parsing_message s = false.
Proof. intros (_ & H & _). unfold parsing_message. rewrite H. reflexivity. Qed.

Lemma refine_idle ls s stream :
  Forall listener_ok ls -> Idle s -> small_counters s -> bytes_ok stream ->
  exists its t,
    stream = items_bytes its ++ t /\ items_ok (prev s) its /\ tail_ok (items_last (prev s) its) t /\
    ((exists s1 s', feed (map build ls) s stream = Ok (s', items_outs ls (inbuf s) its ++ quiet (length t))
        /\ feed (map build ls) s (items_bytes its) = Ok (s1, items_outs ls (inbuf s) its)
        /\ Idle s1 /\ small_counters s1 /\ items_post s its s1
        /\ tail_post s1 s' /\ (t = [] -> s' = s1)
        /\ (t <> [] -> parsing_message s' = true /\ st s' <> START))
     \/ (0 < count (is_good_of 10 4) its /\ feed (map build ls) s stream = UB UB_cstring)).
Proof.
  intros Hls Hid Hsm Hby.
  destruct (segmentation stream (prev s) Hby) as (its & t & E & Hok & Ht).
  exists its, t. split; [exact E|]. split; [exact Hok|]. split; [exact Ht|].
  rewrite E in Hby. apply bytes_ok_app in Hby. destruct Hby as [Hb1 Hb2].
  rewrite E, feed_app.
  destruct (exec_items ls its s Hls Hid Hsm Hok Hb1) as [(s1 & E1 & Hid1 & Hsm1 & HP)|[Hv E1]].
  - left. rewrite E1. cbn [bind].
    assert (Hp1 : prev s1 = items_last (prev s) its) by apply HP.
    destruct (exec_tail (map build ls) s1 t Hid1) as (s' & E2 & HT & Hn1 & Hn2); [rewrite Hp1; exact Ht|exact Hb2|].
    rewrite E2. cbn [bind]. exists s1, s'. repeat split; auto; try apply HT; try (apply Hn2; assumption);
      try apply Hid1; try apply Hsm1; try apply HP; assumption.
  - right. rewrite E1. cbn [bind]. auto.
Qed.

Lemma init_small u : small_counters (ubx_init u).
Proof. split; cbn; lia. Qed.

(* A reachable state that is not parsing is Idle. *)
Lemma reach_idle ls u pre s outs :
  Forall listener_ok ls -> uninit_ok u -> bytes_ok pre ->
  feed (map build ls) (ubx_init u) pre = Ok (s, outs) ->
  small_counters s /\ (parsing_message s = false <-> Idle s) /\ (parsing_message s = false <-> st s = START).
Proof.
  intros Hls Hu Hby HF.
  destruct (refine_idle ls (ubx_init u) pre Hls (init_idle u Hu) (init_small u) Hby)
    as (its & t & E & Hok & Ht & [(s1 & s' & E1 & _ & Hid & Hsm & _ & HT & Ha & Hb)|[_ E1]]);
    rewrite HF in E1; [|discriminate].
  injection E1 as E1 E2. subst s' outs.
  split. { destruct HT as (T1 & T2 & _). unfold small_counters in *. rewrite T1, T2. exact Hsm. }
  destruct t as [|b t].
  - rewrite (Ha eq_refl). pose proof (idle_not_parsing s1 Hid). split; split; auto.
    intros _. apply Hid.
  - destruct Hb as [Hb1 Hb2]; [discriminate|]. split; split; intros H; try congruence.
    destruct H as (H & _). congruence.
Qed.

(* ---------------------------------------------------------------- C01, C09 *)
Lemma frame_from_idle ls s cls id pl :
  Forall listener_ok ls -> Idle s -> byte_ok cls -> byte_ok id -> ubx_payload_ok pl ->
  (exists s', feed (map build ls) s (ubx_frame cls id pl)
      = Ok (s', quiet (7 + length pl) ++ [(calls_for ls cls id (pl ++ skipn (length pl) (inbuf s)), true)])
    /\ Idle s' /\ inbuf s' = pl ++ skipn (length pl) (inbuf s)
    /\ nmsg s' = u32 (nmsg s + 1) /\ nerr s' = nerr s)
  \/ ((cls, id) = (10, 4) /\ feed (map build ls) s (ubx_frame cls id pl) = UB UB_cstring).
Proof.
  intros Hls Hid Hc Hi [Hl Hpl].
  assert (Hid2 : Idle (w_prev s 0xB5)) by (destruct Hid as (? & ? & ? & ?); repeat split; assumption).
  assert (Hok : item_ok (prev (w_prev s 0xB5)) (Good cls id pl)) by (split; [reflexivity|exact Hl]).
  assert (Hby : item_bytes_ok (Good cls id pl)).
  { unfold item_bytes_ok, bytes_ok. cbn [item_bytes]. constructor; [unfold byte_ok; lia|].
    apply Forall_app. split.
    - unfold ubx_body. repeat (constructor; [unfold byte_ok in *; lia|]). exact Hpl.
    - constructor; [|constructor; [|constructor]]; unfold ck_a_of, ck_b_of, byte_ok; lia. }
  assert (Hfirst : read_cb (map build ls) s 0xB5 = Ok (w_prev s 0xB5, [], false)).
  { apply read_noise; [apply Hid|lia]. }
  change (ubx_frame cls id pl) with (0xB5 :: item_bytes (Good cls id pl)).
  cbn [feed]. rewrite Hfirst. cbn [bind].
  destruct (exec_item ls _ _ Hls Hid2 Hok Hby) as [(s' & E & Hid' & HP)|[Hv E]]; rewrite E; cbn [bind].
  - left. exists s'.
    destruct HP as (_ & P2 & P3 & P4 & _). cbn [is_good is_error] in P3, P4.
    split; [|repeat split; try assumption; try apply Hid'].
    f_equal. f_equal. unfold item_outs.
    replace (length (item_bytes (Good cls id pl)) - 1)%nat with (6 + length pl)%nat
      by (cbn [item_bytes]; unfold ubx_body; cbn [app length]; rewrite app_length; cbn [length]; lia).
    reflexivity.
  - right. cbn [is_good_of] in Hv. split; [|reflexivity]. f_equal; lia.
Qed.

(* ---------------------------------------------------------------- C02 *)
Definition no_sync (l : list Z) : Prop := forall a b, l <> a ++ [0xB5; 0x62] ++ b.

Lemma noise_items l : forall p, no_sync (p :: l) ->
  items_ok p (map Noise l) /\ items_bytes (map Noise l) = l /\
  items_last p (map Noise l) = last l p.
Proof.
  induction l as [|b l IH]; intros p Hn; [repeat split|].
  destruct (IH b) as (H1 & H2 & H3).
  { intros x y E. apply (Hn (p :: x) y). rewrite E. reflexivity. }
  cbn [map items_ok]. split; [split|split].
  - cbn. intros [-> ->]. apply (Hn [] l). reflexivity.
  - exact H1.
  - unfold items_bytes in *. cbn [flat_map item_bytes app]. rewrite H2. reflexivity.
  - rewrite items_last_cons. change (item_last (Noise b)) with b. rewrite H3.
    destruct l as [|z l]; [reflexivity|].
    change (last (b :: z :: l) p) with (last (z :: l) p). apply last_indep.
Qed.

Inductive chunk := CNoise (l : list Z) | CFrame (cls id : Z) (pl : list Z).
Definition chunk_bytes (c : chunk) : list Z :=
  match c with CNoise l => l | CFrame cls id pl => ubx_frame cls id pl end.
Definition chunk_ok (p : Z) (c : chunk) : Prop :=
  match c with
  | CNoise l => bytes_ok l /\ no_sync (p :: l)
  | CFrame cls id pl => byte_ok cls /\ byte_ok id /\ ubx_payload_ok pl
  end.
Fixpoint chunks_ok (p : Z) (cs : list chunk) : Prop :=
  match cs with
  | [] => True
  | c :: r => chunk_ok p c /\ chunks_ok (last (chunk_bytes c) p) r
  end.
Definition chunks_bytes (cs : list chunk) : list Z := flat_map chunk_bytes cs.
Definition chunk_items (c : chunk) : list item :=
  match c with
  | CNoise l => map Noise l
  | CFrame cls id pl => [Noise 0xB5; Good cls id pl]
  end.

(* the deliveries a sequence of chunks must cause: (class, id, payload) per frame *)
Definition chunk_frames (cs : list chunk) : list (Z * Z * list Z) :=
  flat_map (fun c => match c with CFrame cls id pl => [(cls, id, pl)] | _ => [] end) cs.

(* the deliveries that happened: the call lists of the bytes on which read_cb returned true *)
Definition deliveries (outs : list byte_out) : list (list call) :=
  map fst (filter (fun o => snd o) outs).
(* calls not accompanied by a true result *)
Definition stray_calls (outs : list byte_out) : list call :=
  flat_map fst (filter (fun o => negb (snd o)) outs).

Definition delivered (ls : list listener) (f : Z * Z * list Z) (calls : list call) : Prop :=
  let '(cls, id, pl) := f in
  exists msg, length msg = 2048%nat /\ firstn (length pl) msg = pl /\ calls = calls_for ls cls id msg.

Lemma deliveries_app a b : deliveries (a ++ b) = deliveries a ++ deliveries b.
Proof. unfold deliveries. rewrite filter_app, map_app. reflexivity. Qed.
Lemma stray_app a b : stray_calls (a ++ b) = stray_calls a ++ stray_calls b.
Proof. unfold stray_calls. rewrite filter_app, flat_map_app. reflexivity. Qed.
Lemma deliveries_quiet n : deliveries (quiet n) = [].
Proof. unfold deliveries, quiet. induction n; [reflexivity|exact IHn]. Qed.
Lemma stray_quiet n : stray_calls (quiet n) = [].
Proof. unfold stray_calls, quiet. induction n; [reflexivity|exact IHn]. Qed.

Lemma items_outs_app ls mem a : forall b,
  items_outs ls mem (a ++ b) = items_outs ls mem a ++ items_outs ls (items_mem mem a) b.
Proof.
  revert mem; induction a as [|it a IH]; intros mem b; [reflexivity|].
  cbn [app items_outs]. rewrite IH, app_assoc. reflexivity.
Qed.
Lemma items_bytes_app a b : items_bytes (a ++ b) = items_bytes a ++ items_bytes b.
Proof. apply flat_map_app. Qed.
Lemma items_last_app p a b : items_last p (a ++ b) = items_last (items_last p a) b.
Proof. unfold items_last. apply fold_left_app. Qed.
Lemma items_ok_app a : forall p b, items_ok p (a ++ b) <-> items_ok p a /\ items_ok (items_last p a) b.
Proof.
  induction a as [|it a IH]; intros p b; cbn [app items_ok]; [unfold items_last; cbn; tauto|].
  rewrite IH, items_last_cons. tauto.
Qed.
Lemma count_app f a b : count f (a ++ b) = count f a + count f b.
Proof. unfold count. rewrite filter_app, Zlen_app. reflexivity. Qed.

Lemma item_mem_length mem it p : item_ok p it -> length mem = 2048%nat -> length (item_mem mem it) = 2048%nat.
Proof.
  intros H Hm. destruct it; cbn [item_mem]; try assumption.
  - destruct H. apply skipn_length_mem; [assumption|lia].
  - destruct H as (_ & H & _). apply skipn_length_mem; [assumption|lia].
Qed.

Lemma item_outs_stray ls mem it : stray_calls (item_outs ls mem it) = [].
Proof.
  destruct it; cbn [item_outs]; rewrite ?stray_app, stray_quiet; reflexivity.
Qed.
Lemma items_outs_stray ls its : forall mem, stray_calls (items_outs ls mem its) = [].
Proof.
  induction its as [|it its IH]; intros mem; [reflexivity|].
  cbn [items_outs]. rewrite stray_app, item_outs_stray, IH. reflexivity.
Qed.

Definition good_frames (its : list item) : list (Z * Z * list Z) :=
  flat_map (fun it => match it with Good cls id pl => [(cls, id, pl)] | _ => [] end) its.

Lemma items_deliveries ls its : forall p mem, items_ok p its -> length mem = 2048%nat ->
  Forall2 (delivered ls) (good_frames its) (deliveries (items_outs ls mem its)).
Proof.
  induction its as [|it its IH]; intros p mem Hok Hm; [constructor|].
  destruct Hok as [H1 H2]. unfold good_frames in *. cbn [flat_map items_outs].
  rewrite deliveries_app. apply Forall2_app; [|apply (IH (item_last it)); [assumption|]].
  2:{ eapply item_mem_length; eassumption. }
  destruct it; cbn [item_outs]; rewrite ?deliveries_app, deliveries_quiet; cbn [app deliveries]; try constructor; [|constructor].
  destruct H1 as [_ H1]. exists (pl ++ skipn (length pl) mem).
  split; [apply skipn_length_mem; [assumption|lia]|]. split; [|reflexivity].
  rewrite firstn_app, firstn_all, Nat.sub_diag. cbn [firstn]. apply app_nil_r.
Qed.

Lemma last_app_ne {A} (a b : list A) d d' : b <> [] -> last (a ++ b) d = last b d'.
Proof.
  intros Hb. destruct b as [|x b]; [congruence|].
  induction a as [|y a IH]; [apply last_indep|].
  rewrite <- IH. cbn [app]. destruct (a ++ x :: b) eqn:E; [destruct a; discriminate|]. reflexivity.
Qed.

Lemma chunks_items cs : forall p, chunks_ok p cs ->
  let its := flat_map chunk_items cs in
  items_ok p its /\ items_bytes its = chunks_bytes cs /\ bytes_ok (chunks_bytes cs) /\
  good_frames its = chunk_frames cs.
Proof.
  induction cs as [|c cs IH]; intros p Hok; cbv zeta; [repeat split; constructor|].
  destruct Hok as [Hc Hcs]. cbn [flat_map]. specialize (IH _ Hcs). cbv zeta in IH.
  destruct IH as (I1 & I2 & I3 & I4).
  unfold chunks_bytes, good_frames, chunk_frames in *. cbn [flat_map].
  rewrite items_bytes_app, flat_map_app, I2, I4.
  assert (Hc' : items_ok p (chunk_items c) /\ items_bytes (chunk_items c) = chunk_bytes c /\
     bytes_ok (chunk_bytes c) /\ items_last p (chunk_items c) = last (chunk_bytes c) p /\
     flat_map (fun it => match it with Good cls id pl => [(cls, id, pl)] | _ => [] end) (chunk_items c)
       = match c with CFrame cls id pl => [(cls, id, pl)] | _ => [] end).
  { destruct c as [l|cls id pl]; cbn [chunk_items chunk_bytes].
    - destruct Hc as [Hb Hn]. destruct (noise_items l p Hn) as (H1 & H2 & H3).
      repeat split; try assumption. clear. induction l; [reflexivity|exact IHl].
    - destruct Hc as (Hc & Hi & Hl & Hp). split; [|split; [|split; [|split]]].
      + cbn [items_ok]. split; [cbn; lia|]. split; [split; [reflexivity|exact Hl]|exact I].
      + unfold items_bytes. cbn [flat_map]. rewrite app_nil_r. reflexivity.
      + unfold ubx_frame, bytes_ok. apply Forall_app. split; [repeat constructor; unfold byte_ok; lia|].
        apply Forall_app. split.
        * unfold ubx_body. apply Forall_app. split; [|exact Hp].
          repeat (constructor; [unfold byte_ok in *; lia|]). constructor.
        * constructor; [|constructor; [|constructor]]; unfold ck_a_of, ck_b_of, byte_ok; lia.
      + unfold items_last. cbn [fold_left]. unfold item_last.
        change (ubx_frame cls id pl) with ([0xB5] ++ item_bytes (Good cls id pl)).
        symmetry. apply last_app_ne. discriminate.
      + reflexivity. }
  destruct Hc' as (C1 & C2 & C3 & C4 & C5).
  rewrite C2, C5. split; [|split; [reflexivity|split; [|reflexivity]]].
  - apply items_ok_app. rewrite C4. auto.
  - apply bytes_ok_app. auto.
Qed.

Lemma good_count c i its : 0 < count (is_good_of c i) its -> exists pl, In (c, i, pl) (good_frames its).
Proof.
  induction its as [|it its IH]; [unfold count; cbn; lia|].
  rewrite count_cons. unfold good_frames in *. cbn [flat_map]. intros H.
  destruct (is_good_of c i it) eqn:E.
  - destruct it; cbn in E; try discriminate. exists pl. apply in_or_app. left. left. f_equal. f_equal; lia.
  - destruct IH as (pl & HI); [lia|]. exists pl. apply in_or_app. auto.
Qed.

Lemma chunks_delivered ls s cs :
  Forall listener_ok ls -> Idle s -> small_counters s -> chunks_ok (prev s) cs ->
  (exists s' outs, feed (map build ls) s (chunks_bytes cs) = Ok (s', outs) /\ Idle s' /\
      Forall2 (delivered ls) (chunk_frames cs) (deliveries outs) /\ stray_calls outs = [])
  \/ ((exists pl, In (10, 4, pl) (chunk_frames cs)) /\ feed (map build ls) s (chunks_bytes cs) = UB UB_cstring).
Proof.
  intros Hls Hid Hsm Hok. destruct (chunks_items cs (prev s) Hok) as (I1 & I2 & I3 & I4).
  rewrite <- I2 in I3 |- *.
  destruct (exec_items ls _ s Hls Hid Hsm I1 I3) as [(s1 & E1 & Hid1 & Hsm1 & HP)|[Hv E1]].
  - left. exists s1, (items_outs ls (inbuf s) (flat_map chunk_items cs)).
    split; [exact E1|]. split; [assumption|]. split; [|apply items_outs_stray].
    rewrite <- I4. apply (items_deliveries ls _ (prev s)); [assumption|apply Hid].
  - right. split; [|exact E1]. rewrite <- I4. apply good_count. exact Hv.
Qed.
