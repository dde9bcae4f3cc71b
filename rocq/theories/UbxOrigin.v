(* Which bytes of a delivered message are old, and where they come from (C09); the segmentation of a stream is unique (C11). *)
From Verif Require Import Base UbxSpec UbxModel UbxProofs UbxStream UbxMain UbxMore UbxHist UbxApi.

(* ---------------------------------------------------------------- specification *)
(* the payload of a complete frame, with right or wrong checksum *)
Definition frame_payload (it : item) : option (list Z) :=
  match it with Good _ _ pl | Bad _ _ pl _ _ => Some pl | _ => None end.
(* v is byte k of the last of these frames that has a byte k, or, if none has one, of the memory m *)
Definition left_behind (m : list Z) (its : list item) (k : nat) (v : Z) : Prop :=
  (exists a it b pl, its = a ++ it :: b /\ frame_payload it = Some pl /\ (k < length pl)%nat /\ nth k pl 0 = v /\
     forall it' pl', In it' b -> frame_payload it' = Some pl' -> (length pl' <= k)%nat) \/
  ((forall it pl, In it its -> frame_payload it = Some pl -> (length pl <= k)%nat) /\ nth k m 0 = v).

(* ---------------------------------------------------------------- proofs *)
Lemma bindo_inv {A B} (m : outcome A) (f : A -> outcome B) r : bind m f = Ok r -> exists a, m = Ok a /\ f a = Ok r.
Proof. destruct m as [a|k]; [intros H; exists a; auto|discriminate]. Qed.
Lemma nth_overlay pl mem k : nth k (pl ++ skipn (length pl) mem) 0 = if (k <? length pl)%nat then nth k pl 0 else nth k mem 0.
Proof.
  destruct (Nat.ltb_spec k (length pl)); [apply app_nth1; assumption|]. rewrite app_nth2 by assumption.
  assert (HS : forall (l : list Z) n j, nth j (skipn n l) 0 = nth (n + j) l 0).
  { induction l as [|x l IH]; intros [|n] j; try reflexivity; [destruct j; reflexivity|apply IH]. }
  rewrite HS. f_equal. lia.
Qed.
Lemma mem_left m : forall its k, left_behind m its k (nth k (items_mem m its) 0).
Proof.
  induction its as [|it its IH] using rev_ind; intros k; [right; split; [intros ? ? []|reflexivity]|].
  unfold items_mem. rewrite fold_left_app. cbn [fold_left]. fold (items_mem m its). specialize (IH k).
  assert (HP : match frame_payload it with Some pl => item_mem (items_mem m its) it = pl ++ skipn (length pl) (items_mem m its) | None => item_mem (items_mem m its) it = items_mem m its end)
    by (destruct it; reflexivity).
  assert (HO : (forall pl, frame_payload it = Some pl -> (length pl <= k)%nat) -> left_behind m (its ++ [it]) k (nth k (items_mem m its) 0)).
  { intros HL. destruct IH as [(a & i0 & b & pl & E1 & E2 & E3 & E4 & E5)|[E1 E2]].
    - left. exists a, i0, (b ++ [it]), pl. split; [rewrite E1, <- app_assoc; reflexivity|]. split; [exact E2|]. split; [exact E3|]. split; [exact E4|].
      intros it' pl' Hin. apply in_app_or in Hin. destruct Hin as [Hin|[<-|[]]]; [apply E5; exact Hin|apply HL].
    - right. split; [|exact E2]. intros it' pl' Hin. apply in_app_or in Hin. destruct Hin as [Hin|[<-|[]]]; [apply E1; exact Hin|apply HL]. }
  destruct (frame_payload it) as [pl|] eqn:EP; rewrite HP; [|apply HO; discriminate].
  rewrite nth_overlay. destruct (Nat.ltb_spec k (length pl)) as [Hk|Hk].
  - left. exists its, it, [], pl. split; [reflexivity|]. split; [exact EP|]. split; [exact Hk|]. split; [reflexivity|]. intros ? ? [].
  - apply HO. intros pl' E. injection E as <-. exact Hk.
Qed.
Lemma stale_origin u ls its s outs cls id pl : uninit_ok u -> Forall listener_ok ls -> items_ok 0 its -> bytes_ok (items_bytes its) ->
  feed (map build ls) (ubx_init u) (items_bytes its) = Ok (s, outs) ->
  byte_ok cls -> byte_ok id -> ubx_payload_ok pl -> (cls, id) <> (10, 4) ->
  exists s' msg, feed (map build ls) s (ubx_frame cls id pl) = Ok (s', quiet (7 + length pl) ++ [(calls_for ls cls id msg, true)]) /\
    length msg = 2048%nat /\ firstn (length pl) msg = pl /\ forall k, (length pl <= k)%nat -> left_behind (un_inbuf u) its k (nth k msg 0).
Proof.
  intros Hu Hls Hok Hb HF Hc Hi Hpl Hv.
  destruct (exec_items ls its (ubx_init u) Hls (init_idle u Hu) (init_small u) Hok Hb) as [(x & EX & HId & HSm & HPo)|[_ EX]]; rewrite HF in EX; [|discriminate].
  assert (x = s) by congruence. subst x. destruct HPo as (_ & EM & _). cbn [ubx_init inbuf] in EM.
  assert (HR : Reach u s).
  { assert (HR0 : forall bs s0 s1 o, bytes_ok bs -> Reach u s0 -> feed (map build ls) s0 bs = Ok (s1, o) -> Reach u s1).
    { induction bs as [|b r IH]; intros s0 s1 o Hbb H0 E; cbn [feed] in E; [assert (s0 = s1) by congruence; subst; exact H0|].
      apply bindo_inv in E. destruct E as (((s2, c2), k2) & E2 & E). apply bindo_inv in E. destruct E as ((s3, o3) & E3 & E).
      assert (s1 = s3) by congruence. subst s3. inversion Hbb. apply (IH s2 s1 o3); [assumption| |exact E3]. apply (R_rx u s0 ls b s2 c2 k2); assumption. }
    apply (HR0 (items_bytes its) (ubx_init u) s outs Hb); [constructor|exact HF]. }
  assert (HPf : parsing_message s = false) by (destruct HId as (E1 & E2 & _); unfold parsing_message; rewrite E2; reflexivity).
  destruct (ls_frame u s ls cls id pl Hu HR HPf Hls Hc Hi Hpl ltac:(congruence)) as (s' & EF & _ & EB).
  exists s', (overlay pl (inbuf s)). split; [exact EF|]. unfold overlay. destruct Hpl as [Hp1 Hp2].
  assert (HL : length (inbuf s) = 2048%nat) by apply HId. split; [|split].
  - rewrite app_length, skipn_length, HL. unfold Zlen in *. lia.
  - rewrite firstn_app, Nat.sub_diag, firstn_all. cbn [firstn]. apply app_nil_r.
  - intros k Hk. rewrite nth_overlay. replace (k <? length pl)%nat with false by (symmetry; apply Nat.ltb_ge; exact Hk). rewrite EM. apply mem_left.
Qed.

(* ---- every segmentation gives the same answer *)
Lemma any_segmentation ls u its t s outs : Forall listener_ok ls -> uninit_ok u -> bytes_ok (items_bytes its ++ t) -> items_ok 0 its -> tail_ok (items_last 0 its) t ->
  feed (map build ls) (ubx_init u) (items_bytes its ++ t) = Ok (s, outs) ->
  nmsg s = count is_good its mod 2 ^ 32 /\ nerr s = count is_error its mod 2 ^ 32 /\
  got_ack s = (0 <? count (is_good_of 5 1) its) /\ got_nack s = (0 <? count (is_good_of 5 0) its) /\ got_ver s = (0 <? count (is_good_of 10 4) its) /\
  outs = items_outs ls (un_inbuf u) its ++ quiet (length t).
Proof.
  intros Hls Hu Hb Hok Ht HF. apply bytes_ok_app in Hb. destruct Hb as [Hb1 Hb2]. rewrite feed_app in HF.
  destruct (exec_items ls its (ubx_init u) Hls (init_idle u Hu) (init_small u) Hok Hb1) as [(x & EX & HId & HSm & HPo)|[_ EX]]; rewrite EX in HF; cbn [bind] in HF; [|discriminate].
  destruct HPo as (P1 & _ & P3 & P4 & P5 & P6 & P7 & _). cbn [ubx_init prev nmsg nerr got_ack got_nack got_ver] in *.
  destruct (exec_tail (map build ls) x t HId) as (y & EY & HT & _); [rewrite P1; exact Ht|exact Hb2|]. rewrite EY in HF. cbn [bind] in HF.
  assert (s = y) by congruence. assert (EO : outs = items_outs ls (inbuf (ubx_init u)) its ++ quiet (length t)) by congruence. subst y.
  destruct HT as (T1 & T2 & T3 & T4 & T5 & _). rewrite T1, T2, T3, T4, T5. auto 10.
Qed.

(* ---- the segmentation is unique *)
Lemma same_len_app (a b x y : list Z) : length a = length b -> a ++ x = b ++ y -> a = b /\ x = y.
Proof.
  revert b. induction a as [|h a IH]; intros [|k b] HL H; try discriminate; [auto|]. injection H as -> H. injection HL as HL.
  destruct (IH b HL H) as [-> ->]. auto.
Qed.
Lemma len_bytes (x y : Z) : 0 <= x < 65536 -> 0 <= y < 65536 -> x mod 256 = y mod 256 -> x / 256 = y / 256 -> x = y.
Proof. intros. lia. Qed.
Lemma item_det p it it' r r' : item_ok p it -> item_ok p it' -> item_bytes it ++ r = item_bytes it' ++ r' -> it = it' /\ r = r'.
Proof.
  intros H H' E.
  destruct it as [b|c i pl|c i pl ka kb|c i n]; destruct it' as [b'|c' i' pl'|c' i' pl' ka' kb'|c' i' n']; cbn [item_ok item_bytes app ubx_body] in *.
  - injection E as -> ->. auto.
  - exfalso. injection E as -> _. tauto.
  - exfalso. injection E as -> _. tauto.
  - exfalso. injection E as -> _. tauto.
  - exfalso. injection E as <- _. tauto.
  - injection E as <- <- E1 E2 E. assert (EL : Zlen pl = Zlen pl') by (apply len_bytes; lia). rewrite <- !app_assoc in E.
    destruct (same_len_app pl pl' _ _ ltac:(unfold Zlen in EL; lia) E) as [<- E']. injection E' as ->. auto.
  - exfalso. injection E as <- <- E1 E2 E. assert (EL : Zlen pl = Zlen pl') by (apply len_bytes; lia). rewrite <- !app_assoc in E.
    destruct (same_len_app pl pl' _ _ ltac:(unfold Zlen in EL; lia) E) as [<- E']. injection E' as <- <- _. apply H'. reflexivity.
  - exfalso. injection E as <- <- E1 E2 E. assert (EL : Zlen pl = n') by (apply len_bytes; lia). lia.
  - exfalso. injection E as <- _. tauto.
  - exfalso. injection E as <- <- E1 E2 E. assert (EL : Zlen pl = Zlen pl') by (apply len_bytes; lia). rewrite <- !app_assoc in E.
    destruct (same_len_app pl pl' _ _ ltac:(unfold Zlen in EL; lia) E) as [<- E']. injection E' as -> -> _. apply H. reflexivity.
  - injection E as <- <- E1 E2 E. assert (EL : Zlen pl = Zlen pl') by (apply len_bytes; lia). rewrite <- !app_assoc in E.
    destruct (same_len_app pl pl' _ _ ltac:(unfold Zlen in EL; lia) E) as [<- E']. injection E' as <- <- ->. auto.
  - exfalso. injection E as <- <- E1 E2 E. assert (EL : Zlen pl = n') by (apply len_bytes; lia). lia.
  - exfalso. injection E as <- _. tauto.
  - exfalso. injection E as <- <- E1 E2 E. assert (EL : n = Zlen pl') by (apply len_bytes; lia). lia.
  - exfalso. injection E as <- <- E1 E2 E. assert (EL : n = Zlen pl') by (apply len_bytes; lia). lia.
  - injection E as <- <- E1 E2 E. assert (n = n') by (apply len_bytes; lia). subst. auto.
Qed.
Lemma item_not_tail p it r t : item_ok p it -> tail_ok p t -> item_bytes it ++ r = t -> False.
Proof.
  intros H [->|(Hp & x & -> & HX)] E; [destruct it; discriminate|].
  assert (HF : forall c i n pay, 0 <= n < 65536 -> n <> 0 -> (n <= 2048 -> n + 2 <= Zlen pay) -> x = [c; i; n mod 256; n / 256] ++ pay -> False).
  { intros c i n pay Hn Hn0 Hl ->. destruct HX as [HX|(c' & i' & n' & rest & E' & Hn' & HX)].
    - unfold Zlen in HX. cbn [app length] in HX. lia.
    - injection E' as _ _ E1 E2 ->. assert (n = n') by (apply len_bytes; lia). subst n'. destruct HX as [HX|HX]; [lia|]. specialize (Hl ltac:(lia)). lia. }
  destruct it as [b|c i pl|c i pl ka kb|c i n]; cbn [item_ok item_bytes app ubx_body] in *.
  - injection E as -> _. tauto.
  - injection E as E. apply (HF c i (Zlen pl) (pl ++ [ck_a_of (ubx_body c i pl); ck_b_of (ubx_body c i pl)] ++ r)); try lia.
    + intros _. rewrite !Zlen_app. unfold Zlen at 3. cbn [length]. pose proof (Zlen_nonneg r). lia.
    + rewrite <- E. cbn [app]. rewrite <- app_assoc. reflexivity.
  - injection E as E. apply (HF c i (Zlen pl) (pl ++ [ka; kb] ++ r)); try lia.
    + intros _. rewrite !Zlen_app. unfold Zlen at 3. cbn [length]. pose proof (Zlen_nonneg r). lia.
    + rewrite <- E. cbn [app]. rewrite <- app_assoc. reflexivity.
  - injection E as E. apply (HF c i n r); try lia. rewrite <- E. reflexivity.
Qed.
Lemma segmentation_unique : forall its its' p t t', items_ok p its -> items_ok p its' -> tail_ok (items_last p its) t -> tail_ok (items_last p its') t' ->
  items_bytes its ++ t = items_bytes its' ++ t' -> its = its' /\ t = t'.
Proof.
  induction its as [|it r IH]; intros [|it' r'] p t t' H H' Ht Ht' E.
  - auto.
  - exfalso. destruct H' as [H1 _]. change (items_bytes (it' :: r')) with (item_bytes it' ++ items_bytes r') in E. rewrite <- app_assoc in E.
    apply (item_not_tail p it' (items_bytes r' ++ t') t H1 Ht). symmetry. exact E.
  - exfalso. destruct H as [H1 _]. change (items_bytes (it :: r)) with (item_bytes it ++ items_bytes r) in E. rewrite <- app_assoc in E.
    apply (item_not_tail p it (items_bytes r ++ t) t' H1 Ht'). exact E.
  - destruct H as [H1 H2]. destruct H' as [H1' H2']. change (items_bytes (it' :: r')) with (item_bytes it' ++ items_bytes r') in E.
    change (items_bytes (it :: r)) with (item_bytes it ++ items_bytes r) in E. rewrite <- !app_assoc in E.
    destruct (item_det p it it' _ _ H1 H1' E) as [<- E']. destruct (IH r' (item_last it) t t' H2 H2' Ht Ht' E') as [-> ->]. auto.
Qed.
