(* RTCM reader: histories and the statements used by Properties_Rtcm. *)
From Verif Require Import Base CrcSpec RtcmModel RtcmSpec RtcmProofs.

Definition runinit_ok (u : runinit) : Prop := length (run_buf u) = 1024%nat /\ bytes_ok (run_buf u).

(* every state of a reader: construction, then any sequence of read_cb, restart() and new_data() calls *)
Inductive RReach (u : runinit) : rtcm -> Prop :=
| RRinit : RReach u (rtcm_init u)
| RRread ls s bs s' outs : RReach u s -> bytes_ok bs -> rtcm_feed ls s bs = Ok (s', outs) -> RReach u s'
| RRrestart s : RReach u s -> RReach u (rtcm_restart s)
| RRnew s : RReach u s -> RReach u (snd (rtcm_new_data s)).

Lemma rst_pending_bytes s p : RSt s p -> bytes_ok p.
Proof. intros H. destruct H; [constructor|]. rewrite H in H1. apply bytes_ok_app in H1. tauto. Qed.

Lemma rreach_inv u s : runinit_ok u -> RReach u s -> exists p, RSt s p.
Proof.
  intros [Hl Hb] HR. induction HR as [|ls s bs s' outs HR [p IH] Hbs EF|s HR [p IH]|s HR [p IH]].
  - exists []. constructor; try assumption; reflexivity.
  - destruct (rsegment ls bs s p IH (rst_pending_bytes _ _ IH) Hbs) as (its & t & _ & _ & _ & [(s1 & o & E & HS & _)|[_ E]]);
      rewrite EF in E; [|discriminate]. injection E as <- _. exists t. exact HS.
  - exists []. destruct IH as [H1 H2 H3 H4|p rest stg H1 H2 H3 H4 H5 H6 H7 H8 H9]; constructor; proj; try assumption; try reflexivity.
    rewrite H1, app_length. unfold Zlen in H2. lia.
  - exists p. destruct IH as [H1 H2 H3 H4|p rest stg H1 H2 H3 H4 H5 H6 H7 H8 H9]; [constructor|apply (RS_part _ p rest stg)]; cbn [rtcm_new_data snd]; proj; assumption.
Qed.

Lemma rst_parsing s p : RSt s p -> (rtcm_parsing s = false <-> p = []).
Proof.
  intros H. unfold rtcm_parsing. destruct H as [H1 H2 H3 H4|p rest stg H1 H2 H3 H4 H5 H6 H7 H8 H9]; [rewrite H4; tauto|].
  rewrite H5, H6. cbn. split; [discriminate|]. intros ->. inversion H9.
Qed.
Lemma rreach_idle u s : runinit_ok u -> RReach u s -> rtcm_parsing s = false -> RSt s [].
Proof. intros Hu HR HP. destruct (rreach_inv u s Hu HR) as [p H]. apply (rst_parsing s p H) in HP. subst p. exact H. Qed.

(* ------------------------------------------------ the segmentation is unique *)
Lemma shape_cons n f : rtcm_shape n f -> exists h1 h2 q, f = 0xD3 :: h1 :: h2 :: q /\ n = rtcm_len h1 h2 /\ Zlen q = n + 3.
Proof.
  intros (h1 & h2 & pl & c & -> & Hp & Hn & Hc). exists h1, h2, (pl ++ c). split; [reflexivity|]. split; [congruence|].
  rewrite Zlen_app, Hp. unfold Zlen. rewrite Hc. lia.
Qed.
Lemma shape_len n f : rtcm_shape n f -> Zlen f = n + 6.
Proof. intros H. destruct (shape_cons n f H) as (h1 & h2 & q & -> & _ & Hq). rewrite !Zlen_cons. lia. Qed.

Definition ritem_shape (it : ritem) : option (list Z) := match it with RGood f | RBad f => Some f | _ => None end.
Lemma ritem_cases it : ritem_ok it ->
  (exists b, it = RNoise b /\ b <> 0xD3) \/ (exists h1, it = REmpty h1 /\ h1 mod 4 = 0) \/
  (exists h1 h2 q, ritem_bytes it = 0xD3 :: h1 :: h2 :: q /\ ritem_shape it = Some (ritem_bytes it) /\
     1 <= rtcm_len h1 h2 <= 1018 /\ Zlen q = rtcm_len h1 h2 + 3).
Proof.
  destruct it as [b|h1|f|f]; cbn [ritem_ok].
  - intros H. left. exists b. auto.
  - intros H. right. left. exists h1. auto.
  - intros (n & Hn & Hf & _). right. right. destruct (shape_cons n f Hf) as (h1 & h2 & q & -> & -> & Hq).
    exists h1, h2, q. auto.
  - intros (n & Hn & Hf & _). right. right. destruct (shape_cons n f Hf) as (h1 & h2 & q & -> & -> & Hq).
    exists h1, h2, q. auto.
Qed.
Lemma app_eq_len {A} (a b c d : list A) : length a = length b -> a ++ c = b ++ d -> a = b /\ c = d.
Proof.
  revert b. induction a as [|x a IH]; intros [|y b] HL E; try discriminate; [auto|].
  cbn [length] in HL. injection E as -> E. destruct (IH b) as [-> ->]; [lia|exact E|]. auto.
Qed.

Lemma ritem_unique it it' a a' : ritem_ok it -> ritem_ok it' -> ritem_bytes it ++ a = ritem_bytes it' ++ a' -> it = it' /\ a = a'.
Proof.
  intros H H' E.
  assert (R0 : forall h, h mod 4 = 0 -> rtcm_len h 0 = 0) by (intros h Hh; unfold rtcm_len; rewrite Hh; reflexivity).
  destruct (ritem_cases it H) as [(b & -> & Hb)|[(h & -> & Hh)|(h1 & h2 & q & EB & ES & Hn & Hq)]];
  destruct (ritem_cases it' H') as [(b' & -> & Hb')|[(h' & -> & Hh')|(h1' & h2' & q' & EB' & ES' & Hn' & Hq')]];
  rewrite ?EB, ?EB' in E; cbn [ritem_bytes app] in E.
  - injection E as -> ->. auto.
  - injection E as -> _. congruence.
  - injection E as -> _. congruence.
  - injection E as <- _. congruence.
  - injection E as -> ->. auto.
  - injection E as <- <- _. rewrite R0 in Hn' by assumption. lia.
  - injection E as <- _. congruence.
  - injection E as -> -> _. rewrite R0 in Hn by assumption. lia.
  - injection E as -> -> E. destruct (app_eq_len q q' a a') as [-> ->]; [unfold Zlen in *; lia|exact E|].
    split; [|reflexivity]. rewrite <- EB in EB'.
    destruct it as [x|x|f|f]; try discriminate ES; destruct it' as [y|y|g|g]; try discriminate ES'; cbn [ritem_bytes] in EB'; subst g; try reflexivity;
      destruct H as (n & _ & Hf); destruct H' as (n' & _ & Hf'); exfalso; unfold rtcm_frame in *; tauto.
Qed.
Lemma ritem_not_tail it a : ritem_ok it -> rtail_ok (ritem_bytes it ++ a) -> False.
Proof.
  intros H HT. destruct HT as [HT|(r & E & HT)].
  - destruct (ritem_cases it H) as [(b & -> & Hb)|[(h & -> & Hh)|(h1 & h2 & q & EB & _)]]; [discriminate|discriminate|rewrite EB in HT; discriminate].
  - destruct (ritem_cases it H) as [(b & -> & Hb)|[(h & -> & Hh)|(h1 & h2 & q & EB & ES & Hn & Hq)]].
    + cbn in E. injection E as -> _. congruence.
    + cbn in E. injection E as <-. rewrite !Zlen_cons in HT. pose proof (Zlen_nonneg a).
      destruct HT as [HT|(x & y & q & E & Hn & _)]; [lia|]. injection E as <- <- <-. unfold rtcm_len in Hn. rewrite Hh in Hn. lia.
    + rewrite EB in E. cbn [app] in E. injection E as <-. rewrite !Zlen_cons in HT. pose proof (Zlen_nonneg (q ++ a)).
      destruct HT as [HT|(x & y & q' & E & Hn' & HT)]; [lia|]. injection E as <- <- <-. rewrite Zlen_app in HT. pose proof (Zlen_nonneg a). lia.
Qed.
Lemma ritems_unique its : forall its' t t', Forall ritem_ok its -> Forall ritem_ok its' -> rtail_ok t -> rtail_ok t' ->
  ritems_bytes its ++ t = ritems_bytes its' ++ t' -> its = its' /\ t = t'.
Proof.
  induction its as [|it its IH]; intros [|it' its'] t t' H H' Ht Ht' E.
  - auto.
  - exfalso. inversion H'; subst. cbn [ritems_bytes flat_map app] in E. rewrite <- app_assoc in E. rewrite E in Ht.
    eapply ritem_not_tail; eassumption.
  - exfalso. inversion H; subst. cbn [ritems_bytes flat_map app] in E. rewrite <- app_assoc in E. rewrite <- E in Ht'.
    eapply ritem_not_tail; eassumption.
  - inversion H; subst. inversion H'; subst. cbn [ritems_bytes flat_map] in E. rewrite <- !app_assoc in E.
    apply ritem_unique in E; try assumption. destruct E as [-> E]. apply IH in E; try assumption. destruct E as [-> ->]. auto.
Qed.

(* ------------------------------------------------ from idle *)
Lemma items_feed ls s its : RSt s [] -> Forall ritem_ok its -> bytes_ok (ritems_bytes its) ->
  exists s', rtcm_feed ls s (ritems_bytes its) = Ok (s', ritems_outs ls its) /\ RSt s' [] /\
    r_new s' = r_new s || existsb ritem_complete its.
Proof.
  intros HS Hok Hb. destruct (rsegment ls (ritems_bytes its) s [] HS) as (its' & t & E & Hok' & Ht & HC); [constructor|exact Hb|].
  cbn [app] in E. assert (E' : ritems_bytes its ++ [] = ritems_bytes its' ++ t) by (rewrite app_nil_r; exact E).
  apply ritems_unique in E'; try assumption; [|left; reflexivity]. destruct E' as [<- <-].
  destruct HC as [(s' & outs & EF & HS' & EO & HN)|[HL _]]; [|change (@Zlen Z []) with 0 in HL; lia].
  exists s'. cbn [length rquiet repeat app] in EO. rewrite app_nil_r in EO. rewrite EO in EF. auto.
Qed.

Lemma frame_feed u s ls n f : runinit_ok u -> RReach u s -> rtcm_parsing s = false ->
  1 <= n <= 1018 -> bytes_ok f -> rtcm_frame n f ->
  exists s', rtcm_feed ls s f = Ok (s', repeat [] (length f - 1) ++ [map (fun l => (l, f)) ls]) /\ rtcm_parsing s' = false.
Proof.
  intros Hu HR HP Hn Hb Hf. pose proof (rreach_idle u s Hu HR HP) as HS.
  destruct (items_feed ls s [RGood f] HS) as (s' & E & HS' & _).
  - constructor; [|constructor]. exists n. auto.
  - cbn. rewrite app_nil_r. exact Hb.
  - exists s'. cbn [ritems_bytes ritems_outs flat_map ritem_bytes ritem_outs] in E. rewrite !app_nil_r in E. split; [exact E|].
    apply (rst_parsing s' [] HS'). reflexivity.
Qed.

Lemma shape_feed u s ls n f : runinit_ok u -> RReach u s -> rtcm_parsing s = false ->
  1 <= n <= 1018 -> bytes_ok f -> rtcm_shape n f ->
  exists s' outs, rtcm_feed ls s f = Ok (s', outs) /\ rtcm_parsing s' = false /\ fst (rtcm_new_data s') = true /\
    fst (rtcm_new_data (snd (rtcm_new_data s'))) = false /\
    (concat outs <> [] -> block_ok f).
Proof.
  intros Hu HR HP Hn Hb Hf. pose proof (rreach_idle u s Hu HR HP) as HS.
  destruct (rsegment ls f s [] HS) as (its & t & E & Hok & Ht & HC); [constructor|exact Hb|]. cbn [app] in E.
  assert (Hit : exists it, ritem_ok it /\ ritem_bytes it = f /\ ritem_complete it = true /\ (ritem_outs ls it = rquiet (length f) \/ block_ok f)).
  { destruct its as [|it its].
    - exfalso. cbn in E. subst t. destruct (shape_cons n f Hf) as (h1 & h2 & q & -> & -> & Hq).
      destruct Ht as [Ht|(r & E & Ht)]; [discriminate|]. injection E as <-. rewrite !Zlen_cons in Ht. pose proof (Zlen_nonneg q).
      destruct Ht as [Ht|(x & y & q' & E & Hn' & Ht)]; [lia|]. injection E as <- <- <-. lia.
    - inversion Hok as [|? ? Hi _]; subst. exists it. split; [exact Hi|].
      destruct (shape_cons n _ Hf) as (h1 & h2 & q & Ef & -> & Hq). cbn [ritems_bytes flat_map] in Ef. rewrite <- app_assoc in Ef.
      destruct (ritem_cases it Hi) as [(b & -> & Hb')|[(h & -> & Hh)|(x & y & q' & EB & ES & Hn' & Hq')]].
      + cbn in Ef. injection Ef as -> _. congruence.
      + cbn in Ef. injection Ef as <- <- _. unfold rtcm_len in Hn. rewrite Hh in Hn. lia.
      + assert (EQ : ritem_bytes it = ritems_bytes (it :: its) ++ t).
        { cbn [ritems_bytes flat_map]. rewrite <- app_assoc, Ef, EB. rewrite EB in Ef. cbn [app] in Ef. injection Ef as -> -> Eq.
          do 3 f_equal. destruct (app_eq_len q' q (flat_map ritem_bytes its ++ t) []) as [-> _]; [unfold Zlen in *; lia|rewrite app_nil_r; exact Eq|reflexivity]. }
        split; [exact EQ|]. rewrite <- EQ. destruct it as [b|b|g|g]; try discriminate ES; (split; [reflexivity|]).
        * right. destruct Hi as (m & _ & _ & HB). exact HB.
        * left. reflexivity. }
  destruct Hit as (it & Hi & EB & HC1 & HO).
  destruct (items_feed ls s [it] HS) as (s' & EF & HS' & HN); [constructor; [exact Hi|constructor]|cbn; rewrite app_nil_r, EB; exact Hb|].
  exists s', (ritem_outs ls it). cbn [ritems_bytes ritems_outs flat_map] in EF. rewrite !app_nil_r, EB in EF. split; [exact EF|].
  split; [apply (rst_parsing s' [] HS'); reflexivity|]. split; [cbn; rewrite HN; cbn; rewrite HC1; apply orb_true_r|].
  split; [reflexivity|]. destruct HO as [HO|HO]; [|auto]. rewrite HO. intros HH. exfalso. apply HH. clear.
  induction (length f) as [|m IH]; [reflexivity|exact IH].
Qed.

(* ------------------------------------------------ overflow *)
Lemma overflow_iff u s ls bs : runinit_ok u -> RReach u s -> rtcm_parsing s = false -> bytes_ok bs ->
  ((exists k, rtcm_feed ls s bs = UB k) <->
   exists its h1 h2 q, bs = ritems_bytes its ++ [0xD3; h1; h2] ++ q /\ Forall ritem_ok its /\
     1019 <= rtcm_len h1 h2 <= 1023 /\ 1022 <= Zlen q) /\
  (forall k, rtcm_feed ls s bs = UB k -> k = UB_oob_write).
Proof.
  intros Hu HR HP Hb. pose proof (rreach_idle u s Hu HR HP) as HS.
  destruct (rsegment ls bs s [] HS) as (its & t & E & Hok & Ht & HC); [constructor|exact Hb|]. cbn [app] in E. split.
  2:{ intros k EK. destruct HC as [(s' & outs & EF & _)|[_ EF]]; rewrite EF in EK; congruence. }
  split.
  - intros [k EK]. destruct HC as [(s' & outs & EF & _)|[HL EF]]; [rewrite EF in EK; discriminate|].
    destruct Ht as [->|(r & -> & Ht)]; [change (@Zlen Z []) with 0 in HL; lia|].
    rewrite Zlen_cons in HL. destruct Ht as [Ht|(h1 & h2 & q & -> & Hn & Ht)]; [lia|]. rewrite !Zlen_cons in HL.
    assert (Hh2 : byte_ok h2).
    { rewrite E in Hb. apply bytes_ok_app in Hb. destruct Hb as [_ Hb]. inversion Hb as [|? ? _ Hb1]; subst.
      inversion Hb1 as [|? ? _ Hb2]; subst. inversion Hb2; subst. assumption. }
    pose proof (rtcm_len_range h1 h2 Hh2).
    exists its, h1, h2, q. split; [exact E|]. split; [exact Hok|]. lia.
  - intros (its' & h1 & h2 & q & E' & Hok' & Hn & Hq).
    assert (HT' : rtail_ok ([0xD3; h1; h2] ++ q)).
    { right. exists (h1 :: h2 :: q). split; [reflexivity|]. right. exists h1, h2, q. split; [reflexivity|]. lia. }
    rewrite E in E'. apply ritems_unique in E'; try assumption. destruct E' as [-> ->].
    destruct HC as [(s' & outs & EF & HS' & _)|[_ EF]]; [|eexists; exact EF]. exfalso.
    inversion HS' as [|p rest stg H1 H2 H3 H4 H5 H6 H7 H8 H9]; subst.
    cbn [app] in H2. rewrite !Zlen_cons in H2. pose proof (Zlen_nonneg rest). lia.
Qed.

(* ------------------------------------------------ soundness *)
Lemma nth_quiet {A} n k (d : list A) : d = [] -> nth k (repeat (@nil A) n) d = [].
Proof. intros ->. revert k. induction n as [|n IH]; intros [|k]; cbn; auto. Qed.

Lemma segmentation u s ls bs s' outs : runinit_ok u -> RReach u s -> rtcm_parsing s = false -> bytes_ok bs ->
  rtcm_feed ls s bs = Ok (s', outs) ->
  exists its t, bs = ritems_bytes its ++ t /\ Forall ritem_ok its /\ rtail_ok t /\ Zlen t <= 1024 /\
    outs = ritems_outs ls its ++ repeat [] (length t) /\ (rtcm_parsing s' = false <-> t = []) /\
    fst (rtcm_new_data s') = fst (rtcm_new_data s) || existsb ritem_complete its.
Proof.
  intros Hu HR HP Hb EF. pose proof (rreach_idle u s Hu HR HP) as HS.
  destruct (rsegment ls bs s [] HS) as (its & t & E & Hok & Ht & HC); [constructor|exact Hb|]. cbn [app] in E.
  destruct HC as [(s1 & o & EF1 & HS1 & EO & HN)|[_ EF1]]; rewrite EF in EF1; [|discriminate]. injection EF1 as <- <-.
  exists its, t. split; [exact E|]. split; [exact Hok|]. split; [exact Ht|]. split; [|split; [exact EO|split; [apply rst_parsing; exact HS1|exact HN]]].
  inversion HS1 as [|p rest stg H1 H2 H3 H4 H5 H6 H7 H8 H9]; subst; [change (@Zlen Z []) with 0; lia|].
  pose proof (Zlen_nonneg rest). lia.
Qed.

Lemma ritem_outs_length ls it : ritem_ok it -> length (ritem_outs ls it) = length (ritem_bytes it).
Proof.
  intros H. destruct it as [b|h|f|f]; cbn [ritem_outs ritem_bytes]; unfold rquiet; rewrite ?app_length, ?repeat_length; try reflexivity.
  destruct H as (n & Hn & Hf & _). apply shape_len in Hf. unfold Zlen in Hf. cbn [length]. lia.
Qed.

Lemma outs_sound ls its : Forall ritem_ok its -> forall t k, (k < length (ritems_outs ls its ++ repeat [] t))%nat ->
  nth k (ritems_outs ls its ++ repeat [] t) [] <> [] ->
  exists pre f rest n, ritems_bytes its = pre ++ f ++ rest /\ length (pre ++ f) = S k /\ rtcm_frame n f /\ 1 <= n <= 1018 /\
    nth k (ritems_outs ls its ++ repeat [] t) [] = map (fun l => (l, f)) ls.
Proof.
  induction its as [|it its IH]; intros Hok t k Hk Hne.
  - cbn [ritems_outs flat_map app] in Hne. rewrite nth_quiet in Hne by reflexivity. congruence.
  - inversion Hok as [|? ? Hi Hok']; subst. pose proof (ritem_outs_length ls it Hi) as HL.
    cbn [ritems_outs flat_map] in *. fold (ritems_outs ls its) in *. rewrite <- app_assoc in *.
    destruct (Nat.ltb_spec k (length (ritem_outs ls it))).
    + rewrite app_nth1 in * by assumption. destruct it as [b|h|f|f]; cbn [ritem_outs] in *; unfold rquiet in *;
        try (rewrite nth_quiet in Hne by reflexivity; congruence).
      destruct Hi as (n & Hn & Hf). rewrite app_length, repeat_length in H. cbn [length] in H.
      destruct (Nat.eq_dec k (length f - 1)) as [->|Hk'].
      2:{ rewrite app_nth1 in Hne by (rewrite repeat_length; lia). rewrite nth_quiet in Hne by reflexivity. congruence. }
      exists [], f, (ritems_bytes its), n. split; [reflexivity|]. split; [cbn [app]; destruct Hf as [Hf _]; apply shape_len in Hf; unfold Zlen in Hf; lia|].
      split; [exact Hf|]. split; [exact Hn|]. rewrite app_nth2 by (rewrite repeat_length; lia). rewrite repeat_length, Nat.sub_diag. reflexivity.
    + rewrite app_nth2 in * by assumption. rewrite app_length in Hk.
      destruct (IH Hok' t (k - length (ritem_outs ls it))%nat) as (pre & f & rest & n & E & EL & Hf & Hn & EN); [lia|exact Hne|].
      exists (ritem_bytes it ++ pre), f, rest, n. cbn [ritems_bytes flat_map]. fold (ritems_bytes its). rewrite E.
      split; [rewrite <- app_assoc; reflexivity|]. split; [rewrite <- app_assoc, app_length; lia|]. auto.
Qed.

Lemma soundness u s ls bs s' outs k : runinit_ok u -> RReach u s -> rtcm_parsing s = false -> bytes_ok bs ->
  rtcm_feed ls s bs = Ok (s', outs) -> nth k outs [] <> [] ->
  exists pre f n, firstn (S k) bs = pre ++ f /\ rtcm_frame n f /\ 1 <= n <= 1018 /\ nth k outs [] = map (fun l => (l, f)) ls.
Proof.
  intros Hu HR HP Hb EF Hne. destruct (segmentation u s ls bs s' outs Hu HR HP Hb EF) as (its & t & E & Hok & _ & _ & EO & _).
  assert (Hk : (k < length outs)%nat).
  { destruct (Nat.ltb_spec k (length outs)); [assumption|]. rewrite nth_overflow in Hne by assumption. congruence. }
  rewrite EO in *. destruct (outs_sound ls its Hok (length t) k Hk Hne) as (pre & f & rest & n & E1 & EL & Hf & Hn & EN).
  exists pre, f, n. split; [|auto]. rewrite E, E1, <- EL. rewrite app_assoc, <- app_assoc. rewrite firstn_app, Nat.sub_diag, firstn_all. cbn [firstn]. apply app_nil_r.
Qed.

(* ------------------------------------------------ liveness *)
Lemma rtcm_feed_cons ls s b r s1 c : rtcm_byte ls s b = Ok (s1, c) -> rtcm_feed ls s (b :: r) = let* (s2, outs) := rtcm_feed ls s1 r in Ok (s2, c :: outs).
Proof. intros E. cbn [rtcm_feed]. rewrite E. reflexivity. Qed.

Lemma idle_soon ls : forall bs s p, RSt s p -> bytes_ok p -> bytes_ok bs -> 1025 - Zlen p <= Zlen bs ->
  (exists a b s1 o, bs = a ++ b /\ Zlen a <= 1025 - Zlen p /\ rtcm_feed ls s a = Ok (s1, o) /\ RSt s1 []) \/
  rtcm_feed ls s bs = UB UB_oob_write.
Proof.
  induction bs as [|b r IH]; intros s p HS Hp Hbs HL.
  - exfalso. change (@Zlen Z []) with 0 in HL. destruct HS as [|p rest stg H1 H2 H3 H4 H5 H6 H7 H8 H9]; [change (@Zlen Z []) with 0 in HL; lia|].
    pose proof (Zlen_nonneg rest). lia.
  - inversion Hbs as [|? ? Hb Hr]; subst. rewrite Zlen_cons in HL.
    destruct (rstep ls s p b HS Hb Hp) as [s1 E1 HS1 HN1|s1 it cs E1 HS1 Hit EB EO HN1|E1 HLe].
    + destruct (IH s1 (p ++ [b]) HS1) as [(a & c & s2 & o & -> & HA & EF & HI)|EF].
      * apply bytes_ok_app. split; [exact Hp|]. constructor; [exact Hb|constructor].
      * exact Hr.
      * rewrite Zlen_app. change (Zlen [b]) with 1. lia.
      * left. exists (b :: a), c, s2, ([] :: o). split; [reflexivity|]. rewrite Zlen_app in HA. change (Zlen [b]) with 1 in HA. rewrite Zlen_cons. split; [lia|].
        rewrite (rtcm_feed_cons _ _ _ _ _ _ E1), EF. split; [reflexivity|exact HI].
      * right. rewrite (rtcm_feed_cons _ _ _ _ _ _ E1), EF. reflexivity.
    + left. exists [b], r, s1, [cs]. split; [reflexivity|]. split.
      * change (Zlen [b]) with 1. destruct HS as [|p rest stg H1 H2 H3 H4 H5 H6 H7 H8 H9]; [change (@Zlen Z []) with 0; lia|].
        pose proof (Zlen_nonneg rest). lia.
      * rewrite (rtcm_feed_cons _ _ _ _ _ _ E1). split; [reflexivity|exact HS1].
    + right. cbn [rtcm_feed]. rewrite E1. reflexivity.
Qed.

Lemma idle_within u s ls bs : runinit_ok u -> RReach u s -> bytes_ok bs -> 1024 <= Zlen bs ->
  (exists a b s1 o, bs = a ++ b /\ Zlen a <= 1024 /\ rtcm_feed ls s a = Ok (s1, o) /\ rtcm_parsing s1 = false) \/
  rtcm_feed ls s bs = UB UB_oob_write.
Proof.
  intros Hu HR Hb HL. destruct (rreach_inv u s Hu HR) as [p HS]. destruct p as [|x p].
  - left. exists [], bs, s, []. split; [reflexivity|]. split; [change (@Zlen Z []) with 0; lia|]. split; [reflexivity|].
    apply (rst_parsing s [] HS). reflexivity.
  - destruct (idle_soon ls bs s (x :: p) HS (rst_pending_bytes _ _ HS) Hb) as [(a & b & s1 & o & E & HA & EF & HI)|EF]; [|left|right; exact EF].
    + rewrite Zlen_cons. pose proof (Zlen_nonneg p). lia.
    + exists a, b, s1, o. rewrite Zlen_cons in HA. pose proof (Zlen_nonneg p). split; [exact E|]. split; [lia|]. split; [exact EF|].
      apply (rst_parsing s1 [] HI). reflexivity.
Qed.

Lemma stream_feed u s ls its :
  runinit_ok u -> RReach u s -> rtcm_parsing s = false -> Forall ritem_ok its -> bytes_ok (ritems_bytes its) ->
  exists s', rtcm_feed ls s (ritems_bytes its) = Ok (s', ritems_outs ls its) /\ rtcm_parsing s' = false.
Proof.
  intros Hu HR HP Hok Hb. destruct (items_feed ls s its (rreach_idle u s Hu HR HP) Hok Hb) as (s' & E & HS & _).
  exists s'. split; [exact E|]. apply (rst_parsing s' [] HS). reflexivity.
Qed.
Lemma restart_idle u s : RReach u s -> RReach u (rtcm_restart s) /\ rtcm_parsing (rtcm_restart s) = false.
Proof. intros H. split; [constructor; exact H|reflexivity]. Qed.
