(* C23, over the whole life of a reader: what each call of new_data() returns, among any calls of read_cb, restart and new_data. *)
From Verif Require Import Base CrcSpec RtcmModel RtcmSpec RtcmProofs RtcmApi.

(* read_cb for each byte of bs with the listeners ls registered (rtcm.cpp:56-170); restart() rtcm.cpp:37-42; new_data() rtcm.cpp:49-54 *)
Inductive rcall := CFeed (ls bs : list Z) | CRestart | CNew.
(* the calls on one object; the results of the new_data() calls, in order (rtcm.cpp:37-170) *)
Fixpoint rtcm_calls (s : rtcm) (cs : list rcall) : outcome (rtcm * list bool) :=
  match cs with
  | [] => Ok (s, [])
  | CFeed ls bs :: r => let* (s1, _) := rtcm_feed ls s bs in rtcm_calls s1 r
  | CRestart :: r => rtcm_calls (rtcm_restart s) r
  | CNew :: r => let (b, s1) := rtcm_new_data s in let* (s2, o) := rtcm_calls s1 r in Ok (s2, b :: o)
  end.

(* ---------------------------------------------------------------- specification *)
(* what is answered: b, whether a frame was completed since the last question; p, the bytes of the frame under way.  The bytes that
   arrive together with those of the frame under way are frames and noise (RtcmSpec) and a new unfinished frame; a restart drops
   the frame under way and nothing else *)
Inductive answers : bool -> list Z -> list rcall -> list bool -> Prop :=
| A_end b p : answers b p [] []
| A_feed b p ls bs its t r o : p ++ bs = ritems_bytes its ++ t -> Forall ritem_ok its -> rtail_ok t ->
    answers (b || existsb ritem_complete its) t r o -> answers b p (CFeed ls bs :: r) o
| A_restart b p r o : answers b [] r o -> answers b p (CRestart :: r) o
| A_new b p r o : answers false p r o -> answers b p (CNew :: r) (b :: o).
Definition call_bytes (c : rcall) : list Z := match c with CFeed _ bs => bs | _ => [] end.

(* ---------------------------------------------------------------- proofs *)
Lemma restart_rst s p : RSt s p -> RSt (rtcm_restart s) [] /\ r_new (rtcm_restart s) = r_new s.
Proof.
  intros H. split; [|reflexivity]. destruct H as [H1 H2 H3 H4|p rest stg H1 H2 H3 H4 H5 H6 H7 H8 H9]; constructor; proj; try assumption; try reflexivity.
  rewrite H1, app_length. unfold Zlen in H2. lia.
Qed.
Lemma new_rst s p : RSt s p -> RSt (snd (rtcm_new_data s)) p.
Proof. intros H. destruct H as [H1 H2 H3 H4|p rest stg H1 H2 H3 H4 H5 H6 H7 H8 H9]; [constructor|apply (RS_part _ p rest stg)]; cbn [rtcm_new_data snd]; proj; assumption. Qed.

Lemma calls_answers : forall cs s p s' o, RSt s p -> Forall (fun c => bytes_ok (call_bytes c)) cs -> rtcm_calls s cs = Ok (s', o) -> answers (r_new s) p cs o.
Proof.
  induction cs as [|c cs IH]; intros s p s' o HS HB H; [cbn in H; assert (o = []) by congruence; subst; constructor|].
  inversion HB as [|? ? Hb HB']; subst. destruct c as [ls bs| |]; cbn [rtcm_calls call_bytes] in *.
  - destruct (rsegment ls bs s p HS (rst_pending_bytes _ _ HS) Hb) as (its & t & E & Hok & Ht & [(s1 & outs & EF & HS1 & _ & HN)|[_ EF]]);
      rewrite EF in H; cbn [bind] in H; [|discriminate].
    apply (A_feed _ p ls bs its t); [exact E|exact Hok|exact Ht|]. rewrite <- HN. exact (IH s1 t s' o HS1 HB' H).
  - destruct (restart_rst s p HS) as [H1 H2]. constructor. rewrite <- H2. exact (IH _ [] s' o H1 HB' H).
  - destruct (rtcm_calls (rw_new s false) cs) as [[s2 o2]|] eqn:E; cbn in H; rewrite ?E in H; cbn [bind] in H; [|discriminate].
    assert (o = r_new s :: o2) by congruence. subst o. constructor. apply (IH (rw_new s false) p s2 o2); [exact (new_rst s p HS)|exact HB'|exact E].
Qed.
(* the answers are determined *)
Lemma answers_fun : forall cs b p o o', answers b p cs o -> answers b p cs o' -> o = o'.
Proof.
  induction cs as [|c cs IH]; intros b p o o' H H'.
  - inversion H; inversion H'; subst; reflexivity.
  - destruct c as [ls bs| |].
    + inversion H as [|b1 p1 l1 x1 its t r o1 E Hok Ht HA| |]; subst. inversion H' as [|b2 p2 l2 x2 its' t' r' o2 E' Hok' Ht' HA'| |]; subst.
      rewrite E in E'. destruct (ritems_unique its its' t t' Hok Hok' Ht Ht' E') as [-> ->]. eauto.
    + inversion H; subst. inversion H'; subst. eauto.
    + inversion H as [| | |b1 p1 r o1 HA]; subst. inversion H' as [| | |b2 p2 r' o2 HA']; subst. f_equal. eauto.
Qed.
Lemma init_rst u : runinit_ok u -> RSt (rtcm_init u) [].
Proof. intros [H1 H2]. constructor; try assumption; reflexivity. Qed.
Theorem news u cs s' o : runinit_ok u -> Forall (fun c => bytes_ok (call_bytes c)) cs -> rtcm_calls (rtcm_init u) cs = Ok (s', o) ->
  answers false [] cs o /\ forall o', answers false [] cs o' -> o' = o.
Proof.
  intros Hu HB H. pose proof (calls_answers cs (rtcm_init u) [] s' o (init_rst u Hu) HB H) as A. cbn [rtcm_init r_new] in A.
  split; [exact A|]. intros o' A'. exact (answers_fun cs _ _ _ _ A' A).
Qed.
