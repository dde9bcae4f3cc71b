(* C41, C42, C56, C57: Galileo pages and ephemerides; what can go wrong in the parser at all. *)
From Coq Require Import QArith.
From Verif Require Import Base UtcModel UtcSpec Dbl NavModel NavSpec NavGpsSpec NavStrSpec NavGalSpec NavObj NavGpsThm NavGal NavGalThm NavSafe.
From Verif Require Import CrcSpec Properties_NavGps.
Local Open Scope Z_scope.

(* ---- C41.  When a Galileo message makes a delivery and what is delivered, after any history.  s0: any parser whose
   store row for this satellite is one the decoder can leave behind (all zero at program start); l_hist, l_step, l_ready
   (NavGalSpec): which words are held, and the release rule.  A release that is too late in time is C42. *)
Theorem C41_galileo_release : forall junk s0 sv h s ev m, row_ok (n_rows s0 (sv - 1)) -> msgs_ok h -> msg_ok m -> is_gal sv m = true -> sv <> 0 ->
  nav_run junk s0 h = Ok (s, ev) ->
  let H' := l_step (l_hist sv (row_held (n_rows s0 (sv - 1))) h) (sf_dw m) in
  let fires := l_usable (sf_dw m) && l_ready H' in
  (fires = true -> l_toolate H' = true -> convertUBX junk s m = UB UB_overflow) /\
  (fires = false \/ l_toolate H' = false -> exists s' d,
     convertUBX junk s m = Ok (s', (if fires then EvFell FN_PRINT :: map (fun c => EvEph c d) (n_ecb s) else []), Some fires) /\
     (fires = true -> gal_release sv H' d) /\ n_time s' = n_time s).
Proof. exact galileo_release. Qed.
Print Assumptions C41_galileo_release.
(* from an empty store: the seven words were received in valid pages, word 2 first of the seven, nothing of type 2 since,
   the time stamp is valid and the four issue-of-data values agree *)
Theorem C41_released_words : forall sv h, l_ready (l_hist sv l_none h) = true ->
  exists h1 o2 h2 (w : Z -> Z), h = h1 ++ o2 :: h2 /\ word_in sv 2 (w 2) o2 /\ no_word sv 2 h2 /\
    (forall k, 0 <= k <= 6 -> k <> 2 -> exists o, In o h2 /\ word_in sv k (w k) o) /\
    (forall k, 0 <= k <= 6 -> l_hist sv l_none h k = Some (w k)) /\
    wfield (w 0) 6 2 = 2 /\ wiod (w 2) = wiod (w 1) /\ wiod (w 3) = wiod (w 1) /\ wiod (w 4) = wiod (w 1).
Proof. exact ready_from. Qed.
Print Assumptions C41_released_words.
(* a held word is that of the last valid page of its type, received after the last page of type 2 *)
Theorem C41_held_word : forall sv h k w, l_hist sv l_none h k = Some w ->
  exists h1 o h2, h = h1 ++ o :: h2 /\ word_in sv k w o /\ no_word sv k h2 /\ no_word sv 2 h2.
Proof. exact held_from. Qed.
Print Assumptions C41_held_word.
(* the page check is divisibility of the 220 protected bits by the CRC-24Q generator *)
Theorem C41_page_check : forall dw, page_crc dw = true <-> pdivides crc24q_poly (page_poly dw).
Proof. exact page_crc_iff. Qed.
Print Assumptions C41_page_check.
(* hence one to five wrong bits, an odd number of wrong bits, or wrong bits within 24 positions are detected *)
Theorem C41_page_errors : forall dw dw', page_crc dw = true ->
  (1 <= Zlen (perrs dw dw') <= 5 \/ Z.odd (Zlen (perrs dw dw')) = true \/ (perrs dw dw' <> [] /\ exists k, forall e, In e (perrs dw dw') -> k <= e < k + 24)) ->
  page_crc dw' = false.
Proof. exact page_errors. Qed.
Print Assumptions C41_page_errors.

(* ---- C42.  What one Galileo message can do in any state whose row is in order, satellite 0 included. *)
Theorem C42_galileo_message : forall junk s m sv, msg_ok m -> is_gal sv m = true -> (sv <> 0 -> row_ok (n_rows s (sv - 1))) ->
  let dw := sf_dw m in let H' := l_step (row_held (n_rows s (sv - 1))) dw in
  if l_usable dw && (sv =? 0) then convertUBX junk s m = UB UB_oob_write
  else if l_usable dw && l_ready H' && l_toolate H' then convertUBX junk s m = UB UB_overflow
  else exists s' d, convertUBX junk s m = Ok (s', (if l_usable dw && l_ready H' then EvFell FN_PRINT :: map (fun c => EvEph c d) (n_ecb s) else []), Some (l_usable dw && l_ready H')) /\
    (l_usable dw && l_ready H' = true -> gal_release sv H' d) /\ n_time s' = n_time s /\
    (sv <> 0 -> row_ok (n_rows s' (sv - 1)) /\ forall k, row_held (n_rows s' (sv - 1)) k = H' k).
Proof. exact gal_message. Qed.
Print Assumptions C42_galileo_message.

(* ---- C56.  Any number of parser objects in one process: the words held for a satellite are those received by all of
   them together, and object i releases (to its own callbacks) what others received. *)
Theorem C56_shared_store : forall junk P0 sv H P ev i m, row_ok (p_rows P0 (sv - 1)) -> msgs_ok (map snd H) -> msg_ok m -> is_gal sv m = true -> sv <> 0 ->
  proc_run junk P0 H = Ok (P, ev) ->
  let H' := l_step (l_hist sv (row_held (p_rows P0 (sv - 1))) (map snd H)) (sf_dw m) in
  let fires := l_usable (sf_dw m) && l_ready H' in
  (fires = true -> l_toolate H' = true -> proc_step junk P (i, NMsg m) = UB UB_overflow) /\
  (fires = false \/ l_toolate H' = false -> exists P' d,
     proc_step junk P (i, NMsg m) = Ok (P', if fires then (i, EvFell FN_PRINT) :: map (fun c => (i, EvEph c d)) (n_ecb (p_obj P i)) else []) /\
     (fires = true -> gal_release sv H' d)).
Proof. exact proc_release. Qed.
Print Assumptions C56_shared_store.

(* ---- C57.  The parser never runs into undefined behaviour (other than missing returns, which are events) on messages
   and clocks of before the end of 2037 in which no Galileo message has satellite number 0 (calm, NavSafe). *)
Theorem C57_no_undefined_behaviour_before_2038 : forall junk st h, junk_ok junk -> (forall sv, 1 <= sv <= 255 -> st (sv - 1) = repeat 0 380) ->
  (forall o, In o h -> calm o) -> exists s ev, nav_run junk (nav_init st) h = Ok (s, ev).
Proof. exact nav_safe. Qed.
Print Assumptions C57_no_undefined_behaviour_before_2038.

(* ---------------------------------------------------------------- examples: satellite 19 from src/test/test_eph.cpp *)
Definition gp (ws : list Z) : sfrbx := msg 2 19 (ws ++ [0]).
Definition p2 := [0x02129669; 0xae0bc9c4; 0x5dd9d3ba; 0xbdf34000; 0x80ff4000; 0x0000002a; 0xaaaaa8ce; 0xe73f4000; 0x00000001].
Definition p1 := [0x011291e4; 0x22f62ac5; 0x000a6328; 0xaa04c000; 0xb613c000; 0x0000002a; 0xaaaa7516; 0xd8bf4000; 0xbfe93aa9].
Definition p4 := [0x04129300; 0x08001b47; 0x93fff99d; 0x08000000; 0x83804000; 0x0000002a; 0xaaaabbfe; 0x02ff4000; 0x00000001].
Definition p3 := [0x0312bff1; 0x0f48273e; 0xe3465882; 0x703e8000; 0x88dac000; 0x0000002a; 0xaaaa6e90; 0x377f4000; 0xbfe93aa9].
Definition p6 := [0x06000000; 0x01ffffff; 0x12481e89; 0xe2484000; 0xacac8000; 0x0000002a; 0xaaaa8d8c; 0x387f4000; 0x00000001].
Definition p5 := [0x050da0ec; 0x08907cff; 0x30083c86; 0xcaea8000; 0xaaaa8000; 0x0000002a; 0xaaaa7e1f; 0x5f7f4000; 0xbfe93aa9].
Definition p0 := [0x00955555; 0x55555555; 0x55555555; 0x50790000; 0x8d960000; 0x0000002a; 0xaaaab2e8; 0x917f4000; 0x00000001].
Definition six : list nop := NEcb 7 :: map (fun w => NMsg (gp w)) [p2; p1; p4; p3; p6; p5].
(* the hypotheses of C41 hold, the rule says release, and the record is the one the project's own test expects *)
Example C41_hypotheses : row_ok (n_rows (nav_init st0) (19 - 1)) /\ msgs_ok (six ++ [NMsg (gp p0)]) /\ is_gal 19 (gp p0) = true.
Proof.
  split; [apply zero_row|]. split; [|reflexivity].
  assert (F : Forall (fun o => match o with NMsg m => msg_ok m | _ => True end) (six ++ [NMsg (gp p0)])).
  { repeat (apply Forall_cons; [first [exact I|apply words_ok; [unfold byte_ok; lia|unfold byte_ok; lia|reflexivity]]|]). apply Forall_nil. }
  intros m Hin. rewrite Forall_forall in F. exact (F _ Hin).
Qed.
Example C41_case : shown six = Some [] /\
  exists d, shown (six ++ [NMsg (gp p0)]) = Some [(FN_PRINT, [], None); (7, [19; 2; 2078; 74; 1573014018; 1573014018], Some d)].
Proof. split; [vm_compute; reflexivity|]. eexists. vm_compute. reflexivity. Qed.
Example C41_fires : l_usable (sf_dw (gp p0)) && l_ready (l_step (l_hist 19 l_none six) (sf_dw (gp p0))) = true /\
  l_toolate (l_step (l_hist 19 l_none six) (sf_dw (gp p0))) = false.
Proof. split; vm_compute; reflexivity. Qed.
(* every further valid page releases the record again, until the next word of type 2; a page with one wrong bit (bit 60 of
   the even part) or with another satellite's number does not *)
Example C41_again : option_map (map (fun x => fst (fst x))) (shown (six ++ map (fun w => NMsg (gp w)) [p0; p6; p0; p2; p0; p1])) = Some [FN_PRINT; 7; FN_PRINT; 7; FN_PRINT; 7].
Proof. vm_compute. reflexivity. Qed.
Definition p0_bad := [0x00955555; 0x5555555d; 0x55555555; 0x50790000; 0x8d960000; 0x0000002a; 0xaaaab2e8; 0x917f4000; 0x00000001].
Example C41_bad_page : shown (six ++ [NMsg (gp p0_bad)]) = Some [] /\ shown (six ++ [NMsg (msg 2 18 (p0 ++ [0]))]) = Some [] /\
  perrs (sf_dw (gp p0)) (sf_dw (gp p0_bad)) = [60] /\ page_crc (sf_dw (gp p0)) = true.
Proof. repeat split; vm_compute; reflexivity. Qed.

(* C42: satellite number 0; time stamps of GST weeks 2526 and 2527 (January 2048) with everything else zero *)
Definition stuck (h : list nop) : option ubkind := match nav_run junk0 (nav_init st0) h with UB k => Some k | Ok _ => None end.
Definition at_week (ws : list Z) : list nop := map (fun w => NMsg (msg 2 21 w)) (firstn 1 gal_pages ++ skipn 2 gal_pages ++ [ws]).
Example C42_cases : stuck [NMsg (msg 2 0 (p0 ++ [0]))] = Some UB_oob_write /\ stuck [NMsg (msg 2 255 (p0 ++ [0]))] = None /\
  stuck (at_week [8388608; 0; 0; 662175744; 2147483648; 0; 7779; 3443523584; 0; 0]) = None /\
  stuck (at_week [8388608; 0; 0; 662437888; 2147483648; 0; 12456; 398458880; 0; 0]) = Some UB_overflow.
Proof. repeat split; vm_compute; reflexivity. Qed.

(* C56: object 0 receives six pages, object 1 the seventh; object 1 delivers *)
Definition proc0 : proc := mkProc st0 (fun _ => nav_init st0).
Definition two_objects : list (nat * nop) := (1%nat, NEcb 8) :: map (fun w => (0%nat, NMsg (gp w))) [p2; p1; p4; p3; p6; p5].
Example C56_case : match proc_run junk0 proc0 (two_objects ++ [(1%nat, NMsg (gp p0))]) with
  Ok (_, ev) => map (fun x => (fst x, fst (show (snd x)))) ev = [(1%nat, (FN_PRINT, [])); (1%nat, (8, [19; 2; 2078; 74; 1573014018; 1573014018]))] | UB _ => False end.
Proof. vm_compute. reflexivity. Qed.
(* C57: the messages above are calm *)
Example C57_hypotheses : forall o, In o ([NEcb 7; NMsg sf1m; NTime (mkUtc 1573014000 0); NMsg sf2m; NMsg (gp p0); NMsg (gp p1); NMsg sf3m]) -> calm o.
Proof.
  assert (W : forall g sv ws, 0 <= g < 256 -> 0 <= sv < 256 -> length ws = 10%nat -> msg_ok (msg g sv ws)) by (intros; apply words_ok; assumption).
  apply Forall_forall. repeat (apply Forall_cons); try apply Forall_nil; cbn [calm]; try exact I.
  - split; [apply W; [lia|lia|reflexivity]|]. split; [intros _ _; vm_compute; congruence|intros X; vm_compute in X; congruence].
  - unfold normal. cbn [sec nsec]. lia.
  - split; [apply W; [lia|lia|reflexivity]|]. split; [intros _ X; vm_compute in X; congruence|intros X; vm_compute in X; congruence].
  - split; [apply W; [lia|lia|reflexivity]|]. split; [intros X; vm_compute in X; congruence|]. intros _. split; [vm_compute; congruence|intros _ _; vm_compute; congruence].
  - split; [apply W; [lia|lia|reflexivity]|]. split; [intros X; vm_compute in X; congruence|]. intros _. split; [vm_compute; congruence|intros _ X; vm_compute in X; congruence].
  - split; [apply W; [lia|lia|reflexivity]|]. split; [intros _ X; vm_compute in X; congruence|intros X; vm_compute in X; congruence].
Qed.
