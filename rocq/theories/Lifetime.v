(* Who may be destroyed when.  Serial interfaces keep plain pointers to their listeners and a callback that captures a UBLOX object;
   UBLOX objects keep a pointer to the correction interface and a reference to their port.  Nothing in the library removes any of them:
     SerialInterface::add_listener / add_callback   include/UBLOX/serial_interface.h:19-20   (there is no remove)
     UBLOX::UBLOX          src/ublox.cpp:29-48   registers `this` with the port before anything can throw
     UBLOX::config_base    src/ublox.cpp:60-67   rtk_interface_ = interface; rtcm_.registerListener(this)
     UBLOX::config_rover   src/ublox.cpp:89-112  rtk_interface_ = interface; interface->add_callback([this] ...)
     UBLOX::~UBLOX         src/ublox.cpp:114-118 closes log_file_, unregisters nothing
     receive_callback      include/UBLOX/async_comm_adapter.h:27-35, 52-60   callback first, then every listener
     UBLOX::got_rtcm       src/ublox.cpp:141-148
   Simplifications: identities are never reused; one received buffer is one step; which frames an object completes from a buffer
   (C45, C47) is given with the event. *)
From Coq Require Import ZArith List Lia Bool.
Import ListNotations.
Open Scope Z_scope.

Record obj := mkObj { o_port : Z; o_base : bool; o_rtk : Z; o_nreg : nat }.   (* ser_, type_ == BASE, rtk_interface_, RTCM registrations *)
Record ifc := mkIfc { i_ls : list Z; i_cb : option Z }.                        (* listeners_, cb_ (the object it captures) *)
Record world := mkWorld { w_obj : Z -> option obj; w_ifc : Z -> option ifc }.  (* None: not constructed, or destroyed *)
Definition empty_world : world := mkWorld (fun _ => None) (fun _ => None).
Definition upd {A} (m : Z -> A) (k : Z) (a : A) : Z -> A := fun x => if x =? k then a else m x.

Inductive ev :=
| NewI (i : Z) | DelI (i : Z)                     (* an interface object is constructed / destroyed *)
| New (o i : Z) (ok : bool)                       (* UBLOX o(i); ok = false: the constructor threw *)
| Del (o : Z)
| Base (o i : Z) | Rover (o i : Z)                (* o.config_base(&i), o.config_rover(&i) *)
| Recv (i : Z) (buf : list Z) (fr : Z -> list (list Z)).   (* i receives buf; object o completes the RTCM frames fr o from it *)
Inductive eff := Read (o : Z) (buf : list Z) | Write (i : Z) (buf : list Z).  (* read_cb called on o; interface i asked to write *)
Inductive res := Ran (w : world) (es : list eff) | Dangling.

(* UBLOX::got_rtcm ublox.cpp:141-148: rtk_interface_->write(f) for every completed frame, once per registration *)
Fixpoint forward (w : world) (i : Z) (fs : list (list Z)) : option (list eff) :=
  match fs with
  | [] => Some []
  | f :: r => match w_ifc w i, forward w i r with Some _, Some es => Some (Write i f :: es) | _, _ => None end
  end.
(* async_comm_adapter.h:31-34, 56-59: for (auto& l : listeners_) l->read_cb(buf, size) *)
Fixpoint deliver (w : world) (buf : list Z) (fr : Z -> list (list Z)) (ls : list Z) : option (list eff) :=
  match ls with
  | [] => Some []
  | o :: r =>
      match w_obj w o with
      | None => None
      | Some b =>
          let fs := if o_base b then flat_map (fun f => repeat f (o_nreg b)) (fr o) else [] in
          match forward w (o_rtk b) fs, deliver w buf fr r with Some e1, Some e2 => Some (Read o buf :: e1 ++ e2) | _, _ => None end
      end
  end.
(* async_comm_adapter.h:29-30, 54-55 and ublox.cpp:107-111: if (cb_) cb_(buf, size): this->ser_.write(buf, size) *)
Definition callback (w : world) (buf : list Z) (cb : option Z) : option (list eff) :=
  match cb with
  | None => Some []
  | Some o => match w_obj w o with
              | None => None
              | Some b => match w_ifc w (o_port b) with None => None | Some _ => Some [Write (o_port b) buf] end
              end
  end.
(* the functions listed in the first comment *)
Definition step (w : world) (e : ev) : res :=
  match e with
  | NewI i => Ran (mkWorld (w_obj w) (upd (w_ifc w) i (Some (mkIfc [] None)))) []
  | DelI i => Ran (mkWorld (w_obj w) (upd (w_ifc w) i None)) []
  | New o i ok =>
      match w_ifc w i with
      | None => Dangling
      | Some f => Ran (mkWorld (upd (w_obj w) o (if ok then Some (mkObj i false 0 0) else None))
                               (upd (w_ifc w) i (Some (mkIfc (i_ls f ++ [o]) (i_cb f))))) []
      end
  | Del o => Ran (mkWorld (upd (w_obj w) o None) (w_ifc w)) []
  | Base o i =>
      match w_obj w o with
      | None => Dangling
      | Some b => match w_ifc w (o_port b) with None => Dangling | Some _ =>
                    Ran (mkWorld (upd (w_obj w) o (Some (mkObj (o_port b) true i (S (o_nreg b))))) (w_ifc w)) [] end
      end
  | Rover o i =>
      match w_obj w o, w_ifc w i with
      | Some b, Some f => match w_ifc w (o_port b) with None => Dangling | Some _ =>
                    Ran (mkWorld (upd (w_obj w) o (Some (mkObj (o_port b) false i (o_nreg b))))
                                 (upd (w_ifc w) i (Some (mkIfc (i_ls f) (Some o))))) [] end
      | _, _ => Dangling
      end
  | Recv i buf fr =>
      match w_ifc w i with
      | None => Dangling
      | Some f => match callback w buf (i_cb f), deliver w buf fr (i_ls f) with
                  | Some e1, Some e2 => Ran w (e1 ++ e2) | _, _ => Dangling end
      end
  end.
Fixpoint exec (w : world) (h : list ev) : res :=
  match h with
  | [] => Ran w []
  | e :: r => match step w e with
              | Dangling => Dangling
              | Ran w1 e1 => match exec w1 r with Ran w2 e2 => Ran w2 (e1 ++ e2) | Dangling => Dangling end
              end
  end.

(* ---------------------------------------------------------------- specification: read off the history *)
(* the client constructs everything once, and only uses what it has constructed and not destroyed (Recv: a destroyed interface
   has no receive thread any more) *)
Definition alive_i (h : list ev) (i : Z) : Prop := In (NewI i) h /\ ~ In (DelI i) h.
Definition alive_o (h : list ev) (o : Z) : Prop := (exists i, In (New o i true) h) /\ ~ In (Del o) h.
Definition uses_ok (h : list ev) (e : ev) : Prop :=
  match e with
  | NewI i => ~ In (NewI i) h
  | DelI i => alive_i h i
  | New o i _ => alive_i h i /\ forall j b, ~ In (New o j b) h
  | Del o => alive_o h o
  | Base o i => alive_o h o /\ alive_i h i /\ forall p b, In (New o p b) h -> alive_i h p
  | Rover o i => alive_o h o /\ alive_i h i /\ forall p b, In (New o p b) h -> alive_i h p
  | Recv i _ _ => alive_i h i
  end.
Definition client_ok (h : list ev) : Prop := forall h1 e h2, h = h1 ++ e :: h2 -> uses_ok h1 e.

(* objects ever constructed on interface i, in order; the object last made a rover on interface i *)
Definition attached (h : list ev) (i : Z) : list Z :=
  flat_map (fun e => match e with New o j _ => if j =? i then [o] else [] | _ => [] end) h.
Definition last_rover (h : list ev) (i : Z) : option Z :=
  fold_left (fun a e => match e with Rover o j => if j =? i then Some o else a | _ => a end) h None.
(* port, mode, correction interface and number of config_base calls of object o *)
Definition port_of (h : list ev) (o : Z) : Z :=
  fold_left (fun a e => match e with New o' i _ => if o' =? o then i else a | _ => a end) h 0.
Definition is_base (h : list ev) (o : Z) : bool :=
  fold_left (fun a e => match e with New o' _ _ => if o' =? o then false else a | Base o' _ => if o' =? o then true else a | Rover o' _ => if o' =? o then false else a | _ => a end) h false.
Definition rtk_at (h : list ev) (o : Z) : Z :=
  fold_left (fun a e => match e with New o' _ _ => if o' =? o then 0 else a | Base o' i => if o' =? o then i else a | Rover o' i => if o' =? o then i else a | _ => a end) h 0.
Definition bases (h : list ev) (o : Z) : nat :=
  fold_left (fun a e => match e with New o' _ _ => if o' =? o then O else a | Base o' _ => if o' =? o then S a else a | _ => a end) h O.
(* everything a received buffer reaches is alive *)
Definition safe_recv (h : list ev) (i : Z) (fr : Z -> list (list Z)) : Prop :=
  (forall o, In o (attached h i) -> alive_o h o) /\
  (forall o, last_rover h i = Some o -> alive_o h o /\ alive_i h (port_of h o)) /\
  (forall o, In o (attached h i) -> is_base h o = true -> fr o <> [] -> alive_i h (rtk_at h o)).
(* what a received buffer then causes *)
Definition recv_effects (h : list ev) (i : Z) (buf : list Z) (fr : Z -> list (list Z)) : list eff :=
  match last_rover h i with None => [] | Some o => [Write (port_of h o) buf] end ++
  flat_map (fun o => Read o buf :: if is_base h o then flat_map (fun f => repeat (Write (rtk_at h o) f) (bases h o)) (fr o) else []) (attached h i).

(* ---------------------------------------------------------------- proofs *)
Definition Rel (h : list ev) (w : world) : Prop :=
  (forall o b, w_obj w o = Some b <-> alive_o h o /\ b = mkObj (port_of h o) (is_base h o) (rtk_at h o) (bases h o)) /\
  (forall i f, w_ifc w i = Some f <-> alive_i h i /\ f = mkIfc (attached h i) (last_rover h i)).

Lemma in_snoc (h : list ev) e x : In x (h ++ [e]) <-> In x h \/ x = e.
Proof. rewrite in_app_iff. cbn. intuition congruence. Qed.
Lemma client_prefix h e : client_ok (h ++ [e]) -> client_ok h /\ uses_ok h e.
Proof.
  intros H. split.
  - intros h1 x h2 E. apply (H h1 x (h2 ++ [e])). rewrite E, <- app_assoc. reflexivity.
  - apply (H h e []). reflexivity.
Qed.
Lemma client_in h x : client_ok h -> In x h -> exists h1 h2, h = h1 ++ x :: h2 /\ uses_ok h1 x.
Proof. intros HC HI. apply in_split in HI. destruct HI as (h1 & h2 & E). exists h1, h2. split; [exact E|]. apply (HC h1 x h2 E). Qed.
Lemma in_pre (h1 h2 : list ev) x y : In y h1 -> In y (h1 ++ x :: h2).
Proof. intros H. apply in_or_app. left. exact H. Qed.
(* nothing happens to an interface or object before it is constructed *)
Lemma fresh_i h i : client_ok h -> ~ In (NewI i) h -> ~ In (DelI i) h /\ (forall o b, ~ In (New o i b) h) /\ (forall o, ~ In (Rover o i) h).
Proof.
  intros HC HN. repeat split.
  - intros HI. destruct (client_in h _ HC HI) as (h1 & h2 & -> & HU). apply HN, in_pre. exact (proj1 HU).
  - intros o b HI. destruct (client_in h _ HC HI) as (h1 & h2 & -> & HU). apply HN, in_pre. exact (proj1 (proj1 HU)).
  - intros o HI. destruct (client_in h _ HC HI) as (h1 & h2 & -> & HU). apply HN, in_pre. exact (proj1 (proj1 (proj2 HU))).
Qed.
Lemma fresh_o h o : client_ok h -> (forall j b, ~ In (New o j b) h) -> ~ In (Del o) h.
Proof.
  intros HC HN HI. destruct (client_in h _ HC HI) as (h1 & h2 & -> & HU). destruct HU as [(i & HI') _]. apply (HN i true), in_pre. exact HI'.
Qed.
Lemma attached_in h i o : In o (attached h i) <-> exists b, In (New o i b) h.
Proof.
  unfold attached. rewrite in_flat_map. split.
  - intros (e & He & Ho). destruct e; try (destruct Ho). destruct (Z.eqb_spec i0 i) as [->|]; [|destruct Ho]. destruct Ho as [->|[]]. eauto.
  - intros (b & Hb). exists (New o i b). split; [exact Hb|]. rewrite Z.eqb_refl. left. reflexivity.
Qed.
Lemma attached_none h i : (forall o b, ~ In (New o i b) h) -> attached h i = [].
Proof.
  intros H. destruct (attached h i) as [|o l] eqn:E; [reflexivity|]. exfalso.
  assert (HI : In o (attached h i)) by (rewrite E; left; reflexivity). apply attached_in in HI. destruct HI as (b & Hb). exact (H o b Hb).
Qed.
Lemma last_rover_in h i o : last_rover h i = Some o -> In (Rover o i) h.
Proof.
  unfold last_rover. induction h as [|e h IH] using rev_ind; [discriminate|]. rewrite fold_left_app. cbn [fold_left]. intros H. apply in_snoc.
  destruct e; try (left; apply IH; exact H). destruct (Z.eqb_spec i0 i) as [->|]; [right; congruence|left; apply IH; exact H].
Qed.
Lemma last_rover_none h i : (forall o, ~ In (Rover o i) h) -> last_rover h i = None.
Proof. intros H. destruct (last_rover h i) as [o|] eqn:E; [|reflexivity]. exfalso. exact (H o (last_rover_in h i o E)). Qed.

(* the readings of the history, event by event *)
Lemma readings h e o i :
  port_of (h ++ [e]) o = match e with New o' i _ => if o' =? o then i else port_of h o | _ => port_of h o end /\
  is_base (h ++ [e]) o = match e with New o' _ _ => if o' =? o then false else is_base h o | Base o' _ => if o' =? o then true else is_base h o
                          | Rover o' _ => if o' =? o then false else is_base h o | _ => is_base h o end /\
  rtk_at (h ++ [e]) o = match e with New o' _ _ => if o' =? o then 0 else rtk_at h o | Base o' i => if o' =? o then i else rtk_at h o
                          | Rover o' i => if o' =? o then i else rtk_at h o | _ => rtk_at h o end /\
  bases (h ++ [e]) o = match e with New o' _ _ => if o' =? o then O else bases h o | Base o' _ => if o' =? o then S (bases h o) else bases h o | _ => bases h o end /\
  attached (h ++ [e]) i = attached h i ++ match e with New o j _ => if j =? i then [o] else [] | _ => [] end /\
  last_rover (h ++ [e]) i = match e with Rover o j => if j =? i then Some o else last_rover h i | _ => last_rover h i end.
Proof.
  unfold port_of, is_base, rtk_at, bases, attached, last_rover. rewrite !fold_left_app, flat_map_app. cbn [fold_left flat_map]. rewrite app_nil_r.
  repeat split; destruct e; reflexivity.
Qed.
Lemma alive_o_snoc h e o : alive_o (h ++ [e]) o <-> ((exists i, In (New o i true) h) \/ exists i, e = New o i true) /\ ~ In (Del o) h /\ e <> Del o.
Proof.
  unfold alive_o. rewrite in_snoc. split.
  - intros [(i & Hi) HD]. apply in_snoc in Hi. split; [destruct Hi as [Hi|Hi]; [left|right; exists i; congruence]; eauto|]. split; [tauto|]. intros ->. apply HD. right. reflexivity.
  - intros ([(i & Hi)|(i & ->)] & HD & HE); (split; [exists i; apply in_snoc; tauto|]); intros [H|H]; [tauto|congruence|tauto|congruence].
Qed.
Lemma alive_i_snoc h e i : alive_i (h ++ [e]) i <-> (In (NewI i) h \/ e = NewI i) /\ ~ In (DelI i) h /\ e <> DelI i.
Proof. unfold alive_i. rewrite !in_snoc. intuition congruence. Qed.

Lemma rel_obj h w o : Rel h w -> alive_o h o -> w_obj w o = Some (mkObj (port_of h o) (is_base h o) (rtk_at h o) (bases h o)).
Proof. intros [H _] HA. apply H. split; [exact HA|reflexivity]. Qed.
Lemma rel_ifc h w i : Rel h w -> alive_i h i -> w_ifc w i = Some (mkIfc (attached h i) (last_rover h i)).
Proof. intros [_ H] HA. apply H. split; [exact HA|reflexivity]. Qed.
Lemma rel_obj_none h w o : Rel h w -> w_obj w o = None -> ~ alive_o h o.
Proof. intros HR HN HA. rewrite (rel_obj h w o HR HA) in HN. discriminate. Qed.
Lemma rel_ifc_none h w o : Rel h w -> w_ifc w o = None -> ~ alive_i h o.
Proof. intros HR HN HA. rewrite (rel_ifc h w o HR HA) in HN. discriminate. Qed.

(* the port of an object that was constructed *)
Lemma port_new h o i b : client_ok h -> In (New o i b) h -> port_of h o = i.
Proof.
  induction h as [|e h IH] using rev_ind; intros HC HI; [destruct HI|]. apply client_prefix in HC. destruct HC as [HC HU].
  destruct (readings h e o 0) as (-> & _). apply in_snoc in HI. destruct HI as [HI|<-].
  - specialize (IH HC HI). destruct e; try exact IH. destruct (Z.eqb_spec o0 o) as [->|]; [|exact IH].
    exfalso. exact (proj2 HU i b HI).
  - rewrite Z.eqb_refl. reflexivity.
Qed.

Definition is_recv (e : ev) : bool := match e with Recv _ _ _ => true | _ => false end.
Ltac rd h e o i := destruct (readings h e o i) as (->&->&->&->&->&->).
Lemma rel_step h w e : client_ok (h ++ [e]) -> Rel h w -> is_recv e = false -> exists w', step w e = Ran w' [] /\ Rel (h ++ [e]) w'.
Proof.
  intros HC HR HE. apply client_prefix in HC. destruct HC as [HC HU]. destruct e as [i|i|o i ok|o|o i|o i|i bf fr]; try discriminate HE; clear HE; cbn [step].
  - (* NewI *) eexists. split; [reflexivity|]. destruct HR as [RO RI]. cbn in HU. destruct (fresh_i h i HC HU) as (F1 & F2 & F3). split.
    + intros o b. cbn [w_obj]. rewrite RO, alive_o_snoc. destruct (readings h (NewI i) o 0) as (->&->&->&->&_). unfold alive_o.
      split; intros [H1 H2]; (split; [|exact H2]); intuition (try congruence); match goal with H : exists _, _ = _ |- _ => destruct H; discriminate end.
    + intros j f. cbn [w_ifc]. unfold upd. rewrite alive_i_snoc. destruct (readings h (NewI i) 0 j) as (_&_&_&_&->&->). rewrite app_nil_r.
      destruct (Z.eqb_spec j i) as [->|HN].
      * rewrite (attached_none h i F2), (last_rover_none h i F3). split; [intros H; assert (f = mkIfc [] None) as -> by congruence; repeat split; [right; reflexivity|exact F1|discriminate]|intros [_ ->]; reflexivity].
      * rewrite RI. unfold alive_i. split; intros [H1 H2]; (split; [|exact H2]); intuition congruence.
  - (* DelI *) eexists. split; [reflexivity|]. destruct HR as [RO RI]. split.
    + intros o b. cbn [w_obj]. rewrite RO, alive_o_snoc. destruct (readings h (DelI i) o 0) as (->&->&->&->&_). unfold alive_o.
      split; intros [H1 H2]; (split; [|exact H2]); intuition (try congruence); match goal with H : exists _, _ = _ |- _ => destruct H; discriminate end.
    + intros j f. cbn [w_ifc]. unfold upd. rewrite alive_i_snoc. destruct (readings h (DelI i) 0 j) as (_&_&_&_&->&->). rewrite app_nil_r.
      destruct (Z.eqb_spec j i) as [->|HN]; [split; [discriminate|intros ((_ & _ & H) & _); congruence]|].
      rewrite RI. unfold alive_i. split; intros [H1 H2]; (split; [|exact H2]); intuition congruence.
  - (* New *) destruct HU as [HI HN]. rewrite (rel_ifc h w i HR HI). cbn [i_ls i_cb]. eexists. split; [reflexivity|].
    pose proof (fresh_o h o HC HN) as HD. destruct HR as [RO RI]. split.
    + intros p b. cbn [w_obj]. unfold upd. rewrite alive_o_snoc. destruct (readings h (New o i ok) p 0) as (->&->&->&->&_). rewrite (Z.eqb_sym o p).
      destruct (Z.eqb_spec p o) as [->|HP].
      * destruct ok; [split|split].
        { intros H. assert (b = mkObj i false 0 0) as -> by congruence. split; [|reflexivity]. split; [right; exists i; reflexivity|]. split; [exact HD|discriminate]. }
        { intros [_ ->]. reflexivity. }
        { discriminate. }
        { intros (([(j & Hj)|(j & Hj)] & _) & _); [exfalso; exact (HN j true Hj)|discriminate]. }
      * rewrite RO. unfold alive_o. split; intros [H1 H2]; (split; [|exact H2]); intuition (try congruence); match goal with H : exists _, _ = _ |- _ => destruct H; congruence end.
    + intros j f. cbn [w_ifc]. unfold upd. rewrite alive_i_snoc. destruct (readings h (New o i ok) 0 j) as (_&_&_&_&->&->). rewrite (Z.eqb_sym i j).
      destruct (Z.eqb_spec j i) as [->|HJ].
      * destruct HI as [A B]. split; [intros H; assert (f = mkIfc (attached h i ++ [o]) (last_rover h i)) as -> by congruence; intuition congruence|intros [_ ->]; reflexivity].
      * rewrite app_nil_r, RI. unfold alive_i. split; intros [H1 H2]; (split; [|exact H2]); intuition congruence.
  - (* Del *) eexists. split; [reflexivity|]. destruct HR as [RO RI]. split.
    + intros p b. cbn [w_obj]. unfold upd. rewrite alive_o_snoc. destruct (readings h (Del o) p 0) as (->&->&->&->&_).
      destruct (Z.eqb_spec p o) as [->|HP]; [split; [discriminate|intros ((_ & _ & H) & _); congruence]|].
      rewrite RO. unfold alive_o. split; intros [H1 H2]; (split; [|exact H2]); intuition (try congruence); match goal with H : exists _, _ = _ |- _ => destruct H; discriminate end.
    + intros j f. cbn [w_ifc]. rewrite alive_i_snoc. destruct (readings h (Del o) 0 j) as (_&_&_&_&->&->). rewrite app_nil_r.
      rewrite RI. unfold alive_i. split; intros [H1 H2]; (split; [|exact H2]); intuition congruence.
  - (* Base *) destruct HU as (HO & HI & HP). rewrite (rel_obj h w o HR HO). cbn [o_port o_nreg].
    destruct HO as [(p & Hp) HD]. rewrite (rel_ifc h w (port_of h o) HR) by (rewrite (port_new h o p true HC Hp); exact (HP p true Hp)).
    eexists. split; [reflexivity|]. destruct HR as [RO RI]. split.
    + intros q b. cbn [w_obj]. unfold upd. rewrite alive_o_snoc. destruct (readings h (Base o i) q 0) as (->&->&->&->&_). rewrite (Z.eqb_sym o q).
      destruct (Z.eqb_spec q o) as [->|HQ].
      * split; [intros H; split; [|congruence]; split; [left; eauto|]; split; [exact HD|discriminate]|intros [_ ->]; reflexivity].
      * rewrite RO. unfold alive_o. split; intros [H1 H2]; (split; [|exact H2]); intuition (try congruence); match goal with H : exists _, _ = _ |- _ => destruct H; discriminate end.
    + intros j f. cbn [w_ifc]. rewrite alive_i_snoc. destruct (readings h (Base o i) 0 j) as (_&_&_&_&->&->). rewrite app_nil_r.
      rewrite RI. unfold alive_i. split; intros [H1 H2]; (split; [|exact H2]); intuition congruence.
  - (* Rover *) destruct HU as (HO & HI & HP). rewrite (rel_obj h w o HR HO), (rel_ifc h w i HR HI). cbn [o_port o_nreg i_ls].
    destruct HO as [(p & Hp) HD]. rewrite (rel_ifc h w (port_of h o) HR) by (rewrite (port_new h o p true HC Hp); exact (HP p true Hp)).
    eexists. split; [reflexivity|]. destruct HR as [RO RI]. split.
    + intros q b. cbn [w_obj]. unfold upd. rewrite alive_o_snoc. destruct (readings h (Rover o i) q 0) as (->&->&->&->&_). rewrite (Z.eqb_sym o q).
      destruct (Z.eqb_spec q o) as [->|HQ].
      * split; [intros H; split; [|congruence]; split; [left; eauto|]; split; [exact HD|discriminate]|intros [_ ->]; reflexivity].
      * rewrite RO. unfold alive_o. split; intros [H1 H2]; (split; [|exact H2]); intuition (try congruence); match goal with H : exists _, _ = _ |- _ => destruct H; discriminate end.
    + intros j f. cbn [w_ifc]. unfold upd. rewrite alive_i_snoc. destruct (readings h (Rover o i) 0 j) as (_&_&_&_&->&->). rewrite app_nil_r, (Z.eqb_sym i j).
      destruct (Z.eqb_spec j i) as [->|HJ].
      * destruct HI as [A B]. split; [intros H; assert (f = mkIfc (attached h i) (Some o)) as -> by congruence; intuition congruence|intros [_ ->]; reflexivity].
      * rewrite RI. unfold alive_i. split; intros [H1 H2]; (split; [|exact H2]); intuition congruence.
Qed.
Lemma rel_recv h w i bf fr : Rel h w -> Rel (h ++ [Recv i bf fr]) w.
Proof.
  intros [RO RI]. split.
  - intros o b. rewrite RO, alive_o_snoc. destruct (readings h (Recv i bf fr) o 0) as (->&->&->&->&_). unfold alive_o.
    split; intros [H1 H2]; (split; [|exact H2]); intuition (try congruence); match goal with H : exists _, _ = _ |- _ => destruct H; discriminate end.
  - intros j f. rewrite RI, alive_i_snoc. destruct (readings h (Recv i bf fr) 0 j) as (_&_&_&_&->&->). rewrite app_nil_r. unfold alive_i.
    split; intros [H1 H2]; (split; [|exact H2]); intuition congruence.
Qed.
Lemma forward_ok w i fs : (fs <> [] -> w_ifc w i <> None) -> forward w i fs = Some (map (Write i) fs).
Proof.
  induction fs as [|f fs IH]; intros H; [reflexivity|]. cbn [forward map]. destruct (w_ifc w i) as [x|] eqn:E; [|exfalso; apply H; [discriminate|reflexivity]].
  rewrite IH; [reflexivity|]. intros _. discriminate.
Qed.
Lemma forward_some w i fs es : forward w i fs = Some es -> fs <> [] -> w_ifc w i <> None.
Proof. destruct fs as [|f fs]; [congruence|]. cbn [forward]. destruct (w_ifc w i); [discriminate|discriminate]. Qed.
Lemma map_repeat {A B} (g : A -> B) a n : map g (repeat a n) = repeat (g a) n.
Proof. induction n; cbn; congruence. Qed.
Lemma fan_map i n fs : map (Write i) (flat_map (fun f => repeat f n) fs) = flat_map (fun f => repeat (Write i f) n) fs.
Proof. induction fs as [|f fs IH]; [reflexivity|]. cbn [flat_map]. rewrite map_app, IH, map_repeat. reflexivity. Qed.

(* the number of registrations of an object in base mode is positive *)
Lemma base_pos h o : is_base h o = true -> (1 <= bases h o)%nat.
Proof.
  induction h as [|e h IH] using rev_ind; [discriminate|]. destruct (readings h e o 0) as (_ & -> & _ & -> & _).
  destruct e as [?|?|a ? ?|?|a ?|a ?|? ? ?]; try exact IH; destruct (a =? o); try exact IH; try discriminate; lia.
Qed.
Lemma fan_nil n (fs : list (list Z)) : (1 <= n)%nat -> fs <> [] -> flat_map (fun f => repeat f n) fs <> [].
Proof. destruct fs as [|f fs]; [congruence|]. destruct n; [lia|]. discriminate. Qed.
Lemma deliver_spec h w bf fr ls : Rel h w ->
  (deliver w bf fr ls <> None <-> (forall o, In o ls -> alive_o h o /\ (is_base h o = true -> fr o <> [] -> alive_i h (rtk_at h o)))) /\
  (deliver w bf fr ls <> None -> deliver w bf fr ls = Some (flat_map (fun o => Read o bf :: if is_base h o then flat_map (fun f => repeat (Write (rtk_at h o) f) (bases h o)) (fr o) else []) ls)).
Proof.
  intros HR. induction ls as [|o ls [IH1 IH2]].
  - split; [split; [intros _ o []|discriminate]|reflexivity].
  - cbn [deliver flat_map]. destruct (w_obj w o) as [b|] eqn:EO.
    2:{ split; [split; [congruence|]|congruence]. intros H. exfalso. apply (rel_obj_none h w o HR EO). apply (H o). left. reflexivity. }
    pose proof (proj1 (proj1 HR o b) EO) as [HA ->]. cbn [o_base o_nreg o_rtk].
    set (fs := if is_base h o then flat_map (fun f => repeat f (bases h o)) (fr o) else []).
    assert (EF : map (Write (rtk_at h o)) fs = if is_base h o then flat_map (fun f => repeat (Write (rtk_at h o) f) (bases h o)) (fr o) else []).
    { unfold fs. destruct (is_base h o); [apply fan_map|reflexivity]. }
    assert (HF : (fs <> [] -> w_ifc w (rtk_at h o) <> None) <-> (is_base h o = true -> fr o <> [] -> alive_i h (rtk_at h o))).
    { unfold fs. split.
      - intros H HB HN. rewrite HB in H. specialize (H (fan_nil _ _ (base_pos h o HB) HN)). destruct (w_ifc w (rtk_at h o)) as [f|] eqn:E; [|congruence].
        apply (proj2 HR) in E. apply E.
      - intros H HN. destruct (is_base h o); [|congruence]. rewrite (rel_ifc h w (rtk_at h o) HR); [discriminate|]. apply H; [reflexivity|]. intros E. rewrite E in HN. apply HN. reflexivity. }
    destruct (forward w (rtk_at h o) fs) as [e1|] eqn:E1.
    + pose proof (proj1 HF (forward_some _ _ _ _ E1)) as HA1.
      rewrite forward_ok in E1 by (intros HN; apply (forward_some _ _ _ _ E1 HN)). assert (e1 = map (Write (rtk_at h o)) fs) as -> by congruence.
      destruct (deliver w bf fr ls) as [e2|] eqn:E2.
      * split; [|intros _; rewrite EF in *; assert (HX : Some e2 <> None) by discriminate; specialize (IH2 HX); cbn [app]; congruence].
        split; [|discriminate]. intros _ p [<-|Hp]; [split; assumption|]. apply (proj1 IH1); [discriminate|exact Hp].
      * split; [|congruence]. split; [congruence|]. intros H. apply (proj2 IH1). intros p Hp. apply H. right. exact Hp.
    + split; [|congruence]. split; [congruence|]. intros H. exfalso. destruct (H o) as [_ H2]; [left; reflexivity|].
      rewrite (forward_ok w (rtk_at h o) fs (proj2 HF H2)) in E1. discriminate.
Qed.
Lemma callback_spec h w bf cb : Rel h w ->
  (callback w bf cb <> None <-> forall o, cb = Some o -> alive_o h o /\ alive_i h (port_of h o)) /\
  (callback w bf cb <> None -> callback w bf cb = Some (match cb with None => [] | Some o => [Write (port_of h o) bf] end)).
Proof.
  intros HR. destruct cb as [o|]; cbn [callback]; [|split; [split; [discriminate|discriminate]|reflexivity]].
  destruct (w_obj w o) as [b|] eqn:EO.
  - pose proof (proj1 (proj1 HR o b) EO) as [HA ->]. cbn [o_port]. destruct (w_ifc w (port_of h o)) as [f|] eqn:EI.
    + split; [split; [|discriminate]|reflexivity]. intros _ p HP. assert (p = o) as -> by congruence. split; [exact HA|]. apply (proj2 HR) in EI. apply EI.
    + split; [split; [congruence|]|congruence]. intros H. exfalso. apply (rel_ifc_none h w _ HR EI). apply (H o eq_refl).
  - split; [split; [congruence|]|congruence]. intros H. exfalso. apply (rel_obj_none h w _ HR EO). apply (H o eq_refl).
Qed.
Lemma recv_step h w i bf fr : Rel h w -> alive_i h i ->
  (safe_recv h i fr -> step w (Recv i bf fr) = Ran w (recv_effects h i bf fr)) /\
  (~ safe_recv h i fr -> step w (Recv i bf fr) = Dangling).
Proof.
  intros HR HI. cbn [step]. rewrite (rel_ifc h w i HR HI). cbn [i_cb i_ls].
  destruct (callback_spec h w bf (last_rover h i) HR) as [C1 C2]. destruct (deliver_spec h w bf fr (attached h i) HR) as [D1 D2].
  split.
  - intros (S1 & S2 & S3). rewrite C2, D2; [reflexivity| |].
    + apply D1. intros o Ho. split; [apply S1; exact Ho|]. intros HB HF. apply (S3 o Ho HB HF).
    + apply C1. exact S2.
  - intros HS. destruct (callback w bf (last_rover h i)) as [e1|]; [|reflexivity]. destruct (deliver w bf fr (attached h i)) as [e2|]; [|reflexivity].
    exfalso. apply HS. split; [|split].
    + intros o Ho. apply (proj1 D1); [discriminate|exact Ho].
    + apply C1. discriminate.
    + intros o Ho. apply (proj1 D1); [discriminate|exact Ho].
Qed.
Lemma exec_snoc h e : forall w, exec w (h ++ [e]) = match exec w h with Dangling => Dangling | Ran w1 e1 => match step w1 e with Dangling => Dangling | Ran w2 e2 => Ran w2 (e1 ++ e2) end end.
Proof.
  induction h as [|x h IH]; intros w; cbn [app exec].
  - destruct (step w e) as [w1 e1|]; [rewrite app_nil_r|]; reflexivity.
  - destruct (step w x) as [w1 e1|]; [|reflexivity]. rewrite IH. destruct (exec w1 h) as [w2 e2|]; [|reflexivity].
    destruct (step w2 e) as [w3 e3|]; [rewrite app_assoc|]; reflexivity.
Qed.
Definition all_safe (h : list ev) : Prop := forall h1 i bf fr h2, h = h1 ++ Recv i bf fr :: h2 -> safe_recv h1 i fr.
(* the effects of a history *)
Inductive effects : list ev -> list eff -> Prop :=
| eff_nil : effects [] []
| eff_quiet h e es : effects h es -> is_recv e = false -> effects (h ++ [e]) es
| eff_recv h i bf fr es : effects h es -> effects (h ++ [Recv i bf fr]) (es ++ recv_effects h i bf fr).
Lemma rel_empty : Rel [] empty_world.
Proof.
  split; intros; (split; [discriminate|]).
  - intros [[(i & []) _] _].
  - intros [[[] _] _].
Qed.
Lemma safe_prefix h e : all_safe (h ++ [e]) -> all_safe h.
Proof. intros H h1 i bf fr h2 E. apply (H h1 i bf fr (h2 ++ [e])). rewrite E, <- app_assoc. reflexivity. Qed.
Lemma exec_safe h : client_ok h -> all_safe h -> exists w es, exec empty_world h = Ran w es /\ Rel h w /\ effects h es.
Proof.
  induction h as [|e h IH] using rev_ind; intros HC HS.
  - exists empty_world, []. split; [reflexivity|]. split; [exact rel_empty|constructor].
  - pose proof (client_prefix h e HC) as [HC' HU]. destruct (IH HC' (safe_prefix h e HS)) as (w & es & E & HR & HE). rewrite exec_snoc, E.
    destruct (is_recv e) eqn:ER.
    + destruct e as [?|?|? ? ?|?|? ?|? ?|i bf fr]; try discriminate ER.
      destruct (recv_step h w i bf fr HR HU) as [H1 _]. rewrite H1 by (apply (HS h i bf fr []); reflexivity).
      eexists. eexists. split; [reflexivity|]. split; [apply rel_recv; exact HR|constructor; exact HE].
    + destruct (rel_step h w e HC HR ER) as (w' & E' & HR'). rewrite E'. eexists. eexists. split; [reflexivity|]. split; [exact HR'|].
      rewrite app_nil_r. constructor; assumption.
Qed.
Lemma exec_ran h : forall w es, client_ok h -> exec empty_world h = Ran w es -> Rel h w /\ all_safe h.
Proof.
  induction h as [|e h IH] using rev_ind; intros w es HC E.
  - cbn in E. assert (w = empty_world) as -> by congruence. split; [exact rel_empty|]. intros h1 i bf fr h2 H. destruct h1; discriminate.
  - pose proof (client_prefix h e HC) as [HC' HU]. rewrite exec_snoc in E. destruct (exec empty_world h) as [w1 e1|] eqn:E1; [|discriminate].
    destruct (IH w1 e1 HC' eq_refl) as [HR HS]. destruct (step w1 e) as [w2 e2|] eqn:E2; [|discriminate]. assert (w2 = w) by congruence. subst w2.
    assert (HL : forall h1 i bf fr h2, h ++ [e] = h1 ++ Recv i bf fr :: h2 -> (forall i' bf' fr', e = Recv i' bf' fr' -> safe_recv h i' fr') -> safe_recv h1 i fr).
    { intros h1 i bf fr h2 EQ HX. destruct h2 as [|y h2 _] using rev_ind.
      - apply app_inj_tail in EQ. destruct EQ as [<- EQ]. exact (HX i bf fr EQ).
      - rewrite app_comm_cons, app_assoc in EQ. apply app_inj_tail in EQ. destruct EQ as [EQ _]. exact (HS _ _ _ _ _ EQ). }
    destruct (is_recv e) eqn:ER.
    + destruct e as [?|?|? ? ?|?|? ?|? ?|i bf fr]; try discriminate ER.
      destruct (recv_step h w1 i bf fr HR HU) as [_ H2].
      assert (HX : safe_recv h i fr).
      { (* decided by the step itself *)
        cbn [step] in E2. cbn in HU. rewrite (rel_ifc h w1 i HR HU) in E2. cbn [i_cb i_ls] in E2.
        destruct (callback_spec h w1 bf (last_rover h i) HR) as [C1 C2]. destruct (deliver_spec h w1 bf fr (attached h i) HR) as [D1 D2].
        destruct (callback w1 bf (last_rover h i)) as [x1|]; [|discriminate]. destruct (deliver w1 bf fr (attached h i)) as [x2|]; [|discriminate].
        split; [|split].
        - intros o Ho. apply (proj1 D1); [discriminate|exact Ho].
        - apply C1. discriminate.
        - intros o Ho. apply (proj1 D1); [discriminate|exact Ho]. }
      assert (w = w1) as ->.
      { cbn [step] in E2. destruct (w_ifc w1 i) as [f|]; [|discriminate]. destruct (callback w1 bf (i_cb f)); [|discriminate]. destruct (deliver w1 bf fr (i_ls f)); [congruence|discriminate]. }
      split; [apply rel_recv; exact HR|]. intros h1 i' bf' fr' h2 EQ. apply (HL _ _ _ _ _ EQ). intros i2 bf2 fr2 E3. assert (i2 = i /\ fr2 = fr) as [-> ->] by (split; congruence). exact HX.
    + destruct (rel_step h w1 e HC HR ER) as (w' & E' & HR'). rewrite E2 in E'. assert (w' = w) as -> by congruence. split; [exact HR'|].
      intros h1 i' bf' fr' h2 EQ. apply (HL _ _ _ _ _ EQ). intros i2 bf2 fr2 ->. discriminate.
Qed.
(* a history runs without touching anything destroyed exactly if every reception is safe *)
Lemma runs_iff_safe h : client_ok h -> (exists w es, exec empty_world h = Ran w es) <-> all_safe h.
Proof.
  intros HC. split.
  - intros (w & es & E). exact (proj2 (exec_ran h w es HC E)).
  - intros HS. destruct (exec_safe h HC HS) as (w & es & E & _). eauto.
Qed.
Lemma exec_app_dangling h1 h2 w : exec w h1 = Dangling -> exec w (h1 ++ h2) = Dangling.
Proof.
  revert w. induction h1 as [|e h1 IH]; intros w E; [discriminate|]. cbn [app exec] in *. destruct (step w e) as [w1 e1|]; [|reflexivity].
  destruct (exec w1 h1) as [w2 e2|] eqn:E1; [discriminate|]. rewrite (IH w1 E1). reflexivity.
Qed.
(* an object that died stays registered: the next buffer on its port reaches it *)
Lemma dead_stays h1 h2 o p b i bf fr : client_ok (h1 ++ Recv p bf fr :: h2) -> In (New o p b) h1 -> (b = false \/ In (Del o) h1) -> i = p ->
  exec empty_world (h1 ++ Recv i bf fr :: h2) = Dangling.
Proof.
  intros HC HN HD ->. destruct (exec empty_world (h1 ++ Recv p bf fr :: h2)) as [w es|] eqn:E; [|reflexivity]. exfalso.
  destruct (exec_ran _ w es HC E) as [_ HS]. specialize (HS h1 p bf fr h2 eq_refl). destruct HS as (S1 & _).
  assert (HA : alive_o h1 o) by (apply S1; apply attached_in; eauto). destruct HA as [(j & Hj) HND]. destruct HD as [->|HD]; [|contradiction].
  assert (HC1 : client_ok h1).
  { intros x1 e x2 EQ. apply (HC x1 e (x2 ++ Recv p bf fr :: h2)). rewrite EQ, <- app_assoc. reflexivity. }
  apply in_split in Hj. destruct Hj as (a1 & a2 & EQ).
  pose proof (HC1 a1 _ a2 EQ) as [_ F1].
  apply in_split in HN. destruct HN as (c1 & c2 & EQ2). pose proof (HC1 c1 _ c2 EQ2) as [_ F2].
  assert (HB : In (New o p false) (a1 ++ New o j true :: a2)) by (rewrite <- EQ, EQ2; apply in_or_app; right; left; reflexivity).
  apply in_app_or in HB. destruct HB as [HB|[HB|HB]]; [exact (F1 p false HB)|discriminate|].
  (* it was constructed a second time after a1 *)
  apply in_split in HB. destruct HB as (g1 & g2 & EG). apply (HC1 (a1 ++ New o j true :: g1) (New o p false) g2) with (j := j) (b := true).
  - rewrite EQ, EG, <- app_assoc. reflexivity.
  - apply in_or_app. right. left. reflexivity.
Qed.
