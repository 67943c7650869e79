(** The running UPF while its configuration is edited over REST: heartbeats, associations and sessions (C99). *)
From Verif Require Import Base IdTracker ResourceManager SdfParser MapOps Pfcp PfcpProps PfcpHistory PfcpReach PfcpRemove Deletion Heartbeat Lives Whole Config.
Open Scope N_scope.

(** ** Model *)

(** node_association.go:58, 62, 71: what a heartbeat task reads of config.Conf (seconds there, milliseconds here). *)
Definition hb_of (c : config) : wcfg := Wcfg (k_hb_retries c) (1000 * k_hb_timeout c) (1000 * k_hb_interval c).

(** [lv_g]: config.Conf and the logging level.  [lv_timers]: how long the timer that each heartbeat task waits for was set to run
    (node_association.go:58 and 71 read the configuration when the timer is made, not when it fires). *)
Record live := Live { lv_g : gstate; lv_w : whole; lv_timers : gmap N N }.
(** A POST to /config, or an event of the running process (an edit in the middle of the handling of a message is not modelled). *)
Inductive lev := Edits (body : option config) | Does (e : wev).

(** The configuration event [e] goes by: a timer runs for the time it was set to; all else reads config.Conf when it happens
    (node_association.go:62 when the timer has fired; pfcp_handlers.go:117, 256 when an association is made). *)
Definition seen_by (s : live) (e : wev) : wcfg :=
  let k := hb_of (gs_conf (lv_g s)) in
  match e with
  | TimerOf a | WakeOf a => let d := default 0 (lv_timers s !! a) in Wcfg (wc_retries k) d d
  | _ => k
  end.
(** node_association.go:50-76: the task, if any, that sets a timer in event [e]: that of a new association, or the one that moves. *)
Definition acting (w : whole) (e : wev) : option N :=
  match e with
  | TimerOf a | WakeOf a => Some a
  | Meets => match wh_loop w with Passing a _ => Some a | _ => None end
  | Takes _ => match wh_queue w with (a, _, _) :: _ => match wh_tasks w !! a with None => Some a | Some _ => None end | [] => None end
  | _ => None
  end.
(** node_association.go:58, 71: the timer it sets. *)
Definition set_timer (k : wcfg) (w' : whole) (a : N) (m : gmap N N) : gmap N N :=
  match wh_tasks w' !! a with
  | Some (Some (Waiting _ _, _)) => <[a := wc_timeout k]> m
  | Some (Some (Sleeping _, _)) => <[a := wc_interval k]> m
  | _ => m
  end.
(** pdr_creation_context.go:142 reads the feature from config.Conf. *)
Definition with_conf (c : config) (w : whole) : whole :=
  let x := wh_conn w in
  Whole (wh_now w) (Conn (c_assocs x) (c_dp x) (c_rm x) (live_cfg c (c_cfg x))) (wh_loop w) (wh_queue w) (wh_tasks w).

Inductive lres := LDone (s : live) (o : list wout) | LCrash | LNot.
(** rest/config.go:22-41 and the running process (Whole.v). *)
Definition lstep (ch : checks) (s : live) (t : N) (e : lev) : lres :=
  match e with
  | Edits b =>
      if t <? wh_now (lv_w s) then LNot else
      let g := snd (edit_config ch b (lv_g s)) in
      let w := lv_w s in
      LDone (Live g (with_conf (gs_conf g) (Whole t (wh_conn w) (wh_loop w) (wh_queue w) (wh_tasks w))) (lv_timers s)) []
  | Does e =>
      match wstep (seen_by s e) (lv_w s) t e with
      | WDone w o => LDone (Live (lv_g s) w (match acting (lv_w s) e with Some a => set_timer (hb_of (gs_conf (lv_g s))) w a (lv_timers s) | None => lv_timers s end)) o
      | WCrash => LCrash
      | WNot => LNot
      end
  end.
Notation llog := (list (N * lev * list wout)).
Inductive lend := LRan (s : live) (lg : llog) | LCrashed | LImpossible.
Fixpoint lrun (ch : checks) (s : live) (l : list (N * lev)) : lend :=
  match l with
  | [] => LRan s []
  | (t, e) :: r => match lstep ch s t e with
                   | LDone s1 o => match lrun ch s1 r with LRan s2 lg => LRan s2 ((t, e, o) :: lg) | x => x end
                   | LCrash => LCrashed
                   | LNot => LImpossible
                   end
  end.
(** main.go:29-113 with the validated configuration [conf]. *)
Definition lstart (conf : config) (c : conn) : live := Live (Gstate conf (k_log conf)) (wstart c) ∅.

(** ** Reading the log *)

(** The log of the process without the edits. *)
Definition seen (lg : llog) : wlog := omap (fun x => match snd (fst x) with Does e => Some (fst (fst x), e, snd x) | Edits _ => None end) lg.
Definition seen_events (l : list (N * lev)) : list (N * wev) := omap (fun x => match snd x with Does e => Some (fst x, e) | Edits _ => None end) l.
(** The configuration in force after [lg]: the body of the last edit that could be read. *)
Definition in_force (conf : config) (lg : llog) : config :=
  foldl (fun c x => match snd (fst x) with Edits (Some b) => b | _ => c end) conf lg.

Lemma omap_app {A B} (f : A -> option B) l1 l2 : omap f (l1 ++ l2) = omap f l1 ++ omap f l2.
Proof. induction l1 as [|x l1 IH]; [done|]. cbn. destruct (f x); [|exact IH]. cbn. by f_equal. Qed.
Lemma seen_app l1 l2 : seen (l1 ++ l2) = seen l1 ++ seen l2.
Proof. apply omap_app. Qed.
Lemma in_force_snoc conf lg x : in_force conf (lg ++ [x]) = match snd (fst x) with Edits (Some b) => b | _ => in_force conf lg end.
Proof. unfold in_force. rewrite foldl_app. done. Qed.

Lemma lrun_inv (J : llog -> live -> Prop) ch :
  (forall lg s t e s' o, J lg s -> lstep ch s t e = LDone s' o -> J (lg ++ [(t, e, o)]) s') ->
  forall l lg0 s s' lg, J lg0 s -> lrun ch s l = LRan s' lg -> J (lg0 ++ lg) s'.
Proof.
  intros Hs l. induction l as [|[t e] l IH]; intros lg0 s s' lg HJ H; cbn [lrun] in H.
  - injection H as <- <-. by rewrite app_nil_r.
  - destruct (lstep ch s t e) as [s1 o| |] eqn:E; [|done|done]. destruct (lrun ch s1 l) as [s2 lg2| |] eqn:E2; [|done|done].
    injection H as <- <-. change ((t, e, o) :: lg2) with ([(t, e, o)] ++ lg2). rewrite app_assoc. eapply IH; [|exact E2]. eapply Hs; [exact HJ|exact E].
Qed.
Lemma lrun_app ch l1 l2 : forall s s' lg, lrun ch s (l1 ++ l2) = LRan s' lg ->
  exists s1 lg1 lg2, lrun ch s l1 = LRan s1 lg1 /\ lrun ch s1 l2 = LRan s' lg2 /\ lg = lg1 ++ lg2.
Proof.
  induction l1 as [|[t e] l1 IH]; intros s s' lg H; [by exists s, [], lg|]. cbn [app lrun] in *.
  destruct (lstep ch s t e) as [s1 o| |] eqn:E; [|done|done]. destruct (lrun ch s1 (l1 ++ l2)) as [s2 lg2| |] eqn:E2; [|done|done].
  injection H as <- <-. destruct (IH _ _ _ E2) as (s3 & g1 & g2 & -> & H2 & ->). by exists s3, ((t, e, o) :: g1), g2.
Qed.

Lemma edit_conf ch b g : gs_conf (snd (edit_config ch b g)) = match b with Some c => c | None => gs_conf g end.
Proof. destruct b as [b|]; [|done]. destruct (edit_status ch b g) as (g' & E & Hc & _). by rewrite E. Qed.

(** *** Edits that leave the peers alone *)

(** The edit says what the configuration in force says about heartbeats and the UE address feature. *)
Definition leaves_peers (conf : config) (b : option config) : Prop :=
  forall c, b = Some c -> k_hb_retries c = k_hb_retries conf /\ k_hb_timeout c = k_hb_timeout conf /\ k_hb_interval c = k_hb_interval conf /\ k_ueip c = k_ueip conf.

Definition timed (k : wcfg) (s : live) : Prop := forall a x since, wh_tasks (lv_w s) !! a = Some (Some (x, since)) ->
  match x with Waiting _ _ => lv_timers s !! a = Some (wc_timeout k) | Sleeping _ => lv_timers s !! a = Some (wc_interval k) | Failing => True end.

Lemma timed_step k w t e w' o m : wstep k w t e = WDone w' o -> dom (wh_tasks w) = dom (c_assocs (wh_conn w)) ->
  (forall a x since, wh_tasks w !! a = Some (Some (x, since)) ->
    match x with Waiting _ _ => m !! a = Some (wc_timeout k) | Sleeping _ => m !! a = Some (wc_interval k) | Failing => True end) ->
  forall a x since, wh_tasks w' !! a = Some (Some (x, since)) ->
    match x with
    | Waiting _ _ => match acting w e with Some b => set_timer k w' b m | None => m end !! a = Some (wc_timeout k)
    | Sleeping _ => match acting w e with Some b => set_timer k w' b m | None => m end !! a = Some (wc_interval k)
    | Failing => True end.
Proof.
  intros H Hd Hm a x since Hx. destruct (decide (acting w e = Some a)) as [Ha|Ha].
  { rewrite Ha. unfold set_timer. rewrite Hx. destruct x; [by rewrite lookup_insert|by rewrite lookup_insert|done]. }
  assert (wh_tasks w !! a = Some (Some (x, since))) as Hw.
  { apply wstep_kind in H as [_ H].
    destruct H as [b q y|e l Hl|sh u b q y rest c r El Eq Eh|e l i b s since' s' bo Eb Es Hc|sh b since' c r El Eb Ep|marks vols]; cbn [wh_tasks] in Hx; try done.
    - destruct (created_now b (wh_conn w) c) eqn:Ec; [|done]. destruct (decide (a = b)) as [->|]; [|by rewrite lookup_insert_ne in Hx].
      exfalso. apply Ha. cbn [acting]. rewrite Eq. destruct (wh_tasks w !! b) as [z|] eqn:Ez; [|done]. apply elem_of_dom_2 in Ez. rewrite Hd in Ez.
      apply elem_of_dom in Ez as [? Ez]. unfold created_now in Ec. by rewrite Ez in Ec.
    - destruct (decide (a = b)) as [->|]; [|by rewrite lookup_insert_ne in Hx]. exfalso. apply Ha.
      destruct Hc as [(-> & (q & Hq & _) & _)|[(-> & _)|(-> & _)]]; cbn [acting]; [by rewrite Hq|done|done].
    - destruct (decide (a = b)) as [->|]; [by rewrite lookup_delete in Hx|by rewrite lookup_delete_ne in Hx]. }
  specialize (Hm _ _ _ Hw).
  assert (match acting w e with Some b => set_timer k w' b m | None => m end !! a = m !! a) as Hs.
  { destruct (acting w e) as [b|]; [|done]. assert (a <> b) by congruence. unfold set_timer.
    destruct (wh_tasks w' !! b) as [[[[| |] ?]|]|]; rewrite ?lookup_insert_ne by done; done. }
  rewrite Hs. done.
Qed.

Lemma wdom_step k w t e w' o : wstep k w t e = WDone w' o -> dom (wh_tasks w) = dom (c_assocs (wh_conn w)) -> dom (wh_tasks w') = dom (c_assocs (wh_conn w')).
Proof.
  intros E Hd. apply wstep_kind in E as [_ E].
  destruct E as [b q m|e l' Hl|sh u b q m rest c r El Eq Eh|e l' i b s since s' bo Eb Es Hc|sh b since c r El Eb Ep|marks vols]; cbn [wh_tasks wh_conn]; try done.
  - rewrite (handle_dom _ _ _ _ _ _ _ Eh). destruct (created_now b (wh_conn w) c); [by rewrite dom_insert_L, Hd|rewrite Hd; set_solver].
  - rewrite dom_insert_L, <- Hd. apply elem_of_dom_2 in Eb. set_solver.
  - apply prune_dom in Ep as [-> _]. by rewrite !dom_delete_L, Hd.
Qed.

(** The timers being those of [k], a step goes as under [k]. *)
Lemma seen_by_same s e k t : hb_of (gs_conf (lv_g s)) = k -> timed k s -> forall w' o, wstep (seen_by s e) (lv_w s) t e = WDone w' o -> wstep k (lv_w s) t e = WDone w' o.
Proof.
  intros Hk Ht w' o. subst k. assert (Hts : forall a i, task_step (seen_by s e) t a (wh_loop (lv_w s)) (lv_w s) i = task_step (hb_of (gs_conf (lv_g s))) t a (wh_loop (lv_w s)) (lv_w s) i).
  { intros a i. unfold task_step. by destruct e. }
  destruct e as [b q m| |sh| | |b|b|sh b| |marks vols]; try (intros H; exact H).
  - unfold wstep. destruct (t <? wh_now (lv_w s)); [done|]. intros H.
    assert (H' : (if due (lv_w s) b t (wc_timeout (seen_by s (TimerOf b))) then task_step (seen_by s (TimerOf b)) t b (wh_loop (lv_w s)) (lv_w s) Timeout else WNot) = WDone w' o) by (destruct (wh_loop (lv_w s)); exact H).
    clear H. rewrite Hts in H'. assert ((if due (lv_w s) b t (wc_timeout (hb_of (gs_conf (lv_g s)))) then task_step (hb_of (gs_conf (lv_g s))) t b (wh_loop (lv_w s)) (lv_w s) Timeout else WNot) = WDone w' o) as H.
    { destruct (due (lv_w s) b t (wc_timeout (seen_by s (TimerOf b)))) eqn:Ed; [|done]. pose proof H' as H1. apply task_step_done in H1 as (x & since & x' & bo & Hx & Es & _ & _).
      unfold due in *. rewrite Hx in *. specialize (Ht _ _ _ Hx). destruct x; [|done|done]. cbn [seen_by wc_timeout] in Ed. rewrite Ht in Ed. cbn [default from_option id] in Ed. by rewrite Ed. }
    destruct (wh_loop (lv_w s)); exact H.
  - unfold wstep. destruct (t <? wh_now (lv_w s)); [done|]. intros H.
    assert (H' : (if due (lv_w s) b t (wc_interval (seen_by s (WakeOf b))) then task_step (seen_by s (WakeOf b)) t b (wh_loop (lv_w s)) (lv_w s) Wake else WNot) = WDone w' o) by (destruct (wh_loop (lv_w s)); exact H).
    clear H. rewrite Hts in H'. assert ((if due (lv_w s) b t (wc_interval (hb_of (gs_conf (lv_g s)))) then task_step (hb_of (gs_conf (lv_g s))) t b (wh_loop (lv_w s)) (lv_w s) Wake else WNot) = WDone w' o) as H.
    { destruct (due (lv_w s) b t (wc_interval (seen_by s (WakeOf b)))) eqn:Ed; [|done]. pose proof H' as H1. apply task_step_done in H1 as (x & since & x' & bo & Hx & Es & _ & _).
      unfold due in *. rewrite Hx in *. specialize (Ht _ _ _ Hx). destruct x; [done| |done]. cbn [seen_by wc_interval] in Ed. rewrite Ht in Ed. cbn [default from_option id] in Ed. by rewrite Ed. }
    destruct (wh_loop (lv_w s)); exact H.
Qed.

Lemma wstep_conn k w t e w' o : wstep k w t e = WDone w' o ->
  (pfcp_log [(t, e, o)] = [] /\ wh_conn w' = wh_conn w) \/ (e <> Ticks /\ exists ev r, pfcp_log [(t, e, o)] = [(ev, r)] /\ step (wh_conn w) ev = Done (wh_conn w') r).
Proof.
  intros H. apply wstep_kind in H as [_ H].
  destruct H as [a q m|e l Hl|sh u a q m rest c r El Eq Eh|e l i b s since s' bo Eb Es Hc|sh b since c r El Eb Ep|marks vols]; cbn [wh_conn].
  - by left.
  - by left.
  - right. split; [done|]. exists (Recv sh a q m), r. split; [|exact Eh]. unfold pfcp_log. rewrite outs_one. unfold first_beat.
    destruct (created_now _ _ _); [|done]. by destruct (wc_timeout k =? 0).
  - left. by rewrite pfcp_beats.
  - right. split; [done|]. exists (HeartbeatFailed sh b), r. by split; [|exact Ep].
  - right. split; [done|]. exists (Traffic marks vols), None. done.
Qed.

(** ** C99: editing the configuration while peers are served *)

(** Every such run is, for the session state, the edits and what is asked of configured nodes, a run of the node of Config.v: the theorems about it hold here. *)
Definition node_log (lg : llog) : list nevent := lg ≫= fun x =>
  match snd (fst x) with
  | Edits b => [Edit b]
  | Does Ticks => [Tick]
  | Does e => (fun y => Net (fst y)) <$> pfcp_log [(fst (fst x), e, snd x)]
  end.
Lemma nrun_snoc k ip es e : forall n n1 s1 n2 s2, nrun k ip n es = Some (n1, s1) -> nstep k ip n1 e = Some (n2, s2) -> nrun k ip n (es ++ [e]) = Some (n2, s1 ++ s2).
Proof.
  induction es as [|x es IH]; intros n n1 s1 n2 s2 H Hs; cbn [nrun app] in *.
  - injection H as <- <-. rewrite Hs. by rewrite app_nil_r.
  - destruct (nstep k ip n x) as [[n3 s3]|]; [|done]. destruct (nrun k ip n3 es) as [[n4 s4]|] eqn:E; [|done]. injection H as -> <-. rewrite (IH _ _ _ _ _ E Hs). by rewrite app_assoc.
Qed.
Lemma live_conn_cfg n c : c_cfg c = c_cfg (live_conn n) -> forall o r, live_conn (Node o r c (n_g n)) = c.
Proof. intros H o r. unfold live_conn in *. cbn [n_conn n_g c_cfg] in *. destruct c as [a d rm g]. cbn [c_assocs c_dp c_rm c_cfg] in *. by subst g. Qed.
Theorem live_is_node :
  forall ch ip pool g conf c l s lg, start pool g conf = Serving c -> lrun ch (lstart conf c) l = LRan s lg ->
    exists n out, nrun ch ip (node_start conf c) (node_log lg) = Some (n, out) /\ live_conn n = wh_conn (lv_w s) /\ n_g n = lv_g s.
Proof.
  intros ch ip pool g conf c l s lg Hst H.
  refine (lrun_inv (fun lg s => exists n out, nrun ch ip (node_start conf c) (node_log lg) = Some (n, out) /\ live_conn n = wh_conn (lv_w s) /\ n_g n = lv_g s) ch _ l [] _ _ _ _ H).
  - clear. intros lg s t e s' o (n & out & HR & HC & HG) H. unfold node_log. rewrite bind_app. fold (node_log lg).
    destruct e as [b|e]; cbn [lstep] in H.
    + destruct (t <? wh_now (lv_w s)); [done|]. injection H as <- <-. eexists _, _. split; [eapply nrun_snoc; [exact HR|reflexivity]|].
      cbn [n_g lv_g lv_w with_conf wh_conn]. rewrite <- HG. split; [|done]. unfold live_conn. cbn [n_conn n_g]. rewrite <- HC. done.
    + destruct (wstep (seen_by s e) (lv_w s) t e) as [w' o'| |] eqn:E; [|done|done]. injection H as <- <-. cbn [lv_g lv_w]. cbn [mbind list_bind fst snd]. rewrite app_nil_r.
      apply wstep_conn in E as [[E1 E2]|(He & ev & r & E1 & E2)].
      * assert (e = Ticks \/ e <> Ticks) as [->|He]. { destruct e; (by left) || (by right). }
        -- eexists _, _. split; [eapply nrun_snoc; [exact HR|reflexivity]|]. by rewrite E2.
        -- exists n, out. split; [|by rewrite E2]. assert ((match e with Ticks => [Tick] | _ => (fun y => Net (fst y)) <$> pfcp_log [(t, e, o')] end) = []) as ->.
           { rewrite E1. by destruct e. } by rewrite app_nil_r.
      * assert ((match e with Ticks => [Tick] | _ => (fun y => Net (fst y)) <$> pfcp_log [(t, e, o')] end) = [Net ev]) as ->. { rewrite E1. by destruct e. }
        rewrite <- HC in E2. eexists _, _. split; [eapply nrun_snoc; [exact HR|cbn [nstep]; rewrite E2; reflexivity]|]. split; [|exact HG].
        apply live_conn_cfg. by apply step_cfg in E2.
  - exists (node_start conf c), []. split; [done|]. split; [|done]. cbn [lv_w lstart wstart wh_conn]. unfold start in Hst.
    repeat (case_match; try done); injection Hst as <-; reflexivity.
Qed.

(** Edits that say about heartbeats and the UE address feature what the configuration already says change nothing for the peers: what happens is
    what happens without them, and the theorems of Whole.v hold. *)
Theorem harmless_edits :
  forall ch pool g conf c l s lg, start pool g conf = Serving c -> lrun ch (lstart conf c) l = LRan s lg ->
    (forall t b o, (t, Edits b, o) ∈ lg -> leaves_peers conf b) ->
    exists w, wrun (hb_of conf) (wstart c) (seen_events l) = Ran w (seen lg) /\
      wh_conn w = wh_conn (lv_w s) /\ wh_loop w = wh_loop (lv_w s) /\ wh_queue w = wh_queue (lv_w s) /\ wh_tasks w = wh_tasks (lv_w s).
Proof.
  intros ch pool g conf c l s lg Hst H He.
  assert (Hc : c_assocs c = ∅ /\ g_ueip (c_cfg c) = k_ueip conf). { unfold start in Hst. repeat (case_match; try done); injection Hst as <-; done. } destruct Hc as [Hc Hu].
  assert (Hlg : lg.*1 = l).
  { clear -H. revert s lg H. generalize (lstart conf c) as s0. induction l as [|[t e] l IH]; intros s0 s lg H; cbn [lrun] in H; [by injection H as <- <-|].
    destruct (lstep ch s0 t e) as [s1 o| |]; [|done|done]. destruct (lrun ch s1 l) as [s2 lg2| |] eqn:E2; [|done|done]. injection H as <- <-. cbn. f_equal. by eapply IH. }
  assert (Hev : seen_events l = (seen lg).*1).
  { rewrite <- Hlg. clear. induction lg as [|[[t e] o] lg IH]; [done|]. cbn. destruct e; cbn; [exact IH|]. f_equal. exact IH. }
  rewrite Hev. clear Hlg Hev.
  assert (dom (wh_tasks (lv_w s)) = dom (c_assocs (wh_conn (lv_w s))) /\ ((forall t b o, (t, Edits b, o) ∈ lg -> leaves_peers conf b) ->
     exists w, wrun (hb_of conf) (wstart c) ((seen lg).*1) = Ran w (seen lg) /\ hb_of (gs_conf (lv_g s)) = hb_of conf /\ k_ueip (gs_conf (lv_g s)) = k_ueip conf /\ g_ueip (c_cfg (wh_conn (lv_w s))) = k_ueip conf /\
       timed (hb_of conf) s /\ wh_now w <= wh_now (lv_w s) /\ w = Whole (wh_now w) (wh_conn (lv_w s)) (wh_loop (lv_w s)) (wh_queue (lv_w s)) (wh_tasks (lv_w s)))) as [_ HJ].
  2:{ destruct (HJ He) as (w & HR & _ & _ & _ & _ & _ & Hw). exists w. split; [exact HR|]. rewrite Hw. done. }
  clear He. refine (lrun_inv (fun lg s => dom (wh_tasks (lv_w s)) = dom (c_assocs (wh_conn (lv_w s))) /\ ((forall t b o, (t, Edits b, o) ∈ lg -> leaves_peers conf b) ->
     exists w, wrun (hb_of conf) (wstart c) ((seen lg).*1) = Ran w (seen lg) /\ hb_of (gs_conf (lv_g s)) = hb_of conf /\ k_ueip (gs_conf (lv_g s)) = k_ueip conf /\ g_ueip (c_cfg (wh_conn (lv_w s))) = k_ueip conf /\
       timed (hb_of conf) s /\ wh_now w <= wh_now (lv_w s) /\ w = Whole (wh_now w) (wh_conn (lv_w s)) (wh_loop (lv_w s)) (wh_queue (lv_w s)) (wh_tasks (lv_w s)))) ch _ l [] _ _ _ _ H).
  - clear. intros lg s t e s' o [Hd HJ] H. rewrite seen_app. destruct e as [b|e]; cbn [lstep] in H.
    + destruct (N.ltb_spec t (wh_now (lv_w s))) as [|Ht]; [done|]. injection H as <- <-. cbn [lv_w lv_g lv_timers with_conf wh_tasks wh_conn wh_loop wh_queue wh_now c_assocs]. split; [exact Hd|].
      intros He. destruct HJ as (w & HR & Hk & Hu & Hg & Htm & Hn & Hw). { intros t' b' o' Hin. apply (He t' b' o'). apply elem_of_app. by left. }
      exists w. cbn [seen omap list_omap fst snd]. rewrite app_nil_r. split; [exact HR|]. rewrite edit_conf.
      specialize (He t b []). assert (leaves_peers conf b) as Hb by (apply He; apply elem_of_app; right; left). clear He.
      assert (hb_of (match b with Some c0 => c0 | None => gs_conf (lv_g s) end) = hb_of conf /\ k_ueip (match b with Some c0 => c0 | None => gs_conf (lv_g s) end) = k_ueip conf) as [E1 E2].
      { destruct b as [b|]; [|done]. destruct (Hb b eq_refl) as (A1 & A2 & A3 & A4). unfold hb_of. by rewrite A1, A2, A3, A4. }
      rewrite E1, E2. split; [done|]. split; [done|]. split; [exact E2|]. split; [exact Htm|]. split; [lia|]. rewrite Hw at 1. f_equal.
      unfold live_cfg. rewrite E2, <- Hg. clear. by destruct (wh_conn (lv_w s)) as [? ? ? []].
    + destruct (wstep (seen_by s e) (lv_w s) t e) as [w' o'| |] eqn:E; [|done|done]. injection H as <- <-. cbn [lv_w lv_g lv_timers].
      pose proof (wdom_step _ _ _ _ _ _ E Hd) as Hd'. split; [exact Hd'|]. intros He.
      destruct HJ as (w & HR & Hk & Hu & Hg & Htm & Hn & Hw). { intros t' b' o0 Hin. apply (He t' b' o0). apply elem_of_app. by left. } clear He.
      apply (seen_by_same s e (hb_of conf) t Hk Htm) in E. exists w'. cbn [seen omap list_omap fst snd]. rewrite fmap_app.
      assert (E' : wstep (hb_of conf) w t e = WDone w' o').
      { rewrite Hw. clear -E Hn. revert E Hn. generalize (wh_now w) as n0. destruct (lv_w s) as [n c0 l q ts]. cbn [wh_now wh_conn wh_loop wh_queue wh_tasks]. intros n0 E Hn.
        unfold wstep in *. cbn [wh_now wh_conn wh_loop wh_queue wh_tasks] in *. destruct (N.ltb_spec t n); [done|]. rewrite (proj2 (N.ltb_ge t n0)) by lia. exact E. }
      split; [|split; [exact Hk|split; [exact Hu|]]].
      * apply (wrun_join _ _ _ _ _ _ _ _ HR). cbn [fmap list_fmap wrun fst snd]. by rewrite E'.
      * assert (c_cfg (wh_conn w') = c_cfg (wh_conn (lv_w s))) as Hcfg. { apply wstep_conn in E as [[_ ->]|(_ & ev & r & _ & E)]; [done|]. by apply step_cfg in E. }
        rewrite Hcfg. split; [exact Hg|]. split; [|split; [lia|by destruct w']]. rewrite Hk. intros a x since. cbn [lv_w lv_timers]. revert a x since.
        exact (timed_step _ _ _ _ _ _ _ E Hd Htm).
  - cbn [lv_w lstart wstart wh_tasks wh_conn]. split; [by rewrite Hc, !dom_empty_L|]. intros _. exists (wstart c). done.
Qed.

(** *** No edit ends the process *)
Definition sound (w : whole) : Prop :=
  dom (wh_tasks w) = dom (c_assocs (wh_conn w)) /\ is_Some (c_rm (wh_conn w)) /\ Forall (fun x => no_crash_msg (snd x)) (wh_queue w).
Lemma sound_step k w t e : wev_fair e -> wev_safe e -> sound w -> match wstep k w t e with WDone w' _ => sound w' | WCrash => False | WNot => True end.
Proof.
  intros Hf Hm (Hd & Hrm & Hq). destruct (wstep k w t e) as [w1 o| |] eqn:E; [| |done].
  - split; [exact (wdom_step _ _ _ _ _ _ E Hd)|]. apply wstep_kind in E as [_ E]. split.
    + destruct E as [a q m|e l' Hc|sh u a q m rest c' r El Eq Eh|e l' i b s since s' bo Eb Es Hc|sh b since c' r El Eb Ep|marks vols]; cbn [wh_conn]; try done.
      * exact (step_rm (wh_conn w) (Recv sh a q m) c' r Hf Eh Hrm).
      * exact (step_rm (wh_conn w) (HeartbeatFailed sh b) c' r Hf Ep Hrm).
    + destruct E as [a q m|e l' Hc|sh u a q m rest c' r El Eq Eh|e l' i b s since s' bo Eb Es Hc|sh b since c' r El Eb Ep|marks vols]; cbn [wh_queue]; try done.
      * apply Forall_app. split; [done|]. by apply Forall_singleton.
      * rewrite Eq in Hq. by apply Forall_cons in Hq as [_ Hq].
  - unfold wstep in E. destruct (t <? wh_now w); [done|]. destruct e as [b q m| |sh| | |b|b|sh b| |marks vols].
    + by destruct (wh_loop w).
    + destruct (wh_loop w); [|done|done]. by destruct (reporting w).
    + destruct (wh_loop w); [done| |done]. destruct (wh_queue w) as [|[[b q] m] rest] eqn:Eq; [done|]. apply Forall_cons in Hq as [Hq _].
      pose proof (no_crash_partial sh b q m (wh_conn w) Hq Hrm) as Hn. by destruct (handle sh b q m (wh_conn w)).
    + destruct (wh_loop w) as [|u|]; [done| |done]. by destruct (u <=? t).
    + destruct (wh_loop w) as [| |b q]; [done|done|]. unfold task_step in E. repeat case_match; done.
    + assert (E' : (if due w b t (wc_timeout k) then task_step k t b (wh_loop w) w Timeout else WNot) = WCrash) by (destruct (wh_loop w); exact E).
      unfold task_step in E'. repeat case_match; done.
    + assert (E' : (if due w b t (wc_interval k) then task_step k t b (wh_loop w) w Wake else WNot) = WCrash) by (destruct (wh_loop w); exact E).
      unfold task_step in E'. repeat case_match; done.
    + destruct (wh_loop w); [|done|done]. destruct (wh_tasks w !! b) as [[[[| |] since]|]|] eqn:Eb; try done.
      assert (is_Some (c_assocs (wh_conn w) !! b)) as Hx. { apply elem_of_dom. rewrite <- Hd. apply elem_of_dom. by eexists. }
      pose proof (prune_safe sh b (wh_conn w) Hrm Hx) as Hn. by destruct (prune sh b (wh_conn w)).
    + by destruct (wh_loop w).
    + by destruct (wh_loop w).
Qed.
(** Whatever is edited and when, validated or not: unless a message of [no_crash_msg]'s exceptions arrives, the process goes on. *)
Theorem edits_never_crash_partial :
  forall ch pool g conf c l, start pool g conf = Serving c -> is_Some (c_rm c) ->
    Forall (fun x => match snd x with Does e => wev_fair e /\ wev_safe e | Edits _ => True end) l -> lrun ch (lstart conf c) l <> LCrashed.
Proof.
  intros ch pool g conf c l Hst Hrm Hl.
  assert (Hc : c_assocs c = ∅). { unfold start in Hst. repeat (case_match; try done); injection Hst as <-; done. }
  assert (Hgen : forall s, sound (lv_w s) -> lrun ch s l <> LCrashed).
  { clear -Hl. induction l as [|[t e] l IH]; intros s Hs; cbn [lrun]; [done|]. apply Forall_cons in Hl as [He Hl].
    assert (match lstep ch s t e with LDone s' _ => sound (lv_w s') | LCrash => False | LNot => True end) as Hstep.
    { destruct e as [b|e]; cbn [lstep]; [by destruct (t <? wh_now (lv_w s))|]. destruct He as [Hf Hm].
      pose proof (sound_step (seen_by s e) (lv_w s) t e Hf Hm Hs) as Hw. by destruct (wstep (seen_by s e) (lv_w s) t e). }
    destruct (lstep ch s t e) as [s1 o| |]; [|done|done]. specialize (IH Hl s1 Hstep). by destruct (lrun ch s1 l). }
  apply Hgen. split; [by cbn; rewrite Hc, !dom_empty_L|]. split; [exact Hrm|]. by apply Forall_nil.
Qed.

(** *** Who is given up while the configuration changes *)

Lemma beats_act k w t e w' o a : wstep k w t e = WDone w' o -> dom (wh_tasks w) = dom (c_assocs (wh_conn w)) -> beats a [(t, e, o)] <> [] -> acting w e = Some a.
Proof.
  intros H Hd Hb. apply wstep_kind in H as [_ H].
  destruct H as [b q y|e l Hl|sh u b q y rest c r El Eq Eh|e l i b s since' s' bo Eb Es Hc|sh b since' c r El Eb Ep|marks vols]; try done.
  - destruct (created_now b (wh_conn w) c) eqn:Ec; [|done]. destruct (decide (a = b)) as [->|Hab]; [|by rewrite beats_first_other in Hb].
    cbn [acting]. rewrite Eq. destruct (wh_tasks w !! b) as [z|] eqn:Ez; [|done]. apply elem_of_dom_2 in Ez. rewrite Hd in Ez.
    apply elem_of_dom in Ez as [? Ez]. unfold created_now in Ec. by rewrite Ez in Ec.
  - destruct (decide (a = b)) as [->|Hab]; [|by rewrite beats_other in Hb].
    destruct Hc as [(-> & (q & Hq & _) & _)|[(-> & _)|(-> & _)]]; cbn [acting]; [by rewrite Hq|done|done].
Qed.
Lemma act_beats k w t e w' o a : wstep k w t e = WDone w' o -> acting w e = Some a -> beats a [(t, e, o)] = [] -> wh_tasks w !! a = None.
Proof.
  intros H Ha Hb. apply wstep_kind in H as [_ H].
  destruct H as [b q y|e l Hl|sh u b q y rest c r El Eq Eh|e l i b s since' s' bo Eb Es Hc|sh b since' c r El Eb Ep|marks vols]; try done.
  - destruct Hl as [(-> & _)|[(-> & _)|(-> & _)]]; done.
  - cbn [acting] in Ha. rewrite Eq in Ha. destruct (wh_tasks w !! b) eqn:E; [done|]. by injection Ha as <-.
  - exfalso. assert (a = b) as ->. { destruct Hc as [(-> & (q & Hq & _) & _)|[(-> & _)|(-> & _)]]; cbn [acting] in Ha; [rewrite Hq in Ha|..]; by injection Ha. }
    rewrite beats_own in Hb. destruct (sched_last _ _ _ _ _ Es) as [x ->]. rewrite fmap_app in Hb. by destruct ((λ x : hobs, (t, x)) <$> x).
Qed.
Lemma set_timer_other k w' a b m : a <> b -> set_timer k w' b m !! a = m !! a.
Proof. intros H. unfold set_timer. destruct (wh_tasks w' !! b) as [[[[| |] ?]|]|]; rewrite ?lookup_insert_ne by done; done. Qed.

Lemma expired_by_timer k w t e w' o a : wstep k w t e = WDone w' o -> beats a [(t, e, o)] = [(t, Expired); (t, Failed)] -> e = TimerOf a.
Proof.
  intros H B. apply wstep_kind in H as [_ H].
  destruct H as [b q y|e l Hl|sh u b q y rest c r El Eq Eh|e l i b s since' s' bo Eb Es Hc|sh b since' c r El Eb Ep|marks vols]; try done.
  - destruct (created_now b (wh_conn w) c); [|done]. destruct (decide (a = b)) as [->|]; [|by rewrite beats_first_other in B].
    rewrite beats_first in B. by destruct (wc_timeout _ =? 0).
  - destruct (decide (a = b)) as [->|]; [|by rewrite beats_other in B]. rewrite beats_own in B.
    assert (bo = [Expired; Failed]) as ->. { clear -B. destruct bo as [|x [|y [|? ?]]]; cbn in B; simplify_eq; done. }
    assert (i = Timeout) as ->. { destruct s as [p f|p|], i as [|q|]; try done. cbn in Es. by destruct (p =? q). }
    destruct Hc as [(_ & (q & _ & ?) & _)|[(-> & _)|(_ & ? & _)]]; done.
Qed.

(** The request a waiting task last sent, and the time-out in force then, for which its timer was set. *)
Definition asked (conf : config) (a : N) (lg : llog) (s : live) : Prop :=
  match wh_tasks (lv_w s) !! a with
  | Some (Some (Waiting p f, since)) => exists l1 e o l2 y, lg = l1 ++ (since, e, o) :: l2 /\ beats a (seen [(since, e, o)]) = y ++ [(since, Sent (wire p))] /\
      beats a (seen l2) = [] /\ lv_timers s !! a = Some (1000 * k_hb_timeout (in_force conf l1))
  | _ => True
  end.
Record kept_inv (conf : config) (a : N) (lg : llog) (s : live) : Prop := KeptInv {
  ki_dom : dom (wh_tasks (lv_w s)) = dom (c_assocs (wh_conn (lv_w s)));
  ki_conf : gs_conf (lv_g s) = in_force conf lg;
  ki_asked : asked conf a lg s;
  ki_since : forall x since, wh_tasks (lv_w s) !! a = Some (Some (x, since)) -> since <= wh_now (lv_w s) }.
Lemma kept_step ch conf a lg s t e s' o : kept_inv conf a lg s -> lstep ch s t e = LDone s' o -> kept_inv conf a (lg ++ [(t, e, o)]) s'.
Proof.
  intros [I1 I2 I3 I4] H. destruct e as [b|e]; cbn [lstep] in H.
  - destruct (N.ltb_spec t (wh_now (lv_w s))) as [|Hnow]; [done|]. injection H as <- <-. split; cbn [lv_w lv_g with_conf wh_tasks wh_conn c_assocs].
    + exact I1.
    + rewrite in_force_snoc, edit_conf. cbn [fst snd]. by destruct b.
    + unfold asked in *. cbn [lv_w with_conf wh_tasks lv_timers]. destruct (wh_tasks (lv_w s) !! a) as [[[[p f|p|] since]|]|]; try done.
      destruct I3 as (l1 & e & o & l2 & y & -> & E1 & E2 & E3). exists l1, e, o, (l2 ++ [(t, Edits b, [])]), y. split; [by rewrite <- app_assoc|].
      split; [exact E1|]. split; [|exact E3]. rewrite seen_app, beats_app, E2. done.
    + intros x since Hx. specialize (I4 _ _ Hx). cbn [wh_now]. etrans; [exact I4|exact Hnow].
  - destruct (wstep (seen_by s e) (lv_w s) t e) as [w' o'| |] eqn:E; [|done|done]. injection H as <- <-. split; cbn [lv_w lv_g].
    + exact (wdom_step _ _ _ _ _ _ E I1).
    + by rewrite in_force_snoc.
    + unfold asked in *. cbn [lv_w lv_timers]. pose proof (beats_act _ _ _ _ _ _ a E I1) as Hba. pose proof (act_beats _ _ _ _ _ _ a E) as Hab.
      pose proof (wstep_task _ a _ _ _ _ _ E I1) as (_ & _ & V).
      assert (Hsent : forall y p f, wh_tasks w' !! a = Some (Some (Waiting p f, t)) -> beats a [(t, e, o')] = y ++ [(t, Sent (wire p))] ->
        exists l1 e0 o l2 y, lg ++ [(t, Does e, o')] = l1 ++ (t, e0, o) :: l2 /\ beats a (seen [(t, e0, o)]) = y ++ [(t, Sent (wire p))] /\ beats a (seen l2) = [] /\
          match acting (lv_w s) e with Some b => set_timer (hb_of (gs_conf (lv_g s))) w' b (lv_timers s) | None => lv_timers s end !! a = Some (1000 * k_hb_timeout (in_force conf l1))).
      { intros y p f Hw Hb. exists lg, (Does e), o', [], y. split; [done|]. split; [exact Hb|]. split; [done|]. rewrite Hba by (rewrite Hb; by destruct y).
        unfold set_timer. rewrite Hw, lookup_insert. cbn [wc_timeout hb_of]. by rewrite I2. }
      destruct V as [(Ew & B & _)|[(E0 & Ew & B & _)|[(x & since & i & x' & b & E0 & Es & Ew & B & _)|(since & sh & _ & _ & Ew & _)]]].
      * rewrite Ew. destruct (wh_tasks (lv_w s) !! a) as [[[[p f|p|] since]|]|] eqn:Ea; try done.
        destruct I3 as (l1 & e0 & o & l2 & y & -> & E1 & E2 & E3). exists l1, e0, o, (l2 ++ [(t, Does e, o')]), y. split; [by rewrite <- app_assoc|].
        split; [exact E1|]. split; [rewrite seen_app, beats_app, E2; exact B|]. destruct (acting (lv_w s) e) as [b|] eqn:Eact; [|exact E3].
        destruct (decide (a = b)) as [->|Hne]; [by specialize (Hab eq_refl B)|]. by rewrite set_timer_other.
      * rewrite Ew. unfold new_task in Ew |- *. destruct (wc_timeout (seen_by s e) =? 0); [done|]. cbn [fst sched_start] in *. exact (Hsent [] 2 0 Ew B).
      * rewrite Ew. destruct x' as [p f|p|]; [|done|done]. destruct (sched_last _ _ _ _ _ Es) as [y ->]. rewrite fmap_app in B. exact (Hsent _ p f Ew B).
      * by rewrite Ew.
    + pose proof (wstep_task _ a _ _ _ _ _ E I1) as (Hn & Hn' & V). rewrite Hn'. intros y since Hy.
      destruct V as [(Ew & _)|[(_ & Ew & _)|[(x & since0 & i & x' & b & _ & _ & Ew & _)|(since0 & sh & _ & _ & Ew & _)]]]; rewrite Ew in Hy.
      * specialize (I4 _ _ Hy). lia.
      * unfold new_task in Hy. destruct (wc_timeout (seen_by s e) =? 0); [done|]. by injection Hy as _ <-.
      * by injection Hy as _ <-.
      * done.
Qed.

(** Every request to [a] is followed, in less than the time-out in force when it was sent, by the next thing its task sees. *)
Definition prompt_now (conf : config) (a : N) (lg : llog) : Prop :=
  forall l1 t e o l2 y n t' b z, lg = l1 ++ (t, e, o) :: l2 -> beats a (seen [(t, e, o)]) = y ++ [(t, Sent n)] -> beats a (seen l2) = (t', b) :: z ->
    t' < t + 1000 * k_hb_timeout (in_force conf l1).
Lemma prompt_now_prefix conf a l1 l2 : prompt_now conf a (l1 ++ l2) -> prompt_now conf a l1.
Proof.
  intros H g1 t e o g2 y n t' b z -> E1 E2. apply (H g1 t e o (g2 ++ l2) y n t' b (z ++ beats a (seen l2))); [by rewrite <- app_assoc|exact E1|].
  by rewrite seen_app, beats_app, E2.
Qed.
(** Whatever is edited and when: a peer whose answers reach its task in time is never given up. *)
Theorem prompt_peer_kept_edits_partial :
  forall ch pool g conf c l s lg a, start pool g conf = Serving c -> lrun ch (lstart conf c) l = LRan s lg -> prompt_now conf a lg ->
    forall t sh o, (t, Does (GivesUp sh a), o) ∉ lg.
Proof.
  intros ch pool g conf c l s lg a Hst H.
  assert (Hc : c_assocs c = ∅). { unfold start in Hst. repeat (case_match; try done); injection Hst as <-; done. }
  refine (proj2 (proj2 (lrun_inv (fun lg s => kept_inv conf a lg s /\ (prompt_now conf a lg -> forall since, wh_tasks (lv_w s) !! a <> Some (Some (Failing, since))) /\
     (prompt_now conf a lg -> forall t sh o, (t, Does (GivesUp sh a), o) ∉ lg)) ch _ l [] _ _ _ _ H))).
  - clear. intros lg s t e s' o (HK & J1 & J2) H. split; [by eapply kept_step|]. destruct HK as [I1 I2 I3 _]. destruct e as [b|e]; cbn [lstep] in H.
    + destruct (t <? wh_now (lv_w s)); [done|]. injection H as <- <-. cbn [lv_w with_conf wh_tasks]. split.
      * intros Hp. apply J1. by eapply prompt_now_prefix.
      * intros Hp t' sh o' Hin. apply elem_of_app in Hin as [Hin|Hin]; [exact (J2 (prompt_now_prefix _ _ _ _ Hp) _ _ _ Hin)|]. by apply elem_of_list_singleton in Hin.
    + destruct (wstep (seen_by s e) (lv_w s) t e) as [w' o'| |] eqn:E; [|done|done]. injection H as <- <-. cbn [lv_w].
      pose proof (wstep_task _ a _ _ _ _ _ E I1) as (_ & _ & V). split.
      * intros Hp since Hf. destruct V as [(Ew & B & _)|[(E0 & Ew & B & _)|[(x & since0 & i & x' & b & E0 & Es & Ew & B & _ & Hdue & _)|(since0 & sh & _ & _ & Ew & _)]]].
        -- rewrite Ew in Hf. exact (J1 (prompt_now_prefix _ _ _ _ Hp) _ Hf).
        -- rewrite Ew in Hf. unfold new_task in Hf. by destruct (wc_timeout (seen_by s e) =? 0).
        -- rewrite Ew in Hf. injection Hf as -> <-. destruct x as [p f|p|], i as [|q|]; cbn in Es; try done; [|by destruct (p =? q)].
           unfold asked in I3. rewrite E0 in I3. destruct I3 as (l1 & e0 & o0 & l2 & y & -> & E1 & E2 & E3). specialize (Hdue eq_refl).
           assert (wc_timeout (seen_by s e) = 1000 * k_hb_timeout (in_force conf l1)) as Ht.
           { destruct (wc_retries (seen_by s e) <=? u32 (f + 1)); [|done]. assert (b = [Expired; Failed]) as -> by congruence.
             rewrite (expired_by_timer _ _ _ _ _ _ _ E B). cbn [seen_by wc_timeout]. by rewrite E3. }
           rewrite Ht in Hdue. destruct (wc_retries (seen_by s e) <=? u32 (f + 1)); [|done]. assert (b = [Expired; Failed]) as -> by congruence. clear Es.
           specialize (Hp l1 since0 e0 o0 (l2 ++ [(t, Does e, o')]) y (wire p) t Expired [(t, Failed)]). rewrite <- app_assoc in Hp. specialize (Hp eq_refl E1).
           rewrite seen_app, beats_app, E2 in Hp. cbn [app seen omap list_omap fst snd] in Hp. rewrite B in Hp. specialize (Hp eq_refl). lia.
        -- by rewrite Ew in Hf.
      * intros Hp t' sh o0 Hin. apply elem_of_app in Hin as [Hin|Hin]; [exact (J2 (prompt_now_prefix _ _ _ _ Hp) _ _ _ Hin)|].
        apply elem_of_list_singleton in Hin. injection Hin as -> <- ->.
        destruct V as [(_ & _ & Hn)|[(_ & _ & _ & Hn)|[(x & since0 & i & x' & b & _ & _ & _ & _ & Hn & _)|(since0 & sh' & _ & E0 & _)]]].
        -- by apply (Hn sh).
        -- by apply (Hn sh).
        -- by apply (Hn sh).
        -- exact (J1 (prompt_now_prefix _ _ _ _ Hp) _ E0).
  - split; [|split; [by intros|]].
    + split; [by cbn; rewrite Hc, !dom_empty_L|done| |done]. unfold asked. cbn. by rewrite lookup_empty.
    + intros _ t sh o Hin. by apply elem_of_nil in Hin.
Qed.

(** The last thing seen of the task of [a]; without a task nothing was seen since it was last given up. *)
Definition last_seen (a : N) (lg : llog) (s : live) : Prop :=
  match wh_tasks (lv_w s) !! a with
  | Some (Some (Waiting p f, since)) => exists x, beats a (seen lg) = x ++ [(since, Sent (wire p))]
  | Some (Some (Sleeping p, since)) => exists x, beats a (seen lg) = x ++ [(since, Got p)]
  | Some (Some (Failing, since)) => exists x, beats a (seen lg) = x ++ [(since, Failed)]
  | _ => beats a (seen lg) = [] \/ exists x t, beats a (seen lg) = x ++ [(t, Failed)]
  end.
Lemma last_seen_step ch a lg s t e s' o : dom (wh_tasks (lv_w s)) = dom (c_assocs (wh_conn (lv_w s))) -> last_seen a lg s -> lstep ch s t e = LDone s' o -> last_seen a (lg ++ [(t, e, o)]) s'.
Proof.
  intros Hd HL H. unfold last_seen in *. rewrite seen_app, beats_app. destruct e as [b|e]; cbn [lstep] in H.
  - destruct (t <? wh_now (lv_w s)); [done|]. injection H as <- <-. cbn [lv_w with_conf wh_tasks seen omap list_omap fst snd beats outs]. by rewrite app_nil_r.
  - destruct (wstep (seen_by s e) (lv_w s) t e) as [w' o'| |] eqn:E; [|done|done]. injection H as <- <-. cbn [lv_w seen omap list_omap fst snd].
    pose proof (wstep_task _ a _ _ _ _ _ E Hd) as (_ & _ & V).
    destruct V as [(Ew & B & _)|[(E0 & Ew & B & _)|[(x & since & i & x' & b & E0 & Es & Ew & B & _)|(since & sh & _ & E0 & Ew & B)]]].
    + rewrite Ew, B, app_nil_r. exact HL.
    + rewrite Ew, B. rewrite E0 in HL. unfold new_task. destruct (wc_timeout (seen_by s e) =? 0); [by rewrite app_nil_r|]. by eexists.
    + rewrite Ew, B. destruct (sched_last _ _ _ _ _ Es) as [y ->]. rewrite fmap_app, app_assoc. cbn. destruct x'; by eexists.
    + rewrite Ew, B, app_nil_r. rewrite E0 in HL. destruct HL as [x ->]. right. by exists x, since.
Qed.
Lemma last_seen_run ch pool g conf c l s lg a : start pool g conf = Serving c -> lrun ch (lstart conf c) l = LRan s lg -> kept_inv conf a lg s /\ last_seen a lg s.
Proof.
  intros Hst H. assert (Hc : c_assocs c = ∅). { unfold start in Hst. repeat (case_match; try done); injection Hst as <-; done. }
  refine (lrun_inv (fun lg s => kept_inv conf a lg s /\ last_seen a lg s) ch _ l [] _ _ _ _ H).
  - clear. intros lg s t e s' o [HK HL] H. split; [by eapply kept_step|]. eapply last_seen_step; [by apply ki_dom with conf a lg|exact HL|exact H].
  - split; [split; [by cbn; rewrite Hc, !dom_empty_L|done| |done]|]; unfold asked, last_seen; cbn; rewrite lookup_empty; [done|by left].
Qed.

(** While the time-out and retries in force are 0 (an edit that does not mention them), every request to any peer can be counted as failed, and its association
    reported for deletion, at the very moment it is sent: before any answer can exist. *)
Theorem zero_timeout_drops_anyone :
  forall ch pool g conf c l s lg a l1 t e o l2 y n, start pool g conf = Serving c -> lrun ch (lstart conf c) l = LRan s lg ->
    lg = l1 ++ (t, e, o) :: l2 -> beats a (seen [(t, e, o)]) = y ++ [(t, Sent n)] -> beats a (seen l2) = [] ->
    k_hb_timeout (in_force conf l1) = 0 -> k_hb_retries (in_force conf lg) = 0 -> forall t', wh_now (lv_w s) <= t' ->
    exists s', lstep ch s t' (Does (TimerOf a)) = LDone s' [Beat a Expired; Beat a Failed].
Proof.
  intros ch pool g conf c l s lg a l1 t e o l2 y n Hst H Elg Ey El2 Hz Hr t' Ht'. destruct (last_seen_run _ _ _ _ _ _ _ _ a Hst H) as [[I1 I2 I3 I4] HL]. clear H.
  assert (Hb : beats a (seen lg) = (beats a (seen l1) ++ y) ++ [(t, Sent n)]).
  { rewrite Elg. change ((t, e, o) :: l2) with ([(t, e, o)] ++ l2). rewrite !seen_app, !beats_app, Ey, El2, app_nil_r. by rewrite app_assoc. }
  assert (exists p f, wh_tasks (lv_w s) !! a = Some (Some (Waiting p f, t)) /\ wire p = n) as (p & f & Hw & <-).
  { unfold last_seen in HL. rewrite Hb in HL. destruct (wh_tasks (lv_w s) !! a) as [[[[p f|p|] since]|]|].
    - destruct HL as [x HL]. apply app_inj_tail in HL as [_ HL]. injection HL as -> ->. by exists p, f.
    - destruct HL as [x HL]. by apply app_inj_tail in HL as [_ HL].
    - destruct HL as [x HL]. by apply app_inj_tail in HL as [_ HL].
    - destruct HL as [HL|(x & t0 & HL)]; [by destruct (beats a (seen l1) ++ y)|by apply app_inj_tail in HL as [_ HL]].
    - destruct HL as [HL|(x & t0 & HL)]; [by destruct (beats a (seen l1) ++ y)|by apply app_inj_tail in HL as [_ HL]]. }
  assert (lv_timers s !! a = Some 0) as Htm.
  { unfold asked in I3. rewrite Hw in I3. destruct I3 as (m1 & e0 & o0 & m2 & y0 & E0 & E1 & E2 & ->). f_equal.
    assert (m1 = l1) as ->; [|by rewrite Hz, N.mul_0_r].
    assert (forall (u1 u2 : llog) v1 v2 r1 r2, u1 ++ v1 :: r1 = u2 ++ v2 :: r2 -> beats a (seen [v1]) <> [] -> beats a (seen [v2]) <> [] ->
      beats a (seen r1) = [] -> beats a (seen r2) = [] -> u1 = u2) as Huniq.
    { clear. assert (forall (u1 u2 : llog) v1 v2 r1 r2, u1 ++ v1 :: r1 = u2 ++ v2 :: r2 -> beats a (seen [v2]) <> [] -> beats a (seen r1) = [] -> (length u2 <= length u1)%nat) as Hlen.
      { intros u1 u2 v1 v2 r1 r2 E Hv Hr. destruct (le_lt_dec (length u2) (length u1)) as [|Hlt]; [done|]. exfalso. apply Hv.
        assert (v2 ∈ r1) as Hin.
        { apply app_eq_inv in E as [(k & -> & E)|(k & -> & E)].
          - apply (elem_of_list_lookup_2 _ (length k)). destruct k as [|z k]; [rewrite app_nil_r in Hlt; lia|]. cbn in E. injection E as _ ->. rewrite app_length in Hlt. cbn in Hlt.
            exfalso. lia.
          - destruct k as [|z k]; [rewrite app_nil_r in Hlt; lia|]. cbn in E. injection E as _ ->. apply elem_of_app. right. left. }
        apply elem_of_list_split in Hin as (k1 & k2 & ->). rewrite seen_app, beats_app in Hr. apply app_eq_nil in Hr as [_ Hr].
        change (v2 :: k2) with ([v2] ++ k2) in Hr. rewrite seen_app, beats_app in Hr. by apply app_eq_nil in Hr as [Hr _]. }
      intros u1 u2 v1 v2 r1 r2 E H1 H2 H3 H4. pose proof (Hlen _ _ _ _ _ _ E H2 H3). pose proof (Hlen _ _ _ _ _ _ (eq_sym E) H1 H4). apply app_inj_1 in E as [-> _]; [done|lia]. }
    rewrite Elg in E0. symmetry in E0. apply (Huniq _ _ _ _ _ _ E0); [rewrite E1; by destruct y0|rewrite Ey; by destruct y|exact E2|exact El2]. }
  cbn [lstep seen_by]. rewrite Htm. cbn [default from_option id hb_of wc_retries].
  unfold wstep. rewrite (proj2 (N.ltb_ge _ _) Ht').
  assert (Hx : (if due (lv_w s) a t' 0 then task_step (Wcfg (k_hb_retries (gs_conf (lv_g s))) 0 0) t' a (wh_loop (lv_w s)) (lv_w s) Timeout else WNot) =
     WDone (Whole t' (wh_conn (lv_w s)) (wh_loop (lv_w s)) (wh_queue (lv_w s)) (<[a := Some (Failing, t')]> (wh_tasks (lv_w s)))) [Beat a Expired; Beat a Failed]).
  { assert (due (lv_w s) a t' 0 = true) as ->.
    { unfold due. rewrite Hw. apply N.leb_le. assert (t <= wh_now (lv_w s)); [|lia]. exact (I4 _ _ Hw). }
    unfold task_step. rewrite Hw. cbn [sched_step wc_retries]. rewrite I2. assert (k_hb_retries (in_force conf lg) <=? u32 (f + 1) = true) as ->; [|done].
    apply N.leb_le. rewrite Hr. apply N.le_0_l. }
  destruct (wh_loop (lv_w s)); cbn [wc_timeout]; rewrite Hx; by eexists.
Qed.

(** A peer that associated while heartbeats were switched off is never sent one, whatever is edited later, and its association is never given up. *)
Theorem never_probed :
  forall ch pool g conf c l1 s1 lg1 l2 s2 lg2 a, start pool g conf = Serving c -> lrun ch (lstart conf c) l1 = LRan s1 lg1 -> lrun ch s1 l2 = LRan s2 lg2 ->
    is_Some (c_assocs (wh_conn (lv_w s1)) !! a) -> beats a (seen lg1) = [] ->
    is_Some (c_assocs (wh_conn (lv_w s2)) !! a) /\ beats a (seen lg2) = [].
Proof.
  intros ch pool g conf c l1 s1 lg1 l2 s2 lg2 a Hst H1 H2 Ha Hb. destruct (last_seen_run _ _ _ _ _ _ _ _ a Hst H1) as [[I1 _ _ _] HL]. clear H1.
  assert (wh_tasks (lv_w s1) !! a = Some None) as Hw.
  { apply elem_of_dom in Ha. rewrite <- I1 in Ha. apply elem_of_dom in Ha as [x Hx]. unfold last_seen in HL. rewrite Hx, Hb in HL.
    destruct x as [[[p f|p|] since]|]; [destruct HL as [[|? ?] ?]; done..|done]. }
  assert (dom (wh_tasks (lv_w s2)) = dom (c_assocs (wh_conn (lv_w s2))) /\ wh_tasks (lv_w s2) !! a = Some None /\ beats a (seen ([] ++ lg2)) = []) as (D & E & B).
  { refine (lrun_inv (fun lg s => dom (wh_tasks (lv_w s)) = dom (c_assocs (wh_conn (lv_w s))) /\ wh_tasks (lv_w s) !! a = Some None /\ beats a (seen lg) = []) ch _ l2 [] _ _ _ _ H2); [|done].
    clear. intros lg s t e s' o (Hd & Hw & Hb) H. rewrite seen_app, beats_app, Hb. destruct e as [b|e]; cbn [lstep] in H.
    - destruct (t <? wh_now (lv_w s)); [done|]. injection H as <- <-. done.
    - destruct (wstep (seen_by s e) (lv_w s) t e) as [w' o'| |] eqn:E; [|done|done]. injection H as <- <-. cbn [lv_w seen omap list_omap fst snd app].
      split; [exact (wdom_step _ _ _ _ _ _ E Hd)|]. pose proof (wstep_task _ a _ _ _ _ _ E Hd) as (_ & _ & V).
      destruct V as [(Ew & B & _)|[(E0 & _)|[(x & since & i & x' & b & E0 & _)|(since & sh & _ & E0 & _)]]]; [by rewrite Ew|congruence..]. }
  split; [|exact B]. apply elem_of_dom. rewrite <- D. apply elem_of_dom. by eexists.
Qed.

(** ** Executions *)
Definition ex_conf (retries interval timeout : N) (level : text) : config :=
  Config [] [103] [58] [58] [49] [] 5 [58] [49] [49] [] 10 8 8 8 8 10 retries interval timeout level [] 0 false false.
(** A body that mentions the logging level alone. *)
Definition ex_level_only : config := Config [] [] [] [] [] [] 0 [] [] [] [] 0 0 0 0 0 0 0 0 0 [105] [] 0 false false.
Definition ex_conn_of (conf : config) : conn := match start (fun _ => None) (Cfg false false 1 1 1 1) conf with Serving c => c | _ => ex_conn end.
Definition ex_live (conf : config) (l : list (N * lev)) (P : live -> llog -> bool) : bool :=
  match lrun ex_checks (lstart conf (ex_conn_of conf)) l with LRan s lg => P s lg | _ => false end.
Lemma ex_lives conf l P : ex_live conf l P = true -> exists s lg, lrun ex_checks (lstart conf (ex_conn_of conf)) l = LRan s lg /\ P s lg = true.
Proof. unfold ex_live. destruct (lrun ex_checks (lstart conf (ex_conn_of conf)) l) as [s lg| |]; [|done|done]. intros H. by exists s, lg. Qed.
Definition ex_do (l : list (N * wev)) : list (N * lev) := (fun x => (fst x, Does (snd x))) <$> l.

Definition ex_level_edit : list (N * lev) :=
  ex_do (ex_join 0 7 ++ ex_beat 0 7 2 ++ (10, Arrives 7 2 (ex_est_of [ex_pdr 1 1] [])) :: ex_take 10) ++ [(1000, Edits (Some ex_level_only))] ++
  ex_do [(5000, WakeOf 7); (5000, Arrives 7 3 ex_answer); (5000, TimerOf 7); (5000, GivesUp id_shuffle 7)].
(** A peer with a session answers every heartbeat in the millisecond it is sent.  An edit that sets the logging level to what it is already is
    accepted; with the next heartbeat the peer's association and session are gone. *)
Theorem level_edit_drops_peer_refuted :
  exists s lg conf, let c := ex_conn_of conf in validate ex_checks conf = Some conf /\ start (fun _ => None) (Cfg false false 1 1 1 1) conf = Serving c /\
    lrun ex_checks (lstart conf c) ex_level_edit = LRan s lg /\
    (forall t b o, (t, Edits b, o) ∈ lg -> b = Some ex_level_only) /\ fst (edit_config ex_checks (Some ex_level_only) (Gstate conf (k_log conf))) = 200 /\ k_log ex_level_only = k_log conf /\
    (forall t n, (t, Sent n) ∈ beats 7 (seen lg) -> exists x o, (t, Arrives 7 n (HeartbeatResp (Good x)), o) ∈ seen lg) /\
    (exists x, x ∈ pfcp_log (seen lg) /\ accepted_est x = Some (7, 2)) /\ (forall x, x ∈ pfcp_log (seen lg) -> accepted_del x <> Some (7, 2)) /\
    c_assocs (wh_conn (lv_w s)) !! 7 = None.
Proof.
  destruct (ex_lives (ex_conf 3 5 5 [105]) ex_level_edit (fun s lg =>
     forallb (fun x => match snd x with Sent n => existsb (answers 7 (fst x) n) (seen lg) | _ => true end) (beats 7 (seen lg)) &&
     existsb (fun x => bool_decide (accepted_est x = Some (7, 2))) (pfcp_log (seen lg)) &&
     forallb (fun x => negb (bool_decide (accepted_del x = Some (7, 2)))) (pfcp_log (seen lg)) &&
     match c_assocs (wh_conn (lv_w s)) !! 7 with None => true | _ => false end)) as (s & lg & H & P); [vm_compute; reflexivity|].
  exists s, lg, (ex_conf 3 5 5 [105]). cbv zeta. split; [vm_compute; reflexivity|]. split; [vm_compute; reflexivity|]. split; [exact H|].
  apply andb_true_iff in P as [P P5]. apply andb_true_iff in P as [P P4]. apply andb_true_iff in P as [P1 P3].
  split; [|split; [vm_compute; reflexivity|split; [reflexivity|split; [|split; [|split]]]]].
  - intros t b o Hin.
    assert (lg.*1 = ex_level_edit) as Hlg.
    { clear -H. revert H. generalize (lstart (ex_conf 3 5 5 [105]) (ex_conn_of (ex_conf 3 5 5 [105]))) as s0. generalize ex_level_edit as l. intros l. revert lg.
      induction l as [|[t e] l IH]; intros lg s0 H; cbn [lrun] in H; [by injection H as <- <-|].
      destruct (lstep ex_checks s0 t e) as [s1 o| |]; [|done|done]. destruct (lrun ex_checks s1 l) as [s2 lg2| |] eqn:E2; [|done|done]. injection H as <- <-. cbn. f_equal. by eapply IH. }
    clear H. assert ((t, Edits b) ∈ ex_level_edit) as Hin'. { rewrite <- Hlg. apply elem_of_list_fmap. by exists (t, Edits b, o). }
    clear -Hin'. unfold ex_level_edit in Hin'. rewrite !elem_of_app in Hin'. destruct Hin' as [Hin|[Hin|Hin]].
    + apply elem_of_list_fmap in Hin as (? & [=] & _).
    + apply elem_of_list_singleton in Hin. congruence.
    + apply elem_of_list_fmap in Hin as (? & [=] & _).
  - clear H. intros t n Hin. rewrite forallb_forall in P1. apply elem_of_list_In in Hin. specialize (P1 _ Hin). cbn in P1. apply existsb_exists in P1 as ([[t' e] o] & Hx & P1).
    unfold answers in P1. destruct e as [b q [| [| |y] | | | | | | |]| | | | | | | | |]; try done. apply andb_true_iff in P1 as [P1 E3]. apply andb_true_iff in P1 as [E1 E2].
    apply N.eqb_eq in E1, E2, E3. subst. apply elem_of_list_In in Hx. by exists y, o.
  - clear H. apply existsb_exists in P3 as (x & Hx & P3). exists x. split; [by apply elem_of_list_In|]. by apply bool_decide_eq_true in P3.
  - clear H. intros x Hx. rewrite forallb_forall in P4. apply elem_of_list_In in Hx. specialize (P4 _ Hx). apply negb_true_iff in P4. by apply bool_decide_eq_false in P4.
  - clear H. by destruct (c_assocs (wh_conn (lv_w s)) !! 7).
Qed.

(** Heartbeats switched on after the start: the peer that is already associated is never sent one. *)
Definition ex_enable : list (N * lev) := ex_do (ex_join 0 7) ++ [(1000, Edits (Some (ex_conf 3 5 5 [105])))].
Theorem enabling_heartbeats_refuted :
  exists s lg, let conf := ex_conf 3 5 0 [105] in let c := ex_conn_of conf in start (fun _ => None) (Cfg false false 1 1 1 1) conf = Serving c /\
    lrun ex_checks (lstart conf c) ex_enable = LRan s lg /\ k_hb_timeout (gs_conf (lv_g s)) = 5 /\ is_Some (c_assocs (wh_conn (lv_w s)) !! 7) /\
    forall l s' lg', lrun ex_checks s l = LRan s' lg' -> beats 7 (seen lg') = [] /\ is_Some (c_assocs (wh_conn (lv_w s')) !! 7).
Proof.
  destruct (ex_lives (ex_conf 3 5 0 [105]) ex_enable (fun s lg => (k_hb_timeout (gs_conf (lv_g s)) =? 5) && (match c_assocs (wh_conn (lv_w s)) !! 7 with Some _ => true | None => false end) &&
     match beats 7 (seen lg) with [] => true | _ => false end)) as (s & lg & H & P); [vm_compute; reflexivity|].
  apply andb_true_iff in P as [P P3]. apply andb_true_iff in P as [P1 P2]. apply N.eqb_eq in P1.
  assert (beats 7 (seen lg) = []) as Hb by (by destruct (beats 7 (seen lg))). clear P3.
  assert (is_Some (c_assocs (wh_conn (lv_w s)) !! 7)) as Ha. { destruct (c_assocs (wh_conn (lv_w s)) !! 7); [by eexists|done]. } clear P2.
  assert (start (fun _ => None) (Cfg false false 1 1 1 1) (ex_conf 3 5 0 [105]) = Serving (ex_conn_of (ex_conf 3 5 0 [105]))) as Hst by (vm_compute; reflexivity).
  exists s, lg. cbv zeta. split; [exact Hst|]. split; [exact H|]. split; [exact P1|]. split; [exact Ha|].
  intros l s' lg' H2. pose proof (never_probed _ _ _ _ _ _ _ _ _ _ _ 7 Hst H H2 Ha Hb) as [A1 A2]. split; [exact A2|exact A1].
Qed.

(** The hypotheses of [prompt_peer_kept_edits_partial] met: the time-out is cut to a second while the peer is served; it answers within 900 ms. *)
Definition ex_prompt_edits : list (N * lev) :=
  ex_do (ex_join 0 7) ++ ex_do (ex_beat 900 7 2) ++ [(1000, Edits (Some (ex_conf 2 3 1 [105])))] ++ ex_do ((5900, WakeOf 7) :: ex_beat 6800 7 3).
Fixpoint promptb (conf : config) (a : N) (lg : llog) : bool :=
  match lg with
  | [] => true
  | x :: r => match last (beats a (seen [x])), beats a (seen r) with
              | Some (_, Sent _), (t', _) :: _ => t' <? fst (fst x) + 1000 * k_hb_timeout conf
              | _, _ => true
              end && promptb (in_force conf [x]) a r
  end.
Lemma promptb_sound a lg : forall conf, promptb conf a lg = true -> prompt_now conf a lg.
Proof.
  induction lg as [|x lg IH]; intros conf H l1 t e o l2 y n t' b z E E1 E2; [by destruct l1|]. cbn [promptb] in H. apply andb_true_iff in H as [H1 H2]. destruct l1 as [|x1 l1].
  - cbn [app] in E. injection E as -> ->. rewrite E1, last_snoc, E2 in H1. by apply N.ltb_lt.
  - cbn [app] in E. injection E as -> ->. exact (IH _ H2 l1 t e o l2 y n t' b z eq_refl E1 E2).
Qed.
Example ex_prompt_kept : exists s lg, let conf := ex_conf 3 5 5 [105] in
  lrun ex_checks (lstart conf (ex_conn_of conf)) ex_prompt_edits = LRan s lg /\ beats 7 (seen lg) = [(0, Sent 2); (900, Got 2); (5900, Sent 3); (6800, Got 3)] /\ prompt_now conf 7 lg.
Proof.
  destruct (ex_lives (ex_conf 3 5 5 [105]) ex_prompt_edits (fun s lg => promptb (ex_conf 3 5 5 [105]) 7 lg &&
     match beats 7 (seen lg) with [(0, Sent 2); (900, Got 2); (5900, Sent 3); (6800, Got 3)] => true | _ => false end)) as (s & lg & H & P); [vm_compute; reflexivity|].
  apply andb_true_iff in P as [P1 P2]. exists s, lg. cbv zeta. split; [exact H|]. clear H. split; [|by apply promptb_sound]. clear -P2. repeat (case_match; try done).
Qed.
(** The hypotheses of [harmless_edits] met. *)
Example ex_harmless : leaves_peers (ex_conf 3 5 5 [105]) (Some (ex_conf 3 5 5 [100])) /\ ex_conf 3 5 5 [105] <> ex_conf 3 5 5 [100] /\
  ex_live (ex_conf 3 5 5 [105]) (ex_do (ex_join 0 7) ++ [(1000, Edits (Some (ex_conf 3 5 5 [100])))] ++ ex_do (ex_beat 1000 7 2))
    (fun _ lg => match beats 7 (seen lg) with [(0, Sent 2); (1000, Got 2)] => true | _ => false end) = true.
Proof. split; [by intros c [= <-]|]. split; [done|]. vm_compute. reflexivity. Qed.
