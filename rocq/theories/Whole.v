(** The running UPF in time: the socket, the message loop, the heartbeat tasks and the session state together (C96-C98). *)
From Verif Require Import Base IdTracker ResourceManager SdfParser MapOps Pfcp PfcpProps PfcpHistory Deletion Heartbeat.
Open Scope N_scope.

(** ** Model *)

(** config.go:31-33, in milliseconds; read at every use by the code, fixed here (edits while running: Reconf.v). *)
Record wcfg := Wcfg { wc_retries : N; wc_timeout : N; wc_interval : N }.

(** pfcp_connection.go:113-139 [Run]: at the select (119); in the read of lines 124-126, which ends at [until];
    inside HandleHeartbeat (node_association.go:80-82), passing sequence number [seq] to the task of [peer]. *)
Inductive wloop := Selecting | Reading (until : N) | Passing (peer seq : N).

(** [wh_now]: the clock.  [wh_queue]: the datagrams in the socket, oldest first.  [wh_tasks]: one entry per association, its heartbeat
    task (none if heartbeats are off) with the time of its last transition, at which its current timer was started. *)
Record whole := Whole { wh_now : N; wh_conn : conn; wh_loop : wloop; wh_queue : list (N * N * msg); wh_tasks : gmap N (option (sched * N)) }.

(** Arrival of a datagram (peer, sequence number, message; a datagram lost or not decodable does not arrive); the loop enters a read, takes
    the oldest datagram, or reads nothing; the loop and a heartbeat task meet; the timer of a task; the end of its pause; the loop takes the
    failure report of a task; the ticker of line 120 (what it sends: Config.v); the data plane carries traffic. *)
Inductive wev :=
| Arrives (a q : N) (m : msg)
| Reads
| Takes (sh : shuffle)
| ReadsNothing
| Meets
| TimerOf (a : N)
| WakeOf (a : N)
| GivesUp (sh : shuffle) (a : N)
| Ticks
| Carries (marks volumes : gmap N (N * N)).

(** What is seen: a message handled and its answer, an association given up, traffic; the heartbeats of a peer. *)
Inductive wout := Handled (x : event * option response) | Beat (a : N) (o : hobs).

(** pfcp_handlers.go:106-121, 246-260: this message created the association of [a]. *)
Definition created_now (a : N) (c c' : conn) : bool :=
  match c_assocs c !! a, c_assocs c' !! a with None, Some _ => true | _, _ => false end.
(** pfcp_handlers.go:117-119, 256-258 and node_association.go:50-56: the task and its first request, unless heartbeats are off.  (The
    goroutine may send it a little later than the association is made.) *)
Definition new_task (k : wcfg) (t : N) : option (sched * N) := if wc_timeout k =? 0 then None else Some (fst sched_start, t).
Definition first_beat (k : wcfg) (a : N) : list wout := if wc_timeout k =? 0 then [] else Beat a <$> snd sched_start.
(** pfcp_hearbeat.go:26-40: only a readable answer of an associated peer is passed to its task. *)
Definition after (a q : N) (m : msg) (c : conn) : wloop :=
  match m with
  | HeartbeatResp (Good _) => match c_assocs c !! a with Some _ => Passing a q | None => Selecting end
  | _ => Selecting
  end.

Inductive wres := WDone (w : whole) (o : list wout) | WCrash | WNot.

(** node_association.go:59-76: one transition of the task of [a] at time [t]. *)
Definition task_step (k : wcfg) (t a : N) (l : wloop) (w : whole) (i : hin) : wres :=
  match wh_tasks w !! a with
  | Some (Some (s, _)) =>
      match sched_step (wc_retries k) s i with
      | Some (s', o) => WDone (Whole t (wh_conn w) l (wh_queue w) (<[a := Some (s', t)]> (wh_tasks w))) (Beat a <$> o)
      | None => WNot
      end
  | _ => WNot
  end.
(** node_association.go:58, 71: the timer started with the last transition has run for its time. *)
Definition due (w : whole) (a t d : N) : bool :=
  match wh_tasks w !! a with Some (Some (_, since)) => since + d <=? t | _ => false end.
(** node_association.go:64: some task waits to report a failure. *)
Definition failing (x : option (sched * N)) : bool := match x with Some (Failing, _) => true | _ => false end.
Definition reporting (w : whole) : bool := existsb (fun x => failing (snd x)) (map_to_list (wh_tasks w)).

(** pfcp_connection.go:118-138 and node_association.go:50-82, event [e] at time [t].  The default branch of the select (line 124) is taken only
    if no failure report waits. *)
Definition wstep (k : wcfg) (w : whole) (t : N) (e : wev) : wres :=
  if t <? wh_now w then WNot else
  match e, wh_loop w with
  | Arrives a q m, l => WDone (Whole t (wh_conn w) l (wh_queue w ++ [(a, q, m)]) (wh_tasks w)) []
  | Reads, Selecting => if reporting w then WNot else WDone (Whole t (wh_conn w) (Reading (t + 1000)) (wh_queue w) (wh_tasks w)) []
  | Takes sh, Reading _ =>
      match wh_queue w with
      | [] => WNot
      | (a, q, m) :: rest =>
          match handle sh a q m (wh_conn w) with
          | Crash => WCrash
          | Done c r =>
              let new := created_now a (wh_conn w) c in
              WDone (Whole t c (after a q m (wh_conn w)) rest (if new then <[a := new_task k t]> (wh_tasks w) else wh_tasks w))
                    (Handled (Recv sh a q m, r) :: (if new then first_beat k a else []))
          end
      end
  | ReadsNothing, Reading u => if u <=? t then WDone (Whole t (wh_conn w) Selecting (wh_queue w) (wh_tasks w)) [] else WNot
  | Meets, Passing a q => task_step k t a Selecting w (Answer q)
  | TimerOf a, l => if due w a t (wc_timeout k) then task_step k t a l w Timeout else WNot
  | WakeOf a, l => if due w a t (wc_interval k) then task_step k t a l w Wake else WNot
  | GivesUp sh a, Selecting =>
      match wh_tasks w !! a with
      | Some (Some (Failing, _)) =>
          match prune sh a (wh_conn w) with
          | Crash => WCrash
          | Done c r => WDone (Whole t c Selecting (wh_queue w) (delete a (wh_tasks w))) [Handled (HeartbeatFailed sh a, r)]
          end
      | _ => WNot
      end
  | Ticks, Selecting => WDone (Whole t (wh_conn w) Selecting (wh_queue w) (wh_tasks w)) []
  | Carries marks volumes, l =>
      WDone (Whole t (set_dp_rm (traffic marks volumes (c_dp (wh_conn w))) (c_rm (wh_conn w)) (wh_conn w)) l (wh_queue w) (wh_tasks w))
            [Handled (Traffic marks volumes, None)]
  | _, _ => WNot
  end.

(** The log of a run: each event with its time and what was seen. *)
Notation wlog := (list (N * wev * list wout)).
Inductive wend := Ran (w : whole) (lg : wlog) | Crashed | Impossible.
Fixpoint wrun (k : wcfg) (w : whole) (l : list (N * wev)) : wend :=
  match l with
  | [] => Ran w []
  | (t, e) :: r => match wstep k w t e with
                   | WDone w1 o => match wrun k w1 r with Ran w2 lg => Ran w2 ((t, e, o) :: lg) | x => x end
                   | WCrash => Crashed
                   | WNot => Impossible
                   end
  end.
(** main.go:90-113: no association, nothing in the socket, the loop at its select. *)
Definition wstart (c : conn) : whole := Whole 0 c Selecting [] ∅.

(** ** Reading the log *)

Definition outs (lg : wlog) : list (N * wout) := lg ≫= fun x => (fun o => (fst (fst x), o)) <$> snd x.
(** The PFCP log. *)
Definition pfcp_log (lg : wlog) : log := outs lg ≫= fun x => match snd x with Handled y => [y] | Beat _ _ => [] end.
(** The heartbeats of [a], with their times. *)
Definition beats (a : N) (lg : wlog) : list (N * hobs) :=
  outs lg ≫= fun x => match snd x with Beat b o => if b =? a then [(fst x, o)] else [] | Handled _ => [] end.
(** The datagrams that arrived, and those that were handled. *)
Definition arrived (lg : wlog) : list (N * N * msg) := lg ≫= fun x => match snd (fst x) with Arrives a q m => [(a, q, m)] | _ => [] end.
Definition handled (l : log) : list (N * N * msg) := l ≫= fun x => match fst x with Recv _ a q m => [(a, q, m)] | _ => [] end.

Lemma bind_app_l {A B} (f : A -> list B) l1 l2 : (l1 ++ l2) ≫= f = (l1 ≫= f) ++ (l2 ≫= f).
Proof. apply bind_app. Qed.
Lemma outs_app l1 l2 : outs (l1 ++ l2) = outs l1 ++ outs l2.
Proof. apply bind_app. Qed.
Lemma pfcp_log_app l1 l2 : pfcp_log (l1 ++ l2) = pfcp_log l1 ++ pfcp_log l2.
Proof. unfold pfcp_log. rewrite outs_app. apply bind_app. Qed.
Lemma beats_app a l1 l2 : beats a (l1 ++ l2) = beats a l1 ++ beats a l2.
Proof. unfold beats. rewrite outs_app. apply bind_app. Qed.
Lemma arrived_app l1 l2 : arrived (l1 ++ l2) = arrived l1 ++ arrived l2.
Proof. apply bind_app. Qed.
Lemma handled_app l1 l2 : handled (l1 ++ l2) = handled l1 ++ handled l2.
Proof. apply bind_app. Qed.
Lemma outs_one t e o : outs [(t, e, o)] = (fun x => (t, x)) <$> o.
Proof. unfold outs. cbn. by rewrite app_nil_r. Qed.
Lemma beats_own a t e o : beats a [(t, e, Beat a <$> o)] = (fun x => (t, x)) <$> o.
Proof. unfold beats. rewrite outs_one. induction o as [|x o IH]; [done|]. cbn. rewrite N.eqb_refl. cbn. by f_equal. Qed.
Lemma beats_other a b t e o : a <> b -> beats a [(t, e, Beat b <$> o)] = [].
Proof. intros Hab. unfold beats. rewrite outs_one. induction o as [|x o IH]; [done|]. cbn. by rewrite (proj2 (N.eqb_neq b a)) by done. Qed.
Lemma beats_nil a t e : beats a [(t, e, [])] = [].
Proof. done. Qed.
Lemma beats_first k a t e x : beats a [(t, e, Handled x :: first_beat k a)] = if wc_timeout k =? 0 then [] else [(t, Sent 2)].
Proof. unfold first_beat, beats. rewrite outs_one. destruct (wc_timeout k =? 0); [done|]. cbn. by rewrite N.eqb_refl. Qed.
Lemma beats_first_other k a b t e x : a <> b -> beats a [(t, e, Handled x :: first_beat k b)] = [].
Proof. intros Hab. unfold first_beat, beats. rewrite outs_one. destruct (wc_timeout k =? 0); [done|]. cbn. by rewrite (proj2 (N.eqb_neq b a)) by done. Qed.
Lemma pfcp_beats t e a o : pfcp_log [(t, e, Beat a <$> o)] = [].
Proof. unfold pfcp_log. rewrite outs_one. induction o as [|x o IH]; [done|]. exact IH. Qed.

(** *** Runs *)
Lemma wrun_inv (I : wlog -> whole -> Prop) k :
  (forall lg w t e w' o, I lg w -> wstep k w t e = WDone w' o -> I (lg ++ [(t, e, o)]) w') ->
  forall l lg0 w w' lg, I lg0 w -> wrun k w l = Ran w' lg -> I (lg0 ++ lg) w'.
Proof.
  intros Hs l. induction l as [|[t e] l IH]; intros lg0 w w' lg HI H; cbn [wrun] in H.
  - injection H as <- <-. by rewrite app_nil_r.
  - destruct (wstep k w t e) as [w1 o| |] eqn:E; [|done|done]. destruct (wrun k w1 l) as [w2 lg2| |] eqn:E2; [|done|done].
    injection H as <- <-. change ((t, e, o) :: lg2) with ([(t, e, o)] ++ lg2). rewrite app_assoc. eapply IH; [|exact E2]. eapply Hs; [exact HI|exact E].
Qed.
Lemma wrun_app k l1 l2 : forall w w' lg, wrun k w (l1 ++ l2) = Ran w' lg ->
  exists w1 lg1 lg2, wrun k w l1 = Ran w1 lg1 /\ wrun k w1 l2 = Ran w' lg2 /\ lg = lg1 ++ lg2.
Proof.
  induction l1 as [|[t e] l1 IH]; intros w w' lg H; [by exists w, [], lg|]. cbn [app wrun] in *.
  destruct (wstep k w t e) as [w1 o| |] eqn:E; [|done|done]. destruct (wrun k w1 (l1 ++ l2)) as [w2 lg2| |] eqn:E2; [|done|done].
  injection H as <- <-. destruct (IH _ _ _ E2) as (w3 & g1 & g2 & -> & H2 & ->). by exists w3, ((t, e, o) :: g1), g2.
Qed.
Lemma wrun_events k l : forall w w' lg, wrun k w l = Ran w' lg -> lg.*1 = l.
Proof.
  induction l as [|[t e] l IH]; intros w w' lg H; cbn [wrun] in H; [by injection H as <- <-|].
  destruct (wstep k w t e) as [w1 o| |] eqn:E; [|done|done]. destruct (wrun k w1 l) as [w2 lg2| |] eqn:E2; [|done|done].
  injection H as <- <-. cbn. f_equal. by eapply IH.
Qed.
Lemma wrun_join k l1 l2 : forall w w1 lg1 w' lg2, wrun k w l1 = Ran w1 lg1 -> wrun k w1 l2 = Ran w' lg2 -> wrun k w (l1 ++ l2) = Ran w' (lg1 ++ lg2).
Proof.
  induction l1 as [|[t e] l1 IH]; intros w w1 lg1 w' lg2 H1 H2; cbn [app wrun] in *; [by injection H1 as <- <-|].
  destruct (wstep k w t e) as [w3 o| |] eqn:E; [|done|done]. destruct (wrun k w3 l1) as [w4 lg4| |] eqn:E2; [|done|done].
  injection H1 as <- <-. by rewrite (IH _ _ _ _ _ E2 H2).
Qed.

(** *** Steps of the task of one peer *)
Definition task_view (k : wcfg) (a : N) (w : whole) (t : N) (e : wev) (w' : whole) (o : list wout) : Prop :=
  (* nothing happens to it *)
  (wh_tasks w' !! a = wh_tasks w !! a /\ beats a [(t, e, o)] = [] /\ (forall sh, e <> GivesUp sh a)) \/
  (* it begins *)
  (wh_tasks w !! a = None /\ wh_tasks w' !! a = Some (new_task k t) /\ beats a [(t, e, o)] = (if wc_timeout k =? 0 then [] else [(t, Sent 2)]) /\
     (forall sh, e <> GivesUp sh a)) \/
  (* it makes a step *)
  (exists s since i s' b, wh_tasks w !! a = Some (Some (s, since)) /\ sched_step (wc_retries k) s i = Some (s', b) /\
     wh_tasks w' !! a = Some (Some (s', t)) /\ beats a [(t, e, o)] = (fun x => (t, x)) <$> b /\ (forall sh, e <> GivesUp sh a) /\
     (i = Timeout -> since + wc_timeout k <= t) /\ (i = Wake -> since + wc_interval k <= t) /\ (forall q, i = Answer q -> wh_loop w = Passing a q)) \/
  (* it is given up *)
  (exists since sh, e = GivesUp sh a /\ wh_tasks w !! a = Some (Some (Failing, since)) /\ wh_tasks w' !! a = None /\ beats a [(t, e, o)] = []).

Lemma wstep_task k a w t e w' o : wstep k w t e = WDone w' o ->
  dom (wh_tasks w) = dom (c_assocs (wh_conn w)) -> wh_now w <= t /\ wh_now w' = t /\ task_view k a w t e w' o.
Proof.
  intros H Hd. unfold wstep in H. destruct (N.ltb_spec t (wh_now w)) as [|Ht]; [done|].
  assert (Hts : forall b l i, task_step k t b l w i = WDone w' o -> (forall sh, e <> GivesUp sh a) ->
     (forall since s, wh_tasks w !! b = Some (Some (s, since)) -> (i = Timeout -> since + wc_timeout k <= t) /\ (i = Wake -> since + wc_interval k <= t)) ->
     (forall q, i = Answer q -> wh_loop w = Passing b q) -> wh_now w' = t /\ task_view k a w t e w' o).
  { intros b l i Hb He Hdue Hq. unfold task_step in Hb. destruct (wh_tasks w !! b) as [[[s since]|]|] eqn:Eb; [|done|done].
    destruct (sched_step _ s i) as [[s' b']|] eqn:Es; [|done]. injection Hb as <- <-. split; [done|]. destruct (Hdue _ _ eq_refl) as [D1 D2].
    destruct (decide (a = b)) as [<-|Hab].
    - right. right. left. exists s, since, i, s', b'. cbn [wh_tasks]. rewrite lookup_insert, beats_own. done.
    - left. cbn [wh_tasks]. rewrite lookup_insert_ne by done. rewrite beats_other by done. done. }
  assert (Hdue : forall b d, due w b t d = true -> forall since s, wh_tasks w !! b = Some (Some (s, since)) -> since + d <= t).
  { intros b d Hb since s Hw. unfold due in Hb. rewrite Hw in Hb. by apply N.leb_le. }
  split; [done|]. destruct e as [b q m| |sh| | |b|b|sh b| |marks vols].
  - assert (H' : WDone (Whole t (wh_conn w) (wh_loop w) (wh_queue w ++ [(b, q, m)]) (wh_tasks w)) [] = WDone w' o) by (destruct (wh_loop w); exact H).
    injection H' as <- <-. split; [done|]. left. done.
  - destruct (wh_loop w); [|done|done]. destruct (reporting w); [done|]. injection H as <- <-. split; [done|]. by left.
  - destruct (wh_loop w); [done| |done]. destruct (wh_queue w) as [|[[b q] m] rest]; [done|].
    destruct (handle sh b q m (wh_conn w)) as [c r|] eqn:Eh; [|done]. injection H as <- <-. split; [done|].
    unfold created_now. destruct (c_assocs (wh_conn w) !! b) as [x|] eqn:Eb; [by left|]. destruct (c_assocs c !! b) as [y|] eqn:Ec; [|by left].
    destruct (decide (a = b)) as [<-|Hab].
    + right. left. cbn [wh_tasks]. rewrite lookup_insert, beats_first. split; [|done]. apply not_elem_of_dom. rewrite Hd. by apply not_elem_of_dom.
    + left. cbn [wh_tasks]. rewrite lookup_insert_ne by done. rewrite beats_first_other by done. done.
  - destruct (wh_loop w) as [|u|]; [done| |done]. destruct (u <=? t); [|done]. injection H as <- <-. split; [done|]. by left.
  - destruct (wh_loop w) as [| |b q] eqn:El; [done|done|]. apply Hts in H; [done|done|by intros|by intros ? [= <-]].
  - assert (H' : (if due w b t (wc_timeout k) then task_step k t b (wh_loop w) w Timeout else WNot) = WDone w' o) by (destruct (wh_loop w); exact H).
    destruct (due w b t _) eqn:Ed; [|done]. apply Hts in H'; [done|done| |done]. intros since s Hw. split; [|done]. intros _. exact (Hdue _ _ Ed _ _ Hw).
  - assert (H' : (if due w b t (wc_interval k) then task_step k t b (wh_loop w) w Wake else WNot) = WDone w' o) by (destruct (wh_loop w); exact H).
    destruct (due w b t _) eqn:Ed; [|done]. apply Hts in H'; [done|done| |done]. intros since s Hw. split; [done|]. intros _. exact (Hdue _ _ Ed _ _ Hw).
  - destruct (wh_loop w); [|done|done]. destruct (wh_tasks w !! b) as [[[[| |] since]|]|] eqn:Eb; try done.
    destruct (prune sh b (wh_conn w)) as [c r|]; [|done]. injection H as <- <-. split; [done|]. destruct (decide (a = b)) as [<-|Hab].
    + right. right. right. exists since, sh. cbn [wh_tasks]. by rewrite lookup_delete.
    + left. cbn [wh_tasks]. rewrite lookup_delete_ne by done. split; [done|]. split; [done|]. intros sh' [=]. done.
  - destruct (wh_loop w); [|done|done]. injection H as <- <-. split; [done|]. by left.
  - assert (H' : WDone (Whole t (set_dp_rm (traffic marks vols (c_dp (wh_conn w))) (c_rm (wh_conn w)) (wh_conn w)) (wh_loop w) (wh_queue w) (wh_tasks w))
            [Handled (Traffic marks vols, None)] = WDone w' o) by (destruct (wh_loop w); exact H).
    injection H' as <- <-. split; [done|]. by left.
Qed.

(** *** The table of associations and the tasks *)
Lemma handle_dom sh a q m c c' r : handle sh a q m c = Done c' r ->
  dom (c_assocs c') = (if created_now a c c' then {[a]} else ∅) ∪ dom (c_assocs c).
Proof.
  intros H. pose proof (step_table c (Recv sh a q m) c' r H) as T. clear H.
  assert (Hins : forall addr x y, c_assocs c !! addr = Some x -> c_assocs c' = <[addr := y]> (c_assocs c) ->
    dom (c_assocs c') = (if created_now a c c' then {[a]} else ∅) ∪ dom (c_assocs c)).
  { intros addr x y Hx E. assert (created_now a c c' = false) as ->.
    { unfold created_now. rewrite E. destruct (c_assocs c !! a) eqn:Ea; [done|]. rewrite lookup_insert_ne by (intros ->; by rewrite Hx in Ea). by rewrite Ea. }
    rewrite E, dom_insert_L. apply elem_of_dom_2 in Hx. set_solver. }
  assert (Hsame : c_assocs c' = c_assocs c -> dom (c_assocs c') = (if created_now a c c' then {[a]} else ∅) ∪ dom (c_assocs c)).
  { intros E. assert (created_now a c c' = false) as ->. { unfold created_now. rewrite E. by destruct (c_assocs c !! a). } rewrite E. set_solver. }
  unfold tab_step in T.
  destruct T as [(addr & x & s & _ & _ & _ & _ & Hx & _ & E)|[(addr & x & _ & _ & _ & _ & Hx & E)|[(addr & x & seid & s & s' & _ & _ & _ & _ & Hx & _ & _ & _ & E)|[(addr & x & seid & s & _ & _ & _ & _ & Hx & _ & E)|[(addr & _ & _ & _ & Hs & E)|[(addr & x & _ & _ & Hp & _)|(_ & _ & _ & _ & E)]]]]]].
  - exact (Hins _ _ _ Hx E).
  - exact (Hins _ _ _ Hx E).
  - exact (Hins _ _ _ Hx E).
  - exact (Hins _ _ _ Hx E).
  - assert (addr = a) as ->. { unfold accepted_setup in Hs. repeat (case_match; try done); congruence. }
    destruct (c_assocs c !! a) as [x|] eqn:Ea; [by apply Hsame|]. destruct E as [n E].
    assert (created_now a c c' = true) as ->. { unfold created_now. by rewrite Ea, E, lookup_insert. } by rewrite E, dom_insert_L.
  - done.
  - by apply Hsame.
Qed.
Lemma prune_dom sh a c c' r : prune sh a c = Done c' r -> c_assocs c' = delete a (c_assocs c) /\ is_Some (c_assocs c !! a).
Proof. unfold prune. intros H. destruct (c_assocs c !! a); [|done]. destruct (prune_sessions _ _ _ _) as [[d rm]|]; [|done]. injection H as <- _. by split; [|eexists]. Qed.

Record winv (k : wcfg) (w : whole) : Prop := Winv {
  wi_dom : dom (wh_tasks w) = dom (c_assocs (wh_conn w));
  wi_pass : forall a q, wh_loop w = Passing a q -> a ∈ dom (wh_tasks w);
  wi_since : forall a s since, wh_tasks w !! a = Some (Some (s, since)) -> since <= wh_now w;
  wi_on : forall a, wh_tasks w !! a = Some None -> wc_timeout k = 0 }.
Lemma winv_start k c : c_assocs c = ∅ -> winv k (wstart c).
Proof. intros Hc. split; cbn; [by rewrite Hc, !dom_empty_L|done|by intros|by intros]. Qed.

Lemma task_step_done k t b l w i w' o : task_step k t b l w i = WDone w' o ->
  exists s since s' bo, wh_tasks w !! b = Some (Some (s, since)) /\ sched_step (wc_retries k) s i = Some (s', bo) /\
    w' = Whole t (wh_conn w) l (wh_queue w) (<[b := Some (s', t)]> (wh_tasks w)) /\ o = Beat b <$> bo.
Proof.
  unfold task_step. intros H. destruct (wh_tasks w !! b) as [[[s since]|]|] eqn:Eb; [|done|done].
  destruct (sched_step _ s i) as [[s' bo]|] eqn:Es; [|done]. injection H as <- <-. by exists s, since, s', bo.
Qed.

(** The four kinds of events. *)
Inductive wkind (k : wcfg) (w : whole) (t : N) : wev -> whole -> list wout -> Prop :=
| WkArrive a q m : wkind k w t (Arrives a q m) (Whole t (wh_conn w) (wh_loop w) (wh_queue w ++ [(a, q, m)]) (wh_tasks w)) []
| WkQuiet e l : (e = Reads /\ wh_loop w = Selecting /\ reporting w = false /\ l = Reading (t + 1000) \/ e = ReadsNothing /\ (exists u, wh_loop w = Reading u /\ u <= t) /\ l = Selecting \/
                 e = Ticks /\ wh_loop w = Selecting /\ l = Selecting) ->
    wkind k w t e (Whole t (wh_conn w) l (wh_queue w) (wh_tasks w)) []
| WkTake sh u a q m rest c r : wh_loop w = Reading u -> wh_queue w = (a, q, m) :: rest -> handle sh a q m (wh_conn w) = Done c r ->
    wkind k w t (Takes sh) (Whole t c (after a q m (wh_conn w)) rest (if created_now a (wh_conn w) c then <[a := new_task k t]> (wh_tasks w) else wh_tasks w))
       (Handled (Recv sh a q m, r) :: (if created_now a (wh_conn w) c then first_beat k a else []))
| WkTask e l i b s since s' bo : wh_tasks w !! b = Some (Some (s, since)) -> sched_step (wc_retries k) s i = Some (s', bo) ->
    (e = Meets /\ (exists q, wh_loop w = Passing b q /\ i = Answer q) /\ l = Selecting \/ e = TimerOf b /\ i = Timeout /\ l = wh_loop w /\ since + wc_timeout k <= t \/
     e = WakeOf b /\ i = Wake /\ l = wh_loop w /\ since + wc_interval k <= t) ->
    wkind k w t e (Whole t (wh_conn w) l (wh_queue w) (<[b := Some (s', t)]> (wh_tasks w))) (Beat b <$> bo)
| WkPrune sh b since c r : wh_loop w = Selecting -> wh_tasks w !! b = Some (Some (Failing, since)) -> prune sh b (wh_conn w) = Done c r ->
    wkind k w t (GivesUp sh b) (Whole t c Selecting (wh_queue w) (delete b (wh_tasks w))) [Handled (HeartbeatFailed sh b, r)]
| WkCarry marks vols : wkind k w t (Carries marks vols)
    (Whole t (set_dp_rm (traffic marks vols (c_dp (wh_conn w))) (c_rm (wh_conn w)) (wh_conn w)) (wh_loop w) (wh_queue w) (wh_tasks w)) [Handled (Traffic marks vols, None)].

Lemma due_le w b t d s since : due w b t d = true -> wh_tasks w !! b = Some (Some (s, since)) -> since + d <= t.
Proof. unfold due. intros Hb Hw. rewrite Hw in Hb. by apply N.leb_le. Qed.
Lemma wstep_kind k w t e w' o : wstep k w t e = WDone w' o -> wh_now w <= t /\ wkind k w t e w' o.
Proof.
  unfold wstep. intros H. destruct (N.ltb_spec t (wh_now w)) as [|Ht]; [done|]. split; [done|].
  destruct e as [b q m| |sh| | |b|b|sh b| |marks vols].
  - assert (H' : WDone (Whole t (wh_conn w) (wh_loop w) (wh_queue w ++ [(b, q, m)]) (wh_tasks w)) [] = WDone w' o) by (destruct (wh_loop w); exact H).
    injection H' as <- <-. constructor.
  - destruct (wh_loop w) eqn:El; [|done|done]. destruct (reporting w) eqn:Er; [done|]. injection H as <- <-. constructor. left. done.
  - destruct (wh_loop w) eqn:El; [done| |done]. destruct (wh_queue w) as [|[[b q] m] rest] eqn:Eq; [done|].
    destruct (handle sh b q m (wh_conn w)) as [c r|] eqn:Eh; [|done]. injection H as <- <-. econstructor; [exact El|exact Eq|exact Eh].
  - destruct (wh_loop w) as [|u|] eqn:El; [done| |done]. destruct (N.leb_spec u t); [|done]. injection H as <- <-. constructor. right. left. split; [done|]. split; [|done]. by exists u.
  - destruct (wh_loop w) as [| |b q] eqn:El; [done|done|]. apply task_step_done in H as (s & since & s' & bo & H1 & H2 & -> & ->).
    eapply (WkTask _ _ _ Meets _ (Answer q)); [exact H1|exact H2|]. left. split; [done|]. split; [|done]. by exists q.
  - assert (H' : (if due w b t (wc_timeout k) then task_step k t b (wh_loop w) w Timeout else WNot) = WDone w' o) by (destruct (wh_loop w); exact H).
    destruct (due w b t _) eqn:Ed; [|done]. apply task_step_done in H' as (s & since & s' & bo & H1 & H2 & -> & ->).
    eapply (WkTask _ _ _ (TimerOf b) _ Timeout); [exact H1|exact H2|]. right. left. split; [done|]. split; [done|]. split; [done|]. exact (due_le _ _ _ _ _ _ Ed H1).
  - assert (H' : (if due w b t (wc_interval k) then task_step k t b (wh_loop w) w Wake else WNot) = WDone w' o) by (destruct (wh_loop w); exact H).
    destruct (due w b t _) eqn:Ed; [|done]. apply task_step_done in H' as (s & since & s' & bo & H1 & H2 & -> & ->).
    eapply (WkTask _ _ _ (WakeOf b) _ Wake); [exact H1|exact H2|]. right. right. split; [done|]. split; [done|]. split; [done|]. exact (due_le _ _ _ _ _ _ Ed H1).
  - destruct (wh_loop w) eqn:El; [|done|done]. destruct (wh_tasks w !! b) as [[[[| |] since]|]|] eqn:Eb; try done.
    destruct (prune sh b (wh_conn w)) as [c r|] eqn:Ep; [|done]. injection H as <- <-. econstructor; [exact El|exact Eb|exact Ep].
  - destruct (wh_loop w) eqn:El; [|done|done]. injection H as <- <-. constructor. right. right. done.
  - assert (H' : WDone (Whole t (set_dp_rm (traffic marks vols (c_dp (wh_conn w))) (c_rm (wh_conn w)) (wh_conn w)) (wh_loop w) (wh_queue w) (wh_tasks w))
            [Handled (Traffic marks vols, None)] = WDone w' o) by (destruct (wh_loop w); exact H).
    injection H' as <- <-. constructor.
Qed.

Lemma winv_step k w t e w' o : winv k w -> wstep k w t e = WDone w' o -> winv k w'.
Proof.
  intros HI H. apply wstep_kind in H as [Ht H].
  assert (Hs0 : forall a s since, wh_tasks w !! a = Some (Some (s, since)) -> since <= t). { intros a s x Hx. pose proof (wi_since _ _ HI _ _ _ Hx). lia. }
  destruct HI as [I1 I2 I3 I4].
  destruct H as [a q m|e l Hl|sh u a q m rest c r El Eq Eh|e l i b s since s' bo Eb Es Hc|sh b since c r El Eb Ep|marks vols].
  - split; cbn [wh_tasks wh_conn wh_loop wh_now]; done.
  - split; cbn [wh_tasks wh_conn wh_loop wh_now]; [done| |done|done]. intros a q ->. destruct Hl as [(_ & _ & _ & ?)|[(_ & _ & ?)|(_ & _ & ?)]]; done.
  - pose proof (handle_dom _ _ _ _ _ _ _ Eh) as Hd. split; cbn [wh_tasks wh_conn wh_loop wh_now].
    + rewrite Hd. destruct (created_now a (wh_conn w) c); [by rewrite dom_insert_L, I1|rewrite I1; set_solver].
    + intros b p Hb. assert (b = a /\ is_Some (c_assocs (wh_conn w) !! a)) as [-> Ha].
      { unfold after in Hb. destruct m as [| [| |y] | | | | | | |]; try done. destruct (c_assocs (wh_conn w) !! a); [|done]. injection Hb as -> _. by split; [|eexists]. }
      assert (a ∈ dom (wh_tasks w)). { rewrite I1. by apply elem_of_dom. } destruct (created_now a (wh_conn w) c); [rewrite dom_insert_L; set_solver|done].
    + intros b s since Hb. destruct (created_now a (wh_conn w) c); [|by eapply Hs0].
      destruct (decide (b = a)) as [->|]; [|rewrite lookup_insert_ne in Hb by done; by eapply Hs0]. rewrite lookup_insert in Hb.
      unfold new_task in Hb. destruct (wc_timeout k =? 0); [done|]. injection Hb as _ <-. done.
    + intros b Hb. destruct (created_now a (wh_conn w) c); [|by eapply I4].
      destruct (decide (b = a)) as [->|]; [|rewrite lookup_insert_ne in Hb by done; by eapply I4]. rewrite lookup_insert in Hb.
      unfold new_task in Hb. destruct (N.eqb_spec (wc_timeout k) 0); done.
  - assert (Hd : dom (<[b:=Some (s', t)]> (wh_tasks w)) = dom (wh_tasks w)). { rewrite dom_insert_L. apply elem_of_dom_2 in Eb. set_solver. }
    split; cbn [wh_tasks wh_conn wh_loop wh_now].
    + by rewrite Hd.
    + intros a q Ha. rewrite Hd. destruct Hc as [(_ & _ & ->)|[(_ & _ & -> & _)|(_ & _ & -> & _)]]; [done|by eapply I2|by eapply I2].
    + intros a x y Ha. destruct (decide (a = b)) as [->|]; [|rewrite lookup_insert_ne in Ha by done; by eapply Hs0]. rewrite lookup_insert in Ha. by injection Ha as _ <-.
    + intros a Ha. destruct (decide (a = b)) as [->|]; [|rewrite lookup_insert_ne in Ha by done; by eapply I4]. by rewrite lookup_insert in Ha.
  - apply prune_dom in Ep as [Ea Hx]. split; cbn [wh_tasks wh_conn wh_loop wh_now].
    + by rewrite Ea, !dom_delete_L, I1.
    + done.
    + intros a x y Ha. destruct (decide (a = b)) as [->|]; [by rewrite lookup_delete in Ha|]. rewrite lookup_delete_ne in Ha by done. by eapply Hs0.
    + intros a Ha. destruct (decide (a = b)) as [->|]; [by rewrite lookup_delete in Ha|]. rewrite lookup_delete_ne in Ha by done. by eapply I4.
  - split; cbn [wh_tasks wh_conn wh_loop wh_now]; done.
Qed.
Lemma winv_run k l w w' lg : winv k w -> wrun k w l = Ran w' lg -> winv k w'.
Proof. intros HI H. exact (wrun_inv (fun _ w => winv k w) k (fun _ w t e w' o => winv_step k w t e w' o) l [] w w' lg HI H). Qed.

(** ** C96: the composition *)

(** Exactly the associated peers have a heartbeat task (if heartbeats are on). *)
Theorem task_per_association :
  forall k g rm d l w lg a, wrun k (wstart (init g rm d)) l = Ran w lg ->
    (is_Some (wh_tasks w !! a) <-> is_Some (c_assocs (wh_conn w) !! a)) /\ (wc_timeout k <> 0 -> wh_tasks w !! a <> Some None).
Proof.
  intros k g rm d l w lg a H. pose proof (winv_run _ _ _ _ _ (winv_start k (init g rm d) eq_refl) H) as [I1 _ _ I4]. split.
  - by rewrite <- !elem_of_dom, I1.
  - intros Hk Ha. by apply Hk, (I4 a).
Qed.

(** A report of a failed heartbeat always finds its association. *)
Theorem failure_finds_association :
  forall k g rm d l w lg a since, wrun k (wstart (init g rm d)) l = Ran w lg -> wh_tasks w !! a = Some (Some (Failing, since)) ->
    is_Some (c_assocs (wh_conn w) !! a).
Proof. intros k g rm d l w lg a since H Ha. apply (task_per_association _ _ _ _ _ _ _ a H). by eexists. Qed.

Lemma run_one es ev : forall c c1 l c' r, run c es = Some (c1, l) -> step c1 ev = Done c' r -> run c (es ++ [ev]) = Some (c', l ++ [(ev, r)]).
Proof.
  induction es as [|x es IH]; intros c c1 l c' r H Hs; cbn [run app] in *.
  - injection H as <- <-. by rewrite Hs.
  - destruct (step c x) as [c2 r2|]; [|done]. destruct (run c2 es) as [[c3 l3]|] eqn:E; [|done]. injection H as -> <-. by rewrite (IH _ _ _ _ _ E Hs).
Qed.
(** Every run of the whole is, for the session state, a run of the PFCP model: the theorems about those hold of it. *)
Theorem whole_is_run :
  forall k c l w lg, wrun k (wstart c) l = Ran w lg -> run c (pfcp_log lg).*1 = Some (wh_conn w, pfcp_log lg).
Proof.
  intros k c l w lg H.
  refine (wrun_inv (fun lg w => run c (pfcp_log lg).*1 = Some (wh_conn w, pfcp_log lg)) k _ l [] _ _ _ _ H); [|done]. clear.
  intros lg w t e w' o HI H. apply wstep_kind in H as [_ H].
  assert (Hone : forall ev r c', step (wh_conn w) ev = Done c' r ->
     run c (pfcp_log lg ++ [(ev, r)]).*1 = Some (c', pfcp_log lg ++ [(ev, r)])).
  { intros ev r c' Hs. rewrite fmap_app. exact (run_one _ _ _ _ _ _ _ HI Hs). }
  rewrite pfcp_log_app. destruct H as [a q m|e l Hl|sh u a q m rest c' r El Eq Eh|e l i b s since s' bo Eb Es Hc|sh b since c' r El Eb Ep|marks vols]; cbn [wh_conn].
  - cbn. by rewrite app_nil_r.
  - cbn. by rewrite app_nil_r.
  - assert (pfcp_log [(t, Takes sh, Handled (Recv sh a q m, r) :: (if created_now a (wh_conn w) c' then first_beat k a else []))] = [(Recv sh a q m, r)]) as ->.
    { unfold pfcp_log. rewrite outs_one. unfold first_beat. destruct (created_now _ _ _); [|done]. by destruct (wc_timeout k =? 0). }
    apply Hone. exact Eh.
  - rewrite pfcp_beats, app_nil_r. done.
  - change (pfcp_log [_]) with [(HeartbeatFailed sh b, r)]. apply Hone. exact Ep.
  - change (pfcp_log [_]) with [(Traffic marks vols, @None response)]. apply Hone. reflexivity.
Qed.

(** Each datagram is handled at most once, in the order of arrival; those not handled are still in the socket. *)
Theorem handled_in_order :
  forall k c l w lg, wrun k (wstart c) l = Ran w lg -> arrived lg = handled (pfcp_log lg) ++ wh_queue w.
Proof.
  intros k c l w lg H. refine (wrun_inv (fun lg w => arrived lg = handled (pfcp_log lg) ++ wh_queue w) k _ l [] _ _ _ _ H); [|done]. clear.
  intros lg w t e w' o HI H. apply wstep_kind in H as [_ H]. rewrite arrived_app, pfcp_log_app, handled_app, HI, <- !app_assoc. f_equal.
  destruct H as [a q m|e l Hl|sh u a q m rest c' r El Eq Eh|e l i b s since s' bo Eb Es Hc|sh b since c' r El Eb Ep|marks vols]; cbn [wh_queue].
  - done.
  - destruct Hl as [(-> & _)|[(-> & _)|(-> & _)]]; by rewrite app_nil_r.
  - assert (pfcp_log [(t, Takes sh, Handled (Recv sh a q m, r) :: (if created_now a (wh_conn w) c' then first_beat k a else []))] = [(Recv sh a q m, r)]) as ->.
    { unfold pfcp_log. rewrite outs_one. unfold first_beat. destruct (created_now _ _ _); [|done]. by destruct (wc_timeout k =? 0). }
    rewrite Eq. cbn. by rewrite app_nil_r.
  - rewrite pfcp_beats. destruct Hc as [(-> & _)|[(-> & _)|(-> & _)]]; cbn; by rewrite app_nil_r.
  - cbn. by rewrite app_nil_r.
  - cbn. by rewrite app_nil_r.
Qed.

(** *** The process survives *)
Lemma prune_safe sh a c : is_Some (c_rm c) -> is_Some (c_assocs c !! a) -> prune sh a c <> Crash.
Proof.
  intros Hrm [x Hx]. unfold prune. rewrite Hx. generalize (c_dp c) (c_rm c) Hrm. clear Hx Hrm.
  induction (entries sh 4 (a_sessions x)) as [|[i s] l IH]; intros d rm Hrm; cbn [prune_sessions]; [done|].
  assert (match prune_session sh s d rm with Some (_, rm') => is_Some rm' | None => False end) as Hp.
  { unfold prune_session.
    assert (safe has_rm (rbind (each (ign del_far) (entries sh 1 (s_fars s)) (new_work d s rm)) (fun w =>
       rbind (each (ign del_qer) (entries sh 2 (s_qers s)) w) (fun w => each (ign (fun e => delete_pdr sh (snd e))) (entries sh 0 (s_pdrs s)) w)))) as Hs.
    { apply safe_bind; [apply safe_each; [exact Hrm|]|intros w Hw; apply safe_bind; [apply safe_each; [exact Hw|]|intros w' Hw'; apply safe_each; [exact Hw'|]]].
      - intros y v _ Hv. unfold ign, del_far. repeat (case_match; simplify_eq); done.
      - intros y v _ Hv. unfold ign, del_qer. repeat (case_match; simplify_eq); done.
      - intros y v _ Hv. pose proof (delete_pdr_safe sh y.2 v Hv) as Hd. unfold ign. by destruct (delete_pdr sh y.2 v). }
    destruct (rbind _ _); done. }
  destruct (prune_session sh s d rm) as [[d' rm']|]; [|done]. by apply IH.
Qed.

Definition wev_fair (e : wev) : Prop := match e with Takes sh | GivesUp sh _ => fair sh | _ => True end.
Definition wev_safe (e : wev) : Prop := match e with Arrives _ _ m => no_crash_msg m | _ => True end.

(** Unless a message of [no_crash_msg]'s exceptions arrives, no interleaving of messages, timers and failures ends the process. *)
Theorem never_crashes_partial :
  forall k g rm d l, Forall (fun x => wev_fair (snd x) /\ wev_safe (snd x)) l -> wrun k (wstart (init g (Some rm) d)) l <> Crashed.
Proof.
  intros k g rm d l Hl.
  assert (Hgen : forall w, winv k w -> is_Some (c_rm (wh_conn w)) -> Forall (fun x => no_crash_msg (snd x)) (wh_queue w) -> wrun k w l <> Crashed).
  { induction l as [|[t e] l IH]; intros w HI Hrm Hq; cbn [wrun]; [done|]. apply Forall_cons in Hl as [[Hf Hm] Hl].
    destruct (wstep k w t e) as [w1 o| |] eqn:E; [| |done].
    - assert (wrun k w1 l <> Crashed) as Hn; [|by destruct (wrun k w1 l)]. pose proof (winv_step _ _ _ _ _ _ HI E) as HI1.
      apply wstep_kind in E as [_ E]. apply (IH Hl); [exact HI1| |]; clear HI1.
      + destruct E as [a q m|e l' Hc|sh u a q m rest c' r El Eq Eh|e l' i b s since s' bo Eb Es Hc|sh b since c' r El Eb Ep|marks vols]; cbn [wh_conn]; try done.
        * exact (step_rm (wh_conn w) (Recv sh a q m) c' r Hf Eh Hrm).
        * exact (step_rm (wh_conn w) (HeartbeatFailed sh b) c' r Hf Ep Hrm).
      + destruct E as [a q m|e l' Hc|sh u a q m rest c' r El Eq Eh|e l' i b s since s' bo Eb Es Hc|sh b since c' r El Eb Ep|marks vols]; cbn [wh_queue]; try done.
        * apply Forall_app. split; [done|]. by apply Forall_singleton.
        * rewrite Eq in Hq. by apply Forall_cons in Hq as [_ Hq].
    - exfalso. unfold wstep in E. destruct (t <? wh_now w); [done|]. destruct e as [b q m| |sh| | |b|b|sh b| |marks vols].
      + by destruct (wh_loop w).
      + destruct (wh_loop w); [|done|done]. by destruct (reporting w).
      + destruct (wh_loop w); [done| |done]. destruct (wh_queue w) as [|[[b q] m] rest] eqn:Eq; [done|]. apply Forall_cons in Hq as [Hq _].
        pose proof (no_crash_partial sh b q m (wh_conn w) Hq Hrm) as Hn. by destruct (handle sh b q m (wh_conn w)).
      + destruct (wh_loop w) as [|u|]; [done| |done]. by destruct (u <=? t).
      + destruct (wh_loop w) as [| |b q]; [done|done|]. unfold task_step in E. repeat case_match; done.
      + assert (E' : (if due w b t (wc_timeout k) then task_step k t b (wh_loop w) w Timeout else WNot) = WCrash) by (destruct (wh_loop w); exact E).
        unfold task_step in E'. repeat case_match; done.
      + assert (E' : (if due w b t (wc_interval k) then task_step k t b (wh_loop w) w Wake else WNot) = WCrash) by (destruct (wh_loop w); exact E).
        unfold task_step in E'. repeat case_match; done.
      + destruct (wh_loop w); [|done|done]. destruct (wh_tasks w !! b) as [[[[| |] since]|]|] eqn:Eb; try done.
        assert (is_Some (c_assocs (wh_conn w) !! b)) as Hx. { apply elem_of_dom. rewrite <- (wi_dom _ _ HI). apply elem_of_dom. by eexists. }
        pose proof (prune_safe sh b (wh_conn w) Hrm Hx) as Hn. by destruct (prune sh b (wh_conn w)).
      + by destruct (wh_loop w).
      + by destruct (wh_loop w). }
  apply Hgen; [by apply winv_start|by eexists|apply Forall_nil; done].
Qed.

(** ** C97: who is given up, and when *)

(** Every request to [a] is followed in less than the time-out by the next thing its task sees. *)
Definition prompt (k : wcfg) (a : N) (lg : wlog) : Prop :=
  forall x t0 n t o y, beats a lg = x ++ (t0, Sent n) :: (t, o) :: y -> t < t0 + wc_timeout k.

Lemma prompt_prefix k a l1 l2 : prompt k a (l1 ++ l2) -> prompt k a l1.
Proof. intros H x t0 n t o y E. apply (H x t0 n t o (y ++ beats a l2)). rewrite beats_app, E, <- app_assoc. done. Qed.

(** The last thing seen of the task of [a]. *)
Definition last_beat (a : N) (lg : wlog) (w : whole) : Prop :=
  match wh_tasks w !! a with
  | Some (Some (Waiting p f, since)) => exists x, beats a lg = x ++ [(since, Sent (wire p))]
  | Some (Some (Sleeping p, since)) => exists x, beats a lg = x ++ [(since, Got p)]
  | Some (Some (Failing, since)) => exists x, beats a lg = x ++ [(since, Failed)]
  | _ => True
  end.
Lemma sched_last r s i s' b : sched_step r s i = Some (s', b) ->
  exists x, b = x ++ [match s' with Waiting p _ => Sent (wire p) | Sleeping p => Got p | Failing => Failed end].
Proof.
  intros H. destruct s as [p f|p|], i as [|q|]; cbn in H; try done.
  - destruct (r <=? u32 (f + 1)); injection H as <- <-; by exists [Expired].
  - destruct (N.eqb_spec p q) as [->|]; injection H as <- <-; [by exists []|by exists [Got q]].
  - injection H as <- <-. by exists [].
Qed.
Lemma last_beat_step k a lg w t e w' o : winv k w -> last_beat a lg w -> wstep k w t e = WDone w' o -> last_beat a (lg ++ [(t, e, o)]) w'.
Proof.
  intros HI HL H. apply (wstep_task k a) in H as (_ & _ & V); [|by apply wi_dom with k]. unfold last_beat in *. rewrite beats_app.
  destruct V as [(E & B & _)|[(_ & E & B & _)|[(s & since & i & s' & b & E0 & Es & E & B & _)|(since & sh & _ & _ & E & _)]]].
  - rewrite E, B, app_nil_r. done.
  - rewrite E, B. unfold new_task. destruct (wc_timeout k =? 0); [done|]. by exists (beats a lg).
  - rewrite E, B. destruct (sched_last _ _ _ _ _ Es) as [x ->]. rewrite fmap_app, app_assoc. cbn. destruct s'; eexists; reflexivity.
  - by rewrite E.
Qed.
Lemma last_beat_run k c l w lg a : c_assocs c = ∅ -> wrun k (wstart c) l = Ran w lg -> winv k w /\ last_beat a lg w.
Proof.
  intros Hc H. refine (wrun_inv (fun lg w => winv k w /\ last_beat a lg w) k _ l [] _ _ _ _ H).
  - intros lg0 w0 t e w' o [HI HL] E. split; [by eapply winv_step|by eapply last_beat_step].
  - split; [by apply winv_start|]. done.
Qed.

(** A peer whose answers reach its task in time is never given up, whatever the other peers do and however the events interleave. *)
Theorem prompt_peer_kept :
  forall k g rm d l w lg a, wrun k (wstart (init g rm d)) l = Ran w lg -> prompt k a lg ->
    forall t sh o, (t, GivesUp sh a, o) ∉ lg.
Proof.
  intros k g rm d l w lg a H.
  refine (proj2 (proj2 (wrun_inv (fun lg w => (winv k w /\ last_beat a lg w) /\ (prompt k a lg -> forall since, wh_tasks w !! a <> Some (Some (Failing, since))) /\
     (prompt k a lg -> forall t sh o, (t, GivesUp sh a, o) ∉ lg)) k _ l [] _ _ _ _ H))).
  - clear. intros lg w t e w' o ([HI HL] & J1 & J2) H. split; [split; [by eapply winv_step|by eapply last_beat_step]|].
    apply (wstep_task k a) in H as (_ & _ & V); [|by apply wi_dom with k].
    assert (forall P : Prop, prompt k a (lg ++ [(t, e, o)]) -> (prompt k a lg -> P) -> P) as Hpre by (intros P Hp HP; apply HP; by eapply prompt_prefix).
    split.
    + intros Hp since Hf.
      destruct V as [(E & B & _)|[(_ & E & B & _)|[(s & since0 & i & s' & b & E0 & Es & E & B & _ & Hdue & _)|(since0 & sh & _ & _ & E & _)]]].
      * rewrite E in Hf. exact (J1 (prompt_prefix _ _ _ _ Hp) _ Hf).
      * rewrite E in Hf. unfold new_task in Hf. by destruct (wc_timeout k =? 0).
      * rewrite E in Hf. injection Hf as -> <-. destruct s as [p f|p|], i as [|q|]; cbn in Es; try done; [|by destruct (p =? q)].
        -- specialize (Hdue eq_refl). unfold last_beat in HL. rewrite E0 in HL. destruct HL as [x HL].
           destruct (wc_retries k <=? u32 (f + 1)); [|done]. assert (b = [Expired; Failed]) as -> by congruence. clear Es.
           specialize (Hp x since0 (wire p) t Expired [(t, Failed)]). rewrite beats_app, HL, B, <- app_assoc in Hp. specialize (Hp eq_refl). lia.
      * by rewrite E in Hf.
    + intros Hp t' sh o' Hin. apply elem_of_app in Hin as [Hin|Hin]; [exact (J2 (prompt_prefix _ _ _ _ Hp) _ _ _ Hin)|].
      apply elem_of_list_singleton in Hin. injection Hin as -> <- ->.
      destruct V as [(_ & _ & Hn)|[(_ & _ & _ & Hn)|[(s & since0 & i & s' & b & _ & _ & _ & _ & Hn & _)|(since0 & sh' & _ & E0 & _)]]].
      * by apply (Hn sh).
      * by apply (Hn sh).
      * by apply (Hn sh).
      * exact (J1 (prompt_prefix _ _ _ _ Hp) _ E0).
  - split; [split; [by apply winv_start|done]|]. split; [by intros|]. intros _ t sh o Hin. by apply elem_of_nil in Hin.
Qed.

(** Hence its sessions are exactly those it established and did not delete. *)
Lemma live_kept a seid (l : log) : Forall (fun x => pruned x <> Some a) l ->
  ((a, seid) ∈ live l <-> exists l1 x l2, l = l1 ++ x :: l2 /\ accepted_est x = Some (a, seid) /\ Forall (fun y => accepted_del y <> Some (a, seid)) l2).
Proof.
  induction l as [|y l IH] using rev_ind; intros Hl.
  { split; [unfold live; cbn; set_solver|]. intros ([|] & x & l2 & E & _); done. }
  apply Forall_app in Hl as [Hl Hy]. apply Forall_cons in Hy as [Hy _]. specialize (IH Hl). unfold live in *. rewrite foldl_app. cbn [foldl].
  assert (Hsplit : (exists l1 x l2, l ++ [y] = l1 ++ x :: l2 /\ accepted_est x = Some (a, seid) /\ Forall (fun y => accepted_del y <> Some (a, seid)) l2) <->
    accepted_est y = Some (a, seid) \/ (accepted_del y <> Some (a, seid) /\ exists l1 x l2, l = l1 ++ x :: l2 /\ accepted_est x = Some (a, seid) /\ Forall (fun y => accepted_del y <> Some (a, seid)) l2)).
  { split.
    - intros (l1 & x & l2 & E & Hx & Hd). destruct l2 as [|z l2 _] using rev_ind.
      + apply app_inj_tail in E as [_ ->]. by left.
      + rewrite app_comm_cons, app_assoc in E. apply app_inj_tail in E as [E ->]. apply Forall_app in Hd as [Hd Hz]. apply Forall_cons in Hz as [Hz _].
        right. split; [done|]. by exists l1, x, l2.
    - intros [Hx|(Hz & l1 & x & l2 & -> & Hx & Hd)]; [by exists l, y, []|]. exists l1, x, (l2 ++ [y]). split; [by rewrite <- app_assoc|]. split; [done|].
      apply Forall_app. split; [done|]. by apply Forall_singleton. }
  rewrite Hsplit, <- IH. clear IH Hsplit. generalize (foldl live_step ∅ l). intros Sset. unfold live_step.
  assert (Hed : forall z, accepted_est y = Some z -> accepted_del y = None). { intros z. destruct y as [[? ? ? []| |] r]; done. }
  destruct (accepted_est y) as [z|] eqn:Ee.
  - rewrite (Hed _ eq_refl). rewrite elem_of_union, elem_of_singleton. split; [intros [<-|]; [by left|by right]|intros [[= ->]|[_ ?]]; [by left|by right]].
  - destruct (accepted_del y) as [z|] eqn:Ed.
    + rewrite elem_of_difference, elem_of_singleton. split; [intros [? Hn]; right; split; [congruence|done]|intros [?|[Hn ?]]; [done|split; [done|congruence]]].
    + destruct (pruned y) as [b|] eqn:Ep.
      * rewrite elem_of_filter. cbn. split; [intros [_ ?]; by right|intros [?|[_ ?]]; [done|split; [congruence|done]]].
      * split; [by right|by intros [?|[_ ?]]].
Qed.
Lemma pfcp_log_in x lg : x ∈ pfcp_log lg -> exists t e o, (t, e, o) ∈ lg /\ Handled x ∈ o.
Proof.
  unfold pfcp_log, outs. intros H. apply elem_of_list_bind in H as ([t y] & Hx & H). apply elem_of_list_bind in H as ([[t' e] o] & H & Hin).
  apply elem_of_list_fmap in H as (z & [= -> ->] & Hz). cbn in Hx. destruct z; [|by apply elem_of_nil in Hx]. apply elem_of_list_singleton in Hx as ->.
  by exists t', e, o.
Qed.
Lemma wrun_entry k l : forall w w' lg t e o, wrun k w l = Ran w' lg -> (t, e, o) ∈ lg -> exists w1 w2, wstep k w1 t e = WDone w2 o.
Proof.
  induction l as [|[t1 e1] l IH]; intros w w' lg t e o H Hin; cbn [wrun] in H; [injection H as <- <-; by apply elem_of_nil in Hin|].
  destruct (wstep k w t1 e1) as [w1 o1| |] eqn:E; [|done|done]. destruct (wrun k w1 l) as [w2 lg2| |] eqn:E2; [|done|done]. injection H as <- <-.
  apply elem_of_cons in Hin as [[= -> -> ->]|Hin]; [by exists w, w1|]. by eapply IH.
Qed.
Theorem prompt_peer_sessions_kept :
  forall k g rm d l w lg a, wrun k (wstart (init g rm d)) l = Ran w lg -> prompt k a lg -> N.of_nat (length (pfcp_log lg)) <= bound ->
    forall seid, is_Some (session_of (wh_conn w) a seid) <->
      exists l1 x l2, pfcp_log lg = l1 ++ x :: l2 /\ accepted_est x = Some (a, seid) /\ Forall (fun y => accepted_del y <> Some (a, seid)) l2.
Proof.
  intros k g rm d l w lg a H Hp Hb seid. pose proof (whole_is_run _ _ _ _ _ H) as Hr.
  rewrite (session_table_follows_log _ _ _ _ _ _ Hr) by (by rewrite fmap_length). apply live_kept. apply Forall_forall. intros x Hx Hpr.
  destruct (pfcp_log_in _ _ Hx) as (t & e & o & Hin & Ho). destruct (wrun_entry _ _ _ _ _ _ _ _ H Hin) as (w1 & w2 & Hs).
  apply wstep_kind in Hs as [_ Hs]. unfold pruned in Hpr. destruct x as [[| |] r]; try done. injection Hpr as ->.
  destruct Hs as [b q m|e l' Hl|sh' u b q m rest c' r' El Eq Eh|e l' i b s since s' bo Eb Es Hc|sh' b since c' r' El Eb Ep|marks vols].
  - by apply elem_of_nil in Ho.
  - by apply elem_of_nil in Ho.
  - apply elem_of_cons in Ho as [Ho|Ho]; [done|]. destruct (created_now b _ c'); [|by apply elem_of_nil in Ho]. unfold first_beat in Ho.
    destruct (wc_timeout k =? 0); [by apply elem_of_nil in Ho|]. cbn in Ho. apply elem_of_list_singleton in Ho. done.
  - apply elem_of_list_fmap in Ho as (? & ? & _). done.
  - apply elem_of_list_singleton in Ho. injection Ho as <- <- <-. exact (prompt_peer_kept _ _ _ _ _ _ _ _ H Hp _ _ _ Hin).
  - apply elem_of_list_singleton in Ho. done.
Qed.

(** *** Not too early *)
Definition short_seq (w : whole) : Prop :=
  Forall (fun x => snd (fst x) < 2 ^ 24) (wh_queue w) /\ (forall a q, wh_loop w = Passing a q -> q < 2 ^ 24).
(** A PFCP header carries a sequence number of 24 bits. *)
Definition seq24 (e : wev) : Prop := match e with Arrives _ q _ => q < 2 ^ 24 | _ => True end.
Lemma short_seq_step k w t e w' o : seq24 e -> short_seq w -> wstep k w t e = WDone w' o -> short_seq w'.
Proof.
  intros He [S1 S2] H. apply wstep_kind in H as [_ H].
  destruct H as [a q m|e l Hl|sh u a q m rest c' r El Eq Eh|e l i b s since s' bo Eb Es Hc|sh b since c' r El Eb Ep|marks vols]; split; cbn [wh_queue wh_loop]; try done.
  - apply Forall_app. split; [done|]. by apply Forall_singleton.
  - intros a q ->. destruct Hl as [(_ & _ & _ & ?)|[(_ & _ & ?)|(_ & _ & ?)]]; done.
  - rewrite Eq in S1. by apply Forall_cons in S1 as [_ S1].
  - intros b p Hb. rewrite Eq in S1. apply Forall_cons in S1 as [S1 _]. cbn in S1. unfold after in Hb.
    destruct m as [| [| |y] | | | | | | |]; try done. destruct (c_assocs (wh_conn w) !! a); [|done]. by injection Hb as _ <-.
  - intros a q Ha. destruct Hc as [(_ & _ & ->)|[(_ & _ & -> & _)|(_ & _ & -> & _)]]; [done|by eapply S2|by eapply S2].
Qed.

(** What has been seen of [a]: a request at [t0], and since then no answer to the request last sent. *)
Definition silent_since (a : N) (lg : wlog) (t0 : N) (y : list (N * hobs)) : Prop :=
  exists x n, beats a lg = x ++ (t0, Sent n) :: y /\ unanswered (x.*2) (Sent n :: y.*2).

Definition early_inv (k : wcfg) (a : N) (lg : wlog) (w : whole) : Prop :=
  match wh_tasks w !! a with
  | Some (Some (Waiting p f, since)) =>
      (exists t0 y, silent_since a lg t0 y /\ t0 + f * wc_timeout k <= since /\ timeouts (y.*2) = f) /\
      p <= requests ((beats a lg).*2) + 1 /\ (f = 0 \/ f < wc_retries k)
  | Some (Some (Sleeping p, since)) => p <= requests ((beats a lg).*2) + 1
  | Some (Some (Failing, since)) => exists t0 y, silent_since a lg t0 y /\ t0 + N.max 1 (wc_retries k) * wc_timeout k <= since /\ N.max 1 (wc_retries k) <= timeouts (y.*2)
  | _ => True
  end.

Lemma unanswered_app o1 o2 o3 : unanswered o1 o2 -> unanswered (o1 ++ o2) o3 -> unanswered o1 (o2 ++ o3).
Proof.
  intros H1 H2 x n y E. apply app_eq_inv in E as [(u & Hu & E)|(u & Hu & E)].
  - destruct u as [|v u].
    + rewrite app_nil_r in Hu. subst x. specialize (H2 [] n y (eq_sym E)). by rewrite app_nil_r in H2.
    + injection E as <- _. exact (H1 _ _ _ Hu).
  - subst x. rewrite app_assoc. exact (H2 _ _ _ E).
Qed.
Lemma silent_snoc a lg t e o t0 y z : silent_since a lg t0 y -> beats a [(t, e, o)] = z -> unanswered ((beats a lg).*2) (z.*2) ->
  silent_since a (lg ++ [(t, e, o)]) t0 (y ++ z).
Proof.
  intros (x & n & E & U) Ez Hz. exists x, n. rewrite beats_app, Ez, E, <- app_assoc. split; [done|]. rewrite fmap_app, app_comm_cons.
  apply unanswered_app; [exact U|]. rewrite E, fmap_app in Hz. exact Hz.
Qed.
Lemma silent_new a lg t e o z n : beats a [(t, e, o)] = z ++ [(t, Sent n)] -> silent_since a (lg ++ [(t, e, o)]) t [].
Proof.
  intros E. exists (beats a lg ++ z), n. rewrite beats_app, E, app_assoc. split; [done|]. intros [|v x] m y Ex; [done|]. injection Ex as <- Ex. by destruct x.
Qed.
Lemma fmap_pair (t : N) (b : list hobs) : (((fun x => (t, x)) <$> b) : list (N * hobs)).*2 = b.
Proof. induction b; cbn; [done|]. by f_equal. Qed.

Lemma early_step k a lg w t e w' o : winv k w -> short_seq w -> last_beat a lg w -> wc_retries k < 2 ^ 32 ->
  requests ((beats a (lg ++ [(t, e, o)])).*2) < 16777215 -> early_inv k a lg w -> wstep k w t e = WDone w' o -> early_inv k a (lg ++ [(t, e, o)]) w'.
Proof.
  intros HI [_ HS] HL Hr Hreq HE H.
  assert (Hreq0 : requests ((beats a lg).*2) <= requests ((beats a (lg ++ [(t, e, o)])).*2)). { rewrite beats_app, fmap_app, requests_app. lia. }
  apply (wstep_task k a) in H as (Hnow & _ & V); [|by apply wi_dom with k]. unfold early_inv in *.
  destruct V as [(E & B & _)|[(_ & E & B & _)|[(s & since & i & s' & b & E0 & Es & E & B & _ & Hdue & _ & Hans)|(since & sh & _ & _ & E & _)]]].
  - rewrite E. unfold silent_since in *. rewrite beats_app, B, app_nil_r. exact HE.
  - rewrite E. unfold new_task. destruct (wc_timeout k =? 0) eqn:Ek; [done|]. change (fst sched_start) with (Waiting 2 0). cbn match.
    split; [|split; [|by left]].
    + exists t, []. split; [by apply (silent_new a lg t e o [] 2)|]. cbn. lia.
    + rewrite beats_app, B, fmap_app, requests_app. change (requests ([(t, Sent 2)].*2)) with 1. lia.
  - rewrite E. rewrite E0 in HE.
    pose proof (wi_since _ _ HI _ _ _ E0) as Hsince. unfold last_beat in HL. rewrite E0 in HL.
    assert (Hbr : (beats a (lg ++ [(t, e, o)])).*2 = (beats a lg).*2 ++ b). { by rewrite beats_app, B, fmap_app, fmap_pair. }
    rewrite Hbr, requests_app in Hreq. rewrite ?Hbr, ?requests_app.
    destruct s as [p f|p|], i as [|q|]; cbn [sched_step] in Es; try done.
    + destruct HE as ((t0 & y & Hsil & Ht0 & Hty) & Hp & Hf). specialize (Hdue eq_refl).
      assert (Hf32 : u32 (f + 1) = f + 1). { unfold u32. apply N.mod_small. lia. } rewrite Hf32 in Es.
      destruct (N.leb_spec (wc_retries k) (f + 1)) as [Hle|Hlt]; injection Es as <- <-.
      * exists t0, (y ++ [(t, Expired); (t, Failed)]). split; [|split].
        -- eapply silent_snoc; [exact Hsil|exact B|]. intros [|? [|? [|? ?]]] m z Ez; done.
        -- assert (N.max 1 (wc_retries k) <= f + 1) by lia. assert (N.max 1 (wc_retries k) * wc_timeout k <= (f + 1) * wc_timeout k) by (by apply N.mul_le_mono_r). lia.
        -- rewrite fmap_app, timeouts_app, Hty. change (timeouts _) with 1 at 1. lia.
      * assert (Hn : next_seq p = p + 1). { change (requests [Expired; Sent (wire (next_seq p))]) with 1 in Hreq. unfold next_seq, u32. apply N.mod_small. lia. }
        split; [|split].
        -- exists t0, (y ++ [(t, Expired); (t, Sent (wire (next_seq p)))]). split; [|split].
           ++ eapply silent_snoc; [exact Hsil|exact B|]. intros [|? [|? [|? ?]]] m z Ez; done.
           ++ lia.
           ++ rewrite fmap_app, timeouts_app, Hty. change (timeouts _) with 1 at 1. lia.
        -- rewrite Hn. change (requests [Expired; _]) with 1. lia.
        -- by right.
    + destruct HE as ((t0 & y & Hsil & Ht0 & Hty) & Hp & Hf). specialize (HS a q (Hans q eq_refl)). destruct HL as [x HL].
      assert (Hw : wire p = p). { unfold wire. apply N.mod_small. lia. }
      destruct (N.eqb_spec p q) as [->|Hne]; injection Es as <- <-.
      * change (requests [Got q]) with 0. lia.
      * assert (Hn : next_seq p = p + 1). { change (requests [Got q; Sent (wire (next_seq p))]) with 1 in Hreq. unfold next_seq, u32. apply N.mod_small. lia. }
        split; [|split].
        -- exists t0, (y ++ [(t, Got q); (t, Sent (wire (next_seq p)))]). split; [|split].
           ++ eapply silent_snoc; [exact Hsil|exact B|]. intros [|v1 [|v2 [|? ?]]] m z Ez; try done. cbn in Ez. injection Ez as -> _.
              rewrite app_nil_r, HL, fmap_app. cbn. rewrite last_sent_app_sent, Hw. congruence.
           ++ lia.
           ++ rewrite fmap_app, timeouts_app, Hty. change (timeouts _) with 0 at 1. lia.
        -- rewrite Hn. change (requests [Got q; _]) with 1. lia.
        -- done.
    + injection Es as <- <-. change (requests [Sent (wire (next_seq p))]) with 1 in *.
      assert (Hn : next_seq p = p + 1). { unfold next_seq, u32. apply N.mod_small. lia. }
      split; [|split; [lia|by left]]. exists t, []. split; [by apply (silent_new a lg t e o [] (wire (next_seq p)))|]. cbn. lia.
  - by rewrite E.
Qed.

(** An association is given up no earlier than the configured number of time-outs after a request, with no answer to the last request in
    between.  For peers sent fewer than 2^24 - 1 requests. *)
Theorem given_up_not_early_partial :
  forall k g rm d l w l1 t sh a o l2, wrun k (wstart (init g rm d)) l = Ran w (l1 ++ (t, GivesUp sh a, o) :: l2) ->
    wc_retries k < 2 ^ 32 -> Forall (fun x => seq24 (snd x)) l -> requests ((beats a l1).*2) < 16777215 ->
    exists t0 y, silent_since a l1 t0 y /\ t0 + N.max 1 (wc_retries k) * wc_timeout k <= t /\ N.max 1 (wc_retries k) <= timeouts (y.*2).
Proof.
  intros k g rm d l w l1 t sh a o l2 H Hr Hl Hreq. pose proof (wrun_events _ _ _ _ _ H) as He. rewrite fmap_app in He. cbn in He. subst l.
  apply wrun_app in H as (w1 & lg1 & lg2 & H1 & H2 & E).
  assert (lg1 = l1) as ->. { pose proof (wrun_events _ _ _ _ _ H1) as He. apply (f_equal length) in He. rewrite !fmap_length in He. by apply app_inj_1 in E as [<- _]. }
  apply Forall_app in Hl as [Hl _].
  assert (early_inv k a l1 w1 /\ winv k w1) as [HE HI].
  { assert (Hgen : forall l2 lg0 w lg w', Forall (fun x => seq24 (snd x)) l2 -> winv k w -> short_seq w -> last_beat a lg0 w -> early_inv k a lg0 w ->
      wrun k w l2 = Ran w' lg -> requests ((beats a (lg0 ++ lg)).*2) < 16777215 -> early_inv k a (lg0 ++ lg) w').
    { clear -Hr. induction l2 as [|[t e] l IH]; intros lg0 w lg w' Hl HI HS HL HE H Hreq; cbn [wrun] in H; [injection H as <- <-; by rewrite app_nil_r|].
      apply Forall_cons in Hl as [He Hl]. destruct (wstep k w t e) as [w1 o| |] eqn:E; [|done|done]. destruct (wrun k w1 l) as [w2 lg2| |] eqn:E2; [|done|done].
      injection H as <- <-. change ((t, e, o) :: lg2) with ([(t, e, o)] ++ lg2) in *. rewrite app_assoc in *. eapply IH; [exact Hl| | | | |exact E2|exact Hreq].
      - by eapply winv_step.
      - by eapply short_seq_step.
      - by eapply last_beat_step.
      - eapply early_step; [exact HI|exact HS|exact HL|exact Hr| |exact HE|exact E]. rewrite beats_app, fmap_app, requests_app in Hreq. lia. }
    pose proof (winv_start k (init g rm d) eq_refl) as HI0.
    split; [|by eapply winv_run]. apply (Hgen _ [] _ _ _ Hl HI0) in H1; [done| |done|done|exact Hreq]. split; [by apply Forall_nil|done]. }
  cbn [wrun] in H2. destruct (wstep k w1 t (GivesUp sh a)) as [w2 o2| |] eqn:Es; [|done|done]. apply (wstep_task k a) in Es as (Hnow & _ & V); [|by apply wi_dom with k].
  destruct V as [(_ & _ & Hn)|[(_ & _ & _ & Hn)|[(s & since & i & s' & b & _ & _ & _ & _ & Hn & _)|(since & sh' & _ & E0 & _)]]].
  - by destruct (Hn sh).
  - by destruct (Hn sh).
  - by destruct (Hn sh).
  - unfold early_inv in HE. rewrite E0 in HE. destruct HE as (t0 & y & A1 & A2 & A3). exists t0, y. split; [done|]. split; [|done].
    pose proof (wi_since _ _ HI _ _ _ E0). lia.
Qed.

(** *** Not too late *)

(** Timers and pauses of the task of [a] end at most [delta] late. *)
Definition punctual (k : wcfg) (delta a : N) (lg : wlog) : Prop :=
  forall l1 t e o l2 x t0 b, lg = l1 ++ (t, e, o) :: l2 -> beats a l1 = x ++ [(t0, b)] ->
    match b with Sent _ => t <= t0 + wc_timeout k + delta | Got _ => t <= t0 + wc_interval k + delta | _ => True end.

Lemma few_failures k c l w lg : c_assocs c = ∅ -> wrun k (wstart c) l = Ran w lg -> wc_retries k < 2 ^ 32 ->
  forall a p f since, wh_tasks w !! a = Some (Some (Waiting p f, since)) -> f = 0 \/ f < wc_retries k.
Proof.
  intros Hc H Hr a. refine (proj2 (wrun_inv (fun lg w => winv k w /\ forall p f since, wh_tasks w !! a = Some (Some (Waiting p f, since)) -> f = 0 \/ f < wc_retries k) k _ l [] _ _ _ _ H)).
  - clear -Hr. intros lg w t e w' o [HI J] H. split; [by eapply winv_step|].
    apply (wstep_task k a) in H as (_ & _ & V); [|by apply wi_dom with k]. intros p f since0 Hw.
    destruct V as [(E & B & _)|[(_ & E & B & _)|[(s & since & i & s' & b & E0 & Es & E & B & _)|(since & sh & _ & _ & E & _)]]]; rewrite E in Hw.
    + by eapply J.
    + unfold new_task in Hw. destruct (wc_timeout k =? 0); [done|]. injection Hw as _ <- _. by left.
    + injection Hw as -> _. destruct s as [p1 f1|p1|], i as [|q|]; cbn in Es; try done.
      * pose proof (J _ _ _ E0) as Hf. assert (Hf32 : u32 (f1 + 1) = f1 + 1). { unfold u32. apply N.mod_small. lia. } rewrite Hf32 in Es.
        destruct (N.leb_spec (wc_retries k) (f1 + 1)); [done|]. injection Es as _ <- _. by right.
      * destruct (p1 =? q); [done|]. injection Es as _ <- _. by eapply J.
      * injection Es as _ <- _. by left.
    + done.
  - split; [by apply winv_start|]. by intros.
Qed.

(** A peer that is associated at some time and does not answer any more is reported as failed within a pause and the configured number of
    time-outs, each with its delay. *)
Theorem silent_peer_reported_partial :
  forall k g rm d l1 w1 lg1 l2 w2 lg2 a delta,
    wrun k (wstart (init g rm d)) l1 = Ran w1 lg1 -> wrun k w1 l2 = Ran w2 lg2 ->
    wc_timeout k <> 0 -> wc_retries k < 2 ^ 32 -> is_Some (c_assocs (wh_conn w1) !! a) ->
    punctual k delta a (lg1 ++ lg2) -> (forall t n, (t, Got n) ∉ beats a lg2) ->
    let deadline := wh_now w1 + (wc_interval k + delta) + N.max 1 (wc_retries k) * (wc_timeout k + delta) in
    deadline < wh_now w2 -> exists t, (t, Failed) ∈ beats a (lg1 ++ lg2) /\ t <= deadline /\ (last (beats a lg1) <> Some (t, Failed) -> (t, Failed) ∈ beats a lg2).
Proof.
  intros k g rm d l1 w1 lg1 l2 w2 lg2 a delta H1 H2 Hk Hr Ha Hp Hg deadline Hlate.
  destruct (last_beat_run k (init g rm d) _ _ _ a eq_refl H1) as [HI HL]. pose proof (few_failures k (init g rm d) _ _ _ eq_refl H1 Hr a) as HF.
  destruct (task_per_association _ _ _ _ _ _ _ a H1) as [T1 T2]. apply T1 in Ha as [[[s since]|] Hs]; [|by destruct (T2 Hk)]. clear T1 T2.
  pose proof (wi_since _ _ HI _ _ _ Hs) as Hsince. set (R := N.max 1 (wc_retries k)) in *. set (D := wc_timeout k + delta) in *.
  set (J := fun (lg : wlog) (w : whole) =>
    (exists t, (t, Failed) ∈ beats a (lg1 ++ lg) /\ t <= deadline /\ (last (beats a lg1) <> Some (t, Failed) -> (t, Failed) ∈ beats a lg)) \/
    (wh_now w <= deadline /\ exists s since, wh_tasks w !! a = Some (Some (s, since)) /\
       match s with
       | Waiting p f => f < R /\ since + (R - f) * D <= deadline
       | Sleeping p => since + (wc_interval k + delta) + R * D <= deadline
       | Failing => False
       end)).
  assert (J [] w1) as HJ.
  { unfold J. destruct s as [p f|p|].
    - right. split; [lia|]. exists (Waiting p f), since. split; [done|]. specialize (HF _ _ _ Hs). split; [lia|]. assert ((R - f) * D <= R * D) by (apply N.mul_le_mono_r; lia). lia.
    - right. split; [lia|]. exists (Sleeping p), since. split; [done|]. lia.
    - left. unfold last_beat in HL. rewrite Hs in HL. destruct HL as [x HL]. exists since. rewrite app_nil_r, HL. split; [apply elem_of_app; right; left|]. split; [lia|].
      rewrite last_snoc. done. }
  assert (forall l lg0 w w' lg, winv k w -> last_beat a (lg1 ++ lg0) w -> J lg0 w -> punctual k delta a (lg1 ++ lg0 ++ lg) -> (forall t n, (t, Got n) ∉ beats a (lg0 ++ lg)) ->
     wrun k w l = Ran w' lg -> J (lg0 ++ lg) w') as Hgen.
  { clear -Hr R. induction l as [|[t e] l IH]; intros lg0 w w' lg HI HL HJ Hp Hg H; cbn [wrun] in H; [injection H as <- <-; by rewrite app_nil_r|].
    destruct (wstep k w t e) as [w3 o| |] eqn:E; [|done|done]. destruct (wrun k w3 l) as [w4 lg4| |] eqn:E2; [|done|done].
    injection H as <- <-. change ((t, e, o) :: lg4) with ([(t, e, o)] ++ lg4) in *. rewrite (app_assoc lg0) in *.
    eapply IH; [by eapply winv_step| | |exact Hp|exact Hg|exact E2]. { rewrite app_assoc. by eapply last_beat_step. }
    assert (Hg1 : forall t' n, (t', Got n) ∉ beats a [(t, e, o)]). { intros t' n Hin. apply (Hg t' n). rewrite !beats_app, !elem_of_app. auto. }
    unfold J in HJ |- *. destruct HJ as [(t1 & A1 & A2 & A3)|(Hnow & s & since & Hs & HJ)].
    { left. exists t1. rewrite app_assoc, (beats_app a (lg1 ++ lg0)), (beats_app a lg0). split; [apply elem_of_app; by left|]. split; [done|]. intros Hn. apply elem_of_app. left. by apply A3. }
    pose proof HL as HL0. unfold last_beat in HL. rewrite Hs in HL.
    assert (Ht : t <= deadline /\ match s with Waiting _ _ => t <= since + D | Sleeping _ => t <= since + (wc_interval k + delta) | Failing => True end).
    { destruct s as [p f|p|]; [| |done]; destruct HL as [x HL].
      - specialize (Hp (lg1 ++ lg0) t e o lg4 x since (Sent (wire p))). rewrite <- !app_assoc in Hp. specialize (Hp eq_refl HL).
        cbn in Hp. destruct HJ as [Hf HJ]. assert (1 * D <= (R - f) * D) by (apply N.mul_le_mono_r; lia). lia.
      - specialize (Hp (lg1 ++ lg0) t e o lg4 x since (Got p)). rewrite <- !app_assoc in Hp. specialize (Hp eq_refl HL).
        cbn in Hp. lia. }
    destruct Ht as [Ht Hts].
    pose proof (wstep_task k a _ _ _ _ _ E (wi_dom _ _ HI)) as (_ & Hn3 & V).
    destruct V as [(Ew & B & _)|[(Ew & _)|[(s0 & since0 & i & s' & b & E0 & Es & Ew & B & _ & Hdue & Hwake & _)|(since0 & sh & _ & E0 & Ew & _)]]].
    - right. split; [lia|]. exists s, since. by rewrite Ew.
    - congruence.
    - rewrite E0 in Hs. injection Hs as -> ->. rewrite B in Hg1.
      assert (Hf0 : forall p f, s = Waiting p f -> u32 (f + 1) = f + 1). { intros p f ->. unfold u32. apply N.mod_small. unfold R in HJ. lia. }
      destruct s as [p f|p|], i as [|q|]; cbn [sched_step] in Es; try done.
      + rewrite (Hf0 _ _ eq_refl) in Es. destruct HJ as [Hf HJ]. destruct (N.leb_spec (wc_retries k) (f + 1)) as [Hle|Hlt]; injection Es as <- <-.
        * left. exists t. rewrite app_assoc, (beats_app a (lg1 ++ lg0)), (beats_app a lg0), B. assert ((t, Failed) ∈ ((fun x => (t, x)) <$> [Expired; Failed])) by (right; left).
          split; [apply elem_of_app; by right|]. split; [lia|]. intros _. apply elem_of_app. by right.
        * right. split; [lia|]. exists (Waiting (next_seq p) (f + 1)), t. split; [done|]. split; [lia|].
          replace (R - f) with ((R - (f + 1)) + 1) in HJ by lia. lia.
      + exfalso. destruct (p =? q); injection Es as <- <-; apply (Hg1 t q); left.
      + injection Es as <- <-. right. split; [lia|]. exists (Waiting (next_seq p) 0), t. split; [done|]. split; [lia|]. rewrite N.sub_0_r. lia.
    - rewrite E0 in Hs. injection Hs as <- <-. done. }
  apply (Hgen l2 [] w1 w2 lg2) in HJ; [|exact HI|by rewrite app_nil_r|exact Hp|exact Hg|exact H2].
  destruct HJ as [HJ|[HJ _]]; [exact HJ|lia].
Qed.

Lemma reported_then_gone k l : forall w w' lg a since, wrun k w l = Ran w' lg -> wh_tasks w !! a = Some (Some (Failing, since)) ->
    (forall t sh o, (t, GivesUp sh a, o) ∉ lg) -> dom (wh_tasks w) = dom (c_assocs (wh_conn w)) ->
    (length (handled (pfcp_log lg)) <= match wh_loop w with Reading _ => 1 | _ => 0 end)%nat.
Proof.
  induction l as [|[t e] l IH]; intros w w' lg a since H Hf Hn Hd; cbn [wrun] in H; [injection H as <- <-; cbn; lia|].
  destruct (wstep k w t e) as [w3 o| |] eqn:E; [|done|done]. destruct (wrun k w3 l) as [w4 lg4| |] eqn:E2; [|done|done]. injection H as <- <-.
  pose proof (wstep_task k a _ _ _ _ _ E Hd) as (_ & _ & V).
  assert (Hd3 : dom (wh_tasks w3) = dom (c_assocs (wh_conn w3))).
  { clear -E Hd. apply wstep_kind in E as [_ E].
    destruct E as [b q m|e l' Hl|sh u b q m rest c r El Eq Eh|e l' i b s since s' bo Eb Es Hc|sh b since c r El Eb Ep|marks vols]; cbn [wh_tasks wh_conn]; try done.
    - rewrite (handle_dom _ _ _ _ _ _ _ Eh). destruct (created_now b (wh_conn w) c); [by rewrite dom_insert_L, Hd|rewrite Hd; set_solver].
    - rewrite dom_insert_L, <- Hd. apply elem_of_dom_2 in Eb. set_solver.
    - apply prune_dom in Ep as [-> _]. by rewrite !dom_delete_L, Hd. }
  assert (Hf3 : wh_tasks w3 !! a = Some (Some (Failing, since))).
  { destruct V as [(Ew & _)|[(Ew & _)|[(s0 & since0 & i & s' & b & E0 & Es & _)|(since0 & sh & -> & _)]]].
    - congruence.
    - congruence.
    - rewrite E0 in Hf. injection Hf as -> ->. by destruct i.
    - destruct (Hn t sh o). left. }
  assert (Hrep : reporting w = true).
  { unfold reporting. apply existsb_exists. exists (a, Some (Failing, since)). split; [|done]. apply elem_of_list_In. by apply elem_of_map_to_list. }
  change ((t, e, o) :: lg4) with ([(t, e, o)] ++ lg4). rewrite pfcp_log_app, handled_app, app_length.
  specialize (IH w3 w4 lg4 a since E2 Hf3). specialize (IH ltac:(intros t' sh' o' Hin; apply (Hn t' sh' o'); by right) Hd3).
  apply wstep_kind in E as [_ E].
  destruct E as [b q m|e l' Hl|sh u b q m rest c r El Eq Eh|e l' i b s since' s' bo Eb Es Hc|sh b since' c r El Eb Ep|marks vols]; cbn [wh_loop] in IH.
  - cbn. exact IH.
  - cbn. destruct Hl as [(_ & _ & Hx & _)|[(_ & (u & -> & _) & ->)|(_ & -> & ->)]]; [congruence|lia|lia].
  - assert (pfcp_log [(t, Takes sh, Handled (Recv sh b q m, r) :: (if created_now b (wh_conn w) c then first_beat k b else []))] = [(Recv sh b q m, r)]) as ->.
    { unfold pfcp_log. rewrite outs_one. unfold first_beat. destruct (created_now _ _ _); [|done]. by destruct (wc_timeout k =? 0). }
    rewrite El. cbn. assert (after b q m (wh_conn w) = Selecting \/ exists x y, after b q m (wh_conn w) = Passing x y) as [Hx|(x & y & Hx)].
    { unfold after. repeat case_match; eauto. }
    + rewrite Hx in IH. lia.
    + rewrite Hx in IH. lia.
  - rewrite pfcp_beats. cbn. destruct Hc as [(_ & (q & -> & _) & ->)|[(_ & _ & -> & _)|(_ & _ & -> & _)]]; lia.
  - rewrite El. cbn. lia.
  - cbn. lia.
Qed.
(** A reported failure is acted upon before anything else is taken from the socket, but for one message the loop may already be waiting for. *)
Theorem reported_then_given_up :
  forall k g rm d l1 w1 lg1 l2 w2 lg2 a since, wrun k (wstart (init g rm d)) l1 = Ran w1 lg1 -> wrun k w1 l2 = Ran w2 lg2 ->
    wc_timeout k <> 0 -> last (beats a lg1) = Some (since, Failed) -> is_Some (c_assocs (wh_conn w1) !! a) ->
    (forall t sh o, (t, GivesUp sh a, o) ∉ lg2) ->
    (length (handled (pfcp_log lg2)) <= match wh_loop w1 with Reading _ => 1 | _ => 0 end)%nat.
Proof.
  intros k g rm d l1 w1 lg1 l2 w2 lg2 a since H1 H2 Hk Hl Ha Hn. destruct (last_beat_run k (init g rm d) _ _ _ a eq_refl H1) as [HI HL].
  assert (wh_tasks w1 !! a = Some (Some (Failing, since))) as Hf.
  { destruct (task_per_association _ _ _ _ _ _ _ a H1) as [T1 T2]. apply T1 in Ha as [[[s x]|] Hs]; [|by destruct (T2 Hk)].
    rewrite Hs. unfold last_beat in HL. rewrite Hs in HL. destruct s as [p f|p|]; destruct HL as [y HL]; rewrite HL, last_snoc in Hl; [done|done|]. by injection Hl as ->. }
  exact (reported_then_gone _ _ _ _ _ _ _ H2 Hf Hn (wi_dom _ _ HI)).
Qed.

(** ** C98: how often heartbeats are sent *)

(** Every answer the task of [a] takes answers the request it last sent. *)
Definition calm (a : N) (lg : wlog) : Prop := forall x t n y, beats a lg = x ++ (t, Got n) :: y -> last_sent (x.*2) = Some n.
Definition apart (d a : N) (lg : wlog) : Prop :=
  forall x t1 n1 y t2 n2 z, beats a lg = x ++ (t1, Sent n1) :: y ++ (t2, Sent n2) :: z -> (forall t, (t, Failed) ∉ y) -> t1 + d <= t2.
Lemma calm_prefix a l1 l2 : calm a (l1 ++ l2) -> calm a l1.
Proof. intros H x t n y E. apply (H x t n (y ++ beats a l2)). by rewrite beats_app, E, <- app_assoc. Qed.

Lemma apart_snoc d a lg t e o b n : apart d a lg -> beats a [(t, e, o)] = b ++ [(t, Sent n)] -> (forall t' m, (t', Sent m) ∉ b) ->
  (forall t1 n1 y x, beats a lg = x ++ (t1, Sent n1) :: y -> (forall t', (t', Failed) ∉ y) -> t1 + d <= t) -> apart d a (lg ++ [(t, e, o)]).
Proof.
  intros HA E Hb Hlast x t1 n1 y t2 n2 z Ex Hy. rewrite beats_app, E in Ex. destruct z as [|v z _] using rev_ind.
  - rewrite app_assoc, app_comm_cons, app_assoc in Ex. apply app_inj_tail in Ex as [Ex [= -> ->]].
    apply app_eq_inv in Ex as [(u & Hu & Ex)|(u & Hu & Ex)].
    + destruct u as [|v u].
      * exfalso. apply (Hb t1 n1). cbn in Ex; rewrite <- Ex; left.
      * injection Ex as <- Ex. apply (Hlast t1 n1 u x); [exact Hu|]. intros t' Hin. apply (Hy t'). rewrite Ex. apply elem_of_app. by left.
    + exfalso. apply (Hb t1 n1). rewrite Ex. apply elem_of_app. right. left.
  - assert (Hz : x ++ (t1, Sent n1) :: y ++ (t2, Sent n2) :: z ++ [v] = (x ++ (t1, Sent n1) :: y ++ (t2, Sent n2) :: z) ++ [v]).
    { by rewrite <- app_assoc; cbn; rewrite <- app_assoc. }
    rewrite Hz in Ex. rewrite app_assoc in Ex. apply app_inj_tail in Ex as [Ex _]. clear Hz.
    rewrite app_comm_cons, app_assoc in Ex. apply app_eq_inv in Ex as [(u & Hu & Ex)|(u & Hu & Ex)].
    + destruct u as [|w u].
      * exfalso. apply (Hb t2 n2). cbn in Ex; rewrite <- Ex; left.
      * injection Ex as <- Ex. rewrite <- app_assoc in Hu. cbn in Hu. by apply (HA x t1 n1 y t2 n2 u).
    + exfalso. apply (Hb t2 n2). rewrite Ex. apply elem_of_app. right. left.
Qed.
Lemma apart_quiet d a lg t e o : apart d a lg -> (forall t' m, (t', Sent m) ∉ beats a [(t, e, o)]) -> apart d a (lg ++ [(t, e, o)]).
Proof.
  intros HA Hb x t1 n1 y t2 n2 z Ex Hy. rewrite beats_app in Ex. rewrite app_comm_cons, app_assoc in Ex.
  apply app_eq_inv in Ex as [(u & Hu & Ex)|(u & Hu & Ex)].
  - destruct u as [|w u].
    + exfalso. apply (Hb t2 n2). cbn [app] in Ex; rewrite <- Ex; left.
    + injection Ex as <- Ex. rewrite <- app_assoc in Hu. cbn in Hu. by apply (HA x t1 n1 y t2 n2 u).
  - exfalso. apply (Hb t2 n2). rewrite Ex. apply elem_of_app. right. left.
Qed.

Record rate_inv (k : wcfg) (a : N) (lg : wlog) (w : whole) : Prop := RateInv {
  ri_past : forall t b, (t, b) ∈ beats a lg -> t <= wh_now w /\ (forall s since, wh_tasks w !! a = Some (Some (s, since)) -> t <= since);
  ri_none : wh_tasks w !! a = None -> beats a lg = [] \/ exists x t, beats a lg = x ++ [(t, Failed)];
  ri_count : forall s since p, wh_tasks w !! a = Some (Some (s, since)) -> (s = Sleeping p \/ exists f, s = Waiting p f) -> p <= requests ((beats a lg).*2) + 1;
  ri_apart : apart (N.min (wc_timeout k) (wc_interval k)) a lg }.

Lemma rate_step k a lg w t e w' o : winv k w -> short_seq w -> last_beat a lg w -> calm a (lg ++ [(t, e, o)]) ->
  requests ((beats a (lg ++ [(t, e, o)])).*2) < 16777215 -> rate_inv k a lg w -> wstep k w t e = WDone w' o -> rate_inv k a (lg ++ [(t, e, o)]) w'.
Proof.
  intros HI [_ HS] HL Hcalm Hreq [R1 R2 R3 R4] H.
  apply (wstep_task k a) in H as (Hnow & Hnow' & V); [|by apply wi_dom with k].
  assert (Hbr : forall s i s' b, beats a [(t, e, o)] = (fun x => (t, x)) <$> b -> sched_step (wc_retries k) s i = Some (s', b) ->
     (beats a (lg ++ [(t, e, o)])).*2 = (beats a lg).*2 ++ b). { intros s i s' b B _. by rewrite beats_app, B, fmap_app, fmap_pair. }
  assert (Hpast : forall b t' x, beats a [(t, e, o)] = (fun x => (t, x)) <$> b -> (t', x) ∈ beats a (lg ++ [(t, e, o)]) -> t' <= t).
  { intros b t' x B Hin. rewrite beats_app, B in Hin. apply elem_of_app in Hin as [Hin|Hin]; [specialize (R1 _ _ Hin) as [R1 _]; lia|].
    apply elem_of_list_fmap in Hin as (? & [= -> _] & _). lia. }
  destruct V as [(E & B & _)|[(E0 & E & B & _)|[(s & since & i & s' & b & E0 & Es & E & B & _ & Hdue & Hwake & Hans)|(since & sh & Ee & E0 & E & B)]]].
  - split.
    + intros t' b Hin. rewrite beats_app, B, app_nil_r in Hin. rewrite E. destruct (R1 _ _ Hin) as [A1 A2]. split; [lia|done].
    + rewrite E, beats_app, B, app_nil_r. done.
    + rewrite E, beats_app, B, app_nil_r. done.
    + apply apart_quiet; [done|]. intros t' m Hin. rewrite B in Hin. by apply elem_of_nil in Hin.
  - unfold new_task in E. destruct (wc_timeout k =? 0) eqn:Ek.
    + split; rewrite ?E; [|done|done|].
      * intros t' b Hin. split; [|done]. rewrite Hnow'. exact (Hpast [] t' b B Hin).
      * apply apart_quiet; [done|]. intros t' m Hin. rewrite B in Hin. by apply elem_of_nil in Hin.
    + split; rewrite ?E.
      * intros t' b Hin. pose proof (Hpast [Sent 2] t' b B Hin). split; [lia|]. intros s since [= _ <-]. done.
      * done.
      * intros s since p [= <- _] [[=]|[f [= <- _]]]. rewrite beats_app, B, fmap_app, requests_app. change (requests ([(t, Sent 2)].*2)) with 1. lia.
      * apply (apart_snoc _ a lg t e o [] 2); [done|exact B|intros t' m Hin; by apply elem_of_nil in Hin|].
        intros t1 n1 y x Hx Hy. exfalso. destruct (R2 E0) as [Hz|(x' & t' & Hz)]; rewrite Hz in Hx; [by destruct x|].
        destruct y as [|v y _] using rev_ind; [by apply app_inj_tail in Hx as [_ [=]]|]. rewrite app_comm_cons, app_assoc in Hx. apply app_inj_tail in Hx as [_ <-].
        apply (Hy t'). apply elem_of_app. right. left.
  - rewrite (Hbr _ _ _ _ B Es), requests_app in Hreq.
    assert (Hprev : forall t1 n1 y x, beats a lg = x ++ (t1, Sent n1) :: y -> t1 <= since).
    { intros t1 n1 y x Hx. apply (R1 t1 (Sent n1)) with s; [rewrite Hx; apply elem_of_app; right; left|exact E0]. }
    unfold last_beat in HL. rewrite E0 in HL.
    assert (Hcnt : forall p, (s = Sleeping p \/ exists f, s = Waiting p f) -> p <= requests ((beats a lg).*2) + 1) by (intros p; by apply R3 with since).
    split; rewrite ?E.
    + intros t' b' Hin. pose proof (Hpast b t' b' B Hin). split; [lia|]. intros s0 since0 [= _ <-]. done.
    + done.
    + intros s0 since0 p0 [= <- _] Hs0. rewrite (Hbr _ _ _ _ B Es), requests_app.
      destruct s as [p f|p|], i as [|q|]; cbn [sched_step] in Es; try done.
      * specialize (Hcnt p (or_intror (ex_intro _ f eq_refl))). destruct (wc_retries k <=? u32 (f + 1)); injection Es as <- <-; [by destruct Hs0 as [|[? ?]]|].
        change (requests [Expired; Sent (wire (next_seq p))]) with 1 in *. destruct Hs0 as [|[f0 [= <- _]]]; [done|].
        unfold next_seq, u32. rewrite N.mod_small by lia. lia.
      * specialize (Hcnt p (or_intror (ex_intro _ f eq_refl))). destruct (N.eqb_spec p q) as [->|]; injection Es as <- <-.
        -- destruct Hs0 as [[= ->]|[f0 ?]]; [|done]. change (requests [Got p0]) with 0. lia.
        -- change (requests [Got q; Sent (wire (next_seq p))]) with 1 in *. destruct Hs0 as [|[f0 [= <- _]]]; [done|]. unfold next_seq, u32. rewrite N.mod_small by lia. lia.
      * specialize (Hcnt p (or_introl eq_refl)). injection Es as <- <-. change (requests [Sent (wire (next_seq p))]) with 1 in *. destruct Hs0 as [|[f0 [= <- _]]]; [done|].
        unfold next_seq, u32. rewrite N.mod_small by lia. lia.
    + destruct s as [p f|p|], i as [|q|]; cbn [sched_step] in Es; try done.
      * specialize (Hdue eq_refl). destruct (wc_retries k <=? u32 (f + 1)); injection Es as <- <-.
        -- apply apart_quiet; [done|]. intros t' m Hin. rewrite B in Hin. cbn in Hin. rewrite !elem_of_cons, elem_of_nil in Hin. naive_solver.
        -- apply (apart_snoc _ a lg t e o [(t, Expired)] (wire (next_seq p))); [done|exact B|intros t' m Hin; apply elem_of_list_singleton in Hin; done|].
           intros t1 n1 y x Hx _. specialize (Hprev _ _ _ _ Hx). lia.
      * destruct HL as [x HL]. specialize (Hcnt p (or_intror (ex_intro _ f eq_refl))).
        assert (Hw : wire p = p). { unfold wire. apply N.mod_small. lia. }
        assert (p = q) as ->.
        { specialize (Hcalm (beats a lg) t q ((fun x => (t, x)) <$> (tail b))). rewrite beats_app, B in Hcalm.
          assert (last_sent ((beats a lg).*2) = Some q) as Hl. { apply Hcalm. destruct (p =? q); injection Es as <- <-; done. }
          rewrite HL, fmap_app in Hl. cbn in Hl. rewrite last_sent_app_sent, Hw in Hl. congruence. }
        rewrite N.eqb_refl in Es. injection Es as <- <-. apply apart_quiet; [done|]. intros t' m Hin. rewrite B in Hin. apply elem_of_list_singleton in Hin. done.
      * specialize (Hwake eq_refl). injection Es as <- <-. apply (apart_snoc _ a lg t e o [] (wire (next_seq p))); [done|exact B|intros t' m Hin; by apply elem_of_nil in Hin|].
        intros t1 n1 y x Hx _. specialize (Hprev _ _ _ _ Hx). lia.
  - split; rewrite ?E.
    + intros t' b Hin. split; [|done]. rewrite Hnow'. exact (Hpast [] t' b B Hin).
    + intros _. rewrite beats_app, B, app_nil_r. unfold last_beat in HL. rewrite E0 in HL. destruct HL as [x HL]. right. by exists x, since.
    + done.
    + apply apart_quiet; [done|]. intros t' m Hin. rewrite B in Hin. by apply elem_of_nil in Hin.
Qed.

(** As long as its answers are neither late nor repeated, a peer is sent at most one heartbeat request per time-out or pause. *)
Theorem request_rate_partial :
  forall k g rm d l w lg a, wrun k (wstart (init g rm d)) l = Ran w lg -> Forall (fun x => seq24 (snd x)) l ->
    requests ((beats a lg).*2) < 16777215 -> calm a lg -> apart (N.min (wc_timeout k) (wc_interval k)) a lg.
Proof.
  intros k g rm d l w lg a H Hl Hreq Hc.
  assert (Hgen : forall l lg0 w lg w', Forall (fun x => seq24 (snd x)) l -> winv k w -> short_seq w -> last_beat a lg0 w -> rate_inv k a lg0 w ->
      wrun k w l = Ran w' lg -> requests ((beats a (lg0 ++ lg)).*2) < 16777215 -> calm a (lg0 ++ lg) -> rate_inv k a (lg0 ++ lg) w').
  { clear. induction l as [|[t e] l IH]; intros lg0 w lg w' Hl HI HS HL HE H Hreq Hc; cbn [wrun] in H; [injection H as <- <-; by rewrite app_nil_r|].
    apply Forall_cons in Hl as [He Hl]. destruct (wstep k w t e) as [w1 o| |] eqn:E; [|done|done]. destruct (wrun k w1 l) as [w2 lg2| |] eqn:E2; [|done|done].
    injection H as <- <-. change ((t, e, o) :: lg2) with ([(t, e, o)] ++ lg2) in *. rewrite app_assoc in *. eapply IH; [exact Hl| | | | |exact E2|exact Hreq|exact Hc].
    - by eapply winv_step.
    - by eapply short_seq_step.
    - by eapply last_beat_step.
    - eapply rate_step; [exact HI|exact HS|exact HL|by eapply calm_prefix| |exact HE|exact E]. rewrite beats_app, fmap_app, requests_app in Hreq. lia. }
  apply (Hgen l [] _ _ _ Hl (winv_start k (init g rm d) eq_refl)) in H; [by apply ri_apart with w| |done| |exact Hreq|exact Hc].
  - split; [by apply Forall_nil|done].
  - split.
    + intros t b Hin. by apply elem_of_nil in Hin.
    + by left.
    + by intros ? ? ? ?.
    + intros x t1 n1 y t2 n2 z Ex. by destruct x.
Qed.

(** ** Executions *)

(** The default configuration (config.go:59-61). *)
Definition ex_default : wcfg := Wcfg 3 5000 5000.
Definition ex_whole : whole := wstart (init ex_cfg ex_rm (dp_init 8 8 8 8)).
Definition ex_answer : msg := HeartbeatResp (Good 1).
Definition ex_look (l : list (N * wev)) (P : whole -> wlog -> bool) : bool := match wrun ex_default ex_whole l with Ran w lg => P w lg | _ => false end.
Lemma ex_looks l P : ex_look l P = true -> exists w lg, wrun ex_default ex_whole l = Ran w lg /\ P w lg = true.
Proof. unfold ex_look. destruct (wrun ex_default ex_whole l) as [w lg| |]; [|done|done]. intros H. by exists w, lg. Qed.

(** A message handled at once. *)
Definition ex_take (t : N) : list (N * wev) := [(t, Reads); (t, Takes id_shuffle)].
Definition ex_join (t a : N) : list (N * wev) := (t, Arrives a 1 (AssocSetupReq (Good 5) (Good 1))) :: ex_take t.
Definition ex_beat (t a q : N) : list (N * wev) := (t, Arrives a q ex_answer) :: ex_take t ++ [(t, Meets)].

(** *** A late answer ends all service *)

(** Stuck in the hand-over: the task does not listen any more, or was never there. *)
Lemma stopped_for_good k l : forall w w' lg a q, wh_loop w = Passing a q ->
  (exists since, wh_tasks w !! a = Some (Some (Failing, since))) \/ wh_tasks w !! a = Some None ->
  wrun k w l = Ran w' lg -> handled (pfcp_log lg) = [] /\ (forall t sh b o, (t, GivesUp sh b, o) ∉ lg).
Proof.
  induction l as [|[t e] l IH]; intros w w' lg a q Hl Ht H; cbn [wrun] in H; [injection H as <- <-; split; [done|]; intros t sh b o Hin; by apply elem_of_nil in Hin|].
  destruct (wstep k w t e) as [w3 o| |] eqn:E; [|done|done]. destruct (wrun k w3 l) as [w4 lg4| |] eqn:E2; [|done|done]. injection H as <- <-.
  assert (wh_loop w3 = Passing a q /\ ((exists since, wh_tasks w3 !! a = Some (Some (Failing, since))) \/ wh_tasks w3 !! a = Some None) /\
     handled (pfcp_log [(t, e, o)]) = [] /\ (forall sh b, e <> GivesUp sh b)) as (Hl3 & Ht3 & Hh & Hg).
  { apply wstep_kind in E as [_ E].
    destruct E as [b p m|e l' Hc|sh u b p m rest c r El Eq Eh|e l' i b s since' s' bo Eb Es Hc|sh b since' c r El Eb Ep|marks vols]; cbn [wh_loop wh_tasks].
    - done.
    - destruct Hc as [(_ & Hx & _)|[(_ & (u & Hx & _) & _)|(_ & Hx & _)]]; congruence.
    - congruence.
    - assert (a <> b \/ exists q, i = Answer q) as Hi.
      { destruct (decide (a = b)) as [->|]; [|by left]. right. destruct Ht as [[x Hx]|Hx]; rewrite Hx in Eb; [|done]. injection Eb as <- <-. by destruct i. }
      rewrite pfcp_beats. destruct Hc as [(_ & (p & Hx & ->) & ->)|[(-> & -> & -> & _)|(-> & -> & -> & _)]].
      + exfalso. rewrite Hl in Hx. injection Hx as <- <-. destruct Ht as [[x Hx]|Hx]; rewrite Hx in Eb; [|done]. by injection Eb as <- <-.
      + destruct Hi as [Hi|[? ?]]; [|done]. split; [done|]. rewrite lookup_insert_ne by done. done.
      + destruct Hi as [Hi|[? ?]]; [|done]. split; [done|]. rewrite lookup_insert_ne by done. done.
    - congruence.
    - done. }
  change ((t, e, o) :: lg4) with ([(t, e, o)] ++ lg4). rewrite pfcp_log_app, handled_app, Hh. destruct (IH _ _ _ _ _ Hl3 Ht3 E2) as [A1 A2]. split; [exact A1|].
  intros t' sh b o' Hin. apply elem_of_app in Hin as [Hin|Hin]; [apply elem_of_list_singleton in Hin; injection Hin as _ Hx _; by apply (Hg sh b)|by apply (A2 t' sh b o')].
Qed.

(** A peer answers its third request 200 ms late, while the loop waits for a message: from then on no message of any peer is handled and no
    association is given up. *)
Definition ex_late : list (N * wev) :=
  ex_join 0 7 ++ [(5000, TimerOf 7); (10000, TimerOf 7); (14500, Reads); (15000, TimerOf 7); (15200, Arrives 7 4 ex_answer); (15200, Takes id_shuffle)].
Theorem late_answer_ends_service_refuted :
  exists w lg, wrun ex_default ex_whole ex_late = Ran w lg /\ beats 7 lg = [(0, Sent 2); (5000, Expired); (5000, Sent 3); (10000, Expired); (10000, Sent 4); (15000, Expired); (15000, Failed)] /\
    forall l w' lg', wrun ex_default w l = Ran w' lg' -> handled (pfcp_log lg') = [] /\ (forall t sh b o, (t, GivesUp sh b, o) ∉ lg').
Proof.
  destruct (ex_looks ex_late (fun w lg => match wh_loop w with Passing 7 4 => match wh_tasks w !! 7 with Some (Some (Failing, _)) =>
     bool_decide (length (beats 7 lg) = 7%nat) && match beats 7 lg with [(0, Sent 2); (5000, Expired); (5000, Sent 3); (10000, Expired); (10000, Sent 4); (15000, Expired); (15000, Failed)] => true | _ => false end
     | _ => false end | _ => false end)) as (w & lg & H & P); [vm_compute; reflexivity|].
  exists w, lg. split; [exact H|]. clear H. destruct (wh_loop w) as [| |a q] eqn:El; [done|done|].
  assert (a = 7 /\ q = 4) as [-> ->]. { destruct a as [|[[[]|[]|]|[[]|[]|]|]]; try done. destruct q as [|[[[]|[]|]|[[]|[]|]|]]; done. }
  destruct (wh_tasks w !! 7) as [[[[| |] since]|]|] eqn:Ew; try done. split.
  { apply andb_true_iff in P as [_ P]. clear -P. repeat (case_match; try done). }
  intros l w' lg' Hr. apply (stopped_for_good _ _ _ _ _ 7 4 El) in Hr; [done|]. left. by exists since.
Qed.

(** *** One peer's repeated answers cost another its association *)
Definition ex_starve : list (N * wev) :=
  ex_join 0 7 ++ ex_join 0 9 ++
  [(0, Arrives 9 2 ex_answer); (0, Arrives 9 2 ex_answer); (0, Arrives 7 2 ex_answer)] ++ ex_take 0 ++ [(0, Meets)] ++ ex_take 0 ++
  [(5000, TimerOf 7); (5000, WakeOf 9); (5000, Meets); (5000, Arrives 9 4 ex_answer); (5000, Arrives 9 4 ex_answer); (5000, Arrives 7 3 ex_answer)] ++
  ex_take 5000 ++ [(5000, Meets); (5000, Arrives 7 4 ex_answer)] ++ ex_take 5000 ++ [(5000, Meets)] ++ ex_take 5000 ++
  [(10000, TimerOf 7); (10000, Arrives 7 5 ex_answer); (10000, WakeOf 9); (10000, Meets); (10000, Arrives 9 6 ex_answer); (10000, Arrives 9 6 ex_answer)] ++
  ex_take 10000 ++ [(10000, Meets); (10000, Arrives 7 6 ex_answer)] ++ ex_take 10000 ++ [(10000, Meets); (10000, Arrives 7 7 ex_answer)] ++
  ex_take 10000 ++ [(10000, Meets); (10000, Arrives 7 8 ex_answer)] ++ ex_take 10000 ++ [(10000, Meets)] ++ ex_take 10000 ++
  [(15000, TimerOf 7); (15000, WakeOf 9); (15000, Meets); (15000, GivesUp id_shuffle 7)].

Definition answers (a t n : N) (x : N * wev * list wout) : bool :=
  match x with (t', Arrives b q (HeartbeatResp (Good _)), _) => (t =? t') && (a =? b) && (n =? q) | _ => false end.
Definition gives_up (a : N) (x : N * wev * list wout) : bool := match x with (_, GivesUp _ b, _) => a =? b | _ => false end.

(** Peer 7 answers every request in the millisecond it is sent; peer 9 repeats some of its answers; peer 7 is given up. *)
Theorem answering_peer_given_up_refuted :
  exists w lg, wrun ex_default ex_whole ex_starve = Ran w lg /\
    (forall t n, (t, Sent n) ∈ beats 7 lg -> exists x o, (t, Arrives 7 n (HeartbeatResp (Good x)), o) ∈ lg) /\
    exists t sh o, (t, GivesUp sh 7, o) ∈ lg.
Proof.
  destruct (ex_looks ex_starve (fun w lg => forallb (fun x => match snd x with Sent n => existsb (answers 7 (fst x) n) lg | _ => true end) (beats 7 lg) && existsb (gives_up 7) lg))
    as (w & lg & H & P); [vm_compute; reflexivity|].
  exists w, lg. split; [exact H|]. clear H. apply andb_true_iff in P as [P1 P2]. split.
  - intros t n Hin. rewrite forallb_forall in P1. apply elem_of_list_In in Hin. specialize (P1 _ Hin). cbn in P1. apply existsb_exists in P1 as ([[t' e] o] & Hx & P1).
    unfold answers in P1. destruct e as [b q [| [| |y] | | | | | | |]| | | | | | | | |]; try done. apply andb_true_iff in P1 as [P1 E3]. apply andb_true_iff in P1 as [E1 E2].
    apply N.eqb_eq in E1, E2, E3. subst. apply elem_of_list_In in Hx. by exists y, o.
  - apply existsb_exists in P2 as ([[t e] o] & Hx & P2). unfold gives_up in P2. destruct e as [| | | | | | |sh b| |]; try done. apply N.eqb_eq in P2 as <-.
    apply elem_of_list_In in Hx. by exists t, sh, o.
Qed.

(** *** One late answer and heartbeats are sent without pause *)

(** What is seen from the late answer on: answers [2 + i] and requests [4 + i], one pair per millisecond. *)
Definition storm (n : nat) : list (N * hobs) := (seq 0 n) ≫= fun i => [(5001 + N.of_nat i, Got (2 + N.of_nat i)); (5001 + N.of_nat i, Sent (4 + N.of_nat i))].

Lemma storm_cycle c t t0 p : is_Some (c_assocs c !! 7) -> t0 <= t -> 1 < p -> p < 2 ^ 24 - 1 ->
  wrun ex_default (Whole t0 c Selecting [] {[7 := Some (Waiting p 1, t0)]}) (ex_beat t 7 (p - 1)) =
  Ran (Whole t c Selecting [] {[7 := Some (Waiting (p + 1) 1, t)]})
    [(t, Arrives 7 (p - 1) ex_answer, []); (t, Reads, []); (t, Takes id_shuffle, [Handled (Recv id_shuffle 7 (p - 1) ex_answer, None)]);
     (t, Meets, [Beat 7 (Got (p - 1)); Beat 7 (Sent (p + 1))])].
Proof.
  intros Hc Ht Hp Hp2. unfold ex_beat, ex_take. cbn [app wrun].
  assert (Hs : forall c l q m t0, t0 <= t -> (t <? wh_now (Whole t0 c l q m)) = false). { intros. apply N.ltb_ge. done. }
  unfold wstep at 1. rewrite Hs by done. cbn [wh_loop wh_conn wh_queue wh_tasks app].
  unfold wstep at 1. rewrite Hs by lia. cbn [wh_loop wh_conn wh_queue wh_tasks].
  assert (reporting (Whole t c Selecting [(7, p - 1, ex_answer)] {[7 := Some (Waiting p 1, t0)]}) = false) as ->.
  { unfold reporting. cbn [wh_tasks]. rewrite map_to_list_singleton. done. }
  unfold wstep at 1. rewrite Hs by lia. cbn [wh_loop wh_conn wh_queue wh_tasks].
  change (handle id_shuffle 7 (p - 1) ex_answer c) with (Done c None). cbn match.
  assert (created_now 7 c c = false) as ->. { unfold created_now. by destruct (c_assocs c !! 7). }
  assert (after 7 (p - 1) ex_answer c = Passing 7 (p - 1)) as ->. { unfold after. cbn. destruct Hc as [x ->]. done. }
  unfold wstep at 1. rewrite Hs by lia. cbn [wh_loop wh_conn wh_queue wh_tasks].
  unfold task_step. cbn [wh_tasks wh_conn wh_queue]. rewrite lookup_singleton. cbn [sched_step].
  rewrite (proj2 (N.eqb_neq p (p - 1))) by lia. cbn match.
  assert (next_seq p = p + 1) as ->. { unfold next_seq, u32. apply N.mod_small. lia. }
  assert (wire (p + 1) = p + 1) as ->. { unfold wire. apply N.mod_small. lia. }
  rewrite insert_singleton. done.
Qed.

Definition ex_first : list (N * wev) := ex_join 0 7 ++ [(5000, TimerOf 7)].
Fixpoint ex_storm (n : nat) : list (N * wev) := match n with O => [] | S m => ex_storm m ++ ex_beat (5001 + N.of_nat m) 7 (2 + N.of_nat m) end.

Lemma arrived_events k w l w' lg : wrun k w l = Ran w' lg -> arrived lg = l ≫= fun x => match snd x with Arrives a q m => [(a, q, m)] | _ => [] end.
Proof. intros H. rewrite <- (wrun_events _ _ _ _ _ H). clear. unfold arrived. induction lg as [|x lg IH]; [done|]. cbn. f_equal. exact IH. Qed.
Local Instance sched_eq : EqDecision sched.
Proof. solve_decision. Defined.
Local Instance hobs_eq : EqDecision hobs.
Proof. solve_decision. Defined.
Definition selecting (l : wloop) : bool := match l with Selecting => true | _ => false end.
Definition some_b {A} (x : option A) : bool := match x with Some _ => true | None => false end.

Lemma ex_first_run : exists c lg, wrun ex_default ex_whole ex_first = Ran (Whole 5000 c Selecting [] {[7 := Some (Waiting 3 1, 5000)]}) lg /\
  is_Some (c_assocs c !! 7) /\ beats 7 lg = [(0, Sent 2); (5000, Expired); (5000, Sent 3)] /\ arrived lg = [(7, 1, AssocSetupReq (Good 5) (Good 1))].
Proof.
  destruct (ex_looks ex_first (fun w lg => (wh_now w =? 5000) && selecting (wh_loop w) && (N.of_nat (length (wh_queue w)) =? 0) && bool_decide (wh_tasks w = {[7 := Some (Waiting 3 1, 5000)]}) &&
     some_b (c_assocs (wh_conn w) !! 7) && bool_decide (beats 7 lg = [(0, Sent 2); (5000, Expired); (5000, Sent 3)]))) as (w & lg & H & P); [vm_compute; reflexivity|].
  destruct w as [now c lo qu ts]. cbn [wh_now wh_loop wh_queue wh_tasks wh_conn] in P. apply andb_true_iff in P as [P P6]. apply andb_true_iff in P as [P P5].
  apply andb_true_iff in P as [P P4]. apply andb_true_iff in P as [P P3]. apply andb_true_iff in P as [P1 P2].
  apply N.eqb_eq in P1. apply bool_decide_eq_true in P4, P6. destruct lo; [|done|done]. destruct qu; [|done]. subst now ts.
  exists c, lg. split; [exact H|]. split; [by destruct (c_assocs c !! 7); [eexists|]|]. split; [exact P6|]. rewrite (arrived_events _ _ _ _ _ H). reflexivity.
Qed.

(** One answer after 5001 ms instead of 5000; every request is answered exactly once and in order, each later one after 2 ms.  A request is
    sent every millisecond, for as long as one likes. *)
Theorem heartbeat_storm_refuted :
  forall n, N.of_nat n < 2 ^ 24 - 4 -> exists w lg, wrun ex_default ex_whole (ex_first ++ ex_storm n) = Ran w lg /\
    beats 7 lg = [(0, Sent 2); (5000, Expired); (5000, Sent 3)] ++ storm n /\
    arrived lg = (7, 1, AssocSetupReq (Good 5) (Good 1)) :: ((fun i => (7, 2 + N.of_nat i, ex_answer)) <$> seq 0 n).
Proof.
  intros n Hn. destruct ex_first_run as (c & lg0 & H0 & Hc & Hb & Ha).
  assert (exists lg, wrun ex_default (Whole 5000 c Selecting [] {[7 := Some (Waiting 3 1, 5000)]}) (ex_storm n) =
     Ran (Whole (5000 + N.of_nat n) c Selecting [] {[7 := Some (Waiting (3 + N.of_nat n) 1, 5000 + N.of_nat n)]}) lg /\
     beats 7 lg = storm n /\ arrived lg = ((fun i => (7, 2 + N.of_nat i, ex_answer)) <$> seq 0 n)) as (lg & H & Hs & Har).
  { clear H0 Hb Ha lg0. induction n as [|n IH].
    - exists []. split; [done|]. done.
    - destruct IH as (lg & H & Hs & Har); [lia|].
      pose proof (storm_cycle c (5001 + N.of_nat n) (5000 + N.of_nat n) (3 + N.of_nat n) Hc ltac:(lia) ltac:(lia) ltac:(lia)) as Hx.
      replace (3 + N.of_nat n - 1) with (2 + N.of_nat n) in Hx by lia. replace (3 + N.of_nat n + 1) with (4 + N.of_nat n) in Hx by lia.
      cbn [ex_storm]. eexists. split; [|split].
      + rewrite (wrun_join _ _ _ _ _ _ _ _ H Hx). replace (5000 + N.of_nat (S n)) with (5001 + N.of_nat n) by lia.
        replace (3 + N.of_nat (S n)) with (4 + N.of_nat n) by lia. reflexivity.
      + rewrite beats_app, Hs. unfold storm. rewrite seq_S, bind_app. f_equal.
      + rewrite arrived_app, Har, seq_S, fmap_app. done. }
  exists (Whole (5000 + N.of_nat n) c Selecting [] {[7 := Some (Waiting (3 + N.of_nat n) 1, 5000 + N.of_nat n)]}), (lg0 ++ lg).
  split; [exact (wrun_join _ _ _ _ _ _ _ _ H0 H)|]. rewrite beats_app, arrived_app, Hb, Ha, Hs, Har. done.
Qed.

(** *** The theorems at work: peer 7 answers and keeps its session, peer 9 falls silent and is given up *)
Definition ex_est_msg : msg := SessEstReq (EstReq (Good 5) (Good 100) [FarIe (Some 1) (Some [2]) None None] [] [] []).
Definition ex_pair : list (N * wev) :=
  ex_join 0 7 ++ ex_join 10 9 ++ ((20, Arrives 7 2 ex_est_msg) :: ex_take 20) ++ ex_beat 30 7 2 ++
  [(5010, TimerOf 9); (5030, WakeOf 7)] ++ ex_beat 5040 7 3 ++ [(10010, TimerOf 9); (10040, WakeOf 7)] ++ ex_beat 10050 7 4 ++
  [(15010, TimerOf 9); (15020, GivesUp id_shuffle 9)].
Definition ex_pair_beats : list (N * hobs) := [(0, Sent 2); (30, Got 2); (5030, Sent 3); (5040, Got 3); (10040, Sent 4); (10050, Got 4)].
Lemma ex_pair_run : exists w lg, wrun ex_default ex_whole ex_pair = Ran w lg /\ beats 7 lg = ex_pair_beats /\
  beats 9 lg = [(10, Sent 2); (5010, Expired); (5010, Sent 3); (10010, Expired); (10010, Sent 4); (15010, Expired); (15010, Failed)] /\
  is_Some (session_of (wh_conn w) 7 2) /\ c_assocs (wh_conn w) !! 9 = None.
Proof.
  destruct (ex_looks ex_pair (fun w lg => bool_decide (beats 7 lg = ex_pair_beats) &&
     bool_decide (beats 9 lg = [(10, Sent 2); (5010, Expired); (5010, Sent 3); (10010, Expired); (10010, Sent 4); (15010, Expired); (15010, Failed)]) &&
     some_b (session_of (wh_conn w) 7 2) && negb (some_b (c_assocs (wh_conn w) !! 9)))) as (w & lg & H & P); [vm_compute; reflexivity|].
  exists w, lg. split; [exact H|]. clear H. apply andb_true_iff in P as [P P4]. apply andb_true_iff in P as [P P3]. apply andb_true_iff in P as [P1 P2].
  apply bool_decide_eq_true in P1, P2. split; [exact P1|]. split; [exact P2|]. split; [by destruct (session_of (wh_conn w) 7 2); [eexists|]|].
  by destruct (c_assocs (wh_conn w) !! 9).
Qed.
Example ex_pair_prompt : exists w lg, wrun ex_default ex_whole ex_pair = Ran w lg /\ prompt ex_default 7 lg /\ ~ prompt ex_default 9 lg /\
  is_Some (session_of (wh_conn w) 7 2) /\ exists t sh o, (t, GivesUp sh 9, o) ∈ lg.
Proof.
  destruct ex_pair_run as (w & lg & H & B7 & B9 & S7 & S9). exists w, lg. split; [exact H|]. split; [|split; [|split; [exact S7|]]].
  - clear H B9 S7 S9. intros x t0 n t o y E. rewrite B7 in E. unfold ex_pair_beats in E.
    destruct x as [|? [|? [|? [|? [|? [|? z]]]]]]; cbn in E; simplify_eq; try done; destruct z; done.
  - clear H B7 S7 S9. intros Hp. specialize (Hp [] 10 2 5010 Expired _ B9). done.
  - pose proof (wrun_events _ _ _ _ _ H) as He. assert ((15020, GivesUp id_shuffle 9) ∈ lg.*1) as Hin.
    { rewrite He. unfold ex_pair. apply elem_of_app. right. apply elem_of_app. right. apply elem_of_app. right. apply elem_of_app. right. apply elem_of_app. right.
      apply elem_of_app. right. apply elem_of_app. right. apply elem_of_app. right. right. left. }
    apply elem_of_list_fmap in Hin as ([[t e] o] & [= <- <-] & Hin). exists 15020, id_shuffle, o. exact Hin.
Qed.

(** *** Further hypotheses met *)
Definition on_time (k : wcfg) (delta t : N) (b : option (N * hobs)) : bool :=
  match b with Some (t0, Sent _) => t <=? t0 + wc_timeout k + delta | Some (t0, Got _) => t <=? t0 + wc_interval k + delta | _ => true end.
Fixpoint punct_b (k : wcfg) (delta a : N) (b : list (N * hobs)) (lg : wlog) : bool :=
  match lg with [] => true | (t, e, o) :: r => on_time k delta t (last b) && punct_b k delta a (b ++ beats a [(t, e, o)]) r end.
Lemma punct_b_punctual k delta a lg : punct_b k delta a [] lg = true -> punctual k delta a lg.
Proof.
  assert (Hgen : forall lg l0, punct_b k delta a (beats a l0) lg = true -> forall l1 t e o l2 x t0 b, lg = l1 ++ (t, e, o) :: l2 -> beats a (l0 ++ l1) = x ++ [(t0, b)] ->
    match b with Sent _ => t <= t0 + wc_timeout k + delta | Got _ => t <= t0 + wc_interval k + delta | _ => True end).
  { clear. intros lg l0 H l1. revert lg l0 H. induction l1 as [|[[t1 e1] o1] l1 IH]; intros lg l0 H t e o l2 x t0 b -> E; cbn [app punct_b] in H; apply andb_true_iff in H as [H1 H2].
    - rewrite app_nil_r in E. rewrite E, last_snoc in H1. cbn in H1. destruct b; try done; by apply N.leb_le.
    - rewrite <- beats_app in H2. eapply (IH _ _ H2); [done|]. rewrite <- app_assoc. exact E. }
  intros H l1 t e o l2 x t0 b E Ex. exact (Hgen lg [] H l1 t e o l2 x t0 b E Ex).
Qed.

(** A peer joins at 10 ms and never answers: reported at 15010, before the deadline of 20010. *)
Definition ex_mute : list (N * wev) := [(5010, TimerOf 9); (10010, TimerOf 9); (15010, TimerOf 9); (15020, GivesUp id_shuffle 9); (21000, Ticks)].
Example ex_silent : exists w1 lg1 w2 lg2, wrun ex_default ex_whole (ex_join 10 9) = Ran w1 lg1 /\ wrun ex_default w1 ex_mute = Ran w2 lg2 /\
  is_Some (c_assocs (wh_conn w1) !! 9) /\ wh_now w1 = 10 /\ wh_now w2 = 21000 /\ punctual ex_default 0 9 (lg1 ++ lg2) /\
  beats 9 lg2 = [(5010, Expired); (5010, Sent 3); (10010, Expired); (10010, Sent 4); (15010, Expired); (15010, Failed)] /\
  requests ((beats 9 (lg1 ++ lg2)).*2) < 16777215.
Proof.
  destruct (ex_looks (ex_join 10 9) (fun w1 lg1 => some_b (c_assocs (wh_conn w1) !! 9) && (wh_now w1 =? 10) &&
     match wrun ex_default w1 ex_mute with
     | Ran w2 lg2 => (wh_now w2 =? 21000) && punct_b ex_default 0 9 [] (lg1 ++ lg2) &&
         bool_decide (beats 9 lg2 = [(5010, Expired); (5010, Sent 3); (10010, Expired); (10010, Sent 4); (15010, Expired); (15010, Failed)]) &&
         (requests ((beats 9 (lg1 ++ lg2)).*2) <? 16777215)
     | _ => false end)) as (w1 & lg1 & H1 & P); [vm_compute; reflexivity|].
  apply andb_true_iff in P as [P P3]. apply andb_true_iff in P as [P1 P2]. apply N.eqb_eq in P2.
  destruct (wrun ex_default w1 ex_mute) as [w2 lg2| |] eqn:H2; [|discriminate P3|discriminate P3].
  apply andb_true_iff in P3 as [P3 P7]. apply andb_true_iff in P3 as [P3 P6]. apply andb_true_iff in P3 as [P4 P5].
  apply N.eqb_eq in P4. apply bool_decide_eq_true in P6. apply N.ltb_lt in P7. exists w1, lg1, w2, lg2. split; [exact H1|]. clear H1. split; [exact H2|]. clear H2.
  split; [by destruct (c_assocs (wh_conn w1) !! 9); [eexists|]|]. split; [exact P2|]. split; [exact P4|]. split; [by apply punct_b_punctual|]. split; [exact P6|exact P7].
Qed.

(** The messages of these runs are harmless and carry 24-bit sequence numbers; peer 7 of [ex_pair] is calm. *)
Example ex_pair_harmless : Forall (fun x => wev_fair (snd x) /\ wev_safe (snd x)) ex_pair /\ Forall (fun x => seq24 (snd x)) ex_pair.
Proof.
  split; repeat (apply Forall_cons; split); try apply Forall_nil; try done; cbn; (split; [first [apply id_shuffle_fair|done]|]); try done.
  split; repeat constructor.
Qed.
Example ex_pair_calm : exists w lg, wrun ex_default ex_whole ex_pair = Ran w lg /\ calm 7 lg /\ requests ((beats 7 lg).*2) < 16777215.
Proof.
  destruct ex_pair_run as (w & lg & H & B7 & B9 & S7 & S9). exists w, lg. split; [exact H|]. clear H B9 S7 S9. split; [|by rewrite B7].
  intros x t n y E. rewrite B7 in E. unfold ex_pair_beats in E.
  destruct x as [|? [|? [|? [|? [|? [|? z]]]]]]; cbn in E; simplify_eq; try done; destruct z; done.
Qed.
