(** The heartbeat task of an association and the message loop (C24, C25). *)
From Verif Require Import Base.

(** ** Model *)

(** node_association.go:50-78 [ScheduleHeartbeat] between two blocking points.
    [Waiting seq failed]: in the select of lines 59-76, having sent request [seq];
    [Sleeping seq]: line 71, the matching answer to [seq] was received;
    [Failing]: line 64, sending the address to heartbeatFailedC (the task ends afterwards). *)
Inductive sched := Waiting (seq failed : N) | Sleeping (seq : N) | Failing.
(** What can happen to it: the timer of line 58 fires, a sequence number arrives on the
    HeartbeatChannel, the interval of line 71 ends. *)
Inductive hin := Timeout | Answer (seq : N) | Wake.
(** What is seen of it on the wire and on heartbeatFailedC. *)
Inductive hobs := Sent (seq : N) | Expired | Got (seq : N) | Failed.

(** node_association.go:42-48 [NewSequenceID] and pfcp_hearbeat.go:42-53: a uint32 counter; the PFCP
    header carries its low 24 bits. *)
Definition next_seq (seq : N) : N := u32 (seq + 1).
Definition wire (seq : N) : N := seq mod 16777216.
(** node_association.go:30, 46: the counter starts at 1 and is incremented before use. *)
Definition sched_start : sched * list hobs := (Waiting 2 0, [Sent (wire 2)]).

Definition sched_step (retries : N) (s : sched) (i : hin) : option (sched * list hobs) :=
  match s, i with
  | Waiting p f, Timeout =>
      if retries <=? u32 (f + 1) then Some (Failing, [Expired; Failed])
      else Some (Waiting (next_seq p) (u32 (f + 1)), [Expired; Sent (wire (next_seq p))])
  | Waiting p f, Answer q =>
      if p =? q then Some (Sleeping p, [Got q])
      else Some (Waiting (next_seq p) f, [Got q; Sent (wire (next_seq p))])
  | Sleeping p, Wake => Some (Waiting (next_seq p) 0, [Sent (wire (next_seq p))])
  | _, _ => None
  end.
Fixpoint sched_run (retries : N) (s : sched) (l : list hin) : option (sched * list hobs) :=
  match l with
  | [] => Some (s, [])
  | i :: r => match sched_step retries s i with
              | Some (s1, o1) => match sched_run retries s1 r with
                                 | Some (s2, o2) => Some (s2, o1 ++ o2)
                                 | None => None
                                 end
              | None => None
              end
  end.
(** A whole life of the task. *)
Definition life (retries : N) (l : list hin) : option (sched * list hobs) :=
  match sched_run retries (fst sched_start) l with
  | Some (s, o) => Some (s, snd sched_start ++ o)
  | None => None
  end.

(** ** C24: specification over what is seen *)

(** The last request sent. *)
Definition last_sent (o : list hobs) : option N :=
  foldl (fun a e => match e with Sent n => Some n | _ => a end) None o.
Definition timeouts (o : list hobs) : N :=
  foldr (fun e n => match e with Expired => n + 1 | _ => n end) 0 o.
(** [o2], following [o1], contains no answer to the request pending at that point. *)
Definition unanswered (o1 o2 : list hobs) : Prop :=
  forall x n y, o2 = x ++ Got n :: y -> last_sent (o1 ++ x) <> Some n.
(** At least one and at least [retries] timeouts since the last answer to a pending request. *)
Definition failure_due (retries : N) (o : list hobs) : Prop :=
  exists o1 o2, o = o1 ++ o2 /\ unanswered o1 o2 /\ 1 <= timeouts o2 /\ retries <= timeouts o2.

(** ** Proofs *)

Definition requests (o : list hobs) : N := N.of_nat (length (filter (fun e => match e with Sent _ => true | _ => false end = true) o)).

Lemma timeouts_app o1 o2 : timeouts (o1 ++ o2) = timeouts o1 + timeouts o2.
Proof. induction o1 as [|e o1 IH]; simpl; [done|]. destruct e; rewrite IH; lia. Qed.
Lemma last_sent_app_sent o n : last_sent (o ++ [Sent n]) = Some n.
Proof. unfold last_sent. by rewrite foldl_app. Qed.
Lemma last_sent_app2 o e n : last_sent (o ++ [e; Sent n]) = Some n.
Proof. unfold last_sent. by rewrite foldl_app. Qed.
Lemma last_sent_app_other o e : (forall n, e <> Sent n) -> last_sent (o ++ [e]) = last_sent o.
Proof. intros H. unfold last_sent. rewrite foldl_app. simpl. destruct e; try done. by specialize (H seq). Qed.
Lemma requests_app o1 o2 : requests (o1 ++ o2) = requests o1 + requests o2.
Proof. unfold requests. rewrite filter_app, app_length. lia. Qed.

(** Split after the last matching answer: [o1] ends with it (or is empty). *)
Definition tail_split (o1 o2 : list hobs) : Prop :=
  unanswered o1 o2 /\ (o1 = [] \/ exists x n, o1 = x ++ [Got n] /\ last_sent x = Some n).

Lemma tail_split_due retries o1 o2 :
  tail_split o1 o2 -> (failure_due retries (o1 ++ o2) <-> 1 <= timeouts o2 /\ retries <= timeouts o2).
Proof.
  intros [Hu Hend]. split; [|intros [H1 H2]; by exists o1, o2].
  intros (p1 & p2 & E & Hp & H1 & H2).
  (* p2 starts no earlier than o2 *)
  assert (exists z, p1 = o1 ++ z /\ o2 = z ++ p2) as (z & -> & ->).
  { apply app_eq_inv in E as [(z & -> & E)|(z & E & ->)]; [|by exists z].
    destruct z as [|e z _] using rev_ind; [exists []; rewrite !app_nil_r; done|].
    exfalso. destruct Hend as [Hnil|(x & n & Hx & Hl)]; [by destruct p1, z|].
    rewrite app_assoc in Hx. apply app_inj_tail in Hx as [<- ->]. apply (Hp z n o2); [by rewrite E, <- app_assoc|done]. }
  rewrite timeouts_app. lia.
Qed.

Lemma unanswered_snoc o1 o2 e : unanswered o1 o2 -> (forall n, e = Got n -> last_sent (o1 ++ o2) <> Some n) -> unanswered o1 (o2 ++ [e]).
Proof.
  intros Hu He x n y E. destruct y as [|f y _] using rev_ind.
  - apply app_inj_tail in E as [-> ->]. by apply He.
  - rewrite app_comm_cons, app_assoc in E. apply app_inj_tail in E as [-> ->]. by eapply Hu.
Qed.
Lemma unanswered_nil o : unanswered o [].
Proof. intros x n y E. by destruct x. Qed.

(** The sequence numbers count the requests. *)
Definition numbered (o : list hobs) (p : N) : Prop := requests o + 1 = p.

(** The invariant of the task. *)
Definition sched_inv (retries : N) (s : sched) (o : list hobs) : Prop :=
  match s with
  | Waiting p f => last_sent o = Some (wire p) /\ numbered o p /\ Failed ∉ o /\
      exists o1 o2, o = o1 ++ o2 /\ tail_split o1 o2 /\ timeouts o2 = f /\ (f = 0 \/ f < retries)
  | Sleeping p => numbered o p /\ Failed ∉ o /\ tail_split o []
  | Failing => exists o', o = o' ++ [Failed] /\ Failed ∉ o' /\ failure_due retries o'
  end.

Lemma sched_step_inv retries s i s' o o' :
  retries < 2 ^ 32 -> sched_inv retries s o -> (requests (o ++ o') < 16777215) ->
  (forall n, i = Answer n -> n < 16777216) ->
  sched_step retries s i = Some (s', o') -> sched_inv retries s' (o ++ o').
Proof.
  intros Hr Hi Hreq Hans H. destruct s as [p f|p|], i as [|q|]; simpl in H; try done.
  - destruct Hi as (Hl & Hp & Hnf & o1 & o2 & -> & Ht & Hf & Hlt).
    assert (Hf32 : u32 (f + 1) = f + 1). { unfold u32. apply N.mod_small. lia. }
    rewrite Hf32 in H. destruct (N.leb_spec retries (f + 1)); simplify_eq.
    + exists ((o1 ++ o2) ++ [Expired]). split; [by rewrite <- !app_assoc|]. split.
      { rewrite elem_of_app, elem_of_list_singleton. intros [Hx|Hx]; [by apply Hnf|done]. }
      rewrite <- app_assoc. apply tail_split_due.
      { destruct Ht as [Hu Hend]. split; [|done]. by apply unanswered_snoc. }
      rewrite timeouts_app. change (timeouts [Expired]) with 1. lia.
    + change [Expired; Sent (wire (next_seq p))] with ([Expired] ++ [Sent (wire (next_seq p))]) in *.
      rewrite !requests_app in Hreq. change (requests [Expired]) with 0 in Hreq. change (requests [Sent _]) with 1 in Hreq.
      unfold numbered in Hp; rewrite requests_app in Hp.
      assert (Hn : next_seq p = p + 1). { unfold next_seq, u32. apply N.mod_small. lia. }
      simpl. split; [apply last_sent_app2|].
      split; [unfold numbered; rewrite !requests_app; change (requests [Expired; Sent _]) with 1; rewrite Hn; lia|].
      split; [rewrite elem_of_app, !elem_of_cons, elem_of_nil; naive_solver|].
      exists o1, (o2 ++ [Expired; Sent (wire (next_seq p))]). split; [by rewrite app_assoc|]. split.
      { destruct Ht as [Hu Hend]. split; [|done].
        change [Expired; Sent (wire (next_seq p))] with ([Expired] ++ [Sent (wire (next_seq p))]). rewrite app_assoc.
        apply unanswered_snoc; [by apply unanswered_snoc|done]. }
      rewrite timeouts_app. change (timeouts [Expired; Sent _]) with 1. lia.
  - destruct Hi as (Hl & Hp & Hnf & o1 & o2 & -> & Ht & Hf & Hlt).
    rewrite !requests_app in Hreq. specialize (Hans q eq_refl).
    assert (Hple : requests o1 + requests o2 + 1 <= p /\ p <= requests o1 + requests o2 + 1).
    { unfold numbered in Hp. rewrite requests_app in Hp. lia. } clear Hp.
    assert (Hw : wire p = p). { unfold wire. apply N.mod_small. lia. }
    destruct (N.eqb_spec p q) as [->|Hne]; simplify_eq.
    + split; [unfold numbered; rewrite !requests_app; change (requests [Got q]) with 0; lia|].
      split; [rewrite elem_of_app, elem_of_list_singleton; naive_solver|].
      split; [apply unanswered_nil|]. right. exists (o1 ++ o2), q. split; [done|]. by rewrite Hl, Hw.
    + change [Got q; Sent (wire (next_seq p))] with ([Got q] ++ [Sent (wire (next_seq p))]) in *.
      rewrite !requests_app in Hreq. change (requests [Got q]) with 0 in Hreq. change (requests [Sent _]) with 1 in Hreq.
      assert (Hn : next_seq p = p + 1). { unfold next_seq, u32. apply N.mod_small. lia. }
      simpl. split; [apply last_sent_app2|].
      split; [unfold numbered; rewrite !requests_app; change (requests [Got q; Sent _]) with 1; rewrite Hn; lia|].
      split; [rewrite elem_of_app, !elem_of_cons, elem_of_nil; naive_solver|].
      exists o1, (o2 ++ [Got q; Sent (wire (next_seq p))]). split; [by rewrite app_assoc|]. split.
      { destruct Ht as [Hu Hend]. split; [|done].
        change [Got q; Sent (wire (next_seq p))] with ([Got q] ++ [Sent (wire (next_seq p))]). rewrite app_assoc.
        apply unanswered_snoc; [|done]. apply unanswered_snoc; [done|]. intros n [= <-]. rewrite Hl, Hw. congruence. }
      rewrite timeouts_app. change (timeouts [Got q; Sent _]) with 0. split; [lia|done].
  - destruct Hi as (Hp & Hnf & Ht). simplify_eq. unfold numbered in Hp. rewrite requests_app in Hreq. change (requests [Sent _]) with 1 in Hreq.
    assert (Hn : next_seq p = p + 1). { unfold next_seq, u32. apply N.mod_small. lia. }
    simpl. split; [apply last_sent_app_sent|].
    split; [unfold numbered; rewrite !requests_app; change (requests [Sent _]) with 1; rewrite Hn; lia|].
    split; [rewrite elem_of_app, elem_of_list_singleton; naive_solver|].
    exists o, [Sent (wire (next_seq p))]. split; [done|]. split; [|by split; [|left]].
    destruct Ht as [Hu Hend]. split; [|done].
    change [Sent (wire (next_seq p))] with ([] ++ [Sent (wire (next_seq p))]). by apply unanswered_snoc.
Qed.

Lemma sched_run_inv retries l : forall s o s' o',
  retries < 2 ^ 32 -> sched_inv retries s o -> (requests (o ++ o') < 16777215) ->
  (forall n, Answer n ∈ l -> n < 16777216) ->
  sched_run retries s l = Some (s', o') -> sched_inv retries s' (o ++ o').
Proof.
  induction l as [|i l IH]; intros s o s' o' Hr Hi Hreq Hans H; simpl in H; simplify_eq; [by rewrite app_nil_r|].
  destruct (sched_step retries s i) as [[s1 o1]|] eqn:E1; [|done].
  destruct (sched_run retries s1 l) as [[s2 o2]|] eqn:E2; [|done]. simplify_eq.
  rewrite app_assoc in Hreq |- *. eapply IH; [done| |done| |exact E2].
  - eapply sched_step_inv; [done|exact Hi| | |exact E1].
    + rewrite requests_app in Hreq. lia.
    + intros n ->. apply Hans. left.
  - intros n Hn. apply Hans. by right.
Qed.

(** ** C24 *)

(** The failure of a peer is reported exactly when it is due: not while fewer than [retries]
    timeouts have passed since the last answer to a pending request, and immediately
    afterwards; once reported nothing more is sent.  For tasks that have sent fewer than
    2^24 - 1 requests. *)
Theorem failure_exactly_when_due_partial :
  forall retries l s o,
    retries < 2 ^ 32 -> (forall n, Answer n ∈ l -> n < 2 ^ 24) -> (requests o < 16777215) ->
    life retries l = Some (s, o) ->
    (Failed ∈ o -> exists o', o = o' ++ [Failed] /\ Failed ∉ o' /\ failure_due retries o') /\
    (Failed ∉ o -> ~ failure_due retries o).
Proof.
  intros retries l s o Hr Hans Hreq H. unfold life in H.
  destruct (sched_run _ _ _) as [[s1 o1]|] eqn:E; [|done]. simplify_eq.
  apply (sched_run_inv retries l (Waiting 2 0) [Sent 2] s o1) in E; try done.
  - change (snd sched_start ++ o1) with ([Sent 2] ++ o1). remember ([Sent 2] ++ o1) as o eqn:Eo. clear Eo. split.
    + intros Hin. destruct s as [p f|p|]; simpl in E; [..|done]; exfalso; tauto.
    + intros Hn. destruct s as [p f|p|]; simpl in E.
      * destruct E as (_ & _ & _ & o2 & o3 & -> & Ht & Hf & Hlt). rewrite (tail_split_due _ _ _ Ht). lia.
      * destruct E as (_ & _ & Ht). rewrite <- (app_nil_r o), (tail_split_due _ _ _ Ht). change (timeouts []) with 0. lia.
      * destruct E as (o' & -> & _). exfalso. apply Hn. apply elem_of_app. right. left.
  - simpl. split; [done|]. split; [done|]. split; [by rewrite elem_of_list_singleton|].
    exists [], [Sent 2]. split; [done|]. split; [|by split; [|left]]. split; [|by left].
    change [Sent 2] with ([] ++ [Sent 2]). apply unanswered_snoc; [apply unanswered_nil|done].
Qed.

(** Each round with a prompt answer takes the task to the next sequence number. *)
Fixpoint rounds (n : nat) (seq : N) : list hin :=
  match n with O => [] | S k => Answer seq :: Wake :: rounds k (seq + 1) end.
Lemma sched_run_app retries s l1 l2 :
  sched_run retries s (l1 ++ l2) =
  match sched_run retries s l1 with
  | Some (s1, o1) => match sched_run retries s1 l2 with Some (s2, o2) => Some (s2, o1 ++ o2) | None => None end
  | None => None
  end.
Proof.
  revert s. induction l1 as [|i l1 IH]; intros s; simpl.
  - destruct (sched_run retries s l2) as [[s2 o2]|]; done.
  - destruct (sched_step retries s i) as [[s1 o1]|]; [|done]. rewrite IH.
    destruct (sched_run retries s1 l1) as [[s2 o2]|]; [|done].
    destruct (sched_run retries s2 l2) as [[s3 o3]|]; [|done]. by rewrite app_assoc.
Qed.
Lemma rounds_run retries n : forall p, p + N.of_nat n < 2 ^ 32 -> exists o,
  sched_run retries (Waiting p 0) (rounds n p) = Some (Waiting (p + N.of_nat n) 0, o).
Proof.
  induction n as [|n IH]; intros p Hp; [exists []; simpl; by rewrite N.add_0_r|]. simpl.
  rewrite N.eqb_refl. assert (Hn : next_seq p = p + 1). { unfold next_seq, u32. apply N.mod_small. lia. }
  simpl. rewrite Hn. destruct (IH (p + 1)) as [o Ho]; [lia|]. rewrite Ho. eexists. do 2 f_equal. f_equal. lia.
Qed.

(** After 2^24 requests a peer that answers every request with the number it was sent is
    nevertheless reported as failed as soon as it has missed [retries] requests in all:
    timeouts are no longer consecutive ones. *)
Theorem failure_after_wrap_refuted :
  exists before o s o',
    life 3 before = Some (Waiting 16777218 0, o) /\ Failed ∉ o /\
    sched_run 3 (Waiting 16777218 0)
      [Timeout; Answer (wire 16777219); Timeout; Answer (wire 16777221); Timeout] = Some (s, o') /\
    o' = [Expired; Sent 3; Got 3; Sent 4; Expired; Sent 5; Got 5; Sent 6; Expired; Failed] /\
    ~ failure_due 3 (o ++ take 9 o').
Proof.
  destruct (rounds_run 3 (N.to_nat 16777216) 2) as [o Ho].
  { rewrite N2Nat.id. done. }
  rewrite N2Nat.id in Ho. change (2 + 16777216) with 16777218 in Ho. remember (rounds (N.to_nat 16777216) 2) as before. clear Heqbefore.
  set (o0 := [Sent 2] ++ o). exists before, o0.
  eexists _, _. split; [unfold life; simpl; by rewrite Ho|].
  assert (Hnf : Failed ∉ o0).
  { unfold o0. rewrite elem_of_app, elem_of_list_singleton. intros [|Hin]; [done|].
    assert (Hgen : forall l s s' o, sched_run 3 s l = Some (s', o) -> Failed ∈ o -> s' = Failing).
    { clear. induction l as [|i l IH]; intros s s' o H Hin; simpl in H; simplify_eq; [by apply elem_of_nil in Hin|].
      destruct (sched_step 3 s i) as [[s1 o1]|] eqn:E1; [|done].
      destruct (sched_run 3 s1 l) as [[s2 o2]|] eqn:E2; [|done]. simplify_eq.
      apply elem_of_app in Hin as [Hin|Hin]; [|by eapply IH].
      assert (s1 = Failing) as ->.
      { destruct s as [p f|p|], i as [|q|]; simpl in E1; try done; repeat (case_match; simplify_eq); set_solver. }
      destruct l as [|i' l]; simpl in E2; simplify_eq; try done. }
    apply (Hgen _ _ _ _ Ho) in Hin. done. }
  split; [done|]. split; [vm_compute; reflexivity|]. split; [vm_compute; reflexivity|].
  change (take 9 _) with ([Expired; Sent 3; Got 3; Sent 4; Expired; Sent 5] ++ [Got 5] ++ [Sent 6; Expired]).
  intros (o1 & o2 & E & Hu & _ & H3).
  (* the answer 5 matches request 5, so at most one timeout follows *)
  rewrite !app_assoc in E. remember ((o0 ++ [Expired; Sent 3; Got 3; Sent 4; Expired; Sent 5]) ++ [Got 5]) as a eqn:Ea.
  apply app_eq_inv in E as [(z & Hz & E)|(z & _ & E)].
  - (* o1 is a proper prefix or equal to a *)
    destruct z as [|e z _] using rev_ind.
    + simpl in E. rewrite E in H3. vm_compute in H3. done.
    + rewrite Ea, app_assoc in Hz. apply app_inj_tail in Hz as [Hz <-].
      apply (Hu z 5 [Sent 6; Expired]); [by rewrite E, <- app_assoc|]. rewrite <- Hz.
      change [Expired; Sent 3; Got 3; Sent 4; Expired; Sent 5] with ([Expired; Sent 3; Got 3; Sent 4; Expired] ++ [Sent 5]).
      rewrite app_assoc. apply last_sent_app_sent.
  - assert (Ht : timeouts (z ++ o2) = 1) by by rewrite <- E. rewrite timeouts_app in Ht. lia.
Qed.

(** Three timeouts without answer, one stray answer in between: reported; one matching answer in between: not. *)
Example ex_fails : exists s, life 3 [Timeout; Answer 2; Timeout; Timeout] =
  Some (s, [Sent 2; Expired; Sent 3; Got 2; Sent 4; Expired; Sent 5; Expired; Failed]).
Proof. eexists. vm_compute. done. Qed.
Example ex_lives : exists s, life 3 [Timeout; Timeout; Answer 4; Wake; Timeout; Timeout] =
  Some (s, [Sent 2; Expired; Sent 3; Expired; Sent 4; Got 4; Sent 5; Expired; Sent 6; Expired; Sent 7]).
Proof. eexists. vm_compute. done. Qed.

(** ** C25: the message loop and the tasks *)

(** The loop (pfcp_connection.go:113-139) is either free or inside HandleHeartbeat
    (node_association.go:80-82), sending on the unbuffered HeartbeatChannel of a peer.
    [sy_tasks]: the associations, each with its task; no task if HeartbeatTimeout is 0. *)
Inductive mloop := Free | Sending (peer seq : N).
Record sys := Sys { sy_loop : mloop; sy_tasks : gmap N (option sched) }.
Record hcfg := Hcfg { h_retries : N; h_timeout : N }.

Inductive sev :=
| NewAssociation (peer : N)      (** pfcp_handlers.go:110-120, 249-259 *)
| HbResponse (peer seq : N)      (** pfcp_hearbeat.go:26-40, valid Recovery Time Stamp *)
| Rendezvous                     (** node_association.go:67 meets 81 *)
| TimerFires (peer : N)          (** node_association.go:60 *)
| IntervalEnds (peer : N)        (** node_association.go:71 *)
| PruneFailed (peer : N).        (** pfcp_connection.go:122-123 meets node_association.go:64 *)

Definition sys_step (h : hcfg) (y : sys) (e : sev) : option sys :=
  match e with
  | NewAssociation a =>
      match sy_loop y, sy_tasks y !! a with
      | Free, None => Some (Sys Free (<[a := if h_timeout h =? 0 then None else Some (fst sched_start)]> (sy_tasks y)))
      | _, _ => None
      end
  | HbResponse a q =>
      match sy_loop y, sy_tasks y !! a with
      | Free, Some _ => Some (Sys (Sending a q) (sy_tasks y))
      | Free, None => Some y
      | _, _ => None
      end
  | Rendezvous =>
      match sy_loop y with
      | Sending a q =>
          match sy_tasks y !! a with
          | Some (Some s) => match sched_step (h_retries h) s (Answer q) with
                             | Some (s', _) => Some (Sys Free (<[a := Some s']> (sy_tasks y)))
                             | None => None
                             end
          | _ => None
          end
      | Free => None
      end
  | TimerFires a =>
      match sy_tasks y !! a with
      | Some (Some s) => match sched_step (h_retries h) s Timeout with
                         | Some (s', _) => Some (Sys (sy_loop y) (<[a := Some s']> (sy_tasks y)))
                         | None => None
                         end
      | _ => None
      end
  | IntervalEnds a =>
      match sy_tasks y !! a with
      | Some (Some s) => match sched_step (h_retries h) s Wake with
                         | Some (s', _) => Some (Sys (sy_loop y) (<[a := Some s']> (sy_tasks y)))
                         | None => None
                         end
      | _ => None
      end
  | PruneFailed a =>
      match sy_loop y, sy_tasks y !! a with
      | Free, Some (Some Failing) => Some (Sys Free (delete a (sy_tasks y)))
      | _, _ => None
      end
  end.
Fixpoint sys_run (h : hcfg) (y : sys) (l : list sev) : option sys :=
  match l with
  | [] => Some y
  | e :: r => match sys_step h y e with Some y' => sys_run h y' r | None => None end
  end.
Definition sys_init : sys := Sys Free ∅.

(** The loop never gets out of its current call again, whatever happens. *)
Definition stuck (h : hcfg) (y : sys) : Prop :=
  forall l y', sys_run h y l = Some y' -> sy_loop y' = sy_loop y.

Lemma stuck_intro h y a q :
  sy_loop y = Sending a q -> (sy_tasks y !! a = Some (Some Failing) \/ sy_tasks y !! a = Some None) -> stuck h y.
Proof.
  intros Hl Ht l. revert y Hl Ht.
  assert (Hstep : forall y e y', sy_loop y = Sending a q -> (sy_tasks y !! a = Some (Some Failing) \/ sy_tasks y !! a = Some None) ->
     sys_step h y e = Some y' -> sy_loop y' = Sending a q /\ (sy_tasks y' !! a = Some (Some Failing) \/ sy_tasks y' !! a = Some None)).
  { intros y e y' Hl Ht H. destruct e as [b|b p| |b|b|b]; simpl in H; rewrite ?Hl in H; try done.
    - destruct Ht as [Ht|Ht]; rewrite Ht in H; done.
    - destruct (sy_tasks y !! b) as [[s|]|] eqn:Eb; try done. destruct (sched_step _ s Timeout) as [[s' o]|] eqn:Es; [|done].
      simplify_eq. simpl. split; [done|]. destruct (decide (a = b)) as [->|]; [|by rewrite lookup_insert_ne].
      destruct Ht as [Ht|Ht]; rewrite Ht in Eb; by simplify_eq.
    - destruct (sy_tasks y !! b) as [[s|]|] eqn:Eb; try done. destruct (sched_step _ s Wake) as [[s' o]|] eqn:Es; [|done].
      simplify_eq. simpl. split; [done|]. destruct (decide (a = b)) as [->|]; [|by rewrite lookup_insert_ne].
      destruct Ht as [Ht|Ht]; rewrite Ht in Eb; by simplify_eq. }
  induction l as [|e l IH]; intros y Hl Ht y' H; simpl in H; simplify_eq; [done|].
  destruct (sys_step h y e) as [y1|] eqn:E; [|done]. destruct (Hstep _ _ _ Hl Ht E) as [Hl1 Ht1].
  rewrite (IH y1 Hl1 Ht1 y' H). congruence.
Qed.

Lemma loop_peer_known h l : forall y, sys_run h sys_init l = Some y ->
  forall a q, sy_loop y = Sending a q -> is_Some (sy_tasks y !! a).
Proof.
  assert (Hgen : forall l y y', (forall a q, sy_loop y = Sending a q -> is_Some (sy_tasks y !! a)) -> sys_run h y l = Some y' ->
     forall a q, sy_loop y' = Sending a q -> is_Some (sy_tasks y' !! a)).
  { clear. induction l as [|e l IH]; intros y y' Hi H; simpl in H; simplify_eq; [done|].
    destruct (sys_step h y e) as [y1|] eqn:E; [|done]. eapply IH; [|exact H]. clear H IH.
    intros a q Hl. destruct e as [b|b p| |b|b|b]; simpl in E.
    - destruct (sy_loop y), (sy_tasks y !! b); simplify_eq; done.
    - destruct (sy_loop y) eqn:El, (sy_tasks y !! b) eqn:Eb; simplify_eq/=; [by eexists|]. by rewrite El in Hl.
    - destruct (sy_loop y); [done|]. repeat (case_match; simplify_eq); done.
    - repeat (case_match; simplify_eq). simpl in *. destruct (decide (a = b)) as [->|]; [rewrite lookup_insert; by eexists|].
      rewrite lookup_insert_ne by done. by eapply Hi.
    - repeat (case_match; simplify_eq). simpl in *. destruct (decide (a = b)) as [->|]; [rewrite lookup_insert; by eexists|].
      rewrite lookup_insert_ne by done. by eapply Hi.
    - repeat (case_match; simplify_eq). }
  intros y H. eapply Hgen; [|exact H]. done.
Qed.

(** The loop, busy with a heartbeat response, is stuck exactly if the peer's task has given the
    peer up (and waits for the loop) or was never started. *)
Theorem stuck_iff_partial :
  forall h l y a q,
    sys_run h sys_init l = Some y -> sy_loop y = Sending a q ->
    (stuck h y <-> sy_tasks y !! a = Some (Some Failing) \/ sy_tasks y !! a = Some None).
Proof.
  intros h l y a q Hrun Hl. split; [|by apply (stuck_intro h y a q)].
  intros Hst. destruct (loop_peer_known h l y Hrun a q Hl) as [[s|] Ht]; [|by right]. left.
  destruct s as [p f|p|]; [exfalso|exfalso|done].
  - destruct (sched_step (h_retries h) (Waiting p f) (Answer q)) as [[s' o]|] eqn:E.
    + specialize (Hst [Rendezvous]). simpl in Hst. rewrite Hl, Ht in Hst. simpl in E, Hst. rewrite E in Hst.
      specialize (Hst _ eq_refl). done.
    + simpl in E. by destruct (p =? q).
  - destruct (sched_step (h_retries h) (Waiting (next_seq p) 0) (Answer q)) as [[s' o]|] eqn:E.
    + specialize (Hst [IntervalEnds a; Rendezvous]). simpl in Hst. rewrite Ht in Hst. simpl in Hst.
      rewrite Hl in Hst. rewrite lookup_insert in Hst. simpl in E, Hst. rewrite E in Hst. specialize (Hst _ eq_refl). done.
    + simpl in E. by destruct (next_seq p =? q).
Qed.

(** A late answer: the last timeout has passed, the loop has not yet learned of it. *)
Theorem late_answer_blocks_refuted :
  exists l y, sys_run (Hcfg 3 5) sys_init l = Some y /\ sy_loop y = Sending 7 4 /\ stuck (Hcfg 3 5) y.
Proof.
  exists [NewAssociation 7; TimerFires 7; TimerFires 7; TimerFires 7; HbResponse 7 4].
  eexists. split; [vm_compute; reflexivity|]. split; [done|]. eapply stuck_intro; [done|]. left. done.
Qed.
(** Heartbeats switched off: any heartbeat response of an associated peer. *)
Theorem heartbeats_off_blocks_refuted :
  exists l y, sys_run (Hcfg 3 0) sys_init l = Some y /\ sy_loop y = Sending 7 1 /\ stuck (Hcfg 3 0) y.
Proof.
  exists [NewAssociation 7; HbResponse 7 1].
  eexists. split; [vm_compute; reflexivity|]. split; [done|]. eapply stuck_intro; [done|]. right. done.
Qed.
(** A response from a peer without association never blocks. *)
Theorem unknown_peer_never_blocks :
  forall h y a q, sy_loop y = Free -> sy_tasks y !! a = None -> sys_step h y (HbResponse a q) = Some y.
Proof. intros h y a q Hl Ht. simpl. by rewrite Hl, Ht. Qed.
Example ex_answered : exists y,
  sys_run (Hcfg 3 5) sys_init [NewAssociation 7; HbResponse 7 2; Rendezvous; IntervalEnds 7; TimerFires 7; HbResponse 7 4] = Some y /\
  sy_loop y = Sending 7 4 /\ sy_tasks y !! 7 = Some (Some (Waiting 4 1)).
Proof. eexists. split; [vm_compute; reflexivity|]. by split. Qed.

(** ** C24 for the whole UPF: the heartbeats of one peer among those of the others *)

(** What happens to the task of peer [a] in a schedule; [p] is the answer the message loop is passing on. *)
Fixpoint inputs (a : N) (p : option (N * N)) (l : list sev) : list hin :=
  match l with
  | [] => []
  | HbResponse b q :: r => inputs a (Some (b, q)) r
  | Rendezvous :: r => match p with Some (b, q) => if b =? a then [Answer q] else [] | None => [] end ++ inputs a None r
  | TimerFires b :: r => (if b =? a then [Timeout] else []) ++ inputs a p r
  | IntervalEnds b :: r => (if b =? a then [Wake] else []) ++ inputs a p r
  | _ :: r => inputs a p r
  end.

Lemma sched_run_step r s i s1 o1 l s2 o2 : sched_step r s i = Some (s1, o1) -> sched_run r s1 l = Some (s2, o2) ->
  sched_run r s ([i] ++ l) = Some (s2, o1 ++ o2).
Proof. intros H1 H2. cbn [app sched_run]. by rewrite H1, H2. Qed.

Lemma own_inputs h a l : forall y s p y', sy_tasks y !! a = Some (Some s) ->
  (forall b q, sy_loop y = Sending b q -> p = Some (b, q)) -> PruneFailed a ∉ l -> sys_run h y l = Some y' ->
  exists s' o, sched_run (h_retries h) s (inputs a p l) = Some (s', o) /\ sy_tasks y' !! a = Some (Some s').
Proof.
  induction l as [|e l IH]; intros y s p y' Ht Hp Hn H.
  { simpl in H. simplify_eq. by exists s, []. }
  cbn [sys_run] in H. destruct (sys_step h y e) as [y1|] eqn:E; [|done].
  apply not_elem_of_cons in Hn as [Hne Hn].
  destruct e as [b|b q| |b|b|b]; cbn [sys_step inputs] in *.
  - destruct (sy_loop y) eqn:El; [|done]. destruct (sy_tasks y !! b) eqn:Eb; [done|]. simplify_eq.
    refine (IH _ s p y' _ _ Hn H); [|by intros ? ?]. cbn. rewrite lookup_insert_ne; [done|]. intros ->. by rewrite Eb in Ht.
  - destruct (sy_loop y) eqn:El; [|done]. destruct (sy_tasks y !! b) eqn:Eb; simplify_eq.
    + refine (IH _ s _ y' _ _ Hn H); cbn; [exact Ht|]. by intros ? ? [= <- <-].
    + refine (IH _ s _ y' Ht _ Hn H). intros ? ? Hx. by rewrite El in Hx.
  - destruct (sy_loop y) as [|b q] eqn:El; [done|]. rewrite (Hp b q eq_refl). destruct (sy_tasks y !! b) as [[sb|]|] eqn:Eb; [|done|done].
    destruct (sched_step _ sb _) as [[sb' ob]|] eqn:Es; [|done]. simplify_eq. destruct (N.eqb_spec b a) as [->|Hba].
    + rewrite Ht in Eb. injection Eb as <-. destruct (IH (Sys Free (<[a:=Some sb']> (sy_tasks y))) sb' None _ (lookup_insert _ _ _) ltac:(by intros ? ?) Hn H) as (s' & o & Hr & Hy).
      exists s', (ob ++ o). split; [|done]. by eapply sched_run_step.
    + refine (IH _ s _ y' _ _ Hn H); [|by intros ? ?]. cbn. by rewrite lookup_insert_ne.
  - destruct (sy_tasks y !! b) as [[sb|]|] eqn:Eb; [|done|done]. destruct (sched_step _ sb _) as [[sb' ob]|] eqn:Es; [|done]. simplify_eq.
    destruct (N.eqb_spec b a) as [->|Hba].
    + rewrite Ht in Eb. injection Eb as <-. destruct (IH (Sys (sy_loop y) (<[a:=Some sb']> (sy_tasks y))) sb' p _ (lookup_insert _ _ _) Hp Hn H) as (s' & o & Hr & Hy).
      exists s', (ob ++ o). split; [|done]. by eapply sched_run_step.
    + refine (IH _ s p y' _ _ Hn H); [|exact Hp]. cbn. by rewrite lookup_insert_ne.
  - destruct (sy_tasks y !! b) as [[sb|]|] eqn:Eb; [|done|done]. destruct (sched_step _ sb _) as [[sb' ob]|] eqn:Es; [|done]. simplify_eq.
    destruct (N.eqb_spec b a) as [->|Hba].
    + rewrite Ht in Eb. injection Eb as <-. destruct (IH (Sys (sy_loop y) (<[a:=Some sb']> (sy_tasks y))) sb' p _ (lookup_insert _ _ _) Hp Hn H) as (s' & o & Hr & Hy).
      exists s', (ob ++ o). split; [|done]. by eapply sched_run_step.
    + refine (IH _ s p y' _ _ Hn H); [|exact Hp]. cbn. by rewrite lookup_insert_ne.
  - destruct (sy_loop y) eqn:El; [|done]. destruct (sy_tasks y !! b) as [[[]|]|] eqn:Eb; try done. simplify_eq.
    refine (IH _ s _ y' _ _ Hn H); [|by intros ? ?]. cbn. rewrite lookup_delete_ne; [done|congruence].
Qed.

(** Whatever the other peers and the message loop do: as long as the association of [a] is not given up, it exists and its task has done
    exactly what its own timeouts and answers make it do. *)
Theorem peers_independent :
  forall h a l1 l2 y, h_timeout h <> 0 -> sys_run h sys_init (l1 ++ NewAssociation a :: l2) = Some y -> PruneFailed a ∉ l2 ->
    exists s o, life (h_retries h) (inputs a None l2) = Some (s, o) /\ sy_tasks y !! a = Some (Some s).
Proof.
  intros h a l1 l2 y Hh H Hn.
  assert (exists y0, sys_run h y0 (NewAssociation a :: l2) = Some y) as [y0 H0].
  { revert H. generalize sys_init. induction l1 as [|e l1 IH]; intros y1 H; [by exists y1|]. cbn [app sys_run] in H.
    destruct (sys_step h y1 e) as [y2|]; [by apply (IH y2)|done]. }
  cbn [sys_run sys_step] in H0. destruct (sy_loop y0); [|done]. destruct (sy_tasks y0 !! a); [done|].
  rewrite (proj2 (N.eqb_neq _ _) Hh) in H0.
  destruct (own_inputs h a l2 _ (fst sched_start) None _ (lookup_insert (sy_tasks y0) a _ : sy_tasks (Sys Free (<[a:=Some (fst sched_start)]> (sy_tasks y0))) !! a = _) ltac:(by intros ? ?) Hn H0) as (s & o & Hs & Ht).
  exists s, (snd sched_start ++ o). split; [|exact Ht]. unfold life. by rewrite Hs.
Qed.

(** When the loop is free, the association of [a] is given up exactly if its own unanswered heartbeats have become too many
    ([o]: what was sent to it and received from it).  For associations that have sent fewer than 2^24 - 1 requests. *)
Theorem pruned_exactly_when_due_partial :
  forall h a l1 l2 y, h_timeout h <> 0 -> h_retries h < 2 ^ 32 ->
    sys_run h sys_init (l1 ++ NewAssociation a :: l2) = Some y -> PruneFailed a ∉ l2 ->
    (forall n, Answer n ∈ inputs a None l2 -> n < 2 ^ 24) -> sy_loop y = Free ->
    exists s o, life (h_retries h) (inputs a None l2) = Some (s, o) /\
      (requests o < 16777215 ->
       match sys_step h y (PruneFailed a) with
       | Some y' => sy_tasks y' = delete a (sy_tasks y) /\ exists o', o = o' ++ [Failed] /\ failure_due (h_retries h) o'
       | None => Failed ∉ o /\ ~ failure_due (h_retries h) o
       end).
Proof.
  intros h a l1 l2 y Hh Hr H Hn Hans Hf. destruct (peers_independent h a l1 l2 y Hh H Hn) as (s & o & Hl & Ht).
  exists s, o. split; [done|]. intros Hreq. destruct (failure_exactly_when_due_partial _ _ _ _ Hr Hans Hreq Hl) as [C1 C2].
  assert (s = Failing <-> Failed ∈ o) as Hs.
  { unfold life in Hl. destruct (sched_run _ _ _) as [[s1 o1]|] eqn:E; [|done]. injection Hl as -> <-.
    apply (sched_run_inv (h_retries h) _ (Waiting 2 0) [Sent 2] s o1) in E; try done.
    - change (snd sched_start ++ o1) with ([Sent 2] ++ o1). destruct s as [p f|p|]; cbn [sched_inv] in E.
      + split; [done|]. intros Hin. by destruct E as (_ & _ & Hnf & _).
      + split; [done|]. intros Hin. by destruct E as (_ & Hnf & _).
      + split; [|done]. intros _. destruct E as (o' & Eo & _). apply (eq_ind_r (fun z => Failed ∈ z) (x := o' ++ [Failed])); [apply elem_of_app; right; left|exact Eo].
    - simpl. split; [done|]. split; [done|]. split; [by rewrite elem_of_list_singleton|].
      exists [], [Sent 2]. split; [done|]. split; [|by split; [|left]]. split; [|by left].
      change [Sent 2] with ([] ++ [Sent 2]). apply unanswered_snoc; [apply unanswered_nil|done]. }
  cbn [sys_step]. rewrite Hf, Ht. destruct s as [p f|p|].
  - assert (Failed ∉ o) as Hno by (by rewrite <- Hs). split; [done|by apply C2].
  - assert (Failed ∉ o) as Hno by (by rewrite <- Hs). split; [done|by apply C2].
  - split; [done|]. destruct (C1 (proj1 Hs eq_refl)) as (o' & Ho & _ & Hd). by exists o'.
Qed.

(** Peer 7 answers, peer 9 does not; 9 is given up, 7 is not. *)
Definition ex_two : list sev :=
  [NewAssociation 9; HbResponse 7 2; Rendezvous; TimerFires 9; IntervalEnds 7; TimerFires 9; HbResponse 7 3; Rendezvous; TimerFires 9].
Example ex_two_peers : exists y, sys_run (Hcfg 3 5) sys_init ([] ++ NewAssociation 7 :: ex_two) = Some y /\ PruneFailed 7 ∉ ex_two /\ sy_loop y = Free /\
  inputs 7 None ex_two = [Answer 2; Wake; Answer 3] /\ sys_step (Hcfg 3 5) y (PruneFailed 7) = None /\
  exists y', sys_step (Hcfg 3 5) y (PruneFailed 9) = Some y' /\ is_Some (sy_tasks y' !! 7) /\ sy_tasks y' !! 9 = None.
Proof.
  eexists. split; [vm_compute; reflexivity|]. split; [unfold ex_two; rewrite !not_elem_of_cons; repeat split; try done; apply not_elem_of_nil|]. split; [done|]. split; [done|]. split; [done|].
  eexists. split; [vm_compute; reflexivity|]. split; [by eexists|done].
Qed.
