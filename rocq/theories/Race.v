(** C72: the REST listing of sessions runs in its own goroutine, without a lock, while the message loop changes the tables. *)
From Verif Require Import Base IdTracker ResourceManager SdfParser MapOps Pfcp PfcpProps PfcpHistory PfcpReach PfcpRules PfcpCreate PfcpRemove.

(** rest/pfcp_sessions.go:51-58 [GetAllSessions], step by step.  A Go loop over a map may produce the entries present in any order; an entry
    removed before it is reached is not produced; one that is added may or may not be; the loop does not end before every entry that
    has been there from its start was produced.  [in_stale]: the loop over the sessions holds a pointer to the association: if that
    leaves the table (pfcp_connection.go:189), the loop goes on over the sessions it had. *)
Record inner := Inner { in_addr : N; in_stale : option (gmap N session); in_seen : gset N; in_todo : gset N }.
Record lister := Lister { li_seen : gset N; li_todo : gset N; li_in : option inner; li_out : list (N * N * session) }.
Definition lister_start (c : conn) : lister := Lister ∅ (dom (c_assocs c)) None [].
Definition sessions_at (c : conn) (addr : N) : gmap N session := match c_assocs c !! addr with Some a => a_sessions a | None => ∅ end.
Definition in_sessions (c : conn) (i : inner) : gmap N session := match in_stale i with Some m => m | None => sessions_at c (in_addr i) end.

Inductive lact := Enter (addr : N) | Visit (seid : N) | Leave.
(** [None]: the step is not possible. *)
Definition lstep (c : conn) (x : lister) (a : lact) : option lister :=
  match a, li_in x with
  | Enter addr, None =>
      if bool_decide (addr ∈ dom (c_assocs c)) && bool_decide (addr ∉ li_seen x)
      then Some (Lister (li_seen x ∪ {[addr]}) (li_todo x ∖ {[addr]}) (Some (Inner addr None ∅ (dom (sessions_at c addr)))) (li_out x)) else None
  | Visit seid, Some i =>
      match in_sessions c i !! seid with
      | Some s => if bool_decide (seid ∉ in_seen i)
                  then Some (Lister (li_seen x) (li_todo x) (Some (Inner (in_addr i) (in_stale i) (in_seen i ∪ {[seid]}) (in_todo i ∖ {[seid]})))
                               (li_out x ++ [(in_addr i, seid, s)])) else None
      | None => None
      end
  | Leave, Some i => if bool_decide (in_todo i = ∅) then Some (Lister (li_seen x) (li_todo x) None (li_out x)) else None
  | _, _ => None
  end.
Definition finished (x : lister) : Prop := li_in x = None /\ li_todo x = ∅.
(** What the listing may still do after the tables went from [c] to [c']. *)
Definition lmoved (c c' : conn) (x : lister) : lister :=
  Lister (li_seen x ∩ dom (c_assocs c')) (li_todo x ∩ dom (c_assocs c'))
    ((fun i =>
        let st := match in_stale i with Some m => Some m | None => if bool_decide (in_addr i ∈ dom (c_assocs c')) then None else Some (sessions_at c (in_addr i)) end in
        let m := match st with Some m => m | None => sessions_at c' (in_addr i) end in
        Inner (in_addr i) st (in_seen i ∩ dom m) (in_todo i ∩ dom m)) <$> li_in x)
    (li_out x).

(** The writes to the tables: whether the table of associations is written and the address of the association whose sessions are
    (pfcp_session_handlers.go:129-130, 210, 246-247, 468; pfcp_handlers.go:114, 253; pfcp_connection.go:189). *)
Definition given {A} (x : fld A) : bool := match x with Good _ => true | _ => false end.
Definition writes (c : conn) (e : event) : bool * option N :=
  match e, step c e with
  | Recv _ addr _ (SessEstReq _), Done _ (Some r) => if bool_decide (r_cause r = Some 1%N) then (true, Some addr) else (false, None)
  | Recv _ addr _ (SessModReq q), Done _ (Some r) =>
      if bool_decide (r_cause r = Some 1%N) then (given (mq_fseid q), Some addr)
      else if bool_decide (r_cause r = Some 73%N) && given (mq_fseid q) then (true, Some addr) else (false, None)
  | Recv _ addr _ (SessDelReq _), Done _ (Some r) => if bool_decide (r_cause r = Some 1%N) then (false, Some addr) else (false, None)
  | Recv _ addr _ (AssocSetupReq _ _), Done c' _ | Recv _ addr _ (AssocSetupResp _ _ _), Done c' _ =>
      (bool_decide (c_assocs c !! addr = None) && bool_decide (is_Some (c_assocs c' !! addr)), None)
  | HeartbeatFailed _ _, Done _ _ => (true, None)
  | _, _ => (false, None)
  end.
(** The map a step of the listing looks at. *)
Definition reads_outer (a : lact) : bool := match a with Enter _ => true | _ => false end.
Definition reads_inner (x : lister) (a : lact) : option N :=
  match a, li_in x with (Visit _ | Leave), Some i => match in_stale i with None => Some (in_addr i) | Some _ => None end | _, _ => None end.
Definition clash (c : conn) (x : lister) (a : lact) (e : event) : bool :=
  (reads_outer a && fst (writes c e)) || match reads_inner x a, snd (writes c e) with Some n, Some m => (n =? m)%N | _, _ => false end.

(** The process: the message loop may be in the middle of the writes of an event. *)
Record sys := Sys { y_conn : conn; y_busy : option event; y_list : lister; y_hist : list conn }.
Inductive act := Begin (e : event) | End | Do (a : lact).
(** [Fatal]: "fatal error: concurrent map iteration and map write" (the Go runtime ends the process). *)
Inductive result := Goes (y : sys) | Fatal | Impossible.
Definition ystep (y : sys) (a : act) : result :=
  match a, y_busy y with
  | Begin e, None => match step (y_conn y) e with Done _ _ => Goes (Sys (y_conn y) (Some e) (y_list y) (y_hist y)) | Crash => Impossible end
  | End, Some e => match step (y_conn y) e with
                   | Done c' _ => Goes (Sys c' None (lmoved (y_conn y) c' (y_list y)) (y_hist y ++ [c']))
                   | Crash => Impossible end
  | Do a, b =>
      if match b with Some e => clash (y_conn y) (y_list y) a e | None => false end then Fatal
      else match lstep (y_conn y) (y_list y) a with Some x => Goes (Sys (y_conn y) b x (y_hist y)) | None => Impossible end
  | _, _ => Impossible
  end.
Fixpoint yrun (y : sys) (l : list act) : result :=
  match l with
  | [] => Goes y
  | a :: r => match ystep y a with Goes y' => yrun y' r | o => o end
  end.
Definition ystart (c : conn) : sys := Sys c None (lister_start c) [c].

(** ** Specification *)
(** The session is there in every state the tables go through while the listing runs. *)
Definition throughout (h : list conn) (addr seid : N) : Prop := forall c, c ∈ h -> is_Some (session_of c addr seid).
Definition times (addr seid : N) (out : list (N * N * session)) : nat :=
  length (List.filter (fun e => bool_decide (fst e = (addr, seid))) out).

Lemma session_at c addr seid : session_of c addr seid = sessions_at c addr !! seid.
Proof. unfold session_of, sessions_at. by destruct (c_assocs c !! addr). Qed.
Lemma session_assoc c addr seid : is_Some (session_of c addr seid) -> addr ∈ dom (c_assocs c).
Proof. unfold session_of. destruct (c_assocs c !! addr) eqn:E; simpl; intros [? ?]; [|done]. by eapply elem_of_dom_2. Qed.
Lemma session_in c addr seid : is_Some (session_of c addr seid) -> seid ∈ dom (sessions_at c addr).
Proof. rewrite session_at. apply elem_of_dom. Qed.
Lemma times_app addr seid l l' : times addr seid (l ++ l') = (times addr seid l + times addr seid l')%nat.
Proof. unfold times. by rewrite List.filter_app, List.app_length. Qed.

(** Everything listed was there at some moment. *)
Record sound_inv (y : sys) : Prop := {
  si_now : y_conn y ∈ y_hist y;
  si_out : forall a n s, (a, n, s) ∈ li_out (y_list y) -> exists c, c ∈ y_hist y /\ session_of c a n = Some s;
  si_stale : forall i m n s, li_in (y_list y) = Some i -> in_stale i = Some m -> m !! n = Some s -> exists c, c ∈ y_hist y /\ session_of c (in_addr i) n = Some s }.
Lemma sound_step y a y' : sound_inv y -> ystep y a = Goes y' -> sound_inv y'.
Proof.
  intros [S1 S2 S3] H. destruct a as [e| |a]; cbn [ystep] in H.
  - destruct (y_busy y); [done|]. destruct (step _ e); [|done]. injection H as <-. by constructor.
  - destruct (y_busy y) as [e|]; [|done]. destruct (step _ e) as [c' r|]; [|done]. injection H as <-. constructor; cbn [y_conn y_hist y_list].
    + apply elem_of_app. right. by apply elem_of_list_singleton.
    + intros a n s Hs. destruct (S2 a n s Hs) as (c & Hc & Hcs). exists c. split; [|done]. apply elem_of_app. by left.
    + intros i m n s Hi Hm Hs. cbn [lmoved li_in] in Hi. destruct (li_in (y_list y)) as [i0|] eqn:E0; [|done]. injection Hi as <-. cbn [in_stale in_addr] in *.
      destruct (in_stale i0) as [m0|] eqn:Est.
      * injection Hm as <-. destruct (S3 i0 m0 n s eq_refl Est Hs) as (c & Hc & Hcs). exists c. split; [|done]. apply elem_of_app. by left.
      * destruct (bool_decide _); [done|]. injection Hm as <-. exists (y_conn y). split; [apply elem_of_app; by left|]. by rewrite session_at.
  - destruct (match y_busy y with Some e => clash _ _ _ e | None => false end); [done|].
    destruct (lstep _ _ a) as [x|] eqn:El; [|done]. injection H as <-. unfold lstep in El.
    destruct a as [addr|seid|], (li_in (y_list y)) as [i|] eqn:Ei; try done.
    + destruct (bool_decide _ && bool_decide _); [|done]. injection El as <-. constructor; cbn [y_conn y_hist y_list li_out li_in]; [done|done|].
      intros i m n s [= <-]. done.
    + destruct (in_sessions _ i !! seid) as [s0|] eqn:Es; [|done]. destruct (bool_decide _); [|done]. injection El as <-.
      assert (H0 : exists c, c ∈ y_hist y /\ session_of c (in_addr i) seid = Some s0).
      { unfold in_sessions in Es. destruct (in_stale i) as [m|] eqn:Em; [by apply (S3 i m)|]. exists (y_conn y). by rewrite session_at. }
      constructor; cbn [y_conn y_hist y_list li_out li_in]; [done| |].
      * intros a n s [Hs|Hs%elem_of_list_singleton]%elem_of_app; [by apply S2|]. by injection Hs as -> -> ->.
      * intros i' m n s [= <-] Hm Hs. by apply (S3 i m).
    + destruct (bool_decide _); [|done]. injection El as <-. by constructor.
Qed.

(** A session that is there all the time is produced once. *)
Inductive progress (addr seid : N) (x : lister) : Prop :=
| Ahead : addr ∈ li_todo x -> addr ∉ li_seen x -> (forall i, li_in x = Some i -> in_addr i <> addr) -> times addr seid (li_out x) = 0%nat -> progress addr seid x
| Inside i : li_in x = Some i -> in_addr i = addr -> in_stale i = None -> addr ∉ li_todo x -> addr ∈ li_seen x ->
    (seid ∈ in_todo i /\ seid ∉ in_seen i /\ times addr seid (li_out x) = 0%nat \/
     seid ∉ in_todo i /\ seid ∈ in_seen i /\ times addr seid (li_out x) = 1%nat) -> progress addr seid x
| Behind : addr ∉ li_todo x -> addr ∈ li_seen x -> (forall i, li_in x = Some i -> in_addr i <> addr) -> times addr seid (li_out x) = 1%nat -> progress addr seid x.
Lemma progress_step addr seid y a y' : ystep y a = Goes y' -> is_Some (session_of (y_conn y) addr seid) -> is_Some (session_of (y_conn y') addr seid) ->
  progress addr seid (y_list y) -> progress addr seid (y_list y').
Proof.
  intros H Hl Hl' P. destruct a as [e| |a]; cbn [ystep] in H.
  - destruct (y_busy y); [done|]. destruct (step _ e); [|done]. by injection H as <-.
  - destruct (y_busy y) as [e|]; [|done]. destruct (step _ e) as [c' r|]; [|done]. injection H as <-. cbn [y_conn y_list] in *.
    pose proof (session_assoc _ _ _ Hl') as Ha. pose proof (session_in _ _ _ Hl') as Hn.
    destruct P as [P1 P2 P3 P4|i Pi Pa Ps P1 P2 P4|P1 P2 P3 P4].
    + apply Ahead; cbn [lmoved li_todo li_seen li_in li_out]; [set_solver|set_solver| |done].
      intros i Hi. destruct (li_in (y_list y)) as [i0|] eqn:E0; [|done]. injection Hi as <-. by apply (P3 i0).
    + eapply Inside; cbn [lmoved li_todo li_seen li_in li_out]; [by rewrite Pi|done| |set_solver|set_solver|]; cbn [in_stale in_todo in_seen].
      * rewrite Ps, Pa. by rewrite bool_decide_true.
      * rewrite Ps, Pa, bool_decide_true by done. destruct P4 as [(T1 & T2 & T3)|(T1 & T2 & T3)]; [left|right]; split_and!; try done; set_solver.
    + apply Behind; cbn [lmoved li_todo li_seen li_in li_out]; [set_solver|set_solver| |done].
      intros i Hi. destruct (li_in (y_list y)) as [i0|] eqn:E0; [|done]. injection Hi as <-. by apply (P3 i0).
  - destruct (match y_busy y with Some e => clash _ _ _ e | None => false end); [done|].
    destruct (lstep _ _ a) as [x|] eqn:El; [|done]. injection H as <-. cbn [y_conn y_list] in *. clear Hl'. unfold lstep in El.
    destruct a as [addr'|seid'|], (li_in (y_list y)) as [i|] eqn:Ei; try done.
    + destruct (bool_decide _ && bool_decide _) eqn:Eb; [|done]. injection El as <-. rewrite andb_true_iff, !bool_decide_eq_true in Eb. destruct Eb as [Eb1 Eb2].
      destruct P as [P1 P2 P3 P4|i Pi Pa Ps P1 P2 P4|P1 P2 P3 P4]; [|congruence|].
      * destruct (decide (addr' = addr)) as [->|Hne].
        -- eapply Inside; cbn [li_todo li_seen li_in li_out]; [reflexivity|done|done|set_solver|set_solver|]. cbn [in_todo in_seen]. left.
           split_and!; [by apply session_in|set_solver|done].
        -- apply Ahead; cbn [li_todo li_seen li_in li_out]; [set_solver|set_solver| |done]. by intros i [= <-].
      * destruct (decide (addr' = addr)) as [->|Hne]; [done|].
        apply Behind; cbn [li_todo li_seen li_in li_out]; [set_solver|set_solver| |done]. by intros i [= <-].
    + destruct (in_sessions _ i !! seid') as [s0|] eqn:Es; [|done]. destruct (bool_decide (seid' ∉ in_seen i)) eqn:Eb; [|done]. injection El as <-.
      apply bool_decide_eq_true in Eb.
      assert (T : in_addr i <> addr -> times addr seid (li_out (y_list y) ++ [(in_addr i, seid', s0)]) = times addr seid (li_out (y_list y))).
      { intros Hne. rewrite times_app. unfold times at 2. simpl. rewrite bool_decide_false by congruence. simpl. lia. }
      destruct P as [P1 P2 P3 P4|i' Pi Pa Ps P1 P2 P4|P1 P2 P3 P4].
      * specialize (P3 i Ei). apply Ahead; cbn [li_todo li_seen li_in li_out]; [done|done| |by rewrite T]. by intros i' [= <-].
      * rewrite Ei in Pi; injection Pi as <-. eapply Inside; cbn [li_todo li_seen li_in li_out]; [reflexivity|done|done|done|done|]. cbn [in_todo in_seen].
        rewrite times_app. unfold times at 2 4. simpl. destruct (decide (seid' = seid)) as [->|Hne].
        -- rewrite bool_decide_true by congruence. simpl. destruct P4 as [(T1 & T2 & T3)|(T1 & T2 & T3)]; [|done].
           right. split_and!; [set_solver|set_solver|lia].
        -- rewrite bool_decide_false by congruence. simpl. destruct P4 as [(T1 & T2 & T3)|(T1 & T2 & T3)]; [left|right]; (split_and!; [set_solver|set_solver|lia]).
      * specialize (P3 i Ei). apply Behind; cbn [li_todo li_seen li_in li_out]; [done|done| |by rewrite T]. by intros i' [= <-].
    + destruct (bool_decide (in_todo i = ∅)) eqn:Eb; [|done]. injection El as <-. apply bool_decide_eq_true in Eb.
      destruct P as [P1 P2 P3 P4|i' Pi Pa Ps P1 P2 P4|P1 P2 P3 P4].
      * by apply Ahead.
      * rewrite Ei in Pi; injection Pi as <-. rewrite Eb in P4. apply Behind; cbn [li_todo li_seen li_in li_out]; [done|done|done|].
        destruct P4 as [(T1 & _)|(_ & _ & T3)]; [set_solver|done].
      * by apply Behind.
Qed.

Lemma hist_grows l : forall y y', yrun y l = Goes y' -> exists h, y_hist y' = y_hist y ++ h.
Proof.
  induction l as [|a l IH]; intros y y' H; simpl in H; [injection H as <-; exists []; by rewrite app_nil_r|].
  destruct (ystep y a) as [y1| |] eqn:E; try done. destruct (IH _ _ H) as [h Hh].
  assert (exists h1, y_hist y1 = y_hist y ++ h1) as [h1 Hh1].
  { destruct a as [e| |a]; cbn [ystep] in E.
    - destruct (y_busy y); [done|]. destruct (step _ e); [|done]. injection E as <-. exists []. by rewrite app_nil_r.
    - destruct (y_busy y) as [e|]; [|done]. destruct (step _ e) as [c' r|]; [|done]. injection E as <-. by exists [c'].
    - destruct (match y_busy y with Some e => clash _ _ _ e | None => false end); [done|]. destruct (lstep _ _ a) as [x|]; [|done].
      injection E as <-. exists []. by rewrite app_nil_r. }
  exists (h1 ++ h). by rewrite Hh, Hh1, app_assoc.
Qed.

(** ** C72 *)
Theorem listing_while_changing_partial :
  forall c l y, yrun (ystart c) l = Goes y -> finished (y_list y) ->
    (* every session there all the time is listed once *)
    (forall addr seid, throughout (y_hist y) addr seid -> times addr seid (li_out (y_list y)) = 1%nat) /\
    (* everything listed was there, as listed, at some moment *)
    (forall addr seid s, (addr, seid, s) ∈ li_out (y_list y) -> exists c', c' ∈ y_hist y /\ session_of c' addr seid = Some s).
Proof.
  intros c l y H [Hin Hdone].
  assert (S : sound_inv y).
  { assert (S0 : sound_inv (ystart c)). { constructor; simpl; [by apply elem_of_list_singleton| |done]. intros a n s Hs. by apply elem_of_nil in Hs. }
    clear Hin Hdone. revert H S0. generalize (ystart c). induction l as [|a l IH]; intros y0 H S0; simpl in H; [by injection H as <-|].
    destruct (ystep y0 a) as [y1| |] eqn:E; try done. apply (IH y1 H). by apply (sound_step y0 a). }
  split; [|apply S]. intros addr seid Ht.
  assert (P : progress addr seid (y_list y)).
  { assert (Hg : forall y0, yrun y0 l = Goes y -> sound_inv y0 -> progress addr seid (y_list y0) -> progress addr seid (y_list y)).
    { clear H S Hin Hdone. induction l as [|a l IH]; intros y0 H S0 P0; simpl in H; [by injection H as <-|].
      destruct (ystep y0 a) as [y1| |] eqn:E; try done. pose proof (sound_step _ _ _ S0 E) as S1.
      apply (IH y1 H); [done|]. destruct (hist_grows _ _ _ H) as [h1 Hh1].
      destruct (hist_grows (a :: l) y0 y) as [h0 Hh0]; [simpl; by rewrite E|].
      apply (progress_step addr seid y0 a y1 E); [| |done].
      - apply Ht. rewrite Hh0. apply elem_of_app. left. apply S0.
      - apply Ht. rewrite Hh1. apply elem_of_app. left. apply S1. }
    apply (Hg (ystart c) H).
    - constructor; simpl; [by apply elem_of_list_singleton| |done]. intros a n s Hs. by apply elem_of_nil in Hs.
    - destruct (hist_grows _ _ _ H) as [h Hh]. apply Ahead; simpl; [|set_solver|done|done].
      apply (session_assoc c addr seid). apply Ht. rewrite Hh. simpl. apply elem_of_list_here. }
  destruct P as [P1 _ _ _|i Pi _ _ _ _ _|_ _ _ P4]; [set_solver|congruence|done].
Qed.

(** Refuted: nothing keeps the listing away from a map that is being written.  One session, a listing, and an establishment. *)
Theorem listing_is_safe_refuted :
  exists c l q, ex_start [ex_setup; ex_recv 2 (ex_est_of [ex_pdr 1 9] [])] = Some (c, l) /\
    yrun (ystart c) [Do (Enter 7); Begin (ex_recv 3 q); Do (Visit 2)] = Fatal.
Proof.
  pose (q := ex_est_of [ex_pdr 1 10] []).
  assert (H : ex_runs [ex_setup; ex_recv 2 (ex_est_of [ex_pdr 1 9] [])] (fun c =>
    match yrun (ystart c) [Do (Enter 7); Begin (ex_recv 3 q); Do (Visit 2)] with Fatal => true | _ => false end) = true) by by vm_compute.
  apply ex_runs_inv in H as (c & l & Hc & H). exists c, l, q. split; [exact Hc|]. clear Hc. destruct (yrun _ _); [discriminate H|reflexivity|discriminate H].
Qed.
(** Not one unlucky case: whenever a session request of a peer is being accepted, a listing that is among that peer's sessions ends
    the process, and so does one that goes on to another association while a session is established. *)
Theorem listing_killed_refuted :
  forall y sh addr seq m c' r, y_busy y = None -> step (y_conn y) (Recv sh addr seq m) = Done c' (Some r) -> r_cause r = Some 1%N ->
    match m with SessEstReq _ | SessModReq _ | SessDelReq _ => True | _ => False end ->
    (forall i n, li_in (y_list y) = Some i -> in_addr i = addr -> in_stale i = None ->
       yrun y [Begin (Recv sh addr seq m); Do (Visit n)] = Fatal /\ yrun y [Begin (Recv sh addr seq m); Do Leave] = Fatal) /\
    (forall a, match m with SessEstReq _ => True | SessModReq q => exists v, mq_fseid q = Good v | _ => False end ->
       yrun y [Begin (Recv sh addr seq m); Do (Enter a)] = Fatal).
Proof.
  intros y sh addr seq m c' r Hb Hs Hr Hm. pose proof Hs as Hs'. cbn [step] in Hs'. 
  assert (Hw : snd (writes (y_conn y) (Recv sh addr seq m)) = Some addr /\
    (match m with SessEstReq _ => True | SessModReq q => exists v, mq_fseid q = Good v | _ => False end -> fst (writes (y_conn y) (Recv sh addr seq m)) = true)).
  { unfold writes. destruct m; try done; rewrite Hs, (bool_decide_eq_true_2 _ Hr); (split; [reflexivity|]); try done. intros [v Hv]. cbn [fst]. rewrite Hv. reflexivity. }
  destruct Hw as [W1 W2]. cbn [yrun ystep]. rewrite Hb. split.
  - intros i n Hi Ha Hst. rewrite Hs. cbn [yrun ystep y_busy y_conn y_list]. unfold clash. rewrite W1. cbn [reads_outer reads_inner]. rewrite Hi, Hst, Ha, N.eqb_refl. done.
  - intros a Hout. rewrite Hs. cbn [yrun ystep y_busy y_conn y_list]. unfold clash. rewrite (W2 Hout). done.
Qed.
(** And those are the only ways: among the sessions of a peer only a session request of that same peer, and only one that is carried out
    (accepted, or a modification rejected because of its rules that announces a new session id); on the way to the next association only
    an accepted establishment, a modification that announces a session id, a new association or the end of one. *)
Theorem listing_survives_partial :
  forall y e a, y_busy y = Some e -> ystep y (Do a) = Fatal ->
    let answered x := exists c' r, step (y_conn y) e = Done c' (Some r) /\ r_cause r = Some x in
    match a with
    | Enter _ =>
        match e with
        | Recv _ _ _ (SessEstReq _) => answered 1%N
        | Recv _ _ _ (SessModReq q) => (answered 1%N \/ answered 73%N) /\ exists x, mq_fseid q = Good x
        | Recv _ addr _ (AssocSetupReq _ _) | Recv _ addr _ (AssocSetupResp _ _ _) => c_assocs (y_conn y) !! addr = None
        | HeartbeatFailed _ _ => True
        | _ => False
        end
    | _ => exists i, li_in (y_list y) = Some i /\ in_stale i = None /\
        match e with
        | Recv _ addr _ (SessEstReq _) | Recv _ addr _ (SessDelReq _) => addr = in_addr i /\ answered 1%N
        | Recv _ addr _ (SessModReq q) => addr = in_addr i /\ (answered 1%N \/ answered 73%N /\ exists x, mq_fseid q = Good x)
        | _ => False
        end
    end.
Proof.
  intros y e a Hb H. cbn [ystep] in H. rewrite Hb in H. cbv zeta.
  destruct (clash (y_conn y) (y_list y) a e) eqn:C; [|by destruct (lstep _ _ _)]. clear H.
  unfold clash in C. apply orb_prop in C.
  assert (G : forall A (x : fld A), given x = true -> exists v, x = Good v) by (intros A [| |v]; cbn; try done; eauto).
  assert (W : match e with
    | Recv _ addr _ (SessEstReq _) => (fst (writes (y_conn y) e) = true \/ snd (writes (y_conn y) e) <> None -> (exists c' r, step (y_conn y) e = Done c' (Some r) /\ r_cause r = Some 1%N)) /\ (forall m, snd (writes (y_conn y) e) = Some m -> m = addr)
    | Recv _ addr _ (SessDelReq _) => fst (writes (y_conn y) e) = false /\ (snd (writes (y_conn y) e) <> None -> (exists c' r, step (y_conn y) e = Done c' (Some r) /\ r_cause r = Some 1%N)) /\ (forall m, snd (writes (y_conn y) e) = Some m -> m = addr)
    | Recv _ addr _ (SessModReq q) =>
        (fst (writes (y_conn y) e) = true -> ((exists c' r, step (y_conn y) e = Done c' (Some r) /\ r_cause r = Some 1%N) \/ (exists c' r, step (y_conn y) e = Done c' (Some r) /\ r_cause r = Some 73%N)) /\ given (mq_fseid q) = true) /\
        (snd (writes (y_conn y) e) <> None -> (exists c' r, step (y_conn y) e = Done c' (Some r) /\ r_cause r = Some 1%N) \/ (exists c' r, step (y_conn y) e = Done c' (Some r) /\ r_cause r = Some 73%N) /\ given (mq_fseid q) = true) /\
        (forall m, snd (writes (y_conn y) e) = Some m -> m = addr)
    | Recv _ addr _ (AssocSetupReq _ _) | Recv _ addr _ (AssocSetupResp _ _ _) => (fst (writes (y_conn y) e) = true -> c_assocs (y_conn y) !! addr = None) /\ snd (writes (y_conn y) e) = None
    | HeartbeatFailed _ _ => snd (writes (y_conn y) e) = None
    | _ => writes (y_conn y) e = (false, None)
    end).
  { unfold writes. destruct e as [sh addr seq m|sh addr|]; [destruct m| |]; try reflexivity.
    all: match goal with |- context [step ?c ?x] => generalize (step c x) end; intros o.
    all: destruct o as [c1 [rr|]|]; cbn [fst snd].
    all: repeat match goal with |- context [bool_decide ?P] => destruct (bool_decide_reflect P) end; cbn [fst snd andb].
    all: try destruct (given _) eqn:Gq; cbn [fst snd andb].
    all: repeat match goal with |- _ /\ _ => split end; try reflexivity; intros; try congruence.
    all: try match goal with H : _ \/ _ |- _ => destruct H; congruence end.
    all: try (eexists _, _; split; [reflexivity|assumption]).
    all: try (left; eexists _, _; split; [reflexivity|assumption]).
    all: try (right; eexists _, _; split; [reflexivity|assumption]).
    all: try (right; split; [eexists _, _; split; [reflexivity|assumption]|reflexivity]).
    all: try match goal with H : (_, _) = _ |- _ => injection H as H; exact H end.
    all: try assumption.
    all: split; [|reflexivity]; first [left; eexists _, _; split; [reflexivity|assumption]|right; eexists _, _; split; [reflexivity|assumption]]. }
  assert (R : (reads_outer a = true /\ fst (writes (y_conn y) e) = true) \/ (exists i, reads_outer a = false /\ li_in (y_list y) = Some i /\ in_stale i = None /\ snd (writes (y_conn y) e) = Some (in_addr i))).
  { destruct C as [C|C]; [left; by apply andb_prop in C|]. right. unfold reads_inner in C.
    destruct a as [|n|]; try done; (destruct (li_in (y_list y)) as [i|]; [|done]); exists i; (destruct (in_stale i); [done|]);
      destruct (snd (writes (y_conn y) e)) as [m|]; try done; apply N.eqb_eq in C as ->; done. }
  clear C. destruct R as [[Ra Rw]|(i & Ra & Ri & Rs & Rw)].
  - destruct a as [n0| |]; [|discriminate Ra|discriminate Ra]. clear Ra. destruct e as [sh ad seq m|sh ad|]; [destruct m| |]; cbn iota in W |- *;
      try exact I; try (rewrite W in Rw; discriminate Rw); try (apply (proj1 W); exact Rw).
    + apply (proj1 W). left. exact Rw.
    + destruct W as [W _]. destruct (W Rw) as [W1 W2]. split; [exact W1|apply G; exact W2].
    + rewrite (proj1 W) in Rw. discriminate Rw.
  - assert (Rn : snd (writes (y_conn y) e) <> None) by (rewrite Rw; discriminate).
    assert (Z : exists i, li_in (y_list y) = Some i /\ in_stale i = None /\
        match e with
        | Recv _ addr _ (SessEstReq _) | Recv _ addr _ (SessDelReq _) => addr = in_addr i /\ exists c' r, step (y_conn y) e = Done c' (Some r) /\ r_cause r = Some 1%N
        | Recv _ addr _ (SessModReq q) => addr = in_addr i /\ ((exists c' r, step (y_conn y) e = Done c' (Some r) /\ r_cause r = Some 1%N) \/
            (exists c' r, step (y_conn y) e = Done c' (Some r) /\ r_cause r = Some 73%N) /\ exists x, mq_fseid q = Good x)
        | _ => False
        end).
    { exists i. split; [exact Ri|]. split; [exact Rs|].
      destruct e as [sh ad seq m|sh ad|]; [destruct m| |]; cbn iota in W |- *;
        try (rewrite W in Rn; apply Rn; reflexivity); try (rewrite (proj2 W) in Rn; apply Rn; reflexivity).
      - destruct W as [W1 W2]. split; [symmetry; apply W2; exact Rw|apply W1; right; exact Rn].
      - destruct W as (_ & W1 & W2). split; [symmetry; apply W2; exact Rw|]. destruct (W1 Rn) as [?|[? ?]]; [left; assumption|right; split; [assumption|apply G; assumption]].
      - destruct W as (_ & W1 & W2). split; [symmetry; apply W2; exact Rw|exact (W1 Rn)]. }
    destruct a as [n0| |]; [discriminate Ra|exact Z|exact Z].
Qed.
(** A listing during which one session is deleted and another one established ends as described. *)
Example ex_listing : exists c l y, ex_start [ex_setup; ex_recv 2 (ex_est_of [ex_pdr 1 9] []); ex_recv 3 (ex_est_of [ex_pdr 1 10] [])] = Some (c, l) /\
  yrun (ystart c) [Do (Enter 7); Begin (ex_recv 4 (SessDelReq 2)); End; Do (Visit 3); Begin (ex_recv 5 (ex_est_of [ex_pdr 1 11] [])); End; Do Leave] = Goes y /\
  finished (y_list y) /\ times 7 3 (li_out (y_list y)) = 1%nat /\ length (li_out (y_list y)) = 1%nat.
Proof.
  assert (H : ex_runs [ex_setup; ex_recv 2 (ex_est_of [ex_pdr 1 9] []); ex_recv 3 (ex_est_of [ex_pdr 1 10] [])] (fun c =>
    match yrun (ystart c) [Do (Enter 7); Begin (ex_recv 4 (SessDelReq 2)); End; Do (Visit 3); Begin (ex_recv 5 (ex_est_of [ex_pdr 1 11] [])); End; Do Leave] with
    | Goes y => match li_in (y_list y) with None => true | _ => false end && bool_decide (li_todo (y_list y) = ∅) && (times 7 3 (li_out (y_list y)) =? 1)%nat && (length (li_out (y_list y)) =? 1)%nat
    | _ => false end) = true) by by vm_compute.
  apply ex_runs_inv in H as (c & l & Hc & H). destruct (yrun _ _) as [y| |] eqn:Ey; [|discriminate H..]. exists c, l, y. split; [exact Hc|]. clear Hc. split; [exact Ey|]. clear Ey.
  rewrite !andb_true_iff, bool_decide_eq_true, !Nat.eqb_eq in H. destruct H as (((H1 & H2) & H3) & H4). unfold finished. destruct (li_in (y_list y)); [discriminate H1|]. done.
Qed.
