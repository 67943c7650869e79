(** C77: the session id in the header of an answer is the control plane's own. *)
From Verif Require Import Base IdTracker ResourceManager SdfParser MapOps Pfcp PfcpProps PfcpHistory PfcpReach PfcpRules PfcpRemove PfcpInv.

(** ** Specification: the F-SEID a control plane announced last for each of its sessions, read off the log.  A modification that is
    answered with cause 73 counts too: the UPF has read it. *)
Notation announcements := (gmap (N * N) N).
Definition announced_step (M : announcements) (x : event * option response) : announcements :=
  match x with
  | (Recv _ addr _ (SessEstReq q), Some r) =>
      match r_cause r, r_fseid r, eq_fseid q with Some 1, Some (seid, _), Good k => <[(addr, seid) := k]> M | _, _, _ => M end
  | (Recv _ addr _ (SessModReq q), Some r) =>
      match mq_fseid q with
      | Good k => if bool_decide (r_cause r = Some 1) || bool_decide (r_cause r = Some 73) then <[(addr, mq_seid q) := k]> M else M
      | _ => M end
  | _ => M
  end.
Definition announced (l : log) : announcements := foldl announced_step ∅ l.

(** What the header and the body of an answer to a request [m] of peer [addr] have to be. *)
Definition addressed (l : log) (e : event) (addr : N) (m : msg) (r : response) : Prop :=
  match m with
  | SessEstReq q =>
      r_reports r = [] /\ (r_cause r <> Some 1 -> r_fseid r = None /\ r_created r = []) /\
      (r_cause r = Some 1 \/ r_cause r = Some 73 -> eq_fseid q = Good (r_seid r)) /\
      (r_cause r <> Some 1 -> r_cause r <> Some 73 -> r_seid r = 0)
  | SessModReq q =>
      r_fseid r = None /\ (r_cause r <> Some 1 -> r_created r = [] /\ r_reports r = []) /\
      (r_cause r = Some 1 \/ r_cause r = Some 73 -> announced (l ++ [(e, Some r)]) !! (addr, mq_seid q) = Some (r_seid r)) /\
      (r_cause r = Some 65 -> r_seid r = 0)
  | SessDelReq seid =>
      r_fseid r = None /\ r_created r = [] /\ (r_cause r <> Some 1 -> r_reports r = [] /\ r_seid r = 0) /\
      (r_cause r = Some 1 -> announced l !! (addr, seid) = Some (r_seid r))
  | _ => r_seid r = 0 /\ r_fseid r = None /\ r_created r = [] /\ r_reports r = []
  end.

(** ** Proof *)
Definition knows (M : announcements) (c : conn) : Prop :=
  forall addr seid s, session_of c addr seid = Some s -> M !! (addr, seid) = Some (s_remote s).

Lemma keepsP_bind {B} (proj : work -> B) w r k : keepsP proj w r -> (forall w', keepsP proj w' (k w')) -> keepsP proj w (rbind r k).
Proof.
  intros H Hk. destruct r as [w1|w1|]; simpl in *; try done. specialize (Hk w1). destruct (k w1); simpl in *; congruence.
Qed.
Lemma est_rules_id ueip q w : keepsP id_part w (est_rules ueip q w).
Proof.
  unfold est_rules. repeat (apply keepsP_bind; [apply each_keep; intros|intros]); [apply far_frame_id|apply qer_frame_id|apply urr_frame_id|apply each_keep; intros; apply pdr_frame_id].
Qed.
Lemma mod_rules_id ueip sh q w : keepsP id_part w (mod_rules ueip sh q w).
Proof.
  unfold mod_rules. repeat (apply keepsP_bind; [apply each_keep; intros|intros]);
    [apply far_frame_id..|apply qer_frame_id|apply qer_frame_id|apply qer_frame_id|apply urr_frame_id|apply urr_frame_id|apply urr_frame_id|apply pdr_frame_id|apply pdr_frame_id|apply each_keep; intros; apply pdr_frame_id].
Qed.

Lemma knows_sub M c c' : knows M c -> (forall a n s, session_of c' a n = Some s -> session_of c a n = Some s) -> knows M c'.
Proof. intros H Hs a n s Hx. apply H. by apply Hs. Qed.
Lemma knows_put M c c' addr seid s : knows M c ->
  (forall addr' seid' s', session_of c' addr' seid' = Some s' ->
     (addr' = addr /\ seid' = seid /\ s' = s) \/ (~ (addr' = addr /\ seid' = seid) /\ session_of c addr' seid' = Some s')) ->
  knows (<[(addr, seid) := s_remote s]> M) c'.
Proof.
  intros H Hs addr' seid' s' Hx. destruct (Hs _ _ _ Hx) as [(-> & -> & ->)|[Hne Hy]]; [by rewrite lookup_insert|].
  rewrite lookup_insert_ne by naive_solver. by apply H.
Qed.

Lemma addressed_step l c e c' r : knows (announced l) c -> step c e = Done c' r ->
  knows (announced (l ++ [(e, r)])) c' /\ match e, r with Recv sh addr seq m, Some r => addressed l e addr m r | _, _ => True end.
Proof.
  intros HM H. unfold announced. rewrite foldl_app. cbn [foldl]. fold (announced l). destruct e as [sh addr seq m|sh addr|marks vols].
  - destruct m as [t|t|n t|n k f|n|q|q|seid|ty]; simpl in H.
    + unfold handle_hb_req in H. destruct t; simplify_eq; done.
    + unfold handle_hb_resp in H. destruct t; simplify_eq; done.
    + unfold handle_setup in H. destruct n as [| |n]; [by simplify_eq..|]. destruct t as [| |t]; [by simplify_eq..|]. simplify_eq.
      simpl. split; [|done]. eapply knows_sub; [exact HM|apply session_ensure].
    + unfold handle_setup_resp in H. destruct n as [| |n], k as [| |k], f as [| |f]; simplify_eq; try done.
      destruct (k =? Accepted); simplify_eq; [|done]. simpl. split; [|done]. eapply knows_sub; [exact HM|apply session_ensure].
    + unfold handle_update in H. simpl. destruct n as [| |n]; [by simplify_eq..|]. destruct (c_assocs c !! addr); by simplify_eq.
    + unfold handle_est in H. destruct (validate_request _ _) as [remote|] eqn:Ev; simplify_eq.
      2:{ split; [exact HM|]. cbn. split_and!; try done. intros [?|?]; done. }
      assert (Hk : eq_fseid q = Good remote) by (unfold validate_request in Ev; destruct (eq_node q), (eq_fseid q); by simplify_eq).
      destruct (c_assocs c !! addr) as [a|] eqn:Ha; simplify_eq.
      2:{ split; [exact HM|]. cbn. split_and!; try done. intros [?|?]; done. }
      destruct (existsb _ _); [done|]. pose proof (est_rules_id (g_ueip (c_cfg c)) q (new_work (c_dp c) (new_session (next_seid a) remote) (c_rm c))) as Hid.
      destruct (est_rules _ _ _) as [w|w|] eqn:Ew; simplify_eq; clear Ew.
      * assert (Hr : s_remote (w_ses w) = remote) by (unfold keepsP, id_part in Hid; simpl in Hid; by injection Hid).
        split.
        -- cbn [announced_step r_cause r_fseid]. rewrite Hk. change Accepted with 1%N. cbn beta iota. rewrite <- Hr. eapply knows_put; [exact HM|]. intros addr' seid' s'. unfold put_session. simpl. rewrite insert_insert.
           change (Conn (<[addr:=Assoc (a_node a) (next_seid a) (<[next_seid a:=w_ses w]> (a_sessions a))]> (c_assocs c))
             (c_dp c) (c_rm c) (c_cfg c)) with
            (set_assocs (<[addr:=Assoc (a_node a) (next_seid a) (<[next_seid a:=w_ses w]> (a_sessions a))]> (c_assocs c)) c).
           by apply (session_put c addr a).
        -- cbn. split_and!; try done.
      * split.
        -- simpl. eapply knows_sub; [exact HM|]. intros addr' seid' s' Hs. by eapply (session_put_sub c addr a).
        -- cbn. split_and!; try done.
    + unfold handle_mod in H. destruct (c_assocs c !! addr) as [a|] eqn:Ha; simplify_eq.
      2:{ assert (announced_step (announced l) (Recv sh addr seq (SessModReq q), Some (resp_cause 53 seq (mq_seid q) NoAssociation None)) = announced l) as E.
          { cbn. by destruct (mq_fseid q). }
          rewrite E. split; [exact HM|]. cbn. split_and!; try done. intros [?|?]; done. }
      destruct (a_sessions a !! mq_seid q) as [s|] eqn:Hs; simplify_eq.
      2:{ assert (announced_step (announced l) (Recv sh addr seq (SessModReq q), Some (resp_cause 53 seq 0 NotFound None)) = announced l) as E.
          { cbn. by destruct (mq_fseid q). }
          rewrite E. split; [exact HM|]. cbn. split_and!; try done. intros [?|?]; done. }
      destruct (_ || _); [done|].
      assert (Hs0 : session_of c addr (mq_seid q) = Some s) by (unfold session_of; by rewrite Ha).
      set (s1 := match mq_fseid q with Good r => set_remote r s | _ => s end) in *.
      pose proof (mod_rules_id (g_ueip (c_cfg c)) sh q (new_work (c_dp c) s1 (c_rm c))) as Hid.
      assert (Hput : forall w x, s_remote (w_ses w) = s_remote s1 -> r_cause x = Some 1 \/ r_cause x = Some 73 ->
        announced_step (announced l) (Recv sh addr seq (SessModReq q), Some x) !! (addr, mq_seid q) = Some (s_remote s1) /\
        knows (announced_step (announced l) (Recv sh addr seq (SessModReq q), Some x)) (set_dp_rm (w_dp w) (w_rm w) (put_session addr (mq_seid q) a (w_ses w) c))).
      { intros w x Hw Hx. assert (announced_step (announced l) (Recv sh addr seq (SessModReq q), Some x) = <[(addr, mq_seid q) := s_remote s1]> (announced l)) as ->.
        { cbn [announced_step]. unfold s1. destruct (mq_fseid q) as [| |k].
          - symmetry. apply insert_id. by apply HM.
          - symmetry. apply insert_id. by apply HM.
          - destruct Hx as [-> | ->]; done. }
        split; [by rewrite lookup_insert|]. rewrite <- Hw. eapply knows_put; [exact HM|]. intros addr' seid' s'. by apply (session_put c addr a). }
      destruct (mod_rules _ _ _ _) as [w|w|] eqn:Ew; simplify_eq; clear Ew; unfold keepsP, id_part in Hid; cbn [w_ses new_work] in Hid;
        injection Hid as _ Hid.
      * match goal with |- knows (announced_step _ (_, Some ?x)) _ /\ _ => destruct (Hput w x Hid) as [P1 P2]; [by left|] end. split; [exact P2|].
        cbn [addressed r_fseid r_created r_reports r_cause]. split_and!; try done. intros _. unfold announced. rewrite foldl_app. cbn [foldl]. fold (announced l). rewrite P1. cbn [r_seid]. by rewrite Hid.
      * match goal with |- knows (announced_step _ (_, Some ?x)) _ /\ _ => destruct (Hput w x Hid) as [P1 P2]; [by right|] end. split; [exact P2|].
        cbn [addressed r_fseid r_created r_reports r_cause]. split_and!; try done. intros _. unfold announced. rewrite foldl_app. cbn [foldl]. fold (announced l). rewrite P1. cbn [r_seid resp_cause]. by rewrite Hid.
    + unfold handle_del in H. destruct (c_assocs c !! addr) as [a|] eqn:Ha; simplify_eq; [|by split].
      destruct (a_sessions a !! seid) as [s|] eqn:Hs; simplify_eq; [|by split].
      assert (Hs0 : session_of c addr seid = Some s) by (unfold session_of; by rewrite Ha).
      destruct (del_rules _ _ _) as [w|w|] eqn:Ew; simplify_eq; clear Ew; [|by split]. split.
      * simpl. eapply knows_sub; [exact HM|]. intros addr' seid' s' Hs'. apply (session_put_sub c addr a) in Hs'; [done|done|].
        intros k v Hk. apply lookup_delete_Some in Hk. tauto.
      * cbn. split_and!; try done. intros _. by apply HM.
    + by simplify_eq.
  - simpl in H. unfold prune in H. destruct (c_assocs c !! addr) as [a|] eqn:Ha; [|done].
    destruct (prune_sessions _ _ _ _) as [[d rm]|] eqn:E; simplify_eq. simpl. split; [|done].
    eapply knows_sub; [exact HM|]. intros addr' seid' s' Hs'. unfold session_of in *. simpl in Hs'.
    destruct (delete addr (c_assocs c) !! addr') as [a'|] eqn:El; [|done]. apply lookup_delete_Some in El as [? El]. by rewrite El.
  - simpl in H. by simplify_eq.
Qed.

Lemma knows_run es : forall l0 c c' l, knows (announced l0) c -> run c es = Some (c', l) -> knows (announced (l0 ++ l)) c'.
Proof.
  induction es as [|e es IH]; intros l0 c c' l HM H; simpl in H; [injection H as <- <-; by rewrite app_nil_r|].
  destruct (step c e) as [c1 r|] eqn:E; [|done]. destruct (run c1 es) as [[c2 l2]|] eqn:E2; [|done]. injection H as <- <-.
  replace (l0 ++ (e, r) :: l2) with ((l0 ++ [(e, r)]) ++ l2) by (by rewrite <- app_assoc). apply (IH _ c1); [|done].
  by apply (addressed_step l0 c e c1 r).
Qed.

(** After any history, every answer is addressed to the session the control plane means. *)
Theorem answers_addressed_partial :
  forall g rm d es c l, run (init g rm d) es = Some (c, l) ->
    forall sh addr seq m c' r, handle sh addr seq m c = Done c' (Some r) -> addressed l (Recv sh addr seq m) addr m r.
Proof.
  intros g rm d es c l Hrun sh addr seq m c' r H.
  assert (HM : knows (announced ([] ++ l)) c).
  { apply (knows_run es [] (init g rm d)); [|done]. intros a n s Hs. unfold session_of, init in Hs. simpl in Hs. by rewrite lookup_empty in Hs. }
  exact (proj2 (addressed_step l c (Recv sh addr seq m) c' (Some r) HM H)).
Qed.
(** ... and what the control plane announced is what the UPF keeps (and shows in the REST interface). *)
Theorem announced_kept :
  forall g rm d es c l, run (init g rm d) es = Some (c, l) ->
    forall addr seid s, session_of c addr seid = Some s -> announced l !! (addr, seid) = Some (s_remote s).
Proof.
  intros g rm d es c l Hrun. apply (knows_run es [] (init g rm d)); [|done]. intros a n s Hs. unfold session_of, init in Hs. simpl in Hs. by rewrite lookup_empty in Hs.
Qed.

(** The remaining answer, of a modification without association (cause 72), has the UPF's own session id in its header. *)
Theorem answers_addressed_refuted :
  forall sh addr seq q c, c_assocs c !! addr = None ->
    exists r, handle sh addr seq (SessModReq q) c = Done c (Some r) /\ r_cause r = Some 72 /\ r_seid r = mq_seid q.
Proof. intros sh addr seq q c Ha. cbn [handle]. unfold handle_mod. rewrite Ha. by eexists. Qed.
(** A session of a control plane whose association failed: it is announced as 100, the answer goes to 2. *)
Definition ex_mod_to (fseid : fld N) (seid : N) : msg := SessModReq (ModReq seid fseid [] [] [] [] [] [] [] [] [] [] [] []).
Example ex_misaddressed : exists c l, ex_start [ex_setup; ex_recv 2 (ex_est_of [ex_pdr 1 9] []); HeartbeatFailed id_shuffle 7] = Some (c, l) /\
  announced l !! (7, 2) = Some 100 /\ exists r, handle id_shuffle 7 3 (ex_mod_to Absent 2) c = Done c (Some r) /\ r_cause r = Some 72 /\ r_seid r = 2.
Proof.
  assert (H : match ex_start [ex_setup; ex_recv 2 (ex_est_of [ex_pdr 1 9] []); HeartbeatFailed id_shuffle 7] with
    Some (c, l) => bool_decide (announced l !! (7, 2) = Some 100) && bool_decide (c_assocs c !! 7 = None) | None => false end = true) by by vm_compute.
  destruct (ex_start _) as [[c l]|] eqn:E; [|discriminate H]. exists c, l. split; [reflexivity|]. clear E.
  apply andb_true_iff in H as [H1 H2]. apply bool_decide_eq_true in H1, H2. split; [exact H1|]. by apply answers_addressed_refuted.
Qed.
(** A session announced as 100 and moved to 200: the next answers go to 200. *)
Example ex_readdressed : exists c l, ex_start [ex_setup; ex_recv 2 (ex_est_of [ex_pdr 1 9] []); ex_recv 3 (ex_mod_to (Good 200) 2)] = Some (c, l) /\
  announced l !! (7, 2) = Some 200 /\ exists c' r, handle id_shuffle 7 4 (SessDelReq 2) c = Done c' (Some r) /\ r_cause r = Some 1 /\ r_seid r = 200.
Proof.
  assert (H : match ex_start [ex_setup; ex_recv 2 (ex_est_of [ex_pdr 1 9] []); ex_recv 3 (ex_mod_to (Good 200) 2)] with
    Some (c, l) => bool_decide (announced l !! (7, 2) = Some 200) && ex_accepts 1 (handle id_shuffle 7 4 (SessDelReq 2) c) (fun _ r => bool_decide (r_seid r = 200)) | None => false end = true) by by vm_compute.
  destruct (ex_start _) as [[c l]|] eqn:E; [|discriminate H]. exists c, l. split; [reflexivity|]. clear E.
  apply andb_true_iff in H as [H1 H2]. apply bool_decide_eq_true in H1. split; [exact H1|].
  apply ex_accepts_inv in H2 as (c' & r & E & Hr & H3). apply bool_decide_eq_true in H3. exists c', r. split; [exact E|]. split; [exact Hr|exact H3].
Qed.
