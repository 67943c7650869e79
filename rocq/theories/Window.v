(** C91: packets that are processed while the UPF handles several control messages.
    Nothing makes the message loop wait for the packets that are under way: a packet may find its PDR before one message and read
    the FAR and the QER after many others. *)
From Verif Require Import Base IdTracker ResourceManager SdfParser SdfProps MapOps SdfMatch Pfcp PfcpProps PfcpHistory PfcpReach
  PfcpRules PfcpCreate PfcpRemove PfcpReject PfcpInv PfcpAsked PfcpTeid PfcpKeys Qer Csum Xdp XdpBase XdpProps XdpRules XdpFrames XdpEcho XdpEx XdpAccount EndToEnd EndToEndLog InFlight.
Open Scope N_scope.

(** ** The states the maps go through during several events *)

(** pfcp_connection.go:112-137 [Run]: one event after the other, each with the states of its handler (InFlight.v, [states]). *)
Fixpoint spans (c : conn) (ws : list event) : list dp :=
  match ws with
  | [] => [c_dp c]
  | e :: r => states c e ++ match step c e with Done c' _ => spans c' r | Crash => [] end
  end.
(** [x]: what a packet sees that arrives after the events that gave the log [l] and is under way during those that gave the log [k]. *)
Definition during (l k : log) (x : dp) : Prop :=
  exists g rm p f q u es ws c c', start_pools rm /\ Forall event_fair (es ++ ws) /\ run (init g rm (dp_init p f q u)) es = Some (c, l) /\
    run c ws = Some (c', k) /\ N.of_nat (length (es ++ ws)) <= bound /\ tidy (l ++ k) = true /\ sees (spans c ws) x.
(** No event of [k] concerns a session. *)
Definition left_alone (k : log) (addr seid : N) : Prop := forall ev r, (ev, r) ∈ k -> ~ about ev addr seid.

(** ** A session that is left alone *)
Lemma tidy_from_prefix l k : forall M P, tidy_from M P (l ++ k) = true -> tidy_from M P l = true.
Proof.
  induction l as [|y l IH]; intros M P H; cbn [app tidy_from] in *; [done|]. rewrite !andb_true_iff in *. destruct H as [H1 H2]. split; [done|]. by eapply IH.
Qed.
Lemma tidy_prefix l k : tidy (l ++ k) = true -> tidy l = true.
Proof. apply tidy_from_prefix. Qed.
Lemma left_alone_session g rm d es c l ev c' r addr seid s : run (init g rm d) es = Some (c, l) -> N.of_nat (length es) < bound ->
  step c ev = Done c' r -> ~ about ev addr seid -> session_of c addr seid = Some s -> session_of c' addr seid = Some s.
Proof.
  intros Hrun Hb H Hab Hs. destruct ev as [sh a0 seq m|sh a0|marks vols].
  - eapply other_sessions_untouched; [exact Hrun|exact Hb|exact H|exact Hs|]. intros [-> Hn]. by apply Hab.
  - simpl in H, Hab. unfold prune in H. destruct (c_assocs c !! a0) as [a|]; [|done]. destruct (prune_sessions _ _ _ _) as [[d1 rm1]|]; [|done].
    simplify_eq. unfold session_of in *. simpl. by rewrite lookup_delete_ne.
  - simpl in H. by simplify_eq.
Qed.
Lemma kept_here c s addr seid : careful_history c -> session_of c addr seid = Some s -> kept c s (c_dp c).
Proof.
  intros Hc Hs. destruct (careful_mirror _ Hc) as [HF HQ]. split; [done|..].
  - intros i f0 Hi. apply (mi_get _ _ HF addr seid s i (sf_gid f0) (sf_info f0) Hs). simpl. by rewrite lookup_fmap, Hi.
  - intros i f0 Hi. apply (mi_get _ _ HQ addr seid s i (sq_gid f0) (rule_of_qer (sq_info f0)) Hs). simpl. by rewrite lookup_fmap, Hi.
Qed.
Lemma spans_kept ws : forall g rm p f q u es c l c' k addr seid s, start_pools rm -> Forall event_fair (es ++ ws) ->
  run (init g rm (dp_init p f q u)) es = Some (c, l) -> run c ws = Some (c', k) -> N.of_nat (length (es ++ ws)) <= bound -> tidy (l ++ k) = true ->
  left_alone k addr seid -> session_of c addr seid = Some s -> forall d, d ∈ spans c ws -> kept c s d.
Proof.
  induction ws as [|e ws IH]; intros g rm p f q u es c l c' k addr seid s Hrm Hf Hrun Hw Hb Ht Hal Hs d Hd; cbn [run spans] in Hw, Hd.
  - apply elem_of_list_singleton in Hd as ->. injection Hw as <- <-. rewrite app_nil_r in Hf, Hb, Ht.
    destruct (tidy_run _ _ _ _ _ _ _ _ _ Hrm Hf Hrun Hb Ht) as (Hc & _). by eapply kept_here.
  - destruct (step c e) as [c1 r|] eqn:Hstep; [|done]. destruct (run c1 ws) as [[c2 k2]|] eqn:Hw2; [|done]. apply (inj Some) in Hw. injection Hw as <- <-.
    assert (Hb0 : N.of_nat (length es) < bound) by (rewrite app_length in Hb; simpl in Hb; lia).
    pose proof Hf as Hf0. apply Forall_app in Hf0 as [Hf1 Hf2]. apply Forall_cons in Hf2 as [Hfe Hf2].
    pose proof (run_snoc _ _ _ _ _ _ _ Hrun Hstep) as Hrun1. rewrite (cons_middle e) in Hf, Hb. rewrite app_assoc in Hf, Hb. rewrite (cons_middle (e, r)), app_assoc in Ht.
    pose proof (tidy_prefix _ _ Ht) as Ht1.
    unfold tidy in Ht1. apply tidy_snoc in Ht1 as (Ht0 & Ho & Ht2).
    destruct (tidy_run _ _ _ _ _ _ _ _ _ Hrm Hf1 Hrun ltac:(lia) Ht0) as (Hc & HM & HK). pose proof (run_hinv _ _ _ _ _ _ Hrun ltac:(lia)) as Hinv.
    assert (Hab : ~ about e addr seid) by (apply (Hal e r); left).
    assert (Hone : forall d, d ∈ states c e -> kept c s d).
    { intros d0 Hd0. eapply others_kept; [exact Hinv|done|exact Hc|exact Hfe|exact HM|exact HK|exact Ho|exact Ht2|exact Hstep|exact Hd0|exact Hs|exact Hab]. }
    apply elem_of_app in Hd as [Hd|Hd]; [by apply Hone|].
    assert (Hs1 : session_of c1 addr seid = Some s) by (eapply left_alone_session; [exact Hrun|exact Hb0|exact Hstep|exact Hab|exact Hs]).
    assert (Hal1 : left_alone k2 addr seid) by (intros ev r0 Hin; apply (Hal ev r0); by right).
    destruct (IH _ _ _ _ _ _ _ _ _ _ _ _ _ _ Hrm Hf Hrun1 Hw2 Hb Ht Hal1 Hs1 d Hd) as [K1 K2 K3]. split; [|done..].
    intros k Hk. rewrite K1 by done. destruct (states_are_the_handlers _ _ _ _ Hstep) as [_ Hl]. apply last_Some_elem_of, Hone in Hl. by apply (kp_keys _ _ _ Hl).
Qed.

Theorem untouched_served_partial :
  forall l k x addr seid, during l k x -> left_alone k addr seid -> serves l x addr seid.
Proof.
  intros l k x addr seid (g & rm & p & f & q & u & es & ws & c & c' & Hrm & Hf & Hrun & Hw & Hb & Ht & Hx) Hal.
  pose proof (tidy_prefix _ _ Ht) as Ht0.
  pose proof Hf as Hf0. apply Forall_app in Hf0 as [Hf1 _]. assert (Hb0 : N.of_nat (length es) <= bound) by (rewrite app_length in Hb; lia).
  destruct (tidy_run _ _ _ _ _ _ _ _ _ Hrm Hf1 Hrun Hb0 Ht0) as (Hc & HM & HK).
  destruct (session_of c addr seid) as [s|] eqn:Hs.
  - eapply kept_serves; [done|exact HM|exact HK|exact Hs|]. eapply kept_seen; [|exact Hx].
    exact (spans_kept ws _ _ _ _ _ _ _ _ _ _ _ _ _ _ Hrm Hf Hrun Hw Hb Ht Hal Hs).
  - intros e f0 i a Ha. exfalso. unfold pdr_asked in Ha. destruct (pdrs_in l !! (addr, seid)) as [pm|] eqn:Ep; [|done].
    apply (kd_live _ _ HK) in Ep. rewrite Hs in Ep. by destruct Ep.
Qed.

(** So its packets are treated as if nothing was going on. *)
Theorem untouched_blocked_partial :
  forall l k x e f addr seid i a j n fv qv, during l k x -> left_alone k addr seid ->
    pdr_asked l addr seid i = Some a -> applies e a f ->
    ak_far a = Some j -> asked_far l addr seid j = Some fv -> ak_qer a = Some n -> asked_qer l addr seid n = Some qv ->
    N.testbit (fi_action fv) 1 = false \/ ql_gate (dir_of e f) qv <> 0 ->
    xdp e f x = Some (DROP, Xst f x (rx_counters e f ++ [action 1])).
Proof. intros l k x e f addr seid i a j n fv qv Hm Hab. apply blocked_served. by eapply untouched_served_partial. Qed.
Theorem untouched_downlink_partial :
  forall l k x e f addr seid i a j n fv qv, during l k x -> left_alone k addr seid -> env_ok e -> e_head e <> None ->
    pdr_asked l addr seid i = Some a -> applies e a f -> down4 e f = true \/ down6 f = true ->
    ak_far a = Some j -> asked_far l addr seid j = Some fv -> ak_qer a = Some n -> asked_qer l addr seid n = Some qv ->
    N.testbit (fi_action fv) 1 = true -> N.testbit (fi_ohc fv) 0 = true -> far_fits fv -> ql_dl_gate qv = 0 -> ql_qfi qv < 64 ->
    down_len e f + 44 < 65536 ->
    exists mark, (* of the rate limiter *)
      if fst (limit_rate (N.of_nat (length f)) mark (ql_dl_rate qv) (e_now_dl e)) then
        exists v s, xdp e f x = Some (v, s) /\
          tunnelled (x_f s) f (e_n3 e) (Xdp.le32 (fi_remote fv)) (fi_tlm fv / 256) (ql_qfi qv) (fi_teid fv) (down_len e f) /\
          v = route_verdict e (e_fib e (FibQ 2 (fi_tlm fv / 256) 17 (down_len e f + 44) (e_n3 e) (Xdp.le32 (fi_remote fv)) (e_if e)))
      else xdp e f x = Some (DROP, Xst f x (rx_counters e f ++ [action 1])).
Proof. intros l k x e f addr seid i a j n fv qv Hm Hab. apply downlink_served. by eapply untouched_served_partial. Qed.

(** ** Rules are given to another session while a packet still uses them *)

(** A deletion frees the number of the FAR (objects.go:323-336 [IdTracker.Release] through 291-295 [ReleaseFar]); the next establishment
    gets it.  A packet to the first UE that found its PDR before the deletion reads the second UE's FAR: it is sent into the tunnel
    of the second UE. *)
Definition ex_other_dl : pdr_ie := ex_dl 2 171704322 1 1.
Definition ex_other : est_req :=
  EstReq (Good 5) (Good 101) [FarIe (Some 1) (Some [2]) (Some (Good (OhcIe 256 99 (Some 167772171) false))) (Some 10240)]
    [QerIe (Some 1) (Some 0) (Some 0) (Some 10000) (Some 10000) (Some 9)] [] [ex_other_dl].
Definition ex_window (es ws : list event) (P : conn -> log -> log -> bool) : bool :=
  match ex_start es with
  | Some (c, l) => match run c ws with Some (_, k) => tidy (l ++ k) && P c l k | None => false end
  | None => false
  end.
Lemma ex_window_inv es ws P : Forall event_fair (es ++ ws) -> (N.of_nat (length (es ++ ws)) <=? bound) = true -> ex_window es ws P = true ->
  exists c l k, P c l k = true /\ forall x, sees (spans c ws) x -> during l k x.
Proof.
  intros Hf Hb H. unfold ex_window in H. destruct (ex_start es) as [[c l]|] eqn:Ec; [|discriminate H].
  destruct (run c ws) as [[c' k]|] eqn:Es; [|discriminate H]. apply andb_true_iff in H as [Ht HP]. exists c, l, k. split; [exact HP|]. intros x Hx.
  exists ex_cfg, ex_small_rm, 8, 8, 8, 8, es, ws, c, c'. split; [right; by exists 8, 167837696, 29|]. split; [exact Hf|]. split; [exact Ec|]. clear Ec.
  split; [exact Es|]. clear Es. split; [by apply N.leb_le|]. split; [exact Ht|exact Hx].
Qed.
Theorem another_subscribers_tunnel_refuted :
  exists l k x f a v v' s, during l k x /\
    (* [f] is addressed to a UE of session 2 and goes into the tunnel of [v] *)
    pdr_asked l 7 2 2 = Some a /\ applies ex_env a f /\ ak_far a = Some 1 /\ asked_far l 7 2 1 = Some v /\
    (* session 3 has another UE and another tunnel, [v'] *)
    (7, 3) ∉ PfcpHistory.live l /\ (exists a', pdr_asked (l ++ k) 7 3 2 = Some a' /\ ak_key a' <> ak_key a) /\ asked_far (l ++ k) 7 3 1 = Some v' /\
    fi_remote v <> fi_remote v' /\ fi_teid v <> fi_teid v' /\
    (* the packet is sent into [v'] *)
    xdp ex_env f x = Some (REDIRECT 7, s) /\ field (x_f s) 30 4 = Xdp.le32 (fi_remote v') /\ be_value (field (x_f s) 46 4) = fi_teid v'.
Proof.
  set (es := [ex_setup; ex_recv 2 (SessEstReq ex_both)]). set (ws := [ex_recv 3 (SessDelReq 2); ex_recv 4 (SessEstReq ex_other)]).
  set (v := Far 2 1 85 (Pfcp.le32 167772169) 10240). set (v' := Far 2 1 99 (Pfcp.le32 167772171) 10240).
  destruct (ex_window_inv es ws (fun c l k =>
    plain_is l 7 2 2 (Dn4 171704321) 1 1 && far_is (asked_far l 7 2 1) v && bool_decide ((7, 3) ∉ PfcpHistory.live l) &&
    plain_is (l ++ k) 7 3 2 (Dn4 171704322) 1 1 && far_is (asked_far (l ++ k) 7 3 1) v' &&
    match spans c ws with d :: _ => far_torn (spans c ws) 0 v' && sent_to (xdp ex_env ex_down (with_far 0 v' d)) [10; 0; 0; 11] 99 | [] => false end))
    as (c & l & k & H & Hm); [repeat constructor; apply id_shuffle_fair|by vm_compute|by vm_compute|].
  rewrite !andb_true_iff in H. destruct H as (((((H1%plain_is_inv & H2%bool_decide_eq_true) & H3%bool_decide_eq_true) & H4%plain_is_inv) & H5%bool_decide_eq_true) & H6).
  destruct (spans c ws) as [|d ds] eqn:Ed; [discriminate H6|]. apply andb_true_iff in H6 as [H6 H7].
  apply sent_to_inv in H7 as (s & H7 & H8 & H9). exists l, k, (with_far 0 v' d), ex_down. eexists _, v, v', s.
  split; [apply Hm; by eapply sees_far|]. split; [exact H1|]. split; [by vm_compute|]. split; [reflexivity|]. split; [exact H2|]. split; [exact H3|].
  split; [eexists; split; [exact H4|simpl; discriminate]|]. split; [exact H5|]. split; [by vm_compute|]. split; [by vm_compute|].
  split; [exact H7|]. clear H7. split; [rewrite H8; by vm_compute|]. rewrite H9. by vm_compute.
Qed.

(** The hypotheses of the theorems above are met: session 3 is deleted and session 4 gets its rules while a packet of session 2 is under way. *)
Example ex_during : exists l k x, during l k x /\ left_alone k 7 2 /\
  pdr_asked l 7 2 2 = Some (PdrAsk (Dn4 171704321) 0 (Some 1) (Some 1) None false) /\
  asked_far l 7 2 1 = Some (Far 2 1 85 (Pfcp.le32 167772169) 10240) /\ asked_qer l 7 2 1 = Some (QerRule 0 0 9 10000000 10000000) /\
  frame_key ex_env ex_down = Some (Dn4 171704321) /\
  is_Some (dp_find x (Dn4 171704323)) /\ dp_find x (Dn4 171704322) = None /\
  out_is (xdp ex_env ex_down x) (REDIRECT 7) ex_down_sent = true /\ out_is (xdp ex_env ex_up0 x) (REDIRECT 7) ex_up_sent = true.
Proof.
  set (ws := [ex_recv 4 (SessDelReq 3); ex_recv 5 (ex_est_pdrs [ex_dns 2 171704323 2]); ex_recv 6 (SessDelReq 4)]).
  destruct (ex_window_inv ex_two ws (fun c l k =>
    plain_is l 7 2 2 (Dn4 171704321) 1 1 && far_is (asked_far l 7 2 1) (Far 2 1 85 (Pfcp.le32 167772169) 10240) && qer_is (asked_qer l 7 2 1) 0 0 9 10000000 10000000 &&
    forallb (fun x => match fst x with Recv _ _ _ m => negb (bool_decide (names_seid m = Some 2)) | _ => false end) k &&
    existsb (fun d => bool_decide (is_Some (dp_find d (Dn4 171704323))) && bool_decide (dp_find d (Dn4 171704322) = None) &&
      out_is (xdp ex_env ex_down d) (REDIRECT 7) ex_down_sent && out_is (xdp ex_env ex_up0 d) (REDIRECT 7) ex_up_sent) (spans c ws)))
    as (c & l & k & H & Hm); [repeat constructor; apply id_shuffle_fair|by vm_compute|by vm_compute|].
  rewrite !andb_true_iff in H. destruct H as ((((H1%plain_is_inv & H2%bool_decide_eq_true) & H3%qer_is_inv) & H4) & H5).
  apply existsb_exists in H5 as (d & Hd%elem_of_list_In & H5). rewrite !andb_true_iff in H5.
  destruct H5 as (((H5%bool_decide_eq_true & H6%bool_decide_eq_true) & H7) & H8).
  exists l, k, d. split; [apply Hm; by apply sees_state|]. split.
  { intros ev r Hin Hab. rewrite forallb_forall in H4. apply elem_of_list_In, H4 in Hin. simpl in Hin. destruct ev; [|discriminate Hin..].
    simpl in Hab. destruct Hab as [_ Hab]. apply negb_true_iff, bool_decide_eq_false in Hin. by apply Hin. }
  split; [exact H1|]. split; [exact H2|]. split; [exact H3|]. split; [by vm_compute|]. split; [exact H5|]. split; [exact H6|]. split; [exact H7|exact H8].
Qed.
