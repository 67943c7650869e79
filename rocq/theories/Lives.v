(** C86: restarts and crashes.  C87: what a restarted UPF knows. *)
From Verif Require Import Base IdTracker ResourceManager SdfParser SdfProps MapOps SdfMatch Pfcp PfcpProps PfcpHistory PfcpReach PfcpRules PfcpCreate PfcpRemove
  Qer Csum Xdp XdpBase XdpProps XdpRules XdpFrames XdpEcho XdpEx
  PfcpReject PfcpInv PfcpAsked PfcpKeys XdpAccount EndToEnd EndToEndLog.
Open Scope N_scope.

(** ** The process and its lives *)

(** What happens to the UPF: an event of [Pfcp.v]; the process is killed (at any time: a message that is being handled then is not
    answered, and what was done for it is lost with the process: main.go:44-51 creates new maps, objects.go:70-125 pins none of
    them); it is started, at second [t] (pfcp_connection.go:101 takes the recovery time stamp from the clock, go-pfcp encodes
    seconds).  The configuration stays the same. *)
Inductive up := Ev (e : event) | Kill | Start (t : N).
Definition at_time (t : N) (g : cfg) : cfg := Cfg (g_ftup g) (g_ueip g) (g_node g) (g_addr g) (g_n3 g) t.

Section lives.
Variables (g : cfg) (rm : option rman) (d : dp).

(** State: [None] while there is no process.  A Go panic ends the process. *)
Definition ustep (st : option conn) (x : up) : option conn * option response :=
  match x, st with
  | Ev e, Some c => match step c e with Done c' r => (Some c', r) | Crash => (None, None) end
  | Ev _, None => (None, None)
  | Kill, _ => (None, None)
  | Start t, _ => (Some (init (at_time t g) rm d), None)
  end.
Definition lives (xs : list up) : option conn * list (up * option response) :=
  foldl (fun s x => let '(st', r) := ustep (fst s) x in (st', snd s ++ [(x, r)])) (None, []) xs.
End lives.

(** ** Specification *)
(** The time of the last start, and what was exchanged since. *)
Definition last_start (l : list (up * option response)) : N :=
  foldl (fun t x => match fst x with Start t' => t' | _ => t end) 0 l.
Definition since (l : list (up * option response)) : log :=
  foldl (fun acc x => match x with (Start _, _) => [] | (Kill, _) => [] | (Ev e, r) => acc ++ [(e, r)] end) [] l.
(** Answers that carry a recovery time stamp: to heartbeats, and to accepted association setups. *)
Definition stamped (x : up * option response) : bool :=
  match x with
  | (Ev (Recv _ _ _ (HeartbeatReq _)), Some _) => true
  | (Ev (Recv _ _ _ (AssocSetupReq _ _)), Some r) => bool_decide (r_cause r = Some 1)
  | _ => false
  end.
Definition stamp (x : up * option response) : option N := match snd x with Some r => r_rts r | None => None end.
(** The clock advances by at least a second from start to start. *)
Fixpoint starts_after (t : N) (l : list (up * option response)) : Prop :=
  match l with
  | [] => True
  | (Start t', _) :: l => t < t' /\ starts_after t' l
  | _ :: l => starts_after t l
  end.

(** ** Proofs *)
Lemma step_cfg c e c' r : step c e = Done c' r -> c_cfg c' = c_cfg c.
Proof.
  intros H. destruct e as [sh addr seq m|sh addr|marks vols]; simpl in H.
  - destruct m as [t|t|n t|n k f|n|q|q|seid|ty]; simpl in H.
    + unfold handle_hb_req in H. destruct t; simplify_eq; done.
    + unfold handle_hb_resp in H. destruct t; simplify_eq; done.
    + unfold handle_setup, ensure_assoc in H. repeat (case_match; simplify_eq); simplify_eq; done.
    + unfold handle_setup_resp, ensure_assoc in H. repeat (case_match; simplify_eq); simplify_eq; done.
    + unfold handle_update in H. repeat (case_match; simplify_eq); simplify_eq; done.
    + unfold handle_est in H. destruct (validate_request _ _) as [remote|]; simplify_eq; [|done].
      destruct (c_assocs c !! addr) as [a|] eqn:Ha; simplify_eq; [|done].
      destruct (existsb _ _); [done|]. destruct (est_rules _ _ _) as [w|w|]; simplify_eq; done.
    + unfold handle_mod in H. destruct (c_assocs c !! addr) as [a|] eqn:Ha; simplify_eq; [|done].
      destruct (a_sessions a !! mq_seid q) as [s|] eqn:Hs; simplify_eq; [|done].
      destruct (_ || _); [done|]. destruct (mod_rules _ _ _ _) as [w|w|]; simplify_eq; done.
    + unfold handle_del in H. destruct (c_assocs c !! addr) as [a|] eqn:Ha; simplify_eq; [|done].
      destruct (a_sessions a !! seid) as [s|] eqn:Hs; simplify_eq; [|done].
      destruct (del_rules _ _ _) as [w|w|]; simplify_eq; done.
    + by simplify_eq.
  - unfold prune in H. destruct (c_assocs c !! addr) as [a|] eqn:Ha; [|done].
    destruct (prune_sessions _ _ _ _) as [[d rm]|] eqn:E; simplify_eq. done.
  - by simplify_eq.
Qed.
Lemma step_stamp c e c' r : step c e = Done c' (Some r) -> r_rts r = if stamped (Ev e, Some r) then Some (g_rts (c_cfg c)) else None.
Proof.
  intros H. destruct e as [sh addr seq m|sh addr|marks vols]; simpl in H.
  - destruct m as [t|t|n t|n k f|n|q|q|seid|ty]; simpl in H.
    + unfold handle_hb_req in H. destruct t; simplify_eq; done.
    + unfold handle_hb_resp in H. destruct t; simplify_eq; done.
    + unfold handle_setup in H. destruct n as [| |n]; [by simplify_eq..|]. destruct t; by simplify_eq.
    + unfold handle_setup_resp, ensure_assoc in H. repeat (case_match; simplify_eq); simplify_eq; done.
    + unfold handle_update in H. repeat (case_match; simplify_eq); simplify_eq; done.
    + unfold handle_est in H. destruct (validate_request _ _) as [remote|]; simplify_eq; [|done].
      destruct (c_assocs c !! addr) as [a|] eqn:Ha; simplify_eq; [|done].
      destruct (existsb _ _); [done|]. destruct (est_rules _ _ _) as [w|w|]; simplify_eq; done.
    + unfold handle_mod in H. destruct (c_assocs c !! addr) as [a|] eqn:Ha; simplify_eq; [|done].
      destruct (a_sessions a !! mq_seid q) as [s|] eqn:Hs; simplify_eq; [|done].
      destruct (_ || _); [done|]. destruct (mod_rules _ _ _ _) as [w|w|]; simplify_eq; done.
    + unfold handle_del in H. destruct (c_assocs c !! addr) as [a|] eqn:Ha; simplify_eq; [|done].
      destruct (a_sessions a !! seid) as [s|] eqn:Hs; simplify_eq; [|done].
      destruct (del_rules _ _ _) as [w|w|]; simplify_eq; done.
    + by simplify_eq.
  - unfold prune in H. destruct (c_assocs c !! addr) as [a|] eqn:Ha; [|done].
    destruct (prune_sessions _ _ _ _) as [[d rm]|] eqn:E; simplify_eq.
  - by simplify_eq.
Qed.

Lemma lives_snoc g rm d xs x : lives g rm d (xs ++ [x]) =
  (let '(st', r) := ustep g rm d (fst (lives g rm d xs)) x in (st', snd (lives g rm d xs) ++ [(x, r)])).
Proof. unfold lives. by rewrite foldl_app. Qed.
Lemma last_start_snoc l x : last_start (l ++ [x]) = match fst x with Start t => t | _ => last_start l end.
Proof. unfold last_start. by rewrite foldl_app. Qed.
Lemma since_snoc l x : since (l ++ [x]) = match x with (Start _, _) => [] | (Kill, _) => [] | (Ev e, r) => since l ++ [(e, r)] end.
Proof. unfold since. by rewrite foldl_app. Qed.

Lemma run_snoc c es e c1 l : run c es = Some (c1, l) -> run c (es ++ [e]) = match step c1 e with Done c2 r => Some (c2, l ++ [(e, r)]) | Crash => None end.
Proof.
  revert c l. induction es as [|x es IH]; intros c l H; simpl in H.
  - injection H as <- <-. simpl. destruct (step c e); done.
  - cbn [app run]. destruct (step c x) as [c2 r|]; [|done]. destruct (run c2 es) as [[c3 l3]|] eqn:E; [|done]. injection H as <- <-.
    rewrite (IH c2 l3 E). destruct (step c3 e); done.
Qed.

(** While the process is there, its state is that of an uninterrupted run over what was exchanged since the last start. *)
Lemma lives_run g rm d xs : forall c, fst (lives g rm d xs) = Some c ->
  exists es, run (init (at_time (last_start (snd (lives g rm d xs))) g) rm d) es = Some (c, since (snd (lives g rm d xs))) /\
    length es = length (since (snd (lives g rm d xs))).
Proof.
  induction xs as [|x xs IH] using rev_ind; intros c H; [done|]. rewrite lives_snoc in H |- *.
  destruct (lives g rm d xs) as [st l]. cbn [fst snd] in *. destruct x as [e| |t]; cbn [ustep] in *.
  - destruct st as [c0|]; [|done]. destruct (IH c0 eq_refl) as (es & Hes & Hl). destruct (step c0 e) as [c1 r|] eqn:E; [|done].
    cbn [fst snd] in *. apply (inj Some) in H as ->. rewrite last_start_snoc, since_snoc. cbn [fst].
    exists (es ++ [e]). split; [rewrite (run_snoc _ _ _ _ _ Hes), E; reflexivity|]. rewrite !app_length. cbn [length]. by rewrite Hl.
  - done.
  - cbn [fst snd] in *. apply (inj Some) in H as <-. rewrite last_start_snoc, since_snoc. exists []. split; done.
Qed.

(** ** C86 *)
(** Every answer carries the start of the life it was sent in, or no time stamp; heartbeat and setup answers carry one. *)
Theorem stamp_is_last_start :
  forall g rm d xs l1 x l2, snd (lives g rm d xs) = l1 ++ x :: l2 ->
    stamp x = if stamped x then Some (last_start l1) else None.
Proof.
  intros g rm d xs. induction xs as [|y xs IH] using rev_ind; intros l1 x l2 H.
  { cbn in H. by destruct l1. }
  rewrite lives_snoc in H. pose proof (lives_run g rm d xs) as Hrun. destruct (lives g rm d xs) as [st l]. cbn [fst snd] in *.
  destruct (ustep g rm d st y) as [st' r] eqn:E. cbn [snd] in H.
  induction l2 as [|z l2 _] using rev_ind.
  - apply app_inj_tail in H as [-> <-]. unfold stamp. cbn [snd]. destruct y as [e| |t]; cbn [ustep] in E; [|by simplify_eq..].
    destruct st as [c|]; [|by simplify_eq; destruct e as [? ? ? []| |]]. destruct (Hrun c eq_refl) as (es & Hes & _).
    destruct (step c e) as [c1 r1|] eqn:Es; [|by simplify_eq; destruct e as [? ? ? []| |]]. simplify_eq.
    destruct r as [r|]; [|by destruct e as [? ? ? []| |]]. rewrite (step_stamp _ _ _ _ Es). destruct (stamped _); [|done].
    assert (Hcfg : forall es c0 c1 l0, run c0 es = Some (c1, l0) -> c_cfg c1 = c_cfg c0).
    { clear. induction es as [|e es IH]; intros c0 c1 l0 H; cbn [run] in H; [by simplify_eq|].
      destruct (step c0 e) as [c2 r|] eqn:E; [|done]. destruct (run c2 es) as [[c3 l3]|] eqn:E3; [|done]. simplify_eq.
      rewrite (IH _ _ _ E3). by apply (step_cfg _ _ _ _ E). }
    by rewrite (Hcfg _ _ _ _ Hes).
  - rewrite app_comm_cons, app_assoc in H. apply app_inj_tail in H as [-> _]. by apply (IH l1 x l2).
Qed.

Lemma last_start_app l l' : last_start (l ++ l') = foldl (fun t x => match fst x with Start t' => t' | _ => t end) (last_start l) l'.
Proof. unfold last_start. by rewrite foldl_app. Qed.
Lemma starts_grow l : forall t, starts_after t l -> t <= foldl (fun t x => match fst x with Start t' => t' | _ => t end) t l.
Proof.
  induction l as [|[[e| |t'] r] l IH]; intros t H; cbn [starts_after foldl fst] in *; [done|by apply IH..|].
  destruct H as [H1 H2]. apply N.lt_le_incl. apply (N.lt_le_trans _ _ _ H1). by apply IH.
Qed.
Lemma starts_app l l' t : starts_after t (l ++ l') -> starts_after t l /\ starts_after (foldl (fun t x => match fst x with Start t' => t' | _ => t end) t l) l'.
Proof. revert t. induction l as [|[[e| |t'] r] l IH]; intros t H; cbn [starts_after foldl fst app] in *; [done|by apply IH..|]. destruct H as [? H]. apply IH in H as []. done. Qed.

(** Two stamped answers carry the same time exactly if there was no start between them, as long as starts are a second apart. *)
Theorem restart_detected_partial :
  forall g rm d xs l1 x l2 y l3, snd (lives g rm d xs) = l1 ++ x :: l2 ++ y :: l3 ->
    stamped x = true -> stamped y = true -> starts_after (last_start l1) (x :: l2) ->
    (stamp x = stamp y <-> forall t r, (Start t, r) ∉ l2).
Proof.
  intros g rm d xs l1 x l2 y l3 H Hx Hy Hs.
  rewrite (stamp_is_last_start g rm d xs l1 x (l2 ++ y :: l3) H), Hx.
  rewrite (stamp_is_last_start g rm d xs (l1 ++ x :: l2) y l3), Hy by (by rewrite <- app_assoc).
  rewrite last_start_app. cbn [foldl]. destruct x as [[e| |t0] r0]; [|done..]. cbn [fst starts_after] in *. revert Hs. generalize (last_start l1). clear. intros t Hs.
  split.
  - intros Heq t' r' Hin. apply (inj Some) in Heq. apply elem_of_list_split in Hin as (a & b & ->). apply starts_app in Hs as [H1 H2]. cbn [starts_after] in H2. destruct H2 as [H2 H3].
    rewrite foldl_app in Heq. cbn [foldl fst] in Heq. pose proof (starts_grow _ _ H1). pose proof (starts_grow _ _ H3). lia.
  - intros Hn. f_equal. clear Hs. induction l2 as [|[[e'| |t'] r'] l2 IH]; cbn [foldl fst]; [done| | |].
    + apply IH. intros t' r'' Hin. apply (Hn t' r''). by right.
    + apply IH. intros t' r'' Hin. apply (Hn t' r''). by right.
    + exfalso. apply (Hn t' r'). left.
Qed.

(** ** C87 *)
(** The sessions are those established since the last start, wherever the process was killed or crashed before. *)
Theorem sessions_since_start :
  forall g rm d xs c, fst (lives g rm d xs) = Some c -> N.of_nat (length xs) <= bound ->
    (forall addr seid, is_Some (session_of c addr seid) <-> (addr, seid) ∈ live (since (snd (lives g rm d xs)))) /\
    (forall addr, is_Some (c_assocs c !! addr) <-> addr ∈ peers (since (snd (lives g rm d xs)))).
Proof.
  intros g rm d xs c H Hb. destruct (lives_run g rm d xs c H) as (es & Hes & Hl).
  assert (length (since (snd (lives g rm d xs))) <= length xs)%nat as Hle.
  { clear. induction xs as [|x xs IH] using rev_ind; [done|]. rewrite lives_snoc. destruct (lives g rm d xs) as [st l]. cbn [fst snd] in *.
    destruct (ustep g rm d st x) as [st' r]. cbn [snd]. rewrite since_snoc, app_length. destruct x; cbn [length]; [rewrite app_length; cbn [length]; lia|lia..]. }
  split; intros; [eapply session_table_follows_log|eapply association_table_follows_log]; try exact Hes; lia.
Qed.

(** No rule from before the start is left: whatever was asked for in earlier lives, a packet that no PDR asked for since the last
    start applies to goes to the kernel unchanged, and one to which such a PDR applies gets that PDR's rule. *)
Definition up_fair (x : up) : Prop := match x with Ev e => event_fair e | _ => True end.
Theorem rules_since_start_partial :
  forall g rm p0 f0 q0 u0 xs c d, fst (lives g rm (dp_init p0 f0 q0 u0) xs) = Some c -> N.of_nat (length xs) <= bound ->
    start_pools rm -> Forall up_fair xs -> tidy (since (snd (lives g rm (dp_init p0 f0 q0 u0) xs))) = true -> packets (c_dp c) d ->
    let l := since (snd (lives g rm (dp_init p0 f0 q0 u0) xs)) in
    forall e f,
      (echo_request e f = false -> (forall addr seid i a, pdr_asked l addr seid i = Some a -> ~ applies e a f /\ ~ captures e a f) ->
        xdp e f d = Some (PASS, Xst f d (rx_counters e f ++ [action 2]))) /\
      (forall addr seid i a, pdr_asked l addr seid i = Some a -> applies e a f ->
        exists ep r, rule_for e d f = Some (ep, r) /\ r_ohr r = ak_ohr a /\
          (forall j, ak_far a = Some j -> exists v, asked_far l addr seid j = Some v /\ far_get d (r_far r) = Some v) /\
          (forall j, ak_qer a = Some j -> exists v q, asked_qer l addr seid j = Some v /\ qer_get d (r_qer r) = Some q /\ rule_of_qer q = v)).
Proof.
  intros g rm p0 f0 q0 u0 xs c d Hc Hb Hrm Hfair Ht Hd l e f.
  assert (Hl : (length l <= length xs)%nat).
  { unfold l. clear. generalize (dp_init p0 f0 q0 u0). intros d. induction xs as [|x xs IH] using rev_ind; [done|]. rewrite lives_snoc. destruct (lives g rm d xs) as [st l]. cbn [fst snd] in *.
    destruct (ustep g rm d st x) as [st' r]. cbn [snd]. rewrite since_snoc, app_length. destruct x; cbn [length]; [rewrite app_length; cbn [length]; lia|lia..]. }
  assert (Hlf : Forall event_fair (fst <$> l)).
  { unfold l. clear -Hfair. generalize (dp_init p0 f0 q0 u0). intros d. revert Hfair. induction xs as [|x xs IH] using rev_ind; intros Hf; [by constructor|]. rewrite lives_snoc.
    apply Forall_app in Hf as [Hf Hx]. specialize (IH Hf). destruct (lives g rm d xs) as [st l]. cbn [fst snd] in *.
    destruct (ustep g rm d st x) as [st' r]. cbn [snd]. rewrite since_snoc. destruct x as [ev| |]; [|by cbn; constructor..].
    rewrite fmap_app. apply Forall_app. split; [done|]. apply Forall_cons in Hx as [Hx _]. cbn. constructor; [exact Hx|constructor]. }
  destruct (lives_run g rm (dp_init p0 f0 q0 u0) xs c Hc) as (es & Hes & Hlen). fold l in Hes, Hlen.
  assert (Heq : fst <$> l = es).
  { clear -Hes. revert Hes. generalize (init (at_time (last_start (snd (lives g rm (dp_init p0 f0 q0 u0) xs))) g) rm (dp_init p0 f0 q0 u0)). generalize l. clear l.
    induction es as [|e es IH]; intros l c0 H; cbn [run] in H; [by simplify_eq|].
    destruct (step c0 e) as [c1 r|]; [|done]. destruct (run c1 es) as [[c2 l2]|] eqn:E; [|done]. injection H as -> <-. cbn. by rewrite (IH _ _ E). }
  assert (Ha : after l d).
  { exists (at_time (last_start (snd (lives g rm (dp_init p0 f0 q0 u0) xs))) g), rm, p0, f0, q0, u0, es, c. rewrite Heq in Hlf. split_and!; try done. lia. }
  split; [by apply unclaimed_untouched_partial|]. intros addr seid i a. by apply applied_rule.
Qed.

(** Right after a start nothing is left of earlier lives: no session, no association, no rule, and no session request is accepted. *)
Theorem start_is_clean :
  forall g rm p0 f0 q0 u0 xs t, exists c, fst (lives g rm (dp_init p0 f0 q0 u0) (xs ++ [Start t])) = Some c /\
    (forall addr, c_assocs c !! addr = None) /\ (forall addr seid, session_of c addr seid = None) /\
    (forall e f, echo_request e f = false -> xdp e f (c_dp c) = Some (PASS, Xst f (c_dp c) (rx_counters e f ++ [action 2]))) /\
    (forall sh addr seq m c' r, is_session_request m = true -> handle sh addr seq m c = Done c' (Some r) -> r_cause r ≠ Some 1).
Proof.
  intros g rm p0 f0 q0 u0 xs t. rewrite lives_snoc. destruct (lives g rm (dp_init p0 f0 q0 u0) xs) as [st l]. cbn [ustep fst].
  exists (init (at_time t g) rm (dp_init p0 f0 q0 u0)). split; [done|]. split; [intros; by apply lookup_empty|]. split; [intros; unfold session_of; cbn [init c_assocs]; by rewrite lookup_empty|]. split.
  - intros e f Hf. apply no_rule_passes_untouched; [|done]. unfold rule_for, entry. cbn. rewrite !lookup_empty. by repeat case_match.
  - intros sh addr seq m c' r Hm H. destruct m as [ | | | | |q|q|seid| ]; try done; cbn in H.
    + unfold handle_est in H. destruct (validate_request _ _) as [remote|]; cbn [c_assocs init] in H; [rewrite lookup_empty in H|]; by simplify_eq.
    + unfold handle_mod in H. cbn [c_assocs init] in H. rewrite lookup_empty in H. by simplify_eq.
    + unfold handle_del in H. cbn [c_assocs init] in H. rewrite lookup_empty in H. by simplify_eq.
Qed.

(** ** Examples and refutations *)
Definition ex_lives : list up -> option conn * list (up * option response) := lives ex_cfg ex_small_rm (dp_init 8 8 8 8).
Definition ex_hb (seq : N) : up := Ev (ex_recv seq (HeartbeatReq (Good 3))).
(** Peer 7's session with the given id of its own and uplink TEID. *)
Definition ex_est_as (remote teid : N) : msg :=
  SessEstReq (EstReq (Good 5) (Good remote) [FarIe (Some 1) (Some [2]) None None] [] [] [ex_pdr 1 teid]).

(** Started at 10, killed while it serves a session, started again at 12: the time stamps of the heartbeats differ. *)
Definition ex_restart (t : N) : list up :=
  [Start 10; Ev ex_setup; Ev (ex_recv 2 (ex_est_as 100 9)); ex_hb 3; Kill; Start t; ex_hb 4].
Definition ex_nth_stamp (xs : list up) (n : nat) : option N := match snd (ex_lives xs) !! n with Some x => stamp x | None => None end.
Example ex_restart_seen : ex_nth_stamp (ex_restart 12) 3 = Some 10 /\ ex_nth_stamp (ex_restart 12) 6 = Some 12.
Proof. by vm_compute. Qed.
(** Started again within the same second, the stamps are equal although there was a start in between and the session is gone. *)
Theorem restart_detected_refuted :
  exists g rm p0 f0 q0 u0 xs l1 x l2 y l3 c,
    lives g rm (dp_init p0 f0 q0 u0) xs = (Some c, l1 ++ x :: l2 ++ y :: l3) /\ stamped x = true /\ stamped y = true /\
    stamp x = stamp y /\ (exists t r, (Start t, r) ∈ l2) /\
    (7, 2) ∈ live (since (l1 ++ [x])) /\ session_of c 7 2 = None.
Proof.
  exists ex_cfg, ex_small_rm, 8, 8, 8, 8, (ex_restart 10).
  assert (H : match ex_lives (ex_restart 10) with
    (Some c, [a; b; e; x; k; s; y]) => stamped x && stamped y && bool_decide (stamp x = stamp y) &&
       match s with (Start _, _) => true | _ => false end && bool_decide ((7, 2) ∈ live (since [a; b; e; x])) && match session_of c 7 2 with None => true | _ => false end
    | _ => false end = true) by by vm_compute.
  unfold ex_lives in H. destruct (lives _ _ _ _) as [[c|] l]; [|discriminate H].
  destruct l as [|a [|b [|e [|x [|k [|s [|y [|z l]]]]]]]]; try discriminate H.
  apply andb_true_iff in H as [H H6]. apply andb_true_iff in H as [H H5]. apply andb_true_iff in H as [H H4]. apply andb_true_iff in H as [H H3]. apply andb_true_iff in H as [H1 H2].
  apply bool_decide_eq_true in H3, H5. exists [a; b; e], x, [k; s], y, [], c. split; [reflexivity|]. split_and!; try assumption.
  - destruct s as [[?| |t] r]; try discriminate H4. exists t, r. apply elem_of_list_further, elem_of_list_here.
  - destruct (session_of c 7 2); [discriminate H6|reflexivity].
Qed.

(** C87: an id that named a session before the restart names no other session after it: false.  The id of peer 7's first session
    is 2 in every life.  A control plane that has not noticed the restart deletes its session (its own id 100, TEID 9): the request is
    accepted and removes another one (its id 300, TEID 11), whose packets are no longer served. *)
Definition ex_reuse : list up :=
  [Start 10; Ev ex_setup; Ev (ex_recv 2 (ex_est_as 100 9)); Kill; Start 20; Ev ex_setup; Ev (ex_recv 2 (ex_est_as 300 11))].
Theorem stale_session_id_refuted :
  exists c l1 l2 rx c' r s, ex_lives ex_reuse = (Some c, l1 ++ (Ev (ex_recv 2 (ex_est_as 100 9)), Some rx) :: (Kill, None) :: (Start 20, None) :: l2) /\
    r_cause rx = Some 1 /\ r_seid rx = 100 /\ option_map fst (r_fseid rx) = Some 2 /\
    session_of c 7 2 = Some s /\ s_remote s = 300 /\ installed (c_dp c) (Up 11) = true /\
    handle id_shuffle 7 3 (SessDelReq 2) c = Done c' (Some r) /\ r_cause r = Some 1 /\ r_seid r = 300 /\ installed (c_dp c') (Up 11) = false.
Proof.
  assert (H : match ex_lives ex_reuse with
    (Some c, [a; b; (Ev _, Some rx); k; s; y; z]) => bool_decide (r_cause rx = Some 1) && (r_seid rx =? 100) && bool_decide (option_map fst (r_fseid rx) = Some 2) &&
       match session_of c 7 2 with Some s => s_remote s =? 300 | None => false end && installed (c_dp c) (Up 11) &&
       ex_accepts 1 (handle id_shuffle 7 3 (SessDelReq 2) c) (fun c' r => (r_seid r =? 300) && negb (installed (c_dp c') (Up 11)))
    | _ => false end = true) by by vm_compute.
  assert (E : fst <$> snd (ex_lives ex_reuse) = ex_reuse) by reflexivity.
  assert (E2 : (snd (ex_lives ex_reuse) !! 3%nat) = Some (Kill, None) /\ (snd (ex_lives ex_reuse) !! 4%nat) = Some (Start 20, None)) by (split; reflexivity).
  destruct (ex_lives ex_reuse) as [[c|] l]; [|discriminate H]. cbn [snd] in E, E2.
  destruct l as [|a [|b [|e [|k [|s [|y [|z [|]]]]]]]]; try discriminate E.
  destruct e as [e re]. cbn [fmap list_fmap fst] in E. injection E as _ _ -> _ _ _ _. destruct E2 as [E3 E4]. cbn in E3, E4. injection E3 as ->. injection E4 as ->.
  destruct re as [rx|]; [|discriminate H].
  apply andb_true_iff in H as [H H6]. apply andb_true_iff in H as [H H5]. apply andb_true_iff in H as [H H4]. apply andb_true_iff in H as [H H3]. apply andb_true_iff in H as [H1 H2].
  apply bool_decide_eq_true in H1, H3. apply N.eqb_eq in H2. apply ex_accepts_inv in H6 as (c' & r & E & Hr & H6). apply andb_true_iff in H6 as [H6 H7].
  apply N.eqb_eq in H6. apply negb_true_iff in H7. destruct (session_of c 7 2) as [s0|] eqn:Es; [|discriminate H4]. apply N.eqb_eq in H4.
  exists c, [a; b], [y; z], rx, c', r, s0. split_and!; try assumption. reflexivity.
Qed.

(** The hypotheses of [rules_since_start_partial] and [restart_detected_partial] hold in these histories: the PDR of the first life
    (TEID 9) is not asked for any more, that of the second (TEID 11) is. *)
Example ex_reuse_since : tidy (since (snd (ex_lives ex_reuse))) = true /\ Forall up_fair ex_reuse /\ start_pools ex_small_rm /\
  (exists a, pdr_asked (since (snd (ex_lives ex_reuse))) 7 2 1 = Some a /\ ak_key a = Up 11) /\ installed (dp_init 8 8 8 8) (Up 9) = false.
Proof.
  assert (H : tidy (since (snd (ex_lives ex_reuse))) && match pdr_asked (since (snd (ex_lives ex_reuse))) 7 2 1 with Some a => bool_decide (ak_key a = Up 11) | None => false end = true) by by vm_compute.
  apply andb_true_iff in H as [H1 H2]. split; [exact H1|]. split; [repeat constructor; apply id_shuffle_fair|]. split; [right; by exists 8, 167837696, 29|].
  destruct (pdr_asked _ _ _ _) as [a|]; [|discriminate H2]. apply bool_decide_eq_true in H2. split; [by exists a|reflexivity].
Qed.
Example ex_restart_apart : starts_after 0 (snd (ex_lives (ex_restart 12))) /\ stamped <$> (snd (ex_lives (ex_restart 12)) !! 3%nat) = Some true /\ stamped <$> (snd (ex_lives (ex_restart 12)) !! 6%nat) = Some true.
Proof. vm_compute. split; [split; [reflexivity|split; [reflexivity|exact I]]|by split]. Qed.
