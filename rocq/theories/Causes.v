(** C93: the cause of a rejection says why, as documented.  C94: how a peer becomes associated. *)
From Verif Require Import Base IdTracker ResourceManager SdfParser SdfProps MapOps Pfcp PfcpProps PfcpHistory PfcpReach PfcpRules PfcpCreate PfcpRemove Config.
Open Scope N_scope.

(** ** Specification *)

(** docs/PfcpCauseCodes.md, read against the log [l] of what the peers sent and were answered so far:
    72 the sender is not associated; 65 the session named is not one of the sender's live ones; 66 a mandatory element is missing
    (in an establishment also: cannot be read); 69 it cannot be read; 73 the request is in order and concerns rules; 1 it is in order. *)
Definition due (l : log) (addr : N) (m : msg) : list N :=
  let associated := bool_decide (addr ∈ peers l) in
  let known seid := bool_decide ((addr, seid) ∈ live l) in
  match m with
  | AssocSetupReq node rts =>
      match node, rts with
      | Absent, _ => [66] | Bad, _ => [69]
      | Good _, Absent => [66] | Good _, Bad => [69]
      | Good _, Good _ => [1]
      end
  | AssocUpdateReq node => match node with Absent => [66] | Bad => [69] | Good _ => if associated then [1] else [72] end
  | SessEstReq q => if is_good (eq_node q) && is_good (eq_fseid q) then if associated then [1; 73] else [72] else [66]
  | SessModReq q => if associated then if known (mq_seid q) then [1; 73] else [65] else [72]
  | SessDelReq seid => if associated then if known seid then [1] else [65] else [72]
  | _ => []
  end.
(** The codes the document lists as in use. *)
Definition documented_in_use : list N := [1; 64; 65; 66; 72; 73].

(** ** C93 *)

Lemma run_at c es c' l : run c es = Some (c', l) -> forall l1 x l2, l = l1 ++ x :: l2 ->
  exists es1 es2 c1 c2, es = es1 ++ fst x :: es2 /\ run c es1 = Some (c1, l1) /\ step c1 (fst x) = Done c2 (snd x).
Proof.
  revert c l. induction es as [|e es IH]; intros c l H l1 x l2 ->; cbn [run] in H.
  { injection H as _ H. by destruct l1. }
  destruct (step c e) as [c1 r|] eqn:E; [|done]. destruct (run c1 es) as [[c2 l0]|] eqn:E2; [|done].
  apply (inj Some) in H. injection H as -> H. destruct l1 as [|y l1]; cbn [app] in H.
  - injection H as <- ->. exists [], es, c, c1. by split; [|split].
  - injection H as <- ->. destruct (IH c1 _ E2 l1 x l2 eq_refl) as (es1 & es2 & c3 & c4 & -> & H1 & H2).
    exists (e :: es1), es2, c3, c4. split; [done|]. split; [|done]. cbn [run]. by rewrite E, H1.
Qed.

Theorem cause_says_why :
  forall g rm d es c l, run (init g rm d) es = Some (c, l) -> N.of_nat (length es) <= bound ->
    forall l1 l2 sh addr seq m r k, l = l1 ++ (Recv sh addr seq m, Some r) :: l2 -> r_cause r = Some k -> k ∈ due l1 addr m.
Proof.
  intros g rm d es c l H Hb l1 l2 sh addr seq m r k Hl Hk.
  destruct (run_at _ _ _ _ H _ _ _ Hl) as (es1 & es2 & c1 & c2 & -> & H1 & H2). cbn [fst snd] in H2.
  rewrite app_length in Hb.
  assert (Hb1 : N.of_nat (length es1) <= bound) by lia.
  pose proof (association_table_follows_log _ _ _ _ _ _ H1 Hb1 addr) as Hp.
  pose proof (session_table_follows_log _ _ _ _ _ _ H1 Hb1 addr) as Hs. clear H H1.
  cbn [step] in H2. unfold due. destruct m as [rts|rts|node rts|node cause features|node|q|q|seid|ty]; cbn [handle] in H2.
  - exfalso. unfold handle_hb_req in H2. repeat (case_match; try done). injection H2 as _ <-. discriminate Hk.
  - exfalso. unfold handle_hb_resp in H2. by repeat (case_match; try done).
  - unfold handle_setup in H2. destruct node; [..|destruct rts]; injection H2 as _ <-; cbn [r_cause resp_cause] in Hk; injection Hk as <-; set_solver.
  - exfalso. unfold handle_setup_resp in H2. by repeat (case_match; try done).
  - unfold handle_update in H2. destruct node; [..|destruct (c_assocs c1 !! addr) eqn:Ea]; injection H2 as _ <-; cbn in Hk; injection Hk as <-.
    + set_solver.
    + set_solver.
    + rewrite bool_decide_eq_true_2 by (by apply Hp). set_solver.
    + rewrite bool_decide_eq_false_2 by (intros Hx; apply Hp in Hx as [? ?]; congruence). set_solver.
  - unfold handle_est, validate_request in H2.
    destruct (eq_node q), (eq_fseid q); cbn [is_good andb]; try (injection H2 as _ <-; cbn in Hk; injection Hk as <-; set_solver).
    destruct (c_assocs c1 !! addr) eqn:Ea.
    + rewrite bool_decide_eq_true_2 by (by apply Hp). destruct (existsb _ _); [done|].
      destruct (est_rules _ _ _); [..|done]; injection H2 as _ <-; cbn in Hk; injection Hk as <-; set_solver.
    + rewrite bool_decide_eq_false_2 by (intros Hx; apply Hp in Hx as [? ?]; congruence). injection H2 as _ <-. cbn in Hk. injection Hk as <-. set_solver.
  - unfold handle_mod in H2. destruct (c_assocs c1 !! addr) as [a|] eqn:Ea.
    + rewrite bool_decide_eq_true_2 by (by apply Hp). specialize (Hs (mq_seid q)). unfold session_of in Hs. rewrite Ea in Hs.
      destruct (a_sessions a !! mq_seid q) eqn:Es.
      * rewrite bool_decide_eq_true_2 by (by apply Hs). destruct (_ || _); [done|].
        destruct (mod_rules _ _ _ _); [..|done]; injection H2 as _ <-; cbn in Hk; injection Hk as <-; set_solver.
      * rewrite bool_decide_eq_false_2 by (intros Hx; apply Hs in Hx as [? ?]; congruence). injection H2 as _ <-. cbn in Hk. injection Hk as <-. set_solver.
    + rewrite bool_decide_eq_false_2 by (intros Hx; apply Hp in Hx as [? ?]; congruence). injection H2 as _ <-. cbn in Hk. injection Hk as <-. set_solver.
  - unfold handle_del in H2. destruct (c_assocs c1 !! addr) as [a|] eqn:Ea.
    + rewrite bool_decide_eq_true_2 by (by apply Hp). specialize (Hs seid). unfold session_of in Hs. rewrite Ea in Hs.
      destruct (a_sessions a !! seid) eqn:Es.
      * rewrite bool_decide_eq_true_2 by (by apply Hs).
        destruct (del_rules _ _ _); [|done..]; injection H2 as _ <-; cbn in Hk; injection Hk as <-; set_solver.
      * rewrite bool_decide_eq_false_2 by (intros Hx; apply Hs in Hx as [? ?]; congruence). injection H2 as _ <-. cbn in Hk. injection Hk as <-. set_solver.
    + rewrite bool_decide_eq_false_2 by (intros Hx; apply Hp in Hx as [? ?]; congruence). injection H2 as _ <-. cbn in Hk. injection Hk as <-. set_solver.
  - done.
Qed.
(** Every cause occurs: a history that meets the hypotheses. *)
Definition ex_causes : list event :=
  [ex_recv 1 (SessDelReq 2); ex_recv 2 (AssocSetupReq (Good 5) Absent); ex_recv 3 (AssocSetupReq Bad (Good 1)); ex_recv 4 (AssocSetupReq (Good 5) (Good 1));
   ex_recv 5 (SessDelReq 2); ex_recv 6 (SessEstReq (EstReq (Good 5) Absent [] [] [] [])); ex_recv 7 (SessEstReq (EstReq (Good 5) (Good 100) [] [] [] []));
   ex_recv 8 (SessEstReq (EstReq (Good 5) (Good 100) [] [QerIe None None None None None None] [] [])); ex_recv 9 (SessDelReq 2)].
Definition causes_in (l : log) : list (option N) := (fun x : event * option response => snd x ≫= r_cause) <$> l.
Example ex_causes_given : exists c l, ex_start ex_causes = Some (c, l) /\ causes_in l = [Some 72; Some 66; Some 69; Some 1; Some 65; Some 66; Some 1; Some 73; Some 1].
Proof.
  assert (H : match ex_start ex_causes with Some (_, l) => bool_decide (causes_in l = [Some 72; Some 66; Some 69; Some 1; Some 65; Some 66; Some 1; Some 73; Some 1]) | None => false end = true) by (by vm_compute).
  destruct (ex_start ex_causes) as [[c l]|]; [|discriminate H]. exists c, l. split; [reflexivity|]. by apply bool_decide_eq_true in H.
Qed.

(** Cause 69, listed as not in use, is sent; and 64 (unknown error), listed as in use, never is. *)
Theorem causes_documented_refuted :
  (exists c l x k, ex_start ex_causes = Some (c, l) /\ x ∈ l /\ snd x ≫= r_cause = Some k /\ k ∉ documented_in_use) /\
  (forall sh addr seq m c c' r, handle sh addr seq m c = Done c' (Some r) -> r_cause r <> Some 64).
Proof.
  split.
  - destruct ex_causes_given as (c & l & H & Hl). exists c, l.
    assert (Hin : Some 69 ∈ causes_in l) by (rewrite Hl; set_solver).
    apply elem_of_list_fmap in Hin as (x & Hx & Hin). exists x, 69. split; [exact H|]. clear H. split; [done|]. split; [done|]. unfold documented_in_use. set_solver.
  - intros sh addr seq m c c' r H Hk. destruct m; cbn [handle] in H;
      unfold handle_hb_req, handle_hb_resp, handle_setup, handle_setup_resp, handle_update, handle_est, handle_mod, handle_del in H;
      repeat (case_match; simplify_eq); simplify_eq; discriminate Hk.
Qed.
(** An establishment whose F-SEID is present but cannot be read is told that it is missing. *)
Theorem present_called_missing_refuted :
  forall sh addr seq c q, eq_fseid q = Bad -> exists r, handle sh addr seq (SessEstReq q) c = Done c (Some r) /\ r_cause r = Some 66.
Proof. intros sh addr seq c q H. apply est_missing_ids_no_effect. right. by rewrite H. Qed.

(** ** C94 *)

(** A peer set up an association: by a request that was accepted, or by an answer that accepts. *)
Definition sets_up (addr : N) (x : event * option response) : Prop :=
  (exists sh seq node rts r, x = (Recv sh addr seq (AssocSetupReq node rts), Some r) /\ r_cause r = Some 1) \/
  (exists sh seq node f, x = (Recv sh addr seq (AssocSetupResp (Good node) (Good 1) (Good f)), None)).
Lemma sets_up_accepted addr x : accepted_setup x = Some addr <-> sets_up addr x.
Proof.
  split.
  - unfold accepted_setup. intros H. destruct x as [[sh a seq m| |] o]; [|done..]. destruct m as [| |node rts|node cause f| | | | |]; try done.
    + destruct o as [r|]; [|done]. left. exists sh, seq, node, rts, r. destruct (r_cause r) as [[|[]]|] eqn:E; try done. injection H as ->. done.
    + right. destruct node as [| |node]; try done. destruct cause as [| |[|[]]]; try done. destruct f as [| |f]; try done. destruct o; [done|].
      injection H as ->. by exists sh, seq, node, f.
  - intros [(sh & seq & node & rts & r & -> & H)|(sh & seq & node & f & ->)]; unfold accepted_setup; [by rewrite H|done].
Qed.
Definition since (addr : N) (l : log) : Prop :=
  exists l1 x l2, l = l1 ++ x :: l2 /\ sets_up addr x /\ forall y, y ∈ l2 -> pruned y <> Some addr.
Lemma since_snoc addr l x : since addr (l ++ [x]) <-> sets_up addr x \/ (since addr l /\ pruned x <> Some addr).
Proof.
  split.
  - intros (l1 & y & l2 & Hl & Hy & Hn). destruct l2 as [|z l2 _] using rev_ind.
    + apply app_inj_tail in Hl as [-> ->]. by left.
    + right. rewrite app_comm_cons, app_assoc in Hl. apply app_inj_tail in Hl as [-> ->]. split; [|apply Hn; set_solver]. exists l1, y, l2. split; [done|]. split; [done|]. set_solver.
  - intros [Hx|[(l1 & y & l2 & -> & Hy & Hn) Hx]]; [exists l, x, []; split; [done|]; split; [done|]; set_solver|].
    exists l1, y, (l2 ++ [x]). split; [by rewrite <- app_assoc|]. split; [done|]. set_solver.
Qed.
(** A peer is associated exactly if it set up an association and was not pruned since. *)
Theorem associated_by_exchange_partial :
  forall g rm d es c l, run (init g rm d) es = Some (c, l) -> N.of_nat (length es) <= bound ->
    forall addr, is_Some (c_assocs c !! addr) <-> since addr l.
Proof.
  intros g rm d es c l H Hb addr. rewrite (association_table_follows_log _ _ _ _ _ _ H Hb). clear.
  induction l as [|x l IH] using rev_ind.
  { split; [set_solver|]. intros (l1 & x & l2 & Hl & _). by destruct l1. }
  rewrite since_snoc, <- IH, <- sets_up_accepted. unfold peers. rewrite foldl_app. cbn [foldl]. fold (peers l). unfold peers_step.
  destruct (accepted_setup x) as [a|] eqn:Ea.
  - rewrite elem_of_union, elem_of_singleton. split; [intros [->|?]; [by left|right]|intros [?|[? _]]; [left; congruence|by right]].
    split; [done|]. clear -Ea. destruct x as [[] o]; done.
  - destruct (pruned x) as [a|].
    + rewrite elem_of_difference, elem_of_singleton. split; [intros [? ?]; right; split; congruence|intros [?|[? ?]]; [done|split; congruence]].
    + split; [intros ?; right; done|intros [?|[? _]]; done].
Qed.
(** The UPF never asked anybody for an association; a stranger that sends an answer nevertheless is associated and served. *)
Theorem unsolicited_association_refuted :
  exists conf conn n,
    k_remotes conf = [] /\ start (fun _ => None) (Cfg false false 1 1 1 1) conf = Serving conn /\
    nrun ex_checks (fun a => [a]) (node_start conf conn)
      [Net (Recv id_shuffle 9 1 (AssocSetupResp (Good 5) (Good 1) (Good 0))); Net (Recv id_shuffle 9 2 (SessEstReq (EstReq (Good 5) (Good 100) [] [] [] [])))] = Some (n, []) /\
    is_Some (session_of (n_conn n) 9 2).
Proof.
  exists (Config [] [103] [58] [58] [49] [] 5 [58] [49] [49] [] 10 10 10 10 10 10 3 5 5 [105] [] 0 false false). eexists _, _.
  split; [reflexivity|]. split; [vm_compute; reflexivity|]. split; [vm_compute; reflexivity|]. vm_compute. by eexists.
Qed.
Example ex_associated : exists c l, ex_start [ex_setup] = Some (c, l) /\ since 7 l /\ is_Some (c_assocs c !! 7).
Proof.
  destruct (ex_runs_inv [ex_setup] (fun c => match c_assocs c !! 7 with Some _ => true | None => false end)) as (c & l & Hc & H); [by vm_compute|].
  exists c, l. split; [exact Hc|]. assert (Ha : is_Some (c_assocs c !! 7)) by (by destruct (c_assocs c !! 7)).
  split; [|exact Ha]. unfold ex_start in Hc. exact (proj1 (associated_by_exchange_partial _ _ _ _ _ _ Hc ltac:(by vm_compute) 7) Ha).
Qed.
