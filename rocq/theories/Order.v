(** C103: the order in which a request lists its rules does not matter. *)
From Verif Require Import Base IdTracker ResourceManager SdfParser SdfProps MapOps SdfMatch Pfcp PfcpProps PfcpHistory PfcpReach
  PfcpRules PfcpCreate PfcpRemove PfcpReject PfcpInv PfcpAsked PfcpKeys PfcpUpdate Qer Csum Xdp XdpBase XdpProps XdpRules XdpFrames XdpEcho XdpEx XdpAccount
  EndToEnd EndToEndLog Ping Pong XdpRate RestWrites InFlight SdfAgain Forgets Neighbours.
Open Scope N_scope.

(** ** Specification *)

(** The same rules in another order, no id twice (a FAR without id counts as FAR 0). *)
Definition shuffled {A K} (id : A -> K) (l l' : list A) : Prop := l ≡ₚ l' /\ NoDup (id <$> l).
Definition far_no (f : far_ie) : N := default 0 (fa_id f).
(** The same message, except that the rules are listed in another order. *)
Definition same_rules_in (m m' : msg) : Prop :=
  match m, m' with
  | SessEstReq q, SessEstReq q' =>
      eq_node q' = eq_node q /\ eq_fseid q' = eq_fseid q /\ shuffled far_no (eq_fars q) (eq_fars q') /\ shuffled qe_id (eq_qers q) (eq_qers q') /\
      shuffled (fun u => u) (eq_urrs q) (eq_urrs q') /\ shuffled pe_id (eq_pdrs q) (eq_pdrs q')
  | SessModReq q, SessModReq q' =>
      mq_seid q' = mq_seid q /\ mq_fseid q' = mq_fseid q /\
      shuffled far_no (mq_cfar q) (mq_cfar q') /\ shuffled far_no (mq_ufar q) (mq_ufar q') /\ shuffled far_no (mq_rfar q) (mq_rfar q') /\
      shuffled qe_id (mq_cqer q) (mq_cqer q') /\ shuffled qe_id (mq_uqer q) (mq_uqer q') /\ shuffled qe_id (mq_rqer q) (mq_rqer q') /\
      shuffled (fun u => u) (mq_curr q) (mq_curr q') /\ shuffled (fun u => u) (mq_uurr q) (mq_uurr q') /\ shuffled (fun u => u) (mq_rurr q) (mq_rurr q') /\
      shuffled pe_id (mq_cpdr q) (mq_cpdr q') /\ shuffled pe_id (mq_updr q) (mq_updr q') /\ shuffled pe_id (mq_rpdr q) (mq_rpdr q')
  | _, _ => m' = m
  end.
(** The same answer as far as the sender is concerned: cause, F-SEID, and the TEID and UE address reported for each PDR. *)
Definition same_answer (r r' : option response) : Prop :=
  match r, r' with
  | Some r, Some r' => r_cause r' = r_cause r /\ r_fseid r' = r_fseid r /\
      forall id, teid_reported (r_created r') id = teid_reported (r_created r) id /\ ip_reported (r_created r') id = ip_reported (r_created r) id
  | None, None => True | _, _ => False end.
Definition same_exchange (x x' : event * option response) : Prop :=
  match fst x, fst x' with
  | Recv _ addr _ m, Recv _ addr' _ m' => addr' = addr /\ same_rules_in m m' /\ same_answer (snd x) (snd x')
  | HeartbeatFailed _ addr, HeartbeatFailed _ addr' => addr' = addr
  | Traffic _ _, Traffic _ _ => True
  | _, _ => False end.

(** ** Proof *)
Lemma shuffled_foldl {A B K} (id : A -> K) (f : B -> A -> B) l l' : (forall b x y, id x <> id y -> f (f b x) y = f (f b y) x) ->
  shuffled id l l' -> forall b, foldl f b l' = foldl f b l.
Proof.
  intros Hf [Hp Hn]. revert Hn. induction Hp as [|x l l' Hp IH|x y l|l1 l2 l3 H12 IH12 H23 IH23]; intros Hn b; cbn [foldl].
  - done.
  - rewrite fmap_cons, NoDup_cons in Hn. apply IH, Hn.
  - rewrite !fmap_cons, !NoDup_cons, elem_of_cons in Hn. rewrite Hf; [done|]. intros Heq. apply (proj1 Hn). left. congruence.
  - rewrite IH23, IH12; [done|done|]. by rewrite <- H12.
Qed.
Lemma said_key_same r r' p : (forall id, teid_reported (r_created r') id = teid_reported (r_created r) id /\ ip_reported (r_created r') id = ip_reported (r_created r) id) ->
  said_key r' p = said_key r p.
Proof. intros H. unfold said_key. destruct (H (u16 (default 0 (pe_id p)))) as [-> ->]. done. Qed.


Lemma fars_created_shuffled l l' m : shuffled far_no l l' -> fars_created l' m = fars_created l m.
Proof. intros H. apply (shuffled_foldl far_no); [|done]. intros b x y Hne. by apply insert_commute. Qed.
Lemma fars_updated_shuffled l l' m : shuffled far_no l l' -> fars_updated l' m = fars_updated l m.
Proof.
  intros H. apply (shuffled_foldl far_no); [|done]. intros b x y Hne. unfold far_no in Hne. destruct (fa_id x) as [i|], (fa_id y) as [j|]; try done. cbn in Hne.
  rewrite !lookup_insert_ne by done. by apply insert_commute.
Qed.
Lemma fars_removed_shuffled l l' m : shuffled far_no l l' -> fars_removed l' m = fars_removed l m.
Proof. intros H. apply (shuffled_foldl far_no); [|done]. intros b x y Hne. apply delete_commute. Qed.
Lemma qers_created_shuffled l l' m : shuffled qe_id l l' -> qers_created l' m = qers_created l m.
Proof.
  intros H. apply (shuffled_foldl qe_id); [|done]. intros b x y Hne. destruct (qe_id x) as [i|], (qe_id y) as [j|]; try done. apply insert_commute. congruence.
Qed.
Lemma qers_updated_shuffled l l' m : shuffled qe_id l l' -> qers_updated l' m = qers_updated l m.
Proof.
  intros H. apply (shuffled_foldl qe_id); [|done]. intros b x y Hne. destruct (qe_id x) as [i|], (qe_id y) as [j|]; try done.
  rewrite !lookup_insert_ne by congruence. apply insert_commute. congruence.
Qed.
Lemma qers_removed_shuffled l l' m : shuffled qe_id l l' -> qers_removed l' m = qers_removed l m.
Proof. intros H. apply (shuffled_foldl qe_id); [|done]. intros b x y Hne. destruct (qe_id x) as [i|], (qe_id y) as [j|]; try done. apply delete_commute. Qed.
Lemma pdrs_created_shuffled r r' l l' m : (forall p, said_key r' p = said_key r p) -> shuffled pe_id l l' -> pdrs_created r' l' m = pdrs_created r l m.
Proof.
  intros Hk H. transitivity (pdrs_created r l' m).
  - unfold pdrs_created. clear H. revert m. induction l' as [|p l' IH]; intros m; cbn [foldl]; [done|]. by rewrite Hk, IH.
  - apply (shuffled_foldl pe_id); [|done]. intros b x y Hne. unfold put_said. destruct (pe_id x) as [i|] eqn:Ex, (pe_id y) as [j|] eqn:Ey; try done. apply insert_commute. congruence.
Qed.
Lemma pdrs_updated_shuffled l l' m : shuffled pe_id l l' -> pdrs_updated l' m = pdrs_updated l m.
Proof.
  intros H. apply (shuffled_foldl pe_id); [|done]. intros b x y Hne. destruct (pe_id x) as [i|] eqn:Ex, (pe_id y) as [j|] eqn:Ey; try done. apply alter_commute. congruence.
Qed.
Lemma pdrs_removed_shuffled l l' m : shuffled pe_id l l' -> pdrs_removed l' m = pdrs_removed l m.
Proof. intros H. apply (shuffled_foldl pe_id); [|done]. intros b x y Hne. apply delete_commute. Qed.

Lemma exchange_same x x' : same_exchange x x' -> (forall M, asked_step M x' = asked_step M x) /\ (forall P, pdrs_step P x' = pdrs_step P x).
Proof.
  destruct x as [e r], x' as [e' r']. unfold same_exchange. cbn [fst snd]. destruct e as [sh addr seq m|sh addr|mk vo], e' as [sh' addr' seq' m'|sh' addr'|mk' vo']; try done.
  2: by intros ->.
  intros (-> & Hm & Hr). unfold same_answer in Hr.
  destruct r as [r|], r' as [r'|]; try done. 
  2: { split; intros; destruct m, m'; try done; unfold asked_step, pdrs_step; try done. }
  destruct Hr as (Hc & Hf & Hk). assert (Hs : forall p, said_key r' p = said_key r p) by (intros p; by apply said_key_same).
  destruct m as [| | | | |q|q|seid|], m' as [| | | | |q'|q'|seid'|]; cbn in Hm; try done; try (injection Hm as ->).
  - destruct Hm as (_ & _ & H1 & H2 & _ & H4). unfold asked_step, pdrs_step. rewrite Hc, Hf.
    split; intros; destruct (r_cause r) as [[|[]]|]; try done; destruct (r_fseid r) as [[n a]|]; try done.
    + by rewrite (fars_created_shuffled _ _ _ H1), (qers_created_shuffled _ _ _ H2).
    + by rewrite (pdrs_created_shuffled r r' _ _ _ Hs H4).
  - destruct Hm as (Hn & _ & H1 & H2 & H3 & H4 & H5 & H6 & _ & _ & _ & H10 & H11 & H12). unfold asked_step, pdrs_step. rewrite Hc, Hn.
    split; intros; destruct (r_cause r) as [[|[]]|]; try done; apply alter_ext; intros y _.
    + rewrite (fars_created_shuffled _ _ _ H1), (fars_updated_shuffled _ _ _ H2), (fars_removed_shuffled _ _ _ H3).
      by rewrite (qers_created_shuffled _ _ _ H4), (qers_updated_shuffled _ _ _ H5), (qers_removed_shuffled _ _ _ H6).
    + by rewrite (pdrs_created_shuffled r r' _ _ _ Hs H10), (pdrs_updated_shuffled _ _ _ H11), (pdrs_removed_shuffled _ _ _ H12).
  - unfold asked_step, pdrs_step. by rewrite Hc.
Qed.
Lemma exchanges_same l l' : Forall2 same_exchange l l' -> asked_in l' = asked_in l /\ pdrs_in l' = pdrs_in l.
Proof.
  intros H. unfold asked_in, pdrs_in. generalize (∅ : asked), (∅ : pdr_tables). induction H as [|x x' l l' Hx H IH]; intros M P; [done|]. cbn [foldl].
  destruct (exchange_same _ _ Hx) as [-> ->]. apply IH.
Qed.

(** C103: what becomes of a packet is the same whatever the order in which the requests listed their rules. *)
Theorem order_of_rules_irrelevant_partial :
  forall l l' d d' e f, after l d -> after l' d' -> Forall2 same_exchange l l' -> complete l -> env_ok e ->
    both_ways (fun p => ~ captured l e p /\ unlimited l e p) e d f -> fate (xdp e f d') = fate (xdp e f d).
Proof.
  intros l l' d d' e f Hd Hd' Hl Hc He [[H1 H2] Ha]. destruct (exchanges_same _ _ Hl) as [Hq Hp].
  assert (Hcap : forall p, captured l' e p -> captured l e p). { intros p (a & n & i & x & Hx & H). exists a, n, i, x. split; [|done]. unfold pdr_asked in *. by rewrite <- Hp. }
  eapply (past_is_forgotten_partial l l'); [done|done| |done| |done|].
  - intros k flt ohr fv qv. unfold wanted, pdr_asked, asked_far, asked_qer. by rewrite Hq, Hp.
  - intros a n i x Hx. eapply Hc. unfold pdr_asked in *. by rewrite <- Hp.
  - split; [by split_and!; auto|]. intros g d1 Hg. destruct (Ha _ _ Hg). split_and!; auto.
Qed.

(** ** Without the conditions: a filter in front of a default rule *)
(** Two PDRs for one UE address: one drops everything, the other, with a filter, lets what matches the filter (everything) pass. *)
Definition ex_drop_all : far_ie := FarIe (Some 3) (Some [1]) (Some (Good (OhcIe 256 85 (Some 167772169) false))) None.
Section texts.
Import String.
Definition ex_let_pass : pdr_ie :=
  PdrIe (Some 2) None (Some 1) (Some 1) [] (Some (PdiIe true Absent (Good (UeipIe false (Some 171704321) None)))) (Some (str "permit out ip from any to any"%string)).
End texts.
Definition ex_listed (l : list pdr_ie) : list event := [ex_setup; ex_recv 2 (SessEstReq (ex_free_est [ex_both_far_dl; ex_drop_all] l))].
Definition ex_filter_last : list event := ex_listed [ex_dl 1 171704321 3 1; ex_let_pass].
Definition ex_filter_first : list event := ex_listed [ex_let_pass; ex_dl 1 171704321 3 1].
(** [same_answer], decided. *)
Definition answer_same_b (r r' : option response) : bool :=
  match r, r' with
  | Some r, Some r' => bool_decide (r_cause r' = r_cause r) && bool_decide (r_fseid r' = r_fseid r) &&
      forallb (fun i => bool_decide (teid_reported (r_created r') i = teid_reported (r_created r) i) && bool_decide (ip_reported (r_created r') i = ip_reported (r_created r) i))
        (rep_id <$> (r_created r ++ r_created r')%list)
  | None, None => true | _, _ => false end.
Lemma answer_same_b_ok r r' : answer_same_b r r' = true -> same_answer r r'.
Proof.
  destruct r as [r|], r' as [r'|]; try done. cbn [answer_same_b]. intros H. rewrite !andb_true_iff in H. destruct H as [[H1%bool_decide_eq_true H2%bool_decide_eq_true] H3].
  split; [done|]. split; [done|]. intros id. rewrite forallb_forall in H3. destruct (decide (id ∈ rep_id <$> (r_created r ++ r_created r')%list)) as [Hin|Hout].
  - apply elem_of_list_In, H3, andb_true_iff in Hin as [A%bool_decide_eq_true B%bool_decide_eq_true]. done.
  - rewrite fmap_app, elem_of_app in Hout. destruct (reported_none (r_created r) id) as [A B]; [tauto|]. destruct (reported_none (r_created r') id) as [A' B']; [tauto|]. split; congruence.
Qed.
Fixpoint answers_same_b (l l' : log) : bool :=
  match l, l' with [], [] => true | x :: l, x' :: l' => answer_same_b (snd x) (snd x') && answers_same_b l l' | _, _ => false end.
Lemma exchanges_from es es' c l c' l' : ex_start es = Some (c, l) -> ex_start es' = Some (c', l') ->
  Forall2 (fun e e' => same_exchange (e, None) (e', None)) es es' -> answers_same_b l l' = true -> Forall2 same_exchange l l'.
Proof.
  intros H%run_length H'%run_length. destruct H as [_ <-], H' as [_ <-]. revert l'. induction l as [|[e r] l IH]; intros [|[e' r'] l'] Hf Ha; try (by inversion Hf).
  cbn [answers_same_b snd] in Ha. apply andb_true_iff in Ha as [Ha1%answer_same_b_ok Ha2]. rewrite !fmap_cons in Hf. apply Forall2_cons in Hf as [Hx Hf].
  apply Forall2_cons. split; [|by apply IH]. unfold same_exchange in *. cbn [fst snd] in *. destruct e, e'; try done. destruct Hx as (? & ? & _). done.
Qed.
Lemma swapped {A K} (id : A -> K) (x y : A) : id x <> id y -> shuffled id [x; y] [y; x].
Proof. intros H. split; [apply Permutation_swap|]. cbn. apply NoDup_cons. split; [by intros ?%elem_of_list_singleton|]. apply NoDup_singleton. Qed.
Lemma same_order {A K} `{EqDecision K} (id : A -> K) (l : list A) : bool_decide (NoDup (id <$> l)) = true -> shuffled id l l.
Proof. intros H%bool_decide_eq_true. by split. Qed.

Lemma accepted_at (l : log) : (match l with [_; (_, Some r)] => bool_decide (r_cause r = Some 1) | _ => false end) = true -> exists x e r, l = [x; (e, Some r)] /\ r_cause r = Some 1.
Proof. destruct l as [|x [|[e [r|]] [|]]]; try done. intros H%bool_decide_eq_true. by exists x, e, r. Qed.
Theorem order_of_rules_irrelevant_refuted : exists c l c' l' s s' i x e r,
  ex_start ex_filter_last = Some (c, l) /\ ex_start ex_filter_first = Some (c', l') /\ Forall2 same_exchange l l' /\ l = [x; (e, Some r)] /\ r_cause r = Some 1 /\
  xdp ex_env ex_down (c_dp c) = Some (REDIRECT i, s) /\ xdp ex_env ex_down (c_dp c') = Some (DROP, s').
Proof.
  assert (H : match ex_start ex_filter_last, ex_start ex_filter_first with
    | Some (c, l), Some (c', l') => answers_same_b l l' && match l with [_; (_, Some r)] => bool_decide (r_cause r = Some 1) | _ => false end &&
        match ex_out (xdp ex_env ex_down (c_dp c)), ex_out (xdp ex_env ex_down (c_dp c')) with Some (true, _), Some (false, _) => true | _, _ => false end
    | _, _ => false end = true) by (vm_compute; reflexivity).
  destruct (ex_start ex_filter_last) as [[c l]|] eqn:Ec; [|discriminate H]. destruct (ex_start ex_filter_first) as [[c' l']|] eqn:Ec'; [|discriminate H].
  rewrite !andb_true_iff in H. destruct H as ((H1 & (x & e & r & Hl & Hr)%accepted_at) & H3).
  destruct (ex_out (xdp ex_env ex_down (c_dp c))) as [[[] d0]|] eqn:E1; [|discriminate H3..].
  destruct (ex_out (xdp ex_env ex_down (c_dp c'))) as [[[] d1]|] eqn:E2; [discriminate H3| |discriminate H3].
  apply ex_out_inv in E1 as (v & s & X1 & _ & i & ->), E2 as (v' & s' & X2 & _ & ->).
  exists c, l, c', l', s, s', i, x, e, r. split; [reflexivity|]. split; [reflexivity|]. split.
  { refine (exchanges_from _ _ _ _ _ _ Ec Ec' _ H1). clear. apply Forall2_cons. split; [split; [reflexivity|split; [reflexivity|exact I]]|].
    apply Forall2_cons. split; [|by apply Forall2_nil]. split; [reflexivity|]. split; [|exact I]. cbn [same_rules_in ex_free_est eq_node eq_fseid eq_fars eq_qers eq_urrs eq_pdrs].
    split; [reflexivity|]. split; [reflexivity|]. do 3 (split; [apply same_order; reflexivity|]). apply swapped. discriminate. }
  clear Ec Ec'. split; [exact Hl|]. split; [exact Hr|]. split; [exact X1|exact X2].
Qed.

(** ** The hypotheses are met *)
Definition ex_more (fars : list far_ie) (pdrs : list pdr_ie) : event := ex_recv 3 (SessModReq (ModReq 2 Absent fars [] [] [] [] [] [] [] [] pdrs [] [])).
Definition ex_one_way : list event :=
  [ex_setup; ex_recv 2 (SessEstReq (ex_free_est [ex_both_far_dl; ex_both_far_ul] [ex_both_ul; ex_both_dl])); ex_more [ex_drop_all; ex_far5 2] [ex_both_ch; ex_dl 4 171704330 5 1]].
Definition ex_other_way : list event :=
  [ex_setup; ex_recv 2 (SessEstReq (ex_free_est [ex_both_far_ul; ex_both_far_dl] [ex_both_dl; ex_both_ul])); ex_more [ex_far5 2; ex_drop_all] [ex_dl 4 171704330 5 1; ex_both_ch]].
Example ex_order : exists l l' d d', after l d /\ after l' d' /\ l' <> l /\ Forall2 same_exchange l l' /\ complete l /\
  both_ways (fun p => ~ captured l ex_env p /\ unlimited l ex_env p) ex_env d ex_down /\
  (exists a e b r, l = [a; e; (b, Some r)] /\ r_cause r = Some 1 /\ r_created r <> []) /\
  exists s i, xdp ex_env ex_down d = Some (REDIRECT i, s).
Proof.
  assert (H : match ex_start ex_one_way, ex_start ex_other_way with
    | Some (c, l), Some (c', l') => tidy l && tidy l' && answers_same_b l l' && complete_b l && negb (captured_b l ex_env ex_down) && unlimited_b l ex_env ex_down &&
        match answer_of ex_env (c_dp c) ex_down with None => true | _ => false end &&
        match l with [_; _; (_, Some r)] => bool_decide (r_cause r = Some 1) && match r_created r with [] => false | _ => true end | _ => false end &&
        match ex_out (xdp ex_env ex_down (c_dp c)) with Some (true, _) => true | _ => false end
    | _, _ => false end = true) by (vm_compute; reflexivity).
  destruct (ex_start ex_one_way) as [[c l]|] eqn:Ec; [|discriminate H]. destruct (ex_start ex_other_way) as [[c' l']|] eqn:Ec'; [|discriminate H].
  rewrite !andb_true_iff in H. destruct H as ((((((((H1 & H2) & H3) & H4%complete_b_ok) & H5) & H6%unlimited_b_ok) & H7) & H8) & H9).
  assert (Hne : l' <> l).
  { pose proof (proj2 (run_length _ _ _ _ Ec)) as A. pose proof (proj2 (run_length _ _ _ _ Ec')) as B. clear -A B. intros ->. rewrite A in B. discriminate B. }
  assert (Hx : Forall2 same_exchange l l').
  { refine (exchanges_from _ _ _ _ _ _ Ec Ec' _ H3). clear. apply Forall2_cons. split; [split; [reflexivity|split; [reflexivity|exact I]]|].
    apply Forall2_cons. split; [|apply Forall2_cons; split; [|by apply Forall2_nil]].
    - split; [reflexivity|]. split; [|exact I]. split; [reflexivity|]. split; [reflexivity|]. split; [apply swapped; discriminate|]. split; [apply same_order; reflexivity|].
      split; [apply same_order; reflexivity|]. apply swapped; discriminate.
    - split; [reflexivity|]. split; [|exact I]. split; [reflexivity|]. split; [reflexivity|]. split; [apply swapped; discriminate|]. do 8 (split; [apply same_order; reflexivity|]).
      split; [apply swapped; discriminate|]. split; apply same_order; reflexivity. }
  pose proof (after_start _ _ _ Ec ltac:(repeat constructor; apply id_shuffle_fair) eq_refl H1) as A1. clear Ec.
  pose proof (after_start _ _ _ Ec' ltac:(repeat constructor; apply id_shuffle_fair) eq_refl H2) as A2. clear Ec'.
  exists l, l', (c_dp c), (c_dp c'). split; [exact A1|]. split; [exact A2|]. split; [exact Hne|]. split; [exact Hx|]. split; [exact H4|]. split.
  { split; [split; [exact (captured_b_ok _ _ _ (proj1 (negb_true_iff _) H5))|exact H6]|]. intros g d1 Hg. rewrite Hg in H7. discriminate H7. }
  split.
  { clear -H8. destruct l as [|a [|e [|[b [r|]] [|]]]]; try discriminate H8. apply andb_true_iff in H8 as [E%bool_decide_eq_true F]. exists a, e, b, r.
    split; [reflexivity|]. split; [exact E|]. intros Hn. rewrite Hn in F. discriminate F. }
  destruct (ex_out (xdp ex_env ex_down (c_dp c))) as [[[] d0]|] eqn:E1; [|discriminate H9..]. apply ex_out_inv in E1 as (v & s & X1 & _ & i & ->).
  exists s, i. exact X1.
Qed.
