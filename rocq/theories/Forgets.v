(** C101: what becomes of a packet depends on what the live sessions ask for, not on how that came about. *)
From Verif Require Import Base IdTracker ResourceManager SdfParser SdfProps MapOps SdfMatch Pfcp PfcpProps PfcpHistory PfcpReach
  PfcpRules PfcpCreate PfcpRemove PfcpReject PfcpInv PfcpAsked PfcpKeys PfcpUpdate Qer Csum Xdp XdpBase XdpProps XdpRules XdpFrames XdpEcho XdpEx XdpAccount
  EndToEnd EndToEndLog Ping Pong XdpRate RestWrites InFlight SdfAgain.
Open Scope N_scope.

(** ** Specification *)

(** What the live sessions ask for: packets with this key that match this filter (if any) lose these headers, go where this FAR says, and
    are policed by this QER.  Nothing about which peer, which session, which ids, or when. *)
Definition wanted (l : log) (k : key) (flt : option sdf_filter) (ohr : N) (fv : far_info) (qv : qer_rule) : Prop :=
  exists addr seid i a j h, pdr_asked l addr seid i = Some a /\ ak_key a = k /\ ak_sdf a = flt /\ ak_ohr a = ohr /\
    ak_far a = Some j /\ asked_far l addr seid j = Some fv /\ ak_qer a = Some h /\ asked_qer l addr seid h = Some qv.
Definition same_wants (l l' : log) : Prop := forall k flt ohr fv qv, wanted l k flt ohr fv qv <-> wanted l' k flt ohr fv qv.
(** Every PDR names a FAR and a QER. *)
Definition complete (l : log) : Prop := forall addr seid i a, pdr_asked l addr seid i = Some a -> is_Some (ak_far a) /\ is_Some (ak_qer a).
(** What is wanted for packet [f] has no maximum bit rate in the direction of [f]. *)
Definition ql_rate (w : dir) (q : qer_rule) : N := match w with Uplink => ql_ul_rate q | Downlink => ql_dl_rate q end.
Definition filter_takes (e : env) (flt : option sdf_filter) (f : list N) : Prop :=
  match flt with None => True | Some flt => matches e (ep_filter_of flt) f = Some true end.
Definition unlimited (l : log) (e : env) (f : list N) : Prop :=
  forall k flt ohr fv qv, wanted l k flt ohr fv qv -> frame_key e f = Some k -> filter_takes e flt f -> ql_rate (dir_of e f) qv = 0.
(** The same for the packet and, if it pings the UPF, for the answer, which passes the rules too. *)
Definition both_ways (P : list N -> Prop) (e : env) (d : dp) (f : list N) : Prop :=
  P f /\ forall answer d1, answer_of e d f = Some (answer, d1) -> P answer.

(** ** What becomes of a packet depends on what the rules decide for it *)

(** The decision: is there a rule, does it let the packet through, and how does the packet go on (FAR, QFI, header removal)? *)
Definition decision (e : env) (d : dp) (f : list N) : option (option (far_info * N * N)) :=
  match rule_for e d f with
  | None => None
  | Some (_, r) => Some (match permitted e (dir_of e f) (N.of_nat (length f)) d r with Some (far, q) => Some (far, qi_qfi q, r_ohr r) | None => None end)
  end.

Lemma account_decision e d p r far q n g :
  gpdu e g = false -> permitted e Uplink n d r = Some (far, q) -> decision e (account e Uplink n p r q d) g = decision e d g.
Proof.
  intros Hg Hp. destruct (permitted_qer _ _ _ _ _ _ _ Hp) as [Hq Hb].
  assert (G : forall id ul dl d, (forall g, entry e (urr_add id ul dl d) g = entry e d g) /\ (forall i, far_get (urr_add id ul dl d) i = far_get d i) /\ (forall i, qer_get (urr_add id ul dl d) i = qer_get d i)).
  { intros id ul dl d0. unfold urr_add. by destruct (urr_get d0 id). }
  unfold account. destruct (volume Uplink n) as [ul dl].
  destruct (G (ep_urr2 p) ul dl (urr_add (ep_urr1 p) ul dl (mark e Uplink n r q d))) as (A1 & A2 & A3).
  destruct (G (ep_urr1 p) ul dl (mark e Uplink n r q d)) as (B1 & B2 & B3). set (d1 := urr_add (ep_urr2 p) _ _ _) in *.
  assert (E1 : entry e d1 g = entry e d g) by (rewrite A1, B1; unfold mark; by destruct (_ =? 0)).
  assert (E2 : forall i, far_get d1 i = far_get d i) by (intros i; rewrite A2, B2; unfold mark; by destruct (_ =? 0)).
  assert (E3 : forall i, qer_get d1 i = qer_get d i \/ exists q0 v, qer_get d i = Some q0 /\ qer_get d1 i = Some (with_ul_start q0 v)).
  { intros i. rewrite A3, B3. unfold mark. destruct (rate Uplink q =? 0); [by left|]. rewrite qer_insert by done. destruct (decide (i = r_qer r)) as [->|]; [|by left].
    right. exists q. eexists. by split. }
  clearbody d1. clear -E1 E2 E3 Hg. unfold decision. rewrite (entry_rule _ _ _ _ E1). destruct (rule_for e d g) as [[p0 r0]|]; [|done]. unfold permitted. rewrite E2.
  destruct (E3 (r_qer r0)) as [-> | (q0 & v & -> & ->)]; [done|]. destruct (far_get d (r_far r0)); [|done]. unfold dir_of. rewrite Hg.
  unfold gate_open, in_rate. cbn [gate start rate with_ul_start qi_dl_gate qi_dl_start qi_dl_rate]. by destruct (_ && _).
Qed.

Theorem packet_depends_on_decision :
  forall e f d d', env_ok e -> decision e d' f = decision e d f ->
    (forall g d1, answer_of e d f = Some (g, d1) -> decision e d' g = decision e d g) -> fate (xdp e f d') = fate (xdp e f d).
Proof.
  assert (Direct : forall e f d d', env_ok e -> decision e d' f = decision e d f ->
    (forall p r far, gpdu e f = true -> rule_for e d f = Some (p, r) -> far_get d (r_far r) = Some far -> pings_upf e f far (r_ohr r) = false) ->
    fate (xdp e f d') = fate (xdp e f d)).
  { intros e f d d' He Hs Hn. unfold decision in Hs. destruct (rule_for e d f) as [[p r]|] eqn:Hr, (rule_for e d' f) as [[p' r']|] eqn:Hr'; try done.
    - injection Hs as Hs. destruct (permitted e (dir_of e f) (N.of_nat (length f)) d r) as [[far q]|] eqn:Hp, (permitted e (dir_of e f) (N.of_nat (length f)) d' r') as [[far' q']|] eqn:Hp'; try done.
      + apply (inj Some) in Hs. injection Hs as -> Hqfi Hohr.
        assert (Hf : far_get d (r_far r) = Some far). { unfold permitted in Hp. destruct (far_get d (r_far r)), (qer_get d (r_qer r)); try done. destruct (_ && _); [|done]. by simplify_eq. }
        unfold dir_of in *. destruct (gpdu e f) eqn:Hg.
        * pose proof (Hn p r far eq_refl eq_refl Hf) as Hpu. assert (Hpu' : pings_upf e f far (r_ohr r') = false) by (by rewrite Hohr).
          rewrite (xdp_uplink e d f p r far q), (xdp_uplink e d' f p' r' far q') by done. rewrite Hohr.
          by destruct (uplink_result e f far (r_ohr r)) as [[v g] c].
        * rewrite (xdp_downlink e d f p r far q), (xdp_downlink e d' f p' r' far q') by done. cbv zeta. rewrite Hqfi. destruct (e_head e); [|done].
          by destruct (routed e true _) as [[v0 g0] c0].
      + by rewrite (not_permitted_dropped e d f p r), (not_permitted_dropped e d' f p' r').
    - destruct (echo_request e f) eqn:Hec.
      + rewrite !xdp_rule, Hec. pose proof (echo_blind e (gtp_ctx f) f d d' (rx_counters e f)) as B.
        destruct (handle_echo_request e (gtp_ctx f) (Xst f d (rx_counters e f))) as [[v s]|], (handle_echo_request e (gtp_ctx f) (Xst f d' (rx_counters e f))) as [[v' s']|]; try done.
        destruct B as (<- & Hf & _). cbn [finish fate x_f]. by rewrite Hf.
      + by rewrite (no_rule_passes_untouched e d f), (no_rule_passes_untouched e d' f). }
  intros e f d d' He Hs Ha. destruct (rule_for e d f) as [[p r]|] eqn:Hr.
  2: { apply Direct; [done|done|]. intros p r far _ H. congruence. }
  destruct (gpdu e f) eqn:Hg.
  2: { apply Direct; [done|done|]. intros; congruence. }
  destruct (permitted e Uplink (N.of_nat (length f)) d r) as [[far q]|] eqn:Hp.
  2: { unfold decision in Hs. rewrite Hr in Hs. unfold dir_of in Hs. rewrite Hg, Hp in Hs. destruct (rule_for e d' f) as [[p' r']|] eqn:Hr'; [|done]. injection Hs as Hs.
       destruct (permitted e Uplink (N.of_nat (length f)) d' r') as [[far' q']|] eqn:Hp'; [done|].
       rewrite (not_permitted_dropped e d f p r), (not_permitted_dropped e d' f p' r'); unfold dir_of; rewrite ?Hg; done. }
  assert (Hf : far_get d (r_far r) = Some far). { unfold permitted in Hp. destruct (far_get d (r_far r)), (qer_get d (r_qer r)); try done. destruct (_ && _); [|done]. by simplify_eq. }
  destruct (pings_upf e f far (r_ohr r)) eqn:Hpu.
  2: { apply Direct; [done|done|]. intros p1 r1 far1 _ H1 H2. rewrite Hr in H1. injection H1 as <- <-. rewrite Hf in H2. by injection H2 as <-. }
  pose proof (xdp_ping e f d p r far q He Hr Hg Hp Hpu) as K. cbv zeta in K. destruct K as [_ K].
  assert (Hs0 := Hs). unfold decision in Hs0. rewrite Hr in Hs0. unfold dir_of in Hs0. rewrite Hg, Hp in Hs0. destruct (rule_for e d' f) as [[p' r']|] eqn:Hr'; [|done]. injection Hs0 as Hs0.
  destruct (permitted e Uplink (N.of_nat (length f)) d' r') as [[far' q']|] eqn:Hp'; [|done]. apply (inj Some) in Hs0. injection Hs0 as -> Hqfi Hohr.
  assert (Hpu' : pings_upf e f far (r_ohr r') = true) by (by rewrite Hohr).
  pose proof (xdp_ping e f d' p' r' far q' He Hr' Hg Hp' Hpu') as K'. cbv zeta in K'. destruct K' as [_ K'].
  destruct (echo_inside (decap f [8; 0])) eqn:Hec.
  - destruct K as (D4 & _ & Ho), K' as (_ & _ & Ho'). rewrite (fate_outcome _ _ Ho), (fate_outcome _ _ Ho').
    pose proof (proj1 (down4_not_gpdu e _ D4)) as Hng. apply Direct; [done| |].
    + rewrite (account_decision e d' p' r' far q' _ _ Hng Hp'), (account_decision e d p r far q _ _ Hng Hp). eapply Ha. unfold answer_of. rewrite Hr. unfold dir_of. rewrite Hg, Hp. cbn [andb]. by rewrite Hpu, Hec.
    + intros ? ? ? Hg'. congruence.
  - destruct (xdp e f d) as [[v s]|], (xdp e f d') as [[v' s']|]; try done. cbn [outcome fate] in *. injection K as -> -> _. by injection K' as -> -> _.
Qed.

(** ** The decision follows from what is wanted *)
Lemma ruled_claimed l d e f ep r : after l d -> rule_for e d f = Some (ep, r) ->
  exists addr seid i a, pdr_asked l addr seid i = Some a /\ (applies e a f \/ captures e a f).
Proof.
  intros (g & rm & p0 & f0 & q0 & u0 & es & c & Hrm & Hfair & Hrun & Hb & Ht & Hd) Hr.
  destruct (pdrs_follow_requests_partial _ _ _ _ _ _ _ _ _ Hrm Hfair Hrun Hb Ht) as (H1 & H2 & _). clear Hrun.
  destruct (packets_rules _ _ Hd) as (Pk & _ & _). unfold rule_for in Hr. rewrite entry_key in Hr. destruct (frame_key e f) as [k|] eqn:Ek; [|done]. rewrite Pk in Hr.
  destruct (dp_find (c_dp c) k) as [ep0|] eqn:Ed; [|done]. destruct (H2 _ _ Ed) as (addr & seid & i & a & Ha & <-).
  destruct (H1 _ _ _ _ Ha) as (_ & ep' & Hep & Has). assert (ep' = ep0) as -> by congruence. exists addr, seid, i, a. split; [done|].
  unfold entry_as_asked in Has. unfold select in Hr. destruct (ak_sdf a) as [flt|] eqn:Es; [|left; unfold applies; by rewrite Es].
  destruct Has as (Hm & Hflt & _). rewrite Hm, Hflt in Hr. assert ((if ak_again a then 2 else 1) =? 0 = false) as Hz by (by destruct (ak_again a)). rewrite Hz in Hr.
  destruct (matches e (ep_filter_of flt) f) as [[]|] eqn:Em; [left; unfold applies; by rewrite Es| |done].
  destruct (ak_again a) eqn:Eg; [|done]. right. unfold captures. by rewrite Es.
Qed.
Lemma applied_decision l d e f addr seid i a j h fv qv : after l d -> pdr_asked l addr seid i = Some a -> applies e a f ->
  ak_far a = Some j -> asked_far l addr seid j = Some fv -> ak_qer a = Some h -> asked_qer l addr seid h = Some qv -> ql_rate (dir_of e f) qv = 0 ->
  decision e d f = Some (if far_permits (dir_of e f) fv && (ql_gate (dir_of e f) qv =? 0) then Some (fv, ql_qfi qv, ak_ohr a) else None).
Proof.
  intros Hd Ha Hap Hj Hfv Hh Hqv Hrate. destruct (applied_rule l d e f addr seid i a Hd Ha Hap) as (ep & r & Hr & Ho & Hf & Hq).
  destruct (Hf j Hj) as (fv1 & Hfv1 & Hfg). destruct (Hq h Hh) as (qv1 & q & Hqv1 & Hqg & Hqq).
  assert (fv1 = fv) as -> by congruence. assert (qv1 = qv) as -> by congruence. clear Hd Hfv1 Hqv1.
  unfold decision. rewrite Hr. unfold permitted. rewrite Hfg, Hqg. subst qv. unfold gate_open, in_rate.
  assert (rate (dir_of e f) q = 0) as -> by (by destruct (dir_of e f)). unfold limit_rate. cbn [N.eqb fst]. rewrite andb_true_r.
  assert (gate (dir_of e f) q = ql_gate (dir_of e f) (rule_of_qer q)) as -> by (by destruct (dir_of e f)). rewrite <- Ho. clear.
  destruct (_ && _); [|done]. done.
Qed.
Lemma applied_wanted l d e f addr seid i a : after l d -> complete l -> pdr_asked l addr seid i = Some a -> applies e a f ->
  exists j h fv qv, ak_far a = Some j /\ asked_far l addr seid j = Some fv /\ ak_qer a = Some h /\ asked_qer l addr seid h = Some qv.
Proof.
  intros Hd Hc Ha Hap. destruct (Hc _ _ _ _ Ha) as [[j Hj] [h Hh]]. destruct (applied_rule l d e f addr seid i a Hd Ha Hap) as (ep & r & _ & _ & Hf & Hq).
  destruct (Hf j Hj) as (fv & Hfv & _). destruct (Hq h Hh) as (qv & q & Hqv & _). by exists j, h, fv, qv.
Qed.
Lemma same_wants_sym l l' : same_wants l l' -> same_wants l' l.
Proof. intros H k flt ohr fv qv. symmetry. apply H. Qed.
Lemma wants_decision l l' d d' e f : after l d -> after l' d' -> same_wants l l' -> complete l -> complete l' ->
  ~ captured l e f -> unlimited l e f -> is_Some (rule_for e d f) -> decision e d' f = decision e d f.
Proof.
  intros Hd Hd' Hw Hc Hc' Hn Hu [[ep r] Hr]. destruct (ruled_claimed l d e f ep r Hd Hr) as (addr & seid & i & a & Ha & [Hap|Hcap]).
  2: { destruct Hn. by exists addr, seid, i, a. }
  destruct (applied_wanted l d e f addr seid i a Hd Hc Ha Hap) as (j & h & fv & qv & Hj & Hfv & Hh & Hqv).
  assert (Hwant : wanted l (ak_key a) (ak_sdf a) (ak_ohr a) fv qv) by (by exists addr, seid, i, a, j, h).
  assert (Hrate : ql_rate (dir_of e f) qv = 0) by (eapply Hu; [exact Hwant|apply Hap|apply Hap]).
  rewrite (applied_decision l d e f addr seid i a j h fv qv) by done.
  pose proof (proj1 (Hw _ _ _ _ _) Hwant) as (addr' & seid' & i' & a' & j' & h' & Ha' & Hk & Hs & Ho & Hj' & Hfv' & Hh' & Hqv').
  assert (Hap' : applies e a' f) by (unfold applies; rewrite Hk, Hs; exact Hap).
  rewrite (applied_decision l' d' e f addr' seid' i' a' j' h' fv qv) by done. by rewrite Ho.
Qed.
Lemma unlimited_same l l' e f : same_wants l l' -> unlimited l e f -> unlimited l' e f.
Proof. intros Hw Hu k flt ohr fv qv H. apply (Hu k flt ohr fv qv). by apply Hw. Qed.
Lemma wants_decision_all l l' d d' e f : after l d -> after l' d' -> same_wants l l' -> complete l -> complete l' ->
  ~ captured l e f -> ~ captured l' e f -> unlimited l e f -> decision e d' f = decision e d f.
Proof.
  intros Hd Hd' Hw Hc Hc' Hn Hn' Hu. destruct (rule_for e d f) as [x|] eqn:Hr; [by eapply (wants_decision l l')|].
  destruct (rule_for e d' f) as [x'|] eqn:Hr'; [|unfold decision; by rewrite Hr, Hr'].
  symmetry. eapply (wants_decision l' l); [done|done|by apply same_wants_sym|done|done|done|by eapply unlimited_same|by rewrite Hr'].
Qed.

(** ** C101 *)
Theorem past_is_forgotten_partial :
  forall l l' d d' e f, after l d -> after l' d' -> same_wants l l' -> complete l -> complete l' -> env_ok e ->
    both_ways (fun p => ~ captured l e p /\ ~ captured l' e p /\ unlimited l e p) e d f ->
    fate (xdp e f d') = fate (xdp e f d).
Proof.
  intros l l' d d' e f Hd Hd' Hw Hc Hc' He [(H1 & H2 & H3) Ha]. apply packet_depends_on_decision; [done|by eapply wants_decision_all|].
  intros g d1 Hg. destruct (Ha _ _ Hg) as (? & ? & ?). by eapply wants_decision_all.
Qed.

(** ** Sessions that have come and gone leave no trace *)

(** The session that a request and its answer in the log are about. *)
Definition about (x : event * option response) : option (N * N) :=
  match x with
  | (Recv _ addr _ (SessEstReq _), Some r) => match r_cause r, r_fseid r with Some 1, Some (seid, _) => Some (addr, seid) | _, _ => None end
  | (Recv _ addr _ (SessModReq q), _) => Some (addr, mq_seid q)
  | (Recv _ addr _ (SessDelReq seid), _) => Some (addr, seid)
  | _ => None
  end.
(** The events [k] are about the sessions [ss] only: a peer may be given up if all of its sessions are among them. *)
Definition only_about (ss : N * N -> bool) (k : log) : Prop :=
  forall x, x ∈ k -> (forall s, about x = Some s -> ss s = true) /\ (forall addr seid, pruned x = Some addr -> ss (addr, seid) = true).
Lemma pdrs_step_about x P s : pruned x <> Some (fst s) -> about x <> Some s -> pdrs_step P x !! s = P !! s.
Proof.
  intros Hp Ha. destruct x as [[sh a seq m|sh a|mk vo] o]; cbn [pdrs_step] in *; [| |done].
  2: { cbn [pruned] in Hp. destruct (P !! s) as [pm|] eqn:E; [|by apply map_filter_lookup_None_2; left]. apply map_filter_lookup_Some_2; [done|]. cbn [fst]. congruence. } destruct m; try done; destruct o as [rsp|]; try done; cbn [about] in Ha.
  - destruct (r_cause rsp) as [[|[| |]]|]; try done. destruct (r_fseid rsp) as [[n ip]|]; [|done]. rewrite lookup_insert_ne; [done|congruence].
  - destruct (r_cause rsp) as [[|[| |]]|]; try done. rewrite lookup_alter_ne; [done|congruence].
  - destruct (r_cause rsp) as [[|[| |]]|]; try done. rewrite lookup_delete_ne; [done|congruence].
Qed.
Lemma asked_step_about x M s : about x <> Some s -> asked_step M x !! s = M !! s.
Proof.
  intros Ha. destruct x as [[sh a seq m|sh a|mk vo] o]; cbn [asked_step] in *; [|done|done]. destruct m; try done; destruct o as [rsp|]; try done; cbn [about] in Ha.
  - destruct (r_cause rsp) as [[|[| |]]|]; try done. destruct (r_fseid rsp) as [[n ip]|]; [|done]. rewrite lookup_insert_ne; [done|congruence].
  - destruct (r_cause rsp) as [[|[| |]]|]; try done. rewrite lookup_alter_ne; [done|congruence].
Qed.
Lemma only_about_keeps ss k : only_about ss k -> forall l s, ss s = false -> pdrs_in (l ++ k) !! s = pdrs_in l !! s /\ asked_in (l ++ k) !! s = asked_in l !! s.
Proof.
  induction k as [|x k IH]; intros Hk l s Hs; [by rewrite app_nil_r|].
  destruct (Hk x) as [Hx Hp]; [left|].
  replace (l ++ x :: k)%list with ((l ++ [x]) ++ k)%list by (by rewrite <- app_assoc).
  destruct (IH ltac:(intros y Hy; apply Hk; by right) (l ++ [x])%list s Hs) as [-> ->].
  unfold pdrs_in, asked_in. rewrite !foldl_app. cbn [foldl].
  assert (Ha : about x <> Some s) by (intros Hc; apply Hx in Hc; congruence).
  assert (Hq : pruned x <> Some (fst s)). { intros Hc. apply (Hp _ (snd s)) in Hc. destruct s. cbn [fst snd] in Hc. congruence. }
  by rewrite pdrs_step_about, asked_step_about.
Qed.
Lemma after_live l d : after l d -> forall addr seid i a, pdr_asked l addr seid i = Some a -> (addr, seid) ∈ PfcpHistory.live l.
Proof.
  intros (g & rm & p0 & f0 & q0 & u0 & es & c & Hrm & Hfair & Hrun & Hb & Ht & Hd) addr seid i a Ha.
  by destruct (proj1 (pdrs_follow_requests_partial _ _ _ _ _ _ _ _ _ Hrm Hfair Hrun Hb Ht) _ _ _ _ Ha).
Qed.
Lemma gone_asked l k d d' ss : after l d -> after (l ++ k) d' -> only_about ss k -> (forall s, ss s = true -> s ∉ PfcpHistory.live l /\ s ∉ PfcpHistory.live (l ++ k)) ->
  forall addr seid i a, pdr_asked (l ++ k) addr seid i = Some a <-> pdr_asked l addr seid i = Some a.
Proof.
  intros Hd Hd' Hk Hs addr seid i a. destruct (ss (addr, seid)) eqn:Hin.
  - destruct (Hs _ Hin) as [H1 H2]. split; intros H; exfalso; [by apply H2; eapply after_live|by apply H1; eapply after_live].
  - unfold pdr_asked. by destruct (only_about_keeps ss k Hk l _ Hin) as [-> _].
Qed.
Lemma gone_wanted l k d d' ss : after l d -> after (l ++ k) d' -> only_about ss k -> (forall s, ss s = true -> s ∉ PfcpHistory.live l /\ s ∉ PfcpHistory.live (l ++ k)) ->
  same_wants l (l ++ k).
Proof.
  intros Hd Hd' Hk Hs k0 flt ohr fv qv.
  assert (H : forall addr seid i a, pdr_asked l addr seid i = Some a -> asked_in (l ++ k) !! (addr, seid) = asked_in l !! (addr, seid)).
  { intros addr seid i a Ha. destruct (ss (addr, seid)) eqn:Hin; [|by apply (only_about_keeps ss k Hk l)].
    destruct (Hs _ Hin) as [H1 _]. destruct H1. by eapply after_live. }
  split; intros (addr & seid & i & a & j & h & Ha & Hk0 & Hflt & Ho & Hj & Hfv & Hh & Hqv); exists addr, seid, i, a, j, h.
  - unfold asked_far, asked_qer in *. rewrite (H _ _ _ _ Ha). split; [by eapply gone_asked|]. done.
  - pose proof (proj1 (gone_asked _ _ _ _ _ Hd Hd' Hk Hs _ _ _ _) Ha) as Ha'. unfold asked_far, asked_qer in *. rewrite (H _ _ _ _ Ha') in Hfv, Hqv. done.
Qed.

Theorem ended_sessions_leave_no_trace_partial :
  forall l k d d' e f ss, after l d -> after (l ++ k) d' -> only_about ss k ->
    (forall s, ss s = true -> s ∉ PfcpHistory.live l /\ s ∉ PfcpHistory.live (l ++ k)) -> complete l -> env_ok e ->
    both_ways (fun p => ~ captured l e p /\ unlimited l e p) e d f ->
    fate (xdp e f d') = fate (xdp e f d).
Proof.
  intros l k d d' e f ss Hd Hd' Hk Hs Hc He [[H1 H2] Ha].
  assert (Hcap : forall p, captured (l ++ k) e p -> captured l e p).
  { intros p (addr & seid & i & a & Hp & Hx). exists addr, seid, i, a. split; [|done]. by eapply (gone_asked l k d d' ss). }
  eapply (past_is_forgotten_partial l (l ++ k)); [done|done|by eapply gone_wanted|done| |done|].
  - intros addr seid i a Hp. eapply Hc. by eapply (gone_asked l k d d' ss).
  - split; [by split_and!; auto|]. intros answer d1 Hans. destruct (Ha _ _ Hans). split_and!; auto.
Qed.

(** ** Captured packets remember *)
Global Instance ipwmask_eq_dec : EqDecision ipwmask. Proof. solve_decision. Defined.
Global Instance sdf_filter_eq_dec : EqDecision sdf_filter. Proof. solve_decision. Defined.
Global Instance qer_rule_eq_dec : EqDecision qer_rule. Proof. solve_decision. Defined.
Definition wants_of (l : log) : list (key * option sdf_filter * N * far_info * qer_rule) :=
  map_to_list (pdrs_in l) ≫= fun x => map_to_list (snd x) ≫= fun y : N * pdr_ask =>
    match ak_far (snd y), ak_qer (snd y) with
    | Some j, Some h => match asked_far l (fst (fst x)) (snd (fst x)) j, asked_qer l (fst (fst x)) (snd (fst x)) h with
                        | Some fv, Some qv => [(ak_key (snd y), ak_sdf (snd y), ak_ohr (snd y), fv, qv)] | _, _ => [] end
    | _, _ => []
    end.
Lemma pdr_asked_elem l addr seid i a : pdr_asked l addr seid i = Some a <-> exists pm, ((addr, seid), pm) ∈ map_to_list (pdrs_in l) /\ (i, a) ∈ map_to_list pm.
Proof.
  unfold pdr_asked. split.
  - intros H. destruct (pdrs_in l !! (addr, seid)) as [pm|] eqn:E; [|done]. exists pm. by rewrite !elem_of_map_to_list.
  - intros (pm & H1 & H2). rewrite elem_of_map_to_list in H1. rewrite elem_of_map_to_list in H2. by rewrite H1.
Qed.
Lemma wanted_elem l k flt ohr fv qv : wanted l k flt ohr fv qv <-> (k, flt, ohr, fv, qv) ∈ wants_of l.
Proof.
  unfold wants_of. rewrite elem_of_list_bind. split.
  - intros (addr & seid & i & a & j & h & Ha & <- & <- & <- & Hj & Hfv & Hh & Hqv). apply pdr_asked_elem in Ha as (pm & H1 & H2).
    exists ((addr, seid), pm). split; [|done]. apply elem_of_list_bind. exists (i, a). split; [|done]. cbn [fst snd]. rewrite Hj, Hh, Hfv, Hqv. by apply elem_of_list_singleton.
  - intros ([[addr seid] pm] & H & Hpm). apply elem_of_list_bind in H as ([i a] & H & Hi). cbn [fst snd] in H.
    destruct (ak_far a) as [j|] eqn:Hj, (ak_qer a) as [h|] eqn:Hh; try (by apply elem_of_nil in H).
    destruct (asked_far l addr seid j) as [fv'|] eqn:Hfv; [|by apply elem_of_nil in H]. destruct (asked_qer l addr seid h) as [qv'|] eqn:Hqv; [|by apply elem_of_nil in H].
    apply elem_of_list_singleton in H. injection H as -> -> -> -> ->. exists addr, seid, i, a, j, h. split_and!; try done. apply pdr_asked_elem. by exists pm.
Qed.
Definition subset_b {A} `{EqDecision A} (l l' : list A) : bool := forallb (fun x => bool_decide (x ∈ l')) l.
Lemma subset_b_ok {A} `{EqDecision A} (l l' : list A) x : subset_b l l' = true -> x ∈ l -> x ∈ l'.
Proof. unfold subset_b. rewrite forallb_forall. intros H Hx. apply elem_of_list_In, H in Hx. by apply bool_decide_eq_true in Hx. Qed.
Definition same_wants_b (l l' : log) : bool := subset_b (wants_of l) (wants_of l') && subset_b (wants_of l') (wants_of l).
Lemma same_wants_b_ok l l' : same_wants_b l l' = true -> same_wants l l'.
Proof.
  unfold same_wants_b. rewrite andb_true_iff. intros [H1 H2] k flt ohr fv qv. rewrite !wanted_elem. split; by apply subset_b_ok.
Qed.
Definition complete_b (l : log) : bool :=
  forallb (fun x : N * N * pdr_table => forallb (fun y : N * pdr_ask => match ak_far (snd y), ak_qer (snd y) with Some _, Some _ => true | _, _ => false end)
    (map_to_list (snd x))) (map_to_list (pdrs_in l)).
Lemma complete_b_ok l : complete_b l = true -> complete l.
Proof.
  unfold complete_b. rewrite forallb_forall. intros H addr seid i a Ha. apply pdr_asked_elem in Ha as (pm & H1 & H2).
  apply elem_of_list_In, H in H1. rewrite forallb_forall in H1. apply elem_of_list_In, H1 in H2. cbn [snd] in H2. by destruct (ak_far a), (ak_qer a).
Qed.
Definition unlimited_b (l : log) (e : env) (f : list N) : bool :=
  forallb (fun w : key * option sdf_filter * N * far_info * qer_rule => let '(k, flt, _, _, qv) := w in
    negb (bool_decide (frame_key e f = Some k)) || (ql_rate (dir_of e f) qv =? 0)) (wants_of l).
Lemma unlimited_b_ok l e f : unlimited_b l e f = true -> unlimited l e f.
Proof.
  unfold unlimited_b. rewrite forallb_forall. intros H k flt ohr fv qv Hw Hk _. apply wanted_elem, elem_of_list_In, H in Hw.
  rewrite bool_decide_eq_true_2 in Hw by done. cbn [negb orb] in Hw. by apply N.eqb_eq.
Qed.
Lemma after_start es c l : ex_start es = Some (c, l) -> Forall event_fair es -> (N.of_nat (List.length es) <=? bound) = true -> tidy l = true -> after l (c_dp c).
Proof.
  intros Hc Hf Hb Ht. exists ex_cfg, ex_small_rm, 8%N, 8%N, 8%N, 8%N, es, c.
  split; [right; by exists 8%N, 167837696%N, 29%N|]. split; [exact Hf|]. split; [exact Hc|]. clear Hc. split; [by apply N.leb_le|]. split; [exact Ht|]. apply packets_nil.
Qed.

Definition ex_free_qer : qer_ie := QerIe (Some 1) (Some 0) (Some 0) None None (Some 9).
Definition ex_free_est (fars : list far_ie) (pdrs : list pdr_ie) : est_req := EstReq (Good 5) (Good 100) fars [ex_free_qer] [] pdrs.
Definition ex_two_free : list event :=
  [ex_setup; ex_recv 2 (SessEstReq (ex_free_est [ex_both_far_dl; ex_both_far_ul] [ex_dl 1 171704330 1 1])); ex_recv 3 (SessEstReq (ex_free_est [ex_both_far_dl; ex_both_far_ul] [ex_tcp_only]))].

(** The same sessions with the same rules, except that one of them was updated without being asked for anything new. *)
Theorem past_is_forgotten_refuted :
  exists l l' d d' s s', after l d /\ after l' d' /\ same_wants l l' /\ complete l /\ complete l' /\ unlimited l ex_env ex_down /\
    xdp ex_env ex_down d = Some (PASS, s) /\ xdp ex_env ex_down d' = Some (REDIRECT 7, s') /\ x_f s = ex_down /\ x_f s' = ex_down_sent.
Proof.
  assert (H : match ex_start ex_two_free, ex_start (ex_two_free ++ [ex_recv 4 (SessModReq (ex_touch 1))]) with
    | Some (c, l), Some (c', l') => tidy l && tidy l' && same_wants_b l l' && complete_b l && complete_b l' && unlimited_b l ex_env ex_down &&
        out_is (xdp ex_env ex_down (c_dp c)) PASS ex_down && out_is (xdp ex_env ex_down (c_dp c')) (REDIRECT 7) ex_down_sent
    | _, _ => false end = true) by (vm_compute; reflexivity).
  destruct (ex_start ex_two_free) as [[c l]|] eqn:Ec; [|discriminate H]. destruct (ex_start (ex_two_free ++ _)) as [[c' l']|] eqn:Ec'; [|discriminate H].
  rewrite !andb_true_iff in H. destruct H as (((((((H1 & H2) & H3%same_wants_b_ok) & H4%complete_b_ok) & H5%complete_b_ok) & H6%unlimited_b_ok) & (s & H7 & H7')%out_is_ok) & (s' & H8 & H8')%out_is_ok).
  pose proof (after_start _ _ _ Ec ltac:(repeat constructor; apply id_shuffle_fair) eq_refl H1) as A1. clear Ec.
  pose proof (after_start _ _ _ Ec' ltac:(repeat constructor; apply id_shuffle_fair) eq_refl H2) as A2. clear Ec'.
  exists l, l', (c_dp c), (c_dp c'), s, s'. split; [exact A1|]. split; [exact A2|]. split; [exact H3|]. split; [exact H4|]. split; [exact H5|]. split; [exact H6|].
  split; [exact H7|]. split; [exact H8|]. split; [exact H7'|exact H8'].
Qed.

(** ** The hypotheses are met *)
(** A subscriber set up at once; and one set up in steps, under other ids, after a session that is gone again. *)
Definition ex_at_once : list event := [ex_setup; ex_recv 2 (SessEstReq (ex_free_est [ex_both_far_dl; ex_both_far_ul] [ex_both_ul; ex_both_dl]))].
Definition ex_far5 (act : N) : far_ie := FarIe (Some 5) (Some [act]) (Some (Good (OhcIe 256 85 (Some 167772169) false))) (Some 10240).
Definition ex_in_steps : list event :=
  [ex_setup; ex_recv 2 (SessEstReq (ex_free_est [ex_both_far_dl; ex_both_far_ul] [ex_dl 2 171704330 1 1]));
   ex_recv 3 (SessEstReq (ex_free_est [ex_far5 1; ex_both_far_ul] [ex_dl 9 171704321 5 1]));
   ex_recv 4 (SessModReq (ModReq 3 Absent [] [ex_far5 2] [] [] [] [] [] [] [] [ex_both_ul] [] []));
   ex_recv 5 (SessDelReq 2)].
Example ex_past_is_forgotten : exists l l' d d', after l d /\ after l' d' /\ l' <> l /\ same_wants l l' /\ complete l /\ complete l' /\
  (both_ways (fun p => ~ captured l ex_env p /\ ~ captured l' ex_env p /\ unlimited l ex_env p) ex_env d ex_down) /\
  exists s s', xdp ex_env ex_down d = Some (REDIRECT 7, s) /\ x_f s = ex_down_sent /\ xdp ex_env ex_down d' = Some (REDIRECT 7, s') /\ x_f s' = ex_down_sent.
Proof.
  assert (H : match ex_start ex_at_once, ex_start ex_in_steps with
    | Some (c, l), Some (c', l') => tidy l && tidy l' && same_wants_b l l' && complete_b l && complete_b l' && negb (captured_b l ex_env ex_down) &&
        negb (captured_b l' ex_env ex_down) && unlimited_b l ex_env ex_down && match answer_of ex_env (c_dp c) ex_down with None => true | _ => false end &&
        out_is (xdp ex_env ex_down (c_dp c)) (REDIRECT 7) ex_down_sent && out_is (xdp ex_env ex_down (c_dp c')) (REDIRECT 7) ex_down_sent && negb (Nat.eqb (List.length l') (List.length l))
    | _, _ => false end = true) by (vm_compute; reflexivity).
  destruct (ex_start ex_at_once) as [[c l]|] eqn:Ec; [|discriminate H]. destruct (ex_start ex_in_steps) as [[c' l']|] eqn:Ec'; [|discriminate H].
  rewrite !andb_true_iff in H. destruct H as (((((((((((H1 & H2) & H3%same_wants_b_ok) & H4%complete_b_ok) & H5%complete_b_ok) & H6) & H7) & H8%unlimited_b_ok) & H9) & (s & H10 & H10')%out_is_ok) & (s' & H11 & H11')%out_is_ok) & H12).
  apply negb_true_iff, captured_b_ok in H6, H7. apply negb_true_iff, Nat.eqb_neq in H12.
  pose proof (after_start _ _ _ Ec ltac:(repeat constructor; apply id_shuffle_fair) eq_refl H1) as A1. clear Ec.
  pose proof (after_start _ _ _ Ec' ltac:(repeat constructor; apply id_shuffle_fair) eq_refl H2) as A2. clear Ec'.
  exists l, l', (c_dp c), (c_dp c'). split; [exact A1|]. split; [exact A2|]. split; [intros ->; by apply H12|]. split; [exact H3|]. split; [exact H4|]. split; [exact H5|]. split.
  - split; [split; [exact H6|split; [exact H7|exact H8]]|]. intros answer d1 Hans. rewrite Hans in H9. discriminate H9.
  - exists s, s'. split; [exact H10|]. split; [exact H10'|]. split; [exact H11|exact H11'].
Qed.

(** A session, and a peer with a session of its own, that come and go. *)
Definition ex_come_and_go : list event :=
  [ex_recv 3 (SessEstReq (ex_free_est [ex_both_far_dl; ex_both_far_ul] [ex_dl 2 171704330 1 1])); Recv id_shuffle 8 1 (AssocSetupReq (Good 6) (Good 0));
   Recv id_shuffle 8 2 (SessEstReq (ex_free_est [ex_both_far_dl; ex_both_far_ul] [ex_dl 2 171704331 1 1])); ex_recv 4 (SessDelReq 3); HeartbeatFailed id_shuffle 8].
Definition ex_gone (s : N * N) : bool := bool_decide (s = (7, 3)) || (fst s =? 8).
Definition only_about_b (k : log) : bool :=
  forallb (fun x => match about x with Some s => ex_gone s | None => true end && match pruned x with Some addr => addr =? 8 | None => true end) k.
Example ex_ended : exists l k d d', after l d /\ after (l ++ k) d' /\ only_about ex_gone k /\ List.length k = 5%nat /\
  (forall s, ex_gone s = true -> s ∉ PfcpHistory.live l /\ s ∉ PfcpHistory.live (l ++ k)) /\ complete l /\
  both_ways (fun p => ~ captured l ex_env p /\ unlimited l ex_env p) ex_env d ex_down /\ (exists s, xdp ex_env ex_down d = Some (REDIRECT 7, s)).
Proof.
  set (quiet := fun l : log => forallb (fun s => negb (ex_gone s)) (elements (PfcpHistory.live l))).
  assert (Hquiet : forall l, quiet l = true -> forall s, ex_gone s = true -> s ∉ PfcpHistory.live l).
  { intros l H s Hs Hin. unfold quiet in H. rewrite forallb_forall in H. apply elem_of_elements, elem_of_list_In, H in Hin. by rewrite Hs in Hin. }
  assert (H : match ex_start ex_at_once, ex_start (ex_at_once ++ ex_come_and_go) with
    | Some (c, l), Some (c', l') => tidy l && tidy l' && only_about_b (drop 2 l') && Nat.eqb (List.length l) 2 && Nat.eqb (List.length l') 7 && quiet l && quiet l' && complete_b l &&
        negb (captured_b l ex_env ex_down) && unlimited_b l ex_env ex_down && match answer_of ex_env (c_dp c) ex_down with None => true | _ => false end &&
        out_is (xdp ex_env ex_down (c_dp c)) (REDIRECT 7) ex_down_sent
    | _, _ => false end = true) by (vm_compute; reflexivity).
  destruct (ex_start ex_at_once) as [[c l]|] eqn:Ec; [|discriminate H]. destruct (ex_start (ex_at_once ++ ex_come_and_go)) as [[c' l']|] eqn:Ec'; [|discriminate H].
  rewrite !andb_true_iff in H. destruct H as (((((((((((H1 & H2) & H3) & H4%Nat.eqb_eq) & H5%Nat.eqb_eq) & H6) & H7) & H8%complete_b_ok) & H9) & H10%unlimited_b_ok) & H11) & (s & H12 & _)%out_is_ok).
  apply negb_true_iff, captured_b_ok in H9.
  assert (Hl : exists k, l' = (l ++ k)%list).
  { pose proof Ec' as Ec2. unfold ex_start in Ec2. apply run_app in Ec2 as (c1 & l1 & l2 & Ec1 & _ & ->). unfold ex_start in Ec. rewrite Ec1 in Ec. injection Ec as _ ->. by exists l2. }
  destruct Hl as [k ->].
  pose proof (after_start _ _ _ Ec ltac:(repeat constructor; apply id_shuffle_fair) eq_refl H1) as A1. clear Ec.
  pose proof (after_start _ _ _ Ec' ltac:(repeat constructor; apply id_shuffle_fair) eq_refl H2) as A2. clear Ec'.
  exists l, k, (c_dp c), (c_dp c'). split; [exact A1|]. split; [exact A2|].
  rewrite <- H4, drop_app in H3. rewrite app_length, H4 in H5.
  split.
  { intros x Hx. unfold only_about_b in H3. rewrite forallb_forall in H3. apply elem_of_list_In, H3, andb_true_iff in Hx as [X1 X2].
    split; [intros s0 E; rewrite E in X1; exact X1|]. intros addr seid E. rewrite E in X2. unfold ex_gone. cbn [fst]. rewrite X2. apply orb_true_r. }
  split; [lia|]. split; [intros s0 Hs0; split; [exact (Hquiet _ H6 _ Hs0)|exact (Hquiet _ H7 _ Hs0)]|]. split; [exact H8|].
  split; [|exists s; exact H12]. split; [split; [exact H9|exact H10]|]. intros answer d1 Hans. rewrite Hans in H11. discriminate H11.
Qed.
