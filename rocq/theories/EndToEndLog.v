(** C66: what the data plane does to a packet is what the live sessions ask for - the requests and answers of the whole
    control-plane history on one side, a frame and its verdict on the other. *)
From Verif Require Import Base IdTracker ResourceManager SdfParser SdfProps MapOps SdfMatch Pfcp PfcpProps PfcpHistory PfcpReach
  PfcpRules PfcpCreate PfcpRemove PfcpReject PfcpInv PfcpAsked PfcpKeys Qer Csum Xdp XdpBase XdpProps XdpRules XdpFrames XdpEcho XdpEx XdpAccount EndToEnd.
Open Scope nat_scope.

(** What a frame is detected by: the TEID of a G-PDU, the destination of a packet to a UE. *)
Definition frame_key (e : env) (f : list N) : option key :=
  if gpdu e f then Some (Up (be_value (teid f)))
  else if down4 e f then Some (Dn4 (be_value (dst4 f)))
  else if down6 f then Some (Dn6 (be_value (dst6 f)))
  else None.
(** A PDR applies to a frame. *)
Definition applies (e : env) (a : pdr_ask) (f : list N) : Prop :=
  frame_key e f = Some (ak_key a) /\
  match ak_sdf a with None => True | Some flt => matches e (ep_filter_of flt) f = Some true end.
(** A PDR with a filter that has been updated since: the packets its filter does not match are no longer left alone (C100). *)
Definition captures (e : env) (a : pdr_ask) (f : list N) : Prop :=
  frame_key e f = Some (ak_key a) /\ ak_again a = true /\
  match ak_sdf a with None => False | Some flt => matches e (ep_filter_of flt) f = Some false end.
(** The data plane after the events that gave the tidy log [l], and any packets. *)
Definition after (l : log) (d : dp) : Prop :=
  exists g rm p f q u es c, start_pools rm /\ Forall event_fair es /\ run (init g rm (dp_init p f q u)) es = Some (c, l) /\
    (N.of_nat (length es) <= bound)%N /\ tidy l = true /\ packets (c_dp c) d.

Lemma entry_key e d f : entry e d f = match frame_key e f with Some k => dp_find d k | None => None end.
Proof. unfold entry, frame_key. destruct (gpdu e f); [done|]. destruct (down4 e f); [done|]. by destruct (down6 f). Qed.

(** The rule of a PDR that applies. *)
Lemma applied_rule l d e f addr seid i a : after l d -> pdr_asked l addr seid i = Some a -> applies e a f ->
  exists ep r, rule_for e d f = Some (ep, r) /\ r_ohr r = ak_ohr a /\
    (forall j, ak_far a = Some j -> exists v, asked_far l addr seid j = Some v /\ far_get d (r_far r) = Some v) /\
    (forall j, ak_qer a = Some j -> exists v q, asked_qer l addr seid j = Some v /\ qer_get d (r_qer r) = Some q /\ rule_of_qer q = v).
Proof.
  intros (g & rm & p0 & f0 & q0 & u0 & es & c & Hrm & Hfair & Hrun & Hb & Ht & Hd) Ha [Hkey Hsdf].
  destruct (pdrs_follow_requests_partial _ _ _ _ _ _ _ _ _ Hrm Hfair Hrun Hb Ht) as (H1 & _ & _).
  destruct (H1 _ _ _ _ Ha) as (_ & ep & Hep & Has). clear H1. destruct (packets_rules _ _ Hd) as (Pk & Pf & Pq).
  assert (Hent : entry e d f = Some ep) by (by rewrite entry_key, Hkey, Pk).
  assert (Hr : forall ohr far qer, rule_as_asked l addr seid a (c_dp c) ohr far qer ->
    ohr = ak_ohr a /\
    (forall j, ak_far a = Some j -> exists v, asked_far l addr seid j = Some v /\ far_get d far = Some v) /\
    (forall j, ak_qer a = Some j -> exists v q, asked_qer l addr seid j = Some v /\ qer_get d qer = Some q /\ rule_of_qer q = v)).
  { intros ohr far qer (R1 & R2 & R3). split_and!; [done|..].
    - intros j Hj. destruct (R2 j Hj) as (v & ? & Hv). exists v. by rewrite Pf.
    - intros j Hj. destruct (R3 j Hj) as (v & Hask & Hv). unfold qer_value in Hv. destruct (qer_get (c_dp c) qer) as [q|] eqn:Eq; [|done].
      injection Hv as <-. destruct (Pq _ _ Eq) as [m Hm]. exists (rule_of_qer q), (traffic_qer m q). split_and!; try done. }
  unfold entry_as_asked in Has. unfold rule_for. rewrite Hent. unfold select. destruct (ak_sdf a) as [flt|].
  - destruct Has as (Hm & Hflt & Hru & _). rewrite Hm, Hflt, Hsdf. assert ((if ak_again a then 2 else 1) =? 0 = false)%N as -> by (by destruct (ak_again a)).
    exists ep, (sdf_rule ep). split; [done|]. cbn [sdf_rule r_ohr r_far r_qer]. by apply Hr.
  - destruct Has as (Hm & Hru). rewrite Hm. change (0 =? 0)%N with true. cbv iota.
    exists ep, (default_rule ep). split; [done|]. cbn [default_rule r_ohr r_far r_qer]. by apply Hr.
Qed.

(** The rules [d] has for the PDRs of a session are those of the log. *)
Definition serves (l : log) (d : dp) (addr seid : N) : Prop :=
  forall e f i a, pdr_asked l addr seid i = Some a -> applies e a f ->
  exists ep r, rule_for e d f = Some (ep, r) /\ r_ohr r = ak_ohr a /\
    (forall j, ak_far a = Some j -> exists v, asked_far l addr seid j = Some v /\ far_get d (r_far r) = Some v) /\
    (forall j, ak_qer a = Some j -> exists v q, asked_qer l addr seid j = Some v /\ qer_get d (r_qer r) = Some q /\ rule_of_qer q = v).
Lemma after_serves l d addr seid : after l d -> serves l d addr seid.
Proof. intros H e f i a. by apply applied_rule. Qed.

(** ** No PDR applies *)
Theorem unclaimed_untouched_partial :
  forall l d e f, after l d -> echo_request e f = false ->
    (forall addr seid i a, pdr_asked l addr seid i = Some a -> ~ applies e a f /\ ~ captures e a f) ->
    xdp e f d = Some (PASS, Xst f d (rx_counters e f ++ [action 2])).
Proof.
  intros l d e f (g & rm & p0 & f0 & q0 & u0 & es & c & Hrm & Hfair & Hrun & Hb & Ht & Hd) Hecho Hno.
  destruct (pdrs_follow_requests_partial _ _ _ _ _ _ _ _ _ Hrm Hfair Hrun Hb Ht) as (H1 & H2 & _).
  destruct (packets_rules _ _ Hd) as (Pk & _ & _). apply no_rule_passes_untouched; [|done].
  unfold rule_for. rewrite entry_key. destruct (frame_key e f) as [k|] eqn:Ek; [|done]. rewrite Pk.
  destruct (dp_find (c_dp c) k) as [ep|] eqn:Ed; [|done]. destruct (H2 _ _ Ed) as (addr & seid & i & a & Ha & <-).
  destruct (H1 _ _ _ _ Ha) as (_ & ep' & Hep & Has). assert (ep' = ep) as -> by congruence. destruct (Hno _ _ _ _ Ha) as [Hna Hnc].
  unfold applies in Hna. unfold captures in Hnc. unfold entry_as_asked in Has. unfold select. destruct (ak_sdf a) as [flt|]; [|by destruct Hna].
  destruct Has as (Hm & Hflt & _). rewrite Hm, Hflt. assert ((if ak_again a then 2 else 1) =? 0 = false)%N as -> by (by destruct (ak_again a)).
  destruct (matches e (ep_filter_of flt) f) as [[]|]; [by destruct Hna| |done]. destruct (ak_again a); [by destruct Hnc|done].
Qed.
(** ** A PDR captures the packet: it is handled as if FAR 0, QER 0 and no header removal had been asked for *)
Lemma captured_rule l d e f addr seid i a : after l d -> pdr_asked l addr seid i = Some a -> captures e a f ->
  exists ep, rule_for e d f = Some (ep, Rule 0 0 0).
Proof.
  intros (g & rm & p0 & f0 & q0 & u0 & es & c & Hrm & Hfair & Hrun & Hb & Ht & Hd) Ha (Hkey & Hag & Hflt).
  destruct (pdrs_follow_requests_partial _ _ _ _ _ _ _ _ _ Hrm Hfair Hrun Hb Ht) as (H1 & _ & _).
  destruct (H1 _ _ _ _ Ha) as (_ & ep & Hep & Has). clear H1. destruct (packets_rules _ _ Hd) as (Pk & _ & _).
  unfold entry_as_asked in Has. destruct (ak_sdf a) as [flt|]; [|done]. destruct Has as (Hm & Hf & _ & E1 & E2 & E3).
  exists ep. unfold rule_for. rewrite entry_key, Hkey, Pk, Hep. unfold select. rewrite Hm, Hf, Hflt, Hag.
  cbv [N.eqb]. cbn [N.odd]. unfold default_rule. by rewrite E1, E2, E3.
Qed.

(** ** A PDR applies, but its FAR or QER does not let the packet through *)
Definition ql_gate (w : dir) (q : qer_rule) : N := match w with Uplink => ql_ul_gate q | Downlink => ql_dl_gate q end.
Lemma blocked_served :
  forall l d e f addr seid i a j k fv qv, serves l d addr seid ->
    pdr_asked l addr seid i = Some a -> applies e a f ->
    ak_far a = Some j -> asked_far l addr seid j = Some fv -> ak_qer a = Some k -> asked_qer l addr seid k = Some qv ->
    N.testbit (fi_action fv) 1 = false \/ ql_gate (dir_of e f) qv <> 0%N ->
    xdp e f d = Some (DROP, Xst f d (rx_counters e f ++ [action 1])).
Proof.
  intros l d e f addr seid i a j k fv qv Haft Ha Hap Hj Hfv Hk Hqv Hbl.
  destruct (Haft e f _ _ Ha Hap) as (ep & r & Hr & _ & Hfar & Hqer).
  destruct (Hfar j Hj) as (fv' & Hfv' & Hf). destruct (Hqer k Hk) as (qv' & q & Hqv' & Hq & <-).
  assert (fv' = fv) as -> by congruence. assert (rule_of_qer q = qv) as <- by congruence.
  apply (not_permitted_dropped e d f ep r Hr). unfold permitted. rewrite Hf, Hq. unfold far_permits.
  destruct Hbl as [->|Hg]; [done|]. assert (gate_open (dir_of e f) q = false) as ->; [|by rewrite andb_false_r].
  unfold gate_open, gate. destruct (dir_of e f); simpl in Hg; by apply N.eqb_neq.
Qed.
Theorem blocked_dropped_partial :
  forall l d e f addr seid i a j k fv qv, after l d ->
    pdr_asked l addr seid i = Some a -> applies e a f ->
    ak_far a = Some j -> asked_far l addr seid j = Some fv -> ak_qer a = Some k -> asked_qer l addr seid k = Some qv ->
    N.testbit (fi_action fv) 1 = false \/ ql_gate (dir_of e f) qv <> 0%N ->
    xdp e f d = Some (DROP, Xst f d (rx_counters e f ++ [action 1])).
Proof. intros l d e f addr seid i a j k fv qv Haft. apply blocked_served. by apply after_serves. Qed.

(** ** Downlink: into the tunnel the FAR names *)
Lemma downlink_served :
  forall l d e f addr seid i a j k fv qv, serves l d addr seid -> env_ok e -> e_head e <> None ->
    pdr_asked l addr seid i = Some a -> applies e a f -> down4 e f = true \/ down6 f = true ->
    ak_far a = Some j -> asked_far l addr seid j = Some fv -> ak_qer a = Some k -> asked_qer l addr seid k = Some qv ->
    N.testbit (fi_action fv) 1 = true -> N.testbit (fi_ohc fv) 0 = true -> far_fits fv -> ql_dl_gate qv = 0%N -> (ql_qfi qv < 64)%N ->
    (down_len e f + 44 < 65536)%N ->
    exists mark, (* of the rate limiter *)
      if fst (limit_rate (N.of_nat (length f)) mark (ql_dl_rate qv) (e_now_dl e)) then
        exists v s, xdp e f d = Some (v, s) /\
          tunnelled (x_f s) f (e_n3 e) (Xdp.le32 (fi_remote fv)) (fi_tlm fv / 256) (ql_qfi qv) (fi_teid fv) (down_len e f) /\
          v = route_verdict e (e_fib e (FibQ 2 (fi_tlm fv / 256) 17 (down_len e f + 44) (e_n3 e) (Xdp.le32 (fi_remote fv)) (e_if e)))
      else xdp e f d = Some (DROP, Xst f d (rx_counters e f ++ [action 1])).
Proof.
  intros l d e f addr seid i a j k fv qv Haft He Hh Ha Hap Hdown Hj Hfv Hk Hqv Hact Hohc Hfit Hgate Hqfi Hlen.
  destruct (Haft e f _ _ Ha Hap) as (ep & r & Hr & _ & Hfar & Hqer).
  destruct (Hfar j Hj) as (fv' & Hfv' & Hf). destruct (Hqer k Hk) as (qv' & q & Hqv' & Hq & <-).
  assert (fv' = fv) as -> by congruence. assert (rule_of_qer q = qv) as <- by congruence. clear Hfv' Hqv'.
  assert (Hg : gpdu e f = false). { destruct Hdown as [H|H]; [by destruct (down4_not_gpdu e f H)|by destruct (down6_not_4 e f H)]. }
  cbn [rule_of_qer ql_dl_gate ql_qfi ql_dl_rate] in *. exists (qi_dl_start q).
  assert (Hperm : permitted e Downlink (N.of_nat (length f)) d r =
    if fst (limit_rate (N.of_nat (length f)) (qi_dl_start q) (qi_dl_rate q) (e_now_dl e)) then Some (fv, q) else None).
  { unfold permitted. rewrite Hf, Hq. unfold far_permits. rewrite Hact, Hohc. unfold gate_open, gate. by rewrite Hgate. }
  destruct (fst (limit_rate _ _ _ _)) eqn:El.
  - destruct (xdp e f d) as [[v s]|] eqn:Ex; [|by apply never_outside_frame in Ex]. exists v, s. split; [done|].
    destruct (downlink_encapsulated e d f ep r fv q v s He Hr Hg Hperm) as (g & c0 & Tg & Ts & Hro); try done.
    split; [done|]. unfold routed in Hro.
    assert (Eq : route_query4 e g = FibQ 2 (fi_tlm fv / 256) 17 (down_len e f + 44) (e_n3 e) (Xdp.le32 (fi_remote fv)) (e_if e)).
    { unfold route_query4, src4, dst4. by rewrite (t_tos _ _ _ _ _ _ _ _ Tg), (t_proto _ _ _ _ _ _ _ _ Tg), (t_total _ _ _ _ _ _ _ _ Tg), (t_src _ _ _ _ _ _ _ _ Tg), (t_dst _ _ _ _ _ _ _ _ Tg). }
    rewrite Eq in Hro. unfold route_verdict. destruct (fa_rc _ =? 0)%N; [by injection Hro as <- _ _|].
    destruct (blocked _); by injection Hro as <- _ _.
  - apply (not_permitted_dropped e d f ep r Hr). unfold dir_of. by rewrite Hg.
Qed.
Theorem downlink_follows_requests_partial :
  forall l d e f addr seid i a j k fv qv, after l d -> env_ok e -> e_head e <> None ->
    pdr_asked l addr seid i = Some a -> applies e a f -> down4 e f = true \/ down6 f = true ->
    ak_far a = Some j -> asked_far l addr seid j = Some fv -> ak_qer a = Some k -> asked_qer l addr seid k = Some qv ->
    N.testbit (fi_action fv) 1 = true -> N.testbit (fi_ohc fv) 0 = true -> far_fits fv -> ql_dl_gate qv = 0%N -> (ql_qfi qv < 64)%N ->
    (down_len e f + 44 < 65536)%N ->
    exists mark, (* of the rate limiter *)
      if fst (limit_rate (N.of_nat (length f)) mark (ql_dl_rate qv) (e_now_dl e)) then
        exists v s, xdp e f d = Some (v, s) /\
          tunnelled (x_f s) f (e_n3 e) (Xdp.le32 (fi_remote fv)) (fi_tlm fv / 256) (ql_qfi qv) (fi_teid fv) (down_len e f) /\
          v = route_verdict e (e_fib e (FibQ 2 (fi_tlm fv / 256) 17 (down_len e f + 44) (e_n3 e) (Xdp.le32 (fi_remote fv)) (e_if e)))
      else xdp e f d = Some (DROP, Xst f d (rx_counters e f ++ [action 1])).
Proof. intros l d e f addr seid i a j k fv qv Haft. apply downlink_served. by apply after_serves. Qed.

(** ** Uplink: out of the tunnel, or into the next one *)
Lemma uplink_served :
  forall l d e f addr seid i a j k fv qv, serves l d addr seid -> env_ok e ->
    pdr_asked l addr seid i = Some a -> applies e a f -> gpdu e f = true ->
    ak_far a = Some j -> asked_far l addr seid j = Some fv -> ak_qer a = Some k -> asked_qer l addr seid k = Some qv ->
    N.testbit (fi_action fv) 1 = true -> ql_ul_gate qv = 0%N -> (byte f 14 mod 16 = 5)%N ->
    exists mark,
      if fst (limit_rate (N.of_nat (length f)) mark (ql_ul_rate qv) (e_now_ul e)) then
        exists v s, xdp e f d = Some (v, s) /\
        (* to the data network *)
        (N.testbit (fi_ohc fv) 0 = false -> ak_ohr a = 0%N ->
         forall proto, ip_at f (payload f) = Some proto -> ping_at e f (payload f) = false ->
           drop 12 (x_f s) = proto ++ drop (payload f) f /\
           exists c, routed e (bool_decide (proto = [8; 0]%N)) (take 12 f ++ proto ++ drop (payload f) f) = (v, x_f s, c)) /\
        (* to another UPF *)
        (N.testbit (fi_ohc fv) 0 = true -> far_fits fv -> Forall (fun b => b < 256)%N f ->
         exists g c, routed e true g = (v, x_f s, c) /\ length g = length f /\
           field g 26 4 = e_n9 e /\ field g 30 4 = Xdp.le32 (fi_remote fv) /\ be_value (field g 46 4) = fi_teid fv /\
           (forall n, ~ (24 <= n < 34) -> ~ (40 <= n < 42) -> ~ (46 <= n < 50) -> byte g n = byte f n))
      else xdp e f d = Some (DROP, Xst f d (rx_counters e f ++ [action 1])).
Proof.
  intros l d e f addr seid i a j k fv qv Haft He Ha Hap Hg Hj Hfv Hk Hqv Hact Hgate Hihl.
  destruct (Haft e f _ _ Ha Hap) as (ep & r & Hr & Hohr & Hfar & Hqer).
  destruct (Hfar j Hj) as (fv' & Hfv' & Hf). destruct (Hqer k Hk) as (qv' & q & Hqv' & Hq & <-).
  assert (fv' = fv) as -> by congruence. assert (rule_of_qer q = qv) as <- by congruence. clear Hfv' Hqv'.
  cbn [rule_of_qer ql_ul_gate ql_qfi ql_ul_rate] in *. exists (qi_ul_start q).
  assert (Hperm : permitted e Uplink (N.of_nat (length f)) d r =
    if fst (limit_rate (N.of_nat (length f)) (qi_ul_start q) (qi_ul_rate q) (e_now_ul e)) then Some (fv, q) else None).
  { unfold permitted. rewrite Hf, Hq. unfold far_permits. rewrite Hact. unfold gate_open, gate. by rewrite Hgate. }
  destruct (fst (limit_rate _ _ _ _)) eqn:El.
  - destruct (xdp e f d) as [[v s]|] eqn:Ex; [|by apply never_outside_frame in Ex]. exists v, s. split; [done|]. split.
    + intros Hohc Ho proto Hip Hping. rewrite <- Hohr in Ho.
      destruct (uplink_decapsulated e d f ep r fv q proto v s He Hr Hg Hperm) as (c0 & Hro & Hdr); try done. eauto.
    + intros Hohc Hfit Hby.
      destruct (uplink_relayed_partial e d f ep r fv q v s He Hby Hr Hg Hperm) as (g & c0 & H1 & H2 & H3 & H4 & H5 & _ & _ & H6); try done. eauto 10.
  - apply (not_permitted_dropped e d f ep r Hr). unfold dir_of. by rewrite Hg.
Qed.
Theorem uplink_follows_requests_partial :
  forall l d e f addr seid i a j k fv qv, after l d -> env_ok e ->
    pdr_asked l addr seid i = Some a -> applies e a f -> gpdu e f = true ->
    ak_far a = Some j -> asked_far l addr seid j = Some fv -> ak_qer a = Some k -> asked_qer l addr seid k = Some qv ->
    N.testbit (fi_action fv) 1 = true -> ql_ul_gate qv = 0%N -> (byte f 14 mod 16 = 5)%N ->
    exists mark,
      if fst (limit_rate (N.of_nat (length f)) mark (ql_ul_rate qv) (e_now_ul e)) then
        exists v s, xdp e f d = Some (v, s) /\
        (* to the data network *)
        (N.testbit (fi_ohc fv) 0 = false -> ak_ohr a = 0%N ->
         forall proto, ip_at f (payload f) = Some proto -> ping_at e f (payload f) = false ->
           drop 12 (x_f s) = proto ++ drop (payload f) f /\
           exists c, routed e (bool_decide (proto = [8; 0]%N)) (take 12 f ++ proto ++ drop (payload f) f) = (v, x_f s, c)) /\
        (* to another UPF *)
        (N.testbit (fi_ohc fv) 0 = true -> far_fits fv -> Forall (fun b => b < 256)%N f ->
         exists g c, routed e true g = (v, x_f s, c) /\ length g = length f /\
           field g 26 4 = e_n9 e /\ field g 30 4 = Xdp.le32 (fi_remote fv) /\ be_value (field g 46 4) = fi_teid fv /\
           (forall n, ~ (24 <= n < 34) -> ~ (40 <= n < 42) -> ~ (46 <= n < 50) -> byte g n = byte f n))
      else xdp e f d = Some (DROP, Xst f d (rx_counters e f ++ [action 1])).
Proof. intros l d e f addr seid i a j k fv qv Haft. apply uplink_served. by apply after_serves. Qed.

(** ** The hypotheses are met *)
Definition ex_log_events : list event :=
  [ex_setup; ex_recv 2 (SessEstReq ex_both); ex_recv 3 (ex_est_pdrs [ex_upg 1 300 1; ex_dns 2 171704322 2]);
   ex_recv 4 (ex_est_pdrs [ex_upg 1 301 1; ex_dl 2 171704323 2 1]); ex_recv 5 (SessDelReq 4)].
Definition far_is (o : option far_info) (v : far_info) : bool := bool_decide (o = Some v).
Definition qer_is (o : option qer_rule) (ul dl qfi ur dr : N) : bool :=
  match o with Some q => bool_decide (ql_ul_gate q = ul) && bool_decide (ql_dl_gate q = dl) && bool_decide (ql_qfi q = qfi) &&
    bool_decide (ql_ul_rate q = ur) && bool_decide (ql_dl_rate q = dr) | None => false end.
Lemma qer_is_inv o ul dl qfi ur dr : qer_is o ul dl qfi ur dr = true -> o = Some (QerRule ul dl qfi ur dr).
Proof. unfold qer_is. destruct o as [[]|]; [|done]. simpl. rewrite !andb_true_iff, !bool_decide_eq_true. naive_solver. Qed.
Definition plain_is (l : log) (addr seid i : N) (k : key) (far qer : N) : bool :=
  match pdr_asked l addr seid i with
  | Some a => bool_decide (ak_key a = k) && bool_decide (ak_far a = Some far) && bool_decide (ak_qer a = Some qer) && bool_decide (ak_ohr a = 0%N) &&
      match ak_sdf a with Some _ => false | None => negb (ak_again a) end
  | None => false end.
Lemma plain_is_inv l addr seid i k far qer : plain_is l addr seid i k far qer = true -> pdr_asked l addr seid i = Some (PdrAsk k 0 (Some far) (Some qer) None false).
Proof.
  unfold plain_is. destruct (pdr_asked l addr seid i) as [[k0 o0 f0 q0 s0 u0]|]; [|done]. simpl. rewrite !andb_true_iff, !bool_decide_eq_true.
  intros [[[[-> ->] ->] ->] H]. destruct s0; [done|]. by destruct u0.
Qed.
Example ex_after : exists l d, after l d /\
  pdr_asked l 7 2 2 = Some (PdrAsk (Dn4 171704321) 0 (Some 1%N) (Some 1%N) None false) /\
  pdr_asked l 7 2 1 = Some (PdrAsk (Up 256) 0 (Some 2%N) (Some 1%N) None false) /\
  asked_far l 7 2 1 = Some (Far 2 1 85 (Pfcp.le32 167772169) 10240) /\ asked_far l 7 2 2 = Some (Far 2 0 0 0 0) /\
  asked_qer l 7 2 1 = Some (QerRule 0 0 9 10000000 10000000) /\
  frame_key ex_env ex_down = Some (Dn4 171704321) /\ frame_key ex_env ex_up0 = Some (Up 256) /\
  out_is (xdp ex_env ex_down d) (REDIRECT 7) ex_down_sent = true /\ out_is (xdp ex_env ex_up0 d) (REDIRECT 7) ex_up_sent = true.
Proof.
  assert (H : match ex_start ex_log_events with Some (c, l) => tidy l && plain_is l 7 2 2 (Dn4 171704321) 1 1 && plain_is l 7 2 1 (Up 256) 2 1 &&
    far_is (asked_far l 7 2 1) (Far 2 1 85 (Pfcp.le32 167772169) 10240) && far_is (asked_far l 7 2 2) (Far 2 0 0 0 0) &&
    qer_is (asked_qer l 7 2 1) 0 0 9 10000000 10000000 &&
    out_is (xdp ex_env ex_down (c_dp c)) (REDIRECT 7) ex_down_sent && out_is (xdp ex_env ex_up0 (c_dp c)) (REDIRECT 7) ex_up_sent | None => false end = true)
    by by vm_compute.
  destruct (ex_start ex_log_events) as [[c l]|] eqn:Ec; [|discriminate H]. rewrite !andb_true_iff in H.
  destruct H as (((((((H1 & H2%plain_is_inv) & H3%plain_is_inv) & H4%bool_decide_eq_true) & H5%bool_decide_eq_true) & H6%qer_is_inv) & H7) & H8).
  exists l, (c_dp c). split.
  - exists ex_cfg, ex_small_rm, 8%N, 8%N, 8%N, 8%N, ex_log_events, c.
    split; [right; by exists 8%N, 167837696%N, 29%N|]. split; [repeat constructor; apply id_shuffle_fair|]. split; [exact Ec|]. clear Ec.
    split; [by vm_compute|]. split; [exact H1|]. apply packets_nil.
  - clear Ec. split; [exact H2|]. split; [exact H3|]. split; [exact H4|]. split; [exact H5|]. split; [exact H6|].
    split; [by vm_compute|]. split; [by vm_compute|]. split; [exact H7|exact H8].
Qed.
