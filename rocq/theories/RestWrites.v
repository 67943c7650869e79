(** C92: writing a rule over REST changes the rule that the URL names and the packets that use it, and nothing else. *)
From Verif Require Import Base IdTracker ResourceManager SdfParser SdfProps MapOps SdfMatch Pfcp PfcpProps PfcpHistory PfcpReach
  PfcpRules PfcpCreate PfcpRemove Qer Csum Xdp XdpBase XdpProps XdpRules XdpFrames XdpEcho XdpEx XdpAccount EndToEnd Ping Pong XdpRate Layout Rest.
Open Scope N_scope.

(** ** Model *)

(** The JSON body of a PUT.  encoding/json leaves a field zero whose member is absent or null. *)
Record far_body := FarBody { fb_id : option N; fb_action : option N; fb_ohc : option N; fb_teid : option N; fb_ip : option N; fb_tlm : option N }.
Record qer_body := QerBody { qb_id : option N; qb_ul : option N; qb_dl : option N; qb_qfi : option N; qb_mbr_ul : option N; qb_mbr_dl : option N }.
Definition far_of (i : N) (b : far_body) : far_elem :=
  FarElem i (default 0 (fb_action b)) (default 0 (fb_ohc b)) (default 0 (fb_teid b)) (default 0 (fb_ip b)) (default 0 (fb_tlm b)).
Definition qer_of (i : N) (b : qer_body) : qer_elem :=
  QerElem i (default 0 (qb_ul b)) (default 0 (qb_dl b)) (default 0 (qb_qfi b)) (default 0 (qb_mbr_ul b)) (default 0 (qb_mbr_dl b)).
(** rest/handler.go:91 (PUT far_map/:id), rest/far_map.go:47-70 [setFarValue]: the id of the URL is not looked at. *)
Definition put_far (url : N) (b : far_body) (d : dp) : N * dp := rest_set_far (far_of (default 0 (fb_id b)) b) d.
(** rest/handler.go:85 (PUT qer_map/:id), rest/qer_map.go:62-87 [setQerValue]: likewise. *)
Definition put_qer (url : N) (b : qer_body) (d : dp) : N * dp := rest_set_qer (qer_of (default 0 (qb_id b)) b) d.

(** ** Specification *)

(** What becomes of a packet: verdict and frame. *)
Definition fate (r : option (verdict * xst)) : option (verdict * list N) := match r with Some (v, s) => Some (v, x_f s) | None => None end.
(** The packet, or the answer to it if it pings the UPF, is handled by FAR (QER) [i]. *)
Definition uses_far (e : env) (d : dp) (f : list N) (i : N) : Prop := exists p r, rule_for e d f = Some (p, r) /\ r_far r = i.
Definition uses_qer (e : env) (d : dp) (f : list N) (i : N) : Prop := exists p r, rule_for e d f = Some (p, r) /\ r_qer r = i.
Definition concerned (uses : env -> dp -> list N -> N -> Prop) (e : env) (d : dp) (f : list N) (i : N) : Prop :=
  uses e d f i \/ exists g d1, answer_of e d f = Some (g, d1) /\ uses e d g i.

(** ** What becomes of a packet depends on its own rules only *)

(** The maps agree on the rules of a packet. *)
Definition same_rules (e : env) (d d' : dp) (f : list N) : Prop :=
  option_map snd (rule_for e d' f) = option_map snd (rule_for e d f) /\
  forall p r, rule_for e d f = Some (p, r) -> far_get d' (r_far r) = far_get d (r_far r) /\ qer_get d' (r_qer r) = qer_get d (r_qer r).

(** Answering an echo request does not read the maps. *)
Definition blind {A} (m : M A) : Prop := forall f d d' l,
  match m (Xst f d l), m (Xst f d' l) with
  | Some (a, s), Some (a', s') => a = a' /\ x_f s = x_f s' /\ x_log s = x_log s'
  | None, None => True
  | _, _ => False
  end.
Lemma blind_bind {A B} (m : M A) (k : A -> M B) : blind m -> (forall a, blind (k a)) -> blind (bind m k).
Proof.
  intros H1 H2 f d d' l. unfold bind. specialize (H1 f d d' l). destruct (m (Xst f d l)) as [[a [f1 d1 l1]]|], (m (Xst f d' l)) as [[a' [f1' d1' l1']]|]; try done.
  cbn [x_f x_log] in H1. destruct H1 as (<- & <- & <-). apply H2.
Qed.
Lemma blind_ret {A} (a : A) : blind (ret a). Proof. by intros f d d' l. Qed.
Lemma blind_rd o n : blind (rd o n). Proof. intros f d d' l. unfold rd. cbn [x_f]. by destruct (_ <=? _)%nat. Qed.
Lemma blind_rd1 o : blind (rd1 o). Proof. intros f d d' l. unfold rd1. cbn [x_f]. by destruct (_ <=? _)%nat. Qed.
Lemma blind_wr o z : blind (wr o z). Proof. intros f d d' l. unfold wr. cbn [x_f]. by destruct (_ <=? _)%nat. Qed.
Lemma blind_fits o n : blind (fits o n). Proof. by intros f d d' l. Qed.
Lemma blind_ptr o : blind (ptr o). Proof. intros f d d' l. unfold ptr. by destruct o. Qed.
Lemma blind_inc c : blind (inc c). Proof. by intros f d d' l. Qed.
Lemma echo_blind e c : blind (handle_echo_request e c).
Proof.
  unfold handle_echo_request, insert_recovery, swap_ip, swap_port, swap_mac, add16, set_ip_csum.
  repeat first [apply blind_ret | apply blind_rd | apply blind_rd1 | apply blind_wr | apply blind_fits | apply blind_ptr | apply blind_inc
               | apply blind_bind; [|intros ?] | case_match].
Qed.
Lemma fate_outcome r r' : outcome r = outcome r' -> fate r = fate r'.
Proof. destruct r as [[v s]|], r' as [[v' s']|]; cbn [outcome fate]; intros H; try done. by injection H as -> -> _. Qed.

Lemma same_rule e d d' f : same_rules e d d' f -> match rule_for e d f with Some (p, r) => exists p', rule_for e d' f = Some (p', r) | None => rule_for e d' f = None end.
Proof. intros [H _]. destruct (rule_for e d f) as [[p r]|], (rule_for e d' f) as [[p' r']|]; simplify_eq/=; eauto. Qed.
Lemma entry_rule e d d' f : entry e d' f = entry e d f -> rule_for e d' f = rule_for e d f.
Proof. intros H. unfold rule_for. by rewrite H. Qed.
Lemma same_permitted e d d' f p r w n : same_rules e d d' f -> rule_for e d f = Some (p, r) -> permitted e w n d' r = permitted e w n d r.
Proof. intros [_ H] Hr. destruct (H p r Hr) as [H1 H2]. unfold permitted. by rewrite H1, H2. Qed.
Lemma account_same e d d' f p p' r far q w n : same_rules e d d' f -> rule_for e d f = Some (p, r) -> permitted e w n d r = Some (far, q) ->
  forall g, same_rules e d d' g -> same_rules e (account e w n p r q d) (account e w n p' r q d') g.
Proof.
  intros Hs Hr Hp g [Hg1 Hg2].
  assert (Hp' : permitted e w n d' r = Some (far, q)) by (by rewrite (same_permitted e d d' f p r)).
  destruct (permitted_qer _ _ _ _ _ _ _ Hp) as [_ Hb]. destruct (permitted_qer _ _ _ _ _ _ _ Hp') as [_ Hb'].
  assert (E : forall p d, (forall g, entry e (account e w n p r q d) g = entry e d g) /\ (forall i, far_get (account e w n p r q d) i = far_get d i) /\
    (r_qer r < d_qer_size d -> forall i, qer_get (account e w n p r q d) i = if (rate w q =? 0) then qer_get d i else
       if decide (i = r_qer r) then Some (with_start w q (snd (limit_rate n (start w q) (rate w q) (now w e)))) else qer_get d i)).
  { clear. intros p d. unfold account. destruct (volume w n) as [ul dl].
    assert (G : forall id d, (forall g, entry e (urr_add id ul dl d) g = entry e d g) /\ (forall i, far_get (urr_add id ul dl d) i = far_get d i) /\ (forall i, qer_get (urr_add id ul dl d) i = qer_get d i)).
    { intros id d0. unfold urr_add. by destruct (urr_get d0 id). }
    destruct (G (ep_urr2 p) (urr_add (ep_urr1 p) ul dl (mark e w n r q d))) as (A1 & A2 & A3).
    destruct (G (ep_urr1 p) (mark e w n r q d)) as (B1 & B2 & B3).
    split; [intros g; rewrite A1, B1; unfold mark; by destruct (_ =? 0)|]. split; [intros g; rewrite A2, B2; unfold mark; by destruct (_ =? 0)|].
    intros Hb i. rewrite A3, B3. unfold mark. destruct (rate w q =? 0); [done|]. by apply qer_insert. }
  destruct (E p d) as (A1 & A2 & A3), (E p' d') as (B1 & B2 & B3). split; [by rewrite (entry_rule _ _ _ _ (A1 g)), (entry_rule _ _ _ _ (B1 g))|].
  intros p1 r1 Hr1. rewrite A2, B2, (A3 Hb), (B3 Hb'). rewrite (entry_rule _ _ _ _ (A1 g)) in Hr1. destruct (Hg2 p1 r1 Hr1) as [C1 C2]. rewrite C1, C2.
  split; [done|]. destruct (rate w q =? 0); [done|]. by destruct (decide _).
Qed.

Theorem packet_depends_on_own_rules :
  forall e f d d', env_ok e -> same_rules e d d' f -> (forall g d1, answer_of e d f = Some (g, d1) -> same_rules e d d' g) ->
    fate (xdp e f d') = fate (xdp e f d).
Proof.
  (* not a ping *)
  assert (Direct : forall e f d d', env_ok e -> same_rules e d d' f ->
    (forall p r far, gpdu e f = true -> rule_for e d f = Some (p, r) -> far_get d (r_far r) = Some far -> pings_upf e f far (r_ohr r) = false) ->
    fate (xdp e f d') = fate (xdp e f d)).
  { intros e f d d' He Hs Hn. pose proof (same_rule _ _ _ _ Hs) as Hr'. destruct (rule_for e d f) as [[p r]|] eqn:Hr.
    - destruct Hr' as [p' Hr']. pose proof (same_permitted e d d' f p r (dir_of e f) (N.of_nat (length f)) Hs Hr) as Hp'.
      destruct (permitted e (dir_of e f) (N.of_nat (length f)) d r) as [[far q]|] eqn:Hp.
      + assert (Hf : far_get d (r_far r) = Some far). { unfold permitted in Hp. destruct (far_get d (r_far r)), (qer_get d (r_qer r)); try done. destruct (_ && _); [|done]. by simplify_eq. }
        unfold dir_of in *. destruct (gpdu e f) eqn:Hg.
        * pose proof (Hn p r far eq_refl eq_refl Hf) as Hpu. rewrite (xdp_uplink e d f p r far q), (xdp_uplink e d' f p' r far q) by done.
          by destruct (uplink_result e f far (r_ohr r)) as [[v g] c].
        * rewrite (xdp_downlink e d f p r far q), (xdp_downlink e d' f p' r far q) by done. cbv zeta. destruct (e_head e); [|done].
          by destruct (routed e true _) as [[v0 g0] c0].
      + by rewrite (not_permitted_dropped e d f p r), (not_permitted_dropped e d' f p' r).
    - destruct (echo_request e f) eqn:Hec.
      + rewrite !xdp_rule, Hec. pose proof (echo_blind e (gtp_ctx f) f d d' (rx_counters e f)) as B.
        destruct (handle_echo_request e (gtp_ctx f) (Xst f d (rx_counters e f))) as [[v s]|], (handle_echo_request e (gtp_ctx f) (Xst f d' (rx_counters e f))) as [[v' s']|]; try done.
        destruct B as (<- & Hf & _). cbn [finish fate x_f]. by rewrite Hf.
      + by rewrite (no_rule_passes_untouched e d f), (no_rule_passes_untouched e d' f). }
  intros e f d d' He Hs Ha. destruct (rule_for e d f) as [[p r]|] eqn:Hr.
  2: { apply Direct; [done|done|]. intros p r far _ H. congruence. }
  destruct (gpdu e f) eqn:Hg.
  2: { apply Direct; [done|done|]. intros; congruence. }
  destruct (permitted e Uplink (N.of_nat (length f)) d r) as [[far q]|] eqn:Hp.
  2: { pose proof (same_rule _ _ _ _ Hs) as Hr'. rewrite Hr in Hr'. destruct Hr' as [p' Hr']. pose proof (same_permitted e d d' f p r Uplink (N.of_nat (length f)) Hs Hr) as Hp'. rewrite Hp in Hp'.
       rewrite (not_permitted_dropped e d f p r), (not_permitted_dropped e d' f p' r); unfold dir_of; rewrite ?Hg; done. }
  assert (Hf : far_get d (r_far r) = Some far). { unfold permitted in Hp. destruct (far_get d (r_far r)), (qer_get d (r_qer r)); try done. destruct (_ && _); [|done]. by simplify_eq. }
  destruct (pings_upf e f far (r_ohr r)) eqn:Hpu.
  2: { apply Direct; [done|done|]. intros p1 r1 far1 _ H1 H2. rewrite Hr in H1. injection H1 as <- <-. rewrite Hf in H2. by injection H2 as <-. }
  pose proof (xdp_ping e f d p r far q He Hr Hg Hp Hpu) as K. cbv zeta in K. destruct K as [_ K].
  pose proof (same_rule _ _ _ _ Hs) as Hr'. rewrite Hr in Hr'. destruct Hr' as [p' Hr']. pose proof (same_permitted e d d' f p r Uplink (N.of_nat (length f)) Hs Hr) as Hp'. rewrite Hp in Hp'.
  pose proof (xdp_ping e f d' p' r far q He Hr' Hg Hp' Hpu) as K'. cbv zeta in K'. destruct K' as [_ K'].
  destruct (echo_inside (decap f [8; 0])) eqn:Hec.
  - destruct K as (D4 & _ & Ho), K' as (_ & _ & Ho'). rewrite (fate_outcome _ _ Ho), (fate_outcome _ _ Ho').
    apply Direct; [done| |].
    + apply (account_same e d d' f p p' r far q); [done..|]. eapply Ha. unfold answer_of. rewrite Hr. unfold dir_of. rewrite Hg, Hp. cbn [andb]. by rewrite Hpu, Hec.
    + intros ? ? ? Hg'. by rewrite (proj1 (down4_not_gpdu e _ D4)) in Hg'.
  - destruct (xdp e f d) as [[v s]|], (xdp e f d') as [[v' s']|]; try done. cbn [outcome fate] in *. injection K as -> -> _. by injection K' as -> -> _.
Qed.

(** ** C92 *)

Lemma rule_entry e d d' f : (forall k, dp_find d' k = dp_find d k) -> entry e d' f = entry e d f.
Proof.
  intros H. unfold entry. destruct (gpdu e f); [exact (H (Up _))|]. destruct (down4 e f); [exact (H (Dn4 _))|]. destruct (down6 f); [exact (H (Dn6 _))|done].
Qed.
Lemma far_write_same e d d' f i : (forall k, dp_find d' k = dp_find d k) -> (forall j, qer_get d' j = qer_get d j) ->
  (forall j, j <> i -> far_get d' j = far_get d j) -> ~ uses_far e d f i -> same_rules e d d' f.
Proof.
  intros H1 H2 H3 Hu. split; [by rewrite (entry_rule _ _ _ _ (rule_entry _ _ _ _ H1))|]. intros p r Hr. split; [|done]. apply H3. intros Hi. apply Hu. by exists p, r.
Qed.
Lemma qer_write_same e d d' f i : (forall k, dp_find d' k = dp_find d k) -> (forall j, far_get d' j = far_get d j) ->
  (forall j, j <> i -> qer_get d' j = qer_get d j) -> ~ uses_qer e d f i -> same_rules e d d' f.
Proof.
  intros H1 H2 H3 Hu. split; [by rewrite (entry_rule _ _ _ _ (rule_entry _ _ _ _ H1))|]. intros p r Hr. split; [done|]. apply H3. intros Hi. apply Hu. by exists p, r.
Qed.

(** If the body repeats the id of the URL: 201 means that the rule is as the body says (and is read back so, also after traffic); everything
    else is as it was, and so is what becomes of every packet that does not use this rule.  Other answers change nothing. *)
Theorem put_far_partial :
  forall url b d st d', fb_id b = Some url -> put_far url b d = (st, d') ->
    (st = 201 -> forall d'' pad, after_packets d' d'' -> slot_ok pad c_far_size -> rest_get_far pad (Z.of_N url) d'' =
       Some (FarElem url (default 0 (fb_action b)) (default 0 (fb_ohc b)) (default 0 (fb_teid b)) (default 0 (fb_ip b)) (default 0 (fb_tlm b)))) /\
    (st <> 201 -> d' = d) /\
    (forall j, j <> url -> far_get d' j = far_get d j) /\ (forall k, dp_find d' k = dp_find d k) /\
    (forall j, qer_get d' j = qer_get d j) /\ (forall j, urr_get d' j = urr_get d j) /\
    (forall e f, env_ok e -> ~ concerned uses_far e d f url -> fate (xdp e f d') = fate (xdp e f d)).
Proof.
  intros url b d st d' Hi H. unfold put_far in H. rewrite Hi in H. cbn [default from_option id] in H.
  destruct (decide (st = 201)) as [->|Hst].
  - destruct (rest_far_write_read _ _ _ H) as (H1 & H2 & H3 & H4 & H5 & H6). cbn [fl_id far_of] in *.
    split; [done|]. split; [done|]. split; [done|]. split; [done|]. split; [done|]. split; [done|].
    intros e f He Hn. apply packet_depends_on_own_rules; [done|..].
    + apply (far_write_same e d d' f url); try done. intros Hu. apply Hn. by left.
    + intros g d1 Ha. apply (far_write_same e d d' g url); try done. intros Hu. apply Hn. right. by exists g, d1.
  - destruct rest_write_refused as [Hr _]. pose proof (Hr _ _ _ _ H Hst) as ->. done.
Qed.
Theorem put_qer_partial :
  forall url b d st d', qb_id b = Some url -> put_qer url b d = (st, d') ->
    (st = 201 -> forall d'' pad, after_packets d' d'' -> (forall q, qer_get d'' url = Some q -> qer_fits q) -> slot_ok pad c_qer_size ->
       rest_get_qer pad (Z.of_N url) d'' =
         Some (QerElem url (default 0 (qb_ul b)) (default 0 (qb_dl b)) (default 0 (qb_qfi b)) (default 0 (qb_mbr_ul b)) (default 0 (qb_mbr_dl b)))) /\
    (st <> 201 -> d' = d) /\
    (forall j, j <> url -> qer_get d' j = qer_get d j) /\ (forall k, dp_find d' k = dp_find d k) /\
    (forall j, far_get d' j = far_get d j) /\ (forall j, urr_get d' j = urr_get d j) /\
    (forall e f, env_ok e -> ~ concerned uses_qer e d f url -> fate (xdp e f d') = fate (xdp e f d)).
Proof.
  intros url b d st d' Hi H. unfold put_qer in H. rewrite Hi in H. cbn [default from_option id] in H.
  destruct (decide (st = 201)) as [->|Hst].
  - destruct (rest_qer_write_read _ _ _ H) as (H1 & H2 & H3 & H4 & H5 & H6). cbn [ql_id qer_of] in *.
    split; [done|]. split; [done|]. split; [done|]. split; [done|]. split; [done|]. split; [done|].
    intros e f He Hn. apply packet_depends_on_own_rules; [done|..].
    + apply (qer_write_same e d d' f url); try done. intros Hu. apply Hn. by left.
    + intros g d1 Ha. apply (qer_write_same e d d' g url); try done. intros Hu. apply Hn. right. by exists g, d1.
  - destruct rest_write_refused as (_ & Hr & _). pose proof (Hr _ _ _ _ H Hst) as ->. done.
Qed.
(** A body that does not carry the id writes rule 0, whatever the URL says. *)
Theorem put_without_id_refuted :
  (forall url b d d', fb_id b = None -> url <> 0 -> put_far url b d = (201, d') ->
     far_get d' url = far_get d url /\ far_get d' 0 = Some (Far (default 0 (fb_action b)) (default 0 (fb_ohc b)) (default 0 (fb_teid b)) (default 0 (fb_ip b)) (default 0 (fb_tlm b)))) /\
  (forall url b d d', qb_id b = None -> url <> 0 -> put_qer url b d = (201, d') ->
     qer_get d' url = qer_get d url /\ qer_get d' 0 = Some (Qer (default 0 (qb_ul b)) (default 0 (qb_dl b)) (default 0 (qb_qfi b)) (default 0 (qb_mbr_ul b)) (default 0 (qb_mbr_dl b)) 0 0)).
Proof.
  split; intros url b d d' Hi Hu H.
  - unfold put_far in H. rewrite Hi in H. cbn [default from_option id] in H. destruct (rest_far_write_read _ _ _ H) as (H1 & H2 & _). cbn in *. by split; [apply H2|].
  - unfold put_qer in H. rewrite Hi in H. cbn [default from_option id] in H. destruct (rest_qer_write_read _ _ _ H) as (H1 & H2 & _). cbn in *. by split; [apply H2|].
Qed.
(** A subscriber loses its downlink because another rule, FAR 5, was set to drop. *)
Theorem put_other_rule_refuted :
  exists c l d' s s', ex_start [ex_setup; ex_recv 2 (SessEstReq ex_both)] = Some (c, l) /\
    put_far 5 (FarBody None (Some 1) None None None None) (c_dp c) = (201, d') /\
    ~ concerned uses_far ex_env (c_dp c) ex_down 5 /\
    xdp ex_env ex_down (c_dp c) = Some (REDIRECT 7, s) /\ xdp ex_env ex_down d' = Some (DROP, s').
Proof.
  destruct (ex_runs_inv [ex_setup; ex_recv 2 (SessEstReq ex_both)] (fun c =>
    let '(st, d') := put_far 5 (FarBody None (Some 1) None None None None) (c_dp c) in
    match rule_for ex_env (c_dp c) ex_down, answer_of ex_env (c_dp c) ex_down, xdp ex_env ex_down (c_dp c), xdp ex_env ex_down d' with
    | Some (_, r), None, Some (REDIRECT i, _), Some (DROP, _) => (st =? 201) && (r_far r =? 0) && (i =? 7) | _, _, _, _ => false end)) as (c & l & Hc & H); [by vm_compute|].
  exists c, l. destruct (put_far 5 _ (c_dp c)) as [st d'] eqn:Hp.
  exists d'. destruct (rule_for ex_env (c_dp c) ex_down) as [[p r]|] eqn:Hr; [|discriminate H]. destruct (answer_of ex_env (c_dp c) ex_down) eqn:Ha; [discriminate H|].
  destruct (xdp ex_env ex_down (c_dp c)) as [[v s]|] eqn:E1; [|discriminate H]. destruct v as [| | | |i]; try discriminate H.
  destruct (xdp ex_env ex_down d') as [[v' s']|] eqn:E2; [|discriminate H]. destruct v'; try discriminate H.
  rewrite !andb_true_iff, !N.eqb_eq in H. destruct H as [[-> H] ->].
  exists s, s'. split; [exact Hc|]. clear Hc. split; [reflexivity|]. split; [|split; reflexivity].
  intros [(p1 & r1 & Hr1 & H1)|(g & d1 & Hg & _)]; [|congruence]. rewrite Hr in Hr1. injection Hr1 as <- <-. congruence.
Qed.
(** A write that meets the hypotheses of [put_far_partial]. *)
Example ex_put_far : exists d', put_far 5 (FarBody (Some 5) (Some 2) (Some 1) (Some 77) (Some 134217738) None) ex_dp = (201, d') /\
  far_get d' 5 = Some (Far 2 1 77 134217738 0) /\ ~ concerned uses_far ex_env ex_dp ex_down 5 /\ concerned uses_far ex_env ex_dp ex_down 3.
Proof.
  eexists. split; [unfold put_far, rest_set_far; cbn; reflexivity|]. split; [by vm_compute|].
  assert (Hr : rule_for ex_env ex_dp ex_down = Some (ex_entry 3 1, default_rule (ex_entry 3 1))) by (by vm_compute).
  assert (Ha : answer_of ex_env ex_dp ex_down = None) by (by vm_compute).
  split.
  - intros [(p1 & r1 & Hr1 & H1)|(g & d1 & Hg & _)]; [|congruence]. rewrite Hr in Hr1. by injection Hr1 as <- <-.
  - left. eexists _, _. by split; [exact Hr|].
Qed.
