(** C102: the packets of one subscriber have no influence on what becomes of the packets of another. *)
From Verif Require Import Base IdTracker ResourceManager SdfParser SdfProps MapOps SdfMatch Pfcp PfcpProps PfcpHistory PfcpReach
  PfcpRules PfcpCreate PfcpRemove PfcpReject PfcpInv PfcpAsked PfcpKeys PfcpUpdate Qer Csum Xdp XdpBase XdpProps XdpRules XdpFrames XdpEcho XdpEx XdpAccount
  EndToEnd EndToEndLog Ping Pong XdpRate RestWrites InFlight SdfAgain Forgets.
Open Scope N_scope.

(** ** Specification *)

(** Packet [f] is policed by QER [h] of session [seid] of peer [addr]: a PDR of the session that applies to it names this QER. *)
Definition policed_by (l : log) (e : env) (f : list N) (x : N * N * N) : Prop :=
  let '(addr, seid, h) := x in exists i a, pdr_asked l addr seid i = Some a /\ applies e a f /\ ak_qer a = Some h.
(** Two packets are policed together: the same QER in the same direction. *)
Definition policed_together (l : log) (e : env) (f : list N) (e' : env) (f' : list N) : Prop :=
  dir_of e f = dir_of e' f' /\ exists x, policed_by l e f x /\ policed_by l e' f' x.
(** Every PDR names a QER. *)
Definition all_policed (l : log) : Prop := forall addr seid i a, pdr_asked l addr seid i = Some a -> is_Some (ak_qer a).
(** The packet, or the answer to it if it pings the UPF. *)
Definition or_answer (e : env) (d : dp) (f g : list N) : Prop := g = f \/ exists d1, answer_of e d f = Some (g, d1).
(** [d'] is [d] after any number of packets (in any environments, at any times), each of which has property [P]. *)
Inductive packets_of (P : env -> dp -> list N -> Prop) (d : dp) : dp -> Prop :=
| po_nil : packets_of P d d
| po_one d1 e f v s : packets_of P d d1 -> env_ok e -> P e d1 f -> xdp e f d1 = Some (v, s) -> packets_of P d (x_dp s).
(** Neither the packet nor the answer to it is policed together with [f] or the answer to [f], or captured (C100). *)
Definition stranger (l : log) (e : env) (d : dp) (f : list N) (e' : env) (d1 : dp) (f' : list N) : Prop :=
  forall g', or_answer e' d1 f' g' -> ~ captured l e' g' /\ forall g, or_answer e d f g -> ~ policed_together l e g e' g'.

(** ** Proof *)

(** What the rules read of a QER in one direction. *)
Definition read_qer (w : dir) (d : dp) (i : N) : option (N * N * N * N) :=
  match qer_get d i with Some q => Some (gate w q, rate w q, start w q, qi_qfi q) | None => None end.
Lemma decision_read e d d' f : entry e d' f = entry e d f -> (forall i, far_get d' i = far_get d i) ->
  (forall p r, rule_for e d f = Some (p, r) -> read_qer (dir_of e f) d' (r_qer r) = read_qer (dir_of e f) d (r_qer r)) -> decision e d' f = decision e d f.
Proof.
  intros H1 H2 H3. unfold decision. rewrite (entry_rule _ _ _ _ H1). destruct (rule_for e d f) as [[p r]|] eqn:Hr; [|done].
  specialize (H3 _ _ eq_refl). unfold permitted. rewrite H2. unfold read_qer in H3. destruct (far_get d (r_far r)) as [far|]; [|done].
  destruct (qer_get d (r_qer r)) as [q|], (qer_get d' (r_qer r)) as [q'|]; try done. injection H3 as E1 E2 E3 E4. unfold gate_open, in_rate. rewrite E1, E2, E3.
  destruct (_ && _); [by rewrite E4|done].
Qed.

(** One pass through the rules. *)
Lemma leg_reads h : leg_ok h ->
  (forall e g, entry e (h_after h) g = entry e (h_before h) g) /\ (forall i, far_get (h_after h) i = far_get (h_before h) i) /\
  (forall w i, of_qer w i h = false -> read_qer w (h_after h) i = read_qer w (h_before h) i).
Proof.
  destruct h as [e f d v d']. unfold leg_ok, h_size. cbn [h_env h_frame h_before h_verdict h_after].
  destruct (rule_for e d f) as [[p r]|] eqn:Hr; [|by intros ->].
  destruct (permitted e (dir_of e f) (N.of_nat (length f)) d r) as [[far q]|] eqn:Hp; [|by intros [_ ->]]. intros ->.
  destruct (permitted_qer _ _ _ _ _ _ _ Hp) as [Hq Hb].
  assert (G : forall id ul dl d, (forall e g, entry e (urr_add id ul dl d) g = entry e d g) /\ (forall i, far_get (urr_add id ul dl d) i = far_get d i) /\ (forall i, qer_get (urr_add id ul dl d) i = qer_get d i)).
  { intros id ul dl d0. unfold urr_add. by destruct (urr_get d0 id). }
  unfold account. destruct (volume (dir_of e f) (N.of_nat (length f))) as [ul dl].
  destruct (G (ep_urr2 p) ul dl (urr_add (ep_urr1 p) ul dl (mark e (dir_of e f) (N.of_nat (length f)) r q d))) as (A1 & A2 & A3).
  destruct (G (ep_urr1 p) ul dl (mark e (dir_of e f) (N.of_nat (length f)) r q d)) as (B1 & B2 & B3).
  split; [intros e0 g; rewrite A1, B1; unfold mark; by destruct (_ =? 0)|]. split; [intros i; rewrite A2, B2; unfold mark; by destruct (_ =? 0)|].
  intros w i Hn. unfold read_qer. rewrite A3, B3. clear A1 A2 A3 B1 B2 B3. unfold mark. destruct (rate (dir_of e f) q =? 0); [done|]. rewrite qer_insert by done.
  destruct (decide (i = r_qer r)) as [->|]; [|done]. rewrite Hq.
  assert (Hw : dir_of e f <> w). { intros Hw. rewrite (of_qer_intro w (r_qer r) _ p r) in Hn; done. }
  by destruct (dir_of e f), w.
Qed.
Lemma packet_reads h : processed h ->
  (forall e g, entry e (h_after h) g = entry e (h_before h) g) /\ (forall i, far_get (h_after h) i = far_get (h_before h) i) /\
  (forall w i, (forall g p r, or_answer (h_env h) (h_before h) (h_frame h) g -> dir_of (h_env h) g = w -> rule_for (h_env h) (h_before h) g = Some (p, r) -> r_qer r <> i) ->
     read_qer w (h_after h) i = read_qer w (h_before h) i).
Proof.
  intros Hp. assert (Hof : forall w i g d, (forall e g, entry e d g = entry e (h_before h) g) ->
    (forall p r, dir_of (h_env h) g = w -> rule_for (h_env h) (h_before h) g = Some (p, r) -> r_qer r <> i) ->
    forall v d', of_qer w i (Handled (h_env h) g d v d') = false).
  { intros w i g d He Hn v d'. apply not_true_iff_false. intros (Hw & p & r & Hr & Hi)%of_qer_inv. cbn [h_env h_frame h_before] in *.
    rewrite (entry_rule (h_env h) (h_before h) d g) in Hr by apply He. by eapply Hn. }
  destruct (answer_of (h_env h) (h_before h) (h_frame h)) as [[g d1]|] eqn:Ha.
  2: { destruct (leg_reads h (processed_leg h Hp Ha)) as (L1 & L2 & L3). split; [done|]. split; [done|]. intros w i Hn. apply L3.
       destruct h as [e f d v d']. apply Hof; [done|]. intros p r Hw Hr. eapply Hn; [by left|done|done]. }
  destruct (answer_inv _ _ _ _ Ha) as (p & r & far & q & Hr & Hpm).
  pose proof Hp as (He & s & Hx & Hs). pose proof (xdp_legs _ _ _ p r far q He Hr Hpm) as K. rewrite Ha in K. destruct K as (Hg & Hd1 & H4 & _ & Ho).
  assert (K1 : leg_ok (Handled (h_env h) (h_frame h) (h_before h) (h_verdict h) d1)).
  { unfold leg_ok, h_size. cbn [h_env h_frame h_before h_verdict h_after]. rewrite Hr, Hpm. rewrite Hd1. unfold dir_of. by rewrite Hg. }
  assert (K2 : leg_ok (Handled (h_env h) g d1 (h_verdict h) (h_after h))).
  { apply processed_leg; [|cbn [h_env h_before h_frame]; by apply answer_last].
    split; [done|]. cbn [h_env h_frame h_before h_verdict h_after]. rewrite Hx in Ho. destruct (xdp (h_env h) g d1) as [[v' s']|]; [|done].
    cbn [outcome] in Ho. injection Ho as -> _ Hd. exists s'. split; [done|]. by rewrite <- Hd. }
  destruct (leg_reads _ K1) as (A1 & A2 & A3), (leg_reads _ K2) as (B1 & B2 & B3). cbn [h_before h_after] in *.
  split; [intros e0 g0; by rewrite B1|]. split; [intros i; by rewrite B2|]. intros w i Hn. rewrite B3, A3; [done|..].
  - apply Hof; [done|]. intros p1 r1 Hw Hr1. eapply Hn; [by left|done|done].
  - apply Hof; [done|]. intros p1 r1 Hw Hr1. eapply Hn; [right; by exists d1|done|done].
Qed.

(** The QER of a rule, in the log. *)
Lemma rule_policed l c d e f ep r : keyed (pdrs_in l) c -> packets (c_dp c) d -> all_policed l -> rule_for e d f = Some (ep, r) -> ~ captured l e f ->
  exists addr seid h s q, policed_by l e f (addr, seid, h) /\ session_of c addr seid = Some s /\ s_qers s !! h = Some q /\ sq_gid q = r_qer r.
Proof.
  intros K Hd Hall Hr Hn. destruct (packets_rules _ _ Hd) as (Pk & _ & _). unfold rule_for in Hr. rewrite entry_key in Hr.
  destruct (frame_key e f) as [k|] eqn:Ek; [|done]. rewrite Pk in Hr. destruct (key_owner _ _ k K) as [(a & n & s & pm & i & p & Hs & Hpm & Hi & Hk & Hdp)|[Hdp _]]; rewrite Hdp in Hr; [|done].
  destruct (kd_ses _ _ K _ _ _ Hs) as (pm' & Hpm' & HA). assert (pm' = pm) as -> by congruence. clear Hpm'.
  pose proof (HA i) as Hag. rewrite Hi in Hag. destruct (pm !! i) as [ask|] eqn:Ei; [|by inversion Hag]. assert (Hag1 : agreeR (far_at s) (qer_at s) p ask) by (by inversion Hag). clear Hag.
  assert (Hask : pdr_asked l a n i = Some ask) by (unfold pdr_asked; by rewrite Hpm). destruct (Hall _ _ _ _ Hask) as [h Hh]. destruct (PfcpKeys.ag_qer _ _ _ _ Hag1 h Hh) as (q & Hq & Hg).
  exists a, n, h, s, q.
  assert (Hkey : frame_key e f = Some (ak_key ask)) by (rewrite Ek, <- Hk; by rewrite (PfcpKeys.ag_key _ _ _ _ Hag1)).
  cut (filter_takes e (ak_sdf ask) f /\ r_qer r = pr_qer (sd_info p)).
  { intros [Ht Hrq]. split; [|split; [done|split; [done|congruence]]]. exists i, ask. split; [done|]. split; [|done]. split; [done|]. exact Ht. }
  pose proof (PfcpKeys.ag_sdf _ _ _ _ Hag1) as Hsdf. unfold entry_of in Hr. rewrite Hsdf in Hr. unfold filter_takes. destruct (ak_sdf ask) as [flt|] eqn:Es.
  - assert (Hf : forall b : bool, er_filter (ep_rules_ (combine_pdr_with_sdf (if b then Some zero_entry else None) flt (sd_info p))) = ep_filter_of flt) by (by intros []).
    rewrite Hf in Hr. clear Hf. unfold select in Hr. unfold upd in Hr. rewrite Ei in Hr.
    destruct (matches e (ep_filter_of flt) f) as [[]|] eqn:Em.
    + split; [done|]. destruct (ak_again ask); cbn in Hr; by injection Hr as _ <-.
    + exfalso. destruct (ak_again ask) eqn:Eg; [|by cbn in Hr]. apply Hn. exists a, n, i, ask. split; [done|]. split; [done|]. split; [done|]. by rewrite Es.
    + by destruct (ak_again ask).
  - split; [done|]. cbn in Hr. by injection Hr as _ <-.
Qed.

Theorem neighbours_harmless_partial :
  forall l d d' e f, after l d -> all_policed l -> env_ok e -> both_ways (fun g => ~ captured l e g) e d f ->
    packets_of (stranger l e d f) d d' -> fate (xdp e f d') = fate (xdp e f d).
Proof.
  intros l d d' e f (g0 & rm & p0 & f0 & q0 & u0 & es & c & Hrm & Hfair & Hrun & Hb & Ht & Hd) Hall He [Hn Hna] Hp.
  destruct (tidy_run _ _ _ _ _ _ _ _ _ Hrm Hfair Hrun Hb Ht) as (HC & _ & K). clear Hrun. destruct (proj2 (careful_mirror _ HC)) as [_ Hinj].
  assert (Hnc : forall g, or_answer e d f g -> ~ captured l e g) by (intros g [-> | (d1 & Hg)]; [done|by eapply Hna]).
  assert (H : packets (c_dp c) d' /\ (forall e g, entry e d' g = entry e d g) /\ (forall i, far_get d' i = far_get d i) /\
    forall g p r, or_answer e d f g -> rule_for e d g = Some (p, r) -> read_qer (dir_of e g) d' (r_qer r) = read_qer (dir_of e g) d (r_qer r)).
  { induction Hp as [|d1 e' f' v s Hp IH He' HP Hx]; [by split_and!|].
    destruct IH as (I1 & I2 & I3 & I4). split; [by eapply packets_one|].
    assert (Hpr : processed (Handled e' f' d1 v (x_dp s))) by (split; [done|by exists s]).
    destruct (packet_reads _ Hpr) as (L1 & L2 & L3). cbn [h_env h_frame h_before h_after] in *.
    split; [intros e0 g; by rewrite L1|]. split; [intros i; by rewrite L2|]. intros g p r Hg Hr. rewrite L3; [by eapply I4|].
    intros g' p' r' Hg' Hdir Hr' Heq. destruct (HP g' Hg') as [Hc Hst]. apply (Hst g Hg). split; [done|].
    destruct (rule_policed l c d e g p r K Hd Hall Hr (Hnc g Hg)) as (a & n & h & s1 & q1 & P1 & S1 & Q1 & G1).
    destruct (rule_policed l c d1 e' g' p' r' K I1 Hall Hr' Hc) as (a' & n' & h' & s2 & q2 & P2 & S2 & Q2 & G2).
    destruct (Hinj a n s1 h (r_qer r) (rule_of_qer (sq_info q1)) a' n' s2 h' (rule_of_qer (sq_info q2)) S1 S2) as (<- & <- & <-).
    - cbn [qer_kind ktab]. rewrite lookup_fmap, Q1. cbn. by rewrite G1.
    - cbn [qer_kind ktab]. rewrite lookup_fmap, Q2. cbn. by rewrite G2, Heq.
    - by exists (a, n, h). }
  destruct H as (_ & H1 & H2 & H3). apply packet_depends_on_decision; [done|..].
  - apply decision_read; [done|done|]. intros p r Hr. eapply H3; [by left|done].
  - intros g d1 Hg. apply decision_read; [done|done|]. intros p r Hr. eapply H3; [right; by exists d1|done].
Qed.

(** ** Without it: PDRs that name no QER share the QER with data-plane number 0 *)
Definition key_qers (l : log) (k : option key) : list (N * N * N) :=
  map_to_list (pdrs_in l) ≫= fun x => map_to_list (snd x) ≫= fun y : N * pdr_ask =>
    match ak_qer (snd y) with Some h => if bool_decide (k = Some (ak_key (snd y))) then [(fst x, h)] else [] | None => [] end.
Lemma policed_key l e f x : policed_by l e f x -> x ∈ key_qers l (frame_key e f).
Proof.
  destruct x as [[addr seid] h]. intros (i & a & Ha & [Hk _] & Hh). apply pdr_asked_elem in Ha as (pm & H1 & H2).
  unfold key_qers. apply elem_of_list_bind. exists ((addr, seid), pm). split; [|done]. apply elem_of_list_bind. exists (i, a). split; [|done].
  cbn [fst snd]. rewrite Hh, Hk, bool_decide_eq_true_2 by done. by apply elem_of_list_singleton.
Qed.
Definition disjoint_b (l l' : list (N * N * N)) : bool := forallb (fun x => negb (bool_decide (x ∈ l'))) l.
Definition down_only (e : env) (f : list N) : bool := negb (gpdu e f).
Lemma down_only_answer e f d : down_only e f = true -> answer_of e d f = None.
Proof. unfold down_only. intros H%negb_true_iff. unfold answer_of. rewrite H. cbn [andb]. by repeat case_match. Qed.
Lemma stranger_b_ok l e d f e' d1 f' : down_only e f = true -> down_only e' f' = true -> captured_b l e' f' = false ->
  disjoint_b (key_qers l (frame_key e f)) (key_qers l (frame_key e' f')) = true -> stranger l e d f e' d1 f'.
Proof.
  intros H1 H2 H3 H4 g' [-> | (d2 & Hg)]; [|by rewrite down_only_answer in Hg]. split; [by apply captured_b_ok|].
  intros g [-> | (d2 & Hg)]; [|by rewrite down_only_answer in Hg]. intros (_ & x & X1%policed_key & X2%policed_key).
  unfold disjoint_b in H4. rewrite forallb_forall in H4. apply elem_of_list_In, H4, negb_true_iff, bool_decide_eq_false in X1. done.
Qed.
Definition all_policed_b (l : log) : bool :=
  forallb (fun x : N * N * pdr_table => forallb (fun y : N * pdr_ask => match ak_qer (snd y) with Some _ => true | None => false end) (map_to_list (snd x))) (map_to_list (pdrs_in l)).
Lemma all_policed_b_ok l : all_policed_b l = true -> all_policed l.
Proof.
  unfold all_policed_b. rewrite forallb_forall. intros H addr seid i a Ha. apply pdr_asked_elem in Ha as (pm & H1 & H2).
  apply elem_of_list_In, H in H1. rewrite forallb_forall in H1. apply elem_of_list_In, H1 in H2. cbn [snd] in H2. by destruct (ak_qer a).
Qed.

Definition policed_b (l : log) (e : env) (f : list N) : bool :=
  existsb (fun x : N * N * pdr_table => existsb (fun y : N * pdr_ask =>
    match ak_qer (snd y), ak_sdf (snd y) with Some _, None => bool_decide (frame_key e f = Some (ak_key (snd y))) | _, _ => false end) (map_to_list (snd x))) (map_to_list (pdrs_in l)).
Lemma policed_b_ok l e f : policed_b l e f = true -> exists x, policed_by l e f x.
Proof.
  unfold policed_b. intros ([[addr seid] pm] & H1 & H2)%existsb_exists. apply existsb_exists in H2 as ([i a] & H2 & H3). cbn [fst snd] in *.
  destruct (ak_qer a) as [h|] eqn:Eh, (ak_sdf a) eqn:Es; try discriminate H3. apply bool_decide_eq_true in H3.
  exists (addr, seid, h), i, a. split; [apply pdr_asked_elem; exists pm; split; by apply elem_of_list_In|]. split; [|done]. split; [done|by rewrite Es].
Qed.

(** Two subscribers with 100 kbit/s each; the PDR of the second names its QER, or not. *)
Definition ex_slow_qer : qer_ie := QerIe (Some 1) (Some 0) (Some 0) (Some 100) (Some 100) (Some 9).
Definition ex_slow_est (p : pdr_ie) : est_req := EstReq (Good 5) (Good 100) [ex_both_far_dl; ex_both_far_ul] [ex_slow_qer] [] [p].
Definition ex_slow_second (qer : option N) : pdr_ie := PdrIe (Some 1) None (Some 1) qer [] (Some (PdiIe true Absent (Good (UeipIe false (Some 171704330) None)))) None.
Definition ex_slow (qer : option N) : list event := [ex_setup; ex_recv 2 (SessEstReq (ex_slow_est (ex_dl 1 171704321 1 1))); ex_recv 3 (SessEstReq (ex_slow_est (ex_slow_second qer)))].
Definition ex_out (r : option (verdict * xst)) : option (bool * dp) :=
  match r with Some (REDIRECT _, s) => Some (true, x_dp s) | Some (DROP, s) => Some (false, x_dp s) | _ => None end.
Lemma ex_out_inv r b d : ex_out r = Some (b, d) -> exists v s, r = Some (v, s) /\ x_dp s = d /\ if b then exists i, v = REDIRECT i else v = DROP.
Proof. destruct r as [[v s]|]; [|done]. destruct v; cbn; intros H; try done; injection H as <- <-; exists DROP, s + eexists _, s; split_and!; try done; by eexists. Qed.
Definition ex_slow_b (qer : option N) : bool :=
  match ex_start (ex_slow qer) with
  | Some (c, l) => tidy l && negb (captured_b l ex_env ex_down) && negb (captured_b l ex_env ex_down_first) &&
      disjoint_b (key_qers l (frame_key ex_env ex_down)) (key_qers l (frame_key ex_env ex_down_first)) && down_only ex_env ex_down && down_only ex_env ex_down_first &&
      match qer with Some _ => all_policed_b l | None => policed_b l ex_env ex_down end &&
      match ex_out (xdp ex_env ex_down (c_dp c)), ex_out (xdp ex_env ex_down_first (c_dp c)) with
      | Some (true, _), Some (true, d1) =>
          match ex_out (xdp ex_env ex_down d1), ex_out (xdp ex_env ex_down_first d1) with
          | Some (b, _), Some (false, _) => bool_decide (b = bool_decide (is_Some qer)) | _, _ => false end
      | _, _ => false end
  | None => false end.
Lemma ex_slow_ok : ex_slow_b None = true /\ ex_slow_b (Some 1) = true.
Proof. split; vm_compute; reflexivity. Qed.
(** What the two runs have in common. *)
Lemma ex_slow_run qer : ex_slow_b qer = true -> exists l d s s1 s2 s3 i i1 v2,
  after l d /\ ~ captured l ex_env ex_down /\ stranger l ex_env d ex_down ex_env d ex_down_first /\ answer_of ex_env d ex_down = None /\ (is_Some qer -> all_policed l) /\
  xdp ex_env ex_down d = Some (REDIRECT i, s) /\ xdp ex_env ex_down_first d = Some (REDIRECT i1, s1) /\
  xdp ex_env ex_down (x_dp s1) = Some (v2, s2) /\ xdp ex_env ex_down_first (x_dp s1) = Some (DROP, s3) /\ (qer = None -> v2 = DROP) /\
  (qer = None -> exists x, policed_by l ex_env ex_down x) /\ (is_Some qer -> exists i2, v2 = REDIRECT i2).
Proof.
  intros H. unfold ex_slow_b in H. destruct (ex_start (ex_slow qer)) as [[c l]|] eqn:Ec; [|discriminate H].
  apply andb_true_iff in H as [H HX]. rewrite !andb_true_iff in H. destruct H as ((((((H1 & H2%negb_true_iff) & H3%negb_true_iff) & H4) & H5) & H6) & H7).
  destruct (ex_out (xdp ex_env ex_down (c_dp c))) as [[[] d0]|] eqn:E1; [|discriminate HX..].
  destruct (ex_out (xdp ex_env ex_down_first (c_dp c))) as [[[] d1]|] eqn:E2; [|discriminate HX..].
  destruct (ex_out (xdp ex_env ex_down d1)) as [[b d2]|] eqn:E3; [|discriminate HX..].
  destruct (ex_out (xdp ex_env ex_down_first d1)) as [[[] d3]|] eqn:E4; [discriminate HX| |discriminate HX].
  apply bool_decide_eq_true in HX.
  apply ex_out_inv in E1 as (v & s & X1 & _ & i & ->), E2 as (v1 & s1 & X2 & <- & i1 & ->), E3 as (v2 & s2 & X3 & _ & Hv2), E4 as (v3 & s3 & X4 & _ & ->).
  pose proof (after_start _ _ _ Ec ltac:(repeat constructor; apply id_shuffle_fair) eq_refl H1) as A1. clear Ec.
  exists l, (c_dp c), s, s1, s2, s3, i, i1, v2. split; [exact A1|]. split; [exact (captured_b_ok _ _ _ H2)|].
  split; [exact (stranger_b_ok _ _ _ _ _ _ _ H5 H6 H3 H4)|]. split; [exact (down_only_answer _ _ _ H5)|].
  split. { intros [x ->]. exact (all_policed_b_ok _ H7). }
  split; [exact X1|]. split; [exact X2|]. split; [exact X3|]. split; [exact X4|]. split. { intros ->. rewrite HX in Hv2. exact Hv2. } 
  split. 2: { intros [x ->]. rewrite HX in Hv2. exact Hv2. }
  intros ->. exact (policed_b_ok _ _ _ H7).
Qed.

(** A packet of another subscriber, policed by no QER, makes the difference between forwarding a packet and dropping it. *)
Theorem neighbours_refuted : exists l d s s1 s2 i i1,
  after l d /\ ~ captured l ex_env ex_down /\ (exists x, policed_by l ex_env ex_down x) /\ answer_of ex_env d ex_down = None /\
  stranger l ex_env d ex_down ex_env d ex_down_first /\ xdp ex_env ex_down_first d = Some (REDIRECT i1, s1) /\
  xdp ex_env ex_down d = Some (REDIRECT i, s) /\ xdp ex_env ex_down (x_dp s1) = Some (DROP, s2).
Proof.
  destruct (ex_slow_run None (proj1 ex_slow_ok)) as (l & d & s & s1 & s2 & s3 & i & i1 & v2 & A & C & T & N & _ & X1 & X2 & X3 & _ & V & P & _).
  specialize (V eq_refl). specialize (P eq_refl). subst v2. exists l, d, s, s1, s2, i, i1.
  split; [exact A|]. split; [exact C|]. split; [exact P|]. split; [exact N|]. split; [exact T|]. split; [exact X2|]. split; [exact X1|exact X3].
Qed.

(** ** The hypotheses are met: the second packet uses up what its own subscriber may send for now, and that only. *)
Example ex_neighbours : exists l d s s1 s2 s3 i i1 i2,
  after l d /\ all_policed l /\ both_ways (fun g => ~ captured l ex_env g) ex_env d ex_down /\
  packets_of (stranger l ex_env d ex_down) d (x_dp s1) /\ xdp ex_env ex_down_first d = Some (REDIRECT i1, s1) /\ xdp ex_env ex_down_first (x_dp s1) = Some (DROP, s3) /\
  xdp ex_env ex_down d = Some (REDIRECT i, s) /\ xdp ex_env ex_down (x_dp s1) = Some (REDIRECT i2, s2).
Proof.
  destruct (ex_slow_run (Some 1) (proj2 ex_slow_ok)) as (l & d & s & s1 & s2 & s3 & i & i1 & v2 & A & C & T & N & L & X1 & X2 & X3 & X4 & _ & _ & V).
  specialize (V ltac:(eexists; reflexivity)). specialize (L ltac:(eexists; reflexivity)). destruct V as [i2 V]. subst v2. exists l, d, s, s1, s2, s3, i, i1, i2.
  split; [exact A|]. split; [exact L|]. split. { split; [exact C|]. intros g d1 Hg. rewrite N in Hg. discriminate Hg. }
  split. { exact (po_one _ _ d ex_env ex_down_first (REDIRECT i1) s1 (po_nil _ _) ex_env_ok T X2). }
  split; [exact X2|]. split; [exact X4|]. split; [exact X1|exact X3].
Qed.
