(** C39, C40 for frames: the bit rate of a QER over a history of packets, with other traffic and control messages between them. *)
From Verif Require Import Base IdTracker ResourceManager SdfParser SdfProps MapOps SdfMatch Pfcp PfcpProps PfcpHistory PfcpReach
  PfcpRules PfcpCreate PfcpRemove Qer Csum Xdp XdpBase XdpProps XdpRules XdpFrames XdpEcho XdpEx XdpAccount Ping Pong.
Open Scope nat_scope.

(** ** Specification *)

(** A packet that was handled: when it came, the state of the maps before and after, and what became of it. *)
Record handled := Handled { h_env : env; h_frame : list N; h_before : dp; h_verdict : verdict; h_after : dp }.
Definition processed (h : handled) : Prop :=
  env_ok (h_env h) /\
  exists s, xdp (h_env h) (h_frame h) (h_before h) = Some (h_verdict h, s) /\ x_dp s = h_after h.
(** What the data plane knows about the rate of QER [i] in direction [w]: the limit and the mark of the limiter. *)
Definition meter (w : dir) (i : N) (d : dp) : option (N * N) :=
  match qer_get d i with Some q => Some (rate w q, start w q) | None => None end.
(** Packets handled one after another.  Between two of them anything may happen to the maps (messages that install, change and
    remove rules) that leaves the rate and the mark of this QER in this direction alone. *)
Fixpoint history (w : dir) (i : N) (m : option (N * N)) (l : list handled) : Prop :=
  match l with
  | [] => True
  | h :: r => processed h /\ meter w i (h_before h) = m /\ history w i (meter w i (h_after h)) r
  end.

(** The packets the rules see: a ping of the UPF's own address that is let through and answered counts as two, the uplink packet and the
    answer, which goes through the rules as a downlink packet. *)
Definition legs (h : handled) : list handled :=
  match answer_of (h_env h) (h_before h) (h_frame h) with
  | Some (g, d1) => [Handled (h_env h) (h_frame h) (h_before h) (h_verdict h) d1; Handled (h_env h) g d1 (h_verdict h) (h_after h)]
  | None => [h]
  end.
Definition seen (l : list handled) : list handled := l ≫= legs.

(** The packet belongs to QER [i] in direction [w]: the rule that applies names that QER. *)
Definition of_qer (w : dir) (i : N) (h : handled) : bool :=
  match dir_of (h_env h) (h_frame h), w with Uplink, Uplink | Downlink, Downlink => true | _, _ => false end &&
  match rule_for (h_env h) (h_before h) (h_frame h) with Some (_, r) => (r_qer r =? i)%N | None => false end.
(** It is sent on. *)
Definition forwarded (h : handled) : bool := match h_verdict h with TX | REDIRECT _ => true | _ => false end.
Definition h_size (h : handled) : N := N.of_nat (length (h_frame h)).
Definition h_time (w : dir) (h : handled) : N := now w (h_env h).
(** The packets of QER [i] sent on in the interval [t1, t2], and their bits. *)
Definition sent_in (w : dir) (i t1 t2 : N) (l : list handled) : list handled :=
  filter (fun h => of_qer w i h = true /\ forwarded h = true /\ (t1 <= h_time w h /\ h_time w h <= t2)%N) l.
Definition sent_bits (l : list handled) : N := sumN ((fun h => (h_size h * 8)%N) <$> l).

(** The packets the limiter has to judge: those of QER [i] that the FAR and the gate let through. *)
Definition judged (w : dir) (i : N) (h : handled) : bool :=
  of_qer w i h &&
  match rule_for (h_env h) (h_before h) (h_frame h) with
  | Some (_, r) => match far_get (h_before h) (r_far r), qer_get (h_before h) (r_qer r) with
                   | Some far, Some q => far_permits w far && gate_open w q
                   | _, _ => false
                   end
  | None => false
  end.
Definition arrivals (w : dir) (i : N) (l : list handled) : list (N * N) := (fun h => (h_time w h, h_size h)) <$> filter (fun h => judged w i h = true) l.
(** The rate limiter drops nothing of it. *)
Definition passes (w : dir) (h : handled) : Prop :=
  exists p r x, rule_for (h_env h) (h_before h) (h_frame h) = Some (p, r) /\ permitted (h_env h) w (h_size h) (h_before h) r = Some x.

(** ** Proofs *)

Lemma of_qer_inv w i h : of_qer w i h = true ->
  dir_of (h_env h) (h_frame h) = w /\ exists p r, rule_for (h_env h) (h_before h) (h_frame h) = Some (p, r) /\ r_qer r = i.
Proof.
  unfold of_qer. intros H. apply andb_prop in H as [H1 H2].
  destruct (rule_for _ _ _) as [[p r]|]; [|done]. apply N.eqb_eq in H2. split; [by destruct (dir_of _ _), w|eauto].
Qed.
Lemma of_qer_intro w i h p r : dir_of (h_env h) (h_frame h) = w -> rule_for (h_env h) (h_before h) (h_frame h) = Some (p, r) -> r_qer r = i -> of_qer w i h = true.
Proof. intros <- H2 <-. unfold of_qer. rewrite H2, N.eqb_refl. by destruct (dir_of _ _). Qed.

Lemma meter_urr w i id ul dl d : meter w i (urr_add id ul dl d) = meter w i d.
Proof. unfold urr_add. by destruct (urr_get d id). Qed.

(** Answering an echo request does not touch the maps. *)
Definition same_dp {A} (m : M A) : Prop := forall s a s', m s = Some (a, s') -> x_dp s' = x_dp s.
Lemma same_bind {A B} (m : M A) (k : A -> M B) : same_dp m -> (forall a, same_dp (k a)) -> same_dp (bind m k).
Proof.
  intros H1 H2 s b s' H. unfold bind in H. destruct (m s) as [[a s1]|] eqn:E; [|done]. apply H1 in E. apply H2 in H. congruence.
Qed.
Lemma same_ret {A} (a : A) : same_dp (ret a). Proof. intros s b s' H. unfold ret in H. by simplify_eq. Qed.
Lemma same_rd o n : same_dp (rd o n). Proof. intros s b s' H. unfold rd in H. case_match; by simplify_eq. Qed.
Lemma same_rd1 o : same_dp (rd1 o). Proof. intros s b s' H. unfold rd1 in H. case_match; by simplify_eq. Qed.
Lemma same_wr o z : same_dp (wr o z). Proof. intros s b s' H. unfold wr in H. case_match; by simplify_eq. Qed.
Lemma same_fits o n : same_dp (fits o n). Proof. intros s b s' H. unfold fits in H. by simplify_eq. Qed.
Lemma same_ptr o : same_dp (ptr o). Proof. intros s b s' H. unfold ptr in H. case_match; by simplify_eq. Qed.
Lemma same_inc c : same_dp (inc c). Proof. intros s b s' H. unfold inc in H. by simplify_eq. Qed.
Lemma echo_dp e c : same_dp (handle_echo_request e c).
Proof.
  unfold handle_echo_request, insert_recovery, swap_ip, swap_port, swap_mac, add16, set_ip_csum.
  repeat first [apply same_ret | apply same_rd | apply same_rd1 | apply same_wr | apply same_fits | apply same_ptr | apply same_inc
               | apply same_bind; [|intros ?] | case_match].
Qed.

(** What happens to the maps, packet by packet. *)
Definition leg_ok (h : handled) : Prop :=
  match rule_for (h_env h) (h_before h) (h_frame h) with
  | None => h_after h = h_before h
  | Some (p, r) =>
      match permitted (h_env h) (dir_of (h_env h) (h_frame h)) (h_size h) (h_before h) r with
      | None => h_verdict h = DROP /\ h_after h = h_before h
      | Some (far, q) => h_after h = account (h_env h) (dir_of (h_env h) (h_frame h)) (h_size h) p r q (h_before h)
      end
  end.
Lemma processed_leg h : processed h -> answer_of (h_env h) (h_before h) (h_frame h) = None -> leg_ok h.
Proof.
  intros (He & s & H & Hs) Hn. destruct h as [e f d v d']. unfold leg_ok, h_size. cbn [h_env h_frame h_before h_verdict h_after] in *. subst d'.
  destruct (rule_for e d f) as [[p r]|] eqn:Hr.
  - destruct (permitted e (dir_of e f) (N.of_nat (length f)) d r) as [[far q]|] eqn:Hp.
    + pose proof (xdp_legs e f d p r far q He Hr Hp) as K. rewrite Hn in K. by apply (K v s).
    + rewrite (not_permitted_dropped e d f p r Hr Hp) in H. injection H as <- <-. done.
  - destruct (echo_request e f) eqn:Hec.
    + rewrite xdp_rule, Hec in H. destruct (handle_echo_request e (gtp_ctx f) _) as [[v1 s1]|] eqn:E; [|done]. apply echo_dp in E. cbn [finish] in H. simplify_eq. done.
    + rewrite (no_rule_passes_untouched e d f) in H by done. by injection H as _ <-.
Qed.
Fixpoint legs_history (w : dir) (i : N) (m : option (N * N)) (l : list handled) : Prop :=
  match l with
  | [] => True
  | h :: r => leg_ok h /\ meter w i (h_before h) = m /\ legs_history w i (meter w i (h_after h)) r
  end.
Lemma history_legs w i l : forall m, history w i m l -> legs_history w i m (seen l).
Proof.
  induction l as [|h l IH]; intros m H; [done|]. destruct H as (Hp & Hm & Hl). unfold seen. cbn [mbind list_bind]. apply IH in Hl.
  fold (seen l). unfold legs. destruct (answer_of (h_env h) (h_before h) (h_frame h)) as [[g d1]|] eqn:Ha.
  2: { cbn [app legs_history]. split; [by apply processed_leg|done]. }
  cbn [app legs_history]. cbn [h_before h_after]. destruct (answer_inv _ _ _ _ Ha) as (p & r & far & q & Hr & Hpm).
  pose proof Hp as (He & s & Hx & Hs). pose proof (xdp_legs _ _ _ p r far q He Hr Hpm) as K. rewrite Ha in K.
  destruct K as (Hg & Hd1 & H4 & _ & Ho). split.
  { unfold leg_ok, h_size. cbn [h_env h_frame h_before h_verdict h_after]. rewrite Hr, Hpm. rewrite Hd1. unfold dir_of. by rewrite Hg. }
  split; [done|]. split; [|done]. apply processed_leg; [|cbn [h_env h_before h_frame]; by apply answer_last].
  split; [done|]. cbn [h_env h_frame h_before h_verdict h_after]. rewrite Hx in Ho. destruct (xdp (h_env h) g d1) as [[v' s']|]; [|done].
  cbn [outcome] in Ho. injection Ho as -> _ Hd. exists s'. split; [done|]. by rewrite <- Hd.
Qed.

(** One packet and the meter. *)
Lemma packet_meter w i h R S : leg_ok h -> meter w i (h_before h) = Some (R, S) ->
  if judged w i h then
    (fst (limit_rate (h_size h) S R (h_time w h)) = true <-> passes w h) /\
    meter w i (h_after h) = Some (R, snd (limit_rate (h_size h) S R (h_time w h)))
  else meter w i (h_after h) = Some (R, S) /\ (of_qer w i h = true -> forwarded h = false).
Proof.
  intros H Hm. destruct h as [e f d v d']. unfold leg_ok, judged, passes, h_size, h_time, forwarded in *.
  cbn [h_env h_frame h_before h_verdict h_after] in *.
  set (sz := N.of_nat (length f)) in *.
  destruct (rule_for e d f) as [[p r]|] eqn:Hr.
  2: { unfold of_qer. cbn [h_env h_frame h_before]. rewrite Hr, !andb_false_r. cbn [andb]. subst d'. split; [done|by intros ?]. }
  destruct (permitted e (dir_of e f) sz d r) as [[far q]|] eqn:Hp.
  - subst d'. destruct (permitted_qer _ _ _ _ _ _ _ Hp) as [Hg Hb].
    pose proof Hp as Hp'. unfold permitted in Hp'. rewrite Hg in Hp'. destruct (far_get d (r_far r)) as [far1|] eqn:Ef; [|done].
    destruct (_ && _) eqn:Ea in Hp'; [|done]. apply (inj Some) in Hp'. injection Hp' as ->. apply andb_prop in Ea as [Ea Er].
    unfold account. destruct (volume (dir_of e f) sz) as [ul dl]. rewrite !meter_urr.
    match goal with |- context [of_qer w i ?h] => destruct (of_qer w i h) eqn:Eo end.
    + apply of_qer_inv in Eo as [Ew (p' & r' & Er' & Ei)]. cbn [h_env h_frame h_before] in *. rewrite Hr in Er'. injection Er' as <- <-. subst i w.
      rewrite Hg, Ea. cbn [andb]. unfold meter in Hm. rewrite Hg in Hm. injection Hm as HR HS. unfold in_rate in Er. rewrite HR, HS in Er.
      split; [split; [intros _; by exists p, r, (far, q)|done]|].
      unfold mark. rewrite HR, HS. destruct (N.eqb_spec R 0) as [->|HR0].
      * unfold meter. rewrite Hg, HR, HS. done.
      * unfold meter. rewrite qer_insert by done. rewrite decide_True by done. destruct (dir_of e f); cbn; by rewrite <- HR.
    + cbn [andb]. split; [|by intros ?]. unfold mark. destruct (rate (dir_of e f) q =? 0)%N; [done|].
      unfold meter in *. rewrite qer_insert by done. destruct (decide (i = r_qer r)) as [->|]; [|done]. rewrite Hg in Hm.
      assert (Hw : dir_of e f <> w). { intros Hw. rewrite (of_qer_intro w (r_qer r) _ p r) in Eo; done. }
      destruct (dir_of e f), w; done.
  - destruct H as [-> ->].
    destruct (of_qer w i (Handled e f d DROP d)) eqn:Eo; [|split; [done|by intros ?]].
    apply of_qer_inv in Eo as [Ew (p' & r' & Er' & Ei)]. cbn [h_env h_frame h_before andb] in *. rewrite Hr in Er'. injection Er' as <- <-. subst i w.
    unfold permitted in Hp. destruct (far_get d (r_far r)) as [far1|] eqn:Ef; [|done]. destruct (qer_get d (r_qer r)) as [q|] eqn:Eq; [|done].
    unfold meter in Hm. rewrite Eq in Hm. injection Hm as HR HS. unfold in_rate in Hp. rewrite HR, HS in Hp.
    destruct (far_permits (dir_of e f) far1 && gate_open (dir_of e f) q); cbn [andb] in *; [|by unfold meter; rewrite Eq, HR, HS].
    destruct (limit_rate sz S R (now (dir_of e f) e)) as [b S'] eqn:El. cbn [fst snd] in *. destruct b; [done|].
    split; [split; [done|]|].
    + intros (p1 & r1 & x & E1 & E2). injection E1 as <- <-. unfold permitted in E2. rewrite Ef, Eq in E2. unfold in_rate in E2.
      rewrite HR, HS, El in E2. cbn [fst] in E2. by rewrite andb_false_r in E2.
    + unfold meter. rewrite Eq, HR, HS. unfold limit_rate in El. repeat (case_match; simplify_eq). done.
Qed.

(** The whole history and the limiter of Qer.v. *)
Lemma history_limit w i R l : forall S, legs_history w i (Some (R, S)) l ->
  exists L, limit R S (arrivals w i l) = L /\
    (forall t1 t2, (sent_bits (sent_in w i t1 t2 l) <= bits (passed_in t1 t2 L))%N) /\
    (Forall (fun e : N * N * bool => e.2 = true) L -> Forall (fun h => judged w i h = true -> passes w h) l).
Proof.
  induction l as [|h l IH]; intros S H; [by exists []|]. destruct H as (Hp & Hm & Hl).
  pose proof (packet_meter w i h R S Hp Hm) as Hk. unfold arrivals, sent_in. rewrite filter_cons.
  destruct (judged w i h) eqn:Ej.
  - rewrite decide_True by done. destruct Hk as [Hpass Hm']. rewrite Hm' in Hl. destruct (IH _ Hl) as (L & HL & Hs & Hf).
    rewrite fmap_cons. cbn [limit fst snd]. destruct (limit_rate (h_size h) S R (h_time w h)) as [b S'] eqn:El. cbn [fst snd] in *.
    eexists. split; [reflexivity|]. fold (arrivals w i l). rewrite HL. split.
    + intros t1 t2. specialize (Hs t1 t2). rewrite passed_in_cons, filter_cons. cbn [fst snd].
      destruct (decide (of_qer w i h = true /\ forwarded h = true /\ (t1 <= h_time w h /\ h_time w h <= t2)%N)) as [(Ho & Hfw & Ht)|_].
      * assert (b = true) as ->.
        { apply Hpass. apply of_qer_inv in Ho as [Ew (p & r & Hr & _)].
          unfold passes. exists p, r. destruct (permitted (h_env h) w (h_size h) (h_before h) r) as [x|] eqn:Ex; [by exists x|].
          unfold leg_ok in Hp. rewrite Hr, Ew, Ex in Hp. destruct Hp as [Hv _]. unfold forwarded in Hfw. by rewrite Hv in Hfw. }
        rewrite decide_True by done. unfold sent_bits, bits. rewrite !fmap_cons, !sumN_cons. cbn [snd]. unfold sent_bits, sent_in, bits in Hs. lia.
      * unfold sent_bits, bits, sent_in in *. destruct (decide _); [|done]. rewrite fmap_cons, sumN_cons. lia.
    + intros Hall. apply Forall_cons in Hall as [Hb Hall]. simpl in Hb. subst b. constructor; [|by apply Hf]. intros _. by apply Hpass.
  - rewrite decide_False by done. destruct Hk as [Hm' Hnf]. rewrite Hm' in Hl. destruct (IH _ Hl) as (L & HL & Hs & Hf).
    exists L. split; [done|]. split.
    + intros t1 t2. rewrite filter_cons. rewrite decide_False; [apply Hs|]. intros (Ho & Hfw & _). by rewrite (Hnf Ho) in Hfw.
    + intros Hall. constructor; [intros ?; congruence|by apply Hf].
Qed.

(** Sizes and times as in Qer.v. *)
Definition plausible (w : dir) (m : N) (l : list handled) : Prop :=
  Forall (fun h => h_time w h < 2 ^ 63 /\ h_size h <= m)%N l /\ (m < 2 ^ 16)%N.
Lemma plausible_sane w i m l : plausible w m l -> sane (arrivals w i l) /\ Forall (fun p : N * N => (p.2 <= m)%N) (arrivals w i l).
Proof.
  intros [H Hm]. assert (forall p, p ∈ arrivals w i l -> (p.1 < 2 ^ 63 /\ p.2 <= m)%N) as G.
  { intros p Hin. unfold arrivals in Hin. apply elem_of_list_fmap in Hin as (h & -> & Hin). apply elem_of_list_filter in Hin as [_ Hin].
    rewrite Forall_forall in H. by apply H. }
  split; apply Forall_forall; intros p Hin; specialize (G p Hin); [split|]; lia.
Qed.

Lemma legs_plausible w m l : Forall processed l -> plausible w m l -> plausible w m (seen l).
Proof.
  intros Hp [H Hm]. split; [|done]. apply Forall_forall. intros x Hx. unfold seen in Hx. apply elem_of_list_bind in Hx as (h & Hx & Hin).
  rewrite Forall_forall in Hp, H. pose proof (Hp h Hin) as (He & s & Hxd & _). pose proof (H h Hin) as [H1 H2]. unfold legs in Hx.
  destruct (answer_of (h_env h) (h_before h) (h_frame h)) as [[g d1]|] eqn:Ha; [|by apply elem_of_list_singleton in Hx as ->].
  destruct (answer_inv _ _ _ _ Ha) as (p & r & far & q & Hr & Hpm). pose proof (xdp_legs _ _ _ p r far q He Hr Hpm) as K. rewrite Ha in K.
  destruct K as (_ & _ & _ & Hlen & _). unfold h_time, h_size in *.
  apply elem_of_cons in Hx as [->|Hx]; [done|]. apply elem_of_list_singleton in Hx as ->. cbn [h_env h_frame]. split; [done|lia].
Qed.
Lemma history_processed w i l : forall m, history w i m l -> Forall processed l.
Proof. induction l as [|h l IH]; intros m H; [constructor|]. destruct H as (H1 & _ & H2). constructor; [done|by eapply IH]. Qed.

(** ** C39 *)
(** In every interval, the bits of the frames sent on under one QER in one direction. *)
Theorem frames_within_mbr_partial :
  forall w i R S l m t1 t2, history w i (Some (R, S)) l -> plausible w m l ->
    R <> 0%N -> (S <= 2 ^ 63)%N -> (t1 <= t2)%N ->
    let sent := sent_bits (sent_in w i t1 t2 (seen l)) in
    (((R | NSEC) -> sent * NSEC <= R * (t2 - t1) + N.max (R * WINDOW) (m * 8 * NSEC)) /\
     (R <= NSEC -> sent * NSEC <= 2 * (R * (t2 - t1) + N.max (R * WINDOW) (m * 8 * NSEC))))%N.
Proof.
  intros w i R S l m t1 t2 Hh Hp HR HS Ht sent. destruct (history_limit w i R (seen l) S (history_legs _ _ _ _ Hh)) as (L & HL & Hb & _). specialize (Hb t1 t2). fold sent in Hb.
  destruct (plausible_sane w i m _ (legs_plausible w m l (history_processed _ _ _ _ Hh) Hp)) as [H1 H2]. destruct Hp as [_ Hm].
  pose proof (mbr_enforced_partial R S (arrivals w i (seen l)) m t1 t2 HR HS H1 Hm H2 Ht) as H. cbv zeta in H. rewrite HL in H.
  destruct H as [Ha Hc]. assert (sent * NSEC <= bits (passed_in t1 t2 L) * NSEC)%N by (by apply N.mul_le_mono_r).
  split; intros Hx; [specialize (Ha Hx)|specialize (Hc Hx)]; lia.
Qed.

(** ** C40 *)
(** If what FAR and gate let through conforms to the rate (and the limiter was idle before), the limiter drops nothing. *)
Theorem conforming_frames_pass :
  forall w i R S l m p0 rest, history w i (Some (R, S)) l -> plausible w m l ->
    arrivals w i (seen l) = p0 :: rest -> (S + WINDOW <= p0.1)%N -> conforms R (arrivals w i (seen l)) ->
    Forall (fun h => judged w i h = true -> passes w h) (seen l).
Proof.
  intros w i R S l m p0 rest Hh Hp Ha HS Hc. destruct (history_limit w i R (seen l) S (history_legs _ _ _ _ Hh)) as (L & HL & _ & Hf). apply Hf. rewrite <- HL.
  destruct (plausible_sane w i m _ (legs_plausible w m l (history_processed _ _ _ _ Hh) Hp)) as [H1 _]. rewrite Ha in *. by apply conforming_never_dropped.
Qed.
(** Without a limit it never drops anything. *)
Theorem unlimited_frames_pass :
  forall w i S l, history w i (Some (0%N, S)) l -> Forall (fun h => judged w i h = true -> passes w h) (seen l).
Proof.
  intros w i S l Hh. destruct (history_limit w i 0 (seen l) S (history_legs _ _ _ _ Hh)) as (L & HL & _ & Hf). apply Hf. rewrite <- HL. apply unlimited_never_dropped.
Qed.
(** What [passes] means for the packet: it is not refused but goes to routing; uplink it leaves as described in [uplink_decapsulated] and [uplink_relayed_partial],
    downlink as in [downlink_encapsulated]. *)

(** ** Concrete cases *)
Definition ex_at (t : N) : env := Env [10; 0; 0; 1]%N [10; 0; 0; 2]%N t t 3 ex_fib (Some (repeat 170%N 44)) (fun data => oc_sum (words le data)).
Lemma ex_at_ok t : env_ok (ex_at t).
Proof.
  constructor; simpl; try (by split; [|repeat constructor; lia]).
  - intros _. split; (split; [done|repeat constructor; lia]).
  - intros h [= <-]. split; [done|repeat constructor; lia].
  - apply ex_diff.
Qed.
(** QER 1 allows 100 kbit/s downlink. *)
Definition ex_dp_limited : dp :=
  Dp {[ 256%N := ex_entry 1 1 ]} {[ 171704321%N := ex_entry 3 1 ]} ∅ 64
     (<[1%N := Far 2 0 0 0 0]> {[ 3%N := Far 2 1 85 150994954 10240 ]}) 64
     {[ 1%N := Qer 0 0 9 0 100000 0 0 ]} 64 ∅ 64 (new_tracker 64) (new_tracker 64) (new_tracker 64).
(** Packets one after another, nothing in between. *)
Definition one (x : N * list N) (d : dp) : handled :=
  match xdp (ex_at x.1) x.2 d with Some (v, s) => Handled (ex_at x.1) x.2 d v (x_dp s) | None => Handled (ex_at x.1) x.2 d DROP d end.
Fixpoint play (l : list (N * list N)) (d : dp) : list handled :=
  match l with [] => [] | x :: r => one x d :: play r (h_after (one x d)) end.
Fixpoint plays (l : list (N * list N)) (d : dp) : bool :=
  match l with [] => true | x :: r => (match xdp (ex_at x.1) x.2 d with Some _ => true | None => false end) && plays r (h_after (one x d)) end.
Lemma play_history w i l : forall d, plays l d = true -> history w i (meter w i d) (play l d).
Proof.
  induction l as [|x l IH]; intros d H; [done|]. cbn [plays] in H. apply andb_prop in H as [H1 H2].
  cbn [play history]. split; [|split; [|by apply IH]].
  - unfold one. destruct (xdp (ex_at x.1) x.2 d) as [[v s]|] eqn:E; [|done]. split; [apply ex_at_ok|]. exists s. split; [exact E|done].
  - unfold one. destruct (xdp (ex_at x.1) x.2 d) as [[v s]|]; done.
Qed.
(** Downlink packets of 46 bytes take 3.68 ms each at this rate; an uplink packet among them.  The second and third come too early and are dropped,
    the fourth passes.  The UE's ping of the UPF is an uplink packet of 82 bytes; its answer is a downlink packet of 46 bytes. *)
Definition ex_times : list (N * list N) :=
  [(1000000000, ex_down); (1000000100, ex_up); (1000000200, ex_down); (1000000300, ex_down); (1004000000, ex_down); (1008000000, ex_ping_up)]%N.
Example ex_rate_history : history Downlink 1 (Some (100000, 0)%N) (play ex_times ex_dp_limited) /\ plausible Downlink 100 (play ex_times ex_dp_limited) /\
  ((100000 | NSEC)%N) /\
  h_verdict <$> play ex_times ex_dp_limited = [REDIRECT 7; REDIRECT 7; DROP; DROP; REDIRECT 7; REDIRECT 7]%N /\
  length (seen (play ex_times ex_dp_limited)) = 7 /\
  sent_bits (sent_in Downlink 1 1000000000 1004000000 (seen (play ex_times ex_dp_limited))) = 736%N /\
  sent_bits (sent_in Downlink 1 1000000000 1008000000 (seen (play ex_times ex_dp_limited))) = 1104%N.
Proof.
  split; [|split; [|split; [|split; [|split; [|split]]]]].
  - change (Some (100000, 0)%N) with (meter Downlink 1 ex_dp_limited). apply play_history. by vm_compute.
  - split; [|done]. assert (forallb (fun h => (h_time Downlink h <? 2 ^ 63) && (h_size h <=? 100))%N (play ex_times ex_dp_limited) = true) as H by (by vm_compute).
    apply Forall_forall. intros h Hin. rewrite forallb_forall in H. apply elem_of_list_In in Hin. specialize (H h Hin). cbv beta in H. apply andb_prop in H as [H1 H2].
    apply N.ltb_lt in H1. apply N.leb_le in H2. done.
  - by exists 10000%N.
  - by vm_compute.
  - by vm_compute.
  - by vm_compute.
  - by vm_compute.
Qed.
(** One packet every 4 ms conforms to the rate. *)
Definition ex_steady : list (N * list N) := [(1000000000, ex_down); (1000000100, ex_up); (1004000000, ex_ping_up); (1008000000, ex_down)]%N.
Example ex_rate_conforming : history Downlink 1 (Some (100000, 0)%N) (play ex_steady ex_dp_limited) /\ plausible Downlink 100 (play ex_steady ex_dp_limited) /\
  arrivals Downlink 1 (seen (play ex_steady ex_dp_limited)) = [(1000000000, 46); (1004000000, 46); (1008000000, 46)]%N /\
  conforms 100000 [(1000000000, 46); (1004000000, 46); (1008000000, 46)]%N.
Proof.
  split; [|split; [|split]].
  - change (Some (100000, 0)%N) with (meter Downlink 1 ex_dp_limited). apply play_history. by vm_compute.
  - split; [|done]. assert (forallb (fun h => (h_time Downlink h <? 2 ^ 63) && (h_size h <=? 100))%N (play ex_steady ex_dp_limited) = true) as H by (by vm_compute).
    apply Forall_forall. intros h Hin. rewrite forallb_forall in H. apply elem_of_list_In in Hin. specialize (H h Hin). cbv beta in H. apply andb_prop in H as [H1 H2].
    apply N.ltb_lt in H1. apply N.leb_le in H2. done.
  - by vm_compute.
  - intros l1 p mid l3 H. destruct l1 as [|? [|? [|? [|]]]]; simplify_list_eq; try (by destruct mid).
    all: destruct mid as [|? [|? [|]]]; simplify_list_eq; try (by vm_compute).
Qed.
