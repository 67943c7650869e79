(** C100: an Update PDR that asks for nothing new. *)
From Verif Require Import Base IdTracker ResourceManager SdfParser SdfProps MapOps SdfMatch Pfcp PfcpProps PfcpHistory PfcpReach
  PfcpRules PfcpCreate PfcpRemove PfcpReject PfcpInv PfcpAsked PfcpKeys PfcpUpdate Qer Csum Xdp XdpBase XdpProps XdpRules XdpFrames XdpEcho XdpEx XdpAccount
  EndToEnd EndToEndLog Ping Pong XdpRate Layout Rest RestWrites InFlight.
Open Scope N_scope.

(** ** Specification *)

(** An Update PDR that repeats (part of) what was asked for the PDR before: header removal, FAR, QER, filter, and the tunnel or address. *)
Definition repeats (p : pdr_ie) (a : pdr_ask) : Prop :=
  (pe_ohr p = None \/ pe_ohr p = Some (ak_ohr a)) /\ (pe_far p = None \/ pe_far p = ak_far a) /\ (pe_qer p = None \/ pe_qer p = ak_qer a) /\
  (said_sdf p = None \/ said_sdf p = ak_sdf a) /\ same_key p (ak_key a) = true.

(** ** Proof *)
Lemma agreeR_updated FG QG ch s p a old new : agreeR FG QG old a -> repeats p a -> updated ch s p old new ->
  (forall j g, FG j g -> match s_fars s !! j with Some f => sf_gid f = g | None => False end) ->
  (forall j g, QG j g -> match s_qers s !! j with Some f => sq_gid f = g | None => False end) ->
  (pr_sdf (sd_info old) = None -> said_sdf p = None) ->
  pr_ohr (sd_info new) = pr_ohr (sd_info old) /\ pr_far (sd_info new) = pr_far (sd_info old) /\ pr_qer (sd_info new) = pr_qer (sd_info old) /\
  pr_sdf (sd_info new) = pr_sdf (sd_info old).
Proof.
  intros [A1 A2 A3 A4 A5] (R1 & R2 & R3 & R4 & _) [_ U1 U2 U3 _ _ U4 _ _] HF HQ Hno. split_and!.
  - rewrite U1. destruct R1 as [-> | ->]; [done|]. by rewrite A2.
  - destruct R2 as [R2|R2]; rewrite R2 in U2; [done|]. destruct (ak_far a) as [j|]; [|done]. rewrite U2.
    specialize (HF _ _ (A4 j eq_refl)). destruct (s_fars s !! j); [done|done].
  - destruct R3 as [R3|R3]; rewrite R3 in U3; [done|]. destruct (ak_qer a) as [j|]; [|done]. rewrite U3.
    specialize (HQ _ _ (A5 j eq_refl)). destruct (s_qers s !! j); [done|done].
  - unfold said_sdf in R4, Hno. destruct (pe_sdf p) as [[|x t]|]; [done| |done]. destruct U4 as (f & Hf & ->). rewrite Hf in R4, Hno.
    destruct R4 as [|R4]; [done|]. rewrite A3, <- R4. done.
Qed.

(** What the data plane has for a key: nothing, or the entry of the one PDR with this key. *)
Lemma key_owner P c k : keyed P c ->
  (exists a n s pm i p, session_of c a n = Some s /\ P !! (a, n) = Some pm /\ s_pdrs s !! i = Some p /\ spdr_key p = k /\
     dp_find (c_dp c) k = Some (entry_of (upd pm i) (sd_info p))) \/
  dp_find (c_dp c) k = None /\ (forall a n s, session_of c a n = Some s -> ~ owned (s_pdrs s) k).
Proof.
  intros [K1 K2 K3 K4 K5]. destruct (dp_find (c_dp c) k) as [ep|] eqn:E.
  - left. destruct (K4 _ _ E) as (a & n & s & Hs & i & p & Hi & Hk). destruct (K1 _ _ _ Hs) as (pm & Hpm & _).
    exists a, n, s, pm, i, p. split_and!; try done. rewrite <- E, <- Hk. by eapply K3.
  - right. split; [done|]. intros a n s Hs (i & p & Hi & Hk). destruct (K1 _ _ _ Hs) as (pm & Hpm & _).
    pose proof (K3 _ _ _ _ _ _ Hs Hpm Hi) as Hx. congruence.
Qed.

(** Other sessions keep their state, whatever a modification is answered. *)
Lemma others_same sh addr seq q c c' r : handle sh addr seq (SessModReq q) c = Done c' (Some r) -> r_cause r = Some 1 ->
  forall a n, (a, n) <> (addr, mq_seid q) -> session_of c' a n = session_of c a n.
Proof.
  intros H Hr a n Hne. simpl in H. unfold handle_mod in H.
  destruct (c_assocs c !! addr) as [a0|] eqn:Ea; [|by simplify_eq].
  destruct (a_sessions a0 !! mq_seid q) as [s|] eqn:Es; [|by simplify_eq].
  destruct (_ || _); [done|]. destruct (mod_rules _ _ _ _) as [w|w|]; simplify_eq.
  unfold session_of. simpl. destruct (decide (a = addr)) as [->|Hp].
  - rewrite lookup_insert, Ea. simpl. rewrite lookup_insert_ne; [done|]. congruence.
  - by rewrite lookup_insert_ne.
Qed.

(** What the log says about the PDRs after updates: the key stays, and a PDR that captures goes on doing so. *)
Lemma pdrs_updated_rel ps : forall (pm : pdr_table) i,
  match pm !! i, pdrs_updated ps pm !! i with
  | Some a, Some a' => ak_key a' = ak_key a /\ (is_Some (ak_sdf a) <-> is_Some (ak_sdf a')) /\ (ak_again a = true -> is_Some (ak_sdf a) -> ak_again a' = true)
  | None, None => True
  | _, _ => False
  end.
Proof.
  induction ps as [|p ps IH]; intros pm i; cbn [pdrs_updated foldl].
  { destruct (pm !! i); [done|done]. }
  destruct (pe_id p) as [j|]; [|apply IH]. specialize (IH (alter (pdr_updated p) j pm) i). destruct (decide (i = j)) as [->|Hne].
  - rewrite lookup_alter in IH. destruct (pm !! j) as [a|]; cbn [fmap option_fmap option_map] in IH; [|done].
    unfold pdrs_updated in IH. destruct (foldl _ _ ps !! j) as [a'|]; [|done]. destruct IH as (I1 & I2 & I3). cbn [pdr_updated ak_key ak_sdf ak_again] in *.
    split; [done|]. rewrite <- I2. split; [|intros _ Hs; apply I3; destruct (ak_sdf a) as [flt|]].
    + destruct (ak_sdf a) as [flt|]; [|done]. destruct (said_sdf p); split; intros _; by eexists.
    + done.
    + by destruct Hs.
    + destruct (said_sdf p); by eexists.
    + by destruct Hs.
  - by rewrite lookup_alter_ne in IH by done.
Qed.

Lemma removed_nil (m : pdr_table) : pdrs_removed [] m = m. Proof. done. Qed.
Lemma created_nil r (m : pdr_table) : pdrs_created r [] m = m. Proof. done. Qed.

Lemma entry_of_fields b i i' : pr_ohr i' = pr_ohr i -> pr_far i' = pr_far i -> pr_qer i' = pr_qer i -> pr_sdf i' = pr_sdf i -> entry_of b i' = entry_of b i.
Proof. intros H1 H2 H3 H4. unfold entry_of, combine_pdr_with_sdf, to_entrypoint. by rewrite H1, H2, H3, H4. Qed.

(** The request: nothing but Update PDRs, one for each PDR, that repeat what was asked before. *)
Definition asks_nothing_new (l : log) (addr : N) (q : mod_req) : Prop :=
  exists ps, only_pdr_updates q ps /\ NoDup (pe_id <$> ps) /\
    forall p, p ∈ ps -> exists i a, pe_id p = Some i /\ pdr_asked l addr (mq_seid q) i = Some a /\ repeats p a.

Definition nearly (l' : log) (k : key) (o o' : option ep_pdr) : Prop :=
  match o, o' with
  | None, None => True
  | Some ep, Some ep' => exists b b' i, ep = entry_of b i /\ ep' = entry_of b' i /\
      forall flt, pr_sdf i = Some flt -> (b = true -> b' = true) /\
        (b' = true -> exists a n j ask, pdr_asked l' a n j = Some ask /\ ak_key ask = k /\ ak_sdf ask = Some flt /\ ak_again ask = true)
  | _, _ => False
  end.
Lemma updates_nearly l ev addr q r c c' sh seq :
  keyed (pdrs_in l) c -> keyed (pdrs_in (l ++ [(ev, Some r)])) c' -> ev = Recv sh addr seq (SessModReq q) ->
  step c ev = Done c' (Some r) -> r_cause r = Some 1 -> asks_nothing_new l addr q ->
  (forall i, far_get (c_dp c') i = far_get (c_dp c) i /\ qer_get (c_dp c') i = qer_get (c_dp c) i) /\
  forall k, nearly (l ++ [(ev, Some r)]) k (dp_find (c_dp c) k) (dp_find (c_dp c') k).
Proof.
  intros K K' -> Hs Hr (ps & Ho & Hnd & Hps). cbn [step] in Hs. pose proof (others_same _ _ _ _ _ _ _ Hs Hr) as Hoth.
  pose proof Hs as Hh. apply handle_mod_inv in Hh as (a0 & s & _ & Ha0 & Hs0 & _); [|done].
  assert (Hses : session_of c addr (mq_seid q) = Some s) by (unfold session_of; by rewrite Ha0). clear Ha0 Hs0.
  destruct (updates_change_what_they_say_partial _ _ _ _ _ _ _ _ _ Hs Hr Ho Hnd Hses) as (s' & Hs' & Hup & Hkeep & _ & _ & _ & D1 & D2 & _ & _ & _ & _ & D3 & D4 & _).
  split; [intros i; unfold far_get, qer_get; by rewrite D1, D2, D3, D4|]. clear D1 D2 D3 D4 Hs.
  set (l' := l ++ _) in *. destruct Ho as (_ & _ & _ & _ & _ & _ & _ & _ & _ & E1 & E2 & E3).
  assert (HP : pdrs_in l' = alter (pdrs_updated ps) (addr, mq_seid q) (pdrs_in l)).
  { unfold pdrs_in, l'. rewrite foldl_app. cbn [foldl pdrs_step]. rewrite Hr, E1, E2, E3. done. }
  destruct (kd_ses _ _ K _ _ _ Hses) as (pm & Hpm & HA). destruct (kd_ses _ _ K' _ _ _ Hs') as (pm' & Hpm' & HA').
  assert (pm' = pdrs_updated ps pm) as ->. { rewrite HP, lookup_alter, Hpm in Hpm'. by injection Hpm' as <-. }
  (* the PDRs of the session are as before *)
  assert (Hpd : forall i p, s_pdrs s !! i = Some p -> exists p' a a', s_pdrs s' !! i = Some p' /\ spdr_key p' = spdr_key p /\
    (forall b, entry_of b (sd_info p') = entry_of b (sd_info p)) /\ pm !! i = Some a /\ pdrs_updated ps pm !! i = Some a' /\
    ak_key a' = spdr_key p /\ ak_sdf a' = pr_sdf (sd_info p) /\ (ak_again a = true -> is_Some (pr_sdf (sd_info p)) -> ak_again a' = true)).
  { intros i p Hi. pose proof (pdrs_updated_rel ps pm i) as Hrel. pose proof (HA i) as Hag. rewrite Hi in Hag.
    destruct (pm !! i) as [a|] eqn:Ea; [|by inversion Hag]. assert (Hag1 : agreeR (far_at s) (qer_at s) p a) by (by inversion Hag). clear Hag.
    destruct (pdrs_updated ps pm !! i) as [a'|] eqn:Ea'; [|done]. destruct Hrel as (R1 & R2 & R3).
    pose proof (HA' i) as Hag. rewrite Ea' in Hag. destruct (s_pdrs s' !! i) as [p'|] eqn:Ep'; [|by inversion Hag].
    assert (Hag2 : agreeR (far_at s') (qer_at s') p' a') by (by inversion Hag). clear Hag.
    assert (Hinfo : pr_ohr (sd_info p') = pr_ohr (sd_info p) /\ pr_far (sd_info p') = pr_far (sd_info p) /\ pr_qer (sd_info p') = pr_qer (sd_info p) /\ pr_sdf (sd_info p') = pr_sdf (sd_info p)).
    { destruct (decide (Some i ∈ pe_id <$> ps)) as [Hin|Hnin].
      - apply elem_of_list_fmap in Hin as (pe & Hpe & Hin). destruct (Hps _ Hin) as (i1 & a1 & Hi1 & Ha1 & Hrep).
        assert (i1 = i) as -> by congruence. unfold pdr_asked in Ha1. rewrite Hpm in Ha1. cbn [mbind option_bind] in Ha1. assert (a1 = a) as -> by congruence.
        destruct (Hup _ _ Hin Hi1) as (new & Hnew & Hupd). rewrite Hi in Hupd. cbn [default from_option id] in Hupd. assert (new = p') as -> by congruence.
        eapply agreeR_updated; [exact Hag1|exact Hrep|exact Hupd|..].
        + intros j g (x & -> & Hx). exact Hx.
        + intros j g (x & -> & Hx). exact Hx.
        + intros Hno. destruct Hrep as (_ & _ & _ & [H|H] & _); [done|]. rewrite H, <- (ag_sdf _ _ _ _ Hag1). exact Hno.
      - rewrite (Hkeep _ Hnin) in Ep'. assert (p' = p) as -> by congruence. done. }
    destruct Hinfo as (I1 & I2 & I3 & I4). exists p', a, a'. split; [done|].
    pose proof (ag_key _ _ _ _ Hag1). pose proof (ag_key _ _ _ _ Hag2). pose proof (ag_sdf _ _ _ _ Hag1). pose proof (ag_sdf _ _ _ _ Hag2).
    split; [congruence|]. split; [intros b; by apply entry_of_fields|]. split; [done|]. split; [done|]. split; [congruence|]. split; [congruence|].
    intros Hx Hy. apply R3; [done|]. congruence. }
  intros k. destruct (key_owner _ _ k K) as [(a & n & sx & pmx & i & p & Hsx & Hpx & Hi & Hk & Hd)|[Hd Hno]].
  - rewrite Hd. destruct (decide ((a, n) = (addr, mq_seid q))) as [Heq|Hne].
    + injection Heq as -> ->. assert (sx = s) as -> by congruence. assert (pmx = pm) as -> by congruence.
      destruct (Hpd _ _ Hi) as (p' & b & b' & Hi' & Hk' & He & Hb & Hb' & Hkb & Hsb & Hag).
      pose proof (kd_in _ _ K' _ _ _ _ _ _ Hs' Hpm' Hi') as Hd'. rewrite Hk', Hk in Hd'. rewrite Hd'. rewrite He.
      eexists _, _, (sd_info p). split; [reflexivity|]. split; [reflexivity|]. intros flt Hflt. unfold upd. rewrite Hb, Hb'. split; [intros Hx; apply Hag; [done|by eexists]|].
      intros Hx. exists addr, (mq_seid q), i, b'. unfold pdr_asked. rewrite Hpm'. cbn [mbind option_bind]. split_and!; [done|congruence|congruence|done].
    + assert (Hsx' : session_of c' a n = Some sx) by (by rewrite Hoth).
      assert (Hpx' : pdrs_in l' !! (a, n) = Some pmx) by (by rewrite HP, lookup_alter_ne).
      pose proof (kd_in _ _ K' _ _ _ _ _ _ Hsx' Hpx' Hi) as Hd'. rewrite Hk in Hd'. rewrite Hd'.
      eexists _, _, (sd_info p). split; [reflexivity|]. split; [reflexivity|]. intros flt Hflt. split; [done|]. unfold upd. intros Hx.
      destruct (kd_ses _ _ K' _ _ _ Hsx') as (pm2 & Hpm2 & HA2). assert (pm2 = pmx) as -> by congruence.
      pose proof (HA2 i) as Hag. rewrite Hi in Hag. destruct (pmx !! i) as [ask|] eqn:Ei; [|done]. assert (Hag1 : agreeR (far_at sx) (qer_at sx) p ask) by (by inversion Hag).
      exists a, n, i, ask. unfold pdr_asked. rewrite Hpx'. cbn [mbind option_bind]. destruct Hag1 as [G1 _ G3 _ _]. split_and!; [done|congruence|congruence|done].
  - rewrite Hd. cbn [nearly]. destruct (key_owner _ _ k K') as [(a & n & sx & pmx & i & p & Hsx & Hpx & Hi & Hk & Hd')|[Hd' _]]; [|by rewrite Hd'].
    exfalso. destruct (decide ((a, n) = (addr, mq_seid q))) as [Heq|Hne].
    + injection Heq as -> ->. assert (sx = s') as -> by congruence. assert (pmx = pdrs_updated ps pm) as -> by congruence.
      pose proof (HA' i) as Hag. rewrite Hi in Hag. pose proof (pdrs_updated_rel ps pm i) as Hrel. pose proof (HA i) as Hag0.
      destruct (pdrs_updated ps pm !! i) as [a'|]; [|by inversion Hag]. destruct (pm !! i) as [ax|]; [|done].
      destruct (s_pdrs s !! i) as [p0|] eqn:Hp0; [|by inversion Hag0]. destruct (Hpd _ _ Hp0) as (p' & _ & _ & Hi' & Hk' & _).
      assert (p' = p) as -> by congruence. apply (Hno _ _ _ Hses). exists i, p0. split; [done|congruence].
    + rewrite Hoth in Hsx by done. apply (Hno _ _ _ Hsx). by exists i, p.
Qed.

Definition captured (l : log) (e : env) (f : list N) : Prop := exists addr seid i a, pdr_asked l addr seid i = Some a /\ captures e a f.
Lemma nearly_rules l' e f d d' :
  (forall k, nearly l' k (dp_find d k) (dp_find d' k)) -> ~ captured l' e f -> option_map snd (rule_for e d' f) = option_map snd (rule_for e d f).
Proof.
  intros H Hn. unfold rule_for. rewrite !entry_key. destruct (frame_key e f) as [k|] eqn:Ek; [|done]. specialize (H k).
  destruct (dp_find d k) as [ep|], (dp_find d' k) as [ep'|]; try done. destruct H as (b & b' & i & -> & -> & Hflt).
  unfold entry_of. destruct (pr_sdf i) as [flt|]; [|done]. destruct (Hflt flt eq_refl) as [Hbb Hb'].
  assert (forall b : bool, er_filter (ep_rules_ (combine_pdr_with_sdf (if b then Some zero_entry else None) flt i)) = ep_filter_of flt) as Hm by (by intros []).
  rewrite !Hm. clear Hm. unfold select. destruct (matches e (ep_filter_of flt) f) as [[]|] eqn:Em; [|destruct b'|by destruct b, b'].
  - by destruct b, b'.
  - destruct (Hb' eq_refl) as (a & n & j & ask & Hask & Hk & Hs & Hag). destruct Hn. exists a, n, j, ask. split; [done|].
    split; [by rewrite Ek, Hk|]. split; [done|]. by rewrite Hs.
  - destruct b; [by specialize (Hbb eq_refl)|done].
Qed.

(** An Update PDR that repeats what was asked leaves every packet alone except those that a filtered PDR with an update captures. *)
Theorem idle_update_partial :
  forall g rm p f q u es c l sh addr seq qm c' r,
    start_pools rm -> Forall event_fair es -> fair sh -> run (init g rm (dp_init p f q u)) es = Some (c, l) -> (N.of_nat (length es) < bound) ->
    step c (Recv sh addr seq (SessModReq qm)) = Done c' (Some r) -> r_cause r = Some 1 -> asks_nothing_new l addr qm ->
    let l' := l ++ [(Recv sh addr seq (SessModReq qm), Some r)] in tidy l' = true ->
    forall e pkt, env_ok e -> ~ captured l' e pkt -> (forall answer d, answer_of e (c_dp c) pkt = Some (answer, d) -> ~ captured l' e answer) ->
    fate (xdp e pkt (c_dp c')) = fate (xdp e pkt (c_dp c)).
Proof.
  intros g rm p f q u es c l sh addr seq qm c' r Hrm Hf Hfs Hrun Hb Hs Hr Hask l' Ht e pkt He Hn Hna.
  pose proof Ht as Ht0. unfold l' in Ht0. apply tidy_snoc in Ht0 as (Ht0 & _ & _). destruct (tidy_run _ _ _ _ _ _ _ _ _ Hrm Hf Hrun ltac:(lia) Ht0) as (_ & _ & K).
  pose proof (InFlight.run_snoc _ _ _ _ _ _ _ Hrun Hs) as Hrun'.
  assert (K' : keyed (pdrs_in l') c').
  { refine (proj2 (proj2 (tidy_run _ _ _ _ _ _ _ _ _ Hrm _ Hrun' _ Ht))); [|rewrite app_length; cbn [List.length]; lia].
    apply Forall_app. split; [done|]. by constructor. }
  unfold l' in K'. destruct (updates_nearly _ _ _ _ _ _ _ _ _ K K' eq_refl Hs Hr Hask) as (HFQ & H).
  apply packet_depends_on_own_rules; [done|..].
  - split; [by eapply nearly_rules|]. intros ? ? _. split; apply HFQ.
  - intros answer d1 Ha. split; [eapply nearly_rules; [done|by eapply Hna]|]. intros ? ? _. split; apply HFQ.
Qed.

(** ** What becomes of a captured packet *)

(** FAR 0 and QER 0 decide, whoever they were created for: dropped, *)
Theorem captured_dropped_partial :
  forall l d e f addr seid i a, after l d -> pdr_asked l addr seid i = Some a -> captures e a f ->
    (forall v, far_get d 0 = Some v -> N.testbit (fi_action v) 1 = false) ->
    xdp e f d = Some (DROP, Xst f d (rx_counters e f ++ [action 1])).
Proof.
  intros l d e f addr seid i a Haft Ha Hc H0. destruct (captured_rule l d e f addr seid i a Haft Ha Hc) as (ep & Hr).
  apply (not_permitted_dropped e d f ep (Rule 0 0 0) Hr). unfold permitted. cbn [r_far r_qer]. destruct (far_get d 0) as [v|]; [|done].
  destruct (qer_get d 0) as [q|]; [|done]. unfold far_permits. by rewrite (H0 v eq_refl).
Qed.
(** or, if it is on its way to the UE, put into the tunnel of FAR 0. *)
Theorem captured_misdirected_partial :
  forall l d e f addr seid i a v q verdict s, after l d -> env_ok e -> e_head e <> None -> pdr_asked l addr seid i = Some a -> captures e a f ->
    down4 e f = true \/ down6 f = true -> far_get d 0 = Some v -> qer_get d 0 = Some q ->
    permitted e Downlink (N.of_nat (List.length f)) d (Rule 0 0 0) = Some (v, q) -> XdpFrames.far_fits v -> (qi_qfi q < 64)%N -> (down_len e f + 44 < 65536)%N ->
    xdp e f d = Some (verdict, s) ->
    tunnelled (x_f s) f (e_n3 e) (Xdp.le32 (fi_remote v)) (fi_tlm v / 256) (qi_qfi q) (fi_teid v) (down_len e f).
Proof.
  intros l d e f addr seid i a v q w s Haft He Hh Ha Hc Hdown H0 Hq Hp Hfit Hqfi Hlen Hx.
  destruct (captured_rule l d e f addr seid i a Haft Ha Hc) as (ep & Hr).
  assert (Hg : gpdu e f = false). { destruct Hdown as [H|H]; [by destruct (down4_not_gpdu e f H)|by destruct (down6_not_4 e f H)]. }
  destruct (downlink_encapsulated e d f ep (Rule 0 0 0) v q w s He Hr Hg Hp Hfit Hqfi Hlen Hh Hx) as (g & c & _ & Ht & _). exact Ht.
Qed.

(** ** The claim fails for captured packets *)
Definition ex_first_session : est_req :=
  EstReq (Good 5) (Good 100) [ex_both_far_dl; ex_both_far_ul] [ex_both_qer] [] [ex_dl 1 171704330 1 1].
Section texts.
Import String.
Definition ex_tcp_only : pdr_ie :=
  PdrIe (Some 1) None (Some 1) (Some 1) [] (Some (PdiIe true Absent (Good (UeipIe false (Some 171704321) None)))) (Some (str "permit out tcp from any to any"%string)).
End texts.
Definition ex_second_session : est_req :=
  EstReq (Good 5) (Good 101) [FarIe (Some 1) (Some [2]) (Some (Good (OhcIe 256 99 (Some 167772170) false))) None] [QerIe (Some 1) (Some 0) (Some 0) (Some 10) (Some 20) (Some 9)] [] [ex_tcp_only].
(** An Update PDR with a Source Interface and nothing else (3GPP TS 29.244 7.5.4.2 lets it carry what it likes). *)
Definition ex_touch (i : N) : mod_req := ModReq 3 Absent [] [] [] [] [] [] [] [] [] [] [PdrIe (Some i) None None None [] (Some (PdiIe true Absent Absent)) None] [].
Definition ex_two_sessions : list event := [ex_setup; ex_recv 2 (SessEstReq ex_first_session); ex_recv 3 (SessEstReq ex_second_session)].

Lemma ex_touch_asks_nothing l a i : pdr_asked l 7 3 i = Some a -> asks_nothing_new l 7 (ex_touch i).
Proof.
  intros Ha. eexists. split; [by repeat split|]. split; [apply NoDup_singleton|]. intros p Hp. apply elem_of_list_singleton in Hp as ->.
  exists i, a. split; [done|]. split; [done|]. unfold repeats. split_and!; try (by left). done.
Qed.

Theorem idle_update_refuted :
  exists c l c' r, ex_start ex_two_sessions = Some (c, l) /\ asks_nothing_new l 7 (ex_touch 1) /\
    step c (ex_recv 4 (SessModReq (ex_touch 1))) = Done c' (Some r) /\ r_cause r = Some 1 /\
    tidy (l ++ [(ex_recv 4 (SessModReq (ex_touch 1)), Some r)]) = true /\
    (* UDP for the UE, which no PDR wants, is left to the kernel before; now it is sent into the tunnel of the other session *)
    asked_far l 7 2 1 = Some (Far 2 1 85 (Pfcp.le32 167772169) 10240) /\
    (exists s, xdp ex_env ex_down (c_dp c) = Some (PASS, s) /\ x_f s = ex_down) /\
    (exists s, xdp ex_env ex_down (c_dp c') = Some (REDIRECT 7, s) /\ x_f s = ex_down_sent).
Proof.
  assert (H : match ex_start ex_two_sessions with
    | Some (c, l) => bool_decide (is_Some (pdr_asked l 7 3 1)) && far_is (asked_far l 7 2 1) (Far 2 1 85 (Pfcp.le32 167772169) 10240) && out_is (xdp ex_env ex_down (c_dp c)) PASS ex_down &&
        match step c (ex_recv 4 (SessModReq (ex_touch 1))) with
        | Done c' (Some r) => bool_decide (r_cause r = Some 1) && tidy (l ++ [(ex_recv 4 (SessModReq (ex_touch 1)), Some r)]) && out_is (xdp ex_env ex_down (c_dp c')) (REDIRECT 7) ex_down_sent
        | _ => false end
    | None => false end = true) by (vm_compute; reflexivity).
  destruct (ex_start ex_two_sessions) as [[c l]|] eqn:Ec; [|discriminate H]. apply andb_true_iff in H as [H H2].
  destruct (step c _) as [c' [r|]|] eqn:Es in H2; [|discriminate H2..].
  exists c, l, c', r. split; [reflexivity|]. clear Ec. rewrite !andb_true_iff in H, H2. destruct H as [[H1%bool_decide_eq_true H3%bool_decide_eq_true] H4%out_is_ok], H2 as [[H5%bool_decide_eq_true H6] H7%out_is_ok].
  destruct H1 as [a H1]. split; [exact (ex_touch_asks_nothing l a 1 H1)|]. split; [exact Es|]. clear Es. split; [exact H5|]. split; [exact H6|]. split; [exact H3|].
  split; [exact H4|exact H7].
Qed.

(** ** The positive theorem is not vacuous *)
Definition captures_b (e : env) (a : pdr_ask) (f : list N) : bool :=
  bool_decide (frame_key e f = Some (ak_key a)) && ak_again a &&
  match ak_sdf a with None => false | Some flt => match matches e (ep_filter_of flt) f with Some false => true | _ => false end end.
Definition captured_b (l : log) (e : env) (f : list N) : bool :=
  existsb (fun x : N * N * pdr_table => existsb (fun y : N * pdr_ask => captures_b e (snd y) f) (map_to_list (snd x))) (map_to_list (pdrs_in l)).
Lemma captured_b_ok l e f : captured_b l e f = false -> ~ captured l e f.
Proof.
  intros H (addr & seid & i & a & Ha & Hk & Hag & Hf). apply not_true_iff_false in H. apply H. unfold pdr_asked in Ha.
  destruct (pdrs_in l !! (addr, seid)) as [pm|] eqn:Ep; [|done]. cbn [mbind option_bind] in Ha.
  unfold captured_b. apply existsb_exists. exists ((addr, seid), pm). split; [by apply elem_of_list_In, elem_of_map_to_list|].
  apply existsb_exists. exists (i, a). split; [by apply elem_of_list_In, elem_of_map_to_list|]. cbn [snd]. unfold captures_b.
  rewrite bool_decide_eq_true_2 by done. rewrite Hag. destruct (ak_sdf a) as [flt|]; [|done]. by rewrite Hf.
Qed.
(** The packet [ex_down], to the UE of the first session. *)
Definition ex_down_first : list N := take 33 ex_down ++ [10] ++ drop 34 ex_down.
Example ex_idle_update :
  exists c l c' r, ex_start ex_two_sessions = Some (c, l) /\ asks_nothing_new l 7 (ex_touch 1) /\
    step c (ex_recv 4 (SessModReq (ex_touch 1))) = Done c' (Some r) /\ r_cause r = Some 1 /\
    let l' := l ++ [(ex_recv 4 (SessModReq (ex_touch 1)), Some r)] in tidy l' = true /\ 
    ~ captured l' ex_env ex_down_first /\ answer_of ex_env (c_dp c) ex_down_first = None /\
    exists g s, xdp ex_env ex_down_first (c_dp c) = Some (REDIRECT 7, s) /\ x_f s = g /\ List.length g <> List.length ex_down_first.
Proof.
  assert (H : match ex_start ex_two_sessions with
    | Some (c, l) => bool_decide (is_Some (pdr_asked l 7 3 1)) && match answer_of ex_env (c_dp c) ex_down_first with None => true | _ => false end &&
        match xdp ex_env ex_down_first (c_dp c) with Some (REDIRECT i, s) => (i =? 7) && negb (Nat.eqb (List.length (x_f s)) (List.length ex_down_first)) | _ => false end &&
        match step c (ex_recv 4 (SessModReq (ex_touch 1))) with
        | Done c' (Some r) => bool_decide (r_cause r = Some 1) && tidy (l ++ [(ex_recv 4 (SessModReq (ex_touch 1)), Some r)]) &&
            negb (captured_b (l ++ [(ex_recv 4 (SessModReq (ex_touch 1)), Some r)]) ex_env ex_down_first)
        | _ => false end
    | None => false end = true) by (vm_compute; reflexivity).
  destruct (ex_start ex_two_sessions) as [[c l]|] eqn:Ec; [|discriminate H]. apply andb_true_iff in H as [H H2].
  destruct (step c _) as [c' [r|]|] eqn:Es in H2; [|discriminate H2..].
  exists c, l, c', r. split; [reflexivity|]. clear Ec. rewrite !andb_true_iff in H, H2. destruct H as [[H1%bool_decide_eq_true H3] H4], H2 as [[H5%bool_decide_eq_true H6] H7%negb_true_iff].
  destruct H1 as [a H1]. split; [exact (ex_touch_asks_nothing l a 1 H1)|]. split; [exact Es|]. clear Es. split; [exact H5|]. split; [exact H6|]. split; [exact (captured_b_ok _ _ _ H7)|].
  split; [destruct (answer_of _ _ _); [discriminate H3|reflexivity]|].
  destruct (xdp ex_env ex_down_first (c_dp c)) as [[[| | | |i] s]|] eqn:Ex; try discriminate H4.
  apply andb_true_iff in H4 as [Hi Hl]. apply N.eqb_eq in Hi as ->. exists (x_f s), s. split; [reflexivity|]. split; [reflexivity|].
  apply negb_true_iff, Nat.eqb_neq in Hl. exact Hl.
Qed.
