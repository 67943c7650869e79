(** C56: from the PFCP request to the packet. *)
From Verif Require Import Base IdTracker ResourceManager SdfParser SdfProps MapOps SdfMatch Pfcp PfcpProps PfcpHistory PfcpReach
  PfcpRules PfcpCreate PfcpRemove Qer Csum Xdp XdpBase XdpProps XdpRules XdpFrames XdpEcho XdpEx XdpAccount.
Open Scope nat_scope.

(** [d'] is the state of the maps after the XDP program has processed some packets (any frames, any clock, any routes),
    starting from [d]. *)
Inductive packets : dp -> dp -> Prop :=
| packets_nil d : packets d d
| packets_one d d1 e f v s : packets d d1 -> env_ok e -> xdp e f d1 = Some (v, s) -> packets d (x_dp s).

Lemma touch_lookup {A} (z : A) f n (m : gmap N A) k :
  touch z f n m !! k = match n !! k with Some v => Some (f v (default z (m !! k))) | None => m !! k end.
Proof. unfold touch. rewrite lookup_merge. unfold diag_None. destruct (n !! k), (m !! k); done. Qed.

(** Packets leave the rules alone. *)
Lemma packets_rules d d' : packets d d' ->
  (forall k, dp_find d' k = dp_find d k) /\ (forall g, far_get d' g = far_get d g) /\
  (forall g q, qer_get d g = Some q -> exists m, qer_get d' g = Some (traffic_qer m q)).
Proof.
  induction 1 as [d|d d1 e f v s _ (IH1 & IH2 & IH3) He H].
  { split_and!; try done. intros g q Hq. exists (qi_ul_start q, qi_dl_start q). rewrite Hq. by destruct q. }
  apply packet_is_traffic in H as (marks & volumes & ->); [|done]. split_and!.
  - intros [k|k|k]; rewrite <- IH1; done.
  - intros g. by rewrite <- IH2.
  - intros g q Hq. destruct (IH3 g q Hq) as [m Hm]. unfold qer_get, arr_get, traffic in *. cbn [set_urr set_qer d_qer d_qer_size].
    destruct (g <? d_qer_size d1)%N; [|done]. rewrite touch_lookup. injection Hm as Hm. destruct (marks !! g) as [m'|].
    + exists m'. cbn [default]. rewrite Hm. by destruct m, m'.
    + exists m. by rewrite Hm.
Qed.

(** The four bytes of an IPv4 address. *)
Definition ip_bytes (a : N) : list N := [a / 16777216 mod 256; a / 65536 mod 256; a / 256 mod 256; a mod 256]%N.
Lemma le32_le32 a : Xdp.le32 (Pfcp.le32 a) = ip_bytes a.
Proof.
  unfold Xdp.le32, Pfcp.le32, ip_bytes.
  set (w := (a mod 256)%N). set (x := (a / 256 mod 256)%N). set (y := (a / 65536 mod 256)%N). set (z := (a / 16777216 mod 256)%N).
  assert (w < 256 /\ x < 256 /\ y < 256 /\ z < 256)%N as (Hw & Hx & Hy & Hz) by (split_and!; by apply N.mod_lt).
  clearbody w x y z. f_equal; [|f_equal; [|f_equal; [|f_equal]]].
  - replace (w * 16777216 + x * 65536 + y * 256 + z)%N with (z + (w * 65536 + x * 256 + y) * 256)%N by lia.
    rewrite N.mod_add by done. by apply N.mod_small.
  - replace (w * 16777216 + x * 65536 + y * 256 + z)%N with (z + (w * 65536 + x * 256 + y) * 256)%N by lia.
    rewrite N.div_add, (N.div_small z) by done. replace (0 + (w * 65536 + x * 256 + y))%N with (y + (w * 256 + x) * 256)%N by lia.
    rewrite N.mod_add by done. by apply N.mod_small.
  - replace (w * 16777216 + x * 65536 + y * 256 + z)%N with ((y * 256 + z) + (w * 256 + x) * 65536)%N by lia.
    rewrite N.div_add, (N.div_small (_ + _)) by lia. replace (0 + (w * 256 + x))%N with (x + w * 256)%N by lia.
    rewrite N.mod_add by done. by apply N.mod_small.
  - replace (w * 16777216 + x * 65536 + y * 256 + z)%N with ((x * 65536 + y * 256 + z) + w * 16777216)%N by lia.
    rewrite N.div_add, (N.div_small (_ + _)) by lia. by apply N.mod_small.
Qed.

(** Where the kernel's routing table sends a packet. *)
Definition route_verdict (e : env) (a : fib_answer) : verdict :=
  if (fa_rc a =? 0)%N then if (fa_if a =? e_if e)%N then TX else REDIRECT (fa_if a)
  else if blocked a then DROP else PASS.

(** The key a PDR of an accepted request detects packets by, as an SMF sees it: the TEID or UE address it wrote into the
    request or, if it asked the UPF to choose, the one reported in the response [r] for that PDR id. *)
Definition key_of (n3 : N) (r : response) (p : pdr_ie) (k : key) : Prop :=
  let id := u16 (default 0%N (pe_id p)) in
  match pe_pdi p with
  | None => False
  | Some pdi =>
    match pi_fteid pdi, pi_ueip pdi with
    | Good fe, _ => exists t, k = Up t /\ if fe_ch fe then CreatedTeid id t n3 ∈ r_created r else fe_teid fe = t
    | Absent, Good ue =>
        (exists a, k = Dn4 a /\ CreatedIp id a ∈ r_created r) \/
        (forall a, CreatedIp id a ∉ r_created r) /\
        match ue_v4 ue, ue_v6 ue with Some a, _ => k = Dn4 a | None, Some a => k = Dn6 a | None, None => False end
    | Absent, Absent => k = Up 0%N
    | _, _ => False
    end
  end.
Definition pdr_ids (l : list pdr_ie) : list N := (fun p => u16 (default 0%N (pe_id p))) <$> l.

Lemma key_of_iff ueip n3 l ks r n p k ch k' : Forall2 (fun p k => detects ueip p (fst k) (snd k)) l ks ->
  r_created r = omap (report_of n3) (zip l ks) -> NoDup (pdr_ids l) -> l !! n = Some p -> ks !! n = Some (k, ch) ->
  (key_of n3 r p k' <-> k = k').
Proof.
  intros Hks Hcr Hnd Hp Hk. pose proof (Forall2_lookup_lr _ _ _ _ _ _ Hks Hp Hk) as Hdet. simpl in Hdet.
  (* what is reported for this PDR *)
  assert (Hzip : zip l ks !! n = Some (p, (k, ch))) by (apply lookup_zip_with_Some; eauto).
  assert (Honly : forall x, x ∈ r_created r -> match x with CreatedTeid i _ _ | CreatedIp i _ => i end = u16 (default 0%N (pe_id p)) ->
    report_of n3 (p, (k, ch)) = Some x).
  { intros x Hx Hi. rewrite Hcr in Hx. apply elem_of_list_omap in Hx as ([p' [k2 ch2]] & Hin & Hrep).
    apply elem_of_list_lookup in Hin as (m & Hm). apply lookup_zip_with_Some in Hm as (? & ? & [= <- <-] & Hm1 & Hm2).
    assert (Eid : u16 (default 0%N (pe_id p')) = u16 (default 0%N (pe_id p))).
    { rewrite <- Hi. unfold report_of in Hrep. destruct k2, ch2; simplify_eq; done. }
    assert (m = n) as ->.
    { eapply NoDup_lookup; [exact Hnd| |]; unfold pdr_ids; rewrite list_lookup_fmap; [rewrite Hm1|rewrite Hp]; simpl; [done|by rewrite Eid]. }
    simplify_eq. done. }
  assert (Hthis : forall x, report_of n3 (p, (k, ch)) = Some x -> x ∈ r_created r).
  { intros x Hx. rewrite Hcr. apply elem_of_list_omap. exists (p, (k, ch)). split; [by eapply elem_of_list_lookup_2|done]. }
  unfold key_of. unfold detects in Hdet. destruct (pe_pdi p) as [pdi|]; [|done].
  destruct (pi_fteid pdi) as [| |fe]; [|done|].
  - destruct (pi_ueip pdi) as [| |ue]; [|done|].
    + destruct Hdet as [-> ->]. done.
    + destruct Hdet as [(-> & _ & _ & a & ->)|[-> Hk']].
      * split; [|intros <-; left; exists a; split; [done|by apply Hthis]].
        intros [(a' & -> & Hin)|[Hno _]]; [|by destruct (Hno a); apply Hthis].
        pose proof (Honly _ Hin eq_refl) as E. simpl in E. by simplify_eq.
      * assert (Hno : forall a, CreatedIp (u16 (default 0%N (pe_id p))) a ∉ r_created r).
        { intros a Hin. pose proof (Honly _ Hin eq_refl) as E. simpl in E. by destruct k. }
        split.
        -- intros [(a' & -> & Hin)|[_ Hv]]; [by apply Hno in Hin|]. destruct (ue_v4 ue), (ue_v6 ue); simplify_eq; done.
        -- intros <-. right. split; [done|]. destruct (ue_v4 ue), (ue_v6 ue); simplify_eq; done.
  - destruct (fe_ch fe).
    + destruct Hdet as [-> [t ->]]. split.
      * intros (t' & -> & Hin). pose proof (Honly _ Hin eq_refl) as E. simpl in E. by simplify_eq.
      * intros <-. exists t. split; [done|]. by apply Hthis.
    + destruct Hdet as [-> ->]. split; [by intros (t & -> & ->)|]. intros <-. by eexists.
Qed.

(** The request [q], answered by [r], contains a PDR without SDF filter for key [k] that names the FAR [f] and the QER [qe]
    of the request, and no later PDR for the same key. *)
Record requests (n3 : N) (q : est_req) (r : response) (k : key) (p : pdr_ie) (f : far_ie) (qe : qer_ie) : Prop := {
  rq_pdr : exists n, eq_pdrs q !! n = Some p /\ (forall m p', n < m -> eq_pdrs q !! m = Some p' -> ~ key_of n3 r p' k);
  rq_key : key_of n3 r p k;
  rq_sdf : no_sdf p;
  rq_far : f ∈ eq_fars q /\ exists i, fa_id f = Some i /\ pe_far p = Some i;
  rq_qer : qe ∈ eq_qers q /\ exists j, qe_id qe = Some j /\ pe_qer p = Some j;
  (* rule ids are used once *)
  rq_pdr_ids : NoDup (pdr_ids (eq_pdrs q));
  rq_far_ids : NoDup ((fun f => default 0%N (fa_id f)) <$> eq_fars q);
  rq_qer_ids : NoDup (qe_id <$> eq_qers q) }.

Lemma requests_entry sh addr seq q c c' r k p f qe d : reachable c ->
  handle sh addr seq (SessEstReq q) c = Done c' (Some r) -> r_cause r = Some 1%N ->
  requests (g_n3 (c_cfg c)) q r k p f qe -> packets (c_dp c') d ->
  exists ep fv qv mk, dp_find d k = Some ep /\ ep_mode ep = 0%N /\ ep_ohr ep = default 0%N (pe_ohr p) /\
    far_get d (ep_far ep) = Some fv /\ far_asks f fv /\ qer_get d (ep_qer ep) = Some (traffic_qer mk qv) /\ qer_asks qe qv.
Proof.
  intros Hreach H Hr [(n & Hp & Hlast) Hkey Hsdf (Hf & i & Hfi & Hpf) (Hq & j & Hqj & Hpq) Hids Hndf Hndq] Hd.
  destruct (establishment_installs sh addr seq q c c' r Hreach H Hr) as (ks & Hks & Hcr & _ & _ & Hin).
  destruct (Forall2_lookup_l _ _ _ _ _ Hks Hp) as ([k0 ch] & Hk & Hdet).
  assert (k0 = k) as -> by (by apply (key_of_iff _ _ _ _ _ _ _ _ _ k Hks Hcr Hids Hp Hk)).
  destruct (Hin Hndf Hndq n p (k, ch) Hp Hk Hsdf) as (ep & Hep & Hmode & Hohr & Hfar & Hqer).
  { intros m [k' ch'] Hm Hk'. destruct (Forall2_lookup_r _ _ _ _ _ Hks Hk') as (p' & Hp' & _). simpl in *. intros ->.
    apply (Hlast m p' Hm Hp'). by apply (key_of_iff _ _ _ _ _ _ _ _ _ k Hks Hcr Hids Hp' Hk'). }
  cbn [fst] in Hep. destruct (Hfar f i Hf Hfi Hpf) as (fv & Hfv & Hfasks). destruct (Hqer qe j Hq Hqj Hpq) as (qv & Hqv & Hqasks & _).
  destruct (packets_rules _ _ Hd) as (Pk & Pf & Pq). destruct (Pq _ _ Hqv) as [mk Hqd].
  exists ep, fv, qv, mk. rewrite Pk, Pf. done.
Qed.

(** A requested bit rate that the data plane can represent. *)
Lemma mbr_rate mbr : (mbr <= 4294967)%N -> u32 (u32 mbr * 1000) = (1000 * mbr)%N.
Proof. intros H. unfold u32. rewrite (N.mod_small mbr) by lia. rewrite N.mod_small by lia. lia. Qed.

Theorem downlink_end_to_end :
  forall sh addr seq q c c' r a p fa qe act rest o ra tos, reachable c ->
    (* the request is accepted *)
    handle sh addr seq (SessEstReq q) c = Done c' (Some r) -> r_cause r = Some 1%N ->
    (* it asks to forward packets to UE address [a] into a tunnel to [ra] *)
    requests (g_n3 (c_cfg c)) q r (Dn4 a) p fa qe ->
    fa_apply fa = Some (act :: rest) -> N.testbit act 1 = true ->
    fa_fwd fa = Some (Good o) -> oh_desc o = 256%N -> oh_v4 o = Some ra -> (oh_teid o < 4294967296)%N ->
    default 0%N (fa_tlm fa) = (256 * tos)%N -> (tos < 256)%N ->
    default 0%N (qe_gate_dl qe) = 0%N -> (default 0 (qe_qfi qe) < 64)%N -> (default 0 (qe_mbr_dl qe) <= 4294967)%N ->
    (* later, after any packets, a packet to [a] comes *)
    forall d e f, packets (c_dp c') d -> env_ok e -> e_head e <> None ->
      down4 e f = true -> be_value (dst4 f) = a -> (be_value (field f 16 2) + 44 < 65536)%N ->
      exists mark, (* of the rate limiter *)
        if fst (limit_rate (N.of_nat (length f)) mark (1000 * default 0 (qe_mbr_dl qe))%N (e_now_dl e)) then
          exists v s, xdp e f d = Some (v, s) /\
            tunnelled (x_f s) f (e_n3 e) (ip_bytes ra) tos (default 0%N (qe_qfi qe)) (oh_teid o) (be_value (field f 16 2)) /\
            v = route_verdict e (e_fib e (FibQ 2 tos 17 (be_value (field f 16 2) + 44) (e_n3 e) (ip_bytes ra) (e_if e)))
        else xdp e f d = Some (DROP, Xst f d (rx_counters e f ++ [action 1])).
Proof.
  intros sh addr seq q c c' r a p fa qe act rest o ra tos Hreach H Hr Hreq Hact Hb Hfw Hdesc Hra Ft Htlm Ftos Hgate Fq Fm
    d e f Hd He Hh H4 Hdst Hlen.
  destruct (requests_entry _ _ _ _ _ _ _ _ _ _ _ _ Hreach H Hr Hreq Hd) as (ep & fv & qv & mk & Hep & Hmode & Hohr & Hfv & Hfasks & Hqd & Hqasks).
  destruct Hfasks as (Ha1 & Ha2 & Ha3). rewrite Hfw in Ha3. destruct Ha3 as (Ha3 & Ha4 & Ha5). rewrite Hact in Ha1. rewrite Hdesc in Ha3. rewrite Hra in Ha5.
  destruct Hqasks as (_ & Hq2 & Hq3 & _ & Hq5). rewrite mbr_rate in Hq5 by done.
  assert (Hent : entry e d f = Some ep).
  { unfold entry. destruct (down4_not_gpdu e f H4) as [-> _]. rewrite H4, Hdst. exact Hep. }
  assert (Hrule : rule_for e d f = Some (ep, default_rule ep)).
  { unfold rule_for. rewrite Hent. unfold select. by rewrite Hmode. }
  destruct (down4_not_gpdu e f H4) as [Hg _]. exists (snd mk).
  assert (Hperm : permitted e Downlink (N.of_nat (length f)) d (default_rule ep) =
    if fst (limit_rate (N.of_nat (length f)) (snd mk) (1000 * default 0 (qe_mbr_dl qe))%N (e_now_dl e)) then Some (fv, traffic_qer mk qv) else None).
  { unfold permitted. cbn [default_rule r_far r_qer]. rewrite Hfv, Hqd.
    unfold far_permits. rewrite Ha1, Hb, Ha3. change (N.testbit (u8 (256 / 256)) 0) with true.
    unfold gate_open, gate. cbn [traffic_qer qi_dl_gate]. rewrite Hq2, Hgate. change (0 =? 0)%N with true.
    unfold in_rate, start, rate, now. cbn [traffic_qer qi_dl_start qi_dl_rate]. by rewrite Hq5. }
  destruct (fst (limit_rate _ _ _ _)) eqn:El.
  - destruct (xdp e f d) as [[v s]|] eqn:Ex; [|by apply never_outside_frame in Ex]. exists v, s. split; [done|].
    destruct (downlink_encapsulated e d f ep (default_rule ep) fv (traffic_qer mk qv) v s He Hrule Hg Hperm) as (g & c0 & Tg & Ts & Hro); try done.
    + split; [|by rewrite Ha4]. rewrite Ha2, Htlm. lia.
    + cbn [traffic_qer qi_qfi]. by rewrite Hq3.
    + unfold down_len. by rewrite H4.
    + assert (Htos : (fi_tlm fv / 256 = tos)%N) by (rewrite Ha2, Htlm, N.mul_comm; by apply N.div_mul).
      assert (Hdl : down_len e f = be_value (field f 16 2)) by (unfold down_len; by rewrite H4).
      rewrite Ha5, le32_le32, Htos, Ha4, Hdl in Tg, Ts. cbn [traffic_qer qi_qfi] in Tg, Ts. rewrite Hq3 in Tg, Ts.
      split; [done|]. unfold routed in Hro.
      assert (Eq : route_query4 e g = FibQ 2 tos 17 (be_value (field f 16 2) + 44) (e_n3 e) (ip_bytes ra) (e_if e)).
      { unfold route_query4, src4, dst4. by rewrite (t_tos _ _ _ _ _ _ _ _ Tg), (t_proto _ _ _ _ _ _ _ _ Tg), (t_total _ _ _ _ _ _ _ _ Tg), (t_src _ _ _ _ _ _ _ _ Tg), (t_dst _ _ _ _ _ _ _ _ Tg). }
      rewrite Eq in Hro. unfold route_verdict. destruct (fa_rc _ =? 0)%N; [by injection Hro as <- _ _|].
      destruct (blocked _); by injection Hro as <- _ _.
  - apply (not_permitted_dropped e d f ep (default_rule ep) Hrule). unfold dir_of. by rewrite Hg.
Qed.

(** The other direction: after an accepted request to forward what arrives in tunnel [t], the packets in that tunnel leave
    without their tunnel headers, routed like any packet with this header. *)
Theorem uplink_end_to_end :
  forall sh addr seq q c c' r t p fa qe act rest, reachable c ->
    handle sh addr seq (SessEstReq q) c = Done c' (Some r) -> r_cause r = Some 1%N ->
    requests (g_n3 (c_cfg c)) q r (Up t) p fa qe ->
    fa_apply fa = Some (act :: rest) -> N.testbit act 1 = true -> (forall o, fa_fwd fa <> Some (Good o)) ->
    default 0%N (pe_ohr p) = 0%N -> default 0%N (qe_gate_ul qe) = 0%N -> (default 0 (qe_mbr_ul qe) <= 4294967)%N ->
    forall d e f proto, packets (c_dp c') d -> env_ok e -> gpdu e f = true -> be_value (teid f) = t ->
      (byte f 14 mod 16 = 5)%N -> ip_at f (payload f) = Some proto -> ping_at e f (payload f) = false ->
      exists mark,
        if fst (limit_rate (N.of_nat (length f)) mark (1000 * default 0 (qe_mbr_ul qe))%N (e_now_ul e)) then
          exists v s c, xdp e f d = Some (v, s) /\ drop 12 (x_f s) = proto ++ drop (payload f) f /\
            routed e (bool_decide (proto = [8; 0]%N)) (take 12 f ++ proto ++ drop (payload f) f) = (v, x_f s, c)
        else xdp e f d = Some (DROP, Xst f d (rx_counters e f ++ [action 1])).
Proof.
  intros sh addr seq q c c' r t p fa qe act rest Hreach H Hr Hreq Hact Hb Hfw Hohr Hgate Fm d e f proto Hd He Hg Ht Hihl Hip Hping.
  destruct (requests_entry _ _ _ _ _ _ _ _ _ _ _ _ Hreach H Hr Hreq Hd) as (ep & fv & qv & mk & Hep & Hmode & Hohr' & Hfv & Hfasks & Hqd & Hqasks).
  destruct Hfasks as (Ha1 & Ha2 & Ha3). rewrite Hact in Ha1.
  assert (Ha4 : fi_ohc fv = 0%N).
  { destruct (fa_fwd fa) as [[| |o]|]; try (by destruct Ha3 as [? _]). by destruct (Hfw o). }
  destruct Hqasks as (Hq2 & _ & _ & Hq5 & _). rewrite mbr_rate in Hq5 by done.
  assert (Hent : entry e d f = Some ep).
  { unfold entry. rewrite Hg, Ht. exact Hep. }
  assert (Hrule : rule_for e d f = Some (ep, default_rule ep)).
  { unfold rule_for. rewrite Hent. unfold select. by rewrite Hmode. }
  exists (fst mk).
  assert (Hperm : permitted e Uplink (N.of_nat (length f)) d (default_rule ep) =
    if fst (limit_rate (N.of_nat (length f)) (fst mk) (1000 * default 0 (qe_mbr_ul qe))%N (e_now_ul e)) then Some (fv, traffic_qer mk qv) else None).
  { unfold permitted. cbn [default_rule r_far r_qer]. rewrite Hfv, Hqd.
    unfold far_permits. rewrite Ha1, Hb.
    unfold gate_open, gate. cbn [traffic_qer qi_ul_gate]. rewrite Hq2, Hgate. change (0 =? 0)%N with true.
    unfold in_rate, start, rate, now. cbn [traffic_qer qi_ul_start qi_ul_rate]. by rewrite Hq5. }
  destruct (fst (limit_rate _ _ _ _)) eqn:El.
  - destruct (xdp e f d) as [[v s]|] eqn:Ex; [|by apply never_outside_frame in Ex].
    destruct (uplink_decapsulated e d f ep (default_rule ep) fv (traffic_qer mk qv) proto v s He Hrule Hg Hperm) as (c0 & Hro & Hdr); try done.
    + by rewrite Ha4.
    + cbn [default_rule r_ohr]. by rewrite Hohr'.
    + by exists v, s, c0.
  - apply (not_permitted_dropped e d f ep (default_rule ep) Hrule). unfold dir_of. by rewrite Hg.
Qed.

(** After the deletion of a session packets to its UE address are left to the kernel, untouched. *)
Theorem downlink_after_deletion :
  forall sh addr seq seid c c' r s p a,
    reachable c -> fair sh -> session_of c addr seid = Some s -> p ∈ pdrs_of s -> spdr_key p = Dn4 a ->
    handle sh addr seq (SessDelReq seid) c = Done c' (Some r) -> r_cause r = Some 1%N ->
    forall d e f, packets (c_dp c') d -> down4 e f = true -> be_value (dst4 f) = a ->
      xdp e f d = Some (PASS, Xst f d (rx_counters e f ++ [action 2])).
Proof.
  intros sh addr seq seid c c' r s p a Hreach Hf Hs Hp Hk H Hr d e f Hd H4 Hdst.
  destruct (session_deletion_partial sh addr seq seid c c' r s Hreach Hf Hs H Hr) as (_ & Hgone & _).
  specialize (Hgone p Hp). rewrite Hk in Hgone.
  assert (Hnone : dp_find (c_dp c') (Dn4 a) = None) by (apply Hgone; by intros ? ? ? ?).
  destruct (packets_rules _ _ Hd) as (Pk & _). rewrite <- (Pk (Dn4 a)) in Hnone. simpl in Hnone.
  destruct (down4_not_gpdu e f H4) as [Hg He]. apply no_rule_passes_untouched; [|done].
  unfold rule_for, entry. rewrite Hg, H4, Hdst. by rewrite Hnone.
Qed.

(** A request for both directions meets the hypotheses: UE 10.60.0.1, tunnel 85 to 10.0.0.9, uplink tunnel chosen by the UPF;
    the packets [ex_down] and [ex_up0] are sent as described, and after the deletion [ex_down] is not. *)
Definition ex_both_far_dl : far_ie := FarIe (Some 1%N) (Some [2%N]) (Some (Good (OhcIe 256 85 (Some 167772169%N) false))) (Some 10240%N).
Definition ex_both_far_ul : far_ie := FarIe (Some 2%N) (Some [2%N]) None None.
Definition ex_both_qer : qer_ie := QerIe (Some 1%N) (Some 0%N) (Some 0%N) (Some 10000%N) (Some 10000%N) (Some 9%N).
Definition ex_both_dl : pdr_ie := ex_dl 2 171704321 1 1.
Definition ex_both_ul : pdr_ie :=
  PdrIe (Some 1%N) (Some 0%N) (Some 2%N) (Some 1%N) [] (Some (PdiIe true (Good (FteidIe 256 false None)) Absent)) None.
Definition ex_both_ch : pdr_ie :=
  PdrIe (Some 3%N) (Some 0%N) (Some 2%N) (Some 1%N) [] (Some (PdiIe true (Good (FteidIe 0 true None)) Absent)) None.
Definition ex_both : est_req :=
  EstReq (Good 5%N) (Good 100%N) [ex_both_far_dl; ex_both_far_ul] [ex_both_qer] [] [ex_both_ch; ex_both_ul; ex_both_dl].
Definition out_is (r : option (verdict * xst)) (v : verdict) (g : list N) : bool :=
  match r with
  | Some (w, s) => match w, v with PASS, PASS => true | REDIRECT i, REDIRECT j => (i =? j)%N | _, _ => false end && bool_decide (x_f s = g)
  | None => false
  end.
Lemma out_is_ok r v g : out_is r v g = true -> exists s, r = Some (v, s) /\ x_f s = g.
Proof.
  unfold out_is. destruct r as [[w s]|]; [|done]. intros H. apply andb_true_iff in H as [H1 H2]. apply bool_decide_eq_true in H2.
  exists s. split; [|done]. destruct w, v; try done. by apply N.eqb_eq in H1 as ->.
Qed.
Definition ex_down_sent : list N :=
  [2; 0; 0; 0; 0; 77; 2; 0; 0; 0; 0; 1; 8; 0]%N ++
  [69; 40; 0; 76; 0; 0; 64; 0; 64; 17; 38; 112; 10; 0; 0; 1; 10; 0; 0; 9]%N ++ [8; 104; 8; 104; 0; 56; 0; 0]%N ++
  [52; 255; 0; 40; 0; 0; 0; 85; 0; 0; 0; 133; 1; 0; 9; 0]%N ++ drop 14 ex_down.
Definition ex_up_sent : list N := [2; 0; 0; 0; 0; 77; 2; 0; 0; 0; 0; 1; 8; 0]%N ++ drop 50 ex_up0.

Example ex_both_end_to_end :
  exists c l c' r, ex_start [ex_setup] = Some (c, l) /\ reachable c /\
    handle id_shuffle 7 2 (SessEstReq ex_both) c = Done c' (Some r) /\ r_cause r = Some 1%N /\
    requests (g_n3 (c_cfg c)) ex_both r (Dn4 171704321) ex_both_dl ex_both_far_dl ex_both_qer /\
    requests (g_n3 (c_cfg c)) ex_both r (Up 256) ex_both_ul ex_both_far_ul ex_both_qer /\
    requests (g_n3 (c_cfg c)) ex_both r (Up 1) ex_both_ch ex_both_far_ul ex_both_qer /\
    down4 ex_env ex_down = true /\ be_value (dst4 ex_down) = 171704321%N /\
    gpdu ex_env ex_up0 = true /\ be_value (teid ex_up0) = 256%N /\
    (exists s, xdp ex_env ex_down (c_dp c') = Some (REDIRECT 7, s) /\ x_f s = ex_down_sent) /\
    (exists s, xdp ex_env ex_up0 (c_dp c') = Some (REDIRECT 7, s) /\ x_f s = ex_up_sent) /\
    exists s c'' r', session_of c' 7 2 = Some s /\ owns_key s (Dn4 171704321) /\
      handle id_shuffle 7 3 (SessDelReq 2) c' = Done c'' (Some r') /\ r_cause r' = Some 1%N /\
      exists s', xdp ex_env ex_down (c_dp c'') = Some (PASS, s') /\ x_f s' = ex_down.
Proof.
  pose (B := ex_runs [ex_setup] (fun c => ex_accepts 1 (handle id_shuffle 7 2 (SessEstReq ex_both) c) (fun c' r =>
      bool_decide (r_created r = [CreatedTeid 3 1 (g_n3 (c_cfg c))]) &&
      out_is (xdp ex_env ex_down (c_dp c')) (REDIRECT 7) ex_down_sent &&
      out_is (xdp ex_env ex_up0 (c_dp c')) (REDIRECT 7) ex_up_sent &&
      ex_has_session c' 7 2 (fun s => ex_pdr_key s 2 (Dn4 171704321)) &&
      ex_accepts 1 (handle id_shuffle 7 3 (SessDelReq 2) c') (fun c'' _ =>
        out_is (xdp ex_env ex_down (c_dp c'')) PASS ex_down)))).
  assert (H : B = true) by (by vm_compute). unfold B in H.
  apply ex_runs_inv in H as (c & l & Hc & H). apply ex_accepts_inv in H as (c' & r & Hh & Hk & H).
  apply andb_true_iff in H as [H H5]. apply andb_true_iff in H as [H H4]. apply andb_true_iff in H as [H H3].
  apply andb_true_iff in H as [H1 H2]. apply bool_decide_eq_true in H1.
  apply ex_has_session_inv in H4 as (s & Hs & Hkey). apply ex_pdr_key_inv in Hkey.
  apply ex_accepts_inv in H5 as (c'' & r' & Hh' & Hk' & H5). apply out_is_ok in H2, H3, H5.
  exists c, l, c', r. split; [done|]. split. { eapply ex_start_reachable; [|exact Hc]. repeat constructor; apply id_shuffle_fair. }
  split; [exact Hh|]. split; [exact Hk|].
  assert (Nd : NoDup (pdr_ids (eq_pdrs ex_both)) /\ NoDup ((fun f => default 0%N (fa_id f)) <$> eq_fars ex_both) /\ NoDup (qe_id <$> eq_qers ex_both)).
  { split_and!; apply (bool_decide_unpack _); by vm_compute. }
  destruct Nd as (N1 & N2 & N3).
  split; [|split; [|split]].
  - split; try done.
    + exists 2. split; [done|]. intros m p' Hm Hp'. by do 3 (destruct m as [|m]; [lia|]).
    + right. split; [|done]. intros a. rewrite H1. by intros ?%elem_of_list_singleton.
    + by left.
    + split; [left|]. by exists 1%N.
    + split; [left|]. by exists 1%N.
  - split; try done.
    + exists 1. split; [done|]. intros m p' Hm Hp'. destruct m as [|[|[|m]]]; try lia; [|done]. injection Hp' as <-.
      intros [(a & ? & _)|[_ ?]]; done.
    + by exists 256%N.
    + by left.
    + split; [right; left|]. by exists 2%N.
    + split; [left|]. by exists 1%N.
  - split; try done.
    + exists 0. split; [done|]. intros m p' Hm Hp'. destruct m as [|[|[|m]]]; try lia; [| |done]; injection Hp' as <-.
      * by intros (t & [= <-] & ?).
      * intros [(a & ? & _)|[_ ?]]; done.
    + exists 1%N. split; [done|]. cbn [fe_ch]. rewrite H1. by apply elem_of_list_singleton.
    + by left.
    + split; [right; left|]. by exists 2%N.
    + split; [left|]. by exists 1%N.
  - split; [by vm_compute|]. split; [by vm_compute|]. split; [by vm_compute|]. split; [by vm_compute|].
    split; [exact H2|]. split; [exact H3|]. exists s, c'', r'. split; [exact Hs|]. split; [exact Hkey|]. split; [exact Hh'|]. split; [exact Hk'|exact H5].
Qed.
