(** C82: packets of a flow and fragments of a datagram; C83: the volume charged; C84: IP protocols towards the UE. *)
From Verif Require Import Base IdTracker ResourceManager SdfParser SdfProps MapOps SdfMatch Pfcp PfcpProps PfcpHistory PfcpReach PfcpRules PfcpCreate PfcpRemove
  Qer Csum Xdp XdpBase XdpProps XdpRules XdpFrames XdpEcho XdpEx XdpAccount Maps EndToEnd Filters.
Open Scope nat_scope.

(** ** C82 *)
(** Fragment offset and identification of an IPv4 packet to a UE. *)
Definition frag_offset (f : list N) : N := (be_value (field f 20 2) mod 8192)%N.
Definition same_datagram (f g : list N) : Prop :=
  src4 f = src4 g /\ dst4 f = dst4 g /\ proto4 f = proto4 g /\ field f 18 2 = field g 18 2.

Lemma down6_not e f : down6 f = true -> gpdu e f = false /\ down4 e f = false.
Proof.
  unfold down6, gpdu, down4, gtpu, is_ip6, is_ip4. intros H. destruct (ethertype f =? 34525)%N eqn:E; [|done]. apply N.eqb_eq in E. rewrite E. done.
Qed.
Lemma down4_not e f : down4 e f = true -> gpdu e f = false.
Proof. unfold down4, gpdu. intros H. apply andb_true_iff in H as [_ H]. by destruct (gtpu e f). Qed.

(** The rule depends on the direction, the tunnel or UE address and the 5-tuple, and on nothing else in the packet. *)
Theorem same_flow_same_rule :
  forall e d f g,
    gpdu e f = true /\ gpdu e g = true /\ teid f = teid g /\ inner_tuple f = inner_tuple g \/
    down4 e f = true /\ down4 e g = true /\ tuple4 f = tuple4 g \/
    down6 f = true /\ down6 g = true /\ tuple6 f = tuple6 g ->
    rule_for e d f = rule_for e d g.
Proof.
  intros e d f g [(Hf & Hg & Ht & Hi)|[(Hf & Hg & Ht)|(Hf & Hg & Ht)]]; unfold rule_for, entry, matches.
  - by rewrite Hf, Hg, Ht, Hi.
  - rewrite (down4_not e f Hf), (down4_not e g Hg), Hf, Hg, Ht. by assert (dst4 f = dst4 g) as -> by (unfold tuple4 in Ht; by injection Ht).
  - destruct (down6_not e f Hf) as [-> ->], (down6_not e g Hg) as [-> ->]. rewrite Hf, Hg, Ht.
    by assert (dst6 f = dst6 g) as -> by (unfold tuple6 in Ht; by injection Ht).
Qed.

Definition any_port (flt : ep_filter) : Prop := ef_sport flt = (0, 65535)%N /\ ef_dport flt = (0, 65535)%N.
Lemma be2 f o : Forall (fun b => b < 256)%N f -> (be_value (field f o 2) < 65536)%N.
Proof.
  intros H. assert (Hl : length (field f o 2) <= 2) by (unfold field; rewrite take_length; lia).
  assert (Forall (fun b => b < 256)%N (field f o 2)) as Hb by (unfold field; by apply Forall_take, Forall_drop).
  pose proof (be_bound (field f o 2) Hb) as Hv.
  apply (N.lt_le_trans _ _ _ Hv). change 65536%N with (256 ^ 2)%N. apply N.pow_le_mono_r; [done|lia].
Qed.
Lemma ports_any flt f o : Forall (fun b => b < 256)%N f -> any_port flt -> ports_ok flt (ports_at f o) = true.
Proof.
  intros Hb [Hs Hd]. unfold ports_ok, ports_at. rewrite Hs, Hd. cbn [fst snd].
  pose proof (be2 f o Hb). pose proof (be2 f (o + 2) Hb).
  repeat match goal with |- context [(?a <? ?b)%N] => destruct (N.ltb_spec a b); [lia|] end. done.
Qed.
Lemma ports4_any flt f : Forall (fun b => b < 256)%N f -> any_port flt -> ports_ok flt (sp_ports (tuple4 f)) = true.
Proof.
  intros Hb Ha. unfold tuple4. cbn [sp_ports]. repeat case_match; try by apply ports_any.
  unfold ports_ok. destruct Ha as [-> ->]. done.
Qed.

(** Without port ranges in the filter all fragments of a datagram to a UE are treated alike. *)
Theorem fragments_alike_partial :
  forall e d f g p, Forall (fun b => b < 256)%N f -> Forall (fun b => b < 256)%N g ->
    down4 e f = true -> down4 e g = true -> same_datagram f g -> d_dn4 d !! be_value (dst4 f) = Some p ->
    (ep_mode p = 0%N \/ any_port (er_filter (ep_rules_ p))) ->
    rule_for e d f = rule_for e d g.
Proof.
  intros e d f g p Bf Bg Hf Hg (Hs & Hd & Hpr & _) Hp Ha. unfold rule_for, entry, matches.
  rewrite (down4_not e f Hf), (down4_not e g Hg), Hf, Hg, <- Hd, Hp. destruct Ha as [Ha|Ha].
  { unfold select. by rewrite Ha. }
  replace (match_ipv4 (er_filter (ep_rules_ p)) (tuple4 g)) with (match_ipv4 (er_filter (ep_rules_ p)) (tuple4 f)); [done|].
  unfold match_ipv4. rewrite (ports4_any _ f Bf Ha), (ports4_any _ g Bg Ha). unfold tuple4. cbn [sp_proto sp_saddr sp_daddr]. by rewrite Hs, Hd, Hpr.
Qed.

(** With one: the fragments after the first have no ports, and their first four payload bytes are taken for the ports.  A UE with the
    filter "permit out udp from any 53 to any". *)
Section texts.
Import String.
Definition ex_dns : pdr_ie :=
  PdrIe (Some 1%N) (Some 0%N) (Some 1%N) None [] (Some (PdiIe true Absent (Good (UeipIe false (Some 171704321%N) None)))) (Some (str "permit out udp from any 53 to any"%string)).
End texts.
(** Fragments of UDP datagrams to 10.60.0.1: [frag1 id port] starts with a UDP header, [frag2 id b] continues it (offset 8) with the
    bytes [b; b] first. *)
Definition ex_frag (id off flags : N) (data : list N) : list N :=
  [2; 0; 0; 0; 0; 1; 2; 0; 0; 0; 0; 9; 8; 0; 69; 0; 0; 36; 0; id; flags; off; 64; 17; 0; 0; 8; 8; 8; 8; 10; 60; 0; 1]%N ++ data.
Definition ex_frag1 (id port : N) : list N := ex_frag id 0 32 [0; port; 19; 136; 0; 24; 0; 0; 9; 8; 7; 6; 5; 4; 3; 2]%N.
Definition ex_frag2 (id b : N) : list N := ex_frag id 2 0 [0; b; 0; b; 9; 8; 7; 6]%N.
Definition has_rule (r : option (ep_pdr * rule)) : bool := match r with Some _ => true | None => false end.
Theorem fragments_alike_refuted :
  exists c l, ex_start [ex_setup; ex_recv 2 (ex_est_of [ex_dns] [])] = Some (c, l) /\ reachable c /\
    let r f := has_rule (rule_for ex_env (c_dp c) f) in
    (* the second fragment of a permitted datagram is not permitted *)
    (down4 ex_env (ex_frag1 1 53) = true /\ down4 ex_env (ex_frag2 1 80) = true /\ same_datagram (ex_frag1 1 53) (ex_frag2 1 80) /\
     frag_offset (ex_frag1 1 53) = 0%N /\ frag_offset (ex_frag2 1 80) = 2%N /\ r (ex_frag1 1 53) = true /\ r (ex_frag2 1 80) = false) /\
    (* and that of a datagram which is not permitted is, if its payload starts like one from port 53 *)
    (down4 ex_env (ex_frag1 2 80) = true /\ down4 ex_env (ex_frag2 2 53) = true /\ same_datagram (ex_frag1 2 80) (ex_frag2 2 53) /\
     r (ex_frag1 2 80) = false /\ r (ex_frag2 2 53) = true).
Proof.
  destruct (ex_runs_inv [ex_setup; ex_recv 2 (ex_est_of [ex_dns] [])] (fun c =>
    let r f := has_rule (rule_for ex_env (c_dp c) f) in r (ex_frag1 1 53) && negb (r (ex_frag2 1 80)) && negb (r (ex_frag1 2 80)) && r (ex_frag2 2 53)))
    as (c & l & Hc & H); [by vm_compute|].
  exists c, l. split; [exact Hc|]. split. { eapply ex_start_reachable; [|exact Hc]. repeat constructor; apply id_shuffle_fair. }
  clear Hc. cbv zeta in *. apply andb_true_iff in H as [H H4]. apply andb_true_iff in H as [H H3]. apply andb_true_iff in H as [H1 H2].
  apply negb_true_iff in H2, H3.
  split; [|split; [by vm_compute|split; [by vm_compute|split; [by vm_compute|split; [exact H3|exact H4]]]]].
  split; [by vm_compute|]. split; [by vm_compute|]. split; [by vm_compute|]. split; [by vm_compute|]. split; [by vm_compute|]. split; [exact H1|exact H2].
Qed.
Example ex_fragments_alike :
  let p := to_entrypoint (PdrReq 0 1 0 0 0 None) in
  ep_mode p = 0%N /\ any_port (ep_filter_of ex_any) /\ Forall (fun b => b < 256)%N (ex_frag1 1 53) /\ Forall (fun b => b < 256)%N (ex_frag2 1 80).
Proof. split; [done|]. split; [done|]. split; apply bytes_b_ok; by vm_compute. Qed.

(** ** C84 *)
(** IPv4 packets to a UE with a session are handled if they carry ICMP, TCP or UDP, IPv6 packets if they carry TCP or UDP. *)
Theorem ue_reached_partial :
  forall e d f p, ep_mode p = 0%N ->
    (is_ip4 f = true /\ gtpu e f = false /\ proto4 f ∈ [1; 6; 17]%N /\ d_dn4 d !! be_value (dst4 f) = Some p \/
     is_ip6 f = true /\ proto6 f ∈ [6; 17]%N /\ d_dn6 d !! be_value (dst6 f) = Some p) ->
    rule_for e d f = Some (p, default_rule p).
Proof.
  intros e d f p Hm H. unfold rule_for, entry. destruct H as [(H4 & Hg & Hp & Hd)|(H6 & Hp & Hd)].
  - assert (down4 e f = true) as Hf.
    { unfold down4. rewrite H4, Hg. apply elem_of_cons in Hp as [->|Hp]; [done|]. apply elem_of_cons in Hp as [->|Hp]; [done|].
      by apply elem_of_list_singleton in Hp as ->. }
    rewrite (down4_not e f Hf), Hf, Hd. unfold select. by rewrite Hm.
  - assert (down6 f = true) as Hf.
    { unfold down6. rewrite H6. apply elem_of_cons in Hp as [->|Hp]; [done|]. by apply elem_of_list_singleton in Hp as ->. }
    destruct (down6_not e f Hf) as [-> ->]. rewrite Hf, Hd. unfold select. by rewrite Hm.
Qed.
(** Every other protocol is handed to the kernel, whatever the sessions. *)
Theorem other_protocols_not_forwarded :
  forall e d f,
    (is_ip4 f = true /\ proto4 f ∉ [1; 6; 17]%N \/ is_ip6 f = true /\ proto6 f ∉ [6; 17]%N) ->
    xdp e f d = Some (PASS, Xst f d (rx_counters e f ++ [action 2])).
Proof.
  intros e d f H.
  assert (gtpu e f = false /\ down4 e f = false /\ down6 f = false) as (Hg & H4 & H6).
  { destruct H as [(H4 & Hp)|(H6 & Hp)].
    - assert (is_ip6 f = false) as Hn.
      { unfold is_ip4, is_ip6 in *. destruct (ethertype f =? 2048)%N eqn:E; [|done]. apply N.eqb_eq in E. by rewrite E. }
      unfold gtpu, down4, down6. rewrite Hn, H4.
      rewrite !not_elem_of_cons in Hp. destruct Hp as (P1 & P6 & P17 & _). apply N.eqb_neq in P1, P6, P17. by rewrite P1, P6, P17.
    - assert (is_ip4 f = false) as Hn.
      { unfold is_ip4, is_ip6 in *. destruct (ethertype f =? 34525)%N eqn:E; [|done]. apply N.eqb_eq in E. by rewrite E. }
      unfold gtpu, down4, down6. rewrite Hn, H6.
      rewrite !not_elem_of_cons in Hp. destruct Hp as (P6 & P17 & _). apply N.eqb_neq in P6, P17. by rewrite P6, P17. }
  apply no_rule_passes_untouched.
  - unfold rule_for, entry. assert (gpdu e f = false) as -> by (unfold gpdu; by rewrite Hg). by rewrite H4, H6.
  - unfold echo_request. by rewrite Hg.
Qed.
(** A UE with a session (uplink TEID 256, address 10.60.0.1) can send SCTP, but does not receive it. *)
Definition ex_sctp_up : list N := patch ex_up0 59 [132%N].
Definition ex_sctp_down : list N := patch ex_down 23 [132%N].
Theorem every_protocol_refuted :
  exists c l c' r, ex_start [ex_setup] = Some (c, l) /\ reachable c /\
    handle id_shuffle 7 2 (SessEstReq ex_both) c = Done c' (Some r) /\ r_cause r = Some 1%N /\
    be_value (dst4 ex_sctp_down) = 171704321%N /\
    (exists s, xdp ex_env ex_down (c_dp c') = Some (REDIRECT 7, s) /\ x_f s = ex_down_sent) /\
    (exists s, xdp ex_env ex_sctp_up (c_dp c') = Some (REDIRECT 7, s) /\ x_f s = [2; 0; 0; 0; 0; 77; 2; 0; 0; 0; 0; 1; 8; 0]%N ++ drop 50 ex_sctp_up) /\
    (exists s, xdp ex_env ex_sctp_down (c_dp c') = Some (PASS, s) /\ x_f s = ex_sctp_down).
Proof.
  pose (B := ex_runs [ex_setup] (fun c => ex_accepts 1 (handle id_shuffle 7 2 (SessEstReq ex_both) c) (fun c' r =>
      out_is (xdp ex_env ex_down (c_dp c')) (REDIRECT 7) ex_down_sent &&
      out_is (xdp ex_env ex_sctp_up (c_dp c')) (REDIRECT 7) ([2; 0; 0; 0; 0; 77; 2; 0; 0; 0; 0; 1; 8; 0]%N ++ drop 50 ex_sctp_up) &&
      out_is (xdp ex_env ex_sctp_down (c_dp c')) PASS ex_sctp_down))).
  assert (H : B = true) by (by vm_compute). unfold B in H.
  apply ex_runs_inv in H as (c & l & Hc & H). apply ex_accepts_inv in H as (c' & r & Hh & Hk & H).
  apply andb_true_iff in H as [H H3]. apply andb_true_iff in H as [H1 H2]. apply out_is_ok in H1, H2, H3.
  exists c, l, c', r. split; [exact Hc|]. split. { eapply ex_start_reachable; [|exact Hc]. repeat constructor; apply id_shuffle_fair. }
  split; [exact Hh|]. split; [exact Hk|]. split; [by vm_compute|]. split; [exact H1|]. split; [exact H2|exact H3].
Qed.

(** ** C83 *)
(** The user's packet inside a frame: behind the tunnel headers of a G-PDU, behind the Ethernet header otherwise. *)
Definition user_packet (e : env) (f : list N) : list N := if gpdu e f then drop (payload f) f else drop 14 f.
Definition overhead (e : env) (f : list N) : nat := if gpdu e f then payload f else 14.
(** What a permitted frame adds to the usage of a rule of its entry that is named once: the user's packet and everything in front of it. *)
Theorem volume_exact_partial :
  forall e d f p r far q v s id u, env_ok e -> rule_for e d f = Some (p, r) ->
    permitted e (dir_of e f) (N.of_nat (length f)) d r = Some (far, q) -> no_ping e f -> xdp e f d = Some (v, s) ->
    overhead e f <= length f -> id = ep_urr1 p -> id <> ep_urr2 p -> urr_get d id = Some u ->
    urr_get (x_dp s) id = Some (counted (dir_of e f) (N.of_nat (overhead e f + length (user_packet e f))) u).
Proof.
  intros e d f p r far q v s id u He Hr Hp Hn H Ho H1 H2 Hu. rewrite (entry_urrs_charged e d f p r far q v s He Hr Hp Hn H id u Hu). cbv zeta.
  rewrite decide_True, decide_False by done. do 3 f_equal. unfold overhead, user_packet in *. destruct (gpdu e f); rewrite drop_length; lia.
Qed.
Example ex_volume : exists r far q v s,
  rule_for ex_env ex_dp ex_up = Some (ex_entry 1 1, r) /\ permitted ex_env (dir_of ex_env ex_up) (N.of_nat (length ex_up)) ex_dp r = Some (far, q) /\
  no_ping ex_env ex_up /\ xdp ex_env ex_up ex_dp = Some (v, s) /\ overhead ex_env ex_up <= length ex_up /\ ep_urr1 (ex_entry 1 1) <> ep_urr2 (ex_entry 1 1) /\
  urr_get ex_dp (ep_urr1 (ex_entry 1 1)) = Some urr0 /\ overhead ex_env ex_up = 58 /\ length (user_packet ex_env ex_up) = 32.
Proof.
  eexists _, _, _, _, _. split; [vm_compute; reflexivity|]. split; [vm_compute; reflexivity|]. split; [apply ex_direction|].
  split; [vm_compute; reflexivity|]. split; [apply Nat.leb_le; by vm_compute|]. split; [by vm_compute|]. split; [by vm_compute|]. split; by vm_compute.
Qed.

(** The same user packet is charged differently with and without the optional fields of its tunnel header. *)
Definition ul_of (r : option (verdict * xst)) : N :=
  match r with Some (_, s) => match urr_get (x_dp s) 0 with Some u => ui_ul u | None => 0%N end | None => 0%N end.
Theorem volume_refuted :
  exists c l c' r, ex_start [ex_setup] = Some (c, l) /\ reachable c /\
    handle id_shuffle 7 2 (SessEstReq ex_both) c = Done c' (Some r) /\ r_cause r = Some 1%N /\
    user_packet ex_env ex_up = user_packet ex_env ex_up0 /\ length (user_packet ex_env ex_up) = 32 /\
    ul_of (xdp ex_env ex_up (c_dp c')) = 180%N /\ ul_of (xdp ex_env ex_up0 (c_dp c')) = 164%N.
Proof.
  pose (B := ex_runs [ex_setup] (fun c => ex_accepts 1 (handle id_shuffle 7 2 (SessEstReq ex_both) c) (fun c' r =>
      (ul_of (xdp ex_env ex_up (c_dp c')) =? 180)%N && (ul_of (xdp ex_env ex_up0 (c_dp c')) =? 164)%N))).
  assert (H : B = true) by (by vm_compute). unfold B in H.
  apply ex_runs_inv in H as (c & l & Hc & H). apply ex_accepts_inv in H as (c' & r & Hh & Hk & H).
  apply andb_true_iff in H as [H1 H2]. apply N.eqb_eq in H1, H2.
  exists c, l, c', r. split; [exact Hc|]. split. { eapply ex_start_reachable; [|exact Hc]. repeat constructor; apply id_shuffle_fair. }
  split; [exact Hh|]. split; [exact Hk|]. split; [by vm_compute|]. split; [by vm_compute|]. split; [exact H1|exact H2].
Qed.
