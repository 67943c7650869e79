(** Which rule applies to a packet and what the rules permit: C30, C31, C59, C21. *)
From Verif Require Import Base IdTracker SdfParser SdfProps MapOps SdfMatch Pfcp Qer Csum Xdp XdpBase XdpProps.
Open Scope nat_scope.

(** ** Specification: the rule for a packet *)

(** Source and destination port of the transport header at offset [o]. *)
Definition ports_at (f : list N) (o : nat) : N * N := (be_value (field f o 2), be_value (field f (o + 2) 2)).

(** The 5-tuple of a packet towards a UE.  Ports are 0 if there is no complete transport header
    (and, for IPv6, always for UDP). *)
Definition tuple4 (f : list N) : sdf_pkt :=
  SdfPkt (proto4 f) (src4 f) (dst4 f)
    (if (proto4 f =? 17)%N && (l4 f + 8 <=? length f) then ports_at f (l4 f)
     else if (proto4 f =? 6)%N && (l4 f + 20 <=? length f) then ports_at f (l4 f) else (0, 0)%N).
Definition tuple6 (f : list N) : sdf_pkt :=
  SdfPkt (proto6 f) (src6 f) (dst6 f)
    (if (proto6 f =? 6)%N && (74 <=? length f) then ports_at f 54 else (0, 0)%N).

(** Offset of the packet inside a G-PDU, and its 5-tuple: [None] if a header is incomplete;
    [inl] IPv4, [inr (Some _)] IPv6, [inr None] neither. *)
Definition payload (f : list N) : nat := gtp f + 8 + (if gtp_opt f then 8 else 0).
Definition inner_ports (f : list N) (proto : N) (o : nat) : option (N * N) :=
  if (proto =? 17)%N then if o + 8 <=? length f then Some (ports_at f o) else None
  else if (proto =? 6)%N then if o + 20 <=? length f then Some (ports_at f o) else None
  else Some (0, 0)%N.
Definition inner_tuple (f : list N) : option (sdf_pkt + option sdf_pkt) :=
  let p := payload f in
  if p + 1 <=? length f then
    if (byte f p / 16 =? 4)%N then
      if p + 20 <=? length f then
        match inner_ports f (byte f (p + 9)) (p + 4 * N.to_nat (byte f p mod 16)) with
        | Some ports => Some (inl (SdfPkt (byte f (p + 9)) (field f (p + 12) 4) (field f (p + 16) 4) ports))
        | None => None
        end
      else None
    else if (byte f p / 16 =? 6)%N then
      if p + 40 <=? length f then
        match inner_ports f (byte f (p + 6)) (p + 40) with
        | Some ports => Some (inr (Some (SdfPkt (byte f (p + 6)) (field f (p + 8) 16) (field f (p + 24) 16) ports)))
        | None => None
        end
      else None
    else Some (inr None)
  else None.

(** The entry for the packet: by TEID for a G-PDU, by destination address for a packet to a UE. *)
Definition entry (e : env) (d : dp) (f : list N) : option ep_pdr :=
  if gpdu e f then d_up d !! be_value (teid f)
  else if down4 e f then d_dn4 d !! be_value (dst4 f)
  else if down6 f then d_dn6 d !! be_value (dst6 f)
  else None.

(** Does the packet match the filter?  [None]: headers incomplete. *)
Definition matches (e : env) (flt : ep_filter) (f : list N) : option bool :=
  if gpdu e f then
    match inner_tuple f with
    | Some (inl t) => Some (match_ipv4 flt t)
    | Some (inr (Some t)) => Some (match_ipv6 flt t)
    | Some (inr None) => Some false
    | None => None
    end
  else if down4 e f then Some (match_ipv4 flt (tuple4 f))
  else if down6 f then Some (match_ipv6 flt (tuple6 f))
  else None.

(** A rule: FAR id, QER id, outer header removal. *)
Record rule := Rule { r_far : N; r_qer : N; r_ohr : N }.
Definition default_rule (p : ep_pdr) : rule := Rule (ep_far p) (ep_qer p) (ep_ohr p).
Definition sdf_rule (p : ep_pdr) : rule := Rule (er_far (ep_rules_ p)) (er_qer (ep_rules_ p)) (er_ohr (ep_rules_ p)).

(** Entry modes (pdr.h:60): 0 default rule only, odd: SDF rule only, otherwise both. *)
Definition select (p : ep_pdr) (m : option bool) : option rule :=
  if (ep_mode p =? 0)%N then Some (default_rule p)
  else match m with
       | None => None
       | Some true => Some (sdf_rule p)
       | Some false => if N.odd (ep_mode p) then None else Some (default_rule p)
       end.
Definition rule_for (e : env) (d : dp) (f : list N) : option (ep_pdr * rule) :=
  match entry e d f with
  | Some p => match select p (matches e (er_filter (ep_rules_ p)) f) with Some r => Some (p, r) | None => None end
  | None => None
  end.

(** ** Selection in the model *)
Lemma land1_odd n : negb (N.land n 1 =? 0)%N = N.odd n.
Proof.
  change 1%N with (N.ones 1). rewrite N.land_ones. change (2 ^ 1)%N with 2%N.
  rewrite <- N.bit0_mod, <- N.bit0_odd. by destruct (N.testbit n 0).
Qed.

Definition forward_result (k : ep_pdr -> rule -> M verdict) (r : option (ep_pdr * rule)) : M verdict :=
  match r with Some (p, r) => k p r | None => ret PASS end.

Lemma handle_gtp_rule e f d l : gpdu e f = true ->
  handle_gtp_packet e (gtp_ctx f) (Xst f d l) =
  forward_result (fun p r => n3_forward e (gtp_ctx f) p (r_far r) (r_qer r) (r_ohr r)) (rule_for e d f) (Xst f d l).
Proof.
  intros Hg. unfold handle_gtp_packet, rule_for, entry, matches. rewrite Hg.
  assert (Hl : gtp f + 8 <= length f).
  { unfold gpdu in Hg. apply andb_prop in Hg as [_ H]. apply bool_decide_eq_true in H. by eapply gtp_type_len. }
  cbn [gtp_ctx p_gtp]. rewrite bind_rd by (cbn [x_f]; lia). rewrite bind_get_dp. cbn [x_f x_dp].
  change (field f (gtp f + 4) 4) with (teid f).
  destruct (d_up d !! be_value (teid f)) as [p|]; [|done]. cbv zeta. unfold select.
  destruct (ep_mode p =? 0)%N eqn:Em; [done|]. rewrite bind_fits. change (p_data (gtp_ctx f)) with (payload f). cbn [x_f].
  rewrite (land1_odd (ep_mode p)). unfold inner_tuple. cbv zeta.
  destruct (Nat.leb_spec (payload f + 1) (length f)) as [Hp|Hp]; [|done]. cbn [negb].
  rewrite bind_rd1 by (cbn [x_f]; lia). cbn [x_f].
  destruct (byte f (payload f) / 16 =? 4)%N.
  { unfold parse_ip4. rewrite bind_assoc, bind_fits. cbn [x_f p_data].
    destruct (Nat.leb_spec (payload f + 20) (length f)) as [H20|H20]; [|done].
    rewrite bind_assoc, bind_rd1 by (cbn [x_f]; lia). rewrite bind_assoc, bind_rd1 by (cbn [x_f]; lia). rewrite bind_ret. cbn [x_f p_eth p_ip6 p_udp p_tcp p_gtp].
    unfold parse_l4, inner_ports. set (o := payload f + 4 * N.to_nat (byte f (payload f) mod 16)).
    destruct (byte f (payload f + 9) =? 17)%N.
    { unfold parse_udp. rewrite bind_assoc, bind_fits. cbn [x_f p_data]. destruct (Nat.leb_spec (o + 8) (length f)) as [Ho|Ho]; [|done].
      rewrite bind_assoc, bind_rd by (cbn [x_f]; lia). rewrite bind_ret. cbn [x_f p_eth p_ip4 p_ip6 p_udp p_tcp p_gtp].
      unfold match_sdf4, sdf_ports. cbn [p_ip4 p_udp p_tcp]. repeat (rewrite bind_assoc, ?bind_rd, ?bind_rd1 by (cbn [x_f]; lia)). cbn [x_f].
      rewrite !bind_ret. rewrite bind_assoc, bind_rd by (cbn [x_f]; lia). rewrite bind_assoc, bind_rd by (cbn [x_f]; lia). rewrite bind_ret. cbn [x_f].
      unfold ports_at. destruct (match_ipv4 _ _); [done|]. by destruct (N.odd _). }
    destruct (byte f (payload f + 9) =? 6)%N.
    { unfold parse_tcp. rewrite bind_assoc, bind_fits. cbn [x_f p_data]. destruct (Nat.leb_spec (o + 20) (length f)) as [Ho|Ho]; [|done].
      rewrite bind_assoc, bind_rd by (cbn [x_f]; lia). rewrite bind_ret. cbn [x_f p_eth p_ip4 p_ip6 p_udp p_tcp p_gtp].
      unfold match_sdf4, sdf_ports. cbn [p_ip4 p_udp p_tcp]. repeat (rewrite bind_assoc, ?bind_rd, ?bind_rd1 by (cbn [x_f]; lia)). cbn [x_f].
      rewrite !bind_ret. rewrite bind_assoc, bind_rd by (cbn [x_f]; lia). rewrite bind_assoc, bind_rd by (cbn [x_f]; lia). rewrite bind_ret. cbn [x_f].
      unfold ports_at. destruct (match_ipv4 _ _); [done|]. by destruct (N.odd _). }
    rewrite bind_ret. unfold match_sdf4, sdf_ports. cbn [p_ip4 p_udp p_tcp]. rewrite bind_assoc, bind_rd1 by (cbn [x_f]; lia). cbn [x_f].
    rewrite bind_assoc, bind_ret. rewrite bind_assoc, bind_rd by (cbn [x_f]; lia). rewrite bind_assoc, bind_rd by (cbn [x_f]; lia). rewrite bind_ret. cbn [x_f].
    destruct (match_ipv4 _ _); [done|]. by destruct (N.odd _). }
  destruct (byte f (payload f) / 16 =? 6)%N.
  { unfold parse_ip6. rewrite bind_assoc, bind_fits. cbn [x_f p_data].
    destruct (Nat.leb_spec (payload f + 40) (length f)) as [H40|H40]; [|done].
    rewrite bind_assoc, bind_rd1 by (cbn [x_f]; lia). rewrite bind_ret. cbn [x_f p_eth p_ip4 p_udp p_tcp p_gtp].
    unfold parse_l4, inner_ports. set (o := payload f + 40) in *.
    destruct (byte f (payload f + 6) =? 17)%N.
    { unfold parse_udp. rewrite bind_assoc, bind_fits. cbn [x_f p_data]. destruct (Nat.leb_spec (o + 8) (length f)) as [Ho|Ho]; [|done].
      rewrite bind_assoc, bind_rd by (cbn [x_f]; lia). rewrite bind_ret. cbn [x_f p_eth p_ip4 p_ip6 p_udp p_tcp p_gtp].
      unfold match_sdf6, sdf_ports. cbn [p_ip6 p_udp p_tcp]. rewrite bind_assoc, bind_ptr.
      rewrite bind_assoc, bind_rd1 by (cbn [x_f]; lia). rewrite bind_assoc, bind_rd by (cbn [x_f]; lia). rewrite bind_assoc, bind_rd by (cbn [x_f]; lia). cbn [x_f].
      repeat (rewrite bind_assoc, ?bind_rd, ?bind_rd1 by (cbn [x_f]; lia)). cbn [x_f].
      rewrite !bind_ret. unfold ports_at. destruct (match_ipv6 _ _); [done|]. by destruct (N.odd _). }
    destruct (byte f (payload f + 6) =? 6)%N.
    { unfold parse_tcp. rewrite bind_assoc, bind_fits. cbn [x_f p_data]. destruct (Nat.leb_spec (o + 20) (length f)) as [Ho|Ho]; [|done].
      rewrite bind_assoc, bind_rd by (cbn [x_f]; lia). rewrite bind_ret. cbn [x_f p_eth p_ip4 p_ip6 p_udp p_tcp p_gtp].
      unfold match_sdf6, sdf_ports. cbn [p_ip6 p_udp p_tcp]. rewrite bind_assoc, bind_ptr.
      rewrite bind_assoc, bind_rd1 by (cbn [x_f]; lia). rewrite bind_assoc, bind_rd by (cbn [x_f]; lia). rewrite bind_assoc, bind_rd by (cbn [x_f]; lia). cbn [x_f].
      repeat (rewrite bind_assoc, ?bind_rd, ?bind_rd1 by (cbn [x_f]; lia)). cbn [x_f].
      rewrite !bind_ret. unfold ports_at. destruct (match_ipv6 _ _); [done|]. by destruct (N.odd _). }
    rewrite bind_ret. unfold match_sdf6, sdf_ports. cbn [p_ip6 p_udp p_tcp]. rewrite bind_assoc, bind_ptr.
    rewrite bind_assoc, bind_rd1 by (cbn [x_f]; lia). rewrite bind_assoc, bind_rd by (cbn [x_f]; lia). rewrite bind_assoc, bind_rd by (cbn [x_f]; lia). cbn [x_f].
    rewrite bind_assoc, !bind_ret. destruct (match_ipv6 _ _); [done|]. by destruct (N.odd _). }
  by destruct (N.odd _).
Qed.

(** The downlink handlers with any parser state; [ports_of] are the ports that state points at. *)
Definition ports_of (c : pctx) (f : list N) : N * N :=
  match p_udp c, p_tcp c with
  | Some o, _ => ports_at f o
  | None, Some o => ports_at f o
  | None, None => (0, 0)%N
  end.
Lemma sdf_ports_eq c f d l : ctx_ok (length f) c -> sdf_ports c (Xst f d l) = Some (ports_of c f, Xst f d l).
Proof.
  intros Hc. unfold sdf_ports, ports_of. pose proof (c_udp _ _ Hc) as Hu. pose proof (c_tcp _ _ Hc) as Ht.
  destruct (p_udp c) as [o|]; simpl in Hu; [|destruct (p_tcp c) as [o|]; simpl in Ht; [|done]];
    rewrite bind_rd by (cbn [x_f]; lia); by rewrite bind_rd by (cbn [x_f]; lia).
Qed.
Definition rule4 (c : pctx) (f : list N) (ip : nat) (d : dp) : option (ep_pdr * rule) :=
  match d_dn4 d !! be_value (field f (ip + 16) 4) with
  | Some p => match select p (Some (match_ipv4 (er_filter (ep_rules_ p))
                  (SdfPkt (byte f (ip + 9)) (field f (ip + 12) 4) (field f (ip + 16) 4) (ports_of c f)))) with
              | Some r => Some (p, r) | None => None end
  | None => None
  end.
Definition rule6 (c : pctx) (f : list N) (ip : nat) (d : dp) : option (ep_pdr * rule) :=
  match d_dn6 d !! be_value (field f (ip + 24) 16) with
  | Some p => match select p (Some (match_ipv6 (er_filter (ep_rules_ p))
                  (SdfPkt (byte f (ip + 6)) (field f (ip + 8) 16) (field f (ip + 24) 16) (ports_of c f)))) with
              | Some r => Some (p, r) | None => None end
  | None => None
  end.

Lemma handle_n6_ipv4_rule e c f ip d l : ctx_ok (length f) c -> p_ip4 c = Some ip ->
  handle_n6_packet_ipv4 e c (Xst f d l) =
  forward_result (fun p r => n6_forward e c p (r_far r) (r_qer r)) (rule4 c f ip d) (Xst f d l).
Proof.
  intros Hc Ei. unfold handle_n6_packet_ipv4, rule4. rewrite Ei.
  pose proof (c_ip4 _ _ Hc) as Hi. rewrite Ei in Hi. simpl in Hi.
  rewrite bind_ptr, bind_rd by (cbn [x_f]; lia). rewrite bind_get_dp. cbn [x_f x_dp].
  destruct (d_dn4 d !! _) as [p|]; [|done]. unfold select. destruct (ep_mode p =? 0)%N; [done|].
  rewrite (land1_odd (ep_mode p)). unfold match_sdf4. rewrite Ei.
  rewrite bind_assoc, bind_rd1 by (cbn [x_f]; lia). cbn [x_f]. rewrite bind_assoc.
  unfold bind at 1. rewrite (sdf_ports_eq c f d l Hc).
  rewrite bind_assoc, bind_rd by (cbn [x_f]; lia). rewrite bind_assoc, bind_rd by (cbn [x_f]; lia). rewrite bind_ret. cbn [x_f].
  destruct (match_ipv4 _ _); [done|]. by destruct (N.odd _).
Qed.
Lemma handle_n6_ipv6_rule e c f ip d l : ctx_ok (length f) c -> p_ip6 c = Some ip ->
  handle_n6_packet_ipv6 e c (Xst f d l) =
  forward_result (fun p r => n6_forward e c p (r_far r) (r_qer r)) (rule6 c f ip d) (Xst f d l).
Proof.
  intros Hc Ei. unfold handle_n6_packet_ipv6, rule6. rewrite Ei.
  pose proof (c_ip6 _ _ Hc) as Hi. rewrite Ei in Hi. simpl in Hi.
  rewrite bind_ptr, bind_rd by (cbn [x_f]; lia). rewrite bind_get_dp. cbn [x_f x_dp].
  destruct (d_dn6 d !! _) as [p|]; [|done]. unfold select. destruct (ep_mode p =? 0)%N; [done|].
  rewrite (land1_odd (ep_mode p)). unfold match_sdf6. rewrite Ei. rewrite bind_assoc, bind_ptr.
  rewrite bind_assoc, bind_rd1 by (cbn [x_f]; lia). cbn [x_f].
  rewrite bind_assoc, bind_rd by (cbn [x_f]; lia). rewrite bind_assoc, bind_rd by (cbn [x_f]; lia). cbn [x_f]. rewrite bind_assoc.
  unfold bind at 1. rewrite (sdf_ports_eq c f d l Hc). rewrite bind_ret.
  destruct (match_ipv6 _ _); [done|]. by destruct (N.odd _).
Qed.

Lemma down4_not_gpdu e f : down4 e f = true -> gpdu e f = false /\ echo_request e f = false.
Proof.
  unfold down4, gpdu, echo_request. intros H. apply andb_prop in H as [_ H]. apply negb_true_iff in H. by rewrite H.
Qed.
Lemma down6_not_4 e f : down6 f = true -> gpdu e f = false /\ echo_request e f = false /\ down4 e f = false.
Proof.
  intros H. assert (H4 : is_ip4 f = false).
  { unfold down6, is_ip6 in H. repeat (apply andb_prop in H as [H ?]). apply N.eqb_eq in H. unfold is_ip4. by rewrite H. }
  unfold gpdu, echo_request, down4, gtpu. rewrite H4. done.
Qed.
Lemma gpdu_not_echo e f : gpdu e f = true -> echo_request e f = false.
Proof.
  unfold gpdu, echo_request. intros H. apply andb_prop in H as [-> H]. apply bool_decide_eq_true in H. rewrite H. done.
Qed.

Lemma rule4_rule_for e d f : down4 e f = true -> rule4 (down4_ctx f) f 14 d = rule_for e d f.
Proof.
  intros H4. destruct (down4_not_gpdu e f H4) as [Hg _]. unfold rule4, rule_for, entry, matches. rewrite Hg, H4.
  change (field f (14 + 16) 4) with (dst4 f). change (field f (14 + 12) 4) with (src4 f). change (byte f (14 + 9)) with (proto4 f).
  destruct (d_dn4 d !! _) as [p|]; [|done]. unfold tuple4, ports_of, down4_ctx.
  destruct ((proto4 f =? 17)%N && _); [done|]. by destruct ((proto4 f =? 6)%N && _).
Qed.
Lemma rule6_rule_for e d f : down6 f = true -> rule6 (down6_ctx f) f 14 d = rule_for e d f.
Proof.
  intros H6. destruct (down6_not_4 e f H6) as (Hg & _ & H4). unfold rule6, rule_for, entry, matches. rewrite Hg, H4, H6.
  change (field f (14 + 24) 16) with (dst6 f). change (field f (14 + 8) 16) with (src6 f). change (byte f (14 + 6)) with (proto6 f).
  destruct (d_dn6 d !! _) as [p|]; [|done]. unfold tuple6, ports_of, down6_ctx. change (54 + 20) with 74.
  by destruct ((proto6 f =? 6)%N && _).
Qed.

(** The three ways a packet gets to a rule. *)
Definition down_ctx (e : env) (f : list N) : pctx := if down4 e f then down4_ctx f else down6_ctx f.
Lemma dispatch_rule e f d l :
  dispatch e f (Xst f d l) =
  if echo_request e f then handle_echo_request e (gtp_ctx f) (Xst f d l)
  else forward_result (fun p r => if gpdu e f then n3_forward e (gtp_ctx f) p (r_far r) (r_qer r) (r_ohr r)
                                  else n6_forward e (down_ctx e f) p (r_far r) (r_qer r)) (rule_for e d f) (Xst f d l).
Proof.
  unfold dispatch. destruct (gpdu e f) eqn:Hg.
  { rewrite (gpdu_not_echo _ _ Hg). by apply handle_gtp_rule. }
  destruct (echo_request e f) eqn:He; [done|]. unfold down_ctx. destruct (down4 e f) eqn:H4.
  { destruct (down4_ctx_ok e f H4) as [H1 H2]. rewrite (handle_n6_ipv4_rule e _ f 14 d l H1 H2). by rewrite (rule4_rule_for e). }
  destruct (down6 f) eqn:H6.
  { destruct (down6_ctx_ok f H6) as [H1 H2]. rewrite (handle_n6_ipv6_rule e _ f 14 d l H1 H2). by rewrite (rule6_rule_for e). }
  unfold rule_for, entry. by rewrite Hg, H4, H6.
Qed.

(** ** Specification: what a rule permits, and how a permitted packet is accounted for *)
Inductive dir := Uplink | Downlink.
Definition dir_of (e : env) (f : list N) : dir := if gpdu e f then Uplink else Downlink.
Definition gate (w : dir) (q : qer_info) : N := match w with Uplink => qi_ul_gate q | Downlink => qi_dl_gate q end.
Definition rate (w : dir) (q : qer_info) : N := match w with Uplink => qi_ul_rate q | Downlink => qi_dl_rate q end.
Definition start (w : dir) (q : qer_info) : N := match w with Uplink => qi_ul_start q | Downlink => qi_dl_start q end.
Definition now (w : dir) (e : env) : N := match w with Uplink => e_now_ul e | Downlink => e_now_dl e end.
Definition with_start (w : dir) (q : qer_info) (v : N) : qer_info :=
  match w with Uplink => with_ul_start q v | Downlink => with_dl_start q v end.

(** The FAR forwards (apply action FORW is bit 1; outer header creation GTP-U/UDP/IPv4 is bit 0 of the value
    the control plane stores). *)
Definition far_permits (w : dir) (far : far_info) : bool :=
  N.testbit (fi_action far) 1 && match w with Uplink => true | Downlink => N.testbit (fi_ohc far) 0 end.
(** The gate is open (0). *)
Definition gate_open (w : dir) (q : qer_info) : bool := (gate w q =? 0)%N.
(** The rate limiter lets the packet through. *)
Definition in_rate (e : env) (w : dir) (q : qer_info) (size : N) : bool :=
  fst (limit_rate size (start w q) (rate w q) (now w e)).

Definition permitted (e : env) (w : dir) (size : N) (d : dp) (r : rule) : option (far_info * qer_info) :=
  match far_get d (r_far r), qer_get d (r_qer r) with
  | Some far, Some q => if far_permits w far && gate_open w q && in_rate e w q size then Some (far, q) else None
  | _, _ => None
  end.

Definition urr_add (id ul dl : N) (d : dp) : dp :=
  match urr_get d id with
  | Some u => set_urr (<[id := Urr (u64 (ui_ul u + ul)) (u64 (ui_dl u + dl))]> (d_urr d)) d
  | None => d
  end.
Definition volume (w : dir) (size : N) : N * N := match w with Uplink => (size, 0)%N | Downlink => (0, size)%N end.
(** Move the limiter's mark, then charge both URRs of the entry. *)
Definition mark (e : env) (w : dir) (size : N) (r : rule) (q : qer_info) (d : dp) : dp :=
  if (rate w q =? 0)%N then d
  else set_qer (<[r_qer r := with_start w q (snd (limit_rate size (start w q) (rate w q) (now w e)))]> (d_qer d)) d.
Definition account (e : env) (w : dir) (size : N) (p : ep_pdr) (r : rule) (q : qer_info) (d : dp) : dp :=
  let '(ul, dl) := volume w size in
  urr_add (ep_urr2 p) ul dl (urr_add (ep_urr1 p) ul dl (mark e w size r q d)).

(** What happens to a permitted packet after accounting. *)
Definition uplink_out (e : env) (c : pctx) (far : far_info) (ohr : N) : M verdict :=
  if N.testbit (fi_ohc far) 0 then
    update_gtp_tunnel e c (e_n9 e) (le32 (fi_remote far)) (fi_teid far);;; n3_deliver e c
  else if (ohr =? 0)%N then
    '(ok, c) <- remove_gtp_header c;;
    if ok : bool then n3_deliver e c else ret ABORTED
  else n3_deliver e c.
Definition downlink_out (e : env) (c : pctx) (far : far_info) (q : qer_info) : M verdict :=
  send_to_gtp_tunnel e c (e_n3 e) (le32 (fi_remote far)) (fi_tlm far / 256) (qi_qfi q) (fi_teid far).

Lemma land_bit n i : N.land n (2 ^ i) = if N.testbit n i then (2 ^ i)%N else 0%N.
Proof.
  apply N.bits_inj. intros j. rewrite N.land_spec, N.pow2_bits_eqb. destruct (N.eqb_spec i j) as [<-|Hn].
  - rewrite andb_true_r. destruct (N.testbit n i); [by rewrite N.pow2_bits_true|done].
  - rewrite andb_false_r. destruct (N.testbit n i); [by rewrite N.pow2_bits_false|done].
Qed.
Lemma land2_testbit n : (N.land n 2 =? 0)%N = negb (N.testbit n 1).
Proof. change 2%N with (2 ^ 1)%N. rewrite land_bit. by destruct (N.testbit n 1). Qed.
Lemma land1_testbit n : (N.land n 1 =? 0)%N = negb (N.testbit n 0).
Proof. change 1%N with (2 ^ 0)%N. rewrite land_bit. by destruct (N.testbit n 0). Qed.

Lemma charge_eq id ul dl f d l : charge id ul dl (Xst f d l) = Some (tt, Xst f (urr_add id ul dl d) l).
Proof. unfold charge, urr_add. rewrite bind_get_dp. cbn [x_dp]. by destruct (urr_get d id). Qed.
Lemma bind_charge {B} id ul dl (k : unit -> M B) f d l :
  bind (charge id ul dl) k (Xst f d l) = k tt (Xst f (urr_add id ul dl d) l).
Proof. unfold bind. by rewrite charge_eq. Qed.

Lemma n3_forward_eq e c p fid qid ohr f d l :
  n3_forward e c p fid qid ohr (Xst f d l) =
  match permitted e Uplink (N.of_nat (length f)) d (Rule fid qid ohr) with
  | None => Some (DROP, Xst f d l)
  | Some (far, q) =>
      uplink_out e c far ohr (Xst f (account e Uplink (N.of_nat (length f)) p (Rule fid qid ohr) q d) l)
  end.
Proof.
  unfold n3_forward, permitted. rewrite bind_get_dp. cbn [x_dp r_far r_qer].
  destruct (far_get d fid) as [far|]; [|done]. rewrite land2_testbit, land1_testbit.
  unfold far_permits. rewrite andb_true_r.
  destruct (N.testbit (fi_action far) 1); cbn [negb andb]; [|by destruct (qer_get d qid)].
  destruct (qer_get d qid) as [q|]; [|done]. unfold gate_open, gate. destruct (qi_ul_gate q =? 0)%N; cbn [negb andb]; [|done].
  rewrite bind_frame_len. cbn [x_f]. unfold bind at 1. rewrite rate_limit_eq. unfold in_rate, account, mark, start, rate, now, with_start, volume. cbn [r_qer].
  destruct (limit_rate _ _ _ _) as [pass v] eqn:El. cbn [fst snd]. destruct pass; [|by rewrite andb_false_r].
  rewrite andb_true_r. cbn [negb].
  assert (E : (match (if negb (qi_ul_rate q =? 0)%N then Some v else None) with
               | Some v => store_qer qid (with_ul_start q v) | None => ret tt end) (Xst f d l) =
              Some (tt, Xst f (if (qi_ul_rate q =? 0)%N then d else set_qer (<[qid := with_ul_start q v]> (d_qer d)) d) l)).
  { by destruct (qi_ul_rate q =? 0)%N. }
  unfold bind at 1. rewrite E. rewrite !bind_charge, El. unfold uplink_out. by destruct (N.testbit (fi_ohc far) 0).
Qed.

Lemma n6_forward_eq e c p fid qid ohr f d l :
  n6_forward e c p fid qid (Xst f d l) =
  match permitted e Downlink (N.of_nat (length f)) d (Rule fid qid ohr) with
  | None => Some (DROP, Xst f d l)
  | Some (far, q) =>
      downlink_out e c far q (Xst f (account e Downlink (N.of_nat (length f)) p (Rule fid qid ohr) q d) l)
  end.
Proof.
  unfold n6_forward, permitted. rewrite bind_get_dp. cbn [x_dp r_far r_qer].
  destruct (far_get d fid) as [far|]; [|done]. rewrite land2_testbit, land1_testbit.
  unfold far_permits.
  destruct (N.testbit (fi_action far) 1); cbn [negb andb]; [|by destruct (qer_get d qid)].
  destruct (N.testbit (fi_ohc far) 0); cbn [negb andb]; [|by destruct (qer_get d qid)].
  destruct (qer_get d qid) as [q|]; [|done]. unfold gate_open, gate. destruct (qi_dl_gate q =? 0)%N; cbn [negb andb]; [|done].
  rewrite bind_frame_len. cbn [x_f]. unfold bind at 1. rewrite rate_limit_eq. unfold in_rate, account, mark, start, rate, now, with_start, volume. cbn [r_qer].
  destruct (limit_rate _ _ _ _) as [pass v] eqn:El. cbn [fst snd]. destruct pass; [|by rewrite andb_false_r].
  rewrite andb_true_r. cbn [negb].
  assert (E : (match (if negb (qi_dl_rate q =? 0)%N then Some v else None) with
               | Some v => store_qer qid (with_dl_start q v) | None => ret tt end) (Xst f d l) =
              Some (tt, Xst f (if (qi_dl_rate q =? 0)%N then d else set_qer (<[qid := with_dl_start q v]> (d_qer d)) d) l)).
  { by destruct (qi_dl_rate q =? 0)%N. }
  unfold bind at 1. rewrite E. rewrite !bind_charge, El. done.
Qed.

(** The whole program in terms of rule, permission and accounting. *)
Lemma xdp_rule e f d :
  xdp e f d = finish (
    if echo_request e f then handle_echo_request e (gtp_ctx f) (Xst f d (rx_counters e f))
    else match rule_for e d f with
         | None => Some (PASS, Xst f d (rx_counters e f))
         | Some (p, r) =>
             match permitted e (dir_of e f) (N.of_nat (length f)) d r with
             | None => Some (DROP, Xst f d (rx_counters e f))
             | Some (far, q) =>
                 (if gpdu e f then uplink_out e (gtp_ctx f) far (r_ohr r) else downlink_out e (down_ctx e f) far q)
                 (Xst f (account e (dir_of e f) (N.of_nat (length f)) p r q d) (rx_counters e f))
             end
         end).
Proof.
  rewrite xdp_dispatch, dispatch_rule. destruct (echo_request e f); [done|]. f_equal.
  destruct (rule_for e d f) as [[p r]|]; [|done]. cbn [forward_result]. unfold dir_of. destruct r as [fid qid ohr].
  destruct (gpdu e f); [apply n3_forward_eq|]. cbn [r_far r_qer]. by rewrite (n6_forward_eq _ _ _ _ _ ohr).
Qed.

(** ** C30 *)
Theorem no_rule_passes_untouched :
  forall e d f, rule_for e d f = None -> echo_request e f = false ->
    xdp e f d = Some (PASS, Xst f d (rx_counters e f ++ [action 2])).
Proof. intros e d f Hr He. rewrite xdp_rule, He, Hr. done. Qed.

(** ** C31 *)
Theorem not_permitted_dropped :
  forall e d f p r, rule_for e d f = Some (p, r) ->
    permitted e (dir_of e f) (N.of_nat (length f)) d r = None ->
    xdp e f d = Some (DROP, Xst f d (rx_counters e f ++ [action 1])).
Proof.
  intros e d f p r Hr Hp. rewrite xdp_rule.
  assert (He : echo_request e f = false).
  { destruct (echo_request e f) eqn:E; [|done]. exfalso. unfold rule_for, entry in Hr.
    destruct (gpdu e f) eqn:Hg; [by rewrite (gpdu_not_echo _ _ Hg) in E|].
    destruct (down4 e f) eqn:H4; [by rewrite (proj2 (down4_not_gpdu _ _ H4)) in E|].
    destruct (down6 f) eqn:H6; [|done]. by rewrite (proj1 (proj2 (down6_not_4 e _ H6))) in E. }
  rewrite He, Hr, Hp. done.
Qed.

Theorem forwarded_is_permitted :
  forall e d f v s, xdp e f d = Some (v, s) -> (v = TX \/ exists i, v = REDIRECT i) ->
    echo_request e f = false ->
    exists p r far q, rule_for e d f = Some (p, r) /\
      far_get d (r_far r) = Some far /\ qer_get d (r_qer r) = Some q /\
      N.testbit (fi_action far) 1 = true /\
      (if gpdu e f then qi_ul_gate q = 0%N else qi_dl_gate q = 0%N /\ N.testbit (fi_ohc far) 0 = true).
Proof.
  intros e d f v s H Hv He. rewrite xdp_rule, He in H.
  destruct (rule_for e d f) as [[p r]|] eqn:Hr; [|simpl in H; simplify_eq; naive_solver].
  destruct (permitted e (dir_of e f) (N.of_nat (length f)) d r) as [[far q]|] eqn:Hp; [|simpl in H; simplify_eq; naive_solver].
  unfold permitted in Hp. destruct (far_get d (r_far r)) as [far1|] eqn:Ef; [|done]. destruct (qer_get d (r_qer r)) as [q1|] eqn:Eq; [|done].
  destruct (_ && _) eqn:E; [|done]. simplify_eq. apply andb_prop in E as [E _]. apply andb_prop in E as [E1 E2].
  unfold far_permits in E1. apply andb_prop in E1 as [E1 E3]. unfold gate_open, dir_of in *.
  exists p, r, far, q. split_and!; [done..|]. destruct (gpdu e f); [by apply N.eqb_eq in E2|]. split; [by apply N.eqb_eq in E2|done].
Qed.
