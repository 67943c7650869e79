(** Packet classification, and the properties of every packet: no access outside the frame (C49),
    effect on the data plane state, counters (C42), traffic without a session (C30). *)
From Verif Require Import Base IdTracker SdfParser SdfProps MapOps SdfMatch Pfcp Qer Csum Xdp XdpBase.
Open Scope nat_scope.

(** ** Specification: what a frame is.  Offsets follow the Ethernet, IP, UDP, TCP and GTP-U header
    formats. *)
Section views.
Variable e : env.
Variable f : list N.

Definition ethertype : N := if 14 <=? length f then be_value (field f 12 2) else 65535.
Definition is_ip4 : bool := (ethertype =? 2048)%N && (34 <=? length f).
Definition is_ip6 : bool := (ethertype =? 34525)%N && (54 <=? length f).
Definition proto4 : N := byte f 23.
Definition proto6 : N := byte f 20.
Definition src4 : list N := field f 26 4.
Definition dst4 : list N := field f 30 4.
Definition src6 : list N := field f 22 16.
Definition dst6 : list N := field f 38 16.
(** Start of the transport header: after the IPv4 header of IHL words. *)
Definition l4 : nat := 14 + 4 * N.to_nat (byte f 14 mod 16).

(** UDP to port 2152 at one of the UPF's own addresses. *)
Definition gtpu : bool :=
  is_ip4 && (proto4 =? 17)%N && (l4 + 8 <=? length f) && (be_value (field f (l4 + 2) 2) =? 2152)%N &&
  (bool_decide (dst4 = e_n3 e) || bool_decide (dst4 = e_n9 e)).
Definition gtp : nat := l4 + 8.
Definition gtp_type : option N := if gtp + 8 <=? length f then Some (byte f (gtp + 1)) else None.
Definition teid : list N := field f (gtp + 4) 4.
(** Does the GTP-U header have the optional fields (one of the flags E, S, PN)? *)
Definition gtp_opt : bool := negb (byte f gtp mod 8 =? 0)%N.

Definition gpdu : bool := gtpu && bool_decide (gtp_type = Some 255%N).
Definition echo_request : bool := gtpu && bool_decide (gtp_type = Some 1%N).
(** Packets towards a UE: IPv4 ICMP, TCP, UDP (not GTP-U to the UPF); IPv6 TCP, UDP. *)
Definition down4 : bool := is_ip4 && ((proto4 =? 1)%N || (proto4 =? 6)%N || (proto4 =? 17)%N) && negb gtpu.
Definition down6 : bool := is_ip6 && ((proto6 =? 6)%N || (proto6 =? 17)%N).

(** Receive counters by protocol. *)
Definition gtp_counters : list counter :=
  match gtp_type with
  | Some t => if (t =? 255)%N then [rx_gtp_pdu] else if (t =? 1)%N then [rx_gtp_echo] else if (t =? 2)%N then []
              else if (t =? 26)%N || (t =? 31)%N || (t =? 254)%N then [rx_gtp_other] else [rx_gtp_unexp]
  | None => [rx_gtp_unexp]
  end.
Definition ip4_counters : list counter :=
  if is_ip4 then
    if (proto4 =? 1)%N then [rx_icmp; rx_n6]
    else if (proto4 =? 17)%N then rx_udp :: (if gtpu then rx_n3 :: gtp_counters else [rx_n6])
    else if (proto4 =? 6)%N then [rx_tcp; rx_n6] else [rx_other]
  else [rx_other].
Definition ip6_counters : list counter :=
  if is_ip6 then
    if (proto6 =? 58)%N then [rx_icmp6] else if (proto6 =? 17)%N then [rx_udp; rx_n6]
    else if (proto6 =? 6)%N then [rx_tcp; rx_n6] else [rx_other]
  else [rx_other].
Definition rx_counters : list counter :=
  if (ethertype =? 34525)%N then rx_ip6 :: ip6_counters
  else if (ethertype =? 2048)%N then rx_ip4 :: ip4_counters
  else if (ethertype =? 2054)%N then [rx_arp]
  else [].

(** The parser state with which the handlers are entered. *)
Definition gtp_ctx : pctx :=
  Pctx (gtp + 8 + (if gtp_opt then 8 else 0)) (Some 0) (Some 14) None (Some l4) None (Some gtp).
Definition down4_ctx : pctx :=
  if (proto4 =? 17)%N && (l4 + 8 <=? length f) then Pctx (l4 + 8) (Some 0) (Some 14) None (Some l4) None None
  else if (proto4 =? 6)%N && (l4 + 20 <=? length f) then Pctx (l4 + 20) (Some 0) (Some 14) None None (Some l4) None
  else Pctx l4 (Some 0) (Some 14) None None None None.
Definition down6_ctx : pctx :=
  if (proto6 =? 6)%N && (54 + 20 <=? length f) then Pctx 74 (Some 0) None (Some 14) None (Some 54) None
  else Pctx 54 (Some 0) None (Some 14) None None None.

Definition dispatch : M verdict :=
  if gpdu then handle_gtp_packet e gtp_ctx
  else if echo_request then handle_echo_request e gtp_ctx
  else if down4 then handle_n6_packet_ipv4 e down4_ctx
  else if down6 then handle_n6_packet_ipv6 e down6_ctx
  else ret PASS.

Definition finish (r : option (verdict * xst)) : option (verdict * xst) :=
  match r with
  | Some (v, s) => Some (v, Xst (x_f s) (x_dp s) (x_log s ++ [action (verdict_code v)]))
  | None => None
  end.
End views.
Global Arguments l4 : simpl never.
Global Arguments gtp : simpl never.
Global Arguments field : simpl never.
Global Arguments byte : simpl never.

Lemma verdict_code_land v : N.land (verdict_code v) 7 = verdict_code v.
Proof. by destruct v. Qed.

Lemma entrypoint_finish e s : entrypoint e s = finish (process_packet e ctx0 s).
Proof.
  unfold entrypoint, bind. destruct (process_packet e ctx0 s) as [[v s']|]; [|done]. simpl.
  by rewrite verdict_code_land.
Qed.

Ltac eqb := repeat match goal with
  | |- context [(?a =? ?b)%N] => destruct (N.eqb_spec a b); try congruence; try (exfalso; lia)
  end.

Lemma handle_gtpu_dispatch e f d l :
  gtpu e f = true ->
  handle_gtpu e (Pctx (gtp f) (Some 0) (Some 14) None (Some (l4 f)) None None) (Xst f d l) =
  dispatch e f (Xst f d (l ++ gtp_counters f)).
Proof.
  intros Hg. unfold handle_gtpu, dispatch, gpdu, echo_request, down4, down6, gtp_counters, gtp_type.
  rewrite Hg. rewrite !andb_true_l. simpl negb. rewrite andb_false_r.
  assert (H6 : is_ip6 f = false).
  { unfold gtpu, is_ip4 in Hg. unfold is_ip6. destruct (N.eqb_spec (ethertype f) 34525) as [E|]; [|done]. rewrite E in Hg. done. }
  rewrite H6. unfold parse_gtp. rewrite bind_assoc. cbn [p_data]. rewrite bind_fits. cbn [x_f].
  destruct (Nat.leb_spec (gtp f + 8) (length f)) as [Hl|Hl].
  - rewrite bind_assoc, bind_rd1 by (cbn [x_f]; lia). rewrite bind_assoc, bind_rd1 by (cbn [x_f]; lia). rewrite bind_ret. cbn [x_f].
    remember (byte f (gtp f + 1)) as t eqn:Et.
    destruct (N.eqb_spec t 255) as [E|E]; [rewrite bool_decide_true by congruence; done|].
    rewrite (bool_decide_false (Some t = Some 255%N)) by congruence.
    destruct (N.eqb_spec t 1) as [E1|E1]; [rewrite bool_decide_true by congruence; done|].
    rewrite (bool_decide_false (Some t = Some 1%N)) by congruence.
    destruct (N.eqb_spec t 2) as [E2|E2]; [by rewrite app_nil_r|].
    destruct (_ || _); done.
  - rewrite bind_ret. rewrite !bool_decide_false by done. done.
Qed.

Definition eth_ctx : pctx := Pctx 14 (Some 0) None None None None None.

Lemma handle_ip6_dispatch e f d l : ethertype f = 34525%N ->
  handle_ip6 e eth_ctx (Xst f d l) = dispatch e f (Xst f d (l ++ ip6_counters f)).
Proof.
  intros E6. assert (I4 : is_ip4 f = false) by (unfold is_ip4; by rewrite E6).
  assert (G : gtpu e f = false) by (unfold gtpu; by rewrite I4).
  unfold dispatch, gpdu, echo_request, down4, down6. rewrite G, I4. rewrite !andb_false_l. cbv iota.
  unfold handle_ip6, parse_ip6. rewrite bind_assoc, bind_fits. unfold eth_ctx. cbn [x_f p_data p_eth p_ip4 p_udp p_tcp p_gtp].
  change (14 + 40) with 54. unfold ip6_counters.
  assert (I6 : is_ip6 f = (54 <=? length f)) by (unfold is_ip6; by rewrite E6). rewrite I6.
  destruct (Nat.leb_spec 54 (length f)) as [H54|H54]; [|done].
  rewrite bind_assoc, bind_rd1 by (cbn [x_f]; lia). rewrite bind_ret. cbn [x_f].
  change (byte f (14 + 6)) with (proto6 f). rewrite andb_true_l.
  destruct (N.eqb_spec (proto6 f) 58) as [E|_]; [by rewrite E|].
  destruct (N.eqb_spec (proto6 f) 17) as [E|_].
  { rewrite !bind_inc. unfold down6_ctx. rewrite E. cbn [x_f x_dp x_log]. by rewrite <- app_assoc. }
  destruct (N.eqb_spec (proto6 f) 6) as [E|_]; [|done].
  rewrite bind_inc. unfold parse_tcp. rewrite bind_assoc, bind_fits. cbn [x_f x_dp x_log p_data p_eth p_ip4 p_ip6 p_udp p_tcp p_gtp orb].
  unfold down6_ctx. rewrite E. change (6 =? 6)%N with true. rewrite andb_true_l.
  change (54 + 20) with 74.
  destruct (Nat.leb_spec 74 (length f)) as [H|H]; [rewrite bind_assoc, bind_rd by (cbn [x_f]; lia)|];
    rewrite bind_ret, bind_inc; cbn [x_f x_dp x_log]; by rewrite <- app_assoc.
Qed.

Lemma handle_ip4_dispatch e f d l : ethertype f = 2048%N ->
  handle_ip4 e eth_ctx (Xst f d l) = dispatch e f (Xst f d (l ++ ip4_counters e f)).
Proof.
  intros E4. assert (I6 : is_ip6 f = false) by (unfold is_ip6; by rewrite E4).
  unfold handle_ip4, parse_ip4. rewrite bind_assoc, bind_fits. unfold eth_ctx. cbn [x_f p_data p_eth p_ip6 p_udp p_tcp p_gtp].
  change (14 + 20) with 34. unfold ip4_counters.
  assert (I4 : is_ip4 f = (34 <=? length f)) by (unfold is_ip4; by rewrite E4). rewrite I4.
  destruct (Nat.leb_spec 34 (length f)) as [H34|H34].
  2: { unfold dispatch, gpdu, echo_request, down4, gtpu, down6. rewrite I4, I6. done. }
  rewrite bind_assoc, bind_rd1 by (cbn [x_f]; lia). rewrite bind_assoc, bind_rd1 by (cbn [x_f]; lia). rewrite bind_ret. cbn [x_f].
  change (byte f (14 + 9)) with (proto4 f). change (14 + 4 * N.to_nat (byte f 14 mod 16)) with (l4 f).
  destruct (N.eqb_spec (proto4 f) 1) as [E|E1].
  { assert (G : gtpu e f = false). { unfold gtpu. rewrite E, I4. done. }
    rewrite !bind_inc. cbn [x_f x_dp x_log]. rewrite <- app_assoc.
    unfold dispatch, gpdu, echo_request, down4, down6, down4_ctx. rewrite G, I4, E. done. }
  destruct (N.eqb_spec (proto4 f) 17) as [E|E17].
  { rewrite bind_inc. cbn [x_f x_dp x_log]. unfold parse_udp. rewrite bind_assoc, bind_fits. cbn [x_f p_data p_eth p_ip4 p_ip6 p_udp p_tcp p_gtp].
    assert (Hdown : gtpu e f = false -> dispatch e f = handle_n6_packet_ipv4 e (down4_ctx f)).
    { intros G. unfold dispatch, gpdu, echo_request, down4. rewrite G, I4, E. done. }
    destruct (Nat.leb_spec (l4 f + 8) (length f)) as [Hl4|Hl4].
    - rewrite bind_assoc, bind_rd by (cbn [x_f]; lia). rewrite bind_ret. cbn [x_f p_eth p_ip4 p_ip6 p_tcp p_gtp].
      assert (Hb : (l4 f + 8 <=? length f) = true) by (by apply Nat.leb_le).
      assert (G : gtpu e f = (be_value (field f (l4 f + 2) 2) =? 2152)%N && is_local_ip e (dst4 f)).
      { unfold gtpu. rewrite I4, E, Hb. done. }
      destruct (N.eqb_spec (be_value (field f (l4 f + 2) 2)) 2152) as [Ep|Ep].
      + rewrite bool_decide_true by congruence. rewrite bind_assoc, bind_ptr, bind_assoc, bind_rd by (cbn [x_f]; lia). rewrite bind_ret.
        cbn [x_f]. change (field f (14 + 16) 4) with (dst4 f). rewrite andb_true_l in G. rewrite <- G.
        destruct (gtpu e f) eqn:Gg.
        * rewrite bind_inc. cbn [x_f x_dp x_log]. rewrite (handle_gtpu_dispatch e f d _ Gg). by rewrite <- !app_assoc.
        * rewrite Hdown by done. unfold down4_ctx. rewrite E, Hb. rewrite bind_inc. cbn [x_f x_dp x_log]. by rewrite <- !app_assoc.
      + rewrite bool_decide_false by congruence. rewrite bind_ret. rewrite andb_false_l in G. rewrite G.
        rewrite Hdown by done. unfold down4_ctx. rewrite E, Hb. rewrite bind_inc. cbn [x_f x_dp x_log]. by rewrite <- !app_assoc.
    - rewrite bind_ret, bool_decide_false by done. rewrite bind_ret.
      assert (Hb : (l4 f + 8 <=? length f) = false) by (by apply Nat.leb_gt).
      assert (G : gtpu e f = false). { unfold gtpu. rewrite Hb. by rewrite andb_false_r. }
      rewrite Hdown by done. unfold down4_ctx. rewrite G, E, Hb. rewrite bind_inc. cbn [x_f x_dp x_log]. by rewrite <- !app_assoc. }
  assert (G : gtpu e f = false). { unfold gtpu. destruct (N.eqb_spec (proto4 f) 17); [done|]. by rewrite andb_false_r. }
  unfold dispatch, gpdu, echo_request, down4, down6. rewrite G, I4, I6. rewrite !andb_false_l, !andb_true_l. simpl negb. rewrite andb_true_r.
  destruct (N.eqb_spec (proto4 f) 1); [done|]. destruct (N.eqb_spec (proto4 f) 17); [done|].
  destruct (N.eqb_spec (proto4 f) 6) as [E|E6]; [|done]. cbn [orb].
  rewrite bind_inc. unfold parse_tcp. rewrite bind_assoc, bind_fits. cbn [x_f x_dp x_log p_data p_eth p_ip4 p_ip6 p_udp p_tcp p_gtp].
  unfold down4_ctx. rewrite E. change (6 =? 17)%N with false. change (6 =? 6)%N with true. rewrite andb_false_l, andb_true_l.
  destruct (Nat.leb_spec (l4 f + 20) (length f)) as [H|H]; [rewrite bind_assoc, bind_rd by (cbn [x_f]; lia)|];
    rewrite bind_ret, bind_inc; cbn [x_f x_dp x_log]; by rewrite <- app_assoc.
Qed.

(** Every packet is handled by exactly one handler, chosen by [dispatch]. *)
Lemma xdp_dispatch e f d :
  xdp e f d = finish (dispatch e f (Xst f d (rx_counters e f))).
Proof.
  unfold xdp. rewrite entrypoint_finish. f_equal.
  unfold process_packet, parse_ethernet. rewrite bind_assoc, bind_fits. unfold ctx0. cbn [x_f p_data p_ip4 p_ip6 p_udp p_tcp p_gtp].
  change (0 + 14) with 14. change (0 + 12) with 12.
  destruct (Nat.leb_spec 14 (length f)) as [H14|H14].
  2: { rewrite bind_ret. cbn [from_option id].
       assert (Ht : ethertype f = 65535%N). { unfold ethertype. destruct (Nat.leb_spec 14 (length f)); [lia|done]. }
       unfold dispatch, gpdu, echo_request, down4, down6, gtpu, is_ip4, is_ip6, rx_counters. rewrite Ht. done. }
  rewrite bind_assoc, bind_rd by (cbn [x_f]; lia). rewrite bind_ret. cbv zeta. cbn [from_option id x_f].
  assert (Ht : be_value (field f 12 2) = ethertype f).
  { unfold ethertype. destruct (Nat.leb_spec 14 (length f)); [done|lia]. }
  rewrite Ht. unfold rx_counters. change (from_option id 65535%N (Some (ethertype f))) with (ethertype f). fold eth_ctx.
  destruct (N.eqb_spec (ethertype f) 34525) as [E6|N6].
  { rewrite bind_inc. cbn [x_f x_dp x_log]. by rewrite handle_ip6_dispatch. }
  destruct (N.eqb_spec (ethertype f) 2048) as [E4|N4].
  { rewrite bind_inc. cbn [x_f x_dp x_log]. by rewrite handle_ip4_dispatch. }
  assert (I4 : is_ip4 f = false) by (unfold is_ip4; by destruct (N.eqb_spec (ethertype f) 2048)).
  assert (I6 : is_ip6 f = false) by (unfold is_ip6; by destruct (N.eqb_spec (ethertype f) 34525)).
  unfold dispatch, gpdu, echo_request, down4, gtpu, down6. rewrite I4, I6. rewrite !andb_false_l. cbv iota.
  destruct (N.eqb_spec (ethertype f) 2054); done.
Qed.

(** ** Every packet *)
Lemma gtpu_len e f : gtpu e f = true -> l4 f + 8 <= length f /\ 34 <= length f.
Proof.
  intros H. unfold gtpu, is_ip4 in H. repeat (apply andb_prop in H as [H ?]).
  repeat match goal with h : (_ <=? _) = true |- _ => apply Nat.leb_le in h end. done.
Qed.
Lemma gtp_type_len f t : gtp_type f = Some t -> gtp f + 8 <= length f.
Proof. unfold gtp_type. destruct (Nat.leb_spec (gtp f + 8) (length f)); done. Qed.
Lemma gtp_ctx_ok e f : gtpu e f = true -> gtp f + 8 <= length f -> ctx_ok (length f) (gtp_ctx f).
Proof. intros H1 H2. apply gtpu_len in H1 as [H1 H3]. split; simpl; try lia; done. Qed.
Lemma down4_ctx_ok e f : down4 e f = true -> ctx_ok (length f) (down4_ctx f) /\ p_ip4 (down4_ctx f) = Some 14.
Proof.
  intros H. unfold down4, is_ip4 in H. repeat (apply andb_prop in H as [H ?]).
  repeat match goal with h : (_ <=? _) = true |- _ => apply Nat.leb_le in h end.
  unfold down4_ctx. destruct (_ && _) eqn:E1; [|destruct ((proto4 f =? 6)%N && _) eqn:E2].
  - apply andb_prop in E1 as [_ E1]. apply Nat.leb_le in E1. split; [|done]. split; simpl; try lia; done.
  - apply andb_prop in E2 as [_ E2]. apply Nat.leb_le in E2. split; [|done]. split; simpl; try lia; done.
  - split; [|done]. split; simpl; try lia; done.
Qed.
Lemma down6_ctx_ok f : down6 f = true -> ctx_ok (length f) (down6_ctx f) /\ p_ip6 (down6_ctx f) = Some 14.
Proof.
  intros H. unfold down6, is_ip6 in H. repeat (apply andb_prop in H as [H ?]).
  repeat match goal with h : (_ <=? _) = true |- _ => apply Nat.leb_le in h end.
  unfold down6_ctx. destruct (_ && _) eqn:E1.
  - apply andb_prop in E1 as [_ E1]. apply Nat.leb_le in E1. split; [|done]. split; simpl in *; try lia; done.
  - split; [|done]. split; simpl; try lia; done.
Qed.

Lemma dispatch_nf e f d l : env_ok e -> wp (dispatch e f) (fun _ s' => ok (Xst f d l) s') (Xst f d l).
Proof.
  intros He. unfold dispatch. destruct (gpdu e f) eqn:Hg.
  { unfold gpdu in Hg. apply andb_prop in Hg as [H1 H2]. apply bool_decide_eq_true in H2. apply gtp_type_len in H2.
    apply handle_gtp_packet_nf; try done. by eapply gtp_ctx_ok. }
  destruct (echo_request e f) eqn:Hr.
  { unfold echo_request in Hr. apply andb_prop in Hr as [H1 H2]. apply bool_decide_eq_true in H2. apply gtp_type_len in H2.
    apply handle_echo_nf; try done. by eapply gtp_ctx_ok. }
  destruct (down4 e f) eqn:H4.
  { destruct (down4_ctx_ok e f H4) as [H1 H2]. apply handle_n6_ipv4_nf; [done|done|]. by rewrite H2. }
  destruct (down6 f) eqn:H6.
  { destruct (down6_ctx_ok f H6) as [H1 H2]. apply handle_n6_ipv6_nf; [done|done|]. by rewrite H2. }
  apply wp_ret, ok_refl.
Qed.

Lemma xdp_spec e f d : env_ok e -> exists v f' d' l, moved d d' /\ Forall tx_counter l /\
  xdp e f d = Some (v, Xst f' d' (rx_counters e f ++ l ++ [action (verdict_code v)])).
Proof.
  intros He. rewrite xdp_dispatch. pose proof (dispatch_nf e f d (rx_counters e f) He) as H. unfold wp in H.
  destruct (dispatch e f _) as [[v [f' d' lg]]|]; [|done]. destruct H as [Hm (l & El & Hl)]. cbn [x_dp x_log] in *.
  exists v, f', d', l. split_and!; [done|done|]. simpl. by rewrite El, app_assoc.
Qed.

(** C49.  No frame and no map content makes the program access a byte outside the frame, follow a NULL
    pointer or divide by zero. *)
Theorem never_outside_frame :
  forall e f d, env_ok e -> xdp e f d <> None.
Proof. intros e f d He. destruct (xdp_spec e f d He) as (v & f' & d' & l & _ & _ & ->). done. Qed.

(** Processing a packet is one of the [Traffic] events of the control plane model: it only moves rate limiter
    marks and URR counters. *)
Theorem packet_is_traffic :
  forall e f d v s, env_ok e -> xdp e f d = Some (v, s) ->
    exists marks volumes, x_dp s = traffic marks volumes d.
Proof.
  intros e f d v s He H. destruct (xdp_spec e f d He) as (v' & f' & d' & l & Hm & _ & E).
  rewrite E in H. simplify_eq. done.
Qed.

(** C42. *)
Definition count (c : counter) (l : list counter) : nat := length (filter (fun x => x = c) l).
Definition is_rx (c : counter) : Prop :=
  match c with
  | rx_arp | rx_icmp | rx_icmp6 | rx_ip4 | rx_ip6 | rx_tcp | rx_udp | rx_other | rx_gtp_echo | rx_gtp_pdu
  | rx_gtp_other | rx_gtp_unexp | rx_n3 | rx_n6 => True
  | _ => False
  end.
Lemma count_app c l1 l2 : count c (l1 ++ l2) = count c l1 + count c l2.
Proof. unfold count. by rewrite filter_app, app_length. Qed.
Lemma count_none c l : Forall (fun x => x <> c) l -> count c l = 0.
Proof.
  unfold count. induction 1 as [|x l Hx _ IH]; [done|]. by rewrite filter_cons_False.
Qed.
Lemma count_one c x : count c [x] = if decide (x = c) then 1 else 0.
Proof. unfold count. rewrite filter_cons. by destruct (decide _). Qed.

Lemma rx_counters_rx e f : Forall is_rx (rx_counters e f).
Proof.
  unfold rx_counters, ip6_counters, ip4_counters, gtp_counters.
  repeat case_match; repeat constructor.
Qed.

Theorem every_packet_counted :
  forall e f d v s, env_ok e -> xdp e f d = Some (v, s) ->
    (forall a, count (action a) (x_log s) = if decide (a = verdict_code v) then 1 else 0) /\
    (forall c, is_rx c -> count c (x_log s) = count c (rx_counters e f)).
Proof.
  intros e f d v s He H. destruct (xdp_spec e f d He) as (v' & f' & d' & l & _ & Hl & E).
  rewrite E in H. simplify_eq. cbn [x_log].
  assert (Htx : forall c, is_rx c \/ (exists a, c = action a) -> count c l = 0).
  { intros c Hc. apply count_none. eapply Forall_impl; [exact Hl|]. intros x Hx ->.
    destruct Hc as [Hc|[a ->]]; by destruct c || done. }
  split.
  - intros a. rewrite !count_app, Htx by eauto.
    rewrite (count_none (action a) (rx_counters e f)), count_one.
    + destruct (decide (action _ = action a)) as [[=<-]|Hn]; [by rewrite decide_True|]. rewrite decide_False; [done|congruence].
    + eapply Forall_impl; [apply rx_counters_rx|]. intros x Hx ->. done.
  - intros c Hc. rewrite !count_app, Htx by auto. rewrite count_one, decide_False; [lia|]. intros <-. done.
Qed.
