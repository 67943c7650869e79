(** Packets that ping the UPF itself: what the rules see of them.  The answer to the ping goes through the rules as a downlink packet of
    its own, in the same run of the program (n3n6_entrypoint.c:347-356). *)
From Verif Require Import Base IdTracker ResourceManager SdfParser SdfProps MapOps SdfMatch Pfcp PfcpProps PfcpHistory PfcpReach
  PfcpRules PfcpCreate PfcpRemove Qer Csum Xdp XdpBase XdpProps XdpRules XdpFrames XdpEcho XdpEx XdpAccount Ping.
Open Scope nat_scope.

(** The answer to a packet that pings the UPF, and the maps when it goes to the downlink rules; [None]: the packet is not let through, is
    no ping, or is not answered. *)
Definition answer_of (e : env) (d : dp) (f : list N) : option (list N * dp) :=
  match rule_for e d f with
  | Some (p, r) =>
      match permitted e (dir_of e f) (N.of_nat (length f)) d r with
      | Some (far, q) =>
          if gpdu e f && pings_upf e f far (r_ohr r) && echo_inside (decap f [8; 0]%N) then
            Some (ponged (decap f [8; 0]%N), account e (dir_of e f) (N.of_nat (length f)) p r q d)
          else None
      | None => None
      end
  | None => None
  end.

Lemma pings_inv e f far ohr : pings_upf e f far ohr = true ->
  kind far ohr = Decapsulated /\ inner_type f = Some [8; 0]%N /\ 34 <= length (decap f [8; 0]%N) /\ ping e (decap f [8; 0]%N) = true.
Proof.
  unfold pings_upf. destruct (kind far ohr); [done| |done]. destruct (inner_type f) as [proto|] eqn:Ei; [|done].
  destruct (inner_type_cases f proto Ei) as (_ & _ & [[-> _]|[-> _]]); [done|]. intros H. apply andb_prop in H as [H1 H2].
  by apply Nat.leb_le in H1.
Qed.

(** The ping is turned into its answer, which goes on to the downlink rules, or discarded. *)
Lemma xdp_ping e f d p r far q : env_ok e -> rule_for e d f = Some (p, r) -> gpdu e f = true ->
  permitted e Uplink (N.of_nat (length f)) d r = Some (far, q) -> pings_upf e f far (r_ohr r) = true ->
  let g := decap f [8; 0]%N in let d1 := account e Uplink (N.of_nat (length f)) p r q d in
  length g <= length f /\
  if echo_inside g then down4 e (ponged g) = true /\ length (ponged g) = length g /\ outcome (xdp e f d) = outcome (xdp e (ponged g) d1)
  else outcome (xdp e f d) = Some (ABORTED, swapped g, d1).
Proof.
  intros He Hr Hg Hp Hpu. cbv zeta.
  destruct (pings_inv _ _ _ _ Hpu) as (Hk & Hi & Hl & Hpg). destruct (gpdu_lengths e f Hg) as (H1 & H2 & H3 & H4).
  destruct (inner_type_cases f _ Hi) as (Hc & _ & _).
  assert (E12 : field (decap f [8; 0]%N) 12 2 = [8; 0]%N) by (apply decap_field; [lia|done]).
  split; [rewrite decap_length by (done || lia); unfold cut in *; lia|].
  assert (Ex : xdp e f d = finish ((if echo_inside (decap f [8; 0]%N) then
      handle_n6_packet_ipv4 e (Pctx (14 + 4 * N.to_nat (byte (decap f [8; 0]%N) 14 mod 16)) (Some 0) (Some 14) None None None None)
        (Xst (ponged (decap f [8; 0]%N)) (account e Uplink (N.of_nat (length f)) p r q d) (rx_counters e f))
      else Some (ABORTED, Xst (swapped (decap f [8; 0]%N)) (account e Uplink (N.of_nat (length f)) p r q d) (rx_counters e f))))).
  { rewrite xdp_rule. rewrite (rule_for_not_echo _ _ _ _ Hr), Hr. unfold dir_of. rewrite Hg, Hp.
    set (d' := account _ _ _ _ _ _ _). unfold uplink_out. unfold kind in Hk. destruct (N.testbit (fi_ohc far) 0); [done|].
    destruct (r_ohr r =? 0)%N; [|done]. unfold bind at 1. rewrite remove_gtp_eq by done. rewrite Hi. cbv zeta.
    set (g := decap f [8; 0]%N) in *. unfold ping in Hpg. apply andb_prop in Hpg as [Hloc Hpr].
    unfold reparse. rewrite E12. rewrite bool_decide_false by done. rewrite (proj2 (Nat.leb_le 34 (length g)) Hl). cbv iota beta.
    unfold n3_deliver. cbn [p_ip4 p_ip6 p_eth]. rewrite bind_assoc, bind_rd by len. cbn [x_f]. change (14 + 16) with 30.
    change (field g 30 4) with (dst4 g). rewrite Hloc. rewrite bind_assoc, bind_rd1 by len. cbn [x_f]. change (14 + 9) with 23. rewrite Hpr, bind_ret.
    unfold bind at 1. rewrite prepare_eq by done. by destruct (echo_inside g). }
  destruct (echo_inside (decap f [8; 0]%N)) eqn:Hec.
  - destruct (ponged_spec _ Hec) as (m & Hm & Ha). unfold ping in Hpg. apply andb_prop in Hpg as [Hloc Hpr].
    destruct (answer_down4 e _ _ m Ha Hl E12 ltac:(by apply N.eqb_eq)) as [D4 D23]. pose proof (an_length _ _ _ Ha) as La.
    split; [done|]. split; [done|]. rewrite Ex, finish_outcome. apply n6_again; [done|done|done|lia| |done..].
    constructor; cbn; lia.
  - rewrite Ex. done.
Qed.
(** One run of the program, for every packet. *)
Lemma xdp_legs e f d p r far q : env_ok e -> rule_for e d f = Some (p, r) -> permitted e (dir_of e f) (N.of_nat (length f)) d r = Some (far, q) ->
  match answer_of e d f with
  | Some (g, d1) => gpdu e f = true /\ d1 = account e Uplink (N.of_nat (length f)) p r q d /\
      down4 e g = true /\ length g <= length f /\ outcome (xdp e f d) = outcome (xdp e g d1)
  | None => forall v s, xdp e f d = Some (v, s) -> x_dp s = account e (dir_of e f) (N.of_nat (length f)) p r q d
  end.
Proof.
  intros He Hr Hp. unfold answer_of. rewrite Hr, Hp. unfold dir_of in *. destruct (gpdu e f) eqn:Hg; cbn [andb].
  2: { intros v s H. rewrite (xdp_downlink e d f p r far q) in H by done. cbv zeta in H. destruct (e_head e); simpl in H; [|by simplify_eq].
       destruct (routed e true _) as [[v0 g0] c0]. simpl in H. by simplify_eq. }
  destruct (pings_upf e f far (r_ohr r)) eqn:Hpu; cbn [andb].
  2: { intros v s H. rewrite (xdp_uplink e d f p r far q) in H by done.
       destruct (uplink_result e f far (r_ohr r)) as [[v0 g] c]. by simplify_eq. }
  pose proof (xdp_ping e f d p r far q He Hr Hg Hp Hpu) as K. cbv zeta in K. destruct K as [Hl K].
  destruct (echo_inside (decap f [8; 0]%N)) eqn:Hec.
  - destruct K as (D4 & La & Ho). split; [done|]. split; [done|]. split; [done|]. split; [lia|done].
  - intros v s H. rewrite H in K. cbn [outcome] in K. by injection K.
Qed.
(** An answer is not a ping. *)
Lemma answer_last e g d : down4 e g = true -> answer_of e d g = None.
Proof.
  intros H4. destruct (down4_not_gpdu e g H4) as [Hg _]. unfold answer_of. rewrite Hg. cbn [andb]. by repeat case_match.
Qed.
Lemma answer_inv e d f x : answer_of e d f = Some x -> exists p r far q, rule_for e d f = Some (p, r) /\
  permitted e (dir_of e f) (N.of_nat (length f)) d r = Some (far, q).
Proof.
  unfold answer_of. destruct (rule_for e d f) as [[p r]|]; [|done]. destruct (permitted _ _ _ _ _) as [[far q]|] eqn:Hp; [|done]. intros _. by exists p, r, far, q.
Qed.
