(** C80: the time to live of a packet. *)
From Verif Require Import Base IdTracker ResourceManager SdfParser SdfProps MapOps SdfMatch Pfcp PfcpProps PfcpHistory PfcpReach
  PfcpRules PfcpCreate PfcpRemove Qer Csum Xdp XdpBase XdpProps XdpRules XdpFrames XdpEcho XdpEx XdpAccount Chain.
Open Scope nat_scope.

(** ** Specification *)
(** The time to live (IPv4, RFC 791) or hop limit (IPv6, RFC 8200) in the IP header at offset [o]. *)
Definition hops_left (f : list N) (o : nat) : N := if (ip_version f o =? 6)%N then byte f (o + 7) else byte f (o + 8).

(** A packet goes from UPF to UPF and back: [a] has it, [b] gets it next.  The tables of both change as they handle it. *)
Fixpoint bounce (n : nat) (a b : upf) (f : list N) : option (list N) :=
  match n with
  | 0 => Some f
  | S n =>
      match xdp (u_env a) f (u_dp a) with
      | Some ((TX | REDIRECT _), s) => bounce n b (Upf (u_env a) (x_dp s)) (x_f s)
      | _ => None
      end
  end.

(** ** What the UPF does (utils/routing.h:91, 179: the decrement is commented out) *)

(** A packet handed on in its tunnel, one taken out of it and one put into it keep their time to live; a new outer header gets 64. *)
Theorem ttl_kept_partial :
  forall e d f p r far q v s, env_ok e -> Forall (fun b => b < 256)%N f -> rule_for e d f = Some (p, r) ->
    permitted e (dir_of e f) (N.of_nat (length f)) d r = Some (far, q) -> xdp e f d = Some (v, s) ->
    if gpdu e f then
      (byte f 14 mod 16 = 5)%N ->
      if N.testbit (fi_ohc far) 0 then
        far_fits far -> hops_left (x_f s) 14 = hops_left f 14 /\ payload (x_f s) = payload f /\ hops_left (x_f s) (payload f) = hops_left f (payload f)
      else
        r_ohr r = 0%N -> ip_at f (payload f) <> None -> ping_at e f (payload f) = false -> hops_left (x_f s) 14 = hops_left f (payload f)
    else
      far_fits far -> (qi_qfi q < 64)%N -> (down_len e f + 44 < 65536)%N -> e_head e <> None ->
      hops_left (x_f s) 14 = 64%N /\ hops_left (x_f s) 58 = hops_left f 14.
Proof.
  intros e d f p r far q v s He Hb Hr Hp Hx. unfold dir_of in Hp. destruct (gpdu e f) eqn:Hg.
  - intros Hi. destruct (N.testbit (fi_ohc far) 0) eqn:Ho.
    + intros Hfit. destruct (uplink_relayed_partial e d f p r far q v s He Hb Hr Hg Hp Ho Hfit Hi Hx) as (g & c & Hro & L & _ & _ & _ & _ & _ & H6). clear Hx.
      assert (E : forall i, 12 <= i -> byte (x_f s) i = byte g i).
      { intros i Hi12. apply byte_drop12; [|done]. destruct (routed_frame e He true g) as (m & Hm). rewrite Hro in Hm. cbn [fst snd] in Hm.
        destruct Hm as [[Hm1 ->]| ->]; [|reflexivity]. by rewrite drop_app_alt. }
      assert (B : forall i, 12 <= i -> ~ (24 <= i < 34) -> ~ (40 <= i < 42) -> ~ (46 <= i < 50) -> byte (x_f s) i = byte f i).
      { intros i H0 H1 H2 H3. rewrite E by done. by apply H6. }
      assert (P : 50 <= payload f) by (unfold payload, gtp, l4; rewrite Hi; change (N.to_nat 5) with 5; lia).
      assert (PE : payload (x_f s) = payload f).
      { unfold payload, gtp_opt, gtp, l4. rewrite (B 14) by lia. rewrite Hi. change (N.to_nat 5) with 5. by rewrite (B (14 + 4 * 5 + 8)) by (simpl; lia). }
      split; [|split; [exact PE|]]; unfold hops_left, ip_version.
      * rewrite (B 14), (B (14 + 7)), (B (14 + 8)) by lia. reflexivity.
      * rewrite (B (payload f)), (B (payload f + 7)), (B (payload f + 8)) by lia. reflexivity.
    + intros Hohr Hip Hpi. destruct (ip_at f (payload f)) as [proto|] eqn:Ei; [|done]. clear Hip.
      assert (Lp : length proto = 2) by (unfold ip_at in Ei; repeat case_match; by simplify_eq).
      destruct (uplink_decapsulated e d f p r far q proto v s He Hr Hg Hp Ho Hohr Hi Ei Hpi Hx) as (c & _ & E). clear Hx.
      assert (B : forall k, byte (x_f s) (14 + k) = byte f (payload f + k)).
      { intros k. replace (14 + k) with (12 + (2 + k)) by lia. rewrite <- (byte_drop (x_f s) 12), E, <- (byte_drop f (payload f)). rewrite byte_app_r by lia. f_equal. lia. }
      unfold hops_left, ip_version. pose proof (B 0) as B0. rewrite !Nat.add_0_r in B0. rewrite B0, (B 7), (B 8). reflexivity.
  - intros Hfit Hq Hl Hh. destruct (downlink_encapsulated e d f p r far q v s He Hr Hg Hp Hfit Hq Hl Hh Hx) as (g & c & _ & T & _). clear Hx.
    assert (B : forall k, byte (x_f s) (58 + k) = byte f (14 + k)) by (intros k; rewrite <- !byte_drop; by rewrite (t_inner _ _ _ _ _ _ _ _ T)).
    split.
    + unfold hops_left, ip_version. rewrite (t_version _ _ _ _ _ _ _ _ T). change (69 / 16 =? 6)%N with false. cbv iota.
      exact (t_ttl _ _ _ _ _ _ _ _ T).
    + unfold hops_left, ip_version. pose proof (B 0) as B0. rewrite !Nat.add_0_r in B0. rewrite B0, (B 7), (B 8). reflexivity.
Qed.

(** ** A packet that never stops *)
Lemma agree_trans w d1 d2 d3 : agree w d1 d2 -> agree w d2 d3 -> agree w d1 d3.
Proof.
  intros [A1 A2 A3 A4 A5] [B1 B2 B3 B4 B5]. split; [congruence|congruence|congruence|intros i; by rewrite A4, B4|].
  intros i. specialize (A5 i). specialize (B5 i). destruct (qer_get d1 i), (qer_get d2 i), (qer_get d3 i); try done.
  destruct A5 as (? & ? & ? & A), B5 as (? & ? & ? & B). split_and!; try congruence. intros Hw. rewrite A, B; done.
Qed.
(** A packet of an unlimited rule changes nothing for the next. *)
Lemma unlimited_agrees e d f p r far q v s : env_ok e -> rule_for e d f = Some (p, r) ->
  permitted e (dir_of e f) (N.of_nat (length f)) d r = Some (far, q) -> no_ping e f -> rate (dir_of e f) q = 0%N -> xdp e f d = Some (v, s) ->
  agree (dir_of e f) d (x_dp s).
Proof.
  intros He Hr Hp Hn Hz H. rewrite (permitted_state e d f p r far q v s He Hr Hp Hn H). clear H.
  unfold account. destruct (volume _ _) as [ul dl]. apply agree_sym. do 2 apply urr_add_agree. unfold mark. rewrite Hz. apply agree_refl.
Qed.
(** So it is sent on as often as it comes. *)
Definition always (u : upf) (f g : list N) : Prop :=
  forall d, agree Uplink (u_dp u) d -> exists v s, xdp (u_env u) f d = Some (v, s) /\ (v = TX \/ exists i, v = REDIRECT i) /\ x_f s = g /\ agree Uplink (u_dp u) (x_dp s).
Lemma always_sent u f g p r far q : env_ok (u_env u) -> gpdu (u_env u) f = true -> rule_for (u_env u) (u_dp u) f = Some (p, r) ->
  permitted (u_env u) Uplink (N.of_nat (length f)) (u_dp u) r = Some (far, q) -> N.testbit (fi_ohc far) 0 = true -> no_ping (u_env u) f ->
  rate Uplink q = 0%N -> sent u f = Some g -> always u f g.
Proof.
  intros He Hg Hr Hp Ho Hn Hz Hs d Ha. unfold sent in Hs.
  pose proof (direction_independent (u_env u) f (u_dp u) d He (rule_for_not_echo _ _ _ _ Hr) Hn) as D. unfold dir_of in D. rewrite Hg in D. specialize (D Ha).
  pose proof (unlimited_agrees (u_env u) (u_dp u) f p r far q) as U. unfold dir_of in U. rewrite Hg in U.
  destruct (xdp (u_env u) f (u_dp u)) as [[v s]|]; [|destruct D]. destruct (xdp (u_env u) f d) as [[v' s']|]; [|destruct D].
  destruct D as (<- & E & _ & A). exists v, s'. split; [reflexivity|].
  specialize (U v s He Hr Hp Hn Hz eq_refl). pose proof (agree_trans _ _ _ _ U A) as T.
  destruct v; try discriminate Hs; apply (inj Some) in Hs; subst g; (split; [eauto|]); (split; [symmetry; exact E|exact T]).
Qed.

(** The UPFs 10.0.0.1 and 10.0.0.8 hand tunnel 257 and 1025 on to each other; the packet comes with a time to live of 1. *)
Definition ex_loop_env (a : list N) : env := Env a a 0 0 5 ex_fib None (fun data => oc_sum (words le data)).
Definition ex_loop_dp (t : N) (far : far_info) : dp :=
  Dp {[ t := ex_entry 1 1 ]} ∅ ∅ 64 {[ 1%N := far ]} 64 ∅ 64 ∅ 64 (new_tracker 64) (new_tracker 64) (new_tracker 64).
Definition ex_loop_a : upf := Upf (ex_loop_env [10; 0; 0; 1]%N) (ex_loop_dp 257 (Far 2 1 1025 134217738 0)).
Definition ex_loop_b : upf := Upf (ex_loop_env [10; 0; 0; 8]%N) (ex_loop_dp 1025 (Far 2 1 257 16777226 0)).
Definition ex_old : list N := patch ex_relay 22 [1; 17; 165; 151]%N.
Definition ex_ab : list N := Eval vm_compute in get (sent ex_loop_a ex_old).
Definition ex_ba : list N := Eval vm_compute in get (sent ex_loop_b ex_ab).
Lemma ex_loop_ok a : bytes 4 a -> env_ok (ex_loop_env a).
Proof.
  intros H. constructor; simpl; try done.
  - intros _. split; (split; [done|repeat constructor; lia]).
  - apply ex_diff.
Qed.
Lemma ex_loop_always a t far f g :
  bytes 4 a -> far_permits Uplink far = true -> N.testbit (fi_ohc far) 0 = true ->
  gpdu (ex_loop_env a) f = true -> be_value (teid f) = t -> inner_type f = Some [8; 0]%N -> ping (ex_loop_env a) (decap f [8; 0]%N) = false ->
  sent (Upf (ex_loop_env a) (ex_loop_dp t far)) f = Some g -> always (Upf (ex_loop_env a) (ex_loop_dp t far)) f g.
Proof.
  intros Ha Hf Ho Hg Ht Hi Hpi. apply (always_sent (Upf (ex_loop_env a) (ex_loop_dp t far)) f g (ex_entry 1 1) (default_rule (ex_entry 1 1)) far qer0); cbn [u_env u_dp].
  - by apply ex_loop_ok.
  - exact Hg.
  - unfold rule_for, entry, select. rewrite Hg, Ht. cbn [ex_loop_dp d_up]. rewrite lookup_singleton. reflexivity.
  - unfold permitted. change (far_get (ex_loop_dp t far) (r_far (default_rule (ex_entry 1 1)))) with (Some far).
    change (qer_get (ex_loop_dp t far) (r_qer (default_rule (ex_entry 1 1)))) with (Some qer0). cbv iota beta. rewrite Hf. reflexivity.
  - exact Ho.
  - intros _ far' ohr. unfold pings_upf. rewrite Hi, Hpi, andb_false_r. by destruct (kind far' ohr).
  - reflexivity.
Qed.

(** For every number of hops: it is still on its way, with the time to live it came with. *)
Theorem packet_never_stops_refuted :
  env_ok (u_env ex_loop_a) /\ env_ok (u_env ex_loop_b) /\ hops_left ex_old 14 = 1%N /\ checksum_ok (field ex_old 14 20) /\
  forall n, exists g, bounce n ex_loop_a ex_loop_b ex_old = Some g /\ hops_left g 14 = 1%N.
Proof.
  split; [apply ex_loop_ok; split; [reflexivity|repeat constructor]|]. split; [apply ex_loop_ok; split; [reflexivity|repeat constructor]|].
  split; [reflexivity|]. split; [by vm_compute|].
  assert (A0 : always ex_loop_a ex_old ex_ab) by (apply ex_loop_always; [split; [reflexivity|repeat constructor]|by vm_compute..]).
  assert (B1 : always ex_loop_b ex_ab ex_ba) by (apply ex_loop_always; [split; [reflexivity|repeat constructor]|by vm_compute..]).
  assert (A1 : always ex_loop_a ex_ba ex_ab) by (apply ex_loop_always; [split; [reflexivity|repeat constructor]|by vm_compute..]).
  assert (G : forall n dA dB, agree Uplink (u_dp ex_loop_a) dA -> agree Uplink (u_dp ex_loop_b) dB ->
    (exists g, bounce n (Upf (u_env ex_loop_a) dA) (Upf (u_env ex_loop_b) dB) ex_ba = Some g /\ hops_left g 14 = 1%N) /\
    (exists g, bounce n (Upf (u_env ex_loop_b) dB) (Upf (u_env ex_loop_a) dA) ex_ab = Some g /\ hops_left g 14 = 1%N)).
  { induction n as [|n IH]; intros dA dB HA HB; [split; eexists; (split; [reflexivity|reflexivity])|]. cbn [bounce u_env u_dp]. split.
    - destruct (A1 dA HA) as (v & s & E & V & F & HA'). rewrite E. destruct V as [->|[i ->]]; rewrite F; apply (proj2 (IH _ _ HA' HB)).
    - destruct (B1 dB HB) as (v & s & E & V & F & HB'). rewrite E. destruct V as [->|[i ->]]; rewrite F; apply (proj1 (IH _ _ HA HB')). }
  intros [|n]; [by eexists|]. cbn [bounce].
  destruct (A0 (u_dp ex_loop_a) (agree_refl _ _)) as (v & s & E & V & F & HA). rewrite E.
  destruct V as [->|[i ->]]; rewrite F; apply (proj2 (G n _ _ HA (agree_refl _ _))).
Qed.
