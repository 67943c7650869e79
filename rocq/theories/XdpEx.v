(** Concrete packets: the hypotheses of the XDP theorems can be met; counterexamples. *)
From Verif Require Import Base IdTracker SdfParser SdfProps MapOps SdfMatch Pfcp Qer Csum Xdp XdpBase XdpProps XdpRules XdpFrames XdpEcho.
Open Scope nat_scope.

(** The UPF is 10.0.0.1 on N3 and 10.0.0.2 on N9; everything is routed to interface 7. *)
Definition ex_fib (_ : fib_query) : fib_answer := FibA 0 7 [2; 0; 0; 0; 0; 1]%N [2; 0; 0; 0; 0; 77]%N.
Definition ex_env : env :=
  Env [10; 0; 0; 1]%N [10; 0; 0; 2]%N 1000000000 1000000000 3 ex_fib (Some (repeat 170%N 44))
      (fun data => oc_sum (words le data)).
Lemma ex_env_ok : env_ok ex_env.
Proof.
  constructor; simpl; try (by split; [|repeat constructor; lia]).
  - intros _. split; (split; [done|repeat constructor; lia]).
  - intros h [= <-]. split; [done|repeat constructor; lia].
  - apply ex_diff.
Qed.
Definition bytes_b (f : list N) : bool := forallb (fun b => b <? 256)%N f.
Lemma bytes_b_ok f : bytes_b f = true -> Forall (fun b => b < 256)%N f.
Proof.
  unfold bytes_b. intros H. apply Forall_forall. intros x Hx. rewrite forallb_forall in H.
  apply N.ltb_lt, H. by apply elem_of_list_In.
Qed.

Definition ex_dp0 : dp := dp_init 64 64 64 64.

(** ** C36 *)
(** A well-formed Echo Request: consistent length fields inside the frame, and a correct IPv4 header checksum. *)
Definition wellformed (f : list N) : Prop :=
  Forall (fun b => b < 256)%N f /\
  N.to_nat (be_value (field f 16 2)) + 14 <= length f /\
  be_value (field f 16 2) = (N.of_nat (l4 f - 14) + be_value (field f (l4 f + 4) 2))%N /\
  be_value (field f (l4 f + 4) 2) = (16 + be_value (field f (gtp f + 2) 2))%N /\
  checksum_ok (ip_header f).

Definition wellformed_b (f : list N) : bool :=
  bytes_b f && (N.to_nat (be_value (field f 16 2)) + 14 <=? length f) &&
  (be_value (field f 16 2) =? N.of_nat (l4 f - 14) + be_value (field f (l4 f + 4) 2))%N &&
  (be_value (field f (l4 f + 4) 2) =? 16 + be_value (field f (gtp f + 2) 2))%N &&
  (oc_sum (words be (ip_header f)) =? 65535)%N.
Lemma wellformed_b_ok f : wellformed_b f = true -> wellformed f.
Proof.
  unfold wellformed_b. intros H. repeat (apply andb_true_iff in H as [H ?]). split; [by apply bytes_b_ok|].
  split; [by apply Nat.leb_le|]. split; [by apply N.eqb_eq|]. split; [by apply N.eqb_eq|]. by apply N.eqb_eq.
Qed.
(** Verdict and outgoing frame. *)
Definition out (r : option (verdict * xst)) : option (verdict * list N) := option_map (fun r => (r.1, x_f r.2)) r.

Definition ex_echo : list N :=
  [2; 0; 0; 0; 0; 1; 2; 0; 0; 0; 0; 9; 8; 0; 69; 0; 0; 40; 0; 1; 0; 0; 64; 17; 102; 187; 10; 0; 0; 9; 10; 0; 0; 1; 8; 104; 8; 104; 0; 20; 0; 0; 50; 1; 0; 4; 0; 0; 0; 0; 0; 7; 0; 0; 0; 0; 0; 0; 0; 0]%N.
Example ex_echo_answered : wellformed ex_echo /\ echo_request ex_env ex_echo = true /\ (5 <= byte ex_echo 14 mod 16)%N /\
  out (xdp ex_env ex_echo ex_dp0) =
  Some (TX, [2; 0; 0; 0; 0; 9; 2; 0; 0; 0; 0; 1; 8; 0; 69; 0; 0; 42; 0; 1; 0; 0; 64; 17; 102; 185; 10; 0; 0; 1; 10; 0; 0; 9; 8; 104; 8; 104; 0; 22; 0; 0; 50; 2; 0; 6; 0; 0; 0; 0; 0; 7; 0; 0; 14; 0; 0; 0; 0; 0]%N).
Proof.
  split; [apply wellformed_b_ok; by vm_compute|]. split; [by vm_compute|]. split; [by vm_compute|]. by vm_compute.
Qed.

(** With IPv4 options in the request the header checksum of the answer is wrong. *)
Definition ex_echo_options : list N :=
  [2; 0; 0; 0; 0; 1; 2; 0; 0; 0; 0; 9; 8; 0; 70; 0; 0; 44; 0; 1; 0; 0; 64; 17; 99; 181; 10; 0; 0; 9; 10; 0; 0; 1; 1; 1; 1; 1; 8; 104; 8; 104; 0; 20; 0; 0; 50; 1; 0; 4; 0; 0; 0; 0; 0; 7; 0; 0; 0; 0; 0; 0; 0; 0]%N.
Theorem echo_answered_refuted :
  ~ forall e f d, env_ok e -> wellformed f -> echo_request e f = true ->
      exists g l, xdp e f d = Some (TX, Xst g d l) /\ checksum_ok (ip_header g).
Proof.
  intros H. destruct (H ex_env ex_echo_options ex_dp0 ex_env_ok) as (g & l & E & C).
  - apply wellformed_b_ok. by vm_compute.
  - by vm_compute.
  - assert (Eg : option_map (fun r => (oc_sum (words be (ip_header (x_f r.2))) =? 65535)%N) (xdp ex_env ex_echo_options ex_dp0) = Some true).
    { rewrite E. cbn [option_map x_f snd]. unfold checksum_ok in C. by rewrite C. }
    by vm_compute in Eg.
Qed.

(** An Echo Request with information elements that fills its frame: the Recovery IE overwrites the first of them, and the length
    fields of the answer point beyond the frame. *)
Definition ex_echo_ie : list N :=
  [2; 0; 0; 0; 0; 1; 2; 0; 0; 0; 0; 9; 8; 0; 69; 0; 0; 46; 0; 1; 0; 0; 64; 17; 102; 181; 10; 0; 0; 9; 10; 0; 0; 1; 8; 104; 8; 104; 0; 26; 0; 0; 50; 1; 0; 10; 0; 0; 0; 0; 0; 7; 0; 0; 255; 0; 3; 0; 1; 42]%N.
Theorem echo_length_refuted :
  ~ forall e f d, env_ok e -> wellformed f -> echo_request e f = true ->
      exists g l, xdp e f d = Some (TX, Xst g d l) /\ N.to_nat (be_value (field g 16 2)) + 14 <= length g.
Proof.
  intros H. destruct (H ex_env ex_echo_ie ex_dp0 ex_env_ok) as (g & l & E & C).
  - apply wellformed_b_ok. by vm_compute.
  - by vm_compute.
  - assert (Eg : option_map (fun r => N.to_nat (be_value (field (x_f r.2) 16 2)) + 14 <=? length (x_f r.2)) (xdp ex_env ex_echo_ie ex_dp0) = Some true).
    { rewrite E. cbn [option_map x_f snd]. by rewrite (proj2 (Nat.leb_le _ _) C). }
    by vm_compute in Eg.
Qed.

(** ** A forwarding state *)
(** TEID 256: decapsulate; TEID 257: relay to the UPF 10.0.0.8 with TEID 1025; TEID 258: gate closed;
    UE 10.60.0.1: tunnel to 10.0.0.9 with TEID 85, QFI 9. *)
Definition ex_entry (far qer : N) : ep_pdr := EpPdr far qer 4 0 0 0 ep_rules0.
Definition ex_dp : dp :=
  Dp {[ 256%N := ex_entry 1 1; 257%N := ex_entry 2 1; 258%N := ex_entry 1 2 ]} {[ 171704321%N := ex_entry 3 1 ]} ∅ 64
     (<[1%N := Far 2 0 0 0 0]> (<[2%N := Far 2 1 1025 134217738 0]> {[ 3%N := Far 2 1 85 150994954 10240 ]})) 64
     {[ 1%N := Qer 0 0 9 0 0 0 0; 2%N := Qer 1 0 9 0 0 0 0 ]} 64 ∅ 64 (new_tracker 64) (new_tracker 64) (new_tracker 64).
(** An uplink packet with a PDU session container (E flag, one 4-byte extension header), one without optional fields,
    one with a sequence number (S flag), two to be relayed (the second with IPv4 options), one without session,
    and a downlink packet. *)
Definition ex_up : list N :=
  [2; 0; 0; 0; 0; 1; 2; 0; 0; 0; 0; 9; 8; 0; 69; 0; 0; 76; 0; 1; 0; 0; 64; 17; 102; 151; 10; 0; 0; 9; 10; 0; 0; 1; 8; 104; 8; 104; 0; 56; 0; 0; 52; 255; 0; 40; 0; 0; 1; 0; 0; 0; 0; 133; 1; 16; 9; 0; 69; 0; 0; 32; 0; 1; 0; 0; 64; 17; 96; 128; 10; 60; 0; 1; 8; 8; 8; 8; 19; 136; 0; 53; 0; 12; 0; 0; 1; 2; 3; 4]%N.
Definition ex_up0 : list N :=
  [2; 0; 0; 0; 0; 1; 2; 0; 0; 0; 0; 9; 8; 0; 69; 0; 0; 68; 0; 1; 0; 0; 64; 17; 102; 159; 10; 0; 0; 9; 10; 0; 0; 1; 8; 104; 8; 104; 0; 48; 0; 0; 48; 255; 0; 32; 0; 0; 1; 0; 69; 0; 0; 32; 0; 1; 0; 0; 64; 17; 96; 128; 10; 60; 0; 1; 8; 8; 8; 8; 19; 136; 0; 53; 0; 12; 0; 0; 1; 2; 3; 4]%N.
Definition ex_ups : list N :=
  [2; 0; 0; 0; 0; 1; 2; 0; 0; 0; 0; 9; 8; 0; 69; 0; 0; 72; 0; 1; 0; 0; 64; 17; 102; 155; 10; 0; 0; 9; 10; 0; 0; 1; 8; 104; 8; 104; 0; 52; 0; 0; 50; 255; 0; 36; 0; 0; 1; 0; 0; 5; 0; 0; 69; 0; 0; 32; 0; 1; 0; 0; 64; 17; 96; 128; 10; 60; 0; 1; 8; 8; 8; 8; 19; 136; 0; 53; 0; 12; 0; 0; 1; 2; 3; 4]%N.
Definition ex_relay : list N :=
  [2; 0; 0; 0; 0; 1; 2; 0; 0; 0; 0; 9; 8; 0; 69; 0; 0; 76; 0; 1; 0; 0; 64; 17; 102; 151; 10; 0; 0; 9; 10; 0; 0; 1; 8; 104; 8; 104; 0; 56; 0; 0; 52; 255; 0; 40; 0; 0; 1; 1; 0; 0; 0; 133; 1; 16; 9; 0; 69; 0; 0; 32; 0; 1; 0; 0; 64; 17; 96; 128; 10; 60; 0; 1; 8; 8; 8; 8; 19; 136; 0; 53; 0; 12; 0; 0; 1; 2; 3; 4]%N.
Definition ex_relayo : list N :=
  [2; 0; 0; 0; 0; 1; 2; 0; 0; 0; 0; 9; 8; 0; 70; 0; 0; 80; 0; 1; 0; 0; 64; 17; 99; 145; 10; 0; 0; 9; 10; 0; 0; 1; 1; 1; 1; 1; 8; 104; 8; 104; 0; 56; 0; 0; 52; 255; 0; 40; 0; 0; 1; 1; 0; 0; 0; 133; 1; 16; 9; 0; 69; 0; 0; 32; 0; 1; 0; 0; 64; 17; 96; 128; 10; 60; 0; 1; 8; 8; 8; 8; 19; 136; 0; 53; 0; 12; 0; 0; 1; 2; 3; 4]%N.
Definition ex_unk : list N :=
  [2; 0; 0; 0; 0; 1; 2; 0; 0; 0; 0; 9; 8; 0; 69; 0; 0; 68; 0; 1; 0; 0; 64; 17; 102; 159; 10; 0; 0; 9; 10; 0; 0; 1; 8; 104; 8; 104; 0; 48; 0; 0; 48; 255; 0; 32; 0; 0; 1; 44; 69; 0; 0; 32; 0; 1; 0; 0; 64; 17; 96; 128; 10; 60; 0; 1; 8; 8; 8; 8; 19; 136; 0; 53; 0; 12; 0; 0; 1; 2; 3; 4]%N.
Definition ex_down : list N :=
  [2; 0; 0; 0; 0; 1; 2; 0; 0; 0; 0; 9; 8; 0; 69; 0; 0; 32; 0; 1; 0; 0; 64; 17; 96; 128; 8; 8; 8; 8; 10; 60; 0; 1; 0; 53; 19; 136; 0; 12; 0; 0; 9; 8; 7; 6]%N.

(** C30: a G-PDU for an unknown tunnel. *)
Example ex_no_session : rule_for ex_env ex_dp ex_unk = None /\ echo_request ex_env ex_unk = false /\
  out (xdp ex_env ex_unk ex_dp) = Some (PASS, ex_unk).
Proof. split; [by vm_compute|]. split; [by vm_compute|]. by vm_compute. Qed.

(** C31: the same packet in a tunnel with closed uplink gate. *)
Definition ex_gated : list N := patch ex_up0 46 [0; 0; 1; 2]%N.
Example ex_gate_closed :
  rule_for ex_env ex_dp ex_gated = Some (ex_entry 1 2, default_rule (ex_entry 1 2)) /\
  permitted ex_env (dir_of ex_env ex_gated) (N.of_nat (length ex_gated)) ex_dp (default_rule (ex_entry 1 2)) = None /\
  out (xdp ex_env ex_gated ex_dp) = Some (DROP, ex_gated).
Proof. split; [by vm_compute|]. split; [by vm_compute|]. by vm_compute. Qed.

(** C32: the downlink packet. *)
Example ex_encapsulated :
  rule_for ex_env ex_dp ex_down = Some (ex_entry 3 1, default_rule (ex_entry 3 1)) /\ gpdu ex_env ex_down = false /\
  permitted ex_env Downlink (N.of_nat (length ex_down)) ex_dp (default_rule (ex_entry 3 1)) =
    Some (Far 2 1 85 150994954 10240, Qer 0 0 9 0 0 0 0) /\
  far_fits (Far 2 1 85 150994954 10240) /\ (down_len ex_env ex_down + 44 < 65536)%N /\ e_head ex_env <> None /\
  option_map fst (xdp ex_env ex_down ex_dp) = Some (REDIRECT 7).
Proof. split; [by vm_compute|]. split; [by vm_compute|]. split; [by vm_compute|]. split; [done|]. split; [by vm_compute|]. split; [done|]. by vm_compute. Qed.

(** C33, C34: the uplink packet. *)
Example ex_decapsulated :
  rule_for ex_env ex_dp ex_up = Some (ex_entry 1 1, default_rule (ex_entry 1 1)) /\ gpdu ex_env ex_up = true /\
  permitted ex_env Uplink (N.of_nat (length ex_up)) ex_dp (default_rule (ex_entry 1 1)) =
    Some (Far 2 0 0 0 0, Qer 0 0 9 0 0 0 0) /\
  (byte ex_up 14 mod 16 = 5)%N /\ ip_at ex_up (payload ex_up) = Some [8; 0]%N /\ ping_at ex_env ex_up (payload ex_up) = false /\
  out (xdp ex_env ex_up ex_dp) = Some (REDIRECT 7, [2; 0; 0; 0; 0; 77; 2; 0; 0; 0; 0; 1; 8; 0]%N ++ drop 58 ex_up).
Proof. split; [by vm_compute|]. split; [by vm_compute|]. split; [by vm_compute|]. split; [by vm_compute|]. split; [by vm_compute|]. split; by vm_compute. Qed.

(** C34: the tunnelled packet of [ex_encapsulated] arriving at the UPF 10.0.0.9 with a rule for TEID 85. *)
Definition ex_env2 : env := Env [10; 0; 0; 9]%N [10; 0; 0; 9]%N 0 0 5 ex_fib None (fun data => oc_sum (words le data)).
Definition ex_dp2 : dp := Dp {[ 85%N := ex_entry 1 1 ]} ∅ ∅ 64 {[ 1%N := Far 2 0 0 0 0 ]} 64 ∅ 64 ∅ 64 (new_tracker 64) (new_tracker 64) (new_tracker 64).
Example ex_round_trip :
  option_map (fun r => option_map (drop 14) (option_map snd (out (xdp ex_env2 r.2 ex_dp2)))) (out (xdp ex_env ex_down ex_dp)) =
  Some (Some (drop 14 ex_down)).
Proof. by vm_compute. Qed.

(** C35: relaying. *)
Example ex_relayed :
  rule_for ex_env ex_dp ex_relay = Some (ex_entry 2 1, default_rule (ex_entry 2 1)) /\ gpdu ex_env ex_relay = true /\
  permitted ex_env Uplink (N.of_nat (length ex_relay)) ex_dp (default_rule (ex_entry 2 1)) =
    Some (Far 2 1 1025 134217738 0, Qer 0 0 9 0 0 0 0) /\
  (byte ex_relay 14 mod 16 = 5)%N /\
  option_map fst (xdp ex_env ex_relay ex_dp) = Some (REDIRECT 7).
Proof. split; [by vm_compute|]. split; [by vm_compute|]. split; [by vm_compute|]. split; by vm_compute. Qed.

(** With IPv4 options in the outer header the relayed packet has a wrong header checksum. *)
Theorem uplink_relayed_refuted :
  ~ forall e d f p r far q v s, env_ok e -> wellformed f -> rule_for e d f = Some (p, r) -> gpdu e f = true ->
      permitted e Uplink (N.of_nat (length f)) d r = Some (far, q) -> N.testbit (fi_ohc far) 0 = true -> far_fits far ->
      xdp e f d = Some (v, s) -> checksum_ok (ip_header (x_f s)).
Proof.
  intros H. destruct (xdp ex_env ex_relayo ex_dp) as [[v s]|] eqn:E; [|by vm_compute in E].
  assert (C : checksum_ok (ip_header (x_f s))).
  { apply (H ex_env ex_dp ex_relayo (ex_entry 2 1) (default_rule (ex_entry 2 1)) (Far 2 1 1025 134217738 0) (Qer 0 0 9 0 0 0 0) v s); [apply ex_env_ok|apply wellformed_b_ok; by vm_compute|by vm_compute|by vm_compute|by vm_compute|reflexivity|split; reflexivity|exact E]. }
  assert (Eg : option_map (fun r => (oc_sum (words be (ip_header (x_f r.2))) =? 65535)%N) (xdp ex_env ex_relayo ex_dp) = Some true).
  { rewrite E. cbn [option_map x_f snd]. unfold checksum_ok in C. by rewrite C. }
  by vm_compute in Eg.
Qed.

(** ** C55.  Specification (TS 29.281, 5.1 and 5.2): with one of the flags E, S, PN the header has four more bytes, the last of
    which is the type of the first extension header if E is set; an extension header at [o] is [4 * byte f o] bytes long, its last byte
    is the type of the next one, and type 0 ends the list. *)
Inductive exts (f : list N) : N -> nat -> nat -> Prop :=
  | exts_end o : exts f 0 o o
  | exts_next t o o' : t <> 0%N -> byte f o <> 0%N ->
      exts f (byte f (o + 4 * N.to_nat (byte f o) - 1)) (o + 4 * N.to_nat (byte f o)) o' -> exts f t o o'.
Definition inner_at (f : list N) (o : nat) : Prop :=
  if negb (gtp_opt f) then o = gtp f + 8
  else if N.testbit (byte f (gtp f)) 2 then exts f (byte f (gtp f + 11)) (gtp f + 12) o
  else o = gtp f + 12.

Lemma exts_le f t o o' : exts f t o o' -> o <= o'.
Proof. induction 1; lia. Qed.

(** The data plane looks for the inner packet at [payload f]: right exactly for packets without optional fields and packets with
    exactly one extension header, of 4 bytes (such as the PDU session container). *)
Theorem inner_located_partial :
  forall f o, inner_at f o ->
    (payload f = o <->
     gtp_opt f = false \/
     (N.testbit (byte f (gtp f)) 2 = true /\ byte f (gtp f + 11) <> 0%N /\ byte f (gtp f + 12) = 1%N /\ byte f (gtp f + 15) = 0%N)).
Proof.
  intros f o. unfold inner_at, payload. remember (gtp f) as h eqn:Eh. clear Eh. destruct (gtp_opt f) eqn:Eo; cbn [negb].
  2: { intros ->. split; [by left|]. intros _. done. }
  destruct (N.testbit (byte f (h)) 2) eqn:E2.
  - intros H. split.
    + intros E. right. split; [done|]. inversion H as [o1 Ht Ho|t o1 o2 Ht Hb Hn]; subst; [lia|].
      split; [done|]. pose proof (exts_le _ _ _ _ Hn) as Hle. assert (Hb1 : byte f (h + 12) = 1%N) by lia. split; [done|].
      rewrite Hb1 in Hn. replace (h + 12 + 4 * N.to_nat 1 - 1) with (h + 15) in Hn by lia.
      replace (h + 12 + 4 * N.to_nat 1) with (h + 16) in Hn by lia.
      inversion Hn as [o3 Ht3 Ho3|t3 o3 o4 Ht3 Hb3 Hn3]; [done|]. apply exts_le in Hn3. lia.
    + intros [?|(_ & Ht & Hb & Hz)]; [done|]. inversion H as [o1 Ht1 Ho|t o1 o2 Ht1 Hb1 Hn]; [congruence|].
      rewrite Hb in Hn. replace (h + 12 + 4 * N.to_nat 1 - 1) with (h + 15) in Hn by lia.
      replace (h + 12 + 4 * N.to_nat 1) with (h + 16) in Hn by lia. rewrite Hz in Hn.
      inversion Hn as [o3 Ht3 Ho3|t3 o3 o4 Ht3 Hb3 Hn3]; [lia|done].
  - intros ->. split; [lia|]. intros [?|[? _]]; done.
Qed.

(** C33 with the inner packet located by the standard. *)
Theorem inner_delivered_partial :
  forall e d f p r far q o proto v s, env_ok e -> rule_for e d f = Some (p, r) -> gpdu e f = true ->
    permitted e Uplink (N.of_nat (length f)) d r = Some (far, q) ->
    N.testbit (fi_ohc far) 0 = false -> r_ohr r = 0%N ->
    (byte f 14 mod 16 = 5)%N -> inner_at f o -> ip_at f o = Some proto -> ping_at e f o = false ->
    gtp_opt f = false \/
     (N.testbit (byte f (gtp f)) 2 = true /\ byte f (gtp f + 11) <> 0%N /\ byte f (gtp f + 12) = 1%N /\ byte f (gtp f + 15) = 0%N) ->
    xdp e f d = Some (v, s) ->
    drop 12 (x_f s) = proto ++ drop o f.
Proof.
  intros e d f p r far q o proto v s He Hr Hg Hp Hn9 Hohr Hihl Hin Hip Hping Hc H.
  apply (inner_located_partial f o Hin) in Hc. subst o.
  destruct (uplink_decapsulated e d f p r far q proto v s He Hr Hg Hp Hn9 Hohr Hihl Hip Hping H) as (c & _ & E). done.
Qed.
(** [ex_up] and [ex_up0] are such packets. *)
Example ex_located : inner_at ex_up 58 /\ payload ex_up = 58 /\ inner_at ex_up0 50 /\ payload ex_up0 = 50.
Proof.
  split; [|split; [done|split; [by vm_compute|done]]]. unfold inner_at.
  replace (negb (gtp_opt ex_up)) with false by by vm_compute. replace (N.testbit (byte ex_up (gtp ex_up)) 2) with true by by vm_compute.
  cbv iota. replace (byte ex_up (gtp ex_up + 11)) with 133%N by by vm_compute. replace (gtp ex_up + 12) with 54 by by vm_compute.
  apply exts_next; [done|by vm_compute|]. replace (byte ex_up (54 + _ - 1)) with 0%N by by vm_compute.
  replace (54 + _) with 58 by by vm_compute. constructor.
Qed.

(** A G-PDU with a sequence number (flag S) is not forwarded. *)
Theorem inner_located_refuted :
  ~ forall e d f p r far q o proto v s, env_ok e -> wellformed f -> rule_for e d f = Some (p, r) -> gpdu e f = true ->
      permitted e Uplink (N.of_nat (length f)) d r = Some (far, q) ->
      N.testbit (fi_ohc far) 0 = false -> r_ohr r = 0%N ->
      (byte f 14 mod 16 = 5)%N -> inner_at f o -> ip_at f o = Some proto -> ping_at e f o = false ->
      xdp e f d = Some (v, s) ->
      drop 12 (x_f s) = proto ++ drop o f.
Proof.
  intros H. destruct (xdp ex_env ex_ups ex_dp) as [[v s]|] eqn:E; [|by vm_compute in E].
  assert (C : drop 12 (x_f s) = [8; 0]%N ++ drop 54 ex_ups).
  { apply (H ex_env ex_dp ex_ups (ex_entry 1 1) (default_rule (ex_entry 1 1)) (Far 2 0 0 0 0) (Qer 0 0 9 0 0 0 0) 54 [8; 0]%N v s); [apply ex_env_ok|apply wellformed_b_ok; by vm_compute|by vm_compute|by vm_compute|by vm_compute|reflexivity|reflexivity|
      by vm_compute|by vm_compute|by vm_compute|by vm_compute|exact E]. }
  assert (Eg : option_map (fun r => bool_decide (drop 12 (x_f r.2) = [8; 0]%N ++ drop 54 ex_ups)) (xdp ex_env ex_ups ex_dp) = Some true).
  { rewrite E. cbn [option_map snd]. rewrite C. by rewrite bool_decide_true. }
  by vm_compute in Eg.
Qed.
