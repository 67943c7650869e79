(** C76: UPFs in a row (N9).  A packet that enters a tunnel, is handed on by any number of UPFs and leaves the tunnel at the last
    one comes out as it went in. *)
From Verif Require Import Base IdTracker SdfParser SdfProps MapOps SdfMatch Pfcp Qer Csum Xdp XdpBase XdpProps XdpRules XdpFrames XdpEx.
Open Scope nat_scope.

(** ** Specification *)

(** A UPF when a packet comes: its environment (addresses, clock, routing table) and its rules. *)
Record upf := Upf { u_env : env; u_dp : dp }.
Definition owns (u : upf) (a : list N) : Prop := a = e_n3 (u_env u) \/ a = e_n9 (u_env u).

(** [u] sends [f] out and it arrives at the next machine as [g]: with other MAC addresses. *)
Definition carries (u : upf) (f g : list N) : Prop :=
  exists v s, xdp (u_env u) f (u_dp u) = Some (v, s) /\ (v = TX \/ exists i, v = REDIRECT i) /\
    12 <= length g /\ drop 12 g = drop 12 (x_f s) /\ Forall (fun b => b < 256)%N g.
Fixpoint journey (us : list upf) (f g : list N) : Prop :=
  match us with [] => g = f | u :: r => exists h, carries u f h /\ journey r h g end.

(** What [u] does with uplink packets of [size] bytes in tunnel [t]: hand them on to tunnel [t'] at address [a]; remove the tunnel. *)
Definition rule_at (u : upf) (t size : N) (p : ep_pdr) (far : far_info) : Prop :=
  env_ok (u_env u) /\ d_up (u_dp u) !! t = Some p /\ ep_mode p = 0%N /\
  exists q, permitted (u_env u) Uplink size (u_dp u) (default_rule p) = Some (far, q).
Definition hands_on (u : upf) (t size : N) (a : list N) (t' : N) : Prop :=
  exists p far, rule_at u t size p far /\ N.testbit (fi_ohc far) 0 = true /\ far_fits far /\ le32 (fi_remote far) = a /\ fi_teid far = t'.
Definition ends (u : upf) (t size : N) : Prop :=
  exists p far, rule_at u t size p far /\ N.testbit (fi_ohc far) 0 = false /\ ep_ohr p = 0%N.
(** Tunnel [t] at the first of [us] leads to tunnel [t'] at address [a]. *)
Fixpoint leads (us : list upf) (t size : N) (a : list N) (t' : N) : Prop :=
  match us with
  | [] => False
  | [u] => hands_on u t size a t'
  | u :: (u' :: _) as r => exists a1 t1, hands_on u t size a1 t1 /\ owns u' a1 /\ leads r t1 size a t'
  end.

(** A packet in tunnel [t] of one of the addresses of [u], without IP options. *)
Definition in_tunnel (u : upf) (t : N) (f : list N) : Prop :=
  Forall (fun b => b < 256)%N f /\ gpdu (u_env u) f = true /\ be_value (teid f) = t /\ (byte f 14 mod 16 = 5)%N.

(** ** Frames that agree *)
Lemma drop_ext (f g : list N) k : length f = length g -> (forall i, k <= i -> byte f i = byte g i) -> drop k f = drop k g.
Proof.
  intros L H. apply (nth_ext _ _ 0%N 0%N); [rewrite !drop_length; lia|]. intros n _. specialize (H (k + n) ltac:(lia)).
  rewrite <- !byte_drop in H. exact H.
Qed.
Lemma field_ext (f g : list N) o n : length f = length g -> (forall i, o <= i < o + n -> byte f i = byte g i) -> field f o n = field g o n.
Proof.
  intros L H. unfold field. apply (nth_ext _ _ 0%N 0%N); [rewrite !take_length, !drop_length; lia|]. intros i Hi.
  rewrite take_length, drop_length in Hi. specialize (H (o + i) ltac:(lia)). rewrite <- !byte_drop in H. unfold byte in H.
  assert (forall (l : list N), nth i (take n l) 0%N = nth i l 0%N) as T; [|by rewrite !T].
  intros l. rewrite <- (take_drop n l) at 2. destruct (Nat.lt_ge_cases i (length (take n l))) as [Hl|Hl]; [by rewrite app_nth1|].
  rewrite take_length in Hl. rewrite (nth_overflow (take n l)) by (rewrite take_length; lia). rewrite nth_overflow; [done|]. rewrite take_drop. lia.
Qed.

(** ** One hop *)
Lemma rule_at_for u t size p far f : rule_at u t size p far -> gpdu (u_env u) f = true -> be_value (teid f) = t ->
  rule_for (u_env u) (u_dp u) f = Some (p, default_rule p).
Proof. intros (_ & Hp & Hm & _) Hg Ht. unfold rule_for, entry, select. by rewrite Hg, Ht, Hp, Hm. Qed.

Lemma hop u t f g a t' : in_tunnel u t f -> hands_on u t (N.of_nat (length f)) a t' -> carries u f g ->
  length g = length f /\ Forall (fun b => b < 256)%N g /\ field g 30 4 = a /\ be_value (field g 46 4) = t' /\ checksum_ok (field g 14 20) /\
  (forall i, 12 <= i -> ~ (24 <= i < 34) -> ~ (40 <= i < 42) -> ~ (46 <= i < 50) -> byte g i = byte f i).
Proof.
  intros (Hb & Hg & Ht & Hi) (p & far & Hrule & Hohc & Hfit & Ha & Ht') (v & s & Hx & _ & Hlg & Hd & Hbg).
  destruct Hrule as (He & Hp & Hm & q & Hq). pose proof (rule_at_for u t _ p far f (conj He (conj Hp (conj Hm (ex_intro _ q Hq)))) Hg Ht) as Hr.
  destruct (uplink_relayed_partial _ _ _ _ _ _ _ _ _ He Hb Hr Hg Hq Hohc Hfit Hi Hx) as (h & c & Hro & Hl & H1 & H2 & H3 & H4 & H5 & H6).
  destruct (gpdu_lengths _ f Hg) as (L1 & _).
  assert (E : drop 12 g = drop 12 h).
  { rewrite Hd. destruct (routed_frame _ He true h) as (m & Hmm). rewrite Hro in Hmm. cbn [fst snd] in Hmm. destruct Hmm as [[Hm1 ->]| ->]; [|done]. by rewrite drop_app_alt. }
  assert (Lg : length g = length f).
  { pose proof (drop_length g 12) as A1. pose proof (drop_length h 12) as A2. rewrite E in A1. lia. }
  rewrite !(field_drop12 g h) by (done || lia). split_and!; [done|done|by rewrite H2|by rewrite H3|done|].
  intros i Hi1 Hi2 Hi3 Hi4. rewrite (byte_drop12 g h) by (done || lia). by apply H6.
Qed.

(** What does not change on the way. *)
Definition same_inside (f g : list N) : Prop :=
  length g = length f /\ (forall i, 12 <= i -> ~ (24 <= i < 34) -> ~ (40 <= i < 42) -> ~ (46 <= i < 50) -> byte g i = byte f i).
Lemma same_inside_trans f g h : same_inside f g -> same_inside g h -> same_inside f h.
Proof. intros [L1 H1] [L2 H2]. split; [lia|]. intros i ? ? ? ?. rewrite H2 by done. by apply H1. Qed.

(** A packet in a tunnel, addressed to another UPF, is in that tunnel there. *)
Lemma still_in_tunnel u u' t t' f g : in_tunnel u t f -> same_inside f g -> Forall (fun b => b < 256)%N g -> owns u' (field g 30 4) ->
  be_value (field g 46 4) = t' -> in_tunnel u' t' g.
Proof.
  intros (Hb & Hg & Ht & Hi) [L S] Hbg Ho Ht'. assert (B14 : byte g 14 = byte f 14) by (apply S; lia).
  assert (Hl4 : l4 f = 34) by (unfold l4; by rewrite Hi). assert (Hl4g : l4 g = 34) by (unfold l4; by rewrite B14, Hi).
  split_and!; [done| | |by rewrite B14].
  - unfold gpdu, gtpu, gtp_type, is_ip4, ethertype, proto4, gtp in *. rewrite Hl4 in Hg. rewrite Hl4g.
    rewrite L. rewrite !(S 23), !(S (34 + 8 + 1)) by lia. rewrite (field_ext g f 12 2), (field_ext g f (34 + 2) 2) by (done || (intros; apply S; lia)).
    unfold dst4 in *. rewrite !andb_true_iff in Hg |- *. destruct Hg as [[[[[[G1 G1b] G2] G3] G4] _] G6]. split_and!; try done.
    apply orb_true_iff. destruct Ho as [->| ->]; [left|right]; by apply bool_decide_eq_true.
  - unfold teid, gtp. by rewrite Hl4g.
Qed.

Lemma payload_same u t f g : in_tunnel u t f -> same_inside f g -> payload g = payload f /\ drop (payload g) g = drop (payload f) f.
Proof.
  intros (_ & _ & _ & Hi) [L S]. assert (B14 : byte g 14 = byte f 14) by (apply S; lia).
  assert (E : payload g = payload f).
  { unfold payload, gtp_opt, gtp, l4. rewrite B14, Hi. by rewrite (S (14 + 4 * N.to_nat 5 + 8)) by (simpl; lia). }
  split; [done|]. rewrite E. apply drop_ext; [done|]. intros i Hp. unfold payload, gtp, l4 in Hp. rewrite Hi in Hp. change (N.to_nat 5) with 5 in Hp. apply S; lia.
Qed.

(** ** Any number of hops *)
Lemma relayed us : forall u t f g a t' size, in_tunnel u t f -> size = N.of_nat (length f) -> leads (u :: us) t size a t' -> journey (u :: us) f g ->
  same_inside f g /\ Forall (fun b => b < 256)%N g /\ field g 30 4 = a /\ be_value (field g 46 4) = t' /\ checksum_ok (field g 14 20).
Proof.
  induction us as [|u' us IH]; intros u t f g a t' size Hin -> Hl Hj.
  - destruct Hj as (h & Hc & Hj). cbn [journey] in Hj. subst h. destruct (hop _ _ _ _ _ _ Hin Hl Hc) as (H1 & H2 & H3 & H4 & H5 & H6). done.
  - destruct Hl as (a1 & t1 & Hh & Ho & Hl). destruct Hj as (h & Hc & Hj). destruct (hop _ _ _ _ _ _ Hin Hh Hc) as (H1 & H2 & H3 & H4 & H5 & H6).
    assert (S : same_inside f h) by done. rewrite <- H3 in Ho. pose proof (still_in_tunnel _ _ _ _ _ _ Hin S H2 Ho H4) as Hin'.
    destruct (IH u' t1 h g a t' _ Hin' (eq_sym (f_equal N.of_nat H1)) Hl Hj) as (K1 & K). split; [by eapply same_inside_trans|done].
Qed.

(** Through any number of UPFs the packet keeps everything but the tunnel: it is in the tunnel the last one was told to use, with a
    correct header, and its payload is the one it started with. *)
Theorem chain_keeps_payload :
  forall u us t f g a t', in_tunnel u t f -> leads (u :: us) t (N.of_nat (length f)) a t' -> journey (u :: us) f g ->
    length g = length f /\ dst4 g = a /\ be_value (teid g) = t' /\ checksum_ok (field g 14 20) /\
    payload g = payload f /\ drop (payload g) g = drop (payload f) f.
Proof.
  intros u us t f g a t' Hin Hl Hj. destruct (relayed us u t f g a t' _ Hin eq_refl Hl Hj) as (S & H2 & H3 & H4 & H5).
  destruct (payload_same _ _ _ _ Hin S) as [P1 P2]. split_and!; try done; [apply S|].
  unfold teid, gtp, l4. destruct Hin as (_ & _ & _ & Hi). rewrite (proj2 S 14) by lia. by rewrite Hi.
Qed.

(** ... and the last UPF delivers that payload. *)
Theorem chain_delivers :
  forall u us w t f g a t' proto, in_tunnel u t f -> leads (u :: us) t (N.of_nat (length f)) a t' ->
    owns w a -> ends w t' (N.of_nat (length f)) ->
    ip_at f (payload f) = Some proto -> ping_at (u_env w) f (payload f) = false ->
    journey ((u :: us) ++ [w]) f g -> drop 12 g = proto ++ drop (payload f) f.
Proof.
  intros u us w t f g a t' proto Hin Hl Ho Hw Hip Hping Hj.
  assert (exists h, journey (u :: us) f h /\ carries w h g) as (h & J1 & J2).
  { clear -Hj. revert f Hj. generalize (u :: us). intros l. induction l as [|x l IH]; intros f Hj.
    - destruct Hj as (h & Hc & Hj). cbn in Hj. subst. exists f. done.
    - destruct Hj as (h & Hc & Hj). destruct (IH _ Hj) as (k & K1 & K2). exists k. split; [|done]. by exists h. }
  destruct (relayed us u t f h a t' _ Hin eq_refl Hl J1) as (S & H2 & H3 & H4 & H5).
  destruct (payload_same _ _ _ _ Hin S) as [P1 P2]. rewrite <- H3 in Ho. pose proof (still_in_tunnel _ _ _ _ _ _ Hin S H2 Ho H4) as (W1 & W2 & W3 & W4).
  destruct S as [L S]. destruct Hw as (p & far & Hrule & Hohc & Hohr). pose proof (rule_at_for _ _ _ _ _ h Hrule W2 W3) as Hr.
  destruct Hrule as (He & Hp & Hm & q & Hq). rewrite <- L in Hq. destruct J2 as (v & s & Hx & _ & Lg & Hd & _).
  assert (Hbyte : forall k, byte h (payload f + k) = byte f (payload f + k)).
  { intros k. rewrite <- !byte_drop. by rewrite <- P2, P1. }
  assert (Hfield : forall k n, field h (payload f + k) n = field f (payload f + k) n).
  { intros k n. rewrite <- !field_drop. by rewrite <- P2, P1. }
  assert (Hip' : ip_at h (payload h) = Some proto).
  { rewrite P1. unfold ip_at, ip_version in *. pose proof (Hbyte 0) as B. rewrite Nat.add_0_r in B. by rewrite B, L. }
  assert (Hping' : ping_at (u_env w) h (payload h) = false).
  { rewrite P1. unfold ping_at, ip_version in *. pose proof (Hbyte 0) as B. rewrite Nat.add_0_r in B. by rewrite B, Hbyte, Hfield. }
  destruct (uplink_decapsulated _ _ h p _ far q proto v s He Hr W2 Hq Hohc Hohr W4 Hip' Hping' Hx) as (c & _ & E).
  rewrite Hd, E, P2. done.
Qed.

(** A UPF that puts packets for a UE into tunnel [t'] at address [a]. *)
Definition enters (u : upf) (f : list N) (a : list N) (t' : N) : Prop :=
  env_ok (u_env u) /\ gpdu (u_env u) f = false /\ e_head (u_env u) <> None /\ (down_len (u_env u) f + 44 < 65536)%N /\
  exists p r far q, rule_for (u_env u) (u_dp u) f = Some (p, r) /\ permitted (u_env u) Downlink (N.of_nat (length f)) (u_dp u) r = Some (far, q) /\
    far_fits far /\ (qi_qfi q < 64)%N /\ le32 (fi_remote far) = a /\ fi_teid far = t'.

Lemma entered u f g a t' u' : enters u f a t' -> carries u f g -> owns u' a ->
  in_tunnel u' t' g /\ length g = length f + 44 /\ payload g = 58 /\ drop 58 g = drop 14 f.
Proof.
  intros (He & Hg & Hh & Hlen & p & r & far & q & Hr & Hq & Hfit & Hqfi & Ha & Ht') (v & s & Hx & _ & Lg & Hd & Hb) Ho.
  assert (Hf : 34 <= length f).
  { destruct (rule_for_kind _ _ _ _ Hr) as [?|[_ Hk]]; [congruence|]. by destruct (down_ctx_ok _ f Hk) as (_ & _ & ?). }
  destruct (downlink_encapsulated _ _ _ _ _ _ _ _ _ He Hr Hg Hq Hfit Hqfi Hlen Hh Hx) as (h & c & _ & T & _). clear Hx.
  assert (Ls : length (x_f s) = length f + 44).
  { pose proof (f_equal length (t_inner _ _ _ _ _ _ _ _ T)) as E. rewrite !drop_length in E. lia. }
  assert (L : length g = length f + 44).
  { pose proof (f_equal length Hd) as E. rewrite !drop_length in E. lia. }
  assert (B : forall i, 12 <= i -> byte g i = byte (x_f s) i) by (intros; by apply byte_drop12).
  assert (F : forall o n, 12 <= o -> field g o n = field (x_f s) o n) by (intros; by apply field_drop12).
  assert (B14 : byte g 14 = 69%N) by (rewrite B by lia; apply T).
  assert (E4 : l4 g = 34) by (unfold l4; by rewrite B14).
  assert (D : drop 58 g = drop 58 (x_f s)).
  { apply (f_equal (drop 46)) in Hd. by rewrite !drop_drop in Hd. }
  split_and!; [|done| |rewrite D; apply T].
  - split_and!; [done| | |by rewrite B14].
    + unfold gpdu, gtpu, gtp_type, is_ip4, ethertype, proto4, gtp. rewrite E4.
      rewrite !(proj2 (Nat.leb_le _ _)) by lia. rewrite !B, !F by lia. change (34 + 8 + 1) with 43. change (34 + 2) with 36.
      rewrite (t_ethertype _ _ _ _ _ _ _ _ T), (t_proto _ _ _ _ _ _ _ _ T), (t_dport _ _ _ _ _ _ _ _ T), (t_gtp_type _ _ _ _ _ _ _ _ T).
      unfold dst4. rewrite F by lia. rewrite (t_dst _ _ _ _ _ _ _ _ T), Ha. rewrite !andb_true_iff. split_and!; try reflexivity.
      destruct Ho as [->| ->]; apply orb_true_iff; [left|right]; by apply bool_decide_eq_true.
    + unfold teid, gtp. rewrite E4, F by lia. rewrite <- Ht'. apply T.
  - unfold payload, gtp_opt, gtp. rewrite E4, B by lia. change (34 + 8) with 42. by rewrite (t_gtp_flags _ _ _ _ _ _ _ _ T).
Qed.

(** The other direction: a packet for a UE put into a tunnel by the first UPF and handed on by any number of others reaches the
    address and tunnel the last was told to use, with the packet the first UPF received as its payload. *)
Theorem downlink_chain_delivers :
  forall w u us f g a1 t1 a t', enters w f a1 t1 -> owns u a1 -> leads (u :: us) t1 (N.of_nat (length f + 44)) a t' ->
    journey (w :: u :: us) f g ->
    length g = length f + 44 /\ dst4 g = a /\ be_value (teid g) = t' /\ checksum_ok (field g 14 20) /\
    payload g = 58 /\ drop 58 g = drop 14 f.
Proof.
  intros w u us f g a1 t1 a t' Hw Ho Hl (h & Hc & Hj). destruct (entered _ _ _ _ _ _ Hw Hc Ho) as (Hin & L & P & D).
  rewrite <- L in Hl. destruct (chain_keeps_payload u us t1 h g a t' Hin Hl Hj) as (K1 & K2 & K3 & K4 & K5 & K6).
  split_and!; try done; [lia|congruence|]. rewrite K5 in K6. rewrite P in K6. by rewrite K6.
Qed.

(** ** A concrete chain: 10.0.0.1 hands tunnel 257 on to tunnel 1025 at 10.0.0.8, which ends it; and 10.0.0.1 puts packets for a UE
    into tunnel 85 at 10.0.0.9, which hands them on to tunnel 4097 at 10.0.0.11. *)
Definition ex_u1 : upf := Upf ex_env ex_dp.
Definition ex_u2 : upf :=
  Upf (Env [10; 0; 0; 8]%N [10; 0; 0; 8]%N 0 0 5 ex_fib None (fun data => oc_sum (words le data)))
      (Dp {[ 1025%N := ex_entry 1 1 ]} ∅ ∅ 64 {[ 1%N := Far 2 0 0 0 0 ]} 64 ∅ 64 ∅ 64 (new_tracker 64) (new_tracker 64) (new_tracker 64)).
Definition ex_u3 : upf :=
  Upf ex_env2
      (Dp {[ 85%N := ex_entry 1 1 ]} ∅ ∅ 64 {[ 1%N := Far 2 1 4097 184549386 0 ]} 64 ∅ 64 ∅ 64 (new_tracker 64) (new_tracker 64) (new_tracker 64)).
Lemma ex_u2_ok : env_ok (u_env ex_u2).
Proof.
  constructor; simpl; try (by split; [|repeat constructor; lia]).
  - intros _. split; (split; [done|repeat constructor; lia]).
  - done.
  - apply ex_diff.
Qed.

Lemma ex_u3_ok : env_ok (u_env ex_u3).
Proof.
  constructor; simpl; try (by split; [|repeat constructor; lia]).
  - intros _. split; (split; [done|repeat constructor; lia]).
  - done.
  - apply ex_diff.
Qed.
Definition sent (u : upf) (f : list N) : option (list N) :=
  match xdp (u_env u) f (u_dp u) with
  | Some (TX, s) => Some (x_f s) | Some (REDIRECT _, s) => Some (x_f s) | _ => None end.
Lemma carries_sent u f g : sent u f = Some g -> 12 <= length g -> Forall (fun b => b < 256)%N g -> carries u f g.
Proof.
  unfold sent, carries. destruct (xdp (u_env u) f (u_dp u)) as [[v s]|]; [|done]. intros H Hl Hb.
  exists v, s. destruct v; try done; apply (inj Some) in H; subst g; split_and!; eauto.
Qed.
Definition get (o : option (list N)) : list N := default [] o.
Definition ex_hop1 : list N := Eval vm_compute in get (sent ex_u1 ex_relay).
Definition ex_hop2 : list N := Eval vm_compute in get (sent ex_u2 ex_hop1).
Definition ex_hop3 : list N := Eval vm_compute in get (sent ex_u1 ex_down).
Definition ex_hop4 : list N := Eval vm_compute in get (sent ex_u3 ex_hop3).

Example ex_chain :
  in_tunnel ex_u1 257 ex_relay /\ leads [ex_u1] 257 (N.of_nat (length ex_relay)) [10; 0; 0; 8]%N 1025 /\ owns ex_u2 [10; 0; 0; 8]%N /\
  ends ex_u2 1025 (N.of_nat (length ex_relay)) /\ ip_at ex_relay (payload ex_relay) = Some [8; 0]%N /\
  ping_at (u_env ex_u2) ex_relay (payload ex_relay) = false /\ journey ([ex_u1] ++ [ex_u2]) ex_relay ex_hop2.
Proof.
  split_and!.
  - split_and!; [apply bytes_b_ok; by vm_compute|by vm_compute|by vm_compute|by vm_compute].
  - exists (ex_entry 2 1), (Far 2 1 1025 134217738 0). split; [|split; [reflexivity|split; [split; reflexivity|split; reflexivity]]].
    split; [exact ex_env_ok|]. split; [by vm_compute|]. split; [reflexivity|]. exists (Qer 0 0 9 0 0 0 0). by vm_compute.
  - by left.
  - exists (ex_entry 1 1), (Far 2 0 0 0 0). split; [|split; reflexivity].
    split; [exact ex_u2_ok|]. split; [by vm_compute|]. split; [reflexivity|]. exists (Qer 0 0 0 0 0 0 0). by vm_compute.
  - by vm_compute.
  - by vm_compute.
  - exists ex_hop1. split; [apply carries_sent; [by vm_compute|simpl; lia|apply bytes_b_ok; by vm_compute]|].
    exists ex_hop2. split; [apply carries_sent; [by vm_compute|simpl; lia|apply bytes_b_ok; by vm_compute]|reflexivity].
Qed.
Example ex_down_chain :
  enters ex_u1 ex_down [10; 0; 0; 9]%N 85 /\ owns ex_u3 [10; 0; 0; 9]%N /\
  leads [ex_u3] 85 (N.of_nat (length ex_down + 44)) [10; 0; 0; 11]%N 4097 /\ journey [ex_u1; ex_u3] ex_down ex_hop4.
Proof.
  split_and!.
  - split_and!; [exact ex_env_ok|by vm_compute|done|by vm_compute|].
    exists (ex_entry 3 1), (default_rule (ex_entry 3 1)), (Far 2 1 85 150994954 10240), (Qer 0 0 9 0 0 0 0).
    split_and!; [by vm_compute|by vm_compute|split; reflexivity|reflexivity|reflexivity|reflexivity].
  - by left.
  - exists (ex_entry 1 1), (Far 2 1 4097 184549386 0). split; [|split; [reflexivity|split; [split; reflexivity|split; reflexivity]]].
    split; [exact ex_u3_ok|]. split; [by vm_compute|]. split; [reflexivity|]. exists (Qer 0 0 0 0 0 0 0). by vm_compute.
  - exists ex_hop3. split; [apply carries_sent; [by vm_compute|simpl; lia|apply bytes_b_ok; by vm_compute]|].
    exists ex_hop4. split; [apply carries_sent; [by vm_compute|simpl; lia|apply bytes_b_ok; by vm_compute]|reflexivity].
Qed.
