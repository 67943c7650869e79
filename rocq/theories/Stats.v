(** C43: packet statistics (cmd/ebpf/stats.go, cmd/api/rest/stats.go, cmd/core/metrics.go). *)
From Verif Require Import Base MapOps Xdp XdpBase XdpProps.
Open Scope N_scope.

(** ** Model *)

(** ebpf/stats.go:13-26 [UpfCounters]. *)
Record upf_counters := Counters {
  c_arp : N; c_icmp : N; c_icmp6 : N; c_ip4 : N; c_ip6 : N; c_tcp : N; c_udp : N; c_other : N;
  c_gtp_echo : N; c_gtp_pdu : N; c_gtp_other : N; c_gtp_unexp : N }.
Definition counters0 : upf_counters := Counters 0 0 0 0 0 0 0 0 0 0 0 0.
(** xdp/utils/routing.h:30-39 [route_stat]. *)
Record route_stat := Route {
  r4_cache : N; r4_ok : N; r4_drop : N; r4_pass : N; r6_cache : N; r6_ok : N; r6_drop : N; r6_pass : N }.
Definition route0 : route_stat := Route 0 0 0 0 0 0 0 0.
(** xdp/statistics.h:47-51 [upf_statistic] and the route_stat of one CPU (the N3/N6 counters are never read by the API). *)
Record percpu := Percpu { s_counters : upf_counters; s_actions : list N; s_route : route_stat }.

(** ebpf/stats.go:33-45 [UpfCounters.Add]: 64-bit sums; RxGtpUnexp is not among them. *)
Definition counters_add (cur new : upf_counters) : upf_counters :=
  Counters (u64 (c_arp cur + c_arp new)) (u64 (c_icmp cur + c_icmp new)) (u64 (c_icmp6 cur + c_icmp6 new))
    (u64 (c_ip4 cur + c_ip4 new)) (u64 (c_ip6 cur + c_ip6 new)) (u64 (c_tcp cur + c_tcp new)) (u64 (c_udp cur + c_udp new))
    (u64 (c_other cur + c_other new)) (u64 (c_gtp_echo cur + c_gtp_echo new)) (u64 (c_gtp_pdu cur + c_gtp_pdu new))
    (u64 (c_gtp_other cur + c_gtp_other new)) (c_gtp_unexp cur).
(** 64-bit subtraction. *)
Definition sub64 (a b : N) : N := u64 (a + 18446744073709551616 - b).
(** ebpf/stats.go:47-63 [UpfCounters.Delta]. *)
Definition counters_delta (cur new : upf_counters) : upf_counters :=
  Counters (sub64 (c_arp new) (c_arp cur)) (sub64 (c_icmp new) (c_icmp cur)) (sub64 (c_icmp6 new) (c_icmp6 cur))
    (sub64 (c_ip4 new) (c_ip4 cur)) (sub64 (c_ip6 new) (c_ip6 cur)) (sub64 (c_tcp new) (c_tcp cur)) (sub64 (c_udp new) (c_udp cur))
    (sub64 (c_other new) (c_other cur)) (sub64 (c_gtp_echo new) (c_gtp_echo cur)) (sub64 (c_gtp_pdu new) (c_gtp_pdu cur))
    (sub64 (c_gtp_other new) (c_gtp_other cur)) 0.
(** ebpf/stats.go:142-152 [IpEntrypointRouteStat.Add] and 154-168 [Delta]. *)
Definition route_add (cur new : route_stat) : route_stat :=
  Route (u64 (r4_cache cur + r4_cache new)) (u64 (r4_ok cur + r4_ok new)) (u64 (r4_drop cur + r4_drop new)) (u64 (r4_pass cur + r4_pass new))
    (u64 (r6_cache cur + r6_cache new)) (u64 (r6_ok cur + r6_ok new)) (u64 (r6_drop cur + r6_drop new)) (u64 (r6_pass cur + r6_pass new)).
Definition route_delta (cur new : route_stat) : route_stat :=
  Route (sub64 (r4_cache new) (r4_cache cur)) (sub64 (r4_ok new) (r4_ok cur)) (sub64 (r4_drop new) (r4_drop cur)) (sub64 (r4_pass new) (r4_pass cur))
    (sub64 (r6_cache new) (r6_cache cur)) (sub64 (r6_ok new) (r6_ok cur)) (sub64 (r6_drop new) (r6_drop cur)) (sub64 (r6_pass new) (r6_pass cur)).

(** ebpf/stats.go:67-82 [getUpfXdpStatisticField]; 84-102: fields 0 to 4.  (Reading the map does not fail.) *)
Definition action_total (field : nat) (cpus : list percpu) : N :=
  foldl (fun t s => u64 (t + nth field (s_actions s) 0)) 0 cpus.
(** ebpf/stats.go:105-120 [GetUpfExtStat] and 170-186 [GetUpfRouteStat]. *)
Definition ext_total (cpus : list percpu) : upf_counters := foldl (fun t s => counters_add t (s_counters s)) counters0 cpus.
Definition route_total (cpus : list percpu) : route_stat := foldl (fun t s => route_add t (s_route s)) route0 cpus.
(** ebpf/stats.go:7-11: what the object remembers; 122-140 [GetUpfExtStatDelta], 188-206 [GetUpfRouteStatDelta]. *)
Record stat_obj := StatObj { so_counters : upf_counters; so_route : route_stat }.
Definition stat_obj0 : stat_obj := StatObj counters0 route0.
Definition ext_delta (o : stat_obj) (cpus : list percpu) : upf_counters * stat_obj :=
  (counters_delta (so_counters o) (ext_total cpus), StatObj (ext_total cpus) (so_route o)).
Definition route_deltas (o : stat_obj) (cpus : list percpu) : route_stat * stat_obj :=
  (route_delta (so_route o) (route_total cpus), StatObj (so_counters o) (route_total cpus)).

(** rest/stats.go:52-60, 70-86, 96-109: the answers of GET xdp_stats, packet_stats and route_stats. *)
Record xdp_answer := XdpAnswer { xa_aborted : N; xa_drop : N; xa_pass : N; xa_tx : N; xa_redirect : N }.
Definition get_xdp_stats (cpus : list percpu) : xdp_answer :=
  XdpAnswer (action_total 0 cpus) (action_total 1 cpus) (action_total 2 cpus) (action_total 3 cpus) (action_total 4 cpus).
Definition get_packet_stats (cpus : list percpu) : upf_counters := ext_total cpus.
Definition get_route_stats (cpus : list percpu) : route_stat := route_total cpus.

(** core/metrics.go:122-146 [GatherMetrics] as called by rest/handler.go:115-118 on each scrape: [stats] is passed by value, so
    what the object remembers is not kept.  [m] is the value of the Prometheus counters (upf_rx by label), modelled exactly. *)
Definition metrics_add (m d : upf_counters) : upf_counters :=
  Counters (c_arp m + c_arp d) (c_icmp m + c_icmp d) (c_icmp6 m + c_icmp6 d) (c_ip4 m + c_ip4 d) (c_ip6 m + c_ip6 d) (c_tcp m + c_tcp d)
    (c_udp m + c_udp d) (c_other m + c_other d) (c_gtp_echo m + c_gtp_echo d) (c_gtp_pdu m + c_gtp_pdu d) (c_gtp_other m + c_gtp_other d)
    (c_gtp_unexp m + c_gtp_unexp d).
Definition scrape (o : stat_obj) (m : upf_counters) (cpus : list percpu) : upf_counters * stat_obj :=
  let '(d, _) := ext_delta o cpus in (metrics_add m d, o).

(** ** Specification: named counters *)

(** The value of a counter in the statistics of one CPU (none for those the API does not read). *)
Definition value (s : percpu) (c : counter) : option N :=
  match c with
  | rx_arp => Some (c_arp (s_counters s)) | rx_icmp => Some (c_icmp (s_counters s)) | rx_icmp6 => Some (c_icmp6 (s_counters s))
  | rx_ip4 => Some (c_ip4 (s_counters s)) | rx_ip6 => Some (c_ip6 (s_counters s)) | rx_tcp => Some (c_tcp (s_counters s))
  | rx_udp => Some (c_udp (s_counters s)) | rx_other => Some (c_other (s_counters s)) | rx_gtp_echo => Some (c_gtp_echo (s_counters s))
  | rx_gtp_pdu => Some (c_gtp_pdu (s_counters s)) | rx_gtp_other => Some (c_gtp_other (s_counters s)) | rx_gtp_unexp => Some (c_gtp_unexp (s_counters s))
  | fib4_ok => Some (r4_ok (s_route s)) | fib4_drop => Some (r4_drop (s_route s)) | fib4_pass => Some (r4_pass (s_route s))
  | fib6_ok => Some (r6_ok (s_route s)) | fib6_drop => Some (r6_drop (s_route s)) | fib6_pass => Some (r6_pass (s_route s))
  | action a => s_actions s !! N.to_nat a
  | rx_n3 | tx_n3 | rx_n6 | tx_n6 => None
  end.
(** The value of a counter in the answers of the API. *)
Definition reported (cpus : list percpu) (c : counter) : option N :=
  let p := get_packet_stats cpus in let r := get_route_stats cpus in let x := get_xdp_stats cpus in
  match c with
  | rx_arp => Some (c_arp p) | rx_icmp => Some (c_icmp p) | rx_icmp6 => Some (c_icmp6 p) | rx_ip4 => Some (c_ip4 p) | rx_ip6 => Some (c_ip6 p)
  | rx_tcp => Some (c_tcp p) | rx_udp => Some (c_udp p) | rx_other => Some (c_other p) | rx_gtp_echo => Some (c_gtp_echo p)
  | rx_gtp_pdu => Some (c_gtp_pdu p) | rx_gtp_other => Some (c_gtp_other p) | rx_gtp_unexp => Some (c_gtp_unexp p)
  | fib4_ok => Some (r4_ok r) | fib4_drop => Some (r4_drop r) | fib4_pass => Some (r4_pass r)
  | fib6_ok => Some (r6_ok r) | fib6_drop => Some (r6_drop r) | fib6_pass => Some (r6_pass r)
  | action 0 => Some (xa_aborted x) | action 1 => Some (xa_drop x) | action 2 => Some (xa_pass x) | action 3 => Some (xa_tx x)
  | action 4 => Some (xa_redirect x)
  | _ => None
  end.
Fixpoint sum (l : list N) : N := match l with [] => 0 | x :: l => x + sum l end.

(** ** Sums *)
Lemma u64_add_l a b : u64 (u64 a + b) = u64 (a + b).
Proof. unfold u64. by rewrite N.add_mod_idemp_l. Qed.
Lemma foldl_u64 {A} (f : A -> N) l : forall a, u64 (foldl (fun t s => u64 (t + f s)) a l) = u64 (a + sum (f <$> l)).
Proof.
  induction l as [|x l IH]; intros a; simpl; [by rewrite N.add_0_r|]. rewrite IH, u64_add_l. by rewrite N.add_assoc.
Qed.
Lemma foldl_u64_0 {A} (f : A -> N) l : foldl (fun t s => u64 (t + f s)) 0 l = u64 (sum (f <$> l)).
Proof.
  destruct l as [|x l]; [done|]. simpl. rewrite <- (N.mod_small (foldl _ _ _) 18446744073709551616).
  - fold (u64 (foldl (fun t s => u64 (t + f s)) (u64 (0 + f x)) l)). rewrite foldl_u64, u64_add_l. f_equal.
  - generalize (0 + f x). induction l as [|y l IH]; intros a; simpl; [unfold u64; apply N.mod_lt; done|]. apply IH.
Qed.
Lemma foldl_proj {A B C} (f : A -> B -> A) (g : C -> B -> C) (p : A -> C) l :
  (forall a b, p (f a b) = g (p a) b) -> forall a, p (foldl f a l) = foldl g (p a) l.
Proof. intros H. induction l as [|x l IH]; intros a; simpl; [done|]. by rewrite IH, H. Qed.

Theorem statistics_are_sums_partial :
  forall cpus c v, reported cpus c = Some v -> c <> rx_gtp_unexp ->
    v = u64 (sum ((fun s => default 0 (value s c)) <$> cpus)).
Proof.
  intros cpus c v H Hne.
  assert (HE : forall p, (forall a b, p (counters_add a (s_counters b)) = u64 (p a + p (s_counters b))) -> p counters0 = 0 ->
    p (ext_total cpus) = u64 (sum ((fun s => p (s_counters s)) <$> cpus))).
  { intros p Hp H0. unfold ext_total. rewrite (foldl_proj _ (fun t s => u64 (t + p (s_counters s))) p) by done. rewrite H0. apply foldl_u64_0. }
  assert (HR : forall p, (forall a b, p (route_add a (s_route b)) = u64 (p a + p (s_route b))) -> p route0 = 0 ->
    p (route_total cpus) = u64 (sum ((fun s => p (s_route s)) <$> cpus))).
  { intros p Hp H0. unfold route_total. rewrite (foldl_proj _ (fun t s => u64 (t + p (s_route s))) p) by done. rewrite H0. apply foldl_u64_0. }
  assert (HA : forall n, action_total n cpus = u64 (sum ((fun s => default 0 (s_actions s !! n)) <$> cpus))).
  { intros n. unfold action_total. rewrite foldl_u64_0. f_equal. f_equal. apply list_fmap_ext. intros _ s _. apply nth_lookup. }
  destruct c as [| | | | | | | | | | | | | | | | | | | | | |a]; simpl in H; simplify_eq; try (by apply HE); try (by apply HR).
  assert (a = 0 \/ a = 1 \/ a = 2 \/ a = 3 \/ a = 4) as Ha.
  { destruct a as [|[[[]|[]|]|[[]|[]|]|]]; simplify_eq; lia. }
  destruct Ha as [-> | [-> | [-> | [-> | ->]]]]; simplify_eq; apply HA.
Qed.
(** RxGtpUnexp is always reported as 0. *)
Theorem gtp_unexp_refuted :
  (forall cpus, reported cpus rx_gtp_unexp = Some 0) /\
  exists cpus, u64 (sum ((fun s => default 0 (value s rx_gtp_unexp)) <$> cpus)) = 1.
Proof.
  split.
  - intros cpus. simpl. f_equal. unfold get_packet_stats, ext_total.
    rewrite (foldl_proj _ (fun t (_ : percpu) => t) c_gtp_unexp) by done. simpl. induction cpus; done.
  - exists [Percpu (Counters 0 0 0 0 0 0 0 0 0 0 0 1) [0;0;0;0;0;0;0;0] route0]. by vm_compute.
Qed.

(** ** Deltas: read again and again from one object, they add up (modulo 2^64) to the total at the last reading. *)
Fixpoint ext_deltas (o : stat_obj) (reads : list (list percpu)) : list upf_counters :=
  match reads with [] => [] | r :: l => let '(d, o') := ext_delta o r in d :: ext_deltas o' l end.
Fixpoint route_deltas_of (o : stat_obj) (reads : list (list percpu)) : list route_stat :=
  match reads with [] => [] | r :: l => let '(d, o') := route_deltas o r in d :: route_deltas_of o' l end.

Lemma sub64_add a b : b < 18446744073709551616 -> u64 (b + sub64 a b) = u64 a.
Proof.
  intros Hb. unfold sub64, u64. rewrite N.add_mod_idemp_r by done.
  replace (b + (a + 18446744073709551616 - b)) with (a + 1 * 18446744073709551616) by lia. by rewrite N.mod_add.
Qed.
(** The fields that the sums cover. *)
Definition summed (p : upf_counters -> N) : Prop :=
  (forall a b, p (counters_add a b) = u64 (p a + p b)) /\ (forall a b, p (counters_delta a b) = sub64 (p b) (p a)) /\ p counters0 = 0.
Lemma summed_lt p cpus : summed p -> p (ext_total cpus) < 18446744073709551616.
Proof.
  intros (H1 & H2 & H3). unfold ext_total. rewrite (foldl_proj _ (fun t s => u64 (t + p (s_counters s))) p) by (intros; apply H1).
  rewrite H3, foldl_u64_0. unfold u64. by apply N.mod_lt.
Qed.

(** Every counter of the interface but the unexpected GTP packets ([gtp_unexp_refuted]). *)
Definition delta_fields : list (upf_counters -> N) :=
  [c_arp; c_icmp; c_icmp6; c_ip4; c_ip6; c_tcp; c_udp; c_other; c_gtp_echo; c_gtp_pdu; c_gtp_other].
Lemma summed_fields : Forall summed delta_fields.
Proof. repeat constructor. Qed.
Theorem deltas_add_up_partial :
  forall p, p ∈ delta_fields -> forall reads last, u64 (sum (p <$> ext_deltas stat_obj0 (reads ++ [last]))) = p (ext_total last).
Proof.
  intros p Hp reads last. apply (proj1 (Forall_forall _ _) summed_fields) in Hp.
  assert (forall o, p (so_counters o) < 18446744073709551616 ->
    u64 (p (so_counters o) + sum (p <$> ext_deltas o (reads ++ [last]))) = p (ext_total last)) as H.
  { destruct Hp as (H1 & H2 & H3). induction reads as [|r reads IH]; intros o Ho; simpl.
    - rewrite N.add_0_r, H2, sub64_add by done. unfold u64. apply N.mod_small. by apply summed_lt.
    - rewrite N.add_assoc, <- u64_add_l, H2, sub64_add, u64_add_l by done. apply (IH (StatObj (ext_total r) (so_route o))). simpl. by apply summed_lt. }
  rewrite <- (H stat_obj0); simpl; destruct Hp as (_ & _ & ->); [by rewrite N.add_0_l|done].
Qed.
Definition summed_route (p : route_stat -> N) : Prop :=
  (forall a b, p (route_add a b) = u64 (p a + p b)) /\ (forall a b, p (route_delta a b) = sub64 (p b) (p a)) /\ p route0 = 0.
Definition route_fields : list (route_stat -> N) := [r4_cache; r4_ok; r4_drop; r4_pass; r6_cache; r6_ok; r6_drop; r6_pass].
Lemma summed_route_fields : Forall summed_route route_fields.
Proof. repeat constructor. Qed.
Lemma summed_route_lt p cpus : summed_route p -> p (route_total cpus) < 18446744073709551616.
Proof.
  intros (H1 & H2 & H3). unfold route_total. rewrite (foldl_proj _ (fun t s => u64 (t + p (s_route s))) p) by (intros; apply H1).
  rewrite H3, foldl_u64_0. unfold u64. by apply N.mod_lt.
Qed.
Theorem route_deltas_add_up :
  forall p, p ∈ route_fields -> forall reads last, u64 (sum (p <$> route_deltas_of stat_obj0 (reads ++ [last]))) = p (route_total last).
Proof.
  intros p Hp reads last. apply (proj1 (Forall_forall _ _) summed_route_fields) in Hp.
  assert (forall o, p (so_route o) < 18446744073709551616 ->
    u64 (p (so_route o) + sum (p <$> route_deltas_of o (reads ++ [last]))) = p (route_total last)) as H.
  { destruct Hp as (H1 & H2 & H3). induction reads as [|r reads IH]; intros o Ho; simpl.
    - rewrite N.add_0_r, H2, sub64_add by done. unfold u64. apply N.mod_small. by apply summed_route_lt.
    - rewrite N.add_assoc, <- u64_add_l, H2, sub64_add, u64_add_l by done. apply (IH (StatObj (so_counters o) (route_total r))). simpl. by apply summed_route_lt. }
  rewrite <- (H stat_obj0); simpl; destruct Hp as (_ & _ & ->); [by rewrite N.add_0_l|done].
Qed.
Definition one_ip4 : list percpu := [Percpu (Counters 0 0 0 1 0 0 0 0 0 0 0 0) [0;0;1;0;0;0;0;0] route0].
Example ex_deltas : c_ip4 <$> ext_deltas stat_obj0 [one_ip4; one_ip4; one_ip4 ++ one_ip4] = [1; 0; 1].
Proof. by vm_compute. Qed.

(** The Prometheus counters do not: every scrape adds the total again. *)
Fixpoint scrapes (o : stat_obj) (m : upf_counters) (reads : list (list percpu)) : upf_counters :=
  match reads with [] => m | r :: l => let '(m', o') := scrape o m r in scrapes o' m' l end.
Theorem metrics_count_again_refuted : c_ip4 (scrapes stat_obj0 counters0 [one_ip4; one_ip4]) = 2 /\ c_ip4 (ext_total one_ip4) = 1.
Proof. by vm_compute. Qed.

(** What they show: the sum of the totals at each scrape.  So after the first scrape, and only then, they show the counts. *)
Lemma ext_delta0 p cpus : summed p -> p (counters_delta counters0 (ext_total cpus)) = p (ext_total cpus).
Proof.
  intros Hp. pose proof (summed_lt p cpus Hp) as Hlt. destruct Hp as (_ & H2 & H3). rewrite H2, H3. unfold sub64, u64. rewrite N.sub_0_r.
  replace (p (ext_total cpus) + 18446744073709551616) with (p (ext_total cpus) + 1 * 18446744073709551616) by lia. rewrite N.mod_add by done. by apply N.mod_small.
Qed.
Theorem metrics_sum_totals_refuted :
  forall p, p ∈ delta_fields -> forall reads, p (scrapes stat_obj0 counters0 reads) = sum ((fun cpus => p (ext_total cpus)) <$> reads).
Proof.
  intros p Hp reads. assert (Hadd : forall a b, p (metrics_add a b) = p a + p b) by (repeat (apply elem_of_cons in Hp as [->|Hp]; [done|]); by apply elem_of_nil in Hp).
  apply (proj1 (Forall_forall _ _) summed_fields) in Hp.
  assert (forall m, p (scrapes stat_obj0 m reads) = p m + sum ((fun cpus => p (ext_total cpus)) <$> reads)) as H.
  { induction reads as [|r reads IH]; intros m; [simpl; lia|]. cbn [scrapes scrape ext_delta]. rewrite IH, Hadd. cbn [so_counters stat_obj0].
    rewrite (ext_delta0 p r Hp). rewrite fmap_cons. cbn [sum]. lia. }
  rewrite H. destruct Hp as (_ & _ & ->). lia.
Qed.
Theorem first_scrape_partial : forall p, p ∈ delta_fields -> forall cpus, p (fst (scrape stat_obj0 counters0 cpus)) = p (get_packet_stats cpus).
Proof. intros p Hp cpus. pose proof (metrics_sum_totals_refuted p Hp [cpus]) as H. simpl in H. rewrite N.add_0_r in H. exact H. Qed.

(** ** From the packets to the answers of the API *)

(** Incrementing counters in the statistics of one CPU. *)
Definition bump_counters (c : counter) (s : upf_counters) : upf_counters :=
  let i x y := if decide (c = x) then u64 (y + 1) else y in
  Counters (i rx_arp (c_arp s)) (i rx_icmp (c_icmp s)) (i rx_icmp6 (c_icmp6 s)) (i rx_ip4 (c_ip4 s)) (i rx_ip6 (c_ip6 s)) (i rx_tcp (c_tcp s))
    (i rx_udp (c_udp s)) (i rx_other (c_other s)) (i rx_gtp_echo (c_gtp_echo s)) (i rx_gtp_pdu (c_gtp_pdu s)) (i rx_gtp_other (c_gtp_other s))
    (i rx_gtp_unexp (c_gtp_unexp s)).
Definition bump_route (c : counter) (s : route_stat) : route_stat :=
  let i x y := if decide (c = x) then u64 (y + 1) else y in
  Route (r4_cache s) (i fib4_ok (r4_ok s)) (i fib4_drop (r4_drop s)) (i fib4_pass (r4_pass s))
    (r6_cache s) (i fib6_ok (r6_ok s)) (i fib6_drop (r6_drop s)) (i fib6_pass (r6_pass s)).
Definition bump_actions (c : counter) (l : list N) : list N :=
  match c with action a => alter (fun y => u64 (y + 1)) (N.to_nat a) l | _ => l end.
Definition bump (s : percpu) (c : counter) : percpu :=
  Percpu (bump_counters c (s_counters s)) (bump_actions c (s_actions s)) (bump_route c (s_route s)).
Definition bumps (l : list counter) (s : percpu) : percpu := foldl bump s l.
Definition cpu0 : percpu := Percpu counters0 [0;0;0;0;0;0;0;0] route0.

(** The XDP program processes packets one after the other, each on some CPU; [done] lists what came (environment and frame)
    and the verdict. *)
Inductive processed : list percpu -> dp -> list (env * list N * verdict) -> list percpu -> dp -> Prop :=
| processed_nil cpus d : processed cpus d [] cpus d
| processed_one cpus d done cpus1 d1 k e f v s : processed cpus d done cpus1 d1 ->
    env_ok e -> xdp e f d1 = Some (v, s) -> (k < length cpus1)%nat ->
    processed cpus d (done ++ [(e, f, v)]) (alter (bumps (x_log s)) k cpus1) (x_dp s).

Lemma value_bump s c x : value (bump s c) x = (fun y => if decide (c = x) then u64 (y + 1) else y) <$> value s x.
Proof.
  destruct x; try reflexivity.
  cbn [value s_actions bump]. unfold bump_actions. destruct (decide (c = action code)) as [->|Hne].
  - rewrite list_lookup_alter. destruct (s_actions s !! N.to_nat code); reflexivity.
  - destruct c; try (by destruct (s_actions s !! N.to_nat code)).
    rewrite list_lookup_alter_ne; [by destruct (s_actions s !! N.to_nat code)|]. intros E. apply Hne. f_equal. lia.
Qed.
Lemma value_bumps l x : forall s v, value s x = Some v -> exists v', value (bumps l s) x = Some v' /\ u64 v' = u64 (v + N.of_nat (count x l)).
Proof.
  induction l as [|c l IH]; intros s v Hv; simpl.
  { exists v. split; [done|]. f_equal. unfold count. simpl. lia. }
  destruct (IH (bump s c) (if decide (c = x) then u64 (v + 1) else v)) as (v' & H1 & H2); [by rewrite value_bump, Hv|].
  exists v'. split; [done|]. rewrite H2. unfold count. rewrite filter_cons. destruct (decide (c = x)) as [->|Hne].
  - rewrite u64_add_l. simpl. f_equal. lia.
  - done.
Qed.
Definition total (cpus : list percpu) (x : counter) : N := u64 (sum ((fun s => default 0 (value s x)) <$> cpus)).
Lemma sum_insert (l : list N) : forall k a b, l !! k = Some a -> sum (<[k := b]> l) + a = sum l + b.
Proof.
  induction l as [|y l IH]; intros [|k] a b H; simpl in *; simplify_eq; [lia|]. specialize (IH k a b H). lia.
Qed.
Lemma u64_add_r a b : u64 (a + u64 b) = u64 (a + b).
Proof. unfold u64. by rewrite N.add_mod_idemp_r. Qed.
Lemma u64_cancel a b c : u64 (a + c) = u64 (b + c) -> u64 a = u64 b.
Proof.
  intros H. assert (E : forall x, u64 (u64 (x + c) + (18446744073709551616 - c mod 18446744073709551616)) = u64 x).
  { intros x. rewrite u64_add_l. unfold u64. pose proof (N.div_mod' c 18446744073709551616) as Hd.
    pose proof (N.mod_lt c 18446744073709551616 ltac:(done)).
    replace (x + c + (18446744073709551616 - c mod 18446744073709551616)) with (x + (c / 18446744073709551616 + 1) * 18446744073709551616) by lia.
    by rewrite N.mod_add. }
  rewrite <- (E a), <- (E b). by rewrite H.
Qed.
Lemma total_alter cpus k l x : (k < length cpus)%nat -> Forall (fun s => is_Some (value s x)) cpus ->
  total (alter (bumps l) k cpus) x = u64 (total cpus x + N.of_nat (count x l)) /\ Forall (fun s => is_Some (value s x)) (alter (bumps l) k cpus).
Proof.
  intros Hk Hall. apply lookup_lt_is_Some in Hk as [s Hs]. pose proof (Forall_lookup_1 _ _ _ _ Hall Hs) as [v Hv].
  destruct (value_bumps l x s v Hv) as (v' & Hv' & Hu).
  assert (Ha : alter (bumps l) k cpus = <[k := bumps l s]> cpus).
  { apply list_eq. intros j. destruct (decide (j = k)) as [->|Hne].
    - rewrite list_lookup_alter, Hs, list_lookup_insert; [done|]. by eapply lookup_lt_Some.
    - by rewrite list_lookup_alter_ne, list_lookup_insert_ne. }
  rewrite Ha. split.
  - unfold total. rewrite list_fmap_insert. rewrite Hv'. cbn [default from_option id]. rewrite u64_add_l.
    assert (HS : ((fun s => default 0 (value s x)) <$> cpus) !! k = Some v) by (rewrite list_lookup_fmap, Hs; simpl; by rewrite Hv).
    apply (sum_insert _ _ _ v') in HS. apply (u64_cancel _ _ v). rewrite HS.
    rewrite <- u64_add_r, Hu, u64_add_r. f_equal. lia.
  - apply Forall_insert; [done|]. eauto.
Qed.

Lemma total_zero n x v : value cpu0 x = Some v -> total (replicate n cpu0) x = 0 /\ Forall (fun s => is_Some (value s x)) (replicate n cpu0).
Proof.
  intros Hv. assert (v = 0) as ->.
  { destruct x; simpl in Hv; simplify_eq; try done. destruct (N.to_nat code) as [|[|[|[|[|[|[|[|m]]]]]]]]; simpl in Hv; by simplify_eq. }
  split.
  - unfold total. rewrite fmap_replicate, Hv. simpl. induction n as [|n IH]; [done|]. by rewrite replicate_S.
  - apply Forall_replicate. eauto.
Qed.

(** The answers count the packets: by verdict, and by what they are ([rx_counters], see [every_packet_counted]). *)
Theorem statistics_count_packets_partial :
  forall n d done cpus d', processed (replicate n cpu0) d done cpus d' ->
    (forall a v, reported cpus (action a) = Some v -> v = u64 (N.of_nat (length (filter (fun x => verdict_code (snd x) = a) done)))) /\
    (forall c v, is_rx c -> c <> rx_gtp_unexp -> reported cpus c = Some v ->
       v = u64 (sum ((fun x => N.of_nat (count c (rx_counters (fst (fst x)) (snd (fst x))))) <$> done))).
Proof.
  intros n d done cpus d' H. remember (replicate n cpu0) as cpus0 eqn:E0.
  assert (HA : forall a, a < 8 -> total cpus (action a) = u64 (N.of_nat (length (filter (fun x : env * list N * verdict => verdict_code (snd x) = a) done))) /\
    Forall (fun s => is_Some (value s (action a))) cpus).
  { intros a Ha. assert (is_Some (value cpu0 (action a))) as [v0 Hv0].
    { apply lookup_lt_is_Some. simpl. lia. }
    induction H as [cpus d|cpus d done cpus1 d1 k e f v s H IH He Hx Hk]; [subst; by eapply total_zero|].
    destruct (IH E0) as [IH1 IH2]. destruct (total_alter cpus1 k (x_log s) (action a) Hk IH2) as [T1 T2]. split; [|done].
    rewrite T1, IH1, u64_add_l. f_equal. rewrite filter_app, app_length, Nat2N.inj_add. f_equal.
    destruct (every_packet_counted e f d1 v s He Hx) as [-> _]. rewrite filter_cons. simpl. repeat case_decide; simpl; try done; congruence. }
  assert (HR : forall c, is_rx c -> is_Some (value cpu0 c) ->
    total cpus c = u64 (sum ((fun x => N.of_nat (count c (rx_counters (fst (fst x)) (snd (fst x))))) <$> done)) /\ Forall (fun s => is_Some (value s c)) cpus).
  { intros c Hc [v0 Hv0]. clear HA.
    induction H as [cpus d|cpus d done cpus1 d1 k e f v s H IH He Hx Hk]; [subst; by eapply total_zero|].
    destruct (IH E0) as [IH1 IH2]. destruct (total_alter cpus1 k (x_log s) c Hk IH2) as [T1 T2]. split; [|done].
    rewrite T1, IH1, u64_add_l. f_equal. rewrite fmap_app. simpl.
    destruct (every_packet_counted e f d1 v s He Hx) as [_ Hrx]. rewrite (Hrx c Hc).
    generalize (N.of_nat (count c (rx_counters e f))). intros y. induction done as [|z l IHl] using rev_ind; simpl; [lia|].
    clear. induction ((fun x : env * list N * verdict => N.of_nat (count c (rx_counters x.1.1 x.1.2))) <$> (l ++ [z])); simpl; lia. }
  split.
  - intros a v Hv. rewrite (statistics_are_sums_partial _ _ _ Hv) by done. apply HA.
    simpl in Hv. destruct a as [|[[[]|[]|]|[[]|[]|]|]]; simplify_eq; lia.
  - intros c v Hc Hne Hv. rewrite (statistics_are_sums_partial _ _ _ Hv Hne). apply HR; [done|].
    destruct c; try done; simpl; eauto.
Qed.

(** A concrete run on two CPUs: an echo request answered on the first, an unknown GTP packet on the second. *)
From Verif Require Import XdpEx.
Open Scope N_scope.
Definition ex_run2 : option (verdict * verdict * list percpu) :=
  match xdp ex_env ex_echo ex_dp with
  | Some (v1, s1) => match xdp ex_env ex_unk (x_dp s1) with
      | Some (v2, s2) => Some (v1, v2, alter (bumps (x_log s2)) 1%nat (alter (bumps (x_log s1)) 0%nat [cpu0; cpu0]))
      | None => None end
  | None => None end.
Example ex_processed : exists v1 v2 cpus d,
  processed (replicate 2 cpu0) ex_dp [(ex_env, ex_echo, v1); (ex_env, ex_unk, v2)] cpus d /\
  reported cpus (action (verdict_code v1)) = Some 1 /\ reported cpus rx_ip4 = Some 2 /\ reported cpus rx_gtp_echo = Some 1.
Proof.
  assert (H : (fun r : option (verdict * verdict * list percpu) => match r with Some (v1, v2, cpus) =>
    bool_decide (reported cpus (action (verdict_code v1)) = Some 1) && bool_decide (reported cpus rx_ip4 = Some 2) &&
    bool_decide (reported cpus rx_gtp_echo = Some 1) | None => false end) ex_run2 = true) by by vm_compute.
  unfold ex_run2 in H. destruct (xdp ex_env ex_echo ex_dp) as [[v1 s1]|] eqn:E1; [|discriminate H].
  destruct (xdp ex_env ex_unk (x_dp s1)) as [[v2 s2]|] eqn:E2; [|discriminate H].
  rewrite !andb_true_iff, !bool_decide_eq_true in H. destruct H as ((H1 & H2) & H3).
  exists v1, v2, (alter (bumps (x_log s2)) 1%nat (alter (bumps (x_log s1)) 0%nat [cpu0; cpu0])), (x_dp s2). split; [|auto].
  apply (processed_one _ _ [(ex_env, ex_echo, v1)] (alter (bumps (x_log s1)) 0%nat [cpu0; cpu0]) (x_dp s1) 1%nat ex_env ex_unk v2 s2); [|exact ex_env_ok|exact E2|].
  - apply (processed_one _ _ [] [cpu0; cpu0] ex_dp 0%nat ex_env ex_echo v1 s1); [constructor|exact ex_env_ok|exact E1|simpl; lia].
  - rewrite alter_length. simpl. lia.
Qed.
