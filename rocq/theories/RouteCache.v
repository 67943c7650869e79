(** C79: the optional route cache (build option ENABLE_ROUTE_CACHE, Dockerfile:16-19, README.md:240). *)
From Verif Require Import Base IdTracker ResourceManager SdfParser SdfProps MapOps SdfMatch Qer Csum Xdp XdpBase XdpProps XdpRules XdpFrames XdpEcho XdpEx Ping.
Open Scope N_scope.

(** ** Model *)

(** routing.h:56-60 [route_record], 62-69 [upf_route_cache_ip4]: the four bytes of the destination address in memory order; an
    LRU hash of 256 entries, which may forget any of them at an insertion. *)
Record route_record := RouteRecord { rr_if : N; rr_smac : list N; rr_dmac : list N }.
Notation cache := (gmap (list N) route_record).

(** routing.h:90-98 [do_route_ipv4] with the fields of a record. *)
Definition answer_of (r : route_record) : fib_answer := FibA 0 (rr_if r) (rr_smac r) (rr_dmac r).
Definition record_of (a : fib_answer) : route_record := RouteRecord (fa_if a) (fa_smac a) (fa_dmac a).

(** routing.h:100-154 [route_ipv4] with ENABLE_ROUTE_CACHE: the verdict, whether the cache was hit (:112, the counter
    fib_lookup_ip4_cache, which is not in [x_log]), and the insertion asked for (:80-87, :133-135). *)
Definition route_ipv4_cached (k : cache) (e : env) (eth ip4 : option nat) : M (verdict * bool * option (list N * route_record)) :=
  ip <- ptr ip4;;
  dst <- rd (ip + 16) 4;;
  match k !! dst with
  | Some r => v <- do_route e eth (answer_of r);; ret (v, true, None)
  | None =>
      tos <- rd1 (ip + 1);;
      proto <- rd1 (ip + 9);;
      len <- rd (ip + 2) 2;;
      src <- rd (ip + 12) 4;;
      let a := e_fib e (FibQ 2 tos proto (be_value len) src dst (e_if e)) in
      if fa_rc a =? 0 then inc fib4_ok;;; v <- do_route e eth a;; ret (v, false, Some (dst, record_of a))
      else if (fa_rc a =? 1) || (fa_rc a =? 2) || (fa_rc a =? 3) then inc fib4_drop;;; ret (DROP, false, None)
      else inc fib4_pass;;; ret (PASS, false, None)
  end.

(** The same program seen from outside: a routing table in which the cached destinations answer from the cache (IPv6 destinations
    are never cached: routing.h:156-204 has no cache). *)
Definition with_cache (k : cache) (e : env) : env :=
  Env (e_n3 e) (e_n9 e) (e_now_ul e) (e_now_dl e) (e_if e)
    (fun q => if (length (fq_dst q) =? 4)%nat then match k !! fq_dst q with Some r => answer_of r | None => e_fib e q end else e_fib e q)
    (e_head e) (e_diff e).
(** The cache after a packet: nothing but what was there and, at most, the answers of the routing table to a packet arriving now; any
    entry may be forgotten. *)
Definition refreshed (e : env) (k k' : cache) : Prop :=
  forall dst r, k' !! dst = Some r ->
    k !! dst = Some r \/ exists q, fq_dst q = dst /\ length dst = 4%nat /\ fa_rc (e_fib e q) = 0 /\ r = record_of (e_fib e q).
(** Packets one after another, each with the environment and the rules of its time. *)
Fixpoint cached_run (k : cache) (l : list (env * list N * dp)) (outs : list (option (verdict * list N * dp))) : Prop :=
  match l, outs with
  | [], [] => True
  | (e, f, d) :: l, o :: outs => o = Ping.outcome (xdp (with_cache k e) f d) /\ exists k', refreshed e k k' /\ cached_run k' l outs
  | _, _ => False
  end.

(** ** The two views agree: same verdict, frame and maps; what is inserted is an answer of the routing table *)
Lemma bind_ok {A B} (m : M A) (k : A -> M B) s a s' : m s = Some (a, s') -> bind m k s = k a s'.
Proof. intros H. unfold bind. by rewrite H. Qed.

Theorem cached_route_is :
  forall k e ip g d l, (ip + 20 <= length g)%nat -> (14 <= length g)%nat ->
    env_ok (with_cache k e) ->
    exists v hit ins g' l1 l2, route_ipv4_cached k e (Some 0%nat) (Some ip) (Xst g d l) = Some ((v, hit, ins), Xst g' d l1) /\
      route_ipv4 (with_cache k e) (Some 0%nat) (Some ip) (Xst g d l) = Some (v, Xst g' d l2) /\
      (hit = true <-> is_Some (k !! field g (ip + 16) 4)) /\
      (hit = true -> l1 = l /\ l2 = l ++ [fib4_ok]) /\ (hit = false -> l1 = l2) /\
      match ins with
      | Some (dst, r) => dst = field g (ip + 16) 4 /\ k !! dst = None /\
          exists q, fq_dst q = dst /\ length dst = 4%nat /\ fa_rc (e_fib e q) = 0 /\ r = record_of (e_fib e q)
      | None => hit = true \/ v = DROP \/ v = PASS
      end.
Proof.
  intros k e ip g d l Hi Hg He. set (e' := with_cache k e) in *. set (dst := field g (ip + 16) 4).
  assert (Ld : length dst = 4%nat) by (unfold dst, field; rewrite take_length, drop_length; lia).
  unfold route_ipv4_cached, route_ipv4. rewrite !bind_ptr. rewrite bind_rd by (cbn [x_f]; lia). cbn [x_f]. fold dst.
  rewrite !(bind_rd1 (ip + 1)) by (cbn [x_f]; lia). rewrite !(bind_rd1 (ip + 9)) by (cbn [x_f]; lia). rewrite !(bind_rd (ip + 2)) by (cbn [x_f]; lia).
  rewrite !(bind_rd (ip + 12)) by (cbn [x_f]; lia). rewrite !(bind_rd (ip + 16)) by (cbn [x_f]; lia). cbn [x_f]. fold dst. cbv zeta.
  set (q := FibQ 2 (byte g (ip + 1)) (byte g (ip + 9)) (be_value (field g (ip + 2) 2)) (field g (ip + 12) 4) dst (e_if e)).
  change (FibQ 2 (byte g (ip + 1)) (byte g (ip + 9)) (be_value (field g (ip + 2) 2)) (field g (ip + 12) 4) dst (e_if e')) with q.
  assert (Hq : e_fib e' q = match k !! dst with Some r => answer_of r | None => e_fib e q end).
  { unfold e', with_cache. cbn [e_fib]. change (fq_dst q) with dst. by rewrite Ld. }
  destruct (k !! dst) as [r|] eqn:Ek.
  - rewrite Hq. change (fa_rc (answer_of r) =? 0) with true. cbn iota. rewrite bind_inc. cbn [x_f x_dp x_log].
    assert (D : forall l, do_route e' (Some 0%nat) (answer_of r) (Xst g d l) =
      Some (if (rr_if r =? e_if e) then TX else REDIRECT (rr_if r), Xst (new_macs (answer_of r) g) d l)).
    { intros l0. rewrite <- Hq. rewrite (do_route_eq e' He) by done. rewrite Hq. done. }
    rewrite (bind_ok (do_route e (Some 0%nat) (answer_of r)) _ _ _ _ (D l)). rewrite D. unfold ret.
    eexists _, true, None, _, _, _. split; [reflexivity|]. split; [reflexivity|]. split; [split; eauto|]. split; [done|]. split; [done|]. by left.
  - rewrite (bind_rd1 (ip + 1)) by (cbn [x_f]; lia). rewrite (bind_rd1 (ip + 9)) by (cbn [x_f]; lia). rewrite (bind_rd (ip + 2)) by (cbn [x_f]; lia).
    rewrite (bind_rd (ip + 12)) by (cbn [x_f]; lia). cbn [x_f]. fold q.
    rewrite Hq. destruct (fa_rc (e_fib e q) =? 0) eqn:Er; [|destruct (_ || _) eqn:Eb].
    + rewrite !bind_inc. cbn [x_f x_dp x_log].
      assert (D : do_route e' (Some 0%nat) (e_fib e q) (Xst g d (l ++ [fib4_ok])) =
        Some (if (fa_if (e_fib e q) =? e_if e) then TX else REDIRECT (fa_if (e_fib e q)), Xst (new_macs (e_fib e q) g) d (l ++ [fib4_ok]))).
      { rewrite <- Hq. rewrite (do_route_eq e' He) by done. done. }
      rewrite (bind_ok (do_route e (Some 0%nat) (e_fib e q)) _ _ _ _ D). rewrite D. unfold ret.
      eexists _, false, (Some (dst, _)), _, _, _. split; [reflexivity|]. split; [reflexivity|].
      split; [split; [done|intros [? ?]; done]|]. split; [done|]. split; [done|]. split; [done|]. split; [done|].
      exists q. split; [done|]. split; [done|]. split; [by apply N.eqb_eq|done].
    + rewrite !bind_inc. unfold ret. eexists _, false, None, _, _, _. split; [reflexivity|]. split; [reflexivity|].
      split; [split; [done|intros [? ?]; done]|]. split; [done|]. split; [done|]. right. by left.
    + rewrite !bind_inc. unfold ret. eexists _, false, None, _, _, _. split; [reflexivity|]. split; [reflexivity|].
      split; [split; [done|intros [? ?]; done]|]. split; [done|]. split; [done|]. right. by right.
Qed.

(** ** The program depends on the answers of the routing table only *)
Definition set_fib (F : fib_query -> fib_answer) (e : env) : env := Env (e_n3 e) (e_n9 e) (e_now_ul e) (e_now_dl e) (e_if e) F (e_head e) (e_diff e).
Definition eqM {A} (m m' : M A) : Prop := forall s, m s = m' s.
Lemma eqM_refl {A} (m : M A) : eqM m m. Proof. done. Qed.
Lemma eqM_bind {A B} (m m' : M A) (k k' : A -> M B) : eqM m m' -> (forall a, eqM (k a) (k' a)) -> eqM (bind m k) (bind m' k').
Proof. intros H Hk s. unfold bind. rewrite H. destruct (m' s) as [[a s']|]; [apply Hk|done]. Qed.
Section ext.
Context (F G : fib_query -> fib_answer) (HFG : forall q, F q = G q).
Ltac ext_with known := repeat first
  [ match goal with |- eqM ?a ?a => exact (eqM_refl a) end
  | known
  | match goal with |- eqM (bind _ _) (bind _ _) => apply eqM_bind; [|intros ?] end
  | match goal with |- eqM (match ?x with _ => _ end) (match ?x with _ => _ end) => destruct x end ].
Lemma route4_ext e eth ip : eqM (route_ipv4 (set_fib F e) eth ip) (route_ipv4 (set_fib G e) eth ip).
Proof.
  unfold route_ipv4. do 6 (apply eqM_bind; [apply eqM_refl|intros ?]). cbn [e_fib set_fib e_if]. rewrite HFG. apply eqM_refl.
Qed.
Lemma route6_ext e eth ip : eqM (route_ipv6 (set_fib F e) eth ip) (route_ipv6 (set_fib G e) eth ip).
Proof.
  unfold route_ipv6. do 5 (apply eqM_bind; [apply eqM_refl|intros ?]). cbn [e_fib set_fib e_if]. rewrite HFG. apply eqM_refl.
Qed.
Lemma add_ext e c a b t q i : add_gtp_over_ip4_headers (set_fib F e) c a b t q i = add_gtp_over_ip4_headers (set_fib G e) c a b t q i.
Proof. reflexivity. Qed.
Lemma n6_forward_ext e c p x y : eqM (n6_forward (set_fib F e) c p x y) (n6_forward (set_fib G e) c p x y).
Proof.
  unfold n6_forward, send_to_gtp_tunnel. change (e_now_dl (set_fib F e)) with (e_now_dl e). change (e_now_dl (set_fib G e)) with (e_now_dl e).
  change (e_n3 (set_fib F e)) with (e_n3 e). change (e_n3 (set_fib G e)) with (e_n3 e).
  ext_with ltac:(idtac; match goal with |- eqM (route_ipv4 _ _ _) _ => apply route4_ext | |- eqM (add_gtp_over_ip4_headers _ _ _ _ _ _ _) _ => rewrite add_ext end).
Qed.
Lemma n6_ext4 e c : eqM (handle_n6_packet_ipv4 (set_fib F e) c) (handle_n6_packet_ipv4 (set_fib G e) c).
Proof. unfold handle_n6_packet_ipv4. ext_with ltac:(idtac; match goal with |- eqM (n6_forward _ _ _ _ _) _ => apply n6_forward_ext end). Qed.
Lemma n6_ext6 e c : eqM (handle_n6_packet_ipv6 (set_fib F e) c) (handle_n6_packet_ipv6 (set_fib G e) c).
Proof. unfold handle_n6_packet_ipv6. ext_with ltac:(idtac; match goal with |- eqM (n6_forward _ _ _ _ _) _ => apply n6_forward_ext end). Qed.
Lemma local_ext e x : is_local_ip (set_fib F e) x = is_local_ip (set_fib G e) x.
Proof. reflexivity. Qed.
Lemma n3_deliver_ext e c : eqM (n3_deliver (set_fib F e) c) (n3_deliver (set_fib G e) c).
Proof.
  unfold n3_deliver. ext_with ltac:(idtac; match goal with |- eqM (route_ipv4 _ _ _) _ => apply route4_ext | |- eqM (route_ipv6 _ _ _) _ => apply route6_ext
    | |- eqM (handle_n6_packet_ipv4 _ _) _ => apply n6_ext4 | |- eqM (if is_local_ip (set_fib F _) _ then _ else _) _ => rewrite local_ext end).
Qed.
Lemma tunnel_ext e c a b t : update_gtp_tunnel (set_fib F e) c a b t = update_gtp_tunnel (set_fib G e) c a b t.
Proof. reflexivity. Qed.
Lemma n3_forward_ext e c p x y z : eqM (n3_forward (set_fib F e) c p x y z) (n3_forward (set_fib G e) c p x y z).
Proof.
  unfold n3_forward. change (e_now_ul (set_fib F e)) with (e_now_ul e). change (e_now_ul (set_fib G e)) with (e_now_ul e).
  change (e_n9 (set_fib F e)) with (e_n9 e). change (e_n9 (set_fib G e)) with (e_n9 e).
  ext_with ltac:(idtac; match goal with |- eqM (n3_deliver _ _) _ => apply n3_deliver_ext | |- eqM (update_gtp_tunnel _ _ _ _ _) _ => rewrite tunnel_ext end).
Qed.
Lemma gtp_ext e c : eqM (handle_gtp_packet (set_fib F e) c) (handle_gtp_packet (set_fib G e) c).
Proof. unfold handle_gtp_packet. cbv zeta. ext_with ltac:(idtac; match goal with |- eqM (n3_forward _ _ _ _ _ _) _ => apply n3_forward_ext end). Qed.
Lemma echo_ext e c : handle_echo_request (set_fib F e) c = handle_echo_request (set_fib G e) c.
Proof. reflexivity. Qed.
Lemma gtpu_ext e c : eqM (handle_gtpu (set_fib F e) c) (handle_gtpu (set_fib G e) c).
Proof.
  unfold handle_gtpu. ext_with ltac:(idtac; match goal with |- eqM (handle_gtp_packet _ _) _ => apply gtp_ext | |- eqM (handle_echo_request _ _) _ => rewrite echo_ext end).
Qed.
Lemma ip4_ext e c : eqM (handle_ip4 (set_fib F e) c) (handle_ip4 (set_fib G e) c).
Proof.
  unfold handle_ip4. ext_with ltac:(idtac; match goal with |- eqM (handle_gtpu _ _) _ => apply gtpu_ext | |- eqM (handle_n6_packet_ipv4 _ _) _ => apply n6_ext4
    | |- eqM (ret (is_local_ip (set_fib F _) _)) _ => rewrite local_ext end).
Qed.
Lemma ip6_ext e c : eqM (handle_ip6 (set_fib F e) c) (handle_ip6 (set_fib G e) c).
Proof. unfold handle_ip6. ext_with ltac:(idtac; match goal with |- eqM (handle_n6_packet_ipv6 _ _) _ => apply n6_ext6 end). Qed.
Lemma process_ext e c : eqM (process_packet (set_fib F e) c) (process_packet (set_fib G e) c).
Proof.
  unfold process_packet. cbv zeta. ext_with ltac:(idtac; match goal with |- eqM (handle_ip4 _ _) _ => apply ip4_ext | |- eqM (handle_ip6 _ _) _ => apply ip6_ext end).
Qed.
Lemma xdp_ext e f d : xdp (set_fib F e) f d = xdp (set_fib G e) f d.
Proof. unfold xdp, entrypoint. apply (eqM_bind (process_packet (set_fib F e) ctx0)); [apply process_ext|]. intros a. apply eqM_refl. Qed.
End ext.

(** ** C79 *)
(** The routing table, over the whole history: whoever sends it and whenever it comes, a packet to an address that has a route takes
    the same one. *)
Definition stable (l : list (env * list N * dp)) : Prop :=
  forall x1 x2 q1 q2, x1 ∈ l -> x2 ∈ l -> fq_dst q1 = fq_dst q2 -> length (fq_dst q1) = 4%nat ->
    fa_rc (e_fib x1.1.1 q1) = 0 -> e_fib x2.1.1 q2 = e_fib x1.1.1 q1.

Lemma answer_record a : fa_rc a = 0 -> answer_of (record_of a) = a.
Proof. destruct a. cbn. by intros ->. Qed.

(** With such a routing table the cache changes nothing: every packet is treated as the program without a cache treats it. *)
Theorem route_cache_transparent_partial :
  forall l outs, stable l -> cached_run ∅ l outs -> outs = (fun x => Ping.outcome (xdp x.1.1 x.1.2 x.2)) <$> l.
Proof.
  intros l outs Hs.
  assert (G : forall l', (forall x, x ∈ l' -> x ∈ l) -> forall k outs,
    (forall dst r, k !! dst = Some r -> forall x q, x ∈ l -> fq_dst q = dst -> length dst = 4%nat -> e_fib x.1.1 q = answer_of r) ->
    cached_run k l' outs -> outs = (fun x => Ping.outcome (xdp x.1.1 x.1.2 x.2)) <$> l').
  { induction l' as [|[[e f] d] l' IH]; intros Hl k os Hk H; destruct os as [|o os]; cbn [cached_run] in H; try done.
    destruct H as [-> (k' & Hr & H)]. rewrite fmap_cons. cbn [fst snd].
    assert (E1 : xdp (with_cache k e) f d = xdp e f d).
    { transitivity (xdp (set_fib (e_fib e) e) f d); [|destruct e; reflexivity].
      refine (xdp_ext (e_fib (with_cache k e)) (e_fib e) _ e f d). intros q. unfold with_cache. cbn [e_fib].
      destruct (length (fq_dst q) =? 4)%nat eqn:E; [|done]. destruct (k !! fq_dst q) as [r|] eqn:Er; [|done].
      symmetry. apply (Hk _ _ Er (e, f, d)); [apply Hl; by left|done|by apply Nat.eqb_eq]. }
    rewrite E1. apply (f_equal2 cons); [reflexivity|]. apply (IH (fun x Hx => Hl x (elem_of_list_further _ _ _ Hx)) k'); [|exact H].
      clear E1 H. intros dst r Hd x q Hx Hq L. destruct (Hr _ _ Hd) as [Ho|(q0 & E0 & L0 & Hc & ->)]; [by apply (Hk _ _ Ho)|].
      rewrite answer_record by done. apply (Hs (e, f, d) x q0 q); try done; [apply Hl; by left|congruence|by rewrite E0]. }
  apply (G l); [done|]. intros dst r H. by apply lookup_empty_Some in H.
Qed.

(** Without that it is not so: a destination in the cache is never looked up again, whatever the routing table has become. *)
Theorem cached_never_looked_up :
  forall k e F eth ip g d l, is_Some (k !! field g (ip + 16) 4) ->
    route_ipv4_cached k (set_fib F e) eth (Some ip) (Xst g d l) = route_ipv4_cached k e eth (Some ip) (Xst g d l).
Proof.
  intros k e F eth ip g d l [r Hr]. unfold route_ipv4_cached. rewrite !bind_ptr. unfold bind, rd. cbn [x_f].
  destruct (ip + 16 + 4 <=? length g)%nat; [|done]. rewrite Hr. done.
Qed.
(** The next hop goes away after the first packet; the second is sent to it all the same, though the table now says that the
    destination is unreachable. *)
Definition ex_gone : env := set_fib (fun _ => FibA 2 0 (repeat 0 6) (repeat 0 6)) ex_env.
Definition ex_dst : list N := [8; 8; 8; 8].
(** That is how the second packet sees the routing table. *)
Definition ex_kept : env := set_fib (fun q => if bool_decide (fq_dst q = ex_dst) then ex_fib q else FibA 2 0 (repeat 0 6) (repeat 0 6)) ex_env.
Definition ex_sent (r : option (verdict * xst)) : bool := match r with Some (REDIRECT i, _) => i =? 7 | _ => false end.
Definition ex_dropped (r : option (verdict * xst)) : bool := match r with Some (DROP, _) => true | _ => false end.
Lemma ex_sent_inv r : ex_sent r = true -> exists g d, Ping.outcome r = Some (REDIRECT 7, g, d).
Proof. destruct r as [[[| | | |i] s]|]; cbn; try discriminate. intros H. apply N.eqb_eq in H as ->. eauto. Qed.
Lemma ex_dropped_inv r : ex_dropped r = true -> exists g d, Ping.outcome r = Some (DROP, g, d).
Proof. destruct r as [[[| | | |i] s]|]; cbn; try discriminate. eauto. Qed.
Lemma ex_sent1 : ex_sent (xdp ex_env ex_up ex_dp) = true. Proof. by vm_compute. Qed.
Lemma ex_sent2 : ex_sent (xdp ex_kept ex_up ex_dp) = true. Proof. by vm_compute. Qed.
Lemma ex_dropped2 : ex_dropped (xdp ex_gone ex_up ex_dp) = true. Proof. by vm_compute. Qed.
Theorem route_cache_transparent_refuted :
  exists g1 d1 g2 d2 g3 d3, cached_run ∅ [(ex_env, ex_up, ex_dp); (ex_gone, ex_up, ex_dp)] [Some (REDIRECT 7, g1, d1); Some (REDIRECT 7, g2, d2)] /\
    env_ok ex_env /\ env_ok ex_gone /\ Ping.outcome (xdp ex_gone ex_up ex_dp) = Some (DROP, g3, d3).
Proof.
  pose (k := {[ ex_dst := record_of (ex_fib (FibQ 2 0 0 0 [] ex_dst 3)) ]} : cache).
  assert (E1 : xdp (with_cache ∅ ex_env) ex_up ex_dp = xdp ex_env ex_up ex_dp).
  { refine (xdp_ext (e_fib (with_cache ∅ ex_env)) (e_fib ex_env) _ ex_env ex_up ex_dp). intros q. unfold with_cache. cbn [e_fib].
    rewrite lookup_empty. by destruct (_ =? _)%nat. }
  assert (E2 : xdp (with_cache k ex_gone) ex_up ex_dp = xdp ex_kept ex_up ex_dp).
  { refine (xdp_ext (e_fib (with_cache k ex_gone)) (e_fib ex_kept) _ ex_gone ex_up ex_dp). intros q. unfold with_cache, ex_kept, ex_gone, set_fib, k. cbn [e_fib].
    destruct (bool_decide_reflect (fq_dst q = ex_dst)) as [->|Hn].
    - rewrite lookup_singleton. reflexivity.
    - rewrite lookup_singleton_ne by congruence. by destruct (_ =? _)%nat. }
  destruct (ex_sent_inv _ ex_sent1) as (g1 & d1 & S1). rewrite <- E1 in S1. destruct (ex_sent_inv _ ex_sent2) as (g2 & d2 & S2). rewrite <- E2 in S2.
  destruct (ex_dropped_inv _ ex_dropped2) as (g3 & d3 & S3). clear E1 E2.
  exists g1, d1, g2, d2, g3, d3. split; [|split; [exact ex_env_ok|split; [|exact S3]]].
  - cbn [cached_run]. split; [symmetry; exact S1|]. exists k. split.
    { clear S1 S2 S3. intros dst' r H. apply lookup_singleton_Some in H as [<- <-]. right. exists (FibQ 2 0 0 0 [] ex_dst 3). split; [reflexivity|]. split; [reflexivity|]. split; reflexivity. }
    split; [symmetry; exact S2|]. exists ∅. split; [|exact I]. clear S1 S2 S3. intros dst' r H. by apply lookup_empty_Some in H.
  - clear S1 S2 S3. destruct ex_env_ok. split; try assumption. intros q. cbn. split; (split; [reflexivity|]); repeat constructor.
Qed.
