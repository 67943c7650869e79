(** Reasoning about the packet processing program; the views of a frame used in the statements;
    C49 (no access outside the frame). *)
From Verif Require Import Base IdTracker SdfParser SdfProps MapOps SdfMatch Pfcp Qer Csum Xdp.
Open Scope nat_scope.

(** ** Environment assumptions: what the kernel guarantees about its answers. *)
Record env_ok (e : env) : Prop := {
  ok_n3 : bytes 4 (e_n3 e);
  ok_n9 : bytes 4 (e_n9 e);
  ok_fib : forall q, bytes 6 (fa_smac (e_fib e q)) /\ bytes 6 (fa_dmac (e_fib e q));
  ok_head : forall h, e_head e = Some h -> bytes 44 h;
  ok_diff : diff_ok (e_diff e) }.

(** ** Step lemmas *)
Lemma bind_assoc {A B C} (m : M A) (f : A -> M B) (k : B -> M C) s :
  bind (bind m f) k s = bind m (fun a => bind (f a) k) s.
Proof. unfold bind. destruct (m s) as [[? ?]|]; done. Qed.
Lemma bind_ret {A B} (a : A) (k : A -> M B) s : bind (ret a) k s = k a s.
Proof. done. Qed.
Lemma bind_fits {B} o n (k : bool -> M B) s : bind (fits o n) k s = k (o + n <=? length (x_f s)) s.
Proof. done. Qed.
Lemma bind_rd {B} o n (k : list N -> M B) s : o + n <= length (x_f s) ->
  bind (rd o n) k s = k (field (x_f s) o n) s.
Proof. intros H. unfold bind, rd. apply Nat.leb_le in H. by rewrite H. Qed.
Lemma bind_rd1 {B} o (k : N -> M B) s : o + 1 <= length (x_f s) ->
  bind (rd1 o) k s = k (byte (x_f s) o) s.
Proof. intros H. unfold bind, rd1. apply Nat.leb_le in H. by rewrite H. Qed.
Lemma bind_wr {B} o l (k : unit -> M B) s : o + length l <= length (x_f s) ->
  bind (wr o l) k s = k tt (Xst (patch (x_f s) o l) (x_dp s) (x_log s)).
Proof. intros H. unfold bind, wr. apply Nat.leb_le in H. by rewrite H. Qed.
Lemma wr_eq o l s : o + length l <= length (x_f s) ->
  wr o l s = Some (tt, Xst (patch (x_f s) o l) (x_dp s) (x_log s)).
Proof. intros H. unfold wr. apply Nat.leb_le in H. by rewrite H. Qed.
Lemma bind_ptr {B} o (k : nat -> M B) s : bind (ptr (Some o)) k s = k o s.
Proof. done. Qed.
Lemma bind_inc {B} c (k : unit -> M B) s : bind (inc c) k s = k tt (Xst (x_f s) (x_dp s) (x_log s ++ [c])).
Proof. done. Qed.
Lemma bind_get_dp {B} (k : dp -> M B) s : bind get_dp k s = k (x_dp s) s.
Proof. done. Qed.
Lemma bind_frame_len {B} (k : N -> M B) s : bind frame_len k s = k (N.of_nat (length (x_f s))) s.
Proof. done. Qed.
Lemma bind_put_dp {B} d (k : unit -> M B) s : bind (put_dp d) k s = k tt (Xst (x_f s) d (x_log s)).
Proof. done. Qed.

Lemma patch_length f o l : o + length l <= length f -> length (patch f o l) = length f.
Proof. intros H. unfold patch. rewrite !app_length, take_length, drop_length. lia. Qed.
Lemma field_length f o n : o + n <= length f -> length (field f o n) = n.
Proof. intros H. unfold field. rewrite take_length, drop_length. lia. Qed.
Lemma be16_length v : length (be16 v) = 2.
Proof. done. Qed.

(** ** Weakest preconditions *)
Definition wp {A} (m : M A) (Q : A -> xst -> Prop) (s : xst) : Prop :=
  match m s with Some (a, s') => Q a s' | None => False end.

Lemma wp_bind {A B} (m : M A) (k : A -> M B) Q s :
  wp m (fun a s' => wp (k a) Q s') s -> wp (bind m k) Q s.
Proof. unfold wp, bind. destruct (m s) as [[? ?]|]; done. Qed.
Lemma wp_mono {A} (m : M A) (Q R : A -> xst -> Prop) s :
  wp m Q s -> (forall a s', Q a s' -> R a s') -> wp m R s.
Proof. unfold wp. destruct (m s) as [[? ?]|]; auto. Qed.
Lemma wp_ret {A} (a : A) (Q : A -> xst -> Prop) s : Q a s -> wp (ret a) Q s.
Proof. done. Qed.
Lemma wp_rd o n (Q : list N -> xst -> Prop) s : o + n <= length (x_f s) -> Q (field (x_f s) o n) s -> wp (rd o n) Q s.
Proof. intros H. unfold wp, rd. apply Nat.leb_le in H. by rewrite H. Qed.
Lemma wp_rd1 o (Q : N -> xst -> Prop) s : o + 1 <= length (x_f s) -> Q (byte (x_f s) o) s -> wp (rd1 o) Q s.
Proof. intros H. unfold wp, rd1. apply Nat.leb_le in H. by rewrite H. Qed.
Lemma wp_wr o l (Q : unit -> xst -> Prop) s : o + length l <= length (x_f s) ->
  Q tt (Xst (patch (x_f s) o l) (x_dp s) (x_log s)) -> wp (wr o l) Q s.
Proof. intros H. unfold wp, wr. apply Nat.leb_le in H. by rewrite H. Qed.
Lemma wp_fits o n (Q : bool -> xst -> Prop) s :
  (o + n <= length (x_f s) -> Q true s) -> (length (x_f s) < o + n -> Q false s) -> wp (fits o n) Q s.
Proof. intros H1 H2. unfold wp, fits. destruct (Nat.leb_spec (o + n) (length (x_f s))); auto. Qed.
Lemma wp_inc c (Q : unit -> xst -> Prop) s : Q tt (Xst (x_f s) (x_dp s) (x_log s ++ [c])) -> wp (inc c) Q s.
Proof. done. Qed.
Lemma wp_get_dp (Q : dp -> xst -> Prop) s : Q (x_dp s) s -> wp get_dp Q s.
Proof. done. Qed.
Lemma wp_put_dp d (Q : unit -> xst -> Prop) s : Q tt (Xst (x_f s) d (x_log s)) -> wp (put_dp d) Q s.
Proof. done. Qed.
Lemma wp_frame_len (Q : N -> xst -> Prop) s : Q (N.of_nat (length (x_f s))) s -> wp frame_len Q s.
Proof. done. Qed.

(** ** No fault *)

(** Pointers of a context point at complete headers inside a frame of [n] bytes. *)
Definition at_least (n k : nat) (p : option nat) : Prop := match p with Some o => o + k <= n | None => True end.
Record ctx_ok (n : nat) (c : pctx) : Prop := {
  c_eth : at_least n 14 (p_eth c); c_ip4 : at_least n 20 (p_ip4 c); c_ip6 : at_least n 40 (p_ip6 c);
  c_udp : at_least n 8 (p_udp c); c_tcp : at_least n 20 (p_tcp c); c_gtp : at_least n 8 (p_gtp c) }.

(** What processing a packet may do besides changing the frame: move rate limiter marks and URR counters
    in the data plane (an event [Traffic] of Pfcp.v), and count. *)
Definition moved (d d' : dp) : Prop := exists marks volumes, d' = traffic marks volumes d.
Definition tx_counter (c : counter) : Prop :=
  match c with
  | tx_n3 | tx_n6 | fib4_ok | fib4_drop | fib4_pass | fib6_ok | fib6_drop | fib6_pass => True
  | _ => False
  end.
Definition ok (s s' : xst) : Prop :=
  moved (x_dp s) (x_dp s') /\ exists l, x_log s' = x_log s ++ l /\ Forall tx_counter l.

Lemma touch_empty {A} z f (m : gmap N A) : touch z f ∅ m = m.
Proof. apply map_eq. intros k. unfold touch. rewrite lookup_merge, lookup_empty. unfold diag_None. by destruct (m !! k). Qed.
Lemma touch_touch {A} z (f : N * N -> A -> A) n1 n2 (m : gmap N A) :
  (forall v1 v2 x, f v2 (f v1 x) = f v2 x) -> touch z f n2 (touch z f n1 m) = touch z f (n2 ∪ n1) m.
Proof.
  intros Hf. apply map_eq. intros k. unfold touch. rewrite !lookup_merge. rewrite lookup_union.
  unfold diag_None. destruct (n2 !! k), (n1 !! k), (m !! k); simpl; by rewrite ?Hf.
Qed.
Lemma touch_insert {A} z (f : N * N -> A -> A) k v (m : gmap N A) :
  touch z f {[k := v]} m = <[k := f v (default z (m !! k))]> m.
Proof.
  apply map_eq. intros j. unfold touch. rewrite lookup_merge. destruct (decide (j = k)) as [->|Hne].
  - by rewrite lookup_singleton, lookup_insert.
  - rewrite lookup_singleton_ne, lookup_insert_ne by done. unfold diag_None. by destruct (m !! j).
Qed.
Lemma moved_refl d : moved d d.
Proof. exists ∅, ∅. unfold traffic. rewrite !touch_empty. by destruct d. Qed.
Lemma moved_trans d1 d2 d3 : moved d1 d2 -> moved d2 d3 -> moved d1 d3.
Proof.
  intros (m1 & v1 & ->) (m2 & v2 & ->). exists (m2 ∪ m1), (v2 ∪ v1). unfold traffic, set_urr, set_qer. simpl.
  by rewrite !touch_touch.
Qed.
Lemma moved_urr d id u : urr_get d id <> None ->
  forall a b, u = Urr a b -> moved d (set_urr (<[id := u]> (d_urr d)) d).
Proof.
  intros _ a b ->. exists ∅, {[id := (a, b)]}. unfold traffic. rewrite touch_empty, touch_insert. by destruct d.
Qed.
Lemma moved_qer d id q a b : qer_get d id = Some q ->
  moved d (set_qer (<[id := traffic_qer (a, b) q]> (d_qer d)) d).
Proof.
  unfold qer_get, arr_get. destruct (_ <? _)%N; [|done]. intros [= <-].
  exists {[id := (a, b)]}, ∅. unfold traffic. rewrite touch_empty, touch_insert. by destruct d.
Qed.
Lemma ok_refl s : ok s s.
Proof. split; [apply moved_refl|]. exists []. by rewrite app_nil_r. Qed.
Lemma ok_trans s1 s2 s3 : ok s1 s2 -> ok s2 s3 -> ok s1 s3.
Proof.
  intros [H1 (l1 & E1 & F1)] [H2 (l2 & E2 & F2)]. split; [by eapply moved_trans|].
  exists (l1 ++ l2). rewrite E2, E1, app_assoc. split; [done|]. by apply Forall_app.
Qed.
Lemma ok_frame f s : ok s (Xst f (x_dp s) (x_log s)).
Proof. split; [apply moved_refl|]. exists []. by rewrite app_nil_r. Qed.
Lemma ok_count f s c : tx_counter c -> ok s (Xst f (x_dp s) (x_log s ++ [c])).
Proof. intros H. split; [apply moved_refl|]. exists [c]. split; [done|]. by constructor. Qed.
Lemma ok_dp f s d : moved (x_dp s) d -> ok s (Xst f d (x_log s)).
Proof. intros H. split; [done|]. exists []. by rewrite app_nil_r. Qed.

Section nofault.
Context (e : env) (He : env_ok e).

Lemma parse_ethernet_nf c s : ctx_ok (length (x_f s)) c ->
  wp (parse_ethernet c) (fun r s' => s' = s /\ ctx_ok (length (x_f s)) r.2 /\
     p_ip4 r.2 = p_ip4 c /\ p_ip6 r.2 = p_ip6 c /\ p_udp r.2 = p_udp c /\ p_tcp r.2 = p_tcp c /\ p_gtp r.2 = p_gtp c /\
     (r.1 <> None -> is_Some (p_eth r.2))) s.
Proof.
  intros Hc. unfold parse_ethernet. apply wp_bind, wp_fits; intros H; [|by apply wp_ret].
  apply wp_bind, wp_rd; [lia|]. apply wp_ret. simpl. split_and!; try done. destruct Hc. by split.
Qed.
Lemma parse_ip4_nf c s : ctx_ok (length (x_f s)) c ->
  wp (parse_ip4 c) (fun r s' => s' = s /\ ctx_ok (length (x_f s)) r.2 /\
     p_eth r.2 = p_eth c /\ p_ip6 r.2 = p_ip6 c /\ p_udp r.2 = p_udp c /\ p_tcp r.2 = p_tcp c /\ p_gtp r.2 = p_gtp c /\
     (r.1 <> None -> is_Some (p_ip4 r.2))) s.
Proof.
  intros Hc. unfold parse_ip4. apply wp_bind, wp_fits; intros H; [|by apply wp_ret].
  apply wp_bind, wp_rd1; [lia|]. apply wp_bind, wp_rd1; [lia|]. apply wp_ret. simpl. split_and!; try done. destruct Hc. by split.
Qed.
Lemma parse_ip6_nf c s : ctx_ok (length (x_f s)) c ->
  wp (parse_ip6 c) (fun r s' => s' = s /\ ctx_ok (length (x_f s)) r.2 /\
     p_eth r.2 = p_eth c /\ p_ip4 r.2 = p_ip4 c /\ p_udp r.2 = p_udp c /\ p_tcp r.2 = p_tcp c /\ p_gtp r.2 = p_gtp c /\
     (r.1 <> None -> is_Some (p_ip6 r.2))) s.
Proof.
  intros Hc. unfold parse_ip6. apply wp_bind, wp_fits; intros H; [|by apply wp_ret].
  apply wp_bind, wp_rd1; [lia|]. apply wp_ret. simpl. split_and!; try done. destruct Hc. by split.
Qed.
Lemma parse_udp_nf c s : ctx_ok (length (x_f s)) c ->
  wp (parse_udp c) (fun r s' => s' = s /\ ctx_ok (length (x_f s)) r.2 /\
     p_eth r.2 = p_eth c /\ p_ip4 r.2 = p_ip4 c /\ p_ip6 r.2 = p_ip6 c /\ p_tcp r.2 = p_tcp c /\ p_gtp r.2 = p_gtp c /\
     (r.1 <> None -> is_Some (p_udp r.2))) s.
Proof.
  intros Hc. unfold parse_udp. apply wp_bind, wp_fits; intros H; [|by apply wp_ret].
  apply wp_bind, wp_rd; [lia|]. apply wp_ret. simpl. split_and!; try done. destruct Hc. by split.
Qed.
Lemma parse_tcp_nf c s : ctx_ok (length (x_f s)) c ->
  wp (parse_tcp c) (fun r s' => s' = s /\ ctx_ok (length (x_f s)) r.2 /\
     p_eth r.2 = p_eth c /\ p_ip4 r.2 = p_ip4 c /\ p_ip6 r.2 = p_ip6 c /\ p_udp r.2 = p_udp c /\ p_gtp r.2 = p_gtp c) s.
Proof.
  intros Hc. unfold parse_tcp. apply wp_bind, wp_fits; intros H; [|by apply wp_ret].
  apply wp_bind, wp_rd; [lia|]. apply wp_ret. simpl. split_and!; try done. destruct Hc. by split.
Qed.
Lemma parse_l4_nf proto c s : ctx_ok (length (x_f s)) c ->
  wp (parse_l4 proto c) (fun r s' => s' = s /\ ctx_ok (length (x_f s)) r.2 /\
     p_eth r.2 = p_eth c /\ p_ip4 r.2 = p_ip4 c /\ p_ip6 r.2 = p_ip6 c) s.
Proof.
  intros Hc. unfold parse_l4. destruct (_ =? _)%N; [|destruct (_ =? _)%N].
  - eapply wp_mono; [by apply parse_udp_nf|]. simpl. intros a s' H. destruct_and!. by split_and!.
  - eapply wp_mono; [by apply parse_tcp_nf|]. simpl. intros a s' H. destruct_and!. by split_and!.
  - by apply wp_ret.
Qed.

Lemma sdf_ports_nf c s : ctx_ok (length (x_f s)) c -> wp (sdf_ports c) (fun _ s' => s' = s) s.
Proof.
  intros Hc. destruct Hc as [_ _ _ Hu Ht _]. unfold sdf_ports. destruct (p_udp c), (p_tcp c); simpl in *.
  - apply wp_bind, wp_rd; [lia|]. apply wp_bind, wp_rd; [lia|]. done.
  - apply wp_bind, wp_rd; [lia|]. apply wp_bind, wp_rd; [lia|]. done.
  - apply wp_bind, wp_rd; [lia|]. apply wp_bind, wp_rd; [lia|]. done.
  - by apply wp_ret.
Qed.
Lemma match_sdf4_nf c flt s : ctx_ok (length (x_f s)) c -> wp (match_sdf4 c flt) (fun _ s' => s' = s) s.
Proof.
  intros Hc. unfold match_sdf4. destruct (p_ip4 c) as [ip|] eqn:Ei; [|by apply wp_ret].
  pose proof (c_ip4 _ _ Hc) as Hi. rewrite Ei in Hi. simpl in Hi.
  apply wp_bind, wp_rd1; [lia|]. apply wp_bind. eapply wp_mono; [by apply sdf_ports_nf|]. simpl. intros ? s' ->.
  apply wp_bind, wp_rd; [lia|]. apply wp_bind, wp_rd; [lia|]. done.
Qed.
Lemma match_sdf6_nf c flt s : ctx_ok (length (x_f s)) c -> is_Some (p_ip6 c) -> wp (match_sdf6 c flt) (fun _ s' => s' = s) s.
Proof.
  intros Hc [ip Ei]. unfold match_sdf6. rewrite Ei. apply wp_bind. simpl.
  pose proof (c_ip6 _ _ Hc) as Hi. rewrite Ei in Hi. simpl in Hi. unfold wp at 1; simpl.
  apply wp_bind, wp_rd1; [lia|]. apply wp_bind, wp_rd; [lia|]. apply wp_bind, wp_rd; [lia|].
  apply wp_bind. eapply wp_mono; [by apply sdf_ports_nf|]. simpl. intros ? s' ->. done.
Qed.

Lemma mac_len q : length (fa_smac (e_fib e q)) = 6 /\ length (fa_dmac (e_fib e q)) = 6.
Proof. destruct (ok_fib e He q) as [[? _] [? _]]. done. Qed.

Lemma wp_ptr o (Q : nat -> xst -> Prop) s : Q o s -> wp (ptr (Some o)) Q s.
Proof. done. Qed.

Lemma do_route_nf eth q s : is_Some eth -> at_least (length (x_f s)) 14 eth ->
  wp (do_route e eth (e_fib e q)) (fun _ s' => ok s s') s.
Proof.
  intros [o ->] Ho. simpl in Ho. unfold do_route. apply wp_bind. unfold wp at 1; simpl.
  destruct (mac_len q) as [Hs Hd].
  apply wp_bind, wp_wr; [rewrite Hs; lia|]. apply wp_bind, wp_wr; [|apply wp_ret; apply (ok_frame _ s)].
  simpl. rewrite patch_length, Hd; [lia|rewrite Hs; lia].
Qed.

Ltac tx := exact I.

Lemma route_ipv4_nf eth ip4 s : is_Some eth -> at_least (length (x_f s)) 14 eth -> is_Some ip4 -> at_least (length (x_f s)) 20 ip4 ->
  wp (route_ipv4 e eth ip4) (fun _ s' => ok s s') s.
Proof.
  intros Heth Ho [ip ->] Hi. simpl in Hi. unfold route_ipv4. apply wp_bind, wp_ptr.
  apply wp_bind, wp_rd1; [lia|]. apply wp_bind, wp_rd1; [lia|]. do 3 (apply wp_bind, wp_rd; [lia|]). cbn zeta.
  destruct (_ =? 0)%N; [|destruct (_ || _)].
  - apply wp_bind, wp_inc. eapply wp_mono; [apply do_route_nf; done|]. intros ? s'. apply ok_trans, ok_count. tx.
  - apply wp_bind, wp_inc, wp_ret, ok_count. tx.
  - apply wp_bind, wp_inc, wp_ret, ok_count. tx.
Qed.
Lemma route_ipv6_nf eth ip6 s : is_Some eth -> at_least (length (x_f s)) 14 eth -> is_Some ip6 -> at_least (length (x_f s)) 40 ip6 ->
  wp (route_ipv6 e eth ip6) (fun _ s' => ok s s') s.
Proof.
  intros Heth Ho [ip ->] Hi. simpl in Hi. unfold route_ipv6. apply wp_bind, wp_ptr.
  apply wp_bind, wp_rd1; [lia|]. do 3 (apply wp_bind, wp_rd; [lia|]). cbn zeta.
  destruct (_ =? 0)%N; [|destruct (_ || _)].
  - apply wp_bind, wp_inc. eapply wp_mono; [apply do_route_nf; done|]. intros ? s'. apply ok_trans, ok_count. tx.
  - apply wp_bind, wp_inc, wp_ret, ok_count. tx.
  - apply wp_bind, wp_inc, wp_ret, ok_count. tx.
Qed.

Lemma set_ip_csum_nf o s : o + 20 <= length (x_f s) ->
  wp (set_ip_csum e o) (fun _ s' => length (x_f s') = length (x_f s) /\ ok s s') s.
Proof.
  intros H. unfold set_ip_csum. apply wp_bind, wp_rd; [lia|]. apply wp_wr; [simpl; lia|].
  split; [apply patch_length; simpl; lia|apply ok_frame].
Qed.

(** A write at a known place. *)
Lemma wp_wr' o l (Q : unit -> xst -> Prop) s : o + length l <= length (x_f s) ->
  (forall s', length (x_f s') = length (x_f s) -> ok s s' -> Q tt s') -> wp (wr o l) Q s.
Proof. intros H HQ. apply wp_wr; [done|]. apply HQ; [by apply patch_length|apply ok_frame]. Qed.
Lemma wp_fits' o n (Q : bool -> xst -> Prop) s : (forall b, (b = true -> o + n <= length (x_f s)) -> Q b s) -> wp (fits o n) Q s.
Proof. intros H. apply wp_fits; intros; apply H; [done|]. done. Qed.

Lemma ip_header_length sa da tos len : length sa = 4 -> length da = 4 -> length (ip_header sa da tos len) = 20.
Proof. intros H1 H2. unfold ip_header. rewrite !app_length, H1, H2. done. Qed.

Lemma add_gtp_nf c da tos qfi teid s : ctx_ok (length (x_f s)) c -> length da = 4 ->
  wp (add_gtp_over_ip4_headers e c (e_n3 e) da tos qfi teid)
     (fun r s' => ok s s' /\ match r with Some c' => p_eth c' = Some 0 /\ p_ip4 c' = Some 14 /\ 58 <= length (x_f s') | None => True end) s.
Proof.
  intros Hc Hda. unfold add_gtp_over_ip4_headers.
  apply wp_bind. eapply (wp_mono _ (fun _ s' => s' = s)).
  { destruct (p_ip4 c) as [ip|] eqn:E4; [|destruct (p_ip6 c) as [ip|] eqn:E6].
    - apply wp_bind, wp_rd; [|done]. pose proof (c_ip4 _ _ Hc) as H. rewrite E4 in H. simpl in H. lia.
    - apply wp_bind, wp_rd; [|done]. pose proof (c_ip6 _ _ Hc) as H. rewrite E6 in H. simpl in H. lia.
    - by apply wp_ret. }
  intros len ? ->. destruct len as [len|]; [|apply wp_ret; split; [apply ok_refl|done]].
  apply wp_bind. unfold wp at 1, grow_head. destruct (e_head e) as [h|] eqn:Eh; [|apply wp_ret; split; [apply ok_refl|done]].
  simpl. destruct (ok_head e He h Eh) as [Hh _].
  assert (Hok : ok s (Xst (h ++ x_f s) (x_dp s) (x_log s))) by apply ok_frame.
  set (s1 := Xst (h ++ x_f s) (x_dp s) (x_log s)) in *. clearbody s1.
  apply wp_bind, wp_fits'. intros b Hb. destruct b; simpl; [|apply wp_ret; split; [done|done]]. specialize (Hb eq_refl).
  apply wp_bind, wp_rd; [lia|].
  apply wp_bind, wp_wr'; [rewrite field_length; lia|]. intros s2 L2 K2.
  apply wp_bind, wp_wr'; [simpl; lia|]. intros s3 L3 K3.
  assert (Hstop : ok s s3) by (eapply ok_trans; [exact Hok|]; eapply ok_trans; done).
  apply wp_bind, wp_fits'. intros b' _. destruct b'; simpl; [|apply wp_ret; by split].
  apply wp_bind, wp_wr'; [rewrite ip_header_length; [lia|apply (ok_n3 e He)|done]|]. intros s4 L4 K4.
  assert (Hstop4 : ok s s4) by (eapply ok_trans; done).
  apply wp_bind, wp_fits'. intros b4 _. destruct b4; simpl; [|apply wp_ret; by split].
  apply wp_bind, wp_wr'; [simpl; lia|]. intros s5 L5 K5.
  assert (Hstop5 : ok s s5) by (eapply ok_trans; done).
  apply wp_bind, wp_fits'. intros b5 _. destruct b5; simpl; [|apply wp_ret; by split].
  apply wp_bind, wp_wr'; [simpl; lia|]. intros s6 L6 K6.
  assert (Hstop6 : ok s s6) by (eapply ok_trans; done).
  apply wp_bind, wp_fits'. intros b6 _. destruct b6; simpl; [|apply wp_ret; by split].
  apply wp_bind, wp_wr'; [simpl; lia|]. intros s7 L7 K7.
  assert (Hstop7 : ok s s7) by (eapply ok_trans; done).
  apply wp_bind, wp_fits'. intros b7 _. destruct b7; simpl; [|apply wp_ret; by split].
  apply wp_bind, wp_wr'; [simpl; lia|]. intros s8 L8 K8.
  assert (Hstop8 : ok s s8) by (eapply ok_trans; done).
  apply wp_bind. eapply wp_mono; [apply set_ip_csum_nf; lia|]. intros ? s9 [L9 K9]. simpl in *.
  apply wp_ret. simpl. split; [by eapply ok_trans|]. split_and!; [done|done|lia].
Qed.

Lemma send_nf c da tos qfi teid s : ctx_ok (length (x_f s)) c -> length da = 4 ->
  wp (send_to_gtp_tunnel e c (e_n3 e) da tos qfi teid) (fun _ s' => ok s s') s.
Proof.
  intros Hc Hda. unfold send_to_gtp_tunnel. apply wp_bind. eapply wp_mono; [by apply add_gtp_nf|].
  intros [c'|] s' H; simpl in H; [|apply wp_ret; tauto]. destruct H as (Hok & E1 & E2 & Hl).
  apply wp_bind, wp_inc. rewrite E1, E2. eapply wp_mono; [apply route_ipv4_nf; simpl; try done; lia|].
  intros ? s''. eapply ok_trans. eapply ok_trans; [exact Hok|]. apply ok_count. tx.
Qed.

Lemma rate_limit_eq size start rate now s :
  rate_limit size start rate now s =
  Some ((fst (limit_rate size start rate now),
         if (negb (rate =? 0) && fst (limit_rate size start rate now))%N then Some (snd (limit_rate size start rate now)) else None), s).
Proof.
  unfold rate_limit, limit_rate, tx_time. destruct (rate =? 0)%N eqn:E; [done|]. unfold bind, div. rewrite E. simpl.
  destruct (_ <? _)%N; [done|]. by destruct (_ <? _)%N.
Qed.

Lemma charge_nf id ul dl s : wp (charge id ul dl) (fun _ s' => x_f s' = x_f s /\ ok s s') s.
Proof.
  unfold charge. apply wp_bind, wp_get_dp. destruct (urr_get (x_dp s) id) as [u|] eqn:E.
  - apply wp_put_dp. split; [done|]. apply ok_dp. eapply moved_urr; [by rewrite E|done].
  - apply wp_ret. split; [done|apply ok_refl].
Qed.

Lemma n6_forward_nf c pdr fid qid s : ctx_ok (length (x_f s)) c ->
  wp (n6_forward e c pdr fid qid) (fun _ s' => ok s s') s.
Proof.
  intros Hc. unfold n6_forward. apply wp_bind, wp_get_dp.
  destruct (far_get _ _) as [far|]; [|apply wp_ret, ok_refl].
  destruct (_ =? 0)%N; [apply wp_ret, ok_refl|]. destruct (_ =? 0)%N; [apply wp_ret, ok_refl|].
  destruct (qer_get _ _) as [qer|] eqn:Eq; [|apply wp_ret, ok_refl].
  destruct (negb _); [apply wp_ret, ok_refl|]. apply wp_bind, wp_frame_len.
  apply wp_bind. unfold wp at 1. rewrite rate_limit_eq.
  destruct (limit_rate _ _ _ _) as [pass v]. simpl fst. simpl snd.
  apply wp_bind. eapply (wp_mono _ (fun _ s' => x_f s' = x_f s /\ ok s s')).
  { destruct (negb _ && pass); [|apply wp_ret; split; [done|apply ok_refl]].
    unfold store_qer. apply wp_bind, wp_get_dp, wp_put_dp. split; [done|]. apply ok_dp.
    apply (moved_qer _ _ _ (qi_ul_start qer) v). done. }
  intros ? s1 [F1 K1]. destruct pass; simpl; [|by apply wp_ret].
  apply wp_bind. eapply wp_mono; [apply charge_nf|]. intros ? s2 [F2 K2]. simpl.
  apply wp_bind. eapply wp_mono; [apply charge_nf|]. intros ? s3 [F3 K3]. simpl.
  assert (Hl : x_f s3 = x_f s) by congruence.
  eapply wp_mono; [apply send_nf; [by rewrite Hl|done]|]. intros ? s4 K4.
  eapply ok_trans; [exact K1|]. eapply ok_trans; [exact K2|]. eapply ok_trans; [exact K3|]. done.
Qed.

Lemma handle_n6_ipv4_nf c s : ctx_ok (length (x_f s)) c -> is_Some (p_ip4 c) ->
  wp (handle_n6_packet_ipv4 e c) (fun _ s' => ok s s') s.
Proof.
  intros Hc [ip Ei]. unfold handle_n6_packet_ipv4. rewrite Ei. apply wp_bind, wp_ptr.
  pose proof (c_ip4 _ _ Hc) as Hi. rewrite Ei in Hi. simpl in Hi.
  apply wp_bind, wp_rd; [lia|]. apply wp_bind, wp_get_dp. destruct (_ !! _) as [pdr|]; [|apply wp_ret, ok_refl].
  destruct (_ =? 0)%N; [by apply n6_forward_nf|].
  apply wp_bind. eapply wp_mono; [by apply match_sdf4_nf|]. intros m s' ->. destruct m; [by apply n6_forward_nf|].
  destruct (negb _); [apply wp_ret, ok_refl|by apply n6_forward_nf].
Qed.
Lemma handle_n6_ipv6_nf c s : ctx_ok (length (x_f s)) c -> is_Some (p_ip6 c) ->
  wp (handle_n6_packet_ipv6 e c) (fun _ s' => ok s s') s.
Proof.
  intros Hc Hs. pose proof Hs as [ip Ei]. unfold handle_n6_packet_ipv6. rewrite Ei. apply wp_bind, wp_ptr.
  pose proof (c_ip6 _ _ Hc) as Hi. rewrite Ei in Hi. simpl in Hi.
  apply wp_bind, wp_rd; [lia|]. apply wp_bind, wp_get_dp. destruct (_ !! _) as [pdr|]; [|apply wp_ret, ok_refl].
  destruct (_ =? 0)%N; [by apply n6_forward_nf|].
  apply wp_bind. eapply wp_mono; [by apply match_sdf6_nf|]. intros m s' ->. destruct m; [by apply n6_forward_nf|].
  destruct (negb _); [apply wp_ret, ok_refl|by apply n6_forward_nf].
Qed.

Lemma swap_mac_nf o s : o + 14 <= length (x_f s) ->
  wp (swap_mac o) (fun _ s' => length (x_f s') = length (x_f s) /\ ok s s') s.
Proof.
  intros H. unfold swap_mac. apply wp_bind, wp_rd; [lia|]. apply wp_bind, wp_rd; [lia|].
  apply wp_bind, wp_wr'; [rewrite field_length; lia|]. intros s1 L1 K1.
  apply wp_wr'; [rewrite field_length; lia|]. intros s2 L2 K2. split; [lia|by eapply ok_trans].
Qed.
Lemma swap_ip_nf o s : o + 20 <= length (x_f s) ->
  wp (swap_ip o) (fun _ s' => length (x_f s') = length (x_f s) /\ ok s s') s.
Proof.
  intros H. unfold swap_ip. apply wp_bind, wp_rd; [lia|]. apply wp_bind, wp_rd; [lia|].
  apply wp_bind, wp_wr'; [rewrite field_length; lia|]. intros s1 L1 K1.
  apply wp_wr'; [rewrite field_length; lia|]. intros s2 L2 K2. split; [lia|by eapply ok_trans].
Qed.
Lemma swap_port_nf o s : o + 8 <= length (x_f s) ->
  wp (swap_port o) (fun _ s' => length (x_f s') = length (x_f s) /\ ok s s') s.
Proof.
  intros H. unfold swap_port. apply wp_bind, wp_rd; [lia|]. apply wp_bind, wp_rd; [lia|].
  apply wp_bind, wp_wr'; [rewrite field_length; lia|]. intros s1 L1 K1.
  apply wp_bind, wp_wr'; [rewrite field_length; lia|]. intros s2 L2 K2.
  apply wp_wr'; [simpl; lia|]. intros s3 L3 K3. split; [lia|]. eapply ok_trans; [done|]. by eapply ok_trans.
Qed.

Lemma icmp_reply_nf c s : ctx_ok (length (x_f s)) c -> is_Some (p_eth c) ->
  wp (prepare_icmp_echo_reply c) (fun _ s' => length (x_f s') = length (x_f s) /\ ok s s') s.
Proof.
  intros Hc [eth Ee]. unfold prepare_icmp_echo_reply.
  destruct (p_ip4 c) as [ip|] eqn:Ei; [|apply wp_ret; split; [done|apply ok_refl]].
  rewrite Ee. apply wp_bind, wp_ptr. pose proof (c_eth _ _ Hc) as H. rewrite Ee in H. simpl in H.
  pose proof (c_ip4 _ _ Hc) as Hi. rewrite Ei in Hi. simpl in Hi.
  apply wp_bind. eapply wp_mono; [by apply swap_mac_nf|]. intros ? s1 [L1 K1]. simpl.
  apply wp_bind, wp_fits'. intros b1 _. destruct b1; simpl; [|by apply wp_ret].
  apply wp_bind. eapply wp_mono; [apply swap_ip_nf; lia|]. intros ? s2 [L2 K2]. simpl.
  assert (K2' : ok s s2) by (by eapply ok_trans).
  apply wp_bind, wp_fits'. intros b2 Hb2. destruct b2; simpl; [|apply wp_ret; split; [lia|done]]. specialize (Hb2 eq_refl).
  apply wp_bind, wp_rd1; [lia|]. destruct (_ =? 8)%N; simpl; [|apply wp_ret; split; [lia|done]].
  apply wp_bind, wp_rd1; [lia|].
  apply wp_bind, wp_wr'; [simpl; lia|]. intros s3 L3 K3. apply wp_bind, wp_wr'; [simpl; lia|]. intros s4 L4 K4.
  apply wp_bind, wp_rd1; [lia|]. apply wp_bind, wp_rd1; [lia|].
  apply wp_bind, wp_wr'; [simpl; lia|]. intros s5 L5 K5. apply wp_ret. split; [lia|].
  eapply ok_trans; [exact K2'|]. eapply ok_trans; [exact K3|]. by eapply ok_trans.
Qed.

Lemma n3_deliver_nf c s : ctx_ok (length (x_f s)) c -> is_Some (p_eth c) ->
  wp (n3_deliver e c) (fun _ s' => ok s s') s.
Proof.
  intros Hc Heth. unfold n3_deliver. apply wp_bind.
  eapply (wp_mono _ (fun b s' => s' = s /\ (b = true -> is_Some (p_ip4 c)))).
  { destruct (p_ip4 c) as [ip|] eqn:Ei; [|by apply wp_ret].
    pose proof (c_ip4 _ _ Hc) as Hi. rewrite Ei in Hi. simpl in Hi.
    apply wp_bind, wp_rd; [lia|]. destruct (is_local_ip _ _); [|apply wp_ret; split; [done|eauto]].
    apply wp_bind, wp_rd1; [lia|]. apply wp_ret. split; [done|eauto]. }
  intros b s' [-> Hb]. destruct b.
  - specialize (Hb eq_refl). apply wp_bind. eapply wp_mono; [by apply icmp_reply_nf|]. intros b s1 [L1 K1]. simpl.
    destruct b; [|by apply wp_ret]. eapply wp_mono; [apply handle_n6_ipv4_nf; [by rewrite L1|done]|].
    intros ? s2 K2. by eapply ok_trans.
  - destruct (p_ip4 c) as [ip|] eqn:Ei; [|destruct (p_ip6 c) as [ip|] eqn:E6; [|apply wp_ret, ok_refl]].
    + apply wp_bind, wp_inc. pose proof (c_ip4 _ _ Hc) as Hi. rewrite Ei in Hi.
      eapply wp_mono; [apply route_ipv4_nf; simpl; try done; [apply (c_eth _ _ Hc)]|].
      intros ? s2. apply ok_trans, ok_count. tx.
    + apply wp_bind, wp_inc. pose proof (c_ip6 _ _ Hc) as Hi. rewrite E6 in Hi.
      eapply wp_mono; [apply route_ipv6_nf; simpl; try done; [apply (c_eth _ _ Hc)]|].
      intros ? s2. apply ok_trans, ok_count. tx.
Qed.

Lemma context_reinit_nf c s : p_tcp c = None ->
  wp (context_reinit c) (fun r s' => s' = s /\ ctx_ok (length (x_f s)) r.2 /\ (r.1 = true -> is_Some (p_eth r.2))) s.
Proof.
  intros Ht. unfold context_reinit. rewrite Ht. apply wp_bind.
  eapply wp_mono; [apply parse_ethernet_nf; by split|]. intros [t c1] s1 (-> & Hc1 & _ & _ & _ & _ & _ & He1). simpl in *.
  destruct t as [t|]; [|by apply wp_ret]. assert (Hs : is_Some (p_eth c1)) by (by apply He1).
  destruct (_ =? _)%N; [|destruct (_ =? _)%N].
  - apply wp_bind. eapply wp_mono; [by apply parse_ip6_nf|]. intros [r c2] s2 (-> & Hc2 & E & _). simpl in *. apply wp_ret. simpl. by rewrite E.
  - apply wp_bind. eapply wp_mono; [by apply parse_ip4_nf|]. intros [r c2] s2 (-> & Hc2 & E & _). simpl in *. apply wp_ret. simpl. by rewrite E.
  - by apply wp_ret.
Qed.

Lemma remove_gtp_nf c s : ctx_ok (length (x_f s)) c -> p_tcp c = None ->
  wp (remove_gtp_header c) (fun r s' => ok s s' /\ (r.1 = true -> ctx_ok (length (x_f s')) r.2 /\ is_Some (p_eth r.2))) s.
Proof.
  intros Hc Ht. unfold remove_gtp_header. destruct (p_gtp c) as [gtp|] eqn:Eg; [|apply wp_ret; by split; [apply ok_refl|]].
  pose proof (c_gtp _ _ Hc) as Hg. rewrite Eg in Hg. simpl in Hg. apply wp_bind, wp_rd1; [lia|].
  set (n := 20 + 8 + 8 + _). apply wp_bind, wp_fits'. intros b1 H1. destruct b1; simpl negb; cbv iota; [|apply wp_ret; by split; [apply ok_refl|]].
  apply wp_bind, wp_fits'. intros b2 H2. destruct b2; simpl negb; cbv iota; [|apply wp_ret; by split; [apply ok_refl|]].
  apply wp_bind, wp_fits'. intros b3 H3. destruct b3; simpl negb; cbv iota; [|apply wp_ret; by split; [apply ok_refl|]].
  specialize (H1 eq_refl). specialize (H2 eq_refl). specialize (H3 eq_refl).
  apply wp_bind, wp_rd1; [lia|]. destruct (guess_eth_protocol _) as [proto|] eqn:Ep; [|apply wp_ret; by split; [apply ok_refl|]].
  assert (Hp : length proto = 2). { unfold guess_eth_protocol in Ep. repeat case_match; simplify_eq; done. }
  apply wp_bind, wp_rd; [lia|]. apply wp_bind, wp_wr'; [rewrite field_length; lia|]. intros s1 L1 K1.
  apply wp_bind, wp_wr'; [rewrite Hp; lia|]. intros s2 L2 K2.
  apply wp_bind. unfold wp at 1, shrink_head. destruct (Nat.leb_spec (n + 14) (length (x_f s2))); [|lia]. simpl negb. cbv iota.
  eapply wp_mono; [by apply context_reinit_nf|]. intros [r c'] s3 (-> & Hc' & He'). simpl in *. split; [|auto].
  eapply ok_trans; [exact K1|]. eapply ok_trans; [exact K2|]. apply ok_frame.
Qed.

Lemma update_gtp_nf c da teid s : ctx_ok (length (x_f s)) c -> length da = 4 ->
  is_Some (p_gtp c) -> is_Some (p_ip4 c) -> is_Some (p_udp c) ->
  wp (update_gtp_tunnel e c (e_n9 e) da teid) (fun _ s' => length (x_f s') = length (x_f s) /\ ok s s') s.
Proof.
  intros Hc Hda [g Eg] [ip Ei] [u Eu]. unfold update_gtp_tunnel. rewrite Eg, Ei, Eu.
  pose proof (c_gtp _ _ Hc) as Hg. rewrite Eg in Hg. simpl in Hg.
  pose proof (c_ip4 _ _ Hc) as Hi. rewrite Ei in Hi. simpl in Hi.
  pose proof (c_udp _ _ Hc) as Hu. rewrite Eu in Hu. simpl in Hu.
  destruct (ok_n9 e He) as [Hn9 _].
  apply wp_bind, wp_ptr. apply wp_bind, wp_wr'; [simpl; lia|]. intros s1 L1 K1.
  apply wp_bind, wp_ptr. apply wp_bind, wp_wr'; [lia|]. intros s2 L2 K2.
  apply wp_bind, wp_wr'; [lia|]. intros s3 L3 K3. apply wp_bind, wp_wr'; [simpl; lia|]. intros s4 L4 K4.
  apply wp_bind. eapply wp_mono; [apply set_ip_csum_nf; lia|]. intros ? s5 [L5 K5]. simpl.
  apply wp_bind, wp_ptr. apply wp_wr'; [simpl; lia|]. intros s6 L6 K6. split; [lia|].
  eapply ok_trans; [exact K1|]. eapply ok_trans; [exact K2|]. eapply ok_trans; [exact K3|]. eapply ok_trans; [exact K4|].
  by eapply ok_trans.
Qed.

Lemma n3_forward_nf c pdr fid qid ohr s : ctx_ok (length (x_f s)) c -> p_tcp c = None ->
  is_Some (p_eth c) -> is_Some (p_gtp c) -> is_Some (p_ip4 c) -> is_Some (p_udp c) ->
  wp (n3_forward e c pdr fid qid ohr) (fun _ s' => ok s s') s.
Proof.
  intros Hc Htcp Heth Hg Hi Hu. unfold n3_forward. apply wp_bind, wp_get_dp.
  destruct (far_get _ _) as [far|]; [|apply wp_ret, ok_refl].
  destruct (_ =? 0)%N; [apply wp_ret, ok_refl|].
  destruct (qer_get _ _) as [qer|] eqn:Eq; [|apply wp_ret, ok_refl].
  destruct (negb _); [apply wp_ret, ok_refl|]. apply wp_bind, wp_frame_len.
  apply wp_bind. unfold wp at 1. rewrite rate_limit_eq.
  destruct (limit_rate _ _ _ _) as [pass v]. simpl fst. simpl snd.
  apply wp_bind. eapply (wp_mono _ (fun _ s' => x_f s' = x_f s /\ ok s s')).
  { destruct (negb _ && pass); [|apply wp_ret; split; [done|apply ok_refl]].
    unfold store_qer. apply wp_bind, wp_get_dp, wp_put_dp. split; [done|]. apply ok_dp.
    apply (moved_qer _ _ _ v (qi_dl_start qer)). done. }
  intros ? s1 [F1 K1]. destruct pass; simpl negb; cbv iota; [|by apply wp_ret].
  apply wp_bind. eapply wp_mono; [apply charge_nf|]. intros ? s2 [F2 K2]. simpl.
  apply wp_bind. eapply wp_mono; [apply charge_nf|]. intros ? s3 [F3 K3]. simpl.
  assert (Hl : x_f s3 = x_f s) by congruence.
  assert (K : ok s s3) by (eapply ok_trans; [exact K1|]; eapply ok_trans; done).
  destruct (negb _); [|destruct (_ =? 0)%N].
  - apply wp_bind. eapply wp_mono; [apply update_gtp_nf; [by rewrite Hl|done..]|]. intros ? s4 [L4 K4]. simpl.
    eapply wp_mono; [apply n3_deliver_nf; [by rewrite L4, Hl|done]|]. intros ? s5 K5.
    eapply ok_trans; [exact K|]. by eapply ok_trans.
  - apply wp_bind. eapply wp_mono; [apply remove_gtp_nf; [by rewrite Hl|done]|]. intros [b c'] s4 [K4 H4]. simpl in *.
    destruct b; [|apply wp_ret; by eapply ok_trans]. destruct (H4 eq_refl) as [H5 H6].
    eapply wp_mono; [by apply n3_deliver_nf|]. intros ? s5 K5. eapply ok_trans; [exact K|]. by eapply ok_trans.
  - eapply wp_mono; [apply n3_deliver_nf; [by rewrite Hl|done]|]. intros ? s5 K5. by eapply ok_trans.
Qed.

Lemma handle_gtp_packet_nf c s : ctx_ok (length (x_f s)) c -> p_tcp c = None ->
  is_Some (p_eth c) -> is_Some (p_gtp c) -> is_Some (p_ip4 c) -> is_Some (p_udp c) ->
  wp (handle_gtp_packet e c) (fun _ s' => ok s s') s.
Proof.
  intros Hc Htcp Heth Hg Hi Hu. unfold handle_gtp_packet. pose proof Hg as [g Eg]. rewrite Eg.
  pose proof (c_gtp _ _ Hc) as Hg'. rewrite Eg in Hg'. simpl in Hg'.
  apply wp_bind, wp_rd; [lia|]. apply wp_bind, wp_get_dp. destruct (_ !! _) as [pdr|]; [|apply wp_ret, ok_refl]. cbn zeta.
  destruct (_ =? 0)%N; [by apply n3_forward_nf|].
  apply wp_bind, wp_fits'. intros b Hb. destruct b; simpl negb; cbv iota; [|apply wp_ret, ok_refl]. specialize (Hb eq_refl).
  apply wp_bind, wp_rd1; [lia|].
  assert (Hin : ctx_ok (length (x_f s)) (Pctx (p_data c) None None None None None None)) by (by split).
  destruct (_ =? 4)%N; [|destruct (_ =? 6)%N].
  - apply wp_bind. eapply wp_mono; [by apply parse_ip4_nf|]. intros [r c1] s1 (-> & Hc1 & _ & _ & _ & _ & _ & _). simpl in Hc1.
    destruct r as [proto|]; [|apply wp_ret, ok_refl].
    apply wp_bind. eapply wp_mono; [by apply parse_l4_nf|]. intros [l4 c2] s2 (-> & Hc2 & _). simpl in Hc2.
    destruct l4; [|apply wp_ret, ok_refl].
    apply wp_bind. eapply wp_mono; [by apply match_sdf4_nf|]. intros m s3 ->. destruct m; [by apply n3_forward_nf|].
    destruct (negb _); [apply wp_ret, ok_refl|by apply n3_forward_nf].
  - apply wp_bind. eapply wp_mono; [by apply parse_ip6_nf|]. intros [r c1] s1 (-> & Hc1 & _ & _ & _ & _ & _ & H6). simpl in Hc1, H6.
    destruct r as [proto|]; [|apply wp_ret, ok_refl]. assert (Hs6 : is_Some (p_ip6 c1)) by (by apply H6).
    apply wp_bind. eapply wp_mono; [by apply parse_l4_nf|]. intros [l4 c2] s2 (-> & Hc2 & _ & _ & E6). simpl in Hc2, E6.
    destruct l4; [|apply wp_ret, ok_refl].
    apply wp_bind. eapply wp_mono; [apply match_sdf6_nf; [done|by rewrite E6]|]. intros m s3 ->. destruct m; [by apply n3_forward_nf|].
    destruct (negb _); [apply wp_ret, ok_refl|by apply n3_forward_nf].
  - destruct (negb _); [apply wp_ret, ok_refl|by apply n3_forward_nf].
Qed.

Lemma add16_nf o n s : o + 2 <= length (x_f s) ->
  wp (add16 o n) (fun _ s' => length (x_f s') = length (x_f s) /\ ok s s') s.
Proof.
  intros H. unfold add16. apply wp_bind, wp_rd; [lia|]. apply wp_wr'; [simpl; lia|]. done.
Qed.
Lemma insert_recovery_nf g s : g + 8 <= length (x_f s) ->
  wp (insert_recovery g) (fun _ s' => length (x_f s') = length (x_f s) /\ ok s s') s.
Proof.
  intros H. unfold insert_recovery. apply wp_bind, wp_rd1; [lia|]. apply wp_bind.
  eapply (wp_mono _ (fun _ s' => s' = s)). { by destruct (has_opt _). }
  intros b s' ->. cbn zeta. destruct b; [|apply wp_ret; split; [done|apply ok_refl]].
  apply wp_bind, wp_fits'. intros r Hr. destruct r; [|apply wp_ret; split; [done|apply ok_refl]]. specialize (Hr eq_refl).
  apply wp_bind, wp_wr'; [simpl; lia|]. intros s1 L1 K1. apply wp_bind, wp_wr'; [simpl; lia|]. intros s2 L2 K2.
  apply wp_ret. split; [lia|by eapply ok_trans].
Qed.
Lemma handle_echo_nf c s : ctx_ok (length (x_f s)) c ->
  is_Some (p_eth c) -> is_Some (p_gtp c) -> is_Some (p_ip4 c) -> is_Some (p_udp c) ->
  wp (handle_echo_request e c) (fun _ s' => ok s s') s.
Proof.
  intros Hc [et Ee] [g Eg] [ip Ei] [u Eu]. unfold handle_echo_request. rewrite Ee, Eg, Ei, Eu.
  pose proof (c_gtp _ _ Hc) as Hg. rewrite Eg in Hg. simpl in Hg.
  pose proof (c_ip4 _ _ Hc) as Hi. rewrite Ei in Hi. simpl in Hi.
  pose proof (c_udp _ _ Hc) as Hu. rewrite Eu in Hu. simpl in Hu.
  pose proof (c_eth _ _ Hc) as Ht. rewrite Ee in Ht. simpl in Ht.
  apply wp_bind, wp_ptr. apply wp_bind, wp_wr'; [simpl; lia|]. intros s1 L1 K1.
  apply wp_bind, wp_ptr. apply wp_bind. eapply wp_mono; [apply swap_ip_nf; lia|]. intros ? s2 [L2 K2]. simpl.
  apply wp_bind, wp_ptr. apply wp_bind. eapply wp_mono; [apply swap_port_nf; lia|]. intros ? s3 [L3 K3]. simpl.
  apply wp_bind, wp_ptr. apply wp_bind. eapply wp_mono; [apply swap_mac_nf; lia|]. intros ? s4 [L4 K4]. simpl.
  apply wp_bind. eapply wp_mono; [apply insert_recovery_nf; lia|]. intros n s5 [L5 K5]. simpl.
  assert (K : ok s s5).
  { eapply ok_trans; [exact K1|]. eapply ok_trans; [exact K2|]. eapply ok_trans; [exact K3|]. by eapply ok_trans. }
  destruct (n =? 0)%N; [by apply wp_ret|].
  apply wp_bind. eapply wp_mono; [apply add16_nf; lia|]. intros ? s6 [L6 K6]. simpl.
  apply wp_bind. eapply wp_mono; [apply add16_nf; lia|]. intros ? s7 [L7 K7]. simpl.
  apply wp_bind. eapply wp_mono; [apply add16_nf; lia|]. intros ? s8 [L8 K8]. simpl.
  apply wp_bind, wp_wr'; [simpl; lia|]. intros s9 L9 K9.
  apply wp_bind. eapply wp_mono; [apply set_ip_csum_nf; lia|]. intros ? s10 [L10 K10]. simpl.
  apply wp_ret. eapply ok_trans; [exact K|]. eapply ok_trans; [exact K6|]. eapply ok_trans; [exact K7|].
  eapply ok_trans; [exact K8|]. by eapply ok_trans.
Qed.

Lemma parse_gtp_nf c s : ctx_ok (length (x_f s)) c ->
  wp (parse_gtp c) (fun r s' => s' = s /\ ctx_ok (length (x_f s)) r.2 /\
     p_eth r.2 = p_eth c /\ p_ip4 r.2 = p_ip4 c /\ p_udp r.2 = p_udp c /\ p_tcp r.2 = p_tcp c /\
     (r.1 <> None -> is_Some (p_gtp r.2))) s.
Proof.
  intros Hc. unfold parse_gtp. apply wp_bind, wp_fits; intros H; [|by apply wp_ret].
  apply wp_bind, wp_rd1; [lia|]. apply wp_bind, wp_rd1; [lia|]. apply wp_ret. simpl. split_and!; try done. destruct Hc. by split.
Qed.
End nofault.
