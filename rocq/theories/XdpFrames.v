(** The frames the packet processing program sends: C32 - C37, C55. *)
From Verif Require Import Base IdTracker SdfParser SdfProps MapOps SdfMatch Pfcp Qer Csum Xdp XdpBase XdpProps XdpRules.
Open Scope nat_scope.

(** ** Lists *)
Lemma patch_at (x y z : list N) o : length x = o -> patch (x ++ y) o z = (x ++ z) ++ drop (length z) y.
Proof.
  intros <-. unfold patch. rewrite take_app, <- app_assoc. do 2 f_equal.
  rewrite drop_app_ge by lia. f_equal. lia.
Qed.
Lemma patch_app_l (x y z : list N) o : o + length z <= length x -> patch (x ++ y) o z = patch x o z ++ y.
Proof.
  intros H. unfold patch. rewrite take_app_le by lia. rewrite drop_app_le by lia. by rewrite <- !app_assoc.
Qed.
Lemma patch_app_r (x y z : list N) o : length x <= o -> patch (x ++ y) o z = x ++ patch y (o - length x) z.
Proof.
  intros H. unfold patch. rewrite take_app_ge, drop_app_ge by lia. rewrite <- app_assoc. do 3 f_equal. f_equal. lia.
Qed.
Lemma patch_drop (f z : list N) n k : n <= length f -> drop n (patch f (n + k) z) = patch (drop n f) k z.
Proof.
  intros H. unfold patch. rewrite drop_app_le, skipn_firstn_comm by (rewrite take_length; lia).
  f_equal; [f_equal; lia|]. f_equal. rewrite drop_drop. f_equal. lia.
Qed.
Lemma drop_patch_ge (f z : list N) o n : o + length z <= n -> o + length z <= length f -> drop n (patch f o z) = drop n f.
Proof.
  intros H1 H2. unfold patch. rewrite app_assoc. rewrite drop_app_ge by (rewrite app_length, take_length; lia).
  rewrite app_length, take_length, drop_drop. f_equal. lia.
Qed.
Lemma take_patch_le (f z : list N) o n : n <= o -> o <= length f -> take n (patch f o z) = take n f.
Proof. intros H1 H2. unfold patch. rewrite take_app_le by (rewrite take_length; lia). rewrite take_take. f_equal. lia. Qed.
Lemma field_patch_same (f z : list N) o : o + length z <= length f -> field (patch f o z) o (length z) = z.
Proof.
  intros H. unfold field, patch. rewrite drop_app_alt by (rewrite take_length; lia).
  by rewrite take_app.
Qed.
Lemma field_patch_lo (f z : list N) o a n : a + n <= o -> o <= length f -> field (patch f o z) a n = field f a n.
Proof.
  intros H1 H2. unfold field. rewrite !take_drop_commute. by rewrite take_patch_le by lia.
Qed.
Lemma field_patch_hi (f z : list N) o a n : o + length z <= a -> o + length z <= length f -> field (patch f o z) a n = field f a n.
Proof. intros H1 H2. unfold field. by rewrite drop_patch_ge. Qed.
Lemma byte_field f o : o < length f -> field f o 1 = [byte f o].
Proof.
  intros H. unfold field, byte. destruct (drop o f) as [|x r] eqn:E.
  { apply (f_equal length) in E. rewrite drop_length in E. simpl in E. lia. }
  simpl. f_equal. rewrite <- (take_drop o f), E. rewrite app_nth2; rewrite take_length; [|lia].
  replace (o - o `min` length f) with 0 by lia. done.
Qed.
Lemma byte_patch_lo f z o a : a < o -> o <= length f -> byte (patch f o z) a = byte f a.
Proof.
  intros H1 H2. unfold byte, patch. rewrite app_nth1 by (rewrite take_length; lia).
  rewrite <- (take_drop o f) at 2. by rewrite app_nth1 by (rewrite take_length; lia).
Qed.
Lemma byte_drop f n a : byte (drop n f) a = byte f (n + a).
Proof. unfold byte. rewrite !nth_lookup, lookup_drop. done. Qed.
Lemma byte_patch_hi f z o a : o + length z <= a -> o + length z <= length f -> byte (patch f o z) a = byte f a.
Proof.
  intros H1 H2. pose proof (byte_drop (patch f o z) a 0) as E1. pose proof (byte_drop f a 0) as E2.
  rewrite Nat.add_0_r in E1, E2. by rewrite <- E1, <- E2, drop_patch_ge.
Qed.
Lemma byte_app_l x y a : a < length x -> byte (x ++ y) a = byte x a.
Proof. intros H. unfold byte. by apply app_nth1. Qed.
Lemma field_drop f n a k : field (drop n f) a k = field f (n + a) k.
Proof. unfold field. by rewrite drop_drop. Qed.
Lemma field_app_l x y o n : o + n <= length x -> field (x ++ y) o n = field x o n.
Proof. intros H. unfold field. rewrite drop_app_le by lia. apply take_app_le. rewrite drop_length. lia. Qed.
Lemma field_app_r x y o n : length x <= o -> field (x ++ y) o n = field y (o - length x) n.
Proof. intros H. unfold field. by rewrite drop_app_ge. Qed.
Lemma byte_app_r x y a : length x <= a -> byte (x ++ y) a = byte y (a - length x).
Proof. intros H. unfold byte. by apply app_nth2. Qed.

(** ** Routing *)

(** Specification: the frame [g] (Ethernet, IPv4) is looked up in the routing table and, if there is a route,
    leaves with the MAC addresses of the route. *)
Definition route_query4 (e : env) (g : list N) : fib_query :=
  FibQ 2 (byte g 15) (byte g 23) (be_value (field g 16 2)) (src4 g) (dst4 g) (e_if e).
Definition route_query6 (e : env) (g : list N) : fib_query :=
  FibQ 2 0 (byte g 20) (be_value (field g 18 2)) (src6 g) (dst6 g) (e_if e).
Definition blocked (a : fib_answer) : bool := (fa_rc a =? 1)%N || (fa_rc a =? 2)%N || (fa_rc a =? 3)%N.
Definition new_macs (a : fib_answer) (g : list N) : list N := fa_dmac a ++ fa_smac a ++ drop 12 g.
Definition routed (e : env) (v4 : bool) (g : list N) : verdict * list N * counter :=
  let a := e_fib e (if v4 then route_query4 e g else route_query6 e g) in
  if (fa_rc a =? 0)%N then
    (if (fa_if a =? e_if e)%N then TX else REDIRECT (fa_if a), new_macs a g, if v4 then fib4_ok else fib6_ok)
  else if blocked a then (DROP, g, if v4 then fib4_drop else fib6_drop)
  else (PASS, g, if v4 then fib4_pass else fib6_pass).

Section frames.
Context (e : env) (He : env_ok e).

Lemma macs_patch (a : fib_answer) g : length (fa_smac a) = 6 -> length (fa_dmac a) = 6 -> 14 <= length g ->
  patch (patch g 6 (fa_smac a)) 0 (fa_dmac a) = new_macs a g.
Proof.
  intros Hs Hd Hg. unfold new_macs. rewrite <- (take_drop 6 g) at 1.
  rewrite (patch_at (take 6 g)) by (rewrite take_length; lia). rewrite Hs, drop_drop. change (6 + 6) with 12.
  change (patch ((take 6 g ++ fa_smac a) ++ drop 12 g) 0 (fa_dmac a)) with (patch ([] ++ ((take 6 g ++ fa_smac a) ++ drop 12 g)) 0 (fa_dmac a)).
  rewrite patch_at by done. rewrite Hd. cbn [app]. f_equal.
  rewrite <- app_assoc. by rewrite drop_app_alt by (rewrite take_length; lia).
Qed.

Lemma do_route_eq q g d l : 14 <= length g ->
  do_route e (Some 0) (e_fib e q) (Xst g d l) =
  Some (if (fa_if (e_fib e q) =? e_if e)%N then TX else REDIRECT (fa_if (e_fib e q)), Xst (new_macs (e_fib e q) g) d l).
Proof.
  intros Hg. unfold do_route. rewrite bind_ptr. destruct (mac_len e He q) as [Hs Hd].
  rewrite bind_wr by (cbn [x_f]; rewrite Hs; lia). cbn [x_f x_dp x_log].
  rewrite bind_wr by (cbn [x_f]; rewrite patch_length by (rewrite Hs; lia); rewrite Hd; lia). cbn [x_f x_dp x_log].
  by rewrite <- (macs_patch (e_fib e q) g Hs Hd Hg).
Qed.

Definition route_result (r : verdict * list N * counter) (d : dp) (l : list counter) : option (verdict * xst) :=
  let '(v, g, c) := r in Some (v, Xst g d (l ++ [c])).

Lemma route_ipv4_eq g d l : 34 <= length g ->
  route_ipv4 e (Some 0) (Some 14) (Xst g d l) = route_result (routed e true g) d l.
Proof.
  intros Hg. unfold route_ipv4, routed. rewrite bind_ptr.
  do 2 (rewrite bind_rd1 by (cbn [x_f]; lia)). do 3 (rewrite bind_rd by (cbn [x_f]; lia)). cbn [x_f].
  fold (route_query4 e g). change (FibQ _ _ _ _ _ _ _) with (route_query4 e g). cbv zeta.
  fold (blocked (e_fib e (route_query4 e g))).
  destruct (_ =? 0)%N; [|by destruct (blocked _)]. rewrite bind_inc. cbn [x_f x_dp x_log]. by rewrite do_route_eq by lia.
Qed.
Lemma route_ipv6_eq g d l : 54 <= length g ->
  route_ipv6 e (Some 0) (Some 14) (Xst g d l) = route_result (routed e false g) d l.
Proof.
  intros Hg. unfold route_ipv6, routed. rewrite bind_ptr.
  do 1 (rewrite bind_rd1 by (cbn [x_f]; lia)). do 3 (rewrite bind_rd by (cbn [x_f]; lia)). cbn [x_f].
  change (FibQ _ _ _ _ _ _ _) with (route_query6 e g). cbv zeta.
  fold (blocked (e_fib e (route_query6 e g))).
  destruct (_ =? 0)%N; [|by destruct (blocked _)]. rewrite bind_inc. cbn [x_f x_dp x_log]. by rewrite do_route_eq by lia.
Qed.
Lemma routed_frame v4 g : exists macs, length macs = 12 /\ (routed e v4 g).1.2 = macs ++ drop 12 g \/ (routed e v4 g).1.2 = g.
Proof.
  unfold routed. destruct (_ =? 0)%N.
  - exists (fa_dmac (e_fib e (if v4 then route_query4 e g else route_query6 e g)) ++ fa_smac (e_fib e (if v4 then route_query4 e g else route_query6 e g))).
    left. split; [|simpl; unfold new_macs; by rewrite <- app_assoc]. rewrite app_length. destruct (mac_len e He (if v4 then route_query4 e g else route_query6 e g)) as [-> ->]. done.
  - exists []. right. by destruct (blocked _).
Qed.

(** ** Encapsulation *)

(** The outer IPv4 header with its checksum. *)
Definition outer_ip (sa da : list N) (tos len : N) : list N :=
  patch (ip_header sa da tos len) 10 (store16 (ipv4_csum (e_diff e) (ip_header sa da tos len))).
(** The frame [f] (an Ethernet header and an IP packet of [len] bytes) in a tunnel. *)
Definition encap (f sa da : list N) (tos qfi teid len : N) : list N :=
  take 12 f ++ [8; 0]%N ++ outer_ip sa da tos (len + 44) ++ udp_header (len + 24) ++ gtp_header teid (8 + len) ++
  gtp_ext_header ++ gtp_psc qfi ++ drop 14 f.

Lemma outer_ip_length sa da tos len : length sa = 4 -> length da = 4 -> length (outer_ip sa da tos len) = 20.
Proof. intros H1 H2. unfold outer_ip. rewrite patch_length; rewrite ip_header_length by done; [done|simpl; lia]. Qed.

Lemma encap_patches h f sa da tos qfi teid len : length h = 44 -> 14 <= length f -> length sa = 4 -> length da = 4 ->
  let f0 := h ++ f in
  let f1 := patch f0 0 (field f0 44 14) in
  let f2 := patch f1 12 [8; 0]%N in
  let f3 := patch f2 14 (ip_header sa da tos (len + 44)) in
  let f4 := patch f3 34 (udp_header (len + 8 + 16)) in
  let f5 := patch f4 42 (gtp_header teid (8 + len)) in
  let f6 := patch f5 50 gtp_ext_header in
  let f7 := patch f6 54 (gtp_psc qfi) in
  length f1 = 44 + length f /\ length f2 = 44 + length f /\ length f3 = 44 + length f /\ length f4 = 44 + length f /\
  length f5 = 44 + length f /\ length f6 = 44 + length f /\ length f7 = 44 + length f /\
  field f7 14 20 = ip_header sa da tos (len + 44) /\
  patch f7 24 (store16 (ipv4_csum (e_diff e) (ip_header sa da tos (len + 44)))) = encap f sa da tos qfi teid len.
Proof.
  intros Hh Hf Hsa Hda f0 f1 f2 f3 f4 f5 f6 f7.
  assert (L0 : length f0 = 44 + length f) by (unfold f0; rewrite app_length; lia).
  assert (Hip : length (ip_header sa da tos (len + 44)) = 20) by (by apply ip_header_length).
  set (ip := ip_header sa da tos (len + 44)) in *.
  assert (L1 : length f1 = 44 + length f) by (unfold f1; rewrite patch_length; [done|rewrite field_length; lia]).
  assert (L2 : length f2 = 44 + length f) by (unfold f2; rewrite patch_length; [done|simpl; lia]).
  assert (L3 : length f3 = 44 + length f) by (unfold f3; rewrite patch_length; [done|lia]).
  assert (L4 : length f4 = 44 + length f) by (unfold f4; rewrite patch_length; [done|simpl; lia]).
  assert (L5 : length f5 = 44 + length f) by (unfold f5; rewrite patch_length; [done|simpl; lia]).
  assert (L6 : length f6 = 44 + length f) by (unfold f6; rewrite patch_length; [done|simpl; lia]).
  assert (L7 : length f7 = 44 + length f) by (unfold f7; rewrite patch_length; [done|simpl; lia]).
  split_and!; [done..| |].
  - unfold f7. rewrite field_patch_lo by lia. unfold f6. rewrite field_patch_lo by lia. unfold f5. rewrite field_patch_lo by lia.
    unfold f4. rewrite field_patch_lo by lia. unfold f3. rewrite <- Hip at 1. apply field_patch_same. rewrite L2, Hip. lia.
  - assert (E1 : f1 = take 14 f ++ drop 14 f0).
    { unfold f1. change f0 with ([] ++ f0) at 1. rewrite patch_at by done. rewrite field_length by lia. cbn [app]. f_equal.
      unfold f0. rewrite field_app_r by lia. rewrite Hh. done. }
    assert (E2 : f2 = (take 12 f ++ [8; 0]%N) ++ drop 14 f0).
    { unfold f2. rewrite E1. rewrite <- (take_drop 12 (take 14 f)). rewrite take_take. change (12 `min` 14) with 12.
      rewrite <- (app_assoc (take 12 f)). rewrite patch_at by (rewrite take_length; lia). f_equal.
      rewrite drop_app_alt; [done|]. rewrite drop_length, take_length. change (length [8; 0]%N) with 2. lia. }
    assert (E3 : f3 = (take 12 f ++ [8; 0]%N ++ ip) ++ drop 34 f0).
    { unfold f3. rewrite E2. rewrite patch_at by (rewrite app_length, take_length; cbn [length udp_header gtp_header gtp_ext_header gtp_psc app be16 be32]; lia). rewrite Hip, drop_drop. by rewrite <- !app_assoc. }
    assert (E4 : f4 = (take 12 f ++ [8; 0]%N ++ ip ++ udp_header (len + 24)) ++ drop 42 f0).
    { unfold f4. rewrite E3. rewrite patch_at by (rewrite !app_length, take_length, Hip; cbn [length udp_header gtp_header gtp_ext_header gtp_psc app be16 be32]; lia).
      replace (len + 8 + 16)%N with (len + 24)%N by lia.
      change (length (udp_header (len + 24))) with 8. rewrite drop_drop. by rewrite <- !app_assoc. }
    assert (E5 : f5 = (take 12 f ++ [8; 0]%N ++ ip ++ udp_header (len + 24) ++ gtp_header teid (8 + len)) ++ drop 50 f0).
    { unfold f5. rewrite E4. rewrite patch_at by (rewrite !app_length, take_length, Hip; cbn [length udp_header gtp_header gtp_ext_header gtp_psc app be16 be32]; lia).
      change (length (gtp_header teid (8 + len))) with 8. rewrite drop_drop. by rewrite <- !app_assoc. }
    assert (E6 : f6 = (take 12 f ++ [8; 0]%N ++ ip ++ udp_header (len + 24) ++ gtp_header teid (8 + len) ++ gtp_ext_header) ++ drop 54 f0).
    { unfold f6. rewrite E5. rewrite patch_at by (rewrite !app_length, take_length, Hip; cbn [length udp_header gtp_header gtp_ext_header gtp_psc app be16 be32]; lia).
      change (length gtp_ext_header) with 4. rewrite drop_drop. by rewrite <- !app_assoc. }
    assert (E7 : f7 = (take 12 f ++ [8; 0]%N ++ ip ++ udp_header (len + 24) ++ gtp_header teid (8 + len) ++ gtp_ext_header ++ gtp_psc qfi) ++ drop 58 f0).
    { unfold f7. rewrite E6. rewrite patch_at by (rewrite !app_length, take_length, Hip; cbn [length udp_header gtp_header gtp_ext_header gtp_psc app be16 be32]; lia).
      change (length (gtp_psc qfi)) with 4. rewrite drop_drop. by rewrite <- !app_assoc. }
    rewrite E7. unfold encap, outer_ip. fold ip.
    assert (E8 : drop 58 f0 = drop 14 f). { unfold f0. rewrite drop_app_ge by lia. f_equal. lia. }
    rewrite E8. set (ck := store16 _). assert (Hck : length ck = 2) by done. clearbody ck.
    rewrite (app_assoc (take 12 f)). rewrite <- (app_assoc (take 12 f ++ [8; 0]%N)).
    set (a := take 12 f ++ [8; 0]%N). assert (Ha : length a = 14) by (unfold a; rewrite app_length, take_length; cbn [length]; lia).
    set (z := udp_header _ ++ _). rewrite <- (app_assoc ip z).
    rewrite patch_app_r, Ha by lia. change (24 - 14) with 10. rewrite patch_app_l by lia.
    unfold a, z. rewrite <- !app_assoc. done.
Qed.

(** Length of the IP packet in [f] according to its header. *)
Definition ctx_len (c : pctx) (f : list N) : option N :=
  match p_ip4 c, p_ip6 c with
  | Some ip, _ => Some (be_value (field f (ip + 2) 2))
  | None, Some ip => Some (be_value (field f (ip + 4) 2) + 40)%N
  | None, None => None
  end.

Lemma add_gtp_eq c f d l da tos qfi teid len : ctx_ok (length f) c -> ctx_len c f = Some len -> 14 <= length f -> length da = 4 ->
  add_gtp_over_ip4_headers e c (e_n3 e) da tos qfi teid (Xst f d l) =
  match e_head e with
  | None => Some (None, Xst f d l)
  | Some _ => Some (Some (Pctx 0 (Some 0) (Some 14) None (Some 34) (p_tcp c) (Some 42)), Xst (encap f (e_n3 e) da tos qfi teid len) d l)
  end.
Proof.
  intros Hc Hlen Hf Hda. unfold add_gtp_over_ip4_headers.
  assert (E0 : match p_ip4 c, p_ip6 c with
     | Some ip, _ => v <- rd (ip + 2) 2;; ret (Some (be_value v))
     | None, Some ip => v <- rd (ip + 4) 2;; ret (Some (be_value v + 40)%N)
     | None, None => ret None
     end (Xst f d l) = Some (Some len, Xst f d l)).
  { unfold ctx_len in Hlen. pose proof (c_ip4 _ _ Hc) as H4. pose proof (c_ip6 _ _ Hc) as H6.
    destruct (p_ip4 c); simpl in H4; [|destruct (p_ip6 c); simpl in H6; [|done]];
      (rewrite bind_rd by (cbn [x_f]; lia)); simplify_eq; done. }
  unfold bind at 1. rewrite E0. unfold bind at 1, grow_head. destruct (e_head e) as [h|] eqn:Eh; [|done].
  cbn [negb x_f x_dp x_log]. destruct (ok_head e He h Eh) as [Hh _]. destruct (ok_n3 e He) as [Hn3 _].
  pose proof (encap_patches h f (e_n3 e) da tos qfi teid len Hh Hf Hn3 Hda) as P. cbv zeta in P.
  assert (L0 : length (h ++ f) = 44 + length f) by (rewrite app_length; lia).
  remember (h ++ f) as f0 eqn:E00. clear E00.
  destruct P as (L1 & L2 & L3 & L4 & L5 & L6 & L7 & P1 & P2).
  assert (Hip : length (ip_header (e_n3 e) da tos (len + 44)) = 20) by (by apply ip_header_length).
  Local Ltac fit := rewrite bind_fits; cbn [x_f x_dp x_log]; rewrite (proj2 (Nat.leb_le _ _)) by lia; cbn [negb].
  fit. rewrite bind_rd by (cbn [x_f]; lia). cbn [x_f].
  rewrite bind_wr by (cbn [x_f]; rewrite field_length; lia). cbn [x_f x_dp x_log].
  remember (patch f0 0 (field f0 44 14)) as f1.
  rewrite bind_wr by (cbn [x_f length]; lia). cbn [x_f x_dp x_log]. remember (patch f1 12 [8; 0]%N) as f2.
  fit. rewrite bind_wr by (cbn [x_f]; lia). cbn [x_f x_dp x_log]. remember (patch f2 14 (ip_header (e_n3 e) da tos (len + 44))) as f3.
  fit. rewrite bind_wr by (cbn [x_f length udp_header be16 app]; lia). cbn [x_f x_dp x_log]. remember (patch f3 34 (udp_header (len + 8 + 16))) as f4.
  fit. rewrite bind_wr by (cbn [x_f length gtp_header be16 be32 app]; lia). cbn [x_f x_dp x_log]. remember (patch f4 42 (gtp_header teid (8 + len))) as f5.
  fit. rewrite bind_wr by (cbn [x_f length gtp_ext_header app]; lia). cbn [x_f x_dp x_log]. remember (patch f5 50 gtp_ext_header) as f6.
  fit. rewrite bind_wr by (cbn [x_f length gtp_psc app]; lia). cbn [x_f x_dp x_log]. remember (patch f6 54 (gtp_psc qfi)) as f7.
  unfold set_ip_csum. rewrite bind_assoc, bind_rd by (cbn [x_f]; lia). cbn [x_f]. rewrite P1.
  rewrite bind_wr by (cbn [x_f length store16]; lia). cbn [x_f x_dp x_log]. change (14 + 10) with 24. by rewrite P2.
Qed.

Lemma encap_length f sa da tos qfi teid len : 14 <= length f -> length sa = 4 -> length da = 4 ->
  length (encap f sa da tos qfi teid len) = 44 + length f.
Proof.
  intros Hf H1 H2. unfold encap. rewrite !app_length, outer_ip_length, take_length, drop_length by done.
  cbn [length udp_header gtp_header gtp_ext_header gtp_psc app be16 be32]. lia.
Qed.

Lemma send_eq c f d l da tos qfi teid len : ctx_ok (length f) c -> ctx_len c f = Some len -> 14 <= length f -> length da = 4 ->
  send_to_gtp_tunnel e c (e_n3 e) da tos qfi teid (Xst f d l) =
  match e_head e with
  | None => Some (ABORTED, Xst f d l)
  | Some _ => route_result (routed e true (encap f (e_n3 e) da tos qfi teid len)) d (l ++ [tx_n3])
  end.
Proof.
  intros Hc Hlen Hf Hda. unfold send_to_gtp_tunnel. unfold bind at 1. rewrite (add_gtp_eq _ _ _ _ _ _ _ _ len) by done.
  destruct (e_head e); [|done]. rewrite bind_inc. cbn [x_f x_dp x_log p_eth p_ip4]. apply route_ipv4_eq.
  destruct (ok_n3 e He) as [Hn3 _]. rewrite encap_length by done. lia.
Qed.
End frames.

(** ** C32.  Specification: [g] carries the IP packet of [f] in a GTP-U tunnel (Ethernet, IPv4 without
    options, UDP, GTP-U with a PDU Session Container). *)
Record tunnelled (g f src dst : list N) (tos qfi teid len : N) : Prop := {
  t_ethertype : field g 12 2 = [8; 0]%N;
  t_version : byte g 14 = 69%N;                              (* IPv4, header of 5 words *)
  t_tos : byte g 15 = tos;
  t_total : be_value (field g 16 2) = (len + 44)%N;          (* IP + UDP + GTP headers are 20 + 8 + 16 bytes *)
  t_id : field g 18 2 = [0; 0]%N;
  t_fragment : field g 20 2 = [64; 0]%N;                     (* don't fragment *)
  t_ttl : byte g 22 = 64%N;
  t_proto : byte g 23 = 17%N;
  t_src : field g 26 4 = src;
  t_dst : field g 30 4 = dst;
  t_checksum : checksum_ok (field g 14 20);
  t_sport : be_value (field g 34 2) = 2152%N;
  t_dport : be_value (field g 36 2) = 2152%N;
  t_udp_len : be_value (field g 38 2) = (len + 24)%N;        (* UDP + GTP headers *)
  t_udp_sum : field g 40 2 = [0; 0]%N;                       (* no UDP checksum *)
  t_gtp_flags : byte g 42 = 52%N;                            (* version 1, GTP, extension header *)
  t_gtp_type : byte g 43 = 255%N;                            (* G-PDU *)
  t_gtp_len : be_value (field g 44 2) = (len + 8)%N;         (* what follows the first 8 bytes *)
  t_teid : be_value (field g 46 4) = teid;
  t_no_seq : field g 50 3 = [0; 0; 0]%N;                     (* sequence and N-PDU numbers, not used *)
  t_ext : byte g 53 = 133%N;                                 (* PDU Session Container *)
  t_ext_len : byte g 54 = 1%N;                               (* of 4 bytes *)
  t_pdu_type : byte g 55 = 0%N;                              (* DL PDU SESSION INFORMATION *)
  t_qfi : byte g 56 = qfi;
  t_ext_end : byte g 57 = 0%N;
  t_inner : drop 58 g = drop 14 f }.

Lemma be16_value v : (v < 65536)%N -> be_value (be16 v) = v.
Proof.
  intros H. unfold be16, be_value. simpl. rewrite (N.mod_small (v / 256)) by (apply N.div_lt_upper_bound; lia).
  pose proof (N.div_mod v 256 ltac:(done)). lia.
Qed.
Lemma be32_value v : (v < 4294967296)%N -> be_value (be32 v) = v.
Proof.
  intros H. unfold be32, be_value. simpl. 
  pose proof (N.div_mod v 256 ltac:(done)). pose proof (N.div_mod (v / 256) 256 ltac:(done)).
  pose proof (N.div_mod (v / 256 / 256) 256 ltac:(done)).
  rewrite (N.div_div v 256 256) in * by done. rewrite (N.div_div v (256 * 256) 256) in * by done.
  change (256 * 256)%N with 65536%N in *. change (65536 * 256)%N with 16777216%N in *.
  rewrite (N.mod_small (v / 16777216)) by (apply N.div_lt_upper_bound; lia). lia.
Qed.
Lemma le32_bytes v : bytes 4 (le32 v).
Proof. split; [done|]. repeat constructor; by apply N.mod_lt. Qed.

Lemma outer_ip_ok e sa da tos len : env_ok e -> bytes 4 sa -> bytes 4 da -> (tos < 256)%N ->
  checksum_ok (outer_ip e sa da tos len).
Proof.
  intros He [Hs Bs] [Hd Bd] Ht.
  pose proof (ip_checksum_correct (e_diff e) ([69; tos] ++ be16 len ++ [0; 0; 64; 0; 64; 17])%N (sa ++ da) (ok_diff e He)) as H.
  match type of H with _ -> _ -> checksum_ok ?l => assert (E : outer_ip e sa da tos len = l) end.
  { unfold outer_ip. unfold ip_header. simpl. unfold patch. simpl. done. }
  rewrite E. apply H.
  - apply Forall_app; split; [|by apply Forall_app]. repeat (constructor; [unfold is_byte; try lia; by apply N.mod_lt|]). constructor.
  - by exists 5.
Qed.

Lemma encap_tunnelled e m f sa da tos qfi teid len : env_ok e -> length m = 12 -> 12 <= length f -> bytes 4 sa -> bytes 4 da ->
  (tos < 256)%N -> (qfi < 64)%N -> (teid < 4294967296)%N -> (len + 44 < 65536)%N ->
  tunnelled (m ++ drop 12 (encap e f sa da tos qfi teid len)) f sa da tos qfi teid len.
Proof.
  intros He Hm Hf Hsa Hda Ht Hq Hte Hlen. pose proof (outer_ip_ok e sa da tos (len + 44) He Hsa Hda Ht) as Hck.
  destruct (bytes4_inv sa Hsa) as (s1 & s2 & s3 & s4 & -> & _). destruct (bytes4_inv da Hda) as (d1 & d2 & d3 & d4 & -> & _).
  unfold encap. rewrite (drop_app_alt (take 12 f)) by (rewrite take_length; lia).
  unfold outer_ip in *. set (ck := store16 _) in *. assert (exists c1 c2, ck = [c1; c2]) as (c1 & c2 & Ec) by (eexists _, _; done).
  rewrite Ec in *. clear Ec ck.
  pose proof (be16_value (len + 44) Hlen) as V1. pose proof (be16_value (len + 24) ltac:(lia)) as V2.
  pose proof (be16_value (8 + len) ltac:(lia)) as V3. pose proof (be32_value teid Hte) as V4.
  unfold ip_header, udp_header, gtp_header, gtp_ext_header, gtp_psc in *. rewrite (N.mod_small qfi) by done.
  set (b1 := be16 (len + 44)) in *. set (b2 := be16 (len + 24)) in *. set (b3 := be16 (8 + len)) in *. set (b4 := be32 teid) in *.
  assert (exists x y, b1 = [x; y]) as (x1 & y1 & E1) by (eexists _, _; done).
  assert (exists x y, b2 = [x; y]) as (x2 & y2 & E2) by (eexists _, _; done).
  assert (exists x y, b3 = [x; y]) as (x3 & y3 & E3) by (eexists _, _; done).
  assert (exists x y z w, b4 = [x; y; z; w]) as (x4 & y4 & z4 & w4 & E4) by (eexists _, _, _, _; done).
  clearbody b1 b2 b3 b4. subst b1 b2 b3 b4.
  split; rewrite ?field_app_r, ?byte_app_r, ?drop_app_ge by lia; rewrite Hm; try done.
  - by rewrite (N.add_comm len 8), <- V3.
Qed.

Definition down_len (e : env) (f : list N) : N :=
  if down4 e f then be_value (field f 16 2) else (be_value (field f 18 2) + 40)%N.
Lemma rule_for_kind e d f x : rule_for e d f = Some x -> gpdu e f = true \/ (gpdu e f = false /\ (down4 e f = true \/ down4 e f = false /\ down6 f = true)).
Proof.
  unfold rule_for, entry. destruct (gpdu e f); [auto|]. destruct (down4 e f); [auto|]. destruct (down6 f); auto. done.
Qed.
Lemma rule_for_not_echo e d f x : rule_for e d f = Some x -> echo_request e f = false.
Proof.
  intros H. destruct (rule_for_kind _ _ _ _ H) as [Hg|(_ & [H4|[_ H6]])]; [by apply gpdu_not_echo|by apply down4_not_gpdu|].
  by apply down6_not_4.
Qed.
Lemma down_ctx_ok e f : down4 e f = true \/ (down4 e f = false /\ down6 f = true) ->
  ctx_ok (length f) (down_ctx e f) /\ ctx_len (down_ctx e f) f = Some (down_len e f) /\ 34 <= length f.
Proof.
  intros H. unfold down_ctx, down_len, ctx_len. destruct H as [H4|[H4 H6]]; rewrite H4.
  - destruct (down4_ctx_ok e f H4) as [H1 H2]. rewrite H2. split_and!; [done|done|]. pose proof (c_ip4 _ _ H1) as H. rewrite H2 in H. simpl in H. lia.
  - destruct (down6_ctx_ok f H6) as [H1 H2]. rewrite H2.
    assert (p_ip4 (down6_ctx f) = None) as -> by (unfold down6_ctx; by destruct (_ && _)).
    split_and!; [done|done|]. pose proof (c_ip6 _ _ H1) as H. rewrite H2 in H. simpl in H. lia.
Qed.

(** A permitted downlink packet, in one equation. *)
Lemma xdp_downlink e d f p r far q : env_ok e -> rule_for e d f = Some (p, r) -> gpdu e f = false ->
  permitted e Downlink (N.of_nat (length f)) d r = Some (far, q) ->
  xdp e f d = finish (
    let d' := account e Downlink (N.of_nat (length f)) p r q d in
    match e_head e with
    | None => Some (ABORTED, Xst f d' (rx_counters e f))
    | Some _ => route_result (routed e true (encap e f (e_n3 e) (le32 (fi_remote far)) (fi_tlm far / 256) (qi_qfi q) (fi_teid far) (down_len e f)))
                  d' (rx_counters e f ++ [tx_n3])
    end).
Proof.
  intros He Hr Hg Hp. rewrite xdp_rule. rewrite (rule_for_not_echo _ _ _ _ Hr), Hr. unfold dir_of. rewrite Hg, Hp.
  f_equal. unfold downlink_out. destruct (rule_for_kind _ _ _ _ Hr) as [?|[_ Hk]]; [congruence|].
  destruct (down_ctx_ok e f Hk) as (H1 & H2 & H3). apply send_eq; [done|done|done|lia|done].
Qed.

(** Values that fit their fields in the maps (struct far_info, struct qer_info; the QFI has 6 bits). *)
Definition far_fits (far : far_info) : Prop := (fi_tlm far < 65536)%N /\ (fi_teid far < 4294967296)%N.

(** C32.  [routed] decides between forwarding, dropping and passing the encapsulated frame and sets the
    MAC addresses. *)
Theorem downlink_encapsulated :
  forall e d f p r far q v s, env_ok e -> rule_for e d f = Some (p, r) -> gpdu e f = false ->
    permitted e Downlink (N.of_nat (length f)) d r = Some (far, q) ->
    far_fits far -> (qi_qfi q < 64)%N -> (down_len e f + 44 < 65536)%N -> e_head e <> None ->
    xdp e f d = Some (v, s) ->
    exists g c,
      tunnelled g f (e_n3 e) (le32 (fi_remote far)) (fi_tlm far / 256) (qi_qfi q) (fi_teid far) (down_len e f) /\
      tunnelled (x_f s) f (e_n3 e) (le32 (fi_remote far)) (fi_tlm far / 256) (qi_qfi q) (fi_teid far) (down_len e f) /\
      routed e true g = (v, x_f s, c).
Proof.
  intros e d f p r far q v s He Hr Hg Hp [Ht Hte] Hq Hlen Hh H.
  assert (Hf : 34 <= length f).
  { destruct (rule_for_kind _ _ _ _ Hr) as [?|[_ Hk]]; [congruence|]. by destruct (down_ctx_ok e f Hk) as (_ & _ & ?). }
  rewrite (xdp_downlink e d f p r far q) in H by done. cbv zeta in H. destruct (e_head e) as [h|]; [|done].
  set (g := encap e f (e_n3 e) (le32 (fi_remote far)) (fi_tlm far / 256) (qi_qfi q) (fi_teid far) (down_len e f)) in H.
  assert (Hall : forall m, length m = 12 ->
    tunnelled (m ++ drop 12 g) f (e_n3 e) (le32 (fi_remote far)) (fi_tlm far / 256) (qi_qfi q) (fi_teid far) (down_len e f)).
  { intros m Hm. apply encap_tunnelled; try done; [lia|apply (ok_n3 e He)|apply le32_bytes|]. apply N.div_lt_upper_bound; lia. }
  assert (Hgf : g = take 12 f ++ drop 12 g).
  { unfold g, encap. by rewrite (drop_app_alt (take 12 f)) by (rewrite take_length; lia). }
  destruct (routed e true g) as [[v0 g0] c0] eqn:Er. cbn [route_result finish] in H. injection H as <- <-. cbn [x_f].
  exists g, c0. split_and!; [rewrite Hgf at 1; apply Hall; rewrite take_length; lia| |done].
  destruct (routed_frame e He true g) as (m & Hm). rewrite Er in Hm. cbn [fst snd] in Hm.
  destruct Hm as [[Hm ->]| ->]; [by apply Hall|]. rewrite Hgf at 1. apply Hall. rewrite take_length. lia.
Qed.

(** ** Decapsulation *)

(** Where the program cuts: after a 20-byte IP header, UDP and GTP-U. *)
Definition cut (f : list N) : nat := 50 + (if gtp_opt f then 8 else 0).
(** IP version of the packet there: its ethertype. *)
Definition inner_type (f : list N) : option (list N) :=
  if cut f + 1 <=? length f then guess_eth_protocol (byte f (cut f)) else None.
(** The frame with the tunnel headers removed. *)
Definition decap (f proto : list N) : list N := take 12 f ++ proto ++ drop (cut f) f.

Lemma decap_length f proto : 12 <= length f -> cut f <= length f -> length proto = 2 -> length (decap f proto) = 14 + (length f - cut f).
Proof. intros H1 H2 H3. unfold decap. rewrite !app_length, take_length, drop_length, H3. lia. Qed.

(** Parser state after decapsulation; false: the inner IP header is incomplete. *)
Definition reparse (g : list N) : bool * pctx :=
  if bool_decide (field g 12 2 = [134; 221]%N) then
    if 54 <=? length g then (true, Pctx 54 (Some 0) None (Some 14) None None None)
    else (false, Pctx 14 (Some 0) None None None None None)
  else
    if 34 <=? length g then (true, Pctx (14 + 4 * N.to_nat (byte g 14 mod 16)) (Some 0) (Some 14) None None None None)
    else (false, Pctx 14 (Some 0) None None None None None).

Lemma decap_field f proto : 12 <= length f -> length proto = 2 -> field (decap f proto) 12 2 = proto.
Proof.
  intros H1 H2. unfold decap. rewrite field_app_r by (rewrite take_length; lia). rewrite take_length.
  replace (12 - 12 `min` length f) with 0 by lia. unfold field. rewrite drop_0. by rewrite take_app_alt.
Qed.

Lemma remove_gtp_eq f d l : gtp f + 8 <= length f ->
  remove_gtp_header (gtp_ctx f) (Xst f d l) =
  match inner_type f with
  | None => Some ((false, gtp_ctx f), Xst f d l)
  | Some proto => Some (reparse (decap f proto), Xst (decap f proto) d l)
  end.
Proof.
  intros Hg. unfold remove_gtp_header, inner_type. cbn [gtp_ctx p_gtp]. rewrite bind_rd1 by (cbn [x_f]; lia). cbn [x_f].
  change (has_opt (byte f (gtp f))) with (gtp_opt f). cbv zeta.
  assert (En : 20 + 8 + 8 + (if gtp_opt f then 8 else 0) = cut f - 14) by (unfold cut; lia).
  assert (Hc : 50 <= cut f) by (unfold cut; lia).
  remember (20 + 8 + 8 + (if gtp_opt f then 8 else 0)) as n eqn:E0. clear E0.
  rewrite !bind_fits. cbn [x_f].
  destruct (Nat.leb_spec (0 + 14) (length f)) as [H1|H1]; cbn [negb].
  2: { destruct (Nat.leb_spec (cut f + 1) (length f)); [lia|done]. }
  rewrite bind_fits. cbn [x_f]. destruct (Nat.leb_spec (n + 14) (length f)) as [H2|H2]; cbn [negb].
  2: { destruct (Nat.leb_spec (cut f + 1) (length f)); [lia|done]. }
  rewrite bind_fits. cbn [x_f]. replace (n + 14) with (cut f) in * by lia.
  destruct (Nat.leb_spec (cut f + 1) (length f)) as [H3|H3]; cbn [negb]; [|done].
  rewrite bind_rd1 by (cbn [x_f]; lia). cbn [x_f].
  destruct (guess_eth_protocol (byte f (cut f))) as [proto|] eqn:Ep; [|done].
  assert (Hp : length proto = 2 /\ (proto = [134; 221]%N \/ proto = [8; 0]%N)).
  { unfold guess_eth_protocol in Ep. repeat case_match; simplify_eq; auto. }
  destruct Hp as [Hp Hpp].
  rewrite bind_rd by (cbn [x_f]; lia). cbn [x_f].
  rewrite bind_wr by (cbn [x_f]; rewrite field_length; lia). cbn [x_f x_dp x_log].
  assert (L1 : length (patch f n (field f 0 14)) = length f) by (apply patch_length; rewrite field_length; lia).
  rewrite bind_wr by (cbn [x_f]; rewrite L1, Hp; lia). cbn [x_f x_dp x_log].
  set (f2 := patch (patch f n (field f 0 14)) (n + 12) proto).
  assert (L2 : length f2 = length f) by (unfold f2; rewrite patch_length; [done|lia]).
  assert (Ed : drop n f2 = decap f proto).
  { unfold f2. rewrite patch_drop by lia. assert (E : drop n (patch f n (field f 0 14)) = take 14 f ++ drop (cut f) f).
    { replace n with (n + 0) at 2 by lia. rewrite patch_drop by lia. change (drop n f) with ([] ++ drop n f). rewrite patch_at by done.
      rewrite field_length by lia. cbn [app]. f_equal. rewrite drop_drop. f_equal. lia. }
    rewrite E. unfold decap. rewrite <- (take_drop 12 (take 14 f)). rewrite take_take. change (12 `min` 14) with 12.
    rewrite <- app_assoc. rewrite patch_at by (rewrite take_length; lia). rewrite Hp. rewrite <- app_assoc. do 2 f_equal.
    rewrite drop_app_alt; [done|]. rewrite drop_length, take_length. lia. }
  unfold bind at 1, shrink_head. cbn [x_f]. destruct (Nat.leb_spec (n + 14) (length f2)) as [H4|H4]; [|lia]. cbn [negb x_dp x_log].
  rewrite Ed. assert (Lg : 14 <= length (decap f proto)) by (rewrite decap_length; lia).
  assert (Eg : field (decap f proto) 12 2 = proto) by (apply decap_field; [lia|done]).
  generalize dependent (decap f proto). intros g Ed Lg Eg.
  unfold context_reinit, parse_ethernet. cbn [p_data p_tcp gtp_ctx p_ip4 p_ip6 p_udp p_gtp]. rewrite bind_assoc, bind_fits. cbn [x_f].
  rewrite (proj2 (Nat.leb_le _ _)) by lia. rewrite bind_assoc, bind_rd by (cbn [x_f]; lia). rewrite bind_ret. cbn [x_f].
  change (0 + 12) with 12. change (0 + 14) with 14. rewrite Eg. unfold reparse. rewrite Eg.
  destruct Hpp as [-> | ->].
  - rewrite bool_decide_true by done. change (be_value [134; 221]%N =? 34525)%N with true. cbv iota.
    unfold parse_ip6. cbn [p_data p_eth p_ip4 p_udp p_tcp p_gtp]. rewrite bind_assoc, bind_fits. cbn [x_f]. change (14 + 40) with 54.
    destruct (Nat.leb_spec 54 (length g)) as [H5|H5]; [|done]. rewrite bind_assoc, bind_rd1 by (cbn [x_f]; lia). by rewrite !bind_ret.
  - rewrite bool_decide_false by done. change (be_value [8; 0]%N =? 34525)%N with false. change (be_value [8; 0]%N =? 2048)%N with true. cbv iota.
    unfold parse_ip4. cbn [p_data p_eth p_ip6 p_udp p_tcp p_gtp]. rewrite bind_assoc, bind_fits. cbn [x_f]. change (14 + 20) with 34.
    destruct (Nat.leb_spec 34 (length g)) as [H5|H5]; [|done]. rewrite bind_assoc, bind_rd1 by (cbn [x_f]; lia).
    rewrite bind_assoc, bind_rd1 by (cbn [x_f]; lia). by rewrite !bind_ret.
Qed.

(** A packet for the UPF itself: ICMP to one of its addresses. *)
Definition ping (e : env) (g : list N) : bool := is_local_ip e (dst4 g) && (byte g 23 =? 1)%N.

Lemma n3_deliver_v4 e c g d l : env_ok e -> p_eth c = Some 0 -> p_ip4 c = Some 14 -> 34 <= length g -> ping e g = false ->
  n3_deliver e c (Xst g d l) = route_result (routed e true g) d (l ++ [tx_n6]).
Proof.
  intros He H1 H2 Hg Hp. unfold n3_deliver. rewrite H1, H2. rewrite bind_assoc, bind_rd by (cbn [x_f]; lia). cbn [x_f].
  change (field g (14 + 16) 4) with (dst4 g). unfold ping in Hp.
  assert (E : forall k : bool -> M verdict, bind (if is_local_ip e (dst4 g) then proto <- rd1 (14 + 9);; ret (proto =? 1)%N else ret false) k (Xst g d l) = k false (Xst g d l)).
  { intros k. destruct (is_local_ip e (dst4 g)); [|done]. rewrite bind_assoc, bind_rd1 by (cbn [x_f]; lia). rewrite bind_ret. cbn [x_f].
    change (14 + 9) with 23. rewrite andb_true_l in Hp. by rewrite Hp. }
  rewrite E. rewrite bind_inc. by apply route_ipv4_eq.
Qed.
Lemma n3_deliver_v6 e c g d l : env_ok e -> p_eth c = Some 0 -> p_ip4 c = None -> p_ip6 c = Some 14 -> 54 <= length g ->
  n3_deliver e c (Xst g d l) = route_result (routed e false g) d (l ++ [tx_n6]).
Proof.
  intros He H1 H2 H3 Hg. unfold n3_deliver. rewrite H1, H2, H3. rewrite bind_ret, bind_inc. by apply route_ipv6_eq.
Qed.

(** ** Relaying (N9) *)
Definition relay (e : env) (f src dst : list N) (teid : N) : list N :=
  let f1 := patch (patch (patch (patch f (gtp f + 4) (be32 teid)) 26 src) 30 dst) 24 [0; 0]%N in
  patch (patch f1 24 (store16 (ipv4_csum (e_diff e) (field f1 14 20)))) (l4 f + 6) [0; 0]%N.

Lemma relay_length e f src dst teid : 34 <= length f -> gtp f + 8 <= length f -> length src = 4 -> length dst = 4 ->
  length (relay e f src dst teid) = length f.
Proof.
  intros H1 H2 Hs Hd. unfold relay. cbv zeta. unfold gtp in *.
  set (g1 := patch f _ _). assert (L1 : length g1 = length f) by (unfold g1; apply patch_length; cbn [length be32]; lia).
  set (g2 := patch g1 _ _). assert (L2 : length g2 = length f) by (unfold g2; rewrite patch_length; lia).
  set (g3 := patch g2 _ _). assert (L3 : length g3 = length f) by (unfold g3; rewrite patch_length; lia).
  set (g4 := patch g3 _ _). assert (L4 : length g4 = length f) by (unfold g4; rewrite patch_length; cbn [length]; lia).
  set (g5 := patch g4 _ _). assert (L5 : length g5 = length f) by (unfold g5; rewrite patch_length; cbn [length store16]; lia).
  rewrite patch_length; [done|cbn [length]; lia].
Qed.

Lemma update_gtp_eq e f d l dst teid : env_ok e -> 34 <= length f -> gtp f + 8 <= length f -> length dst = 4 ->
  update_gtp_tunnel e (gtp_ctx f) (e_n9 e) dst teid (Xst f d l) = Some (tt, Xst (relay e f (e_n9 e) dst teid) d l).
Proof.
  intros He H1 H2 Hd. destruct (ok_n9 e He) as [Hs _]. unfold update_gtp_tunnel, relay. cbn [gtp_ctx p_gtp p_ip4 p_udp]. rewrite bind_ptr.
  rewrite bind_wr by (cbn [x_f length be32]; lia). cbn [x_f x_dp x_log].
  set (g1 := patch f _ _). assert (L1 : length g1 = length f) by (unfold g1; apply patch_length; cbn [length be32]; lia).
  rewrite bind_ptr. rewrite bind_wr by (cbn [x_f]; lia). cbn [x_f x_dp x_log].
  change (14 + 12) with 26. change (14 + 16) with 30. change (14 + 10) with 24.
  set (g2 := patch g1 _ _). assert (L2 : length g2 = length f) by (unfold g2; rewrite patch_length; lia).
  rewrite bind_wr by (cbn [x_f]; lia). cbn [x_f x_dp x_log].
  set (g3 := patch g2 _ _). assert (L3 : length g3 = length f) by (unfold g3; rewrite patch_length; lia).
  rewrite bind_wr by (cbn [x_f length]; lia). cbn [x_f x_dp x_log].
  set (g4 := patch g3 _ _). assert (L4 : length g4 = length f) by (unfold g4; rewrite patch_length; cbn [length]; lia).
  unfold set_ip_csum. rewrite bind_assoc, bind_rd by (cbn [x_f]; lia). cbn [x_f].
  change (14 + 10) with 24.
  rewrite bind_wr by (cbn [x_f length store16]; lia). cbn [x_f x_dp x_log].
  set (g5 := patch g4 _ _). assert (L5 : length g5 = length f) by (unfold g5; rewrite patch_length; cbn [length store16]; lia).
  rewrite bind_ptr. apply wr_eq. cbn [x_f length]. unfold gtp in H2. lia.
Qed.

(** ** What a permitted uplink packet becomes, pings aside *)
Inductive uplink_kind := Relayed | Decapsulated | Untouched.
Definition kind (far : far_info) (ohr : N) : uplink_kind :=
  if N.testbit (fi_ohc far) 0 then Relayed else if (ohr =? 0)%N then Decapsulated else Untouched.

Definition uplink_result (e : env) (f : list N) (far : far_info) (ohr : N) : verdict * list N * list counter :=
  let via '(v, g, c) := (v, g, [tx_n6; c]) in
  match kind far ohr with
  | Relayed => via (routed e true (relay e f (e_n9 e) (le32 (fi_remote far)) (fi_teid far)))
  | Untouched => via (routed e true f)
  | Decapsulated =>
      match inner_type f with
      | None => (ABORTED, f, [])
      | Some proto =>
          let g := decap f proto in
          if fst (reparse g) then via (routed e (negb (bool_decide (proto = [134; 221]%N))) g) else (ABORTED, g, [])
      end
  end.
(** Is the packet a ping for the UPF itself (after decapsulation)? *)
Definition pings_upf (e : env) (f : list N) (far : far_info) (ohr : N) : bool :=
  match kind far ohr, inner_type f with
  | Decapsulated, Some [8; 0]%N => (34 <=? length (decap f [8; 0]%N)) && ping e (decap f [8; 0]%N)
  | _, _ => false
  end.

Lemma gpdu_lengths e f : gpdu e f = true -> 34 <= length f /\ gtp f + 8 <= length f /\ proto4 f = 17%N /\ gtpu e f = true.
Proof.
  intros H. unfold gpdu in H. apply andb_prop in H as [H1 H2]. apply bool_decide_eq_true in H2. apply gtp_type_len in H2.
  destruct (gtpu_len e f H1) as [H3 H4]. split_and!; [done..| |done]. unfold gtpu in H1. repeat (apply andb_prop in H1 as [H1 ?]).
  by apply N.eqb_eq.
Qed.
Lemma inner_type_cases f proto : inner_type f = Some proto ->
  cut f + 1 <= length f /\ length proto = 2 /\ (proto = [134; 221]%N /\ (byte f (cut f) / 16 = 6)%N \/ proto = [8; 0]%N /\ (byte f (cut f) / 16 = 4)%N).
Proof.
  unfold inner_type. destruct (Nat.leb_spec (cut f + 1) (length f)); [|done]. unfold guess_eth_protocol. intros E.
  destruct (N.eqb_spec (byte f (cut f) / 16) 6); [simplify_eq; auto|]. destruct (N.eqb_spec (byte f (cut f) / 16) 4); [simplify_eq; auto|done].
Qed.
Lemma relay_proto e f src dst teid : 34 <= length f -> gtp f + 8 <= length f -> length src = 4 -> length dst = 4 ->
  byte (relay e f src dst teid) 23 = byte f 23.
Proof.
  intros H1 H2 Hs Hd. unfold relay. cbv zeta. unfold gtp in *.
  assert (exists k, l4 f = 14 + 4 * k) as [k Hk] by (eexists; reflexivity).
  set (g1 := patch f _ _). assert (L1 : length g1 = length f) by (unfold g1; apply patch_length; cbn [length be32]; lia).
  set (g2 := patch g1 _ _). assert (L2 : length g2 = length f) by (unfold g2; rewrite patch_length; lia).
  set (g3 := patch g2 _ _). assert (L3 : length g3 = length f) by (unfold g3; rewrite patch_length; lia).
  set (g4 := patch g3 _ _). assert (L4 : length g4 = length f) by (unfold g4; rewrite patch_length; cbn [length]; lia).
  set (g5 := patch g4 _ _). assert (L5 : length g5 = length f) by (unfold g5; rewrite patch_length; cbn [length store16]; lia).
  assert (E : byte g5 23 = byte f 23).
  { unfold g5. rewrite byte_patch_lo by lia. unfold g4. rewrite byte_patch_lo by lia. unfold g3. rewrite byte_patch_lo by lia.
    unfold g2. rewrite byte_patch_lo by lia. unfold g1. by rewrite byte_patch_lo by lia. }
  destruct (decide (23 < l4 f + 6)) as [H|H]; [by rewrite byte_patch_lo by lia|].
  rewrite byte_patch_hi; [done| |cbn [length]; lia]. cbn [length]. lia.
Qed.

Lemma uplink_out_eq e f far ohr d l : env_ok e -> gpdu e f = true -> pings_upf e f far ohr = false ->
  uplink_out e (gtp_ctx f) far ohr (Xst f d l) =
  let '(v, g, c) := uplink_result e f far ohr in Some (v, Xst g d (l ++ c)).
Proof.
  intros He Hg Hp. destruct (gpdu_lengths e f Hg) as (H1 & H2 & H3 & H4). destruct (ok_n9 e He) as [Hn9 _].
  unfold uplink_out, uplink_result, pings_upf, kind in *. destruct (N.testbit (fi_ohc far) 0).
  - unfold bind at 1. rewrite update_gtp_eq by done.
    rewrite (n3_deliver_v4 e); [|done|done|done| |].
    + destruct (routed e true _) as [[v g] c]. cbn [route_result]. by rewrite <- app_assoc.
    + by rewrite relay_length by done.
    + unfold ping. rewrite relay_proto by done. change (byte f 23) with (proto4 f). rewrite H3. by rewrite andb_false_r.
  - destruct (ohr =? 0)%N.
    + unfold bind at 1. rewrite remove_gtp_eq by done. destruct (inner_type f) as [proto|] eqn:Ei; [|by rewrite app_nil_r].
      destruct (inner_type_cases f proto Ei) as (Hc & Hpl & Hpp).
      assert (Eg : field (decap f proto) 12 2 = proto) by (apply decap_field; [lia|done]).
      cbv zeta. unfold reparse. rewrite Eg. destruct Hpp as [[-> _]|[-> _]].
      * rewrite !bool_decide_true by done. cbn [negb]. destruct (Nat.leb_spec 54 (length (decap f [134; 221]%N))) as [Hl|Hl]; cbn [fst]; [|by rewrite app_nil_r].
        rewrite (n3_deliver_v6 e); [|done..]. destruct (routed e false _) as [[v g] c]. cbn [route_result]. by rewrite <- app_assoc.
      * rewrite !bool_decide_false by done. cbn [negb]. destruct (Nat.leb_spec 34 (length (decap f [8; 0]%N))) as [Hl|Hl]; cbn [fst]; [|by rewrite app_nil_r].
        rewrite (n3_deliver_v4 e); [|done..]. destruct (routed e true _) as [[v g] c]. cbn [route_result]. by rewrite <- app_assoc.
    + rewrite (n3_deliver_v4 e); [|done|done|done|done|].
      * destruct (routed e true _) as [[v g] c]. cbn [route_result]. by rewrite <- app_assoc.
      * unfold ping. change (byte f 23) with (proto4 f). rewrite H3. by rewrite andb_false_r.
Qed.

(** A permitted uplink packet that is not a ping for the UPF, in one equation. *)
Lemma xdp_uplink e d f p r far q : env_ok e -> rule_for e d f = Some (p, r) -> gpdu e f = true ->
  permitted e Uplink (N.of_nat (length f)) d r = Some (far, q) -> pings_upf e f far (r_ohr r) = false ->
  xdp e f d = let '(v, g, c) := uplink_result e f far (r_ohr r) in
    Some (v, Xst g (account e Uplink (N.of_nat (length f)) p r q d) (rx_counters e f ++ c ++ [action (verdict_code v)])).
Proof.
  intros He Hr Hg Hp Hping. rewrite xdp_rule. rewrite (rule_for_not_echo _ _ _ _ Hr), Hr. unfold dir_of. rewrite Hg, Hp.
  rewrite uplink_out_eq by done. destruct (uplink_result e f far (r_ohr r)) as [[v g] c]. cbn [finish]. by rewrite app_assoc.
Qed.

(** ** C33.  An uplink packet whose outer IP header has no options leaves with its tunnel headers removed. *)
Definition ip_version (f : list N) (o : nat) : N := (byte f o / 16)%N.
(** A complete IP header at offset [o], and the ethertype for it. *)
Definition ip_at (f : list N) (o : nat) : option (list N) :=
  if (ip_version f o =? 4)%N && (o + 20 <=? length f) then Some [8; 0]%N
  else if (ip_version f o =? 6)%N && (o + 40 <=? length f) then Some [134; 221]%N
  else None.

Lemma cut_payload f : (byte f 14 mod 16 = 5)%N -> cut f = payload f.
Proof. intros H. unfold cut, payload, gtp, l4. rewrite H. done. Qed.

Lemma ip_at_inner f proto : cut f = payload f -> 34 <= length f -> ip_at f (payload f) = Some proto ->
  inner_type f = Some proto /\ fst (reparse (decap f proto)) = true.
Proof.
  intros Hc Hf. unfold ip_at, inner_type, ip_version, guess_eth_protocol, reparse. rewrite Hc. intros H.
  assert (P : payload f = cut f) by done. assert (Hcut : 50 <= cut f) by (unfold cut; lia).
  destruct ((byte f (payload f) / 16 =? 4)%N && _) eqn:E4.
  - apply andb_prop in E4 as [E4 E5]. apply N.eqb_eq in E4. apply Nat.leb_le in E5. simplify_eq.
    rewrite (proj2 (Nat.leb_le _ _)) by lia. rewrite E4. split; [done|].
    rewrite decap_field by (done || lia). rewrite bool_decide_false by done. rewrite decap_length by (done || lia).
    destruct (Nat.leb_spec 34 (14 + (length f - cut f))); [done|lia].
  - destruct ((byte f (payload f) / 16 =? 6)%N && _) eqn:E6; [|done].
    apply andb_prop in E6 as [E6 E5]. apply N.eqb_eq in E6. apply Nat.leb_le in E5. simplify_eq.
    rewrite (proj2 (Nat.leb_le _ _)) by lia. rewrite E6. split; [done|].
    rewrite decap_field by (done || lia). rewrite bool_decide_true by done. rewrite decap_length by (done || lia).
    destruct (Nat.leb_spec 54 (14 + (length f - cut f))); [done|lia].
Qed.

(** ICMP to one of the UPF's addresses in the tunnel. *)
Definition ping_at (e : env) (f : list N) (o : nat) : bool :=
  (ip_version f o =? 4)%N && (byte f (o + 9) =? 1)%N &&
  (bool_decide (field f (o + 16) 4 = e_n3 e) || bool_decide (field f (o + 16) 4 = e_n9 e)).

Lemma decap_at f proto k n : 12 <= length f -> length proto = 2 -> 14 <= k -> field (decap f proto) k n = field f (cut f + (k - 14)) n.
Proof.
  intros H1 H2 H3. unfold decap. rewrite app_assoc. assert (L : length (take 12 f ++ proto) = 14) by (rewrite app_length, take_length; lia).
  rewrite field_app_r by lia. rewrite L. by rewrite field_drop.
Qed.
Lemma decap_byte f proto k : 12 <= length f -> length proto = 2 -> 14 <= k -> byte (decap f proto) k = byte f (cut f + (k - 14)).
Proof.
  intros H1 H2 H3. unfold decap. rewrite app_assoc. assert (L : length (take 12 f ++ proto) = 14) by (rewrite app_length, take_length; lia).
  rewrite byte_app_r by lia. rewrite L. by rewrite byte_drop.
Qed.
Lemma ping_at_decap e f far ohr : cut f = payload f -> 34 <= length f -> ping_at e f (payload f) = false -> pings_upf e f far ohr = false.
Proof.
  intros Hc Hf Hp. unfold pings_upf. destruct (kind far ohr); [done| |done]. destruct (inner_type f) as [proto|] eqn:Ei; [|done].
  destruct (inner_type_cases f proto Ei) as (H1 & H2 & [[-> Hv]|[-> Hv]]); [done|].
  destruct (34 <=? _); [|done]. rewrite andb_true_l. unfold ping, dst4.
  rewrite decap_at, decap_byte by (done || lia). rewrite Hc. change (30 - 14) with 16. change (23 - 14) with 9.
  unfold ping_at, ip_version in Hp. rewrite Hc in Hv. rewrite Hv in Hp. change (4 =? 4)%N with true in Hp. rewrite andb_true_l in Hp.
  unfold is_local_ip. by rewrite andb_comm.
Qed.

Theorem uplink_decapsulated :
  forall e d f p r far q proto v s, env_ok e -> rule_for e d f = Some (p, r) -> gpdu e f = true ->
    permitted e Uplink (N.of_nat (length f)) d r = Some (far, q) ->
    N.testbit (fi_ohc far) 0 = false -> r_ohr r = 0%N ->
    (byte f 14 mod 16 = 5)%N -> ip_at f (payload f) = Some proto -> ping_at e f (payload f) = false ->
    xdp e f d = Some (v, s) ->
    exists c, routed e (bool_decide (proto = [8; 0]%N)) (take 12 f ++ proto ++ drop (payload f) f) = (v, x_f s, c) /\
              drop 12 (x_f s) = proto ++ drop (payload f) f.
Proof.
  intros e d f p r far q proto v s He Hr Hg Hp Hn9 Hohr Hihl Hip Hping H.
  destruct (gpdu_lengths e f Hg) as (H1 & H2 & H3 & H4). pose proof (cut_payload f Hihl) as Hc.
  destruct (ip_at_inner f proto Hc H1 Hip) as [Hi Hre].
  assert (Hpu : pings_upf e f far (r_ohr r) = false) by (by apply ping_at_decap).
  rewrite (xdp_uplink e d f p r far q He Hr Hg Hp Hpu) in H. unfold uplink_result, kind in H. rewrite Hn9, Hohr in H.
  change (0 =? 0)%N with true in H. cbv iota in H. rewrite Hi in H. cbv zeta in H. rewrite Hre in H.
  destruct (inner_type_cases f proto Hi) as (Hcf & Hpl & Hpp).
  assert (Eb : negb (bool_decide (proto = [134; 221]%N)) = bool_decide (proto = [8; 0]%N)).
  { destruct Hpp as [[-> _]|[-> _]]; by rewrite ?bool_decide_true, ?bool_decide_false by done. }
  rewrite Eb in H. unfold decap in H. rewrite Hc in H. set (g := take 12 f ++ proto ++ drop (payload f) f) in *.
  destruct (routed e (bool_decide (proto = [8; 0]%N)) g) as [[v0 g0] c0] eqn:Er. cbn beta iota in H. injection H as <- <-. cbn [x_f].
  exists c0. split; [done|]. destruct (routed_frame e He (bool_decide (proto = [8; 0]%N)) g) as (m & Hm).
  rewrite Er in Hm. cbn [fst snd] in Hm.
  assert (Eg : drop 12 g = proto ++ drop (payload f) f) by (unfold g; by rewrite drop_app_alt by (rewrite take_length; lia)).
  destruct Hm as [[Hm ->]| ->]; [|done]. by rewrite drop_app_alt.
Qed.

(** ** C34 *)
Lemma field_drop12 (g g' : list N) o n : drop 12 g = drop 12 g' -> 12 <= o -> field g o n = field g' o n.
Proof.
  intros E H. replace o with (12 + (o - 12)) by lia. rewrite <- !field_drop. by rewrite E.
Qed.
Lemma byte_drop12 (g g' : list N) o : drop 12 g = drop 12 g' -> 12 <= o -> byte g o = byte g' o.
Proof.
  intros E H. replace o with (12 + (o - 12)) by lia. rewrite <- !byte_drop. by rewrite E.
Qed.
Theorem tunnel_round_trip :
  forall e1 d1 f p1 r1 far1 q1 v1 s1 e2 d2 g p2 r2 far2 q2 v2 s2,
    env_ok e1 -> env_ok e2 ->
    (* [f] leaves UPF 1 in a tunnel *)
    rule_for e1 d1 f = Some (p1, r1) -> gpdu e1 f = false ->
    permitted e1 Downlink (N.of_nat (length f)) d1 r1 = Some (far1, q1) ->
    far_fits far1 -> (qi_qfi q1 < 64)%N -> (down_len e1 f + 44 < 65536)%N -> e_head e1 <> None ->
    xdp e1 f d1 = Some (v1, s1) ->
    (* it arrives, with other MAC addresses, at UPF 2, which removes the tunnel *)
    12 <= length g -> drop 12 g = drop 12 (x_f s1) ->
    rule_for e2 d2 g = Some (p2, r2) -> gpdu e2 g = true ->
    permitted e2 Uplink (N.of_nat (length g)) d2 r2 = Some (far2, q2) ->
    N.testbit (fi_ohc far2) 0 = false -> r_ohr r2 = 0%N ->
    (* [f] is an IP packet (version as in its Ethernet header), not a ping for UPF 2 *)
    ip_version f 14 = (if down4 e1 f then 4 else 6)%N -> ping_at e2 f 14 = false ->
    xdp e2 g d2 = Some (v2, s2) ->
    drop 14 (x_f s2) = drop 14 f.
Proof.
  intros e1 d1 f p1 r1 far1 q1 v1 s1 e2 d2 g p2 r2 far2 q2 v2 s2 He1 He2 Hr1 Hg1 Hp1 Hff Hq Hlen Hh Hx1 Hgl Hgd Hr2 Hg2 Hp2 Hohc Hohr Hver Hping Hx2.
  destruct (downlink_encapsulated e1 d1 f p1 r1 far1 q1 v1 s1 He1 Hr1 Hg1 Hp1 Hff Hq Hlen Hh Hx1) as (_ & _ & _ & T & _).
  assert (B14 : byte g 14 = 69%N) by (rewrite (byte_drop12 g (x_f s1)) by (done || lia); apply T).
  assert (Hihl : (byte g 14 mod 16 = 5)%N) by (by rewrite B14).
  assert (Hgtp : gtp g = 42) by (unfold gtp, l4; by rewrite Hihl).
  assert (B42 : byte g 42 = 52%N) by (rewrite (byte_drop12 g (x_f s1)) by (done || lia); apply T).
  assert (Hpay : payload g = 58) by (unfold payload, gtp_opt; rewrite Hgtp, B42; done).
  assert (Hd : drop 58 g = drop 14 f).
  { transitivity (drop 58 (x_f s1)); [|apply T]. change 58 with (12 + 46). rewrite <- !drop_drop. by rewrite Hgd. }
  assert (Hbyte : forall k, byte g (58 + k) = byte f (14 + k)) by (intros k; rewrite <- !byte_drop; by rewrite Hd).
  assert (Hfield : forall k n, field g (58 + k) n = field f (14 + k) n) by (intros k n; rewrite <- !field_drop; by rewrite Hd).
  destruct (rule_for_kind _ _ _ _ Hr1) as [?|[_ Hk]]; [congruence|].
  assert (Hlf : 34 <= length f /\ (down4 e1 f = false -> 54 <= length f)).
  { destruct Hk as [H4|[H4 H6]].
    - destruct (down_ctx_ok e1 f (or_introl H4)) as (_ & _ & ?). split; [done|]. congruence.
    - destruct (down6_ctx_ok f H6) as [C6 E6]. pose proof (c_ip6 _ _ C6) as L. rewrite E6 in L. simpl in L. split; intros; lia. }
  destruct Hlf as [Hlf Hlf6].
  assert (Hlg : length g - 58 = length f - 14) by (rewrite <- !drop_length; by rewrite Hd).
  assert (exists proto, ip_at g (payload g) = Some proto) as [proto Hip].
  { rewrite Hpay. unfold ip_at, ip_version in *. change (byte g 58) with (byte g (58 + 0)). rewrite (Hbyte 0). change (14 + 0) with 14. rewrite Hver. change (58 + 20) with 78. change (58 + 40) with 98. destruct (down4 e1 f).
    - destruct (Nat.leb_spec 78 (length g)); [eauto|lia].
    - specialize (Hlf6 eq_refl). destruct (Nat.leb_spec 98 (length g)); [eauto|lia]. }
  assert (Hpg : ping_at e2 g (payload g) = false).
  { rewrite Hpay. unfold ping_at, ip_version in *. change (byte g 58) with (byte g (58 + 0)). rewrite (Hbyte 0), (Hbyte 9), (Hfield 16 4). done. }
  destruct (uplink_decapsulated e2 d2 g p2 r2 far2 q2 proto v2 s2 He2 Hr2 Hg2 Hp2 Hohc Hohr Hihl Hip Hpg Hx2) as (c & _ & E).
  assert (Hpl : length proto = 2).
  { unfold ip_at in Hip. repeat case_match; simplify_eq; done. }
  transitivity (drop 2 (drop 12 (x_f s2))); [by rewrite drop_drop|]. rewrite E. rewrite drop_app_alt by done. by rewrite Hpay.
Qed.

(** ** C35 *)
Lemma field_patch_eq (f z : list N) o n : n = length z -> o + n <= length f -> field (patch f o z) o n = z.
Proof. intros ->. apply field_patch_same. Qed.

Theorem uplink_relayed_partial :
  forall e d f p r far q v s, env_ok e -> Forall (fun b => b < 256)%N f -> rule_for e d f = Some (p, r) -> gpdu e f = true ->
    permitted e Uplink (N.of_nat (length f)) d r = Some (far, q) ->
    N.testbit (fi_ohc far) 0 = true -> far_fits far -> (byte f 14 mod 16 = 5)%N ->
    xdp e f d = Some (v, s) ->
    exists g c, routed e true g = (v, x_f s, c) /\ length g = length f /\
      field g 26 4 = e_n9 e /\ field g 30 4 = le32 (fi_remote far) /\
      be_value (field g 46 4) = fi_teid far /\ field g 40 2 = [0; 0]%N /\ checksum_ok (field g 14 20) /\
      (forall i, ~ (24 <= i < 34) -> ~ (40 <= i < 42) -> ~ (46 <= i < 50) -> byte g i = byte f i).
Proof.
  intros e d f p r far q v s He Hby Hr Hg Hp Hn9 [Htlm Hteid] Hihl H.
  destruct (gpdu_lengths e f Hg) as (H1 & H2 & H3 & H4).
  assert (Hl4 : l4 f = 34) by (unfold l4; by rewrite Hihl). assert (Hgtp : gtp f = 42) by (unfold gtp; by rewrite Hl4).
  assert (Hpu : pings_upf e f far (r_ohr r) = false) by (unfold pings_upf, kind; by rewrite Hn9).
  rewrite (xdp_uplink e d f p r far q He Hr Hg Hp Hpu) in H. unfold uplink_result, kind in H. rewrite Hn9 in H.
  destruct (ok_n9 e He) as [Ln9 Bn9]. destruct (le32_bytes (fi_remote far)) as [Lr Br].
  exists (relay e f (e_n9 e) (le32 (fi_remote far)) (fi_teid far)).
  destruct (routed e true _) as [[v0 g0] c0] eqn:Er. cbn beta iota in H. injection H as <- <-. cbn [x_f]. exists c0. split; [done|].
  rewrite relay_length by (done || lia). split; [done|]. clear Er.
  unfold relay. cbv zeta. rewrite Hgtp, Hl4. change (42 + 4) with 46. change (34 + 6) with 40. rewrite Hgtp in H2.
  remember (le32 (fi_remote far)) as dst eqn:Edst. clear Edst.
  set (g1 := patch f _ _). assert (L1 : length g1 = length f) by (unfold g1; apply patch_length; cbn [length be32]; lia).
  set (g2 := patch g1 _ _). assert (L2 : length g2 = length f) by (unfold g2; rewrite patch_length; lia).
  set (g3 := patch g2 _ _). assert (L3 : length g3 = length f) by (unfold g3; rewrite patch_length; lia).
  set (g4 := patch g3 _ _). assert (L4 : length g4 = length f) by (unfold g4; rewrite patch_length; cbn [length]; lia).
  set (ck := store16 _). assert (Lck : length ck = 2) by done.
  set (g5 := patch g4 _ _). assert (L5 : length g5 = length f) by (unfold g5; rewrite patch_length; lia).
  assert (F26 : field g4 26 4 = e_n9 e).
  { unfold g4. rewrite field_patch_hi by (cbn [length]; lia). unfold g3. rewrite field_patch_lo by lia. unfold g2. apply field_patch_eq; lia. }
  assert (F30 : field g4 30 4 = dst).
  { unfold g4. rewrite field_patch_hi by (cbn [length]; lia). unfold g3. apply field_patch_eq; lia. }
  assert (F14 : field g4 14 10 = field f 14 10).
  { unfold g4. rewrite field_patch_lo by lia. unfold g3. rewrite field_patch_lo by lia. unfold g2. rewrite field_patch_lo by lia.
    unfold g1. by rewrite field_patch_lo by lia. }
  assert (F24 : field g4 24 2 = [0; 0]%N) by (unfold g4; apply field_patch_eq; cbn [length]; lia).
  assert (Split : forall g, 34 <= length g -> field g 14 20 = field g 14 10 ++ field g 24 2 ++ field g 26 4 ++ field g 30 4).
  { intros g Lg. unfold field. rewrite <- (take_drop 10 (take 20 (drop 14 g))). rewrite take_take. change (10 `min` 20) with 10. f_equal.
    rewrite <- (take_drop 2 (drop 10 (take 20 (drop 14 g)))). rewrite skipn_firstn_comm, drop_drop, take_take. change (2 `min` (20 - 10)) with 2. f_equal.
    rewrite skipn_firstn_comm, drop_drop. rewrite <- (take_drop 4 (take (20 - 10 - 2) _)). rewrite take_take. change (4 `min` (20 - 10 - 2)) with 4. f_equal.
    rewrite skipn_firstn_comm, drop_drop. done. }
  split_and!.
  - rewrite field_patch_lo by lia. unfold g5. rewrite field_patch_hi by lia. done.
  - rewrite field_patch_lo by lia. unfold g5. rewrite field_patch_hi by lia. done.
  - rewrite field_patch_hi by (cbn [length]; lia). unfold g5. rewrite field_patch_hi by lia.
    unfold g4. rewrite field_patch_hi by (cbn [length]; lia). unfold g3. rewrite field_patch_hi by lia. unfold g2. rewrite field_patch_hi by lia.
    unfold g1. rewrite field_patch_eq by (cbn [length be32]; lia). apply be32_value. done.
  - apply field_patch_eq; cbn [length]; lia.
  - rewrite field_patch_lo by lia. rewrite Split by lia. unfold g5 at 1. rewrite field_patch_lo by lia. rewrite F14.
    unfold g5 at 1. rewrite (field_patch_eq g4 ck 24 2) by lia. unfold g5. rewrite !field_patch_hi by lia. rewrite F26, F30.
    unfold ck. rewrite (Split g4) by lia. rewrite F14, F24, F26, F30. apply ip_checksum_correct.
    + apply He.
    + apply Forall_app; split; [|by apply Forall_app]. unfold field. apply Forall_take, Forall_drop. done.
    + rewrite field_length by lia. by exists 5.
  - intros i N1 N2 N3.
    destruct (decide (i < 24)) as [Hi|Hi].
    + rewrite byte_patch_lo by lia. unfold g5. rewrite byte_patch_lo by lia. unfold g4. rewrite byte_patch_lo by lia.
      unfold g3. rewrite byte_patch_lo by lia. unfold g2. rewrite byte_patch_lo by lia. unfold g1. by rewrite byte_patch_lo by lia.
    + assert (E5 : byte g5 i = byte f i).
      { unfold g5. rewrite byte_patch_hi by lia. unfold g4. rewrite byte_patch_hi by (cbn [length]; lia).
        unfold g3. rewrite byte_patch_hi by lia. unfold g2. rewrite byte_patch_hi by lia. unfold g1.
        destruct (decide (i < 46)); [by rewrite byte_patch_lo by lia|]. by rewrite byte_patch_hi by (cbn [length be32]; lia). }
      destruct (decide (i < 40)); [by rewrite byte_patch_lo by lia|]. by rewrite byte_patch_hi by (cbn [length]; lia).
Qed.
