(** C37: the answer to a ping of the UPF's own address, as a frame (n3n6_entrypoint.c:347-356, icmp.h:81-109). *)
From Verif Require Import Base IdTracker SdfParser SdfProps MapOps SdfMatch Pfcp Qer Csum Xdp XdpBase XdpProps XdpRules XdpFrames XdpEcho XdpEx.
Open Scope nat_scope.

(** ** Specification *)

(** [r] answers the echo request in the frame [g] (Ethernet, IPv4 without options, ICMP of [n] bytes for any [n]: there may be padding
    behind it): MAC addresses and IP addresses are exchanged, type and code are those of an echo reply, identifier, sequence
    number and data are those of the request, and both checksums verify if they did in the request, unless the ICMP message
    is zero apart from type, code and checksum. *)
Record ping_answer (g r : list N) : Prop := PingAnswer {
  pa_length : length r = length g;
  pa_macs : field r 0 6 = field g 6 6 /\ field r 6 6 = field g 0 6;
  pa_header : field r 12 12 = field g 12 12;
  pa_addr : src4 r = dst4 g /\ dst4 r = src4 g;
  pa_ip_sum : checksum_ok (field r 14 20) <-> checksum_ok (field g 14 20);
  pa_type : byte r 34 = 0%N /\ byte r 35 = 0%N;
  pa_rest : drop 38 r = drop 38 g;
  pa_sum : forall n, 4 <= n -> 34 + n <= length g -> ~ Forall (fun b => b = 0%N) (field g 38 (n - 4)) ->
    (checksum_ok (field r 34 n) <-> checksum_ok (field g 34 n)) }.

(** In terms of the function of Csum.v: MAC addresses and IP addresses are exchanged, the
    ICMP message becomes [m], and everything else stays. *)
Record answers (g r m : list N) : Prop := Answers {
  an_length : length r = length g;
  an_macs : field r 0 6 = field g 6 6 /\ field r 6 6 = field g 0 6;
  an_header : field r 12 14 = field g 12 14;
  an_addr : src4 r = dst4 g /\ dst4 r = src4 g;
  an_message : drop 34 r = m }.
(** An echo request inside [g]. *)
Definition echo_inside (g : list N) : bool := (42 <=? length g) && (byte g 34 =? 8)%N.

(** ** The frame the program makes *)
Definition swapped (g : list N) : list N :=
  let g1 := patch g 6 (field g 0 6) in
  let g2 := patch g1 0 (field g 6 6) in
  let g3 := patch g2 30 (field g2 26 4) in
  patch g3 26 (field g2 30 4).
Definition ponged (g : list N) : list N :=
  let s := swapped g in
  let s1 := patch (patch s 34 [0]%N) 35 [0]%N in
  patch s1 36 (store16 (csum_replace (load16 (byte s1 36) (byte s1 37)) (load16 (byte s 34) (byte s 35)) (load16 0 0))).

Lemma swapped_spec g : 34 <= length g ->
  length (swapped g) = length g /\ (field (swapped g) 0 6 = field g 6 6 /\ field (swapped g) 6 6 = field g 0 6) /\
  field (swapped g) 12 14 = field g 12 14 /\ (src4 (swapped g) = dst4 g /\ dst4 (swapped g) = src4 g) /\
  drop 34 (swapped g) = drop 34 g.
Proof.
  intros H. unfold swapped, src4, dst4. cbv zeta.
  set (g1 := patch g _ _). assert (L1 : length g1 = length g) by (unfold g1; apply patch_length; len).
  set (g2 := patch g1 _ _). assert (L2 : length g2 = length g) by (unfold g2; rewrite patch_length; len).
  set (g3 := patch g2 _ _). assert (L3 : length g3 = length g) by (unfold g3; rewrite patch_length; len).
  set (g4 := patch g3 _ _). assert (L4 : length g4 = length g) by (unfold g4; rewrite patch_length; len).
  split; [done|]. split; [split|].
  - fpeel g4. fpeel g3. unfold g2. by rewrite field_patch_eq by len.
  - fpeel g4. fpeel g3. fpeel g2. unfold g1. by rewrite field_patch_eq by len.
  - split; [fpeel g4; fpeel g3; fpeel g2; by fpeel g1|]. split; [split|].
    + unfold g4. rewrite field_patch_eq by len. fpeel g2. by fpeel g1.
    + fpeel g4. unfold g3. rewrite field_patch_eq by len. fpeel g2. by fpeel g1.
    + unfold g4. rewrite drop_patch_ge by len. unfold g3. rewrite drop_patch_ge by len.
      unfold g2. rewrite drop_patch_ge by len. unfold g1. by rewrite drop_patch_ge by len.
Qed.

Lemma prepare_eq c g d l : p_eth c = Some 0 -> p_ip4 c = Some 14 -> 34 <= length g ->
  prepare_icmp_echo_reply c (Xst g d l) =
  if echo_inside g then Some (true, Xst (ponged g) d l) else Some (false, Xst (swapped g) d l).
Proof.
  intros H1 H2 Hg. destruct (swapped_spec g Hg) as (L & _ & _ & _ & Hd).
  assert (Hb : byte (swapped g) 34 = byte g 34).
  { pose proof (byte_drop (swapped g) 34 0) as E1. pose proof (byte_drop g 34 0) as E2. rewrite Hd in E1. rewrite !Nat.add_0_r in *. congruence. }
  unfold prepare_icmp_echo_reply, ponged. cbv zeta. rewrite H1, H2. rewrite bind_ptr.
  unfold swap_mac. rewrite bind_assoc, bind_rd by len. rewrite bind_assoc, bind_rd by len. cbn [x_f].
  change (0 + 6) with 6. rewrite bind_assoc, bind_wr by len. cbn [x_f x_dp x_log].
  set (g1 := patch g _ _). assert (L1 : length g1 = length g) by (unfold g1; apply patch_length; len).
  rewrite bind_wr by len. cbn [x_f x_dp x_log].
  set (g2 := patch g1 _ _). assert (L2 : length g2 = length g) by (unfold g2; rewrite patch_length; len).
  rewrite bind_fits. cbn [x_f]. change (14 + 20) with 34. rewrite (proj2 (Nat.leb_le 34 (length g2))) by lia. cbn [negb].
  unfold swap_ip. rewrite bind_assoc, bind_rd by len. rewrite bind_assoc, bind_rd by len. cbn [x_f].
  change (14 + 16) with 30. change (14 + 12) with 26.
  rewrite bind_assoc, bind_wr by len. cbn [x_f x_dp x_log].
  set (g3 := patch g2 _ _). assert (L3 : length g3 = length g) by (unfold g3; rewrite patch_length; len).
  rewrite bind_wr by len. cbn [x_f x_dp x_log].
  change (patch g3 26 (field g2 30 4)) with (swapped g). clear L1 L2 L3. clear g1 g2 g3.
  set (s := swapped g) in *. clearbody s.
  rewrite bind_fits. cbn [x_f]. unfold echo_inside. change (34 + 8) with 42. rewrite L.
  destruct (Nat.leb_spec 42 (length g)) as [H42|H42]; cbn [negb andb]; [|done].
  rewrite bind_rd1 by len. cbn [x_f]. rewrite Hb. destruct (byte g 34 =? 8)%N; cbn [negb]; [|done].
  change (14 + 21) with 35. change (14 + 22) with 36. change (14 + 23) with 37.
  rewrite bind_rd1 by len. rewrite bind_wr by len. cbn [x_f x_dp x_log].
  set (s1 := patch s _ _). assert (L1 : length s1 = length g) by (unfold s1; rewrite patch_length; len).
  rewrite bind_wr by len. cbn [x_f x_dp x_log].
  set (s2 := patch s1 _ _). assert (L2 : length s2 = length g) by (unfold s2; rewrite patch_length; len).
  rewrite bind_rd1 by len. rewrite bind_rd1 by len. cbn [x_f]. rewrite bind_wr by len. cbn [x_f x_dp x_log].
  done.
Qed.

Lemma ponged_spec g : echo_inside g = true -> exists m, icmp_reply (drop 34 g) = Some m /\ answers g (ponged g) m.
Proof.
  unfold echo_inside. intros H. apply andb_prop in H as [H42 H8]. apply Nat.leb_le in H42. apply N.eqb_eq in H8.
  destruct (swapped_spec g ltac:(lia)) as (L & [M1 M2] & Hh & [A1 A2] & Hd). unfold ponged. cbv zeta.
  set (s := swapped g) in *. clearbody s.
  assert (H8' : byte (drop 34 g) 0 = 8%N) by (rewrite byte_drop; done).
  assert (Ld : 8 <= length (drop 34 g)) by (rewrite drop_length; lia).
  assert (B : forall k, byte s (34 + k) = byte (drop 34 g) k) by (intros k; by rewrite <- Hd, byte_drop).
  set (s1 := patch s 34 [0]%N). assert (L1 : length s1 = length g) by (unfold s1; rewrite patch_length; len).
  set (s2 := patch s1 35 [0]%N). assert (L2 : length s2 = length g) by (unfold s2; rewrite patch_length; len).
  assert (B2 : byte s2 36 = byte (drop 34 g) 2 /\ byte s2 37 = byte (drop 34 g) 3).
  { split; unfold s2; rewrite byte_patch_hi by len; unfold s1; rewrite byte_patch_hi by len; apply (B 2) || apply (B 3). }
  destruct B2 as [-> ->]. rewrite (B 0 : byte s 34 = _), (B 1 : byte s 35 = _).
  set (s3 := patch s2 _ _). assert (L3 : length s3 = length g) by (unfold s3; rewrite patch_length; len).
  assert (D3 : drop 34 s3 = patch (patch (patch (drop 34 g) 0 [0]%N) 1 [0]%N) 2
     (store16 (csum_replace (load16 (byte (drop 34 g) 2) (byte (drop 34 g) 3)) (load16 (byte (drop 34 g) 0) (byte (drop 34 g) 1)) (load16 0 0)))).
  { unfold s3. change 36 with (34 + 2). rewrite patch_drop by len. f_equal. unfold s2. change 35 with (34 + 1). rewrite patch_drop by len. f_equal.
    unfold s1. change 34 with (34 + 0) at 2. rewrite patch_drop by len. by rewrite Hd. }
  destruct (drop 34 g) as [|t [|co [|k0 [|k1 rest]]]] eqn:Eg; cbn [length] in Ld; try lia.
  cbn [byte nth] in D3, H8'. unfold byte in D3, H8'. cbn [nth] in D3, H8'. subst t. unfold patch in D3. cbn [take drop app length Nat.add store16] in D3.
  unfold icmp_reply. change (8 =? 8)%N with true. cbv iota. eexists. split; [reflexivity|].
  constructor; [done|..].
  - split; fpeel s3; fpeel s2; fpeel s1; done.
  - fpeel s3. fpeel s2. by fpeel s1.
  - unfold src4, dst4 in *. split; fpeel s3; fpeel s2; fpeel s1; done.
  - rewrite D3. done.
Qed.

(** The answer is a downlink packet for the rules. *)
Lemma answer_down4 e g r m : answers g r m -> 34 <= length g -> field g 12 2 = [8; 0]%N -> byte g 23 = 1%N ->
  down4 e r = true /\ byte r 23 = 1%N.
Proof.
  intros [L _ Hh _ _] H Ht Hp.
  assert (E1 : field r 12 2 = field g 12 2).
  { pose proof (f_equal (fun x => take 2 x) Hh) as E. unfold field in *. rewrite !take_take in E. done. }
  assert (E2 : byte r 23 = byte g 23).
  { assert (field r 23 1 = field g 23 1) as E.
    { pose proof (f_equal (fun x => take 1 (drop 11 x)) Hh) as E. unfold field in *. cbv beta in E. rewrite !skipn_firstn_comm, !drop_drop, !take_take in E. done. }
    rewrite !byte_field in E by lia. by simplify_eq. }
  rewrite Hp in E2. split; [|done]. unfold down4, gtpu, is_ip4, ethertype, proto4. rewrite E1, E2, Ht, L.
  rewrite (proj2 (Nat.leb_le 14 (length g))) by lia. rewrite (proj2 (Nat.leb_le 34 (length g))) by lia. done.
Qed.

(** Verdict, frame and maps after the packet; the counters aside. *)
Definition outcome (r : option (verdict * xst)) : option (verdict * list N * dp) :=
  match r with Some (v, s) => Some (v, x_f s, x_dp s) | None => None end.

Lemma finish_outcome r : outcome (finish r) = outcome r.
Proof. destruct r as [[v s]|]; done. Qed.

(** After decapsulation the program handles the answer as if it had come in from the core network. *)
Lemma n6_again e c r d l : env_ok e -> down4 e r = true -> byte r 23 = 1%N -> 34 <= length r ->
  ctx_ok (length r) c -> p_ip4 c = Some 14 -> p_udp c = None -> p_tcp c = None ->
  outcome (handle_n6_packet_ipv4 e c (Xst r d l)) = outcome (xdp e r d).
Proof.
  intros He H4 Hp Hl Hc Hi Hu Ht. rewrite (handle_n6_ipv4_rule e c r 14 d l Hc Hi).
  assert (Er : rule4 c r 14 d = rule_for e d r).
  { rewrite <- (rule4_rule_for e) by done. unfold rule4, ports_of, down4_ctx. rewrite Hu, Ht. unfold proto4. rewrite Hp. done. }
  rewrite Er, xdp_rule, finish_outcome. destruct (down4_not_gpdu e r H4) as [Hg Hec]. rewrite Hec. unfold dir_of. rewrite Hg.
  destruct (rule_for e d r) as [[p ru]|]; [|done]. cbn [forward_result]. rewrite (n6_forward_eq _ _ _ _ _ (r_ohr ru)).
  destruct ru as [fid qid ohr]. cbn [r_far r_qer r_ohr].
  destruct (permitted e Downlink (N.of_nat (length r)) d (Rule fid qid ohr)) as [[far q]|]; [|done].
  unfold downlink_out. destruct (down_ctx_ok e r (or_introl H4)) as (C1 & C2 & _).
  rewrite (send_eq e He c r _ _ _ _ _ _ (be_value (field r 16 2))); [|done|by unfold ctx_len; rewrite Hi|lia|done].
  rewrite (send_eq e He (down_ctx e r) r _ _ _ _ _ _ (down_len e r)); [|done|done|lia|done].
  unfold down_len. rewrite H4. destruct (e_head e); [|done]. by destruct (routed e true _) as [[v g] k].
Qed.

(** ** C37 *)

Lemma field_bytes f a n : Forall (fun b => b < 256)%N f -> Forall is_byte (field f a n).
Proof. intros H. unfold field, is_byte. by apply Forall_take, Forall_drop. Qed.

Lemma swap_sum g r m : answers g r m -> Forall (fun b => b < 256)%N g -> Forall (fun b => b < 256)%N r -> 34 <= length g ->
  checksum_ok (field r 14 20) <-> checksum_ok (field g 14 20).
Proof.
  intros [L _ Hh [A1 A2] _] Bg Br Hl. rewrite !checksum_ok_le by (by apply field_bytes).
  assert (forall x : list N, 34 <= length x -> total le (field x 14 20) = (total le (field x 14 12) + (total le (src4 x) + total le (dst4 x)))%N) as T.
  { intros x Hx. unfold field at 1. change 20 with (12 + (4 + 4)). rewrite <- (take_take_drop (drop 14 x) 12), drop_drop. change (14 + 12) with 26.
    rewrite total_app by (rewrite take_length, drop_length; replace (12 `min` (length x - 14)) with 12 by lia; by exists 6). f_equal.
    rewrite <- (take_take_drop (drop 26 x) 4), drop_drop. change (26 + 4) with 30.
    by rewrite total_app by (rewrite take_length, drop_length; replace (4 `min` (length x - 26)) with 4 by lia; by exists 2). }
  rewrite !T by lia. rewrite A1, A2.
  assert (field r 14 12 = field g 14 12) as ->.
  { pose proof (f_equal (fun x => drop 2 x) Hh) as E. cbv beta in E. unfold field in *. rewrite !skipn_firstn_comm, !drop_drop in E. done. }
  by rewrite (N.add_comm (total le (dst4 g))).
Qed.

Lemma answers_ping g r m : Forall (fun b => b < 256)%N g -> Forall (fun b => b < 256)%N r -> 42 <= length g ->
  icmp_reply (drop 34 g) = Some m -> answers g r m -> ping_answer g r.
Proof.
  intros Bg Br Hl Hm Ha. pose proof Ha as [L HM Hh A Hd].
  assert (D34 : forall x n, field x 34 n = take n (drop 34 x)) by done.
  pose proof Hm as Hm0. unfold icmp_reply in Hm. destruct (drop 34 g) as [|t [|co [|k0 [|k1 rest]]]] eqn:Eg; try done.
  destruct (t =? 8)%N eqn:Et; [|done]. apply (inj Some) in Hm. rewrite <- Hm in Hd.
  assert (R38 : drop 38 r = rest) by (change 38 with (34 + 4); rewrite <- drop_drop, Hd; done).
  assert (G38 : drop 38 g = rest) by (change 38 with (34 + 4); rewrite <- drop_drop, Eg; done).
  constructor; [done|done|..].
  - pose proof (f_equal (fun x => take 12 x) Hh) as E. unfold field in *. rewrite !take_take in E. done.
  - done.
  - apply (swap_sum g r m Ha Bg Br). lia.
  - pose proof (byte_drop r 34 0) as E0. pose proof (byte_drop r 34 1) as E1. rewrite Hd in E0, E1. by split.
  - by rewrite R38, G38.
  - intros n Hn Hln Hz. rewrite !D34, Eg.
    assert (exists j, n = 4 + j) as [j ->] by (exists (n - 4); lia). replace (4 + j - 4) with j in Hz by lia.
    assert (Er : icmp_reply (take (4 + j) (t :: co :: k0 :: k1 :: rest)) = Some (take (4 + j) (drop 34 r))).
    { rewrite Hd. cbn [take Nat.add]. unfold icmp_reply. rewrite Et. done. }
    apply ping_reply_checksum_partial; [|done|].
    + apply Forall_take. rewrite <- Eg. by apply Forall_drop.
    + cbn [take Nat.add drop]. rewrite drop_0. intros H0. apply Hz. unfold field. by rewrite G38.
Qed.

Lemma patch_bytes f o z : Forall (fun b => b < 256)%N f -> Forall (fun b => b < 256)%N z -> Forall (fun b => b < 256)%N (patch f o z).
Proof. intros H1 H2. unfold patch. apply Forall_app. split; [by apply Forall_take|]. apply Forall_app. split; [done|by apply Forall_drop]. Qed.
Lemma csum_replace_bound a b c : (csum_replace a b c < 65536)%N.
Proof. unfold csum_replace. cbv zeta. lia. Qed.
Lemma ponged_bytes g : Forall (fun b => b < 256)%N g -> Forall (fun b => b < 256)%N (ponged g).
Proof.
  intros H. unfold ponged, swapped. cbv zeta.
  assert (F : forall x a n, Forall (fun b => b < 256)%N x -> Forall (fun b => b < 256)%N (field x a n)) by (intros; by apply field_bytes).
  apply patch_bytes; [|apply store16_bytes, csum_replace_bound].
  assert (G : forall x, Forall (fun b => b < 256)%N x -> Forall (fun b => b < 256)%N (patch (patch x 34 [0]%N) 35 [0]%N)).
  { intros x Hx. apply patch_bytes; [apply patch_bytes; [done|]|]; by repeat constructor. }
  apply G. repeat first [apply patch_bytes | apply F]; done.
Qed.

(** ** C37 *)

(** An uplink packet that is permitted, is decapsulated and pings the UPF: the program does with its answer what it would do
    with it if it had arrived from the core network at that moment, after the accounting for the uplink packet.
    [g]: the packet out of the tunnel. *)
Theorem ping_answered_partial :
  forall e d f p r far q, env_ok e -> rule_for e d f = Some (p, r) -> gpdu e f = true ->
    permitted e Uplink (N.of_nat (length f)) d r = Some (far, q) ->
    N.testbit (fi_ohc far) 0 = false -> r_ohr r = 0%N ->
    (byte f 14 mod 16 = 5)%N -> ip_at f (payload f) = Some [8; 0]%N -> ping_at e f (payload f) = true ->
    let g := take 12 f ++ [8; 0]%N ++ drop (payload f) f in
    Forall (fun b => b < 256)%N f -> echo_inside g = true ->
    exists answer, ping_answer g answer /\
      outcome (xdp e f d) = outcome (xdp e answer (account e Uplink (N.of_nat (length f)) p r q d)).
Proof.
  intros e d f p r far q He Hr Hg Hp Hn9 Hohr Hihl Hip Hping g Hby Hec.
  destruct (gpdu_lengths e f Hg) as (H1 & H2 & H3 & H4). pose proof (cut_payload f Hihl) as Hc.
  destruct (ip_at_inner f _ Hc H1 Hip) as [Hi Hre].
  assert (Eg : decap f [8; 0]%N = g) by (unfold decap, g; by rewrite Hc).
  destruct (ponged_spec g Hec) as (m & Hm & Ha). exists (ponged g). split.
  { assert (Bg : Forall (fun b => b < 256)%N g).
    { unfold g. apply Forall_app. split; [by apply Forall_take|]. apply Forall_app. split; [by repeat constructor|by apply Forall_drop]. }
    apply (answers_ping g (ponged g) m Bg); [by apply ponged_bytes| |done|done].
    unfold echo_inside in Hec. apply andb_prop in Hec as [Hec _]. by apply Nat.leb_le in Hec. }
  rewrite xdp_rule, finish_outcome. rewrite (rule_for_not_echo _ _ _ _ Hr), Hr. unfold dir_of. rewrite Hg, Hp.
  set (d' := account _ _ _ _ _ _ _). unfold uplink_out. rewrite Hn9, Hohr. change (0 =? 0)%N with true. cbv iota.
  unfold bind at 1. rewrite remove_gtp_eq by done. rewrite Hi. cbv zeta. rewrite Eg in *.
  assert (E12 : field g 12 2 = [8; 0]%N) by (rewrite <- Eg; apply decap_field; [lia|done]).
  assert (Hl : 34 <= length g).
  { unfold echo_inside in Hec. apply andb_prop in Hec as [Hec _]. apply Nat.leb_le in Hec. lia. }
  assert (Hpg : ping e g = true).
  { unfold ping_at in Hping. apply andb_prop in Hping as [Hping Hloc]. apply andb_prop in Hping as [_ Hpr].
    unfold ping, dst4, is_local_ip. rewrite <- Eg, decap_at, decap_byte by (done || lia). rewrite Hc. change (30 - 14) with 16. change (23 - 14) with 9.
    by rewrite Hloc, Hpr. }
  unfold ping in Hpg. apply andb_prop in Hpg as [Hloc Hpr].
  unfold reparse. rewrite E12. rewrite bool_decide_false by done. rewrite (proj2 (Nat.leb_le 34 (length g)) Hl). cbv iota beta.
  unfold n3_deliver. cbn [p_ip4 p_ip6 p_eth]. rewrite bind_assoc, bind_rd by len. cbn [x_f]. change (14 + 16) with 30.
  change (field g 30 4) with (dst4 g). rewrite Hloc. rewrite bind_assoc, bind_rd1 by len. cbn [x_f]. change (14 + 9) with 23. rewrite Hpr, bind_ret.
  unfold bind at 1. rewrite prepare_eq by done. rewrite Hec.
  destruct (answer_down4 e g (ponged g) m Ha Hl E12 ltac:(by apply N.eqb_eq)) as [D4 D23].
  pose proof (an_length _ _ _ Ha) as La.
  apply n6_again; [done|done|done|lia| |done..]. constructor; cbn; lia.
Qed.

(** ICMP to the UPF that is not an echo request, or is cut short: the frame is discarded (XDP_ABORTED). *)
Theorem other_icmp_discarded :
  forall e d f p r far q, env_ok e -> rule_for e d f = Some (p, r) -> gpdu e f = true ->
    permitted e Uplink (N.of_nat (length f)) d r = Some (far, q) ->
    N.testbit (fi_ohc far) 0 = false -> r_ohr r = 0%N ->
    (byte f 14 mod 16 = 5)%N -> ip_at f (payload f) = Some [8; 0]%N -> ping_at e f (payload f) = true ->
    echo_inside (take 12 f ++ [8; 0]%N ++ drop (payload f) f) = false ->
    exists s, xdp e f d = Some (ABORTED, s) /\ x_dp s = account e Uplink (N.of_nat (length f)) p r q d.
Proof.
  intros e d f p r far q He Hr Hg Hp Hn9 Hohr Hihl Hip Hping Hec.
  destruct (gpdu_lengths e f Hg) as (H1 & H2 & H3 & H4). pose proof (cut_payload f Hihl) as Hc.
  destruct (ip_at_inner f _ Hc H1 Hip) as [Hi Hre].
  set (g := take 12 f ++ [8; 0]%N ++ drop (payload f) f) in *.
  assert (Eg : decap f [8; 0]%N = g) by (unfold decap, g; by rewrite Hc).
  rewrite xdp_rule. rewrite (rule_for_not_echo _ _ _ _ Hr), Hr. unfold dir_of. rewrite Hg, Hp.
  set (d' := account _ _ _ _ _ _ _). unfold uplink_out. rewrite Hn9, Hohr. change (0 =? 0)%N with true. cbv iota.
  unfold bind at 1. rewrite remove_gtp_eq by done. rewrite Hi. cbv zeta. rewrite Eg in *.
  assert (E12 : field g 12 2 = [8; 0]%N) by (rewrite <- Eg; apply decap_field; [lia|done]).
  assert (Hl : 34 <= length g).
  { unfold reparse in Hre. rewrite E12 in Hre. rewrite bool_decide_false in Hre by done. destruct (Nat.leb_spec 34 (length g)); [done|]. done. }
  assert (Hpg : ping e g = true).
  { unfold ping_at in Hping. apply andb_prop in Hping as [Hping Hloc]. apply andb_prop in Hping as [_ Hpr].
    unfold ping, dst4, is_local_ip. rewrite <- Eg, decap_at, decap_byte by (done || lia). rewrite Hc. change (30 - 14) with 16. change (23 - 14) with 9.
    by rewrite Hloc, Hpr. }
  unfold ping in Hpg. apply andb_prop in Hpg as [Hloc Hpr].
  unfold reparse. rewrite E12. rewrite bool_decide_false by done. rewrite (proj2 (Nat.leb_le 34 (length g)) Hl). cbv iota beta.
  unfold n3_deliver. cbn [p_ip4 p_ip6 p_eth]. rewrite bind_assoc, bind_rd by len. cbn [x_f]. change (14 + 16) with 30.
  change (field g 30 4) with (dst4 g). rewrite Hloc. rewrite bind_assoc, bind_rd1 by len. cbn [x_f]. change (14 + 9) with 23. rewrite Hpr, bind_ret.
  unfold bind at 1. rewrite prepare_eq by done. rewrite Hec. cbn [finish ret]. eexists. split; [reflexivity|done].
Qed.

(** ** A UE 10.60.0.1 that pings the UPF gets its answer through its own tunnel, with a checksum that verifies. *)
Definition ex_ping_up : list N :=
  [2; 0; 0; 0; 0; 1; 2; 0; 0; 0; 0; 9; 8; 0; 69; 0; 0; 68; 0; 1; 0; 0; 64; 17; 102; 159; 10; 0; 0; 9; 10; 0; 0; 1; 8; 104; 8; 104; 0; 48; 0; 0; 48; 255; 0; 32; 0; 0; 1; 0; 69; 0; 0; 32; 0; 1; 0; 0; 64; 1; 102; 159; 10; 60; 0; 1; 10; 0; 0; 1; 8; 0; 31; 55; 18; 2; 2; 0; 97; 98; 99; 100]%N.
Example ex_ping_hypotheses :
  rule_for ex_env ex_dp ex_ping_up = Some (ex_entry 1 1, default_rule (ex_entry 1 1)) /\ gpdu ex_env ex_ping_up = true /\
  permitted ex_env Uplink (N.of_nat (length ex_ping_up)) ex_dp (default_rule (ex_entry 1 1)) = Some (Far 2 0 0 0 0, Qer 0 0 9 0 0 0 0) /\
  (byte ex_ping_up 14 mod 16 = 5)%N /\ ip_at ex_ping_up (payload ex_ping_up) = Some [8; 0]%N /\
  ping_at ex_env ex_ping_up (payload ex_ping_up) = true /\ Forall (fun b => b < 256)%N ex_ping_up /\
  echo_inside (take 12 ex_ping_up ++ [8; 0]%N ++ drop (payload ex_ping_up) ex_ping_up) = true.
Proof. repeat (split; [by vm_compute|]). split; [apply bytes_b_ok; by vm_compute|by vm_compute]. Qed.
(** Verdict and, of the frame that leaves: outer addresses, TEID, inner addresses, ICMP message and whether it verifies. *)
Definition ex_pong_seen (r : option (verdict * xst)) : option (verdict * list N * list N * list N * list N * bool) :=
  match r with
  | Some (v, s) => let g := x_f s in
      Some (v, field g 26 8, field g 46 4, field g 70 8, drop 78 g, (oc_sum (words be (drop 78 g)) =? 65535)%N)
  | None => None
  end.
Example ex_ping_answered : ex_pong_seen (xdp ex_env ex_ping_up ex_dp) =
  Some (REDIRECT 7, [10; 0; 0; 1; 10; 0; 0; 9]%N, [0; 0; 0; 85]%N, [10; 0; 0; 1; 10; 60; 0; 1]%N,
        [0; 0]%N ++ field (drop 80 (match xdp ex_env ex_ping_up ex_dp with Some (_, s) => x_f s | None => [] end)) 0 2 ++ [18; 2; 2; 0; 97; 98; 99; 100]%N, true).
Proof. by vm_compute. Qed.
(** ... except when identifier, sequence number and data are zero: the request verifies, the answer the UE gets does not. *)
Definition ex_ping_zero : list N :=
  [2; 0; 0; 0; 0; 1; 2; 0; 0; 0; 0; 9; 8; 0; 69; 0; 0; 64; 0; 1; 0; 0; 64; 17; 102; 163; 10; 0; 0; 9; 10; 0; 0; 1; 8; 104; 8; 104; 0; 44; 0; 0; 48; 255; 0; 28; 0; 0; 1; 0; 69; 0; 0; 28; 0; 1; 0; 0; 64; 1; 102; 163; 10; 60; 0; 1; 10; 0; 0; 1; 8; 0; 247; 255; 0; 0; 0; 0]%N.
Theorem ping_answered_refuted :
  checksum_ok (drop 70 ex_ping_zero) /\ ping_at ex_env ex_ping_zero (payload ex_ping_zero) = true /\
  exists s, xdp ex_env ex_ping_zero ex_dp = Some (REDIRECT 7, s) /\ drop 78 (x_f s) = [0; 0; 0; 0; 0; 0; 0; 0]%N /\ ~ checksum_ok (drop 78 (x_f s)).
Proof.
  split; [by vm_compute|]. split; [by vm_compute|].
  assert (H : match xdp ex_env ex_ping_zero ex_dp with Some (REDIRECT i, s) => (i =? 7)%N && bool_decide (drop 78 (x_f s) = [0; 0; 0; 0; 0; 0; 0; 0]%N) | _ => false end = true) by (by vm_compute).
  destruct (xdp ex_env ex_ping_zero ex_dp) as [[v s]|]; [|done]. destruct v; try done. apply andb_prop in H as [H1 H2].
  apply N.eqb_eq in H1. apply bool_decide_eq_true in H2. subst. exists s. split; [done|]. split; [done|]. rewrite H2. by vm_compute.
Qed.
(** A timestamp request to the UPF. *)
Definition ex_ping_other : list N :=
  [2; 0; 0; 0; 0; 1; 2; 0; 0; 0; 0; 9; 8; 0; 69; 0; 0; 64; 0; 1; 0; 0; 64; 17; 102; 163; 10; 0; 0; 9; 10; 0; 0; 1; 8; 104; 8; 104; 0; 44; 0; 0; 48; 255; 0; 28; 0; 0; 1; 0; 69; 0; 0; 28; 0; 1; 0; 0; 64; 1; 102; 163; 10; 60; 0; 1; 10; 0; 0; 1; 13; 0; 222; 253; 18; 2; 2; 0]%N.
Example ex_other_icmp : rule_for ex_env ex_dp ex_ping_other = Some (ex_entry 1 1, default_rule (ex_entry 1 1)) /\
  ping_at ex_env ex_ping_other (payload ex_ping_other) = true /\
  echo_inside (take 12 ex_ping_other ++ [8; 0]%N ++ drop (payload ex_ping_other) ex_ping_other) = false /\
  option_map fst (xdp ex_env ex_ping_other ex_dp) = Some ABORTED.
Proof. repeat (split; [by vm_compute|]). by vm_compute. Qed.
