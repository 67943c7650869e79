(** SDF filter matching in the data plane (sdf_filter.h) against the meaning of the
    flow description text: C28 and C29. *)
From Coq Require Import String Ascii.
From Verif Require Import Base IdTracker SdfParser SdfProps MapOps.

(** ** Model *)

(** Value of bytes in memory on a little-endian machine. *)
Definition le_value (l : list N) : N := be_value (rev l).

(** __builtin_bswap32 (bpf_htonl / bpf_ntohl on little-endian): the argument is converted
    to 32 bits first. *)
Definition bswap32 (x : N) : N :=
  let x := u32 x in
  (x mod 256) * 2 ^ 24 + (x / 256 mod 256) * 2 ^ 16 + (x / 65536 mod 256) * 2 ^ 8 + x / 16777216.

(** sdf_filter.h:58-66 [get_sdf_protocol]. *)
Definition get_sdf_protocol (p : N) : N :=
  if p =? 1 then 0 else if p =? 6 then 2 else if p =? 17 then 3 else 1.

(** What the matcher sees of a packet: IP protocol, the 4 / 16 bytes of the source and
    destination address in wire order, and the ports of the parsed UDP or TCP header
    ((0,0) when neither was parsed: sdf_filter.h:74-82, 118-126). *)
Record sdf_pkt := SdfPkt { sp_proto : N; sp_saddr : list N; sp_daddr : list N; sp_ports : N * N }.

(** sdf_filter.h:96-103, last two lines of the condition (also 143-144). *)
Definition ports_ok (f : ep_filter) (ports : N * N) : bool :=
  negb ((fst ports <? fst (ef_sport f)) || (snd (ef_sport f) <? fst ports)) &&
  negb ((snd ports <? fst (ef_dport f)) || (snd (ef_dport f) <? snd ports)).

(** sdf_filter.h:68-111 [match_sdf_filter_ipv4] (ctx, ip4 and sdf non-null).  The filter
    addresses are 128-bit integers; bpf_htonl takes their low 32 bits. *)
Definition match_ipv4 (f : ep_filter) (p : sdf_pkt) : bool :=
  let proto := get_sdf_protocol (sp_proto p) in
  let src_ip := bswap32 (le_value (ea_ip (ef_src f))) in
  let dst_ip := bswap32 (le_value (ea_ip (ef_dst f))) in
  let src_mask := bswap32 (le_value (ea_mask (ef_src f))) in
  let dst_mask := bswap32 (le_value (ea_mask (ef_dst f))) in
  ((ef_proto f =? 1) || (ef_proto f =? proto)) &&
  (N.land (le_value (sp_saddr p)) src_mask =? src_ip) &&
  (N.land (le_value (sp_daddr p)) dst_mask =? dst_ip) &&
  ports_ok f (sp_ports p).

(** sdf_filter.h:113-152 [match_sdf_filter_ipv6]: here the mask is used as it is, and the
    filter address again goes through bpf_htonl, i.e. is cut to 32 bits. *)
Definition match_ipv6 (f : ep_filter) (p : sdf_pkt) : bool :=
  let proto := get_sdf_protocol (sp_proto p) in
  let src_ip := bswap32 (le_value (ea_ip (ef_src f))) in
  let dst_ip := bswap32 (le_value (ea_ip (ef_dst f))) in
  ((ef_proto f =? 1) || (ef_proto f =? proto)) &&
  (N.land (le_value (sp_saddr p)) (le_value (ea_mask (ef_src f))) =? src_ip) &&
  (N.land (le_value (sp_daddr p)) (le_value (ea_mask (ef_dst f))) =? dst_ip) &&
  ports_ok f (sp_ports p).

(** ** Specification: what the text says about a packet *)
Definition bytes (n : nat) (l : list N) : Prop := length l = n /\ Forall (fun x => x < 256) l.

(** Protocol word against IP protocol number. *)
Definition proto_matches (t : list N) (p : N) : Prop :=
  t = str "ip" \/ (t = str "icmp" /\ p = 1) \/ (t = str "tcp" /\ p = 6) \/
  (t = str "udp" /\ p = 17) \/ (t = str "58" /\ p = 58).

(** Address word (with optional prefix length) against a 32-bit address. *)
Definition v4_matches (kws : list (list N)) (t m : list N) (x : N) : Prop :=
  t ∈ kws \/
  exists a b c d, ipv4_text t a b c d /\
    let host := 2 ^ (32 - mask_value 4 m) in
    x / host = (a * 2 ^ 24 + b * 2 ^ 16 + c * 2 ^ 8 + d) / host.

Definition port_matches (t : list N) (x : N) : Prop :=
  exists r, ports_mean t r /\ fst r <= x <= snd r.

(** A flow text about IPv4: address words are keywords or dotted quads with a prefix
    length of at most 32, and the protocol word is not ICMPv6. *)
Definition v4_flow (g : groups) : Prop :=
  g_proto g <> str "58" /\
  (g_src g = str "any" \/ (exists a b c d, ipv4_text (g_src g) a b c d) /\ mask_value 4 (g_smask g) <= 32) /\
  (g_dst g = str "any" \/ g_dst g = str "assigned" \/
   (exists a b c d, ipv4_text (g_dst g) a b c d) /\ mask_value 4 (g_dmask g) <= 32).

(** ** Proofs *)
Lemma land_bytes x y a b : x < 256 -> y < 256 ->
  N.land (256 * a + x) (256 * b + y) = 256 * N.land a b + N.land x y.
Proof.
  intros Hx Hy.
  assert (Hdec : forall q r, r < 256 -> 256 * q + r = N.lor (N.shiftl q 8) r).
  { intros q r Hr. rewrite <- N.lxor_lor.
    - rewrite <- N.add_nocarry_lxor; [rewrite N.shiftl_mul_pow2; change (2 ^ 8) with 256; lia|].
      apply N.bits_inj. intros i. rewrite N.land_spec, N.bits_0.
      destruct (N.lt_ge_cases i 8) as [Hi|Hi].
      + rewrite N.shiftl_spec_low by done. done.
      + rewrite (N.bits_above_log2 r i), andb_false_r; [done|].
        destruct (decide (r = 0)) as [->|Hr0]; [simpl; lia|].
        eapply N.lt_le_trans; [|exact Hi]. apply N.log2_lt_pow2; [lia|]. by change (2 ^ 8) with 256.
    - apply N.bits_inj. intros i. rewrite N.land_spec, N.bits_0.
      destruct (N.lt_ge_cases i 8) as [Hi|Hi].
      + rewrite N.shiftl_spec_low by done. done.
      + rewrite (N.bits_above_log2 r i), andb_false_r; [done|].
        destruct (decide (r = 0)) as [->|Hr0]; [simpl; lia|].
        eapply N.lt_le_trans; [|exact Hi]. apply N.log2_lt_pow2; [lia|]. by change (2 ^ 8) with 256. }
  assert (Hand : N.land x y < 256).
  { destruct (decide (N.land x y = 0)) as [->|Hne]; [lia|].
    apply N.log2_lt_cancel. change (N.log2 256) with 8.
    eapply N.le_lt_trans; [apply N.log2_land|].
    destruct (decide (x = 0)) as [->|Hx0]; [by rewrite N.land_0_l in Hne|].
    eapply N.le_lt_trans; [apply N.le_min_l|]. apply N.log2_lt_pow2; [lia|]. by change (2 ^ 8) with 256. }
  rewrite (Hdec a x Hx), (Hdec b y Hy), (Hdec (N.land a b) _ Hand).
  apply N.bits_inj. intros i. rewrite !N.land_spec, !N.lor_spec, N.land_spec.
  destruct (N.lt_ge_cases i 8) as [Hi|Hi].
  - rewrite !N.shiftl_spec_low by done. done.
  - rewrite !N.shiftl_spec_high' by done. rewrite N.land_spec.
    assert (Hz : forall r, r < 256 -> N.testbit r i = false).
    { intros r Hr. apply N.bits_above_log2. destruct (decide (r = 0)) as [->|Hr0]; [simpl; lia|].
      eapply N.lt_le_trans; [|exact Hi]. apply N.log2_lt_pow2; [lia|]. by change (2 ^ 8) with 256. }
    by rewrite (Hz x Hx), (Hz y Hy), !orb_false_r.
Qed.

Lemma be_snoc l x : be_value (l ++ [x]) = 256 * be_value l + x.
Proof. unfold be_value. by rewrite foldl_app. Qed.

Lemma land_be : forall a b, length a = length b ->
  Forall (fun x => x < 256) a -> Forall (fun x => x < 256) b ->
  N.land (be_value a) (be_value b) = be_value (zip_with N.land a b).
Proof.
  induction a as [|x a IH] using rev_ind; intros b Hl Ha Hb.
  - destruct b; [done|simpl in Hl; lia].
  - destruct b as [|y b _] using rev_ind; [rewrite app_length in Hl; simpl in Hl; lia|].
    rewrite !app_length in Hl. simpl in Hl. assert (Hl' : length a = length b) by lia.
    apply Forall_app in Ha as [Ha Hx]. apply Forall_app in Hb as [Hb Hy].
    rewrite Forall_singleton in Hx, Hy.
    rewrite !be_snoc, land_bytes by assumption. rewrite zip_with_app by assumption. simpl zip_with.
    by rewrite be_snoc, IH.
Qed.

Lemma be_inj : forall a b, length a = length b ->
  Forall (fun x => x < 256) a -> Forall (fun x => x < 256) b -> be_value a = be_value b -> a = b.
Proof.
  induction a as [|x a IH] using rev_ind; intros b Hl Ha Hb H.
  - by destruct b.
  - destruct b as [|y b _] using rev_ind; [rewrite app_length in Hl; simpl in Hl; lia|].
    rewrite !app_length in Hl. simpl in Hl. assert (Hl' : length a = length b) by lia.
    apply Forall_app in Ha as [Ha Hx]. apply Forall_app in Hb as [Hb Hy].
    rewrite Forall_singleton in Hx, Hy. rewrite !be_snoc in H.
    assert (x = y) by lia. subst. f_equal. apply IH; [done..|lia].
Qed.

Lemma land_lt_256 x y : x < 256 -> N.land x y < 256.
Proof.
  intros Hx. destruct (decide (N.land x y = 0)) as [->|Hne]; [lia|].
  apply N.log2_lt_cancel. change (N.log2 256) with 8.
  eapply N.le_lt_trans; [apply N.log2_land|].
  destruct (decide (x = 0)) as [->|Hx0]; [by rewrite N.land_0_l in Hne|].
  eapply N.le_lt_trans; [apply N.le_min_l|]. apply N.log2_lt_pow2; [lia|]. by change (2 ^ 8) with 256.
Qed.

Lemma bytes_rev n l : bytes n l -> bytes n (rev l).
Proof. intros [H1 H2]. split; [by rewrite rev_length|]. by apply Forall_rev. Qed.
Lemma bytes_land n a b : bytes n a -> bytes n b -> bytes n (zip_with N.land a b).
Proof.
  intros [H1 H2] [H3 H4]. split; [rewrite zip_with_length; lia|].
  apply Forall_forall. intros x Hx. apply elem_of_lookup_zip_with in Hx as (i & y & z & -> & Hy & Hz).
  apply land_lt_256. rewrite Forall_forall in H2. apply H2. by eapply elem_of_list_lookup_2.
Qed.

Lemma zip_with_rev (f : N -> N -> N) a b : length a = length b ->
  zip_with f (rev a) (rev b) = rev (zip_with f a b).
Proof.
  revert b. induction a as [|x a IH]; intros [|y b] Hl; simpl in *; try lia; [done|].
  rewrite zip_with_app by (rewrite !rev_length; lia). simpl. f_equal. apply IH. lia.
Qed.

(** Masking commutes with byte order. *)
Lemma mask_byte_order n x m i : bytes n x -> bytes n m -> bytes n i ->
  N.land (le_value x) (le_value m) = le_value i <-> N.land (be_value x) (be_value m) = be_value i.
Proof.
  intros Hx Hm Hi.
  destruct Hx as [Hx1 Hx2], Hm as [Hm1 Hm2], Hi as [Hi1 Hi2].
  assert (Hz : bytes n (zip_with N.land x m)) by (apply bytes_land; split; done).
  unfold le_value. rewrite !land_be; [|congruence|done|done|rewrite !rev_length; congruence|by apply Forall_rev..].
  rewrite zip_with_rev by congruence.
  destruct Hz as [Hz1 Hz2]. split; intros H.
  - apply be_inj in H; [|rewrite !rev_length; congruence|by apply Forall_rev..].
    apply (f_equal (@rev N)) in H. rewrite !rev_involutive in H. by rewrite H.
  - apply be_inj in H; [by rewrite H|congruence|done|done].
Qed.

Lemma bswap32_be a b c d : a < 256 -> b < 256 -> c < 256 -> d < 256 ->
  bswap32 (be_value [a; b; c; d]) = le_value [a; b; c; d].
Proof.
  intros Ha Hb Hc Hd.
  assert (Hv : be_value [a; b; c; d] = a * 16777216 + b * 65536 + c * 256 + d).
  { unfold be_value; simpl; lia. }
  rewrite Hv. unfold le_value. simpl rev.
  assert (Hv' : be_value [d; c; b; a] = d * 16777216 + c * 65536 + b * 256 + a).
  { unfold be_value; simpl; lia. }
  rewrite Hv'. unfold bswap32, u32.
  rewrite (N.mod_small _ 4294967296) by lia.
  change (2 ^ 24) with 16777216. change (2 ^ 16) with 65536. change (2 ^ 8) with 256.
  assert (E1 : (a * 16777216 + b * 65536 + c * 256 + d) mod 256 = d).
  { symmetry. apply N.mod_unique with (a * 65536 + b * 256 + c); lia. }
  assert (E2 : (a * 16777216 + b * 65536 + c * 256 + d) / 256 mod 256 = c).
  { rewrite <- (N.div_unique _ 256 (a * 65536 + b * 256 + c) d) by lia.
    symmetry. apply N.mod_unique with (a * 256 + b); lia. }
  assert (E3 : (a * 16777216 + b * 65536 + c * 256 + d) / 65536 mod 256 = b).
  { rewrite <- (N.div_unique _ 65536 (a * 256 + b) (c * 256 + d)) by lia.
    symmetry. apply N.mod_unique with a; lia. }
  assert (E4 : (a * 16777216 + b * 65536 + c * 256 + d) / 16777216 = a).
  { rewrite <- (N.div_unique _ 16777216 a (b * 65536 + c * 256 + d)) by lia. done. }
  rewrite E1, E2, E3, E4. lia.
Qed.

Lemma be_zeros n l : be_value (replicate n 0 ++ l) = be_value l.
Proof.
  induction n as [|n IH]; [done|]. simpl replicate. rewrite <- app_comm_cons, be_cons, IH. lia.
Qed.

(** Copy16Ip and back: the stored 128-bit integer is the address value. *)
Lemma copy16_value_4 l : length l = 4%nat -> le_value (copy16 l) = be_value l.
Proof.
  intros Hl. unfold copy16. rewrite Hl, Nat.eqb_refl. unfold le_value.
  rewrite rev_app_distr, rev_involutive.
  change (rev (replicate 12 0)) with (replicate 12 0). apply be_zeros.
Qed.
Lemma copy16_value_16 l : length l = 16%nat -> le_value (copy16 l) = be_value l.
Proof.
  intros Hl. unfold copy16. rewrite Hl. change (Nat.eqb 16 4) with false. cbv iota.
  rewrite Nat.eqb_refl. unfold le_value. by rewrite rev_involutive.
Qed.
Lemma copy16_length l : length (copy16 l) = 16%nat.
Proof.
  unfold copy16. destruct (Nat.eqb (length l) 4) eqn:E4.
  - apply Nat.eqb_eq in E4. rewrite app_length, rev_length, replicate_length. lia.
  - destruct (Nat.eqb (length l) 16) eqn:E16; [|done]. apply Nat.eqb_eq in E16. by rewrite rev_length.
Qed.

Lemma bytes4_inv l : bytes 4 l -> exists a b c d, l = [a; b; c; d] /\ a < 256 /\ b < 256 /\ c < 256 /\ d < 256.
Proof.
  intros [Hl Hf]. destruct l as [|a [|b [|c [|d [|? ?]]]]]; simpl in Hl; try lia.
  exists a, b, c, d. do 4 apply Forall_cons in Hf as [? Hf]. done.
Qed.

Lemma v4_stored_match w v n x : stores_prefix w 1 4 v n -> n <= 32 -> v < 2 ^ 32 -> bytes 4 x ->
  (N.land (le_value x) (bswap32 (le_value (copy16 (iw_mask w)))) =? bswap32 (le_value (copy16 (iw_ip w)))) = true
  <-> be_value x / 2 ^ (32 - n) = v / 2 ^ (32 - n).
Proof.
  intros Hs Hn Hv Hx. pose proof Hs as (_ & Hl1 & Hf1 & _ & Hl2 & Hf2 & _).
  rewrite N.eqb_eq, !copy16_value_4 by done.
  assert (Hi : bytes 4 (iw_ip w)) by done. assert (Hm : bytes 4 (iw_mask w)) by done.
  destruct (bytes4_inv _ Hi) as (a & b & c & d & Ei & ? & ? & ? & ?).
  destruct (bytes4_inv _ Hm) as (a' & b' & c' & d' & Em & ? & ? & ? & ?).
  rewrite Ei at 1. rewrite Em at 1. rewrite !bswap32_be by done. rewrite <- Ei, <- Em.
  rewrite (mask_byte_order 4) by done.
  assert (Hxb : be_value x < 2 ^ (8 * N.of_nat 4)).
  { destruct Hx as [Hxl Hxf]. apply be_bound in Hxf. rewrite Hxl in Hxf.
    change (256 ^ N.of_nat 4) with (2 ^ (8 * N.of_nat 4)) in Hxf. done. }
  rewrite (stored_prefix_meaning w 1 4 v n Hs); [done|lia|done|done].
Qed.

Lemma any_match x : bytes 4 x ->
  (N.land (le_value x) (bswap32 (le_value (copy16 []))) =? bswap32 (le_value (copy16 []))) = true.
Proof.
  intros _. change (bswap32 (le_value (copy16 []))) with 0. rewrite N.land_0_r. done.
Qed.

Lemma ipv4_text_inj t a b c d a' b' c' d' :
  ipv4_text t a b c d -> ipv4_text t a' b' c' d' -> a = a' /\ b = b' /\ c = c' /\ d = d'.
Proof.
  intros H H'.
  assert (E : parse_ipv4 t = Some [a; b; c; d]) by (apply parse_ipv4_spec; exists a, b, c, d; done).
  assert (E' : parse_ipv4 t = Some [a'; b'; c'; d']) by (apply parse_ipv4_spec; exists a', b', c', d'; done).
  rewrite E in E'. injection E' as <- <- <- <-. done.
Qed.

Lemma ipv4_quad_bound t a b c d : ipv4_text t a b c d -> a < 256 /\ b < 256 /\ c < 256 /\ d < 256.
Proof. intros (la & lb & lc & ld & _ & (_&_&?&_) & (_&_&?&_) & (_&_&?&_) & (_&_&?&_)). lia. Qed.

Lemma v4_addr_match kws t m w x :
  (t ∈ kws \/ (exists a b c d, ipv4_text t a b c d) /\ mask_value 4 m <= 32) ->
  (t ∈ kws -> forall a b c d, ~ ipv4_text t a b c d) ->
  m = [] \/ digit_text m -> addr_means kws t m w -> bytes 4 x ->
  (N.land (le_value x) (bswap32 (le_value (copy16 (iw_mask w)))) =? bswap32 (le_value (copy16 (iw_ip w)))) = true
  <-> v4_matches kws t m (be_value x).
Proof.
  intros Ht Hdisj Hm Hw Hx. destruct Hw as [(Hk & ->)|(Hk & Hp)].
  - simpl. rewrite any_match by done. split; [by left|done].
  - destruct Ht as [Ht|[(a & b & c & d & Ht) Hle]]; [done|].
    destruct (ipv4_prefix_stored t a b c d m Ht Hm Hle) as (w' & Hp' & Hs).
    rewrite Hp in Hp'. injection Hp' as <-.
    destruct (ipv4_quad_bound _ _ _ _ _ Ht) as (? & ? & ? & ?).
    rewrite (v4_stored_match w _ _ x Hs); [|done| |done].
    + split.
      * intros H'. right. exists a, b, c, d. done.
      * intros [H'|(a' & b' & c' & d' & Ht' & H')]; [done|].
        destruct (ipv4_text_inj _ _ _ _ _ _ _ _ _ Ht Ht') as (-> & -> & -> & ->). exact H'.
    + change (2 ^ 24) with 16777216. change (2 ^ 16) with 65536. change (2 ^ 8) with 256. change (2 ^ 32) with 4294967296. lia.
Qed.

Lemma keyword_not_quad t : t = str "any" \/ t = str "assigned" -> forall a b c d, ~ ipv4_text t a b c d.
Proof.
  intros Ht a b c d H.
  assert (E : parse_ipv4 t = Some [a; b; c; d]) by (apply parse_ipv4_spec; exists a, b, c, d; done).
  destruct Ht as [-> | ->]; vm_compute in E; done.
Qed.

Lemma proto_match t v p : proto_means t v -> t <> str "58" ->
  ((v =? 1) || (v =? get_sdf_protocol p)) = true <-> proto_matches t p.
Proof.
  intros Hv Hne. unfold proto_matches, get_sdf_protocol.
  destruct Hv; try done.
  - split.
    + intros H. right; left. split; [done|]. change (0 =? 1) with false in H. rewrite orb_false_l in H.
      apply N.eqb_eq in H. destruct (p =? 1) eqn:E; [by apply N.eqb_eq in E|].
      destruct (p =? 6); [done|]. destruct (p =? 17); done.
    + intros [H|[(_ & ->)|[[H _]|[[H _]|[H _]]]]]; try (vm_compute in H; done). done.
  - split; [by left|]. done.
  - split.
    + intros H. right; right; left. split; [done|]. change (2 =? 1) with false in H. rewrite orb_false_l in H.
      apply N.eqb_eq in H. destruct (p =? 1); [done|]. destruct (p =? 6) eqn:E; [by apply N.eqb_eq in E|].
      destruct (p =? 17); done.
    + intros [H|[[H _]|[(_ & ->)|[[H _]|[H _]]]]]; try (vm_compute in H; done). done.
  - split.
    + intros H. right; right; right; left. split; [done|]. change (3 =? 1) with false in H. rewrite orb_false_l in H.
      apply N.eqb_eq in H. destruct (p =? 1); [done|]. destruct (p =? 6); [done|].
      destruct (p =? 17) eqn:E; [by apply N.eqb_eq in E|done].
    + intros [H|[[H _]|[[H _]|[(_ & ->)|[H _]]]]]; try (vm_compute in H; done). done.
Qed.

Lemma ports_mean_fun t r r' : ports_mean t r -> ports_mean t r' -> t = [] \/ port_text t -> r = r'.
Proof.
  intros H H' Ht. destruct r as [lo hi], r' as [lo' hi']. destruct t as [|c t].
  - assert (Hnil : forall r, ports_mean [] r -> r = (0, 65535)).
    { intros r. inversion 1 as [|a [Ha _]|a b [Ha _] _ _ Heq]; subst; [done|done|]. by destruct a. }
    rewrite (Hnil _ H), (Hnil _ H'). done.
  - destruct Ht as [Ht|Ht]; [done|].
    apply parse_port_range_spec in H; [|done..]. apply parse_port_range_spec in H'; [|done..].
    rewrite H in H'. by injection H' as -> ->.
Qed.

Lemma port_match t r x : ports_mean t r -> t = [] \/ port_text t ->
  (negb ((x <? fst r) || (snd r <? x))) = true <-> port_matches t x.
Proof.
  intros Hr Ht. rewrite negb_true_iff, orb_false_iff, !N.ltb_ge. split.
  - intros [H1 H2]. exists r. done.
  - intros (r' & Hr' & H1 & H2). rewrite (ports_mean_fun t r r' Hr Hr' Ht). done.
Qed.

(** C28: a filter installed from a flow description about IPv4 matches exactly the packets
    the text describes. *)
Theorem sdf_ipv4_match :
  forall g f p, wf_groups g -> v4_flow g -> parse_sdf (flow_text g) = Some f ->
    bytes 4 (sp_saddr p) -> bytes 4 (sp_daddr p) ->
    (match_ipv4 (ep_filter_of f) p = true <->
     proto_matches (g_proto g) (sp_proto p) /\
     v4_matches [str "any"] (g_src g) (g_smask g) (be_value (sp_saddr p)) /\
     v4_matches [str "assigned"; str "any"] (g_dst g) (g_dmask g) (be_value (sp_daddr p)) /\
     port_matches (g_sport g) (fst (sp_ports p)) /\
     port_matches (g_dport g) (snd (sp_ports p))).
Proof.
  intros g f p Hw (Hp58 & Hsrc & Hdst) Hparse Hs Hd.
  apply (sdf_meaning g f Hw) in Hparse as (Hproto & Hsa & _ & Hsp & Hda & Hdp).
  destruct Hw.
  unfold match_ipv4, ports_ok. simpl. rewrite !andb_true_iff.
  rewrite (proto_match _ _ _ Hproto Hp58).
  rewrite (v4_addr_match [str "any"] (g_src g) (g_smask g)); [|..|exact Hsa|done].
  2:{ destruct Hsrc as [->|Hsrc]; [left; by left|by right]. }
  2:{ intros Hin. apply elem_of_list_singleton in Hin. apply keyword_not_quad. by left. }
  2:{ assumption. }
  rewrite (v4_addr_match [str "assigned"; str "any"] (g_dst g) (g_dmask g)); [|..|exact Hda|done].
  2:{ destruct Hdst as [->|[->|Hdst]]; [left; right; by left|left; by left|by right]. }
  2:{ intros Hin. apply keyword_not_quad. set_solver. }
  2:{ assumption. }
  rewrite (port_match _ _ _ Hsp), (port_match _ _ _ Hdp) by assumption. tauto.
Qed.

Example sdf_ipv4_match_example :
  exists f, parse_sdf (str "permit out udp from 10.62.7.1/8 5-9 to assigned 80") = Some f /\
    match_ipv4 (ep_filter_of f) (SdfPkt 17 [10; 1; 2; 3] [192; 168; 0; 1] (7, 80)) = true /\
    match_ipv4 (ep_filter_of f) (SdfPkt 17 [11; 1; 2; 3] [192; 168; 0; 1] (7, 80)) = false /\
    match_ipv4 (ep_filter_of f) (SdfPkt 6 [10; 1; 2; 3] [192; 168; 0; 1] (7, 80)) = false /\
    match_ipv4 (ep_filter_of f) (SdfPkt 17 [10; 1; 2; 3] [192; 168; 0; 1] (10, 80)) = false.
Proof. eexists. split; [vm_compute; reflexivity|]. vm_compute. auto. Qed.

Example sdf_ipv4_match_hypotheses :
  let g := Groups (str "udp") (str "10.62.7.1") (str "8") (str "5-9") (str "assigned") [] (str "80") in
  v4_flow g /\ flow_text g = str "permit out udp from 10.62.7.1/8 5-9 to assigned 80".
Proof.
  split; [|reflexivity]. split; [vm_compute; congruence|]. split.
  - right. split; [|vm_compute; congruence]. exists 10, 62, 7, 1. exact sdf_example_quad.
  - right. by left.
Qed.

(** The protocol word "58" (ICMPv6) is accepted by the parser but matches no packet at all. *)
Theorem sdf_proto58_matches_nothing :
  forall f p, sf_proto f = 4 ->
    match_ipv4 (ep_filter_of f) p = false /\ match_ipv6 (ep_filter_of f) p = false.
Proof.
  intros f p Hf. unfold match_ipv4, match_ipv6. simpl. rewrite Hf.
  assert (H : ((4 =? 1) || (4 =? get_sdf_protocol (sp_proto p))) = false).
  { change (4 =? 1) with false. rewrite orb_false_l. apply N.eqb_neq. unfold get_sdf_protocol.
    destruct (sp_proto p =? 1), (sp_proto p =? 6), (sp_proto p =? 17); done. }
  rewrite H. done.
Qed.

(** ** C29: IPv6 *)

(** What a correct matcher would compute for the source prefix. *)
Definition v6_in_prefix (net len x : N) : Prop := x / 2 ^ (128 - len) = net / 2 ^ (128 - len).

(** Refuted in both directions: the filter for 2001:db8::/32 does not match a packet from
    2001:db8::1 and does match one from 3001:: . *)
Theorem sdf_ipv6_match_refuted :
  exists f x y, parse_sdf (str "permit out ip from 2001:db8::/32 to any") = Some f /\
    bytes 16 x /\ bytes 16 y /\
    v6_in_prefix (be_value [32;1;13;184;0;0;0;0;0;0;0;0;0;0;0;0]) 32 (be_value x) /\
    match_ipv6 (ep_filter_of f) (SdfPkt 6 x (replicate 16 0) (1, 1)) = false /\
    ~ v6_in_prefix (be_value [32;1;13;184;0;0;0;0;0;0;0;0;0;0;0;0]) 32 (be_value y) /\
    match_ipv6 (ep_filter_of f) (SdfPkt 6 y (replicate 16 0) (1, 1)) = true.
Proof.
  eexists. exists [32;1;13;184;0;0;0;0;0;0;0;0;0;0;0;1], [48;1;0;0;0;0;0;0;0;0;0;0;0;0;0;0].
  split; [vm_compute; reflexivity|].
  split; [split; [reflexivity|repeat constructor]|].
  split; [split; [reflexivity|repeat constructor]|].
  split; [vm_compute; reflexivity|]. split; [vm_compute; reflexivity|].
  split; [|vm_compute; reflexivity]. vm_compute. congruence.
Qed.

(** What does hold: with keyword addresses the protocol and ports decide, as written. *)
Theorem sdf_ipv6_match_partial :
  forall g f p, wf_groups g -> g_proto g <> str "58" ->
    g_src g = str "any" -> g_dst g = str "any" \/ g_dst g = str "assigned" ->
    parse_sdf (flow_text g) = Some f ->
    (match_ipv6 (ep_filter_of f) p = true <->
     proto_matches (g_proto g) (sp_proto p) /\
     port_matches (g_sport g) (fst (sp_ports p)) /\
     port_matches (g_dport g) (snd (sp_ports p))).
Proof.
  intros g f p Hw Hp58 Hs Hd Hparse.
  apply (sdf_meaning g f Hw) in Hparse as (Hproto & Hsa & _ & Hsp & Hda & Hdp).
  destruct Hw.
  assert (E1 : sf_src f = IpW 0 [] []).
  { destruct Hsa as [[_ ->]|[Hn _]]; [done|]. exfalso. apply Hn. rewrite Hs. by left. }
  assert (E2 : sf_dst f = IpW 0 [] []).
  { destruct Hda as [[_ ->]|[Hn _]]; [done|]. exfalso. apply Hn. destruct Hd as [-> | ->]; [right; by left|by left]. }
  unfold match_ipv6, ports_ok. simpl. rewrite E1, E2. simpl iw_ip. simpl iw_mask.
  change (bswap32 (le_value (copy16 []))) with 0. change (le_value (copy16 [])) with 0.
  rewrite !N.land_0_r, !andb_true_iff. change (0 =? 0) with true.
  rewrite (proto_match _ _ _ Hproto Hp58), (port_match _ _ _ Hsp), (port_match _ _ _ Hdp) by assumption. tauto.
Qed.

(** The extent of the defect: a prefix of at most 96 bits, as source or destination, is compared as if the network were zero, on the
    byte-reversed address, whatever network was written. *)
Lemma masked_reversed w v n a : stores_prefix w 2 16 v n -> n <= 96 -> bytes 16 a ->
  N.land (le_value a) (le_value (copy16 (iw_mask w))) = bswap32 (le_value (copy16 (iw_ip w))) -> be_value (rev a) / 2 ^ (128 - n) = 0.
Proof.
  intros Hs Hn [Hl Hf] H.
  pose proof Hs as (_ & Hl1 & Hf1 & Hip & Hl2 & Hf2 & Hmask).
  rewrite !copy16_value_16 in H by done. rewrite Hip, Hmask in H.
  assert (Hsplit : 2 ^ (128 - n) = 2 ^ 32 * 2 ^ (96 - n)).
  { rewrite <- N.pow_add_r. f_equal. lia. }
  assert (Hz : bswap32 (v / 2 ^ (8 * N.of_nat 16 - n) * 2 ^ (8 * N.of_nat 16 - n)) = 0).
  { change (8 * N.of_nat 16) with 128. unfold bswap32.
    assert (Hm : u32 (v / 2 ^ (128 - n) * 2 ^ (128 - n)) = 0).
    { unfold u32. change 4294967296 with (2 ^ 32). rewrite Hsplit at 2.
      rewrite (N.mul_comm (2 ^ 32)), N.mul_assoc. apply N.mod_mul. done. }
    rewrite Hm. reflexivity. }
  rewrite Hz in H. unfold le_value in H. change (8 * N.of_nat 16) with 128 in H.
  assert (Hb : be_value (rev a) < 2 ^ 128).
  { apply Forall_rev in Hf. apply be_bound in Hf. rewrite rev_length, Hl in Hf. exact Hf. }
  rewrite land_prefix_mask in H by (done || lia).
  apply N.mul_eq_0_l in H; [done|]. by apply N.pow_nonzero.
Qed.
Theorem sdf_ipv6_prefix_ignored :
  forall f p, match_ipv6 (ep_filter_of f) p = true ->
    (forall v n, stores_prefix (sf_src f) 2 16 v n -> n <= 96 -> bytes 16 (sp_saddr p) -> be_value (rev (sp_saddr p)) / 2 ^ (128 - n) = 0) /\
    (forall v n, stores_prefix (sf_dst f) 2 16 v n -> n <= 96 -> bytes 16 (sp_daddr p) -> be_value (rev (sp_daddr p)) / 2 ^ (128 - n) = 0).
Proof.
  intros f p H. unfold match_ipv6 in H. rewrite !andb_true_iff in H. destruct H as [[[_ H1] H2] _]. simpl in H1, H2. apply N.eqb_eq in H1, H2.
  split; intros v n Hs Hn Hb; by eapply masked_reversed.
Qed.
