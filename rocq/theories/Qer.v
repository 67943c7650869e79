(** The rate limiter of the data plane (C39, C40) and the bit rate it is given (C41). *)
From Verif Require Import Base IdTracker ResourceManager SdfParser MapOps Pfcp PfcpProps PfcpHistory PfcpReach PfcpRules PfcpCreate PfcpRemove.

(** ** Model *)

(** qer.h:68-69: nanoseconds. *)
Definition NSEC : N := 1000000000.
Definition WINDOW : N := 5000000.

(** qer.h:75 [tx_time], in __u64 arithmetic. *)
Definition tx_time (size rate : N) : N := u64 (u64 (size * 8) * (NSEC / rate)).

(** qer.h:67-90 [limit_rate_sliding_window]: does the packet pass, and the new window start.
    [now] is the value bpf_ktime_get_ns returned. *)
Definition limit_rate (size start rate now : N) : bool * N :=
  if rate =? 0 then (true, start) else
  let tx := tx_time size rate in
  if now <? u64 (start + tx) then (false, start)
  else if u64 (start + WINDOW) <? now then (true, u64 (now + (18446744073709551616 - WINDOW) + tx))
  else (true, u64 (start + tx)).

(** A packet: arrival time in nanoseconds, size in bytes. *)
Notation pkt := (N * N)%type (only parsing).

(** Packets handled one after another by one limiter: each with its verdict. *)
Fixpoint limit (rate start : N) (l : list pkt) : list (pkt * bool) :=
  match l with
  | [] => []
  | p :: r => let '(b, s) := limit_rate p.2 start rate p.1 in (p, b) :: limit rate s r
  end.

(** The same function run by several CPUs on the same window (qer.h:78 reads it, qer.h:83 and
    87 write it back; nothing makes the two one step).  [LRead c p]: CPU [c] takes packet [p],
    reads the window and decides; [LWrite c]: it stores the new window start. *)
Inductive lev := LRead (cpu : N) (p : pkt) | LWrite (cpu : N).
Fixpoint limit_smp (rate start : N) (pend : gmap N N) (l : list lev) : list (pkt * bool) :=
  match l with
  | [] => []
  | LRead c p :: r => let '(b, s) := limit_rate p.2 start rate p.1 in
                      (p, b) :: limit_smp rate start (if b then <[c := s]> pend else delete c pend) r
  | LWrite c :: r => limit_smp rate (default start (pend !! c)) (delete c pend) r
  end.

(** ** Specification *)

(** The time it takes to send the packet at the limiter's rate. *)
Definition airtime (rate : N) (p : pkt) : N := p.2 * 8 * (NSEC / rate).
Definition sumN (l : list N) : N := foldr N.add 0 l.
(** The packets let through in the interval [t1, t2]. *)
Definition passed_in (t1 t2 : N) (l : list (pkt * bool)) : list pkt :=
  fst <$> filter (fun e : pkt * bool => e.2 = true /\ t1 <= e.1.1 /\ e.1.1 <= t2) l.
Definition bits (l : list pkt) : N := sumN ((fun p => p.2 * 8) <$> l).

(** Machine values: a frame is shorter than 64 KiB, the clock has not run for 292 years. *)
Definition sane (l : list pkt) : Prop := Forall (fun p => p.1 < 2 ^ 63 /\ p.2 < 2 ^ 16) l.

(** ** Proofs *)

Global Arguments sumN : simpl never.
Lemma sumN_cons x l : sumN (x :: l) = x + sumN l.
Proof. done. Qed.
Lemma passed_in_cons t1 t2 p b l :
  passed_in t1 t2 ((p, b) :: l) =
  if decide (b = true /\ t1 <= p.1 /\ p.1 <= t2) then p :: passed_in t1 t2 l else passed_in t1 t2 l.
Proof. unfold passed_in. rewrite filter_cons. simpl. by destruct (decide _). Qed.

Lemma airtime_small rate p : p.2 < 2 ^ 16 -> airtime rate p < 2 ^ 50.
Proof.
  intros H. unfold airtime. assert (Hd : NSEC / rate <= NSEC).
  { destruct (decide (rate = 0)) as [->|]; [done|]. apply N.div_le_upper_bound; [done|]. unfold NSEC. lia. }
  apply N.le_lt_trans with (p.2 * 8 * NSEC); [by apply N.mul_le_mono_l|]. unfold NSEC. lia.
Qed.
Lemma tx_time_airtime rate p : p.2 < 2 ^ 16 -> tx_time p.2 rate = airtime rate p.
Proof.
  intros H. pose proof (airtime_small rate p H) as Ha. unfold tx_time, u64. unfold airtime in *.
  rewrite (N.mod_small (p.2 * 8)) by lia. apply N.mod_small. lia.
Qed.

(** The limiter without machine arithmetic. *)
Lemma limit_rate_spec rate start p :
  rate <> 0 -> start < 2 ^ 63 + 2 ^ 51 -> p.1 < 2 ^ 63 -> p.2 < 2 ^ 16 ->
  limit_rate p.2 start rate p.1 =
  if decide (start + airtime rate p <= p.1)
  then (true, N.max (start + WINDOW) p.1 + airtime rate p - WINDOW) else (false, start).
Proof.
  intros Hr Hs Ht Hz. unfold limit_rate. destruct (N.eqb_spec rate 0); [done|].
  rewrite (tx_time_airtime _ _ Hz). pose proof (airtime_small rate p Hz) as Ha. cbn zeta.
  remember (airtime rate p) as tx. unfold u64, WINDOW.
  rewrite (N.mod_small (start + tx)) by lia. rewrite (N.mod_small (start + 5000000)) by lia.
  destruct (N.ltb_spec p.1 (start + tx)); [rewrite decide_False by lia; done|]. rewrite decide_True by lia.
  destruct (N.ltb_spec (start + 5000000) p.1); f_equal; [|lia].
  replace (p.1 + (18446744073709551616 - 5000000) + tx) with ((p.1 - 5000000 + tx) + 1 * 18446744073709551616) by lia.
  rewrite N.mod_add by done. rewrite N.mod_small; lia.
Qed.

(** [K] bounds the window and every airtime. *)
Lemma limit_bound rate K t1 t2 : rate <> 0 -> WINDOW <= K -> K < 2 ^ 50 -> forall l s,
  s < 2 ^ 63 + 2 ^ 51 -> sane l -> Forall (fun p => airtime rate p <= K) l ->
  let T := sumN (airtime rate <$> passed_in t1 t2 (limit rate s l)) in
  T <> 0 -> T + N.max (s + WINDOW) t1 <= t2 + K.
Proof.
  intros Hr HWK HK. induction l as [|p l IH]; intros s Hs Hl Hk; simpl; [done|].
  apply Forall_cons in Hl as [[Ht Hz] Hl]. apply Forall_cons in Hk as [Hkp Hk].
  rewrite (limit_rate_spec _ _ _ Hr Hs Ht Hz). destruct (decide _) as [Hp|Hp].
  - remember (airtime rate p) as tx eqn:Etx. set (s' := N.max (s + WINDOW) p.1 + tx - WINDOW).
    assert (Hs'1 : s' + WINDOW = N.max (s + WINDOW) p.1 + tx) by (unfold s', WINDOW in *; lia).
    assert (Hs'2 : s' + WINDOW <= p.1 + K) by lia.
    assert (Hs'3 : s' < 2 ^ 63 + 2 ^ 51) by (unfold WINDOW in *; lia).
    specialize (IH s' Hs'3 Hl Hk). cbn zeta in IH.
    set (T := sumN (airtime rate <$> passed_in t1 t2 (limit rate s' l))) in *.
    rewrite passed_in_cons. destruct (decide _) as [[_ [H1 H2]]|Hn].
    + rewrite fmap_cons, sumN_cons, <- Etx. fold T. intros _. destruct (decide (T = 0)) as [E|E]; [lia|].
      specialize (IH E). lia.
    + fold T. intros HT. specialize (IH HT). lia.
  - rewrite passed_in_cons. destruct (decide _) as [[Hf _]|_]; [done|]. by apply IH.
Qed.

Lemma limit_packets rate s l : fst <$> limit rate s l = l.
Proof.
  revert s. induction l as [|p l IH]; intros s; simpl; [done|].
  destruct (limit_rate _ _ _ _). simpl. by rewrite IH.
Qed.

Lemma sumN_airtime rate l : sumN (airtime rate <$> l) = bits l * (NSEC / rate).
Proof. unfold bits. induction l as [|p l IH]; [done|]. rewrite !fmap_cons, !sumN_cons, IH. unfold airtime. simpl. lia. Qed.

(** ** C39 *)

(** In every interval [t1, t2] the airtime of the packets let through is at most the length of
    the interval plus the window (or plus one packet [m], if its airtime is longer than the
    window), for packets handled one at a time by one limiter. *)
Theorem airtime_bounded :
  forall rate start l m t1 t2,
    rate <> 0 -> start <= 2 ^ 63 -> sane l -> m < 2 ^ 16 -> Forall (fun p => p.2 <= m) l -> t1 <= t2 ->
    sumN (airtime rate <$> passed_in t1 t2 (limit rate start l)) <=
    (t2 - t1) + N.max WINDOW (airtime rate (0, m)).
Proof.
  intros rate start l m t1 t2 Hr Hs Hl Hm Hk Ht. set (K := N.max WINDOW (airtime rate (0, m))).
  assert (HK : K < 2 ^ 50). { pose proof (airtime_small rate (0, m) Hm). unfold K, WINDOW. lia. }
  assert (Hall : Forall (fun p => airtime rate p <= K) l).
  { eapply Forall_impl; [exact Hk|]. simpl. intros p Hp. unfold K. transitivity (airtime rate (0, m)); [|lia].
    unfold airtime. simpl. apply N.mul_le_mono_r. lia. }
  pose proof (limit_bound rate K t1 t2 Hr ltac:(unfold K; lia) HK l start ltac:(lia) Hl Hall) as H. cbn zeta in H.
  match type of H with ?t <> 0 -> _ => destruct (decide (t = 0)) as [E|E]; [lia|specialize (H E)] end. lia.
Qed.

(** In bits: an MBR that divides 10^9 bits per second is never exceeded beyond that burst, and
    no MBR up to 10^9 is exceeded by more than a factor of two. *)
Theorem mbr_enforced_partial :
  forall rate start l m t1 t2,
    rate <> 0 -> start <= 2 ^ 63 -> sane l -> m < 2 ^ 16 -> Forall (fun p => p.2 <= m) l -> t1 <= t2 ->
    let sent := bits (passed_in t1 t2 (limit rate start l)) in
    ((rate | NSEC) -> sent * NSEC <= rate * (t2 - t1) + N.max (rate * WINDOW) (m * 8 * NSEC)) /\
    (rate <= NSEC -> sent * NSEC <= 2 * (rate * (t2 - t1) + N.max (rate * WINDOW) (m * 8 * NSEC))).
Proof.
  intros rate start l m t1 t2 Hr Hs Hl Hm Hk Ht sent.
  pose proof (airtime_bounded rate start l m t1 t2 Hr Hs Hl Hm Hk Ht) as H. rewrite sumN_airtime in H. fold sent in H.
  unfold airtime in H. simpl in H. split.
  - intros [k Hdiv]. rewrite Hdiv in H. rewrite N.div_mul in H by done. rewrite Hdiv. 
    apply (N.mul_le_mono_l _ _ rate) in H. rewrite N.mul_add_distr_l, <- N.mul_max_distr_l in H. 
    replace (rate * (sent * k)) with (sent * (k * rate)) in H by lia.
    replace (rate * (m * 8 * k)) with (m * 8 * (k * rate)) in H by lia. done.
  - intros Hle. set (k := NSEC / rate) in *.
    assert (Hk1 : 1 <= k). { apply N.div_le_lower_bound; [done|]. lia. }
    pose proof (N.div_mod NSEC rate Hr) as Hdm. fold k in Hdm. pose proof (N.mod_lt NSEC rate Hr) as Hlt. revert Hdm Hlt. generalize (NSEC mod rate). intros md Hdm Hlt. clearbody k.
    assert (H2 : NSEC <= 2 * (rate * k)). { assert (rate * 1 <= rate * k) by (by apply N.mul_le_mono_l). lia. }
    assert (H3 : rate * k <= NSEC) by lia.
    assert (H4 : sent * NSEC <= 2 * (rate * (sent * k))).
    { replace (2 * (rate * (sent * k))) with (sent * (2 * (rate * k))) by lia. by apply N.mul_le_mono_l. }
    assert (H5 : rate * (sent * k) <= rate * (t2 - t1) + N.max (rate * WINDOW) (rate * (m * 8 * k))).
    { rewrite N.mul_max_distr_l, <- N.mul_add_distr_l. by apply N.mul_le_mono_l. }
    assert (H6 : rate * (m * 8 * k) <= m * 8 * NSEC).
    { replace (rate * (m * 8 * k)) with (m * 8 * (rate * k)) by lia. by apply N.mul_le_mono_l. } lia.
Qed.

(** An MBR above 10^9 bits per second is not enforced at all: every packet passes, whatever
    the sizes and however close the arrival times. *)
Theorem mbr_above_1g_refuted :
  forall rate start l,
    NSEC < rate -> start <= 2 ^ 63 -> sane l -> StronglySorted (fun p q => p.1 <= q.1) l ->
    Forall (fun p => start <= p.1) l ->
    Forall (fun e : N * N * bool => e.2 = true) (limit rate start l).
Proof.
  intros rate start l Hr Hs Hl Hsort Hlate.
  assert (H0 : forall p, airtime rate p = 0). { intros p. unfold airtime. rewrite (N.div_small NSEC) by done. lia. }
  revert start Hs Hlate. induction l as [|p l IH]; intros start Hs Hlate; [constructor|]. simpl.
  apply Forall_cons in Hl as [[Ht Hz] Hl]. apply Forall_cons in Hlate as [Hp Hlate]. apply StronglySorted_inv in Hsort as [Hsort Hall].
  rewrite limit_rate_spec; [|unfold NSEC in *; lia|lia|done|done]. rewrite H0, decide_True by lia. constructor; [done|].
  apply IH; [done|done|unfold WINDOW; lia|]. rewrite Forall_forall in *. intros q Hq.
  specialize (Hlate q Hq). specialize (Hall q Hq). simpl in *. unfold WINDOW. lia.
Qed.

(** An MBR of 600 Mbit/s is enforced as 1 Gbit/s. *)
Theorem mbr_rounded_refuted : forall start l, limit 600000000 start l = limit 1000000000 start l.
Proof.
  intros start l. revert start. induction l as [|p l IH]; intros start; [done|]. simpl.
  replace (limit_rate p.2 start 600000000 p.1) with (limit_rate p.2 start 1000000000 p.1) by reflexivity.
  destruct (limit_rate _ _ _ _). by rewrite IH.
Qed.

(** On several CPUs: [n] packets, each as long as the whole window, pass at the same instant. *)
Lemma smp_reads rate start p k pend (ids : list N) :
  limit_rate p.2 start rate p.1 = (true, k) -> forall rest,
  exists pend', limit_smp rate start pend (((fun c => LRead c p) <$> ids) ++ rest) =
    replicate (length ids) (p, true) ++ limit_smp rate start pend' rest.
Proof.
  intros H rest. revert pend. induction ids as [|c ids IH]; intros pend; simpl; [by exists pend|].
  rewrite H. destruct (IH (<[c:=k]> pend)) as [pend' E]. exists pend'. by rewrite <- E.
Qed.
Lemma smp_writes rate start pend (ids : list N) : limit_smp rate start pend (LWrite <$> ids) = [].
Proof. revert start pend. induction ids as [|c ids IH]; intros; simpl; [done|]. apply IH. Qed.

Theorem mbr_race_refuted :
  forall rate n t size, rate <> 0 -> size < 2 ^ 16 -> t < 2 ^ 63 -> airtime rate (t, size) <= t ->
    limit_smp rate 0 ∅ (((fun c => LRead c (t, size)) <$> Nseq n) ++ (LWrite <$> Nseq n)) =
    replicate (N.to_nat n) ((t, size), true).
Proof.
  intros rate n t size Hr Hz Ht Ha.
  assert (H : limit_rate size 0 rate t = (true, N.max (0 + WINDOW) t + airtime rate (t, size) - WINDOW)).
  { pose proof (limit_rate_spec rate 0 (t, size)) as H. simpl in H. rewrite H by (done || lia). rewrite decide_True by lia. done. }
  destruct (smp_reads rate 0 (t, size) _ ∅ (Nseq n) H (LWrite <$> Nseq n)) as [pend ->].
  rewrite smp_writes, app_nil_r, length_Nseq. done.
Qed.
(** With each CPU finishing before the next one starts it is the function above. *)
Lemma smp_sequential rate start pend c (l : list (N * N)) :
  limit_smp rate start pend (l ≫= fun p => [LRead c p; LWrite c]) = limit rate start l.
Proof.
  revert start pend. induction l as [|p l IH]; intros start pend; [done|]. simpl.
  destruct (limit_rate p.2 start rate p.1) as [b s] eqn:E. f_equal. destruct b; simpl.
  - rewrite lookup_insert. simpl. apply IH.
  - rewrite lookup_delete. simpl. unfold limit_rate in E. repeat case_match; simplify_eq; apply IH.
Qed.

(** ** C40 *)

(** A stream conforms to the rate if in every run of packets the airtime is at most the time
    between the first and the last arrival plus the window. *)
Definition conforms (rate : N) (l : list (N * N)) : Prop :=
  forall l1 p mid l3, l = l1 ++ p :: mid ++ l3 ->
    sumN (airtime rate <$> p :: mid) + p.1 <= (List.last mid p).1 + WINDOW.

Lemma last_cons_default {A} (x y : A) l : List.last (x :: l) y = List.last l x.
Proof. revert x. induction l as [|z l IH]; intros x; [done|]. simpl. simpl in IH. destruct l; [done|]. apply IH. Qed.

(** Conforming traffic is never dropped, starting with a limiter that was idle. *)
Theorem conforming_never_dropped :
  forall rate start p l,
    sane (p :: l) -> conforms rate (p :: l) -> start + WINDOW <= p.1 ->
    Forall (fun e : N * N * bool => e.2 = true) (limit rate start (p :: l)).
Proof.
  intros rate start p0 l0 Hsane Hc Hidle.
  destruct (decide (rate = 0)) as [->|Hr].
  { clear. generalize (p0 :: l0). intros l. revert start. induction l as [|p l IH]; intros start; constructor; [done|]. apply IH. }
  (* what the window start must satisfy for every further run of packets *)
  assert (Hgen : forall l s, sane l -> s < 2 ^ 63 + 2 ^ 51 -> conforms rate l ->
    (forall p mid l3, l = p :: mid ++ l3 -> s + sumN (airtime rate <$> p :: mid) <= (List.last mid p).1) ->
    Forall (fun e : N * N * bool => e.2 = true) (limit rate s l)).
  { induction l as [|p l IH]; intros s Hl Hs Hcf Hpre; [constructor|]. simpl.
    apply Forall_cons in Hl as [[Ht Hz] Hl]. rewrite limit_rate_spec by done.
    pose proof (Hpre p [] l eq_refl) as Hfirst. unfold sumN in Hfirst. simpl in Hfirst. rewrite decide_True by lia.
    pose proof (Hcf [] p [] l eq_refl) as Hwin. unfold sumN in Hwin. simpl in Hwin.
    constructor; [done|]. apply IH; [done| |..].
    - pose proof (airtime_small rate p Hz). unfold WINDOW in *. lia.
    - intros l1 q mid l3 E. apply (Hcf (p :: l1) q mid l3). by rewrite E.
    - intros q mid l3 E. pose proof (Hpre p (q :: mid) l3) as H1. pose proof (Hcf [] p (q :: mid) l3) as H2.
      rewrite last_cons_default in H1, H2. rewrite !fmap_cons, !sumN_cons in *. simpl in H1, H2. rewrite E in H1, H2. specialize (H1 eq_refl). specialize (H2 eq_refl).
      simpl. unfold WINDOW in *. lia. }
  apply Hgen; [done| |done|].
  - apply Forall_cons in Hsane as [[Ht _] _]. lia.
  - intros p mid l3 E. pose proof (Hc [] p mid l3 E) as H. rewrite fmap_cons, sumN_cons in *. injection E as -> ->. unfold WINDOW in *. lia.
Qed.

(** Without a limit (MBR 0) nothing is dropped. *)
Theorem unlimited_never_dropped :
  forall start l, Forall (fun e : N * N * bool => e.2 = true) (limit 0 start l).
Proof. intros start l. revert start. induction l as [|p l IH]; intros start; constructor; [done|]. apply IH. Qed.

(** One packet is judged by its distance from the window start. *)
Theorem packet_passes_iff :
  forall rate start p, rate <> 0 -> start <= 2 ^ 63 -> p.1 < 2 ^ 63 -> p.2 < 2 ^ 16 ->
    (fst (limit_rate p.2 start rate p.1) = true <-> start + airtime rate p <= p.1).
Proof.
  intros rate start p Hr Hs Ht Hz. rewrite limit_rate_spec by (done || lia). by destruct (decide _).
Qed.

(** Ten packets of 1250 bytes (1 ms each at 10 Mbit/s), 1 ms apart, all pass; of a burst of ten
    five do. *)
Definition ex_stream (gap : N) (n : nat) : list (N * N) := (fun i => (20000000 + gap * N.of_nat i, 1250)) <$> seq 0 n.
Example ex_paced : limit 10000000 0 (ex_stream 1000000 10) = (fun p => (p, true)) <$> ex_stream 1000000 10.
Proof. done. Qed.
Example ex_burst : bits (passed_in 0 30000000 (limit 10000000 0 (ex_stream 0 10))) = 5 * 10000.
Proof. done. Qed.
Example ex_conforms : conforms 10000000 (ex_stream 1000000 3).
Proof.
  intros l1 p mid l3 E. change (ex_stream 1000000 3) with [(20000000, 1250); (21000000, 1250); (22000000, 1250)] in E.
  destruct l1 as [|? [|? [|? l1]]]; simplify_eq/=.
  - destruct mid as [|? [|? [|? mid]]]; simplify_eq/=; by vm_compute.
  - destruct mid as [|? [|? mid]]; simplify_eq/=; by vm_compute.
  - destruct mid as [|? mid]; simplify_eq/=; by vm_compute.
  - by destruct l1.
Qed.

(** ** C41 *)

(** An MBR of up to 4294967 kbit/s requested in an accepted establishment is what the data plane
    is given for the packets of a PDR that names the QER. *)
Theorem mbr_installed_partial :
  forall sh addr seq q c c' r,
    reachable c ->
    handle sh addr seq (SessEstReq q) c = Done c' (Some r) -> r_cause r = Some 1 ->
    exists ks : list (key * bool),
      Forall2 (fun p k => detects (g_ueip (c_cfg c)) p (fst k) (snd k)) (eq_pdrs q) ks /\
      (NoDup ((fun f => default 0 (fa_id f)) <$> eq_fars q) -> NoDup (qe_id <$> eq_qers q) ->
       forall n p k f i, eq_pdrs q !! n = Some p -> ks !! n = Some k -> no_sdf p ->
         (forall m k', (n < m)%nat -> ks !! m = Some k' -> fst k' <> fst k) ->
         f ∈ eq_qers q -> qe_id f = Some i -> pe_qer p = Some i ->
         default 0 (qe_mbr_ul f) <= 4294967 -> default 0 (qe_mbr_dl f) <= 4294967 ->
         exists e v, dp_find (c_dp c') (fst k) = Some e /\ qer_get (c_dp c') (ep_qer e) = Some v /\
           qi_ul_rate v = 1000 * default 0 (qe_mbr_ul f) /\ qi_dl_rate v = 1000 * default 0 (qe_mbr_dl f)).
Proof.
  intros sh addr seq q c c' r Hreach H Hr.
  destruct (establishment_installs sh addr seq q c c' r Hreach H Hr) as (ks & Hks & _ & _ & _ & Hin).
  exists ks. split; [done|]. intros N2 N3 n p k f i Hpn Hkn Hsdf Hlast Hf Hi Hp Hu Hd.
  destruct (Hin N2 N3 n p k Hpn Hkn Hsdf Hlast) as (e & He & _ & _ & _ & Hq).
  destruct (Hq f i Hf Hi Hp) as (v & Hv & (_ & _ & _ & Hul & Hdl) & _).
  exists e, v. split; [done|]. split; [done|]. rewrite Hul, Hdl. unfold u32.
  rewrite !(N.mod_small (default 0 _)) by lia. rewrite !N.mod_small by lia. lia.
Qed.

Definition ex_mbr (kbps : N) : msg :=
  SessEstReq (EstReq (Good 5) (Good 100) [FarIe (Some 1) (Some [2]) None None]
    [QerIe (Some 1) None None (Some kbps) (Some kbps) None] []
    [PdrIe (Some 1) (Some 0) (Some 1) (Some 1) [] (Some (PdiIe true (Good (FteidIe 10 false None)) Absent)) None]).
(** 10 Mbit/s are installed as requested; 4.294968 Gbit/s are installed as 704 bit/s. *)
Definition ex_mbr_gives (kbps rate : N) : Prop :=
  exists c l, ex_start [ex_setup] = Some (c, l) /\
    exists c' r e v, handle id_shuffle 7 2 (ex_mbr kbps) c = Done c' (Some r) /\ r_cause r = Some 1 /\
    dp_find (c_dp c') (Up 10) = Some e /\ qer_get (c_dp c') (ep_qer e) = Some v /\ qi_ul_rate v = rate.
Lemma ex_mbr_inv kbps rate :
  ex_runs [ex_setup] (fun c => ex_accepts 1 (handle id_shuffle 7 2 (ex_mbr kbps) c) (fun c' r =>
      match dp_find (c_dp c') (Up 10) with
      | Some e => match qer_get (c_dp c') (ep_qer e) with Some v => qi_ul_rate v =? rate | None => false end
      | None => false end)) = true -> ex_mbr_gives kbps rate.
Proof.
  intros H. apply ex_runs_inv in H as (c & l & Hc & H). apply ex_accepts_inv in H as (c' & r & Hh & Hk & H3).
  destruct (dp_find (c_dp c') (Up 10)) as [e|] eqn:Ee; [|done].
  destruct (qer_get (c_dp c') (ep_qer e)) as [v|] eqn:Ev; [|done]. apply N.eqb_eq in H3.
  exists c, l. split; [done|]. by exists c', r, e, v.
Qed.
Example ex_mbr_10m : ex_mbr_gives 10000 10000000.
Proof. apply ex_mbr_inv. by vm_compute. Qed.
Theorem mbr_wraps_refuted : ex_mbr_gives 4294968 704.
Proof. apply ex_mbr_inv. by vm_compute. Qed.
Example ex_race : limit_smp 10000000 0 ∅ (((fun c => LRead c (20000000, 6250)) <$> Nseq 4) ++ (LWrite <$> Nseq 4)) =
  replicate 4 ((20000000, 6250), true).
Proof. done. Qed.
