(** C46: listing and finding PFCP sessions over REST (cmd/api/rest/pfcp_sessions.go, pfcp_associations.go). *)
From Verif Require Import Base IdTracker SdfParser SdfProps MapOps Pfcp PfcpProps PfcpHistory PfcpReach PfcpRules PfcpCreate PfcpRemove Rest.
Open Scope N_scope.

(** ** Model *)

(** The orders in which the maps are visited: the associations, the sessions of each, the PDRs of each. *)
Definition assocs_in (sh : shuffle) (c : conn) : list (N * assoc) := entries sh 10 (c_assocs c).
Definition sessions_in (sh : shuffle) (addr : N) (a : assoc) : list (N * session) := entries sh (100 + 2 * addr) (a_sessions a).
Definition pdrs_in (sh : shuffle) (s : session) : list (N * spdr) := entries sh (101 + 2 * s_local s) (s_pdrs s).

(** rest/pfcp_sessions.go:51-58 [GetAllSessions]. *)
Definition all_sessions (sh : shuffle) (c : conn) : list session :=
  flat_map (fun x => snd <$> sessions_in sh (fst x) (snd x)) (assocs_in sh c).

(** The three nested loops of rest/pfcp_sessions.go:60-71 and 73-84: the first session with a PDR that satisfies the test. *)
Fixpoint first_session (sh : shuffle) (test : spdr -> bool) (l : list (N * session)) : option session :=
  match l with
  | [] => None
  | (_, s) :: l => if existsb (fun e => test (snd e)) (pdrs_in sh s) then Some s else first_session sh test l
  end.
Fixpoint first_in_assocs (sh : shuffle) (test : spdr -> bool) (l : list (N * assoc)) : option session :=
  match l with
  | [] => None
  | (addr, a) :: l =>
      match first_session sh test (sessions_in sh addr a) with Some s => Some s | None => first_in_assocs sh test l end
  end.

(** An address as net.ParseIP returns it: IPv4 (also from ::ffff:a.b.c.d) or IPv6. *)
Inductive ip_query := Ip4 (a : N) | Ip6 (a : N).
(** net.IP.Equal of the PDR's IPv4 address (nil if it has none). *)
Definition ip_equal (x : option N) (q : ip_query) : bool :=
  match x, q with Some a, Ip4 b => a =? b | _, _ => false end.
(** rest/pfcp_sessions.go:60-71 [FilterSessionsByIP], 73-84 [FilterSessionsByTeid]. *)
Definition by_ip (sh : shuffle) (q : ip_query) (c : conn) : option session :=
  first_in_assocs sh (fun p => ip_equal (sd_v4 p) q) (assocs_in sh c).
Definition by_teid (sh : shuffle) (teid : Z) (c : conn) : option session :=
  first_in_assocs sh (fun p => sd_teid p =? u32_of_int teid) (assocs_in sh c).

(** rest/pfcp_sessions.go:19-49 [listPfcpSessionsFiltered]: a query parameter is absent, unparsable or a value; the
    answers written in turn (status, sessions). *)
Definition list_sessions (sh : shuffle) (ip : fld ip_query) (teid : fld Z) (c : conn) : list (N * list session) :=
  match ip, teid with
  | Absent, Absent => [(200, all_sessions sh c)]
  | _, _ =>
      let e1 := match ip with Bad => [(400, [])] | _ => [] end in
      let s1 := match ip with Good q => match by_ip sh q c with Some s => [s] | None => [] end | _ => [] end in
      let e2 := match teid with Bad => [(400, [])] | _ => [] end in
      let s2 := match teid with Good t => match by_teid sh t c with Some s => [s] | None => [] end | _ => [] end in
      e1 ++ e2 ++ [(200, s1 ++ s2)]
  end.

(** rest/pfcp_associations.go:24-35 [listPfcpAssociations]: peer address, node id and NextSessionID. *)
Definition list_assocs (sh : shuffle) (c : conn) : gmap N (N * N) :=
  list_to_map ((fun x => (fst x, (a_node (snd x), a_next (snd x)))) <$> assocs_in sh c).

(** ** Properties *)

Lemma elem_sessions sh c addr a seid s : fair sh -> c_assocs c !! addr = Some a ->
  (seid, s) ∈ sessions_in sh addr a <-> session_of c addr seid = Some s.
Proof. intros Hf Ha. unfold sessions_in. rewrite elem_of_entries by done. unfold session_of. by rewrite Ha. Qed.

(** All live sessions, each once: the list is what an enumeration of the live (peer, SEID) pairs gives. *)
Theorem all_sessions_listed :
  forall g rm d es c l sh, run (init g rm d) es = Some (c, l) -> N.of_nat (length es) <= bound -> fair sh ->
    exists ks : list (N * N), NoDup ks /\ (forall k, k ∈ ks <-> k ∈ live l) /\
      Forall2 (fun k s => session_of c (fst k) (snd k) = Some s) ks (all_sessions sh c).
Proof.
  intros g rm d es c l sh Hr Hb Hf. pose proof (session_table_follows_log g rm d es c l Hr Hb) as Hlive.
  exists (flat_map (fun x => (fun y => (fst x, fst y)) <$> sessions_in sh (fst x) (snd x)) (assocs_in sh c)). split_and!.
  - unfold assocs_in. pose proof (NoDup_entries_fst sh 10 (c_assocs c) Hf) as Hn. revert Hn.
    generalize (entries sh 10 (c_assocs c)). intros L. induction L as [|[addr a] L IH]; intros Hn; simpl; [constructor|].
    simpl in Hn. apply NoDup_cons in Hn as [Hn1 Hn2]. apply NoDup_app. split_and!.
    + pose proof (NoDup_entries_fst sh (100 + 2 * addr) (a_sessions a) Hf) as Hs. unfold sessions_in. revert Hs.
      generalize (entries sh (100 + 2 * addr) (a_sessions a)). intros S. induction S as [|[k s] S IHS]; intros HS; simpl; [constructor|].
      simpl in HS. apply NoDup_cons in HS as [H1 H2]. apply NoDup_cons. split; [|by apply IHS].
      intros Hin. apply H1. apply elem_of_list_fmap in Hin as ([k' s'] & [= ->] & Hin). apply elem_of_list_fmap. by exists (k', s').
    + intros [x1 x2] Hx Hy. apply elem_of_list_fmap in Hx as ([k s] & [= -> ->] & _). apply Hn1.
      apply elem_of_list_In, in_flat_map in Hy as ([addr' a'] & H1 & H2). apply elem_of_list_In in H1, H2.
      apply elem_of_list_fmap in H2 as ([k' s'] & [= -> _] & _). apply elem_of_list_fmap. by exists (addr', a').
    + by apply IH.
  - intros [addr seid]. rewrite <- Hlive. rewrite elem_of_list_In, in_flat_map. split.
    + intros ([addr' a] & H1 & H2). apply elem_of_list_In in H1, H2. apply elem_of_list_fmap in H2 as ([k s] & [= -> ->] & H2).
      unfold assocs_in in H1. rewrite elem_of_entries in H1 by done. simpl in *. exists s. by rewrite <- elem_sessions.
    + intros [s Hs]. pose proof Hs as Hs'. unfold session_of in Hs'. destruct (c_assocs c !! addr) as [a|] eqn:Ha; [|done].
      exists (addr, a). split; [apply elem_of_list_In; unfold assocs_in; by rewrite elem_of_entries|].
      apply elem_of_list_In, elem_of_list_fmap. exists (seid, s). split; [done|]. by apply (elem_sessions sh c).
  - unfold all_sessions.
    assert (HL : forall addr a, (addr, a) ∈ assocs_in sh c -> c_assocs c !! addr = Some a).
    { intros addr a H. unfold assocs_in in H. by rewrite elem_of_entries in H. }
    revert HL. generalize (assocs_in sh c). intros L. induction L as [|[addr a] L IH]; intros HL; simpl; [constructor|].
    apply Forall2_app; [|apply IH; intros; apply HL; by right].
    assert (Ha : c_assocs c !! addr = Some a) by (apply HL; by left).
    assert (HS : forall k s, (k, s) ∈ sessions_in sh addr a -> session_of c addr k = Some s) by (intros; by apply (elem_sessions sh c addr a)).
    revert HS. generalize (sessions_in sh addr a). intros S. induction S as [|[k s] S IHS]; intros HS; simpl; constructor.
    + apply HS. by left.
    + apply IHS. intros. apply HS. by right.
Qed.

Lemma exists_pdrs sh test s : fair sh -> existsb (fun e => test (snd e)) (pdrs_in sh s) = true <-> exists p, p ∈ pdrs_of s /\ test p = true.
Proof.
  intros Hf. rewrite existsb_exists. split.
  - intros ([i p] & H1 & H2). apply elem_of_list_In in H1. unfold pdrs_in in H1. rewrite elem_of_entries in H1 by done.
    exists p. split; [|done]. apply elem_of_pdrs. eauto.
  - intros (p & H1 & H2). apply elem_of_pdrs in H1 as [i Hi]. exists (i, p). split; [|done].
    apply elem_of_list_In. unfold pdrs_in. by rewrite elem_of_entries.
Qed.
Lemma first_session_spec sh test l : fair sh ->
  match first_session sh test l with
  | Some s => (exists k, (k, s) ∈ l) /\ exists p, p ∈ pdrs_of s /\ test p = true
  | None => forall k s, (k, s) ∈ l -> forall p, p ∈ pdrs_of s -> test p = false
  end.
Proof.
  intros Hf. induction l as [|[k s] l IH]; simpl; [intros ? ? H; by apply elem_of_nil in H|].
  destruct (existsb (fun e => test (snd e)) (pdrs_in sh s)) eqn:E.
  - split; [exists k; by left|]. by apply (exists_pdrs sh).
  - destruct (first_session sh test l) as [s'|].
    + destruct IH as [[k' H1] H2]. split; [|done]. exists k'. by right.
    + intros k' s' H p Hp. apply elem_of_cons in H as [[= -> ->]|H]; [|by eapply IH].
      destruct (test p) eqn:T; [|done]. assert (existsb (fun e => test (snd e)) (pdrs_in sh s) = true) by (apply exists_pdrs; eauto). congruence.
Qed.
Lemma first_in_assocs_spec sh test c : fair sh ->
  match first_in_assocs sh test (assocs_in sh c) with
  | Some s => (exists addr seid, session_of c addr seid = Some s) /\ exists p, p ∈ pdrs_of s /\ test p = true
  | None => forall addr seid s, session_of c addr seid = Some s -> forall p, p ∈ pdrs_of s -> test p = false
  end.
Proof.
  intros Hf.
  assert (HL : forall addr a, (addr, a) ∈ assocs_in sh c <-> c_assocs c !! addr = Some a) by (intros; by apply elem_of_entries).
  assert (G : forall L, (forall addr a, (addr, a) ∈ L -> c_assocs c !! addr = Some a) ->
    match first_in_assocs sh test L with
    | Some s => (exists addr seid, session_of c addr seid = Some s) /\ exists p, p ∈ pdrs_of s /\ test p = true
    | None => forall addr a, (addr, a) ∈ L -> forall seid s, a_sessions a !! seid = Some s -> forall p, p ∈ pdrs_of s -> test p = false
    end).
  { induction L as [|[addr a] L IH]; intros H; simpl; [intros ? ? X; by apply elem_of_nil in X|].
    assert (Ha : c_assocs c !! addr = Some a) by (apply H; by left).
    pose proof (first_session_spec sh test (sessions_in sh addr a) Hf) as Hs.
    destruct (first_session sh test (sessions_in sh addr a)) as [s|].
    - destruct Hs as [[k Hk] Hs]. split; [|done]. exists addr, k. by apply (elem_sessions sh c addr a).
    - assert (H' : forall addr a, (addr, a) ∈ L -> c_assocs c !! addr = Some a) by (intros; apply H; by right).
      specialize (IH H'). destruct (first_in_assocs sh test L); [done|].
      intros addr' a' Hin. apply elem_of_cons in Hin as [[= -> ->]|Hin]; [|by apply (IH addr' a')].
      intros seid s Hse. apply (Hs seid). apply (elem_sessions sh c addr a); [done..|]. unfold session_of. by rewrite Ha. }
  specialize (G (assocs_in sh c) (fun addr a => proj1 (HL addr a))).
  destruct (first_in_assocs sh test (assocs_in sh c)); [done|]. intros addr seid s Hs. unfold session_of in Hs.
  destruct (c_assocs c !! addr) as [a|] eqn:Ha; [|done]. apply (G addr a (proj2 (HL addr a) Ha) seid s Hs).
Qed.

(** Finding by address: sound and complete, for every order of iteration. *)
Theorem session_by_ip :
  forall g rm d es c l sh a, run (init g rm d) es = Some (c, l) -> N.of_nat (length es) <= bound -> fair sh ->
    (forall s, by_ip sh (Ip4 a) c = Some s ->
       exists addr seid p, (addr, seid) ∈ live l /\ session_of c addr seid = Some s /\ p ∈ pdrs_of s /\ spdr_key p = Dn4 a) /\
    (by_ip sh (Ip4 a) c = None ->
       forall addr seid s p, (addr, seid) ∈ live l -> session_of c addr seid = Some s -> p ∈ pdrs_of s -> spdr_key p <> Dn4 a) /\
    (forall v6, by_ip sh (Ip6 v6) c = None).
Proof.
  intros g rm d es c l sh a Hr Hb Hf. pose proof (session_table_follows_log g rm d es c l Hr Hb) as Hlive.
  assert (K : forall p, ip_equal (sd_v4 p) (Ip4 a) = true <-> spdr_key p = Dn4 a).
  { intros p. unfold spdr_key, ip_equal. destruct (sd_v4 p) as [b|]; [rewrite N.eqb_eq; split; congruence|].
    destruct (sd_v6 p); split; done. }
  split_and!.
  - intros s Hs. pose proof (first_in_assocs_spec sh (fun p => ip_equal (sd_v4 p) (Ip4 a)) c Hf) as H.
    unfold by_ip in Hs. rewrite Hs in H. destruct H as [(addr & seid & Hse) (p & Hp & Ht)]. exists addr, seid, p.
    split_and!; try done; [rewrite <- Hlive; eauto|by apply K].
  - intros Hn addr seid s p _ Hs Hp Hk. pose proof (first_in_assocs_spec sh (fun p => ip_equal (sd_v4 p) (Ip4 a)) c Hf) as H.
    unfold by_ip in Hn. rewrite Hn in H. specialize (H addr seid s Hs p Hp). apply K in Hk. simpl in H. congruence.
  - intros v6. pose proof (first_in_assocs_spec sh (fun p => ip_equal (sd_v4 p) (Ip6 v6)) c Hf) as H. unfold by_ip.
    destruct (first_in_assocs _ _ _) as [s|]; [|done]. destruct H as [_ (p & _ & Ht)]. unfold ip_equal in Ht. by destruct (sd_v4 p).
Qed.
(** Finding by TEID: sound and complete for the TEID recorded with a PDR (0 for a PDR without F-TEID), for every
    parameter in the range of a TEID. *)
Theorem session_by_teid_partial :
  forall g rm d es c l sh t, run (init g rm d) es = Some (c, l) -> N.of_nat (length es) <= bound -> fair sh -> t < 4294967296 ->
    (forall s, by_teid sh (Z.of_N t) c = Some s ->
       exists addr seid p, (addr, seid) ∈ live l /\ session_of c addr seid = Some s /\ p ∈ pdrs_of s /\ sd_teid p = t) /\
    (by_teid sh (Z.of_N t) c = None ->
       forall addr seid s p, (addr, seid) ∈ live l -> session_of c addr seid = Some s -> p ∈ pdrs_of s -> sd_teid p <> t /\ spdr_key p <> Up t).
Proof.
  intros g rm d es c l sh t Hr Hb Hf Ht. pose proof (session_table_follows_log g rm d es c l Hr Hb) as Hlive.
  pose proof (first_in_assocs_spec sh (fun p => sd_teid p =? u32_of_int (Z.of_N t)) c Hf) as H. unfold by_teid.
  rewrite u32_of_int_id in H |- * by done. split.
  - intros s Hs. rewrite Hs in H. destruct H as [(addr & seid & Hse) (p & Hp & Ht')]. exists addr, seid, p.
    apply N.eqb_eq in Ht'. split_and!; try done. rewrite <- Hlive. eauto.
  - intros Hn addr seid s p _ Hs Hp. rewrite Hn in H. specialize (H addr seid s Hs p Hp). simpl in H. apply N.eqb_neq in H.
    split; [done|]. unfold spdr_key. destruct (sd_v4 p), (sd_v6 p); congruence.
Qed.
(** Not so in general: TEID 0 finds a session that only has a downlink PDR, and the parameter is taken modulo 2^32. *)
Theorem session_by_teid_refuted :
  (exists c l s, ex_start [ex_setup; ex_recv 2 (ex_est_of [ex_dl 1 167772161 1 1] [])] = Some (c, l) /\
     by_teid id_shuffle 0 c = Some s /\ forall p, p ∈ pdrs_of s -> spdr_key p = Dn4 167772161) /\
  (exists c l s, ex_start [ex_setup; ex_recv 2 (ex_est_of [ex_pdr 1 5] [])] = Some (c, l) /\
     by_teid id_shuffle 4294967301 c = Some s /\ forall p, p ∈ pdrs_of s -> sd_teid p = 5).
Proof.
  split.
  - destruct (ex_runs_inv [ex_setup; ex_recv 2 (ex_est_of [ex_dl 1 167772161 1 1] [])] (fun c =>
      match by_teid id_shuffle 0 c with Some s => forallb (fun p => bool_decide (spdr_key p = Dn4 167772161)) (pdrs_of s) | None => false end))
      as (c & l & Hc & H); [by vm_compute|].
    destruct (by_teid id_shuffle 0 c) as [s|] eqn:E; [|discriminate H]. exists c, l, s. split; [exact Hc|]. split; [exact E|].
    intros p Hp. rewrite forallb_forall in H. apply elem_of_list_In in Hp. apply H in Hp. by apply bool_decide_eq_true in Hp.
  - destruct (ex_runs_inv [ex_setup; ex_recv 2 (ex_est_of [ex_pdr 1 5] [])] (fun c =>
      match by_teid id_shuffle 4294967301 c with Some s => forallb (fun p => bool_decide (sd_teid p = 5)) (pdrs_of s) | None => false end))
      as (c & l & Hc & H); [by vm_compute|].
    destruct (by_teid id_shuffle 4294967301 c) as [s|] eqn:E; [|discriminate H]. exists c, l, s. split; [exact Hc|]. split; [exact E|].
    intros p Hp. rewrite forallb_forall in H. apply elem_of_list_In in Hp. apply H in Hp. by apply bool_decide_eq_true in Hp.
Qed.

(** The status is 400 exactly for a parameter that does not parse; otherwise there is one answer, with at most one session for each
    parameter given, found by it. *)
Theorem listing_status_partial :
  forall sh ip teid c,
    (fst <$> head (list_sessions sh ip teid c) = Some 400 <-> ip = Bad \/ teid = Bad) /\
    (ip <> Bad -> teid <> Bad -> exists l, list_sessions sh ip teid c = [(200, l)] /\
       match ip, teid with
       | Absent, Absent => l = all_sessions sh c
       | _, _ => forall s, s ∈ l <-> (exists q, ip = Good q /\ by_ip sh q c = Some s) \/ (exists t, teid = Good t /\ by_teid sh t c = Some s)
       end).
Proof.
  intros sh ip teid c. split.
  - destruct ip, teid; simpl; split; intros H; try (by destruct H); try (by left); try (by right); done.
  - intros H1 H2. unfold list_sessions. destruct ip as [| |q]; [|done|]; destruct teid as [| |t]; try done; simpl.
    + by eexists.
    + destruct (by_teid sh t c) as [s1|] eqn:E2; simpl; eexists; (split; [done|]); intros s; split; intros H; set_solver.
    + rewrite app_nil_r. destruct (by_ip sh q c) as [s1|] eqn:E2; simpl; eexists; (split; [done|]); intros s; split; intros H; set_solver.
    + eexists. split; [done|]. intros s. rewrite elem_of_app.
      destruct (by_ip sh q c) as [s1|] eqn:E1, (by_teid sh t c) as [s2|] eqn:E2; set_solver.
Qed.
(** A parameter that does not parse is answered twice: with an error, then with sessions. *)
Theorem listing_answered_once_refuted :
  exists c l s, ex_start [ex_setup; ex_recv 2 (ex_est_of [ex_pdr 1 5] [])] = Some (c, l) /\
    list_sessions id_shuffle Bad (Good 5%Z) c = [(400, []); (200, [s])].
Proof.
  destruct (ex_runs_inv [ex_setup; ex_recv 2 (ex_est_of [ex_pdr 1 5] [])] (fun c => match by_teid id_shuffle 5 c with Some s => true | None => false end))
    as (c & l & Hc & H); [by vm_compute|].
  destruct (by_teid id_shuffle 5 c) as [s|] eqn:E; [|discriminate H]. exists c, l, s. split; [exact Hc|]. clear Hc. unfold list_sessions. by rewrite E.
Qed.

(** The associations are shown exactly. *)
Theorem associations_listed :
  forall sh c addr, fair sh -> list_assocs sh c !! addr = (fun a => (a_node a, a_next a)) <$> c_assocs c !! addr.
Proof.
  intros sh c addr Hf. unfold list_assocs, assocs_in.
  destruct (c_assocs c !! addr) as [a|] eqn:Ha; simpl.
  - apply elem_of_list_to_map.
    + rewrite <- list_fmap_compose. apply NoDup_entries_fst. done.
    + apply elem_of_list_fmap. exists (addr, a). split; [done|]. by rewrite elem_of_entries.
  - apply not_elem_of_list_to_map. rewrite <- list_fmap_compose. intros Hin.
    apply elem_of_list_fmap in Hin as ([k a] & -> & Hin). rewrite elem_of_entries in Hin by done. simpl in Ha. congruence.
Qed.
(** Two sessions, listed and found. *)
Example ex_rest_sessions : exists c l s, ex_start [ex_setup; ex_recv 2 (ex_est_of [ex_pdr 1 5] []); ex_recv 3 (ex_est_of [ex_dl 1 167772161 1 1] [])] = Some (c, l) /\
  length (all_sessions rev_shuffle c) = 2%nat /\ by_ip id_shuffle (Ip4 167772161) c = Some s /\ s_local s = 3 /\ by_ip id_shuffle (Ip4 5) c = None.
Proof.
  destruct (ex_runs_inv [ex_setup; ex_recv 2 (ex_est_of [ex_pdr 1 5] []); ex_recv 3 (ex_est_of [ex_dl 1 167772161 1 1] [])] (fun c =>
    (length (all_sessions rev_shuffle c) =? 2)%nat && match by_ip id_shuffle (Ip4 167772161) c, by_ip id_shuffle (Ip4 5) c with
    | Some s, None => s_local s =? 3 | _, _ => false end)) as (c & l & Hc & H); [by vm_compute|].
  apply andb_true_iff in H as [H1 H2]. apply Nat.eqb_eq in H1.
  destruct (by_ip id_shuffle (Ip4 167772161) c) as [s|] eqn:E1; [|discriminate H2]. destruct (by_ip id_shuffle (Ip4 5) c) eqn:E2; [discriminate H2|].
  apply N.eqb_eq in H2. exists c, l, s. split; [exact Hc|]. rewrite E1, E2. auto.
Qed.
