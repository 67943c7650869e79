(** C88: a live session can be deleted.  C89: the order in which Go visits its maps does not matter. *)
From Verif Require Import Base IdTracker ResourceManager SdfParser MapOps Pfcp PfcpProps PfcpHistory PfcpReach PfcpRules PfcpCreate PfcpRemove
  PfcpReject PfcpInv PfcpAsked PfcpTeid PfcpKeys.

(** ** [deletePDR] in closed form *)
Definition erase_key (k : key) (d : dp) : dp :=
  match k with Up t => set_up (delete t (d_up d)) d | Dn4 a => set_dn4 (delete a (d_dn4 d)) d | Dn6 a => set_dn6 (delete a (d_dn6 d)) d end.
(** Is the PDR skipped because a TEID with the same low octet was handled before? *)
Definition hit (s : spdr) (w : work) : bool :=
  match spdr_key s with Up t => match w_cache w !! u8 t with Some _ => true | None => false end | _ => false end.
Definition erased (s : spdr) (w : work) : work :=
  if hit s w then w else
  match spdr_key s with
  | Up t => w_set_cache (<[u8 t := 0]> (w_cache w)) (w_set_dp (erase_key (Up t) (w_dp w)) w)
  | k => w_set_dp (erase_key k (w_dp w)) w
  end.
Definition rel (sh : shuffle) (seid : N) (rm : option rman) : option rman :=
  match rm with Some r => Some (Rman (release_teid sh seid (rm_ft r)) (rm_ip r)) | None => None end.
Definition freed (sh : shuffle) (s : spdr) (w : work) : res :=
  if sd_teid s =? 0 then ROk w else
  match w_rm w with None => RCrash | Some _ => ROk (w_set_rm (rel sh (s_remote (w_ses w)) (w_rm w)) w) end.

Lemma work_eta w : w_set_dp (w_dp w) w = w. Proof. by destruct w. Qed.
Lemma delete_pdr_closed sh s w : delete_pdr sh s w =
  if hit s w || installed (w_dp w) (spdr_key s) then freed sh s (erased s w) else RErr w.
Proof.
  unfold delete_pdr, erased, hit, freed, spdr_key, installed, rel. cbn zeta.
  destruct (sd_v4 s) as [a|]; [|destruct (sd_v6 s) as [a|]]; cbn [dp_find erase_key].
  - unfold delete_pdr_downlink, hash_delete. destruct (d_dn4 (w_dp w) !! a); cbn; [|by rewrite work_eta]. destruct (sd_teid s =? 0); [done|]. by destruct (w_rm w).
  - unfold delete_pdr_ip6, hash_delete. destruct (d_dn6 (w_dp w) !! a); cbn; [|by rewrite work_eta]. destruct (sd_teid s =? 0); [done|]. by destruct (w_rm w).
  - unfold delete_pdr_uplink, hash_delete. destruct (w_cache w !! u8 (sd_teid s)); cbn; [destruct (sd_teid s =? 0); [done|]; by destruct (w_rm w)|].
    destruct (d_up (w_dp w) !! sd_teid s); cbn; [|by rewrite work_eta]. destruct (sd_teid s =? 0); [done|]. by destruct (w_rm w).
Qed.

(** ** C88 *)
(** A session is deletable if the rule tables have an entry for each of its PDRs, no two of which detect packets to the same UE
    address, and its FARs and QERs. *)
Definition deletable (d : dp) (s : session) : Prop :=
  (forall i p, s_pdrs s !! i = Some p -> dp_find d (spdr_key p) <> None) /\
  (forall i j p p', s_pdrs s !! i = Some p -> s_pdrs s !! j = Some p' -> spdr_key p = spdr_key p' -> (exists t, spdr_key p = Up t) \/ i = j) /\
  (forall i f, s_fars s !! i = Some f -> sf_gid f < d_far_size d) /\ (forall i q, s_qers s !! i = Some q -> sq_gid q < d_qer_size d).

Lemma erased_find s w k : k <> spdr_key s -> dp_find (w_dp (erased s w)) k = dp_find (w_dp w) k.
Proof.
  intros Hk. unfold erased. destruct (hit s w); [done|]. destruct (spdr_key s) as [t|a|a] eqn:E; destruct k as [t'|a'|a']; cbn; try done;
    rewrite lookup_delete_ne; congruence.
Qed.
Lemma erased_rm s w : w_rm (erased s w) = w_rm w /\ w_ses (erased s w) = w_ses w.
Proof. unfold erased. destruct (hit s w); [done|]. by destruct (spdr_key s). Qed.
Lemma freed_ok sh s w w' : freed sh s w = ROk w' -> w_dp w' = w_dp w /\ w_cache w' = w_cache w /\ w_ses w' = w_ses w /\ (is_Some (w_rm w) -> is_Some (w_rm w')).
Proof.
  unfold freed. destruct (_ =? 0); [by intros [= <-]|]. destruct (w_rm w) as [r|] eqn:E; [|done]. intros [= <-]. cbn. split_and!; try done.
Qed.
Lemma freed_total sh s w : is_Some (w_rm w) -> exists w', freed sh s w = ROk w'.
Proof. intros [r Hr]. unfold freed. rewrite Hr. destruct (_ =? 0); by eexists. Qed.

Lemma delete_pdrs_all sh l : forall w, is_Some (w_rm w) ->
  (forall e, e ∈ l -> hit (snd e) w = true \/ installed (w_dp w) (spdr_key (snd e)) = true) ->
  (forall l1 x l2 y, l = l1 ++ x :: l2 -> y ∈ l2 -> spdr_key (snd x) = spdr_key (snd y) -> exists t, spdr_key (snd x) = Up t) ->
  exists w', each (fun e : N * spdr => delete_pdr sh (snd e)) l w = ROk w'.
Proof.
  induction l as [|x l IH]; intros w Hrm Hin Hd; [by eexists|]. cbn [each]. rewrite delete_pdr_closed.
  destruct (Hin x) as [Hh|Hh]; [left|rewrite Hh; cbn [orb]|rewrite Hh, orb_true_r].
  all: destruct (freed_total sh (snd x) (erased (snd x) w)) as [w1 Hw1]; [by rewrite (proj1 (erased_rm _ _))|]; rewrite Hw1; cbn [rbind];
    apply freed_ok in Hw1 as (E1 & E2 & E3 & E4); apply IH; [apply E4; by rewrite (proj1 (erased_rm _ _))| |
      intros l1 z l2 y -> Hy; apply (Hd (x :: l1) z l2 y); [done|done]].
  all: intros e He; unfold hit, installed; rewrite E1, E2; destruct (Hin e (elem_of_list_further _ _ _ He)) as [He'|He'].
  - left. unfold erased. rewrite Hh. exact He'.
  - right. unfold erased. rewrite Hh. exact He'.
  - left. unfold hit in He'. unfold erased. destruct (hit (snd x) w); [exact He'|]. destruct (spdr_key (snd e)) as [t| |]; [|done..].
    destruct (spdr_key (snd x)) as [t'| |]; cbn; try exact He'. destruct (decide (u8 t' = u8 t)) as [->|Hn]; [by rewrite lookup_insert|by rewrite lookup_insert_ne].
  - destruct (decide (spdr_key (snd x) = spdr_key (snd e))) as [Hk|Hk].
    + left. destruct (Hd [] x l e eq_refl He Hk) as [t Ht]. rewrite <- Hk. unfold erased, hit. rewrite Ht. destruct (w_cache w !! u8 t) eqn:Ec; [by rewrite Ec|]. cbn. by rewrite lookup_insert.
    + right. rewrite erased_find by done. exact He'.
Qed.

Lemma del_fars_all l : forall w, (forall e, e ∈ l -> sf_gid (snd e) < d_far_size (w_dp w)) -> exists w', each del_far l w = ROk w' /\ d_qer_size (w_dp w') = d_qer_size (w_dp w).
Proof.
  induction l as [|x l IH]; intros w Hl; [by eexists|]. cbn [each]. unfold del_far at 1, delete_far, update_far. cbn [set_fart d_far_size].
  rewrite (proj2 (N.ltb_lt _ _) (Hl x ltac:(left))). cbn [rbind]. destruct (IH (w_set_dp (set_far (<[sf_gid (snd x):=far0]> (d_far (set_fart (release (sf_gid (snd x)) (d_fart (w_dp w))) (w_dp w)))) (set_fart (release (sf_gid (snd x)) (d_fart (w_dp w))) (w_dp w))) w)) as (w' & Hw' & Hq).
  { intros e He. cbn. apply Hl. by right. }
  exists w'. split; [exact Hw'|]. rewrite Hq. done.
Qed.
Lemma del_qers_all l : forall w, (forall e, e ∈ l -> sq_gid (snd e) < d_qer_size (w_dp w)) -> exists w', each del_qer l w = ROk w'.
Proof.
  induction l as [|x l IH]; intros w Hl; [by eexists|]. cbn [each]. unfold del_qer at 1, delete_qer, update_qer. cbn [set_qert d_qer_size].
  rewrite (proj2 (N.ltb_lt _ _) (Hl x ltac:(left))). cbn [rbind]. apply IH. intros e He. cbn. apply Hl. by right.
Qed.
Lemma del_urrs_all l : forall w, exists w', each del_urr l w = ROk w'.
Proof. induction l as [|x l IH]; intros w; [by eexists|]. cbn [each]. unfold del_urr at 1. destruct (delete_urr _ _) as [[v|] d]; cbn [rbind]; apply IH. Qed.

Theorem deletion_accepted_partial :
  forall sh addr seq seid c s, fair sh -> session_of c addr seid = Some s -> c_rm c <> None -> deletable (c_dp c) s ->
    exists c' r, handle sh addr seq (SessDelReq seid) c = Done c' (Some r) /\ r_cause r = Some 1 /\ session_of c' addr seid = None.
Proof.
  intros sh addr seq seid c s Hf Hs Hrm (H1 & H2 & H3 & H4). unfold session_of in Hs. destruct (c_assocs c !! addr) as [a|] eqn:Ha; [|done].
  cbn [handle]. unfold handle_del. rewrite Ha, Hs. unfold del_rules.
  destruct (delete_pdrs_all sh (entries sh 0 (s_pdrs s)) (new_work (c_dp c) s (c_rm c))) as [w1 Hw1].
  - cbn. destruct (c_rm c); [by eexists|done].
  - intros [i p] He. apply elem_of_entries in He; [|done]. right. unfold installed. cbn. specialize (H1 _ _ He). by destruct (dp_find (c_dp c) (spdr_key p)).
  - intros l1 [i p] l2 [j p'] E Hy Hk. cbn [snd] in *. pose proof (NoDup_entries_fst sh 0 (s_pdrs s) Hf) as Hnd. rewrite E in Hnd.
    assert (s_pdrs s !! i = Some p) as Hi. { apply (elem_of_entries sh 0 (s_pdrs s) i p Hf). rewrite E. apply elem_of_app. right. left. }
    assert (s_pdrs s !! j = Some p') as Hj. { apply (elem_of_entries sh 0 (s_pdrs s) j p' Hf). rewrite E. apply elem_of_app. right. by right. }
    destruct (H2 _ _ _ _ Hi Hj Hk) as [Ht|Hij]; [exact Ht|]. exfalso. rewrite fmap_app, NoDup_app in Hnd. destruct Hnd as (_ & _ & Hnd). cbn in Hnd.
    apply NoDup_cons in Hnd as [Hn _]. apply Hn. rewrite Hij. apply elem_of_list_fmap. by exists (j, p').
  - rewrite Hw1. cbn [rbind].
    assert (far_part w1 = far_part (new_work (c_dp c) s (c_rm c)) /\ qer_part w1 = qer_part (new_work (c_dp c) s (c_rm c))) as [F1 Q1].
    { destruct pdr_frame_far as (_ & _ & _ & Pf). destruct pdr_frame_qer as (_ & _ & _ & Pq).
      pose proof (each_keep far_part (fun e : N * spdr => delete_pdr sh (snd e)) (entries sh 0 (s_pdrs s)) (new_work (c_dp c) s (c_rm c)) (fun e w => Pf sh (snd e) w)) as E1.
      pose proof (each_keep qer_part (fun e : N * spdr => delete_pdr sh (snd e)) (entries sh 0 (s_pdrs s)) (new_work (c_dp c) s (c_rm c)) (fun e w => Pq sh (snd e) w)) as E2.
      rewrite Hw1 in E1, E2. by split. }
    unfold far_part in F1. unfold qer_part in Q1. injection F1 as _ F1 _ _. injection Q1 as _ Q1 _ _. cbn in F1, Q1.
    destruct (del_fars_all (entries sh 1 (s_fars s)) w1) as (w2 & Hw2 & Hq).
    { intros [i f] He. apply elem_of_entries in He; [|done]. cbn. rewrite F1. by apply (H3 i). }
    rewrite Hw2. cbn [rbind]. destruct (del_qers_all (entries sh 2 (s_qers s)) w2) as [w3 Hw3].
    { intros [i f] He. apply elem_of_entries in He; [|done]. cbn. rewrite Hq, Q1. by apply (H4 i). }
    rewrite Hw3. cbn [rbind]. destruct (del_urrs_all (entries sh 3 (s_urrs s)) w3) as [w4 Hw4]. rewrite Hw4.
    eexists _, _. split; [reflexivity|]. split; [done|]. unfold session_of. cbn. rewrite lookup_insert. cbn. by rewrite lookup_delete.
Qed.

(** *** Sessions of a tidy run (PfcpKeys.v) *)
Lemma pstep_rm x y : pstep x y -> is_Some (snd x) -> is_Some (snd y).
Proof.
  destruct 1; cbn; try done.
  - intros [r0 ->]. unfold get_fteid. repeat case_match; cbn; done.
  - intros [r0 ->]. unfold get_ip. repeat case_match; cbn; done.
Qed.
Lemma psteps_rm x y : psteps x y -> is_Some (snd x) -> is_Some (snd y).
Proof. apply (rtc_inv pstep (fun x => is_Some (snd x))). apply pstep_rm. Qed.
Lemma step_rm c e c' r : event_fair e -> step c e = Done c' r -> is_Some (c_rm c) -> is_Some (c_rm c').
Proof. intros Hf H. apply step_prims in H as [H _]; [|done]. exact (psteps_rm _ _ H). Qed.

(** In every tidy run, a live session is deleted when the control plane asks for it. *)
Theorem tidy_session_deletable_partial :
  forall g rm p f q u es c l, start_pools (Some rm) -> Forall event_fair es ->
    run (init g (Some rm) (dp_init p f q u)) es = Some (c, l) -> N.of_nat (length es) <= bound -> tidy l = true ->
    forall addr seid, (addr, seid) ∈ PfcpHistory.live l ->
    forall sh seq, fair sh -> exists c' r, step c (Recv sh addr seq (SessDelReq seid)) = Done c' (Some r) /\
      r_type r = 55 /\ r_seq r = seq /\ r_cause r = Some 1 /\ session_of c' addr seid = None.
Proof.
  intros g rm p f q u es c l Hrm Hf Hrun Hb Ht addr seid Hl sh seq Hsh.
  destruct (tidy_run _ _ _ _ _ _ _ _ _ Hrm Hf Hrun Hb Ht) as (Hc & HM & [K1 _ K3 _ K5]). destruct (careful_mirror _ Hc) as [HF HQ].
  apply (session_table_follows_log _ _ _ _ _ _ Hrun ltac:(lia)) in Hl as [s Hs].
  assert (is_Some (c_rm c)) as Hrc. { pose proof (run_psteps _ _ _ _ Hf Hrun) as Hp. exact (psteps_rm _ _ Hp (ex_intro _ rm eq_refl)). }
  destruct (deletion_accepted_partial sh addr seq seid c s Hsh Hs) as (c' & r & H1 & H2 & H3).
  - by destruct Hrc as [? ->].
  - split; [|split; [|split]].
    + intros i pd Hi. destruct (K1 _ _ _ Hs) as (pm & Hpm & _). by rewrite (K3 _ _ _ _ _ _ Hs Hpm Hi).
    + intros i j pd pd' Hi Hj Hk. right. by destruct (K5 _ _ _ _ _ _ _ _ _ _ Hs Hi Hs Hj Hk) as (_ & _ & ->).
    + intros i fa Hi. exact (mirror_far_lt c addr seid s i fa HF Hs Hi).
    + intros i fa Hi. exact (mirror_qer_lt c addr seid s i fa HQ Hs Hi).
  - exists c', r. split; [exact H1|]. destruct (handle_del_inv _ _ _ _ _ _ _ H1 H2) as (a & s' & w & Ha & Hs' & Hw & _).
    cbn [handle] in H1. unfold handle_del in H1. rewrite Ha, Hs', Hw in H1. by simplify_eq/=.
Qed.

(** *** Two PDRs on one UE address: the session can never be deleted *)
Definition is_dl (k : key) : Prop := match k with Up _ => False | _ => True end.
Lemma erased_mono s w k : installed (w_dp w) k = false -> installed (w_dp (erased s w)) k = false.
Proof.
  intros H. unfold installed in *. destruct (decide (k = spdr_key s)) as [Hk|Hk]; [|by rewrite erased_find].
  subst k. unfold erased. destruct (hit s w); [exact H|]. destruct (spdr_key s); cbn; by rewrite lookup_delete.
Qed.
Lemma erased_gone s w : is_dl (spdr_key s) -> installed (w_dp (erased s w)) (spdr_key s) = false.
Proof. intros H. unfold installed, erased, hit. destruct (spdr_key s) as [t|a|a]; [done| |]; cbn; by rewrite lookup_delete. Qed.
Lemma second_fails sh k l : forall w, is_dl k -> installed (w_dp w) k = false -> (exists y, y ∈ l /\ spdr_key (snd y) = k) ->
  forall w', each (fun e : N * spdr => delete_pdr sh (snd e)) l w <> ROk w'.
Proof.
  induction l as [|x l IH]; intros w Hd Hi (y & Hy & Hk) w'; [by apply elem_of_nil in Hy|]. cbn [each]. rewrite delete_pdr_closed.
  destruct (decide (spdr_key (snd x) = k)) as [Hx|Hx].
  - assert (hit (snd x) w = false) as Hh. { unfold hit. rewrite Hx. by destruct k. } by rewrite Hh, Hx, Hi.
  - destruct (_ || _); [|done]. destruct (freed sh (snd x) (erased (snd x) w)) as [w1|w1|] eqn:E; cbn [rbind]; [|done..].
    apply IH; [done| |].
    + apply freed_ok in E as (-> & _). by apply erased_mono.
    + exists y. split; [|done]. apply elem_of_cons in Hy as [->|Hy]; [by rewrite Hk in Hx|done].
Qed.
Lemma twice_fails sh l : forall w x y, x ∈ l -> y ∈ l -> x <> y -> is_dl (spdr_key (snd x)) -> spdr_key (snd x) = spdr_key (snd y) ->
  forall w', each (fun e : N * spdr => delete_pdr sh (snd e)) l w <> ROk w'.
Proof.
  induction l as [|z l IH]; intros w x y Hx Hy Hn Hd Hk w'; [by apply elem_of_nil in Hx|]. cbn [each].
  destruct (delete_pdr sh (snd z) w) as [w1|w1|] eqn:E; cbn [rbind]; [|done..].
  assert (forall v, z = v -> is_dl (spdr_key (snd v)) -> installed (w_dp w1) (spdr_key (snd v)) = false) as Hg.
  { intros v -> Hv. rewrite delete_pdr_closed in E. destruct (_ || _); [|done]. apply freed_ok in E as (-> & _). by apply erased_gone. }
  apply elem_of_cons in Hx as [Hx|Hx]; apply elem_of_cons in Hy as [Hy|Hy].
  - congruence.
  - apply (second_fails sh (spdr_key (snd x)) l w1 Hd (Hg x (eq_sym Hx) Hd)). by exists y.
  - rewrite Hk in Hd. apply (second_fails sh (spdr_key (snd y)) l w1 Hd (Hg y (eq_sym Hy) Hd)). by exists x.
  - by apply (IH w1 x y).
Qed.

(** The same address is what two PDRs of [s] detect. *)
Definition shares_address (s : session) : Prop :=
  exists i j p p', i <> j /\ s_pdrs s !! i = Some p /\ s_pdrs s !! j = Some p' /\ spdr_key p = spdr_key p' /\ is_dl (spdr_key p).

Lemma shared_del sh addr seq seid c s : fair sh -> session_of c addr seid = Some s -> shares_address s -> is_Some (c_rm c) ->
  exists c', step c (Recv sh addr seq (SessDelReq seid)) = Done c' None /\ session_of c' addr seid = Some s /\ is_Some (c_rm c').
Proof.
  intros Hf Hs (i & j & p & p' & Hn & Hi & Hj & Hk & Hd) Hrm. cbn [step].
  pose proof (no_crash_partial sh addr seq (SessDelReq seid) c I Hrm) as Hc.
  assert (forall w', del_rules sh s (new_work (c_dp c) s (c_rm c)) <> ROk w') as Hne.
  { intros w'. unfold del_rules. destruct (each _ (entries sh 0 (s_pdrs s)) _) as [w1|w1|] eqn:E; cbn [rbind]; [|done..]. exfalso.
    apply (twice_fails sh (entries sh 0 (s_pdrs s)) (new_work (c_dp c) s (c_rm c)) (i, p) (j, p') ) with (w' := w1); try done.
    - by apply elem_of_entries.
    - by apply elem_of_entries.
    - congruence. }
  pose proof Hs as Hs0. unfold session_of in Hs. destruct (c_assocs c !! addr) as [a|] eqn:Ha; [|done].
  assert (exists w, handle sh addr seq (SessDelReq seid) c = Done (set_dp_rm (w_dp w) (w_rm w) c) None) as [w Hw].
  { cbn [handle] in Hc |- *. unfold handle_del in Hc |- *. rewrite Ha, Hs in Hc |- *.
    destruct (del_rules sh s _) as [w|w|]; [by destruct (Hne w)|by exists w|done]. }
  rewrite Hw. eexists. split; [reflexivity|]. split; [exact Hs0|]. exact (step_rm c (Recv sh addr seq (SessDelReq seid)) _ _ Hf Hw Hrm).
Qed.

(** However often, and in whatever order Go visits the session's maps, the deletion request is never answered and the session stays. *)
Theorem shared_address_never_deleted :
  forall addr seid es c s, session_of c addr seid = Some s -> shares_address s -> is_Some (c_rm c) ->
    Forall (fun e => exists sh seq, fair sh /\ e = Recv sh addr seq (SessDelReq seid)) es ->
    exists c' l, run c es = Some (c', l) /\ Forall (fun x => snd x = None) l /\ session_of c' addr seid = Some s.
Proof.
  intros addr seid es. induction es as [|e es IH]; intros c s Hs Hsh Hrm He; [by exists c, []; split_and!|].
  apply Forall_cons in He as [(sh & seq & Hf & ->) He]. cbn [run].
  destruct (shared_del sh addr seq seid c s Hf Hs Hsh Hrm) as (c1 & -> & Hs1 & Hrm1).
  destruct (IH c1 s Hs1 Hsh Hrm1 He) as (c2 & l & -> & Hl & Hs2). eexists _, _. split; [reflexivity|]. split; [|exact Hs2]. by constructor.
Qed.

(** Such sessions are accepted: one PDR per filter and one for the rest of the traffic to the UE, as TS 29.244 has it. *)
Definition ex_two_dl : list event := [ex_setup; ex_recv 2 (ex_est_pdrs [ex_upc 1 1; ex_dns 2 171704321 2; ex_dl 3 171704321 2 1])].
Definition shares_b (s : session) (i j : N) : bool :=
  match s_pdrs s !! i, s_pdrs s !! j with
  | Some p, Some p' => bool_decide (spdr_key p = spdr_key p') && match spdr_key p with Up _ => false | _ => true end | _, _ => false end.
Lemma shares_b_spec s i j : i <> j -> shares_b s i j = true -> shares_address s.
Proof.
  intros Hn. unfold shares_b. destruct (s_pdrs s !! i) as [p|] eqn:Ei; [|done]. destruct (s_pdrs s !! j) as [p'|] eqn:Ej; [|done].
  intros [H1%bool_decide_eq_true H2]%andb_true_iff. exists i, j, p, p'. split_and!; try done. by destruct (spdr_key p).
Qed.
Theorem session_can_be_deleted_refuted :
  exists c l, ex_start ex_two_dl = Some (c, l) /\ (exists r, snd <$> last l = Some (Some r) /\ r_cause r = Some 1) /\ (7, 2) ∈ PfcpHistory.live l /\
    forall es, Forall (fun e => exists sh seq, fair sh /\ e = Recv sh 7 seq (SessDelReq 2)) es ->
      exists c' l', run c es = Some (c', l') /\ Forall (fun x => snd x = None) l' /\ is_Some (session_of c' 7 2).
Proof.
  assert (H : match ex_start ex_two_dl with Some (c, l) =>
    ex_has_session c 7 2 (fun s => shares_b s 2 3) && match c_rm c with Some _ => true | None => false end &&
    bool_decide ((7, 2) ∈ PfcpHistory.live l) &&
    match last l with Some (_, Some r) => bool_decide (r_cause r = Some 1) | _ => false end | None => false end = true) by by vm_compute.
  destruct (ex_start ex_two_dl) as [[c l]|]; [|discriminate H]. rewrite !andb_true_iff in H. destruct H as [[[H1 H2] H3%bool_decide_eq_true] H4].
  exists c, l. split; [reflexivity|]. split.
  { destruct (last l) as [[e [r|]]|]; [|done..]. apply bool_decide_eq_true in H4. by exists r. }
  split; [exact H3|]. intros es Hes. apply ex_has_session_inv in H1 as (s & Hs & H1).
  destruct (shared_address_never_deleted 7 2 es c s Hs) as (c' & l' & Hr & Hl & Hs').
  - exact (shares_b_spec s 2 3 ltac:(lia) H1).
  - destruct (c_rm c); [by eexists|done].
  - exact Hes.
  - exists c', l'. split; [exact Hr|]. split; [exact Hl|]. by exists s.
Qed.

(** The tidy example of PfcpKeys.v has live sessions to delete. *)
Example ex_tidy_live : exists c l, ex_start ex_tidy = Some (c, l) /\ tidy l = true /\ (7, 2) ∈ PfcpHistory.live l /\ (7, 3) ∈ PfcpHistory.live l.
Proof.
  assert (H : ex_logs ex_tidy (fun l => tidy l && bool_decide ((7, 2) ∈ PfcpHistory.live l) && bool_decide ((7, 3) ∈ PfcpHistory.live l)) = true) by by vm_compute.
  apply ex_logs_inv in H as (c & l & Hc & H). exists c, l. split; [exact Hc|]. clear Hc. rewrite !andb_true_iff in H.
  destruct H as [[H1 H2%bool_decide_eq_true] H3%bool_decide_eq_true]. split_and!; [exact H1|exact H2|exact H3].
Qed.

(** ** C89: iteration order *)
(** *** Loops over a permuted list *)
Lemma each_perm {A} (R : work -> work -> Prop) (f f' : A -> work -> res) (l l' : list A) :
  (forall w, R w w) -> (forall w1 w2 w3, R w1 w2 -> R w2 w3 -> R w1 w3) ->
  l ≡ₚ l' -> NoDup l ->
  (forall x w w' v, x ∈ l -> R w w' -> f x w = ROk v -> exists v', f' x w' = ROk v' /\ R v v') ->
  (forall x w w' v, x ∈ l -> R w w' -> f' x w = ROk v -> exists v', f' x w' = ROk v' /\ R v v') ->
  (forall x y w v u, x ∈ l -> y ∈ l -> x <> y -> f' x w = ROk v -> f' y v = ROk u ->
     exists v' u', f' y w = ROk v' /\ f' x v' = ROk u' /\ R u u') ->
  forall w w' v, R w w' -> each f l w = ROk v -> exists v', each f' l' w' = ROk v' /\ R v v'.
Proof.
  intros Rr Rt Hp Hnd Hc Hc' Hs.
  assert (Hcongr : forall g, (g = f \/ g = f') -> forall k, (forall x, x ∈ k -> x ∈ l) -> forall w w' v, R w w' -> each g k w = ROk v -> exists v', each f' k w' = ROk v' /\ R v v').
  { intros g Hg k. induction k as [|x k IH]; intros Hk w w' v Hw H; cbn [each] in *; [injection H as <-; eauto|].
    destruct (g x w) as [w1|w1|] eqn:E; cbn [rbind] in H; [|done..].
    assert (exists v', f' x w' = ROk v' /\ R w1 v') as (w1' & E' & Hw1).
    { destruct Hg as [->| ->]; [eapply Hc|eapply Hc']; [apply Hk; left|exact Hw|exact E|apply Hk; left|exact Hw|exact E]. }
    rewrite E'. cbn [rbind]. eapply IH; [|exact Hw1|exact H]. intros y Hy. apply Hk. by right. }
  assert (Hperm : forall k k', k ≡ₚ k' -> NoDup k -> (forall x, x ∈ k -> x ∈ l) -> forall w v, each f' k w = ROk v -> exists v', each f' k' w = ROk v' /\ R v v').
  { intros k k' Hkk. induction Hkk as [|x k k' Hkk IH|x y k|k1 k2 k3 H12 IH12 H23 IH23]; intros Hn Hk w v H.
    - eauto.
    - cbn [each] in *. destruct (f' x w) as [w1|w1|] eqn:E; cbn [rbind] in *; [|done..]. apply NoDup_cons in Hn as [_ Hn].
      apply IH in H; [exact H|done|]. intros z Hz. apply Hk. by right.
    - cbn [each] in *. destruct (f' y w) as [w1|w1|] eqn:E; cbn [rbind] in *; [|done..]. destruct (f' x w1) as [w2|w2|] eqn:E2; cbn [rbind] in *; [|done..].
      apply NoDup_cons in Hn as [Hn _]. destruct (Hs y x w w1 w2) as (v1 & v2 & F1 & F2 & HR).
      { apply Hk. left. } { apply Hk. right. left. } { intros ->. apply Hn. left. } { exact E. } { exact E2. }
      rewrite F1. cbn [rbind]. rewrite F2. cbn [rbind]. eapply (Hcongr f' (or_intror eq_refl) k); [|exact HR|exact H]. intros z Hz. apply Hk. right. by right.
    - destruct (IH12 Hn Hk w v H) as (v1 & H1 & R1). destruct (IH23 ltac:(by rewrite <- H12) ltac:(intros z Hz; apply Hk; by rewrite H12) w v1 H1) as (v2 & H2 & R2). eauto. }
  intros w w' v Hw H. destruct (Hcongr f (or_introl eq_refl) l ltac:(done) w w' v Hw H) as (v1 & H1 & R1).
  destruct (Hperm l l' Hp Hnd ltac:(done) w' v1 H1) as (v2 & H2 & R2). eauto.
Qed.

(** *** Same up to the order of TEID lists and of usage reports *)
Definition same_pools (a b : option rman) : Prop :=
  option_Forall2 (fun r r' => ft_free (rm_ft r) ≡ₚ ft_free (rm_ft r') /\ ft_busy (rm_ft r) = ft_busy (rm_ft r') /\ rm_ip r = rm_ip r') a b.
Record weq (w w' : work) : Prop := {
  we_dp : w_dp w = w_dp w'; we_ses : w_ses w = w_ses w'; we_rm : same_pools (w_rm w) (w_rm w'); we_cache : w_cache w = w_cache w';
  we_created : w_created w = w_created w'; we_reports : w_reports w ≡ₚ w_reports w' }.
Lemma same_pools_refl a : same_pools a a.
Proof. unfold same_pools. destruct a; constructor. by split_and!. Qed.
Lemma same_pools_trans a b c : same_pools a b -> same_pools b c -> same_pools a c.
Proof.
  unfold same_pools. intros [r1 r2 (H1 & H2 & H3)|] Hb; inversion Hb as [r3 r4 (H4 & H5 & H6)|]; subst; constructor.
  split_and!; [by etrans|congruence|congruence].
Qed.
Lemma weq_refl w : weq w w. Proof. split; try done. apply same_pools_refl. Qed.
Lemma weq_trans a b c : weq a b -> weq b c -> weq a c.
Proof. intros [] []. split; try congruence; [by eapply same_pools_trans|by etrans]. Qed.

Lemma entries_perm {A} sh sh' t (m : gmap N A) : fair sh -> fair sh' -> entries sh t m ≡ₚ entries sh' t m.
Proof. intros H H'. unfold entries. by rewrite (H t), (H' t). Qed.
Lemma rel_same sh sh' seid a b : fair sh -> fair sh' -> same_pools a b -> same_pools (rel sh seid a) (rel sh' seid b).
Proof.
  intros Hf Hf' [r1 r2 (H1 & H2 & H3)|]; cbn; constructor. cbn. unfold release_teid. rewrite H2. destruct (ft_busy (rm_ft r2) !! seid) as [pm|]; cbn.
  - split_and!; [|congruence|done]. rewrite H1. apply Permutation_app_head. apply fmap_Permutation. by apply entries_perm.
  - by split_and!.
Qed.

(** *** PDRs *)
Definition ok_pdr (s : spdr) (w : work) : bool := hit s w || installed (w_dp w) (spdr_key s).
Definition gone (sh : shuffle) (s : spdr) (w : work) : work :=
  w_set_rm (if sd_teid s =? 0 then w_rm w else rel sh (s_remote (w_ses w)) (w_rm w)) (erased s w).
Definition may (s : spdr) (w : work) : bool := ok_pdr s w && ((sd_teid s =? 0) || match w_rm w with Some _ => true | None => false end).
Lemma w_rm_eta w : w_set_rm (w_rm w) w = w. Proof. by destruct w. Qed.
Lemma delete_pdr_ok sh s w v : delete_pdr sh s w = ROk v <-> may s w = true /\ v = gone sh s w.
Proof.
  rewrite delete_pdr_closed. unfold may, gone, freed. fold (ok_pdr s w). destruct (ok_pdr s w); cbn; [|split; [done|by intros [? _]]].
  destruct (erased_rm s w) as [E1 E2]. destruct (sd_teid s =? 0); cbn.
  - split; [intros [= <-]|intros [_ ->]]; (try split); try done; rewrite <- E1; by rewrite w_rm_eta.
  - rewrite E1, E2. destruct (w_rm w); cbn; split; try done; [by intros [= <-]|by intros [_ ->]|by intros [? _]].
Qed.
Lemma may_congr s w w' : weq w w' -> may s w = may s w'.
Proof. intros [E1 E2 E3 E4 _ _]. unfold may, ok_pdr, hit. rewrite E1, E4. inversion E3; done. Qed.
Lemma gone_congr sh sh' s w w' : fair sh -> fair sh' -> weq w w' -> weq (gone sh s w) (gone sh' s w').
Proof.
  intros Hf Hf' [E1 E2 E3 E4 E5 E6].
  assert (w_dp (erased s w) = w_dp (erased s w') /\ w_cache (erased s w) = w_cache (erased s w') /\ w_created (erased s w) = w_created (erased s w') /\ w_reports (erased s w) ≡ₚ w_reports (erased s w')) as (F1 & F2 & F3 & F4).
  { unfold erased, hit. rewrite E4. destruct (spdr_key s) as [t|t|t]; [destruct (w_cache w' !! u8 t)|..]; cbn; rewrite ?E1, ?E4; done. }
  unfold gone. split; cbn; try done.
  - destruct (erased_rm s w) as [_ ->]. destruct (erased_rm s w') as [_ ->]. done.
  - rewrite E2. destruct (sd_teid s =? 0); [done|]. by apply rel_same.
Qed.
Lemma delete_pdr_congr sh sh' s w w' v : fair sh -> fair sh' -> weq w w' -> delete_pdr sh s w = ROk v -> exists v', delete_pdr sh' s w' = ROk v' /\ weq v v'.
Proof.
  intros Hf Hf' Hw [H1 ->]%delete_pdr_ok. exists (gone sh' s w'). split; [|by apply gone_congr]. apply delete_pdr_ok. split; [|done]. by rewrite <- (may_congr s w w').
Qed.

Lemma hit_erased x y w : hit y (erased x w) =
  hit y w || match spdr_key y, spdr_key x with Up t, Up t' => negb (hit x w) && (u8 t =? u8 t') | _, _ => false end.
Proof.
  unfold erased, hit. destruct (spdr_key x) as [t'|a|a] eqn:Ex; [destruct (w_cache w !! u8 t') eqn:Ec|..]; destruct (spdr_key y) as [t|b|b] eqn:Ey; cbn; rewrite ?orb_false_r; try done.
  destruct (N.eqb_spec (u8 t) (u8 t')) as [->|Hn]; [by rewrite lookup_insert, orb_true_r|by rewrite lookup_insert_ne, orb_false_r by congruence].
Qed.
Lemma hit_same x y w t : spdr_key x = Up t -> spdr_key y = Up t -> hit x w = hit y w.
Proof. intros Hx Hy. unfold hit. by rewrite Hx, Hy. Qed.
Lemma dp_up_comm a b d : set_up a (set_up b d) = set_up a d. Proof. done. Qed.

Lemma erase_comm k k' d : erase_key k (erase_key k' d) = erase_key k' (erase_key k d).
Proof. destruct d, k, k'; unfold erase_key, set_up, set_dn4, set_dn6; cbn; try done; f_equal; apply delete_commute. Qed.
Lemma erased_comm x y w : (forall t t', spdr_key x = Up t -> spdr_key y = Up t' -> u8 t = u8 t' -> t = t') ->
  erased y (erased x w) = erased x (erased y w).
Proof.
  intros Hl. unfold erased at 1 3. rewrite !hit_erased.
  destruct (spdr_key x) as [t|a|a] eqn:Ex; destruct (spdr_key y) as [t'|b|b] eqn:Ey.
  - destruct (N.eqb_spec (u8 t') (u8 t)) as [E|E].
    + rewrite (Hl t t' eq_refl eq_refl (eq_sym E)) in *. rewrite (hit_same y x w t' Ey Ex). rewrite N.eqb_refl. destruct (hit x w) eqn:Hh; cbn.
      * unfold erased. by rewrite Hh, (hit_same y x w t' Ey Ex), Hh.
      * unfold erased. by rewrite Hh, (hit_same y x w t' Ey Ex), Hh, Ex, Ey.
    + rewrite (proj2 (N.eqb_neq (u8 t) (u8 t'))) by congruence. rewrite !andb_false_r, !orb_false_r. unfold erased. rewrite Ex, Ey.
      destruct (hit x w), (hit y w); cbn; try done. destruct w as [d s r c cr rp]. unfold w_set_cache, w_set_dp. cbn. f_equal; [exact (erase_comm (Up t') (Up t) d)|].
      apply insert_commute. congruence.
  - rewrite !orb_false_r. unfold erased. rewrite Ex, Ey. destruct (hit x w), (hit y w); cbn; done.
  - rewrite !orb_false_r. unfold erased. rewrite Ex, Ey. destruct (hit x w), (hit y w); cbn; done.
  - rewrite !orb_false_r. unfold erased. rewrite Ex, Ey. destruct (hit x w), (hit y w); cbn; done.
  - rewrite !orb_false_r. unfold erased. rewrite Ex, Ey. destruct (hit x w), (hit y w); cbn; try done. destruct w. unfold w_set_dp. cbn. f_equal. exact (erase_comm (Dn4 b) (Dn4 a) _).
  - rewrite !orb_false_r. unfold erased. rewrite Ex, Ey. destruct (hit x w), (hit y w); cbn; done.
  - rewrite !orb_false_r. unfold erased. rewrite Ex, Ey. destruct (hit x w), (hit y w); cbn; done.
  - rewrite !orb_false_r. unfold erased. rewrite Ex, Ey. destruct (hit x w), (hit y w); cbn; done.
  - rewrite !orb_false_r. unfold erased. rewrite Ex, Ey. destruct (hit x w), (hit y w); cbn; try done. destruct w. unfold w_set_dp. cbn. f_equal. exact (erase_comm (Dn6 b) (Dn6 a) _).
Qed.
Lemma erased_set_rm s r w : erased s (w_set_rm r w) = w_set_rm r (erased s w).
Proof. unfold erased, hit. destruct (spdr_key s) as [t|t|t]; [cbn [w_cache w_set_rm]; destruct (w_cache w !! u8 t)|..]; done. Qed.
Lemma ok_pdr_set_rm s r w : ok_pdr s (w_set_rm r w) = ok_pdr s w. Proof. done. Qed.
Lemma delete_pdr_swap sh x y w v u : (forall t t', spdr_key x = Up t -> spdr_key y = Up t' -> u8 t = u8 t' -> t = t') ->
  delete_pdr sh x w = ROk v -> delete_pdr sh y v = ROk u -> exists v' u', delete_pdr sh y w = ROk v' /\ delete_pdr sh x v' = ROk u' /\ weq u u'.
Proof.
  intros Hl [Mx ->]%delete_pdr_ok [My ->]%delete_pdr_ok. exists (gone sh y w), (gone sh x (gone sh y w)).
  unfold may in Mx, My. apply andb_true_iff in Mx as [Ox Rx], My as [Oy Ry]. unfold gone in Oy. rewrite ok_pdr_set_rm in Oy.
  assert (is_Some (w_rm w) <-> is_Some (w_rm (gone sh x w))) as Hsx. { unfold gone. cbn. destruct (sd_teid x =? 0); [done|]. destruct (w_rm w); cbn; split; intros [? ?]; done. }
  assert (is_Some (w_rm w) <-> is_Some (w_rm (gone sh y w))) as Hsy. { unfold gone. cbn. destruct (sd_teid y =? 0); [done|]. destruct (w_rm w); cbn; split; intros [? ?]; done. }
  assert (forall s w', is_Some (w_rm w) -> (is_Some (w_rm w) <-> is_Some (w_rm w')) -> (sd_teid s =? 0) || match w_rm w' with Some _ => true | None => false end = true) as Hr.
  { intros s w' H1 H2. apply H2 in H1 as [? ->]. by rewrite orb_true_r. }
  unfold ok_pdr in Ox, Oy. rewrite hit_erased in Oy.
  assert (ok_pdr y w = true) as Oy'.
  { unfold ok_pdr. apply orb_true_iff in Oy as [Oy|Oy].
    - apply orb_true_iff in Oy as [->|Oy]; [done|]. destruct (spdr_key y) as [t|a|a] eqn:Ey; try done. destruct (spdr_key x) as [t'|a|a] eqn:Ex; try done.
      apply andb_true_iff in Oy as [Hh%negb_true_iff E%N.eqb_eq]. rewrite Hh in Ox. cbn in Ox. rewrite (Hl t' t eq_refl eq_refl (eq_sym E)) in Ox. rewrite Ox. apply orb_true_r.
    - destruct (installed (w_dp w) (spdr_key y)) eqn:Ei; [apply orb_true_r|]. by rewrite erased_mono in Oy. }
  assert (ok_pdr x (erased y w) = true) as Ox'.
  { unfold ok_pdr. rewrite hit_erased. apply orb_true_iff in Ox as [->|Ox]; [done|].
    destruct (decide (spdr_key x = spdr_key y)) as [Hk|Hk]; [|unfold installed; rewrite erased_find by done; fold (installed (w_dp w) (spdr_key x)); rewrite Ox; apply orb_true_r].
    destruct (spdr_key x) as [t|a|a] eqn:Ex.
    - rewrite <- Hk. rewrite N.eqb_refl, andb_true_r. rewrite (hit_same x y w t Ex (eq_sym Hk)). by destruct (hit y w).
    - exfalso. rewrite <- Hk in Oy. rewrite orb_false_r in Oy. apply orb_true_iff in Oy as [Oy|Oy]; [unfold hit in Oy; by rewrite <- Hk in Oy|].
      rewrite <- Ex in Oy. rewrite erased_gone in Oy; [done|by rewrite Ex].
    - exfalso. rewrite <- Hk in Oy. rewrite orb_false_r in Oy. apply orb_true_iff in Oy as [Oy|Oy]; [unfold hit in Oy; by rewrite <- Hk in Oy|].
      rewrite <- Ex in Oy. rewrite erased_gone in Oy; [done|by rewrite Ex]. }
  split; [|split].
  - apply delete_pdr_ok. split; [|done]. unfold may. rewrite Oy'. cbn [andb]. destruct (sd_teid y =? 0) eqn:Ty; [done|]. cbn [orb] in Ry |- *.
    destruct (w_rm (gone sh x w)) eqn:Eg; [|done]. destruct Hsx as [_ Hsx]. destruct Hsx as [? ->]; [by eexists|done].
  - apply delete_pdr_ok. split; [|done]. unfold may. unfold gone at 1. rewrite ok_pdr_set_rm, Ox'. cbn [andb].
    destruct (sd_teid x =? 0) eqn:Tx; [done|]. cbn [orb] in Rx |- *. destruct (w_rm w) as [r|] eqn:Er; [|done]. destruct Hsy as [Hsy _]. destruct Hsy as [? ->]; [by eexists|done].
  - assert (gone sh y (gone sh x w) = gone sh x (gone sh y w)) as ->; [|apply weq_refl].
    unfold gone. cbn [w_rm w_ses w_set_rm]. rewrite !erased_set_rm. rewrite (erased_comm x y w Hl).
    destruct (erased_rm x w) as [_ ->]. destruct (erased_rm y w) as [_ ->].
    destruct (erased x (erased y w)). unfold w_set_rm. cbn. by destruct (sd_teid x =? 0), (sd_teid y =? 0).
Qed.

(** *** FARs, QERs, URRs *)
Lemma bitmap_add_comm i j l : bitmap_add i (bitmap_add j l) = bitmap_add j (bitmap_add i l).
Proof.
  induction l as [|x l IH]; cbn.
  - destruct (N.ltb_spec i j), (N.ltb_spec j i), (N.eqb_spec i j), (N.eqb_spec j i); try lia; subst; done.
  - destruct (N.ltb_spec j x), (N.ltb_spec i x); cbn;
    repeat match goal with |- context [?a <? ?b] => destruct (N.ltb_spec a b); cbn; try lia | |- context [?a =? ?b] => destruct (N.eqb_spec a b); cbn; subst; try lia end; try done.
    by rewrite IH.
Qed.
Lemma release_comm i j t : release i (release j t) = release j (release i t).
Proof. unfold release. destruct (t_max t <=? i) eqn:E1, (t_max t <=? j) eqn:E2; cbn; rewrite ?E1, ?E2; try done. by rewrite bitmap_add_comm. Qed.
Lemma insert_zero_comm {A} (z : A) i j (m : gmap N A) : <[i := z]> (<[j := z]> m) = <[j := z]> (<[i := z]> m).
Proof. destruct (decide (i = j)) as [->|]; [done|by apply insert_commute]. Qed.

Definition far_off (g : N) (d : dp) : dp := set_far (<[g := far0]> (d_far d)) (set_fart (release g (d_fart d)) d).
Lemma del_far_ok (x : N * sfar) w v : del_far x w = ROk v <-> sf_gid (snd x) <? d_far_size (w_dp w) = true /\ v = w_set_dp (far_off (sf_gid (snd x)) (w_dp w)) w.
Proof.
  unfold del_far, delete_far, update_far, far_off. cbn [set_fart d_far_size]. destruct (_ <? _).
  - split; [by intros [= <-]|by intros [_ ->]].
  - split; [done|by intros [? _]].
Qed.
Definition qer_off (g : N) (d : dp) : dp := set_qer (<[g := qer0]> (d_qer d)) (set_qert (release g (d_qert d)) d).
Lemma del_qer_ok (x : N * sqer) w v : del_qer x w = ROk v <-> sq_gid (snd x) <? d_qer_size (w_dp w) = true /\ v = w_set_dp (qer_off (sq_gid (snd x)) (w_dp w)) w.
Proof.
  unfold del_qer, delete_qer, update_qer, qer_off. cbn [set_qert d_qer_size]. destruct (_ <? _).
  - split; [by intros [= <-]|by intros [_ ->]].
  - split; [done|by intros [? _]].
Qed.
Definition urr_off (g : N) (d : dp) : dp := set_urr (<[g := urr0]> (d_urr d)) (set_urrt (release g (d_urrt d)) d).
Definition urr_dead (x : N * surr) (w : work) : work :=
  match urr_get (w_dp w) (su_gid (snd x)) with
  | Some v => w_add_report (make_report (fst x) (snd x) v) (w_set_dp (urr_off (su_gid (snd x)) (w_dp w)) w)
  | None => w end.
Lemma del_urr_closed (x : N * surr) w : del_urr x w = ROk (urr_dead x w).
Proof.
  unfold del_urr, urr_dead, delete_urr. destruct (urr_get (w_dp w) (su_gid (snd x))) as [v|] eqn:E; [|by rewrite work_eta].
  unfold urr_get, arr_get in E. unfold update_urr. cbn [set_urrt d_urr_size]. destruct (su_gid (snd x) <? d_urr_size (w_dp w)); [|done]. done.
Qed.
Lemma weq_set_dp f w w' : weq w w' -> weq (w_set_dp (f (w_dp w)) w) (w_set_dp (f (w_dp w')) w').
Proof. intros [E1 E2 E3 E4 E5 E6]. split; cbn; try done. by rewrite E1. Qed.
Lemma urr_dead_congr x w w' : weq w w' -> weq (urr_dead x w) (urr_dead x w').
Proof.
  intros Hw. pose proof Hw as [E1 E2 E3 E4 E5 E6]. unfold urr_dead. rewrite E1. destruct (urr_get (w_dp w') (su_gid (snd x))) as [v|]; [|done].
  split; cbn; try done. by rewrite E6.
Qed.
Lemma urr_off_get g g' d : g <> g' -> urr_get (urr_off g d) g' = urr_get d g'.
Proof. intros Hn. unfold urr_get, urr_off, arr_get. cbn. destruct (_ <? _); [|done]. by rewrite lookup_insert_ne. Qed.
Lemma urr_dead_swap (x y : N * surr) w : su_gid (snd x) <> su_gid (snd y) -> weq (urr_dead y (urr_dead x w)) (urr_dead x (urr_dead y w)).
Proof.
  intros Hn. unfold urr_dead. destruct (urr_get (w_dp w) (su_gid (snd x))) as [v|] eqn:Ex; destruct (urr_get (w_dp w) (su_gid (snd y))) as [v'|] eqn:Ey; cbn [w_dp w_add_report w_set_dp];
    rewrite ?urr_off_get, ?Ex, ?Ey by congruence; try apply weq_refl.
  split; cbn; try done.
  - destruct (w_dp w). unfold urr_off, set_urr, set_urrt. cbn. f_equal; [apply insert_zero_comm|apply release_comm].
  - apply same_pools_refl.
  - rewrite <- !app_assoc. apply Permutation_app_head. apply perm_swap.
Qed.

(** Deleting a session whose TEIDs are told apart by their last octet, and whose URRs have counters of their own. *)
Definition own_counters (s : session) : Prop :=
  forall i j u u', s_urrs s !! i = Some u -> s_urrs s !! j = Some u' -> su_gid u = su_gid u' -> i = j.

Lemma del_rules_order sh sh' s w w1 : fair sh -> fair sh' -> low_octets_differ (pdrs_of s) -> own_counters s ->
  del_rules sh s w = ROk w1 -> exists w2, del_rules sh' s w = ROk w2 /\ weq w1 w2.
Proof.
  intros Hf Hf' Hlow Hcnt H. unfold del_rules in *.
  destruct (each _ (entries sh 0 (s_pdrs s)) w) as [a1|a1|] eqn:E1; cbn [rbind] in H; [|done..].
  destruct (each _ (entries sh 1 (s_fars s)) a1) as [a2|a2|] eqn:E2; cbn [rbind] in H; [|done..].
  destruct (each _ (entries sh 2 (s_qers s)) a2) as [a3|a3|] eqn:E3; cbn [rbind] in H; [|done..].
  assert (forall {A} t (m : gmap N A), NoDup (entries sh t m)) as Hnd.
  { intros A t m. eapply NoDup_fmap_1. by apply NoDup_entries_fst. }
  destruct (each_perm weq (fun e : N * spdr => delete_pdr sh (snd e)) (fun e : N * spdr => delete_pdr sh' (snd e)) (entries sh 0 (s_pdrs s)) (entries sh' 0 (s_pdrs s)) weq_refl weq_trans
    (entries_perm sh sh' 0 _ Hf Hf') (Hnd _ _ _)) with (w := w) (w' := w) (v := a1) as (b1 & F1 & R1); [| | |apply weq_refl|exact E1|].
  { intros x v v' u _ Hv. by apply delete_pdr_congr. }
  { intros x v v' u _ Hv. by apply delete_pdr_congr. }
  { intros [i x] [j y] v u u' Hx Hy _. apply elem_of_entries in Hx, Hy; [|done..]. cbn. apply delete_pdr_swap. intros t t' Kx Ky. apply (Hlow x y); [| |done..].
    - apply elem_of_pdrs. eauto.
    - apply elem_of_pdrs. eauto. }
  rewrite F1. cbn [rbind].
  assert (forall (x : N * sfar) v v' u, weq v v' -> del_far x v = ROk u -> exists u', del_far x v' = ROk u' /\ weq u u') as CF.
  { intros x v v' u Hv [G ->]%del_far_ok. exists (w_set_dp (far_off (sf_gid (snd x)) (w_dp v')) v'). split; [|by apply weq_set_dp]. apply del_far_ok. split; [|done]. destruct Hv as [<- _ _ _ _ _]. done. }
  destruct (each_perm weq del_far del_far (entries sh 1 (s_fars s)) (entries sh' 1 (s_fars s)) weq_refl weq_trans
    (entries_perm sh sh' 1 _ Hf Hf') (Hnd _ _ _)) with (w := a1) (w' := b1) (v := a2) as (b2 & F2 & R2); [| | |exact R1|exact E2|].
  { intros x v v' u _. apply CF. }
  { intros x v v' u _. apply CF. }
  { intros x y v u u' _ _ _ [G1 ->]%del_far_ok [G2 ->]%del_far_ok. cbn in G2. eexists _, _. split; [apply del_far_ok; split; [exact G2|done]|]. split; [apply del_far_ok; split; [exact G1|done]|].
    split; cbn; try done; [|apply same_pools_refl]. destruct (w_dp v). unfold far_off, set_far, set_fart. cbn. f_equal; [apply insert_zero_comm|apply release_comm]. }
  rewrite F2. cbn [rbind].
  assert (forall (x : N * sqer) v v' u, weq v v' -> del_qer x v = ROk u -> exists u', del_qer x v' = ROk u' /\ weq u u') as CQ.
  { intros x v v' u Hv [G ->]%del_qer_ok. exists (w_set_dp (qer_off (sq_gid (snd x)) (w_dp v')) v'). split; [|by apply weq_set_dp]. apply del_qer_ok. split; [|done]. destruct Hv as [<- _ _ _ _ _]. done. }
  destruct (each_perm weq del_qer del_qer (entries sh 2 (s_qers s)) (entries sh' 2 (s_qers s)) weq_refl weq_trans
    (entries_perm sh sh' 2 _ Hf Hf') (Hnd _ _ _)) with (w := a2) (w' := b2) (v := a3) as (b3 & F3 & R3); [| | |exact R2|exact E3|].
  { intros x v v' u _. apply CQ. }
  { intros x v v' u _. apply CQ. }
  { intros x y v u u' _ _ _ [G1 ->]%del_qer_ok [G2 ->]%del_qer_ok. cbn in G2. eexists _, _. split; [apply del_qer_ok; split; [exact G2|done]|]. split; [apply del_qer_ok; split; [exact G1|done]|].
    split; cbn; try done; [|apply same_pools_refl]. destruct (w_dp v). unfold qer_off, set_qer, set_qert. cbn. f_equal; [apply insert_zero_comm|apply release_comm]. }
  rewrite F3. cbn [rbind].
  assert (forall (x : N * surr) v v' u, weq v v' -> del_urr x v = ROk u -> exists u', del_urr x v' = ROk u' /\ weq u u') as CU.
  { intros x v v' u Hv. rewrite !del_urr_closed. intros [= <-]. eexists. split; [reflexivity|]. by apply urr_dead_congr. }
  apply (each_perm weq del_urr del_urr (entries sh 3 (s_urrs s)) (entries sh' 3 (s_urrs s)) weq_refl weq_trans
    (entries_perm sh sh' 3 _ Hf Hf') (Hnd _ _ _)) with (w := a3) (v := w1); [| | |exact R3|exact H].
  { intros x v v' u _. apply CU. }
  { intros x v v' u _. apply CU. }
  { intros [i x] [j y] v u u' Hx Hy Hne H1 H2. rewrite del_urr_closed in H1. injection H1 as <-. rewrite del_urr_closed in H2. injection H2 as <-. eexists _, _. split; [apply del_urr_closed|]. split; [apply del_urr_closed|]. apply urr_dead_swap. cbn. apply elem_of_entries in Hx, Hy; [|done..]. intros Hg. apply Hne.
    assert (i = j) as -> by exact (Hcnt _ _ _ _ Hx Hy Hg). congruence. }
Qed.

(** A session deleted under one order of iteration is deleted under every other, with the same sessions and the same tables left,
    the same TEIDs and addresses taken and free, and the same reports up to their order. *)
Theorem deletion_order_irrelevant_partial :
  forall sh sh' addr seq seid c s c1 r1, fair sh -> fair sh' -> session_of c addr seid = Some s ->
    low_octets_differ (pdrs_of s) -> own_counters s ->
    step c (Recv sh addr seq (SessDelReq seid)) = Done c1 (Some r1) -> r_cause r1 = Some 1 ->
    exists c2 r2, step c (Recv sh' addr seq (SessDelReq seid)) = Done c2 (Some r2) /\
      c_assocs c2 = c_assocs c1 /\ c_dp c2 = c_dp c1 /\ c_cfg c2 = c_cfg c1 /\ same_pools (c_rm c1) (c_rm c2) /\
      r_type r2 = r_type r1 /\ r_seq r2 = r_seq r1 /\ r_seid r2 = r_seid r1 /\ r_cause r2 = Some 1 /\ r_reports r2 ≡ₚ r_reports r1.
Proof.
  intros sh sh' addr seq seid c s c1 r1 Hf Hf' Hs Hlow Hcnt H Hr. cbn [step handle] in *. unfold handle_del in *. unfold session_of in Hs.
  destruct (c_assocs c !! addr) as [a|]; [|done]. rewrite Hs in H |- *.
  destruct (del_rules sh s _) as [w|w|] eqn:E; [|done..]. apply (del_rules_order sh sh' s _ _ Hf Hf' Hlow Hcnt) in E as (w2 & -> & [E1 E2 E3 E4 E5 E6]).
  injection H as <- <-. eexists _, _. split; [reflexivity|]. cbn. split_and!; try done. unfold release_resources.
  pose proof (rel_same sh sh' seid _ _ Hf Hf' E3) as HR. unfold rel in HR. destruct E3 as [ra rb (H1 & H2 & H3)|]; [|constructor].
  inversion HR as [x y (G1 & G2 & G3)|]; subst. constructor. cbn in *. split_and!; try done. by rewrite G3.
Qed.

(** Pruning an association: every PDR, FAR and QER that packets meet afterwards is the same. *)
Lemma owns_key_dec s k : {owns_key s k} + {~ owns_key s k}.
Proof.
  destruct (decide (Exists (fun p => spdr_key p = k) (pdrs_of s))) as [H|H]; [left|right].
  - apply Exists_exists in H as (p & Hp & Hk). by exists p.
  - intros (p & Hp & Hk). apply H. apply Exists_exists. by exists p.
Qed.
Lemma owns_far_dec s g : owns_far s g \/ ~ owns_far s g.
Proof.
  destruct (decide (g ∈ ((fun x : N * sfar => sf_gid (snd x)) <$> map_to_list (s_fars s)))) as [H|H]; [left|right].
  - apply elem_of_list_fmap in H as ([i f] & -> & Hi). apply elem_of_map_to_list in Hi. by exists i, f.
  - intros (i & f & Hi & <-). apply H. apply elem_of_list_fmap. exists (i, f). split; [done|]. by apply elem_of_map_to_list.
Qed.
Lemma owns_qer_dec s g : owns_qer s g \/ ~ owns_qer s g.
Proof.
  destruct (decide (g ∈ ((fun x : N * sqer => sq_gid (snd x)) <$> map_to_list (s_qers s)))) as [H|H]; [left|right].
  - apply elem_of_list_fmap in H as ([i f] & -> & Hi). apply elem_of_map_to_list in Hi. by exists i, f.
  - intros (i & f & Hi & <-). apply H. apply elem_of_list_fmap. exists (i, f). split; [done|]. by apply elem_of_map_to_list.
Qed.
Lemma some_session_dec c addr (P : session -> Prop) : (forall s, P s \/ ~ P s) ->
  (exists seid s, session_of c addr seid = Some s /\ P s) \/ (forall seid s, session_of c addr seid = Some s -> ~ P s).
Proof.
  intros Hd. unfold session_of. destruct (c_assocs c !! addr) as [a|]; [|by right].
  assert (forall l : list (N * session), (exists x, x ∈ l /\ P (snd x)) \/ (forall x, x ∈ l -> ~ P (snd x))) as Hl.
  { clear -Hd. intros l. induction l as [|x l IH]; [right; intros x Hx; by apply elem_of_nil in Hx|]. destruct (Hd (snd x)) as [Hx|Hx].
    - left. exists x. split; [left|done].
    - destruct IH as [(y & Hy & HP)|IH]; [left; exists y; split; [by right|done]|]. right. intros y Hy. apply elem_of_cons in Hy as [->|Hy]; [done|by apply IH]. }
  destruct (Hl (map_to_list (a_sessions a))) as [([n s] & Hx & HP)|H].
  - left. exists n, s. split; [|done]. by apply elem_of_map_to_list.
  - right. intros n s Hs. apply (H (n, s)). by apply elem_of_map_to_list.
Qed.
Lemma prune_far_size sh addr c c' r : reachable c -> fair sh -> step c (HeartbeatFailed sh addr) = Done c' r ->
  d_far_size (c_dp c') = d_far_size (c_dp c) /\ d_qer_size (c_dp c') = d_qer_size (c_dp c) /\ dp_ok (c_dp c').
Proof.
  intros Hr Hf H. pose proof (reachable_step c (HeartbeatFailed sh addr) c' r Hr Hf H) as Hr'. apply reachable_ok in Hr as [Hok _], Hr' as [Hok' _].
  cbn [step] in H. unfold prune in H. destruct (c_assocs c !! addr) as [a|]; [|done].
  destruct (prune_sessions _ _ _ _) as [[d rm]|] eqn:E; [|done]. injection H as <- <-.
  apply prune_sessions_effect in E as ([] & _); [|done..]. split; [exact of_fsz|]. split; [exact of_qsz|exact Hok'].
Qed.
Lemma far_gone_same d d' g : dp_ok d -> dp_ok d' -> d_far_size d = d_far_size d' -> far_gone d g -> far_gone d' g ->
  far_get d' g = far_get d g /\ (far_free d' g <-> far_free d g).
Proof.
  intros [O1 _ _] [O2 _ _] Hs. unfold far_gone. destruct (N.lt_ge_cases g (d_far_size d)) as [Hl|Hl].
  - intros H1 H2. destruct (H1 Hl) as [F1 G1]. destruct H2 as [F2 G2]; [by rewrite <- Hs|]. rewrite G1, G2. by split.
  - intros _ _. unfold far_get, arr_get. rewrite <- Hs. rewrite (proj2 (N.ltb_ge _ _) Hl). split; [done|]. unfold far_free.
    pose proof (proj2 (proj2 O1) g) as T1. pose proof (proj2 (proj2 O2) g) as T2. rewrite <- Hs in T2. split; intros H; [apply T2 in H|apply T1 in H]; lia.
Qed.
Lemma qer_gone_same d d' g : dp_ok d -> dp_ok d' -> d_qer_size d = d_qer_size d' -> qer_gone d g -> qer_gone d' g ->
  qer_get d' g = qer_get d g /\ (qer_free d' g <-> qer_free d g).
Proof.
  intros [_ O1 _] [_ O2 _] Hs. unfold qer_gone. destruct (N.lt_ge_cases g (d_qer_size d)) as [Hl|Hl].
  - intros H1 H2. destruct (H1 Hl) as [F1 G1]. destruct H2 as [F2 G2]; [by rewrite <- Hs|]. rewrite G1, G2. by split.
  - intros _ _. unfold qer_get, arr_get. rewrite <- Hs. rewrite (proj2 (N.ltb_ge _ _) Hl). split; [done|]. unfold qer_free.
    pose proof (proj2 (proj2 O1) g) as T1. pose proof (proj2 (proj2 O2) g) as T2. rewrite <- Hs in T2. split; intros H; [apply T2 in H|apply T1 in H]; lia.
Qed.
Theorem pruning_order_irrelevant_partial :
  forall sh sh' addr c c1 r1 c2 r2, reachable c -> fair sh -> fair sh' ->
    (forall seid s, session_of c addr seid = Some s -> low_octets_differ (pdrs_of s)) ->
    step c (HeartbeatFailed sh addr) = Done c1 r1 -> step c (HeartbeatFailed sh' addr) = Done c2 r2 ->
    (forall a n, session_of c2 a n = session_of c1 a n) /\
    (forall k, dp_find (c_dp c2) k = dp_find (c_dp c1) k) /\
    (forall g, far_get (c_dp c2) g = far_get (c_dp c1) g /\ (far_free (c_dp c2) g <-> far_free (c_dp c1) g)) /\
    (forall g, qer_get (c_dp c2) g = qer_get (c_dp c1) g /\ (qer_free (c_dp c2) g <-> qer_free (c_dp c1) g)).
Proof.
  intros sh sh' addr c c1 r1 c2 r2 Hr Hf Hf' Hlow H1 H2.
  destruct (prune_far_size _ _ _ _ _ Hr Hf H1) as (S1 & S1' & O1). destruct (prune_far_size _ _ _ _ _ Hr Hf' H2) as (S2 & S2' & O2).
  destruct (association_pruned_partial _ _ _ _ _ Hr Hf H1) as (A1 & B1 & C1 & D1 & E1 & F1).
  destruct (association_pruned_partial _ _ _ _ _ Hr Hf' H2) as (A2 & B2 & C2 & D2 & E2 & F2). clear H1 H2. split_and!.
  - intros a n. destruct (decide (a = addr)) as [->|Hn]; [by rewrite A1, A2|by rewrite B1, B2].
  - intros k. destruct (some_session_dec c addr (fun s => owns_key s k)) as [(n & s & Hs & Ho)|Ho].
    + intros s. destruct (owns_key_dec s k); auto.
    + destruct (C1 n s Hs) as (_ & _ & K1). destruct (C2 n s Hs) as (_ & _ & K2). by rewrite (K1 (Hlow n s Hs) k Ho), (K2 (Hlow n s Hs) k Ho).
    + by rewrite (F1 k Ho), (F2 k Ho).
  - intros g. destruct (some_session_dec c addr (fun s => owns_far s g)) as [(n & s & Hs & Ho)|Ho].
    + intros s. apply owns_far_dec.
    + destruct (C1 n s Hs) as (K1 & _ & _). destruct (C2 n s Hs) as (K2 & _ & _). apply far_gone_same; [done|done|congruence|by apply K1|by apply K2].
    + destruct (D1 g Ho) as [G1 G2]. destruct (D2 g Ho) as [G3 G4]. rewrite G1, G3. split; [done|]. tauto.
  - intros g. destruct (some_session_dec c addr (fun s => owns_qer s g)) as [(n & s & Hs & Ho)|Ho].
    + intros s. apply owns_qer_dec.
    + destruct (C1 n s Hs) as (_ & K1 & _). destruct (C2 n s Hs) as (_ & K2 & _). apply qer_gone_same; [done|done|congruence|by apply K1|by apply K2].
    + destruct (E1 g Ho) as [G1 G2]. destruct (E2 g Ho) as [G3 G4]. rewrite G1, G3. split; [done|]. tauto.
Qed.

(** TEIDs 1 and 257: which of the two rules stays behind depends on the order. *)
Theorem iteration_order_irrelevant_refuted :
  exists c l, ex_start [ex_setup; ex_recv 2 (ex_est_of [ex_pdr 1 1; ex_pdr 2 257] [])] = Some (c, l) /\ reachable c /\
    exists sh sh' c1 r1 c2 r2, fair sh /\ fair sh' /\
      step c (Recv sh 7 3 (SessDelReq 2)) = Done c1 (Some r1) /\ r_cause r1 = Some 1 /\
      step c (Recv sh' 7 3 (SessDelReq 2)) = Done c2 (Some r2) /\ r_cause r2 = Some 1 /\
      dp_find (c_dp c1) (Up 257) <> None /\ dp_find (c_dp c2) (Up 257) = None /\
      dp_find (c_dp c1) (Up 1) = None /\ dp_find (c_dp c2) (Up 1) <> None.
Proof.
  destruct (ex_runs_inv [ex_setup; ex_recv 2 (ex_est_of [ex_pdr 1 1; ex_pdr 2 257] [])] (fun c =>
    ex_accepts 1 (step c (Recv id_shuffle 7 3 (SessDelReq 2))) (fun c1 _ => installed (c_dp c1) (Up 257) && negb (installed (c_dp c1) (Up 1))) &&
    ex_accepts 1 (step c (Recv rev_shuffle 7 3 (SessDelReq 2))) (fun c2 _ => negb (installed (c_dp c2) (Up 257)) && installed (c_dp c2) (Up 1)))) as (c & l & Hc & H);
    [by vm_compute|].
  exists c, l. split; [exact Hc|]. split. { eapply ex_start_reachable; [|exact Hc]. repeat constructor; apply id_shuffle_fair. } clear Hc.
  apply andb_true_iff in H as [H1 H2]. apply ex_accepts_inv in H1 as (c1 & r1 & Hs1 & Hk1 & H1). apply ex_accepts_inv in H2 as (c2 & r2 & Hs2 & Hk2 & H2).
  exists id_shuffle, rev_shuffle, c1, r1, c2, r2. split; [apply id_shuffle_fair|]. split; [apply rev_shuffle_fair|].
  split; [exact Hs1|]. split; [exact Hk1|]. split; [exact Hs2|]. split; [exact Hk2|]. clear Hs1 Hs2 Hk1 Hk2.
  apply andb_true_iff in H1 as [H1 H1'], H2 as [H2 H2']. unfold installed in *.
  split_and!; [by destruct (dp_find (c_dp c1) (Up 257))|by destruct (dp_find (c_dp c2) (Up 257))|by destruct (dp_find (c_dp c1) (Up 1))|by destruct (dp_find (c_dp c2) (Up 1))].
Qed.

(** A session with tunnels chosen by the UPF and two URRs meets the hypotheses of both theorems, and the two orders do differ in the
    order of the reports. *)
Definition own_counters_b (s : session) : bool :=
  bool_decide (NoDup ((fun x : N * surr => su_gid (snd x)) <$> map_to_list (s_urrs s))).
Lemma own_counters_spec s : own_counters_b s = true -> own_counters s.
Proof.
  unfold own_counters_b. intros H%bool_decide_eq_true i j u u' Hi Hj Hg.
  destruct (elem_of_list_lookup_1 (map_to_list (s_urrs s)) (i, u)) as [a Ha]; [by apply elem_of_map_to_list|].
  destruct (elem_of_list_lookup_1 (map_to_list (s_urrs s)) (j, u')) as [b Hb]; [by apply elem_of_map_to_list|].
  assert (a = b) as ->; [|congruence]. apply (NoDup_lookup _ a b (su_gid u) H); rewrite list_lookup_fmap; [by rewrite Ha|by rewrite Hb, Hg].
Qed.
Example ex_orders : exists c l, ex_start [ex_setup; ex_recv 2 (ex_est_of [ex_upc 1 1; ex_upc 2 1] [Some 3; Some 4]); Traffic ∅ {[0 := (30, 40)]}] = Some (c, l) /\ reachable c /\
  exists s c1 r1 c2 r2, session_of c 7 2 = Some s /\ low_octets_differ (pdrs_of s) /\ own_counters s /\
    step c (Recv id_shuffle 7 3 (SessDelReq 2)) = Done c1 (Some r1) /\ r_cause r1 = Some 1 /\
    step c (Recv rev_shuffle 7 3 (SessDelReq 2)) = Done c2 (Some r2) /\ r_cause r2 = Some 1 /\ r_reports r1 <> r_reports r2.
Proof.
  destruct (ex_runs_inv [ex_setup; ex_recv 2 (ex_est_of [ex_upc 1 1; ex_upc 2 1] [Some 3; Some 4]); Traffic ∅ {[0 := (30, 40)]}] (fun c =>
    ex_has_session c 7 2 (fun s => low_octets_ok s && own_counters_b s) &&
    ex_accepts 1 (step c (Recv id_shuffle 7 3 (SessDelReq 2))) (fun c1 r1 =>
    ex_accepts 1 (step c (Recv rev_shuffle 7 3 (SessDelReq 2))) (fun c2 r2 => bool_decide (r_reports r1 <> r_reports r2))))) as (c & l & Hc & H);
    [by vm_compute|].
  exists c, l. split; [exact Hc|]. split. { eapply ex_start_reachable; [|exact Hc]. repeat constructor; apply id_shuffle_fair. } clear Hc.
  apply andb_true_iff in H as [H1 H2]. apply ex_has_session_inv in H1 as (s & Hs & H1). apply andb_true_iff in H1 as [H1%low_octets_ok_spec H1'%own_counters_spec].
  apply ex_accepts_inv in H2 as (c1 & r1 & Hs1 & Hk1 & H2). apply ex_accepts_inv in H2 as (c2 & r2 & Hs2 & Hk2 & H2). apply bool_decide_eq_true in H2.
  exists s, c1, r1, c2, r2. split_and!; [exact Hs|exact H1|exact H1'|exact Hs1|exact Hk1|exact Hs2|exact Hk2|exact H2].
Qed.
