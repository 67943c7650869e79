(** C57: updating PDRs changes what the Update PDRs carry and nothing else of the session. *)
From Verif Require Import Base IdTracker ResourceManager SdfParser MapOps Pfcp PfcpProps PfcpHistory PfcpReach PfcpRules PfcpCreate PfcpRemove PfcpReject.

(** ** Specification *)
(** A request whose only rules are the Update PDRs [ps], one for each PDR. *)
Definition only_pdr_updates (q : mod_req) (ps : list pdr_ie) : Prop :=
  mq_cfar q = [] /\ mq_ufar q = [] /\ mq_rfar q = [] /\ mq_cqer q = [] /\ mq_uqer q = [] /\ mq_rqer q = [] /\
  mq_curr q = [] /\ mq_uurr q = [] /\ mq_rurr q = [] /\ mq_cpdr q = [] /\ mq_updr q = ps /\ mq_rpdr q = [].
Definition given_fteid (p : pdr_ie) : option fteid_ie := match pe_pdi p with Some pdi => match pi_fteid pdi with Good fe => Some fe | _ => None end | None => None end.
Definition given_ueip (p : pdr_ie) : option ueip_ie := match pe_pdi p with Some pdi => match pi_ueip pdi with Good ue => Some ue | _ => None end | None => None end.

(** PDR [new] is PDR [old] of session [s] with what [p] says (a rule the session does not have counts as global id 0); [chooses]: the UPF allocates UE addresses. *)
Record updated (chooses : bool) (s : session) (p : pdr_ie) (old new : spdr) : Prop := {
  up_id : sd_id new = sd_id old;
  up_ohr : pr_ohr (sd_info new) = default (pr_ohr (sd_info old)) (pe_ohr p);
  up_far : match pe_far p with None => pr_far (sd_info new) = pr_far (sd_info old)
           | Some i => pr_far (sd_info new) = match s_fars s !! i with Some f => sf_gid f | None => 0 end end;
  up_qer : match pe_qer p with None => pr_qer (sd_info new) = pr_qer (sd_info old)
           | Some i => pr_qer (sd_info new) = match s_qers s !! i with Some f => sq_gid f | None => 0 end end;
  up_urr1 : match pe_urrs p with [] => pr_urr1 (sd_info new) = pr_urr1 (sd_info old)
            | i :: _ => pr_urr1 (sd_info new) = match s_urrs s !! i with Some u => su_gid u | None => 0 end end;
  up_urr2 : match pe_urrs p with _ :: i :: _ => pr_urr2 (sd_info new) = match s_urrs s !! i with Some u => su_gid u | None => 0 end
            | _ => pr_urr2 (sd_info new) = pr_urr2 (sd_info old) end;
  up_filter : match pe_sdf p with None | Some [] => pr_sdf (sd_info new) = pr_sdf (sd_info old)
              | Some t => exists f, parse_sdf t = Some f /\ pr_sdf (sd_info new) = Some f end;
  up_teid : match given_fteid p with Some fe => fe_ch fe = false -> sd_teid new = fe_teid fe | None => sd_teid new = sd_teid old end;
  up_addr : match given_fteid p, given_ueip p with
            | None, Some ue => chooses && ue_chv4 ue = false ->
                match ue_v4 ue with Some a => sd_v4 new = Some a /\ sd_v6 new = sd_v6 old | None => sd_v4 new = sd_v4 old /\ sd_v6 new = ue_v6 ue end
            | _, _ => sd_v4 new = sd_v4 old /\ sd_v6 new = sd_v6 old
            end }.

(** ** Proof *)
Lemma extract_updated ueip p old w new w' : extract_pdr ueip p old w = (Some new, w') -> updated ueip (w_ses w) p old new.
Proof.
  unfold extract_pdr. intros H. destruct (pe_pdi p) as [pdi|] eqn:Ep; [|done]. destruct (pdr_sdf p _) as [info|] eqn:Es; [|done].
  assert (Hi : info = set_sdf (pr_sdf info) (pdr_refs (w_ses w) p (sd_info old)) /\
    match pe_sdf p with None | Some [] => pr_sdf info = pr_sdf (sd_info old) | Some t => exists f, parse_sdf t = Some f /\ pr_sdf info = Some f end).
  { unfold pdr_sdf in Es. destruct (pe_sdf p) as [[|x t]|]; [by simplify_eq| |by simplify_eq].
    destruct (parse_sdf (x :: t)) as [f|]; [|done]. simplify_eq. split; [done|]. eauto. }
  destruct Hi as [Hi1 Hi2].
  assert (Hinfo : sd_info new = info /\ sd_id new = sd_id old) by (repeat (case_match; simplify_eq); simpl in *; simplify_eq; done).
  destruct Hinfo as [Hn1 Hn2].
  split; rewrite ?Hn1; [done|rewrite Hi1; simpl..|done| |].
  - done.
  - unfold get_far. destruct (pe_far p) as [i|]; [|done]. by destruct (s_fars (w_ses w) !! i).
  - unfold get_qer. destruct (pe_qer p) as [i|]; [|done]. by destruct (s_qers (w_ses w) !! i).
  - unfold get_urr. destruct (pe_urrs p) as [|i l]; [done|]. by destruct (s_urrs (w_ses w) !! i).
  - unfold get_urr. destruct (pe_urrs p) as [|i [|j l]]; [done..|]. by destruct (s_urrs (w_ses w) !! j).
  - unfold given_fteid. rewrite Ep. clear Hi1 Hi2 Es Hn1 Hn2. destruct (pi_fteid pdi) as [| |fe]; [|done|].
    + repeat (case_match; simplify_eq); simpl in *; simplify_eq; done.
    + intros Hch. rewrite Hch in H. by simplify_eq.
  - unfold given_fteid, given_ueip. rewrite Ep. clear Hi1 Hi2 Es Hn1 Hn2. destruct (pi_fteid pdi) as [| |fe]; [|done|].
    + destruct (pi_ueip pdi) as [| |ue]; [by simplify_eq|done|]. intros Hch. rewrite Hch in H.
      destruct (ue_v4 ue); [by simplify_eq|]. destruct (ue_v6 ue); by simplify_eq.
    + repeat (case_match; simplify_eq); simpl in *; simplify_eq; done.
Qed.

Lemma updates_effect ueip ps : forall w w', each (update_pdr_ie ueip) ps w = ROk w' -> NoDup (pe_id <$> ps) ->
  s_fars (w_ses w') = s_fars (w_ses w) /\ s_qers (w_ses w') = s_qers (w_ses w) /\ s_urrs (w_ses w') = s_urrs (w_ses w) /\
  far_part w' = far_part w /\ qer_part w' = qer_part w /\ urr_part w' = urr_part w /\
  (forall i, Some i ∉ (pe_id <$> ps) -> s_pdrs (w_ses w') !! i = s_pdrs (w_ses w) !! i) /\
  (forall p i, p ∈ ps -> pe_id p = Some i -> exists new, s_pdrs (w_ses w') !! i = Some new /\ updated ueip (w_ses w) p (get_pdr (w_ses w) i) new).
Proof.
  induction ps as [|p ps IH]; intros w w' H Hnd; simpl in H.
  { injection H as <-. split_and!; try done. intros p i Hp. by apply elem_of_nil in Hp. }
  apply rbind_ok in H as (w1 & H1 & H2). rewrite fmap_cons in Hnd. apply NoDup_cons in Hnd as [Hni Hnd].
  destruct (IH _ _ H2 Hnd) as (F1 & F2 & F3 & F4 & F5 & F6 & F7 & F8). clear IH H2.
  pose proof (proj1 (proj2 pdr_frame_far) ueip p w) as K1. pose proof (proj1 (proj2 pdr_frame_qer) ueip p w) as K2. pose proof (proj1 (proj2 pdr_frame_urr) ueip p w) as K3.
  rewrite H1 in K1, K2, K3. unfold keepsP in K1, K2, K3. 
  assert (s_fars (w_ses w1) = s_fars (w_ses w) /\ s_qers (w_ses w1) = s_qers (w_ses w) /\ s_urrs (w_ses w1) = s_urrs (w_ses w)) as (E1 & E2 & E3).
  { unfold far_part, qer_part, urr_part in K1, K2, K3. by simplify_eq. }
  unfold update_pdr_ie in H1. destruct (pe_id p) as [id|] eqn:Hid; [|done].
  destruct (extract_pdr _ _ _ _) as [[new|] w2] eqn:E; [|done]. pose proof (extract_pdr_frame _ _ _ _ _ _ E) as (_ & Es & _ & _).
  apply extract_updated in E. cbn zeta in H1. destruct (apply_pdr _ _) as [[] d]; [|discriminate H1]. injection H1 as H1. subst w1.
  assert (Hp1 : s_pdrs (w_ses (w_set_dp d (w_set_ses (ses_put_pdr id new (w_ses w2)) w2))) = <[id := new]> (s_pdrs (w_ses w))) by (simpl; by rewrite Es).
  rewrite Hp1 in F7. split_and!; [by rewrite F1|by rewrite F2|by rewrite F3|exact (eq_trans F4 K1)|exact (eq_trans F5 K2)|exact (eq_trans F6 K3)| |].
  - intros i Hi. rewrite fmap_cons, elem_of_cons in Hi. rewrite F7 by tauto. apply lookup_insert_ne. rewrite Hid in Hi. intros ->. tauto.
  - intros p' i Hp' Hi. apply elem_of_cons in Hp' as [->|Hp'].
    + assert (i = id) as -> by congruence. exists new. split; [|done]. rewrite F7; [apply lookup_insert|exact Hni].
    + destruct (F8 p' i Hp' Hi) as (new' & N1 & N2). exists new'. split; [done|].
      assert (i <> id). { intros ->. apply Hni. rewrite <- Hi. by apply elem_of_list_fmap_1. }
      assert (Hg : get_pdr (w_ses (w_set_dp d (w_set_ses (ses_put_pdr id new (w_ses w2)) w2))) i = get_pdr (w_ses w) i).
      { unfold get_pdr. rewrite Hp1. by rewrite lookup_insert_ne. }
      rewrite Hg in N2. destruct N2. split; try done; [by rewrite <- E1|by rewrite <- E2|by rewrite <- E3|by rewrite <- E3].
Qed.

(** Any number of Update PDRs in one request. *)
Theorem updates_change_what_they_say_partial :
  forall sh addr seq q c c' r ps s,
    handle sh addr seq (SessModReq q) c = Done c' (Some r) -> r_cause r = Some 1 ->
    only_pdr_updates q ps -> NoDup (pe_id <$> ps) -> session_of c addr (mq_seid q) = Some s ->
    exists s', session_of c' addr (mq_seid q) = Some s' /\
      (* the PDRs named are updated *)
      (forall p i, p ∈ ps -> pe_id p = Some i -> exists new, s_pdrs s' !! i = Some new /\
         updated (g_ueip (c_cfg c)) s p (default (Spdr 0 (PdrReq 0 0 0 0 0 None) 0 None None false) (s_pdrs s !! i)) new) /\
      (* nothing else of the session is *)
      (forall i, Some i ∉ (pe_id <$> ps) -> s_pdrs s' !! i = s_pdrs s !! i) /\
      s_fars s' = s_fars s /\ s_qers s' = s_qers s /\ s_urrs s' = s_urrs s /\
      d_far (c_dp c') = d_far (c_dp c) /\ d_qer (c_dp c') = d_qer (c_dp c) /\ d_urr (c_dp c') = d_urr (c_dp c) /\
      d_fart (c_dp c') = d_fart (c_dp c) /\ d_qert (c_dp c') = d_qert (c_dp c) /\ d_urrt (c_dp c') = d_urrt (c_dp c) /\
      d_far_size (c_dp c') = d_far_size (c_dp c) /\ d_qer_size (c_dp c') = d_qer_size (c_dp c) /\ d_urr_size (c_dp c') = d_urr_size (c_dp c).
Proof.
  intros sh addr seq q c c' r ps s H Hr (E1 & E2 & E3 & E4 & E5 & E6 & E7 & E8 & E9 & E10 & E11 & E12) Hnd Hs0.
  apply handle_mod_inv in H as (a & s1 & w & Ha & Hs & Hw & Hd & _ & _ & _ & _ & Hs'); [|done].
  assert (s1 = s) as ->. { unfold session_of in Hs0. rewrite Ha in Hs0. congruence. }
  unfold mod_rules in Hw. rewrite E1, E2, E3, E4, E5, E6, E7, E8, E9, E10, E11, E12 in Hw. cbn [each rbind] in Hw.
  apply rbind_ok in Hw as (w1 & Hw & Hx). simplify_eq.
  remember (new_work (c_dp c) (match mq_fseid q with Good r => set_remote r s | _ => s end) (c_rm c)) as w0 eqn:Hw0.
  destruct (updates_effect _ _ _ _ Hw Hnd) as (F1 & F2 & F3 & F4 & F5 & F6 & F7 & F8).
  assert (s_pdrs (w_ses w0) = s_pdrs s /\ s_fars (w_ses w0) = s_fars s /\ s_qers (w_ses w0) = s_qers s /\ s_urrs (w_ses w0) = s_urrs s /\ w_dp w0 = c_dp c) as (P1 & P2 & P3 & P4 & P5).
  { subst w0. simpl. by destruct (mq_fseid q). }
  clear Hw0 Hw. exists (w_ses w). rewrite Hd, <- P5. unfold far_part, qer_part, urr_part in F4, F5, F6. simplify_eq.
  split_and!; try congruence.
  - intros p i Hp Hi. destruct (F8 p i Hp Hi) as (new & N1 & N2). exists new. split; [done|]. unfold get_pdr in N2. rewrite P1 in N2.
    destruct N2. split; try done; [by rewrite <- P2|by rewrite <- P3|by rewrite <- P4|by rewrite <- P4].
  - intros i Hi. rewrite F7 by done. by rewrite P1.
Qed.

(** Two PDRs of one session moved to a tunnel the UPF is to choose, the same for both. *)
Definition ex_choose (id : N) : pdr_ie := PdrIe (Some id) None None None [] (Some (PdiIe true (Good (FteidIe 0 true (Some 7))) Absent)) None.
Example ex_updates : exists c l, ex_start [ex_setup; ex_recv 2 (ex_est_of [ex_pdr 1 9; ex_pdr 2 10; ex_pdr 3 11] [])] = Some (c, l) /\
  NoDup (pe_id <$> [ex_choose 1; ex_choose 2]) /\
  only_pdr_updates (ModReq 2 Absent [] [] [] [] [] [] [] [] [] [] [ex_choose 1; ex_choose 2] []) [ex_choose 1; ex_choose 2] /\
  exists c' r, handle id_shuffle 7 3 (SessModReq (ModReq 2 Absent [] [] [] [] [] [] [] [] [] [] [ex_choose 1; ex_choose 2] [])) c = Done c' (Some r) /\ r_cause r = Some 1.
Proof.
  assert (H : ex_runs [ex_setup; ex_recv 2 (ex_est_of [ex_pdr 1 9; ex_pdr 2 10; ex_pdr 3 11] [])] (fun c =>
    ex_accepts 1 (handle id_shuffle 7 3 (SessModReq (ModReq 2 Absent [] [] [] [] [] [] [] [] [] [] [ex_choose 1; ex_choose 2] [])) c) (fun _ _ => true)) = true) by by vm_compute.
  apply ex_runs_inv in H as (c & l & Hc & H). exists c, l. split; [exact Hc|]. clear Hc. split; [by apply (bool_decide_eq_true _); vm_compute|]. split; [by repeat split|].
  apply ex_accepts_inv in H as (c' & r & E & Hr & _). exists c', r. split; [exact E|]. exact Hr.
Qed.
