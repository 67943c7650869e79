(** Rejected requests (C16, C17), updated PDRs (C57), removed URRs (C20). *)
From Verif Require Import Base IdTracker ResourceManager SdfParser MapOps Pfcp PfcpProps PfcpHistory PfcpReach PfcpRules PfcpCreate PfcpRemove.

(** ** Creating rules takes free ids and keys, and disturbs nothing in use *)

Record only_taken (d d' : dp) : Prop := {
  ot_far : forall g, ~ far_free d g -> ~ far_free d' g /\ far_get d' g = far_get d g;
  ot_qer : forall g, ~ qer_free d g -> ~ qer_free d' g /\ qer_get d' g = qer_get d g;
  ot_urr : forall g, ~ urr_free d g -> ~ urr_free d' g /\ urr_get d' g = urr_get d g;
  ot_key : forall k, dp_find d k <> None -> dp_find d' k <> None }.
Lemma only_taken_refl d : only_taken d d.
Proof. split; auto. Qed.
Lemma only_taken_trans d1 d2 d3 : only_taken d1 d2 -> only_taken d2 d3 -> only_taken d1 d3.
Proof.
  intros [F Q U K] [F' Q' U' K']. split; auto; intros g Hg.
  - destruct (F g Hg) as [H1 <-]. by apply F'.
  - destruct (Q g Hg) as [H1 <-]. by apply Q'.
  - destruct (U g Hg) as [H1 <-]. by apply U'.
Qed.

Definition takes (w : work) (r : res) : Prop := ends r (fun w' => only_taken (w_dp w) (w_dp w') /\ dp_ok (w_dp w')).
Lemma each_takes {A} (f : A -> work -> res) l w :
  (forall x w, dp_ok (w_dp w) -> takes w (f x w)) -> dp_ok (w_dp w) -> takes w (each f l w).
Proof.
  intros Hf. revert w. induction l as [|x l IH]; intros w Hw; simpl; [split; [apply only_taken_refl|done]|].
  pose proof (Hf x w Hw) as Hx. destruct (f x w) as [w1|w1|]; simpl in *; try done. destruct Hx as [Hx Hw1].
  specialize (IH w1 Hw1). unfold takes in *. destruct (each f l w1); simpl in *; try done;
  (split; [|tauto]); eapply only_taken_trans; [exact Hx|tauto|exact Hx|tauto].
Qed.
Lemma bind_takes w r k : takes w r -> (forall w', dp_ok (w_dp w') -> takes w' (k w')) -> takes w (rbind r k).
Proof.
  unfold takes. intros H Hk. destruct r as [w1|w1|]; simpl in *; try done. destruct H as [H Hw1]. specialize (Hk w1 Hw1).
  destruct (k w1); simpl in *; try done; (split; [|tauto]); eapply only_taken_trans; [exact H|tauto|exact H|tauto].
Qed.

Lemma new_far_taken f d : dp_ok d -> only_taken d (snd (new_far f d)).
Proof.
  intros Hok. unfold new_far. destruct (get_next (d_fart d)) as [[g|] t] eqn:E; [|apply only_taken_refl].
  apply (get_granted _ _ _ _ (dk_far _ Hok)) in E as (Hlt & Hin & Hnin & Hfree). cbn zeta.
  destruct (N.ltb_spec g (d_far_size d)); [|lia]. simpl. split; try done. intros j Hj. unfold far_free, far_get in *. simpl.
  split; [intros Hx; apply Hj, Hfree; by right|]. rewrite far_get_insert by done. rewrite decide_False; [done|]. by intros ->.
Qed.
Lemma new_qer_taken f d : dp_ok d -> only_taken d (snd (new_qer f d)).
Proof.
  intros Hok. unfold new_qer. destruct (get_next (d_qert d)) as [[g|] t] eqn:E; [|apply only_taken_refl].
  apply (get_granted _ _ _ _ (dk_qer _ Hok)) in E as (Hlt & Hin & Hnin & Hfree). cbn zeta.
  destruct (N.ltb_spec g (d_qer_size d)); [|lia]. simpl. split; try done. intros j Hj. unfold qer_free, qer_get in *. simpl.
  split; [intros Hx; apply Hj, Hfree; by right|]. rewrite qer_get_insert by done. rewrite decide_False; [done|]. by intros ->.
Qed.
Lemma new_urr_taken f d : dp_ok d -> only_taken d (snd (new_urr f d)).
Proof.
  intros Hok. unfold new_urr. destruct (get_next (d_urrt d)) as [[g|] t] eqn:E; [|apply only_taken_refl].
  apply (get_granted _ _ _ _ (dk_urr _ Hok)) in E as (Hlt & Hin & Hnin & Hfree). cbn zeta.
  destruct (N.ltb_spec g (d_urr_size d)); [|lia]. simpl. split; try done. intros j Hj. unfold urr_free, urr_get in *. simpl.
  split; [intros Hx; apply Hj, Hfree; by right|]. rewrite urr_get_insert by done. rewrite decide_False; [done|]. by intros ->.
Qed.
Lemma apply_pdr_taken s d : only_taken d (snd (apply_pdr s d)).
Proof.
  destruct (apply_pdr s d) as [b d'] eqn:E. simpl. pose proof (apply_pdr_frame _ _ _ _ E) as Hfr. destruct_and!.
  split; unfold far_free, far_get, qer_free, qer_get, urr_free, urr_get.
  - intros g. by repeat match goal with H : _ = _ |- _ => rewrite H; clear H end.
  - intros g. by repeat match goal with H : _ = _ |- _ => rewrite H; clear H end.
  - intros g. by repeat match goal with H : _ = _ |- _ => rewrite H; clear H end.
  - destruct b.
    + intros k Hk. rewrite (apply_pdr_find _ _ _ E). by case_decide.
    + unfold apply_pdr, put_pdr_downlink, put_pdr_ip6, put_pdr_uplink in E. repeat (case_match; simplify_eq); done.
Qed.

Lemma takes_intro w r : (ends r (fun w' => only_taken (w_dp w) (w_dp w'))) -> by_prims w r -> dp_ok (w_dp w) -> takes w r.
Proof.
  intros H Hp Hok. pose proof (by_prims_ok _ _ Hp Hok) as Ho. unfold takes. by destruct r.
Qed.
Lemma create_far_takes f w : dp_ok (w_dp w) -> takes w (create_far f w).
Proof.
  intros Hok. apply takes_intro; [|apply create_far_prims|done]. unfold create_far.
  destruct (far_crash f); [done|]. destruct (compose_far f far0) as [i|]; [|apply only_taken_refl].
  pose proof (new_far_taken i (w_dp w) Hok) as H. by destruct (new_far i (w_dp w)) as [[g|] d].
Qed.
Lemma create_qer_takes f w : dp_ok (w_dp w) -> takes w (create_qer f w).
Proof.
  intros Hok. apply takes_intro; [|apply create_qer_prims|done]. unfold create_qer.
  destruct (qe_id f); [|apply only_taken_refl]. cbn zeta.
  pose proof (new_qer_taken (compose_qer f qer0) (w_dp w) Hok) as H. by destruct (new_qer _ (w_dp w)) as [[g|] d].
Qed.
Lemma create_urr_takes f w : dp_ok (w_dp w) -> takes w (create_urr f w).
Proof.
  intros Hok. apply takes_intro; [|apply create_urr_prims|done]. unfold create_urr.
  destruct f; [|apply only_taken_refl].
  pose proof (new_urr_taken urr0 (w_dp w) Hok) as H. by destruct (new_urr _ (w_dp w)) as [[g|] d].
Qed.
Lemma create_pdr_takes ueip p w : dp_ok (w_dp w) -> takes w (create_pdr ueip p w).
Proof.
  intros Hok. apply takes_intro; [|apply create_pdr_prims|done]. unfold create_pdr.
  destruct (pe_id p); [|apply only_taken_refl].
  destruct (extract_pdr _ _ _ w) as [[s|] w1] eqn:E; apply extract_pdr_frame in E as (Ed & _).
  - cbn zeta. simpl. rewrite Ed. pose proof (apply_pdr_taken s (w_dp w)) as H. by destruct (apply_pdr s (w_dp w)) as [[] d].
  - simpl. rewrite Ed. apply only_taken_refl.
Qed.
Lemma est_rules_takes ueip q w : dp_ok (w_dp w) -> takes w (est_rules ueip q w).
Proof.
  intros Hok. unfold est_rules.
  repeat (apply bind_takes; [apply each_takes; [intros|done]|intros]); [..|apply each_takes; [intros|done]];
  auto using create_far_takes, create_qer_takes, create_urr_takes, create_pdr_takes.
Qed.

(** ** C16 *)

(** Every establishment, accepted or rejected, leaves the rules in use as they are; a
    rejected one leaves all sessions as they are. *)
Theorem rejected_establishment_partial :
  forall sh addr seq q c c' r,
    reachable c -> handle sh addr seq (SessEstReq q) c = Done c' (Some r) -> r_cause r = Some 73 ->
    (forall peer seid, session_of c' peer seid = session_of c peer seid) /\
    only_taken (c_dp c) (c_dp c').
Proof.
  intros sh addr seq q c c' r Hreach H Hr. pose proof (reachable_ok _ Hreach) as [Hok _].
  simpl in H. unfold handle_est, validate_request in H.
  destruct (eq_node q), (eq_fseid q) as [| |remote]; simplify_eq; try done.
  destruct (c_assocs c !! addr) as [a0|] eqn:Ea; simplify_eq; try done.
  destruct (existsb _ _); [done|].
  pose proof (est_rules_takes (g_ueip (c_cfg c)) q (new_work (c_dp c) (new_session (next_seid a0) remote) (c_rm c)) Hok) as Ht.
  destruct (est_rules _ _ _) as [w|w|]; simplify_eq; try done. split; [|apply Ht].
  intros peer seid. unfold session_of. simpl. destruct (decide (peer = addr)) as [->|Hne].
  - rewrite lookup_insert, Ea. done.
  - by rewrite lookup_insert_ne.
Qed.

Definition ex_half_est : msg := ex_est_of [PdrIe None None None None [] None None] [].
(** The FAR was created before the PDR without id was refused: its id stays taken. *)
Theorem rejected_establishment_leaks_refuted :
  exists c l, ex_start [ex_setup] = Some (c, l) /\
    exists c' r, handle id_shuffle 7 2 ex_half_est c = Done c' (Some r) /\ r_cause r = Some 73 /\
    far_get (c_dp c) 0 = Some far0 /\ far_get (c_dp c') 0 = Some (Far 2 0 0 0 0) /\
    far_free (c_dp c) 0 /\ ~ far_free (c_dp c') 0.
Proof.
  destruct (ex_runs_inv [ex_setup] (fun c =>
    bool_decide (far_get (c_dp c) 0 = Some far0) && bool_decide (0 ∈ t_free (d_fart (c_dp c))) &&
    ex_accepts 73 (handle id_shuffle 7 2 ex_half_est c) (fun c' r =>
      bool_decide (far_get (c_dp c') 0 = Some (Far 2 0 0 0 0)) && bool_decide (0 ∉ t_free (d_fart (c_dp c')))))) as (c & l & Hc & H);
    [by vm_compute|].
  apply andb_true_iff in H as [H H3]. apply andb_true_iff in H as [H1 H2].
  apply ex_accepts_inv in H3 as (c' & r & Hh & Hk & H3). apply andb_true_iff in H3 as [H3 H4].
  apply bool_decide_eq_true in H1, H2, H3, H4.
  exists c, l. split; [done|]. exists c', r. by split_and!.
Qed.

(** ** C17 *)

(** A modification that only creates rules disturbs nothing in use even if it is rejected;
    and no modification makes a session disappear or touches another one. *)
Theorem rejected_modification_partial :
  forall sh addr seq q c c' r s,
    reachable c -> handle sh addr seq (SessModReq q) c = Done c' (Some r) -> r_cause r = Some 73 ->
    session_of c addr (mq_seid q) = Some s ->
    (exists s', session_of c' addr (mq_seid q) = Some s' /\ s_local s' = s_local s) /\
    (forall peer seid, (peer, seid) <> (addr, mq_seid q) -> session_of c' peer seid = session_of c peer seid) /\
    (mq_ufar q = [] -> mq_rfar q = [] -> mq_uqer q = [] -> mq_rqer q = [] -> mq_uurr q = [] -> mq_rurr q = [] ->
     mq_updr q = [] -> mq_rpdr q = [] -> only_taken (c_dp c) (c_dp c')).
Proof.
  intros sh addr seq q c c' r s Hreach H Hr Hs0. pose proof (reachable_ok _ Hreach) as [Hok _].
  simpl in H. unfold handle_mod in H. unfold session_of in Hs0.
  destruct (c_assocs c !! addr) as [a|] eqn:Ea; [|done]. rewrite Hs0 in H.
  destruct (_ || _); [done|].
  match type of H with context [mod_rules ?x ?y ?z ?t] => pose proof (mod_rules_local x y z t) as Hl; remember t as w0 eqn:Hw0 end.
  assert (Hloc : s_local (w_ses w0) = s_local s) by (subst w0; simpl; by destruct (mq_fseid q)).
  assert (Hd0 : w_dp w0 = c_dp c) by by subst w0.
  clear Hw0.
  destruct (mod_rules _ _ _ _) as [w|w|] eqn:Em; simplify_eq; try done. simpl in Hl.
  assert (Hsame : forall peer seid, (peer, seid) <> (addr, mq_seid q) ->
    session_of (set_dp_rm (w_dp w) (w_rm w) (put_session addr (mq_seid q) a (w_ses w) c)) peer seid = session_of c peer seid).
  { intros peer seid Hne. unfold session_of. simpl. destruct (decide (peer = addr)) as [->|Hp].
    - rewrite lookup_insert, Ea. simpl. rewrite lookup_insert_ne; [done|]. congruence.
    - by rewrite lookup_insert_ne. }
  split_and!; [|done|].
  - exists (w_ses w). unfold session_of. simpl. rewrite lookup_insert. simpl. rewrite lookup_insert. split; [done|congruence].
  - intros E1 E2 E3 E4 E5 E6 E7 E8.
    assert (Ht : takes w0 (mod_rules (g_ueip (c_cfg c)) sh q w0)).
    { assert (Hok0 : dp_ok (w_dp w0)) by by rewrite Hd0. unfold mod_rules. rewrite E1, E2, E3, E4, E5, E6, E7, E8. cbn [each rbind].
      repeat (apply bind_takes; [apply each_takes; [intros|done]|intros ? ?; cbn beta]);
      auto using create_far_takes, create_qer_takes, create_urr_takes, create_pdr_takes.
      split; [apply only_taken_refl|done]. }
    rewrite Em in Ht. simpl in Ht. rewrite <- Hd0. apply Ht.
Qed.

Definition ex_bad_mod : msg :=
  SessModReq (ModReq 2 Absent [] [FarIe (Some 1) (Some [1]) None None] [] [] [] [] [] [] []
                     [PdrIe None None None None [] None None] [] []).
(** The FAR was updated before the PDR without id was refused. *)
Theorem rejected_modification_changes_refuted :
  exists c l, ex_start [ex_setup; ex_recv 2 (ex_est_of [ex_pdr 1 9] [])] = Some (c, l) /\
    exists c' r, handle id_shuffle 7 3 ex_bad_mod c = Done c' (Some r) /\ r_cause r = Some 73 /\
    far_get (c_dp c) 0 = Some (Far 2 0 0 0 0) /\ far_get (c_dp c') 0 = Some (Far 1 0 0 0 0).
Proof.
  destruct (ex_runs_inv [ex_setup; ex_recv 2 (ex_est_of [ex_pdr 1 9] [])] (fun c =>
    bool_decide (far_get (c_dp c) 0 = Some (Far 2 0 0 0 0)) &&
    ex_accepts 73 (handle id_shuffle 7 3 ex_bad_mod c) (fun c' r =>
      bool_decide (far_get (c_dp c') 0 = Some (Far 1 0 0 0 0))))) as (c & l & Hc & H);
    [by vm_compute|].
  apply andb_true_iff in H as [H1 H3].
  apply ex_accepts_inv in H3 as (c' & r & Hh & Hk & H3). apply bool_decide_eq_true in H1, H3.
  exists c, l. split; [done|]. exists c', r. by split_and!.
Qed.

(** ** C57: updating a PDR *)

(** A request whose only rule is one Update PDR. *)
Definition only_updates (q : mod_req) (p : pdr_ie) : Prop :=
  mq_cfar q = [] /\ mq_ufar q = [] /\ mq_rfar q = [] /\ mq_cqer q = [] /\ mq_uqer q = [] /\ mq_rqer q = [] /\
  mq_curr q = [] /\ mq_uurr q = [] /\ mq_rurr q = [] /\ mq_cpdr q = [] /\ mq_updr q = [p] /\ mq_rpdr q = [].

(** The new key of the PDR is installed, pointing to the rules the update names (or the
    former ones), and every other key, the former one included, is as it was. *)
Theorem update_pdr_partial :
  forall sh addr seq q c c' r p s id,
    handle sh addr seq (SessModReq q) c = Done c' (Some r) -> r_cause r = Some 1 ->
    only_updates q p -> pe_id p = Some id -> session_of c addr (mq_seid q) = Some s ->
    exists s' old new,
      session_of c' addr (mq_seid q) = Some s' /\ s_pdrs s' !! id = Some new /\
      old = default (Spdr 0 (PdrReq 0 0 0 0 0 None) 0 None None false) (s_pdrs s !! id) /\
      (* the key written in the update *)
      (forall pdi fe, pe_pdi p = Some pdi -> pi_fteid pdi = Good fe -> fe_ch fe = false ->
         sd_v4 old = None -> sd_v6 old = None -> spdr_key new = Up (fe_teid fe)) /\
      (forall pdi ue a, pe_pdi p = Some pdi -> pi_fteid pdi = Absent -> pi_ueip pdi = Good ue ->
         ue_chv4 ue = false -> ue_v4 ue = Some a -> spdr_key new = Dn4 a) /\
      (* its entry *)
      (pe_sdf p = None -> pr_sdf (sd_info old) = None ->
       exists e, dp_find (c_dp c') (spdr_key new) = Some e /\ ep_mode e = 0 /\
         ep_ohr e = default (pr_ohr (sd_info old)) (pe_ohr p) /\
         (forall i f, pe_far p = Some i -> s_fars s !! i = Some f -> ep_far e = sf_gid f) /\
         (pe_far p = None -> ep_far e = pr_far (sd_info old)) /\
         (forall i f, pe_qer p = Some i -> s_qers s !! i = Some f -> ep_qer e = sq_gid f) /\
         (pe_qer p = None -> ep_qer e = pr_qer (sd_info old))) /\
      (* all other keys *)
      (forall k, k <> spdr_key new -> dp_find (c_dp c') k = dp_find (c_dp c) k).
Proof.
  intros sh addr seq q c c' r p s id H Hr (E1 & E2 & E3 & E4 & E5 & E6 & E7 & E8 & E9 & E10 & E11 & E12) Hid Hs0.
  apply handle_mod_inv in H as (a & s1 & w & Ha & Hs & Hw & Hd & _ & _ & _ & _ & Hs'); [|done].
  assert (s1 = s) as ->. { unfold session_of in Hs0. rewrite Ha in Hs0. congruence. }
  unfold mod_rules in Hw. rewrite E1, E2, E3, E4, E5, E6, E7, E8, E9, E10, E11, E12 in Hw. cbn [each rbind] in Hw.
  apply rbind_ok in Hw as (w1 & Hw & Hx). simplify_eq.
  apply rbind_ok in Hw as (w2 & Hw & Hx). simpl in Hx. simplify_eq.
  unfold update_pdr_ie in Hw. rewrite Hid in Hw.
  remember (new_work (c_dp c) (match mq_fseid q with Good r => set_remote r s | _ => s end) (c_rm c)) as w0 eqn:Hw0.
  assert (Hd0 : w_dp w0 = c_dp c) by by subst w0.
  assert (Hp0 : s_pdrs (w_ses w0) = s_pdrs s /\ s_fars (w_ses w0) = s_fars s /\ s_qers (w_ses w0) = s_qers s).
  { subst w0. simpl. by destruct (mq_fseid q). }
  clear Hw0. destruct Hp0 as (Hp0 & Hf0 & Hq0).
  assert (Hold : get_pdr (w_ses w0) id = default (Spdr 0 (PdrReq 0 0 0 0 0 None) 0 None None false) (s_pdrs s !! id)).
  { unfold get_pdr. by rewrite Hp0. }
  remember (get_pdr (w_ses w0) id) as old eqn:Eold. clear Eold.
  destruct (extract_pdr _ _ _ _) as [[new|] w1] eqn:E; [|done].
  pose proof (extract_pdr_frame _ _ _ _ _ _ E) as (Ed & Es & _ & _).
  cbn zeta in Hw. simpl in Hw. destruct (apply_pdr new (w_dp w1)) as [[] d] eqn:Eap; simplify_eq. simpl in *.
  pose proof (apply_pdr_find _ _ _ Eap) as Hfind.
  eexists _, _, new. split; [exact Hs'|]. split; [simpl; by rewrite lookup_insert|]. split; [done|].
  unfold extract_pdr in E. destruct (pe_pdi p) as [pdi|] eqn:Epdi; [|done].
  split; [|split; [|split]].
  - intros pdi' fe [= <-] Hfe Hch Hv4 Hv6. rewrite Hfe, Hch in E. destruct (pdr_sdf p _); [|done]. simplify_eq.
    unfold spdr_key. simpl. by rewrite Hv4, Hv6.
  - intros pdi' ue b [= <-] Hfe Hue Hch Hb. rewrite Hfe, Hue, Hch, Hb, andb_false_r in E. destruct (pdr_sdf p _); [|done].
    by simplify_eq.
  - intros Hsdf Hsdf'. exists (to_entrypoint (sd_info new)). rewrite Hd, Hfind, decide_True by done.
    assert (Hinfo : sd_info new = pdr_refs (w_ses w0) p (sd_info (default (Spdr 0 (PdrReq 0 0 0 0 0 None) 0 None None false) (s_pdrs s !! id)))).
    { unfold pdr_sdf in E. rewrite Hsdf in E. repeat (case_match; simplify_eq); simpl in *; simplify_eq; done. }
    unfold store_pdr. rewrite Hinfo. simpl. rewrite Hsdf'. split; [done|]. split; [done|]. split; [done|].
    unfold get_far, get_qer. rewrite Hf0, Hq0. split_and!.
    + intros i f -> ->. done.
    + by intros ->.
    + intros i f -> ->. done.
    + by intros ->.
  - intros k Hk. rewrite Hd, Hfind, decide_False by done. by rewrite Ed, Hd0.
Qed.

Definition ex_move : msg := SessModReq (ModReq 2 Absent [] [] [] [] [] [] [] [] [] [] [ex_pdr 1 20] []).
(** TEID 10 of PDR 1 is replaced by 20; packets with TEID 10 are still detected. *)
Theorem update_pdr_leaves_old_key_refuted :
  exists c l, ex_start [ex_setup; ex_recv 2 (ex_est_of [ex_pdr 1 10] [])] = Some (c, l) /\
    exists c' r, handle id_shuffle 7 3 ex_move c = Done c' (Some r) /\ r_cause r = Some 1 /\
    dp_find (c_dp c') (Up 20) <> None /\ dp_find (c_dp c') (Up 10) <> None.
Proof.
  destruct (ex_runs_inv [ex_setup; ex_recv 2 (ex_est_of [ex_pdr 1 10] [])] (fun c =>
    ex_accepts 1 (handle id_shuffle 7 3 ex_move c) (fun c' r =>
      installed (c_dp c') (Up 20) && installed (c_dp c') (Up 10)))) as (c & l & Hc & H); [by vm_compute|].
  apply ex_accepts_inv in H as (c' & r & Hh & Hk & H3). apply andb_true_iff in H3 as [H1 H2].
  exists c, l. split; [done|]. exists c', r. unfold installed in *.
  split_and!; try done; [by destruct (dp_find (c_dp c') (Up 20))|by destruct (dp_find (c_dp c') (Up 10))].
Qed.

(** ** C20: Remove URR *)

Lemma remove_urrs_effect (l : list N) : forall w w', dp_ok (w_dp w) -> each remove_urr_ie (Some <$> l) w = ROk w' ->
  NoDup l -> (forall i, i ∈ l -> is_Some (s_urrs (w_ses w) !! i)) ->
  (forall i j u v, s_urrs (w_ses w) !! i = Some u -> s_urrs (w_ses w) !! j = Some v -> su_gid u = su_gid v -> i = j) ->
  w_reports w' = w_reports w ++ omap (fun i => u ← s_urrs (w_ses w) !! i; final_report (w_dp w) (i, u)) l.
Proof.
  induction l as [|i l IH]; intros w w' Hok H Hnd Hin Hinj; simpl in H; simplify_eq.
  { simpl. by rewrite app_nil_r. }
  apply rbind_ok in H as (w1 & H1 & H2). apply NoDup_cons in Hnd as [Hni Hnd].
  destruct (Hin i) as [u Hu]; [left|]. cbn zeta in H1. unfold get_urr in H1. rewrite Hu in H1. simpl in H1.
  pose proof (delete_urr_effect (su_gid u) (w_dp w) Hok) as He.
  pose proof (delete_urr_ok (su_gid u) (w_dp w) Hok) as Hok1.
  destruct (delete_urr (su_gid u) (w_dp w)) as [[v|] d] eqn:Ed; [|done]. destruct He as (Ho & _ & _ & Hget). simplify_eq.
  simpl in Hok1. unshelve erewrite (IH _ _ _ H2 Hnd); [exact Hok1| | |].
  - simpl. rewrite <- app_assoc. f_equal. csimpl. rewrite Hu. simpl. unfold final_report at 2. simpl. rewrite <- Ho. simpl. f_equal.
    assert (Hgen : forall l' : list N, i ∉ l' ->
       omap (fun j => u0 ← delete i (s_urrs (w_ses w)) !! j; final_report d (j, u0)) l' =
       omap (fun j => u0 ← s_urrs (w_ses w) !! j; final_report (w_dp w) (j, u0)) l').
    { induction l' as [|j l' IHl]; intros Hn; [done|]. apply not_elem_of_cons in Hn as [Hn1 Hn2]. csimpl. rewrite IHl by done.
      rewrite lookup_delete_ne by done. destruct (s_urrs (w_ses w) !! j) as [u'|] eqn:Eu'; simpl; [|done].
      unfold final_report. simpl. rewrite Hget. rewrite decide_False; [done|]. intros [Heq _]. apply Hn1. eapply Hinj; [exact Hu|exact Eu'|]. done. }
    by apply Hgen.
  - simpl. intros j Hj. rewrite lookup_delete_ne; [apply Hin; by right|]. by intros ->.
  - simpl. intros j k u1 u2 Hj Hk. apply lookup_delete_Some in Hj as [_ Hj]. apply lookup_delete_Some in Hk as [_ Hk]. by eapply Hinj.
Qed.

(** A modification that removes URRs (and neither creates nor updates any): one report per
    removed URR, in request order, number 1, with the volumes counted for its id. *)
Theorem removal_reports_partial :
  forall sh addr seq q c c' r s (ids : list N),
    reachable c -> session_of c addr (mq_seid q) = Some s ->
    handle sh addr seq (SessModReq q) c = Done c' (Some r) -> r_cause r = Some 1 ->
    mq_curr q = [] -> mq_uurr q = [] -> mq_rurr q = Some <$> ids -> NoDup ids ->
    (forall i, i ∈ ids -> exists u, s_urrs s !! i = Some u /\ su_gid u < d_urr_size (c_dp c)) ->
    (forall i j u v, s_urrs s !! i = Some u -> s_urrs s !! j = Some v -> su_gid u = su_gid v -> i = j) ->
    Forall2 (fun i x => exists u v, s_urrs s !! i = Some u /\ urr_get (c_dp c) (su_gid u) = Some v /\
      x = Report i 1 (u64 (ui_ul v + ui_dl v)) (ui_ul v) (ui_dl v)) ids (r_reports r).
Proof.
  intros sh addr seq q c c' r s ids Hreach Hs0 H Hr E1 E2 E3 Hnd Hin Hinj.
  pose proof (reachable_ok _ Hreach) as [Hok _].
  pose proof (reachable_urrs_fresh _ _ _ _ Hreach Hs0) as Hfresh.
  apply handle_mod_inv in H as (a & s1 & w & Ha & Hs & Hw & Hd & _ & _ & _ & Hrep & _); [|done].
  assert (s1 = s) as ->. { unfold session_of in Hs0. rewrite Ha in Hs0. congruence. }
  remember (new_work (c_dp c) (match mq_fseid q with Good r => set_remote r s | _ => s end) (c_rm c)) as w0 eqn:Hw0.
  assert (Hd0 : w_dp w0 = c_dp c) by by subst w0.
  assert (Hu0 : s_urrs (w_ses w0) = s_urrs s) by (subst w0; simpl; by destruct (mq_fseid q)).
  assert (Hr0 : w_reports w0 = []) by by subst w0.
  clear Hw0. rewrite <- Hd0 in Hok. unfold mod_rules in Hw. rewrite E1, E2, E3 in Hw. cbn [each] in Hw.
  apply rbind_ok in Hw as (w1 & H1 & Hw). apply rbind_ok in Hw as (w2 & H2 & Hw). apply rbind_ok in Hw as (w3 & H3 & Hw).
  apply rbind_ok in Hw as (w4 & H4 & Hw). apply rbind_ok in Hw as (w5 & H5 & Hw). apply rbind_ok in Hw as (w6 & H6 & Hw).
  cbn [rbind] in Hw. apply rbind_ok in Hw as (w9 & H9 & Hw). apply rbind_ok in Hw as (w10 & H10 & Hw). apply rbind_ok in Hw as (w11 & H11 & H12).
  assert (Hk6 : urr_part w6 = urr_part w0 /\ rep_part w6 = rep_part w0).
  { assert (forall {B} (proj : work -> B), far_frame proj -> qer_frame proj -> proj w6 = proj w0) as Hk.
    { intros B proj (F1 & F2 & F3 & _) (Q1 & Q2 & Q3 & _).
      use_keep H1 (each_keep proj create_far (mq_cfar q) w0 F1). use_keep H2 (each_keep proj update_far_ie (mq_ufar q) w1 F2).
      use_keep H3 (each_keep proj remove_far_ie (mq_rfar q) w2 F3). use_keep H4 (each_keep proj create_qer (mq_cqer q) w3 Q1).
      use_keep H5 (each_keep proj update_qer_ie (mq_uqer q) w4 Q2). use_keep H6 (each_keep proj remove_qer_ie (mq_rqer q) w5 Q3).
      congruence. }
    split; apply Hk; [apply far_frame_urr|apply qer_frame_urr|apply far_frame_rep|apply qer_frame_rep]. }
  destruct Hk6 as [Hk6 Hk6'].
  assert (Hok6 : dp_ok (w_dp w6)).
  { assert (Hgo : forall {A} (f : A -> work -> res) l w w', (forall x w, by_prims w (f x w)) -> dp_ok (w_dp w) -> each f l w = ROk w' -> dp_ok (w_dp w')).
    { intros A f l x y Hp Hx Hy. pose proof (by_prims_ok _ _ (each_prims f l x Hp) Hx) as Hz. by rewrite Hy in Hz. }
    eapply Hgo in H1; [|apply create_far_prims|done]. eapply Hgo in H2; [|apply update_far_prims|done]. eapply Hgo in H3; [|apply remove_far_prims|done].
    eapply Hgo in H4; [|apply create_qer_prims|done]. eapply Hgo in H5; [|apply update_qer_prims|done]. eapply Hgo in H6; [|apply remove_qer_prims|done]. done. }
  destruct pdr_frame_rep as (P1 & P2 & P3 & _).
  use_keep H10 (each_keep rep_part (create_pdr (g_ueip (c_cfg c))) (mq_cpdr q) w9 (P1 _)).
  use_keep H11 (each_keep rep_part (update_pdr_ie (g_ueip (c_cfg c))) (mq_updr q) w10 (P2 _)).
  use_keep H12 (each_keep rep_part (remove_pdr_ie sh) (mq_rpdr q) w11 (P3 _)).
  assert (Hses6 : s_urrs (w_ses w6) = s_urrs s). { unfold urr_part in Hk6. congruence. }
  assert (Hget6 : forall g, urr_get (w_dp w6) g = urr_get (c_dp c) g).
  { intros g. destruct (urr_part_get _ _ g Hk6) as (-> & _). by rewrite Hd0. }
  assert (Hreps : r_reports r = omap (fun i => u ← s_urrs s !! i; final_report (c_dp c) (i, u)) ids).
  { rewrite Hrep. change (w_reports w) with (rep_part w). replace (rep_part w) with (w_reports w9) by (unfold rep_part in *; congruence).
    apply remove_urrs_effect in H9; [|done|done| |].
    - rewrite H9. replace (w_reports w6) with (@nil report) by (unfold rep_part in *; congruence). simpl. rewrite Hses6.
      clear -Hget6. induction ids as [|i l IH]; [done|]. csimpl. rewrite IH. destruct (s_urrs s !! i) as [u|]; simpl; [|done].
      unfold final_report. simpl. by rewrite Hget6.
    - intros i Hi. rewrite Hses6. destruct (Hin i Hi) as (u & Hu & _). by rewrite Hu.
    - intros i j u v. rewrite Hses6. apply Hinj. }
  rewrite Hreps. clear -Hin Hfresh. induction ids as [|i l IH]; [constructor|].
  destruct (Hin i) as (u & Hu & Hlt); [left|]. csimpl. rewrite Hu. simpl. unfold final_report at 1. simpl.
  destruct (urr_get (c_dp c) (su_gid u)) as [v|] eqn:Ev.
  - simpl. constructor.
    + exists u, v. split; [done|]. split; [done|]. by rewrite (Hfresh _ _ Hu).
    + apply IH. intros j Hj. apply Hin. by right.
  - exfalso. unfold urr_get, arr_get in Ev. destruct (N.ltb_spec (su_gid u) (d_urr_size (c_dp c))); [done|lia].
Qed.

Example ex_removal_applies :
  exists c l, ex_start [ex_setup; ex_recv 2 (ex_est_of [] [Some 3; Some 4]); Traffic ∅ {[1 := (7, 8)]}] = Some (c, l) /\
    exists c' r, handle id_shuffle 7 3 (SessModReq (ModReq 2 Absent [] [] [] [] [] [] [] [] [Some 4] [] [] [])) c = Done c' (Some r) /\
      r_cause r = Some 1 /\ r_reports r = [Report 4 1 15 7 8].
Proof.
  destruct (ex_runs_inv [ex_setup; ex_recv 2 (ex_est_of [] [Some 3; Some 4]); Traffic ∅ {[1 := (7, 8)]}] (fun c =>
    ex_accepts 1 (handle id_shuffle 7 3 (SessModReq (ModReq 2 Absent [] [] [] [] [] [] [] [] [Some 4] [] [] [])) c) (fun c' r =>
      bool_decide (r_reports r = [Report 4 1 15 7 8])))) as (c & l & Hc & H); [by vm_compute|].
  apply ex_accepts_inv in H as (c' & r & Hh & Hk & H3). apply bool_decide_eq_true in H3.
  exists c, l. split; [done|]. by exists c', r.
Qed.
