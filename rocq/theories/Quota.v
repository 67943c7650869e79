(** C109: requests about one session do not touch what others have used of their bit rate. *)
From Verif Require Import Base IdTracker ResourceManager SdfParser SdfProps MapOps SdfMatch Pfcp PfcpProps PfcpHistory PfcpReach
  PfcpRules PfcpCreate PfcpRemove PfcpReject PfcpInv PfcpAsked Xdp XdpBase XdpProps XdpRules XdpEx.
Open Scope N_scope.

(** ** Specification *)

(** What the data plane has in slot [g] of the QER map, all of it: gates, QFI, maximum bit rates, and how far the rate limiter's windows have
    been moved by the packets that passed so far. *)
Definition qer_slot (d : dp) (g : N) : option qer_info := qer_get d g.

(** The event is not about session [seid] of [addr], whose QERs have the slots of [s]: a request or answer that does not name it (any
    establishment, any request of another peer), the end of another peer, or packets that use none of these slots. *)
Definition about_others (addr seid : N) (s : session) (e : event) : Prop :=
  match e with
  | Recv _ a _ m => ~ (addr = a /\ names_seid m = Some seid)
  | HeartbeatFailed _ a => addr <> a
  | Traffic marks _ => forall i f, s_qers s !! i = Some f -> marks !! sq_gid f = None end.
(** Every packet that a PDR with a FAR and a QER of session [s] applies to gets the same answer from the two: the same FAR, gate and bit rate,
    and as much of the bit rate left, at every time, for every length and direction. *)
Definition same_allowance (s : session) (d d' : dp) : Prop :=
  forall e w size r i j f q, s_fars s !! i = Some f -> r_far r = sf_gid f -> s_qers s !! j = Some q -> r_qer r = sq_gid q ->
    permitted e w size d' r = permitted e w size d r.

(** ** Proof *)

(** QERs, with the windows of slot [g0] in view. *)
Definition win_kind (g0 : N) : kind :=
  Kind (qer_rule * option (N * N)) (fun s => (fun f => (sq_gid f, (rule_of_qer (sq_info f), None))) <$> s_qers s)
    (fun d g => (fun q => (rule_of_qer q, if decide (g = g0) then Some (qi_ul_start q, qi_dl_start q) else None)) <$> qer_get d g) qer_free.
(** Slot [g0] belongs to someone else and has value [v0]. *)
Definition slot_is (g0 : N) (v0 : qer_rule * option (N * N)) : N -> qer_rule * option (N * N) -> Prop := fun g v => g = g0 /\ v = v0.
Section slot.
Context (g0 : N) (v0 : qer_rule * option (N * N)).
Notation KW := (win_kind g0).
Notation OW := (slot_is g0 v0).
Lemma slot_not_free w : vok OW (kview KW w) -> ~ qer_free (w_dp w) g0.
Proof. intros Hv. by apply (vk_other _ _ Hv g0 v0). Qed.
Lemma slot_not_own w i f : vok OW (kview KW w) -> s_qers (w_ses w) !! i = Some f -> sq_gid f <> g0.
Proof.
  intros Hv Hi E. apply (vk_apart _ _ Hv i (sq_gid f) (rule_of_qer (sq_info f), None) v0); [|done].
  simpl. by rewrite lookup_fmap, Hi.
Qed.
Lemma win_part_step w w' : qer_part w' = qer_part w -> vstep (kview KW w) (kview KW w').
Proof.
  intros H. apply vs_keep; simpl.
  - unfold qer_part in H. injection H as _ _ _ ->. done.
  - intros g. by destruct (qer_part_get _ _ g H) as (-> & _).
  - intros g. apply (qer_part_get _ _ g H).
Qed.
Lemma create_win_moves f w : moves KW OW w (create_qer f w).
Proof.
  intros Hv Hw. pose proof (by_prims_ok _ _ (create_qer_prims f w) Hw) as Hok.
  assert (Hx : ends (create_qer f w) (fun w' => vstep (kview KW w) (kview KW w'))).
  { unfold create_qer in *. destruct (qe_id f) as [id|]; [|by apply vs_keep]. set (i := compose_qer f qer0) in *. cbn zeta in *.
    pose proof (new_qer_taken i (w_dp w) Hw) as Ht. unfold new_qer in *.
    destruct (get_next (d_qert (w_dp w))) as [[g|] t] eqn:E; [|by apply vs_keep].
    apply (get_granted _ _ _ _ (dk_qer _ Hw)) in E as (Hlt & Hin & Hnin & Hfree). cbn zeta in Ht, Hok |- *.
    destruct (N.ltb_spec g (d_qer_size (w_dp w))); [|lia]. cbn [ends].
    apply (vs_new _ _ id g (rule_of_qer i, None)); simpl; try done.
    - by rewrite fmap_insert.
    - assert (g <> g0) by (intros ->; by apply (slot_not_free w Hv)). unfold qer_get. simpl. rewrite qer_get_insert by done.
      rewrite decide_True by done. simpl. by rewrite decide_False.
    - intros g' Hne. unfold qer_get, qer_free. simpl. rewrite qer_get_insert by done. rewrite decide_False by done. split; [done|].
      intros Hg. apply Hfree. by right. }
  destruct (create_qer f w) as [w'|w'|]; simpl in *; try done; (split; [by eapply vstep_ok|done]).
Qed.
Lemma own_win_lt w i sq : vok OW (kview KW w) -> s_qers (w_ses w) !! i = Some sq ->
  sq_gid sq < d_qer_size (w_dp w).
Proof.
  intros Hv Hs. destruct (vk_own _ _ Hv i (sq_gid sq) (rule_of_qer (sq_info sq), None)) as [H _]; [by simpl; rewrite lookup_fmap, Hs|].
  simpl in H. unfold qer_get, arr_get in H. destruct (N.ltb_spec (sq_gid sq) (d_qer_size (w_dp w))); done.
Qed.
Lemma update_win_moves f w : (forall i, qe_id f = Some i -> is_Some (s_qers (w_ses w) !! i)) -> moves KW OW w (update_qer_ie f w).
Proof.
  intros Hd Hv Hw. pose proof (by_prims_ok _ _ (update_qer_prims f w) Hw) as Hok.
  assert (Hx : ends (update_qer_ie f w) (fun w' => vstep (kview KW w) (kview KW w'))).
  { unfold update_qer_ie in *. destruct (qe_id f) as [i|]; [|by apply vs_keep]. destruct (Hd i eq_refl) as [sf Hs].
    unfold get_qer in *. rewrite Hs in *. cbn [default from_option id] in *. set (v := compose_qer f (sq_info sf)) in *. cbn zeta in *.
    pose proof (own_win_lt _ _ _ Hv Hs) as Hlt. unfold update_qer in *. cbn [w_dp w_set_ses] in *.
    destruct (N.ltb_spec (sq_gid sf) (d_qer_size (w_dp w))); [|lia]. cbn [ends].
    apply (vs_upd _ _ i (sq_gid sf) (rule_of_qer (sq_info sf), None) (rule_of_qer v, None)); simpl; try done.
    - by rewrite lookup_fmap, Hs.
    - unfold ses_update_qer, get_qer. rewrite Hs. simpl. by rewrite fmap_insert.
    - pose proof (slot_not_own w _ _ Hv Hs) as Hng. unfold qer_get. simpl. rewrite qer_get_insert by done.
      rewrite decide_True by done. simpl. by rewrite decide_False.
    - intros g' Hne. unfold qer_get, qer_free. simpl. rewrite qer_get_insert by done. by rewrite (decide_False (P := g' = sq_gid sf)). }
  destruct (update_qer_ie f w) as [w'|w'|]; simpl in *; try done; (split; [by eapply vstep_ok|done]).
Qed.
Lemma remove_win_moves f w : (forall i, qe_id f = Some i -> is_Some (s_qers (w_ses w) !! i)) -> moves KW OW w (remove_qer_ie f w).
Proof.
  intros Hd Hv Hw. pose proof (by_prims_ok _ _ (remove_qer_prims f w) Hw) as Hok.
  assert (Hx : ends (remove_qer_ie f w) (fun w' => vstep (kview KW w) (kview KW w'))).
  { unfold remove_qer_ie in *. destruct (qe_id f) as [i|]; [|by apply vs_keep]. destruct (Hd i eq_refl) as [sf Hs].
    unfold get_qer in *. rewrite Hs in *. cbn [default from_option id] in *. cbn [w_dp w_set_ses] in *.
    pose proof (delete_qer_effect (sq_gid sf) (w_dp w) Hw) as He. destruct (delete_qer _ _) as [ok d'].
    destruct He as (_ & _ & Hfr & Hget).
    assert (vstep (kview KW w) (kview KW (w_set_dp d' (w_set_ses (ses_remove_qer i (w_ses w)) w)))).
    { apply (vs_rem _ _ i (sq_gid sf) (rule_of_qer (sq_info sf), None)); simpl.
      - by rewrite lookup_fmap, Hs.
      - by rewrite fmap_delete.
      - intros g' Hne. rewrite Hget, Hfr. rewrite decide_False by naive_solver. naive_solver. }
    by destruct ok. }
  destruct (remove_qer_ie f w) as [w'|w'|]; simpl in *; try done; (split; [by eapply vstep_ok|done]).
Qed.
Lemma est_win_moves ueip q w : moves KW OW w (est_rules ueip q w).
Proof.
  unfold est_rules. apply moves_bind; [|intros w1 _; apply moves_bind; [by apply moves_each; intros; apply create_win_moves|intros w2 _; apply moves_bind; [|intros w3 _]]].
  - apply moves_each. intros x w'. eapply moves_keep; [apply win_part_step|apply (proj1 far_frame_qer)|apply create_far_prims].
  - apply moves_each. intros x w'. eapply moves_keep; [apply win_part_step|apply (proj1 urr_frame_qer)|apply create_urr_prims].
  - apply moves_each. intros x w'. eapply moves_keep; [apply win_part_step|apply (proj1 pdr_frame_qer)|apply create_pdr_prims].
Qed.
Ltac keep_win H P := apply moves_each; intros; eapply moves_keep; [apply win_part_step|apply H|apply P].
Lemma mod_win_moves ueip sh q w : fair sh -> careful_mod (w_ses w) q -> moves KW OW w (mod_rules ueip sh q w).
Proof.
  intros Hf Hc. unfold mod_rules. destruct far_frame_qer as (Q1 & Q2 & Q3 & _). destruct urr_frame_qer as (U1 & U2 & U3 & _).
  destruct pdr_frame_qer as (P1 & P2 & P3 & _).
  apply moves_bind; [keep_win Q1 create_far_prims|intros wa Ea]. apply moves_bind; [keep_win Q2 update_far_prims|intros wb Eb].
  apply moves_bind; [keep_win Q3 remove_far_prims|intros w0 Ec].
  assert (E0 : s_qers (w_ses w0) = s_qers (w_ses w)).
  { assert (qer_part w0 = qer_part w) as E.
    { use_keep Ec (each_keep qer_part _ (mq_rfar q) wb Q3). use_keep Eb (each_keep qer_part _ (mq_ufar q) wa Q2).
      use_keep Ea (each_keep qer_part _ (mq_cfar q) w Q1). congruence. }
    unfold qer_part in E. congruence. }
  apply moves_bind; [by apply moves_each; intros; apply create_win_moves|intros w1 E1].
  assert (K1 : forall i, qer_known (w_ses w) (mq_cqer q) i -> is_Some (s_qers (w_ses w1) !! i)).
  { intros i Hi. eapply create_qers_ids; [exact E1|]. by rewrite E0. }
  apply moves_bind; [|intros w2 E2].
  { eapply (moves_each_pre _ _ _ (fun f w => forall i, qe_id f = Some i -> is_Some (s_qers (w_ses w) !! i))).
    - intros f w' Hi. by apply update_win_moves.
    - intros f l1 l2 w' w'' _ Hw. intros Hall; eapply Forall_impl; [exact Hall|]. intros y Hy i Hi. eapply update_qer_ids; eauto.
    - apply Forall_forall. intros f Hin i Hi. apply K1. by eapply (cm_uqer _ _ Hc). }
  assert (K2 : forall i, qer_known (w_ses w) (mq_cqer q) i -> is_Some (s_qers (w_ses w2) !! i)).
  { intros i Hi. eapply (each_inv (fun w => is_Some (s_qers (w_ses w) !! i))); [|exact E2|by apply K1]. intros. by eapply update_qer_ids. }
  apply moves_bind; [|intros w3 E3].
  { eapply (moves_each_pre _ _ _ (fun f w => forall i, qe_id f = Some i -> is_Some (s_qers (w_ses w) !! i))).
    - intros f w' Hi. by apply remove_win_moves.
    - intros f l1 l2 w' w'' El Hw Hall. pose proof (cm_rqer_once _ _ Hc) as Hnd. rewrite El, omap_app in Hnd.
      apply Forall_forall. intros y Hy i Hi.
      eapply remove_qer_ids; [done| |by apply (proj1 (Forall_forall _ l2) Hall y Hy)].
      intros Heq. apply NoDup_app in Hnd as (_ & _ & Hnd). simpl in Hnd. rewrite Heq in Hnd. apply NoDup_cons in Hnd as [Hnd _].
      apply Hnd. apply elem_of_list_omap. eauto.
    - apply Forall_forall. intros f Hin i Hi. apply K2. by eapply (cm_rqer _ _ Hc). }
  apply moves_bind; [keep_win U1 create_urr_prims|intros ? _].
  apply moves_bind; [keep_win U2 update_urr_prims|intros ? _]. apply moves_bind; [keep_win U3 remove_urr_prims|intros ? _].
  apply moves_bind; [keep_win P1 create_pdr_prims|intros ? _]. apply moves_bind; [keep_win P2 update_pdr_prims|intros ? _].
  apply moves_each; intros; eapply moves_keep; [apply win_part_step|apply P3|by apply remove_pdr_prims].
Qed.
End slot.

Lemma whole_slot d d' g v : kget (win_kind g) d g = Some v -> kget (win_kind g) d' g = Some v -> qer_slot d' g = qer_slot d g.
Proof.
  unfold qer_slot. simpl. destruct (qer_get d g) as [x|], (qer_get d' g) as [y|]; simpl; try done.
  rewrite !decide_True by done. intros <- H. unfold rule_of_qer in H. destruct x, y. simpl in H. congruence.
Qed.

(** Slot [g] belongs to a QER of session [seid] of [addr]. *)
Definition slot_of (c : conn) (addr seid g : N) : Prop := exists s i f, session_of c addr seid = Some s /\ s_qers s !! i = Some f /\ sq_gid f = g.
Lemma slot_kept c addr seid g : mirror qer_kind c -> slot_of c addr seid g -> exists v, kget (win_kind g) (c_dp c) g = Some v /\ ~ qer_free (c_dp c) g.
Proof.
  intros HM (s & i & f & Hs & Hi & <-). destruct (mi_get _ _ HM _ _ _ i (sq_gid f) (rule_of_qer (sq_info f)) Hs) as [H1 H2]; [by simpl; rewrite lookup_fmap, Hi|].
  simpl in H1, H2 |- *. destruct (qer_get (c_dp c) (sq_gid f)) as [x|]; [|done]. simpl. eauto.
Qed.
(** At the start of the work on another session, or on a new one. *)
Lemma start_vok c g v s1 rm : kget (win_kind g) (c_dp c) g = Some v -> ~ qer_free (c_dp c) g ->
  vok (fun _ _ => False) (kview qer_kind (new_work (c_dp c) s1 rm)) -> (forall i f, s_qers s1 !! i = Some f -> sq_gid f <> g) ->
  vok (slot_is g v) (kview (win_kind g) (new_work (c_dp c) s1 rm)).
Proof.
  intros Hg Hn [Vo Vi _ _] Hne. split.
  - intros i g1 v1 H. simpl in H. rewrite lookup_fmap in H. destruct (s_qers s1 !! i) as [f|] eqn:E; [|done]. injection H as <- <-.
    destruct (Vo i (sq_gid f) (rule_of_qer (sq_info f))) as [H1 H2]; [by simpl; rewrite lookup_fmap, E|]. split; [|exact H2]. simpl in H1 |- *.
    destruct (qer_get (c_dp c) (sq_gid f)) as [x|]; [|done]. simpl in H1 |- *. rewrite decide_False by (by eapply Hne). congruence.
  - intros i j g1 v1 v2 H1 H2. simpl in H1, H2. rewrite lookup_fmap in H1, H2.
    destruct (s_qers s1 !! i) as [f|] eqn:E; [|done]. destruct (s_qers s1 !! j) as [f2|] eqn:E2; [|done]. injection H1 as <- _. injection H2 as H2 _.
    eapply (Vi i j (sq_gid f)); simpl; rewrite lookup_fmap; [by rewrite E|]. rewrite E2. simpl. by rewrite H2.
  - intros i g1 v1 v2 H [-> _]. simpl in H. rewrite lookup_fmap in H. destruct (s_qers s1 !! i) as [f|] eqn:E; [|done]. injection H as H _. by eapply Hne.
  - intros g1 v1 [-> ->]. done.
Qed.
Lemma vok_none {V} (O : N -> V -> Prop) a : vok O a -> vok (fun _ _ => False) a.
Proof. intros []. by split; try tauto. Qed.
Lemma moved_slot c g v w : kget (win_kind g) (c_dp c) g = Some v -> vok (slot_is g v) (kview (win_kind g) w) -> qer_slot (w_dp w) g = qer_slot (c_dp c) g.
Proof. intros Hg Hv. eapply whole_slot; [exact Hg|]. by apply (vk_other _ _ Hv g v). Qed.

(** C109: a request, or the end of a peer, leaves the QERs of the sessions it is not about as they are, limiter windows included. *)
Theorem quota_isolated_partial :
  forall c sh addr seq m c' r, careful_history c -> fair sh -> careful c (Recv sh addr seq m) -> step c (Recv sh addr seq m) = Done c' r ->
  forall addr' seid' s i f, session_of c addr' seid' = Some s -> ~ (addr' = addr /\ names_seid m = Some seid') -> s_qers s !! i = Some f ->
    qer_slot (c_dp c') (sq_gid f) = qer_slot (c_dp c) (sq_gid f).
Proof.
  intros c sh addr seq m c' r Hc Hf Hca H addr' seid' s i f Hs0 Hne Hi.
  pose proof (careful_reachable _ Hc) as Hreach. pose proof (reachable_ok _ Hreach) as [Hok _].
  destruct (careful_mirror _ Hc) as [HF HQ].
  set (g := sq_gid f). assert (Hslot : slot_of c addr' seid' g) by (by exists s, i, f).
  destruct (slot_kept _ _ _ _ HQ Hslot) as (v & Hv & Hfree).
  assert (Hown : forall n s2 j f2, session_of c addr n = Some s2 -> names_seid m = Some n -> s_qers s2 !! j = Some f2 -> sq_gid f2 <> g).
  { intros n s2 j f2 H2 Hn Hj E. destruct (mi_inj _ _ HQ _ _ _ i g (rule_of_qer (sq_info f)) _ _ _ j (rule_of_qer (sq_info f2)) Hs0 H2) as (-> & -> & _).
    - simpl. by rewrite lookup_fmap, Hi.
    - simpl. rewrite lookup_fmap, Hj. simpl. by rewrite E.
    - by apply Hne. }
  destruct m as [t|t|n t|n k fs|n|q|q|n|ty]; simpl in H.
  - unfold handle_hb_req in H. by destruct t; simplify_eq.
  - unfold handle_hb_resp in H. by destruct t; simplify_eq.
  - unfold handle_setup, ensure_assoc in H. repeat (case_match; simplify_eq); done.
  - unfold handle_setup_resp, ensure_assoc in H. repeat (case_match; simplify_eq); done.
  - unfold handle_update in H. repeat (case_match; simplify_eq); done.
  - unfold handle_est in H. destruct (validate_request _ _) as [remote|]; simplify_eq; [|done].
    destruct (c_assocs c !! addr) as [a|] eqn:Ha; simplify_eq; [|done]. destruct (existsb _ _); [done|].
    pose proof (est_win_moves g v (g_ueip (c_cfg c)) q (new_work (c_dp c) (new_session (next_seid a) remote) (c_rm c))) as Hl.
    specialize (Hl (start_vok _ _ _ _ _ Hv Hfree (vok_none _ _ (mirror_fresh_vok qer_kind (fun _ _ => False) c _ (c_rm c) HQ (ko_new _ qer_kind_ok _ _) ltac:(done))) ltac:(done)) Hok).
    destruct (est_rules _ _ _) as [w|w|]; simplify_eq; simpl in Hl |- *; destruct Hl as [Hl _]; by eapply moved_slot.
  - unfold handle_mod in H. destruct (c_assocs c !! addr) as [a|] eqn:Ha; simplify_eq; [|done].
    destruct (a_sessions a !! mq_seid q) as [s2|] eqn:Hs; simplify_eq; [|done]. destruct (_ || _); [done|].
    assert (H2 : session_of c addr (mq_seid q) = Some s2) by (unfold session_of; by rewrite Ha).
    set (s1 := match mq_fseid q with Good r => set_remote r s2 | _ => s2 end) in *.
    assert (Hc1 : careful_mod s1 q). { specialize (Hca s2 H2). unfold s1. destruct (mq_fseid q); [done..|]. by apply careful_mod_remote. }
    assert (Ht1 : s_qers s1 = s_qers s2). { unfold s1. by destruct (mq_fseid q). }
    assert (Hk1 : ktab qer_kind s1 = ktab qer_kind s2) by (simpl; by rewrite Ht1).
    pose proof (mod_win_moves g v (g_ueip (c_cfg c)) sh q (new_work (c_dp c) s1 (c_rm c)) Hf Hc1) as Hl.
    specialize (Hl (start_vok _ _ _ _ _ Hv Hfree (vok_none _ _ (mirror_vok _ _ _ _ _ _ (c_rm c) HQ H2 Hk1)) ltac:(intros j f2; rewrite Ht1; by apply (Hown (mq_seid q)))) Hok).
    destruct (mod_rules _ _ _ _) as [w|w|]; simplify_eq; simpl in Hl |- *; destruct Hl as [Hl _]; by eapply moved_slot.
  - pose proof (session_deletion_partial sh addr seq n c c') as Hacc. simpl in Hacc.
    unfold handle_del in H, Hacc. destruct (c_assocs c !! addr) as [a|] eqn:Ha; simplify_eq; [|done].
    destruct (a_sessions a !! n) as [s2|] eqn:Hs; simplify_eq; [|done].
    assert (H2 : session_of c addr n = Some s2) by (unfold session_of; by rewrite Ha).
    destruct (del_rules _ _ _) as [w|w|] eqn:Ew; simplify_eq.
    + edestruct (Hacc _ s2 Hreach Hf H2 eq_refl eq_refl) as (_ & _ & _ & _ & _ & _ & _ & Ho & _).
      apply (Ho g). intros j f2. by apply (Hown n).
    + destruct (del_rules_err sh s2 (c_dp c) (c_rm c) w Hok Hf) as [_ E]; [| |exact Ew|].
      * intros j f2 Hj. exact (mirror_far_lt c addr n s2 j f2 HF H2 Hj).
      * intros j f2 Hj. exact (mirror_qer_lt c addr n s2 j f2 HQ H2 Hj).
      * by destruct (qer_part_get _ _ g E) as (E1 & _ & _).
  - by simplify_eq.
Qed.

Lemma quota_pruned sh addr c c' r : careful_history c -> fair sh -> step c (HeartbeatFailed sh addr) = Done c' r ->
  forall addr' seid' s, session_of c addr' seid' = Some s -> addr' <> addr -> session_of c' addr' seid' = Some s /\
    (forall i f, s_fars s !! i = Some f -> far_get (c_dp c') (sf_gid f) = far_get (c_dp c) (sf_gid f)) /\
    (forall i f, s_qers s !! i = Some f -> qer_slot (c_dp c') (sq_gid f) = qer_slot (c_dp c) (sq_gid f)).
Proof.
  intros Hc Hf H addr' seid' s Hs Hne. pose proof (careful_reachable _ Hc) as Hreach. destruct (careful_mirror _ Hc) as [HF HQ].
  destruct (association_pruned_partial _ _ _ _ _ Hreach Hf H) as (_ & Hsame & _ & Hofar & Hoqer & _).
  split; [by rewrite Hsame|]. split; intros i f Hi.
  - apply (Hofar (sf_gid f)). intros n s2 H2 (j & f2 & Hj & E).
    destruct (mi_inj _ _ HF _ _ _ i (sf_gid f) (sf_info f) _ _ _ j (sf_info f2) Hs H2) as (? & _); [by simpl; rewrite lookup_fmap, Hi| |done].
    simpl. rewrite lookup_fmap, Hj. simpl. by rewrite E.
  - apply (Hoqer (sq_gid f)). intros n s2 H2 (j & f2 & Hj & E).
    destruct (mi_inj _ _ HQ _ _ _ i (sq_gid f) (rule_of_qer (sq_info f)) _ _ _ j (rule_of_qer (sq_info f2)) Hs H2) as (? & _); [by simpl; rewrite lookup_fmap, Hi| |done].
    simpl. rewrite lookup_fmap, Hj. simpl. by rewrite E.
Qed.

(** What one event about others keeps. *)
Definition slots_kept (s : session) (d d' : dp) : Prop :=
  (forall i f, s_fars s !! i = Some f -> far_get d' (sf_gid f) = far_get d (sf_gid f)) /\
  (forall i f, s_qers s !! i = Some f -> qer_slot d' (sq_gid f) = qer_slot d (sq_gid f)).
Lemma kept_step g rm d es c l e c' r addr seid s : careful_history c -> run (init g rm d) es = Some (c, l) -> N.of_nat (length es) < bound ->
  event_fair e -> careful c e -> step c e = Done c' r -> session_of c addr seid = Some s -> about_others addr seid s e ->
  session_of c' addr seid = Some s /\ slots_kept s (c_dp c) (c_dp c').
Proof.
  intros Hc Hrun Hb Hf Hca H Hs Ho. destruct e as [sh a seq m|sh a|marks vols].
  - simpl in Ho, Hf.
    destruct (isolation_partial _ _ _ _ _ _ sh a seq m c' r Hc Hrun Hb Hf Hca H addr seid s Hs ltac:(naive_solver)) as (Hs' & HF & _).
    split; [exact Hs'|]. split; [intros i f Hi; by apply (HF i f)|]. intros i f Hi.
    by apply (quota_isolated_partial _ _ _ _ _ _ _ Hc Hf Hca H addr seid s i f Hs ltac:(naive_solver)).
  - simpl in Ho, Hf. destruct (quota_pruned _ _ _ _ _ Hc Hf H addr seid s Hs Ho) as (H1 & H2 & H3). by split_and!.
  - simpl in H. injection H as <- <-. split; [exact Hs|]. split; [done|]. intros i f Hi. unfold qer_slot, qer_get, arr_get, traffic. simpl.
    case_match; [|done]. simpl. rewrite touch_at. by rewrite (Ho i f Hi).
Qed.
Lemma run_one_more es : forall c c' l ev c2 r, run c es = Some (c', l) -> step c' ev = Done c2 r -> run c (es ++ [ev]) = Some (c2, l ++ [(ev, r)]).
Proof.
  induction es as [|e es IH]; intros c c' l ev c2 r H Hs; simpl in *; [simplify_eq; by rewrite Hs|].
  destruct (step c e) as [c1 r1|]; [|done]. destruct (run c1 es) as [[c3 l3]|] eqn:E; [|done]. simplify_eq. by rewrite (IH _ _ _ _ _ _ E Hs).
Qed.
Lemma orderly_both l : forall M l', orderly_from M (l ++ l') = orderly_from M l && orderly_from (foldl asked_step M l) l'.
Proof. induction l as [|x l IH]; intros M l'; simpl; [done|]. by rewrite IH, andb_assoc. Qed.
Lemma kept_run g rm d es2 : forall M es1 c1 l1 c2 l2 addr seid s, careful_history c1 -> follows M c1 -> run (init g rm d) es1 = Some (c1, l1) ->
  N.of_nat (length (es1 ++ es2)) <= bound -> Forall event_fair es2 -> run c1 es2 = Some (c2, l2) -> orderly_from M l2 = true ->
  session_of c1 addr seid = Some s -> Forall (about_others addr seid s) es2 -> session_of c2 addr seid = Some s /\ slots_kept s (c_dp c1) (c_dp c2).
Proof.
  induction es2 as [|e es2 IH]; intros M es1 c1 l1 c2 l2 addr seid s Hc HM Hrun Hb Hf H2 Ho Hs Ha; simpl in H2.
  { injection H2 as <- <-. by split. }
  destruct (step c1 e) as [c3 r|] eqn:E; [|done]. destruct (run c3 es2) as [[c4 l4]|] eqn:E4; [|done]. injection H2 as -> <-.
  cbn [orderly_from] in Ho. apply andb_true_iff in Ho as [Ho1 Ho2]. apply Forall_cons in Hf as [Hf1 Hf2]. apply Forall_cons in Ha as [Ha1 Ha2].
  pose proof (orderly_step_careful _ _ _ _ _ HM Ho1 E) as Hca. rewrite app_length in Hb. simpl in Hb.
  destruct (kept_step _ _ _ es1 _ l1 e c3 r addr seid s Hc Hrun ltac:(lia) Hf1 Hca E Hs Ha1) as [Hs3 [KF KQ]].
  assert (R3 : run (init g rm d) (es1 ++ [e]) = Some (c3, l1 ++ [(e, r)])).
  { by eapply run_one_more. }
  destruct (IH (asked_step M (e, r)) (es1 ++ [e]) c3 (l1 ++ [(e, r)]) c2 l4 addr seid s) as [Hs4 [KF4 KQ4]]; try done.
  - by eapply ch_step.
  - exact (follows_step _ _ _ _ _ HM Ho1 E).
  - rewrite !app_length. simpl. lia.
  - split; [exact Hs4|]. split; intros i f Hi; [by rewrite (KF4 i f Hi), (KF i f Hi)|by rewrite (KQ4 i f Hi), (KQ i f Hi)].
Qed.

(** C109, over any number of events: nothing that is not about a session moves what it may still send. *)
Theorem quota_through_others_partial :
  forall g rm p f q u es1 es2 c1 c2 l1 l2, start_pools rm -> Forall event_fair (es1 ++ es2) ->
    run (init g rm (dp_init p f q u)) es1 = Some (c1, l1) -> run c1 es2 = Some (c2, l2) ->
    N.of_nat (length (es1 ++ es2)) <= bound -> orderly (l1 ++ l2) = true ->
  forall addr seid s, session_of c1 addr seid = Some s -> Forall (about_others addr seid s) es2 ->
    session_of c2 addr seid = Some s /\ same_allowance s (c_dp c1) (c_dp c2) /\
    forall i x, s_qers s !! i = Some x -> qer_slot (c_dp c2) (sq_gid x) = qer_slot (c_dp c1) (sq_gid x).
Proof.
  intros g rm p f q u es1 es2 c1 c2 l1 l2 Hrm Hf H1 H2 Hb Ho addr seid s Hs Ha.
  apply Forall_app in Hf as [Hf1 Hf2]. unfold orderly in Ho. rewrite orderly_both in Ho. apply andb_true_iff in Ho as [Ho1 Ho2].
  destruct (orderly_run es1 ∅ _ _ _ (ch_init g rm p f q u Hrm) ltac:(intros a n s0 Hs0; unfold session_of, init in Hs0; simpl in Hs0; by rewrite lookup_empty in Hs0) Hf1 H1 Ho1) as [Hc HM].
  destruct (kept_run _ _ _ es2 _ es1 c1 l1 c2 l2 addr seid s Hc HM H1 Hb Hf2 H2 Ho2 Hs Ha) as [Hs2 [KF KQ]].
  split; [exact Hs2|]. split; [|exact KQ]. intros e w size r i j f0 q0 Hi Ef Hj Eq. unfold permitted.
  rewrite Ef, Eq, (KF i f0 Hi). specialize (KQ j q0 Hj). unfold qer_slot in KQ. by rewrite KQ.
Qed.

(** ** The hypotheses are met: the first session's packets have moved its windows, then the second is modified, goes and is replaced by one that sends *)
Definition ex_quota_before : list event := [ex_setup; Recv id_shuffle 9 1 (AssocSetupReq (Good 6) (Good 1)); ex_recv 2 (ex_est_fq 1); ex_recv 3 (ex_est_fq 2); Traffic {[ 0 := (77, 88) ]} ∅].
Definition ex_quota_after : list event :=
  [ex_recv 4 (SessModReq (ModReq 3 Absent [] [FarIe (Some 1) (Some [1]) None None] [FarIe (Some 2) None None None]
     [] [QerIe (Some 1) (Some 1) None None (Some 30) None] [] [] [] [] [] [] []));
   ex_recv 5 (SessDelReq 3); ex_recv 6 (ex_est_fq 3); Traffic {[ 1 := (5, 6) ]} ∅; HeartbeatFailed id_shuffle 9].
Definition ex_marks_b (d : dp) (s : session) (ul dl : N) : bool :=
  match s_qers s !! 1 with Some f => match qer_slot d (sq_gid f) with Some x => (qi_ul_start x =? ul) && (qi_dl_start x =? dl) | None => false end | None => false end.
Definition ex_quota_b : bool :=
  match ex_start ex_quota_before with
  | Some (c1, l1) => match run c1 ex_quota_after with
      | Some (c2, l2) => orderly (l1 ++ l2) && ex_has_session c1 7 2 (fun s => ex_marks_b (c_dp c1) s 77 88 &&
          forallb (fun x : N * sqer => negb (sq_gid (snd x) =? 1)) (map_to_list (s_qers s))) &&
          negb (bool_decide (qer_slot (c_dp c2) 1 = qer_slot (c_dp c1) 1))
      | None => false end
  | None => false end.
Example ex_quota : exists c1 l1 c2 l2 s f x, run (init ex_cfg ex_small_rm (dp_init 8 8 8 8)) ex_quota_before = Some (c1, l1) /\
  run c1 ex_quota_after = Some (c2, l2) /\ orderly (l1 ++ l2) = true /\ session_of c1 7 2 = Some s /\ Forall (about_others 7 2 s) ex_quota_after /\
  s_qers s !! 1 = Some f /\ qer_slot (c_dp c1) (sq_gid f) = Some x /\ qi_ul_start x = 77 /\ qi_dl_start x = 88 /\
  (* the other session's slot did change *)
  qer_slot (c_dp c2) 1 <> qer_slot (c_dp c1) 1.
Proof.
  assert (H : ex_quota_b = true) by (vm_compute; reflexivity). unfold ex_quota_b in H.
  destruct (ex_start ex_quota_before) as [[c1 l1]|] eqn:E1; [|discriminate H]. destruct (run c1 ex_quota_after) as [[c2 l2]|] eqn:E2; [|discriminate H].
  rewrite !andb_true_iff in H. destruct H as [[Ho H] Hd%negb_true_iff%bool_decide_eq_false]. apply ex_has_session_inv in H as (s & Hs & H).
  apply andb_true_iff in H as [H1 H2]. unfold ex_marks_b in H1. destruct (s_qers s !! 1) as [f|] eqn:Ef; [|discriminate H1].
  destruct (qer_slot (c_dp c1) (sq_gid f)) as [x|] eqn:Ex; [|discriminate H1]. apply andb_true_iff in H1 as [Hu%N.eqb_eq Hl%N.eqb_eq].
  exists c1, l1, c2, l2, s, f, x. split; [exact E1|]. clear E1. split; [exact E2|]. clear E2. split; [exact Ho|]. clear Ho. split; [exact Hs|].
  assert (A : Forall (about_others 7 2 s) ex_quota_after).
  { assert (Hn : forall i q, s_qers s !! i = Some q -> sq_gid q <> 1).
    { intros i q Hi E. apply elem_of_map_to_list in Hi. rewrite forallb_forall in H2. apply elem_of_list_In in Hi. apply H2 in Hi. simpl in Hi. rewrite E in Hi. discriminate Hi. }
    unfold ex_quota_after. apply Forall_cons; split; [intros [_ [=]]|]. apply Forall_cons; split; [intros [_ [=]]|].
    apply Forall_cons; split; [intros [_ [=]]|]. apply Forall_cons; split; [intros i q Hi; apply lookup_singleton_ne; intros E; by apply (Hn i q Hi)|]. apply Forall_cons; split; [intros [=]|]. apply Forall_nil. exact I. }
  split; [exact A|]. split; [exact Ef|]. split; [exact Ex|]. split; [exact Hu|]. split; [exact Hl|exact Hd].
Qed.

(** ** Without care: an Update QER for a QER that the second session does not have gives the first its bit rate back *)
Definition ex_mod_uqer (seid qer : N) : msg :=
  SessModReq (ModReq seid Absent [] [] [] [] [QerIe (Some qer) (Some 0) (Some 0) (Some 10) (Some 20) (Some 9)] [] [] [] [] [] [] []).
Theorem quota_isolated_refuted : exists c l s c' r f x x', ex_start ex_quota_before = Some (c, l) /\ session_of c 7 2 = Some s /\
  handle id_shuffle 7 4 (ex_mod_uqer 3 99) c = Done c' (Some r) /\ r_cause r = Some 1 /\ s_qers s !! 1 = Some f /\
  qer_slot (c_dp c) (sq_gid f) = Some x /\ qi_ul_start x = 77 /\ qi_dl_start x = 88 /\
  qer_slot (c_dp c') (sq_gid f) = Some x' /\ qi_ul_start x' = 0 /\ qi_dl_start x' = 0.
Proof.
  assert (H : match ex_start ex_quota_before with Some (c, l) => ex_has_session c 7 2 (fun s => ex_marks_b (c_dp c) s 77 88 &&
    match handle id_shuffle 7 4 (ex_mod_uqer 3 99) c with Done c' (Some r) => bool_decide (r_cause r = Some 1) && ex_marks_b (c_dp c') s 0 0 | _ => false end)
    | None => false end = true) by (vm_compute; reflexivity).
  destruct (ex_start ex_quota_before) as [[c l]|] eqn:E; [|discriminate H]. apply ex_has_session_inv in H as (s & Hs & H). apply andb_true_iff in H as [H1 H].
  destruct (handle id_shuffle 7 4 (ex_mod_uqer 3 99) c) as [c' [r|]|] eqn:Eh; [|discriminate H..]. apply andb_true_iff in H as [Hc%bool_decide_eq_true H2].
  unfold ex_marks_b in H1, H2. destruct (s_qers s !! 1) as [f|] eqn:Ef; [|discriminate H1].
  destruct (qer_slot (c_dp c) (sq_gid f)) as [x|] eqn:Ex; [|discriminate H1]. destruct (qer_slot (c_dp c') (sq_gid f)) as [x'|] eqn:Ex'; [|discriminate H2].
  apply andb_true_iff in H1 as [Hu%N.eqb_eq Hl%N.eqb_eq], H2 as [Hu'%N.eqb_eq Hl'%N.eqb_eq].
  exists c, l, s, c', r, f, x, x'. split; [reflexivity|]. clear E. split; [exact Hs|]. split; [exact Eh|]. clear Eh. split; [exact Hc|]. split; [exact Ef|].
  split; [exact Ex|]. split; [exact Hu|]. split; [exact Hl|]. split; [exact Ex'|]. split; [exact Hu'|exact Hl'].
Qed.
