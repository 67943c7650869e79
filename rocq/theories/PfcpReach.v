(** Every event acts on data plane and pools through a fixed set of primitive
    operations; consequences for all reachable states. *)
From Verif Require Import Base IdTracker ResourceManager SdfParser MapOps Pfcp PfcpProps PfcpHistory.

Notation store := (dp * option rman)%type.

Inductive pstep : store -> store -> Prop :=
| p_new_far f d r : pstep (d, r) (snd (new_far f d), r)
| p_update_far i f d r : pstep (d, r) (snd (update_far i f d), r)
| p_delete_far i d r : pstep (d, r) (snd (delete_far i d), r)
| p_new_qer q d r : pstep (d, r) (snd (new_qer q d), r)
| p_update_qer i q d r : pstep (d, r) (snd (update_qer i q d), r)
| p_delete_qer i d r : pstep (d, r) (snd (delete_qer i d), r)
| p_new_urr u d r : pstep (d, r) (snd (new_urr u d), r)
| p_update_urr i u d r : pstep (d, r) (snd (update_urr i u d), r)
| p_delete_urr i d r : pstep (d, r) (snd (delete_urr i d), r)
| p_put s d r : pstep (d, r) (snd (apply_pdr s d), r)
| p_del_up k d r : pstep (d, r) (snd (delete_pdr_uplink k d), r)
| p_del_dn4 k d r : pstep (d, r) (snd (delete_pdr_downlink k d), r)
| p_del_dn6 k d r : pstep (d, r) (snd (delete_pdr_ip6 k d), r)
| p_alloc_t s p d r : pstep (d, r) (d, snd (get_fteid s p r))
| p_alloc_ip s d r : pstep (d, r) (d, snd (get_ip s r))
| p_free_t sh s d r : fair sh ->
    pstep (d, Some r) (d, Some (Rman (release_teid sh s (rm_ft r)) (rm_ip r)))
| p_free_ip s d r : pstep (d, Some r) (d, Some (Rman (rm_ft r) (release_ip s (rm_ip r))))
| p_traffic m v d r : pstep (d, r) (traffic m v d, r).

Notation psteps := (rtc pstep).

Definition store_of (w : work) : store := (w_dp w, w_rm w).
Definition by_prims (w : work) (r : res) : Prop :=
  match r with ROk w' | RErr w' => psteps (store_of w) (store_of w') | RCrash => True end.

Lemma each_prims {A} (f : A -> work -> res) l w :
  (forall x w, by_prims w (f x w)) -> by_prims w (each f l w).
Proof.
  intros Hf. revert w. induction l as [|x l IH]; intros w; simpl; [apply rtc_refl|].
  pose proof (Hf x w) as Hx. destruct (f x w) as [w1|w1|]; simpl in *; try done.
  specialize (IH w1). destruct (each f l w1); simpl in *; try done; by etrans.
Qed.
Lemma bind_prims w r k : by_prims w r -> (forall w', by_prims w' (k w')) -> by_prims w (rbind r k).
Proof.
  intros H Hk. destruct r as [w1|w1|]; simpl in *; try done. specialize (Hk w1).
  destruct (k w1); simpl in *; try done; by etrans.
Qed.

Ltac prim_tac E c :=
  let H := fresh in pose proof c as H; rewrite E in H; simpl in H;
  try (apply rtc_once; exact H).

Lemma create_far_prims f w : by_prims w (create_far f w).
Proof.
  unfold create_far. destruct (far_crash f); [done|]. destruct (compose_far f far0) as [i|]; [|apply rtc_refl].
  destruct (new_far i (w_dp w)) as [[g|] d] eqn:E; prim_tac E (p_new_far i (w_dp w) (w_rm w)).
Qed.
Lemma update_far_prims f w : by_prims w (update_far_ie f w).
Proof.
  unfold update_far_ie. destruct (fa_id f) as [id|]; [|apply rtc_refl].
  destruct (far_crash f); [done|]. destruct (compose_far _ _) as [i|]; [|apply rtc_refl].
  cbn zeta. simpl. destruct (update_far _ i (w_dp w)) as [[] d] eqn:E;
    prim_tac E (p_update_far (sf_gid (get_far (w_ses w) id)) i (w_dp w) (w_rm w)).
Qed.
Lemma remove_far_prims f w : by_prims w (remove_far_ie f w).
Proof.
  unfold remove_far_ie. cbn zeta. simpl. destruct (delete_far _ (w_dp w)) as [[] d] eqn:E;
    prim_tac E (p_delete_far (sf_gid (get_far (w_ses w) (default 0 (fa_id f)))) (w_dp w) (w_rm w)).
Qed.
Lemma create_qer_prims q w : by_prims w (create_qer q w).
Proof.
  unfold create_qer. destruct (qe_id q) as [id|]; [|apply rtc_refl]. cbn zeta.
  destruct (new_qer _ (w_dp w)) as [[g|] d] eqn:E; prim_tac E (p_new_qer (compose_qer q qer0) (w_dp w) (w_rm w)).
Qed.
Lemma update_qer_prims q w : by_prims w (update_qer_ie q w).
Proof.
  unfold update_qer_ie. destruct (qe_id q) as [id|]; [|apply rtc_refl]. cbn zeta. simpl.
  destruct (update_qer _ _ (w_dp w)) as [[] d] eqn:E;
    prim_tac E (p_update_qer (sq_gid (get_qer (w_ses w) id)) (compose_qer q (sq_info (get_qer (w_ses w) id))) (w_dp w) (w_rm w)).
Qed.
Lemma remove_qer_prims q w : by_prims w (remove_qer_ie q w).
Proof.
  unfold remove_qer_ie. destruct (qe_id q) as [id|]; [|apply rtc_refl]. cbn zeta. simpl.
  destruct (delete_qer _ (w_dp w)) as [[] d] eqn:E;
    prim_tac E (p_delete_qer (sq_gid (get_qer (w_ses w) id)) (w_dp w) (w_rm w)).
Qed.
Lemma create_urr_prims u w : by_prims w (create_urr u w).
Proof.
  unfold create_urr. destruct u as [id|]; [|apply rtc_refl].
  destruct (new_urr _ (w_dp w)) as [[g|] d] eqn:E; prim_tac E (p_new_urr urr0 (w_dp w) (w_rm w)).
Qed.
Lemma update_urr_prims u w : by_prims w (update_urr_ie u w).
Proof.
  unfold update_urr_ie. destruct u as [id|]; [|apply rtc_refl]. cbn zeta. simpl.
  destruct (update_urr _ _ (w_dp w)) as [[] d] eqn:E;
    prim_tac E (p_update_urr (su_gid (get_urr (w_ses w) id)) (su_info (get_urr (w_ses w) id)) (w_dp w) (w_rm w)).
Qed.
Lemma remove_urr_prims u w : by_prims w (remove_urr_ie u w).
Proof.
  unfold remove_urr_ie. destruct u as [id|]; [|apply rtc_refl]. cbn zeta. simpl.
  destruct (delete_urr _ (w_dp w)) as [[v|] d] eqn:E;
    prim_tac E (p_delete_urr (su_gid (get_urr (w_ses w) id)) (w_dp w) (w_rm w)).
Qed.

Lemma extract_pdr_prims ueip p s w o w' :
  extract_pdr ueip p s w = (o, w') -> w_dp w' = w_dp w /\ psteps (store_of w) (store_of w').
Proof.
  intros H. unfold extract_pdr in H. destruct (pe_pdi p) as [pdi|]; simplify_eq; [|by split].
  destruct (pdr_sdf _ _) as [info|]; simplify_eq; [|by split].
  destruct (pi_fteid pdi) as [| |fe]; simplify_eq; try by split.
  - destruct (pi_ueip pdi) as [| |ue]; simplify_eq; try by split.
    destruct (ueip && ue_chv4 ue).
    + destruct (get_ip (s_remote (w_ses w)) (w_rm w)) as [[a|] rm] eqn:E;
      pose proof (p_alloc_ip (s_remote (w_ses w)) (w_dp w) (w_rm w)) as Hp; rewrite E in Hp; simpl in Hp.
      * destruct (ue_v6 ue); simplify_eq; (split; [done|by apply rtc_once]).
      * destruct (ue_v4 ue), (ue_v6 ue); simplify_eq; (split; [done|by apply rtc_once]).
    + destruct (ue_v4 ue), (ue_v6 ue); simplify_eq; by split.
  - destruct (fe_ch fe); simplify_eq; [|by split].
    destruct (match fe_chid fe with Some c => w_cache w !! c | None => None end); simplify_eq; [by split|].
    destruct (get_fteid _ _ _) as [[t|] rm] eqn:E;
      pose proof (p_alloc_t (s_remote (w_ses w)) (sd_id s) (w_dp w) (w_rm w)) as Hp; rewrite E in Hp; simpl in Hp;
      simplify_eq.
    + destruct (fe_chid fe); (split; [done|by apply rtc_once]).
    + split; [done|by apply rtc_once].
Qed.

Lemma create_pdr_prims ueip p w : by_prims w (create_pdr ueip p w).
Proof.
  unfold create_pdr. destruct (pe_id p) as [id|]; [|apply rtc_refl].
  destruct (extract_pdr _ _ _ w) as [[s|] w1] eqn:E; apply extract_pdr_prims in E as [Hd E]; [|done].
  cbn zeta. simpl. destruct (apply_pdr s (w_dp w1)) as [[] d] eqn:Ea; simpl; (etrans; [exact E|]);
    prim_tac Ea (p_put s (w_dp w1) (w_rm w1)).
Qed.
Lemma update_pdr_prims ueip p w : by_prims w (update_pdr_ie ueip p w).
Proof.
  unfold update_pdr_ie. destruct (pe_id p) as [id|]; [|apply rtc_refl].
  destruct (extract_pdr _ _ _ w) as [[s|] w1] eqn:E; apply extract_pdr_prims in E as [Hd E]; [|done].
  cbn zeta. simpl. destruct (apply_pdr s (w_dp w1)) as [[] d] eqn:Ea; simpl; (etrans; [exact E|]);
    prim_tac Ea (p_put s (w_dp w1) (w_rm w1)).
Qed.
Lemma delete_pdr_prims sh s w : fair sh -> by_prims w (delete_pdr sh s w).
Proof.
  intros Hf. unfold delete_pdr.
  cbn zeta. match goal with |- by_prims _ (match ?x with _ => _ end) => destruct x as [ok w1] eqn:E end.
  assert (Hd : psteps (store_of w) (store_of w1)).
  { destruct (sd_v4 s) as [a|].
    - destruct (delete_pdr_downlink a (w_dp w)) as [b d] eqn:Eb. simplify_eq.
      prim_tac Eb (p_del_dn4 a (w_dp w) (w_rm w)).
    - destruct (sd_v6 s) as [a|].
      + destruct (delete_pdr_ip6 a (w_dp w)) as [b d] eqn:Eb. simplify_eq.
        prim_tac Eb (p_del_dn6 a (w_dp w) (w_rm w)).
      + destruct (w_cache w !! u8 (sd_teid s)); simplify_eq; [apply rtc_refl|].
        destruct (delete_pdr_uplink (sd_teid s) (w_dp w)) as [b d] eqn:Eb. destruct b; simplify_eq;
        prim_tac Eb (p_del_up (sd_teid s) (w_dp w) (w_rm w)). }
  destruct ok; [|done]. destruct (sd_teid s =? 0); [done|].
  destruct (w_rm w1) as [r|] eqn:Er; [|done]. simpl. etrans; [exact Hd|].
  unfold store_of. simpl. rewrite Er. apply rtc_once. by constructor.
Qed.
Lemma remove_pdr_prims sh p w : fair sh -> by_prims w (remove_pdr_ie sh p w).
Proof.
  intros Hf. unfold remove_pdr_ie. destruct (_ !! _) as [s|]; [|apply rtc_refl].
  pose proof (delete_pdr_prims sh s (w_set_ses (ses_remove_pdr (default 0 (pe_id p)) (w_ses w)) w) Hf) as H.
  by destruct (delete_pdr _ _ _).
Qed.
Lemma del_far_prims e w : by_prims w (del_far e w).
Proof.
  unfold del_far. destruct (delete_far _ (w_dp w)) as [[] d] eqn:E;
    prim_tac E (p_delete_far (sf_gid (snd e)) (w_dp w) (w_rm w)).
Qed.
Lemma del_qer_prims e w : by_prims w (del_qer e w).
Proof.
  unfold del_qer. destruct (delete_qer _ (w_dp w)) as [[] d] eqn:E;
    prim_tac E (p_delete_qer (sq_gid (snd e)) (w_dp w) (w_rm w)).
Qed.
Lemma del_urr_prims e w : by_prims w (del_urr e w).
Proof.
  unfold del_urr. destruct (delete_urr _ (w_dp w)) as [[v|] d] eqn:E;
    prim_tac E (p_delete_urr (su_gid (snd e)) (w_dp w) (w_rm w)).
Qed.

Lemma est_rules_prims ueip q w : by_prims w (est_rules ueip q w).
Proof.
  unfold est_rules.
  repeat (apply bind_prims; [apply each_prims; intros|intros]); [..|apply each_prims; intros];
  auto using create_far_prims, create_qer_prims, create_urr_prims, create_pdr_prims.
Qed.
Lemma mod_rules_prims ueip sh q w : fair sh -> by_prims w (mod_rules ueip sh q w).
Proof.
  intros Hf. unfold mod_rules.
  repeat (apply bind_prims; [apply each_prims; intros|intros]); [..|apply each_prims; intros];
  auto using create_far_prims, update_far_prims, remove_far_prims, create_qer_prims, update_qer_prims,
    remove_qer_prims, create_urr_prims, update_urr_prims, remove_urr_prims, create_pdr_prims,
    update_pdr_prims, remove_pdr_prims.
Qed.
Lemma del_rules_prims sh s w : fair sh -> by_prims w (del_rules sh s w).
Proof.
  intros Hf. unfold del_rules.
  repeat (apply bind_prims; [apply each_prims; intros|intros]); [..|apply each_prims; intros];
  auto using delete_pdr_prims, del_far_prims, del_qer_prims, del_urr_prims.
Qed.
Lemma ign_prims {A} (f : A -> work -> res) x w : by_prims w (f x w) -> by_prims w (ign f x w).
Proof. unfold ign. by destruct (f x w). Qed.

Lemma prune_session_prims sh s d rm d' rm' :
  fair sh -> prune_session sh s d rm = Some (d', rm') -> psteps (d, rm) (d', rm').
Proof.
  intros Hf. unfold prune_session.
  match goal with |- match ?x with _ => _ end = _ -> _ => assert (Hp : by_prims (new_work d s rm) x) end.
  { repeat (apply bind_prims; [apply each_prims; intros|intros]); [..|apply each_prims; intros];
    apply ign_prims; auto using del_far_prims, del_qer_prims, delete_pdr_prims. }
  repeat case_match; intros; simplify_eq; exact Hp.
Qed.
Lemma prune_sessions_prims sh l d rm d' rm' :
  fair sh -> prune_sessions sh l d rm = Some (d', rm') -> psteps (d, rm) (d', rm').
Proof.
  intros Hf. revert d rm. induction l as [|[k s] l IH]; intros d rm H; simpl in *; simplify_eq; [done|].
  destruct (prune_session sh s d rm) as [[d1 rm1]|] eqn:E; [|done].
  apply prune_session_prims in E; [|done]. etrans; [exact E|]. by apply IH.
Qed.

Lemma step_prims c e c' r :
  event_fair e -> step c e = Done c' r ->
  psteps (c_dp c, c_rm c) (c_dp c', c_rm c') /\ c_cfg c' = c_cfg c.
Proof.
  intros Hf H. destruct e as [sh addr seq m|sh addr|marks vols]; simpl in H, Hf.
  - destruct m as [t|t|n t|n k f|n|q|q|seid|ty]; simpl in H.
    + unfold handle_hb_req in H. destruct t; simplify_eq; done.
    + unfold handle_hb_resp in H. destruct t; simplify_eq; done.
    + unfold handle_setup, ensure_assoc in H. repeat (case_match; simplify_eq); simplify_eq; done.
    + unfold handle_setup_resp, ensure_assoc in H. repeat (case_match; simplify_eq); simplify_eq; done.
    + unfold handle_update in H. repeat (case_match; simplify_eq); simplify_eq; done.
    + unfold handle_est in H. destruct (validate_request _ _) as [remote|]; simplify_eq; [|done].
      destruct (c_assocs c !! addr) as [a|] eqn:Ha; simplify_eq; [|done].
      destruct (existsb _ _); [done|].
      pose proof (est_rules_prims (g_ueip (c_cfg c)) q
        (new_work (c_dp c) (new_session (next_seid a) remote) (c_rm c))) as Hl.
      destruct (est_rules _ _ _) as [w|w|]; simplify_eq; done.
    + unfold handle_mod in H. destruct (c_assocs c !! addr) as [a|] eqn:Ha; simplify_eq; [|done].
      destruct (a_sessions a !! mq_seid q) as [s|] eqn:Hs; simplify_eq; [|done].
      destruct (_ || _); [done|].
      match type of H with context [mod_rules ?x ?y ?z ?t] => pose proof (mod_rules_prims x y z t Hf) as Hl end.
      destruct (mod_rules _ _ _ _) as [w|w|]; simplify_eq; done.
    + unfold handle_del in H. destruct (c_assocs c !! addr) as [a|] eqn:Ha; simplify_eq; [|done].
      destruct (a_sessions a !! seid) as [s|] eqn:Hs; simplify_eq; [|done].
      pose proof (del_rules_prims sh s (new_work (c_dp c) s (c_rm c)) Hf) as Hl.
      destruct (del_rules _ _ _) as [w|w|]; simplify_eq; [|done]. split; [|done]. simpl.
      etrans; [exact Hl|]. unfold store_of. destruct (w_rm w) as [rm|]; simpl; [|done].
      etrans; [apply rtc_once, (p_free_t sh seid _ _ Hf)|]. apply rtc_once.
      exact (p_free_ip seid (w_dp w) (Rman (release_teid sh seid (rm_ft rm)) (rm_ip rm))).
    + by simplify_eq.
  - unfold prune in H. destruct (c_assocs c !! addr) as [a|] eqn:Ha; [|done].
    destruct (prune_sessions _ _ _ _) as [[d rm]|] eqn:E; simplify_eq.
    apply prune_sessions_prims in E; [|done]. done.
  - simplify_eq. split; [|done]. simpl. apply rtc_once. constructor.
Qed.

(** ** Well-formed data plane and pools *)

Definition tok (size : N) (t : tracker) : Prop :=
  t_max t = size /\ sorted (t_free t) /\ forall i, i ∈ t_free t -> i < size.

Record dp_ok (d : dp) : Prop := {
  dk_far : tok (d_far_size d) (d_fart d);
  dk_qer : tok (d_qer_size d) (d_qert d);
  dk_urr : tok (d_urr_size d) (d_urrt d) }.

(** TEIDs free and busy are 1..range, no TEID twice. *)
Definition rm_ok (r : option rman) : Prop :=
  match r with
  | None => True
  | Some r => (exists range l, rinv range l (rm_ft r)) /\ (exists base len l, iinv base len l (rm_ip r))
  end.

Lemma tok_init n : tok n (new_tracker n).
Proof. split; [done|]. split; [apply Nseq_sorted|]. intros i. simpl. by rewrite elem_of_Nseq. Qed.
Lemma tok_get n t o t' : tok n t -> get_next t = (o, t') -> tok n t'.
Proof.
  intros (Hm & Hs & Hf). unfold get_next. destruct (t_free t) as [|x r] eqn:E; intros [= <- <-].
  - split; [done|]. rewrite E. done.
  - apply StronglySorted_inv in Hs as [Hs _]. split; [done|]. split; [done|]. simpl.
    intros i Hi. apply Hf. by right.
Qed.
Lemma tok_release n t i : tok n t -> tok n (release i t).
Proof.
  intros (Hm & Hs & Hf). unfold release. destruct (t_max t <=? i) eqn:E; [done|].
  apply N.leb_gt in E. split; [done|]. split; [by apply bitmap_add_sorted|]. simpl.
  intros j. rewrite bitmap_add_elem. intros [->|Hj]; [lia|auto].
Qed.
(** A granted id was free and is free no longer. *)
Lemma get_granted n t i t' :
  tok n t -> get_next t = (Some i, t') -> i < n /\ i ∈ t_free t /\ i ∉ t_free t' /\
  (forall j, j ∈ t_free t <-> j = i \/ j ∈ t_free t').
Proof.
  intros (Hm & Hs & Hf). unfold get_next. destruct (t_free t) as [|x r] eqn:E; intros [= <- <-]. simpl.
  split; [apply Hf; left|]. split; [left|]. apply StronglySorted_inv in Hs as [_ Hall].
  split; [|intros; apply elem_of_cons].
  intros Hin. eapply Forall_forall in Hall; [|exact Hin]. lia.
Qed.
Lemma release_free n t i j :
  tok n t -> j ∈ t_free (release i t) <-> (j = i /\ i < n) \/ j ∈ t_free t.
Proof.
  intros (Hm & Hs & Hf). unfold release. destruct (t_max t <=? i) eqn:E; simpl.
  - apply N.leb_le in E. split; [by right|]. intros [[-> ?]|?]; [lia|done].
  - apply N.leb_gt in E. rewrite bitmap_add_elem. split; (intros [?|?]; [|by right]); left; [|tauto]. split; [done|lia].
Qed.

Ltac dpok := intros [H1 H2 H3];
  repeat (case_match; simplify_eq); simpl; (split; simpl; eauto using tok_get, tok_release).

Lemma dp_ok_init p f q u : dp_ok (dp_init p f q u).
Proof. split; apply tok_init. Qed.

Lemma pstep_dp_ok x y : pstep x y -> dp_ok (fst x) -> dp_ok (fst y).
Proof.
  destruct 1; simpl; auto.
  - unfold new_far. dpok.
  - unfold update_far. dpok.
  - unfold delete_far, update_far. dpok.
  - unfold new_qer. dpok.
  - unfold update_qer. dpok.
  - unfold delete_qer, update_qer. dpok.
  - unfold new_urr. dpok.
  - unfold update_urr. dpok.
  - unfold delete_urr, update_urr. dpok.
  - unfold apply_pdr, put_pdr_downlink, put_pdr_ip6, put_pdr_uplink. dpok.
  - unfold delete_pdr_uplink. dpok.
  - unfold delete_pdr_downlink. dpok.
  - unfold delete_pdr_ip6. dpok.
  - unfold traffic. dpok.
Qed.

Lemma pstep_rm_ok x y : pstep x y -> rm_ok (snd x) -> rm_ok (snd y).
Proof.
  destruct 1 as [| | | | | | | | | | | | |s p d r|s d r|sh s d r Hf|s d r|]; simpl; auto.
  - unfold get_fteid. destruct r as [r|]; [|done]. intros [(range & l & Hr) Hi].
    destruct (allocate_teid s p (rm_ft r)) as [o ft] eqn:E. simpl. split; [|done]. exists range.
    pose proof (rinv_step range l (rm_ft r) (AllocT s p)) as Hs. simpl in Hs. rewrite E in Hs.
    destruct o; eexists; by eapply Hs.
  - unfold get_ip. destruct r as [r|]; [|done]. intros [Hr (base & len & l & Hi)].
    destruct (allocate_ip s (rm_ip r)) as [o ip] eqn:E. simpl. split; [done|]. exists base, len.
    pose proof (iinv_step base len l (rm_ip r) (AllocI s)) as Hs. simpl in Hs. rewrite E in Hs.
    destruct o; eexists; by eapply Hs.
  - intros [(range & l & Hr) Hi]. split; [|done]. exists range. eexists.
    by eapply (rinv_step range l (rm_ft r) (FreeT sh s)).
  - intros [Hr (base & len & l & Hi)]. split; [done|]. exists base, len. eexists.
    by eapply (iinv_step base len l (rm_ip r) (FreeI s)).
Qed.

(** The states the UPF can be in: started with maps and pools of some size, then any history. *)
Definition start_pools (r : option rman) : Prop :=
  r = None \/ exists range base len, r = Some (Rman (new_fteidm range) (new_ipam base len)).
Definition reachable (c : conn) : Prop :=
  exists g rm p f q u es l, start_pools rm /\ Forall event_fair es /\
    run (init g rm (dp_init p f q u)) es = Some (c, l).

Lemma rtc_inv {A} (R : relation A) (P : A -> Prop) x y :
  (forall x y, R x y -> P x -> P y) -> rtc R x y -> P x -> P y.
Proof. intros HR. induction 1; eauto. Qed.

Lemma run_psteps es : forall c0 l c, Forall event_fair es -> run c0 es = Some (c, l) ->
  psteps (c_dp c0, c_rm c0) (c_dp c, c_rm c).
Proof.
  induction es as [|e es IH]; intros c0 l c Hf H; simpl in *; simplify_eq; [done|].
  inversion Hf; subst. destruct (step c0 e) as [c1 r|] eqn:E; [|done].
  destruct (run c1 es) as [[c3 l3]|] eqn:E'; [|done]. simplify_eq.
  apply step_prims in E as [E _]; [|done]. etrans; [exact E|]. eauto.
Qed.
(** What every primitive operation preserves holds in every reachable state. *)
Lemma reachable_inv (P : store -> Prop) c :
  (forall p f q u rm, start_pools rm -> P (dp_init p f q u, rm)) -> (forall x y, pstep x y -> P x -> P y) ->
  reachable c -> P (c_dp c, c_rm c).
Proof.
  intros H0 Hs (g & rm & p & f & q & u & es & l & Hsp & Hf & Hrun). apply run_psteps in Hrun; [|done].
  eapply (rtc_inv pstep P _ _ Hs Hrun). simpl. by apply H0.
Qed.

Lemma reachable_ok c : reachable c -> dp_ok (c_dp c) /\ rm_ok (c_rm c).
Proof.
  intros H. split.
  - apply (reachable_inv (fun x => dp_ok (fst x)) c); [|apply pstep_dp_ok|done]. intros. apply dp_ok_init.
  - apply (reachable_inv (fun x => rm_ok (snd x)) c); [|apply pstep_rm_ok|done].
    intros p f q u rm [->|(range & base & len & ->)]; [done|]. simpl. split; eauto using rinv_init, iinv_init.
Qed.

Lemma reachable_init g rm p f q u : start_pools rm -> reachable (init g rm (dp_init p f q u)).
Proof. intros. exists g, rm, p, f, q, u, [], []. by repeat split. Qed.

Lemma reachable_run c es c' l : reachable c -> Forall event_fair es -> run c es = Some (c', l) -> reachable c'.
Proof.
  intros (g & rm & p & f & q & u & es0 & l0 & Hsp & Hf & Hrun) Hf' Hr.
  exists g, rm, p, f, q, u, (es0 ++ es), (l0 ++ l). split_and!; [done|by apply Forall_app|].
  revert Hrun Hr. generalize (init g rm (dp_init p f q u)). revert l0. clear. induction es0 as [|e es0 IH]; intros l0 c0 H1 H2;
    simpl in *; simplify_eq; [done|].
  destruct (step c0 e) as [c1 r|]; [|done]. destruct (run c1 es0) as [[c3 l3]|] eqn:E; [|done]. simplify_eq.
  by rewrite (IH _ _ E H2).
Qed.
Lemma reachable_step c e c' r : reachable c -> event_fair e -> step c e = Done c' r -> reachable c'.
Proof.
  intros H Hf Hs. apply (reachable_run c [e] c' [(e, r)]); [done|by constructor|]. simpl. by rewrite Hs.
Qed.
