(** Created-PDR reports of modifications (C14) and CHOOSE_ID sharing (C53). *)
From Verif Require Import Base IdTracker ResourceManager SdfParser MapOps Pfcp PfcpProps PfcpHistory PfcpReach PfcpRules.

(** ** C14 for modifications *)

Lemma handle_mod_inv sh addr seq q c c' r :
  handle sh addr seq (SessModReq q) c = Done c' (Some r) -> r_cause r = Some 1 ->
  exists a s w,
    c_assocs c !! addr = Some a /\ a_sessions a !! mq_seid q = Some s /\
    mod_rules (g_ueip (c_cfg c)) sh q
      (new_work (c_dp c) (match mq_fseid q with Good r => set_remote r s | _ => s end) (c_rm c)) = ROk w /\
    c_dp c' = w_dp w /\ c_rm c' = w_rm w /\ c_cfg c' = c_cfg c /\
    r_created r = process_created (g_n3 (c_cfg c)) (w_created w) /\ r_reports r = w_reports w /\
    session_of c' addr (mq_seid q) = Some (w_ses w).
Proof.
  simpl. unfold handle_mod. intros H Hr.
  destruct (c_assocs c !! addr) as [a0|] eqn:Ea; simplify_eq; try done.
  destruct (a_sessions a0 !! mq_seid q) as [s|] eqn:Es; simplify_eq; try done.
  destruct (_ || _); [done|].
  destruct (mod_rules _ _ _ _) as [w|w|] eqn:Ew; simplify_eq; try done.
  exists a0, s, w. split_and!; try done. unfold session_of. simpl. rewrite lookup_insert. simpl. apply lookup_insert.
Qed.

(** The state of the rules before the Create PDRs of a modification. *)
Lemma mod_rules_inv ueip sh q w w' : mod_rules ueip sh q w = ROk w' ->
  exists w9 w10, pdr_part w9 = pdr_part w /\ pool_part w9 = pool_part w /\ id_part w9 = id_part w /\
    each (create_pdr ueip) (mq_cpdr q) w9 = ROk w10 /\
    rbind (each (update_pdr_ie ueip) (mq_updr q) w10) (each (remove_pdr_ie sh) (mq_rpdr q)) = ROk w'.
Proof.
  unfold mod_rules. intros H.
  apply rbind_ok in H as (w1 & H1 & H). apply rbind_ok in H as (w2 & H2 & H). apply rbind_ok in H as (w3 & H3 & H).
  apply rbind_ok in H as (w4 & H4 & H). apply rbind_ok in H as (w5 & H5 & H). apply rbind_ok in H as (w6 & H6 & H).
  apply rbind_ok in H as (w7 & H7 & H). apply rbind_ok in H as (w8 & H8 & H). apply rbind_ok in H as (w9 & H9 & H).
  apply rbind_ok in H as (w10 & H10 & H).
  exists w9, w10.
  assert (forall {B} (proj : work -> B), far_frame proj -> qer_frame proj -> urr_frame proj -> proj w9 = proj w) as Hk.
  { intros B proj (F1 & F2 & F3 & _) (Q1 & Q2 & Q3 & _) (U1 & U2 & U3 & _).
    use_keep H1 (each_keep proj create_far (mq_cfar q) w F1).
    use_keep H2 (each_keep proj update_far_ie (mq_ufar q) w1 F2).
    use_keep H3 (each_keep proj remove_far_ie (mq_rfar q) w2 F3).
    use_keep H4 (each_keep proj create_qer (mq_cqer q) w3 Q1).
    use_keep H5 (each_keep proj update_qer_ie (mq_uqer q) w4 Q2).
    use_keep H6 (each_keep proj remove_qer_ie (mq_rqer q) w5 Q3).
    use_keep H7 (each_keep proj create_urr (mq_curr q) w6 U1).
    use_keep H8 (each_keep proj update_urr_ie (mq_uurr q) w7 U2).
    use_keep H9 (each_keep proj remove_urr_ie (mq_rurr q) w8 U3).
    congruence. }
  split_and!; [..|done|done].
  - apply Hk; [apply far_frame_pdr|apply qer_frame_pdr|apply urr_frame_pdr].
  - apply Hk; [apply far_frame_pool|apply qer_frame_pool|apply urr_frame_pool].
  - apply Hk; [apply far_frame_id|apply qer_frame_id|apply urr_frame_id].
Qed.

Lemma update_pdr_created ueip p w : keepsP w_created w (update_pdr_ie ueip p w).
Proof.
  unfold update_pdr_ie. case_match; [|done].
  destruct (extract_pdr _ _ _ _) as [[s|] w1] eqn:E; apply extract_pdr_frame in E as (_ & _ & Ec & _); [|done].
  cbn zeta. destruct (apply_pdr _ _) as [[] d]; done.
Qed.
Lemma remove_pdr_created sh p w : keepsP w_created w (remove_pdr_ie sh p w).
Proof.
  unfold remove_pdr_ie. case_match; [|done].
  match goal with |- keepsP _ _ ?r => pose proof (delete_pdr_frame _ _ _ r eq_refl) as Hd; destruct r end; try done;
  destruct_and!; done.
Qed.

Theorem modification_reports :
  forall sh addr seq q c c' r,
    handle sh addr seq (SessModReq q) c = Done c' (Some r) -> r_cause r = Some 1 ->
    exists ks : list (key * bool),
      Forall2 (fun p k => detects (g_ueip (c_cfg c)) p (fst k) (snd k)) (mq_cpdr q) ks /\
      r_created r = omap (report_of (g_n3 (c_cfg c))) (zip (mq_cpdr q) ks) /\
      (mq_updr q = [] -> mq_rpdr q = [] ->
       forall k, dp_find (c_dp c') k <> None <-> dp_find (c_dp c) k <> None \/ k ∈ (fst <$> ks)).
Proof.
  intros sh addr seq q c c' r H Hr.
  apply handle_mod_inv in H as (a & s & w & Ha & Hs & Hw & Hd & _ & _ & Hcr & _ & _); [|done].
  apply mod_rules_inv in Hw as (w9 & w10 & Hpp & _ & _ & Hp & Hrest).
  unfold pdr_part in Hpp. simpl in Hpp. injection Hpp as Hu H4 H6 _ _ Hc9.
  apply create_pdrs_ok in Hp as (new & Hnew & Hc & _ & Hdom & _ & _).
  assert (Hcw : w_created w = w_created w10).
  { apply rbind_ok in Hrest as (w11 & H11 & H12).
    use_keep H11 (each_keep w_created (update_pdr_ie (g_ueip (c_cfg c))) (mq_updr q) w10 (update_pdr_created _)).
    use_keep H12 (each_keep w_created (remove_pdr_ie sh) (mq_rpdr q) w11 (remove_pdr_created _)). congruence. }
  set (ks := (fun s => (spdr_key s, sd_alloc s)) <$> new).
  assert (Hks : fst <$> ks = spdr_key <$> new) by (unfold ks; by rewrite <- list_fmap_compose).
  exists ks. split_and!.
  - unfold ks. clear -Hnew. induction Hnew as [|p s l new Hm _ IH]; simpl; constructor; [|done]. apply Hm.
  - rewrite Hcr, Hcw, Hc, Hc9. simpl. apply (process_created_made _ _ _ _ _ Hnew).
  - intros Hup Hrp k. rewrite Hup, Hrp in Hrest. simpl in Hrest. injection Hrest as <-.
    rewrite Hd, Hdom, Hks. replace (dp_find (w_dp w9) k) with (dp_find (c_dp c) k); [done|].
    destruct k; simpl; congruence.
Qed.

(** ** C53: CHOOSE_ID *)

(** PDRs asking for a UPF-chosen TEID, with the CHOOSE_ID they give, if any. *)
Definition asks (p : pdr_ie) : option (option N) :=
  match pe_pdi p with
  | Some pdi => match pi_fteid pdi with
                | Good fe => if fe_ch fe then Some (fe_chid fe) else None
                | _ => None end
  | None => None
  end.
Definition same_choice (c1 c2 : option N) : Prop := exists c, c1 = Some c /\ c2 = Some c.

(** Free TEIDs of the pool, none without a resource manager. *)
Definition free_teids (rm : option rman) : list N := match rm with Some r => ft_free (rm_ft r) | None => [] end.

(** How many TEIDs a request takes: one per different CHOOSE_ID, one per PDR without. *)
Definition choices (l : list pdr_ie) : gset N := list_to_set (omap (fun p => default None (asks p)) l).
Definition unshared (l : list pdr_ie) : nat := length (filter (fun p => asks p = Some None) l).

Lemma extract_teid ueip p s w s' w' :
  extract_pdr ueip p s w = (Some s', w') ->
  match asks p with
  | None => free_teids (w_rm w') = free_teids (w_rm w) /\ w_cache w' = w_cache w
  | Some ch =>
      match (match ch with Some c => w_cache w !! c | None => None end) with
      | Some t => sd_teid s' = t /\ free_teids (w_rm w') = free_teids (w_rm w) /\ w_cache w' = w_cache w
      | None => free_teids (w_rm w) = sd_teid s' :: free_teids (w_rm w') /\
                w_cache w' = match ch with Some c => <[c := sd_teid s']> (w_cache w) | None => w_cache w end
      end
  end.
Proof.
  intros H. unfold extract_pdr in H. unfold asks. destruct (pe_pdi p) as [pdi|]; [|done].
  destruct (pdr_sdf p _) as [info|]; [|done].
  destruct (pi_fteid pdi) as [| |fe]; [|done|].
  - destruct (pi_ueip pdi) as [| |ue]; [by simplify_eq|done|].
    assert (Hip : forall o rm, get_ip (s_remote (w_ses w)) (w_rm w) = (o, rm) -> free_teids rm = free_teids (w_rm w)).
    { intros o rm. unfold get_ip. destruct (w_rm w) as [r|]; [|by intros [= <- <-]].
      destruct (allocate_ip _ _). by intros [= <- <-]. }
    destruct (ueip && ue_chv4 ue).
    + destruct (get_ip _ _) as [[a|] rm]; [|destruct (ue_v4 ue)]; destruct (ue_v6 ue); simplify_eq; simpl; by erewrite Hip.
    + destruct (ue_v4 ue), (ue_v6 ue); by simplify_eq.
  - destruct (fe_ch fe); [|by simplify_eq].
    destruct (match fe_chid fe with Some c => w_cache w !! c | None => None end) as [t|]; [by simplify_eq|].
    destruct (get_fteid _ _ _) as [[t|] rm] eqn:E; [|done]. simplify_eq. simpl.
    assert (free_teids (w_rm w) = t :: free_teids rm).
    { unfold get_fteid in E. destruct (w_rm w) as [r|]; [|done]. unfold allocate_teid in E.
      destruct (ft_free (rm_ft r)) eqn:Ef; simplify_eq; simpl; by rewrite Ef. }
    destruct (fe_chid fe); done.
Qed.

Lemma create_pdr_teid ueip p w w' : create_pdr ueip p w = ROk w' ->
  exists s, w_created w' = w_created w ++ [s] /\
  match asks p with
  | None => free_teids (w_rm w') = free_teids (w_rm w) /\ w_cache w' = w_cache w
  | Some ch => spdr_key s = Up (sd_teid s) /\
      match (match ch with Some c => w_cache w !! c | None => None end) with
      | Some t => sd_teid s = t /\ free_teids (w_rm w') = free_teids (w_rm w) /\ w_cache w' = w_cache w
      | None => free_teids (w_rm w) = sd_teid s :: free_teids (w_rm w') /\
                w_cache w' = match ch with Some c => <[c := sd_teid s]> (w_cache w) | None => w_cache w end
      end
  end.
Proof.
  unfold create_pdr. intros H. destruct (pe_id p) as [id|] eqn:Eid; [|done].
  destruct (extract_pdr _ _ _ w) as [[s|] w1] eqn:E; [|done].
  pose proof (extract_pdr_frame _ _ _ _ _ _ E) as (_ & _ & Ec & _).
  pose proof (extract_teid _ _ _ _ _ _ E) as Ht.
  pose proof (extract_made _ _ _ _ _ _ Eid E) as (_ & _ & Hd).
  cbn zeta in H. simpl in H.
  destruct (apply_pdr s (w_dp w1)) as [[] d] eqn:Ea; [|done]. simplify_eq. exists s. simpl.
  rewrite Ec. split; [done|].
  destruct (asks p) as [ch|] eqn:Eask; [|done]. split; [|done].
  unfold asks, detects in *. destruct (pe_pdi p) as [pdi|]; [|done].
  destruct (pi_fteid pdi) as [| |fe]; try done. destruct (fe_ch fe); [|done]. destruct Hd as [_ [t Ht']].
  unfold spdr_key in *. destruct (sd_v4 s), (sd_v6 s); done.
Qed.

Lemma create_pdrs_teid ueip l : forall w w' (U : list N),
  each (create_pdr ueip) l w = ROk w' ->
  NoDup (free_teids (w_rm w)) ->
  (forall t, t ∈ U -> t ∉ free_teids (w_rm w)) ->
  (forall c t, w_cache w !! c = Some t -> t ∈ U) ->
  (forall c c' t, w_cache w !! c = Some t -> w_cache w !! c' = Some t -> c = c') ->
  exists new, w_created w' = w_created w ++ new /\ length new = length l /\
    (forall i p s ch, l !! i = Some p -> new !! i = Some s -> asks p = Some ch ->
       spdr_key s = Up (sd_teid s) /\
       match (match ch with Some c => w_cache w !! c | None => None end) with
       | Some t => sd_teid s = t
       | None => sd_teid s ∈ free_teids (w_rm w)
       end) /\
    (forall i j p p' s s' ch ch', i <> j -> l !! i = Some p -> l !! j = Some p' ->
       new !! i = Some s -> new !! j = Some s' -> asks p = Some ch -> asks p' = Some ch' ->
       (sd_teid s = sd_teid s' <-> same_choice ch ch')) /\
    (exists taken, free_teids (w_rm w) = taken ++ free_teids (w_rm w') /\
       length taken = (size (choices l ∖ dom (w_cache w)) + unshared l)%nat).
Proof.
  induction l as [|p l IH]; intros w w' U H Hnd HU HKU HKinj; simpl in H; simplify_eq.
  { exists []. rewrite app_nil_r. split_and!; try done. exists []. split; [done|]. unfold choices, unshared. simpl.
    assert ((∅ : gset N) ∖ dom (w_cache w') = ∅) as -> by set_solver. by rewrite size_empty. }
  apply rbind_ok in H as (w1 & H1 & H2).
  apply create_pdr_teid in H1 as (s & Hc & Hs).
  (* the rest of the list, with the set of TEIDs in use after this PDR *)
  assert (exists U1 : list N, (forall t, t ∈ U -> t ∈ U1) /\ (forall ch, asks p = Some ch -> sd_teid s ∈ U1) /\
    NoDup (free_teids (w_rm w1)) /\ (forall t, t ∈ U1 -> t ∉ free_teids (w_rm w1)) /\
    (forall c t, w_cache w1 !! c = Some t -> t ∈ U1) /\
    (forall c c' t, w_cache w1 !! c = Some t -> w_cache w1 !! c' = Some t -> c = c')) as
    (U1 & HU1 & HsU1 & Hnd1 & Hdis1 & HKU1 & HKinj1).
  { destruct (asks p) as [ch|].
    - destruct Hs as [_ Hs]. destruct (match ch with Some c => w_cache w !! c | None => None end) as [t|] eqn:Et.
      + destruct Hs as (<- & Hf & Hk). rewrite Hf, Hk. exists U. split_and!; try done.
        intros ch' [= <-]. destruct ch as [c|]; [|done]. by eapply HKU.
      + destruct Hs as (Hf & Hk). rewrite Hf in Hnd, HU. apply NoDup_cons in Hnd as [Hn Hnd].
        assert (HsU : sd_teid s ∉ U). { intros Hx. apply (HU _ Hx). left. }
        exists (sd_teid s :: U). split_and!.
        * by right.
        * intros. left.
        * done.
        * intros t Ht. apply elem_of_cons in Ht as [->|Ht]; [done|]. intros Hx. apply (HU t Ht). by right.
        * intros c t. rewrite Hk. destruct ch as [c0|]; [|intros Hx; right; by eapply HKU].
          rewrite lookup_insert_Some. intros [[_ <-]|[_ Hx]]; [left|right; by eapply HKU].
        * intros c c' t. rewrite Hk. destruct ch as [c0|]; [|by apply HKinj].
          rewrite !lookup_insert_Some. intros [[<- <-]|[Hne Hx]] [[<- Hy]|[Hne' Hy]]; try done.
          -- apply HKU in Hy. done.
          -- subst t. apply HKU in Hx. done.
          -- by eapply HKinj.
    - destruct Hs as (Hf & Hk). rewrite Hf, Hk. exists U. by split_and!. }
  destruct (IH w1 w' U1 H2 Hnd1 Hdis1 HKU1 HKinj1) as (new & Hc' & Hlen & Hval & Hcmp & taken & Htk & Hn).
  exists (s :: new).
  (* comparison of this PDR with one of the rest *)
  assert (Hhead : forall j p' s' ch ch', l !! j = Some p' -> new !! j = Some s' -> asks p = Some ch -> asks p' = Some ch' ->
    (sd_teid s = sd_teid s' <-> same_choice ch ch')).
  { intros j p' s' ch ch' Hp' Hs' Ech Ech'. destruct (Hval j p' s' ch' Hp' Hs' Ech') as [_ Hv].
    rewrite Ech in Hs. destruct Hs as [_ Hs]. specialize (HsU1 _ Ech).
    assert (Hnone : sd_teid s' ∈ free_teids (w_rm w1) -> sd_teid s <> sd_teid s').
    { intros Hx Heq. rewrite <- Heq in Hx. by apply (Hdis1 _ HsU1). }
    destruct (match ch with Some c => w_cache w !! c | None => None end) as [t|] eqn:Et.
    - destruct ch as [c|]; [|done]. destruct Hs as (Hst & Hf & Hk). rewrite Hk in Hv.
      destruct ch' as [c'|].
      + destruct (w_cache w !! c') as [t'|] eqn:Et'.
        * split.
          -- intros Heq. assert (c = c') as -> by (eapply HKinj; [exact Et|]; congruence). by exists c'.
          -- intros (x & [= ->] & [= ->]). congruence.
        * split; [intros Heq; by apply Hnone in Hv|]. intros (x & [= ->] & [= ->]). congruence.
      + split; [intros Heq; by apply Hnone in Hv|]. by intros (x & _ & ?).
    - destruct Hs as (Hf & Hk). destruct ch' as [c'|].
      + rewrite Hk in Hv. destruct ch as [c|].
        * destruct (decide (c = c')) as [->|Hne].
          -- rewrite lookup_insert in Hv. split; [intros _; by exists c'|done].
          -- rewrite lookup_insert_ne in Hv by done. destruct (w_cache w !! c') as [t'|] eqn:Et'.
             ++ split; [|intros (x & [= ->] & [= ->]); done]. intros Heq. exfalso. apply HKU in Et'.
                apply (HU _ Et'). rewrite Hf. subst t'. rewrite <- Heq. left.
             ++ split; [intros Heq; by apply Hnone in Hv|]. by intros (x & [= ->] & [= ->]).
        * destruct (w_cache w !! c') as [t'|] eqn:Et'.
          -- split; [|by intros (x & ? & _)]. intros Heq. exfalso. apply HKU in Et'.
             apply (HU _ Et'). rewrite Hf. subst t'. rewrite <- Heq. left.
          -- split; [intros Heq; by apply Hnone in Hv|]. by intros (x & ? & _).
      + split; [intros Heq; by apply Hnone in Hv|]. by intros (x & _ & ?). }
  split_and!.
  - rewrite Hc', Hc, <- app_assoc. done.
  - simpl. by rewrite Hlen.
  - intros i p' s' ch Hp' Hs' Ech. destruct i as [|i]; simpl in Hp', Hs'.
    + simplify_eq. rewrite Ech in Hs. destruct Hs as [Hk Hs]. split; [done|].
      destruct (match ch with Some c => w_cache w !! c | None => None end); [by destruct Hs|].
      destruct Hs as [-> _]. left.
    + destruct (Hval i p' s' ch Hp' Hs' Ech) as [Hk Hv]. split; [done|].
      destruct (asks p) as [ch0|].
      * destruct Hs as [_ Hs]. destruct (match ch0 with Some c => w_cache w !! c | None => None end) as [t0|] eqn:Et0.
        -- destruct Hs as (_ & Hf & Hk0). by rewrite <- Hf, <- Hk0.
        -- destruct Hs as (Hf & Hk0). rewrite Hf. destruct ch as [c|]; [|right; exact Hv].
           rewrite Hk0 in Hv. destruct ch0 as [c0|]; [|destruct (w_cache w !! c); [done|by right]].
           destruct (decide (c0 = c)) as [->|Hne].
           ++ rewrite lookup_insert in Hv. rewrite Et0. rewrite Hv. left.
           ++ rewrite lookup_insert_ne in Hv by done. destruct (w_cache w !! c); [done|by right].
      * destruct Hs as (Hf & Hk0). by rewrite <- Hf, <- Hk0.
  - intros i j p1 p2 s1 s2 ch1 ch2 Hij Hp1 Hp2 Hs1 Hs2 E1 E2.
    destruct i as [|i], j as [|j]; simpl in *; simplify_eq.
    + eapply Hhead; eauto.
    + split.
      * intros Heq. symmetry in Heq. apply (Hhead i p1 s1 ch2 ch1) in Heq; [|done..].
        destruct Heq as (x & -> & ->). by exists x.
      * intros (x & -> & ->). symmetry. apply (Hhead i p1 s1 (Some x) (Some x)); try done. by exists x.
    + eapply (Hcmp i j); eauto.
  - assert (Hch : choices (p :: l) = (match asks p with Some (Some c) => {[c]} | _ => ∅ end) ∪ choices l).
    { unfold choices. simpl. destruct (asks p) as [[c|]|]; simpl; set_solver. }
    assert (Hun : unshared (p :: l) = ((if decide (asks p = Some None) then 1 else 0) + unshared l)%nat).
    { unfold unshared. rewrite filter_cons. case_decide; done. }
    rewrite Hch, Hun. destruct (asks p) as [[c|]|].
    + rewrite decide_False by done. destruct Hs as [_ Hs]. simpl in Hs. destruct (w_cache w !! c) as [t|] eqn:Et.
      * destruct Hs as (_ & Hf & Hk). rewrite Hf, Hk in *. exists taken. split; [done|]. rewrite Hn.
        assert (({[c]} ∪ choices l) ∖ dom (w_cache w) = choices l ∖ dom (w_cache w)) as ->; [|done].
        apply elem_of_dom_2 in Et. set_solver.
      * destruct Hs as (Hf & Hk). exists (sd_teid s :: taken). rewrite Hf, Htk. split; [done|]. simpl. rewrite Hn, Hk.
        assert (({[c]} ∪ choices l) ∖ dom (w_cache w) =
          {[c]} ∪ (choices l ∖ dom (<[c:=sd_teid s]> (w_cache w)))) as ->.
        { apply not_elem_of_dom in Et. rewrite dom_insert_L. apply leibniz_equiv_iff. intros x.
          destruct (decide (x = c)); set_solver. }
        set (X := choices l ∖ dom (<[c:=sd_teid s]> (w_cache w)) : gset N).
        assert (HX : ({[c]} : gset N) ## X). { unfold X. rewrite dom_insert_L. set_solver. }
        pose proof (size_union ({[c]} : gset N) X HX) as Hsz. rewrite (size_singleton (C := gset N) c) in Hsz.
        rewrite Hsz. lia.
    + rewrite decide_True by done. destruct Hs as [_ (Hf & Hk)]. exists (sd_teid s :: taken).
      rewrite Hf, Htk. split; [done|]. simpl. rewrite Hn, Hk.
      assert ((∅ : gset N) ∪ choices l = choices l) as -> by set_solver. lia.
    + rewrite decide_False by done. destruct Hs as (Hf & Hk). exists taken. rewrite <- Hf, <- Hk. split; [done|].
      rewrite Hn. assert ((∅ : gset N) ∪ choices l = choices l) as -> by set_solver. lia.
Qed.

Lemma rm_ok_nodup rm : rm_ok rm -> NoDup (free_teids rm).
Proof. destruct rm as [r|]; simpl; [intros [(range & l & H) _]; apply H|constructor]. Qed.

(** For an accepted establishment: the TEIDs chosen for two PDRs are equal exactly when both
    give the same CHOOSE_ID, and the pool shrinks by one TEID per different CHOOSE_ID plus
    one per PDR without.  [ks]: keys of the PDRs in request order, the reported ones. *)
Theorem choose_id_sharing :
  forall sh addr seq q c c' r,
    reachable c ->
    handle sh addr seq (SessEstReq q) c = Done c' (Some r) -> r_cause r = Some 1 ->
    exists ks : list (key * bool),
      r_created r = omap (report_of (g_n3 (c_cfg c))) (zip (eq_pdrs q) ks) /\
      length ks = length (eq_pdrs q) /\
      (forall i p ch, eq_pdrs q !! i = Some p -> asks p = Some ch ->
         exists t, ks !! i = Some (Up t, true) /\ t ∈ free_teids (c_rm c)) /\
      (forall i j p p' ch ch' t t', i <> j ->
         eq_pdrs q !! i = Some p -> eq_pdrs q !! j = Some p' -> asks p = Some ch -> asks p' = Some ch' ->
         ks !! i = Some (Up t, true) -> ks !! j = Some (Up t', true) ->
         (t = t' <-> same_choice ch ch')) /\
      exists taken, free_teids (c_rm c) = taken ++ free_teids (c_rm c') /\
        length taken = (size (choices (eq_pdrs q)) + unshared (eq_pdrs q))%nat.
Proof.
  intros sh addr seq q c c' r Hreach H Hr.
  apply reachable_ok in Hreach as [Hok Hrok]. apply rm_ok_nodup in Hrok.
  apply handle_est_inv in H as (remote & a & w & Hseid & Ha & Hw & Hd & Hrm & Hcfg & Hcr & _); [|done].
  apply est_rules_inv in Hw as (w3 & Hc3 & _ & _ & _ & Hp & Hrm3 & Hk3 & _); [|done]. simpl in *.
  destruct (create_pdrs_ok _ _ _ _ Hp) as (new' & Hnew & Hc' & _).
  destruct (create_pdrs_teid _ _ _ _ [] Hp) as (new & Hc & Hlen & Hval & Hcmp & taken & Htk & Hn).
  { by rewrite Hrm3. } { intros t Ht. by apply elem_of_nil in Ht. } { intros x t. by rewrite Hk3. } { intros x y t. by rewrite Hk3. }
  assert (new' = new) as ->.
  { rewrite Hc3 in Hc, Hc'. simpl in *. congruence. }
  exists ((fun s => (spdr_key s, sd_alloc s)) <$> new). split_and!.
  - rewrite Hcr, Hc, Hc3. simpl. apply (process_created_made _ _ _ _ _ Hnew).
  - by rewrite fmap_length.
  - intros i p ch Hi Hask. destruct (lookup_lt_is_Some_2 new i) as [s Hs].
    { rewrite Hlen. by eapply lookup_lt_Some. }
    destruct (Hval i p s ch Hi Hs Hask) as [Hk Hv]. exists (sd_teid s).
    pose proof (Forall2_lookup_lr _ _ _ _ _ _ Hnew Hi Hs) as (_ & _ & Hdet).
    assert (sd_alloc s = true) as Hal.
    { unfold detects, asks in *. destruct (pe_pdi p) as [pdi|]; [|done]. destruct (pi_fteid pdi) as [| |fe]; try done.
      destruct (fe_ch fe); [|done]. by destruct Hdet. }
    rewrite list_lookup_fmap, Hs. simpl. rewrite Hk, Hal. split; [done|].
    rewrite Hk3, Hrm3 in Hv. by destruct ch; [rewrite lookup_empty in Hv|].
  - intros i j p p' ch ch' t t' Hij Hi Hj Ha1 Ha2 Hk1 Hk2. rewrite list_lookup_fmap in Hk1, Hk2.
    destruct (new !! i) as [s|] eqn:Es; [|done]. destruct (new !! j) as [s'|] eqn:Es'; [|done]. simpl in *.
    rewrite <- (Hcmp i j p p' s s' ch ch' Hij Hi Hj Es Es' Ha1 Ha2).
    destruct (Hval i p s ch Hi Es Ha1) as [E1 _]. destruct (Hval j p' s' ch' Hj Es' Ha2) as [E2 _].
    rewrite E1 in Hk1. rewrite E2 in Hk2. simplify_eq. done.
  - exists taken. rewrite <- Hrm3, Hrm. split; [done|]. rewrite Hn, Hk3. simpl.
    rewrite dom_empty_L. by rewrite difference_empty_L.
Qed.

(** ** A concrete establishment *)
Definition ex_ch (id : N) (chid : option N) (far qer : N) : pdr_ie :=
  PdrIe (Some id) (Some 0) (Some far) (Some qer) [] (Some (PdiIe true (Good (FteidIe 0 true chid)) Absent)) None.
Definition ex_dl (id ip far qer : N) : pdr_ie :=
  PdrIe (Some id) None (Some far) (Some qer) [] (Some (PdiIe true Absent (Good (UeipIe false (Some ip) None)))) None.
Definition ex_full : est_req :=
  EstReq (Good 5) (Good 100)
    [FarIe (Some 1) (Some [2]) (Some (Good (OhcIe 256 77 (Some 3232235777) false))) None;
     FarIe (Some 2) (Some [2]) None None]
    [QerIe (Some 1) (Some 0) (Some 0) (Some 10) (Some 20) (Some 9)] [Some 3]
    [ex_ch 1 (Some 4) 2 1; ex_ch 2 (Some 4) 2 1; ex_ch 3 None 2 1; ex_dl 4 167837705 1 1].
Definition ex_assoc : list event := [Recv id_shuffle 7 1 (AssocSetupReq (Good 5) (Good 1))].
Example ex_full_accepted :
  exists c l c' r, run (init ex_cfg ex_rm ex_dp) ex_assoc = Some (c, l) /\
    handle id_shuffle 7 2 (SessEstReq ex_full) c = Done c' (Some r) /\ r_cause r = Some 1 /\
    r_created r = [CreatedTeid 1 1 167772162; CreatedTeid 2 1 167772162; CreatedTeid 3 2 167772162].
Proof. eexists _, _, _, _. vm_compute. repeat split. Qed.
Lemma ex_reachable c l : run (init ex_cfg ex_rm ex_dp) ex_assoc = Some (c, l) -> reachable c.
Proof.
  intros H. exists ex_cfg, ex_rm, 100, 100, 100, 100, ex_assoc, l. split_and!; [|repeat constructor; apply id_shuffle_fair|done].
  right. exists 1000, 167837696, 24. done.
Qed.
