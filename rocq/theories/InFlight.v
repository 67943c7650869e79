(** C73, C74: packets that are processed while the UPF is in the middle of handling a control message.
    The message loop writes one map entry at a time; the XDP program may run between any two of these writes, on any CPU. *)
From Verif Require Import Base IdTracker ResourceManager SdfParser SdfProps MapOps SdfMatch Pfcp PfcpProps PfcpHistory PfcpReach
  PfcpRules PfcpCreate PfcpRemove PfcpReject PfcpInv PfcpAsked PfcpTeid PfcpKeys Qer Csum Xdp XdpBase XdpProps XdpRules XdpFrames XdpEcho XdpEx XdpAccount EndToEnd EndToEndLog.
Open Scope N_scope.

(** ** The states the maps go through *)

(** A handler as a list of operations, each of which writes at most one map entry. *)
Notation steps := (list (work -> res)).
Fixpoint works (l : steps) (w : work) : list work :=
  w :: match l with
       | [] => []
       | f :: r => match f w with ROk w' => works r w' | RErr w' => [w'] | RCrash => [] end
       end.
(** pfcp_session_handlers.go:46-121. *)
Definition est_steps (ueip : bool) (q : est_req) : steps :=
  (create_far <$> eq_fars q) ++ (create_qer <$> eq_qers q) ++ (create_urr <$> eq_urrs q) ++ (create_pdr ueip <$> eq_pdrs q).
(** pfcp_session_handlers.go:258-461. *)
Definition mod_steps (ueip : bool) (sh : shuffle) (q : mod_req) : steps :=
  (create_far <$> mq_cfar q) ++ (update_far_ie <$> mq_ufar q) ++ (remove_far_ie <$> mq_rfar q) ++
  (create_qer <$> mq_cqer q) ++ (update_qer_ie <$> mq_uqer q) ++ (remove_qer_ie <$> mq_rqer q) ++
  (create_urr <$> mq_curr q) ++ (update_urr_ie <$> mq_uurr q) ++ (remove_urr_ie <$> mq_rurr q) ++
  (create_pdr ueip <$> mq_cpdr q) ++ (update_pdr_ie ueip <$> mq_updr q) ++ (remove_pdr_ie sh <$> mq_rpdr q).
(** pfcp_session_handlers.go:166-204. *)
Definition del_steps (sh : shuffle) (s : session) : steps :=
  ((fun e => delete_pdr sh (snd e)) <$> entries sh 0 (s_pdrs s)) ++ (del_far <$> entries sh 1 (s_fars s)) ++
  (del_qer <$> entries sh 2 (s_qers s)) ++ (del_urr <$> entries sh 3 (s_urrs s)).
(** pfcp_connection.go:193-204. *)
Definition prune_steps (sh : shuffle) (s : session) : steps :=
  (ign del_far <$> entries sh 1 (s_fars s)) ++ (ign del_qer <$> entries sh 2 (s_qers s)) ++
  (ign (fun e => delete_pdr sh (snd e)) <$> entries sh 0 (s_pdrs s)).
Fixpoint prune_states (sh : shuffle) (l : list (N * session)) (d : dp) (rm : option rman) : list dp :=
  match l with
  | [] => [d]
  | (_, s) :: r => (w_dp <$> works (prune_steps sh s) (new_work d s rm)) ++
                   match prune_session sh s d rm with Some (d', rm') => prune_states sh r d' rm' | None => [] end
  end.
(** The maps before, between and after the writes of an event. *)
Definition states (c : conn) (e : event) : list dp :=
  match e with
  | Recv sh addr seq (SessEstReq q) =>
      match validate_request (eq_node q) (eq_fseid q), c_assocs c !! addr with
      | Some remote, Some a => w_dp <$> works (est_steps (g_ueip (c_cfg c)) q) (new_work (c_dp c) (new_session (next_seid a) remote) (c_rm c))
      | _, _ => [c_dp c]
      end
  | Recv sh addr seq (SessModReq q) =>
      match session_of c addr (mq_seid q) with
      | Some s => w_dp <$> works (mod_steps (g_ueip (c_cfg c)) sh q)
                             (new_work (c_dp c) (match mq_fseid q with Good r => set_remote r s | _ => s end) (c_rm c))
      | None => [c_dp c]
      end
  | Recv sh addr seq (SessDelReq seid) =>
      match session_of c addr seid with
      | Some s => w_dp <$> works (del_steps sh s) (new_work (c_dp c) s (c_rm c))
      | None => [c_dp c]
      end
  | Recv _ _ _ _ => [c_dp c]
  | HeartbeatFailed sh addr =>
      match c_assocs c !! addr with
      | Some a => c_dp c :: prune_states sh (entries sh 4 (a_sessions a)) (c_dp c) (c_rm c)
      | None => [c_dp c]
      end
  | Traffic marks volumes => [c_dp c; traffic marks volumes (c_dp c)]
  end.

(** *** They are the states of the handlers *)
Notation go := (fun (f : work -> res) (w : work) => f w).
Lemma each_go {A} (f : A -> work -> res) l w : each go (f <$> l) w = each f l w.
Proof. revert w. induction l as [|x l IH]; intros w; [done|]. csimpl. destruct (f x w); simpl; [apply IH|done|done]. Qed.
Lemma each_app {A} (f : A -> work -> res) l l' w : each f (l ++ l') w = rbind (each f l w) (each f l').
Proof. revert w. induction l as [|x l IH]; intros w; [done|]. simpl. destruct (f x w); simpl; [apply IH|done|done]. Qed.
Lemma rbind_ext r k k' : (forall w, k w = k' w) -> rbind r k = rbind r k'.
Proof. intros H. destruct r; simpl; auto. Qed.
Lemma est_steps_run ueip q w : each go (est_steps ueip q) w = est_rules ueip q w.
Proof. unfold est_steps, est_rules. rewrite !each_app, each_go. repeat (apply rbind_ext; intros ?; rewrite ?each_app, each_go). done. Qed.
Lemma mod_steps_run ueip sh q w : each go (mod_steps ueip sh q) w = mod_rules ueip sh q w.
Proof. unfold mod_steps, mod_rules. rewrite each_app, each_go. repeat (apply rbind_ext; intros ?; rewrite ?each_app, each_go). done. Qed.
Lemma del_steps_run sh s w : each go (del_steps sh s) w = del_rules sh s w.
Proof. unfold del_steps, del_rules. rewrite each_app, each_go. repeat (apply rbind_ext; intros ?; rewrite ?each_app, each_go). done. Qed.

Lemma head_map {A B} (f : A -> B) l : head (f <$> l) = f <$> head l.
Proof. by destruct l. Qed.
Lemma works_head l w : head (works l w) = Some w.
Proof. by destruct l. Qed.
Lemma works_last l : forall w, match each go l w with ROk w' | RErr w' => last (works l w) = Some w' | RCrash => True end.
Proof.
  induction l as [|f l IH]; intros w; [done|]. cbn [each works]. destruct (f w) as [w1|w1|]; simpl; [|done|done].
  specialize (IH w1). destruct (each go l w1) as [w2|w2|]; [|..|done]; rewrite last_cons, IH; done.
Qed.
Lemma works_prefix l : forall w wf w', each go l w = ROk wf -> w' ∈ works l w -> exists n, each go (take n l) w = ROk w'.
Proof.
  induction l as [|f l IH]; intros w wf w' H Hw; cbn [works each] in *.
  - apply elem_of_list_singleton in Hw as ->. by exists 0%nat.
  - apply elem_of_cons in Hw as [->|Hw]; [by exists 0%nat|]. destruct (f w) as [w1|w1|] eqn:E; simpl in H; [|done|done].
    destruct (IH _ _ _ H Hw) as [n Hn]. exists (S n). cbn [firstn each]. by rewrite E.
Qed.

Theorem states_are_the_handlers :
  forall c e c' r, step c e = Done c' r -> head (states c e) = Some (c_dp c) /\ last (states c e) = Some (c_dp c').
Proof.
  intros c e c' r H. destruct e as [sh addr seq m|sh addr|marks vols]; simpl in H.
  - destruct m as [t|t|nd t|nd k f|nd|q|q|seid|ty]; simpl in H |- *.
    + unfold handle_hb_req in H. destruct t; by simplify_eq.
    + unfold handle_hb_resp in H. destruct t; by simplify_eq.
    + unfold handle_setup in H. destruct nd as [| |nd]; [by simplify_eq..|]. destruct t as [| |t]; [by simplify_eq..|]. simplify_eq.
      unfold ensure_assoc. by destruct (c_assocs c !! addr).
    + unfold handle_setup_resp in H. assert (Hens : forall x, c_dp (ensure_assoc addr x c) = c_dp c) by (intros x; unfold ensure_assoc; by destruct (c_assocs c !! addr)).
      repeat (case_match; simplify_eq); rewrite ?Hens; done.
    + unfold handle_update in H. repeat (case_match; simplify_eq); done.
    + unfold handle_est in H. destruct (validate_request _ _) as [remote|]; [|by simplify_eq]. destruct (c_assocs c !! addr) as [a|]; [|by simplify_eq].
      destruct (existsb _ _); [done|]. rewrite <- est_steps_run in H. rewrite head_map, fmap_last, works_head. split; [done|].
      match goal with |- context [works ?l ?w] => pose proof (works_last l w) as Hl end.
      destruct (each go _ _) as [w|w|]; simplify_eq; by rewrite Hl.
    + unfold handle_mod in H. unfold session_of. destruct (c_assocs c !! addr) as [a|]; [|by simplify_eq]. simpl.
      destruct (a_sessions a !! mq_seid q) as [s|]; [|by simplify_eq]. destruct (_ || _); [done|]. rewrite <- mod_steps_run in H.
      rewrite head_map, fmap_last, works_head. split; [done|].
      match goal with |- context [works ?l ?w] => pose proof (works_last l w) as Hl end.
      destruct (each go _ _) as [w|w|]; simplify_eq; by rewrite Hl.
    + unfold handle_del in H. unfold session_of. destruct (c_assocs c !! addr) as [a|]; [|by simplify_eq]. simpl.
      destruct (a_sessions a !! seid) as [s|]; [|by simplify_eq]. rewrite <- del_steps_run in H.
      rewrite head_map, fmap_last, works_head. split; [done|].
      match goal with |- context [works ?l ?w] => pose proof (works_last l w) as Hl end.
      destruct (each go _ _) as [w|w|]; simplify_eq; by rewrite Hl.
    + by simplify_eq.
  - unfold prune in H. simpl. destruct (c_assocs c !! addr) as [a|]; [|done]. split; [done|].
    destruct (prune_sessions _ _ _ _) as [[d rm]|] eqn:E; [|done]. simplify_eq. simpl.
    assert (Hp : forall l d0 rm0, prune_sessions sh l d0 rm0 = Some (d, rm) -> last (prune_states sh l d0 rm0) = Some d).
    { clear. induction l as [|[n s] l IH]; intros d0 rm0 H; simpl in H |- *; [by simplify_eq|].
      destruct (prune_session sh s d0 rm0) as [[d1 rm1]|]; [|done]. rewrite last_app. by rewrite (IH _ _ H). }
    rewrite last_cons. by rewrite (Hp _ _ _ E).
  - by simplify_eq.
Qed.

(** ** Other sessions *)

(** *** Requests cut short *)
Definition cut_est (n : nat) (q : est_req) : est_req :=
  let n1 := (n - length (eq_fars q))%nat in let n2 := (n1 - length (eq_qers q))%nat in let n3 := (n2 - length (eq_urrs q))%nat in
  EstReq (eq_node q) (eq_fseid q) (take n (eq_fars q)) (take n1 (eq_qers q)) (take n2 (eq_urrs q)) (take n3 (eq_pdrs q)).
Definition cut_mod (n : nat) (q : mod_req) : mod_req :=
  let n1 := (n - length (mq_cfar q))%nat in let n2 := (n1 - length (mq_ufar q))%nat in let n3 := (n2 - length (mq_rfar q))%nat in
  let n4 := (n3 - length (mq_cqer q))%nat in let n5 := (n4 - length (mq_uqer q))%nat in let n6 := (n5 - length (mq_rqer q))%nat in
  let n7 := (n6 - length (mq_curr q))%nat in let n8 := (n7 - length (mq_uurr q))%nat in let n9 := (n8 - length (mq_rurr q))%nat in
  let n10 := (n9 - length (mq_cpdr q))%nat in let n11 := (n10 - length (mq_updr q))%nat in
  ModReq (mq_seid q) (mq_fseid q) (take n (mq_cfar q)) (take n1 (mq_ufar q)) (take n2 (mq_rfar q))
    (take n3 (mq_cqer q)) (take n4 (mq_uqer q)) (take n5 (mq_rqer q)) (take n6 (mq_curr q)) (take n7 (mq_uurr q)) (take n8 (mq_rurr q))
    (take n9 (mq_cpdr q)) (take n10 (mq_updr q)) (take n11 (mq_rpdr q)).
Lemma cut_est_steps n ueip q : est_steps ueip (cut_est n q) = take n (est_steps ueip q).
Proof. unfold est_steps, cut_est. cbn [eq_fars eq_qers eq_urrs eq_pdrs]. by rewrite !fmap_take, !firstn_app, !fmap_length. Qed.
Lemma cut_mod_steps n ueip sh q : mod_steps ueip sh (cut_mod n q) = take n (mod_steps ueip sh q).
Proof.
  unfold mod_steps, cut_mod. cbn [mq_cfar mq_ufar mq_rfar mq_cqer mq_uqer mq_rqer mq_curr mq_uurr mq_rurr mq_cpdr mq_updr mq_rpdr].
  by rewrite !fmap_take, !firstn_app, !fmap_length.
Qed.
(** A later list is reached only when the earlier one is complete. *)
Lemma later_full {A B} n (l : list A) (k : list B) x : x ∈ take (n - length l) k -> take n l = l.
Proof. intros Hx. destruct (decide (length l <= n)%nat) as [H|H]; [by apply take_ge|]. replace (n - length l)%nat with 0%nat in Hx by lia. by apply elem_of_nil in Hx. Qed.
Lemma elem_take {A} n (l : list A) x : x ∈ take n l -> x ∈ l.
Proof. intros H. rewrite <- (take_drop n l). apply elem_of_app. by left. Qed.
Lemma NoDup_take {A} n (l : list A) : NoDup l -> NoDup (take n l).
Proof. intros H. rewrite <- (take_drop n l) in H. by apply NoDup_app in H as [? _]. Qed.
Lemma cut_mod_careful s q n : careful_mod s q -> careful_mod s (cut_mod n q).
Proof.
  intros [C1 C2 C3 C4 C5 C6]. unfold cut_mod.
  constructor; cbn [mq_cfar mq_ufar mq_rfar mq_cqer mq_uqer mq_rqer].
  - intros f i Hf Hi. rewrite (later_full _ _ _ _ Hf). apply (C1 f); [by eapply elem_take|done].
  - intros f Hf. assert (take n (mq_cfar q) = mq_cfar q) as ->.
    { apply take_ge. destruct (decide (length (mq_cfar q) <= n)%nat) as [?|?]; [done|].
      replace (n - length (mq_cfar q) - length (mq_ufar q))%nat with 0%nat in Hf by lia. by apply elem_of_nil in Hf. }
    apply C2. by eapply elem_take.
  - rewrite fmap_take. by apply NoDup_take.
  - intros f i Hf Hi. rewrite (later_full _ _ _ _ Hf). apply (C4 f); [by eapply elem_take|done].
  - intros f i Hf Hi. revert Hf. generalize (n - length (mq_cfar q) - length (mq_ufar q) - length (mq_rfar q))%nat. intros m Hf.
    assert (take m (mq_cqer q) = mq_cqer q) as ->. { apply take_ge. destruct (decide (length (mq_cqer q) <= m)%nat) as [?|?]; [done|].
      replace (m - length (mq_cqer q) - length (mq_uqer q))%nat with 0%nat in Hf by lia. by apply elem_of_nil in Hf. }
    apply (C5 f); [by eapply elem_take|done].
  - generalize (n - length (mq_cfar q) - length (mq_ufar q) - length (mq_rfar q) - length (mq_cqer q) - length (mq_uqer q))%nat. intros m.
    rewrite <- (take_drop m (mq_rqer q)), omap_app in C6. by apply NoDup_app in C6 as [? _].
Qed.

(** *** Created PDRs are only added to *)
Definition grows (f : work -> res) : Prop := forall w w', f w = ROk w' -> exists l, w_created w' = w_created w ++ l.
Lemma grows_each l : Forall grows l -> forall w w', each go l w = ROk w' -> exists k, w_created w' = w_created w ++ k.
Proof.
  induction 1 as [|f l Hf _ IH]; intros w w' H; cbn [each] in H; [simplify_eq; exists []; by rewrite app_nil_r|].
  apply rbind_ok in H as (w1 & H1 & H2). destruct (Hf _ _ H1) as [k1 E1]. destruct (IH _ _ H2) as [k2 E2].
  exists (k1 ++ k2). by rewrite E2, E1, app_assoc.
Qed.
Lemma keeps_grows {A} (f : A -> work -> res) : (forall x w, keepsP pdr_part w (f x w)) -> forall l, Forall grows (f <$> l).
Proof.
  intros Hf l. apply Forall_forall. intros g (x & -> & _)%elem_of_list_fmap w w' H. specialize (Hf x w). rewrite H in Hf. simpl in Hf.
  exists []. rewrite app_nil_r. by apply created_pdr_part.
Qed.
Lemma create_grows ueip l : Forall grows (create_pdr ueip <$> l).
Proof. apply Forall_forall. intros g (x & -> & _)%elem_of_list_fmap w w' H. apply create_pdr_ok in H as (s & _ & H & _). by exists [s]. Qed.
Lemma update_grows ueip l : Forall grows (update_pdr_ie ueip <$> l).
Proof.
  apply Forall_forall. intros g (x & -> & _)%elem_of_list_fmap w w' H. unfold update_pdr_ie in H. destruct (pe_id x); [|done].
  destruct (extract_pdr _ _ _ _) as [[s|] w2] eqn:E; [|done]. apply extract_pdr_frame in E as (_ & _ & Ec & _).
  destruct (apply_pdr _ _) as [[] d]; simplify_eq. exists []. by rewrite app_nil_r.
Qed.
Lemma remove_grows sh l : Forall grows (remove_pdr_ie sh <$> l).
Proof. apply Forall_forall. intros g (x & -> & _)%elem_of_list_fmap w w' H. exists []. rewrite app_nil_r. apply (remove_pdrs_created sh [x]). cbn [each]. by rewrite H. Qed.
Lemma est_grows ueip q : Forall grows (est_steps ueip q).
Proof.
  unfold est_steps. repeat (apply Forall_app; split); try apply create_grows; apply keeps_grows;
    [apply (proj1 far_frame_pdr)|apply (proj1 qer_frame_pdr)|apply (proj1 urr_frame_pdr)].
Qed.
Lemma mod_grows ueip sh q : Forall grows (mod_steps ueip sh q).
Proof.
  destruct far_frame_pdr as (F1 & F2 & F3 & _), qer_frame_pdr as (Q1 & Q2 & Q3 & _), urr_frame_pdr as (U1 & U2 & U3 & _).
  unfold mod_steps. repeat (apply Forall_app; split); try apply create_grows; try apply update_grows; try apply remove_grows; by apply keeps_grows.
Qed.

(** *** The keys a request touches *)
Lemma Forall2_cut {A B} (R : A -> B -> Prop) n l k k1 k2 : Forall2 R l k -> k = k1 ++ k2 -> length (take n l) = length k1 -> Forall2 R (take n l) k1.
Proof.
  intros H -> Hl. assert (E : k1 = take n (k1 ++ k2)).
  { rewrite take_length in Hl. apply Forall2_length in H. rewrite app_length in H. rewrite firstn_app.
    destruct (decide (n <= length l)%nat).
    - replace (n - length k1)%nat with 0%nat by lia. rewrite take_ge by lia. simpl. by rewrite app_nil_r.
    - assert (length k2 = 0%nat) as ->%nil_length_inv by lia. rewrite take_ge by lia. simpl. by rewrite take_nil, app_nil_r. }
  rewrite E. by apply Forall2_take.
Qed.
Lemma est_keys ueip q w wf r n3 P n w' : est_rules ueip q w = ROk wf -> w_created w = [] ->
  r_created r = process_created n3 (w_created wf) -> tidy_create r P (eq_pdrs q) = true ->
  est_rules ueip (cut_est n q) w = ROk w' -> forall k, k ∈ all_keys P -> dp_find (w_dp w') k = dp_find (w_dp w) k.
Proof.
  intros H Hcr Hr Ht H' k Hk.
  (* what the whole request creates *)
  assert (Hnew : forall s, s ∈ w_created wf -> spdr_key s <> k).
  { pose proof H as H0. unfold est_rules in H0. apply rbind_ok in H0 as (w1 & H1 & H0). apply rbind_ok in H0 as (w2 & H2 & H0). apply rbind_ok in H0 as (w3 & H3 & H4).
    assert (E3 : pdr_part w3 = pdr_part w).
    { rewrite (each_ok_keep _ _ _ _ _ (proj1 urr_frame_pdr) H3), (each_ok_keep _ _ _ _ _ (proj1 qer_frame_pdr) H2), (each_ok_keep _ _ _ _ _ (proj1 far_frame_pdr) H1). done. }
    pose proof (create_pdrs_ok _ _ _ _ H4) as (new & Hmade & Hc & _). rewrite (created_pdr_part _ _ E3), Hcr in Hc. simpl in Hc.
    unfold tidy_create in Ht. rewrite !andb_true_iff in Ht. destruct Ht as ((T1 & T2) & T3). apply bool_decide_eq_true in T1. rewrite forallb_forall in T3.
    assert (Hkeys : Forall2 (fun p s => said_key r p = spdr_key s) (eq_pdrs q) new) by (eapply said_key_made; [exact Hmade|rewrite Hr, Hc; done|done]).
    intros s Hs <-. rewrite Hc in Hs. apply elem_of_list_lookup in Hs as [i Hi]. destruct (Forall2_lookup_r _ _ _ _ _ Hkeys Hi) as (p & Hp & Ek).
    apply elem_of_list_lookup_2, elem_of_list_In, T3 in Hp. apply bool_decide_eq_true in Hp. by rewrite Ek in Hp. }
  (* the part *)
  assert (Hpart : exists l, w_created wf = w_created w' ++ l).
  { rewrite <- est_steps_run, cut_est_steps in H'. rewrite <- est_steps_run in H. pose proof (est_grows ueip q) as G.
    rewrite <- (take_drop n (est_steps ueip q)) in G, H. rewrite each_app, H' in H. simpl in H. apply Forall_app in G as [_ G]. by eapply grows_each. }
  destruct Hpart as [l Hl]. rewrite Hl in Hnew. clear H Hr Ht Hl. unfold est_rules in H'.
  apply rbind_ok in H' as (w1 & H1 & H0). apply rbind_ok in H0 as (w2 & H2 & H0). apply rbind_ok in H0 as (w3 & H3 & H4).
  assert (E3 : pdr_part w3 = pdr_part w).
  { rewrite (each_ok_keep _ _ _ _ _ (proj1 urr_frame_pdr) H3), (each_ok_keep _ _ _ _ _ (proj1 qer_frame_pdr) H2), (each_ok_keep _ _ _ _ _ (proj1 far_frame_pdr) H1). done. }
  pose proof (create_pdrs_ok _ _ _ _ H4) as (new & _ & Hc & _ & _ & Hout & _). rewrite (created_pdr_part _ _ E3), Hcr in Hc. simpl in Hc.
  rewrite Hout; [by apply find_pdr_part|]. intros (s & -> & Hs)%elem_of_list_fmap. apply (Hnew s); [|done]. apply elem_of_app. left. by rewrite Hc.
Qed.
Lemma mod_keys ueip sh q w wf r n3 P pm n w' : mod_rules ueip sh q w = ROk wf -> w_cache w = ∅ -> w_created w = [] ->
  r_created r = process_created n3 (w_created wf) -> tidy_mod r (wfars w, wqers w) P pm q = true ->
  agreeing (far_at (w_ses w)) (qer_at (w_ses w)) (s_pdrs (w_ses w)) pm -> placed (rest (s_pdrs (w_ses w)) (w_dp w)) (upd pm) (s_pdrs (w_ses w)) (w_dp w) ->
  (forall k, owned (s_pdrs (w_ses w)) k -> k ∈ all_keys P) -> (forall k, k ∉ all_keys P -> dp_find (w_dp w) k = None) ->
  mod_rules ueip sh (cut_mod n q) w = ROk w' ->
  forall k, k ∈ all_keys P -> ~ owned (s_pdrs (w_ses w)) k -> dp_find (w_dp w') k = dp_find (w_dp w) k.
Proof.
  intros H Hca Hcr Hr Ht HA HP HO HN H' k Hk Hnk. set (B := rest (s_pdrs (w_ses w)) (w_dp w)) in *.
  unfold tidy_mod in Ht. cbn [fst snd] in Ht. rewrite !andb_true_iff in Ht.
  destruct Ht as ((((((((T1 & T2) & T3) & T4) & _) & T6) & T7) & T8) & _).
  rewrite forallb_forall in T1, T2, T3. unfold tidy_create in T4. rewrite !andb_true_iff in T4. destruct T4 as ((T4a & T4b) & T4c).
  apply bool_decide_eq_true in T4a, T4b. rewrite forallb_forall in T4c.
  assert (HF : forall q', (exists m, mq_cfar q' = take m (mq_cfar q)) -> forall f, f ∈ mq_cfar q' -> s_fars (w_ses w) !! default 0 (fa_id f) = None).
  { intros q' [m Em] f Hf. rewrite Em in Hf. apply elem_take in Hf. apply elem_of_list_In, T1 in Hf. apply bool_decide_eq_true in Hf. unfold wfars, fars_of in Hf. rewrite lookup_fmap in Hf.
    by apply fmap_None in Hf. }
  assert (HQ : forall q', (exists m, mq_cqer q' = take m (mq_cqer q)) -> forall f i, f ∈ mq_cqer q' -> qe_id f = Some i -> s_qers (w_ses w) !! i = None).
  { intros q' [m Em] f i Hf Hi. rewrite Em in Hf. apply elem_take in Hf. apply elem_of_list_In, T2 in Hf. rewrite Hi in Hf. apply bool_decide_eq_true in Hf. unfold wqers, qers_of in Hf. rewrite lookup_fmap in Hf.
    by apply fmap_None in Hf. }
  (* the PDRs the whole request creates *)
  assert (Hall : Forall2 (fun p s => said_key r p = spdr_key s) (mq_cpdr q) (w_created wf) /\ (forall p, p ∈ mq_cpdr q -> is_Some (pe_id p))).
  { destruct (mod_rules_split _ _ _ _ _ H) as (w9 & E9 & _ & Hm & _).
    { apply HF. exists (length (mq_cfar q)). by rewrite firstn_all. } { apply HQ. exists (length (mq_cqer q)). by rewrite firstn_all. }
    unfold mod_pdrs in Hm. apply rbind_ok in Hm as (w10 & H10 & Hm). apply rbind_ok in Hm as (w11 & H11 & H12).
    pose proof (create_pdrs_ok _ _ _ _ H10) as (new & Hmade & Hc10 & _). rewrite (created_pdr_part _ _ E9), Hcr in Hc10. simpl in Hc10.
    assert (Hfin : w_created wf = new).
    { rewrite (remove_pdrs_created _ _ _ _ H12). rewrite <- Hc10. clear -H11. revert w10 w11 H11. induction (mq_updr q) as [|p l IH]; intros w w' H; cbn [each] in H; [by simplify_eq|].
      apply rbind_ok in H as (w1 & H1 & H2). rewrite (IH _ _ H2). unfold update_pdr_ie in H1. destruct (pe_id p); [|done].
      destruct (extract_pdr _ _ _ _) as [[s|] w2] eqn:E; [|done]. apply extract_pdr_frame in E as (_ & _ & Ec & _).
      destruct (apply_pdr _ _) as [[] d]; by simplify_eq. }
    split.
    - rewrite Hfin. eapply said_key_made; [exact Hmade|rewrite Hr, Hfin; done|done].
    - intros p (i & Hn)%elem_of_list_lookup. destruct (Forall2_lookup_l _ _ _ _ _ Hmade Hn) as (s & _ & (-> & _)). done. }
  destruct Hall as [Hkeys Hsome].
  (* the part *)
  assert (Hpart : exists l, w_created wf = w_created w' ++ l).
  { pose proof H' as H0. pose proof H as H1. rewrite <- mod_steps_run, cut_mod_steps in H0. rewrite <- mod_steps_run in H1. pose proof (mod_grows ueip sh q) as G.
    rewrite <- (take_drop n (mod_steps ueip sh q)) in G, H1. rewrite each_app, H0 in H1. simpl in H1. apply Forall_app in G as [_ G]. by eapply grows_each. }
  destruct Hpart as [lrest Hrest].
  destruct (mod_rules_split _ _ _ _ _ H') as (w9 & E9 & Ec9 & Hm & _).
  { apply HF. unfold cut_mod. cbn [mq_cfar]. by eexists. } { apply HQ. unfold cut_mod. cbn [mq_cqer]. by eexists. }
  unfold mod_pdrs in Hm.
  assert (exists n9, mq_cpdr (cut_mod n q) = take n9 (mq_cpdr q) /\ mq_updr (cut_mod n q) = take (n9 - length (mq_cpdr q)) (mq_updr q) /\
    mq_rpdr (cut_mod n q) = take (n9 - length (mq_cpdr q) - length (mq_updr q)) (mq_rpdr q)) as (n9 & Ecr & Eup & Erm).
  { unfold cut_mod. cbn [mq_cpdr mq_updr mq_rpdr]. by eexists. }
  rewrite Ecr, Eup, Erm in Hm. clear Ecr Eup Erm H H' HF HQ T1 T2.
  apply rbind_ok in Hm as (w10 & H10 & Hm). apply rbind_ok in Hm as (w11 & H11 & H12).
  pose proof (pdrs_pdr_part _ _ E9) as ES9.
  (* creation *)
  pose proof (create_pdrs_ok _ _ _ _ H10) as (new & Hmade & Hc10 & _). rewrite (created_pdr_part _ _ E9), Hcr in Hc10. simpl in Hc10.
  assert (Hc' : w_created w' = new).
  { destruct (grows_each _ (update_grows ueip (take (n9 - length (mq_cpdr q)) (mq_updr q))) w10 w11) as [x Hx]; [by rewrite each_go|].
    rewrite (remove_pdrs_created _ _ _ _ H12), <- Hc10. clear -H11. revert w10 w11 H11. generalize (take (n9 - length (mq_cpdr q)) (mq_updr q)).
    induction l as [|p l IH]; intros w w' H; cbn [each] in H; [by simplify_eq|].
    apply rbind_ok in H as (w1 & H1 & H2). rewrite (IH _ _ H2). unfold update_pdr_ie in H1. destruct (pe_id p); [|done].
    destruct (extract_pdr _ _ _ _) as [[s|] w2] eqn:E; [|done]. apply extract_pdr_frame in E as (_ & _ & Ec & _).
    destruct (apply_pdr _ _) as [[] d]; by simplify_eq. }
  assert (Hk9 : Forall2 (fun p s => said_key r p = spdr_key s) (take n9 (mq_cpdr q)) new).
  { eapply Forall2_cut; [exact Hkeys|rewrite Hrest, Hc'; done|]. by apply Forall2_length in Hmade. }
  set (U := fun _ _ : N => True).
  assert (HAU : agreeing U U (s_pdrs (w_ses w)) pm) by (eapply agreeing_mono; [exact HA|..]; done).
  destruct (creates_placed ueip r B (upd pm) U U (take n9 (mq_cpdr q)) w9 w10 pm new H10) as [HP10 HA10].
  { by rewrite (created_pdr_part _ _ E9), Hcr. }
  { done. }
  { rewrite ES9. eapply placed_same; [|exact HP]. intros k'. by apply find_pdr_part. }
  { by rewrite ES9. }
  { intros p i Hp%elem_take Hi. apply elem_of_list_In, T3 in Hp. rewrite Hi in Hp. apply bool_decide_eq_true in Hp. unfold upd. by rewrite Hp. }
  { rewrite fmap_take. apply NoDup_take. by apply NoDup_u16. }
  { intros p i Hp%elem_take Hi. rewrite ES9. apply elem_of_list_In, T3 in Hp. rewrite Hi in Hp. apply bool_decide_eq_true in Hp.
    destruct (s_pdrs (w_ses w) !! i) as [s|] eqn:E; [|done]. destruct (agreeing_l _ _ _ _ _ _ HA E) as (a & Ha & _). congruence. }
  { rewrite fmap_take. by apply NoDup_take. }
  { intros p Hp%elem_take. apply elem_of_list_In, T4c in Hp. apply bool_decide_eq_true in Hp. split.
    - rewrite ES9. intros Hown. by apply HO in Hown.
    - unfold B, rest. destruct (decide _); [done|]. by apply HN. }
  { done. } { done. }
  (* update *)
  set (pm1 := pdrs_created r (take n9 (mq_cpdr q)) pm) in *.
  assert (Hfull : take (n9 - length (mq_cpdr q)) (mq_updr q) = [] /\ take (n9 - length (mq_cpdr q) - length (mq_updr q)) (mq_rpdr q) = [] \/ take n9 (mq_cpdr q) = mq_cpdr q).
  { destruct (decide (length (mq_cpdr q) <= n9)%nat); [right; by apply take_ge|left].
    replace (n9 - length (mq_cpdr q))%nat with 0%nat by lia. done. }
  assert (HP10' : placed B (upd pm1) (s_pdrs (w_ses w10)) (w_dp w10)).
  { eapply placed_upd; [|exact HP10]. intros i _. apply pdrs_created_upd. intros p Hp%elem_take. apply elem_of_list_In, T3 in Hp.
    destruct (pe_id p); [by apply bool_decide_eq_true in Hp|done]. }
  destruct (updates_placed ueip B U U (take (n9 - length (mq_cpdr q)) (mq_updr q)) w10 w11 pm1 H11 HP10' HA10) as (HP11 & HA11 & Ec11); [|done|done|].
  { destruct Hfull as [[-> _]|Ef]; [done|]. unfold pm1. rewrite Ef. apply forallb_forall. intros p Hp%elem_of_list_In%elem_take. rewrite forallb_forall in T6.
    apply T6. by apply elem_of_list_In. }
  set (pm2 := pdrs_updated (take (n9 - length (mq_cpdr q)) (mq_updr q)) pm1) in *.
  assert (Hk11 : forall k', owned (s_pdrs (w_ses w11)) k' -> owned (s_pdrs (w_ses w)) k' \/ k' ∉ all_keys P).
  { intros k' (i & s & Hi & <-). destruct (agreeing_l _ _ _ _ _ _ HA11 Hi) as (a & Ha & [Ka _ _ _ _]). rewrite Ka.
    pose proof (pdrs_updated_keys (take (n9 - length (mq_cpdr q)) (mq_updr q)) pm1 i) as Eu. fold pm2 in Eu. rewrite Ha in Eu. simpl in Eu. symmetry in Eu. apply fmap_Some in Eu as (a1 & Ha1 & Ek1).
    apply pdrs_created_keys in Ha1 as [Ha1|Hin].
    - left. destruct (agreeing_r _ _ _ _ _ _ HA Ha1) as (s1 & Hs1 & [Kb _ _ _ _]). exists i, s1. split; [done|]. congruence.
    - right. rewrite Ek1. apply elem_of_list_fmap in Hin as (p & -> & Hp%elem_take). apply elem_of_list_In, T4c in Hp. by apply bool_decide_eq_true in Hp. }
  assert (Hkw : ~ owned (s_pdrs (w_ses w11)) k) by (intros Ho; by destruct (Hk11 k Ho)).
  (* removal touches own keys only *)
  assert (Hrm : dp_find (w_dp w') k = dp_find (w_dp w11) k).
  { destruct (decide (take (n9 - length (mq_cpdr q) - length (mq_updr q)) (mq_rpdr q) = [])) as [E|E]; [rewrite E in H12; cbn [each] in H12; by simplify_eq|].
    destruct Hfull as [[_ ?]|Ef]; [done|].
    assert (Efu : take (n9 - length (mq_cpdr q)) (mq_updr q) = mq_updr q).
    { destruct (decide (length (mq_updr q) <= n9 - length (mq_cpdr q))%nat); [by apply take_ge|].
      destruct E. replace (n9 - length (mq_cpdr q) - length (mq_updr q))%nat with 0%nat by lia. done. }
    apply orb_true_iff in T7 as [T7|T7]; [apply bool_decide_eq_true in T7; rewrite T7, take_nil in E; done|].
    assert (HP12 : placed B (upd pm2) (s_pdrs (w_ses w')) (w_dp w')).
    { apply (removes_placed sh _ w11 w' B (upd pm2) H12); [|done| |].
      - rewrite Ec11. rewrite (create_pdrs_cache _ _ _ _ H10); [by rewrite Ec9|]. by rewrite Ef.
      - intros k' Hk'. destruct (Hk11 k' Hk') as [Ho|Ho]; [by apply rest_owned|]. unfold B, rest. destruct (decide _); [done|]. by apply HN.
      - intros i j s s' t t' Hi Hj Hli Hlj Hks Hks' Eu. apply (low_octets_spec _ t t' T8); [..|done].
        + destruct (agreeing_l _ _ _ _ _ _ HA11 Hi) as (a & Ha & [Ka _ _ _ _]). unfold rids in Hli. apply elem_of_list_fmap in Hli as (p & Ep & Hp%elem_take).
          apply elem_of_list_omap. exists p. split; [done|]. change (default 0 (pe_id p)) with ((default 0 ∘ pe_id) p). rewrite <- Ep.
          unfold pm2, pm1 in Ha. rewrite Ef, Efu in Ha. rewrite Ha. simpl. congruence.
        + destruct (agreeing_l _ _ _ _ _ _ HA11 Hj) as (a & Ha & [Ka _ _ _ _]). unfold rids in Hlj. apply elem_of_list_fmap in Hlj as (p & Ep & Hp%elem_take).
          apply elem_of_list_omap. exists p. split; [done|]. change (default 0 (pe_id p)) with ((default 0 ∘ pe_id) p). rewrite <- Ep.
          unfold pm2, pm1 in Ha. rewrite Ef, Efu in Ha. rewrite Ha. simpl. congruence. }
    rewrite (pl_out _ _ _ _ HP12), (pl_out _ _ _ _ HP11); [done|done|]. intros (i & s & Hi & Es). apply Hkw. exists i, s. split; [|done].
    rewrite (removes_ids _ _ _ _ H12), foldl_delete_lookup in Hi. by destruct (decide (i ∈ rids _)). }
  rewrite Hrm, (pl_out _ _ _ _ HP11) by done. unfold B. by apply rest_other.
Qed.

(** *** What a deletion touches *)
Record spared (s : session) (d d' : dp) : Prop := {
  sp_keys : forall k, ~ owned (s_pdrs s) k -> dp_find d' k = dp_find d k;
  sp_fars : forall g, (forall i f, s_fars s !! i = Some f -> sf_gid f <> g) -> far_get d' g = far_get d g;
  sp_qers : forall g, (forall i f, s_qers s !! i = Some f -> sq_gid f <> g) -> qer_get d' g = qer_get d g }.
Lemma spared_refl s d : spared s d d.
Proof. by split. Qed.
Lemma spared_trans s d d' d'' : spared s d d' -> spared s d' d'' -> spared s d d''.
Proof. intros [A1 A2 A3] [B1 B2 B3]. split; intros; [rewrite B1, A1|rewrite B2, A2|rewrite B3, A3]; done. Qed.
Lemma works_spared s l : (forall f, f ∈ l -> forall w, ends (f w) (fun w' => spared s (w_dp w) (w_dp w'))) ->
  forall w w', w' ∈ works l w -> spared s (w_dp w) (w_dp w').
Proof.
  induction l as [|f l IH]; intros Hf w w' Hw; cbn [works] in Hw; apply elem_of_cons in Hw as [->|Hw]; try apply spared_refl.
  - by apply elem_of_nil in Hw.
  - pose proof (Hf f ltac:(left) w) as H1. destruct (f w) as [w1|w1|]; simpl in H1.
    + eapply spared_trans; [exact H1|]. apply IH; [|done]. intros g Hg. apply Hf. by right.
    + apply elem_of_list_singleton in Hw as ->. done.
    + by apply elem_of_nil in Hw.
Qed.
Lemma del_far_spared s i f w : s_fars s !! i = Some f -> ends (del_far (i, f) w) (fun w' => spared s (w_dp w) (w_dp w')).
Proof.
  intros Hi. unfold del_far, delete_far, update_far, far_get. simpl. repeat (case_match; simplify_eq); simpl; try apply spared_refl;
    (split; [by intros []|..]; simpl; [|done]); intros g Hg; unfold far_get, arr_get; simpl; destruct (g <? _); try done;
    rewrite lookup_insert_ne; [done|]; by eapply Hg.
Qed.
Lemma del_qer_spared s i f w : s_qers s !! i = Some f -> ends (del_qer (i, f) w) (fun w' => spared s (w_dp w) (w_dp w')).
Proof.
  intros Hi. unfold del_qer, delete_qer, update_qer, qer_get. simpl. repeat (case_match; simplify_eq); simpl; try apply spared_refl;
    (split; [by intros []|..]; simpl; [done|]); intros g Hg; unfold qer_get, arr_get; simpl; destruct (g <? _); try done;
    rewrite lookup_insert_ne; [done|]; by eapply Hg.
Qed.
Lemma del_urr_spared s x w : ends (del_urr x w) (fun w' => spared s (w_dp w) (w_dp w')).
Proof.
  unfold del_urr, delete_urr, update_urr, urr_get. simpl. repeat (case_match; simplify_eq); simpl; try apply spared_refl; (split; [by intros []|done|done]).
Qed.
Lemma del_pdr_spared sh s i p w : s_pdrs s !! i = Some p -> ends (delete_pdr sh p w) (fun w' => spared s (w_dp w) (w_dp w')).
Proof.
  intros Hi. pose proof (delete_pdr_effect sh p w) as He. pose proof (proj2 (proj2 (proj2 pdr_frame_far))) as Hf. pose proof (proj2 (proj2 (proj2 pdr_frame_qer))) as Hq.
  specialize (Hf sh p w). specialize (Hq sh p w).
  destruct (delete_pdr sh p w) as [w'|w'|]; simpl in *; [|..|done]; destruct He as (He & _ & _); split.
  all: try (intros k Hk; apply He; intros ->; apply Hk; by exists i, p).
  all: intros g _; unfold far_part, qer_part in *; unfold far_get, qer_get; congruence.
Qed.
Lemma ign_spared {A} s (f : A -> work -> res) x w : ends (f x w) (fun w' => spared s (w_dp w) (w_dp w')) -> ends (ign f x w) (fun w' => spared s (w_dp w) (w_dp w')).
Proof. unfold ign. by destruct (f x w). Qed.
Lemma del_steps_spared sh s : fair sh -> forall f, f ∈ del_steps sh s -> forall w, ends (f w) (fun w' => spared s (w_dp w) (w_dp w')).
Proof.
  intros Hf f Hin w. unfold del_steps in Hin. rewrite !elem_of_app in Hin. destruct Hin as [H|[H|[H|H]]]; apply elem_of_list_fmap in H as ([i x] & -> & H).
  - apply elem_of_entries in H; [|done]. by eapply del_pdr_spared.
  - apply elem_of_entries in H; [|done]. by apply del_far_spared.
  - apply elem_of_entries in H; [|done]. by apply del_qer_spared.
  - apply del_urr_spared.
Qed.
Lemma prune_steps_spared sh s : fair sh -> forall f, f ∈ prune_steps sh s -> forall w, ends (f w) (fun w' => spared s (w_dp w) (w_dp w')).
Proof.
  intros Hf f Hin w. unfold prune_steps in Hin. rewrite !elem_of_app in Hin. destruct Hin as [H|[H|H]]; apply elem_of_list_fmap in H as ([i x] & -> & H);
    apply elem_of_entries in H; try done; apply ign_spared.
  - by apply del_far_spared.
  - by apply del_qer_spared.
  - by eapply del_pdr_spared.
Qed.
Lemma prune_steps_run sh s d rm : match each go (prune_steps sh s) (new_work d s rm) with
  | ROk w | RErr w => prune_session sh s d rm = Some (w_dp w, w_rm w) | RCrash => prune_session sh s d rm = None end.
Proof.
  unfold prune_session, prune_steps. rewrite each_app, each_go. rewrite (rbind_ext _ _ (fun w => rbind (each (ign del_qer) (entries sh 2 (s_qers s)) w) (fun w =>
    each (ign (fun e => delete_pdr sh (snd e))) (entries sh 0 (s_pdrs s)) w))).
  - by destruct (rbind _ _).
  - intros w. rewrite each_app, each_go. apply rbind_ext. intros w'. by rewrite each_go.
Qed.
Lemma prune_states_spared sh : fair sh -> forall l d rm d', d' ∈ prune_states sh l d rm ->
  (forall k, (forall n s, (n, s) ∈ l -> ~ owned (s_pdrs s) k) -> dp_find d' k = dp_find d k) /\
  (forall g, (forall n s i f, (n, s) ∈ l -> s_fars s !! i = Some f -> sf_gid f <> g) -> far_get d' g = far_get d g) /\
  (forall g, (forall n s i f, (n, s) ∈ l -> s_qers s !! i = Some f -> sq_gid f <> g) -> qer_get d' g = qer_get d g).
Proof.
  intros Hf. induction l as [|[n s] l IH]; intros d rm d' Hd; cbn [prune_states] in Hd.
  - apply elem_of_list_singleton in Hd as ->. done.
  - assert (Hone : forall w, w ∈ works (prune_steps sh s) (new_work d s rm) -> spared s d (w_dp w)).
    { intros w Hw. apply (works_spared s _ (prune_steps_spared sh s Hf) _ _ Hw). }
    apply elem_of_app in Hd as [Hd|Hd].
    + apply elem_of_list_fmap in Hd as (w & -> & Hw). destruct (Hone _ Hw) as [S1 S2 S3]. split_and!.
      * intros k Hk. apply S1. apply (Hk n). by left.
      * intros g Hg. apply S2. intros i f. apply (Hg n). by left.
      * intros g Hg. apply S3. intros i f. apply (Hg n). by left.
    + pose proof (prune_steps_run sh s d rm) as Hr. pose proof (works_last (prune_steps sh s) (new_work d s rm)) as Hl.
      destruct (prune_session sh s d rm) as [[d1 rm1]|] eqn:E; [|by apply elem_of_nil in Hd].
      assert (spared s d d1) as [S1 S2 S3].
      { destruct (each go _ _) as [w|w|]; [|..|done]; apply last_Some_elem_of in Hl; apply Hone in Hl; by simplify_eq. }
      destruct (IH d1 rm1 d') as (I1 & I2 & I3); [done|]. split_and!.
      * intros k Hk. rewrite I1, S1; [done|apply (Hk n); by left|]. intros n' s' Hs'. apply (Hk n'). by right.
      * intros g Hg. rewrite I2, S2; [done|intros i f; apply (Hg n); by left|]. intros n' s' i f Hs'. apply (Hg n'). by right.
      * intros g Hg. rewrite I3, S3; [done|intros i f; apply (Hg n); by left|]. intros n' s' i f Hs'. apply (Hg n'). by right.
Qed.

(** The message of an event concerns a session. *)
Definition about (e : event) (addr seid : N) : Prop :=
  match e with
  | Recv _ a _ m => a = addr /\ names_seid m = Some seid
  | HeartbeatFailed _ a => a = addr
  | Traffic _ _ => False
  end.

Record kept (c : conn) (s : session) (d : dp) : Prop := {
  kp_keys : forall k, owned (s_pdrs s) k -> dp_find d k = dp_find (c_dp c) k;
  kp_fars : forall i f, s_fars s !! i = Some f -> far_get d (sf_gid f) = Some (sf_info f);
  kp_qers : forall i f, s_qers s !! i = Some f -> qer_value d (sq_gid f) = Some (rule_of_qer (sq_info f)) }.

Lemma others_kept n l M P c e c' r d addr seid s : hinv n l c -> n < bound -> careful_history c -> event_fair e -> follows M c -> keyed P c ->
  orderly_step M (e, r) = true -> tidy_step M P (e, r) = true -> step c e = Done c' r -> d ∈ states c e ->
  session_of c addr seid = Some s -> ~ about e addr seid -> kept c s d.
Proof.
  intros Hinv Hn Hca Hfair HM HK Ho Ht H Hd Hs Hab.
  pose proof (orderly_step_careful _ _ _ _ _ HM Ho H) as Hcare.
  pose proof (careful_reachable _ Hca) as Hreach. pose proof (reachable_ok _ Hreach) as [Hok _]. destruct (careful_mirror _ Hca) as [HF HQ].
  assert (Hstay : forall d', (forall k, owned (s_pdrs s) k -> dp_find d' k = dp_find (c_dp c) k) ->
    (forall i f, s_fars s !! i = Some f -> far_get d' (sf_gid f) = far_get (c_dp c) (sf_gid f)) ->
    (forall i f, s_qers s !! i = Some f -> qer_value d' (sq_gid f) = qer_value (c_dp c) (sq_gid f)) -> kept c s d').
  { intros d' H1 H2 H3. split; [done|..].
    - intros i f Hi. rewrite (H2 i f Hi). apply (mi_get _ _ HF addr seid s i (sf_gid f) (sf_info f) Hs). simpl. by rewrite lookup_fmap, Hi.
    - intros i f Hi. rewrite (H3 i f Hi). apply (mi_get _ _ HQ addr seid s i (sq_gid f) (rule_of_qer (sq_info f)) Hs). simpl. by rewrite lookup_fmap, Hi. }
  assert (Hc : kept c s (c_dp c)) by (by apply Hstay).
  destruct e as [sh addr0 seq m|sh addr0|marks vols].
  - destruct m as [t|t|nd t|nd k f|nd|q|q|seid0|ty]; simpl in H; try (simpl in Hd; by apply elem_of_list_singleton in Hd as ->).
    + (* establishment *)
      unfold handle_est in H. simpl in Hd. destruct (validate_request _ _) as [remote|]; [|by apply elem_of_list_singleton in Hd as ->].
      destruct (c_assocs c !! addr0) as [a|] eqn:Ha; [|by apply elem_of_list_singleton in Hd as ->]. destruct (existsb _ _); [done|].
      destruct (est_rules _ _ _) as [w|w|] eqn:Ew; simplify_eq.
      simpl in Ht. apply andb_true_iff in Ht as [Ht1 Ht2].
      match type of Ht1 with tidy_create ?x _ _ = _ => set (r0 := x) in * end.
      set (w0 := new_work (c_dp c) (new_session (next_seid a) remote) (c_rm c)) in *.
      apply elem_of_list_fmap in Hd as (w' & -> & Hw). pose proof Ew as Ew1. rewrite <- est_steps_run in Ew1. destruct (works_prefix _ _ _ _ Ew1 Hw) as [k Hk].
      rewrite <- cut_est_steps, est_steps_run in Hk. clear Ew1 Hw.
      assert (Hv : forall K, kind_ok K -> mirror K c -> vok (all_rules K c) (kview K w')).
      { intros K KO KM. pose proof (ko_est _ KO (all_rules K c) (g_ueip (c_cfg c)) (cut_est k q) w0) as Hm. unfold moves in Hm. rewrite Hk in Hm. simpl in Hm.
        apply Hm; [|done]. apply mirror_fresh_vok; [done|by apply ko_new|done]. }
      split.
      * intros k' Hk'. change (c_dp c) with (w_dp w0). eapply est_keys; [exact Ew|done| |exact Ht1|exact Hk|by eapply keyed_key]. done.
      * intros i f Hi. apply (vk_other _ _ (Hv _ far_kind_ok HF)). exists addr, seid, s, i. split; [done|]. simpl. by rewrite lookup_fmap, Hi.
      * intros i f Hi. apply (vk_other _ _ (Hv _ qer_kind_ok HQ)). exists addr, seid, s, i. split; [done|]. simpl. by rewrite lookup_fmap, Hi.
    + (* modification *)
      unfold handle_mod in H. simpl in Hd. unfold session_of in Hd. destruct (c_assocs c !! addr0) as [a|] eqn:Ha; [|by apply elem_of_list_singleton in Hd as ->].
      simpl in Hd. destruct (a_sessions a !! mq_seid q) as [s0|] eqn:Hs0; [|by apply elem_of_list_singleton in Hd as ->].
      destruct (_ || _); [done|].
      assert (Hse : session_of c addr0 (mq_seid q) = Some s0) by (unfold session_of; by rewrite Ha).
      destruct (mod_rules _ _ _ _) as [w|w|] eqn:Ew; simplify_eq.
      set (s1 := match mq_fseid q with Good r => set_remote r s0 | _ => s0 end) in *.
      assert (s_fars s1 = s_fars s0 /\ s_qers s1 = s_qers s0 /\ s_pdrs s1 = s_pdrs s0) as (F1 & F2 & F3) by (unfold s1; by destruct (mq_fseid q)).
      assert (Hc1 : careful_mod s1 q).
      { specialize (Hcare s0 Hse). unfold s1. destruct (mq_fseid q); [done..|]. by apply careful_mod_remote. }
      destruct (kd_ses _ _ HK _ _ _ Hse) as (pm & Hpm & HA).
      simpl in Ht. rewrite (HM _ _ _ Hse), Hpm in Ht.
      set (r := Resp 53 seq (s_remote (w_ses w)) (Some Accepted) None None (process_created (g_n3 (c_cfg c)) (w_created w)) (w_reports w) None None) in *.
      set (w0 := new_work (c_dp c) s1 (c_rm c)) in *.
      apply elem_of_list_fmap in Hd as (w' & -> & Hw). pose proof Ew as Ew1. rewrite <- mod_steps_run in Ew1. destruct (works_prefix _ _ _ _ Ew1 Hw) as [k Hk].
      rewrite <- cut_mod_steps, mod_steps_run in Hk. clear Ew1 Hw.
      assert (Hne : ~ (addr = addr0 /\ seid = mq_seid q)) by (intros [-> ->]; by apply Hab).
      assert (Hv : forall K, kind_ok K -> mirror K c -> vok (others K c addr0 (mq_seid q)) (kview K w')).
      { intros K KO KM. simpl in Hfair. pose proof (ko_mod _ KO (others K c addr0 (mq_seid q)) (g_ueip (c_cfg c)) sh (cut_mod k q) w0 Hfair (cut_mod_careful _ _ k Hc1)) as Hm.
        unfold moves in Hm. rewrite Hk in Hm. simpl in Hm. apply Hm; [|done]. eapply mirror_vok; [done|exact Hse|]. unfold s1. destruct (mq_fseid q); [done..|]. by apply ko_rem. }
      split.
      * intros k' Hk'. change (c_dp c) with (w_dp w0).
        eapply (mod_keys _ _ _ _ _ r (g_n3 (c_cfg c)) P pm k w'); [exact Ew|done|done|done|..|exact Hk|exact (keyed_key _ _ _ _ _ _ HK Hs Hk')|].
        -- unfold wfars, wqers, fars_of, qers_of. simpl. rewrite F1, F2. exact Ht.
        -- simpl. rewrite F3. unfold far_at, qer_at. rewrite F1, F2. exact HA.
        -- simpl. rewrite F3. split.
           ++ intros i p Hi. by eapply (kd_in _ _ HK).
           ++ intros k1 Hk1. by rewrite rest_other.
           ++ intros i j p p' Hi Hj E. by destruct (kd_one _ _ HK _ _ _ _ _ _ _ _ _ _ Hse Hi Hse Hj E) as (_ & _ & ?).
        -- simpl. rewrite F3. intros k1 Hk1. exact (keyed_key _ _ _ _ _ _ HK Hse Hk1).
        -- intros k1 Hk1. simpl. destruct (dp_find (c_dp c) k1) as [ep|] eqn:Ek; [|done].
           destruct (kd_only _ _ HK _ _ Ek) as (a' & n' & s' & Hs' & Ho'). destruct Hk1. exact (keyed_key _ _ _ _ _ _ HK Hs' Ho').
        -- simpl. rewrite F3. intros (j & p' & Hj & Ej). destruct Hk' as (i & p & Hi & Ei).
           destruct (kd_one _ _ HK _ _ _ _ _ _ _ _ _ _ Hs Hi Hse Hj) as (-> & -> & _); [congruence|]. by apply Hne.
      * intros i f Hi. apply (vk_other _ _ (Hv _ far_kind_ok HF)). exists addr, seid, s, i. split; [done|]. split; [done|]. simpl. by rewrite lookup_fmap, Hi.
      * intros i f Hi. apply (vk_other _ _ (Hv _ qer_kind_ok HQ)). exists addr, seid, s, i. split; [done|]. split; [done|]. simpl. by rewrite lookup_fmap, Hi.
    + (* deletion *)
      simpl in Hd. destruct (session_of c addr0 seid0) as [s0|] eqn:Hse; [|by apply elem_of_list_singleton in Hd as ->].
      apply elem_of_list_fmap in Hd as (w' & -> & Hw). simpl in Hfair. destruct (works_spared s0 _ (del_steps_spared sh s0 Hfair) _ _ Hw) as [S1 S2 S3].
      cbn [w_dp new_work] in S1, S2, S3.
      apply Hstay.
      * intros k Hk. apply S1. intros (j & p' & Hj & Ej). destruct Hk as (i & p & Hi & Ei).
        destruct (kd_one _ _ HK _ _ _ _ _ _ _ _ _ _ Hs Hi Hse Hj) as (-> & -> & _); [congruence|]. by apply Hab.
      * intros i f Hi. apply S2. intros j f' Hj E.
        destruct (mi_inj _ _ HF _ _ _ i (sf_gid f) (sf_info f) _ _ _ j (sf_info f') Hs Hse) as (-> & -> & _); [simpl; rewrite lookup_fmap; rewrite ?Hi, ?Hj; simpl; congruence..|]. by apply Hab.
      * intros i f Hi. unfold qer_value. rewrite S3; [done|]. intros j f' Hj E.
        destruct (mi_inj _ _ HQ _ _ _ i (sq_gid f) (rule_of_qer (sq_info f)) _ _ _ j (rule_of_qer (sq_info f')) Hs Hse) as (-> & -> & _); [simpl; rewrite lookup_fmap; rewrite ?Hi, ?Hj; simpl; congruence..|]. by apply Hab.
  - simpl in Hd. destruct (c_assocs c !! addr0) as [a|] eqn:Ha; [|by apply elem_of_list_singleton in Hd as ->]. simpl in Hfair.
    apply elem_of_cons in Hd as [->|Hd]; [done|].
    destruct (prune_states_spared sh Hfair _ _ _ _ Hd) as (S1 & S2 & S3).
    assert (Hses : forall n' s', (n', s') ∈ entries sh 4 (a_sessions a) -> session_of c addr0 n' = Some s').
    { intros n' s' Hx. apply elem_of_entries in Hx; [|done]. unfold session_of. by rewrite Ha. }
    apply Hstay.
    + intros k Hk. apply S1. intros n' s' Hs' (j & p' & Hj & Ej). destruct Hk as (i & p & Hi & Ei).
      destruct (kd_one _ _ HK _ _ _ _ _ _ _ _ _ _ Hs Hi (Hses _ _ Hs') Hj) as (-> & _); [congruence|]. by apply Hab.
    + intros i f Hi. apply S2. intros n' s' j f' Hs' Hj E.
      destruct (mi_inj _ _ HF _ _ _ i (sf_gid f) (sf_info f) _ _ _ j (sf_info f') Hs (Hses _ _ Hs')) as (-> & _); [simpl; rewrite lookup_fmap; rewrite ?Hi, ?Hj; simpl; congruence..|]. by apply Hab.
    + intros i f Hi. unfold qer_value. rewrite S3; [done|]. intros n' s' j f' Hs' Hj E.
      destruct (mi_inj _ _ HQ _ _ _ i (sq_gid f) (rule_of_qer (sq_info f)) _ _ _ j (rule_of_qer (sq_info f')) Hs (Hses _ _ Hs')) as (-> & _); [simpl; rewrite lookup_fmap; rewrite ?Hi, ?Hj; simpl; congruence..|]. by apply Hab.
  - simpl in Hd. apply elem_of_cons in Hd as [->|Hd%elem_of_list_singleton]; [done|]. subst d. apply Hstay.
    + by intros [k|k|k].
    + done.
    + intros i f Hi. apply (proj1 (ko_traffic _ qer_kind_ok marks vols (c_dp c) (sq_gid f))).
Qed.

(** *** What a packet sees *)

(** The program looks the PDR up first.  The element of a hash map is replaced as a whole.  The elements of the FAR and QER arrays
    are overwritten in place while the program reads their fields one by one through a pointer (xdp/n3n6_entrypoint.c:91-128, 287-326), so
    each field may come from any state from that moment on, and the rate limiter's marks from any packet. *)
Definition reads {V A} (ds : list dp) (get : dp -> option V) (field : V -> A) (v : V) : Prop := exists d, d ∈ ds /\ field <$> get d = Some (field v).
Definition far_read (ds : list dp) (g : N) (o : option far_info) : Prop :=
  match o with
  | Some v => let get d := far_get d g in
      reads ds get fi_action v /\ reads ds get fi_ohc v /\ reads ds get fi_teid v /\ reads ds get fi_remote v /\ reads ds get fi_tlm v
  | None => exists d, d ∈ ds /\ far_get d g = None
  end.
Definition qer_read (ds : list dp) (g : N) (o : option qer_rule) : Prop :=
  match o with
  | Some v => let get d := qer_value d g in
      reads ds get ql_ul_gate v /\ reads ds get ql_dl_gate v /\ reads ds get ql_qfi v /\ reads ds get ql_ul_rate v /\ reads ds get ql_dl_rate v
  | None => exists d, d ∈ ds /\ qer_value d g = None
  end.
Definition sees (ds : list dp) (x : dp) : Prop :=
  exists n d, ds !! n = Some d /\ (forall k, dp_find x k = dp_find d k) /\
    (forall g, far_read (drop n ds) g (far_get x g)) /\ (forall g, qer_read (drop n ds) g (qer_value x g)).
(** [x]: what a packet sees that arrives during [ev], after the events that gave the log [l]. *)
Definition meanwhile (l : log) (ev : event) (r : option response) (x : dp) : Prop :=
  exists g rm p f q u es c c', start_pools rm /\ Forall event_fair es /\ event_fair ev /\ run (init g rm (dp_init p f q u)) es = Some (c, l) /\
    N.of_nat (length es) < bound /\ step c ev = Done c' r /\ tidy (l ++ [(ev, r)]) = true /\ sees (states c ev) x.

(** If every state has the same value, that is what is read. *)
Lemma far_read_same ds g v o : (forall d, d ∈ ds -> far_get d g = Some v) -> far_read ds g o -> o = Some v.
Proof.
  intros H. unfold far_read, reads. destruct o as [v'|]; [|intros (d & Hd & E); rewrite (H _ Hd) in E; done].
  intros ((d1 & H1 & E1) & (d2 & H2 & E2) & (d3 & H3 & E3) & (d4 & H4 & E4) & (d5 & H5 & E5)).
  rewrite (H _ H1) in E1. rewrite (H _ H2) in E2. rewrite (H _ H3) in E3. rewrite (H _ H4) in E4. rewrite (H _ H5) in E5.
  destruct v, v'; simpl in *. congruence.
Qed.
Lemma qer_read_same ds g v o : (forall d, d ∈ ds -> qer_value d g = Some v) -> qer_read ds g o -> o = Some v.
Proof.
  intros H. unfold qer_read, reads. destruct o as [v'|]; [|intros (d & Hd & E); rewrite (H _ Hd) in E; done].
  intros ((d1 & H1 & E1) & (d2 & H2 & E2) & (d3 & H3 & E3) & (d4 & H4 & E4) & (d5 & H5 & E5)).
  rewrite (H _ H1) in E1. rewrite (H _ H2) in E2. rewrite (H _ H3) in E3. rewrite (H _ H4) in E4. rewrite (H _ H5) in E5.
  destruct v, v'; simpl in *. congruence.
Qed.
Lemma elem_drop {A} n (l : list A) x : x ∈ drop n l -> x ∈ l.
Proof. intros H. rewrite <- (take_drop n l). apply elem_of_app. by right. Qed.
(** Each single state can be seen. *)
Lemma sees_state ds d : d ∈ ds -> sees ds d.
Proof.
  intros [n Hn]%elem_of_list_lookup. exists n, d. split; [done|]. split; [done|].
  assert (Hd : d ∈ drop n ds) by (apply elem_of_list_lookup; exists 0%nat; by rewrite lookup_drop, Nat.add_0_r).
  split; intros g.
  - unfold far_read, reads. destruct (far_get d g) as [v|] eqn:E; [|by exists d]. split_and!; exists d; by rewrite E.
  - unfold qer_read, reads. destruct (qer_value d g) as [v|] eqn:E; [|by exists d]. split_and!; exists d; by rewrite E.
Qed.
Lemma kept_seen c s ds x : (forall d, d ∈ ds -> kept c s d) -> sees ds x -> kept c s x.
Proof.
  intros H (n & d & Hn & Hk & Hf & Hq). split.
  - intros k Ho. rewrite Hk. apply (kp_keys _ _ _ (H d (elem_of_list_lookup_2 _ _ _ Hn)) k Ho).
  - intros i f Hi. specialize (Hf (sf_gid f)). eapply far_read_same; [|exact Hf]. intros d' Hd'%elem_drop. by apply (kp_fars _ _ _ (H _ Hd') i).
  - intros i f Hi. specialize (Hq (sq_gid f)). eapply qer_read_same; [|exact Hq]. intros d' Hd'%elem_drop. by apply (kp_qers _ _ _ (H _ Hd') i).
Qed.

Lemma kept_serves l M c addr seid s x : M = asked_in l -> follows M c -> keyed (pdrs_in l) c -> session_of c addr seid = Some s -> kept c s x -> serves l x addr seid.
Proof.
  intros -> HM HK Hs [P1 P2 P3] e f i a Ha [Hkey Hsdf]. pose proof HK as [K1 K2 K3 K4 K5].
  unfold pdr_asked in Ha. destruct (pdrs_in l !! (addr, seid)) as [pm|] eqn:Ep; [|done]. simpl in Ha.
  destruct (K1 _ _ _ Hs) as (pm' & Ep' & HA). assert (pm' = pm) as -> by congruence.
  destruct (agreeing_r _ _ _ _ _ _ HA Ha) as (pd & Hpd & [A1 A2 A3 A4 A5]).
  assert (Hent : entry e x f = Some (entry_of (ak_again a) (sd_info pd))).
  { rewrite entry_key, Hkey, <- A1. rewrite P1 by (by exists i, pd). pose proof (K3 _ _ _ _ _ _ Hs Ep Hpd) as Hx. unfold upd in Hx. by rewrite Ha in Hx. }
  assert (R2 : forall j, ak_far a = Some j -> exists v, asked_far l addr seid j = Some v /\ far_get x (pr_far (sd_info pd)) = Some v).
  { intros j Hj. destruct (A4 j Hj) as (f1 & Hf1 & <-). exists (sf_info f1). split; [|by eapply P2].
    unfold asked_far. rewrite (HM _ _ _ Hs). simpl. unfold fars_of. by rewrite lookup_fmap, Hf1. }
  assert (R3 : forall j, ak_qer a = Some j -> exists v q, asked_qer l addr seid j = Some v /\ qer_get x (pr_qer (sd_info pd)) = Some q /\ rule_of_qer q = v).
  { intros j Hj. destruct (A5 j Hj) as (f1 & Hf1 & <-). pose proof (P3 _ _ Hf1) as Hv. unfold qer_value in Hv.
    destruct (qer_get x (sq_gid f1)) as [q|] eqn:Eq; [|done]. apply (inj Some) in Hv. exists (rule_of_qer (sq_info f1)), q. split_and!; try done.
    unfold asked_qer. rewrite (HM _ _ _ Hs). simpl. unfold qers_of. by rewrite lookup_fmap, Hf1. }
  unfold rule_for. rewrite Hent. unfold select, entry_of. rewrite A3. destruct (ak_sdf a) as [flt|]; simpl.
  - destruct (ak_again a); simpl; rewrite Hsdf; eexists _, _; (split; [done|]); simpl; done.
  - eexists _, _. split; [done|]. simpl. done.
Qed.

Theorem other_sessions_served_partial :
  forall l ev r x addr seid, meanwhile l ev r x -> ~ about ev addr seid -> serves l x addr seid.
Proof.
  intros l ev r x addr seid (g & rm & p & f & q & u & es & c & c' & Hrm & Hf & Hfe & Hrun & Hb & Hstep & Ht & Hx) Hab.
  unfold tidy in Ht. apply tidy_snoc in Ht as (Ht & Ho & Ht2). destruct (tidy_run _ _ _ _ _ _ _ _ _ Hrm Hf Hrun ltac:(lia) Ht) as (Hc & HM & HK).
  pose proof (session_table_follows_log _ _ _ _ _ _ Hrun ltac:(lia)) as Hlive.
  pose proof (run_hinv _ _ _ _ _ _ Hrun ltac:(lia)) as Hinv.
  destruct (session_of c addr seid) as [s|] eqn:Hs.
  - eapply kept_serves; [done|exact HM|exact HK|exact Hs|]. eapply kept_seen; [|exact Hx]. intros d Hd.
    eapply others_kept; [exact Hinv|done|exact Hc|exact Hfe|exact HM|exact HK|exact Ho|exact Ht2|exact Hstep|exact Hd|exact Hs|exact Hab].
  - intros e f0 i a Ha. exfalso. unfold pdr_asked in Ha. destruct (pdrs_in l !! (addr, seid)) as [pm|] eqn:Ep; [|done].
    apply (kd_live _ _ HK) in Ep. rewrite Hs in Ep. by destruct Ep.
Qed.

(** So the packets of every other session are treated as if nothing was going on. *)
Theorem others_blocked_meanwhile_partial :
  forall l ev r x e f addr seid i a j k fv qv, meanwhile l ev r x -> ~ about ev addr seid ->
    pdr_asked l addr seid i = Some a -> applies e a f ->
    ak_far a = Some j -> asked_far l addr seid j = Some fv -> ak_qer a = Some k -> asked_qer l addr seid k = Some qv ->
    N.testbit (fi_action fv) 1 = false \/ ql_gate (dir_of e f) qv <> 0%N ->
    xdp e f x = Some (DROP, Xst f x (rx_counters e f ++ [action 1])).
Proof. intros l ev r x e f addr seid i a j k fv qv Hm Hab. apply blocked_served. by eapply other_sessions_served_partial. Qed.
Theorem others_downlink_meanwhile_partial :
  forall l ev r x e f addr seid i a j k fv qv, meanwhile l ev r x -> ~ about ev addr seid -> env_ok e -> e_head e <> None ->
    pdr_asked l addr seid i = Some a -> applies e a f -> down4 e f = true \/ down6 f = true ->
    ak_far a = Some j -> asked_far l addr seid j = Some fv -> ak_qer a = Some k -> asked_qer l addr seid k = Some qv ->
    N.testbit (fi_action fv) 1 = true -> N.testbit (fi_ohc fv) 0 = true -> far_fits fv -> ql_dl_gate qv = 0%N -> (ql_qfi qv < 64)%N ->
    (down_len e f + 44 < 65536)%N ->
    exists mark, (* of the rate limiter *)
      if fst (limit_rate (N.of_nat (length f)) mark (ql_dl_rate qv) (e_now_dl e)) then
        exists v s, xdp e f x = Some (v, s) /\
          tunnelled (x_f s) f (e_n3 e) (Xdp.le32 (fi_remote fv)) (fi_tlm fv / 256) (ql_qfi qv) (fi_teid fv) (down_len e f) /\
          v = route_verdict e (e_fib e (FibQ 2 (fi_tlm fv / 256) 17 (down_len e f + 44) (e_n3 e) (Xdp.le32 (fi_remote fv)) (e_if e)))
      else xdp e f x = Some (DROP, Xst f x (rx_counters e f ++ [action 1])).
Proof. intros l ev r x e f addr seid i a j k fv qv Hm Hab. apply downlink_served. by eapply other_sessions_served_partial. Qed.
Theorem others_uplink_meanwhile_partial :
  forall l ev r x e f addr seid i a j k fv qv, meanwhile l ev r x -> ~ about ev addr seid -> env_ok e ->
    pdr_asked l addr seid i = Some a -> applies e a f -> gpdu e f = true ->
    ak_far a = Some j -> asked_far l addr seid j = Some fv -> ak_qer a = Some k -> asked_qer l addr seid k = Some qv ->
    N.testbit (fi_action fv) 1 = true -> ql_ul_gate qv = 0%N -> (byte f 14 mod 16 = 5)%N ->
    exists mark,
      if fst (limit_rate (N.of_nat (length f)) mark (ql_ul_rate qv) (e_now_ul e)) then
        exists v s, xdp e f x = Some (v, s) /\
        (* to the data network *)
        (N.testbit (fi_ohc fv) 0 = false -> ak_ohr a = 0%N ->
         forall proto, ip_at f (payload f) = Some proto -> ping_at e f (payload f) = false ->
           drop 12 (x_f s) = proto ++ drop (payload f) f /\
           exists c, routed e (bool_decide (proto = [8; 0]%N)) (take 12 f ++ proto ++ drop (payload f) f) = (v, x_f s, c)) /\
        (* to another UPF *)
        (N.testbit (fi_ohc fv) 0 = true -> far_fits fv -> Forall (fun b => b < 256)%N f ->
         exists g c, routed e true g = (v, x_f s, c) /\ length g = length f /\
           field g 26 4 = e_n9 e /\ field g 30 4 = Xdp.le32 (fi_remote fv) /\ be_value (field g 46 4) = fi_teid fv /\
           (forall n : nat, ~ (24 <= n < 34) -> ~ (40 <= n < 42) -> ~ (46 <= n < 50) -> byte g n = byte f n)%nat)
      else xdp e f x = Some (DROP, Xst f x (rx_counters e f ++ [action 1])).
Proof. intros l ev r x e f addr seid i a j k fv qv Hm Hab. apply uplink_served. by eapply other_sessions_served_partial. Qed.

(** ** The session itself *)

(** *** Establishment: not yet, or as asked *)
Lemma works_cut l : forall w wf n w', each go l w = ROk wf -> works l w !! n = Some w' ->
  each go (take n l) w = ROk w' /\ each go (drop n l) w' = ROk wf /\ forall w2, w2 ∈ drop n (works l w) -> w2 ∈ works (drop n l) w'.
Proof.
  induction l as [|f l IH]; intros w wf n w' H Hw; cbn [works each] in *.
  - destruct n as [|n]; [|done]. simpl in Hw. simplify_eq. done.
  - destruct n as [|n]; simpl in Hw.
    + simplify_eq. cbn [firstn skipn each works]. done.
    + destruct (f w) as [w1|w1|] eqn:E; simpl in H; [|done|done]. destruct (IH _ _ _ _ H Hw) as (A & B & C).
      cbn [firstn skipn each works]. rewrite E. done.
Qed.
Lemma works_keep {A} (proj : work -> A) l : (forall f, f ∈ l -> forall w, keepsP proj w (f w)) -> forall w w', w' ∈ works l w -> proj w' = proj w.
Proof.
  induction l as [|f l IH]; intros Hf w w' Hw; cbn [works] in Hw; apply elem_of_cons in Hw as [->|Hw]; try done.
  - by apply elem_of_nil in Hw.
  - pose proof (Hf f ltac:(left) w) as H1. unfold keepsP in H1. destruct (f w) as [w1|w1|]; simpl in H1.
    + rewrite <- H1. apply IH; [|done]. intros g Hg. apply Hf. by right.
    + apply elem_of_list_singleton in Hw as ->. done.
    + by apply elem_of_nil in Hw.
Qed.
Lemma est_seen ueip q w wf n w' : each go (est_steps ueip q) w = ROk wf -> works (est_steps ueip q) w !! n = Some w' ->
  w_created w = [] -> NoDup (spdr_key <$> w_created wf) ->
  (forall k, dp_find (w_dp w') k = dp_find (w_dp w) k) \/
  ((forall w2, w2 ∈ drop n (works (est_steps ueip q) w) -> far_part w2 = far_part wf /\ qer_part w2 = qer_part wf) /\
   forall k, dp_find (w_dp w') k = dp_find (w_dp wf) k \/ dp_find (w_dp w') k = dp_find (w_dp w) k).
Proof.
  intros H Hw Hcr Hnd. destruct (works_cut _ _ _ _ _ H Hw) as (H1 & H2 & Hlater).
  set (m := length ((create_far <$> eq_fars q) ++ (create_qer <$> eq_qers q) ++ (create_urr <$> eq_urrs q))).
  assert (Es : est_steps ueip q = ((create_far <$> eq_fars q) ++ (create_qer <$> eq_qers q) ++ (create_urr <$> eq_urrs q)) ++ (create_pdr ueip <$> eq_pdrs q)).
  { unfold est_steps. by rewrite !app_assoc. }
  assert (Hpre : forall f, f ∈ ((create_far <$> eq_fars q) ++ (create_qer <$> eq_qers q) ++ (create_urr <$> eq_urrs q)) -> forall w, keepsP pdr_part w (f w)).
  { intros f Hf v. rewrite !elem_of_app in Hf. destruct Hf as [Hf|[Hf|Hf]]; apply elem_of_list_fmap in Hf as (x & -> & _);
      [apply (proj1 far_frame_pdr)|apply (proj1 qer_frame_pdr)|apply (proj1 urr_frame_pdr)]. }
  assert (Hkeep : forall l v v', (forall f, f ∈ l -> forall w, keepsP pdr_part w (f w)) -> each go l v = ROk v' -> pdr_part v' = pdr_part v).
  { intros l v v' Hl Hr. eapply works_keep; [exact Hl|]. pose proof (works_last l v) as Hx. rewrite Hr in Hx. by apply last_Some_elem_of. }
  destruct (decide (n <= m)%nat) as [Hn|Hn].
  - left. intros k. apply find_pdr_part. eapply Hkeep; [|exact H1]. intros f Hf. rewrite Es, firstn_app in Hf.
    replace (n - _)%nat with 0%nat in Hf by (unfold m in Hn; lia). rewrite take_0, app_nil_r in Hf. apply Hpre. by eapply elem_take.
  - right.
    assert (Ed : drop n (est_steps ueip q) = create_pdr ueip <$> drop (n - m) (eq_pdrs q)).
    { rewrite Es, skipn_app, drop_ge by (unfold m in Hn; lia). simpl. by rewrite fmap_drop. }
    assert (Et : take n (est_steps ueip q) = ((create_far <$> eq_fars q) ++ (create_qer <$> eq_qers q) ++ (create_urr <$> eq_urrs q)) ++ (create_pdr ueip <$> take (n - m) (eq_pdrs q))).
    { rewrite Es, firstn_app, (take_ge _ n) by (unfold m in Hn; lia). by rewrite fmap_take. }
    rewrite Ed in H2, Hlater. rewrite Et in H1. clear Ed Et. split.
    + intros w2 Hw2. apply Hlater in Hw2.
      assert (Hfin : wf ∈ works (create_pdr ueip <$> drop (n - m) (eq_pdrs q)) w').
      { pose proof (works_last (create_pdr ueip <$> drop (n - m) (eq_pdrs q)) w') as Hx. rewrite H2 in Hx. by apply last_Some_elem_of in Hx. }
      split.
      * assert (Hk : forall v, v ∈ works (create_pdr ueip <$> drop (n - m) (eq_pdrs q)) w' -> far_part v = far_part w').
        { apply (works_keep far_part). intros f (x & -> & _)%elem_of_list_fmap v. apply (proj1 pdr_frame_far). }
        by rewrite (Hk _ Hw2), (Hk _ Hfin).
      * assert (Hk : forall v, v ∈ works (create_pdr ueip <$> drop (n - m) (eq_pdrs q)) w' -> qer_part v = qer_part w').
        { apply (works_keep qer_part). intros f (x & -> & _)%elem_of_list_fmap v. apply (proj1 pdr_frame_qer). }
        by rewrite (Hk _ Hw2), (Hk _ Hfin).
    + rewrite each_app in H1. apply rbind_ok in H1 as (w3 & H3 & H4). apply (Hkeep _ _ _ Hpre) in H3. rewrite each_go in H4, H2.
      destruct (create_pdrs_ok _ _ _ _ H4) as (new1 & _ & C1 & _ & _ & O1 & _). destruct (create_pdrs_ok _ _ _ _ H2) as (new2 & _ & C2 & _ & _ & O2 & _).
      rewrite (created_pdr_part _ _ H3), Hcr in C1. simpl in C1. rewrite C2, C1, fmap_app in Hnd. apply NoDup_app in Hnd as (_ & Hd & _).
      intros k. destruct (decide (k ∈ (spdr_key <$> new1))) as [Hk|Hk].
      * left. symmetry. apply O2. by apply Hd.
      * right. rewrite O1 by done. by apply find_pdr_part.
Qed.
Lemma run_snoc es : forall c c' l ev c2 r, run c es = Some (c', l) -> step c' ev = Done c2 r -> run c (es ++ [ev]) = Some (c2, l ++ [(ev, r)]).
Proof.
  induction es as [|e es IH]; intros c c' l ev c2 r H Hs; simpl in *; [simplify_eq; by rewrite Hs|].
  destruct (step c e) as [c1 r1|]; [|done]. destruct (run c1 es) as [[c3 l3]|] eqn:E; [|done]. simplify_eq. by rewrite (IH _ _ _ _ _ _ E Hs).
Qed.
Lemma each_state_last c ev c' r : step c ev = Done c' r -> c_dp c' ∈ states c ev.
Proof. intros H. apply states_are_the_handlers in H as [_ H]. by apply last_Some_elem_of in H. Qed.

Theorem established_whole_partial :
  forall l ev r x addr seid e f i a, meanwhile l ev r x -> (addr, seid) ∉ PfcpHistory.live l ->
    (* a PDR of the session that is being established *)
    pdr_asked (l ++ [(ev, r)]) addr seid i = Some a -> applies e a f ->
    (* is not there yet *)
    rule_for e x f = None \/
    (* or works as asked *)
    exists ep rl, rule_for e x f = Some (ep, rl) /\ r_ohr rl = ak_ohr a /\
      (forall j, ak_far a = Some j -> exists v, asked_far (l ++ [(ev, r)]) addr seid j = Some v /\ far_get x (r_far rl) = Some v) /\
      (forall j, ak_qer a = Some j -> exists v q, asked_qer (l ++ [(ev, r)]) addr seid j = Some v /\ qer_get x (r_qer rl) = Some q /\ rule_of_qer q = v).
Proof.
  intros l ev r x addr seid e f0 i a (g & rm & p & f & q & u & es & c & c' & Hrm & Hf & Hfe & Hrun & Hb & Hstep & Ht & Hx) Hnl Ha Hap.
  assert (Haft : after (l ++ [(ev, r)]) (c_dp c')).
  { exists g, rm, p, f, q, u, (es ++ [ev]), c'. split_and!; try done.
    - apply Forall_app. split; [done|]. by constructor.
    - by eapply run_snoc.
    - rewrite app_length. simpl. unfold bound in *. lia.
    - apply packets_nil. }
  pose proof (after_serves _ _ addr seid Haft e f0 i a Ha Hap) as (ep & rl & Hr & Hohr & Hfar & Hqer). clear Haft.
  unfold tidy in Ht. apply tidy_snoc in Ht as (Ht & Ho & Ht2). destruct (tidy_run _ _ _ _ _ _ _ _ _ Hrm Hf Hrun ltac:(lia) Ht) as (Hc & HM & HK).
  pose proof (session_table_follows_log _ _ _ _ _ _ Hrun ltac:(lia) addr seid) as Hlive.
  change (foldl asked_step ∅ l) with (asked_in l) in *. change (foldl pdrs_step ∅ l) with (pdrs_in l) in *.
  assert (HPn : pdrs_in l !! (addr, seid) = None).
  { destruct (pdrs_in l !! (addr, seid)) as [pm|] eqn:Ep; [|done]. destruct Hnl. apply Hlive. by eapply (kd_live _ _ HK). }
  unfold pdr_asked, pdrs_in in Ha. rewrite foldl_app in Ha. cbn [foldl] in Ha. change (foldl pdrs_step ∅ l) with (pdrs_in l) in Ha.
  destruct ev as [sh addr0 seq m|sh addr0|marks vols]; [|exfalso..].
  2: { cbn [pdrs_step] in Ha. destruct (filter _ _ !! _) as [pm|] eqn:E; [|done]. apply map_filter_lookup_Some in E as [E _]. congruence. }
  2: { cbn [pdrs_step] in Ha. by rewrite HPn in Ha. }
  assert (Hest : exists q, m = SessEstReq q).
  { destruct m as [t|t|nd t|nd k f1|nd|q0|q0|seid0|ty]; try (exfalso; cbn [pdrs_step] in Ha; by rewrite HPn in Ha); [by eexists|..]; exfalso; cbn [pdrs_step] in Ha;
      (destruct r as [r|]; [|by rewrite HPn in Ha]); destruct (r_cause r) as [[|[]]|]; try by rewrite HPn in Ha.
    - destruct (decide ((addr0, mq_seid q0) = (addr, seid))) as [E|Hne]; [by rewrite E, lookup_alter, HPn in Ha|by rewrite lookup_alter_ne, HPn in Ha].
    - destruct (decide ((addr0, seid0) = (addr, seid))) as [E|Hne]; [by rewrite E, lookup_delete in Ha|by rewrite lookup_delete_ne, HPn in Ha]. }
  destruct Hest as [q0 ->]. simpl in Hstep. unfold states in Hx.
  unfold handle_est in Hstep. destruct (validate_request _ _) as [remote|]; simplify_eq; [|exfalso; simpl in Ha; by rewrite HPn in Ha].
  destruct (c_assocs c !! addr0) as [a0|] eqn:Ea; simplify_eq; [|exfalso; simpl in Ha; by rewrite HPn in Ha].
  destruct (existsb _ _); [done|].
  destruct (est_rules _ _ _) as [w|w|] eqn:Ew; simplify_eq. simpl in Ht2. apply andb_true_iff in Ht2 as [Ht1 _].
  match type of Ht1 with tidy_create ?y _ _ = _ => set (r0 := y) in * end.
  set (w0 := new_work (c_dp c) (new_session (next_seid a0) remote) (c_rm c)) in *.
  cbn [c_dp set_dp_rm put_session set_assocs] in Hr, Hfar, Hqer.
  (* the keys *)
  unfold tidy_create in Ht1. rewrite !andb_true_iff in Ht1. destruct Ht1 as ((T1 & T2) & T3). apply bool_decide_eq_true in T1, T2. rewrite forallb_forall in T3.
  assert (Hnd : NoDup (spdr_key <$> w_created w)).
  { pose proof Ew as H0. unfold est_rules in H0. apply rbind_ok in H0 as (w1 & H1 & H0). apply rbind_ok in H0 as (w2 & H2 & H0). apply rbind_ok in H0 as (w3 & H3 & H4).
    assert (E3 : pdr_part w3 = pdr_part w0).
    { rewrite (each_ok_keep _ _ _ _ _ (proj1 urr_frame_pdr) H3), (each_ok_keep _ _ _ _ _ (proj1 qer_frame_pdr) H2), (each_ok_keep _ _ _ _ _ (proj1 far_frame_pdr) H1). done. }
    pose proof (create_pdrs_ok _ _ _ _ H4) as (new & Hmade & Hcn & _). rewrite (created_pdr_part _ _ E3) in Hcn. simpl in Hcn.
    assert (Hkeys : Forall2 (fun p s => said_key r0 p = spdr_key s) (eq_pdrs q0) new) by (eapply said_key_made; [exact Hmade|unfold r0; cbn [r_created]; by rewrite Hcn|done]).
    rewrite Hcn. clear -Hkeys T2. assert (E : spdr_key <$> new = said_key r0 <$> eq_pdrs q0); [|by rewrite E].
    clear T2. induction Hkeys as [|p s l k H _ IH]; [done|]. csimpl. by rewrite H, IH. }
  assert (Hka : dp_find (c_dp c) (ak_key a) = None).
  { destruct (dp_find (c_dp c) (ak_key a)) as [ep0|] eqn:Ek; [|done]. exfalso. destruct (kd_only _ _ HK _ _ Ek) as (a1 & n1 & s1 & Hs1 & Ho1).
    pose proof (keyed_key _ _ _ _ _ _ HK Hs1 Ho1) as Hin. change (pdrs_step (pdrs_in l) _) with (<[(addr0, next_seid a0) := pdrs_created r0 (eq_pdrs q0) ∅]> (pdrs_in l)) in Ha.
    destruct (decide ((addr0, next_seid a0) = (addr, seid))) as [E|Hne]; [|by rewrite lookup_insert_ne, HPn in Ha]. rewrite E, lookup_insert in Ha. simpl in Ha.
    apply pdrs_created_keys in Ha as [Ha|Ha]; [by rewrite lookup_empty in Ha|]. apply elem_of_list_fmap in Ha as (pd & Epd & Hpd).
    apply elem_of_list_In, T3 in Hpd. apply bool_decide_eq_true in Hpd. apply Hpd. by rewrite <- Epd. }
  (* what is seen *)
  destruct Hx as (n & d & Hn & Xk & Xf & Xq). rewrite list_lookup_fmap in Hn. apply fmap_Some in Hn as (w' & Hn & ->).
  rewrite <- est_steps_run in Ew. destruct Hap as [Hkey Hsdf].
  assert (Hnone : dp_find x (ak_key a) = None -> rule_for e x f0 = None) by (intros E; unfold rule_for; by rewrite entry_key, Hkey, E).
  destruct (est_seen _ _ _ _ _ _ Ew Hn eq_refl Hnd) as [Hold|[Hpart Hkeys]].
  { left. apply Hnone. rewrite Xk, Hold. done. }
  destruct (Hkeys (ak_key a)) as [Hk|Hk]; [right|left; apply Hnone; rewrite Xk, Hk; done].
  assert (Hent : entry e x f0 = entry e (w_dp w) f0) by (by rewrite !entry_key, Hkey, Xk, Hk).
  exists ep, rl. split; [unfold rule_for in *; by rewrite Hent|]. split; [done|]. split.
  - intros j Hj. destruct (Hfar j Hj) as (v & Hv & Hg). exists v. split; [done|]. eapply far_read_same; [|apply Xf].
    intros d Hd. rewrite <- fmap_drop in Hd. apply elem_of_list_fmap in Hd as (w2 & -> & Hw2). destruct (Hpart _ Hw2) as [E _].
    by rewrite (proj1 (far_part_get _ _ (r_far rl) E)).
  - intros j Hj. destruct (Hqer j Hj) as (v & q1 & Hv & Hg & Hq1). assert (Hx : qer_value x (r_qer rl) = Some v).
    { eapply qer_read_same; [|apply Xq]. intros d Hd. rewrite <- fmap_drop in Hd. apply elem_of_list_fmap in Hd as (w2 & -> & Hw2).
      destruct (Hpart _ Hw2) as [_ E]. unfold qer_value. rewrite (proj1 (qer_part_get _ _ (r_qer rl) E)), Hg. simpl. by rewrite Hq1. }
    unfold qer_value in Hx. destruct (qer_get x (r_qer rl)) as [q2|]; [|done]. apply (inj Some) in Hx. by exists v, q2.
Qed.

(** *** Modification: old or new, if one field of one FAR or QER changes *)
Definition far_fields (v : far_info) : list N := [fi_action v; fi_ohc v; fi_teid v; fi_remote v; fi_tlm v].
Definition qer_fields (v : qer_rule) : list N := [ql_ul_gate v; ql_dl_gate v; ql_qfi v; ql_ul_rate v; ql_dl_rate v].
(** All fields but one agree. *)
Definition all_but_one (a b : list N) : Prop := exists n, forall m, m <> n -> a !! m = b !! m.
Lemma one_of_two a b x : length a = length b -> length x = length a -> all_but_one a b -> (forall m, x !! m = a !! m \/ x !! m = b !! m) -> x = a \/ x = b.
Proof.
  intros Hl Hx [n Hn] H. destruct (H n) as [E|E]; [left|right]; apply list_eq; intros m; destruct (decide (m = n)) as [->|Hne]; try done.
  - destruct (H m) as [?|E2]; [done|]. by rewrite E2, <- Hn.
  - destruct (H m) as [E2|?]; [|done]. by rewrite E2, Hn.
Qed.
Lemma far_read_two ds g v v' o : (forall d, d ∈ ds -> far_get d g = Some v \/ far_get d g = Some v') -> all_but_one (far_fields v) (far_fields v') ->
  far_read ds g o -> o = Some v \/ o = Some v'.
Proof.
  intros H Hone. unfold far_read, reads. destruct o as [x|]; [|intros (d & Hd & E); destruct (H _ Hd); congruence].
  intros ((d1 & H1 & E1) & (d2 & H2 & E2) & (d3 & H3 & E3) & (d4 & H4 & E4) & (d5 & H5 & E5)).
  destruct (one_of_two (far_fields v) (far_fields v') (far_fields x)) as [E|E]; [done|done|exact Hone|..].
  - intros m. destruct m as [|[|[|[|[|m]]]]]; simpl; [..|by left].
    + destruct (H _ H1) as [E|E]; rewrite E in E1; simpl in E1; simplify_eq; [left|right]; by f_equal.
    + destruct (H _ H2) as [E|E]; rewrite E in E2; simpl in E2; simplify_eq; [left|right]; by f_equal.
    + destruct (H _ H3) as [E|E]; rewrite E in E3; simpl in E3; simplify_eq; [left|right]; by f_equal.
    + destruct (H _ H4) as [E|E]; rewrite E in E4; simpl in E4; simplify_eq; [left|right]; by f_equal.
    + destruct (H _ H5) as [E|E]; rewrite E in E5; simpl in E5; simplify_eq; [left|right]; by f_equal.
  - left. destruct x, v; unfold far_fields in E; simpl in E; congruence.
  - right. destruct x, v'; unfold far_fields in E; simpl in E; congruence.
Qed.
Lemma qer_read_two ds g v v' o : (forall d, d ∈ ds -> qer_value d g = Some v \/ qer_value d g = Some v') -> all_but_one (qer_fields v) (qer_fields v') ->
  qer_read ds g o -> o = Some v \/ o = Some v'.
Proof.
  intros H Hone. unfold qer_read, reads. destruct o as [x|]; [|intros (d & Hd & E); destruct (H _ Hd); congruence].
  intros ((d1 & H1 & E1) & (d2 & H2 & E2) & (d3 & H3 & E3) & (d4 & H4 & E4) & (d5 & H5 & E5)).
  destruct (one_of_two (qer_fields v) (qer_fields v') (qer_fields x)) as [E|E]; [done|done|exact Hone|..].
  - intros m. destruct m as [|[|[|[|[|m]]]]]; simpl; [..|by left].
    + destruct (H _ H1) as [E|E]; rewrite E in E1; simpl in E1; simplify_eq; [left|right]; by f_equal.
    + destruct (H _ H2) as [E|E]; rewrite E in E2; simpl in E2; simplify_eq; [left|right]; by f_equal.
    + destruct (H _ H3) as [E|E]; rewrite E in E3; simpl in E3; simplify_eq; [left|right]; by f_equal.
    + destruct (H _ H4) as [E|E]; rewrite E in E4; simpl in E4; simplify_eq; [left|right]; by f_equal.
    + destruct (H _ H5) as [E|E]; rewrite E in E5; simpl in E5; simplify_eq; [left|right]; by f_equal.
  - left. destruct x, v; unfold qer_fields in E; simpl in E; congruence.
  - right. destruct x, v'; unfold qer_fields in E; simpl in E; congruence.
Qed.
Lemma far_read_eq ds g o0 o : (forall d, d ∈ ds -> far_get d g = o0) -> far_read ds g o -> o = o0.
Proof.
  intros H Hr. destruct o0 as [v|]; [by eapply far_read_same|]. destruct o as [v|]; [|done]. destruct Hr as ((d & Hd & E) & _). by rewrite (H _ Hd) in E.
Qed.
Lemma qer_read_eq ds g o0 o : (forall d, d ∈ ds -> qer_value d g = o0) -> qer_read ds g o -> o = o0.
Proof.
  intros H Hr. destruct o0 as [v|]; [by eapply qer_read_same|]. destruct o as [v|]; [|done]. destruct Hr as ((d & Hd & E) & _). by rewrite (H _ Hd) in E.
Qed.

(** [x] agrees with the state before or after the event. *)
Definition agrees (d x : dp) : Prop :=
  (forall k, dp_find x k = dp_find d k) /\ (forall g, far_get x g = far_get d g) /\ (forall g, qer_value x g = qer_value d g).
Lemma agrees_serves g rm p f q u es c l x : start_pools rm -> Forall event_fair es -> run (init g rm (dp_init p f q u)) es = Some (c, l) ->
  N.of_nat (length es) <= bound -> tidy l = true -> agrees (c_dp c) x -> forall addr seid, serves l x addr seid.
Proof.
  intros Hrm Hf Hrun Hb Ht (X1 & X2 & X3) addr seid. destruct (tidy_run _ _ _ _ _ _ _ _ _ Hrm Hf Hrun Hb Ht) as (Hc & HM & HK).
  destruct (careful_mirror _ Hc) as [HF HQ]. destruct (session_of c addr seid) as [s|] eqn:Hs.
  - eapply kept_serves; [done|exact HM|exact HK|exact Hs|]. split.
    + intros k _. apply X1.
    + intros i f0 Hi. rewrite X2. apply (mi_get _ _ HF addr seid s i (sf_gid f0) (sf_info f0) Hs). simpl. by rewrite lookup_fmap, Hi.
    + intros i f0 Hi. rewrite X3. apply (mi_get _ _ HQ addr seid s i (sq_gid f0) (rule_of_qer (sq_info f0)) Hs). simpl. by rewrite lookup_fmap, Hi.
  - intros e f0 i a Ha. exfalso. unfold pdr_asked in Ha. destruct (pdrs_in l !! (addr, seid)) as [pm|] eqn:Ep; [|done].
    apply (kd_live _ _ HK) in Ep. rewrite Hs in Ep. by destruct Ep.
Qed.

Definition mod_far (seid : N) (fs : fld N) (f : far_ie) : msg := SessModReq (ModReq seid fs [] [f] [] [] [] [] [] [] [] [] [] []).
Definition mod_qer (seid : N) (fs : fld N) (q : qer_ie) : msg := SessModReq (ModReq seid fs [] [] [] [] [q] [] [] [] [] [] [] []).
Lemma sees_one d x : sees [d] x -> agrees d x.
Proof.
  intros (n & d' & Hn & X1 & X2 & X3). destruct n as [|n]; [|done]. simpl in Hn. simplify_eq. simpl in X2, X3. split_and!; [done|..]; intros g.
  - eapply far_read_eq; [|apply X2]. by intros d ->%elem_of_list_singleton.
  - eapply qer_read_eq; [|apply X3]. by intros d ->%elem_of_list_singleton.
Qed.
Lemma single_mod M sh addr seq q c c' r x F : orderly_step M (Recv sh addr seq (SessModReq q), r) = true ->
  step c (Recv sh addr seq (SessModReq q)) = Done c' r -> mod_steps (g_ueip (c_cfg c)) sh q = [F] -> sees (states c (Recv sh addr seq (SessModReq q))) x ->
  agrees (c_dp c) x \/
  exists s s1 w, session_of c addr (mq_seid q) = Some s /\ s_fars s1 = s_fars s /\ s_qers s1 = s_qers s /\ F (new_work (c_dp c) s1 (c_rm c)) = ROk w /\
    c_dp c' = w_dp w /\ session_of c' addr (mq_seid q) = Some (w_ses w) /\ sees [c_dp c; w_dp w] x.
Proof.
  intros Ho H HF Hx. simpl in H. cbn [states] in Hx. destruct (session_of c addr (mq_seid q)) as [s|] eqn:Hs; [right|left; by apply sees_one].
  unfold handle_mod in H. pose proof Hs as Hs0. unfold session_of in Hs0. destruct (c_assocs c !! addr) as [a|] eqn:Ha; [|done]. simpl in Hs0. rewrite Hs0 in H.
  destruct (_ || _); [done|]. rewrite <- mod_steps_run, HF in H. rewrite HF in Hx.
  set (s1 := match mq_fseid q with Good r => set_remote r s | _ => s end) in *. cbn [each works] in H, Hx.
  destruct (F (new_work (c_dp c) s1 (c_rm c))) as [w|w|] eqn:Ew; cbn [rbind] in H; simplify_eq. exists s, s1, w. split_and!; try done.
  - unfold s1. by destruct (mq_fseid q).
  - unfold s1. by destruct (mq_fseid q).
  - unfold session_of, put_session. simpl. rewrite lookup_insert. simpl. by rewrite lookup_insert.
Qed.
Lemma sees_two d d' x : sees [d; d'] x -> (forall k, dp_find d' k = dp_find d k) ->
  (forall k, dp_find x k = dp_find d k) /\
  (forall g, exists ds, far_read ds g (far_get x g) /\ forall y, y ∈ ds -> y = d \/ y = d') /\
  (forall g, exists ds, qer_read ds g (qer_value x g) /\ forall y, y ∈ ds -> y = d \/ y = d').
Proof.
  intros (n & d0 & Hn & X1 & X2 & X3) Hk.
  assert (Hds : forall y, y ∈ drop n [d; d'] -> y = d \/ y = d') by (intros y Hy%elem_drop; set_solver).
  split_and!.
  - intros k. rewrite X1. apply elem_of_list_lookup_2 in Hn. rewrite elem_of_cons, elem_of_list_singleton in Hn. by destruct Hn as [->| ->].
  - intros g. exists (drop n [d; d']). done.
  - intros g. exists (drop n [d; d']). done.
Qed.

Theorem far_update_old_or_new_partial :
  forall l sh addr seq seid fs f r x j v v', let ev := Recv sh addr seq (mod_far seid fs f) in
    meanwhile l ev r x -> fa_id f = Some j ->
    asked_far l addr seid j = Some v -> asked_far (l ++ [(ev, r)]) addr seid j = Some v' -> all_but_one (far_fields v) (far_fields v') ->
    (forall addr' seid', serves l x addr' seid') \/ (forall addr' seid', serves (l ++ [(ev, r)]) x addr' seid').
Proof.
  intros l sh addr seq seid fs f r x j v v' ev (g & rm & p & f0 & q0 & u & es & c & c' & Hrm & Hf & Hfe & Hrun & Hb & Hstep & Ht & Hx) Hj Hv Hv' Hone.
  pose proof (run_snoc _ _ _ _ _ _ _ Hrun Hstep) as Hrun'.
  assert (Hf' : Forall event_fair (es ++ [ev])) by (apply Forall_app; split; [done|by constructor]).
  assert (Hb' : N.of_nat (length (es ++ [ev])) <= bound) by (rewrite app_length; simpl; unfold bound in *; lia).
  pose proof Ht as Ht0. unfold tidy in Ht0. apply tidy_snoc in Ht0 as (Ht0 & Ho & _).
  enough (agrees (c_dp c) x \/ agrees (c_dp c') x) as [Hag|Hag].
  { left. intros a n. eapply agrees_serves; [exact Hrm|exact Hf|exact Hrun|lia|exact Ht0|exact Hag]. }
  { right. intros a n. eapply agrees_serves; [exact Hrm|exact Hf'|exact Hrun'|exact Hb'|exact Ht|exact Hag]. }
  destruct (tidy_run _ _ _ _ _ _ _ _ _ Hrm Hf Hrun ltac:(lia) Ht0) as (Hc & HM & _).
  destruct (tidy_run _ _ _ _ _ _ _ _ _ Hrm Hf' Hrun' Hb' Ht) as (_ & HM' & _). clear Hrun Hrun' Ht Ht0 Hf Hf'.
  pose proof (orderly_step_careful _ _ _ _ _ HM Ho Hstep) as Hcare.
  destruct (single_mod _ _ _ _ _ _ _ _ _ (update_far_ie f) Ho Hstep eq_refl Hx) as [Hag|(s & s1 & w & Hs & F1 & F2 & Hw & Hd & Hs' & Hx2)]; [by left|]. clear Hx.
  cbn [mq_seid] in Hs, Hs'. specialize (Hcare s Hs).
  destruct (cm_ufar _ _ Hcare f j) as [[f1 Hf1]|Hin]; [cbn [mq_ufar]; left|done| |by apply elem_of_nil in Hin].
  unfold asked_far in Hv, Hv'. rewrite (HM _ _ _ Hs) in Hv. rewrite (HM' _ _ _ Hs') in Hv'. simpl in Hv, Hv'. unfold fars_of in Hv, Hv'.
  rewrite lookup_fmap, Hf1 in Hv. simpl in Hv. apply (inj Some) in Hv as <-.
  unfold update_far_ie in Hw. rewrite Hj in Hw. destruct (far_crash f); [done|]. unfold get_far in Hw. cbn [new_work w_ses] in Hw. rewrite F1, Hf1 in Hw. simpl in Hw.
  destruct (compose_far f (sf_info f1)) as [i|]; [|done]. unfold update_far in Hw. simpl in Hw.
  destruct (N.ltb_spec (sf_gid f1) (d_far_size (c_dp c))) as [Hlt|]; [|done]. simplify_eq. simpl in Hv', Hd, Hx2. rewrite lookup_fmap, lookup_insert in Hv'. simpl in Hv'. apply (inj Some) in Hv' as <-.
  rewrite Hd. destruct (sees_two _ _ _ Hx2) as (X1 & X2 & X3); [by intros []|].
  assert (G0 : far_get (c_dp c) (sf_gid f1) = Some (sf_info f1)).
  { destruct (careful_mirror _ Hc) as [HF _]. apply (mi_get _ _ HF addr seid s j (sf_gid f1) (sf_info f1) Hs). simpl. by rewrite lookup_fmap, Hf1. }
  assert (G1 : far_get (set_far (<[sf_gid f1 := i]> (d_far (c_dp c))) (c_dp c)) (sf_gid f1) = Some i).
  { unfold far_get, arr_get. simpl. rewrite (proj2 (N.ltb_lt _ _) Hlt). by rewrite lookup_insert. }
  assert (G2 : forall g, g <> sf_gid f1 -> far_get (set_far (<[sf_gid f1 := i]> (d_far (c_dp c))) (c_dp c)) g = far_get (c_dp c) g).
  { intros g1 Hg1. unfold far_get, arr_get. simpl. by rewrite lookup_insert_ne. }
  assert (Q : forall g, qer_value x g = qer_value (c_dp c) g).
  { intros g1. destruct (X3 g1) as (ds & Hr & Hds). eapply qer_read_eq; [|exact Hr]. intros y Hy. by destruct (Hds y Hy) as [->| ->]. }
  assert (R : forall g, g <> sf_gid f1 -> far_get x g = far_get (c_dp c) g).
  { intros g1 Hg1. destruct (X2 g1) as (ds & Hr & Hds). eapply far_read_eq; [|exact Hr]. intros y Hy. destruct (Hds y Hy) as [->| ->]; [done|by apply G2]. }
  destruct (X2 (sf_gid f1)) as (ds & Hr & Hds).
  destruct (far_read_two ds (sf_gid f1) (sf_info f1) i _ (fun y Hy => ltac:(destruct (Hds y Hy) as [->| ->]; [by left|by right])) Hone Hr) as [E|E]; [left|right]; (split_and!; [intros k; rewrite X1; by destruct k|..|by intros g1; rewrite Q]);
    intros g1; destruct (decide (g1 = sf_gid f1)) as [->|Hne]; try (by rewrite E, ?G0, ?G1); rewrite R by done; [done|by rewrite G2].
Qed.
Theorem qer_update_old_or_new_partial :
  forall l sh addr seq seid fs q r x j v v', let ev := Recv sh addr seq (mod_qer seid fs q) in
    meanwhile l ev r x -> qe_id q = Some j ->
    asked_qer l addr seid j = Some v -> asked_qer (l ++ [(ev, r)]) addr seid j = Some v' -> all_but_one (qer_fields v) (qer_fields v') ->
    (forall addr' seid', serves l x addr' seid') \/ (forall addr' seid', serves (l ++ [(ev, r)]) x addr' seid').
Proof.
  intros l sh addr seq seid fs q r x j v v' ev (g & rm & p & f0 & q0 & u & es & c & c' & Hrm & Hf & Hfe & Hrun & Hb & Hstep & Ht & Hx) Hj Hv Hv' Hone.
  pose proof (run_snoc _ _ _ _ _ _ _ Hrun Hstep) as Hrun'.
  assert (Hf' : Forall event_fair (es ++ [ev])) by (apply Forall_app; split; [done|by constructor]).
  assert (Hb' : N.of_nat (length (es ++ [ev])) <= bound) by (rewrite app_length; simpl; unfold bound in *; lia).
  pose proof Ht as Ht0. unfold tidy in Ht0. apply tidy_snoc in Ht0 as (Ht0 & Ho & _).
  enough (agrees (c_dp c) x \/ agrees (c_dp c') x) as [Hag|Hag].
  { left. intros a n. eapply agrees_serves; [exact Hrm|exact Hf|exact Hrun|lia|exact Ht0|exact Hag]. }
  { right. intros a n. eapply agrees_serves; [exact Hrm|exact Hf'|exact Hrun'|exact Hb'|exact Ht|exact Hag]. }
  destruct (tidy_run _ _ _ _ _ _ _ _ _ Hrm Hf Hrun ltac:(lia) Ht0) as (Hc & HM & _).
  destruct (tidy_run _ _ _ _ _ _ _ _ _ Hrm Hf' Hrun' Hb' Ht) as (_ & HM' & _). clear Hrun Hrun' Ht Ht0 Hf Hf'.
  pose proof (orderly_step_careful _ _ _ _ _ HM Ho Hstep) as Hcare.
  destruct (single_mod _ _ _ _ _ _ _ _ _ (update_qer_ie q) Ho Hstep eq_refl Hx) as [Hag|(s & s1 & w & Hs & F1 & F2 & Hw & Hd & Hs' & Hx2)]; [by left|]. clear Hx.
  cbn [mq_seid] in Hs, Hs'. specialize (Hcare s Hs).
  destruct (cm_uqer _ _ Hcare q j) as [[f1 Hf1]|Hin]; [cbn [mq_uqer]; left|done| |by apply elem_of_nil in Hin].
  unfold asked_qer in Hv, Hv'. rewrite (HM _ _ _ Hs) in Hv. rewrite (HM' _ _ _ Hs') in Hv'. simpl in Hv, Hv'. unfold qers_of in Hv, Hv'.
  rewrite lookup_fmap, Hf1 in Hv. simpl in Hv. apply (inj Some) in Hv as <-.
  unfold update_qer_ie in Hw. rewrite Hj in Hw. unfold get_qer in Hw. cbn [new_work w_ses] in Hw. rewrite F2, Hf1 in Hw. simpl in Hw.
  set (i := compose_qer q (sq_info f1)) in *. unfold update_qer in Hw. simpl in Hw.
  destruct (N.ltb_spec (sq_gid f1) (d_qer_size (c_dp c))) as [Hlt|]; [|done]. simplify_eq. simpl in Hv', Hd, Hx2. rewrite lookup_fmap, lookup_insert in Hv'. simpl in Hv'. apply (inj Some) in Hv' as <-.
  rewrite Hd. destruct (sees_two _ _ _ Hx2) as (X1 & X2 & X3); [by intros []|].
  set (d' := set_qer (<[sq_gid f1 := i]> (d_qer (c_dp c))) (c_dp c)) in *.
  assert (G0 : qer_value (c_dp c) (sq_gid f1) = Some (rule_of_qer (sq_info f1))).
  { destruct (careful_mirror _ Hc) as [_ HQ]. apply (mi_get _ _ HQ addr seid s j (sq_gid f1) (rule_of_qer (sq_info f1)) Hs). simpl. by rewrite lookup_fmap, Hf1. }
  assert (G1 : qer_value d' (sq_gid f1) = Some (rule_of_qer i)).
  { unfold d', qer_value, qer_get, arr_get. simpl. rewrite (proj2 (N.ltb_lt _ _) Hlt). by rewrite lookup_insert. }
  assert (G2 : forall g, g <> sq_gid f1 -> qer_value d' g = qer_value (c_dp c) g).
  { intros g1 Hg1. unfold d', qer_value, qer_get, arr_get. simpl. by rewrite lookup_insert_ne. }
  assert (Q : forall g, far_get x g = far_get (c_dp c) g).
  { intros g1. destruct (X2 g1) as (ds & Hr & Hds). eapply far_read_eq; [|exact Hr]. intros y Hy. by destruct (Hds y Hy) as [->| ->]. }
  assert (R : forall g, g <> sq_gid f1 -> qer_value x g = qer_value (c_dp c) g).
  { intros g1 Hg1. destruct (X3 g1) as (ds & Hr & Hds). eapply qer_read_eq; [|exact Hr]. intros y Hy. destruct (Hds y Hy) as [->| ->]; [done|by apply G2]. }
  destruct (X3 (sq_gid f1)) as (ds & Hr & Hds).
  destruct (qer_read_two ds (sq_gid f1) (rule_of_qer (sq_info f1)) (rule_of_qer i) _ (fun y Hy => ltac:(destruct (Hds y Hy) as [->| ->]; [by left|by right])) Hone Hr) as [E|E]; [left|right];
    (split_and!; [intros k; rewrite X1; by destruct k|by intros g1; rewrite Q|]);
    intros g1; destruct (decide (g1 = sq_gid f1)) as [->|Hne]; try (by rewrite E, ?G0, ?G1); rewrite R by done; [done|by rewrite G2].
Qed.

(** ** Cases *)
Definition ex_event (es : list event) (ev : event) (P : conn -> log -> option response -> bool) : bool :=
  match ex_start es with
  | Some (c, l) => match step c ev with Done c' r => tidy (l ++ [(ev, r)]) && P c l r | Crash => false end
  | None => false
  end.
Lemma ex_event_inv es ev P : Forall event_fair es -> event_fair ev -> (N.of_nat (length es) <? bound) = true -> ex_event es ev P = true ->
  exists c l r, P c l r = true /\ forall x, sees (states c ev) x -> meanwhile l ev r x.
Proof.
  intros Hf Hfe Hb H. unfold ex_event in H. destruct (ex_start es) as [[c l]|] eqn:Ec; [|discriminate H].
  destruct (step c ev) as [c' r|] eqn:Es; [|discriminate H]. apply andb_true_iff in H as [Ht HP]. exists c, l, r. split; [exact HP|]. intros x Hx.
  exists ex_cfg, ex_small_rm, 8, 8, 8, 8, es, c, c'. split; [right; by exists 8, 167837696, 29|]. split; [exact Hf|]. split; [exact Hfe|]. split; [exact Ec|]. clear Ec.
  split; [by apply N.ltb_lt|]. split; [exact Es|]. clear Es. split; [exact Ht|exact Hx].
Qed.
(** A state with one element of the FAR or QER array torn. *)
Definition some_field {V} (ds : list dp) (get : dp -> option V) (field : V -> N) (v : V) : bool :=
  existsb (fun d => match get d with Some w => field w =? field v | None => false end) ds.
Lemma some_field_reads {V} ds (get : dp -> option V) field v : some_field ds get field v = true -> reads ds get field v.
Proof.
  unfold some_field. rewrite existsb_exists. intros (d & Hd%elem_of_list_In & H). exists d. split; [done|].
  destruct (get d) as [w|]; [|done]. apply N.eqb_eq in H. simpl. by rewrite H.
Qed.
Definition far_torn (ds : list dp) (g : N) (v : far_info) : bool :=
  let get d := far_get d g in
  some_field ds get fi_action v && some_field ds get fi_ohc v && some_field ds get fi_teid v && some_field ds get fi_remote v && some_field ds get fi_tlm v.
Definition qer_torn (ds : list dp) (g : N) (v : qer_rule) : bool :=
  let get d := qer_value d g in
  some_field ds get ql_ul_gate v && some_field ds get ql_dl_gate v && some_field ds get ql_qfi v && some_field ds get ql_ul_rate v && some_field ds get ql_dl_rate v.
Definition with_far (g : N) (v : far_info) (d : dp) : dp := set_far (<[g := v]> (d_far d)) d.
Definition with_qer (g : N) (v : qer_info) (d : dp) : dp := set_qer (<[g := v]> (d_qer d)) d.
Lemma far_own ds d g : d ∈ ds -> far_read ds g (far_get d g).
Proof. intros Hd. unfold far_read, reads. destruct (far_get d g) as [v|] eqn:E; [|by exists d]. split_and!; exists d; by rewrite E. Qed.
Lemma qer_own ds d g : d ∈ ds -> qer_read ds g (qer_value d g).
Proof. intros Hd. unfold qer_read, reads. destruct (qer_value d g) as [v|] eqn:E; [|by exists d]. split_and!; exists d; by rewrite E. Qed.
Lemma sees_far ds d r g v : ds = d :: r -> far_torn ds g v = true -> sees ds (with_far g v d).
Proof.
  intros -> H. assert (Hd : d ∈ d :: r) by left. exists 0%nat, d. split; [done|]. split; [by intros []|]. cbn [skipn]. split; intros g'; [|by apply (qer_own _ d)].
  unfold with_far, far_get at 1, arr_get. simpl. destruct (decide (g' = g)) as [->|Hne].
  - rewrite lookup_insert. destruct (N.ltb_spec g (d_far_size d)) as [Hlt|Hge].
    + unfold far_torn in H. rewrite !andb_true_iff in H. destruct H as ((((H1 & H2) & H3) & H4) & H5). simpl. unfold far_read. split_and!; by apply some_field_reads.
    + exists d. split; [done|]. unfold far_get, arr_get. by rewrite (proj2 (N.ltb_ge _ _) Hge).
  - rewrite lookup_insert_ne by done. by apply (far_own _ d).
Qed.
Lemma sees_qer ds d r g v : ds = d :: r -> qer_torn ds g (rule_of_qer v) = true -> sees ds (with_qer g v d).
Proof.
  intros -> H. assert (Hd : d ∈ d :: r) by left. exists 0%nat, d. split; [done|]. split; [by intros []|]. cbn [skipn]. split; intros g'; [by apply (far_own _ d)|].
  unfold with_qer, qer_value at 1, qer_get, arr_get. simpl. destruct (decide (g' = g)) as [->|Hne].
  - rewrite lookup_insert. destruct (N.ltb_spec g (d_qer_size d)) as [Hlt|Hge].
    + unfold qer_torn in H. rewrite !andb_true_iff in H. destruct H as ((((H1 & H2) & H3) & H4) & H5). simpl. unfold qer_read. split_and!; by apply some_field_reads.
    + exists d. split; [done|]. unfold qer_value, qer_get, arr_get. by rewrite (proj2 (N.ltb_ge _ _) Hge).
  - rewrite lookup_insert_ne by done. by apply (qer_own _ d).
Qed.

(** *** A handover: the new address with the old TEID *)
Definition ex_handover : event := ex_recv 3 (mod_far 2 Absent (FarIe (Some 1) None (Some (Good (OhcIe 256 86 (Some 167772171) false))) None)).
Definition sent_to (r : option (verdict * xst)) (addr : list N) (teid : N) : bool :=
  match r with Some (REDIRECT i, s) => (i =? 7) && bool_decide (field (x_f s) 30 4 = addr) && (be_value (field (x_f s) 46 4) =? teid) | _ => false end.
Lemma sent_to_inv r addr teid : sent_to r addr teid = true -> exists s, r = Some (REDIRECT 7, s) /\ field (x_f s) 30 4 = addr /\ be_value (field (x_f s) 46 4) = teid.
Proof.
  unfold sent_to. destruct r as [[[] s]|]; try discriminate. rewrite !andb_true_iff, bool_decide_eq_true, !N.eqb_eq. intros [[-> H] H']. by exists s.
Qed.
Theorem handover_torn_refuted :
  exists l ev r x f a v v' s, meanwhile l ev r x /\
    pdr_asked l 7 2 2 = Some a /\ pdr_asked (l ++ [(ev, r)]) 7 2 2 = Some a /\ applies ex_env a f /\ ak_far a = Some 1 /\
    asked_far l 7 2 1 = Some v /\ asked_far (l ++ [(ev, r)]) 7 2 1 = Some v' /\
    (* the packet goes to the new node, but into a tunnel it does not have *)
    xdp ex_env f x = Some (REDIRECT 7, s) /\ field (x_f s) 30 4 = Xdp.le32 (fi_remote v') /\ be_value (field (x_f s) 46 4) = fi_teid v /\
    fi_remote v <> fi_remote v' /\ fi_teid v <> fi_teid v'.
Proof.
  set (es := [ex_setup; ex_recv 2 (SessEstReq ex_both)]). set (v := Far 2 1 85 (Pfcp.le32 167772169) 10240). set (v' := Far 2 1 86 (Pfcp.le32 167772171) 10240).
  set (t := Far 2 1 85 (Pfcp.le32 167772171) 10240).
  destruct (ex_event_inv es ex_handover (fun c l r => let l' := l ++ [(ex_handover, r)] in
    plain_is l 7 2 2 (Dn4 171704321) 1 1 && plain_is l' 7 2 2 (Dn4 171704321) 1 1 && far_is (asked_far l 7 2 1) v && far_is (asked_far l' 7 2 1) v' &&
    match states c ex_handover with d :: _ => far_torn (states c ex_handover) 0 t && sent_to (xdp ex_env ex_down (with_far 0 t d)) [10; 0; 0; 11] 85 | [] => false end))
    as (c & l & r & H & Hm); [repeat constructor; apply id_shuffle_fair|apply id_shuffle_fair|by vm_compute|by vm_compute|].
  cbv zeta in H. rewrite !andb_true_iff in H. destruct H as ((((H1%plain_is_inv & H2%plain_is_inv) & H3%bool_decide_eq_true) & H4%bool_decide_eq_true) & H5).
  destruct (states c ex_handover) as [|d ds] eqn:Ed; [discriminate H5|]. apply andb_true_iff in H5 as [H5 H6].
  apply sent_to_inv in H6 as (s & H6 & H7 & H8). exists l, ex_handover, r, (with_far 0 t d), ex_down. eexists _, v, v', s.
  split; [apply Hm; by eapply sees_far|]. split; [exact H1|]. split; [exact H2|]. split; [by vm_compute|]. split; [done|]. split; [exact H3|]. split; [exact H4|].
  split; [exact H6|]. clear H6. split; [rewrite H7; by vm_compute|]. split; [rewrite H8; by vm_compute|]. split; by vm_compute.
Qed.

(** *** A deletion: for a moment a closed gate is open *)
Definition ex_shut : est_req :=
  EstReq (Good 5) (Good 100) [ex_both_far_dl; ex_both_far_ul] [QerIe (Some 1) (Some 1) (Some 1) (Some 10000) (Some 10000) (Some 9)] [] [ex_both_ch; ex_both_ul; ex_both_dl].
Definition ex_delete : event := ex_recv 3 (SessDelReq 2).
Theorem deletion_opens_gate_refuted :
  exists l ev r x f a qv s, meanwhile l ev r x /\
    pdr_asked l 7 2 1 = Some a /\ pdr_asked (l ++ [(ev, r)]) 7 2 1 = None /\ applies ex_env a f /\ gpdu ex_env f = true /\
    ak_qer a = Some 1 /\ asked_qer l 7 2 1 = Some qv /\ ql_ul_gate qv = 1 /\
    (* with the rules before it would be dropped, after it there is no rule; it is forwarded to the data network *)
    xdp ex_env f x = Some (REDIRECT 7, s) /\ x_f s = ex_up_sent.
Proof.
  set (es := [ex_setup; ex_recv 2 (SessEstReq ex_shut)]).
  destruct (ex_event_inv es ex_delete (fun c l r => let l' := l ++ [(ex_delete, r)] in
    plain_is l 7 2 1 (Up 256) 2 1 && negb (bool_decide (is_Some (pdr_asked l' 7 2 1))) && qer_is (asked_qer l 7 2 1) 1 1 9 10000000 10000000 &&
    match states c ex_delete with d :: _ => qer_torn (states c ex_delete) 0 (rule_of_qer qer0) && out_is (xdp ex_env ex_up0 (with_qer 0 qer0 d)) (REDIRECT 7) ex_up_sent | [] => false end))
    as (c & l & r & H & Hm); [repeat constructor; apply id_shuffle_fair|apply id_shuffle_fair|by vm_compute|by vm_compute|].
  cbv zeta in H. rewrite !andb_true_iff in H. destruct H as (((H1%plain_is_inv & H2%negb_true_iff) & H3%qer_is_inv) & H5).
  apply bool_decide_eq_false in H2.
  destruct (states c ex_delete) as [|d ds] eqn:Ed; [discriminate H5|]. apply andb_true_iff in H5 as [H5 H6].
  apply out_is_ok in H6 as (s & H6 & H7). exists l, ex_delete, r, (with_qer 0 qer0 d), ex_up0. eexists _, _, s.
  split; [apply Hm; by eapply sees_qer|]. split; [exact H1|]. split; [destruct (pdr_asked (l ++ [(ex_delete, r)]) 7 2 1); [destruct H2; by eexists|done]|].
  split; [by vm_compute|]. split; [by vm_compute|]. split; [done|]. split; [exact H3|]. split; [done|]. split; [exact H6|exact H7].
Qed.

(** *** The hypotheses of the theorems are met *)
Definition ex_two : list event := [ex_setup; ex_recv 2 (SessEstReq ex_both); ex_recv 3 (ex_est_pdrs [ex_upg 1 300 1; ex_dns 2 171704322 2])].
(** Session 3 is half deleted - one PDR gone, the other not; the packets of session 2 are sent. *)
Example ex_meanwhile : exists l r x, let ev := ex_recv 4 (SessDelReq 3) in meanwhile l ev r x /\ ~ about ev 7 2 /\
  dp_find x (Up 300) = None /\ is_Some (dp_find x (Dn4 171704322)) /\
  pdr_asked l 7 2 2 = Some (PdrAsk (Dn4 171704321) 0 (Some 1) (Some 1) None false) /\
  asked_far l 7 2 1 = Some (Far 2 1 85 (Pfcp.le32 167772169) 10240) /\ asked_qer l 7 2 1 = Some (QerRule 0 0 9 10000000 10000000) /\
  frame_key ex_env ex_down = Some (Dn4 171704321) /\
  out_is (xdp ex_env ex_down x) (REDIRECT 7) ex_down_sent = true /\ out_is (xdp ex_env ex_up0 x) (REDIRECT 7) ex_up_sent = true.
Proof.
  destruct (ex_event_inv ex_two (ex_recv 4 (SessDelReq 3)) (fun c l r =>
    plain_is l 7 2 2 (Dn4 171704321) 1 1 && far_is (asked_far l 7 2 1) (Far 2 1 85 (Pfcp.le32 167772169) 10240) && qer_is (asked_qer l 7 2 1) 0 0 9 10000000 10000000 &&
    match states c (ex_recv 4 (SessDelReq 3)) !! 1%nat with Some d =>
      negb (bool_decide (is_Some (dp_find d (Up 300)))) && bool_decide (is_Some (dp_find d (Dn4 171704322))) &&
      out_is (xdp ex_env ex_down d) (REDIRECT 7) ex_down_sent && out_is (xdp ex_env ex_up0 d) (REDIRECT 7) ex_up_sent | None => false end))
    as (c & l & r & H & Hm); [repeat constructor; apply id_shuffle_fair|apply id_shuffle_fair|by vm_compute|by vm_compute|].
  rewrite !andb_true_iff in H. destruct H as (((H1%plain_is_inv & H2%bool_decide_eq_true) & H3%qer_is_inv) & H4).
  destruct (states c (ex_recv 4 (SessDelReq 3)) !! 1%nat) as [d|] eqn:Ed; [|discriminate H4]. rewrite !andb_true_iff in H4.
  destruct H4 as (((H4%negb_true_iff%bool_decide_eq_false & H5%bool_decide_eq_true) & H6) & H7).
  exists l, r, d. cbv zeta. split; [apply Hm; apply sees_state; by eapply elem_of_list_lookup_2|]. split; [intros [_ H]; simpl in H; congruence|].
  split; [destruct (dp_find d (Up 300)); [destruct H4; by eexists|done]|]. split; [exact H5|]. split; [exact H1|]. split; [exact H2|]. split; [exact H3|].
  split; [by vm_compute|]. split; [exact H6|exact H7].
Qed.
(** Session 2 is half established: its uplink works, its downlink is not known yet. *)
Example ex_establishing : exists l r x, let ev := ex_recv 2 (SessEstReq ex_both) in let l' := l ++ [(ev, r)] in meanwhile l ev r x /\ (7, 2) ∉ PfcpHistory.live l /\
  pdr_asked l' 7 2 2 = Some (PdrAsk (Dn4 171704321) 0 (Some 1) (Some 1) None false) /\ pdr_asked l' 7 2 1 = Some (PdrAsk (Up 256) 0 (Some 2) (Some 1) None false) /\
  out_is (xdp ex_env ex_down x) PASS ex_down = true /\ out_is (xdp ex_env ex_up0 x) (REDIRECT 7) ex_up_sent = true.
Proof.
  destruct (ex_event_inv [ex_setup] (ex_recv 2 (SessEstReq ex_both)) (fun c l r => let l' := l ++ [(ex_recv 2 (SessEstReq ex_both), r)] in
    plain_is l' 7 2 2 (Dn4 171704321) 1 1 && plain_is l' 7 2 1 (Up 256) 2 1 && bool_decide ((7, 2) ∉ PfcpHistory.live l) &&
    match states c (ex_recv 2 (SessEstReq ex_both)) !! 5%nat with Some d =>
      out_is (xdp ex_env ex_down d) PASS ex_down && out_is (xdp ex_env ex_up0 d) (REDIRECT 7) ex_up_sent | None => false end))
    as (c & l & r & H & Hm); [repeat constructor; apply id_shuffle_fair|apply id_shuffle_fair|by vm_compute|by vm_compute|].
  cbv zeta in H. rewrite !andb_true_iff in H. destruct H as (((H1%plain_is_inv & H2%plain_is_inv) & H3%bool_decide_eq_true) & H4).
  destruct (states c (ex_recv 2 (SessEstReq ex_both)) !! 5%nat) as [d|] eqn:Ed; [|discriminate H4]. apply andb_true_iff in H4 as [H4 H5].
  exists l, r, d. cbv zeta. split; [apply Hm; apply sees_state; by eapply elem_of_list_lookup_2|]. split; [exact H3|]. split; [exact H1|]. split; [exact H2|]. split; [exact H4|exact H5].
Qed.
(** The downlink FAR of session 2 is being changed from forwarding to dropping; likewise its QER's gate. *)
Definition ex_stop : event := ex_recv 3 (mod_far 2 Absent (FarIe (Some 1) (Some [1]) None None)).
Definition ex_gate : event := ex_recv 3 (mod_qer 2 Absent (QerIe (Some 1) (Some 1) None None None None)).
Example ex_stopping : exists l r x v v', let l' := l ++ [(ex_stop, r)] in meanwhile l ex_stop r x /\
  asked_far l 7 2 1 = Some v /\ asked_far l' 7 2 1 = Some v' /\ v <> v' /\ all_but_one (far_fields v) (far_fields v').
Proof.
  destruct (ex_event_inv [ex_setup; ex_recv 2 (SessEstReq ex_both)] ex_stop (fun c l r => let l' := l ++ [(ex_stop, r)] in
    far_is (asked_far l 7 2 1) (Far 2 1 85 (Pfcp.le32 167772169) 10240) && far_is (asked_far l' 7 2 1) (Far 1 1 85 (Pfcp.le32 167772169) 10240) &&
    match states c ex_stop with [_; _] => true | _ => false end))
    as (c & l & r & H & Hm); [repeat constructor; apply id_shuffle_fair|apply id_shuffle_fair|by vm_compute|by vm_compute|].
  cbv zeta in H. rewrite !andb_true_iff in H. destruct H as ((H1%bool_decide_eq_true & H2%bool_decide_eq_true) & H3).
  destruct (states c ex_stop) as [|d [|d' ds]] eqn:Ed; [discriminate H3|discriminate H3|]. exists l, r, d'. eexists _, _. cbv zeta.
  split; [apply Hm, sees_state; right; left|]. split; [exact H1|]. split; [exact H2|]. split; [done|]. exists 0%nat. by intros [|m].
Qed.
Example ex_gating : exists l r x v v', let l' := l ++ [(ex_gate, r)] in meanwhile l ex_gate r x /\
  asked_qer l 7 2 1 = Some v /\ asked_qer l' 7 2 1 = Some v' /\ v <> v' /\ all_but_one (qer_fields v) (qer_fields v').
Proof.
  destruct (ex_event_inv [ex_setup; ex_recv 2 (SessEstReq ex_both)] ex_gate (fun c l r => let l' := l ++ [(ex_gate, r)] in
    qer_is (asked_qer l 7 2 1) 0 0 9 10000000 10000000 && qer_is (asked_qer l' 7 2 1) 0 1 9 10000000 10000000 &&
    match states c ex_gate with [_; _] => true | _ => false end))
    as (c & l & r & H & Hm); [repeat constructor; apply id_shuffle_fair|apply id_shuffle_fair|by vm_compute|by vm_compute|].
  cbv zeta in H. rewrite !andb_true_iff in H. destruct H as ((H1%qer_is_inv & H2%qer_is_inv) & H3).
  destruct (states c ex_gate) as [|d [|d' ds]] eqn:Ed; [discriminate H3|discriminate H3|]. exists l, r, d'. eexists _, _. cbv zeta.
  split; [apply Hm, sees_state; right; left|]. split; [exact H1|]. split; [exact H2|]. split; [done|]. exists 1%nat. by intros [|[|m]].
Qed.

(** ** C73 in general *)
(** A message about session 3 that removes a QER which session 3 does not have: the gate of session 2 opens. *)
Definition ex_rm_unknown : event := ex_recv 4 (SessModReq (ModReq 3 Absent [] [] [] [] [] [QerIe (Some 9) None None None None None] [] [] [] [] [] [])).
Theorem others_disturbed_refuted :
  exists es c l c' r d a qv f s,
    Forall event_fair es /\ ex_start es = Some (c, l) /\ step c ex_rm_unknown = Done c' (Some r) /\ r_cause r = Some 1 /\ ~ about ex_rm_unknown 7 2 /\
    d ∈ states c ex_rm_unknown /\
    (* session 2 has closed the gate for its packets; it is asked for before and after *)
    pdr_asked l 7 2 1 = Some a /\ applies ex_env a f /\ ak_qer a = Some 1 /\ asked_qer l 7 2 1 = Some qv /\ ql_ul_gate qv = 1 /\
    asked_qer (l ++ [(ex_rm_unknown, Some r)]) 7 2 1 = Some qv /\
    (* forwarded *)
    xdp ex_env f d = Some (REDIRECT 7, s).
Proof.
  set (es := [ex_setup; ex_recv 2 (SessEstReq ex_shut); ex_recv 3 (ex_est_pdrs [ex_upg 1 300 1; ex_dns 2 171704322 2])]).
  assert (H : match ex_start es with Some (c, l) => match step c ex_rm_unknown with Done c' (Some r) =>
     bool_decide (r_cause r = Some 1) && plain_is l 7 2 1 (Up 256) 2 1 && qer_is (asked_qer l 7 2 1) 1 1 9 10000000 10000000 &&
     qer_is (asked_qer (l ++ [(ex_rm_unknown, Some r)]) 7 2 1) 1 1 9 10000000 10000000 &&
     match states c ex_rm_unknown !! 1%nat with Some d => out_is (xdp ex_env ex_up0 d) (REDIRECT 7) ex_up_sent | None => false end | _ => false end | None => false end = true) by (by vm_compute).
  destruct (ex_start es) as [[c l]|] eqn:Ec; [|discriminate H]. destruct (step c ex_rm_unknown) as [c' [r|]|] eqn:Es; [|discriminate H|discriminate H].
  rewrite !andb_true_iff in H. destruct H as ((((H1%bool_decide_eq_true & H2%plain_is_inv) & H3%qer_is_inv) & H4%qer_is_inv) & H5).
  destruct (states c ex_rm_unknown !! 1%nat) as [d|] eqn:Ed; [|discriminate H5]. apply out_is_ok in H5 as (s & H5 & H6).
  exists es, c, l, c', r, d. eexists _, _, ex_up0, s.
  split; [repeat constructor; apply id_shuffle_fair|]. split; [exact Ec|]. clear Ec. split; [exact Es|]. clear Es. split; [exact H1|]. split; [intros [_ Hx]; cbn in Hx; congruence|].
  split; [exact (elem_of_list_lookup_2 _ _ _ Ed)|]. clear Ed. split; [exact H2|]. split; [by vm_compute|]. split; [reflexivity|]. split; [exact H3|]. split; [reflexivity|]. split; [exact H4|exact H5].
Qed.
