(** C12 over logs: what the data plane has is what the requests in the log asked for. *)
From Verif Require Import Base IdTracker ResourceManager SdfParser MapOps Pfcp PfcpProps PfcpHistory PfcpReach PfcpRules PfcpRemove
  PfcpReject PfcpInv.

(** ** What the requests ask for, read off the log alone *)

(** A FAR after a Create FAR (over zeros) or an Update FAR: what the IE has replaces what was there. *)
Definition far_said (f : far_ie) (old : far_info) : far_info :=
  Far (match fa_apply f with Some (a :: _) => a | _ => fi_action old end)
      (match fa_fwd f with Some (Good o) => u8 (oh_desc o / 256) | _ => fi_ohc old end)
      (match fa_fwd f with Some (Good o) => oh_teid o | _ => fi_teid old end)
      (match fa_fwd f with Some (Good o) => match oh_v4 o with Some a => le32 a | None => fi_remote old end | _ => fi_remote old end)
      (default (fi_tlm old) (fa_tlm f)).
(** Likewise a QER: gates, QFI, maximum bit rates (kbit/s, kept in bit/s modulo 2^32). *)
Definition qer_said (q : qer_ie) (old : qer_rule) : qer_rule :=
  QerRule (default (ql_ul_gate old) (qe_gate_ul q)) (default (ql_dl_gate old) (qe_gate_dl q)) (default (ql_qfi old) (qe_qfi q))
    (match qe_mbr_ul q with Some v => u32 (u32 v * 1000) | None => ql_ul_rate old end)
    (match qe_mbr_dl q with Some v => u32 (u32 v * 1000) | None => ql_dl_rate old end).
Definition qer_rule0 : qer_rule := QerRule 0 0 0 0 0.

Definition fars_created (l : list far_ie) (m : gmap N far_info) : gmap N far_info :=
  foldl (fun m f => <[default 0 (fa_id f) := far_said f far0]> m) m l.
Definition fars_updated (l : list far_ie) (m : gmap N far_info) : gmap N far_info :=
  foldl (fun m f => match fa_id f with Some i => <[i := far_said f (default far0 (m !! i))]> m | None => m end) m l.
Definition fars_removed (l : list far_ie) (m : gmap N far_info) : gmap N far_info := foldl (fun m f => delete (default 0 (fa_id f)) m) m l.
Definition qers_created (l : list qer_ie) (m : gmap N qer_rule) : gmap N qer_rule :=
  foldl (fun m f => match qe_id f with Some i => <[i := qer_said f qer_rule0]> m | None => m end) m l.
Definition qers_updated (l : list qer_ie) (m : gmap N qer_rule) : gmap N qer_rule :=
  foldl (fun m f => match qe_id f with Some i => <[i := qer_said f (default qer_rule0 (m !! i))]> m | None => m end) m l.
Definition qers_removed (l : list qer_ie) (m : gmap N qer_rule) : gmap N qer_rule :=
  foldl (fun m f => match qe_id f with Some i => delete i m | None => m end) m l.

(** The FARs and QERs asked for, per session (peer address and F-SEID). *)
Notation asked := (gmap (N * N) (gmap N far_info * gmap N qer_rule)).
Definition asked_step (M : asked) (x : event * option response) : asked :=
  match x with
  | (Recv _ addr _ (SessEstReq q), Some r) =>
      match r_cause r, r_fseid r with
      | Some 1, Some (seid, _) => <[(addr, seid) := (fars_created (eq_fars q) ∅, qers_created (eq_qers q) ∅)]> M
      | _, _ => M
      end
  | (Recv _ addr _ (SessModReq q), Some r) =>
      match r_cause r with
      | Some 1 => alter (fun m : gmap N far_info * gmap N qer_rule =>
          (fars_removed (mq_rfar q) (fars_updated (mq_ufar q) (fars_created (mq_cfar q) (fst m))),
           qers_removed (mq_rqer q) (qers_updated (mq_uqer q) (qers_created (mq_cqer q) (snd m))))) (addr, mq_seid q) M
      | _ => M
      end
  | _ => M
  end.
Definition asked_in (l : log) : asked := foldl asked_step ∅ l.

(** Orderly: no modification fails (cause 73), and an accepted one updates or removes only FARs and QERs that exist, and
    removes none twice. *)
Definition has {A} (m : gmap N A) (i : option N) : bool := match i with Some i => bool_decide (is_Some (m !! i)) | None => true end.
Definition orderly_mod (m : gmap N far_info * gmap N qer_rule) (q : mod_req) : bool :=
  let fars := fars_created (mq_cfar q) (fst m) in let qers := qers_created (mq_cqer q) (snd m) in
  forallb (fun f => has fars (fa_id f)) (mq_ufar q) && forallb (fun f => has fars (Some (default 0 (fa_id f)))) (mq_rfar q) &&
  bool_decide (NoDup ((fun f => default 0 (fa_id f)) <$> mq_rfar q)) &&
  forallb (fun f => has qers (qe_id f)) (mq_uqer q) && forallb (fun f => has qers (qe_id f)) (mq_rqer q) &&
  bool_decide (NoDup (omap qe_id (mq_rqer q))).
Definition orderly_step (M : asked) (x : event * option response) : bool :=
  match x with
  | (Recv _ addr _ (SessModReq q), Some r) =>
      match r_cause r, M !! (addr, mq_seid q) with
      | Some 1, Some m => orderly_mod m q
      | Some 73, _ => false
      | _, _ => true
      end
  | _ => true
  end.
Fixpoint orderly_from (M : asked) (l : log) : bool :=
  match l with [] => true | x :: l => orderly_step M x && orderly_from (asked_step M x) l end.
Definition orderly (l : log) : bool := orderly_from ∅ l.

(** ** The sessions have what was asked *)
Definition fars_of (s : session) : gmap N far_info := sf_info <$> s_fars s.
Definition qers_of (s : session) : gmap N qer_rule := (fun f => rule_of_qer (sq_info f)) <$> s_qers s.
Definition follows (M : asked) (c : conn) : Prop :=
  forall addr seid s, session_of c addr seid = Some s -> M !! (addr, seid) = Some (fars_of s, qers_of s).

Lemma compose_far_said f old i : compose_far f old = Some i -> i = far_said f old.
Proof.
  unfold compose_far, far_said. intros H. destruct (fa_fwd f) as [[| |o]|]; [..|]; try (destruct (oh_v6 o)); simplify_eq; done.
Qed.
Lemma compose_qer_said q old : rule_of_qer (compose_qer q old) = qer_said q (rule_of_qer old).
Proof. done. Qed.

Lemma each_fold {A B} (proj : work -> B) (f : A -> work -> res) (g : B -> A -> B) l :
  (forall x w w', f x w = ROk w' -> proj w' = g (proj w) x) ->
  forall w w', each f l w = ROk w' -> proj w' = foldl g (proj w) l.
Proof.
  intros Hf. induction l as [|x l IH]; intros w w' H; simpl in H; [by simplify_eq|].
  apply rbind_ok in H as (w1 & H1 & H2). rewrite (IH _ _ H2), (Hf _ _ _ H1). done.
Qed.
Definition wfars (w : work) := fars_of (w_ses w).
Definition wqers (w : work) := qers_of (w_ses w).
Lemma far_part_wfars w w' : far_part w' = far_part w -> wfars w' = wfars w.
Proof. unfold far_part, wfars, fars_of. intros H. injection H as _ _ _ ->. done. Qed.
Lemma qer_part_wqers w w' : qer_part w' = qer_part w -> wqers w' = wqers w.
Proof. unfold qer_part, wqers, qers_of. intros H. injection H as _ _ _ ->. done. Qed.

Lemma create_far_said f w w' : create_far f w = ROk w' -> wfars w' = <[default 0 (fa_id f) := far_said f far0]> (wfars w).
Proof.
  unfold create_far. intros H. destruct (far_crash f); [done|]. destruct (compose_far f far0) as [i|] eqn:E; [|done].
  apply compose_far_said in E as ->. destruct (new_far _ _) as [[g|] d]; simplify_eq. unfold wfars, fars_of. simpl. by rewrite fmap_insert.
Qed.
Lemma update_far_said f w w' : update_far_ie f w = ROk w' ->
  wfars w' = match fa_id f with Some i => <[i := far_said f (default far0 (wfars w !! i))]> (wfars w) | None => wfars w end.
Proof.
  unfold update_far_ie. intros H. destruct (fa_id f) as [id|]; [|done]. destruct (far_crash f); [done|].
  destruct (compose_far f _) as [i|] eqn:E; [|done]. apply compose_far_said in E as ->.
  destruct (update_far _ _ _) as [[] d]; simplify_eq. unfold wfars, fars_of. simpl. rewrite fmap_insert. f_equal. simpl. f_equal.
  unfold get_far. rewrite lookup_fmap. by destruct (s_fars (w_ses w) !! id).
Qed.
Lemma remove_far_said f w w' : remove_far_ie f w = ROk w' -> wfars w' = delete (default 0 (fa_id f)) (wfars w).
Proof.
  unfold remove_far_ie. intros H. destruct (delete_far _ _) as [[] d]; simplify_eq. unfold wfars, fars_of. simpl. by rewrite fmap_delete.
Qed.
Lemma create_qer_said f w w' : create_qer f w = ROk w' ->
  wqers w' = match qe_id f with Some i => <[i := qer_said f qer_rule0]> (wqers w) | None => wqers w end.
Proof.
  unfold create_qer. intros H. destruct (qe_id f) as [id|]; [|done]. destruct (new_qer _ _) as [[g|] d]; simplify_eq.
  unfold wqers, qers_of. simpl. by rewrite fmap_insert.
Qed.
Lemma update_qer_said f w w' : update_qer_ie f w = ROk w' ->
  wqers w' = match qe_id f with Some i => <[i := qer_said f (default qer_rule0 (wqers w !! i))]> (wqers w) | None => wqers w end.
Proof.
  unfold update_qer_ie. intros H. destruct (qe_id f) as [id|]; [|done]. destruct (update_qer _ _ _) as [[] d]; simplify_eq.
  unfold wqers, qers_of. cbn [w_ses w_set_ses w_set_dp]. unfold ses_update_qer. cbn [s_qers set_qers]. rewrite fmap_insert. f_equal.
  cbn [sq_info]. rewrite compose_qer_said. f_equal. unfold get_qer. rewrite lookup_fmap. by destruct (s_qers (w_ses w) !! id).
Qed.
Lemma remove_qer_said f w w' : remove_qer_ie f w = ROk w' ->
  wqers w' = match qe_id f with Some i => delete i (wqers w) | None => wqers w end.
Proof.
  unfold remove_qer_ie. intros H. destruct (qe_id f) as [id|]; [|done]. destruct (delete_qer _ _) as [[] d]; simplify_eq.
  unfold wqers, qers_of. simpl. by rewrite fmap_delete.
Qed.

Lemma create_fars_said l w w' : each create_far l w = ROk w' -> wfars w' = fars_created l (wfars w).
Proof. unfold fars_created. apply each_fold. exact create_far_said. Qed.
Lemma update_fars_said l w w' : each update_far_ie l w = ROk w' -> wfars w' = fars_updated l (wfars w).
Proof. unfold fars_updated. apply each_fold. exact update_far_said. Qed.
Lemma remove_fars_said l w w' : each remove_far_ie l w = ROk w' -> wfars w' = fars_removed l (wfars w).
Proof. unfold fars_removed. apply each_fold. exact remove_far_said. Qed.
Lemma create_qers_said l w w' : each create_qer l w = ROk w' -> wqers w' = qers_created l (wqers w).
Proof. unfold qers_created. apply each_fold. exact create_qer_said. Qed.
Lemma update_qers_said l w w' : each update_qer_ie l w = ROk w' -> wqers w' = qers_updated l (wqers w).
Proof. unfold qers_updated. apply each_fold. exact update_qer_said. Qed.
Lemma remove_qers_said l w w' : each remove_qer_ie l w = ROk w' -> wqers w' = qers_removed l (wqers w).
Proof. unfold qers_removed. apply each_fold. exact remove_qer_said. Qed.
Lemma ok_far_part {A} (f : A -> work -> res) l w w' : (forall x w, keepsP far_part w (f x w)) -> each f l w = ROk w' -> wfars w' = wfars w.
Proof. intros Hf H. apply far_part_wfars. use_keep H (each_keep far_part f l w Hf). done. Qed.
Lemma ok_qer_part {A} (f : A -> work -> res) l w w' : (forall x w, keepsP qer_part w (f x w)) -> each f l w = ROk w' -> wqers w' = wqers w.
Proof. intros Hf H. apply qer_part_wqers. use_keep H (each_keep qer_part f l w Hf). done. Qed.

Lemma est_rules_said ueip q w w' : est_rules ueip q w = ROk w' ->
  wfars w' = fars_created (eq_fars q) (wfars w) /\ wqers w' = qers_created (eq_qers q) (wqers w).
Proof.
  unfold est_rules. intros H. apply rbind_ok in H as (w1 & H1 & H). apply rbind_ok in H as (w2 & H2 & H). apply rbind_ok in H as (w3 & H3 & H4).
  split.
  - rewrite (ok_far_part _ _ _ _ (fun x w => proj1 pdr_frame_far ueip x w) H4), (ok_far_part _ _ _ _ (proj1 urr_frame_far) H3),
      (ok_far_part _ _ _ _ (proj1 qer_frame_far) H2). exact (create_fars_said _ _ _ H1).
  - rewrite (ok_qer_part _ _ _ _ (fun x w => proj1 pdr_frame_qer ueip x w) H4), (ok_qer_part _ _ _ _ (proj1 urr_frame_qer) H3).
    rewrite (create_qers_said _ _ _ H2). by rewrite (ok_qer_part _ _ _ _ (proj1 far_frame_qer) H1).
Qed.
Lemma mod_rules_said ueip sh q w w' : mod_rules ueip sh q w = ROk w' ->
  wfars w' = fars_removed (mq_rfar q) (fars_updated (mq_ufar q) (fars_created (mq_cfar q) (wfars w))) /\
  wqers w' = qers_removed (mq_rqer q) (qers_updated (mq_uqer q) (qers_created (mq_cqer q) (wqers w))).
Proof.
  unfold mod_rules. intros H.
  apply rbind_ok in H as (w1 & H1 & H). apply rbind_ok in H as (w2 & H2 & H). apply rbind_ok in H as (w3 & H3 & H).
  apply rbind_ok in H as (w4 & H4 & H). apply rbind_ok in H as (w5 & H5 & H). apply rbind_ok in H as (w6 & H6 & H).
  apply rbind_ok in H as (w7 & H7 & H). apply rbind_ok in H as (w8 & H8 & H). apply rbind_ok in H as (w9 & H9 & H).
  apply rbind_ok in H as (w10 & H10 & H). apply rbind_ok in H as (w11 & H11 & H12).
  destruct pdr_frame_far as (Pf1 & Pf2 & Pf3 & _). destruct pdr_frame_qer as (Pq1 & Pq2 & Pq3 & _).
  destruct urr_frame_far as (Uf1 & Uf2 & Uf3 & _). destruct urr_frame_qer as (Uq1 & Uq2 & Uq3 & _).
  destruct qer_frame_far as (Qf1 & Qf2 & Qf3 & _). destruct far_frame_qer as (Fq1 & Fq2 & Fq3 & _).
  split.
  - rewrite (ok_far_part _ _ _ _ (Pf3 sh) H12), (ok_far_part _ _ _ _ (Pf2 ueip) H11), (ok_far_part _ _ _ _ (Pf1 ueip) H10),
      (ok_far_part _ _ _ _ Uf3 H9), (ok_far_part _ _ _ _ Uf2 H8), (ok_far_part _ _ _ _ Uf1 H7), (ok_far_part _ _ _ _ Qf3 H6),
      (ok_far_part _ _ _ _ Qf2 H5), (ok_far_part _ _ _ _ Qf1 H4).
    rewrite (remove_fars_said _ _ _ H3), (update_fars_said _ _ _ H2).
    by rewrite (create_fars_said _ _ _ H1).
  - rewrite (ok_qer_part _ _ _ _ (Pq3 sh) H12), (ok_qer_part _ _ _ _ (Pq2 ueip) H11), (ok_qer_part _ _ _ _ (Pq1 ueip) H10),
      (ok_qer_part _ _ _ _ Uq3 H9), (ok_qer_part _ _ _ _ Uq2 H8), (ok_qer_part _ _ _ _ Uq1 H7).
    rewrite (remove_qers_said _ _ _ H6), (update_qers_said _ _ _ H5).
    rewrite (create_qers_said _ _ _ H4).
    by rewrite (ok_qer_part _ _ _ _ Fq3 H3), (ok_qer_part _ _ _ _ Fq2 H2), (ok_qer_part _ _ _ _ Fq1 H1).
Qed.

(** ** Log and state together *)
Lemma follows_sub M c c' : follows M c -> (forall addr seid s, session_of c' addr seid = Some s -> session_of c addr seid = Some s) -> follows M c'.
Proof. intros H Hs addr seid s Hx. apply H, Hs, Hx. Qed.
Lemma follows_put M c c' addr seid s : follows M c ->
  (forall addr' seid' s', session_of c' addr' seid' = Some s' ->
     (addr' = addr /\ seid' = seid /\ s' = s) \/ (~ (addr' = addr /\ seid' = seid) /\ session_of c addr' seid' = Some s')) ->
  follows (<[(addr, seid) := (fars_of s, qers_of s)]> M) c'.
Proof.
  intros H Hs addr' seid' s' Hx. destruct (Hs _ _ _ Hx) as [(-> & -> & ->)|[Hne Hy]]; [by rewrite lookup_insert|].
  rewrite lookup_insert_ne by naive_solver. by apply H.
Qed.

Lemma follows_step M c e c' r : follows M c -> orderly_step M (e, r) = true -> step c e = Done c' r -> follows (asked_step M (e, r)) c'.
Proof.
  intros HM Ho H. destruct e as [sh addr seq m|sh addr|marks vols].
  - destruct m as [t|t|n t|n k f|n|q|q|seid|ty]; simpl in H.
    + unfold handle_hb_req in H. destruct t; simplify_eq; done.
    + unfold handle_hb_resp in H. destruct t; simplify_eq; done.
    + unfold handle_setup in H. destruct n as [| |n]; [by simplify_eq..|]. destruct t as [| |t]; [by simplify_eq..|]. simplify_eq.
      simpl. eapply follows_sub; [exact HM|apply session_ensure].
    + unfold handle_setup_resp in H. destruct n as [| |n], k as [| |k], f as [| |f]; simplify_eq; try done.
      destruct (k =? Accepted); simplify_eq; [|done]. simpl. eapply follows_sub; [exact HM|apply session_ensure].
    + unfold handle_update in H. simpl. repeat (case_match; simplify_eq); simplify_eq; done.
    + unfold handle_est in H. destruct (validate_request _ _) as [remote|]; simplify_eq; [|done].
      destruct (c_assocs c !! addr) as [a|] eqn:Ha; simplify_eq; [|done]. destruct (existsb _ _); [done|].
      destruct (est_rules _ _ _) as [w|w|] eqn:Ew; simplify_eq.
      * apply est_rules_said in Ew as [E1 E2]. 
        assert (wfars (new_work (c_dp c) (new_session (next_seid a) remote) (c_rm c)) = ∅) as F1 by (unfold wfars, fars_of; simpl; by rewrite fmap_empty).
        assert (wqers (new_work (c_dp c) (new_session (next_seid a) remote) (c_rm c)) = ∅) as F2 by (unfold wqers, qers_of; simpl; by rewrite fmap_empty).
        rewrite F1 in E1. rewrite F2 in E2. unfold wfars, wqers in E1, E2.
        simpl. change (follows (<[(addr, next_seid a) := (fars_created (eq_fars q) ∅, qers_created (eq_qers q) ∅)]> M)
          (set_dp_rm (w_dp w) (w_rm w) (put_session addr (next_seid a) (Assoc (a_node a) (next_seid a) (a_sessions a)) (w_ses w)
             (set_assocs (<[addr := Assoc (a_node a) (next_seid a) (a_sessions a)]> (c_assocs c)) c)))).
        rewrite <- E1, <- E2. eapply follows_put; [exact HM|]. intros addr' seid' s'. unfold put_session. simpl. rewrite insert_insert.
        change (Conn (<[addr:=Assoc (a_node a) (next_seid a) (<[next_seid a:=w_ses w]> (a_sessions a))]> (c_assocs c))
             (c_dp c) (c_rm c) (c_cfg c)) with
            (set_assocs (<[addr:=Assoc (a_node a) (next_seid a) (<[next_seid a:=w_ses w]> (a_sessions a))]> (c_assocs c)) c).
        by apply (session_put c addr a).
      * simpl. eapply follows_sub; [exact HM|]. intros addr' seid' s' Hs. by eapply (session_put_sub c addr a).
    + unfold handle_mod in H. destruct (c_assocs c !! addr) as [a|] eqn:Ha; simplify_eq; [|done].
      destruct (a_sessions a !! mq_seid q) as [s|] eqn:Hs; simplify_eq; [|done].
      destruct (_ || _); [done|].
      assert (Hs0 : session_of c addr (mq_seid q) = Some s) by (unfold session_of; by rewrite Ha).
      destruct (mod_rules _ _ _ _) as [w|w|] eqn:Ew; simplify_eq. apply mod_rules_said in Ew as [E1 E2].
      set (s1 := match mq_fseid q with Good r => set_remote r s | _ => s end) in *.
      assert (fars_of s1 = fars_of s /\ qers_of s1 = qers_of s) as [F1 F2] by (unfold s1; by destruct (mq_fseid q)).
      unfold wfars, wqers in E1, E2. simpl in E1, E2. rewrite F1 in E1. rewrite F2 in E2.
      assert (asked_step M (Recv sh addr seq (SessModReq q), Some {| r_type := 53; r_seq := seq; r_seid := s_remote (w_ses w); r_cause := Some Accepted;
         r_node := None; r_fseid := None; r_created := process_created (g_n3 (c_cfg c)) (w_created w); r_reports := w_reports w; r_features := None; r_rts := None |}) =
        <[(addr, mq_seid q) := (fars_of (w_ses w), qers_of (w_ses w))]> M) as ->.
      { simpl. apply map_eq. intros k. destruct (decide (k = (addr, mq_seid q))) as [->|Hne].
        - rewrite lookup_alter, lookup_insert, (HM _ _ _ Hs0). simpl. by rewrite E1, E2.
        - by rewrite lookup_alter_ne, lookup_insert_ne. }
      eapply follows_put; [exact HM|]. intros addr' seid' s'. by apply (session_put c addr a).
    + unfold handle_del in H. destruct (c_assocs c !! addr) as [a|] eqn:Ha; simplify_eq; [|done].
      destruct (a_sessions a !! seid) as [s|] eqn:Hs; simplify_eq; [|done].
      destruct (del_rules _ _ _) as [w|w|] eqn:Ew; simplify_eq; [|done]. simpl.
      eapply follows_sub; [exact HM|]. intros addr' seid' s' Hs'. apply (session_put_sub c addr a) in Hs'; [done|done|].
      intros k v Hk. apply lookup_delete_Some in Hk. tauto.
    + by simplify_eq.
  - simpl in H. unfold prune in H. destruct (c_assocs c !! addr) as [a|] eqn:Ha; [|done].
    destruct (prune_sessions _ _ _ _) as [[d rm]|] eqn:E; simplify_eq. simpl.
    eapply follows_sub; [exact HM|]. intros addr' seid' s' Hs'. unfold session_of in *. simpl in Hs'.
    destruct (delete addr (c_assocs c) !! addr') as [a'|] eqn:El; [|done]. apply lookup_delete_Some in El as [? El]. by rewrite El.
  - simpl in H. by simplify_eq.
Qed.

Lemma fars_created_has l : forall (m : gmap N far_info) i, is_Some (fars_created l m !! i) ->
  is_Some (m !! i) \/ i ∈ ((fun f => default 0 (fa_id f)) <$> l).
Proof.
  unfold fars_created. induction l as [|f l IH]; intros m i H; simpl in *; [by left|].
  destruct (IH _ _ H) as [Hi|Hi]; [|right; by right]. destruct (decide (i = default 0 (fa_id f))) as [->|Hne]; [right; left|].
  left. by rewrite lookup_insert_ne in Hi.
Qed.
Lemma qers_created_has l : forall (m : gmap N qer_rule) i, is_Some (qers_created l m !! i) -> is_Some (m !! i) \/ Some i ∈ (qe_id <$> l).
Proof.
  unfold qers_created. induction l as [|f l IH]; intros m i H; simpl in *; [by left|].
  destruct (IH _ _ H) as [Hi|Hi]; [|right; by right]. destruct (qe_id f) as [k|] eqn:Ek; [|by left].
  destruct (decide (i = k)) as [->|Hne]; [right; by left|]. left. by rewrite lookup_insert_ne in Hi.
Qed.
Lemma orderly_careful s q : orderly_mod (fars_of s, qers_of s) q = true -> careful_mod s q.
Proof.
  unfold orderly_mod. simpl. rewrite !andb_true_iff. intros (((((H1 & H2) & H3) & H4) & H5) & H6).
  rewrite forallb_forall in H1, H2, H4, H5. apply bool_decide_eq_true in H3, H6.
  assert (HF : forall i, is_Some (fars_created (mq_cfar q) (fars_of s) !! i) -> far_known s (mq_cfar q) i).
  { intros i Hi. destruct (fars_created_has _ _ _ Hi) as [Hx|Hx]; [left|by right]. unfold fars_of in Hx. rewrite lookup_fmap in Hx. by apply fmap_is_Some in Hx. }
  assert (HQ : forall i, is_Some (qers_created (mq_cqer q) (qers_of s) !! i) -> qer_known s (mq_cqer q) i).
  { intros i Hi. destruct (qers_created_has _ _ _ Hi) as [Hx|Hx]; [left|by right]. unfold qers_of in Hx. rewrite lookup_fmap in Hx. by apply fmap_is_Some in Hx. }
  split; try done.
  - intros f i Hf Hi. apply HF. apply elem_of_list_In, H1 in Hf. rewrite Hi in Hf. simpl in Hf. by apply bool_decide_eq_true in Hf.
  - intros f Hf. apply HF. apply elem_of_list_In, H2 in Hf. simpl in Hf. by apply bool_decide_eq_true in Hf.
  - intros f i Hf Hi. apply HQ. apply elem_of_list_In, H4 in Hf. rewrite Hi in Hf. simpl in Hf. by apply bool_decide_eq_true in Hf.
  - intros f i Hf Hi. apply HQ. apply elem_of_list_In, H5 in Hf. rewrite Hi in Hf. simpl in Hf. by apply bool_decide_eq_true in Hf.
Qed.
Lemma orderly_step_careful M c e c' r : follows M c -> orderly_step M (e, r) = true -> step c e = Done c' r -> careful c e.
Proof.
  intros HM Ho H. destruct e as [sh addr seq m|sh addr|marks vols]; try done. destruct m as [t|t|n t|n k f|n|q|q|seid|ty]; try done.
  intros s Hs. apply orderly_careful. simpl in H. unfold handle_mod in H. pose proof Hs as Hs0. unfold session_of in Hs0.
  destruct (c_assocs c !! addr) as [a|] eqn:Ha; [|done]. rewrite Hs0 in H. destruct (_ || _); [done|].
  destruct (mod_rules _ _ _ _) as [w|w|]; simplify_eq. simpl in Ho. rewrite (HM _ _ _ Hs) in Ho. done.
Qed.

Lemma orderly_run es : forall M c c' l, careful_history c -> follows M c -> Forall event_fair es -> run c es = Some (c', l) ->
  orderly_from M l = true -> careful_history c' /\ follows (foldl asked_step M l) c'.
Proof.
  induction es as [|e es IH]; intros M c c' l Hc HM Hf Hrun Ho; simpl in Hrun; [by simplify_eq|].
  destruct (step c e) as [c1 r|] eqn:E; [|done]. destruct (run c1 es) as [[c2 l2]|] eqn:E2; [|done]. simplify_eq.
  cbn [orderly_from] in Ho. apply andb_true_iff in Ho as [Ho1 Ho2]. apply Forall_cons in Hf as [Hf1 Hf2].
  change (foldl asked_step M ((e, r) :: l2)) with (foldl asked_step (asked_step M (e, r)) l2).
  apply (IH _ c1); [|exact (follows_step _ _ _ _ _ HM Ho1 E)|done|done|done].
  eapply ch_step; [done|done|exact (orderly_step_careful _ _ _ _ _ HM Ho1 E)|done].
Qed.

(** ** C12 *)
Definition asked_far (l : log) (addr seid i : N) : option far_info := asked_in l !! (addr, seid) ≫= fun m => fst m !! i.
Definition asked_qer (l : log) (addr seid i : N) : option qer_rule := asked_in l !! (addr, seid) ≫= fun m => snd m !! i.

Theorem dataplane_follows_requests :
  forall g rm p f q u es c l, start_pools rm -> Forall event_fair es ->
    run (init g rm (dp_init p f q u)) es = Some (c, l) -> N.of_nat (length es) <= bound -> orderly l = true ->
    exists far_at qer_at : N * N * N -> N, (* peer, F-SEID, rule id *)
      (forall addr seid i v, (addr, seid) ∈ live l -> asked_far l addr seid i = Some v ->
         far_get (c_dp c) (far_at (addr, seid, i)) = Some v) /\
      (forall addr seid i v, (addr, seid) ∈ live l -> asked_qer l addr seid i = Some v ->
         qer_value (c_dp c) (qer_at (addr, seid, i)) = Some v) /\
      (forall a n i a' n' i', (a, n) ∈ live l -> (a', n') ∈ live l -> is_Some (asked_far l a n i) -> is_Some (asked_far l a' n' i') ->
         far_at (a, n, i) = far_at (a', n', i') -> (a, n, i) = (a', n', i')) /\
      (forall a n i a' n' i', (a, n) ∈ live l -> (a', n') ∈ live l -> is_Some (asked_qer l a n i) -> is_Some (asked_qer l a' n' i') ->
         qer_at (a, n, i) = qer_at (a', n', i') -> (a, n, i) = (a', n', i')).
Proof.
  intros g rm p f q u es c l Hrm Hf Hrun Hb Ho.
  destruct (orderly_run es ∅ _ _ _ (ch_init g rm p f q u Hrm) ltac:(intros addr seid s Hs; unfold session_of, init in Hs; simpl in Hs; by rewrite lookup_empty in Hs) Hf Hrun Ho) as [Hc HM].
  pose proof (session_table_follows_log _ _ _ _ _ _ Hrun ltac:(lia)) as Hlive.
  destruct (careful_mirror _ Hc) as [[FG FI] [QG QI]].
  assert (Hses : forall addr seid, (addr, seid) ∈ live l -> exists s, session_of c addr seid = Some s /\ asked_in l !! (addr, seid) = Some (fars_of s, qers_of s)).
  { intros addr seid Hl. apply Hlive in Hl as [s Hs]. exists s. split; [done|]. by apply HM. }
  exists (fun x => match session_of c x.1.1 x.1.2 with Some s => match s_fars s !! x.2 with Some f => sf_gid f | None => 0 end | None => 0 end),
    (fun x => match session_of c x.1.1 x.1.2 with Some s => match s_qers s !! x.2 with Some f => sq_gid f | None => 0 end | None => 0 end).
  assert (HaF : forall addr seid i v, (addr, seid) ∈ live l -> asked_far l addr seid i = Some v ->
    exists s f, session_of c addr seid = Some s /\ s_fars s !! i = Some f /\ v = sf_info f).
  { intros addr seid i v Hl Hv. destruct (Hses _ _ Hl) as (s & Hs & Hm). unfold asked_far in Hv. rewrite Hm in Hv. simpl in Hv.
    unfold fars_of in Hv. rewrite lookup_fmap in Hv. destruct (s_fars s !! i) as [f1|] eqn:Ef; simpl in Hv; [|done]. simplify_eq. eauto. }
  assert (HaQ : forall addr seid i v, (addr, seid) ∈ live l -> asked_qer l addr seid i = Some v ->
    exists s f, session_of c addr seid = Some s /\ s_qers s !! i = Some f /\ v = rule_of_qer (sq_info f)).
  { intros addr seid i v Hl Hv. destruct (Hses _ _ Hl) as (s & Hs & Hm). unfold asked_qer in Hv. rewrite Hm in Hv. simpl in Hv.
    unfold qers_of in Hv. rewrite lookup_fmap in Hv. destruct (s_qers s !! i) as [f1|] eqn:Ef; simpl in Hv; [|done]. simplify_eq. eauto. }
  split_and!.
  - intros addr seid i v Hl Hv. destruct (HaF _ _ _ _ Hl Hv) as (s & f1 & Hs & Hi & ->). simpl. rewrite Hs, Hi.
    apply (FG addr seid s i (sf_gid f1) (sf_info f1) Hs). simpl. by rewrite lookup_fmap, Hi.
  - intros addr seid i v Hl Hv. destruct (HaQ _ _ _ _ Hl Hv) as (s & f1 & Hs & Hi & ->). simpl. rewrite Hs, Hi.
    apply (QG addr seid s i (sq_gid f1) (rule_of_qer (sq_info f1)) Hs). simpl. by rewrite lookup_fmap, Hi.
  - intros a n i a' n' i' Hl Hl' [v Hv] [v' Hv']. destruct (HaF _ _ _ _ Hl Hv) as (s & f1 & Hs & Hi & ->).
    destruct (HaF _ _ _ _ Hl' Hv') as (s' & f1' & Hs' & Hi' & ->). simpl. rewrite Hs, Hi, Hs', Hi'. intros E.
    destruct (FI _ _ _ i (sf_gid f1) (sf_info f1) _ _ _ i' (sf_info f1') Hs Hs') as (-> & -> & ->); simpl; rewrite ?lookup_fmap; [by rewrite Hi|by rewrite Hi', E|done].
  - intros a n i a' n' i' Hl Hl' [v Hv] [v' Hv']. destruct (HaQ _ _ _ _ Hl Hv) as (s & f1 & Hs & Hi & ->).
    destruct (HaQ _ _ _ _ Hl' Hv') as (s' & f1' & Hs' & Hi' & ->). simpl. rewrite Hs, Hi, Hs', Hi'. intros E.
    destruct (QI _ _ _ i (sq_gid f1) (rule_of_qer (sq_info f1)) _ _ _ i' (rule_of_qer (sq_info f1')) Hs Hs') as (-> & -> & ->); simpl; rewrite ?lookup_fmap; [by rewrite Hi|by rewrite Hi', E|done].
Qed.

(** A concrete orderly history: two sessions with a FAR and a QER each, an update of the first, traffic, a removal. *)
Definition ex_est_fq (teid : N) : msg :=
  SessEstReq (EstReq (Good 5) (Good 100) [FarIe (Some 1) (Some [2]) None None; FarIe (Some 2) (Some [2]) None (Some 256)]
    [QerIe (Some 1) (Some 0) (Some 0) (Some 10) (Some 20) (Some 9)] [] [ex_pdr 1 teid]).
Definition ex_orderly : list event :=
  [ex_setup; ex_recv 2 (ex_est_fq 1); ex_recv 3 (ex_est_fq 2);
   ex_recv 4 (SessModReq (ModReq 3 Absent [] [FarIe (Some 1) (Some [1]) None None] [FarIe (Some 2) None None None]
     [] [QerIe (Some 1) (Some 1) None None (Some 30) None] [] [] [] [] [] [] [])); Traffic {[ 0 := (77, 88) ]} ∅].
Example ex_orderly_ok : exists c l, ex_start ex_orderly = Some (c, l) /\ orderly l = true /\
  (7, 2) ∈ live l /\ (7, 3) ∈ live l /\ asked_far l 7 2 1 = Some (Far 2 0 0 0 0) /\ asked_far l 7 3 1 = Some (Far 1 0 0 0 0) /\
  asked_far l 7 3 2 = None /\ asked_qer l 7 3 1 = Some (QerRule 0 1 9 30000 10000).
Proof.
  assert (Hl : (fun x : option (conn * log) => match x with Some (_, l) => orderly l && bool_decide ((7, 2) ∈ live l) && bool_decide ((7, 3) ∈ live l) &&
    bool_decide (asked_far l 7 2 1 = Some (Far 2 0 0 0 0)) && bool_decide (asked_far l 7 3 1 = Some (Far 1 0 0 0 0)) && bool_decide (asked_far l 7 3 2 = None) &&
    match asked_qer l 7 3 1 with Some (QerRule 0 1 9 30000 10000) => true | _ => false end | None => false end) (ex_start ex_orderly) = true) by by vm_compute.
  revert Hl. generalize (ex_start ex_orderly). intros [[c l]|] Hl; [|discriminate Hl]. exists c, l. split; [reflexivity|].
  rewrite !andb_true_iff in Hl. destruct Hl as ((((((H1 & H2) & H3) & H4) & H5) & H6) & H7).
  apply bool_decide_eq_true in H2, H3, H4, H5, H6. repeat (split; [assumption|]).
  destruct (asked_qer l 7 3 1) as [[a b q u w]|]; [|discriminate H7]. clear -H7. by repeat case_match; simplify_eq.
Qed.
