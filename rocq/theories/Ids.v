(** Where the rule ids are: over every history of a frugal control plane each id of the FAR, QER and URR maps is free or some live session has it. *)
From Verif Require Import Base IdTracker ResourceManager SdfParser MapOps Pfcp PfcpProps PfcpHistory PfcpReach PfcpRules PfcpCreate PfcpRemove
  PfcpReject PfcpInv PfcpAsked PfcpTeid PfcpKeys.

(** ** The ids of one kind of rule: those the maps have, those free, those a session has *)
Inductive kind := KFar | KQer | KUrr.
Definition ksize (k : kind) (d : dp) : N := match k with KFar => d_far_size d | KQer => d_qer_size d | KUrr => d_urr_size d end.
Definition ktrk (k : kind) (d : dp) : tracker := match k with KFar => d_fart d | KQer => d_qert d | KUrr => d_urrt d end.
Definition kfree (k : kind) (d : dp) : list N := t_free (ktrk k d).
(** The session's rules of this kind: the control plane's id and the data plane's. *)
Definition ktab (k : kind) (s : session) : gmap N N :=
  match k with KFar => sf_gid <$> s_fars s | KQer => sq_gid <$> s_qers s | KUrr => su_gid <$> s_urrs s end.

(** What the requests name: ids created, updated, removed. *)
Definition est_ids (k : kind) (q : est_req) : list N :=
  match k with KFar => default 0 ∘ fa_id <$> eq_fars q | KQer => omap qe_id (eq_qers q) | KUrr => omap id (eq_urrs q) end.
Definition mod_new (k : kind) (q : mod_req) : list N :=
  match k with KFar => default 0 ∘ fa_id <$> mq_cfar q | KQer => omap qe_id (mq_cqer q) | KUrr => omap id (mq_curr q) end.
Definition mod_upd (k : kind) (q : mod_req) : list N :=
  match k with KFar => omap fa_id (mq_ufar q) | KQer => omap qe_id (mq_uqer q) | KUrr => omap id (mq_uurr q) end.
Definition mod_del (k : kind) (q : mod_req) : list N :=
  match k with KFar => default 0 ∘ fa_id <$> mq_rfar q | KQer => omap qe_id (mq_rqer q) | KUrr => omap id (mq_rurr q) end.

(** The ids the control plane has given, per session, read off the log. *)
Notation ledger := (gmap (N * N) (gset N)).
Definition ids_step (k : kind) (L : ledger) (x : event * option response) : ledger :=
  match x with
  | (Recv _ addr _ (SessEstReq q), Some r) =>
      match r_cause r, r_fseid r with Some 1, Some (seid, _) => <[(addr, seid) := list_to_set (est_ids k q)]> L | _, _ => L end
  | (Recv _ addr _ (SessModReq q), Some r) =>
      alter (fun J => (J ∪ list_to_set (mod_new k q) ∪ list_to_set (mod_upd k q)) ∖
                      (if bool_decide (r_cause r = Some 1) then list_to_set (mod_del k q) else ∅)) (addr, mq_seid q) L
  | (Recv _ addr _ (SessDelReq seid), Some r) => match r_cause r with Some 1 => delete (addr, seid) L | _ => L end
  | (HeartbeatFailed _ addr, _) => filter (fun x => fst (fst x) <> addr) L
  | _ => L
  end.
(** A frugal control plane gives new rules new ids; no establishment fails half way; no association with usage rules is lost. *)
Definition frugal_step (k : kind) (L : ledger) (x : event * option response) : bool :=
  match x with
  | (Recv _ addr _ (SessEstReq q), Some r) =>
      match r_cause r with Some 1 => bool_decide (NoDup (est_ids k q)) | Some 73 => false | _ => true end
  | (Recv _ addr _ (SessModReq q), Some r) =>
      bool_decide (NoDup (mod_new k q)) &&
      match L !! (addr, mq_seid q) with Some J => forallb (fun i : N => bool_decide (i ∉ J)) (mod_new k q) | None => true end
  | (HeartbeatFailed _ addr, _) =>
      match k with
      | KUrr => forallb (fun x : N * N * gset N => negb (fst (fst x) =? addr) || bool_decide (snd x = ∅)) (map_to_list L)
      | _ => true
      end
  | _ => true
  end.
Fixpoint frugal_from (k : kind) (L : ledger) (l : log) : bool :=
  match l with [] => true | x :: l => frugal_step k L x && frugal_from k (ids_step k L x) l end.
Definition frugal (k : kind) (l : log) : bool := frugal_from k ∅ l.
Definition ids_in (k : kind) (l : log) : ledger := foldl (ids_step k) ∅ l.

(** ** Nothing leaks while rules are processed *)
Definition has_id (k : kind) (w : work) (g : N) : Prop := g ∈ kfree k (w_dp w) \/ exists i, ktab k (w_ses w) !! i = Some g.
Record keeps (k : kind) (w w' : work) : Prop := {
  kp_max : t_max (ktrk k (w_dp w)) = ksize k (w_dp w) -> t_max (ktrk k (w_dp w')) = ksize k (w_dp w');
  kp_size : ksize k (w_dp w') = ksize k (w_dp w);
  kp_has : t_max (ktrk k (w_dp w)) = ksize k (w_dp w) -> forall g, g < ksize k (w_dp w) -> has_id k w g -> has_id k w' g }.
(** Rules of another kind are processed. *)
Record same (k : kind) (w w' : work) : Prop := {
  sm_trk : ktrk k (w_dp w') = ktrk k (w_dp w);
  sm_size : ksize k (w_dp w') = ksize k (w_dp w);
  sm_tab : ktab k (w_ses w') = ktab k (w_ses w) }.
Lemma same_refl k w : same k w w. Proof. by split. Qed.
Lemma same_trans k a b c : same k a b -> same k b c -> same k a c.
Proof. intros [? ? ?] [? ? ?]. split; congruence. Qed.
Lemma same_keeps k w w' : same k w w' -> keeps k w w'.
Proof. intros [H1 H2 H3]. split; [by rewrite H1, H2|done|]. intros _ g _. unfold has_id, kfree. by rewrite H1, H3. Qed.
Lemma keeps_refl k w : keeps k w w. Proof. by apply same_keeps. Qed.
Lemma keeps_trans k a b c : keeps k a b -> keeps k b c -> keeps k a c.
Proof. intros [A1 A2 A3] [B1 B2 B3]. split; [auto|congruence|]. intros Hm g Hg H. rewrite <- A2 in Hg. apply B3; auto. apply A3; auto. by rewrite <- A2. Qed.

Definition onres (P : work -> Prop) (r : res) : Prop := match r with ROk w | RErr w => P w | RCrash => True end.
Lemma onres_mono (P Q : work -> Prop) r : (forall w, P w -> Q w) -> onres P r -> onres Q r.
Proof. intros H. destruct r; simpl; auto. Qed.
Lemma each_same {A} k (f : A -> work -> res) l w : (forall x w, onres (same k w) (f x w)) -> onres (same k w) (each f l w).
Proof.
  intros Hf. revert w. induction l as [|x l IH]; intros w; simpl; [apply same_refl|]. pose proof (Hf x w) as H.
  destruct (f x w) as [w1|w1|]; simpl in *; [|done|done]. eapply onres_mono; [|apply IH]. intros w2. by apply same_trans.
Qed.
Lemma each_keeps {A} k (f : A -> work -> res) l w : (forall x w, onres (keeps k w) (f x w)) -> onres (keeps k w) (each f l w).
Proof.
  intros Hf. revert w. induction l as [|x l IH]; intros w; simpl; [apply keeps_refl|]. pose proof (Hf x w) as H.
  destruct (f x w) as [w1|w1|]; simpl in *; [|done|done]. eapply onres_mono; [|apply IH]. intros w2. by apply keeps_trans.
Qed.
Lemma bind_keeps k w r f : onres (keeps k w) r -> (forall w', keeps k w w' -> onres (keeps k w') (f w')) -> onres (keeps k w) (rbind r f).
Proof. intros H Hf. destruct r as [w1|w1|]; simpl in *; [|done|done]. eapply onres_mono; [|by apply Hf]. intros w2. by apply keeps_trans. Qed.

(** *** Creating *)
Ltac kind_tac := repeat (case_match; simplify_eq); simpl in *; simplify_eq; try done; try (split; simpl; by rewrite ?fmap_insert).
Lemma create_far_same k f w : k <> KFar -> onres (same k w) (create_far f w).
Proof. intros Hk. unfold create_far, new_far. destruct k; [done| |]; kind_tac. Qed.
Lemma create_qer_same k f w : k <> KQer -> onres (same k w) (create_qer f w).
Proof. intros Hk. unfold create_qer, new_qer. destruct k; [|done|]; kind_tac. Qed.
Lemma create_urr_same k f w : k <> KUrr -> onres (same k w) (create_urr f w).
Proof. intros Hk. unfold create_urr, new_urr. destruct k; [| |done]; kind_tac. Qed.

(** Result of creating one rule with id [i]: the next free id is taken for it, or nothing is (or an id that no map entry has is lost). *)
Definition grants (k : kind) (i : N) (w w' : work) : Prop :=
  ksize k (w_dp w') = ksize k (w_dp w) /\ t_max (ktrk k (w_dp w')) = t_max (ktrk k (w_dp w)) /\
  exists g, kfree k (w_dp w) = g :: kfree k (w_dp w') /\ g < ksize k (w_dp w) /\ ktab k (w_ses w') = <[i := g]> (ktab k (w_ses w)).
Definition refuses (k : kind) (w w' : work) : Prop :=
  ksize k (w_dp w') = ksize k (w_dp w) /\ t_max (ktrk k (w_dp w')) = t_max (ktrk k (w_dp w)) /\ ktab k (w_ses w') = ktab k (w_ses w) /\
  (kfree k (w_dp w') = kfree k (w_dp w) \/ exists g, kfree k (w_dp w) = g :: kfree k (w_dp w') /\ ksize k (w_dp w) <= g).
Lemma refuses_keeps k w w' : refuses k w w' -> keeps k w w'.
Proof.
  intros (H1 & H2 & H3 & H4). split; [by rewrite H1, H2|done|]. intros _ g Hg. unfold has_id. rewrite H3. destruct H4 as [->|(x & -> & Hx)]; [done|].
  rewrite elem_of_cons. intros [[->|?]|?]; [lia|by left|by right].
Qed.
Lemma grants_keeps k i w w' : ktab k (w_ses w) !! i = None -> grants k i w w' -> keeps k w w'.
Proof.
  intros Hi (H1 & H2 & g & H3 & _ & H4). split; [by rewrite H1, H2|done|]. intros _ x Hx. unfold has_id. rewrite H3, H4, elem_of_cons.
  intros [[->|?]|(j & Hj)]; [right; exists i; apply lookup_insert|by left|]. right. exists j. rewrite lookup_insert_ne; [done|congruence].
Qed.
Definition makes {A} (k : kind) (oid : A -> option N) (f : A -> work -> res) : Prop := forall x w,
  match f x w with
  | ROk w' => exists i, oid x = Some i /\ grants k i w w'
  | RErr w' => refuses k w w'
  | RCrash => True
  end.
Ltac make_tac := unfold grants, refuses, kfree; cbn [ktrk ksize ktab w_dp w_ses w_set_ses w_set_dp d_fart d_qert d_urrt d_far_size d_qer_size d_urr_size t_max t_free
  set_fart set_qert set_urrt set_far set_qer set_urr ses_new_far ses_new_qer ses_new_urr set_fars set_qers set_urrs s_fars s_qers s_urrs snd].
Lemma create_far_makes : makes KFar (fun f => Some (default 0 (fa_id f))) create_far.
Proof.
  intros f w. unfold create_far, new_far, get_next. destruct (far_crash f); [done|]. destruct (compose_far f far0) as [i|]; [|by make_tac; auto].
  destruct (t_free (d_fart (w_dp w))) as [|g r] eqn:E; [make_tac; auto|]. destruct (N.ltb_spec g (d_far_size (w_dp w))).
  - eexists. split; [done|]. make_tac. split_and!; [done..|]. exists g. by rewrite E, fmap_insert.
  - make_tac. rewrite E. eauto 7.
Qed.
Lemma create_qer_makes : makes KQer qe_id create_qer.
Proof.
  intros f w. unfold create_qer, new_qer, get_next. destruct (qe_id f) as [id|]; [|by make_tac; auto]. cbn zeta.
  destruct (t_free (d_qert (w_dp w))) as [|g r] eqn:E; [make_tac; auto|]. destruct (N.ltb_spec g (d_qer_size (w_dp w))).
  - eexists. split; [done|]. make_tac. split_and!; [done..|]. exists g. by rewrite E, fmap_insert.
  - make_tac. rewrite E. eauto 7.
Qed.
Lemma create_urr_makes : makes KUrr id create_urr.
Proof.
  intros f w. unfold create_urr, new_urr, get_next. destruct f as [id|]; [|by make_tac; auto]. cbn zeta.
  destruct (t_free (d_urrt (w_dp w))) as [|g r] eqn:E; [make_tac; auto|]. destruct (N.ltb_spec g (d_urr_size (w_dp w))).
  - eexists. split; [done|]. make_tac. split_and!; [done..|]. exists g. by rewrite E, fmap_insert.
  - make_tac. rewrite E. eauto 7.
Qed.
(** Created rules with new ids lose nothing; the session's ids are the old and the new. *)
Lemma each_makes {A} k (oid : A -> option N) f l : makes k oid f -> forall w, NoDup (omap oid l) -> (forall i, i ∈ omap oid l -> ktab k (w_ses w) !! i = None) ->
  onres (fun w' => keeps k w w' /\ dom (ktab k (w_ses w')) ⊆ dom (ktab k (w_ses w)) ∪ list_to_set (omap oid l)) (each f l w).
Proof.
  intros Hf. induction l as [|x l IH]; intros w Hnd Hnew; cbn [each]; [split; [apply keeps_refl|set_solver]|].
  pose proof (Hf x w) as Hx. destruct (f x w) as [w1|w1|]; cbn [rbind onres]; [| |done].
  - destruct Hx as (i & Hi & Hg). assert (E : omap oid (x :: l) = i :: omap oid l) by (cbn; by rewrite Hi). rewrite E in Hnd, Hnew |- *.
    apply NoDup_cons in Hnd as [Hni Hnd].
    assert (Hkeep : keeps k w w1) by (eapply grants_keeps; [|exact Hg]; apply Hnew; left).
    destruct Hg as (H1 & H2 & g & H3 & _ & H4).
    eapply onres_mono; [|apply IH; [done|]].
    + intros w2 [K D]. split; [by eapply keeps_trans|]. rewrite H4, dom_insert_L in D. set_solver.
    + intros j Hj. rewrite H4, lookup_insert_ne by (intros ->; done). apply Hnew. by right.
  - split; [by apply refuses_keeps|]. destruct Hx as (_ & _ & -> & _). set_solver.
Qed.
Lemma omap_some {A} (f : A -> N) (l : list A) : omap (fun x => Some (f x)) l = f <$> l.
Proof. induction l as [|x l IH]; [done|]. cbn. by rewrite <- IH. Qed.

(** *** Updating and removing *)
Lemma update_far_same k f w : k <> KFar -> onres (same k w) (update_far_ie f w).
Proof. intros Hk. unfold update_far_ie, update_far. destruct k; [done| |]; kind_tac. Qed.
Lemma update_qer_same k f w : k <> KQer -> onres (same k w) (update_qer_ie f w).
Proof. intros Hk. unfold update_qer_ie, update_qer. destruct k; [|done|]; kind_tac. Qed.
Lemma update_urr_same k f w : k <> KUrr -> onres (same k w) (update_urr_ie f w).
Proof. intros Hk. unfold update_urr_ie, update_urr. destruct k; [| |done]; kind_tac. Qed.
Lemma remove_far_same k f w : k <> KFar -> onres (same k w) (remove_far_ie f w).
Proof. intros Hk. unfold remove_far_ie, delete_far, update_far. destruct k; [done| |]; kind_tac. Qed.
Lemma remove_qer_same k f w : k <> KQer -> onres (same k w) (remove_qer_ie f w).
Proof. intros Hk. unfold remove_qer_ie, delete_qer, update_qer. destruct k; [|done|]; kind_tac. Qed.
Lemma remove_urr_same k f w : k <> KUrr -> onres (same k w) (remove_urr_ie f w).
Proof. intros Hk. unfold remove_urr_ie, delete_urr, update_urr. destruct k; [| |done]; kind_tac. Qed.
(** An update leaves the data plane's ids alone (an unknown id is entered with the data plane's id 0). *)
Definition alters (k : kind) (i : N) (w w' : work) : Prop :=
  ktrk k (w_dp w') = ktrk k (w_dp w) /\ ksize k (w_dp w') = ksize k (w_dp w) /\
  ktab k (w_ses w') = <[i := default 0 (ktab k (w_ses w) !! i)]> (ktab k (w_ses w)).
Definition drops (k : kind) (i : N) (w w' : work) : Prop :=
  ksize k (w_dp w') = ksize k (w_dp w) /\ ktab k (w_ses w') = delete i (ktab k (w_ses w)) /\
  (ktrk k (w_dp w') = release (default 0 (ktab k (w_ses w) !! i)) (ktrk k (w_dp w)) \/
   (ktrk k (w_dp w') = ktrk k (w_dp w) /\ ksize k (w_dp w) <= default 0 (ktab k (w_ses w) !! i))).
Lemma alters_keeps k i w w' : alters k i w w' -> keeps k w w'.
Proof.
  intros (H1 & H2 & H3). split; [by rewrite H1, H2|done|]. intros _ g _. unfold has_id, kfree. rewrite H1, H3. intros [?|(j & Hj)]; [by left|].
  right. exists j. destruct (decide (j = i)) as [->|Hne]; [by rewrite lookup_insert, Hj|by rewrite lookup_insert_ne].
Qed.
Lemma release_in g t : g < t_max t -> g ∈ t_free (release g t).
Proof. intros H. unfold release. destruct (N.leb_spec (t_max t) g); [lia|]. simpl. apply bitmap_add_elem. by left. Qed.
Lemma release_mono g t x : x ∈ t_free t -> x ∈ t_free (release g t).
Proof. intros H. unfold release. destruct (t_max t <=? g); [done|]. simpl. apply bitmap_add_elem. by right. Qed.
Lemma release_tmax g t : t_max (release g t) = t_max t.
Proof. unfold release. by destruct (t_max t <=? g). Qed.
Lemma drops_keeps k i w w' : drops k i w w' -> keeps k w w'.
Proof.
  intros (H1 & H2 & H3). split; [|done|].
  - rewrite H1. by destruct H3 as [->|[-> _]]; rewrite ?release_tmax.
  - intros Hm g Hg. unfold has_id, kfree. rewrite H2. intros [?|(j & Hj)].
    + left. destruct H3 as [->|[-> _]]; [by apply release_mono|done].
    + destruct (decide (j = i)) as [->|Hne]; [|right; exists j; by rewrite lookup_delete_ne].
      rewrite Hj in H3. simpl in H3. destruct H3 as [->|[_ ?]]; [|lia]. left. apply release_in. lia.
Qed.
Ltac tab_tac := unfold alters, drops, get_far, get_qer, get_urr; cbn [ktrk ksize ktab w_dp w_ses w_set_ses w_set_dp w_add_report d_fart d_qert d_urrt d_far_size d_qer_size d_urr_size
  set_fart set_qert set_urrt set_far set_qer set_urr ses_update_far ses_update_qer ses_update_urr ses_remove_far ses_remove_qer ses_remove_urr
  set_fars set_qers set_urrs s_fars s_qers s_urrs].
Lemma gid_default {A} (h : A -> N) (z : A) (m : gmap N A) i : h z = 0 -> h (default z (m !! i)) = default 0 ((h <$> m) !! i).
Proof. intros Hz. rewrite lookup_fmap. by destruct (m !! i). Qed.
(** One Update: the id it names, if any, keeps its data-plane id. *)
Definition touches {A} (k : kind) (oid : A -> option N) (f : A -> work -> res) : Prop := forall x w,
  onres (fun w' => same k w w' \/ exists i, oid x = Some i /\ alters k i w w') (f x w).
Definition frees {A} (k : kind) (oid : A -> option N) (f : A -> work -> res) : Prop := forall x w,
  match f x w with
  | ROk w' => exists i, oid x = Some i /\ drops k i w w'
  | RErr w' => same k w w' \/ exists i, oid x = Some i /\ drops k i w w'
  | RCrash => True
  end.

Ltac upd_tac h z := tab_tac; rewrite ?fmap_insert, ?fmap_delete; cbn [sf_gid sq_gid su_gid]; rewrite <- (gid_default h z) by done; auto.
Lemma update_far_touches : touches KFar fa_id update_far_ie.
Proof.
  intros f w. unfold update_far_ie. destruct (fa_id f) as [id|]; [|by left]. destruct (far_crash f); [done|].
  destruct (compose_far _ _) as [i|]; [|by left]. cbn zeta. unfold update_far. cbn [w_set_ses w_dp].
  destruct (_ <? _); right; exists id; (split; [done|]); upd_tac sf_gid (Sfar far0 0).
Qed.
Lemma update_qer_touches : touches KQer qe_id update_qer_ie.
Proof.
  intros f w. unfold update_qer_ie. destruct (qe_id f) as [id|]; [|by left]. cbn zeta. unfold update_qer. cbn [w_set_ses w_dp].
  destruct (_ <? _); right; exists id; (split; [done|]); upd_tac sq_gid (Sqer qer0 0).
Qed.
Lemma update_urr_touches : touches KUrr id update_urr_ie.
Proof.
  intros f w. unfold update_urr_ie. destruct f as [id|]; [|by left]. cbn zeta. unfold update_urr. cbn [w_set_ses w_dp].
  destruct (_ <? _); right; exists id; (split; [done|]); upd_tac su_gid (Surr urr0 0 0).
Qed.
Lemma remove_far_frees : frees KFar (fun f => Some (default 0 (fa_id f))) remove_far_ie.
Proof.
  intros f w. unfold remove_far_ie. cbn zeta. unfold delete_far, update_far. cbn [w_set_ses w_dp].
  destruct (_ <? _); [|right]; eexists; (split; [done|]); upd_tac sf_gid (Sfar far0 0).
Qed.
Lemma remove_qer_frees : frees KQer qe_id remove_qer_ie.
Proof.
  intros f w. unfold remove_qer_ie. destruct (qe_id f) as [id|]; [|by left]. cbn zeta. unfold delete_qer, update_qer. cbn [w_set_ses w_dp].
  destruct (_ <? _); [|right]; exists id; (split; [done|]); upd_tac sq_gid (Sqer qer0 0).
Qed.
Lemma remove_urr_frees : frees KUrr id remove_urr_ie.
Proof.
  intros f w. unfold remove_urr_ie. destruct f as [id|]; [|by left]. cbn zeta. unfold delete_urr, urr_get, arr_get, update_urr. cbn [w_set_ses w_dp].
  destruct (N.ltb_spec (su_gid (get_urr (w_ses w) id)) (d_urr_size (w_dp w))) as [Hl|Hl].
  - cbn [set_urrt d_urr_size]. rewrite (proj2 (N.ltb_lt _ _) Hl). exists id. split; [done|]. upd_tac su_gid (Surr urr0 0 0).
  - right; exists id; (split; [done|]). revert Hl. upd_tac su_gid (Surr urr0 0 0).
Qed.
Lemma each_touches {A} k (oid : A -> option N) f (l : list A) : touches k oid f -> forall w,
  onres (fun w' => keeps k w w' /\ dom (ktab k (w_ses w')) ⊆ dom (ktab k (w_ses w)) ∪ list_to_set (omap oid l)) (each f l w).
Proof.
  intros Hf. induction l as [|x l IH]; intros w; cbn [each]; [split; [apply keeps_refl|set_solver]|].
  assert (H1 : onres (fun w' => keeps k w w' /\ dom (ktab k (w_ses w')) ⊆ dom (ktab k (w_ses w)) ∪ list_to_set (omap oid [x])) (f x w)).
  { eapply onres_mono; [|apply Hf]. intros w' [S|(i & Hi & HA)].
    - split; [by apply same_keeps|]. rewrite (sm_tab _ _ _ S). set_solver.
    - split; [by eapply alters_keeps|]. destruct HA as (_ & _ & ->). cbn. rewrite Hi, dom_insert_L. set_solver. }
  assert (E : omap oid (x :: l) = omap oid [x] ++ omap oid l) by (cbn; by destruct (oid x)). rewrite E, list_to_set_app_L.
  destruct (f x w) as [w1|w1|]; cbn [rbind onres] in *; [|destruct H1; split; [done|set_solver]|done].
  destruct H1 as [K D]. eapply onres_mono; [|apply IH]. intros w2 [K2 D2]. split; [by eapply keeps_trans|set_solver].
Qed.
(** A loop of removals that ends well removed every id it names; one that fails still loses nothing. *)
Lemma each_frees {A} k (oid : A -> option N) f (l : list A) : frees k oid f -> forall w,
  match each f l w with
  | ROk w' => keeps k w w' /\ dom (ktab k (w_ses w')) ⊆ dom (ktab k (w_ses w)) ∖ list_to_set (omap oid l)
  | RErr w' => keeps k w w' /\ dom (ktab k (w_ses w')) ⊆ dom (ktab k (w_ses w))
  | RCrash => True
  end.
Proof.
  intros Hf. induction l as [|x l IH]; intros w; cbn [each]; [split; [apply keeps_refl|set_solver]|].
  pose proof (Hf x w) as H1. destruct (f x w) as [w1|w1|]; cbn [rbind]; [| |done].
  - destruct H1 as (i & Hi & HD). pose proof (drops_keeps _ _ _ _ HD) as K. destruct HD as (_ & HT & _).
    assert (E : omap oid (x :: l) = i :: omap oid l) by (cbn; by rewrite Hi). rewrite E. specialize (IH w1). rewrite HT, dom_delete_L in IH.
    destruct (each f l w1) as [w2|w2|]; [| |done]; destruct IH as [K2 D2]; (split; [by eapply keeps_trans|set_solver]).
  - destruct H1 as [S|(i & Hi & HD)].
    + split; [by apply same_keeps|]. by rewrite (sm_tab _ _ _ S).
    + split; [by eapply drops_keeps|]. destruct HD as (_ & -> & _). rewrite dom_delete_L. set_solver.
Qed.

(** PDRs concern no ids. *)
Lemma apply_pdr_trk k s d b d' : apply_pdr s d = (b, d') -> ktrk k d' = ktrk k d /\ ksize k d' = ksize k d.
Proof.
  unfold apply_pdr, put_pdr_downlink, put_pdr_ip6, put_pdr_uplink. intros H. repeat (case_match; simplify_eq); by destruct k.
Qed.
Lemma extract_pdr_dp ueip p s w o w' : extract_pdr ueip p s w = (o, w') -> w_dp w' = w_dp w.
Proof. intros H. by apply extract_pdr_prims in H as [? _]. Qed.
Lemma ktab_put k i p s : ktab k (ses_put_pdr i p s) = ktab k s.
Proof. by destruct k. Qed.
Lemma create_pdr_same k ueip p w : onres (same k w) (create_pdr ueip p w).
Proof.
  unfold create_pdr. destruct (pe_id p) as [id|]; [|apply same_refl]. destruct (extract_pdr _ _ _ w) as [[s|] w1] eqn:E;
    pose proof (extract_pdr_dp _ _ _ _ _ _ E) as Hd; apply extract_pdr_ses in E; [|by split; rewrite ?Hd, ?E].
  cbn zeta. cbn [w_set_ses w_dp]. destruct (apply_pdr s (w_dp w1)) as [[] d] eqn:Ea; apply (apply_pdr_trk k) in Ea as [A1 A2];
    (split; cbn [w_add_created w_set_dp w_set_ses w_dp w_ses]; rewrite ?A1, ?A2, ?Hd, ?ktab_put, ?E; done).
Qed.
Lemma update_pdr_same k ueip p w : onres (same k w) (update_pdr_ie ueip p w).
Proof.
  unfold update_pdr_ie. destruct (pe_id p) as [id|]; [|apply same_refl]. destruct (extract_pdr _ _ _ w) as [[s|] w1] eqn:E;
    pose proof (extract_pdr_dp _ _ _ _ _ _ E) as Hd; apply extract_pdr_ses in E; [|by split; rewrite ?Hd, ?E].
  cbn zeta. cbn [w_set_ses w_dp]. destruct (apply_pdr s (w_dp w1)) as [[] d] eqn:Ea; apply (apply_pdr_trk k) in Ea as [A1 A2];
    (split; cbn [w_add_created w_set_dp w_set_ses w_dp w_ses]; rewrite ?A1, ?A2, ?Hd, ?ktab_put, ?E; done).
Qed.
Lemma delete_pdr_same k sh s w : onres (same k w) (delete_pdr sh s w).
Proof.
  unfold delete_pdr, delete_pdr_downlink, delete_pdr_ip6, delete_pdr_uplink.
  repeat (case_match; simplify_eq); simpl; try done; by (split; destruct k).
Qed.
Lemma remove_pdr_same k sh p w : onres (same k w) (remove_pdr_ie sh p w).
Proof.
  unfold remove_pdr_ie. cbn zeta. destruct (s_pdrs _ !! _) as [s|]; [|apply same_refl]. eapply onres_mono; [|apply delete_pdr_same].
  intros w' [A B C]. split; [done|done|]. rewrite C. by destruct k.
Qed.

(** ** A whole request *)
Definition kdom (k : kind) (w : work) : gset N := dom (ktab k (w_ses w)).
Definition modgoal (k : kind) (w : work) (c u d : list N) (r : res) : Prop :=
  match r with
  | ROk w' => keeps k w w' /\ kdom k w' ⊆ (kdom k w ∪ list_to_set c ∪ list_to_set u) ∖ list_to_set d
  | RErr w' => keeps k w w' /\ kdom k w' ⊆ kdom k w ∪ list_to_set c ∪ list_to_set u
  | RCrash => True
  end.
Lemma bind_same k w r f : onres (same k w) r -> (forall w', onres (same k w') (f w')) -> onres (same k w) (rbind r f).
Proof. intros H Hf. destruct r as [w1|w1|]; simpl in *; [|done|done]. eapply onres_mono; [|by apply Hf]. intros w2. by apply same_trans. Qed.
Lemma skip k w c u d r f : onres (same k w) r -> (forall w', same k w w' -> modgoal k w' c u d (f w')) -> modgoal k w c u d (rbind r f).
Proof.
  intros H Hf. destruct r as [w1|w1|]; cbn [rbind onres] in *; [| |done].
  - specialize (Hf w1 H). assert (Ed : kdom k w1 = kdom k w) by (unfold kdom; by rewrite (sm_tab _ _ _ H)). pose proof (same_keeps _ _ _ H) as K.
    destruct (f w1) as [w2|w2|]; cbn [modgoal] in *; [| |done]; destruct Hf as [K2 D]; rewrite Ed in D; (split; [by eapply keeps_trans|done]).
  - split; [by apply same_keeps|]. unfold kdom. rewrite (sm_tab _ _ _ H). set_solver.
Qed.
Lemma three {A B C} k (oc : A -> option N) (ou : B -> option N) (od : C -> option N) fc fu fd lc lu ld tl w :
  makes k oc fc -> touches k ou fu -> frees k od fd -> NoDup (omap oc lc) -> (forall i, i ∈ omap oc lc -> ktab k (w_ses w) !! i = None) ->
  (forall w', onres (same k w') (tl w')) ->
  modgoal k w (omap oc lc) (omap ou lu) (omap od ld)
    (rbind (each fc lc w) (fun w => rbind (each fu lu w) (fun w => rbind (each fd ld w) tl))).
Proof.
  intros Mk Tc Fr Hnd Hnew Htl. pose proof (each_makes k oc fc lc Mk w Hnd Hnew) as H1.
  destruct (each fc lc w) as [w1|w1|]; cbn [rbind onres] in *; [| |done]; [|destruct H1; split; [done|]; unfold kdom; set_solver].
  destruct H1 as [K1 D1]. pose proof (each_touches k ou fu lu Tc w1) as H2.
  destruct (each fu lu w1) as [w2|w2|]; cbn [rbind onres] in *; [| |done]; [|destruct H2; split; [by eapply keeps_trans|]; unfold kdom; set_solver].
  destruct H2 as [K2 D2]. pose proof (each_frees k od fd ld Fr w2) as H3.
  destruct (each fd ld w2) as [w3|w3|]; cbn [rbind] in *; [| |done].
  - destruct H3 as [K3 D3]. specialize (Htl w3). assert (K : keeps k w w3) by (eapply keeps_trans; [exact K1|]; by eapply keeps_trans).
    assert (Hs : forall w4, same k w3 w4 -> keeps k w w4 /\ kdom k w4 ⊆ (kdom k w ∪ list_to_set (omap oc lc) ∪ list_to_set (omap ou lu)) ∖ list_to_set (omap od ld)).
    { intros w4 S. split; [eapply keeps_trans; [exact K|by apply same_keeps]|]. unfold kdom. rewrite (sm_tab _ _ _ S). set_solver. }
    destruct (tl w3) as [w4|w4|]; cbn [modgoal onres] in *; [by apply Hs| |done]. destruct (Hs _ Htl). split; [done|set_solver].
  - destruct H3 as [K3 D3]. split; [eapply keeps_trans; [exact K1|]; by eapply keeps_trans|]. unfold kdom. set_solver.
Qed.
Ltac sames := repeat first [apply bind_same; [|intros ?]|apply each_same; intros ? ?|apply create_far_same; done|apply create_qer_same; done|apply create_urr_same; done
  |apply update_far_same; done|apply update_qer_same; done|apply update_urr_same; done|apply remove_far_same; done|apply remove_qer_same; done|apply remove_urr_same; done
  |apply create_pdr_same|apply update_pdr_same|apply remove_pdr_same].
Lemma mod_goal k ueip sh q w : NoDup (mod_new k q) -> (forall i, i ∈ mod_new k q -> ktab k (w_ses w) !! i = None) ->
  modgoal k w (mod_new k q) (mod_upd k q) (mod_del k q) (mod_rules ueip sh q w).
Proof.
  intros Hnd Hnew. unfold mod_rules. destruct k; cbn [mod_new mod_upd mod_del] in *.
  - rewrite <- (omap_some (default 0 ∘ fa_id) (mq_cfar q)) in *. rewrite <- (omap_some (default 0 ∘ fa_id) (mq_rfar q)).
    eapply three; [apply create_far_makes|apply update_far_touches|apply remove_far_frees|done|done|]. intros w'. sames.
  - do 3 (apply skip; [by sames|]; intros ? [_ _ ?]).
    eapply three; [apply create_qer_makes|apply update_qer_touches|apply remove_qer_frees|done|intros i Hi; apply Hnew in Hi; congruence|].
    intros ?. sames.
  - do 6 (apply skip; [by sames|]; intros ? [_ _ ?]).
    eapply three; [apply create_urr_makes|apply update_urr_touches|apply remove_urr_frees|done|intros i Hi; apply Hnew in Hi; congruence|].
    intros ?. sames.
Qed.
Lemma est_goal k ueip q w : ktab k (w_ses w) = ∅ -> NoDup (est_ids k q) ->
  onres (fun w' => keeps k w w' /\ kdom k w' ⊆ list_to_set (est_ids k q)) (est_rules ueip q w).
Proof.
  intros He Hnd.
  (* establishment = a modification that only creates *)
  set (m := ModReq 0 Absent (eq_fars q) [] [] (eq_qers q) [] [] (eq_urrs q) [] [] (eq_pdrs q) [] []).
  assert (Em : mod_rules ueip id_shuffle m w = est_rules ueip q w).
  { unfold mod_rules, est_rules, m. cbn. destruct (each create_far _ w) as [w1|w1|]; cbn; [|done|done].
    destruct (each create_qer _ w1) as [w2|w2|]; cbn; [|done|done]. destruct (each create_urr _ w2) as [w3|w3|]; cbn; [|done|done].
    by destruct (each (create_pdr ueip) _ w3). }
  assert (Ei : mod_new k m = est_ids k q) by (by destruct k).
  pose proof (mod_goal k ueip id_shuffle m w) as H. rewrite Em, Ei in H. specialize (H Hnd ltac:(intros i _; by rewrite He, lookup_empty)).
  assert (Eu : mod_upd k m = []) by (by destruct k). rewrite Eu in H.
  assert (Ez : kdom k w = ∅) by (unfold kdom; by rewrite He, dom_empty_L).
  destruct (est_rules ueip q w) as [w'|w'|]; cbn [modgoal onres] in *; [| |done]; destruct H as [K D]; (split; [done|]); rewrite Ez in D; set_solver.
Qed.

(** ** Deletion: what the loops over the session's rules give back *)
Record grows (k : kind) (w w' : work) : Prop := {
  gw_max : t_max (ktrk k (w_dp w')) = t_max (ktrk k (w_dp w));
  gw_size : ksize k (w_dp w') = ksize k (w_dp w);
  gw_free : forall g, g ∈ kfree k (w_dp w) -> g ∈ kfree k (w_dp w') }.
Lemma grows_refl k w : grows k w w. Proof. by split. Qed.
Lemma grows_trans k a b c : grows k a b -> grows k b c -> grows k a c.
Proof. intros [A1 A2 A3] [B1 B2 B3]. split; [congruence..|auto]. Qed.
Lemma same_grows k w w' : same k w w' -> grows k w w'.
Proof. intros [H1 H2 _]. split; [by rewrite H1|done|]. unfold kfree. by rewrite H1. Qed.
Lemma each_grows {A} k (f : A -> work -> res) l w : (forall x w, onres (grows k w) (f x w)) -> onres (grows k w) (each f l w).
Proof.
  intros Hf. revert w. induction l as [|x l IH]; intros w; simpl; [apply grows_refl|]. pose proof (Hf x w) as H.
  destruct (f x w) as [w1|w1|]; simpl in *; [|done|done]. eapply onres_mono; [|apply IH]. intros w2. by apply grows_trans.
Qed.
Lemma bind_grows k w r f : onres (grows k w) r -> (forall w', onres (grows k w') (f w')) -> onres (grows k w) (rbind r f).
Proof. intros H Hf. destruct r as [w1|w1|]; simpl in *; [|done|done]. eapply onres_mono; [|by apply Hf]. intros w2. by apply grows_trans. Qed.

(** [f] gives back the id of each rule it is applied to. *)
Definition gives {A} (k : kind) (gid : A -> N) (f : A -> work -> res) : Prop := forall x w,
  onres (fun w' => grows k w w' /\ (t_max (ktrk k (w_dp w)) = ksize k (w_dp w) -> gid x < ksize k (w_dp w) -> gid x ∈ kfree k (w_dp w'))) (f x w).
Lemma del_far_gives : gives KFar (fun e => sf_gid (snd e)) del_far.
Proof.
  intros e w. unfold del_far, delete_far, update_far. destruct (_ <? _); simpl; (split; [|intros Hm Hg; unfold kfree; simpl; apply release_in; lia]);
    (split; [|done|]; unfold kfree; cbn; rewrite ?release_tmax; [done|]; intros g; apply release_mono).
Qed.
Lemma del_qer_gives : gives KQer (fun e => sq_gid (snd e)) del_qer.
Proof.
  intros e w. unfold del_qer, delete_qer, update_qer. destruct (_ <? _); simpl; (split; [|intros Hm Hg; unfold kfree; simpl; apply release_in; lia]);
    (split; [|done|]; unfold kfree; cbn; rewrite ?release_tmax; [done|]; intros g; apply release_mono).
Qed.
Lemma del_urr_gives : gives KUrr (fun e => su_gid (snd e)) del_urr.
Proof.
  intros e w. unfold del_urr, delete_urr, urr_get, arr_get, update_urr. destruct (N.ltb_spec (su_gid (snd e)) (d_urr_size (w_dp w))) as [H|H]; simpl.
  - rewrite (proj2 (N.ltb_lt _ _) H). simpl. split; [|intros Hm Hg; unfold kfree; simpl; apply release_in; lia].
    split; [|done|]; unfold kfree; cbn; rewrite ?release_tmax; [done|]; intros g; apply release_mono.
  - split; [by split|]. intros _ ?. lia.
Qed.
Lemma del_far_same k e w : k <> KFar -> onres (same k w) (del_far e w).
Proof. intros Hk. unfold del_far, delete_far, update_far. destruct k; [done| |]; kind_tac. Qed.
Lemma del_qer_same k e w : k <> KQer -> onres (same k w) (del_qer e w).
Proof. intros Hk. unfold del_qer, delete_qer, update_qer. destruct k; [|done|]; kind_tac. Qed.
Lemma del_urr_same k e w : k <> KUrr -> onres (same k w) (del_urr e w).
Proof. intros Hk. unfold del_urr, delete_urr, update_urr, urr_get, arr_get. destruct k; [| |done]; kind_tac. Qed.
Lemma ign_on {A} (P : work -> Prop) (f : A -> work -> res) x w : onres P (f x w) -> onres P (ign f x w).
Proof. unfold ign. by destruct (f x w). Qed.
Lemma ign_gives {A} k gid (f : A -> work -> res) : gives k gid f -> gives k gid (ign f).
Proof. intros H x w. apply ign_on, H. Qed.
Lemma each_gives {A} k gid (f : A -> work -> res) (l : list A) : gives k gid f -> forall w,
  match each f l w with
  | ROk w' => grows k w w' /\ (t_max (ktrk k (w_dp w)) = ksize k (w_dp w) -> forall x, x ∈ l -> gid x < ksize k (w_dp w) -> gid x ∈ kfree k (w_dp w'))
  | RErr w' => grows k w w'
  | RCrash => True
  end.
Proof.
  intros Hf. induction l as [|x l IH]; intros w; cbn [each]; [split; [apply grows_refl|]; intros _ x Hx; by apply elem_of_nil in Hx|].
  pose proof (Hf x w) as H1. destruct (f x w) as [w1|w1|]; cbn [rbind onres] in *; [|by destruct H1|done].
  destruct H1 as [G1 F1]. specialize (IH w1). destruct (each f l w1) as [w2|w2|]; [|by eapply grows_trans|done].
  destruct IH as [G2 F2]. split; [by eapply grows_trans|]. intros Hm y [->|Hy]%elem_of_cons Hg.
  - by apply (gw_free _ _ _ G2), F1.
  - apply F2; [by rewrite (gw_max _ _ _ G1), (gw_size _ _ _ G1)|done|by rewrite (gw_size _ _ _ G1)].
Qed.
(** A loop over rules of another kind. *)
Lemma pass {A} k (f : A -> work -> res) l w : (forall x w, onres (same k w) (f x w)) -> onres (grows k w) (each f l w).
Proof. intros H. apply each_grows. intros x w1. eapply onres_mono; [|apply H]. apply same_grows. Qed.

(** The ids of the session are free after a deletion that ended; one that failed took none. *)
Definition back (k : kind) (s : session) (w : work) (r : res) : Prop :=
  match r with
  | ROk w' => grows k w w' /\ (t_max (ktrk k (w_dp w)) = ksize k (w_dp w) -> forall i g, ktab k s !! i = Some g -> g < ksize k (w_dp w) -> g ∈ kfree k (w_dp w'))
  | RErr w' => grows k w w'
  | RCrash => True
  end.
Lemma back_before k s w r f : onres (grows k w) r -> (forall w', back k s w' (f w')) -> back k s w (rbind r f).
Proof.
  intros H Hf. destruct r as [w1|w1|]; cbn [rbind onres] in *; [|exact H|done]. specialize (Hf w1).
  destruct (f w1) as [w2|w2|]; cbn [back] in *; [|by eapply grows_trans|done]. destruct Hf as [G F]. split; [by eapply grows_trans|].
  intros Hm i g Hi Hg. apply (F ltac:(by rewrite (gw_max _ _ _ H), (gw_size _ _ _ H)) i); [done|by rewrite (gw_size _ _ _ H)].
Qed.
Lemma back_after k s w r f : back k s w r -> (forall w', onres (grows k w') (f w')) -> back k s w (rbind r f).
Proof.
  intros H Hf. destruct r as [w1|w1|]; cbn [rbind back] in *; [|exact H|done]. specialize (Hf w1). destruct H as [G1 F1].
  destruct (f w1) as [w2|w2|]; cbn [onres] in *; [|by eapply grows_trans|done]. split; [by eapply grows_trans|].
  intros Hm i g Hi Hg. by eapply (gw_free _ _ _ Hf), F1.
Qed.
Lemma back_far sh s w f : fair sh -> gives KFar (fun e : N * sfar => sf_gid (snd e)) f -> back KFar s w (each f (entries sh 1 (s_fars s)) w).
Proof.
  intros Hs Hf. pose proof (each_gives _ _ f (entries sh 1 (s_fars s)) Hf w) as H. destruct (each f _ w) as [w'|w'|]; [|done|done].
  destruct H as [G F]. split; [done|]. intros Hm i g Hi Hg. cbn [ktab] in Hi. rewrite lookup_fmap in Hi. destruct (s_fars s !! i) as [x|] eqn:E; [|done].
  cbn in Hi. simplify_eq. by eapply (F Hm (i, x)); [apply elem_of_entries|].
Qed.
Lemma back_qer sh s w f : fair sh -> gives KQer (fun e : N * sqer => sq_gid (snd e)) f -> back KQer s w (each f (entries sh 2 (s_qers s)) w).
Proof.
  intros Hs Hf. pose proof (each_gives _ _ f (entries sh 2 (s_qers s)) Hf w) as H. destruct (each f _ w) as [w'|w'|]; [|done|done].
  destruct H as [G F]. split; [done|]. intros Hm i g Hi Hg. cbn [ktab] in Hi. rewrite lookup_fmap in Hi. destruct (s_qers s !! i) as [x|] eqn:E; [|done].
  cbn in Hi. simplify_eq. by eapply (F Hm (i, x)); [apply elem_of_entries|].
Qed.
Lemma back_urr sh s w f : fair sh -> gives KUrr (fun e : N * surr => su_gid (snd e)) f -> back KUrr s w (each f (entries sh 3 (s_urrs s)) w).
Proof.
  intros Hs Hf. pose proof (each_gives _ _ f (entries sh 3 (s_urrs s)) Hf w) as H. destruct (each f _ w) as [w'|w'|]; [|done|done].
  destruct H as [G F]. split; [done|]. intros Hm i g Hi Hg. cbn [ktab] in Hi. rewrite lookup_fmap in Hi. destruct (s_urrs s !! i) as [x|] eqn:E; [|done].
  cbn in Hi. simplify_eq. by eapply (F Hm (i, x)); [apply elem_of_entries|].
Qed.
Ltac passes := first [apply bind_grows; [|intros ?]; passes|apply pass; intros ? ?; try apply ign_on;
  first [apply delete_pdr_same|apply del_far_same; done|apply del_qer_same; done|apply del_urr_same; done]].
Lemma del_rules_back k sh s w : fair sh -> back k s w (del_rules sh s w).
Proof.
  intros Hs. unfold del_rules. destruct k.
  - apply back_before; [passes|]. intros w1. apply back_after; [apply back_far; [done|apply del_far_gives]|]. intros ?. passes.
  - apply back_before; [passes|]. intros w1. apply back_before; [passes|]. intros w2. apply back_after; [apply back_qer; [done|apply del_qer_gives]|]. intros ?. passes.
  - apply back_before; [passes|]. intros w1. apply back_before; [passes|]. intros w2. apply back_before; [passes|]. intros w3. apply back_urr; [done|apply del_urr_gives].
Qed.
(** Pruning gives FARs and QERs back, and no URR. *)
Definition prune_work (sh : shuffle) (s : session) (d : dp) (rm : option rman) : res :=
  rbind (each (ign del_far) (entries sh 1 (s_fars s)) (new_work d s rm)) (fun w =>
  rbind (each (ign del_qer) (entries sh 2 (s_qers s)) w) (fun w =>
  each (ign (fun e => delete_pdr sh (snd e))) (entries sh 0 (s_pdrs s)) w)).
Lemma prune_work_back k sh s d rm : fair sh -> k <> KUrr \/ s_urrs s = ∅ -> back k s (new_work d s rm) (prune_work sh s d rm).
Proof.
  intros Hs Hk. unfold prune_work. destruct k.
  - apply back_after; [apply back_far; [done|apply ign_gives, del_far_gives]|]. intros ?. passes.
  - apply back_before; [passes|]. intros w1. apply back_after; [apply back_qer; [done|apply ign_gives, del_qer_gives]|]. intros ?. passes.
  - destruct Hk as [?|Hu]; [done|].
    assert (G : onres (grows KUrr (new_work d s rm)) (rbind (each (ign del_far) (entries sh 1 (s_fars s)) (new_work d s rm)) (fun w =>
      rbind (each (ign del_qer) (entries sh 2 (s_qers s)) w) (fun w => each (ign (fun e => delete_pdr sh (snd e))) (entries sh 0 (s_pdrs s)) w)))) by passes.
    destruct (rbind _ _) as [w'|w'|]; cbn [onres back] in *; [|done|done]. split; [done|]. intros _ i g Hi. cbn [ktab] in Hi.
    by rewrite Hu, fmap_empty, lookup_empty in Hi.
Qed.
Lemma prune_ok {A} (f : A -> work -> res) l w w' : each (ign f) l w <> RErr w'.
Proof. revert w. induction l as [|x l IH]; intros w; cbn [each]; [done|]. unfold ign at 1. by destruct (f x w); cbn [rbind]. Qed.
Lemma prune_session_back k sh s d rm d' rm' : fair sh -> k <> KUrr \/ s_urrs s = ∅ -> prune_session sh s d rm = Some (d', rm') ->
  grows k (new_work d s rm) (new_work d' s rm') /\
  (t_max (ktrk k d) = ksize k d -> forall i g, ktab k s !! i = Some g -> g < ksize k d -> g ∈ kfree k d').
Proof.
  intros Hs Hk H. pose proof (prune_work_back k sh s d rm Hs Hk) as HB. unfold prune_session in H. fold (prune_work sh s d rm) in H.
  destruct (prune_work sh s d rm) as [w|w|] eqn:E; simplify_eq; cbn [back] in HB.
  - destruct HB as [[G1 G2 G3] F]. split; [by split|]. intros Hm i g Hi Hg. by eapply F.
  - exfalso. unfold prune_work in E. destruct (each (ign del_far) _ _) as [w1|w1|] eqn:E1; cbn [rbind] in E; [|by eapply prune_ok|done].
    destruct (each (ign del_qer) _ _) as [w2|w2|] eqn:E2; cbn [rbind] in E; [|by eapply prune_ok|done]. by eapply prune_ok.
Qed.
Lemma prune_sessions_back k sh l : fair sh -> forall d rm d' rm', (forall x, x ∈ l -> k <> KUrr \/ s_urrs (snd x) = ∅) -> prune_sessions sh l d rm = Some (d', rm') ->
  t_max (ktrk k d') = t_max (ktrk k d) /\ ksize k d' = ksize k d /\ (forall g, g ∈ kfree k d -> g ∈ kfree k d') /\
  (t_max (ktrk k d) = ksize k d -> forall x i g, x ∈ l -> ktab k (snd x) !! i = Some g -> g < ksize k d -> g ∈ kfree k d').
Proof.
  intros Hs. induction l as [|[n s] l IH]; intros d rm d' rm' Hk H; cbn [prune_sessions] in H; simplify_eq.
  - split_and!; [done..|]. intros _ x i g Hx. by apply elem_of_nil in Hx.
  - destruct (prune_session sh s d rm) as [[d1 rm1]|] eqn:E; [|done]. apply (prune_session_back k) in E as [[G1 G2 G3] F]; [|done|exact (Hk (n, s) ltac:(left))].
    cbn [new_work w_dp] in *. destruct (IH _ _ _ _ (fun x Hx => Hk x ltac:(by right)) H) as (A1 & A2 & A3 & A4).
    split_and!; [congruence..|auto|]. intros Hm x i g [->|Hx]%elem_of_cons Hi Hg.
    + eapply A3, F; [done|exact Hi|done].
    + eapply A4; [by rewrite G1, G2|exact Hx|exact Hi|by rewrite G2].
Qed.

(** ** Histories: every id is free or a session has it *)
Record covered (k : kind) (size : N) (L : ledger) (c : conn) : Prop := {
  cv_size : ksize k (c_dp c) = size;
  cv_max : t_max (ktrk k (c_dp c)) = size;
  cv_led : forall a n s, session_of c a n = Some s -> exists J : gset N, L !! (a, n) = Some J /\ dom (ktab k s) ⊆ J;
  cv_all : forall g, g < size -> g ∈ kfree k (c_dp c) \/ exists a n s i, session_of c a n = Some s /\ ktab k s !! i = Some g }.

Lemma covered_same k z L c c' : covered k z L c -> (forall a n, session_of c' a n = session_of c a n) -> ktrk k (c_dp c') = ktrk k (c_dp c) ->
  ksize k (c_dp c') = ksize k (c_dp c) -> covered k z L c'.
Proof.
  intros [H1 H2 H3 H4] Hs Ht Hz. split; [by rewrite Hz|by rewrite Ht|intros a n s; rewrite Hs; apply H3|].
  intros g Hg. unfold kfree. rewrite Ht. destruct (H4 g Hg) as [?|(a & n & s & i & Ha & Hi)]; [by left|]. right. exists a, n, s, i. by rewrite Hs.
Qed.
Lemma session_of_put addr seid a s c d rm a' n' : c_assocs c !! addr = Some a -> forall nx,
  session_of (set_dp_rm d rm (set_assocs (<[addr := Assoc (a_node a) nx (<[seid := s]> (a_sessions a))]> (c_assocs c)) c)) a' n' =
  if decide (a' = addr /\ n' = seid) then Some s else session_of c a' n'.
Proof.
  intros Ha nx. unfold session_of. simpl. destruct (decide (a' = addr)) as [->|Hne].
  - rewrite lookup_insert, Ha. simpl. destruct (decide (n' = seid)) as [->|Hne2].
    + rewrite lookup_insert. by rewrite decide_True.
    + rewrite lookup_insert_ne by done. rewrite decide_False; [done|naive_solver].
  - rewrite lookup_insert_ne by done. rewrite decide_False; [done|naive_solver].
Qed.
(** A session changes by a request that loses nothing. *)
Lemma covered_put k z L c c' addr seid w w' (J : gset N) : covered k z L c -> w_dp w = c_dp c -> w_dp w' = c_dp c' -> keeps k w w' ->
  ktab k (w_ses w) = default ∅ (ktab k <$> session_of c addr seid) ->
  (forall a n, session_of c' a n = if decide (a = addr /\ n = seid) then Some (w_ses w') else session_of c a n) ->
  kdom k w' ⊆ J -> covered k z (<[(addr, seid) := J]> L) c'.
Proof.
  intros [H1 H2 H3 H4] Hd Hd' [K1 K2 K3] Ht Hs HJ. rewrite Hd, Hd' in *. split.
  - by rewrite K2.
  - rewrite K1; [by rewrite K2|congruence].
  - intros a n s. rewrite Hs. destruct (decide _) as [[-> ->]|Hne]; intros E.
    + simplify_eq. rewrite lookup_insert. eauto.
    + rewrite lookup_insert_ne; [by apply H3|]. intros [= <- <-]. tauto.
  - intros g Hg. assert (Hm : t_max (ktrk k (c_dp c)) = ksize k (c_dp c)) by congruence.
    assert (Hcase : has_id k w g \/ exists a n s i, ~ (a = addr /\ n = seid) /\ session_of c a n = Some s /\ ktab k s !! i = Some g).
    { destruct (H4 g Hg) as [?|(a & n & s & i & Ha & Hi)]; [left; left; by rewrite Hd|]. destruct (decide (a = addr /\ n = seid)) as [[-> ->]|Hne].
      - left. right. exists i. by rewrite Ht, Ha.
      - right. eauto 10. }
    destruct Hcase as [Hc|(a & n & s & i & Hne & Ha & Hi)].
    + destruct (K3 Hm g ltac:(lia) Hc) as [?|(i & Hi)]; [left; by rewrite <- Hd'|]. right. exists addr, seid, (w_ses w'), i. rewrite Hs, decide_True; done.
    + right. exists a, n, s, i. by rewrite Hs, decide_False.
Qed.

Lemma covered_step k z n l L c e c' r : hinv n l c -> n < bound -> event_fair e -> covered k z L c -> frugal_step k L (e, r) = true ->
  step c e = Done c' r -> covered k z (ids_step k L (e, r)) c'.
Proof.
  intros Hinv Hn Hfair HC Hfr H. destruct e as [sh addr seq m|sh addr|marks vols].
  - assert (Hens : forall x, covered k z L (ensure_assoc addr x c)).
    { intros x. eapply covered_same; [exact HC| |by unfold ensure_assoc; destruct (c_assocs c !! addr)..].
      intros a i. unfold ensure_assoc. destruct (c_assocs c !! addr) as [y|] eqn:Ha; [done|]. unfold session_of. simpl.
      destruct (decide (a = addr)) as [->|Hne]; [rewrite lookup_insert, Ha; simpl; by rewrite lookup_empty|by rewrite lookup_insert_ne]. }
    destruct m as [t|t|nd t|nd cs f|nd|q|q|seid|ty]; simpl in H.
    + unfold handle_hb_req in H. destruct t; simplify_eq; done.
    + unfold handle_hb_resp in H. destruct t; simplify_eq; done.
    + unfold handle_setup in H. destruct nd as [| |nd]; [by simplify_eq..|]. destruct t as [| |t]; [by simplify_eq..|]. simplify_eq. apply Hens.
    + unfold handle_setup_resp in H. destruct nd as [| |nd], cs as [| |cs], f as [| |f]; simplify_eq; try done.
      destruct (cs =? Accepted); simplify_eq; [|done]. apply Hens.
    + unfold handle_update in H. simpl. repeat (case_match; simplify_eq); simplify_eq; done.
    + unfold handle_est in H. destruct (validate_request _ _) as [remote|]; simplify_eq; [|done].
      destruct (c_assocs c !! addr) as [a|] eqn:Ha; simplify_eq; [|done]. destruct (existsb _ _); [done|].
      set (w0 := new_work (c_dp c) (new_session (next_seid a) remote) (c_rm c)) in *.
      assert (Hw0 : ktab k (w_ses w0) = ∅) by (by destruct k; cbn; rewrite fmap_empty).
      pose proof (est_goal k (g_ueip (c_cfg c)) q w0 Hw0) as HG.
      destruct (est_rules _ _ _) as [w|w|]; simplify_eq. cbn [frugal_step r_cause Accepted resp_cause] in Hfr.
      apply bool_decide_eq_true in Hfr. destruct (HG Hfr) as [K D].
      assert (Hnew : session_of c addr (next_seid a) = None).
      { destruct (session_of c addr (next_seid a)) as [s|] eqn:Es; [|done]. exfalso. unfold session_of in Es. rewrite Ha in Es.
        destruct (hi_seid _ _ _ Hinv _ _ _ _ Ha Es) as [Hx _]. destruct (hi_next _ _ _ Hinv _ _ Ha) as [_ Hx2].
        rewrite (next_seid_lt a n) in Hx by done. lia. }
      cbn [ids_step r_cause r_fseid Accepted].
      eapply (covered_put k z L c _ addr (next_seid a) w0 w); [exact HC|done|done|exact K| | |exact D].
      * by rewrite Hnew.
      * intros a' n'. unfold put_session. cbn [set_assocs c_assocs c_dp c_rm c_cfg a_node a_next a_sessions]. rewrite insert_insert.
        exact (session_of_put addr (next_seid a) a (w_ses w) c (w_dp w) (w_rm w) a' n' Ha (next_seid a)).
    + unfold handle_mod in H. destruct (c_assocs c !! addr) as [a|] eqn:Ha.
      2:{ simplify_eq. eapply covered_same; [|done..]. destruct HC as [H1 H2 H3 H4]. split; [done|done| |done]. intros a n' s Hs.
          destruct (H3 _ _ _ Hs) as (J & HJ & Hd). cbn [ids_step]. destruct (decide ((a, n') = (addr, mq_seid q))) as [[= -> ->]|Hne].
          - exfalso. unfold session_of in Hs. by rewrite Ha in Hs.
          - rewrite lookup_alter_ne by done. eauto. }
      destruct (a_sessions a !! mq_seid q) as [s|] eqn:Hs.
      2:{ simplify_eq. destruct HC as [H1 H2 H3 H4]. split; [done|done| |done]. intros a' n' s Hs'.
          destruct (H3 _ _ _ Hs') as (J & HJ & Hd). cbn [ids_step]. destruct (decide ((a', n') = (addr, mq_seid q))) as [[= -> ->]|Hne].
          - exfalso. unfold session_of in Hs'. rewrite Ha in Hs'. congruence.
          - rewrite lookup_alter_ne by done. eauto. }
      destruct (_ || _); [done|]. assert (Hs0 : session_of c addr (mq_seid q) = Some s) by (unfold session_of; by rewrite Ha).
      set (s1 := match mq_fseid q with Good r => set_remote r s | _ => s end) in *.
      assert (Hs1 : ktab k s1 = ktab k s) by (unfold s1; destruct (mq_fseid q); by destruct k).
      destruct (cv_led _ _ _ _ HC _ _ _ Hs0) as (J & HJ & HD).
      assert (Hr : exists r0, r = Some r0).
      { destruct (mod_rules _ _ _ _); simplify_eq; eauto. }
      destruct Hr as [r0 ->]. cbn [frugal_step] in Hfr. rewrite HJ in Hfr. apply andb_true_iff in Hfr as [F1%bool_decide_eq_true F2]. rewrite forallb_forall in F2.
      assert (HG := mod_goal k (g_ueip (c_cfg c)) sh q (new_work (c_dp c) s1 (c_rm c)) F1).
      assert (Hnew : forall i, i ∈ mod_new k q -> ktab k (w_ses (new_work (c_dp c) s1 (c_rm c))) !! i = None).
      { intros i Hi. cbn [new_work w_ses]. rewrite Hs1. apply not_elem_of_dom. intros Hd. apply HD in Hd. apply elem_of_list_In, F2, bool_decide_eq_true in Hi. done. }
      specialize (HG Hnew). cbn [ids_step].
      match goal with |- covered _ _ (alter ?f ?kk L) _ => assert (EL : alter f kk L = <[kk := f J]> L) end.
      { apply map_eq. intros kk. destruct (decide (kk = (addr, mq_seid q))) as [->|Hne]; [by rewrite lookup_alter, lookup_insert, HJ|by rewrite lookup_alter_ne, lookup_insert_ne]. }
      rewrite EL. clear EL.
      destruct (mod_rules _ _ _ _) as [w|w|]; simplify_eq; cbn [modgoal] in HG; destruct HG as [K D].
      * eapply (covered_put k z L c _ addr (mq_seid q) (new_work (c_dp c) s1 (c_rm c)) w); [exact HC|done|done|exact K|by rewrite Hs0| |].
        -- intros a' n'. exact (session_of_put addr (mq_seid q) a (w_ses w) c (w_dp w) (w_rm w) a' n' Ha (a_next a)).
        -- unfold kdom in D at 2. cbn [new_work w_ses] in D. rewrite Hs1 in D. cbn [r_cause Accepted]. rewrite bool_decide_eq_true_2 by done. set_solver.
      * eapply (covered_put k z L c _ addr (mq_seid q) (new_work (c_dp c) s1 (c_rm c)) w); [exact HC|done|done|exact K|by rewrite Hs0| |].
        -- intros a' n'. exact (session_of_put addr (mq_seid q) a (w_ses w) c (w_dp w) (w_rm w) a' n' Ha (a_next a)).
        -- unfold kdom in D at 2. cbn [new_work w_ses] in D. rewrite Hs1 in D. cbn [r_cause resp_cause RuleFailure]. rewrite bool_decide_eq_false_2 by done. set_solver.
    + unfold handle_del in H. destruct (c_assocs c !! addr) as [a|] eqn:Ha; simplify_eq; [|done].
      destruct (a_sessions a !! seid) as [s|] eqn:Hs; simplify_eq; [|done].
      assert (Hs0 : session_of c addr seid = Some s) by (unfold session_of; by rewrite Ha). simpl in Hfair.
      pose proof (del_rules_back k sh s (new_work (c_dp c) s (c_rm c)) Hfair) as HB. destruct HC as [H1 H2 H3 H4].
      destruct (del_rules _ _ _) as [w|w|]; simplify_eq; cbn [back new_work w_dp] in HB.
      * destruct HB as [[G1 G2 G3] F]. cbn [new_work w_dp] in *. cbn [ids_step r_cause Accepted].
        assert (Hso : forall a' n', session_of (set_dp_rm (w_dp w) (release_resources sh seid (w_rm w))
                  (set_assocs (<[addr := Assoc (a_node a) (a_next a) (delete seid (a_sessions a))]> (c_assocs c)) c)) a' n' =
                  if decide (a' = addr /\ n' = seid) then None else session_of c a' n').
        { intros a' n'. unfold session_of. simpl. destruct (decide (a' = addr)) as [->|Hne].
          - rewrite lookup_insert, Ha. simpl. destruct (decide (n' = seid)) as [->|Hne2].
            + rewrite lookup_delete. by rewrite decide_True.
            + rewrite lookup_delete_ne by done. rewrite decide_False; [done|naive_solver].
          - rewrite lookup_insert_ne by done. rewrite decide_False; [done|naive_solver]. }
        split; cbn [set_dp_rm c_dp].
        -- by rewrite G2.
        -- by rewrite G1.
        -- intros a' n' s'. rewrite Hso. destruct (decide _) as [|Hne]; [done|]. intros Hs'. destruct (H3 _ _ _ Hs') as (J & HJ & HD).
           exists J. split; [|done]. rewrite lookup_delete_ne; [done|]. intros [= <- <-]. tauto.
        -- intros g Hg. destruct (H4 g Hg) as [?|(a' & n' & s' & i & Hs' & Hi)]; [left; by apply G3|].
           destruct (decide (a' = addr /\ n' = seid)) as [[-> ->]|Hne].
           ++ left. assert (s' = s) as -> by congruence. apply (F ltac:(congruence) i); [done|congruence].
           ++ right. exists a', n', s', i. by rewrite Hso, decide_False.
      * destruct HB as [G1 G2 G3]. cbn [new_work w_dp] in *. split; cbn [set_dp_rm c_dp]; [by rewrite G2|by rewrite G1|done|].
        intros g Hg. destruct (H4 g Hg) as [?|?]; [left; by apply G3|by right].
    + by simplify_eq.
  - simpl in H. unfold prune in H. destruct (c_assocs c !! addr) as [a|] eqn:Ha; [|done].
    destruct (prune_sessions _ _ _ _) as [[d rm]|] eqn:E; simplify_eq. simpl in Hfair. destruct HC as [H1 H2 H3 H4].
    assert (Hses : forall seid s, session_of c addr seid = Some s <-> (seid, s) ∈ entries sh 4 (a_sessions a)).
    { intros seid s. unfold session_of. rewrite Ha. by rewrite elem_of_entries. }
    apply (prune_sessions_back k) in E as (G1 & G2 & G3 & F); [|done|].
    2:{ intros [n' s'] Hx. assert (k = KUrr \/ k <> KUrr) as [->|?] by (destruct k; auto); [|by left]. right. apply Hses in Hx. destruct (H3 _ _ _ Hx) as (J & HJ & HD).
        cbn [frugal_step] in Hfr. rewrite forallb_forall in Hfr. assert (Hin : (addr, n', J) ∈ map_to_list L) by (by apply elem_of_map_to_list).
        apply elem_of_list_In, Hfr in Hin. cbn [fst snd] in Hin. rewrite N.eqb_refl in Hin. cbn [negb orb] in Hin. apply bool_decide_eq_true in Hin. subst J.
        cbn [ktab] in HD. rewrite dom_fmap_L in HD. cbn [snd]. apply dom_empty_inv_L. set_solver. }
    assert (Hso : forall a' n', session_of (set_dp_rm d rm (set_assocs (delete addr (c_assocs c)) c)) a' n' = if decide (a' = addr) then None else session_of c a' n').
    { intros a' n'. unfold session_of. simpl. destruct (decide (a' = addr)) as [->|Hne]; [by rewrite lookup_delete|by rewrite lookup_delete_ne]. }
    split; cbn [set_dp_rm c_dp].
    + by rewrite G2.
    + by rewrite G1.
    + intros a' n' s'. rewrite Hso. destruct (decide _) as [|Hne]; [done|]. intros Hs'. destruct (H3 _ _ _ Hs') as (J & HJ & HD). exists J. split; [|done].
      cbn [ids_step]. apply map_filter_lookup_Some. done.
    + intros g Hg. destruct (H4 g Hg) as [?|(a' & n' & s' & i & Hs' & Hi)]; [left; by apply G3|].
      destruct (decide (a' = addr)) as [->|Hne].
      * left. apply (F ltac:(congruence) (n', s') i); [by apply Hses|done|congruence].
      * right. exists a', n', s', i. by rewrite Hso, decide_False.
  - simpl in H. simplify_eq. simpl. eapply covered_same; [exact HC|done|by destruct k..].
Qed.

