(** What one session request installs, reports and removes. *)
From Verif Require Import Base IdTracker ResourceManager SdfParser MapOps Pfcp PfcpProps PfcpHistory PfcpReach.

(** ** Vocabulary *)

(** The packet-detection keys of the data plane: uplink TEID, UE IPv4 / IPv6 address. *)
Inductive key := Up (teid : N) | Dn4 (ip : N) | Dn6 (ip : N).
Global Instance key_eq_dec : EqDecision key.
Proof. solve_decision. Defined.

Definition dp_find (d : dp) (k : key) : option ep_pdr :=
  match k with Up t => d_up d !! t | Dn4 a => d_dn4 d !! a | Dn6 a => d_dn6 d !! a end.

(** The key a PDR of a request detects by, and whether the UPF chose it.  With the CH flag
    the UPF chooses the TEID; with CHV4 (and the UEIP feature) it chooses the address, unless
    none is left, in which case the written address counts. *)
Definition detects (ueip : bool) (p : pdr_ie) (k : key) (chosen : bool) : Prop :=
  match pe_pdi p with
  | None => False
  | Some pdi =>
    match pi_fteid pdi with
    | Bad => False
    | Good fe => if fe_ch fe then chosen = true /\ exists t, k = Up t
                 else chosen = false /\ k = Up (fe_teid fe)
    | Absent =>
      match pi_ueip pdi with
      | Bad => False
      | Absent => chosen = false /\ k = Up 0
      | Good ue =>
          (chosen = true /\ ueip = true /\ ue_chv4 ue = true /\ exists a, k = Dn4 a) \/
          (chosen = false /\ match ue_v4 ue, ue_v6 ue with
                             | Some a, _ => k = Dn4 a
                             | None, Some a => k = Dn6 a
                             | None, None => False end)
      end
    end
  end.

(** The Created PDR IE for a PDR: present exactly when the UPF chose its key. *)
Definition report_of (n3 : N) (x : pdr_ie * (key * bool)) : option created :=
  match x with
  | (p, (Up t, true)) => Some (CreatedTeid (u16 (default 0 (pe_id p))) t n3)
  | (p, (Dn4 a, true)) => Some (CreatedIp (u16 (default 0 (pe_id p))) a)
  | _ => None
  end.

(** What a Create FAR asks for: the first octet of Apply Action, the outer header creation
    (its description's high octet, TEID, IPv4 address in network byte order), the marking. *)
Definition far_asks (f : far_ie) (i : far_info) : Prop :=
  fi_action i = match fa_apply f with Some (a :: _) => a | _ => 0 end /\
  fi_tlm i = default 0 (fa_tlm f) /\
  match fa_fwd f with
  | Some (Good o) => fi_ohc i = u8 (oh_desc o / 256) /\ fi_teid i = oh_teid o /\
                     fi_remote i = match oh_v4 o with Some a => le32 a | None => 0 end
  | _ => fi_ohc i = 0 /\ fi_teid i = 0 /\ fi_remote i = 0
  end.
(** What a Create QER asks for: gates, QFI, and MBR in kbit/s, kept as bit/s modulo 2^32. *)
Definition qer_asks (q : qer_ie) (i : qer_info) : Prop :=
  qi_ul_gate i = default 0 (qe_gate_ul q) /\ qi_dl_gate i = default 0 (qe_gate_dl q) /\
  qi_qfi i = default 0 (qe_qfi q) /\
  qi_ul_rate i = u32 (u32 (default 0 (qe_mbr_ul q)) * 1000) /\
  qi_dl_rate i = u32 (u32 (default 0 (qe_mbr_dl q)) * 1000).

Definition no_sdf (p : pdr_ie) : Prop := pe_sdf p = None \/ pe_sdf p = Some [].

(** ** Proof infrastructure *)

Definition keepsP {B} (proj : work -> B) (w : work) (r : res) : Prop :=
  match r with ROk w' | RErr w' => proj w' = proj w | RCrash => True end.
Lemma each_keep {A B} (proj : work -> B) (f : A -> work -> res) l w :
  (forall x w, keepsP proj w (f x w)) -> keepsP proj w (each f l w).
Proof.
  intros Hf. revert w. induction l as [|x l IH]; intros w; simpl; [done|].
  pose proof (Hf x w) as Hx. destruct (f x w) as [w1|w1|]; simpl in *; try done.
  specialize (IH w1). destruct (each f l w1); simpl in *; congruence.
Qed.
Lemma bind_keep {B} (proj : work -> B) w r k :
  keepsP proj w r -> (forall w', keepsP proj w' (k w')) -> keepsP proj w (rbind r k).
Proof.
  intros H Hk. destruct r as [w1|w1|]; simpl in *; try done. specialize (Hk w1).
  destruct (k w1); simpl in *; congruence.
Qed.
Lemma rbind_ok r k w : rbind r k = ROk w -> exists w1, r = ROk w1 /\ k w1 = ROk w.
Proof. destruct r; simpl; intros; simplify_eq; eauto. Qed.

Definition far_part (w : work) := (d_far (w_dp w), d_far_size (w_dp w), d_fart (w_dp w), s_fars (w_ses w)).
Definition qer_part (w : work) := (d_qer (w_dp w), d_qer_size (w_dp w), d_qert (w_dp w), s_qers (w_ses w)).
Definition urr_part (w : work) := (d_urr (w_dp w), d_urr_size (w_dp w), d_urrt (w_dp w), s_urrs (w_ses w)).
Definition pdr_part (w : work) :=
  (d_up (w_dp w), d_dn4 (w_dp w), d_dn6 (w_dp w), d_pdr_max (w_dp w), s_pdrs (w_ses w), w_created w).
Definition pool_part (w : work) := (w_rm w, w_cache w).
Definition rep_part (w : work) := w_reports w.
Definition id_part (w : work) := (s_local (w_ses w), s_remote (w_ses w)).

Ltac part_tac := intros; repeat (case_match; simplify_eq);
  cbv beta iota delta [keepsP far_part qer_part urr_part pdr_part pool_part rep_part id_part
    w_set_dp w_set_ses w_set_rm w_set_cache w_add_created w_add_report set_fars set_qers set_urrs set_pdrs
    ses_new_far ses_update_far ses_remove_far ses_new_qer ses_update_qer ses_remove_qer
    ses_new_urr ses_update_urr ses_remove_urr ses_put_pdr ses_remove_pdr
    set_far set_qer set_urr set_fart set_qert set_urrt set_up set_dn4 set_dn6
    w_dp w_ses w_rm w_cache w_created w_reports d_up d_dn4 d_dn6 d_pdr_max d_far d_far_size d_qer d_qer_size
    d_urr d_urr_size d_fart d_qert d_urrt s_local s_remote s_pdrs s_fars s_qers s_urrs]; done.

Definition far_frame {B} (proj : work -> B) : Prop :=
  (forall f w, keepsP proj w (create_far f w)) /\ (forall f w, keepsP proj w (update_far_ie f w)) /\
  (forall f w, keepsP proj w (remove_far_ie f w)) /\ (forall f w, keepsP proj w (del_far f w)).
Definition qer_frame {B} (proj : work -> B) : Prop :=
  (forall f w, keepsP proj w (create_qer f w)) /\ (forall f w, keepsP proj w (update_qer_ie f w)) /\
  (forall f w, keepsP proj w (remove_qer_ie f w)) /\ (forall f w, keepsP proj w (del_qer f w)).
Definition urr_frame {B} (proj : work -> B) : Prop :=
  (forall f w, keepsP proj w (create_urr f w)) /\ (forall f w, keepsP proj w (update_urr_ie f w)) /\
  (forall f w, keepsP proj w (remove_urr_ie f w)) /\ (forall f w, keepsP proj w (del_urr f w)).
Definition pdr_frame {B} (proj : work -> B) : Prop :=
  (forall u p w, keepsP proj w (create_pdr u p w)) /\ (forall u p w, keepsP proj w (update_pdr_ie u p w)) /\
  (forall sh p w, keepsP proj w (remove_pdr_ie sh p w)) /\ (forall sh s w, keepsP proj w (delete_pdr sh s w)).

Ltac ff := split; [unfold create_far, new_far|split; [unfold update_far_ie, update_far|
  split; [unfold remove_far_ie, delete_far, update_far|unfold del_far, delete_far, update_far]]]; part_tac.
Ltac qf := split; [unfold create_qer, new_qer|split; [unfold update_qer_ie, update_qer|
  split; [unfold remove_qer_ie, delete_qer, update_qer|unfold del_qer, delete_qer, update_qer]]]; part_tac.
Ltac uf := split; [unfold create_urr, new_urr|split; [unfold update_urr_ie, update_urr|
  split; [unfold remove_urr_ie, delete_urr, update_urr|unfold del_urr, delete_urr, update_urr]]]; part_tac.

Lemma far_frame_qer : far_frame qer_part. Proof. ff. Qed.
Lemma far_frame_urr : far_frame urr_part. Proof. ff. Qed.
Lemma far_frame_pdr : far_frame pdr_part. Proof. ff. Qed.
Lemma far_frame_pool : far_frame pool_part. Proof. ff. Qed.
Lemma far_frame_rep : far_frame rep_part. Proof. ff. Qed.
Lemma far_frame_id : far_frame id_part. Proof. ff. Qed.
Lemma qer_frame_far : qer_frame far_part. Proof. qf. Qed.
Lemma qer_frame_urr : qer_frame urr_part. Proof. qf. Qed.
Lemma qer_frame_pdr : qer_frame pdr_part. Proof. qf. Qed.
Lemma qer_frame_pool : qer_frame pool_part. Proof. qf. Qed.
Lemma qer_frame_rep : qer_frame rep_part. Proof. qf. Qed.
Lemma qer_frame_id : qer_frame id_part. Proof. qf. Qed.
Lemma urr_frame_far : urr_frame far_part. Proof. uf. Qed.
Lemma urr_frame_qer : urr_frame qer_part. Proof. uf. Qed.
Lemma urr_frame_pdr : urr_frame pdr_part. Proof. uf. Qed.
Lemma urr_frame_pool : urr_frame pool_part. Proof. uf. Qed.
Lemma urr_frame_id : urr_frame id_part. Proof. uf. Qed.

(** Extraction only touches the pools and the cache. *)
Lemma extract_pdr_frame ueip p s w o w' : extract_pdr ueip p s w = (o, w') ->
  w_dp w' = w_dp w /\ w_ses w' = w_ses w /\ w_created w' = w_created w /\ w_reports w' = w_reports w.
Proof.
  unfold extract_pdr. intros H. repeat (case_match; simplify_eq); simpl in *; simplify_eq; done.
Qed.
Lemma apply_pdr_frame s d b d' : apply_pdr s d = (b, d') ->
  d_far d' = d_far d /\ d_far_size d' = d_far_size d /\ d_fart d' = d_fart d /\
  d_qer d' = d_qer d /\ d_qer_size d' = d_qer_size d /\ d_qert d' = d_qert d /\
  d_urr d' = d_urr d /\ d_urr_size d' = d_urr_size d /\ d_urrt d' = d_urrt d /\ d_pdr_max d' = d_pdr_max d.
Proof.
  unfold apply_pdr, put_pdr_downlink, put_pdr_ip6, put_pdr_uplink. intros.
  repeat (case_match; simplify_eq); done.
Qed.
Lemma delete_pdr_frame sh s w r : delete_pdr sh s w = r ->
  match r with
  | ROk w' | RErr w' =>
      far_part w' = far_part w /\ qer_part w' = qer_part w /\ urr_part w' = urr_part w /\
      w_ses w' = w_ses w /\ w_created w' = w_created w /\ w_reports w' = w_reports w /\
      d_pdr_max (w_dp w') = d_pdr_max (w_dp w)
  | RCrash => True end.
Proof.
  unfold delete_pdr, delete_pdr_downlink, delete_pdr_ip6, delete_pdr_uplink. intros <-.
  repeat (case_match; simplify_eq); simpl in *; simplify_eq; done.
Qed.

Ltac pf := split; [|split; [|split]]; intros;
  [unfold create_pdr; case_match; [|done];
   destruct (extract_pdr _ _ _ _) as [[s|] w1] eqn:E; apply extract_pdr_frame in E as (Ed & Es & Ec & Er);
   [|unfold far_part, qer_part, urr_part, rep_part, id_part; simpl; congruence];
   cbn zeta; simpl; destruct (apply_pdr s (w_dp w1)) as [[] d] eqn:Ea;
   apply apply_pdr_frame in Ea; destruct_and!;
   unfold far_part, qer_part, urr_part, rep_part, id_part; simpl; congruence
  |unfold update_pdr_ie; case_match; [|done];
   destruct (extract_pdr _ _ _ _) as [[s|] w1] eqn:E; apply extract_pdr_frame in E as (Ed & Es & Ec & Er);
   [|unfold far_part, qer_part, urr_part, rep_part, id_part; simpl; congruence];
   cbn zeta; simpl; destruct (apply_pdr s (w_dp w1)) as [[] d] eqn:Ea;
   apply apply_pdr_frame in Ea; destruct_and!;
   unfold far_part, qer_part, urr_part, rep_part, id_part; simpl; congruence
  |unfold remove_pdr_ie; case_match; [|done];
   match goal with |- keepsP _ _ ?r => pose proof (delete_pdr_frame _ _ _ r eq_refl) as Hd; destruct r end;
   try done; destruct_and?; unfold far_part, qer_part, urr_part, rep_part, id_part in *; simpl in *; repeat match goal with E : w_ses _ = _ |- _ => rewrite E; clear E end; simpl in *; congruence
  |match goal with |- keepsP _ _ ?r => pose proof (delete_pdr_frame _ _ _ r eq_refl) as Hd; destruct r end;
   try done; destruct_and?; unfold far_part, qer_part, urr_part, rep_part, id_part in *; simpl in *; repeat match goal with E : w_ses _ = _ |- _ => rewrite E; clear E end; simpl in *; congruence].
Lemma pdr_frame_far : pdr_frame far_part. Proof. pf. Qed.
Lemma pdr_frame_qer : pdr_frame qer_part. Proof. pf. Qed.
Lemma pdr_frame_urr : pdr_frame urr_part. Proof. pf. Qed.
Lemma pdr_frame_rep : pdr_frame rep_part. Proof. pf. Qed.
Lemma pdr_frame_id : pdr_frame id_part. Proof. pf. Qed.

(** ** Creating FARs and QERs *)

Lemma compose_far_asks f i : compose_far f far0 = Some i -> far_asks f i.
Proof.
  unfold compose_far, far_asks. intros H. destruct (fa_fwd f) as [[| |o]|]; [..|destruct (oh_v6 o); [done|]|];
    simplify_eq; simpl; (split; [repeat case_match; done|]); (split; [by destruct (fa_tlm f)|]); try done.
Qed.
Lemma compose_qer_asks q : qer_asks q (compose_qer q qer0).
Proof. unfold qer_asks. simpl. destruct (qe_gate_ul q), (qe_gate_dl q), (qe_qfi q), (qe_mbr_ul q), (qe_mbr_dl q); done. Qed.

Lemma create_far_ok f w w' : create_far f w = ROk w' -> dp_ok (w_dp w) ->
  exists gid i, compose_far f far0 = Some i /\ gid < d_far_size (w_dp w) /\
    gid ∈ t_free (d_fart (w_dp w)) /\
    (forall j, j ∈ t_free (d_fart (w_dp w)) <-> j = gid \/ j ∈ t_free (d_fart (w_dp w'))) /\
    gid ∉ t_free (d_fart (w_dp w')) /\
    d_far (w_dp w') = <[gid := i]> (d_far (w_dp w)) /\ d_far_size (w_dp w') = d_far_size (w_dp w) /\
    s_fars (w_ses w') = <[default 0 (fa_id f) := Sfar i gid]> (s_fars (w_ses w)).
Proof.
  unfold create_far. intros H Hok. destruct (far_crash f); [done|].
  destruct (compose_far f far0) as [i|] eqn:Ec; [|done].
  unfold new_far in H. destruct (get_next (d_fart (w_dp w))) as [[gid|] t] eqn:Eg; [|done].
  simpl in H. destruct (N.ltb_spec gid (d_far_size (w_dp w))); [|done]. simplify_eq.
  apply (get_granted _ _ _ _ (dk_far _ Hok)) in Eg as (? & ? & ? & ?).
  exists gid, i. split_and!; done.
Qed.

Lemma by_prims_ok w r : by_prims w r -> dp_ok (w_dp w) ->
  match r with ROk w' | RErr w' => dp_ok (w_dp w') | RCrash => True end.
Proof.
  intros H Hok. destruct r as [w'|w'|]; try done; simpl in H;
  exact (rtc_inv pstep (fun x => dp_ok (fst x)) _ _ pstep_dp_ok H Hok).
Qed.

Lemma create_fars_ok l : forall w w', each create_far l w = ROk w' -> dp_ok (w_dp w) ->
  NoDup ((fun f => default 0 (fa_id f)) <$> l) ->
  dp_ok (w_dp w') /\ d_far_size (w_dp w') = d_far_size (w_dp w) /\
  (forall g, g ∉ t_free (d_fart (w_dp w)) ->
     g ∉ t_free (d_fart (w_dp w')) /\ d_far (w_dp w') !! g = d_far (w_dp w) !! g) /\
  (forall i, i ∉ ((fun f => default 0 (fa_id f)) <$> l) -> s_fars (w_ses w') !! i = s_fars (w_ses w) !! i) /\
  (forall f, f ∈ l -> exists gid i, compose_far f far0 = Some i /\
     s_fars (w_ses w') !! default 0 (fa_id f) = Some (Sfar i gid) /\
     d_far (w_dp w') !! gid = Some i /\ gid < d_far_size (w_dp w')).
Proof.
  induction l as [|f l IH]; intros w w' H Hok Hnd; simpl in H; simplify_eq.
  { split_and!; try done. intros f Hf. by apply elem_of_nil in Hf. }
  apply rbind_ok in H as (w1 & H1 & H2).
  pose proof (by_prims_ok _ _ (create_far_prims f w) Hok) as Hok1. rewrite H1 in Hok1.
  apply create_far_ok in H1 as (gid & i & Hc & Hlt & Hin & Hfree & Hnin & Hd & Hsz & Hs); [|done].
  rewrite fmap_cons in Hnd. apply NoDup_cons in Hnd as [Hni Hnd].
  destruct (IH _ _ H2 Hok1 Hnd) as (Hok' & Hsz' & Hg & Hi & Hf).
  split_and!.
  - done.
  - congruence.
  - intros g Hgn. assert (g <> gid /\ g ∉ t_free (d_fart (w_dp w1))) as [Hne Hn1].
    { split; [by intros ->|]. intros Hx. apply Hgn, Hfree. by right. }
    destruct (Hg g Hn1) as [? ->]. split; [done|]. rewrite Hd. by rewrite lookup_insert_ne.
  - intros j Hj. rewrite fmap_cons, not_elem_of_cons in Hj. destruct Hj as [Hne Hj].
    rewrite Hi by done. rewrite Hs. by rewrite lookup_insert_ne.
  - intros f' Hf'. apply elem_of_cons in Hf' as [->|Hf'].
    + exists gid, i. split; [done|]. rewrite Hi by done. rewrite Hs, lookup_insert. split; [done|].
      destruct (Hg gid Hnin) as [_ ->]. rewrite Hd, lookup_insert. split; [done|]. by rewrite Hsz', Hsz.
    + by apply Hf.
Qed.

Lemma create_qer_ok q w w' : create_qer q w = ROk w' -> dp_ok (w_dp w) ->
  exists id gid, qe_id q = Some id /\ gid < d_qer_size (w_dp w) /\
    gid ∈ t_free (d_qert (w_dp w)) /\
    (forall j, j ∈ t_free (d_qert (w_dp w)) <-> j = gid \/ j ∈ t_free (d_qert (w_dp w'))) /\
    gid ∉ t_free (d_qert (w_dp w')) /\
    d_qer (w_dp w') = <[gid := compose_qer q qer0]> (d_qer (w_dp w)) /\ d_qer_size (w_dp w') = d_qer_size (w_dp w) /\
    s_qers (w_ses w') = <[id := Sqer (compose_qer q qer0) gid]> (s_qers (w_ses w)).
Proof.
  unfold create_qer. intros H Hok. destruct (qe_id q) as [id|]; [|done]. cbn zeta in H.
  unfold new_qer in H. destruct (get_next (d_qert (w_dp w))) as [[gid|] t] eqn:Eg; [|done].
  cbn zeta in H. destruct (N.ltb_spec gid (d_qer_size (w_dp w))); [|done]. simplify_eq.
  apply (get_granted _ _ _ _ (dk_qer _ Hok)) in Eg as (? & ? & ? & ?).
  exists id, gid. split_and!; done.
Qed.

Lemma create_qers_ok l : forall w w', each create_qer l w = ROk w' -> dp_ok (w_dp w) ->
  NoDup (qe_id <$> l) ->
  dp_ok (w_dp w') /\ d_qer_size (w_dp w') = d_qer_size (w_dp w) /\
  (forall g, g ∉ t_free (d_qert (w_dp w)) ->
     g ∉ t_free (d_qert (w_dp w')) /\ d_qer (w_dp w') !! g = d_qer (w_dp w) !! g) /\
  (forall i, Some i ∉ (qe_id <$> l) -> s_qers (w_ses w') !! i = s_qers (w_ses w) !! i) /\
  (forall q, q ∈ l -> exists id gid, qe_id q = Some id /\
     s_qers (w_ses w') !! id = Some (Sqer (compose_qer q qer0) gid) /\
     d_qer (w_dp w') !! gid = Some (compose_qer q qer0) /\ gid < d_qer_size (w_dp w')).
Proof.
  induction l as [|f l IH]; intros w w' H Hok Hnd; simpl in H; simplify_eq.
  { split_and!; try done. intros f Hf. by apply elem_of_nil in Hf. }
  apply rbind_ok in H as (w1 & H1 & H2).
  pose proof (by_prims_ok _ _ (create_qer_prims f w) Hok) as Hok1. rewrite H1 in Hok1.
  apply create_qer_ok in H1 as (id & gid & Hc & Hlt & Hin & Hfree & Hnin & Hd & Hsz & Hs); [|done].
  rewrite fmap_cons in Hnd. apply NoDup_cons in Hnd as [Hni Hnd].
  destruct (IH _ _ H2 Hok1 Hnd) as (Hok' & Hsz' & Hg & Hi & Hf).
  split_and!.
  - done.
  - congruence.
  - intros g Hgn. assert (g <> gid /\ g ∉ t_free (d_qert (w_dp w1))) as [Hne Hn1].
    { split; [by intros ->|]. intros Hx. apply Hgn, Hfree. by right. }
    destruct (Hg g Hn1) as [? ->]. split; [done|]. rewrite Hd. by rewrite lookup_insert_ne.
  - intros j Hj. rewrite fmap_cons, not_elem_of_cons in Hj. destruct Hj as [Hne Hj].
    rewrite Hi by done. rewrite Hs. rewrite lookup_insert_ne; [done|]. congruence.
  - intros f' Hf'. apply elem_of_cons in Hf' as [->|Hf'].
    + exists id, gid. split; [done|]. rewrite Hi by congruence. rewrite Hs, lookup_insert. split; [done|].
      destruct (Hg gid Hnin) as [_ ->]. rewrite Hd, lookup_insert. split; [done|]. by rewrite Hsz', Hsz.
    + by apply Hf.
Qed.

(** ** Creating PDRs *)

Definition spdr_key (s : spdr) : key :=
  match sd_v4 s, sd_v6 s with Some a, _ => Dn4 a | None, Some a => Dn6 a | None, None => Up (sd_teid s) end.
Definition store_pdr (d : dp) (k : key) (p : pdr_req) : ep_pdr :=
  match pr_sdf p with Some f => combine_pdr_with_sdf (dp_find d k) f p | None => to_entrypoint p end.

Lemma hash_put_some k v m mx m' : hash_put k v m mx = Some m' -> m' = <[k := v]> m.
Proof. unfold hash_put. intros. repeat case_match; by simplify_eq. Qed.

Lemma apply_pdr_find s d d' : apply_pdr s d = (true, d') ->
  forall k, dp_find d' k = if decide (k = spdr_key s) then Some (store_pdr d k (sd_info s)) else dp_find d k.
Proof.
  unfold apply_pdr, put_pdr_downlink, put_pdr_ip6, put_pdr_uplink, spdr_key. intros H k.
  destruct (sd_v4 s) as [a|]; [|destruct (sd_v6 s) as [a|]].
  - destruct (hash_put _ _ _ _) as [m|] eqn:E; [|done]. apply hash_put_some in E. simplify_eq.
    destruct k as [t|b|b]; simpl; [done| |done]. destruct (decide (Dn4 b = Dn4 a)) as [[= ->]|Hne].
    + by rewrite lookup_insert.
    + rewrite lookup_insert_ne; [done|]. congruence.
  - destruct (hash_put _ _ _ _) as [m|] eqn:E; [|done]. apply hash_put_some in E. simplify_eq.
    destruct k as [t|b|b]; simpl; [done|done|]. destruct (decide (Dn6 b = Dn6 a)) as [[= ->]|Hne].
    + by rewrite lookup_insert.
    + rewrite lookup_insert_ne; [done|]. congruence.
  - destruct (hash_put _ _ _ _) as [m|] eqn:E; [|done]. apply hash_put_some in E. simplify_eq.
    destruct k as [t|b|b]; simpl; [|done|done]. destruct (decide (Up t = Up (sd_teid s))) as [[= ->]|Hne].
    + by rewrite lookup_insert.
    + rewrite lookup_insert_ne; [done|]. congruence.
Qed.

(** What [create_pdr] makes of a PDR, given the session's rule tables. *)
Definition made (ueip : bool) (s0 : session) (p : pdr_ie) (s : spdr) : Prop :=
  pe_id p = Some (sd_id s) /\
  (exists f, sd_info s = set_sdf f (pdr_refs s0 p pdr_req0) /\
     (no_sdf p -> f = None) /\
     (forall t, pe_sdf p = Some t -> t <> [] -> exists g, parse_sdf t = Some g /\ f = Some g)) /\
  detects ueip p (spdr_key s) (sd_alloc s).

Lemma pdr_refs_ses s1 s2 p r :
  s_fars s1 = s_fars s2 -> s_qers s1 = s_qers s2 -> s_urrs s1 = s_urrs s2 -> pdr_refs s1 p r = pdr_refs s2 p r.
Proof. intros H1 H2 H3. unfold pdr_refs, get_far, get_qer, get_urr. by rewrite H1, H2, H3. Qed.

Lemma extract_made ueip p id w s w1 :
  pe_id p = Some id ->
  extract_pdr ueip p (Spdr id pdr_req0 0 None None false) w = (Some s, w1) -> made ueip (w_ses w) p s.
Proof.
  intros Hid H. unfold extract_pdr in H. destruct (pe_pdi p) as [pdi|] eqn:Epdi; [|done].
  destruct (pdr_sdf p _) as [info|] eqn:Esdf; [|done].
  assert (Hinfo : exists f, info = set_sdf f (pdr_refs (w_ses w) p pdr_req0) /\ (no_sdf p -> f = None) /\
    (forall t, pe_sdf p = Some t -> t <> [] -> exists g, parse_sdf t = Some g /\ f = Some g)).
  { unfold pdr_sdf in Esdf. simpl in Esdf. destruct (pe_sdf p) as [[|c t]|] eqn:E.
    - simplify_eq. exists None. split_and!; try done. intros t [= <-]. done.
    - destruct (parse_sdf (c :: t)) as [g|] eqn:Eg; [|done]. simplify_eq. exists (Some g).
      split_and!; try done. { intros [?|?]; congruence. } intros t' [= <-] _. eauto.
    - simplify_eq. exists None. split_and!; done. }
  unfold made, detects. rewrite Epdi.
  destruct (pi_fteid pdi) as [| |fe]; [|done|].
  - destruct (pi_ueip pdi) as [| |ue]; [|done|].
    + simplify_eq. simpl. by split_and!.
    + destruct (ueip && ue_chv4 ue) eqn:Eu.
      * apply andb_true_iff in Eu as [-> ->].
        destruct (get_ip _ _) as [[a|] rm]; simpl in H.
        -- destruct (ue_v6 ue); simplify_eq; (split; [done|]); (split; [done|]); left; eauto 10.
        -- destruct (ue_v4 ue) as [a|]; [|destruct (ue_v6 ue) as [a|]]; simplify_eq; simpl;
           (split; [done|]); (split; [done|]); right; done.
      * destruct (ue_v4 ue) as [a|]; [|destruct (ue_v6 ue) as [a|]]; simplify_eq; simpl;
           (split; [done|]); (split; [done|]); right; done.
  - destruct (fe_ch fe); [|simplify_eq; simpl; by split_and!].
    destruct (match fe_chid fe with Some c => w_cache w !! c | None => None end); [simplify_eq; simpl; split_and!; eauto|].
    destruct (get_fteid _ _ _) as [[t|] rm]; [|done]. simplify_eq. simpl. split_and!; eauto.
Qed.

(** The effect of a list of Create PDRs, given the resulting records [new]. *)
Definition install (d : dp) (new : list spdr) : dp := foldl (fun d s => snd (apply_pdr s d)) d new.

Lemma create_pdr_ok ueip p w w' : create_pdr ueip p w = ROk w' ->
  exists s, made ueip (w_ses w) p s /\ w_created w' = w_created w ++ [s] /\
    apply_pdr s (w_dp w) = (true, w_dp w') /\
    s_pdrs (w_ses w') = <[sd_id s := s]> (s_pdrs (w_ses w)) /\
    s_fars (w_ses w') = s_fars (w_ses w) /\ s_qers (w_ses w') = s_qers (w_ses w) /\
    s_urrs (w_ses w') = s_urrs (w_ses w).
Proof.
  unfold create_pdr. intros H. destruct (pe_id p) as [id|] eqn:Eid; [|done].
  destruct (extract_pdr _ _ _ w) as [[s|] w1] eqn:E; [|done].
  pose proof (extract_pdr_frame _ _ _ _ _ _ E) as (Ed & Es & Ec & Er).
  apply extract_made in E; [|done]. cbn zeta in H. simpl in H.
  destruct (apply_pdr s (w_dp w1)) as [[] d] eqn:Ea; [|done]. simplify_eq. exists s. simpl.
  rewrite Es, Ec, <- Ed. done.
Qed.

Lemma made_ses ueip s1 s2 p s :
  s_fars s1 = s_fars s2 -> s_qers s1 = s_qers s2 -> s_urrs s1 = s_urrs s2 ->
  made ueip s1 p s -> made ueip s2 p s.
Proof. intros H1 H2 H3. unfold made. by rewrite (pdr_refs_ses s1 s2 p pdr_req0 H1 H2 H3). Qed.

Lemma create_pdrs_ok ueip l : forall w w', each (create_pdr ueip) l w = ROk w' ->
  exists new, Forall2 (made ueip (w_ses w)) l new /\ w_created w' = w_created w ++ new /\
    w_dp w' = install (w_dp w) new /\
    (forall k, dp_find (w_dp w') k <> None <-> dp_find (w_dp w) k <> None \/ k ∈ (spdr_key <$> new)) /\
    (forall k, k ∉ (spdr_key <$> new) -> dp_find (w_dp w') k = dp_find (w_dp w) k) /\
    (forall n s, new !! n = Some s -> pr_sdf (sd_info s) = None ->
       (forall m s', (n < m)%nat -> new !! m = Some s' -> spdr_key s' <> spdr_key s) ->
       dp_find (w_dp w') (spdr_key s) = Some (to_entrypoint (sd_info s))).
Proof.
  induction l as [|p l IH]; intros w w' H; simpl in H; simplify_eq.
  { exists []. simpl. rewrite app_nil_r. split_and!; try done.
    - intros k. split; [by left|]. intros [?|Hk]; [done|by apply elem_of_nil in Hk].
  }
  apply rbind_ok in H as (w1 & H1 & H2).
  apply create_pdr_ok in H1 as (s & Hm & Hc & Ha & _ & Hf & Hq & Hu).
  destruct (IH _ _ H2) as (new & Hnew & Hc' & Hd & Hdom & Hk & Hin).
  pose proof (apply_pdr_find _ _ _ Ha) as Hfind.
  exists (s :: new). split_and!.
  - constructor; [done|]. eapply Forall2_impl; [exact Hnew|]. intros. by eapply made_ses.
  - rewrite Hc', Hc. by rewrite <- app_assoc.
  - unfold install in *. simpl. rewrite Ha. done.
  - intros k. rewrite Hdom, Hfind, fmap_cons, elem_of_cons. case_decide; naive_solver.
  - intros k Hn. rewrite fmap_cons, not_elem_of_cons in Hn. destruct Hn as [Hn1 Hn2].
    rewrite Hk by done. rewrite Hfind. by rewrite decide_False.
  - intros [|n] s' Hs' Hsdf Hlast; simpl in Hs'; simplify_eq.
    + rewrite Hk. { rewrite Hfind, decide_True by done. unfold store_pdr. by rewrite Hsdf. }
      intros (s2 & E2 & Hin2)%elem_of_list_fmap. apply elem_of_list_lookup in Hin2 as (m & Hm2).
      by apply (Hlast (S m) s2); [lia|done|].
    + apply (Hin n); [done|done|]. intros m s2 Hm2 Hs2. by apply (Hlast (S m) s2); [lia|].
Qed.

Lemma created_of_made ueip s0 n3 p s : made ueip s0 p s ->
  created_of n3 s = report_of n3 (p, (spdr_key s, sd_alloc s)).
Proof.
  intros (Hid & _ & Hd). unfold created_of, report_of. rewrite Hid. simpl.
  unfold detects in Hd. unfold spdr_key in *.
  destruct (sd_alloc s), (sd_v4 s), (sd_v6 s); try done.
Qed.

Lemma process_created_made ueip s0 n3 l new : Forall2 (made ueip s0) l new ->
  process_created n3 new = omap (report_of n3) (zip l ((fun s => (spdr_key s, sd_alloc s)) <$> new)).
Proof.
  unfold process_created. induction 1 as [|p s l new Hm _ IH]; [done|]. csimpl.
  rewrite (created_of_made _ _ _ _ _ Hm), IH. done.
Qed.

(** ** C13, C14: what an accepted establishment installs and reports *)

Lemma handle_est_inv sh addr seq q c c' r :
  handle sh addr seq (SessEstReq q) c = Done c' (Some r) -> r_cause r = Some 1 ->
  exists remote a w,
    eq_fseid q = Good remote /\ c_assocs c !! addr = Some a /\
    est_rules (g_ueip (c_cfg c)) q (new_work (c_dp c) (new_session (next_seid a) remote) (c_rm c)) = ROk w /\
    c_dp c' = w_dp w /\ c_rm c' = w_rm w /\ c_cfg c' = c_cfg c /\
    r_created r = process_created (g_n3 (c_cfg c)) (w_created w) /\
    session_of c' addr (next_seid a) = Some (w_ses w).
Proof.
  simpl. unfold handle_est, validate_request. intros H Hr.
  destruct (eq_node q), (eq_fseid q) as [| |remote]; simplify_eq; try done.
  destruct (c_assocs c !! addr) as [a0|] eqn:Ea; simplify_eq; try done.
  destruct (existsb _ _); [done|].
  destruct (est_rules _ _ _) as [w|w|] eqn:Ew; simplify_eq; try done.
  exists remote, a0, w. split_and!; try done. unfold session_of. simpl. rewrite lookup_insert. simpl. apply lookup_insert.
Qed.

Ltac use_keep H lem :=
  let K := fresh in pose proof lem as K; rewrite H in K; simpl in K.

Lemma est_rules_inv ueip q w w' : est_rules ueip q w = ROk w' -> dp_ok (w_dp w) ->
  exists w3, w_created w3 = w_created w /\ d_up (w_dp w3) = d_up (w_dp w) /\
    d_dn4 (w_dp w3) = d_dn4 (w_dp w) /\ d_dn6 (w_dp w3) = d_dn6 (w_dp w) /\
    each (create_pdr ueip) (eq_pdrs q) w3 = ROk w' /\
    w_rm w3 = w_rm w /\ w_cache w3 = w_cache w /\
    id_part w3 = id_part w /\
    far_part w' = far_part w3 /\ qer_part w' = qer_part w3 /\ urr_part w' = urr_part w3 /\
    dp_ok (w_dp w3) /\
    (NoDup ((fun f => default 0 (fa_id f)) <$> eq_fars q) ->
      forall f, f ∈ eq_fars q -> exists gid i, compose_far f far0 = Some i /\
       s_fars (w_ses w3) !! default 0 (fa_id f) = Some (Sfar i gid) /\
       d_far (w_dp w3) !! gid = Some i /\ gid < d_far_size (w_dp w3)) /\
    (NoDup (qe_id <$> eq_qers q) ->
      forall q0, q0 ∈ eq_qers q -> exists id gid, qe_id q0 = Some id /\
       s_qers (w_ses w3) !! id = Some (Sqer (compose_qer q0 qer0) gid) /\
       d_qer (w_dp w3) !! gid = Some (compose_qer q0 qer0) /\ gid < d_qer_size (w_dp w3)).
Proof.
  intros H Hok. unfold est_rules in H.
  apply rbind_ok in H as (w1 & H1 & H). apply rbind_ok in H as (w2 & H2 & H). apply rbind_ok in H as (w3 & H3 & H4).
  pose proof (by_prims_ok _ _ (each_prims create_far (eq_fars q) w create_far_prims) Hok) as Hok1. rewrite H1 in Hok1.
  pose proof (by_prims_ok _ _ (each_prims create_qer (eq_qers q) w1 create_qer_prims) Hok1) as Hok2. rewrite H2 in Hok2.
  pose proof (by_prims_ok _ _ (each_prims create_urr (eq_urrs q) w2 create_urr_prims) Hok2) as Hok3. rewrite H3 in Hok3.
  use_keep H1 (each_keep pdr_part create_far (eq_fars q) w (proj1 far_frame_pdr)).
  use_keep H1 (each_keep pool_part create_far (eq_fars q) w (proj1 far_frame_pool)).
  use_keep H1 (each_keep id_part create_far (eq_fars q) w (proj1 far_frame_id)).
  use_keep H2 (each_keep pdr_part create_qer (eq_qers q) w1 (proj1 qer_frame_pdr)).
  use_keep H2 (each_keep pool_part create_qer (eq_qers q) w1 (proj1 qer_frame_pool)).
  use_keep H2 (each_keep id_part create_qer (eq_qers q) w1 (proj1 qer_frame_id)).
  use_keep H2 (each_keep far_part create_qer (eq_qers q) w1 (proj1 qer_frame_far)).
  use_keep H3 (each_keep pdr_part create_urr (eq_urrs q) w2 (proj1 urr_frame_pdr)).
  use_keep H3 (each_keep pool_part create_urr (eq_urrs q) w2 (proj1 urr_frame_pool)).
  use_keep H3 (each_keep id_part create_urr (eq_urrs q) w2 (proj1 urr_frame_id)).
  use_keep H3 (each_keep far_part create_urr (eq_urrs q) w2 (proj1 urr_frame_far)).
  use_keep H3 (each_keep qer_part create_urr (eq_urrs q) w2 (proj1 urr_frame_qer)).
  use_keep H4 (each_keep far_part (create_pdr ueip) (eq_pdrs q) w3 (proj1 pdr_frame_far ueip)).
  use_keep H4 (each_keep qer_part (create_pdr ueip) (eq_pdrs q) w3 (proj1 pdr_frame_qer ueip)).
  use_keep H4 (each_keep urr_part (create_pdr ueip) (eq_pdrs q) w3 (proj1 pdr_frame_urr ueip)).
  unfold pdr_part, pool_part in *. simplify_eq.
  exists w3. split_and!; try done; try congruence;
    try (unfold far_part, qer_part, urr_part, id_part; congruence).
  - intros Hnd f Hf. destruct (create_fars_ok _ _ _ H1 Hok Hnd) as (_ & _ & _ & _ & Hx).
    destruct (Hx f Hf) as (gid & i & ? & ? & ? & ?). exists gid, i. unfold far_part in *.
    repeat match goal with E : (_, _) = (_, _) |- _ => apply pair_eq in E as [??] end.
    split_and!; try done; congruence.
  - intros Hnd f Hf. destruct (create_qers_ok _ _ _ H2 Hok1 Hnd) as (_ & _ & _ & _ & Hx).
    destruct (Hx f Hf) as (gid & i & ? & ? & ? & ?). exists gid, i. unfold qer_part in *.
    repeat match goal with E : (_, _) = (_, _) |- _ => apply pair_eq in E as [??] end.
    split_and!; try done; congruence.
Qed.

Theorem establishment_installs :
  forall sh addr seq q c c' r,
    reachable c ->
    handle sh addr seq (SessEstReq q) c = Done c' (Some r) -> r_cause r = Some 1 ->
    exists ks : list (key * bool),
      (* the keys of the PDRs, in request order *)
      Forall2 (fun p k => detects (g_ueip (c_cfg c)) p (fst k) (snd k)) (eq_pdrs q) ks /\
      (* C14: the response lists exactly those the UPF chose *)
      r_created r = omap (report_of (g_n3 (c_cfg c))) (zip (eq_pdrs q) ks) /\
      (* every key is installed, and no other one *)
      (forall k, dp_find (c_dp c') k <> None <-> dp_find (c_dp c) k <> None \/ k ∈ (fst <$> ks)) /\
      (forall k, k ∉ (fst <$> ks) -> dp_find (c_dp c') k = dp_find (c_dp c) k) /\
      (* C13: the key of a PDR without SDF filter, not used by a later PDR of the request, maps to the named FAR and QER *)
      (NoDup ((fun f => default 0 (fa_id f)) <$> eq_fars q) -> NoDup (qe_id <$> eq_qers q) ->
       forall n p k, eq_pdrs q !! n = Some p -> ks !! n = Some k -> no_sdf p ->
         (forall m k', (n < m)%nat -> ks !! m = Some k' -> fst k' <> fst k) ->
         exists e, dp_find (c_dp c') (fst k) = Some e /\
           ep_mode e = 0 /\ ep_ohr e = default 0 (pe_ohr p) /\
           (forall f i, f ∈ eq_fars q -> fa_id f = Some i -> pe_far p = Some i ->
              exists v, far_get (c_dp c') (ep_far e) = Some v /\ far_asks f v) /\
           (forall f i, f ∈ eq_qers q -> qe_id f = Some i -> pe_qer p = Some i ->
              exists v, qer_get (c_dp c') (ep_qer e) = Some v /\ qer_asks f v /\
                        qi_ul_start v = 0 /\ qi_dl_start v = 0)).
Proof.
  intros sh addr seq q c c' r Hreach H Hr.
  apply reachable_ok in Hreach as [Hok _].
  apply handle_est_inv in H as (remote & a & w & Hseid & Ha & Hw & Hd & Hrm & Hcfg & Hcr & _); [|done].
  apply est_rules_inv in Hw as (w3 & Hc3 & Hu3 & H43 & H63 & Hp & _ & _ & _ & Hfp & Hqp & _ & Hok3 & Hfars & Hqers); [|done].
  apply create_pdrs_ok in Hp as (new & Hnew & Hc & _ & Hdom & Hother & Hin).
  assert (Hsame : forall k, dp_find (w_dp w3) k = dp_find (c_dp c) k).
  { intros [k|k|k]; simpl; [rewrite Hu3|rewrite H43|rewrite H63]; done. }
  set (ks := (fun s => (spdr_key s, sd_alloc s)) <$> new).
  assert (Hks : fst <$> ks = spdr_key <$> new).
  { unfold ks. rewrite <- list_fmap_compose. done. }
  exists ks. split_and!.
  - unfold ks. clear -Hnew. induction Hnew as [|p s l new Hm _ IH]; simpl; constructor; [|done]. apply Hm.
  - rewrite Hcr, Hc, Hc3. simpl. apply (process_created_made _ _ _ _ _ Hnew).
  - intros k. rewrite Hd, Hdom, Hsame, Hks. done.
  - intros k Hk. rewrite Hd, Hother, Hsame; [done|]. by rewrite <- Hks.
  - intros Hndf Hndq n p k Hn1 Hn2 Hsdf Hlast.
    unfold ks in Hn2. rewrite list_lookup_fmap in Hn2. destruct (new !! n) as [s|] eqn:Es; simpl in Hn2; [|done].
    injection Hn2 as <-. simpl in *.
    pose proof (Forall2_lookup_lr _ _ _ _ _ _ Hnew Hn1 Es) as (Hid & (f0 & Hinfo & Hf0 & _) & _).
    specialize (Hf0 Hsdf). subst f0.
    exists (to_entrypoint (sd_info s)). rewrite Hd. split; [|split; [done|split]].
    + apply (Hin n); [done|by rewrite Hinfo|]. intros m s2 Hm Hs2. apply (Hlast m (spdr_key s2, sd_alloc s2)); [done|].
      unfold ks. by rewrite list_lookup_fmap, Hs2.
    + rewrite Hinfo. simpl. done.
    + split.
      * intros f i Hf Hi Hpf. destruct (Hfars Hndf f Hf) as (gid & v & Hv & Hs & Hg & Hlt).
        rewrite Hi in Hs. simpl in Hs. exists v. split; [|by apply compose_far_asks].
        rewrite Hinfo. simpl. unfold pdr_refs. simpl. rewrite Hpf. unfold get_far. rewrite Hs. simpl.
        unfold far_get, arr_get. unfold far_part in Hfp. injection Hfp as Hf1 Hf2 Hf3 Hf4. rewrite Hf1, Hf2.
        destruct (N.ltb_spec gid (d_far_size (w_dp w3))); [|lia]. by rewrite Hg.
      * intros f i Hf Hi Hpf. destruct (Hqers Hndq f Hf) as (id & gid & Hv & Hs & Hg & Hlt).
        rewrite Hi in Hv. injection Hv as <-. exists (compose_qer f qer0). split; [|by split; [apply compose_qer_asks|]].
        rewrite Hinfo. simpl. unfold pdr_refs. simpl. rewrite Hpf. unfold get_qer. rewrite Hs. simpl.
        unfold qer_get, arr_get. unfold qer_part in Hqp. injection Hqp as Hf1 Hf2 Hf3 Hf4. rewrite Hf1, Hf2.
        destruct (N.ltb_spec gid (d_qer_size (w_dp w3))); [|lia]. by rewrite Hg.
Qed.
