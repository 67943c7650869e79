(** C18, C19: who holds which TEID and UE address, over whole histories. *)
From Verif Require Import Base IdTracker ResourceManager SdfParser MapOps Pfcp PfcpProps PfcpHistory PfcpReach PfcpRules PfcpCreate PfcpRemove
  PfcpReject PfcpInv.

(** ** Specification *)

(** The PDR detects packets by a TEID that the UPF chose. *)
Definition gives (p : spdr) (t : N) : Prop := sd_alloc p = true /\ sd_v4 p = None /\ sd_v6 p = None /\ sd_teid p = t.
Definition holds (s : session) (t : N) : Prop := exists i p, s_pdrs s !! i = Some p /\ gives p t.

(** A modification of session [s] that keeps the control plane's SEID; updates no PDR to another F-TEID; and removes either no PDR with a TEID, or
    all those with a TEID the UPF chose (then it creates none and is accepted).  [strict]: the PDRs it creates have new ids. *)
Record teid_mod (strict : bool) (s : session) (q : mod_req) (r : option response) : Prop := {
  tm_remote : forall k, mq_fseid q = Good k -> k = s_remote s;
  tm_update : forall p pdi fe, p ∈ mq_updr q -> pe_pdi p = Some pdi -> pi_fteid pdi = Good fe -> fe_ch fe = false /\
    exists id p0, pe_id p = Some id /\ s_pdrs s !! id = Some p0 /\ sd_teid p0 = fe_teid fe /\ Some id ∉ (pe_id <$> mq_cpdr q);
  tm_remove :
    (forall p, p ∈ mq_rpdr q -> Some (default 0 (pe_id p)) ∉ (pe_id <$> mq_cpdr q) /\
       forall p0, s_pdrs s !! default 0 (pe_id p) = Some p0 -> sd_teid p0 = 0) \/
    (mq_cpdr q = [] /\ (forall i p t, s_pdrs s !! i = Some p -> gives p t -> exists p', p' ∈ mq_rpdr q /\ default 0 (pe_id p') = i) /\
       exists r', r = Some r' /\ r_cause r' = Some 1);
  tm_fresh : strict = true -> NoDup (pe_id <$> mq_cpdr q) /\ forall p id, p ∈ mq_cpdr q -> pe_id p = Some id -> s_pdrs s !! id = None }.

(** Control planes that do not interfere: SEIDs of the control plane are not used for two live sessions; a deletion is
    answered and its SEID is not the control plane's SEID of another live session. *)
Definition teid_careful (strict : bool) (c : conn) (e : event) (r : option response) : Prop :=
  match e with
  | Recv sh addr seq (SessEstReq q) =>
      (forall k addr' seid' s, eq_fseid q = Good k -> session_of c addr' seid' = Some s -> s_remote s <> k) /\
      (strict = true -> NoDup (pe_id <$> eq_pdrs q))
  | Recv sh addr seq (SessModReq q) => forall s, session_of c addr (mq_seid q) = Some s -> teid_mod strict s q r
  | Recv sh addr seq (SessDelReq seid) => is_Some (session_of c addr seid) -> is_Some r /\
      forall addr' seid' s, session_of c addr' seid' = Some s -> ~ (addr' = addr /\ seid' = seid) -> s_remote s <> seid
  | _ => True
  end.
Inductive teid_history (strict : bool) : conn -> Prop :=
| th_init g rm p f q u : start_pools rm -> teid_history strict (init g rm (dp_init p f q u))
| th_step c e c' r : teid_history strict c -> event_fair e -> step c e = Done c' r -> teid_careful strict c e r -> teid_history strict c'.

Lemma teid_history_reachable b c : teid_history b c -> reachable c.
Proof. induction 1; [by apply reachable_init|by eapply reachable_step]. Qed.

(** ** The pool *)

Definition pool_ok (ft : option fteidm) : Prop := match ft with Some m => exists range l, rinv range l m | None => True end.
(** [t] is not free, and is booked under no key but [k]. *)
Definition safe (ft : option fteidm) (k t : N) : Prop :=
  match ft with
  | None => False
  | Some m => t ∉ ft_free m /\ forall k' pm i, k' <> k -> ft_busy m !! k' = Some pm -> pm !! i <> Some t
  end.
Definition is_free (ft : option fteidm) (t : N) : Prop := match ft with Some m => t ∈ ft_free m | None => False end.
Definition booked (ft : option fteidm) (k i t : N) : Prop :=
  match ft with Some m => exists pm, ft_busy m !! k = Some pm /\ pm !! i = Some t | None => False end.

Lemma alloc_facts m k i t m' : pool_ok (Some m) -> allocate_teid k i m = (Some t, m') ->
  pool_ok (Some m') /\ is_free (Some m) t /\ safe (Some m') k t /\ booked (Some m') k i t /\
  (forall t', is_free (Some m') t' -> is_free (Some m) t') /\
  (forall k' t', safe (Some m) k' t' -> safe (Some m') k' t' /\ t' <> t) /\
  (forall k' j t', booked (Some m) k' j t' -> (k' = k /\ j = i) \/ booked (Some m') k' j t').
Proof.
  intros (range & l & Hr) H.
  assert (Hs : rstep m (AllocT k i) = (m', GotT k i t)) by (simpl; by rewrite H).
  pose proof (rinv_step range l m (AllocT k i) m' _ I Hr Hs) as Hr'.
  destruct Hr as (Hnd & Hndl & Hdis & Hrg & Hb). unfold allocate_teid in H. destruct (ft_free m) as [|x r] eqn:Ef; simplify_eq.
  split; [by eexists _, _|]. split; [simpl; rewrite Ef; left|].
  assert (Hold : forall k' pm j, ft_busy m !! k' = Some pm -> pm !! j <> Some t).
  { intros k' pm j Hk Hj. apply (Hdis t); [left|]. apply Hb with (p := j) (t := t) in Hk; [|done].
    apply (elem_of_list_fmap_1 snd) in Hk. done. }
  split_and!.
  - simpl. split; [by apply NoDup_cons in Hnd as [? _]|]. intros k' pm j Hne Hk. rewrite lookup_insert_ne in Hk by done. by eapply Hold.
  - simpl. eexists. rewrite lookup_insert. split; [done|]. by rewrite lookup_insert.
  - simpl. intros t' Ht. rewrite Ef. by right.
  - simpl. intros k' t' [Hf Hk]. rewrite Ef in Hf. apply not_elem_of_cons in Hf as [Hne Hf]. split; [|done]. split; [done|].
    intros k1 pm j Hn1 Hk1 Hj. destruct (decide (k1 = k)) as [->|Hne1].
    + rewrite lookup_insert in Hk1. simplify_eq. destruct (decide (j = i)) as [->|Hji]; [rewrite lookup_insert in Hj; congruence|].
      rewrite lookup_insert_ne in Hj by done. destruct (ft_busy m !! k) as [pm0|] eqn:E; simpl in Hj; [by eapply Hk|done].
    + rewrite lookup_insert_ne in Hk1 by done. by eapply Hk.
  - simpl. intros k' j t' (pm & Hk & Hj). destruct (decide (k' = k)) as [->|Hne].
    + destruct (decide (j = i)) as [->|Hji]; [by left|]. right. eexists. rewrite lookup_insert. split; [done|]. by rewrite lookup_insert_ne, Hk.
    + right. exists pm. by rewrite lookup_insert_ne.
Qed.

Definition releases (sh : shuffle) (k : N) (ft : option fteidm) : option fteidm := release_teid sh k <$> ft.
Lemma release_facts sh k m : fair sh -> pool_ok (Some m) -> let m' := release_teid sh k m in
  pool_ok (Some m') /\
  (forall t, is_free (Some m) t -> is_free (Some m') t) /\
  (forall i t, booked (Some m) k i t -> is_free (Some m') t) /\
  (forall k' i t, k' <> k -> booked (Some m) k' i t -> booked (Some m') k' i t) /\
  (forall k' t, k' <> k -> safe (Some m) k' t -> safe (Some m') k' t).
Proof.
  intros Hf (range & l & Hr) m'. split.
  { eexists _, _. apply (rinv_step range l m (FreeT sh k) m' (FreedT k) Hf Hr eq_refl). }
  unfold m', release_teid. destruct (ft_busy m !! k) as [pm|] eqn:E; simpl.
  - split_and!.
    + intros t Ht. apply elem_of_app. by left.
    + intros i t (pm' & Hk & Hi). simplify_eq. apply elem_of_app. right. apply elem_of_list_fmap. exists (i, t). split; [done|]. by apply elem_of_entries.
    + intros k' i t Hne (pm' & Hk & Hi). exists pm'. by rewrite lookup_delete_ne.
    + intros k' t Hne [H1 H2]. split.
      * rewrite elem_of_app. intros [Ht|Ht]; [done|]. apply elem_of_list_fmap in Ht as ([i x] & -> & Hin). apply elem_of_entries in Hin; [|done].
        by eapply H2.
      * intros k1 pm1 i Hn Hk1. apply lookup_delete_Some in Hk1 as [_ Hk1]. by eapply H2.
  - split_and!; auto. intros i t (pm' & Hk & Hi). congruence.
Qed.

(** ** One request *)

Definition ftp (w : work) : option fteidm := rm_ft <$> w_rm w.
Definition rem (w : work) : N := s_remote (w_ses w).
(** [t] is booked for the PDR that got it. *)
Definition homed (w : work) (t : N) : Prop := exists i p, booked (ftp w) (rem w) i t /\ s_pdrs (w_ses w) !! i = Some p /\ sd_teid p = t.
Section request.
(** [b]: see [teid_mod]; [K]: the control plane's SEID of the session; [O k i t]: another session, whose control plane SEID is [k], holds [t], for
    its PDR [i]; [F]: what was free when the request came. *)
Context (b : bool) (K : N) (O : N -> N -> N -> Prop) (F : N -> Prop).
Definition mine (w : work) (t : N) : Prop := safe (ftp w) (rem w) t /\ (forall k i, ~ O k i t) /\ (b = true -> homed w t).
Record wother (w : work) : Prop := {
  wo_rem : rem w = K;
  wo_pool : pool_ok (ftp w);
  wo_other : forall k i t, O k i t -> k <> rem w /\ safe (ftp w) k t /\ (b = true -> booked (ftp w) k i t) }.
Record wok (w : work) : Prop := {
  wk_o : wother w;
  wk_own : forall t, holds (w_ses w) t -> mine w t }.
(** While PDRs are created. *)
Record wcre (w : work) : Prop := {
  wc_ok : wok w;
  wc_cache : forall c t, w_cache w !! c = Some t -> mine w t /\ F t;
  wc_free : forall t, is_free (ftp w) t -> F t;
  wc_new : forall p t, p ∈ w_created w -> gives p t -> F t }.

(** Only these parts matter. *)
Definition tpart (w : work) := (ftp w, s_pdrs (w_ses w), rem w, w_cache w, w_created w).
Lemma wcre_tpart w w' : tpart w' = tpart w -> wcre w -> wcre w'.
Proof.
  unfold tpart. intros H. injection H as E1 E2 E3 E4 E5.
  assert (Hh : forall t, holds (w_ses w') t <-> holds (w_ses w) t) by (intros t; unfold holds; by rewrite E2).
  assert (Hm : forall t, mine w t -> mine w' t) by (intros t; unfold mine, homed; by rewrite E1, E2, E3).
  intros [[[H0 H1 H2] H3] H4 H5 H6]. split; [split; [split|]|..].
  - congruence.
  - by rewrite E1.
  - intros k i t. rewrite E1, E3. apply H2.
  - intros t Ht. apply Hm, H3, Hh, Ht.
  - intros c t. rewrite E4. intros Hc. destruct (H4 c t Hc). auto.
  - intros t. rewrite E1. apply H5.
  - intros p t. rewrite E5. apply H6.
Qed.

Ltac tp := intros; unfold keepsP, tpart, ftp, rem; repeat (case_match; simplify_eq); simpl in *; try done.
Lemma create_far_tpart f w : keepsP tpart w (create_far f w). Proof. unfold create_far. tp. Qed.
Lemma update_far_tpart f w : keepsP tpart w (update_far_ie f w). Proof. unfold update_far_ie. tp. Qed.
Lemma remove_far_tpart f w : keepsP tpart w (remove_far_ie f w). Proof. unfold remove_far_ie. tp. Qed.
Lemma create_qer_tpart f w : keepsP tpart w (create_qer f w). Proof. unfold create_qer. tp. Qed.
Lemma update_qer_tpart f w : keepsP tpart w (update_qer_ie f w). Proof. unfold update_qer_ie. tp. Qed.
Lemma remove_qer_tpart f w : keepsP tpart w (remove_qer_ie f w). Proof. unfold remove_qer_ie. tp. Qed.
Lemma create_urr_tpart f w : keepsP tpart w (create_urr f w). Proof. unfold create_urr. tp. Qed.
Lemma update_urr_tpart f w : keepsP tpart w (update_urr_ie f w). Proof. unfold update_urr_ie. tp. Qed.
Lemma remove_urr_tpart f w : keepsP tpart w (remove_urr_ie f w). Proof. unfold remove_urr_ie. tp. Qed.
Lemma del_far_tpart f w : keepsP tpart w (del_far f w). Proof. unfold del_far. tp. Qed.
Lemma del_qer_tpart f w : keepsP tpart w (del_qer f w). Proof. unfold del_qer. tp. Qed.
Lemma del_urr_tpart f w : keepsP tpart w (del_urr f w). Proof. unfold del_urr. tp. Qed.

Definition new_id (w : work) (id : N) : Prop := b = true -> s_pdrs (w_ses w) !! id = None.
Definition put (id : N) (s : spdr) (w : work) : work := w_set_ses (ses_put_pdr id s (w_ses w)) w.

Lemma put_mine w id s t : new_id w id -> mine w t -> mine (put id s w) t.
Proof.
  intros Hn (H1 & H2 & H3). split; [done|]. split; [done|]. intros Hb. destruct (H3 Hb) as (i & p & Hk & Hi & Ht).
  exists i, p. split; [done|]. split; [|done]. simpl. rewrite lookup_insert_ne; [done|]. intros ->. rewrite (Hn Hb) in Hi. done.
Qed.
Lemma put_holds id s w t : holds (w_ses (put id s w)) t -> holds (w_ses w) t \/ gives s t.
Proof.
  intros (i & p & Hi & Hg). simpl in Hi. apply lookup_insert_Some in Hi as [[<- <-]|[_ Hi]]; [by right|left; by exists i, p].
Qed.
(** A PDR stored that gives no TEID, or one that the request has already got. *)
Lemma put_cre w id s : new_id w id -> wcre w -> (forall t, gives s t -> mine w t) -> wcre (put id s w).
Proof.
  intros Hn [[[H0 H1 H2] H3] H4 H5 H6] Hs. split; [split; [by split|]|..]; try done.
  - intros t Ht. apply put_mine; [done|]. apply put_holds in Ht as [Ht|Ht]; auto.
  - intros c t Hc. destruct (H4 c t Hc). split; [by apply put_mine|done].
Qed.
Lemma add_created_cre w s : wcre w -> (forall t, gives s t -> F t) -> wcre (w_add_created s w).
Proof.
  intros [[[H0 H1 H2] H3] H4 H5 H6] Hs. split; [split; [by split|]|..]; try done.
  intros p t Hp Hg. simpl in Hp. apply elem_of_app in Hp as [Hp|Hp]; [by eapply H6|]. apply elem_of_list_singleton in Hp as ->. auto.
Qed.
(** A TEID taken from the pool and given to PDR [id]. *)
Lemma alloc_put_cre w r t ft id s c : new_id w id -> wcre w -> w_rm w = Some r ->
  allocate_teid (rem w) id (rm_ft r) = (Some t, ft) -> (forall t', gives s t' -> t' = t) -> sd_teid s = t ->
  wcre (put id s (let w1 := w_set_rm (Some (Rman ft (rm_ip r))) w in
                        match c with Some x => w_set_cache (<[x := t]> (w_cache w1)) w1 | None => w1 end)) /\ F t.
Proof.
  intros Hn [[[H0 H1 H2] H3] H4 H5 H6] Hr Ha Hg Ht.
  assert (Ep : ftp w = Some (rm_ft r)) by (unfold ftp; by rewrite Hr).
  rewrite Ep in H1. destruct (alloc_facts _ _ _ _ _ H1 Ha) as (A1 & A2 & A3 & A4 & A5 & A6 & A7).
  assert (HF : F t) by (apply H5; by rewrite Ep). split; [|done].
  set (w2 := match c with Some _ => _ | None => _ end).
  assert (E2 : ftp w2 = Some ft /\ w_ses w2 = w_ses w /\ w_created w2 = w_created w) by (by destruct c). destruct E2 as (Ef & Es & Ec).
  assert (Em : forall t', mine w t' -> mine (put id s w2) t').
  { intros t' (M1 & M2 & M3). rewrite Ep in M1. unfold mine, rem. simpl. rewrite Es.
    change (ftp (put id s w2)) with (ftp w2). rewrite Ef. split; [by apply A6|]. split; [done|].
    intros Hb. destruct (M3 Hb) as (i & p & Hk & Hi & Hp). rewrite Ep in Hk. exists i, p.
    assert (i <> id) by (intros ->; by rewrite (Hn Hb) in Hi).
    change (ftp (put id s w2)) with (ftp w2). rewrite Ef. unfold rem. simpl. rewrite Es. split; [destruct (A7 _ _ _ Hk) as [[_ ?]|?]; done|].
    by rewrite lookup_insert_ne. }
  assert (Et : mine (put id s w2) t).
  { unfold mine, rem. simpl. rewrite Es. change (ftp (put id s w2)) with (ftp w2). rewrite Ef. split; [done|]. split.
    - intros k i Hk. apply H2 in Hk as (_ & Hk & _). rewrite Ep in Hk. by destruct Hk.
    - intros _. exists id, s. change (ftp (put id s w2)) with (ftp w2). rewrite Ef. unfold rem. simpl. rewrite Es, lookup_insert. done. }
  split; [split; [split|]|..].
  - unfold rem. simpl. by rewrite Es.
  - change (ftp (put id s w2)) with (ftp w2). by rewrite Ef.
  - intros k i x Hk. change (ftp (put id s w2)) with (ftp w2). rewrite Ef. unfold rem. simpl. rewrite Es. destruct (H2 k i x Hk) as (Hne & Hsf & Hbk).
    rewrite Ep in Hsf, Hbk. split; [done|]. split; [by apply A6|]. intros Hb. destruct (A7 _ _ _ (Hbk Hb)) as [[? _]|?]; done.
  - intros x Hx. apply put_holds in Hx as [Hx|Hx]; [apply Em, H3; by rewrite Es in Hx|apply Hg in Hx as ->; done].
  - intros x y Hxy. assert (w_cache w !! x = Some y \/ y = t) as [Hy|Hy].
    { unfold w2 in Hxy. destruct c as [z|]; simpl in Hxy; [|by left]. apply lookup_insert_Some in Hxy as [[_ Hz]|[_ Hxy]]; [subst|]; auto. }
    + destruct (H4 _ _ Hy). auto.
    + by subst.
  - intros x Hx. apply H5. rewrite Ep. apply A5. change (ftp (put id s w2)) with (ftp w2) in Hx. by rewrite Ef in Hx.
  - intros p x Hp. simpl in Hp. rewrite Ec in Hp. by apply H6.
Qed.

Lemma create_pdr_cre ueip p w : (forall id, pe_id p = Some id -> new_id w id) -> wcre w -> ends (create_pdr ueip p w) (wcre).
Proof.
  intros Hn Hw. unfold create_pdr. destruct (pe_id p) as [id|]; [|done]. specialize (Hn id eq_refl).
  (** the rest of the handler *)
  assert (Hrest : forall s w1, sd_id s = id -> wcre (put id s w1) -> (forall t, gives s t -> F t) ->
    ends (let w2 := w_set_ses (ses_put_pdr (sd_id s) s (w_ses w1)) w1 in
          match apply_pdr s (w_dp w2) with (true, d) => ROk (w_add_created s (w_set_dp d w2)) | (false, d) => RErr (w_set_dp d w2) end) (wcre)).
  { intros s w1 -> Hp Hg. cbn zeta. destruct (apply_pdr _ _) as [[] d]; simpl.
    - apply add_created_cre; [|done]. by eapply wcre_tpart; [|exact Hp].
    - by eapply wcre_tpart; [|exact Hp]. }
  unfold extract_pdr. destruct (pe_pdi p) as [pdi|]; [|done]. destruct (pdr_sdf p _) as [info|]; [|done].
  destruct (pi_fteid pdi) as [| |fe]; [|done|].
  - destruct (pi_ueip pdi) as [| |ue]; [|done|].
    + apply Hrest; [done| |by intros t (? & _)]. apply put_cre; [done..|]. by intros t (? & _).
    + assert (Hw1 : forall rm, (rm_ft <$> rm) = (rm_ft <$> w_rm w) -> wcre (w_set_rm rm w)).
      { intros rm E. eapply wcre_tpart; [|exact Hw]. unfold tpart, ftp, rem. simpl. by rewrite E. }
      destruct (if ueip && ue_chv4 ue then _ else _) as [[v4 alloc] w1] eqn:Ei.
      assert (H1 : wcre w1 /\ w_ses w1 = w_ses w /\ (alloc = true -> is_Some v4)).
      { destruct (ueip && ue_chv4 ue); [|by simplify_eq]. unfold get_ip in Ei. destruct (w_rm w) as [r|] eqn:Er.
        - destruct (allocate_ip _ _) as [[a|] ip] eqn:Ea; simplify_eq; (split; [|split; [done|done || eauto]]); apply Hw1; done.
        - simplify_eq. split; [by apply Hw1|done]. }
      destruct H1 as (H1 & Es & Ha). clear Ei.
      assert (Hn1 : new_id w1 id) by (unfold new_id; by rewrite Es).
      destruct v4 as [a|]; [|destruct (ue_v6 ue) as [a|]]; [..|done].
      * apply Hrest; [done| |by intros t (_ & ? & _)]. apply put_cre; [done..|]. by intros t (_ & ? & _).
      * apply Hrest; [done| |by intros t (_ & _ & ? & _)]. apply put_cre; [done..|]. by intros t (_ & _ & ? & _).
  - destruct (fe_ch fe).
    + destruct (match fe_chid fe with Some c => w_cache w !! c | None => None end) as [t|] eqn:Ec.
      * assert (Ht : mine w t /\ F t). { destruct (fe_chid fe) as [c|]; [|done]. by apply (wc_cache _ Hw c t). }
        apply Hrest; [done| |]; [apply put_cre; [done..|]|]; intros t' (_ & _ & _ & <-); apply Ht.
      * unfold get_fteid. destruct (w_rm w) as [r|] eqn:Er; [|by eapply wcre_tpart; [|exact Hw]; unfold tpart, ftp; simpl; by rewrite Er].
        destruct (allocate_teid _ _ _) as [[t|] ft] eqn:Ea.
        -- cbn zeta.
           destruct (alloc_put_cre w r t ft id (Spdr id info t None None true) (fe_chid fe) Hn Hw Er Ea) as [H1 H2];
             [by intros t' (_ & _ & _ & <-)|done|]. cbn zeta in H1.
           apply (Hrest (Spdr id info t None None true) _ eq_refl H1). by intros t' (_ & _ & _ & <-).
        -- eapply wcre_tpart; [|exact Hw]. unfold tpart, ftp, rem. simpl. rewrite Er. unfold allocate_teid in Ea. by destruct (ft_free (rm_ft r)); simplify_eq.
    + apply Hrest; [done| |by intros t (? & _)]. apply put_cre; [done..|]. by intros t (? & _).
Qed.

Lemma create_pdr_ids ueip p w w' i : create_pdr ueip p w = ROk w' -> Some i <> pe_id p -> s_pdrs (w_ses w') !! i = s_pdrs (w_ses w) !! i.
Proof.
  unfold create_pdr. destruct (pe_id p) as [id|] eqn:Eid; [|done].
  destruct (extract_pdr _ _ _ _) as [[s|] w1] eqn:E; [|done]. pose proof (extract_pdr_frame _ _ _ _ _ _ E) as (_ & Es & _ & _).
  assert (Hid : sd_id s = id).
  { unfold extract_pdr in E. repeat (case_match; simplify_eq); done. }
  cbn zeta. destruct (apply_pdr _ _) as [[] d]; intros; simplify_eq. simpl. rewrite Es, lookup_insert_ne by congruence. done.
Qed.
Lemma create_pdrs_cre ueip l w : (b = true -> NoDup (pe_id <$> l)) -> (forall p id, p ∈ l -> pe_id p = Some id -> new_id w id) ->
  wcre w -> ends (each (create_pdr ueip) l w) (wcre).
Proof.
  revert w. induction l as [|p l IH]; intros w Hnd Hn Hw; simpl; [done|].
  pose proof (create_pdr_cre ueip p w (fun id => Hn p id (elem_of_list_here _ _)) Hw) as H.
  destruct (create_pdr ueip p w) as [w1|w1|] eqn:E; simpl in *; try done. apply IH; [|..|done].
  - intros Hb. specialize (Hnd Hb). by apply NoDup_cons in Hnd as [_ ?].
  - intros p' id Hp' Hid Hb. erewrite create_pdr_ids; [|exact E|]; [apply (Hn p' id); [by right|done..]|].
    intros Heq. specialize (Hnd Hb). apply NoDup_cons in Hnd as [Hx _]. apply Hx. rewrite <- Heq, <- Hid. by apply elem_of_list_fmap_1.
Qed.

(** Updates that leave TEIDs alone. *)
Record sameT (w w' : work) : Prop := {
  st_ftp : ftp w' = ftp w;
  st_rem : rem w' = rem w;
  st_new : w_created w' = w_created w;
  st_cache : w_cache w' = w_cache w;
  st_old : forall i p, s_pdrs (w_ses w) !! i = Some p -> exists p', s_pdrs (w_ses w') !! i = Some p' /\ sd_teid p' = sd_teid p;
  st_back : forall i p, s_pdrs (w_ses w') !! i = Some p -> sd_teid p = 0 \/ exists p0, s_pdrs (w_ses w) !! i = Some p0 /\ sd_teid p = sd_teid p0;
  st_gives : forall i p t, s_pdrs (w_ses w') !! i = Some p -> gives p t -> exists p0, s_pdrs (w_ses w) !! i = Some p0 /\ gives p0 t }.
Lemma sameT_refl w : sameT w w. Proof. split; eauto. Qed.
Lemma sameT_trans w1 w2 w3 : sameT w1 w2 -> sameT w2 w3 -> sameT w1 w3.
Proof.
  intros [A1 A2 A3 A7 A4 A8 A5] [B1 B2 B3 B7 B4 B8 B5]. split; try congruence.
  - intros i p Hi. apply A4 in Hi as (p' & Hi & <-). by apply B4.
  - intros i p Hi. apply B8 in Hi as [?|(p' & Hi & ->)]; [by left|]. by apply A8.
  - intros i p t Hi Hg. destruct (B5 _ _ _ Hi Hg) as (p' & Hi' & Hg'). by eapply A5.
Qed.
Lemma sameT_mine w w' t : sameT w w' -> mine w t -> mine w' t.
Proof.
  intros [A1 A2 A3 A7 A4 A8 A5] (M1 & M2 & M3). unfold mine. rewrite A1, A2. split; [done|]. split; [done|]. intros Hb.
  destruct (M3 Hb) as (i & p & Hk & Hi & Ht). destruct (A4 _ _ Hi) as (p' & Hi' & Ht'). exists i, p'. rewrite A1, A2. split_and!; congruence.
Qed.
Lemma sameT_other w w' : sameT w w' -> wother w -> wother w'.
Proof. intros [A1 A2 A3 A7 A4 A8 A5] [H0 H1 H2]. split; rewrite ?A2, ?A1; try done. Qed.
Lemma sameT_cre w w' : sameT w w' -> wcre w -> wcre w'.
Proof.
  intros Hs [[H0 H3] H4 H5 H6]. pose proof Hs as [A1 A2 A3 A7 A4 A8 A5]. split; [split|..].
  - by eapply sameT_other.
  - intros t (i & p & Hi & Hg). destruct (A5 _ _ _ Hi Hg) as (p0 & Hi0 & Hg0). eapply sameT_mine; [exact Hs|]. apply H3. by exists i, p0.
  - intros c t. rewrite A7. intros Hc. destruct (H4 _ _ Hc). split; [by eapply sameT_mine|done].
  - rewrite A1. apply H5.
  - rewrite A3. apply H6.
Qed.

Definition upd_ok (p : pdr_ie) (w : work) : Prop :=
  forall pdi fe, pe_pdi p = Some pdi -> pi_fteid pdi = Good fe -> fe_ch fe = false /\
    exists id p0, pe_id p = Some id /\ s_pdrs (w_ses w) !! id = Some p0 /\ sd_teid p0 = fe_teid fe.

Lemma update_pdr_sameT ueip p w : upd_ok p w -> ends (update_pdr_ie ueip p w) (sameT w).
Proof.
  intros Hu. unfold update_pdr_ie. destruct (pe_id p) as [id|] eqn:Eid; [|apply sameT_refl].
  assert (Hrm : forall rm w1, (rm_ft <$> rm) = (rm_ft <$> w_rm w) -> w1 = w_set_rm rm w -> sameT w w1).
  { intros rm w1 E ->. split; unfold ftp; simpl; eauto. }
  set (s0 := get_pdr (w_ses w) id).
  assert (Hold : forall p0, s_pdrs (w_ses w) !! id = Some p0 -> s0 = p0) by (intros p0 H; unfold s0, get_pdr; by rewrite H).
  assert (Hgiv : forall t, gives s0 t -> s_pdrs (w_ses w) !! id = Some s0).
  { intros t Hg. unfold s0, get_pdr in *. destruct (s_pdrs (w_ses w) !! id) as [p0|]; [done|]. by destruct Hg. }
  assert (Hrest : forall s w1, sameT w w1 -> w_ses w1 = w_ses w -> sd_teid s = sd_teid s0 -> (forall t, gives s t -> gives s0 t) ->
    ends (let w2 := w_set_ses (ses_put_pdr id s (w_ses w1)) w1 in
          match apply_pdr s (w_dp w2) with (true, d) => ROk (w_set_dp d w2) | (false, d) => RErr (w_set_dp d w2) end) (sameT w)).
  { intros s w1 [A1 A2 A3 A7 A4 A8 A5] Es Ht Hg. cbn zeta.
    assert (forall d, sameT w (w_set_dp d (w_set_ses (ses_put_pdr id s (w_ses w1)) w1))) as Hx.
    { intros d. split; try done.
      - intros i q Hi. simpl. rewrite Es. destruct (decide (i = id)) as [->|Hne].
        + rewrite lookup_insert. exists s. split; [done|]. by rewrite Ht, (Hold _ Hi).
        + rewrite lookup_insert_ne by done. eauto.
      - intros i q. simpl. rewrite Es. destruct (decide (i = id)) as [->|Hne].
        + rewrite lookup_insert. intros [= <-]. rewrite Ht. destruct (s_pdrs (w_ses w) !! id) as [p0|] eqn:E0.
          * right. exists p0. by rewrite (Hold p0).
          * left. unfold s0, get_pdr. by rewrite E0.
        + rewrite lookup_insert_ne by done. eauto.
      - intros i q t. simpl. rewrite Es. destruct (decide (i = id)) as [->|Hne].
        + rewrite lookup_insert. intros [= <-] Hq. exists s0. apply Hg in Hq. split; [by eapply Hgiv|done].
        + rewrite lookup_insert_ne by done. eauto. }
    destruct (apply_pdr _ _) as [[] d]; simpl; apply Hx. }
  unfold extract_pdr. destruct (pe_pdi p) as [pdi|] eqn:Ep; [|apply sameT_refl]. destruct (pdr_sdf p _) as [info|]; [|apply sameT_refl].
  destruct (pi_fteid pdi) as [| |fe] eqn:Efe; [|apply sameT_refl|].
  - destruct (pi_ueip pdi) as [| |ue]; [|apply sameT_refl|].
    + apply Hrest; try done. apply sameT_refl.
    + destruct (if ueip && ue_chv4 ue then _ else _) as [[v4 alloc] w1] eqn:Ei.
      assert (H1 : sameT w w1 /\ w_ses w1 = w_ses w /\ (v4 = None -> alloc = sd_alloc s0)).
      { destruct (ueip && ue_chv4 ue); [|simplify_eq; split; [apply sameT_refl|done]]. unfold get_ip in Ei. destruct (w_rm w) as [r|] eqn:Er.
        - destruct (allocate_ip _ _) as [[a|] ip] eqn:Ea; simplify_eq; (split; [|done]); (eapply Hrm; [|reflexivity]); done.
        - simplify_eq. split; [by eapply Hrm; [|reflexivity]|done]. }
      destruct H1 as (H1 & Es & Ha). clear Ei.
      destruct v4 as [a|]; [|destruct (ue_v6 ue) as [a|]]; [..|done].
      * apply Hrest; try done. by intros t (_ & ? & _).
      * apply Hrest; try done. by intros t (_ & _ & ? & _).
  - destruct (Hu _ _ Ep Efe) as (-> & id' & p0 & Hid & Hi & Ht). rewrite Eid in Hid. injection Hid as <-. rewrite <- (Hold _ Hi) in Ht.
    apply Hrest; [apply sameT_refl|done|by simpl|]. intros t (Ha & H4 & H6 & <-). simpl in *. by repeat split.
Qed.
Lemma upd_ok_sameT p w w' : sameT w w' -> upd_ok p w -> upd_ok p w'.
Proof.
  intros Hs Hu pdi fe H1 H2. destruct (Hu _ _ H1 H2) as (H & id & p0 & Hi & H0 & Ht). split; [done|].
  destruct (st_old _ _ Hs _ _ H0) as (p' & ? & ?). exists id, p'. split_and!; congruence.
Qed.
Lemma update_pdrs_sameT ueip l : forall w, (forall p, p ∈ l -> upd_ok p w) -> ends (each (update_pdr_ie ueip) l w) (sameT w).
Proof.
  induction l as [|p l IH]; intros w Hu; simpl; [apply sameT_refl|].
  pose proof (update_pdr_sameT ueip p w (Hu p (elem_of_list_here _ _))) as H. destruct (update_pdr_ie ueip p w) as [w1|w1|]; simpl in *; try done.
  assert (H1 : ends (each (update_pdr_ie ueip) l w1) (sameT w1)).
  { apply IH. intros q Hq. eapply upd_ok_sameT; [exact H|]. apply Hu. by right. }
  destruct (each _ l w1); simpl in *; try done; by eapply sameT_trans.
Qed.

(** Removals. *)
Lemma delete_pdr_facts sh s w : ends (delete_pdr sh s w) (fun w' => w_ses w' = w_ses w /\ w_created w' = w_created w /\
  ((sd_teid s = 0 \/ delete_pdr sh s w = RErr w') /\ ftp w' = ftp w \/ sd_teid s <> 0 /\ is_Some (ftp w) /\ ftp w' = releases sh (rem w) (ftp w))).
Proof.
  unfold delete_pdr.
  destruct (match sd_v4 s, sd_v6 s with Some _, _ => _ | None, Some _ => _ | None, None => _ end) as [ok w1] eqn:E.
  assert (H : w_ses w1 = w_ses w /\ w_created w1 = w_created w /\ w_rm w1 = w_rm w).
  { repeat (case_match; simplify_eq); done. }
  clear E. destruct H as (Hs & Hc & Hr). destruct ok; simpl; [|unfold ftp; rewrite Hr; split_and!; auto].
  destruct (N.eqb_spec (sd_teid s) 0) as [E0|E0]; simpl; [unfold ftp; rewrite Hr; split_and!; auto|].
  rewrite Hr. destruct (w_rm w) as [r|] eqn:Er; [|done]. simpl. split_and!; try done. right. unfold ftp. rewrite Er. simpl. split; [done|].
  split; [by eexists|]. unfold rem. by rewrite Hs.
Qed.

Lemma release_other sh w w' : fair sh -> s_remote (w_ses w') = s_remote (w_ses w) -> is_Some (ftp w) -> ftp w' = releases sh (rem w) (ftp w) -> wother w -> wother w'.
Proof.
  intros Hf Es [m Em] Ef [H0 H1 H2]. rewrite Em in *. destruct (release_facts sh (rem w) m Hf H1) as (R1 & R2 & R3 & R4 & R5).
  assert (Er : rem w' = rem w) by (unfold rem; by rewrite Es). split.
  - congruence.
  - by rewrite Ef.
  - intros k i t Hk. rewrite Ef, Er. destruct (H2 _ _ _ Hk) as (A1 & A2 & A3). split; [done|]. split; [by apply R5|]. intros Hb. apply R4; auto.
Qed.
Lemma delete_pdr_other sh s w : fair sh -> wother w -> ends (delete_pdr sh s w) wother.
Proof.
  intros Hf Hw. pose proof (delete_pdr_facts sh s w) as H. destruct (delete_pdr sh s w) as [w'|w'|]; simpl in *; try done.
  all: destruct H as (Hs & _ & [(_ & Hr)|(_ & Hr & Hr')]).
  all: try (destruct Hw; split; unfold rem; rewrite ?Hs, ?Hr; done).
  all: eapply release_other; [exact Hf|by rewrite Hs|exact Hr|exact Hr'|exact Hw].
Qed.
Lemma other_ses w s : s_remote s = s_remote (w_ses w) -> wother w -> wother (w_set_ses s w).
Proof. intros Hs []. split; unfold rem; simpl; rewrite ?Hs; done. Qed.
Lemma remove_pdr_other sh p w : fair sh -> wother w -> ends (remove_pdr_ie sh p w) wother.
Proof.
  intros Hf Hw. unfold remove_pdr_ie. cbn zeta. destruct (s_pdrs (w_ses w) !! _) as [s|]; [|done].
  apply delete_pdr_other; [done|]. by apply other_ses.
Qed.
(** The removed ids are gone and no other PDR appears. *)
Lemma remove_pdr_ids sh p w w' : remove_pdr_ie sh p w = ROk w' -> s_pdrs (w_ses w') = delete (default 0 (pe_id p)) (s_pdrs (w_ses w)) /\ w_created w' = w_created w.
Proof.
  unfold remove_pdr_ie. cbn zeta. destruct (s_pdrs (w_ses w) !! default 0 (pe_id p)) as [s|] eqn:E.
  - intros H. pose proof (delete_pdr_facts sh s (w_set_ses (ses_remove_pdr (default 0 (pe_id p)) (w_ses w)) w)) as Hd. rewrite H in Hd.
    simpl in Hd. destruct Hd as (Hs & Hc & _). by rewrite Hs, Hc.
  - intros [= <-]. by rewrite delete_notin.
Qed.
Lemma remove_pdrs_ids sh l : forall w w' i p, each (remove_pdr_ie sh) l w = ROk w' -> s_pdrs (w_ses w') !! i = Some p ->
  s_pdrs (w_ses w) !! i = Some p /\ forall q, q ∈ l -> default 0 (pe_id q) <> i.
Proof.
  induction l as [|q l IH]; intros w w' i p H Hi; simpl in H; [simplify_eq; split; [done|by intros q ?%elem_of_nil]|].
  apply rbind_ok in H as (w1 & H1 & H2). destruct (IH _ _ _ _ H2 Hi) as [Hi1 Hn]. apply remove_pdr_ids in H1 as [H1 _]. rewrite H1 in Hi1.
  apply lookup_delete_Some in Hi1 as [Hne Hi0]. split; [done|]. intros q' Hq'. apply elem_of_cons in Hq' as [->|Hq']; [done|by apply Hn].
Qed.
Lemma remove_pdrs_created sh l : forall w w', each (remove_pdr_ie sh) l w = ROk w' -> w_created w' = w_created w.
Proof.
  induction l as [|q l IH]; intros w w' H; simpl in H; [by simplify_eq|]. apply rbind_ok in H as (w1 & H1 & H2).
  apply remove_pdr_ids in H1 as [_ H1]. rewrite <- H1. by eapply IH.
Qed.
(** Removing a PDR without TEID. *)
Definition rmv_ok (p : pdr_ie) (w : work) : Prop := forall p0, s_pdrs (w_ses w) !! default 0 (pe_id p) = Some p0 -> sd_teid p0 = 0.
Lemma booked_pos ft k i t : pool_ok ft -> booked ft k i t -> t <> 0.
Proof.
  destruct ft as [m|]; [|done]. intros (range & l & _ & _ & _ & Hr & Hb) (pm & Hk & Hi). specialize (Hb _ _ _ _ Hk Hi).
  apply (elem_of_list_fmap_1 snd) in Hb. simpl in Hb. specialize (Hr t (or_intror Hb)). lia.
Qed.
Lemma remove_pdr_ok sh p w : rmv_ok p w -> wok w -> ends (remove_pdr_ie sh p w) wok.
Proof.
  intros Hp Hw. unfold remove_pdr_ie. cbn zeta. destruct (s_pdrs (w_ses w) !! _) as [s|] eqn:E; [|done].
  specialize (Hp s E). set (id := default 0 (pe_id p)) in *.
  pose proof (delete_pdr_facts sh s (w_set_ses (ses_remove_pdr id (w_ses w)) w)) as H.
  assert (Hg : forall w', w_ses w' = ses_remove_pdr id (w_ses w) -> ftp w' = ftp w -> wok w').
  { intros w' Es Ef. destruct Hw as [[H0 H1 H2] H3]. assert (Er : rem w' = rem w) by (unfold rem; by rewrite Es). split; [split|].
    - congruence.
    - by rewrite Ef.
    - intros k i t Hk. rewrite Ef, Er. by apply H2.
    - intros t (i & q & Hi & Hq). rewrite Es in Hi. simpl in Hi. apply lookup_delete_Some in Hi as [Hne Hi].
      destruct (H3 t) as (M1 & M2 & M3); [by exists i, q|]. unfold mine. rewrite Ef, Er. split; [done|]. split; [done|]. intros Hb.
      destruct (M3 Hb) as (j & p1 & Hk & Hj & Ht). exists j, p1. rewrite Ef, Er. split; [done|]. split; [|done].
      rewrite Es. simpl. rewrite lookup_delete_ne; [done|]. intros <-. rewrite E in Hj. simplify_eq. by apply booked_pos in Hk. }
  destruct (delete_pdr _ _ _) as [w'|w'|]; simpl in *; try done.
  all: destruct H as (Hs & _ & [(_ & Hr)|(Hx & _)]); [|done]; by apply Hg.
Qed.
Lemma remove_pdrs_ok sh l : forall w, (forall p, p ∈ l -> rmv_ok p w) -> wok w -> ends (each (remove_pdr_ie sh) l w) wok.
Proof.
  induction l as [|p l IH]; intros w Hp Hw; simpl; [done|].
  pose proof (remove_pdr_ok sh p w (Hp p (elem_of_list_here _ _)) Hw) as H. destruct (remove_pdr_ie sh p w) as [w1|w1|] eqn:E; simpl in *; try done.
  apply IH; [|done]. intros q Hq p0. apply remove_pdr_ids in E as [E _]. rewrite E. intros H0. apply lookup_delete_Some in H0 as [_ H0].
  eapply (Hp q); [by right|done].
Qed.
End request.

Section rules.
Context (b : bool) (K : N) (O : N -> N -> N -> Prop) (F : N -> Prop).

Lemma bind_tpart (Q : work -> Prop) w r k : keepsP tpart w r -> (forall w', tpart w' = tpart w -> Q w') ->
  (forall w', tpart w' = tpart w -> ends (k w') Q) -> ends (rbind r k) Q.
Proof. intros H HQ Hk. destruct r as [w1|w1|]; simpl in *; auto. Qed.

Lemma est_rules_cre ueip q w : (b = true -> NoDup (pe_id <$> eq_pdrs q)) -> s_pdrs (w_ses w) = ∅ -> wcre b K O F w ->
  ends (est_rules ueip q w) (wcre b K O F).
Proof.
  intros Hnd He Hw. unfold est_rules.
  assert (HQ : forall w', tpart w' = tpart w -> wcre b K O F w') by (intros w' E; by eapply wcre_tpart).
  apply (bind_tpart _ w); [apply each_keep, create_far_tpart|done|intros w1 E1].
  apply (bind_tpart _ w1); [apply each_keep, create_qer_tpart|intros; apply HQ; congruence|intros w2 E2].
  apply (bind_tpart _ w2); [apply each_keep, create_urr_tpart|intros; apply HQ; congruence|intros w3 E3].
  assert (E : tpart w3 = tpart w) by congruence. apply create_pdrs_cre; [done| |by apply HQ].
  intros p id _ _ _. unfold tpart in E. injection E as _ -> _ _ _. by rewrite He.
Qed.

Definition mod_pdrs (ueip : bool) (sh : shuffle) (q : mod_req) (w : work) : res :=
  rbind (each (create_pdr ueip) (mq_cpdr q) w) (fun w =>
  rbind (each (update_pdr_ie ueip) (mq_updr q) w) (fun w => each (remove_pdr_ie sh) (mq_rpdr q) w)).
Lemma mod_rules_pdrs ueip sh q w (Q : work -> Prop) : (forall w', tpart w' = tpart w -> Q w') ->
  (forall w', tpart w' = tpart w -> ends (mod_pdrs ueip sh q w') Q) -> ends (mod_rules ueip sh q w) Q.
Proof.
  intros HQ Hk. unfold mod_rules.
  apply (bind_tpart _ w); [apply each_keep, create_far_tpart|done|intros w1 E1].
  apply (bind_tpart _ w1); [apply each_keep, update_far_tpart|intros; apply HQ; congruence|intros w2 E2].
  apply (bind_tpart _ w2); [apply each_keep, remove_far_tpart|intros; apply HQ; congruence|intros w3 E3].
  apply (bind_tpart _ w3); [apply each_keep, create_qer_tpart|intros; apply HQ; congruence|intros w4 E4].
  apply (bind_tpart _ w4); [apply each_keep, update_qer_tpart|intros; apply HQ; congruence|intros w5 E5].
  apply (bind_tpart _ w5); [apply each_keep, remove_qer_tpart|intros; apply HQ; congruence|intros w6 E6].
  apply (bind_tpart _ w6); [apply each_keep, create_urr_tpart|intros; apply HQ; congruence|intros w7 E7].
  apply (bind_tpart _ w7); [apply each_keep, update_urr_tpart|intros; apply HQ; congruence|intros w8 E8].
  apply (bind_tpart _ w8); [apply each_keep, remove_urr_tpart|intros; apply HQ; congruence|intros w9 E9].
  apply Hk. congruence.
Qed.
Lemma mod_rules_ok_pdrs ueip sh q w w' : mod_rules ueip sh q w = ROk w' -> exists w0, tpart w0 = tpart w /\ mod_pdrs ueip sh q w0 = ROk w'.
Proof.
  unfold mod_rules. intros H.
  assert (Hk : forall A (f : A -> work -> res) l w1 w2, (forall x w, keepsP tpart w (f x w)) -> each f l w1 = ROk w2 -> tpart w2 = tpart w1).
  { intros A f l w1 w2 Hf E. pose proof (each_keep tpart f l w1 Hf) as Hx. by rewrite E in Hx. }
  apply rbind_ok in H as (w1 & E1 & H). apply Hk in E1; [|apply create_far_tpart].
  apply rbind_ok in H as (w2 & E2 & H). apply Hk in E2; [|apply update_far_tpart].
  apply rbind_ok in H as (w3 & E3 & H). apply Hk in E3; [|apply remove_far_tpart].
  apply rbind_ok in H as (w4 & E4 & H). apply Hk in E4; [|apply create_qer_tpart].
  apply rbind_ok in H as (w5 & E5 & H). apply Hk in E5; [|apply update_qer_tpart].
  apply rbind_ok in H as (w6 & E6 & H). apply Hk in E6; [|apply remove_qer_tpart].
  apply rbind_ok in H as (w7 & E7 & H). apply Hk in E7; [|apply create_urr_tpart].
  apply rbind_ok in H as (w8 & E8 & H). apply Hk in E8; [|apply update_urr_tpart].
  apply rbind_ok in H as (w9 & E9 & H). apply Hk in E9; [|apply remove_urr_tpart].
  exists w9. split; [congruence|done].
Qed.

Lemma create_pdrs_ids ueip l i : forall w w', each (create_pdr ueip) l w = ROk w' -> Some i ∉ (pe_id <$> l) ->
  s_pdrs (w_ses w') !! i = s_pdrs (w_ses w) !! i.
Proof.
  induction l as [|p l IH]; intros w w' H Hn; simpl in H; [by simplify_eq|]. apply rbind_ok in H as (w1 & H1 & H2).
  simpl in Hn. apply not_elem_of_cons in Hn as [Hne Hn]. erewrite IH by done. by eapply create_pdr_ids.
Qed.

(** A modification. *)
Lemma mod_creates ueip s q w r : teid_mod b s q r -> s_pdrs (w_ses w) = s_pdrs s -> wcre b K O F w ->
  ends (each (create_pdr ueip) (mq_cpdr q) w) (wcre b K O F).
Proof.
  intros Hm Es Hw. apply create_pdrs_cre; [intros Hb; by apply (tm_fresh _ _ _ _ Hm Hb)| |done].
  intros p id Hp Hid Hb. rewrite Es. by eapply (tm_fresh _ _ _ _ Hm Hb).
Qed.
Lemma mod_updates ueip s q w w1 r : teid_mod b s q r -> s_pdrs (w_ses w) = s_pdrs s -> each (create_pdr ueip) (mq_cpdr q) w = ROk w1 ->
  ends (each (update_pdr_ie ueip) (mq_updr q) w1) (sameT w1).
Proof.
  intros Hm Es E. apply update_pdrs_sameT. intros p Hp pdi fe H1 H2. destruct (tm_update _ _ _ _ Hm p pdi fe Hp H1 H2) as (Hc & id & p0 & Hid & H0 & Ht & Hn).
  split; [done|]. exists id, p0. split; [done|]. split; [|done]. erewrite create_pdrs_ids; [|exact E|exact Hn]. by rewrite Es.
Qed.

Lemma mod_pdrs_err ueip sh q s w r : teid_mod b s q r -> s_pdrs (w_ses w) = s_pdrs s -> wcre b K O F w ->
  (exists r', r = Some r' /\ r_cause r' = Some 1) \/ ends (mod_pdrs ueip sh q w) (wok b K O).
Proof.
  intros Hm Es Hw. destruct (tm_remove _ _ _ _ Hm) as [Hr|(_ & _ & Hr)]; [right|by left].
  unfold mod_pdrs. pose proof (mod_creates ueip s q w r Hm Es Hw) as H1.
  destruct (each (create_pdr ueip) (mq_cpdr q) w) as [w1|w1|] eqn:E1; simpl in *; [|by apply wc_ok in H1|done].
  pose proof (mod_updates ueip s q w w1 r Hm Es E1) as H2.
  destruct (each (update_pdr_ie ueip) (mq_updr q) w1) as [w2|w2|] eqn:E2; simpl in *; [|by eapply wc_ok, sameT_cre|done].
  apply remove_pdrs_ok; [|by eapply wc_ok, sameT_cre]. intros p Hp p0 H0. destruct (Hr p Hp) as [Hn Hz].
  apply (st_back _ _ H2) in H0 as [?|(p1 & Hi & ->)]; [done|]. apply Hz. rewrite <- Es. by erewrite <- create_pdrs_ids.
Qed.
Lemma mod_pdrs_ok ueip sh q s w r w' : fair sh -> teid_mod b s q r -> s_pdrs (w_ses w) = s_pdrs s -> wcre b K O F w ->
  mod_pdrs ueip sh q w = ROk w' -> wok b K O w' /\ forall p t, p ∈ w_created w' -> gives p t -> F t.
Proof.
  intros Hf Hm Es Hw H. unfold mod_pdrs in H. apply rbind_ok in H as (w1 & E1 & H). apply rbind_ok in H as (w2 & E2 & E3).
  pose proof (mod_creates ueip s q w r Hm Es Hw) as H1. rewrite E1 in H1. simpl in H1.
  pose proof (mod_updates ueip s q w w1 r Hm Es E1) as H2. rewrite E2 in H2. simpl in H2.
  pose proof (sameT_cre _ _ _ _ _ _ H2 H1) as H3.
  split; [|erewrite remove_pdrs_created by done; apply (wc_new _ _ _ _ _ H3)].
  destruct (tm_remove _ _ _ _ Hm) as [Hr|(Hnc & Hr & _)].
  - pose proof (remove_pdrs_ok b K O sh (mq_rpdr q) w2) as Hx. rewrite E3 in Hx. apply Hx; [|apply H3].
    intros p Hp p0 H0. destruct (Hr p Hp) as [Hn Hz].
    apply (st_back _ _ H2) in H0 as [?|(p1 & Hi & ->)]; [done|]. apply Hz. rewrite <- Es. by erewrite <- create_pdrs_ids.
  - pose proof (each_ends (wother b K O) (remove_pdr_ie sh) (mq_rpdr q) w2 (fun p w => remove_pdr_other b K O sh p w Hf) (wk_o _ _ _ _ (wc_ok _ _ _ _ _ H3))) as Hx.
    rewrite E3 in Hx. split; [done|]. intros t (i & p & Hi & Hg). exfalso.
    destruct (remove_pdrs_ids _ _ _ _ _ _ E3 Hi) as [Hi2 Hn]. destruct (st_gives _ _ H2 _ _ _ Hi2 Hg) as (p1 & Hi1 & Hg1).
    rewrite Hnc in E1. simpl in E1. simplify_eq. rewrite Es in Hi1. destruct (Hr _ _ _ Hi1 Hg1) as (p' & Hp' & Hid). by eapply Hn.
Qed.
End rules.

(** ** Whole states *)

Definition cft (c : conn) : option fteidm := rm_ft <$> c_rm c.
(** [t], held by [s], is booked for one of its PDRs. *)
Definition home (ft : option fteidm) (s : session) (i t : N) : Prop := exists p, booked ft (s_remote s) i t /\ s_pdrs s !! i = Some p /\ sd_teid p = t.
Record tinv (b : bool) (c : conn) : Prop := {
  ti_pool : pool_ok (cft c);
  ti_own : forall addr seid s t, session_of c addr seid = Some s -> holds s t ->
    safe (cft c) (s_remote s) t /\ (b = true -> exists i, home (cft c) s i t);
  ti_apart : forall a1 n1 s1 a2 n2 s2 t, session_of c a1 n1 = Some s1 -> session_of c a2 n2 = Some s2 -> holds s1 t -> holds s2 t -> a1 = a2 /\ n1 = n2;
  ti_remote : forall a1 n1 s1 a2 n2 s2, session_of c a1 n1 = Some s1 -> session_of c a2 n2 = Some s2 -> s_remote s1 = s_remote s2 -> a1 = a2 /\ n1 = n2 }.
(** What the sessions [P] of [c] hold. *)
Definition oth (b : bool) (c : conn) (P : N -> N -> Prop) (k i t : N) : Prop :=
  exists a n s, session_of c a n = Some s /\ P a n /\ s_remote s = k /\ holds s t /\ (b = true -> home (cft c) s i t).

Lemma oth_of b c (P : N -> N -> Prop) a n s t : tinv b c -> session_of c a n = Some s -> P a n -> holds s t -> exists i, oth b c P (s_remote s) i t.
Proof.
  intros Hc Hs HP Ht. destruct (ti_own _ _ Hc _ _ _ _ Hs Ht) as [_ Hh]. destruct b.
  - destruct (Hh eq_refl) as [i Hi]. by exists i, a, n, s.
  - exists 0, a, n, s. by split_and!.
Qed.
Lemma oth_start b c (P : N -> N -> Prop) k i t : tinv b c -> oth b c P k i t -> safe (cft c) k t /\ (b = true -> booked (cft c) k i t).
Proof.
  intros Hc (a & n & s & Hs & HP & <- & Ht & Hh). split; [by eapply ti_own|]. intros Hb. by destruct (Hh Hb) as (p & ? & _).
Qed.
(** The start of a request for session [addr], [seid]. *)
Definition apart (addr seid a n : N) : Prop := ~ (a = addr /\ n = seid).
Lemma start_old b c addr seid s s1 : tinv b c -> session_of c addr seid = Some s -> s_pdrs s1 = s_pdrs s -> s_remote s1 = s_remote s ->
  wcre b (s_remote s) (oth b c (apart addr seid)) (is_free (cft c)) (new_work (c_dp c) s1 (c_rm c)).
Proof.
  intros Hc Hs Ep Er. split; [split; [split|]|..]; simpl; try done.
  - apply Hc.
  - intros k i t Hk. change (ftp _) with (cft c). unfold rem. simpl. rewrite Er. pose proof (oth_start _ _ _ _ _ _ Hc Hk) as [? ?].
    split; [|done]. destruct Hk as (a & n & s' & Hs' & HP & <- & _). intros E. apply HP. by eapply ti_remote.
  - intros t Ht. assert (Ht0 : holds s t) by (unfold holds in *; by rewrite Ep in Ht). unfold mine, homed, rem. simpl. rewrite Er.
    destruct (ti_own _ _ Hc _ _ _ _ Hs Ht0) as [H1 H2]. split; [done|]. split.
    + intros k i (a & n & s' & Hs' & HP & _ & Ht' & _). apply HP. eapply ti_apart; [exact Hc|exact Hs'|exact Hs|done..].
    + intros Hb. destruct (H2 Hb) as (i & p & Hi). exists i, p. by rewrite Ep.
  - intros p t Hp. by apply elem_of_nil in Hp.
Qed.
Lemma start_new b c (P : N -> N -> Prop) l k : tinv b c -> (forall a n s, P a n -> session_of c a n = Some s -> s_remote s <> k) ->
  wcre b k (oth b c P) (is_free (cft c)) (new_work (c_dp c) (new_session l k) (c_rm c)).
Proof.
  intros Hc Hk. split; [split; [split|]|..]; simpl; try done.
  - apply Hc.
  - intros k' i t Ho. change (ftp _) with (cft c). pose proof (oth_start _ _ _ _ _ _ Hc Ho) as [? ?].
    split; [|done]. destruct Ho as (a & n & s' & Hs' & HP & <- & _). by eapply Hk.
  - intros t (i & p & Hi & _). done.
  - intros p t Hp. by apply elem_of_nil in Hp.
Qed.
(** The end: the session replaced, the others as they were. *)
Lemma end_put b c c' addr seid k w : tinv b c -> wok b k (oth b c (apart addr seid)) w -> cft c' = ftp w ->
  (forall a n s, apart addr seid a n -> session_of c a n = Some s -> s_remote s <> k) ->
  (forall a n s', session_of c' a n = Some s' -> (a = addr /\ n = seid /\ s' = w_ses w) \/ (apart addr seid a n /\ session_of c a n = Some s')) ->
  tinv b c'.
Proof.
  intros Hc [[H0 H1 H2] H3] Ef Hk Hs. unfold rem in H0. split.
  - by rewrite Ef.
  - intros a n s t Hs' Ht. rewrite Ef. apply Hs in Hs' as [(-> & -> & ->)|[Hne Hs']].
    + destruct (H3 t Ht) as (M1 & M2 & M3). split; [done|]. intros Hb. destruct (M3 Hb) as (i & p & ?). by exists i, p.
    + destruct (oth_of b c (apart addr seid) a n s t Hc Hs' Hne Ht) as [i Ho]. destruct (H2 _ _ _ Ho) as (_ & A1 & A2). split; [done|].
      intros Hb. destruct Ho as (a' & n' & s'' & Hs2 & Hne' & Er & Ht' & Hh).
      destruct (ti_remote _ _ Hc _ _ _ _ _ _ Hs2 Hs' Er) as [-> ->]. rewrite Hs2 in Hs'. injection Hs' as ->.
      destruct (Hh Hb) as (p & _ & ? & ?). exists i, p. split; [by apply A2|done].
  - intros a1 n1 s1 a2 n2 s2 t Hs1 Hs2 Ht1 Ht2.
    assert (Hx : forall a n s, apart addr seid a n -> session_of c a n = Some s -> holds s t -> holds (w_ses w) t -> False).
    { intros a n s Hne Hs' Hts Htw. destruct (oth_of b c (apart addr seid) a n s t Hc Hs' Hne Hts) as [i Ho].
      destruct (H3 t Htw) as (_ & M2 & _). by eapply M2. }
    apply Hs in Hs1 as [(-> & -> & ->)|[Hne1 Hs1]], Hs2 as [(-> & -> & ->)|[Hne2 Hs2]]; [done|exfalso; by eapply Hx..|].
    by eapply ti_apart.
  - intros a1 n1 s1 a2 n2 s2 Hs1 Hs2 Er.
    apply Hs in Hs1 as [(-> & -> & ->)|[Hne1 Hs1]], Hs2 as [(-> & -> & ->)|[Hne2 Hs2]]; [done|exfalso; rewrite H0 in Er; by eapply Hk..|].
    by eapply ti_remote.
Qed.
(** The end: only sessions [P] are left. *)
Lemma end_sub b c c' (P : N -> N -> Prop) : tinv b c -> pool_ok (cft c') ->
  (forall k i t, oth b c P k i t -> safe (cft c') k t /\ (b = true -> booked (cft c') k i t)) ->
  (forall a n s', session_of c' a n = Some s' -> P a n /\ session_of c a n = Some s') -> tinv b c'.
Proof.
  intros Hc Hp Ho Hs. split.
  - done.
  - intros a n s t Hs' Ht. apply Hs in Hs' as [HP Hs']. destruct (oth_of b c P a n s t Hc Hs' HP Ht) as [i Hi].
    destruct (Ho _ _ _ Hi) as (A1 & A2). split; [done|]. intros Hb. destruct Hi as (a' & n' & s'' & Hs2 & Hne' & Er & Ht' & Hh).
    destruct (ti_remote _ _ Hc _ _ _ _ _ _ Hs2 Hs' Er) as [-> ->]. rewrite Hs2 in Hs'. injection Hs' as ->.
    destruct (Hh Hb) as (p & _ & ? & ?). exists i, p. split; [by apply A2|done].
  - intros a1 n1 s1 a2 n2 s2 t H1 H2. apply Hs in H1 as [_ H1], H2 as [_ H2]. by eapply ti_apart.
  - intros a1 n1 s1 a2 n2 s2 H1 H2. apply Hs in H1 as [_ H1], H2 as [_ H2]. by eapply ti_remote.
Qed.

Lemma wother_tpart b K O w w' : tpart w' = tpart w -> wother b K O w -> wother b K O w'.
Proof. unfold tpart. intros H. injection H as E1 E2 E3 E4 E5. intros [H0 H1 H2]. split; rewrite ?E3, ?E1; try done. Qed.
Lemma keep_other b K O w r : keepsP tpart w r -> wother b K O w -> ends r (wother b K O).
Proof. intros H Hw. destruct r as [w1|w1|]; simpl in *; try done; by eapply wother_tpart. Qed.
Lemma del_rules_other b K O sh s w : fair sh -> wother b K O w -> ends (del_rules sh s w) (wother b K O).
Proof.
  intros Hf Hw. unfold del_rules.
  apply bind_ends; [apply each_ends; [intros e w1; by apply delete_pdr_other|done]|intros w1 H1].
  apply bind_ends; [apply each_ends; [intros e w2; apply keep_other, del_far_tpart|done]|intros w2 H2].
  apply bind_ends; [apply each_ends; [intros e w3; apply keep_other, del_qer_tpart|done]|intros w3 H3].
  apply each_ends; [intros e w4; apply keep_other, del_urr_tpart|done].
Qed.
Lemma ign_ends {A} (f : A -> work -> res) (Q : work -> Prop) x w : ends (f x w) Q -> ends (ign f x w) Q.
Proof. unfold ign. by destruct (f x w). Qed.

(** [k] does not occur in [O]: what [O] says survives a session whose control plane SEID is [k]. *)
Definition keepsO (b : bool) (O : N -> N -> N -> Prop) (ft : option fteidm) : Prop :=
  pool_ok ft /\ forall k i t, O k i t -> safe ft k t /\ (b = true -> booked ft k i t).
Lemma other_keepsO b K O w : wother b K O w -> keepsO b O (ftp w).
Proof. intros [H0 H1 H2]. split; [done|]. intros k i t Hk. by destruct (H2 _ _ _ Hk) as (_ & ? & ?). Qed.
Lemma keepsO_other b O d s rm : keepsO b O (rm_ft <$> rm) -> (forall k i t, O k i t -> k <> s_remote s) -> wother b (s_remote s) O (new_work d s rm).
Proof. intros [H1 H2] Hk. split; [done..|]. intros k i t Ho. split; [by eapply Hk|]. by apply H2. Qed.
Lemma release_keepsO b (O : N -> N -> N -> Prop) sh k rm : fair sh -> (forall k' i t, O k' i t -> k' <> k) -> keepsO b O (rm_ft <$> rm) ->
  keepsO b O (rm_ft <$> release_resources sh k rm).
Proof.
  intros Hf Hk [H1 H2]. destruct rm as [r|]; [|done]. simpl in *. destruct (release_facts sh k (rm_ft r) Hf H1) as (R1 & R2 & R3 & R4 & R5).
  split; [done|]. intros k' i t Ho. destruct (H2 _ _ _ Ho) as [A1 A2]. specialize (Hk _ _ _ Ho). split; [by apply R5|]. intros Hb. apply R4; [done|by apply A2].
Qed.
Lemma prune_session_keepsO b (O : N -> N -> N -> Prop) sh s d rm d' rm' : fair sh -> (forall k i t, O k i t -> k <> s_remote s) -> keepsO b O (rm_ft <$> rm) ->
  prune_session sh s d rm = Some (d', rm') -> keepsO b O (rm_ft <$> rm').
Proof.
  intros Hf Hk HO H. unfold prune_session in H.
  assert (Hx : ends (rbind (each (ign del_far) (entries sh 1 (s_fars s)) (new_work d s rm)) (fun w =>
    rbind (each (ign del_qer) (entries sh 2 (s_qers s)) w) (fun w =>
    each (ign (fun e => delete_pdr sh (snd e))) (entries sh 0 (s_pdrs s)) w))) (wother b (s_remote s) O)).
  { apply bind_ends; [apply each_ends; [intros e w2 ?; by apply ign_ends; eapply keep_other; [apply del_far_tpart|]|by apply keepsO_other]|intros w2 H2].
    apply bind_ends; [apply each_ends; [intros e w3 ?; by apply ign_ends; eapply keep_other; [apply del_qer_tpart|]|done]|intros w3 H3].
    apply each_ends; [intros e w4 ?; by apply ign_ends; apply delete_pdr_other|done]. }
  destruct (rbind _ _) as [w|w|]; simplify_eq; simpl in Hx; exact (other_keepsO _ _ _ _ Hx).
Qed.
Lemma prune_sessions_keepsO b (O : N -> N -> N -> Prop) sh l : forall d rm d' rm', fair sh -> (forall n s k i t, (n, s) ∈ l -> O k i t -> k <> s_remote s) ->
  keepsO b O (rm_ft <$> rm) -> prune_sessions sh l d rm = Some (d', rm') -> keepsO b O (rm_ft <$> rm').
Proof.
  induction l as [|[n s] l IH]; intros d rm d' rm' Hf Hk HO H; simpl in H; [by simplify_eq|].
  destruct (prune_session sh s d rm) as [[d1 rm1]|] eqn:E; [|done].
  eapply IH; [done| | |exact H]; [intros n' s' k i t Hin; apply (Hk n' s' k i t); by right|].
  eapply prune_session_keepsO; [done| |exact HO|exact E]. intros k i t. apply (Hk n s). left.
Qed.

Lemma est_tinv b c addr q a remote : tinv b c -> c_assocs c !! addr = Some a -> eq_fseid q = Good remote ->
  (forall k addr' seid' s, eq_fseid q = Good k -> session_of c addr' seid' = Some s -> s_remote s <> k) -> (b = true -> NoDup (pe_id <$> eq_pdrs q)) ->
  forall P, ends (est_rules (g_ueip (c_cfg c)) q (new_work (c_dp c) (new_session (next_seid a) remote) (c_rm c))) (wcre b remote (oth b c P) (is_free (cft c))).
Proof.
  intros Hc Ha Hq Hk Hnd P. apply est_rules_cre; [done|done|]. apply start_new; [done|]. intros a' n s _. by apply Hk.
Qed.

Lemma mod_tinv b c sh addr seid s s1 q r : tinv b c -> fair sh -> session_of c addr seid = Some s -> teid_mod b s q r -> s_pdrs s1 = s_pdrs s -> s_remote s1 = s_remote s ->
  match mod_rules (g_ueip (c_cfg c)) sh q (new_work (c_dp c) s1 (c_rm c)) with
  | ROk w => wok b (s_remote s) (oth b c (apart addr seid)) w /\ forall p t, p ∈ w_created w -> gives p t -> is_free (cft c) t
  | RErr w => (exists r', r = Some r' /\ r_cause r' = Some 1) \/ wok b (s_remote s) (oth b c (apart addr seid)) w
  | RCrash => True
  end.
Proof.
  intros Hc Hf Hs Hm Ep Er. set (w := new_work _ _ _).
  assert (Hw : wcre b (s_remote s) (oth b c (apart addr seid)) (is_free (cft c)) w) by (by apply start_old).
  assert (Ht : forall w', tpart w' = tpart w -> s_pdrs (w_ses w') = s_pdrs s /\ wcre b (s_remote s) (oth b c (apart addr seid)) (is_free (cft c)) w').
  { intros w' E. split; [|by eapply wcre_tpart]. unfold tpart in E. injection E as _ -> _ _ _. done. }
  destruct (mod_rules _ _ _ _) as [w'|w'|] eqn:E; [| |done].
  - apply mod_rules_ok_pdrs in E as (w0 & E0 & E). destruct (Ht w0 E0) as [H1 H2]. by eapply (mod_pdrs_ok b (s_remote s)).
  - pose proof (mod_rules_pdrs (g_ueip (c_cfg c)) sh q w (fun w => (exists r', r = Some r' /\ r_cause r' = Some 1) \/ wok b (s_remote s) (oth b c (apart addr seid)) w)) as H.
    rewrite E in H. apply H.
    + intros w1 E1. right. by apply Ht.
    + intros w1 E1. destruct (Ht w1 E1) as [H1 H2].
      destruct (mod_pdrs_err b (s_remote s) (oth b c (apart addr seid)) (is_free (cft c)) (g_ueip (c_cfg c)) sh q s w1 r Hm H1 H2) as [Hx|Hx].
      * destruct (mod_pdrs _ _ _ _); simpl; auto.
      * destruct (mod_pdrs _ _ _ _); simpl in *; auto.
Qed.

Lemma tinv_step b c e c' r : event_fair e -> step c e = Done c' r -> teid_careful b c e r -> tinv b c -> tinv b c'.
Proof.
  intros Hfair H Hcare HM.
  assert (Hsame : forall c1, c_rm c1 = c_rm c -> (forall addr seid s, session_of c1 addr seid = Some s -> session_of c addr seid = Some s) -> tinv b c1).
  { intros c1 Hd Hs. assert (E : cft c1 = cft c) by (unfold cft; by rewrite Hd).
    apply (end_sub b c _ (fun _ _ => True)); [done|rewrite E; apply HM|rewrite E; intros k i t; by apply oth_start|intros a n s Hx; split; [done|by apply Hs]]. }
  destruct e as [sh addr seq m|sh addr|marks vols].
  - destruct m as [t|t|n t|n k f|n|q|q|seid|ty]; simpl in H.
    + unfold handle_hb_req in H. destruct t; simplify_eq; done.
    + unfold handle_hb_resp in H. destruct t; simplify_eq; done.
    + unfold handle_setup in H. destruct n as [| |n]; [by simplify_eq..|]. destruct t as [| |t]; [by simplify_eq..|]. simplify_eq.
      apply Hsame; [unfold ensure_assoc; by case_match|apply session_ensure].
    + unfold handle_setup_resp in H. destruct n as [| |n], k as [| |k], f as [| |f]; simplify_eq; try done.
      destruct (k =? Accepted); simplify_eq; [|done]. apply Hsame; [unfold ensure_assoc; by case_match|apply session_ensure].
    + unfold handle_update in H. repeat (case_match; simplify_eq); simplify_eq; done.
    + unfold handle_est in H. destruct (validate_request _ _) as [remote|] eqn:Ev; simplify_eq; [|done].
      assert (Hq : eq_fseid q = Good remote). { unfold validate_request in Ev. destruct (eq_node q), (eq_fseid q); simplify_eq; done. }
      destruct (c_assocs c !! addr) as [a|] eqn:Ha; simplify_eq; [|done]. destruct (existsb _ _); [done|].
      simpl in Hcare. destruct Hcare as [Hk Hnd].
      pose proof (est_tinv b c addr q a remote HM Ha Hq Hk Hnd) as Hl.
      destruct (est_rules _ _ _) as [w|w|]; simplify_eq; simpl in Hl.
      * eapply (end_put b c _ addr (next_seid a) remote w HM); [apply (Hl (apart addr (next_seid a)))|done|intros a' n' s _; by apply Hk|].
        intros addr' seid' s'. unfold put_session. simpl. rewrite insert_insert.
        change (Conn (<[addr:=Assoc (a_node a) (next_seid a) (<[next_seid a:=w_ses w]> (a_sessions a))]> (c_assocs c))
             (c_dp c) (c_rm c) (c_cfg c)) with
            (set_assocs (<[addr:=Assoc (a_node a) (next_seid a) (<[next_seid a:=w_ses w]> (a_sessions a))]> (c_assocs c)) c).
        by apply (session_put c addr a).
      * destruct (other_keepsO _ _ _ _ (wk_o _ _ _ _ (wc_ok _ _ _ _ _ (Hl (fun _ _ => True))))) as [K1 K2].
        apply (end_sub b c _ (fun _ _ => True)); [done|exact K1|exact K2|]. intros addr' seid' s' Hs'. split; [done|].
        by apply (session_put_sub c addr a) in Hs' as Hs0.
    + unfold handle_mod in H. destruct (c_assocs c !! addr) as [a|] eqn:Ha; simplify_eq; [|done].
      destruct (a_sessions a !! mq_seid q) as [s|] eqn:Hs; simplify_eq; [|done].
      destruct (_ || _); [done|].
      assert (Hs0 : session_of c addr (mq_seid q) = Some s) by (unfold session_of; by rewrite Ha).
      set (s1 := match mq_fseid q with Good r => set_remote r s | _ => s end) in *. simpl in Hcare. specialize (Hcare s Hs0).
      assert (E1 : s_pdrs s1 = s_pdrs s) by (unfold s1; by destruct (mq_fseid q)).
      assert (E2 : s_remote s1 = s_remote s). { unfold s1. destruct (mq_fseid q) eqn:Ek; [done..|]. simpl. by eapply (tm_remote _ _ _ _ Hcare). }
      pose proof (mod_tinv b c sh addr (mq_seid q) s s1 q r HM Hfair Hs0 Hcare E1 E2) as Hl.
      assert (Hne : forall a n s', apart addr (mq_seid q) a n -> session_of c a n = Some s' -> s_remote s' <> s_remote s).
      { intros a' n' s' Hne Hs' Er. apply Hne. by eapply ti_remote. }
      destruct (mod_rules _ _ _ _) as [w|w|]; simplify_eq; simpl in Hl.
      * destruct Hl as [Hl _]. eapply (end_put b c _ addr (mq_seid q) (s_remote s) w HM); [exact Hl|done|exact Hne|]. intros addr' seid' s'; by apply (session_put c addr a).
      * destruct Hl as [(r' & E & E')|Hl]; [simplify_eq; done|].
        eapply (end_put b c _ addr (mq_seid q) (s_remote s) w HM); [exact Hl|done|exact Hne|]. intros addr' seid' s'; by apply (session_put c addr a).
    + unfold handle_del in H. destruct (c_assocs c !! addr) as [a|] eqn:Ha; simplify_eq; [|done].
      destruct (a_sessions a !! seid) as [s|] eqn:Hs; simplify_eq; [|done].
      assert (Hs0 : session_of c addr seid = Some s) by (unfold session_of; by rewrite Ha).
      simpl in Hcare. destruct (Hcare (mk_is_Some _ _ Hs0)) as [Hr Hk].
      assert (Hw : wother b (s_remote s) (oth b c (apart addr seid)) (new_work (c_dp c) s (c_rm c))).
      { by apply (wk_o _ _ _ _ (wc_ok _ _ _ _ _ (start_old b c addr seid s s HM Hs0 eq_refl eq_refl))). }
      pose proof (del_rules_other b _ _ sh s _ Hfair Hw) as Hl.
      destruct (del_rules _ _ _) as [w|w|]; simplify_eq; simpl in Hl; [|by destruct Hr].
      apply other_keepsO in Hl. apply (release_keepsO b _ sh seid (w_rm w) Hfair) in Hl as [K1 K2].
      * apply (end_sub b c _ (apart addr seid)); [done|exact K1|exact K2|]. intros addr' seid' s' Hs'.
        apply (session_put_sub c addr a) in Hs' as Hs1; [|done|intros k v Hk'; apply lookup_delete_Some in Hk'; tauto]. split; [|done].
        intros [-> ->]. unfold session_of in Hs'. simpl in Hs'. rewrite lookup_insert in Hs'. simpl in Hs'. by rewrite lookup_delete in Hs'.
      * intros k i t (a' & n' & s' & Hs' & Hne & <- & _). by eapply Hk.
    + by simplify_eq.
  - simpl in H. unfold prune in H. destruct (c_assocs c !! addr) as [a|] eqn:Ha; [|done].
    destruct (prune_sessions _ _ _ _) as [[d rm]|] eqn:E; simplify_eq.
    apply (prune_sessions_keepsO b (oth b c (fun a n => a <> addr))) in E as [K1 K2]; [|done|..].
    + apply (end_sub b c _ (fun a n => a <> addr)); [done|exact K1|exact K2|]. intros addr' seid' s' Hs'.
      unfold session_of in *. simpl in Hs'. destruct (delete addr (c_assocs c) !! addr') as [a'|] eqn:El; [|done].
      apply lookup_delete_Some in El as [? El]. rewrite El. done.
    + intros n s k i t Hin (a' & n' & s' & Hs' & Hne & <- & _). apply elem_of_entries in Hin; [|done]. intros Er. apply Hne.
      assert (Hs : session_of c addr n = Some s) by (unfold session_of; by rewrite Ha).
      by destruct (ti_remote _ _ HM _ _ _ _ _ _ Hs' Hs Er).
    + split; [apply HM|]. intros k i t. by apply oth_start.
  - simpl in H. simplify_eq. by apply Hsame.
Qed.

Lemma teid_history_tinv b c : teid_history b c -> tinv b c.
Proof.
  induction 1 as [g rm p f q u Hrm|c e c' r Hc IH Hf Hs Hca]; [|by eapply tinv_step].
  split; unfold session_of, init; simpl; try (intros *; by rewrite lookup_empty).
  destruct Hrm as [->|(range & base & len & ->)]; [done|]. simpl. eauto using rinv_init.
Qed.

(** ** C18 *)
Theorem live_teids_distinct_partial :
  forall strict c, teid_history strict c -> forall addr seid s i p addr' seid' s' i' p' t,
    session_of c addr seid = Some s -> s_pdrs s !! i = Some p -> gives p t ->
    session_of c addr' seid' = Some s' -> s_pdrs s' !! i' = Some p' -> gives p' t -> addr = addr' /\ seid = seid'.
Proof.
  intros b c Hc%teid_history_tinv addr seid s i p addr' seid' s' i' p' t Hs Hi Hp Hs' Hi' Hp'.
  eapply ti_apart; [exact Hc|exact Hs|exact Hs'|by exists i, p|by exists i', p'].
Qed.

Lemma created_gives n3 p i t a : created_of n3 p = Some (CreatedTeid i t a) -> gives p t.
Proof.
  unfold created_of, gives. destruct (sd_alloc p), (sd_v4 p), (sd_v6 p); try done. intros [= _ <- _]. done.
Qed.
Lemma held_not_free b c addr seid s t : tinv b c -> session_of c addr seid = Some s -> holds s t -> ~ is_free (cft c) t.
Proof.
  intros Hc Hs Ht Hf. destruct (ti_own _ _ Hc _ _ _ _ Hs Ht) as [H _]. unfold safe, is_free in *. destruct (cft c); [|done]. tauto.
Qed.
(** A TEID granted by a request was held by no live session, the request's own included. *)
Theorem granted_teid_fresh_partial :
  forall strict c e c' r i t a, teid_history strict c -> event_fair e -> step c e = Done c' (Some r) -> teid_careful strict c e (Some r) ->
    CreatedTeid i t a ∈ r_created r -> forall addr seid s, session_of c addr seid = Some s -> ~ holds s t.
Proof.
  intros b c e c' r i t a Hc%teid_history_tinv Hfair H Hcare Hin addr0 seid0 s0 Hs0 Ht.
  eapply held_not_free; [exact Hc|exact Hs0|exact Ht|]. clear addr0 seid0 s0 Hs0 Ht.
  destruct e as [sh addr seq m|sh addr|marks vols].
  - destruct m as [t'|t'|n t'|n k f|n|q|q|seid|ty]; simpl in H.
    + unfold handle_hb_req in H. destruct t'; simplify_eq; by apply elem_of_nil in Hin.
    + unfold handle_hb_resp in H. by destruct t'; simplify_eq.
    + unfold handle_setup in H. destruct n, t'; simplify_eq; by apply elem_of_nil in Hin.
    + unfold handle_setup_resp in H. destruct n, k, f; simplify_eq. by case_match; simplify_eq.
    + unfold handle_update in H. repeat (case_match; simplify_eq); simplify_eq; by apply elem_of_nil in Hin.
    + unfold handle_est in H. destruct (validate_request _ _) as [remote|] eqn:Ev; simplify_eq; [|by apply elem_of_nil in Hin].
      assert (Hq : eq_fseid q = Good remote). { unfold validate_request in Ev. destruct (eq_node q), (eq_fseid q); simplify_eq; done. }
      destruct (c_assocs c !! addr) as [as0|] eqn:Ha; simplify_eq; [|by apply elem_of_nil in Hin]. destruct (existsb _ _); [done|].
      simpl in Hcare. destruct Hcare as [Hk Hnd].
      pose proof (est_tinv b c addr q as0 remote Hc Ha Hq Hk Hnd (fun _ _ => True)) as Hl.
      destruct (est_rules _ _ _) as [w|w|]; simplify_eq; simpl in Hl; [|by apply elem_of_nil in Hin].
      simpl in Hin. unfold process_created in Hin. apply elem_of_list_omap in Hin as (p & Hp & Hg). apply created_gives in Hg.
      by eapply (wc_new _ _ _ _ _ Hl).
    + unfold handle_mod in H. destruct (c_assocs c !! addr) as [as0|] eqn:Ha; simplify_eq; [|by apply elem_of_nil in Hin].
      destruct (a_sessions as0 !! mq_seid q) as [s|] eqn:Hs; simplify_eq; [|by apply elem_of_nil in Hin].
      destruct (_ || _); [done|].
      assert (Hs0 : session_of c addr (mq_seid q) = Some s) by (unfold session_of; by rewrite Ha).
      set (s1 := match mq_fseid q with Good r => set_remote r s | _ => s end) in *. simpl in Hcare. specialize (Hcare s Hs0).
      assert (E1 : s_pdrs s1 = s_pdrs s) by (unfold s1; by destruct (mq_fseid q)).
      assert (E2 : s_remote s1 = s_remote s). { unfold s1. destruct (mq_fseid q) eqn:Ek; [done..|]. simpl. by eapply (tm_remote _ _ _ _ Hcare). }
      pose proof (mod_tinv b c sh addr (mq_seid q) s s1 q _ Hc Hfair Hs0 Hcare E1 E2) as Hl.
      destruct (mod_rules _ _ _ _) as [w|w|]; simplify_eq; simpl in Hl; [|by apply elem_of_nil in Hin].
      simpl in Hin. unfold process_created in Hin. apply elem_of_list_omap in Hin as (p & Hp & Hg). apply created_gives in Hg. by eapply Hl.
    + unfold handle_del in H. repeat (case_match; simplify_eq); simplify_eq; by apply elem_of_nil in Hin.
    + by simplify_eq.
  - simpl in H. unfold prune in H. repeat (case_match; simplify_eq).
  - simpl in H. simplify_eq.
Qed.

(** The session made by an accepted establishment does hold the TEIDs of its response (PDR ids distinct, at most 16 bits). *)
Lemma create_pdrs_kept ueip l : forall w w', each (create_pdr ueip) l w = ROk w' -> NoDup (pe_id <$> l) ->
  (forall p, p ∈ w_created w -> Some (sd_id p) ∉ (pe_id <$> l) /\ s_pdrs (w_ses w) !! sd_id p = Some p) ->
  forall p, p ∈ w_created w' -> s_pdrs (w_ses w') !! sd_id p = Some p.
Proof.
  induction l as [|q l IH]; intros w w' H Hnd Hw p Hp; simpl in H; [simplify_eq; by apply Hw|].
  apply rbind_ok in H as (w1 & H1 & H2). simpl in Hnd. apply NoDup_cons in Hnd as [Hq Hnd]. eapply (IH w1 w' H2 Hnd); [|done]. clear p Hp.
  intros p Hp. pose proof H1 as H1'. unfold create_pdr in H1. destruct (pe_id q) as [id|] eqn:Eid; [|done].
  destruct (extract_pdr _ _ _ _) as [[s|] w2] eqn:E; [|done]. pose proof (extract_pdr_frame _ _ _ _ _ _ E) as (_ & Es & Ec & _).
  assert (Hid : sd_id s = id) by (unfold extract_pdr in E; repeat (case_match; simplify_eq); done).
  cbn zeta in H1. destruct (apply_pdr _ _) as [[] d]; simplify_eq. simpl in Hp. apply elem_of_app in Hp as [Hp|Hp].
  - rewrite Ec in Hp. destruct (Hw _ Hp) as [Hn Hi]. simpl in Hn. rewrite Eid in Hn. apply not_elem_of_cons in Hn as [Hne Hn]. split; [done|].
    simpl. rewrite Es, lookup_insert_ne by congruence. done.
  - apply elem_of_list_singleton in Hp as ->. split; [done|]. simpl. by rewrite lookup_insert.
Qed.
Theorem granted_teid_held :
  forall sh addr seq q c c' r, handle sh addr seq (SessEstReq q) c = Done c' (Some r) -> NoDup (pe_id <$> eq_pdrs q) ->
    forall i t a, CreatedTeid i t a ∈ r_created r -> exists seid s, r_fseid r = Some (seid, g_addr (c_cfg c)) /\ session_of c' addr seid = Some s /\ holds s t.
Proof.
  intros sh addr seq q c c' r H Hnd i t a Hin. simpl in H. unfold handle_est in H.
  destruct (validate_request _ _) as [remote|] eqn:Ev; simplify_eq; [|by apply elem_of_nil in Hin].
  destruct (c_assocs c !! addr) as [as0|] eqn:Ha; simplify_eq; [|by apply elem_of_nil in Hin]. destruct (existsb _ _); [done|].
  destruct (est_rules _ _ _) as [w|w|] eqn:E; simplify_eq; [|by apply elem_of_nil in Hin].
  exists (next_seid as0), (w_ses w). split; [done|]. split.
  { unfold session_of, put_session. simpl. rewrite lookup_insert. simpl. by rewrite lookup_insert. }
  simpl in Hin. unfold process_created in Hin. apply elem_of_list_omap in Hin as (p & Hp & Hg). apply created_gives in Hg.
  exists (sd_id p), p. split; [|done]. unfold est_rules in E.
  assert (Hk : forall A (f : A -> work -> res) l w1 w2, (forall x w, keepsP tpart w (f x w)) -> each f l w1 = ROk w2 -> tpart w2 = tpart w1).
  { intros A f l w1 w2 Hf E0. pose proof (each_keep tpart f l w1 Hf) as Hx. by rewrite E0 in Hx. }
  apply rbind_ok in E as (w1 & E1 & E). apply Hk in E1; [|apply create_far_tpart].
  apply rbind_ok in E as (w2 & E2 & E). apply Hk in E2; [|apply create_qer_tpart].
  apply rbind_ok in E as (w3 & E3 & E). apply Hk in E3; [|apply create_urr_tpart].
  assert (E4 : tpart w3 = tpart (new_work (c_dp c) (new_session (next_seid as0) remote) (c_rm c))) by congruence.
  unfold tpart in E4. injection E4 as _ _ _ _ E4.
  eapply create_pdrs_kept; [exact E|done| |done]. rewrite E4. intros p' Hp'. by apply elem_of_nil in Hp'.
Qed.

(** Without care.  UP SEIDs and control plane SEIDs are different numbers, but releasing on deletion uses the UP SEID although booking used the
    control plane's.  The first session has UP SEID 2 and control plane SEID 1, the second has 3 and 2 and gets TEID 1; the deletion of
    the first frees TEID 1 (after 2..8), so that it is granted again when the others are used up. *)
Definition ex_est_seid (remote : N) (pdrs : list pdr_ie) : msg := SessEstReq (EstReq (Good 5) (Good remote) [] [] [] pdrs).
Definition ex_pdr_choose (id : N) : pdr_ie :=
  PdrIe (Some id) None None None [] (Some (PdiIe true (Good (FteidIe 0 true None)) Absent)) None.
Definition ex_holds (s : session) (i t : N) : bool :=
  match s_pdrs s !! i with
  | Some p => sd_alloc p && bool_decide (sd_v4 p = None) && bool_decide (sd_v6 p = None) && (sd_teid p =? t)
  | None => false end.
Lemma ex_holds_inv s i t : ex_holds s i t = true -> exists p, s_pdrs s !! i = Some p /\ gives p t.
Proof.
  unfold ex_holds. destruct (s_pdrs s !! i) as [p|]; [|done]. intros H. apply andb_true_iff in H as [H H4]. apply andb_true_iff in H as [H H3].
  apply andb_true_iff in H as [H H2]. apply bool_decide_eq_true in H2, H3. apply N.eqb_eq in H4. exists p. by repeat split.
Qed.
Definition ex_shared : list event :=
  [ex_setup; ex_recv 2 (ex_est_seid 1 []); ex_recv 3 (ex_est_seid 2 [ex_pdr_choose 1]); ex_recv 4 (SessDelReq 2);
   ex_recv 5 (ex_est_seid 3 [ex_pdr_choose 1; ex_pdr_choose 2; ex_pdr_choose 3; ex_pdr_choose 4; ex_pdr_choose 5; ex_pdr_choose 6; ex_pdr_choose 7; ex_pdr_choose 8])].
Theorem live_teids_distinct_refuted :
  exists c l, ex_start ex_shared = Some (c, l) /\ exists s i p s' i' p' t,
    session_of c 7 3 = Some s /\ s_pdrs s !! i = Some p /\ gives p t /\ session_of c 7 4 = Some s' /\ s_pdrs s' !! i' = Some p' /\ gives p' t.
Proof.
  destruct (ex_runs_inv ex_shared (fun c => ex_has_session c 7 3 (fun s => ex_holds s 1 1 && ex_has_session c 7 4 (fun s' => ex_holds s' 8 1))))
    as (c & l & Hc & H); [by vm_compute|].
  apply ex_has_session_inv in H as (s & Hs & H). apply andb_true_iff in H as [H1 H]. apply ex_has_session_inv in H as (s' & Hs' & H).
  apply ex_holds_inv in H1 as (p & Hp & Hg), H as (p' & Hp' & Hg'). exists c, l. split; [exact Hc|]. clear Hc. by exists s, 1, p, s', 8, p', 1.
Qed.

(** A careful control plane: two sessions of one peer with TEIDs chosen by the UPF, an update and a removal without TEIDs, and a third session after
    the deletion of the first. *)
Definition ex_pdr_ue (id addr : N) : pdr_ie :=
  PdrIe (Some id) None None None [] (Some (PdiIe true Absent (Good (UeipIe false (Some addr) None)))) None.
Definition ex_mod_pdrs (seid : N) (cre upd rmv : list pdr_ie) : msg := SessModReq (ModReq seid Absent [] [] [] [] [] [] [] [] [] cre upd rmv).
(** A sufficient test of care, for the example. *)
Definition live (c : conn) : list (N * (N * session)) :=
  map_to_list (c_assocs c) ≫= fun x => (fun y => (fst x, y)) <$> map_to_list (a_sessions (snd x)).
Lemma live_spec c a n s : session_of c a n = Some s -> (a, (n, s)) ∈ live c.
Proof.
  unfold session_of, live. destruct (c_assocs c !! a) as [x|] eqn:E; [|done]. intros H. apply elem_of_list_bind. exists (a, x).
  split; [|by apply elem_of_map_to_list]. simpl. apply elem_of_list_fmap. exists (n, s). split; [done|]. by apply elem_of_map_to_list.
Qed.
Definition mod_careful_test (s : session) (q : mod_req) : bool :=
  match mq_fseid q with Good _ => false | _ => true end &&
  forallb (fun p => match pe_pdi p with Some pdi => match pi_fteid pdi with Good _ => false | _ => true end | None => true end) (mq_updr q) &&
  forallb (fun p => bool_decide (Some (default 0 (pe_id p)) ∉ (pe_id <$> mq_cpdr q)) &&
                    match s_pdrs s !! default 0 (pe_id p) with Some p0 => sd_teid p0 =? 0 | None => true end) (mq_rpdr q) &&
  bool_decide (NoDup (pe_id <$> mq_cpdr q)) &&
  forallb (fun p => match pe_id p with Some id => bool_decide (s_pdrs s !! id = None) | None => true end) (mq_cpdr q).
Definition careful_test (c : conn) (e : event) (r : option response) : bool :=
  match e with
  | Recv sh addr seq (SessEstReq q) =>
      match eq_fseid q with Good k => forallb (fun x => negb (s_remote (snd (snd x)) =? k)) (live c) | _ => true end &&
      bool_decide (NoDup (pe_id <$> eq_pdrs q))
  | Recv sh addr seq (SessModReq q) => match session_of c addr (mq_seid q) with Some s => mod_careful_test s q | None => true end
  | Recv sh addr seq (SessDelReq seid) => match r with Some _ => true | None => false end &&
      forallb (fun x => (fst x =? addr) && (fst (snd x) =? seid) || negb (s_remote (snd (snd x)) =? seid)) (live c)
  | _ => true
  end.
Lemma forallb_In {A} (f : A -> bool) l x : forallb f l = true -> x ∈ l -> f x = true.
Proof. intros H Hx. apply elem_of_list_In in Hx. by apply (proj1 (forallb_forall f l) H). Qed.
Global Instance spdr_none_dec (o : option spdr) : Decision (o = None). Proof. destruct o; [by right|by left]. Defined.
Lemma mod_careful_test_ok s q r : mod_careful_test s q = true -> teid_mod true s q r.
Proof.
  unfold mod_careful_test. rewrite !andb_true_iff. intros ((((H1 & H2) & H3) & H4) & H5). split.
  - intros k E. by rewrite E in H1.
  - intros p pdi fe Hp E1 E2. apply (forallb_In _ _ _ H2) in Hp. by rewrite E1, E2 in Hp.
  - left. intros p Hp. apply (forallb_In _ _ _ H3) in Hp. apply andb_true_iff in Hp as [Ha Hb]. apply bool_decide_eq_true in Ha.
    split; [done|]. intros p0 E. rewrite E in Hb. by apply N.eqb_eq.
  - intros _. apply bool_decide_eq_true in H4. split; [done|]. intros p id Hp E. apply (forallb_In _ _ _ H5) in Hp. rewrite E in Hp. by apply bool_decide_eq_true in Hp.
Qed.
Lemma careful_test_ok c e r : careful_test c e r = true -> teid_careful true c e r.
Proof.
  destruct e as [sh addr seq m|sh addr|]; [|done..]. destruct m as [| | | | |q|q|seid|]; try done; simpl.
  - intros H. apply andb_true_iff in H as [H1 H2]. apply bool_decide_eq_true in H2. split; [|done]. intros k a n s Ek Hs. rewrite Ek in H1.
    apply live_spec in Hs. apply (forallb_In _ _ _ H1) in Hs. simpl in Hs. apply negb_true_iff, N.eqb_neq in Hs. done.
  - intros H s Hs. rewrite Hs in H. by apply mod_careful_test_ok.
  - intros H _. apply andb_true_iff in H as [H1 H2]. split; [by destruct r|]. intros a n s Hs Hne.
    apply live_spec in Hs. apply (forallb_In _ _ _ H2) in Hs. simpl in Hs. apply orb_true_iff in Hs as [Hs|Hs].
    + apply andb_true_iff in Hs as [Ha%N.eqb_eq Hb%N.eqb_eq]. by destruct Hne.
    + apply negb_true_iff, N.eqb_neq in Hs. done.
Qed.
Fixpoint careful_run (c : conn) (es : list event) (f : conn -> bool) : bool :=
  match es with
  | [] => f c
  | e :: es => match step c e with Done c' r => careful_test c e r && careful_run c' es f | Crash => false end
  end.
Lemma careful_run_ok es f : forall c, teid_history true c -> Forall event_fair es -> careful_run c es f = true -> exists c', teid_history true c' /\ f c' = true.
Proof.
  induction es as [|e es IH]; intros c Hc Hf H; simpl in H; [eauto|]. destruct (step c e) as [c1 r|] eqn:E; [|done].
  apply andb_true_iff in H as [H1 H2]. apply Forall_cons in Hf as [He Hf]. eapply (IH c1); [|done..]. eapply th_step; [done..|]. by apply careful_test_ok.
Qed.
Definition ex_careful_events : list event :=
  [ex_setup; ex_recv 2 (ex_est_seid 100 [ex_pdr_choose 1; ex_pdr_ue 2 77]); ex_recv 3 (ex_est_seid 101 [ex_pdr_choose 1; ex_pdr_ue 2 78]);
   ex_recv 4 (ex_mod_pdrs 2 [ex_pdr_choose 3] [ex_pdr_ue 2 77] []); ex_recv 5 (ex_mod_pdrs 3 [] [] [ex_pdr_ue 2 78]);
   ex_recv 6 (SessDelReq 2); ex_recv 7 (ex_est_seid 102 [ex_pdr_choose 1])].
Lemma ex_init_history : teid_history true (init ex_cfg ex_small_rm (dp_init 8 8 8 8)).
Proof. apply th_init. right. by exists 8, 167837696, 29. Qed.
Lemma ex_recv_fair l : Forall (fun e => exists n m, e = ex_recv n m) l -> Forall event_fair l.
Proof. intros H. eapply Forall_impl; [exact H|]. intros e (n & m & ->). apply id_shuffle_fair. Qed.
Example live_teids_distinct_example :
  exists c, teid_history true c /\ exists s s', session_of c 7 3 = Some s /\ holds s 2 /\ session_of c 7 4 = Some s' /\ holds s' 4.
Proof.
  destruct (careful_run_ok ex_careful_events (fun c => ex_has_session c 7 3 (fun s => ex_holds s 1 2 && ex_has_session c 7 4 (fun s' => ex_holds s' 1 4)))
    _ ex_init_history) as (c & Hc & H); [apply ex_recv_fair; repeat constructor; by eexists _, _|by vm_compute|].
  exists c. split; [done|]. apply ex_has_session_inv in H as (s & Hs & H). apply andb_true_iff in H as [H1 H]. apply ex_has_session_inv in H as (s' & Hs' & H).
  apply ex_holds_inv in H1 as (p & ? & ?), H as (p' & ? & ?). exists s, s'. split_and!; try done; eexists _, _; eauto.
Qed.

(** ** C19 *)
Definition teid_available (c : conn) (t : N) : Prop := exists r, c_rm c = Some r /\ t ∈ ft_free (rm_ft r).
Definition address_available (c : conn) (a : N) : Prop := exists r, c_rm c = Some r /\ a ∈ ip_free (rm_ip r).

Lemma delete_pdrs_return sh i t j p l : fair sh -> sd_teid p <> 0 -> forall w w', each (fun e : N * spdr => delete_pdr sh (snd e)) l w = ROk w' ->
  pool_ok (ftp w) -> (booked (ftp w) (rem w) i t /\ (j, p) ∈ l \/ is_free (ftp w) t) -> is_free (ftp w') t /\ pool_ok (ftp w').
Proof.
  intros Hf Hp. induction l as [|[j' p'] l IH]; intros w w' H Hok Ht; simpl in H.
  { simplify_eq. destruct Ht as [[_ Hx]|?]; [by apply elem_of_nil in Hx|done]. }
  apply rbind_ok in H as (w1 & H1 & H2). pose proof (delete_pdr_facts sh p' w) as Hd. rewrite H1 in Hd. simpl in Hd.
  destruct Hd as (Hs & _ & [([Hz|Hz] & Hr)|(Hnz & [m Em] & Hr)]); [|congruence|].
  - eapply (IH w1); [done|by rewrite Hr|]. rewrite Hr. unfold rem. rewrite Hs. destruct Ht as [[Hb Hin]|?]; [|by right].
    apply elem_of_cons in Hin as [Hin|Hin]; [simplify_eq; done|by left].
  - rewrite Em in Hr, Hok, Ht. simpl in Hr. destruct (release_facts sh (rem w) m Hf Hok) as (R1 & R2 & R3 & _).
    eapply (IH w1); [done|by rewrite Hr|]. right. rewrite Hr. destruct Ht as [[Hb _]|Hx]; [by eapply R3|by apply R2].
Qed.
Lemma tpart_ftp w w' : tpart w' = tpart w -> ftp w' = ftp w. Proof. unfold tpart. congruence. Qed.

(** What was allocated for a session whose PDR ids were each used once goes back, TEIDs. *)
Theorem deletion_returns_teids_partial :
  forall sh addr seq seid c c' r s, teid_history true c -> fair sh -> session_of c addr seid = Some s ->
    handle sh addr seq (SessDelReq seid) c = Done c' (Some r) -> forall t, holds s t -> teid_available c' t.
Proof.
  intros sh addr seq seid c c' r s Hc%teid_history_tinv Hf Hs H t Ht. simpl in H. unfold handle_del in H. pose proof Hs as Hs'. unfold session_of in Hs'.
  destruct (c_assocs c !! addr) as [a|] eqn:Ha; [|done]. simpl in Hs'. rewrite Hs' in H.
  destruct (del_rules _ _ _) as [w|w|] eqn:E; simplify_eq.
  destruct (ti_own _ _ Hc _ _ _ _ Hs Ht) as [_ Hh]. destruct (Hh eq_refl) as (i & p & Hb & Hi & Hpt).
  unfold del_rules in E. apply rbind_ok in E as (w1 & E1 & E). apply rbind_ok in E as (w2 & E2 & E). apply rbind_ok in E as (w3 & E3 & E4).
  assert (Hk : forall A (f : A -> work -> res) l w1 w2, (forall x w, keepsP tpart w (f x w)) -> each f l w1 = ROk w2 -> tpart w2 = tpart w1).
  { intros A f l w1' w2' Hf' E0. pose proof (each_keep tpart f l w1' Hf') as Hx. by rewrite E0 in Hx. }
  apply Hk in E2; [|apply del_far_tpart]. apply Hk in E3; [|apply del_qer_tpart]. apply Hk in E4; [|apply del_urr_tpart].
  destruct (delete_pdrs_return sh i t i p (entries sh 0 (s_pdrs s)) Hf) with (w := new_work (c_dp c) s (c_rm c)) (w' := w1) as [Hfr Hok].
  { rewrite Hpt. by eapply booked_pos; [apply Hc|]. }
  { done. }
  { apply Hc. }
  { left. split; [done|]. by apply elem_of_entries. }
  assert (Ew : ftp w = ftp w1) by (apply tpart_ftp; congruence). rewrite <- Ew in Hfr, Hok.
  unfold ftp in Hfr, Hok. destruct (w_rm w) as [rm|] eqn:Erm; [|done]. simpl in Hfr, Hok.
  destruct (release_facts sh seid (rm_ft rm) Hf Hok) as (_ & R2 & _).
  unfold teid_available. simpl. eexists. split; [done|]. simpl. by apply R2.
Qed.
(** For UE addresses: exactly the one booked under the session's own (UP) SEID goes back. *)
Theorem deletion_returns_address_partial :
  forall sh addr seq seid c c' r s rm, session_of c addr seid = Some s -> c_rm c = Some rm ->
    handle sh addr seq (SessDelReq seid) c = Done c' (Some r) ->
    exists rm', c_rm c' = Some rm' /\
      ip_free (rm_ip rm') = ip_free (rm_ip rm) ++ option_list (ip_busy (rm_ip rm) !! seid) /\
      ip_busy (rm_ip rm') = delete seid (ip_busy (rm_ip rm)).
Proof.
  intros sh addr seq seid c c' r s rm Hs Hrm H. simpl in H. unfold handle_del in H. unfold session_of in Hs.
  destruct (c_assocs c !! addr) as [a|] eqn:Ha; [|done]. simpl in Hs. rewrite Hs in H.
  destruct (del_rules _ _ _) as [w|w|] eqn:E; simplify_eq.
  assert (Hx : keepsP (fun w => rm_ip <$> w_rm w) (new_work (c_dp c) s (c_rm c)) (del_rules sh s (new_work (c_dp c) s (c_rm c)))).
  { unfold del_rules. apply bind_keep; [apply each_keep|intros w1; apply bind_keep; [apply each_keep|intros w2; apply bind_keep; [apply each_keep|intros w3; apply each_keep]]].
    - intros [i p] w0. unfold delete_pdr, keepsP. repeat (case_match; simplify_eq); simpl in *; try done; repeat match goal with H : w_rm _ = Some _ |- _ => rewrite H; clear H end; done.
    - intros e w0. unfold del_far, keepsP. repeat (case_match; simplify_eq); done.
    - intros e w0. unfold del_qer, keepsP. repeat (case_match; simplify_eq); done.
    - intros e w0. unfold del_urr, keepsP. repeat (case_match; simplify_eq); done. }
  rewrite E in Hx. simpl in Hx. rewrite Hrm in Hx. destruct (w_rm w) as [rm1|] eqn:E1; [|done]. simpl in Hx. injection Hx as Hx.
  simpl. eexists. split; [done|]. simpl. rewrite Hx. unfold release_ip. destruct (ip_busy (rm_ip rm) !! seid) as [x|] eqn:E2; simpl; [done|].
  by rewrite app_nil_r, delete_notin.
Qed.
(** But addresses are booked under the control plane's SEID: with one address in the pool, a session gets it, is deleted, and the next gets none. *)
Definition ex_pdr_chv4 (id : N) : pdr_ie :=
  PdrIe (Some id) None None None [] (Some (PdiIe true Absent (Good (UeipIe true None None)))) None.
Definition ex_one_rm : option rman := Some (Rman (new_fteidm 8) (new_ipam 167837696 31)).
Definition causes (l : log) : list (option (option N)) := (fun x : event * option response => r_cause <$> snd x) <$> l.
Definition granted (l : log) : list (option (list created)) := (fun x : event * option response => r_created <$> snd x) <$> l.
Theorem deletion_returns_address_refuted :
  exists c l, run (init ex_cfg ex_one_rm (dp_init 8 8 8 8))
      [ex_setup; ex_recv 2 (ex_est_seid 100 [ex_pdr_chv4 1]); ex_recv 3 (SessDelReq 2); ex_recv 4 (ex_est_seid 101 [ex_pdr_chv4 1])] = Some (c, l) /\
    causes l = [Some (Some 1); Some (Some 1); Some (Some 1); Some (Some 73)] /\
    granted l = [Some []; Some [CreatedIp 1 167837697]; Some []; Some []] /\
    session_of c 7 2 = None /\ ~ address_available c 167837697.
Proof.
  set (es := [_; _; _; _]).
  assert (H : match run (init ex_cfg ex_one_rm (dp_init 8 8 8 8)) es with
    | Some (c, l) => bool_decide (causes l = [Some (Some 1); Some (Some 1); Some (Some 1); Some (Some 73)]) &&
        bool_decide (granted l = [Some []; Some [CreatedIp 1 167837697]; Some []; Some []]) &&
        match session_of c 7 2 with None => true | _ => false end &&
        match c_rm c with Some r => bool_decide (ip_free (rm_ip r) = []) | None => false end
    | None => false end = true) by (by vm_compute).
  destruct (run _ _) as [[c l]|]; [|done]. rewrite !andb_true_iff in H. destruct H as (((H1 & H2) & H3) & H4).
  apply bool_decide_eq_true in H1, H2. exists c, l. split; [reflexivity|]. split_and!; try done; [by destruct (session_of c 7 2)|].
  intros (r & Hr & Hin). rewrite Hr in H4. apply bool_decide_eq_true in H4. rewrite H4 in Hin. by apply elem_of_nil in Hin.
Qed.
Example deletion_returns_teids_example :
  exists c, teid_history true c /\ exists s c' r, session_of c 7 3 = Some s /\ holds s 2 /\ ~ teid_available c 2 /\
    handle id_shuffle 7 8 (SessDelReq 3) c = Done c' (Some r) /\ teid_available c' 2.
Proof.
  destruct (careful_run_ok ex_careful_events (fun c => ex_has_session c 7 3 (fun s => ex_holds s 1 2 &&
      match c_rm c with Some r => bool_decide (2 ∉ ft_free (rm_ft r)) | None => true end && ex_accepts 1 (handle id_shuffle 7 8 (SessDelReq 3) c) (fun _ _ => true)))
    _ ex_init_history) as (c & Hc & H); [apply ex_recv_fair; repeat constructor; by eexists _, _|by vm_compute|].
  exists c. split; [done|]. apply ex_has_session_inv in H as (s & Hs & H). rewrite !andb_true_iff in H. destruct H as ((H1 & H2) & H3).
  apply ex_holds_inv in H1 as (p & ? & ?). apply ex_accepts_inv in H3 as (c' & r & Hh & _ & _).
  assert (Ht : holds s 2) by (by exists 1, p). exists s, c', r. split_and!; try done.
  - intros (rm & Er & Hin). rewrite Er in H2. by apply bool_decide_eq_true in H2.
  - eapply deletion_returns_teids_partial; [exact Hc|apply id_shuffle_fair|exact Hs|exact Hh|exact Ht].
Qed.
