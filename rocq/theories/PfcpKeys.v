(** C66 over logs: the packet detection rules in the data plane are those of the live sessions, and refer to the FARs and QERs the requests name. *)
From Verif Require Import Base IdTracker ResourceManager SdfParser MapOps Pfcp PfcpProps PfcpHistory PfcpReach PfcpRules PfcpCreate PfcpRemove
  PfcpReject PfcpInv PfcpAsked PfcpTeid.

(** ** What the requests ask for, read off the log alone *)

(** A PDR: the key it detects packets by, header removal, FAR and QER it names, SDF filter; has it been updated while it had one? *)
Record pdr_ask := PdrAsk { ak_key : key; ak_ohr : N; ak_far : option N; ak_qer : option N; ak_sdf : option sdf_filter; ak_again : bool }.

(** The TEID or address reported for PDR [id] in a response. *)
Fixpoint teid_reported (l : list created) (id : N) : option N :=
  match l with
  | CreatedTeid i t _ :: l => if i =? id then Some t else teid_reported l id
  | _ :: l => teid_reported l id
  | [] => None
  end.
Fixpoint ip_reported (l : list created) (id : N) : option N :=
  match l with
  | CreatedIp i a :: l => if i =? id then Some a else ip_reported l id
  | _ :: l => ip_reported l id
  | [] => None
  end.
(** The key of a created PDR: the F-TEID counts before the UE address; what the UPF chose is in the response. *)
Definition said_key (r : response) (p : pdr_ie) : key :=
  let id := u16 (default 0 (pe_id p)) in
  match pe_pdi p with
  | None => Up 0
  | Some pdi =>
    match pi_fteid pdi, pi_ueip pdi with
    | Good fe, _ => Up (if fe_ch fe then default 0 (teid_reported (r_created r) id) else fe_teid fe)
    | _, Good ue =>
        match ip_reported (r_created r) id, ue_v4 ue, ue_v6 ue with
        | Some a, _, _ => Dn4 a | None, Some a, _ => Dn4 a | None, None, Some a => Dn6 a | None, None, None => Up 0
        end
    | _, _ => Up 0
    end
  end.
Definition said_sdf (p : pdr_ie) : option sdf_filter := match pe_sdf p with None | Some [] => None | Some t => parse_sdf t end.
Definition pdr_said (p : pdr_ie) (k : key) : pdr_ask := PdrAsk k (default 0 (pe_ohr p)) (pe_far p) (pe_qer p) (said_sdf p) false.

Notation pdr_table := (gmap N pdr_ask).
Definition put_said (k : key) (m : pdr_table) (p : pdr_ie) : pdr_table := match pe_id p with Some i => <[i := pdr_said p k]> m | None => m end.
Definition pdrs_created (r : response) (l : list pdr_ie) (m : pdr_table) : pdr_table := foldl (fun m p => put_said (said_key r p) m p) m l.
(** An update replaces what it names; the key stays, and a PDR without filter does not get one (see [tidy_update]). *)
Definition pdr_updated (p : pdr_ie) (a : pdr_ask) : pdr_ask :=
  PdrAsk (ak_key a) (default (ak_ohr a) (pe_ohr p)) (match pe_far p with Some i => Some i | None => ak_far a end)
    (match pe_qer p with Some i => Some i | None => ak_qer a end)
    (match ak_sdf a, said_sdf p with Some _, Some f => Some f | o, _ => o end) (match ak_sdf a with Some _ => true | None => false end).
Definition pdrs_updated (l : list pdr_ie) (m : pdr_table) : pdr_table :=
  foldl (fun m p => match pe_id p with Some i => alter (pdr_updated p) i m | None => m end) m l.
Definition pdrs_removed (l : list pdr_ie) (m : pdr_table) : pdr_table := foldl (fun m p => delete (default 0 (pe_id p)) m) m l.

(** The PDRs of the live sessions. *)
Notation pdr_tables := (gmap (N * N) (gmap N pdr_ask)).
Definition pdrs_step (P : pdr_tables) (x : event * option response) : pdr_tables :=
  match x with
  | (Recv _ addr _ (SessEstReq q), Some r) =>
      match r_cause r, r_fseid r with
      | Some 1, Some (seid, _) => <[(addr, seid) := pdrs_created r (eq_pdrs q) ∅]> P
      | _, _ => P
      end
  | (Recv _ addr _ (SessModReq q), Some r) =>
      match r_cause r with
      | Some 1 => alter (fun m => pdrs_removed (mq_rpdr q) (pdrs_updated (mq_updr q) (pdrs_created r (mq_cpdr q) m))) (addr, mq_seid q) P
      | _ => P
      end
  | (Recv _ addr _ (SessDelReq seid), Some r) => match r_cause r with Some 1 => delete (addr, seid) P | _ => P end
  | (HeartbeatFailed _ addr, _) => filter (fun x => fst (fst x) <> addr) P
  | _ => P
  end.
Definition pdrs_in (l : log) : pdr_tables := foldl pdrs_step ∅ l.

(** ** Tidy logs *)

Definition keys_of (m : pdr_table) : list key := (fun x => ak_key (snd x)) <$> map_to_list m.
Definition all_keys (P : pdr_tables) : list key := map_to_list P ≫= fun x => keys_of (snd x).
(** No two TEIDs of these agree in the low octet unless they are equal. *)
Definition low_octets (l : list key) : bool :=
  forallb (fun k => forallb (fun k' => match k, k' with Up t, Up t' => negb (u8 t =? u8 t') || (t =? t') | _, _ => true end) l) l.
(** New PDRs: distinct ids, distinct keys that no PDR has; the FARs and QERs named exist. *)
Definition refs_known (fars : gmap N far_info) (qers : gmap N qer_rule) (p : pdr_ie) : bool := has fars (pe_far p) && has qers (pe_qer p).
Definition tidy_create (r : response) (P : pdr_tables) (l : list pdr_ie) : bool :=
  bool_decide (NoDup (u16 ∘ default 0 ∘ pe_id <$> l)) && bool_decide (NoDup (said_key r <$> l)) &&
  forallb (fun p => bool_decide (said_key r p ∉ all_keys P)) l.
(** An updated PDR exists, keeps its key and has a filter either before and after or neither. *)
Definition same_key (p : pdr_ie) (k : key) : bool :=
  match pe_pdi p with
  | None => true
  | Some pdi =>
    match pi_fteid pdi, pi_ueip pdi with
    | Good fe, _ => negb (fe_ch fe) && bool_decide (k = Up (fe_teid fe))
    | _, Good ue => negb (ue_chv4 ue) && match ue_v4 ue, ue_v6 ue with
                                         | Some a, _ => bool_decide (k = Dn4 a) | None, Some a => bool_decide (k = Dn6 a) | None, None => true end
    | _, _ => true
    end
  end.
Definition tidy_update (m : pdr_table) (p : pdr_ie) : bool :=
  match pe_id p with
  | None => true
  | Some i => match m !! i with
              | Some a => same_key p (ak_key a) && match ak_sdf a, pe_sdf p with None, Some (_ :: _) => false | _, _ => true end
              | None => false end
  end.
Definition no_choose_id (p : pdr_ie) : bool :=
  match pe_pdi p with Some pdi => match pi_fteid pdi with Good fe => match fe_chid fe with Some _ => false | None => true end | _ => true end | None => true end.
Definition tidy_mod (r : response) (m : gmap N far_info * gmap N qer_rule) (P : pdr_tables) (pm : pdr_table) (q : mod_req) : bool :=
  let fars := fars_removed (mq_rfar q) (fars_updated (mq_ufar q) (fars_created (mq_cfar q) (fst m))) in
  let qers := qers_removed (mq_rqer q) (qers_updated (mq_uqer q) (qers_created (mq_cqer q) (snd m))) in
  let pm1 := pdrs_created r (mq_cpdr q) pm in
  let pm2 := pdrs_updated (mq_updr q) pm1 in
  let pm3 := pdrs_removed (mq_rpdr q) pm2 in
  (* created rules have new ids *)
  forallb (fun f => bool_decide (fst m !! default 0 (fa_id f) = None)) (mq_cfar q) &&
  forallb (fun f => match qe_id f with Some i => bool_decide (snd m !! i = None) | None => true end) (mq_cqer q) &&
  forallb (fun p => match pe_id p with Some i => bool_decide (pm !! i = None) | None => true end) (mq_cpdr q) &&
  tidy_create r P (mq_cpdr q) && forallb (refs_known fars qers) (mq_cpdr q ++ mq_updr q) &&
  forallb (tidy_update pm1) (mq_updr q) &&
  (* removed TEIDs differ in their low octets, and then nothing is created under a CHOOSE_ID *)
  (bool_decide (mq_rpdr q = []) || forallb no_choose_id (mq_cpdr q)) &&
  low_octets (omap (fun p => ak_key <$> pm2 !! default 0 (pe_id p)) (mq_rpdr q)) &&
  (* no PDR names a removed FAR or QER *)
  forallb (fun x : N * pdr_ask => has fars (ak_far (snd x)) && has qers (ak_qer (snd x))) (map_to_list pm3).
Definition tidy_step (M : asked) (P : pdr_tables) (x : event * option response) : bool :=
  match x with
  | (Recv _ addr _ (SessEstReq q), Some r) =>
      match r_cause r with
      | Some 1 => tidy_create r P (eq_pdrs q) && forallb (refs_known (fars_created (eq_fars q) ∅) (qers_created (eq_qers q) ∅)) (eq_pdrs q)
      | Some 73 => false
      | _ => true
      end
  | (Recv _ addr _ (SessModReq q), Some r) =>
      match r_cause r, M !! (addr, mq_seid q), P !! (addr, mq_seid q) with
      | Some 1, Some m, Some pm => tidy_mod r m P pm q
      | _, _, _ => true
      end
  | (Recv _ addr _ (SessDelReq seid), r) =>
      match P !! (addr, seid) with
      | Some pm => low_octets (keys_of pm) && match r with Some _ => true | None => false end
      | None => true
      end
  | (HeartbeatFailed _ addr, _) => forallb (fun x : N * N * pdr_table => negb (fst (fst x) =? addr) || low_octets (keys_of (snd x))) (map_to_list P)
  | _ => true
  end.
Fixpoint tidy_from (M : asked) (P : pdr_tables) (l : log) : bool :=
  match l with [] => true | x :: l => orderly_step M x && tidy_step M P x && tidy_from (asked_step M x) (pdrs_step P x) l end.
Definition tidy (l : log) : bool := tidy_from ∅ ∅ l.

(** ** Keys as reported *)
Definition rep_id (x : created) : N := match x with CreatedTeid i _ _ | CreatedIp i _ => i end.
Lemma teid_reported_app l l' id : teid_reported (l ++ l') id = match teid_reported l id with Some t => Some t | None => teid_reported l' id end.
Proof. induction l as [|[i t a|i a] l IH]; simpl; [done| |done]. by destruct (i =? id). Qed.
Lemma ip_reported_app l l' id : ip_reported (l ++ l') id = match ip_reported l id with Some t => Some t | None => ip_reported l' id end.
Proof. induction l as [|[i t a|i a] l IH]; simpl; [done|done|]. by destruct (i =? id). Qed.
Lemma reported_none l id : id ∉ (rep_id <$> l) -> teid_reported l id = None /\ ip_reported l id = None.
Proof.
  induction l as [|[i t a|i a] l IH]; [done|..]; rewrite fmap_cons, not_elem_of_cons; simpl; intros [Hne H]; destruct (IH H) as [-> ->];
    (destruct (N.eqb_spec i id); [congruence|done]).
Qed.
Lemma created_ids n3 l : forall i, i ∈ (rep_id <$> process_created n3 l) -> i ∈ (u16 ∘ sd_id <$> l).
Proof.
  unfold process_created. induction l as [|s l IH]; intros i; csimpl; [done|].
  destruct (created_of n3 s) as [x|] eqn:E; [|intros H; right; by apply IH].
  rewrite fmap_cons, elem_of_cons. intros [->|H]; [|right; by apply IH].
  unfold created_of in E. destruct (sd_alloc s), (sd_v4 s), (sd_v6 s); simplify_eq; left.
Qed.
Lemma reported_one n3 l s : NoDup (u16 ∘ sd_id <$> l) -> s ∈ l ->
  teid_reported (process_created n3 l) (u16 (sd_id s)) = teid_reported (process_created n3 [s]) (u16 (sd_id s)) /\
  ip_reported (process_created n3 l) (u16 (sd_id s)) = ip_reported (process_created n3 [s]) (u16 (sd_id s)).
Proof.
  intros Hnd (l1 & l2 & ->)%elem_of_list_split.
  assert (process_created n3 (l1 ++ s :: l2) = process_created n3 l1 ++ process_created n3 [s] ++ process_created n3 l2) as ->.
  { unfold process_created. rewrite omap_app. csimpl. by destruct (created_of n3 s). }
  rewrite fmap_app, fmap_cons in Hnd. apply NoDup_app in Hnd as (_ & H1 & H2). apply NoDup_cons in H2 as [H2 _].
  destruct (reported_none (process_created n3 l1) (u16 (sd_id s))) as [E1 E2].
  { intros H%created_ids. apply (H1 _ H). left. }
  destruct (reported_none (process_created n3 l2) (u16 (sd_id s))) as [E3 E4].
  { intros H%created_ids. done. }
  rewrite !teid_reported_app, !ip_reported_app, E1, E2, E3, E4. by destruct (teid_reported (process_created n3 [s]) _), (ip_reported (process_created n3 [s]) _).
Qed.
Lemma made_ids ueip s0 l new : Forall2 (made ueip s0) l new -> u16 ∘ default 0 ∘ pe_id <$> l = u16 ∘ sd_id <$> new.
Proof. induction 1 as [|p s l new (Hid & _) _ IH]; [done|]. csimpl. rewrite IH, Hid. done. Qed.
Lemma said_key_made ueip s0 n3 l new r : Forall2 (made ueip s0) l new -> r_created r = process_created n3 new ->
  NoDup (u16 ∘ default 0 ∘ pe_id <$> l) -> Forall2 (fun p s => said_key r p = spdr_key s) l new.
Proof.
  intros HF Hr Hnd. rewrite (made_ids _ _ _ _ HF) in Hnd.
  assert (HF' : Forall2 (fun p s => made ueip s0 p s /\ s ∈ new) l new).
  { apply Forall2_same_length_lookup. split; [by eapply Forall2_length|]. intros n p s Hp Hs.
    split; [by eapply Forall2_lookup_lr|by eapply elem_of_list_lookup_2]. }
  eapply Forall2_impl; [exact HF'|]. clear HF HF'. intros p s [(Hid & _ & Hdet) Hin]. simpl.
  unfold said_key. rewrite Hid, Hr. cbn [default from_option id]. destruct (reported_one n3 new s Hnd Hin) as [-> ->].
  clear Hnd Hin Hr. unfold detects in Hdet. destruct (pe_pdi p) as [pdi|]; [|done]. unfold process_created, created_of. csimpl. unfold spdr_key in *.
  destruct (pi_fteid pdi) as [| |fe]; [|done|].
  - destruct (pi_ueip pdi) as [| |ue]; [by destruct Hdet as [_ ->]|done|].
    destruct Hdet as [(-> & _ & _ & a & E)|[-> E]].
    + destruct (sd_v4 s) as [b|]; [|by destruct (sd_v6 s)]. simplify_eq. simpl. by rewrite N.eqb_refl.
    + simpl. destruct (ue_v4 ue) as [a|]; [by rewrite E|]. destruct (ue_v6 ue); [by rewrite E|done].
  - destruct (fe_ch fe).
    + destruct Hdet as [-> [t E]]. destruct (sd_v4 s); [done|]. destruct (sd_v6 s); [done|]. simplify_eq. simpl. by rewrite N.eqb_refl.
    + by destruct Hdet as [_ ->].
Qed.

(** ** One request at the level of a session *)
(** The entry of a PDR.  [again]: it was updated while it had a filter; the update finds the PDR's own entry, and what that does with
    other packets (nothing: all zero) becomes the default rule of the new one. *)
Definition zero_entry : ep_pdr := EpPdr 0 0 0 0 0 0 (EpRules ep_filter0 0 0 0 0 0).
Definition entry_of (again : bool) (i : pdr_req) : ep_pdr :=
  match pr_sdf i with Some f => combine_pdr_with_sdf (if again then Some zero_entry else None) f i | None => to_entrypoint i end.
Definition upd (pm : pdr_table) (i : N) : bool := match pm !! i with Some a => ak_again a | None => false end.
Notation spdrs := (gmap N spdr).
Definition owned (S : spdrs) (k : key) : Prop := exists i p, S !! i = Some p /\ spdr_key p = k.
Definition distinct (S : spdrs) : Prop := forall i j p p', S !! i = Some p -> S !! j = Some p' -> spdr_key p = spdr_key p' -> i = j.
(** The data plane has the entries of these PDRs, and [B] elsewhere. *)
Record placed (B : key -> option ep_pdr) (U : N -> bool) (S : spdrs) (d : dp) : Prop := {
  pl_in : forall i p, S !! i = Some p -> dp_find d (spdr_key p) = Some (entry_of (U i) (sd_info p));
  pl_out : forall k, ~ owned S k -> dp_find d k = B k;
  pl_one : distinct S }.

Lemma placed_upd B (U U' : N -> bool) S d : (forall i, is_Some (S !! i) -> U' i = U i) -> placed B U S d -> placed B U' S d.
Proof. intros E [P1 P2 P3]. split; [|done..]. intros i p Hi. rewrite E by done. by apply P1. Qed.

Lemma owned_dec (S : spdrs) k : owned S k \/ ~ owned S k.
Proof.
  destruct (decide (k ∈ (spdr_key ∘ snd <$> map_to_list S))) as [H|H]; [left|right].
  - apply elem_of_list_fmap in H as ([i p] & -> & H). apply elem_of_map_to_list in H. by exists i, p.
  - intros (i & p & Hi & <-). apply H. apply elem_of_list_fmap. exists (i, p). split; [done|]. by apply elem_of_map_to_list.
Qed.

Lemma create_placed ueip p w w' s B U : create_pdr ueip p w = ROk w' -> w_created w' = w_created w ++ [s] ->
  placed B U (s_pdrs (w_ses w)) (w_dp w) -> U (sd_id s) = false -> s_pdrs (w_ses w) !! sd_id s = None -> ~ owned (s_pdrs (w_ses w)) (spdr_key s) -> B (spdr_key s) = None ->
  placed B U (s_pdrs (w_ses w')) (w_dp w') /\ s_pdrs (w_ses w') = <[sd_id s := s]> (s_pdrs (w_ses w)).
Proof.
  intros H Hc [P1 P2 P3] HU Hid Hown HB. apply create_pdr_ok in H as (s' & _ & Hc' & Ha & Hs & _). rewrite Hc in Hc'.
  apply app_inj_tail in Hc' as [_ <-]. rewrite Hs. split; [|done]. pose proof (apply_pdr_find _ _ _ Ha) as Hf. split.
  - intros i q Hq. apply lookup_insert_Some in Hq as [[<- <-]|[Hne Hq]].
    + rewrite Hf, decide_True by done. unfold store_pdr, entry_of. rewrite P2, HB, HU by done. done.
    + rewrite Hf, decide_False; [by apply (P1 i)|]. intros E. apply Hown. by exists i, q.
  - intros k Hk. rewrite Hf, decide_False; [apply P2|].
    + intros (i & q & Hi & <-). apply Hk. exists i, q. split; [|done]. rewrite lookup_insert_ne; [done|]. intros <-. congruence.
    + intros ->. apply Hk. exists (sd_id s), s. by rewrite lookup_insert.
  - intros i j q q' Hi Hj E. apply lookup_insert_Some in Hi as [[<- <-]|[Hne Hi]], Hj as [[<- <-]|[Hne' Hj]]; [done|..|by eapply P3].
    + destruct Hown. by exists j, q'.
    + destruct Hown. by exists i, q.
Qed.

(** What a PDR of the session has, given which data-plane ids the FARs ([FG]) and QERs ([QG]) have. *)
Record agreeR (FG QG : N -> N -> Prop) (p : spdr) (a : pdr_ask) : Prop := {
  ag_key : spdr_key p = ak_key a;
  ag_ohr : pr_ohr (sd_info p) = ak_ohr a;
  ag_sdf : pr_sdf (sd_info p) = ak_sdf a;
  ag_far : forall j, ak_far a = Some j -> FG j (pr_far (sd_info p));
  ag_qer : forall j, ak_qer a = Some j -> QG j (pr_qer (sd_info p)) }.
Definition agreeing (FG QG : N -> N -> Prop) (S : spdrs) (m : pdr_table) : Prop := forall i, option_Forall2 (agreeR FG QG) (S !! i) (m !! i).
Definition far_at (s : session) (j g : N) : Prop := exists f, s_fars s !! j = Some f /\ sf_gid f = g.
Definition qer_at (s : session) (j g : N) : Prop := exists f, s_qers s !! j = Some f /\ sq_gid f = g.

Lemma agreeing_insert FG QG S m i p a : agreeing FG QG S m -> agreeR FG QG p a -> agreeing FG QG (<[i := p]> S) (<[i := a]> m).
Proof.
  intros H Ha j. destruct (decide (j = i)) as [->|Hne]; [rewrite !lookup_insert; by constructor|]. rewrite !lookup_insert_ne by done. apply H.
Qed.
Lemma agreeing_delete FG QG S m i : agreeing FG QG S m -> agreeing FG QG (delete i S) (delete i m).
Proof.
  intros H j. destruct (decide (j = i)) as [->|Hne]; [rewrite !lookup_delete; by constructor|]. rewrite !lookup_delete_ne by done. apply H.
Qed.
Lemma agreeing_mono (FG QG FG' QG' : N -> N -> Prop) S m : agreeing FG QG S m ->
  (forall i a j g, m !! i = Some a -> ak_far a = Some j -> FG j g -> FG' j g) ->
  (forall i a j g, m !! i = Some a -> ak_qer a = Some j -> QG j g -> QG' j g) -> agreeing FG' QG' S m.
Proof.
  intros H HF HQ i. specialize (H i). destruct (S !! i) as [p|] eqn:Ep, (m !! i) as [a|] eqn:Ea; inversion H; constructor.
  subst. destruct H2. split; eauto.
Qed.
Lemma agreeing_l FG QG S m i p : agreeing FG QG S m -> S !! i = Some p -> exists a, m !! i = Some a /\ agreeR FG QG p a.
Proof. intros H Hi. specialize (H i). rewrite Hi in H. inversion H. subst. eauto. Qed.
Lemma agreeing_r FG QG S m i a : agreeing FG QG S m -> m !! i = Some a -> exists p, S !! i = Some p /\ agreeR FG QG p a.
Proof. intros H Hi. specialize (H i). rewrite Hi in H. inversion H. subst. eauto. Qed.

Lemma made_agrees ueip s p q k (FG QG : N -> N -> Prop) : made ueip s p q -> spdr_key q = k ->
  (forall j, pe_far p = Some j -> FG j (sf_gid (get_far s j))) -> (forall j, pe_qer p = Some j -> QG j (sq_gid (get_qer s j))) ->
  agreeR FG QG q (pdr_said p k).
Proof.
  intros (_ & (f & Hi & Hno & Hyes) & _) Hk HF HQ. split; rewrite ?Hi; simpl.
  - done.
  - done.
  - unfold said_sdf. destruct (pe_sdf p) as [[|x t]|] eqn:E.
    + apply Hno. by right.
    + destruct (Hyes _ eq_refl) as (g & -> & ->); done.
    + apply Hno. by left.
  - intros j Hj. rewrite Hj. by apply HF.
  - intros j Hj. rewrite Hj. by apply HQ.
Qed.

Lemma creates_placed ueip r B U (FG QG : N -> N -> Prop) l : forall w w' pm new, each (create_pdr ueip) l w = ROk w' ->
  w_created w' = w_created w ++ new -> Forall2 (fun p s => said_key r p = spdr_key s) l new ->
  placed B U (s_pdrs (w_ses w)) (w_dp w) -> agreeing FG QG (s_pdrs (w_ses w)) pm -> (forall p i, p ∈ l -> pe_id p = Some i -> U i = false) ->
  NoDup (pe_id <$> l) -> (forall p i, p ∈ l -> pe_id p = Some i -> s_pdrs (w_ses w) !! i = None) ->
  NoDup (said_key r <$> l) -> (forall p, p ∈ l -> ~ owned (s_pdrs (w_ses w)) (said_key r p) /\ B (said_key r p) = None) ->
  (forall p j, p ∈ l -> pe_far p = Some j -> FG j (sf_gid (get_far (w_ses w) j))) ->
  (forall p j, p ∈ l -> pe_qer p = Some j -> QG j (sq_gid (get_qer (w_ses w) j))) ->
  placed B U (s_pdrs (w_ses w')) (w_dp w') /\ agreeing FG QG (s_pdrs (w_ses w')) (pdrs_created r l pm).
Proof.
  induction l as [|p l IH]; intros w w' pm new H Hc Hk HP HA HU Hnd Hid Hndk Hown HF HQ; cbn [each] in H; [by simplify_eq|].
  apply rbind_ok in H as (w1 & H1 & H2). pose proof (create_pdr_ok _ _ _ _ H1) as (s & Hm & Hc1 & _ & _ & Ef & Eq & _).
  apply Forall2_cons_inv_l in Hk as (s' & new' & Hks & Hk & ->).
  pose proof (create_pdrs_ok _ _ _ _ H2) as (new2 & Hm2 & Hc2 & _). rewrite Hc1, <- app_assoc in Hc2. rewrite Hc in Hc2.
  apply app_inv_head in Hc2. simpl in Hc2. injection Hc2 as -> ->. 
  assert (Eid : pe_id p = Some (sd_id s)) by apply Hm.
  destruct (create_placed _ _ _ _ s B U H1 Hc1 HP) as [HP1 ES].
  - apply (HU p); [left|done].
  - apply (Hid p); [left|done].
  - rewrite <- Hks. apply Hown. left.
  - rewrite <- Hks. apply Hown. left.
  - rewrite fmap_cons in Hnd. rewrite fmap_cons in Hndk. rewrite NoDup_cons in Hnd. rewrite NoDup_cons in Hndk. destruct Hnd as [Hn1 Hnd], Hndk as [Hk1 Hndk].
    destruct (IH w1 w' (put_said (said_key r p) pm p) new2) as [HP2 HA2]; try done.
    + rewrite Hc, Hc1, <- app_assoc. done.
    + rewrite ES. unfold put_said. rewrite Eid. apply agreeing_insert; [done|]. eapply made_agrees; [done..| |].
      * intros j. apply HF. left.
      * intros j. apply HQ. left.
    + intros p' i Hp'. apply HU. by right.
    + intros p' i Hp' Hi. rewrite ES, lookup_insert_ne; [apply (Hid p'); [by right|done]|]. intros <-. apply Hn1. rewrite Eid, <- Hi. by apply elem_of_list_fmap_1.
    + intros p' Hp'. split; [|apply Hown; by right]. rewrite ES. intros (i & q & Hi & Hq). apply lookup_insert_Some in Hi as [[<- <-]|[Hne Hi]].
      * apply Hk1. rewrite Hks, Hq. by apply elem_of_list_fmap_1.
      * apply (Hown p'); [by right|]. by exists i, q.
    + intros p' j Hp'. unfold get_far. rewrite Ef. apply HF. by right.
    + intros p' j Hp'. unfold get_qer. rewrite Eq. apply HQ. by right.
Qed.

Lemma extract_same ueip p s0 w s w1 : extract_pdr ueip p s0 w = (Some s, w1) -> same_key p (spdr_key s0) = true ->
  w1 = w /\ pdr_sdf p (pdr_refs (w_ses w) p (sd_info s0)) = Some (sd_info s) /\ spdr_key s = spdr_key s0.
Proof.
  unfold extract_pdr, same_key. intros H Hk. destruct (pe_pdi p) as [pdi|]; [|done].
  destruct (pdr_sdf p (pdr_refs (w_ses w) p (sd_info s0))) as [info|] eqn:E; [|done].
  destruct (pi_fteid pdi) as [| |fe]; [|done|].
  - destruct (pi_ueip pdi) as [| |ue]; [by simplify_eq|done|]. apply andb_true_iff in Hk as [Hch Hk]. apply negb_true_iff in Hch. rewrite Hch, andb_false_r in H.
    destruct (ue_v4 ue) as [a|]; [|destruct (ue_v6 ue) as [a|]]; simplify_eq; apply bool_decide_eq_true in Hk; (split; [done|]); (split; [done|]).
    + by rewrite Hk.
    + rewrite Hk. unfold spdr_key in *. simpl. by destruct (sd_v4 s0).
  - apply andb_true_iff in Hk as [Hch Hk]. apply negb_true_iff in Hch. rewrite Hch in H. apply bool_decide_eq_true in Hk. simplify_eq.
    split; [done|]. split; [done|]. rewrite Hk. unfold spdr_key in *. simpl. by destruct (sd_v4 s0), (sd_v6 s0).
Qed.
(** The record of an updated PDR. *)
Lemma pdr_sdf_updated p r i : pdr_sdf p r = Some i -> pr_ohr i = pr_ohr r /\ pr_far i = pr_far r /\ pr_qer i = pr_qer r /\
  pr_sdf i = match said_sdf p with Some f => Some f | None => pr_sdf r end /\ (pe_sdf p = None \/ pe_sdf p = Some [] -> i = r).
Proof.
  unfold pdr_sdf, said_sdf. destruct (pe_sdf p) as [[|x t]|]; [intros [= <-]; tauto| |intros [= <-]; tauto].
  destruct (parse_sdf _) as [f|]; [|done]. intros [= <-]. split_and!; try done. by intros [?|?].
Qed.

Lemma pdrs_updated_keys l : forall m i, ak_key <$> pdrs_updated l m !! i = ak_key <$> m !! i.
Proof.
  unfold pdrs_updated. induction l as [|p l IH]; intros m i; simpl; [done|]. rewrite IH. destruct (pe_id p) as [j|]; [|done].
  destruct (decide (i = j)) as [->|Hne]; [rewrite lookup_alter; by destruct (m !! j)|by rewrite lookup_alter_ne].
Qed.
Lemma tidy_update_keep p q m : tidy_update m q = true -> tidy_update (match pe_id p with Some i => alter (pdr_updated p) i m | None => m end) q = true.
Proof.
  unfold tidy_update. destruct (pe_id q) as [i|]; [|done]. destruct (pe_id p) as [j|]; [|done].
  destruct (decide (i = j)) as [->|Hne]; [rewrite lookup_alter|by rewrite lookup_alter_ne]. destruct (m !! j) as [a|]; [|done].
  simpl. by destruct (ak_sdf a) as [?|]; [destruct (said_sdf p)|].
Qed.

Lemma update_placed ueip p w w' pm B (FG QG : N -> N -> Prop) : update_pdr_ie ueip p w = ROk w' ->
  placed B (upd pm) (s_pdrs (w_ses w)) (w_dp w) -> agreeing FG QG (s_pdrs (w_ses w)) pm -> tidy_update pm p = true ->
  (forall j, pe_far p = Some j -> FG j (sf_gid (get_far (w_ses w) j))) -> (forall j, pe_qer p = Some j -> QG j (sq_gid (get_qer (w_ses w) j))) ->
  placed B (upd (match pe_id p with Some i => alter (pdr_updated p) i pm | None => pm end)) (s_pdrs (w_ses w')) (w_dp w') /\
  agreeing FG QG (s_pdrs (w_ses w')) (match pe_id p with Some i => alter (pdr_updated p) i pm | None => pm end) /\
  w_cache w' = w_cache w /\ s_fars (w_ses w') = s_fars (w_ses w) /\ s_qers (w_ses w') = s_qers (w_ses w).
Proof.
  unfold update_pdr_ie, tidy_update. intros H [P1 P2 P3] HA Ht HF HQ. destruct (pe_id p) as [id|] eqn:Eid; [|done].
  destruct (pm !! id) as [a|] eqn:Ea; [|done]. destruct (agreeing_r _ _ _ _ _ _ HA Ea) as (s0 & Es0 & Hag). pose proof Hag as [A1 A2 A3 A4 A5].
  apply andb_true_iff in Ht as [Ht1 Ht2]. rewrite <- A1 in Ht1. rewrite <- A3 in Ht2.
  assert (get_pdr (w_ses w) id = s0) as Eg by (unfold get_pdr; by rewrite Es0). rewrite Eg in H.
  destruct (extract_pdr _ _ _ _) as [[s|] w1] eqn:E; [|done].
  apply extract_same in E as (-> & Hinf & Hk); [|done]. apply pdr_sdf_updated in Hinf as (I1 & I2 & I3 & I4 & _). cbn [pr_ohr pr_far pr_qer pr_sdf pdr_refs] in I1, I2, I3, I4.
  destruct (apply_pdr s _) as [[] d] eqn:Ead; [|done]. injection H as <-. cbn [w_ses w_set_ses w_set_dp w_dp ses_put_pdr s_pdrs w_cache] in *.
  pose proof (apply_pdr_find _ _ _ Ead) as Hf.
  change (s_pdrs (ses_put_pdr id s (w_ses w))) with (<[id := s]> (s_pdrs (w_ses w))).
  assert (alter (pdr_updated p) id pm = <[id := pdr_updated p a]> pm) as ->.
  { apply map_eq. intros i. destruct (decide (i = id)) as [->|Hne]; [by rewrite lookup_alter, lookup_insert, Ea|by rewrite lookup_alter_ne, lookup_insert_ne]. }
  assert (Hsd : pr_sdf (sd_info s) = match pr_sdf (sd_info s0), said_sdf p with Some _, Some f => Some f | o, _ => o end).
  { rewrite I4. destruct (pr_sdf (sd_info s0)); [by destruct (said_sdf p)|]. unfold said_sdf. by destruct (pe_sdf p) as [[|]|]. }
  assert (Hold : dp_find (w_dp w) (spdr_key s) = Some (entry_of (upd pm id) (sd_info s0))) by (rewrite Hk; by apply (P1 id)).
  split; [split|split; [|done]].
  - intros i q Hq. apply lookup_insert_Some in Hq as [[<- <-]|[Hne Hq]].
    + rewrite Hf, decide_True by done. unfold store_pdr. rewrite Hold. unfold upd. rewrite lookup_insert. cbn [pdr_updated ak_again]. rewrite <- A3.
      unfold entry_of. rewrite Hsd. destruct (pr_sdf (sd_info s0)) as [f0|]; [|done]. destruct (said_sdf p); by destruct (match pm !! id with Some _ => _ | None => _ end).
    + rewrite Hf, decide_False; [|rewrite Hk; intros E; apply Hne; symmetry; by eapply P3].
      assert (upd (<[id := pdr_updated p a]> pm) i = upd pm i) as -> by (unfold upd; by rewrite lookup_insert_ne). by apply (P1 i).
  - intros k Hnk. rewrite Hf, decide_False; [apply P2|].
    + intros (i & q & Hi & <-). apply Hnk. destruct (decide (i = id)) as [->|Hne].
      * exists id, s. rewrite lookup_insert. split; [done|]. by simplify_eq.
      * exists i, q. by rewrite lookup_insert_ne.
    + intros ->. apply Hnk. exists id, s. by rewrite lookup_insert.
  - intros i j q q' Hi Hj Ek. apply lookup_insert_Some in Hi as [[<- <-]|[Hne Hi]], Hj as [[<- <-]|[Hne' Hj]]; [done|..|by eapply P3].
    + apply (P3 _ _ s0 q'); [done..|congruence].
    + apply (P3 _ _ q s0); [done..|congruence].
  - apply agreeing_insert; [done|]. split; rewrite ?I1, ?I2, ?I3; simpl.
    + congruence.
    + by rewrite A2.
    + rewrite Hsd, <- A3. done.
    + intros j. destruct (pe_far p) as [j'|]; [intros [= <-]; by apply HF|apply A4].
    + intros j. destruct (pe_qer p) as [j'|]; [intros [= <-]; by apply HQ|apply A5].
Qed.

Lemma updates_placed ueip B (FG QG : N -> N -> Prop) l : forall w w' pm, each (update_pdr_ie ueip) l w = ROk w' ->
  placed B (upd pm) (s_pdrs (w_ses w)) (w_dp w) -> agreeing FG QG (s_pdrs (w_ses w)) pm -> forallb (tidy_update pm) l = true ->
  (forall p j, p ∈ l -> pe_far p = Some j -> FG j (sf_gid (get_far (w_ses w) j))) ->
  (forall p j, p ∈ l -> pe_qer p = Some j -> QG j (sq_gid (get_qer (w_ses w) j))) ->
  placed B (upd (pdrs_updated l pm)) (s_pdrs (w_ses w')) (w_dp w') /\ agreeing FG QG (s_pdrs (w_ses w')) (pdrs_updated l pm) /\ w_cache w' = w_cache w.
Proof.
  induction l as [|p l IH]; intros w w' pm H HP HA Ht HF HQ; cbn [each] in H; [by simplify_eq|].
  apply rbind_ok in H as (w1 & H1 & H2). cbn [forallb] in Ht. apply andb_true_iff in Ht as [Ht1 Ht2].
  destruct (update_placed _ _ _ _ _ _ _ _ H1 HP HA Ht1) as (HP1 & HA1 & Ec & Ef & Eq).
  { intros j. apply HF. left. } { intros j. apply HQ. left. }
  destruct (IH _ _ _ H2 HP1 HA1) as (HP2 & HA2 & Ec2).
  - apply forallb_forall. intros q Hq. rewrite forallb_forall in Ht2. by apply tidy_update_keep, Ht2.
  - intros q j Hq. unfold get_far. rewrite Ef. apply HF. by right.
  - intros q j Hq. unfold get_qer. rewrite Eq. apply HQ. by right.
  - split; [done|]. split; [done|]. congruence.
Qed.

(** Removal. *)
Definition rids (l : list pdr_ie) : list N := default 0 ∘ pe_id <$> l.
Lemma removes_keys sh (T : N -> Prop) l : forall w w', each (remove_pdr_ie sh) l w = ROk w' ->
  (forall x, is_Some (w_cache w !! x) -> exists t, T t /\ x = u8 t) -> distinct (s_pdrs (w_ses w)) ->
  (forall i s t t', s_pdrs (w_ses w) !! i = Some s -> i ∈ rids l -> spdr_key s = Up t -> T t' -> u8 t <> u8 t') ->
  (forall i j s s' t t', s_pdrs (w_ses w) !! i = Some s -> s_pdrs (w_ses w) !! j = Some s' -> i ∈ rids l -> j ∈ rids l -> i <> j ->
     spdr_key s = Up t -> spdr_key s' = Up t' -> u8 t <> u8 t') ->
  (forall i s, s_pdrs (w_ses w) !! i = Some s -> i ∈ rids l -> dp_find (w_dp w') (spdr_key s) = None) /\
  (forall k, (forall i s, s_pdrs (w_ses w) !! i = Some s -> i ∈ rids l -> spdr_key s <> k) -> dp_find (w_dp w') k = dp_find (w_dp w) k).
Proof.
  revert T. induction l as [|p l IH]; intros T w w' H HC HD HT HL; cbn [each] in H.
  { simplify_eq. split; [|done]. intros i s _ Hi. by apply elem_of_nil in Hi. }
  apply rbind_ok in H as (w1 & H1 & H2). pose proof (remove_pdr_ids _ _ _ _ H1) as [ES _].
  set (id := default 0 (pe_id p)) in *. unfold remove_pdr_ie in H1. fold id in H1.
  assert (Hsub : forall i s, s_pdrs (w_ses w1) !! i = Some s -> i <> id /\ s_pdrs (w_ses w) !! i = Some s).
  { intros i s Hi. rewrite ES in Hi. apply lookup_delete_Some in Hi as [? ?]. done. }
  assert (HD1 : distinct (s_pdrs (w_ses w1))) by (intros i j q q' Hi Hj; apply Hsub in Hi as [_ Hi], Hj as [_ Hj]; by eapply HD).
  destruct (s_pdrs (w_ses w) !! id) as [s0|] eqn:E0.
  - pose proof (delete_pdr_effect sh s0 (w_set_ses (ses_remove_pdr id (w_ses w)) w)) as He. rewrite H1 in He.
    destruct He as (Ho & Hmono & Hcase). cbn [w_dp w_set_ses w_cache] in Ho, Hmono, Hcase.
    set (T' := fun t => T t \/ spdr_key s0 = Up t).
    assert (Hgone : dp_find (w_dp w1) (spdr_key s0) = None /\ forall x, is_Some (w_cache w1 !! x) -> exists t, T' t /\ x = u8 t).
    { destruct Hcase as [[Ec Hg]|(t & Ek & [[Hs _]|[Hg Ec]])].
      - split; [done|]. intros x Hx. rewrite Ec in Hx. destruct (HC x Hx) as (t & Ht & ->). exists t. split; [by left|done].
      - destruct (HC _ Hs) as (t' & Ht' & Eu). destruct (HT id s0 t t' E0); [left|done..].
      - rewrite Ek. split; [done|]. intros x Hx. rewrite Ec in Hx. destruct (decide (x = u8 t)) as [->|Hne]; [exists t; split; [by right|done]|].
        rewrite lookup_insert_ne in Hx by done. destruct (HC x Hx) as (t' & Ht & ->). exists t'. split; [by left|done]. }
    destruct Hgone as [Hg HC1].
    destruct (IH T' w1 w' H2 HC1 HD1) as [I1 I2].
    + intros i s t t' Hi Hin Hk Ht'. apply Hsub in Hi as [Hne Hi]. destruct Ht' as [Ht'|Ht'].
      * apply (HT i s); [done|by right|done..].
      * apply (HL i id s s0); try done; [by right|left].
    + intros i j s s' t t' Hi Hj Hli Hlj. apply Hsub in Hi as [Hni Hi], Hj as [Hnj Hj]. apply HL; try done; by right.
    + split.
      * intros i s Hi Hin. destruct (decide (i = id)) as [->|Hne].
        -- assert (s = s0) as -> by congruence. destruct (dp_find (w_dp w') (spdr_key s0)) eqn:Ef; [|done]. rewrite I2 in Ef; [congruence|].
           intros j s' Hj _ Ek. apply Hsub in Hj as [Hnj Hj]. apply Hnj. by eapply HD.
        -- apply (I1 i); [rewrite ES; by rewrite lookup_delete_ne|]. apply elem_of_cons in Hin as [Hin|Hin]; [by destruct Hne|done].
      * intros k Hk. rewrite I2; [apply Ho|].
        -- intros ->. apply (Hk id s0); [done|left|done].
        -- intros i s Hi Hin. apply Hsub in Hi as [_ Hi]. apply (Hk i); [done|by right].
  - injection H1 as <-. destruct (IH T w w' H2 HC HD) as [I1 I2].
    + intros i s t t' Hi Hin. apply (HT i s); [done|by right].
    + intros i j s s' t t' Hi Hj Hli Hlj. apply HL; try done; by right.
    + split.
      * intros i s Hi Hin. apply (I1 i); [done|]. apply elem_of_cons in Hin as [Hin|Hin]; [|done].
        change (i = id) in Hin. congruence.
      * intros k Hk. apply I2. intros i s Hi Hin. apply (Hk i); [done|by right].
Qed.

Lemma removes_ids sh l : forall w w', each (remove_pdr_ie sh) l w = ROk w' ->
  s_pdrs (w_ses w') = foldl (fun m p => delete (default 0 (pe_id p)) m) (s_pdrs (w_ses w)) l.
Proof.
  induction l as [|p l IH]; intros w w' H; cbn [each] in H; [by simplify_eq|]. apply rbind_ok in H as (w1 & H1 & H2).
  rewrite (IH _ _ H2). apply remove_pdr_ids in H1 as [-> _]. done.
Qed.
Lemma foldl_delete_lookup {A} (l : list pdr_ie) : forall (m : gmap N A) i,
  foldl (fun m p => delete (default 0 (pe_id p)) m) m l !! i = if decide (i ∈ rids l) then None else m !! i.
Proof.
  induction l as [|p l IH]; intros m i; [done|]. cbn [foldl]. rewrite IH. change (rids (p :: l)) with (default 0 (pe_id p) :: rids l).
  destruct (decide (i ∈ rids l)), (decide (i ∈ default 0 (pe_id p) :: rids l)) as [Hin|Hin]; try done.
  - destruct Hin. by right.
  - apply elem_of_cons in Hin as [->|Hin]; [apply lookup_delete|done].
  - rewrite lookup_delete_ne; [done|]. intros <-. apply Hin. left.
Qed.
Lemma removes_placed sh l w w' B U : each (remove_pdr_ie sh) l w = ROk w' -> w_cache w = ∅ ->
  placed B U (s_pdrs (w_ses w)) (w_dp w) -> (forall k, owned (s_pdrs (w_ses w)) k -> B k = None) ->
  (forall i j s s' t t', s_pdrs (w_ses w) !! i = Some s -> s_pdrs (w_ses w) !! j = Some s' -> i ∈ rids l -> j ∈ rids l ->
     spdr_key s = Up t -> spdr_key s' = Up t' -> u8 t = u8 t' -> t = t') ->
  placed B U (s_pdrs (w_ses w')) (w_dp w').
Proof.
  intros H Hc [P1 P2 P3] HB Hlow. pose proof (removes_ids _ _ _ _ H) as ES.
  destruct (removes_keys sh (fun _ => False) l w w' H) as [R1 R2].
  - intros x [v Hx]. by rewrite Hc, lookup_empty in Hx.
  - done.
  - done.
  - intros i j s s' t t' Hi Hj Hli Hlj Hne Hk Hk' Eu. apply Hne. apply (P3 i j s s' Hi Hj). rewrite Hk, Hk'. f_equal. by eapply (Hlow i j).
  - assert (HS : forall i, s_pdrs (w_ses w') !! i = if decide (i ∈ rids l) then None else s_pdrs (w_ses w) !! i) by (intros i; rewrite ES; apply foldl_delete_lookup).
    split.
    + intros i p Hi. rewrite HS in Hi. destruct (decide (i ∈ rids l)) as [|Hni]; [done|]. rewrite R2; [by apply (P1 i)|].
      intros j s Hj Hlj Ek. apply Hni. by rewrite (P3 _ _ _ _ Hi Hj (eq_sym Ek)).
    + intros k Hk. destruct (owned_dec (s_pdrs (w_ses w)) k) as [Hown|Hown].
      * rewrite (HB k Hown). destruct Hown as (i & s & Hi & <-). apply (R1 i); [done|]. destruct (decide (i ∈ rids l)) as [|Hni]; [done|].
        destruct Hk. exists i, s. rewrite HS. by rewrite decide_False.
      * rewrite R2; [by apply P2|]. intros i s Hi _ Ek. apply Hown. by exists i, s.
    + intros i j p p' Hi Hj. rewrite HS in Hi, Hj. destruct (decide _); [done|]. destruct (decide _); [done|]. by apply P3.
Qed.
Lemma agreeing_removed (FG QG : N -> N -> Prop) l : forall S m, agreeing FG QG S m -> agreeing FG QG (foldl (fun m p => delete (default 0 (pe_id p)) m) S l) (pdrs_removed l m).
Proof. unfold pdrs_removed. induction l as [|p l IH]; intros S m H; [done|]. cbn [foldl]. apply IH, agreeing_delete, H. Qed.

(** FARs and QERs keep their data-plane ids through a modification. *)
Lemma each_ok_inv {A} (Q : work -> Prop) (f : A -> work -> res) l : forall w w', (forall x w w', x ∈ l -> f x w = ROk w' -> Q w -> Q w') ->
  each f l w = ROk w' -> Q w -> Q w'.
Proof.
  induction l as [|x l IH]; intros w w' Hf H Hw; cbn [each] in H; [by simplify_eq|]. apply rbind_ok in H as (w1 & H1 & H2).
  eapply IH; [|exact H2|]; [intros y v v' Hy; apply Hf; by right|]. eapply Hf; [left|exact H1|done].
Qed.
Lemma each_ok_keep {A B} (proj : work -> B) (f : A -> work -> res) l w w' : (forall x w, keepsP proj w (f x w)) -> each f l w = ROk w' -> proj w' = proj w.
Proof. intros Hf E. pose proof (each_keep proj f l w Hf) as Hx. by rewrite E in Hx. Qed.
Definition same_gid_far (s0 s : session) : Prop := forall j f f0, s_fars s !! j = Some f -> s_fars s0 !! j = Some f0 -> sf_gid f = sf_gid f0.
Definition same_gid_qer (s0 s : session) : Prop := forall j f f0, s_qers s !! j = Some f -> s_qers s0 !! j = Some f0 -> sq_gid f = sq_gid f0.
Lemma fars_keep_gid s0 l1 l2 l3 w w1 w2 w3 : w_ses w = s0 -> each create_far l1 w = ROk w1 -> each update_far_ie l2 w1 = ROk w2 -> each remove_far_ie l3 w2 = ROk w3 ->
  (forall f, f ∈ l1 -> s_fars s0 !! default 0 (fa_id f) = None) -> same_gid_far s0 (w_ses w3).
Proof.
  intros E0 H1 H2 H3 Hnew.
  assert (J1 : forall j f0, s_fars s0 !! j = Some f0 -> exists f, s_fars (w_ses w1) !! j = Some f /\ sf_gid f = sf_gid f0).
  { intros j f0 Hj. pattern w1. eapply each_ok_inv; [|exact H1|]; [|exists f0; by rewrite E0]. clear -Hj Hnew. intros x w w' Hx H (f & Hf & Hg).
    exists f. split; [|done]. unfold create_far in H. repeat (case_match; simplify_eq). simpl. rewrite lookup_insert_ne; [done|].
    intros E. rewrite <- E, (Hnew x Hx) in Hj. done. }
  assert (J2 : forall j f0, s_fars s0 !! j = Some f0 -> exists f, s_fars (w_ses w2) !! j = Some f /\ sf_gid f = sf_gid f0).
  { intros j f0 Hj. pattern w2. eapply each_ok_inv; [|exact H2|by apply J1]. clear. intros x w w' Hx H (f & Hf & Hg).
    unfold update_far_ie in H. destruct (fa_id x) as [id|]; [|done]. destruct (far_crash x); [done|]. destruct (compose_far _ _) as [i|]; [|done].
    destruct (update_far _ _ _) as [[] d]; simplify_eq. simpl. destruct (decide (j = id)) as [->|Hne].
    - rewrite lookup_insert. eexists. split; [done|]. unfold get_far. rewrite Hf. done.
    - rewrite lookup_insert_ne by done. eauto. }
  pattern w3. eapply each_ok_inv; [|exact H3|].
  - clear. intros x w w' Hx H Hs j f f0 Hf. unfold remove_far_ie in H. destruct (delete_far _ _) as [[] d]; simplify_eq. simpl in Hf.
    apply lookup_delete_Some in Hf as [_ Hf]. by eapply Hs.
  - intros j f f0 Hf Hf0. destruct (J2 j f0 Hf0) as (f' & Hf' & <-). congruence.
Qed.
Lemma qers_keep_gid s0 l1 l2 l3 w w1 w2 w3 : s_qers (w_ses w) = s_qers s0 -> each create_qer l1 w = ROk w1 -> each update_qer_ie l2 w1 = ROk w2 -> each remove_qer_ie l3 w2 = ROk w3 ->
  (forall f i, f ∈ l1 -> qe_id f = Some i -> s_qers s0 !! i = None) -> same_gid_qer s0 (w_ses w3).
Proof.
  intros E0 H1 H2 H3 Hnew.
  assert (J1 : forall j f0, s_qers s0 !! j = Some f0 -> exists f, s_qers (w_ses w1) !! j = Some f /\ sq_gid f = sq_gid f0).
  { intros j f0 Hj. pattern w1. eapply each_ok_inv; [|exact H1|]; [|exists f0; by rewrite E0]. clear -Hj Hnew. intros x w w' Hx H (f & Hf & Hg).
    exists f. split; [|done]. unfold create_qer in H. destruct (qe_id x) as [id|] eqn:Eid; [|done]. destruct (new_qer _ _) as [[g|] d]; simplify_eq.
    simpl. rewrite lookup_insert_ne; [done|]. intros E. rewrite <- E, (Hnew x id Hx Eid) in Hj. done. }
  assert (J2 : forall j f0, s_qers s0 !! j = Some f0 -> exists f, s_qers (w_ses w2) !! j = Some f /\ sq_gid f = sq_gid f0).
  { intros j f0 Hj. pattern w2. eapply each_ok_inv; [|exact H2|by apply J1]. clear. intros x w w' Hx H (f & Hf & Hg).
    unfold update_qer_ie in H. destruct (qe_id x) as [id|]; [|done].
    destruct (update_qer _ _ _) as [[] d]; simplify_eq. simpl. destruct (decide (j = id)) as [->|Hne].
    - rewrite lookup_insert. eexists. split; [done|]. unfold get_qer. rewrite Hf. done.
    - rewrite lookup_insert_ne by done. eauto. }
  pattern w3. eapply each_ok_inv; [|exact H3|].
  - clear. intros x w w' Hx H Hs j f f0 Hf. unfold remove_qer_ie in H. destruct (qe_id x) as [id|]; [|done]. destruct (delete_qer _ _) as [[] d]; simplify_eq. simpl in Hf.
    apply lookup_delete_Some in Hf as [_ Hf]. by eapply Hs.
  - intros j f f0 Hf Hf0. destruct (J2 j f0 Hf0) as (f' & Hf' & <-). congruence.
Qed.

Lemma mod_rules_split ueip sh q w w' : mod_rules ueip sh q w = ROk w' ->
  (forall f, f ∈ mq_cfar q -> s_fars (w_ses w) !! default 0 (fa_id f) = None) ->
  (forall f i, f ∈ mq_cqer q -> qe_id f = Some i -> s_qers (w_ses w) !! i = None) ->
  exists w9, pdr_part w9 = pdr_part w /\ w_cache w9 = w_cache w /\ mod_pdrs ueip sh q w9 = ROk w' /\
    s_fars (w_ses w') = s_fars (w_ses w9) /\ s_qers (w_ses w') = s_qers (w_ses w9) /\
    same_gid_far (w_ses w) (w_ses w') /\ same_gid_qer (w_ses w) (w_ses w').
Proof.
  unfold mod_rules. intros H HF HQ.
  apply rbind_ok in H as (w1 & H1 & H). apply rbind_ok in H as (w2 & H2 & H). apply rbind_ok in H as (w3 & H3 & H).
  apply rbind_ok in H as (w4 & H4 & H). apply rbind_ok in H as (w5 & H5 & H). apply rbind_ok in H as (w6 & H6 & H).
  apply rbind_ok in H as (w7 & H7 & H). apply rbind_ok in H as (w8 & H8 & H). apply rbind_ok in H as (w9 & H9 & H).
  pose proof (fars_keep_gid (w_ses w) _ _ _ _ _ _ _ eq_refl H1 H2 H3 HF) as GF.
  destruct far_frame_pdr as (Fp1 & Fp2 & Fp3 & _), qer_frame_pdr as (Qp1 & Qp2 & Qp3 & _), urr_frame_pdr as (Up1 & Up2 & Up3 & _).
  destruct far_frame_pool as (Fc1 & Fc2 & Fc3 & _), qer_frame_pool as (Qc1 & Qc2 & Qc3 & _), urr_frame_pool as (Uc1 & Uc2 & Uc3 & _).
  destruct pdr_frame_far as (Pf1 & Pf2 & Pf3 & _), pdr_frame_qer as (Pq1 & Pq2 & Pq3 & _).
  destruct urr_frame_far as (Uf1 & Uf2 & Uf3 & _), urr_frame_qer as (Uq1 & Uq2 & Uq3 & _).
  destruct qer_frame_far as (Qf1 & Qf2 & Qf3 & _), far_frame_qer as (Fq1 & Fq2 & Fq3 & _).
  assert (EQ3 : s_qers (w_ses w3) = s_qers (w_ses w)).
  { pose proof (each_ok_keep _ _ _ _ _ Fq3 H3) as A3. pose proof (each_ok_keep _ _ _ _ _ Fq2 H2) as A2. pose proof (each_ok_keep _ _ _ _ _ Fq1 H1) as A1.
    rewrite A2, A1 in A3. unfold qer_part in A3. by injection A3. }
  pose proof (qers_keep_gid (w_ses w) _ _ _ _ _ _ _ EQ3 H4 H5 H6 HQ) as GQ.
  pose proof H as H'. apply rbind_ok in H' as (w10 & H10 & H'). apply rbind_ok in H' as (w11 & H11 & H12).
  assert (EF : s_fars (w_ses w9) = s_fars (w_ses w3)).
  { pose proof (each_ok_keep _ _ _ _ _ Uf3 H9) as A3. rewrite (each_ok_keep _ _ _ _ _ Uf2 H8), (each_ok_keep _ _ _ _ _ Uf1 H7),
     (each_ok_keep _ _ _ _ _ Qf3 H6), (each_ok_keep _ _ _ _ _ Qf2 H5), (each_ok_keep _ _ _ _ _ Qf1 H4) in A3. unfold far_part in A3. by injection A3. }
  assert (EQ : s_qers (w_ses w9) = s_qers (w_ses w6)).
  { pose proof (each_ok_keep _ _ _ _ _ Uq3 H9) as A3. rewrite (each_ok_keep _ _ _ _ _ Uq2 H8), (each_ok_keep _ _ _ _ _ Uq1 H7) in A3. unfold qer_part in A3. by injection A3. }
  assert (EF' : s_fars (w_ses w') = s_fars (w_ses w9)).
  { pose proof (each_ok_keep _ _ _ _ _ (Pf3 sh) H12) as A3. rewrite (each_ok_keep _ _ _ _ _ (Pf2 ueip) H11), (each_ok_keep _ _ _ _ _ (Pf1 ueip) H10) in A3.
    unfold far_part in A3. by injection A3. }
  assert (EQ' : s_qers (w_ses w') = s_qers (w_ses w9)).
  { pose proof (each_ok_keep _ _ _ _ _ (Pq3 sh) H12) as A3. rewrite (each_ok_keep _ _ _ _ _ (Pq2 ueip) H11), (each_ok_keep _ _ _ _ _ (Pq1 ueip) H10) in A3.
    unfold qer_part in A3. by injection A3. }
  exists w9. split; [|split; [|split; [exact H|]]].
  - rewrite (each_ok_keep _ _ _ _ _ Up3 H9), (each_ok_keep _ _ _ _ _ Up2 H8), (each_ok_keep _ _ _ _ _ Up1 H7), (each_ok_keep _ _ _ _ _ Qp3 H6),
      (each_ok_keep _ _ _ _ _ Qp2 H5), (each_ok_keep _ _ _ _ _ Qp1 H4), (each_ok_keep _ _ _ _ _ Fp3 H3), (each_ok_keep _ _ _ _ _ Fp2 H2), (each_ok_keep _ _ _ _ _ Fp1 H1). done.
  - assert (pool_part w9 = pool_part w) as E.
    { rewrite (each_ok_keep _ _ _ _ _ Uc3 H9), (each_ok_keep _ _ _ _ _ Uc2 H8), (each_ok_keep _ _ _ _ _ Uc1 H7), (each_ok_keep _ _ _ _ _ Qc3 H6),
      (each_ok_keep _ _ _ _ _ Qc2 H5), (each_ok_keep _ _ _ _ _ Qc1 H4), (each_ok_keep _ _ _ _ _ Fc3 H3), (each_ok_keep _ _ _ _ _ Fc2 H2), (each_ok_keep _ _ _ _ _ Fc1 H1). done. }
    by injection E.
  - split; [done|]. split; [done|]. split; intros j f f0; [rewrite EF', EF|rewrite EQ', EQ]; [apply GF|apply GQ].
Qed.

Lemma create_pdrs_cache ueip l : forall w w', each (create_pdr ueip) l w = ROk w' -> forallb no_choose_id l = true -> w_cache w' = w_cache w.
Proof.
  induction l as [|p l IH]; intros w w' H Hc; cbn [each] in H; [by simplify_eq|]. apply rbind_ok in H as (w1 & H1 & H2).
  cbn [forallb] in Hc. apply andb_true_iff in Hc as [Hc1 Hc2]. rewrite (IH _ _ H2 Hc2). clear IH H2 Hc2. unfold create_pdr in H1.
  destruct (pe_id p) as [id|]; [|done]. destruct (extract_pdr _ _ _ _) as [[s|] w2] eqn:E; [|done].
  destruct (apply_pdr _ _) as [[] d]; simplify_eq. simpl. clear -E Hc1. unfold extract_pdr, no_choose_id in *.
  destruct (pe_pdi p) as [pdi|]; [|done]. destruct (pdr_sdf _ _); [|done]. destruct (pi_fteid pdi) as [| |fe]; [|done|].
  - repeat (case_match; simplify_eq); done.
  - destruct (fe_chid fe); [done|]. repeat (case_match; simplify_eq); done.
Qed.
Lemma find_pdr_part w w' k : pdr_part w = pdr_part w' -> dp_find (w_dp w) k = dp_find (w_dp w') k.
Proof. unfold pdr_part. intros H. injection H as E1 E2 E3 _ _ _. by destruct k; simpl; rewrite ?E1, ?E2, ?E3. Qed.
Lemma pdrs_pdr_part w w' : pdr_part w = pdr_part w' -> s_pdrs (w_ses w) = s_pdrs (w_ses w').
Proof. unfold pdr_part. intros H. by injection H. Qed.
Lemma created_pdr_part w w' : pdr_part w = pdr_part w' -> w_created w = w_created w'.
Proof. unfold pdr_part. intros H. by injection H. Qed.
Lemma placed_same B U S d d' : (forall k, dp_find d' k = dp_find d k) -> placed B U S d -> placed B U S d'.
Proof. intros E [P1 P2 P3]. split; [|..|done]; intros; rewrite E; auto. Qed.

Lemma elem_all_keys (P : pdr_tables) k : k ∈ all_keys P <-> exists x m i a, P !! x = Some m /\ m !! i = Some a /\ ak_key a = k.
Proof.
  unfold all_keys, keys_of. rewrite elem_of_list_bind. split.
  - intros ([x m] & Hk & Hx). apply elem_of_map_to_list in Hx. simpl in Hk. apply elem_of_list_fmap in Hk as ([i a] & -> & Hi).
    apply elem_of_map_to_list in Hi. by exists x, m, i, a.
  - intros (x & m & i & a & Hx & Hi & <-). exists (x, m). split; [|by apply elem_of_map_to_list]. simpl.
    apply elem_of_list_fmap. exists (i, a). split; [done|]. by apply elem_of_map_to_list.
Qed.
Lemma low_octets_spec l t t' : low_octets l = true -> Up t ∈ l -> Up t' ∈ l -> u8 t = u8 t' -> t = t'.
Proof.
  unfold low_octets. rewrite forallb_forall. intros H Ht Ht' E. apply elem_of_list_In, H in Ht. rewrite forallb_forall in Ht.
  apply elem_of_list_In, Ht in Ht'. apply orb_true_iff in Ht' as [Hx|Hx]; [|by apply N.eqb_eq].
  apply negb_true_iff, N.eqb_neq in Hx. done.
Qed.
Lemma NoDup_u16 {A} (g : A -> option N) (l : list A) : (forall x, x ∈ l -> is_Some (g x)) -> NoDup (u16 ∘ default 0 ∘ g <$> l) -> NoDup (g <$> l).
Proof.
  intros Hs Hnd. apply (NoDup_fmap_1 (fun o => u16 (default 0 o))). rewrite <- list_fmap_compose.
  erewrite list_fmap_ext; [exact Hnd|]. intros i x _. done.
Qed.
Lemma has_some {A} (m : gmap N A) j : has m (Some j) = true -> is_Some (m !! j).
Proof. simpl. by rewrite bool_decide_eq_true. Qed.

Lemma pdrs_created_lookup r l : forall m i, is_Some (pdrs_created r l m !! i) -> is_Some (m !! i) \/ Some i ∈ (pe_id <$> l).
Proof.
  unfold pdrs_created. induction l as [|p l IH]; intros m i H; cbn [foldl] in H; [by left|]. apply IH in H as [H|H]; [|right; by right].
  unfold put_said in H. destruct (pe_id p) as [j|] eqn:E; [|by left]. destruct (decide (i = j)) as [->|Hne].
  - right. rewrite fmap_cons, E. left.
  - left. by rewrite lookup_insert_ne in H.
Qed.
(** Keys of PDRs after creation. *)
Lemma pdrs_created_keys r l : forall m i a, pdrs_created r l m !! i = Some a -> m !! i = Some a \/ ak_key a ∈ (said_key r <$> l).
Proof.
  unfold pdrs_created. induction l as [|p l IH]; intros m i a H; cbn [foldl] in H; [by left|]. apply IH in H as [H|H]; [|right; by right].
  unfold put_said in H. destruct (pe_id p) as [j|] eqn:E; [|by left]. apply lookup_insert_Some in H as [[<- <-]|[_ H]]; [right; left|by left].
Qed.

Lemma pdrs_created_upd r l : forall m i, (forall p, p ∈ l -> match pe_id p with Some j => m !! j = None | None => True end) ->
  upd (pdrs_created r l m) i = upd m i.
Proof.
  unfold pdrs_created. intros m i H. assert (G : forall m', (forall j, upd m' j = upd m j) -> upd (foldl (fun m p => put_said (said_key r p) m p) m' l) i = upd m i); [|by apply G].
  induction l as [|p l IH]; intros m' E; [apply E|]. cbn [foldl]. apply IH; [intros q Hq; apply H; by right|].
  intros j. unfold put_said. pose proof (H p ltac:(left)) as Hp. destruct (pe_id p) as [n|]; [|apply E].
  destruct (decide (j = n)) as [->|Hne]; [|unfold upd; rewrite lookup_insert_ne by done; apply E].
  unfold upd. by rewrite lookup_insert, Hp.
Qed.

Lemma mod_placed ueip sh q w w' r n3 P pm B : mod_rules ueip sh q w = ROk w' -> w_cache w = ∅ -> w_created w = [] ->
  r_created r = process_created n3 (w_created w') ->
  tidy_mod r (wfars w, wqers w) P pm q = true ->
  placed B (upd pm) (s_pdrs (w_ses w)) (w_dp w) -> agreeing (far_at (w_ses w)) (qer_at (w_ses w)) (s_pdrs (w_ses w)) pm ->
  (forall k, owned (s_pdrs (w_ses w)) k -> B k = None /\ k ∈ all_keys P) -> (forall k, k ∉ all_keys P -> B k = None) ->
  placed B (upd (pdrs_removed (mq_rpdr q) (pdrs_updated (mq_updr q) (pdrs_created r (mq_cpdr q) pm)))) (s_pdrs (w_ses w')) (w_dp w') /\
  agreeing (far_at (w_ses w')) (qer_at (w_ses w')) (s_pdrs (w_ses w')) (pdrs_removed (mq_rpdr q) (pdrs_updated (mq_updr q) (pdrs_created r (mq_cpdr q) pm))) /\
  (forall k, owned (s_pdrs (w_ses w')) k -> owned (s_pdrs (w_ses w)) k \/ k ∉ all_keys P).
Proof.
  intros H Hca Hcr Hr Ht HP HA HB HN. pose proof (mod_rules_said _ _ _ _ _ H) as [SF SQ].
  unfold tidy_mod in Ht. cbn [fst snd] in Ht. rewrite <- SF, <- SQ in Ht. rewrite !andb_true_iff in Ht.
  destruct Ht as ((((((((T1 & T2) & T3) & T4) & T5) & T6) & T7) & T8) & T9).
  rewrite forallb_forall in T1, T2, T3, T9. unfold tidy_create in T4. rewrite !andb_true_iff in T4. destruct T4 as ((T4a & T4b) & T4c).
  apply bool_decide_eq_true in T4a, T4b. rewrite forallb_forall in T4c, T5.
  destruct (mod_rules_split _ _ _ _ _ H) as (w9 & E9 & Ec9 & Hm & EF & EQ & GF & GQ).
  { intros f Hf. apply elem_of_list_In, T1 in Hf. apply bool_decide_eq_true in Hf. unfold wfars, fars_of in Hf. rewrite lookup_fmap in Hf.
    by apply fmap_None in Hf. }
  { intros f i Hf Hi. apply elem_of_list_In, T2 in Hf. rewrite Hi in Hf. apply bool_decide_eq_true in Hf. unfold wqers, qers_of in Hf. rewrite lookup_fmap in Hf.
    by apply fmap_None in Hf. }
  unfold mod_pdrs in Hm. apply rbind_ok in Hm as (w10 & H10 & Hm). apply rbind_ok in Hm as (w11 & H11 & H12).
  set (FG := fun j g => far_at (w_ses w) j g \/ far_at (w_ses w') j g). set (QG := fun j g => qer_at (w_ses w) j g \/ qer_at (w_ses w') j g).
  (* creation *)
  pose proof (create_pdrs_ok _ _ _ _ H10) as (new & Hmade & Hc10 & _).
  rewrite (created_pdr_part _ _ E9), Hcr in Hc10. simpl in Hc10.
  assert (Hfin : w_created w' = new).
  { rewrite (remove_pdrs_created _ _ _ _ H12). rewrite <- Hc10. clear -H11. revert w10 w11 H11. induction (mq_updr q) as [|p l IH]; intros w w' H; cbn [each] in H; [by simplify_eq|].
    apply rbind_ok in H as (w1 & H1 & H2). rewrite (IH _ _ H2). unfold update_pdr_ie in H1. destruct (pe_id p); [|done].
    destruct (extract_pdr _ _ _ _) as [[s|] w2] eqn:E; [|done]. apply extract_pdr_frame in E as (_ & _ & Ec & _).
    destruct (apply_pdr _ _) as [[] d]; by simplify_eq. }
  assert (Hkeys : Forall2 (fun p s => said_key r p = spdr_key s) (mq_cpdr q) new).
  { eapply said_key_made; [exact Hmade|rewrite Hr, Hfin; done|done]. }
  assert (Hsome : forall p, p ∈ mq_cpdr q -> is_Some (pe_id p)).
  { intros p (n & Hn)%elem_of_list_lookup. destruct (Forall2_lookup_l _ _ _ _ _ Hmade Hn) as (s & _ & (-> & _)). done. }
  assert (HFar : forall p j, p ∈ mq_cpdr q ++ mq_updr q -> pe_far p = Some j -> exists f, s_fars (w_ses w9) !! j = Some f /\ s_fars (w_ses w') !! j = Some f).
  { intros p j Hp Hj. apply elem_of_list_In, T5 in Hp. unfold refs_known in Hp. apply andb_true_iff in Hp as [Hp _]. rewrite Hj in Hp. apply has_some in Hp as [v Hv].
    unfold wfars, fars_of in Hv. rewrite lookup_fmap in Hv. apply fmap_Some in Hv as (f & Hf & _). exists f. by rewrite <- EF. }
  assert (HQer : forall p j, p ∈ mq_cpdr q ++ mq_updr q -> pe_qer p = Some j -> exists f, s_qers (w_ses w9) !! j = Some f /\ s_qers (w_ses w') !! j = Some f).
  { intros p j Hp Hj. apply elem_of_list_In, T5 in Hp. unfold refs_known in Hp. apply andb_true_iff in Hp as [_ Hp]. rewrite Hj in Hp. apply has_some in Hp as [v Hv].
    unfold wqers, qers_of in Hv. rewrite lookup_fmap in Hv. apply fmap_Some in Hv as (f & Hf & _). exists f. by rewrite <- EQ. }
  pose proof (pdrs_pdr_part _ _ E9) as ES9.
  destruct (creates_placed ueip r B (upd pm) FG QG (mq_cpdr q) w9 w10 pm new H10) as [HP10 HA10].
  { rewrite (created_pdr_part _ _ E9), Hcr. done. }
  { done. }
  { rewrite ES9. eapply placed_same; [|exact HP]. intros k. by apply find_pdr_part. }
  { rewrite ES9. eapply agreeing_mono; [exact HA|..]; intros; by left. }
  { intros p i Hp Hi. apply elem_of_list_In, T3 in Hp. rewrite Hi in Hp. apply bool_decide_eq_true in Hp. unfold upd. by rewrite Hp. }
  { by apply NoDup_u16. }
  { intros p i Hp Hi. rewrite ES9. apply elem_of_list_In, T3 in Hp. rewrite Hi in Hp. apply bool_decide_eq_true in Hp.
    destruct (s_pdrs (w_ses w) !! i) as [s|] eqn:E; [|done]. destruct (agreeing_l _ _ _ _ _ _ HA E) as (a & Ha & _). congruence. }
  { done. }
  { intros p Hp. apply elem_of_list_In, T4c in Hp. apply bool_decide_eq_true in Hp. split; [|by apply HN]. rewrite ES9. intros Hown. by apply HB in Hown as [_ ?]. }
  { intros p j Hp Hj. destruct (HFar p j) as (f & Hf & Hf'); [apply elem_of_app; by left|done|]. right. exists f. unfold get_far. by rewrite Hf. }
  { intros p j Hp Hj. destruct (HQer p j) as (f & Hf & Hf'); [apply elem_of_app; by left|done|]. right. exists f. unfold get_qer. by rewrite Hf. }
  (* update *)
  pose proof (each_ok_keep far_part _ _ _ _ (proj1 pdr_frame_far ueip) H10) as EF10. pose proof (each_ok_keep qer_part _ _ _ _ (proj1 pdr_frame_qer ueip) H10) as EQ10.
  assert (s_fars (w_ses w10) = s_fars (w_ses w9)) as EF10' by (unfold far_part in EF10; by injection EF10). clear EF10.
  assert (s_qers (w_ses w10) = s_qers (w_ses w9)) as EQ10' by (unfold qer_part in EQ10; by injection EQ10). clear EQ10.
  assert (HP10' : placed B (upd (pdrs_created r (mq_cpdr q) pm)) (s_pdrs (w_ses w10)) (w_dp w10)).
  { eapply placed_upd; [|exact HP10]. intros i _. apply pdrs_created_upd. intros p Hp. apply elem_of_list_In, T3 in Hp. destruct (pe_id p); [by apply bool_decide_eq_true in Hp|done]. }
  destruct (updates_placed ueip B FG QG (mq_updr q) w10 w11 _ H11 HP10' HA10 T6) as (HP11 & HA11 & Ec11).
  { intros p j Hp Hj. destruct (HFar p j) as (f & Hf & Hf'); [apply elem_of_app; by right|done|]. right. exists f. unfold get_far. by rewrite EF10', Hf. }
  { intros p j Hp Hj. destruct (HQer p j) as (f & Hf & Hf'); [apply elem_of_app; by right|done|]. right. exists f. unfold get_qer. by rewrite EQ10', Hf. }
  set (pm1 := pdrs_created r (mq_cpdr q) pm) in *. set (pm2 := pdrs_updated (mq_updr q) pm1) in *.
  (* keys after the updates *)
  assert (Hk11 : forall k, owned (s_pdrs (w_ses w11)) k -> owned (s_pdrs (w_ses w)) k \/ k ∉ all_keys P).
  { intros k (i & s & Hi & <-). destruct (agreeing_l _ _ _ _ _ _ HA11 Hi) as (a & Ha & [Ka _ _ _ _]). rewrite Ka.
    pose proof (pdrs_updated_keys (mq_updr q) pm1 i) as Eu. fold pm2 in Eu. rewrite Ha in Eu. simpl in Eu. symmetry in Eu. apply fmap_Some in Eu as (a1 & Ha1 & Ek1).
    apply pdrs_created_keys in Ha1 as [Ha1|Hin].
    - left. destruct (agreeing_r _ _ _ _ _ _ HA Ha1) as (s1 & Hs1 & [Kb _ _ _ _]). exists i, s1. split; [done|]. congruence.
    - right. rewrite Ek1. apply elem_of_list_fmap in Hin as (p & -> & Hp). apply elem_of_list_In, T4c in Hp. by apply bool_decide_eq_true in Hp. }
  assert (HB11 : forall k, owned (s_pdrs (w_ses w11)) k -> B k = None).
  { intros k Hk. destruct (Hk11 k Hk) as [Ho|Ho]; [by apply HB|by apply HN]. }
  pose proof (removes_ids _ _ _ _ H12) as ES12.
  assert (HP12 : placed B (upd pm2) (s_pdrs (w_ses w')) (w_dp w')).
  { destruct (decide (mq_rpdr q = [])) as [E|E]; [rewrite E in H12; cbn [each] in H12; by simplify_eq|].
    apply orb_true_iff in T7 as [T7|T7]; [by apply bool_decide_eq_true in T7|].
    apply (removes_placed sh (mq_rpdr q) w11 w' B (upd pm2) H12); [|done|done|].
    - rewrite Ec11, (create_pdrs_cache _ _ _ _ H10 T7), Ec9, Hca. done.
    - intros i j s s' t t' Hi Hj Hli Hlj Hk Hk' Eu. apply (low_octets_spec _ t t' T8); [..|done].
      + destruct (agreeing_l _ _ _ _ _ _ HA11 Hi) as (a & Ha & [Ka _ _ _ _]). unfold rids in Hli. apply elem_of_list_fmap in Hli as (p & Ep & Hp).
        apply elem_of_list_omap. exists p. split; [done|]. change (default 0 (pe_id p)) with ((default 0 ∘ pe_id) p). rewrite <- Ep, Ha. simpl. congruence.
      + destruct (agreeing_l _ _ _ _ _ _ HA11 Hj) as (a & Ha & [Ka _ _ _ _]). unfold rids in Hlj. apply elem_of_list_fmap in Hlj as (p & Ep & Hp).
        apply elem_of_list_omap. exists p. split; [done|]. change (default 0 (pe_id p)) with ((default 0 ∘ pe_id) p). rewrite <- Ep, Ha. simpl. congruence. }
  split; [|split].
  - eapply placed_upd; [|exact HP12]. intros i [s Hi]. unfold upd, pdrs_removed. rewrite foldl_delete_lookup. rewrite ES12, foldl_delete_lookup in Hi. by destruct (decide _).
  - eapply agreeing_mono; [rewrite ES12; apply agreeing_removed; exact HA11|..].
    + intros i a j g Hi Hj [Hfa|Hfa]; [|done]. assert (Hin : (i, a) ∈ map_to_list (pdrs_removed (mq_rpdr q) pm2)) by (by apply elem_of_map_to_list).
      apply elem_of_list_In, T9 in Hin. simpl in Hin. apply andb_true_iff in Hin as [Hin _]. rewrite Hj in Hin. apply has_some in Hin as [v Hv].
      unfold wfars, fars_of in Hv. rewrite lookup_fmap in Hv. apply fmap_Some in Hv as (f & Hf & _). exists f. split; [done|].
      destruct Hfa as (f0 & Hf0 & <-). by eapply GF.
    + intros i a j g Hi Hj [Hfa|Hfa]; [|done]. assert (Hin : (i, a) ∈ map_to_list (pdrs_removed (mq_rpdr q) pm2)) by (by apply elem_of_map_to_list).
      apply elem_of_list_In, T9 in Hin. simpl in Hin. apply andb_true_iff in Hin as [_ Hin]. rewrite Hj in Hin. apply has_some in Hin as [v Hv].
      unfold wqers, qers_of in Hv. rewrite lookup_fmap in Hv. apply fmap_Some in Hv as (f & Hf & _). exists f. split; [done|].
      destruct Hfa as (f0 & Hf0 & <-). by eapply GQ.
  - intros k (i & s & Hi & <-). apply Hk11. exists i, s. split; [|done]. rewrite ES12, foldl_delete_lookup in Hi. by destruct (decide (i ∈ rids (mq_rpdr q))).
Qed.

Lemma agreeing_empty (FG QG : N -> N -> Prop) : agreeing FG QG ∅ ∅.
Proof. intros i. rewrite !lookup_empty. constructor. Qed.
Lemma est_placed ueip q w w' r n3 P B : est_rules ueip q w = ROk w' -> dp_ok (w_dp w) -> w_created w = [] -> s_pdrs (w_ses w) = ∅ ->
  wfars w = ∅ -> wqers w = ∅ -> r_created r = process_created n3 (w_created w') ->
  tidy_create r P (eq_pdrs q) = true ->
  forallb (refs_known (fars_created (eq_fars q) ∅) (qers_created (eq_qers q) ∅)) (eq_pdrs q) = true ->
  (forall k, dp_find (w_dp w) k = B k) -> (forall k, k ∉ all_keys P -> B k = None) ->
  placed B (upd (pdrs_created r (eq_pdrs q) ∅)) (s_pdrs (w_ses w')) (w_dp w') /\
  agreeing (far_at (w_ses w')) (qer_at (w_ses w')) (s_pdrs (w_ses w')) (pdrs_created r (eq_pdrs q) ∅) /\
  (forall k, owned (s_pdrs (w_ses w')) k -> k ∉ all_keys P).
Proof.
  intros H Hok Hcr Hps HF0 HQ0 Hr T1 T2 HBe HN. pose proof (est_rules_said _ _ _ _ H) as [SF SQ]. rewrite HF0 in SF. rewrite HQ0 in SQ.
  rewrite <- SF, <- SQ in T2. rewrite forallb_forall in T2.
  unfold tidy_create in T1. rewrite !andb_true_iff in T1. destruct T1 as ((T1a & T1b) & T1c). apply bool_decide_eq_true in T1a, T1b. rewrite forallb_forall in T1c.
  unfold est_rules in H. apply rbind_ok in H as (w1 & H1 & H). apply rbind_ok in H as (w2 & H2 & H). apply rbind_ok in H as (w3 & H3 & H4).
  assert (E3 : pdr_part w3 = pdr_part w).
  { rewrite (each_ok_keep _ _ _ _ _ (proj1 urr_frame_pdr) H3), (each_ok_keep _ _ _ _ _ (proj1 qer_frame_pdr) H2), (each_ok_keep _ _ _ _ _ (proj1 far_frame_pdr) H1). done. }
  pose proof (each_ok_keep far_part _ _ _ _ (proj1 pdr_frame_far ueip) H4) as EF. pose proof (each_ok_keep qer_part _ _ _ _ (proj1 pdr_frame_qer ueip) H4) as EQ.
  assert (s_fars (w_ses w') = s_fars (w_ses w3)) as EF' by (unfold far_part in EF; by injection EF). clear EF.
  assert (s_qers (w_ses w') = s_qers (w_ses w3)) as EQ' by (unfold qer_part in EQ; by injection EQ). clear EQ.
  pose proof (create_pdrs_ok _ _ _ _ H4) as (new & Hmade & Hc & _). rewrite (created_pdr_part _ _ E3), Hcr in Hc. simpl in Hc.
  assert (Hkeys : Forall2 (fun p s => said_key r p = spdr_key s) (eq_pdrs q) new) by (eapply said_key_made; [exact Hmade|rewrite Hr, Hc; done|done]).
  assert (Hsome : forall p, p ∈ eq_pdrs q -> is_Some (pe_id p)).
  { intros p (n & Hn)%elem_of_list_lookup. destruct (Forall2_lookup_l _ _ _ _ _ Hmade Hn) as (s & _ & (-> & _)). done. }
  assert (ES3 : s_pdrs (w_ses w3) = ∅) by (by rewrite (pdrs_pdr_part _ _ E3)).
  destruct (creates_placed ueip r B (fun _ => false) (far_at (w_ses w')) (qer_at (w_ses w')) (eq_pdrs q) w3 w' ∅ new H4) as [HP HA].
  { by rewrite (created_pdr_part _ _ E3), Hcr. }
  { done. }
  { rewrite ES3. split.
    - intros i p. by rewrite lookup_empty.
    - intros k _. by rewrite (find_pdr_part _ _ k E3).
    - intros i j p p'. by rewrite lookup_empty. }
  { rewrite ES3. apply agreeing_empty. }
  { done. }
  { by apply NoDup_u16. }
  { intros p i _ _. by rewrite ES3. }
  { done. }
  { intros p Hp. apply elem_of_list_In, T1c in Hp. apply bool_decide_eq_true in Hp. split; [|by apply HN]. rewrite ES3. intros (i & s & Hi & _). by rewrite lookup_empty in Hi. }
  { intros p j Hp Hj. apply elem_of_list_In, T2 in Hp. unfold refs_known in Hp. apply andb_true_iff in Hp as [Hp _]. rewrite Hj in Hp. apply has_some in Hp as [v Hv].
    unfold wfars, fars_of in Hv. rewrite lookup_fmap in Hv. apply fmap_Some in Hv as (f & Hf & _). exists f. split; [done|]. unfold get_far. by rewrite <- EF', Hf. }
  { intros p j Hp Hj. apply elem_of_list_In, T2 in Hp. unfold refs_known in Hp. apply andb_true_iff in Hp as [_ Hp]. rewrite Hj in Hp. apply has_some in Hp as [v Hv].
    unfold wqers, qers_of in Hv. rewrite lookup_fmap in Hv. apply fmap_Some in Hv as (f & Hf & _). exists f. split; [done|]. unfold get_qer. by rewrite <- EQ', Hf. }
  split; [|split; [done|]].
  { eapply placed_upd; [|exact HP]. intros i _. rewrite pdrs_created_upd; [done|]. intros p _. destruct (pe_id p); [apply lookup_empty|done]. }
  intros k (i & s & Hi & <-). destruct (agreeing_l _ _ _ _ _ _ HA Hi) as (a & Ha & [Ka _ _ _ _]). rewrite Ka.
  apply pdrs_created_keys in Ha as [Ha|Ha]; [by rewrite lookup_empty in Ha|]. apply elem_of_list_fmap in Ha as (p & -> & Hp).
  apply elem_of_list_In, T1c in Hp. by apply bool_decide_eq_true in Hp.
Qed.

(** ** The state and the log *)
Record keyed (P : pdr_tables) (c : conn) : Prop := {
  kd_ses : forall a n s, session_of c a n = Some s -> exists pm, P !! (a, n) = Some pm /\ agreeing (far_at s) (qer_at s) (s_pdrs s) pm;
  kd_live : forall a n pm, P !! (a, n) = Some pm -> is_Some (session_of c a n);
  kd_in : forall a n s pm i p, session_of c a n = Some s -> P !! (a, n) = Some pm -> s_pdrs s !! i = Some p ->
    dp_find (c_dp c) (spdr_key p) = Some (entry_of (upd pm i) (sd_info p));
  kd_only : forall k ep, dp_find (c_dp c) k = Some ep -> exists a n s, session_of c a n = Some s /\ owned (s_pdrs s) k;
  kd_one : forall a n s i p a' n' s' i' p', session_of c a n = Some s -> s_pdrs s !! i = Some p ->
    session_of c a' n' = Some s' -> s_pdrs s' !! i' = Some p' -> spdr_key p = spdr_key p' -> a = a' /\ n = n' /\ i = i' }.

Lemma keyed_key P c a n s k : keyed P c -> session_of c a n = Some s -> owned (s_pdrs s) k -> k ∈ all_keys P.
Proof.
  intros [K1 _ _ _ _] Hs (i & p & Hi & <-). destruct (K1 _ _ _ Hs) as (pm & Hpm & HA). destruct (agreeing_l _ _ _ _ _ _ HA Hi) as (b & Hb & [Kb _ _ _ _]).
  apply elem_all_keys. by exists (a, n), pm, i, b.
Qed.
Lemma keyed_same P c c' : keyed P c -> (forall a n, session_of c' a n = session_of c a n) -> (forall k, dp_find (c_dp c') k = dp_find (c_dp c) k) -> keyed P c'.
Proof.
  intros [K1 K2 K3 K4 K5] Hs Hd. split.
  - intros a n s. rewrite Hs. apply K1.
  - intros a n pm. rewrite Hs. apply K2.
  - intros a n s pm i p. rewrite Hs, Hd. apply K3.
  - intros k ep. rewrite Hd. intros H. destruct (K4 _ _ H) as (a & n & s & H1 & H2). exists a, n, s. by rewrite Hs.
  - intros a n s i p a' n' s' i' p'. rewrite !Hs. apply K5.
Qed.
(** What the data plane has for the keys that are not of session [S0]. *)
Definition rest (S0 : spdrs) (d : dp) (k : key) : option ep_pdr :=
  if decide (k ∈ (spdr_key ∘ snd <$> map_to_list S0)) then None else dp_find d k.
Lemma rest_owned S0 d k : owned S0 k -> rest S0 d k = None.
Proof.
  intros (i & p & Hi & <-). unfold rest. rewrite decide_True; [done|]. apply elem_of_list_fmap. exists (i, p). split; [done|]. by apply elem_of_map_to_list.
Qed.
Lemma rest_other S0 d k : ~ owned S0 k -> rest S0 d k = dp_find d k.
Proof.
  intros H. unfold rest. rewrite decide_False; [done|]. intros Hin. apply elem_of_list_fmap in Hin as ([i p] & -> & Hin). apply elem_of_map_to_list in Hin.
  apply H. by exists i, p.
Qed.
Definition pdrs_opt (o : option session) : spdrs := match o with Some s => s_pdrs s | None => ∅ end.
Lemma owned_opt o k : owned (pdrs_opt o) k -> exists s, o = Some s /\ owned (s_pdrs s) k.
Proof. destruct o as [s|]; simpl; [eauto|]. intros (i & p & Hi & _). by rewrite lookup_empty in Hi. Qed.

Lemma keyed_put P c c' a n s' pm' : keyed P c ->
  (forall a' n', session_of c' a' n' = if decide (a' = a /\ n' = n) then Some s' else session_of c a' n') ->
  agreeing (far_at s') (qer_at s') (s_pdrs s') pm' -> placed (rest (pdrs_opt (session_of c a n)) (c_dp c)) (upd pm') (s_pdrs s') (c_dp c') ->
  (forall k, owned (s_pdrs s') k -> owned (pdrs_opt (session_of c a n)) k \/ k ∉ all_keys P) ->
  keyed (<[(a, n) := pm']> P) c'.
Proof.
  intros HK Hs HA [P1 P2 P3] Hown. pose proof HK as [K1 K2 K3 K4 K5].
  (* keys of other sessions *)
  assert (Hsep : forall a' n' s k, ~ (a' = a /\ n' = n) -> session_of c a' n' = Some s -> owned (s_pdrs s) k ->
    ~ owned (s_pdrs s') k /\ ~ owned (pdrs_opt (session_of c a n)) k).
  { intros a' n' s k Hne Hx Hk.
    assert (H2 : ~ owned (pdrs_opt (session_of c a n)) k).
    { intros (s0 & Es & Hk0)%owned_opt. destruct Hk as (i & p & Hi & Ei), Hk0 as (j & p' & Hj & Ej). apply Hne.
      destruct (K5 _ _ _ _ _ _ _ _ _ _ Hx Hi Es Hj) as (-> & -> & _); [congruence|done]. }
    split; [|done]. intros Hk'. destruct (Hown k Hk') as [?|Hn]; [done|]. apply Hn. by eapply keyed_key. }
  assert (Hdp : forall a' n' s k, ~ (a' = a /\ n' = n) -> session_of c a' n' = Some s -> owned (s_pdrs s) k -> dp_find (c_dp c') k = dp_find (c_dp c) k).
  { intros a' n' s k Hne Hx Hk. destruct (Hsep _ _ _ _ Hne Hx Hk) as [H1 H2]. rewrite P2 by done. by apply rest_other. }
  split.
  - intros a' n' s. rewrite Hs. destruct (decide (a' = a /\ n' = n)) as [[-> ->]|Hne].
    + intros [= <-]. exists pm'. by rewrite lookup_insert.
    + intros Hx. destruct (K1 _ _ _ Hx) as (pm & Hpm & Hag). exists pm. split; [|done]. rewrite lookup_insert_ne; [done|]. naive_solver.
  - intros a' n' pm. rewrite Hs. destruct (decide (a' = a /\ n' = n)) as [[-> ->]|Hne]; [done|]. rewrite lookup_insert_ne by naive_solver. apply K2.
  - intros a' n' s pm i p. rewrite Hs. destruct (decide (a' = a /\ n' = n)) as [[-> ->]|Hne].
    + rewrite lookup_insert. intros [= <-] [= <-] Hi. by apply (P1 i).
    + rewrite lookup_insert_ne by naive_solver. intros Hx Hp Hi. rewrite (Hdp _ _ _ _ Hne Hx); [by eapply K3|]. by exists i, p.
  - intros k ep Hk. destruct (owned_dec (s_pdrs s') k) as [Ho|Ho].
    + exists a, n, s'. rewrite Hs, decide_True by done. done.
    + rewrite P2 in Hk by done. destruct (owned_dec (pdrs_opt (session_of c a n)) k) as [Ho'|Ho']; [by rewrite rest_owned in Hk|].
      rewrite rest_other in Hk by done. destruct (K4 _ _ Hk) as (a' & n' & s & Hx & Hk').
      exists a', n', s. rewrite Hs. rewrite decide_False; [done|]. intros [-> ->]. apply Ho'. by rewrite Hx.
  - intros a1 n1 s1 i1 p1 a2 n2 s2 i2 p2. rewrite !Hs. destruct (decide (a1 = a /\ n1 = n)) as [[-> ->]|Hne1], (decide (a2 = a /\ n2 = n)) as [[-> ->]|Hne2].
    + intros [= <-] H1 [= <-] H2 E. split; [done|]. split; [done|]. by eapply P3.
    + intros [= <-] H1 Hx H2 E. exfalso. destruct (Hsep _ _ _ (spdr_key p2) Hne2 Hx) as [Hn _]; [by exists i2, p2|]. apply Hn. by exists i1, p1.
    + intros Hx H1 [= <-] H2 E. exfalso. destruct (Hsep _ _ _ (spdr_key p1) Hne1 Hx) as [Hn _]; [by exists i1, p1|]. apply Hn. by exists i2, p2.
    + apply K5.
Qed.
(** Sessions that end. *)
Lemma keyed_drop P P' c c' (D : N -> N -> bool) : keyed P c ->
  (forall a n, session_of c' a n = if D a n then None else session_of c a n) ->
  (forall a n, P' !! (a, n) = if D a n then None else P !! (a, n)) ->
  (forall a n s k, session_of c a n = Some s -> D a n = true -> owned (s_pdrs s) k -> dp_find (c_dp c') k = None) ->
  (forall k, (forall a n s, session_of c a n = Some s -> D a n = true -> ~ owned (s_pdrs s) k) -> dp_find (c_dp c') k = dp_find (c_dp c) k) ->
  keyed P' c'.
Proof.
  intros [K1 K2 K3 K4 K5] Hs HP Hgone Hkeep. split.
  - intros a n s. rewrite Hs, HP. destruct (D a n); [done|]. apply K1.
  - intros a n pm. rewrite Hs, HP. destruct (D a n); [done|]. apply K2.
  - intros a n s pm i p. rewrite Hs, HP. destruct (D a n) eqn:ED; [done|]. intros Hx Hp Hi. rewrite Hkeep; [by eapply K3|].
    intros a' n' s' Hx' HD (j & p' & Hj & E). destruct (K5 _ _ _ _ _ _ _ _ _ _ Hx Hi Hx' Hj (eq_sym E)) as (-> & -> & _). congruence.
  - intros k ep Hk. assert (Hk0 : dp_find (c_dp c) k = Some ep).
    { destruct (dp_find (c_dp c) k) as [ep0|] eqn:E0.
      - destruct (K4 _ _ E0) as (a & n & s & Hx & Ho). destruct (D a n) eqn:ED; [by rewrite (Hgone _ _ _ _ Hx ED Ho) in Hk|].
        rewrite <- E0. symmetry. rewrite <- Hk. apply Hkeep. intros a' n' s' Hx' HD (j & p' & Hj & E).
        destruct Ho as (i & p & Hi & Ei). destruct (K5 _ _ _ _ _ _ _ _ _ _ Hx Hi Hx' Hj) as (-> & -> & _); congruence.
      - rewrite Hkeep in Hk; [congruence|]. intros a n s Hx HD (i & p & Hi & E). destruct (K1 _ _ _ Hx) as (pm & Hpm & _). rewrite <- E, (K3 _ _ _ _ _ _ Hx Hpm Hi) in E0. done. }
    destruct (K4 _ _ Hk0) as (a & n & s & Hx & Ho). exists a, n, s. rewrite Hs. destruct (D a n) eqn:ED; [by rewrite (Hgone _ _ _ _ Hx ED Ho) in Hk|done].
  - intros a n s i p a' n' s' i' p'. rewrite !Hs. destruct (D a n); [done|]. destruct (D a' n'); [done|]. apply K5.
Qed.

Lemma low_octets_session P c a n s pm : keyed P c -> session_of c a n = Some s -> P !! (a, n) = Some pm -> low_octets (keys_of pm) = true ->
  low_octets_differ (pdrs_of s).
Proof.
  intros [K1 _ _ _ _] Hs Hp Hlow. destruct (K1 _ _ _ Hs) as (pm' & Hp' & HA). assert (pm' = pm) as -> by congruence.
  assert (Hin : forall p t, p ∈ pdrs_of s -> spdr_key p = Up t -> Up t ∈ keys_of pm).
  { intros p t [i Hi]%elem_of_pdrs Hk. destruct (agreeing_l _ _ _ _ _ _ HA Hi) as (b & Hb & [Kb _ _ _ _]). unfold keys_of.
    apply elem_of_list_fmap. exists (i, b). simpl. split; [congruence|]. by apply elem_of_map_to_list. }
  intros p p' t t' H1 H2 Hk1 Hk2. apply (low_octets_spec (keys_of pm)); eauto.
Qed.
Lemma owned_pdrs s k : owned (s_pdrs s) k <-> owns_key s k.
Proof.
  unfold owned, owns_key. split.
  - intros (i & p & Hi & Hk). exists p. split; [|done]. apply elem_of_pdrs. eauto.
  - intros (p & [i Hi]%elem_of_pdrs & Hk). eauto.
Qed.

Lemma keyed_step n l M P c e c' r : hinv n l c -> n < bound -> reachable c -> event_fair e -> follows M c -> keyed P c ->
  orderly_step M (e, r) = true -> tidy_step M P (e, r) = true -> step c e = Done c' r -> keyed (pdrs_step P (e, r)) c'.
Proof.
  intros Hinv Hn Hreach Hfair HM HK Ho Ht H. pose proof (reachable_ok _ Hreach) as [Hok _].
  destruct e as [sh addr seq m|sh addr|marks vols].
  - destruct m as [t|t|nd t|nd k f|nd|q|q|seid|ty]; simpl in H.
    + unfold handle_hb_req in H. destruct t; simplify_eq; done.
    + unfold handle_hb_resp in H. destruct t; simplify_eq; done.
    + unfold handle_setup in H. destruct nd as [| |nd]; [by simplify_eq..|]. destruct t as [| |t]; [by simplify_eq..|]. simplify_eq.
      simpl. eapply keyed_same; [exact HK| |].
      * intros a i. unfold ensure_assoc. destruct (c_assocs c !! addr) as [x|] eqn:Ha; [done|]. unfold session_of. simpl.
        destruct (decide (a = addr)) as [->|Hne]; [rewrite lookup_insert, Ha; simpl; by rewrite lookup_empty|by rewrite lookup_insert_ne].
      * intros k. unfold ensure_assoc. by destruct (c_assocs c !! addr).
    + assert (Hens : forall x, keyed P (ensure_assoc addr x c)).
      { intros x. eapply keyed_same; [exact HK| |].
        * intros a i. unfold ensure_assoc. destruct (c_assocs c !! addr) as [y|] eqn:Ha; [done|]. unfold session_of. simpl.
          destruct (decide (a = addr)) as [->|Hne]; [rewrite lookup_insert, Ha; simpl; by rewrite lookup_empty|by rewrite lookup_insert_ne].
        * intros k'. unfold ensure_assoc. by destruct (c_assocs c !! addr). }
      unfold handle_setup_resp in H. destruct nd as [| |nd], k as [| |k], f as [| |f]; simplify_eq; try done.
      destruct (k =? Accepted); simplify_eq; [|done]. simpl. apply Hens.
    + unfold handle_update in H. simpl. repeat (case_match; simplify_eq); simplify_eq; done.
    + unfold handle_est in H. destruct (validate_request _ _) as [remote|]; simplify_eq; [|done].
      destruct (c_assocs c !! addr) as [a|] eqn:Ha; simplify_eq; [|done]. destruct (existsb _ _); [done|].
      destruct (est_rules _ _ _) as [w|w|] eqn:Ew; simplify_eq.
      * simpl in Ht. apply andb_true_iff in Ht as [Ht1 Ht2].
        assert (Hnew : session_of c addr (next_seid a) = None).
        { destruct (session_of c addr (next_seid a)) as [s|] eqn:Es; [|done]. exfalso. unfold session_of in Es. rewrite Ha in Es.
          destruct (hi_seid _ _ _ Hinv _ _ _ _ Ha Es) as [Hx _]. destruct (hi_next _ _ _ Hinv _ _ Ha) as [_ Hx2].
          rewrite (next_seid_lt a n) in Hx by done. lia. }
        set (w0 := new_work (c_dp c) (new_session (next_seid a) remote) (c_rm c)) in *.
        match type of Ht1 with tidy_create ?x _ _ = _ => set (r0 := x) in * end.
        destruct (est_placed _ _ _ _ r0 (g_n3 (c_cfg c)) P (rest ∅ (c_dp c)) Ew Hok eq_refl eq_refl
          ltac:(unfold wfars, fars_of; simpl; by rewrite fmap_empty) ltac:(unfold wqers, qers_of; simpl; by rewrite fmap_empty) eq_refl Ht1 Ht2) as (HP & HA & Hown).
        { intros k. symmetry. apply rest_other. intros (i & p & Hi & _). by rewrite lookup_empty in Hi. }
        { intros k Hk. unfold rest. destruct (decide _); [done|]. destruct (dp_find (c_dp c) k) as [ep|] eqn:Ek; [|done].
          destruct (kd_only _ _ HK _ _ Ek) as (a' & n' & s & Hs & Hk'). destruct Hk. by eapply keyed_key. }
        change (pdrs_step P _) with (<[(addr, next_seid a) := pdrs_created r0 (eq_pdrs q) ∅]> P).
        eapply keyed_put; [exact HK| |exact HA|rewrite Hnew; exact HP|].
        -- intros a' n'. unfold session_of, put_session. simpl. rewrite insert_insert.
           destruct (decide (a' = addr)) as [->|Hne].
           ++ rewrite lookup_insert, Ha. simpl. destruct (decide (n' = next_seid a)) as [->|Hne2].
              ** rewrite lookup_insert. by rewrite decide_True.
              ** rewrite lookup_insert_ne by done. rewrite decide_False; [done|naive_solver].
           ++ rewrite lookup_insert_ne by done. rewrite decide_False; [done|naive_solver].
        -- intros k Hk. right. by apply Hown.
    + unfold handle_mod in H. destruct (c_assocs c !! addr) as [a|] eqn:Ha; simplify_eq; [|done].
      destruct (a_sessions a !! mq_seid q) as [s|] eqn:Hs; simplify_eq; [|done].
      destruct (_ || _); [done|].
      assert (Hs0 : session_of c addr (mq_seid q) = Some s) by (unfold session_of; by rewrite Ha).
      destruct (mod_rules _ _ _ _) as [w|w|] eqn:Ew; simplify_eq.
      set (s1 := match mq_fseid q with Good r => set_remote r s | _ => s end) in *.
      assert (s_fars s1 = s_fars s /\ s_qers s1 = s_qers s /\ s_pdrs s1 = s_pdrs s) as (F1 & F2 & F3) by (unfold s1; by destruct (mq_fseid q)).
      destruct (kd_ses _ _ HK _ _ _ Hs0) as (pm & Hpm & HA).
      simpl in Ht. rewrite (HM _ _ _ Hs0), Hpm in Ht.
      set (r := Resp 53 seq (s_remote (w_ses w)) (Some Accepted) None None (process_created (g_n3 (c_cfg c)) (w_created w)) (w_reports w) None None) in *.
      destruct (mod_placed _ _ _ _ _ r (g_n3 (c_cfg c)) P pm (rest (s_pdrs s) (c_dp c)) Ew eq_refl eq_refl eq_refl) as (HP & HA' & Hown).
      { unfold wfars, wqers, fars_of, qers_of. simpl. rewrite F1, F2. exact Ht. }
      { simpl. rewrite F3. split.
        - intros i p Hi. by eapply (kd_in _ _ HK).
        - intros k Hk. by rewrite rest_other.
        - intros i j p p' Hi Hj E. by destruct (kd_one _ _ HK _ _ _ _ _ _ _ _ _ _ Hs0 Hi Hs0 Hj E) as (_ & _ & ?). }
      { simpl. rewrite F3. unfold far_at, qer_at. rewrite F1, F2. exact HA. }
      { simpl. rewrite F3. intros k Hk. split; [by apply rest_owned|]. by eapply keyed_key. }
      { intros k Hk. unfold rest. destruct (decide _); [done|]. destruct (dp_find (c_dp c) k) as [ep|] eqn:Ek; [|done].
        destruct (kd_only _ _ HK _ _ Ek) as (a' & n' & s' & Hs' & Hk'). destruct Hk. by eapply keyed_key. }
      assert (pdrs_step P (Recv sh addr seq (SessModReq q), Some r) =
        <[(addr, mq_seid q) := pdrs_removed (mq_rpdr q) (pdrs_updated (mq_updr q) (pdrs_created r (mq_cpdr q) pm))]> P) as ->.
      { simpl. apply map_eq. intros k. destruct (decide (k = (addr, mq_seid q))) as [->|Hne].
        - by rewrite lookup_alter, lookup_insert, Hpm.
        - by rewrite lookup_alter_ne, lookup_insert_ne. }
      eapply keyed_put; [exact HK| |exact HA'|rewrite Hs0; exact HP|].
      * intros a' n'. unfold session_of, put_session. simpl.
        destruct (decide (a' = addr)) as [->|Hne].
        -- rewrite lookup_insert, Ha. simpl. destruct (decide (n' = mq_seid q)) as [->|Hne2].
           ++ rewrite lookup_insert. by rewrite decide_True.
           ++ rewrite lookup_insert_ne by done. rewrite decide_False; [done|naive_solver].
        -- rewrite lookup_insert_ne by done. rewrite decide_False; [done|naive_solver].
      * intros k Hk. rewrite Hs0. simpl. simpl in Hown. rewrite F3 in Hown. by apply Hown.
    + pose proof H as H0. unfold handle_del in H. destruct (c_assocs c !! addr) as [a|] eqn:Ha; simplify_eq; [|done].
      destruct (a_sessions a !! seid) as [s|] eqn:Hs; simplify_eq; [|done].
      assert (Hs0 : session_of c addr seid = Some s) by (unfold session_of; by rewrite Ha).
      destruct (kd_ses _ _ HK _ _ _ Hs0) as (pm & Hpm & HA).
      assert (Hlow : low_octets (keys_of pm) = true /\ r <> None).
      { simpl in Ht. rewrite Hpm in Ht. apply andb_true_iff in Ht as [Ht1 Ht2]. split; [done|]. by destruct r. }
      destruct Hlow as [Hlow Hr].
      destruct (del_rules _ _ _) as [w|w|] eqn:Ew; simplify_eq. simpl in Hfair.
      match goal with |- keyed (pdrs_step P (_, Some ?r)) _ => set (r0 := r) in * end.
      destruct (session_deletion_partial sh addr seq seid c _ r0 s Hreach Hfair Hs0 H0 eq_refl) as (_ & Hgone & Hkeep & _).
      eapply (keyed_drop P _ c _ (fun a n => (a =? addr) && (n =? seid))); [exact HK|..].
      * intros a' n'. unfold session_of. simpl. destruct (N.eqb_spec a' addr) as [->|Hne]; simpl.
        -- rewrite lookup_insert, Ha. simpl. destruct (N.eqb_spec n' seid) as [->|Hne2]; [apply lookup_delete|by rewrite lookup_delete_ne].
        -- by rewrite lookup_insert_ne.
      * intros a' n'. simpl. destruct (N.eqb_spec a' addr) as [->|Hne]; simpl; [destruct (N.eqb_spec n' seid) as [->|Hne2]|].
        -- apply lookup_delete.
        -- rewrite lookup_delete_ne; [done|congruence].
        -- rewrite lookup_delete_ne; [done|congruence].
      * intros a' n' s' k Hs' HD Hk. apply andb_true_iff in HD as [->%N.eqb_eq ->%N.eqb_eq]. assert (s' = s) as -> by congruence.
        apply owned_pdrs in Hk as (p & Hp & <-). apply Hgone; [done|]. apply low_octets_alone; [|done]. by eapply low_octets_session.
      * intros k Hk. apply Hkeep. intros p Hp E. apply (Hk addr seid s Hs0); [by rewrite !N.eqb_refl|]. apply owned_pdrs. by exists p.
    + by simplify_eq.
  - simpl in H. unfold prune in H. destruct (c_assocs c !! addr) as [a|] eqn:Ha; [|done].
    destruct (prune_sessions _ _ _ _) as [[d rm]|] eqn:E; simplify_eq. simpl in Hfair.
    destruct (prune_sessions_effect _ _ Hfair _ _ _ _ Hok E) as (_ & Hall & _ & _ & HOK).
    assert (Hses : forall seid s, session_of c addr seid = Some s <-> (seid, s) ∈ entries sh 4 (a_sessions a)).
    { intros seid s. unfold session_of. rewrite Ha. by rewrite elem_of_entries. }
    eapply (keyed_drop P _ c _ (fun a n => a =? addr)); [exact HK|..].
    + intros a' n'. unfold session_of. simpl. destruct (N.eqb_spec a' addr) as [->|Hne]; [by rewrite lookup_delete|by rewrite lookup_delete_ne].
    + intros a' n'. cbn [pdrs_step]. destruct (N.eqb_spec a' addr) as [->|Hne].
      * apply map_filter_lookup_None. right. intros x _. simpl. naive_solver.
      * destruct (P !! (a', n')) as [pm|] eqn:Ep.
        -- apply map_filter_lookup_Some. done.
        -- apply map_filter_lookup_None. by left.
    + intros a' n' s k Hs ->%N.eqb_eq Hk. simpl. destruct (kd_ses _ _ HK _ _ _ Hs) as (pm & Hpm & HA).
      eapply (Hall n' s); [by apply Hses| |by apply owned_pdrs]. eapply low_octets_session; [exact HK|exact Hs|exact Hpm|].
      cbn [tidy_step] in Ht. rewrite forallb_forall in Ht. assert (Hin : (addr, n', pm) ∈ map_to_list P) by (by apply elem_of_map_to_list).
      apply elem_of_list_In, Ht in Hin. simpl in Hin. rewrite N.eqb_refl in Hin. done.
    + intros k Hk. simpl. apply HOK. intros n' s Hs Hown. apply (Hk addr n' s); [by apply Hses|apply N.eqb_refl|]. by apply owned_pdrs.
  - simpl in H. simplify_eq. simpl. eapply keyed_same; [exact HK|done|]. intros [k|k|k]; done.
Qed.

Lemma tidy_snoc l x : forall M P, tidy_from M P (l ++ [x]) = true ->
  tidy_from M P l = true /\ orderly_step (foldl asked_step M l) x = true /\ tidy_step (foldl asked_step M l) (foldl pdrs_step P l) x = true.
Proof.
  induction l as [|y l IH]; intros M P H; cbn [app tidy_from foldl] in *.
  - rewrite !andb_true_iff in H. tauto.
  - rewrite !andb_true_iff in H. destruct H as [[H1 H2] H3]. destruct (IH _ _ H3) as (A & B & C). by rewrite H1, H2, A.
Qed.
Lemma tidy_run g rm p f q u es c l : start_pools rm -> Forall event_fair es -> run (init g rm (dp_init p f q u)) es = Some (c, l) ->
  N.of_nat (length es) <= bound -> tidy l = true -> careful_history c /\ follows (asked_in l) c /\ keyed (pdrs_in l) c.
Proof.
  intros Hrm Hf Hrun Hb.
  pose (I := fun n (l : log) c => hinv n l c /\ (tidy l = true -> careful_history c /\ follows (asked_in l) c /\ keyed (pdrs_in l) c)).
  assert (HI : I (0 + N.of_nat (length es)) ([] ++ l) c).
  { apply (run_inv I event_fair bound) with (n := 0) (l0 := []) (c := init g rm (dp_init p f q u)) (es := es); [|..|lia|done|done].
    - intros n l1 c1 e r c' [Hh HI] Hn He Hs. split; [by eapply hinv_step|]. intros Ht. apply tidy_snoc in Ht as (Ht & Ho & Ht2).
      destruct (HI Ht) as (Hc & HM & HK). split; [|split].
      + eapply ch_step; [done|done|exact (orderly_step_careful _ _ _ _ _ HM Ho Hs)|done].
      + unfold asked_in. rewrite foldl_app. cbn [foldl]. by eapply follows_step.
      + unfold pdrs_in. rewrite foldl_app. cbn [foldl]. eapply keyed_step; try done. by apply careful_reachable.
    - split; [apply hinv_init|]. intros _. split; [by apply ch_init|]. split.
      + intros addr seid s Hs. unfold session_of, init in Hs. simpl in Hs. by rewrite lookup_empty in Hs.
      + split; unfold session_of, init; simpl.
        * intros a n s. by rewrite lookup_empty.
        * intros a n pm. by rewrite lookup_empty.
        * intros a n s pm i p0. by rewrite lookup_empty.
        * intros [k|k|k] ep; simpl; by rewrite lookup_empty.
        * intros a n s i p0 a' n' s' i' p'. by rewrite lookup_empty. }
  destruct HI as [_ HI]. exact HI.
Qed.

(** ** C66 *)

(** The PDRs of the live sessions, per peer, F-SEID and PDR id. *)
Definition pdr_asked (l : log) (addr seid i : N) : option pdr_ask := pdrs_in l !! (addr, seid) ≫= fun m => m !! i.
(** A data-plane rule (header removal, FAR, QER) does what a PDR asks for. *)
Definition rule_as_asked (l : log) (addr seid : N) (a : pdr_ask) (d : dp) (ohr far qer : N) : Prop :=
  ohr = ak_ohr a /\
  (forall j, ak_far a = Some j -> exists v, asked_far l addr seid j = Some v /\ far_get d far = Some v) /\
  (forall j, ak_qer a = Some j -> exists v, asked_qer l addr seid j = Some v /\ qer_value d qer = Some v).
Definition entry_as_asked (l : log) (addr seid : N) (a : pdr_ask) (d : dp) (ep : ep_pdr) : Prop :=
  match ak_sdf a with
  | None => ep_mode ep = 0 /\ rule_as_asked l addr seid a d (ep_ohr ep) (ep_far ep) (ep_qer ep)
  | Some f => (ep_mode ep = if ak_again a then 2 else 1) /\ er_filter (ep_rules_ ep) = ep_filter_of f /\
      rule_as_asked l addr seid a d (er_ohr (ep_rules_ ep)) (er_far (ep_rules_ ep)) (er_qer (ep_rules_ ep)) /\
      (* what packets that do not match get if the PDR has been updated *)
      ep_ohr ep = 0 /\ ep_far ep = 0 /\ ep_qer ep = 0
  end.

Theorem pdrs_follow_requests_partial :
  forall g rm p f q u es c l, start_pools rm -> Forall event_fair es ->
    run (init g rm (dp_init p f q u)) es = Some (c, l) -> N.of_nat (length es) <= bound -> tidy l = true ->
    (* every PDR of a live session is there and refers to the right rules *)
    (forall addr seid i a, pdr_asked l addr seid i = Some a -> (addr, seid) ∈ PfcpHistory.live l /\
       exists ep, dp_find (c_dp c) (ak_key a) = Some ep /\ entry_as_asked l addr seid a (c_dp c) ep) /\
    (* nothing else is *)
    (forall k ep, dp_find (c_dp c) k = Some ep -> exists addr seid i a, pdr_asked l addr seid i = Some a /\ ak_key a = k) /\
    (* and they are told apart *)
    (forall addr seid i a addr' seid' i' a', pdr_asked l addr seid i = Some a -> pdr_asked l addr' seid' i' = Some a' ->
       ak_key a = ak_key a' -> addr = addr' /\ seid = seid' /\ i = i').
Proof.
  intros g rm p f q u es c l Hrm Hf Hrun Hb Ht. destruct (tidy_run _ _ _ _ _ _ _ _ _ Hrm Hf Hrun Hb Ht) as (Hc & HM & HK).
  pose proof (session_table_follows_log _ _ _ _ _ _ Hrun ltac:(lia)) as Hlive. destruct (careful_mirror _ Hc) as [[FG FI] [QG QI]].
  pose proof HK as [K1 K2 K3 K4 K5].
  assert (Hask : forall addr seid i a, pdr_asked l addr seid i = Some a ->
    exists s pd, session_of c addr seid = Some s /\ s_pdrs s !! i = Some pd /\ agreeR (far_at s) (qer_at s) pd a /\
      dp_find (c_dp c) (spdr_key pd) = Some (entry_of (ak_again a) (sd_info pd))).
  { intros addr seid i a Ha. unfold pdr_asked in Ha. destruct (pdrs_in l !! (addr, seid)) as [pm|] eqn:Ep; [|done]. simpl in Ha.
    destruct (K2 _ _ _ Ep) as [s Hs]. destruct (K1 _ _ _ Hs) as (pm' & Ep' & HA). assert (pm' = pm) as -> by congruence.
    destruct (agreeing_r _ _ _ _ _ _ HA Ha) as (pd & Hpd & Hag). exists s, pd. split_and!; [done..|].
    pose proof (K3 _ _ _ _ _ _ Hs Ep Hpd) as Hx. unfold upd in Hx. by rewrite Ha in Hx. }
  split_and!.
  - intros addr seid i a Ha. destruct (Hask _ _ _ _ Ha) as (s & pd & Hs & Hpd & [A1 A2 A3 A4 A5] & Hent). split; [apply Hlive; by rewrite Hs|].
    exists (entry_of (ak_again a) (sd_info pd)). rewrite <- A1. split; [done|].
    assert (Hrule : rule_as_asked l addr seid a (c_dp c) (pr_ohr (sd_info pd)) (pr_far (sd_info pd)) (pr_qer (sd_info pd))).
    { split; [done|]. split.
      - intros j Hj. destruct (A4 j Hj) as (f1 & Hf1 & <-). exists (sf_info f1). split.
        + unfold asked_far. unfold follows in HM. rewrite (HM _ _ _ Hs). simpl. unfold fars_of. by rewrite lookup_fmap, Hf1.
        + apply (FG addr seid s j (sf_gid f1) (sf_info f1) Hs). simpl. by rewrite lookup_fmap, Hf1.
      - intros j Hj. destruct (A5 j Hj) as (f1 & Hf1 & <-). exists (rule_of_qer (sq_info f1)). split.
        + unfold asked_qer. rewrite (HM _ _ _ Hs). simpl. unfold qers_of. by rewrite lookup_fmap, Hf1.
        + apply (QG addr seid s j (sq_gid f1) (rule_of_qer (sq_info f1)) Hs). simpl. by rewrite lookup_fmap, Hf1. }
    unfold entry_as_asked, entry_of. rewrite A3. destruct (ak_sdf a); [|done]. by destruct (ak_again a).
  - intros k ep Hk. destruct (K4 _ _ Hk) as (addr & seid & s & Hs & i & pd & Hpd & <-). destruct (K1 _ _ _ Hs) as (pm & Ep & HA).
    destruct (agreeing_l _ _ _ _ _ _ HA Hpd) as (a & Ha & [A1 _ _ _ _]). exists addr, seid, i, a. split; [|done]. unfold pdr_asked. by rewrite Ep.
  - intros addr seid i a addr' seid' i' a' Ha Ha' E. destruct (Hask _ _ _ _ Ha) as (s & pd & Hs & Hpd & [A1 _ _ _ _] & _).
    destruct (Hask _ _ _ _ Ha') as (s' & pd' & Hs' & Hpd' & [A1' _ _ _ _] & _). eapply K5; [exact Hs|exact Hpd|exact Hs'|exact Hpd'|congruence].
Qed.

From Coq Require Import String.

(** A tidy log: a session with an uplink tunnel chosen by the UPF, one given by the SMF and a filtered downlink PDR; a second
    session, modified (one PDR created, one updated, one removed); a third one, deleted; packets in between. *)
Definition ex_upc (id far : N) : pdr_ie := PdrIe (Some id) (Some 0) (Some far) (Some 1) [] (Some (PdiIe true (Good (FteidIe 0 true None)) Absent)) None.
Definition ex_upg (id teid far : N) : pdr_ie := PdrIe (Some id) (Some 0) (Some far) (Some 1) [] (Some (PdiIe true (Good (FteidIe teid false None)) Absent)) None.
Definition ex_dns (id ip far : N) : pdr_ie :=
  PdrIe (Some id) None (Some far) (Some 1) [] (Some (PdiIe true Absent (Good (UeipIe false (Some ip) None)))) (Some (str "permit out udp from 10.62.7.1/8 5-9 to assigned 80"%string)).
Definition ex_est_pdrs (pdrs : list pdr_ie) : msg :=
  SessEstReq (EstReq (Good 5) (Good 100) [FarIe (Some 1) (Some [2]) None None; FarIe (Some 2) (Some [2]) (Some (Good (OhcIe 256 85 (Some 167772169) false))) (Some 10240)]
    [QerIe (Some 1) (Some 0) (Some 0) (Some 10) (Some 20) (Some 9)] [] pdrs).
Definition ex_tidy : list event :=
  [ex_setup; ex_recv 2 (ex_est_pdrs [ex_upc 1 1; ex_upg 2 256 1; ex_dns 3 171704321 2]);
   ex_recv 3 (ex_est_pdrs [ex_upg 1 300 1; ex_dl 2 171704322 2 1]); Traffic {[ 0 := (77, 88) ]} ∅;
   ex_recv 4 (SessModReq (ModReq 3 Absent [FarIe (Some 3) (Some [1]) None None] [] [] [] [] [] [] [] [] [ex_upg 3 301 1]
     [PdrIe (Some 1) None (Some 3) None [] (Some (PdiIe true (Good (FteidIe 300 false None)) Absent)) None] [PdrIe (Some 2) None None None [] None None]));
   ex_recv 5 (ex_est_pdrs [ex_upg 1 400 1; ex_dl 2 171704323 2 1]); ex_recv 6 (SessDelReq 4);
   ex_recv 7 (SessModReq (ModReq 2 Absent [] [] [] [] [] [] [] [] [] [] [PdrIe (Some 3) None (Some 1) None [] (Some (PdiIe true Absent (Good (UeipIe false (Some 171704321) None)))) None] []))].
Definition ex_logs (es : list event) (P : log -> bool) : bool := match ex_start es with Some (_, l) => P l | None => false end.
Lemma ex_logs_inv es P : ex_logs es P = true -> exists c l, ex_start es = Some (c, l) /\ P l = true.
Proof. unfold ex_logs. destruct (ex_start es) as [[c l]|]; [|done]. eauto. Qed.
Definition asked_is (l : log) (addr seid i : N) (k : key) (far : N) (sdf : bool) : bool :=
  match pdr_asked l addr seid i with
  | Some a => bool_decide (ak_key a = k) && bool_decide (ak_far a = Some far) && Bool.eqb sdf (match ak_sdf a with Some _ => true | None => false end)
  | None => false end.
Lemma asked_is_inv l addr seid i k far sdf : asked_is l addr seid i k far sdf = true ->
  exists a, pdr_asked l addr seid i = Some a /\ ak_key a = k /\ ak_far a = Some far /\ (is_Some (ak_sdf a) <-> sdf = true).
Proof.
  unfold asked_is. destruct (pdr_asked l addr seid i) as [a|]; [|done]. rewrite !andb_true_iff. intros [[H1%bool_decide_eq_true H2%bool_decide_eq_true] H3%Bool.eqb_prop].
  exists a. split_and!; try done. rewrite H3. destruct (ak_sdf a); split; try done. by intros [? [=]].
Qed.
Example ex_tidy_ok : exists c l, ex_start ex_tidy = Some (c, l) /\ tidy l = true /\ Forall event_fair ex_tidy /\
  (exists a, pdr_asked l 7 2 1 = Some a /\ ak_key a = Up 1 /\ ak_far a = Some 1 /\ (is_Some (ak_sdf a) <-> false = true)) /\
  (exists a, pdr_asked l 7 2 3 = Some a /\ ak_key a = Dn4 171704321 /\ ak_far a = Some 1 /\ (is_Some (ak_sdf a) <-> true = true)) /\
  (exists a, pdr_asked l 7 3 1 = Some a /\ ak_key a = Up 300 /\ ak_far a = Some 3 /\ (is_Some (ak_sdf a) <-> false = true)) /\
  (exists a, pdr_asked l 7 3 3 = Some a /\ ak_key a = Up 301 /\ ak_far a = Some 1 /\ (is_Some (ak_sdf a) <-> false = true)) /\
  pdr_asked l 7 3 2 = None /\ pdr_asked l 7 4 1 = None /\
  (* the filtered PDR 3 of session 2 has been updated: it now names FAR 1 *)
  (exists a, pdr_asked l 7 2 3 = Some a /\ ak_again a = true).
Proof.
  assert (H : ex_logs ex_tidy (fun l => tidy l && asked_is l 7 2 1 (Up 1) 1 false && asked_is l 7 2 3 (Dn4 171704321) 1 true &&
    asked_is l 7 3 1 (Up 300) 3 false && asked_is l 7 3 3 (Up 301) 1 false &&
    match pdr_asked l 7 3 2, pdr_asked l 7 4 1 with None, None => true | _, _ => false end &&
    match pdr_asked l 7 2 3 with Some a => ak_again a | None => false end) = true) by by vm_compute.
  apply ex_logs_inv in H as (c & l & Hc & H). rewrite !andb_true_iff in H. destruct H as ((((((H1 & H2) & H3) & H4) & H5) & H6) & H7).
  exists c, l. split; [exact Hc|]. clear Hc. split; [exact H1|]. split; [repeat constructor; apply id_shuffle_fair|].
  apply asked_is_inv in H2, H3, H4, H5. split; [exact H2|]. split; [exact H3|]. split; [exact H4|]. split; [exact H5|].
  destruct (pdr_asked l 7 3 2); [done|]. destruct (pdr_asked l 7 4 1); [done|]. split_and!; [done..|].
  destruct (pdr_asked l 7 2 3) as [a|]; [eauto|done].
Qed.

(** The general claim - every PDR of a live session is installed - fails: two sessions with the same TEID are both accepted, and
    the deletion of one takes the other's rule away. *)
Theorem forwarding_follows_sessions_refuted :
  exists es c l, Forall event_fair es /\ ex_start es = Some (c, l) /\
    exists addr seid i a, (addr, seid) ∈ PfcpHistory.live l /\ pdr_asked l addr seid i = Some a /\ dp_find (c_dp c) (ak_key a) = None.
Proof.
  exists [ex_setup; ex_recv 2 (ex_est_pdrs [ex_upg 1 300 1]); ex_recv 3 (ex_est_pdrs [ex_upg 1 300 1]); ex_recv 4 (SessDelReq 2)].
  set (es := [_; _; _; _]).
  assert (H : match ex_start es with Some (c, l) => asked_is l 7 3 1 (Up 300) 1 false && bool_decide ((7, 3) ∈ PfcpHistory.live l) &&
    match dp_find (c_dp c) (Up 300) with None => true | Some _ => false end | None => false end = true) by by vm_compute.
  destruct (ex_start es) as [[c l]|]; [|discriminate H]. rewrite !andb_true_iff in H. destruct H as [[H1%asked_is_inv H2%bool_decide_eq_true] H3].
  exists c, l. split; [repeat constructor; apply id_shuffle_fair|]. split; [reflexivity|].
  destruct H1 as (a & Ha & Hk & _). exists 7, 3, 1, a. split; [exact H2|]. split; [exact Ha|]. rewrite Hk. by destruct (dp_find (c_dp c) (Up 300)).
Qed.
