(** The configured capacity: how many sessions can be established, and for how long. *)
From Verif Require Import Base IdTracker ResourceManager SdfParser MapOps Pfcp PfcpProps PfcpHistory PfcpReach PfcpRules PfcpCreate PfcpRemove
  PfcpReject PfcpInv PfcpAsked PfcpTeid PfcpKeys Config Ids.

Lemma frugal_snoc k l x : forall L, frugal_from k L (l ++ [x]) = true -> frugal_from k L l = true /\ frugal_step k (foldl (ids_step k) L l) x = true.
Proof.
  induction l as [|y l IH]; intros L H; cbn [app frugal_from foldl] in *; apply andb_true_iff in H as [H1 H2]; [done|].
  destruct (IH _ H2) as [A B]. by rewrite H1, A.
Qed.
Lemma covered_run k g rm p f q u es c l : Forall event_fair es -> run (init g rm (dp_init p f q u)) es = Some (c, l) ->
  N.of_nat (length es) <= bound -> frugal k l = true -> covered k (match k with KFar => f | KQer => q | KUrr => u end) (ids_in k l) c.
Proof.
  intros Hf Hrun Hb. set (z := match k with KFar => f | KQer => q | KUrr => u end).
  pose (I := fun n (l : log) c => hinv n l c /\ (frugal k l = true -> covered k z (ids_in k l) c)).
  assert (HI : I (0 + N.of_nat (length es)) ([] ++ l) c).
  { apply (run_inv I event_fair bound) with (n := 0) (l0 := []) (c := init g rm (dp_init p f q u)) (es := es); [|..|lia|done|done].
    - intros n l1 c1 e r c' [Hh HI] Hn He Hs. split; [by eapply hinv_step|]. intros Ht. apply frugal_snoc in Ht as (Ht & Ht2).
      unfold ids_in. rewrite foldl_app. cbn [foldl]. eapply covered_step; try done. by apply HI.
    - split; [apply hinv_init|]. intros _. split; unfold session_of, init; cbn [c_assocs c_dp].
      + by destruct k.
      + by destruct k.
      + intros a n s. by rewrite lookup_empty.
      + intros x Hx. left. by destruct k; cbn; apply elem_of_Nseq. }
  by destruct HI.
Qed.

(** ** Counting *)
Definition all_sessions (c : conn) : list session := map_to_list (c_assocs c) ≫= fun x => snd <$> map_to_list (a_sessions (snd x)).
Lemma elem_of_all_sessions c s : s ∈ all_sessions c <-> exists a n, session_of c a n = Some s.
Proof.
  unfold all_sessions, session_of. rewrite elem_of_list_bind. split.
  - intros ([a x] & Hs & Ha%elem_of_map_to_list). apply elem_of_list_fmap in Hs as ([n s'] & -> & Hn%elem_of_map_to_list). exists a, n. by rewrite Ha.
  - intros (a & n & H). destruct (c_assocs c !! a) as [x|] eqn:Ha; [|done]. exists (a, x). split; [|by apply elem_of_map_to_list].
    apply elem_of_list_fmap. exists (n, s). split; [done|by apply elem_of_map_to_list].
Qed.
Lemma all_sessions_length c : length (all_sessions c) = session_count c.
Proof.
  unfold all_sessions, session_count. induction (map_to_list (c_assocs c)) as [|[a x] l IH]; [done|].
  cbn [mbind list_bind foldr fst snd]. rewrite app_length, fmap_length. by rewrite <- IH.
Qed.
Lemma bind_length_le {A B} (f : A -> list B) (m : nat) (l : list A) : (forall x, x ∈ l -> (length (f x) <= m)%nat) -> (length (l ≫= f) <= m * length l)%nat.
Proof.
  induction l as [|x l IH]; intros H; [simpl; lia|]. change ((x :: l) ≫= f) with (f x ++ (l ≫= f)). rewrite app_length. cbn [length].
  specialize (IH ltac:(intros; apply H; by right)). pose proof (H x ltac:(left)). lia.
Qed.
Lemma covered_count k z L c m : covered k z L c -> (forall a n s, session_of c a n = Some s -> (size (ktab k s) <= m)%nat) ->
  z <= N.of_nat (length (kfree k (c_dp c)) + m * session_count c).
Proof.
  intros [H1 H2 H3 H4] Hm. pose (gids := all_sessions c ≫= fun s => snd <$> map_to_list (ktab k s)).
  assert (Hsub : Nseq z ⊆+ kfree k (c_dp c) ++ gids).
  { apply NoDup_submseteq; [apply NoDup_Nseq|]. intros g Hg%elem_of_Nseq. apply elem_of_app. destruct (H4 g Hg) as [?|(a & n & s & i & Hs & Hi)]; [by left|].
    right. apply elem_of_list_bind. exists s. split; [|apply elem_of_all_sessions; eauto]. apply elem_of_list_fmap. exists (i, g). split; [done|by apply elem_of_map_to_list]. }
  apply submseteq_length in Hsub. rewrite app_length in Hsub.
  assert (Hg : (length gids <= m * length (all_sessions c))%nat).
  { apply bind_length_le. intros s [a [n Hs]]%elem_of_all_sessions. rewrite fmap_length. by eapply Hm. }
  rewrite all_sessions_length in Hg. assert (Hz : length (Nseq z) = N.to_nat z) by apply length_Nseq. lia.
Qed.
(** Tidy histories: the entries of the PDR maps are those of the sessions. *)
Lemma keyed_count P c (f : N -> key) (m : gmap N ep_pdr) b : Inj (=) (=) f -> keyed P c -> (forall x ep, m !! x = Some ep -> dp_find (c_dp c) (f x) = Some ep) ->
  (forall a n s, session_of c a n = Some s -> (size (s_pdrs s) <= b)%nat) -> (size m <= b * session_count c)%nat.
Proof.
  intros Hinj HK Hm Hb. pose (ks := all_sessions c ≫= fun s => (fun x => spdr_key (snd x)) <$> map_to_list (s_pdrs s)).
  assert (Hsub : (f <$> (fst <$> map_to_list m)) ⊆+ ks).
  { apply NoDup_submseteq; [apply NoDup_fmap_2; [done|apply NoDup_fst_map_to_list]|]. intros k Hk.
    apply elem_of_list_fmap in Hk as (x & -> & Hx). apply elem_of_list_fmap in Hx as ([x' ep] & -> & Hx%elem_of_map_to_list). cbn [fst].
    destruct (kd_only _ _ HK _ _ (Hm _ _ Hx)) as (a & n & s & Hs & (i & p & Hi & Hp)). apply elem_of_list_bind. exists s. split; [|apply elem_of_all_sessions; eauto].
    apply elem_of_list_fmap. exists (i, p). split; [done|by apply elem_of_map_to_list]. }
  apply submseteq_length in Hsub. rewrite !fmap_length in Hsub. change (length (map_to_list m)) with (size m) in Hsub.
  assert (Hg : (length ks <= b * length (all_sessions c))%nat).
  { apply bind_length_le. intros s [a [n Hs]]%elem_of_all_sessions. rewrite fmap_length. by eapply Hb. }
  rewrite all_sessions_length in Hg. lia.
Qed.

(** ** Requests that ask nothing wrong, and the room they need *)
Definition far_sound (f : far_ie) : bool :=
  match fa_apply f with Some [] => false | _ => true end &&
  match fa_fwd f with Some Bad => false | Some (Good o) => negb (oh_v6 o) | _ => true end.
Definition qer_sound (q : qer_ie) : bool := match qe_id q with Some _ => true | None => false end.
Definition urr_sound (u : option N) : bool := match u with Some _ => true | None => false end.
(** A PDR has an id, a PDI with a Source Interface, a readable flow description if any, and a tunnel or an address (given or to be chosen). *)
Definition pdr_sound (ueip : bool) (p : pdr_ie) : bool :=
  match pe_id p, pe_pdi p with
  | Some _, Some pdi =>
      pi_src pdi && match pe_sdf p with None | Some [] => true | Some t => match parse_sdf t with Some _ => true | None => false end end &&
      match pi_fteid pdi, pi_ueip pdi with
      | Good _, _ => true
      | Absent, Good ue => (ueip && ue_chv4 ue) || match ue_v4 ue, ue_v6 ue with None, None => false | _, _ => true end
      | Absent, Absent => true
      | _, _ => false
      end
  | _, _ => false
  end.
(** The PDRs for which the UPF has to choose a tunnel, or an address. *)
Definition wants_teid (p : pdr_ie) : bool := match pe_pdi p with Some pdi => match pi_fteid pdi with Good fe => fe_ch fe | _ => false end | None => false end.
Definition wants_ip (ueip : bool) (p : pdr_ie) : bool :=
  match pe_pdi p with Some pdi => match pi_fteid pdi, pi_ueip pdi with Absent, Good ue => ueip && ue_chv4 ue | _, _ => false end | None => false end.
Definition teids_left (rm : option rman) : nat := match rm with Some r => length (ft_free (rm_ft r)) | None => 0 end.
Definition ips_left (rm : option rman) : nat := match rm with Some r => length (ip_free (rm_ip r)) | None => 0 end.
Definition count {A} (b : A -> bool) (l : list A) : nat := length (List.filter b l).

Definition sound_est (ueip : bool) (q : est_req) : bool :=
  match eq_node q, eq_fseid q with Good _, Good _ => true | _, _ => false end &&
  forallb far_sound (eq_fars q) && forallb qer_sound (eq_qers q) && forallb urr_sound (eq_urrs q) && forallb (pdr_sound ueip) (eq_pdrs q).
(** Enough ids, entries, tunnels and addresses are free. *)
Record room (c : conn) (q : est_req) : Prop := {
  ro_far : (length (eq_fars q) <= length (t_free (d_fart (c_dp c))))%nat;
  ro_qer : (length (eq_qers q) <= length (t_free (d_qert (c_dp c))))%nat;
  ro_urr : (length (eq_urrs q) <= length (t_free (d_urrt (c_dp c))))%nat;
  ro_up : N.of_nat (size (d_up (c_dp c)) + length (eq_pdrs q)) <= d_pdr_max (c_dp c);
  ro_dn4 : N.of_nat (size (d_dn4 (c_dp c)) + length (eq_pdrs q)) <= d_pdr_max (c_dp c);
  ro_dn6 : N.of_nat (size (d_dn6 (c_dp c)) + length (eq_pdrs q)) <= d_pdr_max (c_dp c);
  ro_teid : (count wants_teid (eq_pdrs q) <= teids_left (c_rm c))%nat;
  ro_ip : (count (wants_ip (g_ueip (c_cfg c))) (eq_pdrs q) <= ips_left (c_rm c))%nat }.

(** *** Ids *)
Definition maps_same (w w' : work) : Prop :=
  d_up (w_dp w') = d_up (w_dp w) /\ d_dn4 (w_dp w') = d_dn4 (w_dp w) /\ d_dn6 (w_dp w') = d_dn6 (w_dp w) /\ d_pdr_max (w_dp w') = d_pdr_max (w_dp w) /\ w_rm w' = w_rm w.
Lemma maps_same_trans a b c : maps_same a b -> maps_same b c -> maps_same a c.
Proof. unfold maps_same. intros (?&?&?&?&?) (?&?&?&?&?). split_and!; congruence. Qed.
Definition inrange (k : kind) (d : dp) : Prop := forall g, g ∈ kfree k d -> g < ksize k d.
(** One creation succeeds while an id is free. *)
Definition succeeds {A} (k : kind) (ok : A -> bool) (f : A -> work -> res) : Prop := forall x w g r, ok x = true -> kfree k (w_dp w) = g :: r -> inrange k (w_dp w) ->
  exists w', f x w = ROk w' /\ kfree k (w_dp w') = r /\ ksize k (w_dp w') = ksize k (w_dp w) /\ maps_same w w'.
Lemma create_far_succeeds : succeeds KFar far_sound create_far.
Proof.
  intros f w g r Hok Hfree Hin. assert (Hg : g < d_far_size (w_dp w)) by (apply Hin; rewrite Hfree; left). unfold kfree in Hfree. cbn [ktrk] in Hfree.
  unfold create_far. apply andb_true_iff in Hok as [H1 H2]. assert (far_crash f = false) as ->.
  { unfold far_crash. destruct (fa_apply f) as [[|]|]; [done|..]; by destruct (fa_fwd f) as [[]|]. }
  unfold compose_far. set (i := match fa_fwd f with Some (Good o) => _ | _ => _ end). assert (exists y, i = Some y) as [y ->].
  { unfold i. destruct (fa_fwd f) as [[| |o]|]; try by eauto. apply negb_true_iff in H2. rewrite H2. eauto. }
  unfold new_far, get_next. rewrite Hfree. rewrite (proj2 (N.ltb_lt _ _) Hg). eexists. split; [reflexivity|]. done.
Qed.
Lemma create_qer_succeeds : succeeds KQer qer_sound create_qer.
Proof.
  intros f w g r Hok Hfree Hin. assert (Hg : g < d_qer_size (w_dp w)) by (apply Hin; rewrite Hfree; left). unfold kfree in Hfree. cbn [ktrk] in Hfree.
  unfold create_qer, qer_sound in *. destruct (qe_id f) as [id|]; [|done]. cbn zeta. unfold new_qer, get_next. rewrite Hfree, (proj2 (N.ltb_lt _ _) Hg).
  eexists. split; [reflexivity|]. done.
Qed.
Lemma create_urr_succeeds : succeeds KUrr urr_sound create_urr.
Proof.
  intros f w g r Hok Hfree Hin. assert (Hg : g < d_urr_size (w_dp w)) by (apply Hin; rewrite Hfree; left). unfold kfree in Hfree. cbn [ktrk] in Hfree.
  unfold create_urr, urr_sound in *. destruct f as [id|]; [|done]. unfold new_urr, get_next. rewrite Hfree, (proj2 (N.ltb_lt _ _) Hg).
  eexists. split; [reflexivity|]. done.
Qed.
Lemma each_succeeds {A} k ok (f : A -> work -> res) (l : list A) : succeeds k ok f -> forall w, forallb ok l = true -> (length l <= length (kfree k (w_dp w)))%nat ->
  inrange k (w_dp w) -> exists w', each f l w = ROk w' /\ maps_same w w'.
Proof.
  intros Hf. induction l as [|x l IH]; intros w Hok Hlen Hin; [by exists w|]. cbn [forallb length] in *. apply andb_true_iff in Hok as [H1 H2].
  destruct (kfree k (w_dp w)) as [|g r] eqn:E; [simpl in Hlen; lia|]. destruct (Hf x w g r H1 E Hin) as (w1 & E1 & F1 & S1 & M1). cbn [each]. rewrite E1. cbn [rbind].
  destruct (IH w1 H2) as (w2 & E2 & M2).
  - rewrite F1. simpl in Hlen. lia.
  - intros y Hy. rewrite S1. apply Hin. rewrite E. right. by rewrite <- F1.
  - exists w2. split; [done|by eapply maps_same_trans].
Qed.

(** *** PDRs *)
Record pdr_room (ueip : bool) (w : work) (l : list pdr_ie) : Prop := {
  pr_up : N.of_nat (size (d_up (w_dp w)) + length l) <= d_pdr_max (w_dp w);
  pr_dn4 : N.of_nat (size (d_dn4 (w_dp w)) + length l) <= d_pdr_max (w_dp w);
  pr_dn6 : N.of_nat (size (d_dn6 (w_dp w)) + length l) <= d_pdr_max (w_dp w);
  pr_teid : (count wants_teid l <= teids_left (w_rm w))%nat;
  pr_ip : (count (wants_ip ueip) l <= ips_left (w_rm w))%nat }.
Lemma hash_put_room k v m max : N.of_nat (size m) < max -> exists m', hash_put k v m max = Some m' /\ (size m' <= S (size m))%nat.
Proof.
  intros H. unfold hash_put. destruct (m !! k) eqn:E.
  - eexists. split; [done|]. rewrite map_size_insert_Some by eauto. lia.
  - rewrite (proj2 (N.ltb_lt _ _) H). eexists. split; [done|]. rewrite map_size_insert_None by done. lia.
Qed.
Lemma extract_room ueip p w id : pe_id p = Some id -> pdr_sound ueip p = true ->
  ((if wants_teid p then 1 else 0) <= teids_left (w_rm w))%nat -> ((if wants_ip ueip p then 1 else 0) <= ips_left (w_rm w))%nat ->
  exists s w', extract_pdr ueip p (Spdr id pdr_req0 0 None None false) w = (Some s, w') /\
    (teids_left (w_rm w) <= teids_left (w_rm w') + (if wants_teid p then 1 else 0))%nat /\
    (ips_left (w_rm w) <= ips_left (w_rm w') + (if wants_ip ueip p then 1 else 0))%nat.
Proof.
  intros Hid Hs. unfold pdr_sound in Hs. rewrite Hid in Hs. unfold extract_pdr, wants_teid, wants_ip. destruct (pe_pdi p) as [pdi|] eqn:Epdi; [|done].
  rewrite !andb_true_iff in Hs. destruct Hs as [[_ Hsdf] Hk].
  assert (exists info, pdr_sdf p (pdr_refs (w_ses w) p (sd_info (Spdr id pdr_req0 0 None None false))) = Some info) as [info ->].
  { unfold pdr_sdf. destruct (pe_sdf p) as [[|a t]|]; [eauto| |eauto]. destruct (parse_sdf (a :: t)); [eauto|done]. }
  destruct (pi_fteid pdi) as [| |fe].
  - destruct (pi_ueip pdi) as [| |ue]; [|done|].
    + intros _ _. eexists _, _. split; [reflexivity|]. lia.
    + destruct (ueip && ue_chv4 ue) eqn:Ec; intros _ Hip.
      * unfold get_ip. destruct (w_rm w) as [r|]; [|simpl in Hip; lia]. cbn [ips_left] in Hip. unfold allocate_ip.
        destruct (ip_free (rm_ip r)) as [|a fr] eqn:E; [simpl in Hip; lia|]. eexists _, _. split; [reflexivity|]. simpl. rewrite E. simpl. lia.
      * cbn [orb] in Hk. destruct (ue_v4 ue) as [a|]; [eexists _, _; split; [reflexivity|]; lia|]. destruct (ue_v6 ue) as [a|]; [|done].
        eexists _, _; split; [reflexivity|]; lia.
  - done.
  - destruct (fe_ch fe); intros Ht _.
    + destruct (match fe_chid fe with Some c => w_cache w !! c | None => None end).
      * eexists _, _. split; [reflexivity|]. lia.
      * unfold get_fteid. destruct (w_rm w) as [r|]; [|simpl in Ht; lia]. cbn [teids_left] in Ht. unfold allocate_teid.
        destruct (ft_free (rm_ft r)) as [|t fr] eqn:E; [simpl in Ht; lia|]. eexists _, _. split; [reflexivity|]. destruct (fe_chid fe); simpl; rewrite E; simpl; lia.
    + eexists _, _. split; [reflexivity|]. lia.
Qed.
Lemma create_pdr_room ueip p l w : pdr_sound ueip p = true -> pdr_room ueip w (p :: l) ->
  exists w', create_pdr ueip p w = ROk w' /\ pdr_room ueip w' l.
Proof.
  intros Hs [R1 R2 R3 R4 R5]. unfold create_pdr. destruct (pe_id p) as [id|] eqn:Eid; [|by unfold pdr_sound in Hs; rewrite Eid in Hs].
  assert (Hct : forall b : pdr_ie -> bool, (count b (p :: l) = (if b p then 1 else 0) + count b l)%nat) by (intros b; unfold count; simpl; by destruct (b p)).
  rewrite Hct in R4, R5. destruct (extract_room ueip p w id Eid Hs) as (s & w1 & E & T & I); [destruct (wants_teid p); lia|destruct (wants_ip ueip p); lia|].
  rewrite E. pose proof (extract_pdr_dp _ _ _ _ _ _ E) as Hd. cbn zeta. cbn [w_set_ses w_dp]. rewrite Hd. cbn [length] in *.
  unfold apply_pdr, put_pdr_downlink, put_pdr_ip6, put_pdr_uplink. destruct (sd_v4 s) as [a|].
  - destruct (hash_put_room a (pdr_to_store (d_dn4 (w_dp w)) a (sd_info s)) (d_dn4 (w_dp w)) (d_pdr_max (w_dp w))) as (m & -> & Hm); [lia|].
    eexists. split; [reflexivity|]. split; simpl; lia.
  - destruct (sd_v6 s) as [a|].
    + destruct (hash_put_room a (pdr_to_store (d_dn6 (w_dp w)) a (sd_info s)) (d_dn6 (w_dp w)) (d_pdr_max (w_dp w))) as (m & -> & Hm); [lia|].
      eexists. split; [reflexivity|]. split; simpl; lia.
    + destruct (hash_put_room (sd_teid s) (pdr_to_store (d_up (w_dp w)) (sd_teid s) (sd_info s)) (d_up (w_dp w)) (d_pdr_max (w_dp w))) as (m & -> & Hm); [lia|].
      eexists. split; [reflexivity|]. split; simpl; lia.
Qed.
Lemma each_pdr_room ueip l : forall w, forallb (pdr_sound ueip) l = true -> pdr_room ueip w l -> exists w', each (create_pdr ueip) l w = ROk w'.
Proof.
  induction l as [|p l IH]; intros w Hs HR; [by exists w|]. cbn [forallb] in Hs. apply andb_true_iff in Hs as [H1 H2].
  destruct (create_pdr_room ueip p l w H1 HR) as (w1 & E1 & R1). cbn [each]. rewrite E1. by apply IH.
Qed.

(** ** A sound request is accepted while there is room *)
Theorem established_if_room : forall c sh addr seq q, reachable c -> is_Some (c_assocs c !! addr) ->
  sound_est (g_ueip (c_cfg c)) q = true -> room c q ->
  exists c' r, step c (Recv sh addr seq (SessEstReq q)) = Done c' (Some r) /\ r_cause r = Some Accepted /\
    exists seid s, r_fseid r = Some (seid, g_addr (c_cfg c)) /\ session_of c' addr seid = Some s.
Proof.
  intros c sh addr seq q Hreach [a Ha] Hs [R1 R2 R3 R4 R5 R6 R7 R8]. destruct (reachable_ok _ Hreach) as [[[_ [_ K1]] [_ [_ K2]] [_ [_ K3]]] _].
  unfold sound_est in Hs. rewrite !andb_true_iff in Hs. destruct Hs as [[[[S0 S1] S2] S3] S4].
  cbn [step handle]. unfold handle_est. destruct (eq_node q) as [| |nd]; [done..|]. destruct (eq_fseid q) as [| |remote]; [done..|]. cbn [validate_request]. rewrite Ha.
  assert (existsb display_crash (eq_pdrs q) = false) as ->.
  { apply not_true_iff_false. rewrite existsb_exists. intros (p & Hp & Hd). rewrite forallb_forall in S4. apply S4 in Hp. unfold pdr_sound, display_crash in *.
    destruct (pe_id p), (pe_pdi p) as [pdi|]; [|done..]. apply negb_true_iff in Hd. by rewrite Hd in Hp. }
  set (w0 := new_work (c_dp c) (new_session (next_seid a) remote) (c_rm c)).
  destruct (each_succeeds KFar far_sound create_far (eq_fars q) create_far_succeeds w0 S1 R1 K1) as (w1 & E1 & M1).
  assert (Q1 : onres (same KQer w0) (ROk w1)) by (rewrite <- E1; apply each_same; intros; by apply create_far_same).
  assert (U1 : onres (same KUrr w0) (ROk w1)) by (rewrite <- E1; apply each_same; intros; by apply create_far_same). destruct Q1 as [Q1 Q1' _], U1 as [U1 U1' _].
  destruct (each_succeeds KQer qer_sound create_qer (eq_qers q) create_qer_succeeds w1 S2) as (w2 & E2 & M2).
  { unfold kfree. rewrite Q1. exact R2. } { intros g. unfold kfree. rewrite Q1, Q1'. apply K2. }
  assert (U2 : onres (same KUrr w1) (ROk w2)) by (rewrite <- E2; apply each_same; intros; by apply create_qer_same). destruct U2 as [U2 U2' _].
  destruct (each_succeeds KUrr urr_sound create_urr (eq_urrs q) create_urr_succeeds w2 S3) as (w3 & E3 & M3).
  { unfold kfree. rewrite U2, U1. exact R3. } { intros g. unfold kfree. rewrite U2, U1, U2', U1'. apply K3. }
  pose proof (maps_same_trans _ _ _ (maps_same_trans _ _ _ M1 M2) M3) as (D1 & D2 & D3 & D4 & D5). cbn [new_work w_dp w_rm w0] in *.
  destruct (each_pdr_room (g_ueip (c_cfg c)) (eq_pdrs q) w3 S4) as (w4 & E4).
  { split; rewrite ?D1, ?D2, ?D3, ?D4, ?D5; done. }
  assert (EE : est_rules (g_ueip (c_cfg c)) q w0 = ROk w4).
  { unfold est_rules. rewrite E1. cbn [rbind]. rewrite E2. cbn [rbind]. rewrite E3. cbn [rbind]. exact E4. }
  rewrite EE. eexists _, _. split; [reflexivity|]. split; [reflexivity|]. exists (next_seid a), (w_ses w4). split; [reflexivity|].
  unfold session_of, put_session. cbn [set_dp_rm set_assocs c_assocs]. rewrite lookup_insert. cbn [a_sessions]. by rewrite lookup_insert.
Qed.

(** ... and not when there are not enough ids. *)
Lemma each_makes_free {A} k (oid : A -> option N) f (l : list A) : makes k oid f -> forall w w', each f l w = ROk w' -> (length (kfree k (w_dp w)) = length l + length (kfree k (w_dp w')))%nat.
Proof.
  intros Hf. induction l as [|x l IH]; intros w w' H; cbn [each] in H; [by simplify_eq|]. pose proof (Hf x w) as Hx.
  destruct (f x w) as [w1|w1|]; cbn [rbind] in H; [|done|done]. destruct Hx as (i & _ & _ & _ & g & Hg & _). rewrite Hg. cbn [length]. by rewrite (IH _ _ H).
Qed.
Theorem refused_if_no_ids : forall c sh addr seq q c' r, is_Some (c_assocs c !! addr) ->
  (exists n s, eq_node q = Good n /\ eq_fseid q = Good s) ->
  (length (t_free (d_fart (c_dp c))) < length (eq_fars q))%nat \/ (length (t_free (d_qert (c_dp c))) < length (eq_qers q))%nat \/
  (length (t_free (d_urrt (c_dp c))) < length (eq_urrs q))%nat ->
  step c (Recv sh addr seq (SessEstReq q)) = Done c' r -> exists r0, r = Some r0 /\ r_cause r0 = Some RuleFailure.
Proof.
  intros c sh addr seq q c' r [a Ha] (nd & remote & En & Es) Hno H. cbn [step handle] in H. unfold handle_est in H. rewrite En, Es, Ha in H. cbn [validate_request] in H.
  destruct (existsb _ _); [done|]. destruct (est_rules _ _ _) as [w|w|] eqn:E; simplify_eq; [|by eexists]. exfalso.
  unfold est_rules in E. set (w0 := new_work _ _ _) in E.
  destruct (each create_far (eq_fars q) w0) as [w1|w1|] eqn:E1; cbn [rbind] in E; [|done..].
  destruct (each create_qer (eq_qers q) w1) as [w2|w2|] eqn:E2; cbn [rbind] in E; [|done..].
  destruct (each create_urr (eq_urrs q) w2) as [w3|w3|] eqn:E3; cbn [rbind] in E; [|done..].
  assert (Q1 : onres (same KQer w0) (ROk w1)) by (rewrite <- E1; apply each_same; intros; by apply create_far_same).
  assert (U1 : onres (same KUrr w0) (ROk w1)) by (rewrite <- E1; apply each_same; intros; by apply create_far_same).
  assert (U2 : onres (same KUrr w1) (ROk w2)) by (rewrite <- E2; apply each_same; intros; by apply create_qer_same). destruct Q1 as [Q1 _ _], U1 as [U1 _ _], U2 as [U2 _ _].
  apply (each_makes_free _ _ _ _ create_far_makes) in E1. apply (each_makes_free _ _ _ _ create_qer_makes) in E2. apply (each_makes_free _ _ _ _ create_urr_makes) in E3.
  unfold kfree in *. rewrite Q1 in E2. rewrite U2, U1 in E3. cbn [ktrk w0 new_work w_dp] in *. lia.
Qed.

(** ** C90: the configured number of sessions fits *)

(** A session or a request of at most so many PDRs, FARs, QERs and URRs. *)
Record shape := Shape { sp_pdr : nat; sp_far : nat; sp_qer : nat; sp_urr : nat }.
Definition session_within (z : shape) (s : session) : Prop :=
  (size (s_pdrs s) <= sp_pdr z)%nat /\ (size (s_fars s) <= sp_far z)%nat /\ (size (s_qers s) <= sp_qer z)%nat /\ (size (s_urrs s) <= sp_urr z)%nat.
Definition request_within (z : shape) (q : est_req) : Prop :=
  (length (eq_pdrs q) <= sp_pdr z)%nat /\ (length (eq_fars q) <= sp_far z)%nat /\ (length (eq_qers q) <= sp_qer z)%nat /\ (length (eq_urrs q) <= sp_urr z)%nat.
(** The pools have the tunnels and addresses the request leaves to the UPF. *)
Definition pools_suffice (c : conn) (q : est_req) : Prop :=
  (count wants_teid (eq_pdrs q) <= teids_left (c_rm c))%nat /\ (count (wants_ip (g_ueip (c_cfg c))) (eq_pdrs q) <= ips_left (c_rm c))%nat.
Definition well_kept (l : log) : Prop := tidy l = true /\ frugal KFar l = true /\ frugal KQer l = true /\ frugal KUrr l = true.

(** Maps large enough for [sessions] sessions of this shape: while fewer are live the next request is accepted, whatever happened before. *)
Theorem sessions_fit_partial : forall g rm p f qn u es c l z sessions sh addr seq q,
  start_pools rm -> Forall event_fair es -> run (init g rm (dp_init p f qn u)) es = Some (c, l) -> N.of_nat (length es) <= bound ->
  well_kept l ->
  N.of_nat (sp_pdr z * sessions) <= p -> N.of_nat (sp_far z * sessions) <= f -> N.of_nat (sp_qer z * sessions) <= qn -> N.of_nat (sp_urr z * sessions) <= u ->
  (session_count c < sessions)%nat -> (forall a n s, session_of c a n = Some s -> session_within z s) ->
  is_Some (c_assocs c !! addr) -> sound_est (g_ueip (c_cfg c)) q = true -> request_within z q -> pools_suffice c q ->
  exists c' r, step c (Recv sh addr seq (SessEstReq q)) = Done c' (Some r) /\ r_cause r = Some Accepted /\
    exists seid s, r_fseid r = Some (seid, g_addr (c_cfg c)) /\ session_of c' addr seid = Some s.
Proof.
  intros g rm p f qn u es c l z sessions sh addr seq q Hrm Hfair Hrun Hb (Ht & F1 & F2 & F3) Zp Zf Zq Zu Hlt Hz Ha Hs (Q1 & Q2 & Q3 & Q4) [P1 P2].
  pose proof (covered_run KFar _ _ _ _ _ _ _ _ _ Hfair Hrun Hb F1) as CF. pose proof (covered_run KQer _ _ _ _ _ _ _ _ _ Hfair Hrun Hb F2) as CQ.
  pose proof (covered_run KUrr _ _ _ _ _ _ _ _ _ Hfair Hrun Hb F3) as CU.
  destruct (tidy_run _ _ _ _ _ _ _ _ _ Hrm Hfair Hrun Hb Ht) as (_ & _ & HK).
  assert (Hmax : d_pdr_max (c_dp c) = p).
  { clear - Hfair Hrun. pose proof (run_psteps _ _ _ _ Hfair Hrun) as Hp.
    assert (G : forall x y : store, pstep x y -> d_pdr_max (fst y) = d_pdr_max (fst x)).
    { intros x y H. destruct H; try done; simpl;
        unfold new_far, update_far, delete_far, new_qer, update_qer, delete_qer, new_urr, update_urr, delete_urr, apply_pdr, put_pdr_uplink, put_pdr_downlink, put_pdr_ip6,
          delete_pdr_uplink, delete_pdr_downlink, delete_pdr_ip6, update_far, update_qer, update_urr; repeat case_match; simplify_eq; simpl; done. }
    set (st := (c_dp c, c_rm c)) in Hp. change (c_dp c) with (fst st). 
    enough (E : forall x y : store, psteps x y -> d_pdr_max (fst y) = d_pdr_max (fst x)) by (by rewrite (E _ _ Hp)).
    intros x y H. induction H as [|x y w H1 _ IH]; [done|]. rewrite IH. by apply G. }
  assert (Hsz : forall m (h : session -> nat), (forall s, session_within z s -> (h s <= m)%nat) -> forall a n s, session_of c a n = Some s -> (h s <= m)%nat).
  { intros m h Hh a n s H. eauto. }
  apply established_if_room; [by eexists _, _, _, _, _, _, _, _|done|done|].
  assert (A1 := covered_count KFar f _ c (sp_far z) CF (Hsz _ (fun s => size (ktab KFar s)) ltac:(intros s (?&?&?&?); cbn; by rewrite map_size_fmap))).
  assert (A2 := covered_count KQer qn _ c (sp_qer z) CQ (Hsz _ (fun s => size (ktab KQer s)) ltac:(intros s (?&?&?&?); cbn; by rewrite map_size_fmap))).
  assert (A3 := covered_count KUrr u _ c (sp_urr z) CU (Hsz _ (fun s => size (ktab KUrr s)) ltac:(intros s (?&?&?&?); cbn; by rewrite map_size_fmap))).
  assert (Hp : forall a n s, session_of c a n = Some s -> (size (s_pdrs s) <= sp_pdr z)%nat) by (intros a n s H; by destruct (Hz _ _ _ H)).
  assert (B1 := keyed_count _ c Up (d_up (c_dp c)) _ ltac:(intros ?? [=]; done) HK ltac:(done) Hp).
  assert (B2 := keyed_count _ c Dn4 (d_dn4 (c_dp c)) _ ltac:(intros ?? [=]; done) HK ltac:(done) Hp).
  assert (B3 := keyed_count _ c Dn6 (d_dn6 (c_dp c)) _ ltac:(intros ?? [=]; done) HK ltac:(done) Hp).
  unfold kfree in *. cbn [ktrk] in *.
  assert (M : forall m, (m * session_count c + m <= m * sessions)%nat) by (intros m; nia).
  pose proof (M (sp_pdr z)). pose proof (M (sp_far z)). pose proof (M (sp_qer z)). pose proof (M (sp_urr z)).
  split; rewrite ?Hmax; try done; lia.
Qed.

(** With the sizes that follow from the configured number of sessions (config.go:131-142): two PDRs, two FARs, one QER and two URRs each. *)
Definition per_session : shape := Shape 2 2 1 2.
Theorem configured_sessions_fit_partial : forall k pool g conf c0 es c l sh addr seq q,
  boot k pool g conf = Serving c0 -> k_max conf < 2 ^ 31 -> k_pdr conf = 0 -> k_far conf = 0 -> k_qer conf = 0 -> k_urr conf = 0 ->
  Forall event_fair es -> run c0 es = Some (c, l) -> N.of_nat (length es) <= bound -> well_kept l ->
  N.of_nat (session_count c) < k_max conf -> (forall a n s, session_of c a n = Some s -> session_within per_session s) ->
  is_Some (c_assocs c !! addr) -> sound_est (g_ueip (c_cfg c)) q = true -> request_within per_session q -> pools_suffice c q ->
  exists c' r, step c (Recv sh addr seq (SessEstReq q)) = Done c' (Some r) /\ r_cause r = Some Accepted /\
    exists seid s, r_fseid r = Some (seid, g_addr (c_cfg c)) /\ session_of c' addr seid = Some s.
Proof.
  intros k pool g conf c0 es c l sh addr seq q Hboot Hmax Kp Kf Kq Ku Hfair Hrun Hb Hw Hlt Hz Ha Hs Hq Hp.
  assert (exists g' rm, start_pools rm /\ c0 = init g' rm (dp_init (2 * k_max conf) (2 * k_max conf) (k_max conf) (2 * k_max conf))) as (g' & rm & Hrm & ->).
  { unfold boot, validate in Hboot. destruct (tags_ok k conf); [|done]. unfold start in Hboot.
    cbn [set_pools set_sizes k_pdr k_far k_qer k_urr k_max k_teid_pool k_ftup k_ueip k_ueip_pool k_setup_timeout k_echo] in Hboot. rewrite Kp, Kf, Kq, Ku in Hboot. cbn [N.eqb] in Hboot.
    unfold u32 in Hboot. rewrite !N.mod_small, !(N.mul_comm (k_max conf)) in Hboot by lia.
    repeat match type of Hboot with (if ?b then _ else _) = _ => destruct b; [done|] end. injection Hboot as <-. eexists _, _. split; [|reflexivity].
    destruct (if k_ueip conf then k_ueip_pool conf else []) as [|x t] eqn:E; simpl.
    - right. exists (if k_ftup conf then k_teid_pool conf else 0), 0, 32. done.
    - destruct (pool (x :: t)) as [[b n]|]; simpl; [right; eauto|by left]. }
  eapply (sessions_fit_partial g' rm _ _ _ _ es c l per_session (N.to_nat (k_max conf))); try done; unfold per_session; cbn [sp_pdr sp_far sp_qer sp_urr]; lia.
Qed.

(** When no session is left the whole capacity is back: every id of every map is free, and the PDR maps are empty. *)
Theorem capacity_returns_partial : forall g rm p f qn u es c l,
  start_pools rm -> Forall event_fair es -> run (init g rm (dp_init p f qn u)) es = Some (c, l) -> N.of_nat (length es) <= bound ->
  well_kept l -> session_count c = 0%nat ->
  (forall i, i < f -> i ∈ t_free (d_fart (c_dp c))) /\ (forall i, i < qn -> i ∈ t_free (d_qert (c_dp c))) /\ (forall i, i < u -> i ∈ t_free (d_urrt (c_dp c))) /\
  d_up (c_dp c) = ∅ /\ d_dn4 (c_dp c) = ∅ /\ d_dn6 (c_dp c) = ∅.
Proof.
  intros g rm p f qn u es c l Hrm Hfair Hrun Hb (Ht & F1 & F2 & F3) H0.
  assert (Hno : forall a n s, session_of c a n <> Some s).
  { intros a n s Hs. assert (Hin : s ∈ all_sessions c) by (apply elem_of_all_sessions; eauto). rewrite <- all_sessions_length in H0.
    destruct (all_sessions c); [by apply elem_of_nil in Hin|done]. }
  destruct (tidy_run _ _ _ _ _ _ _ _ _ Hrm Hfair Hrun Hb Ht) as (_ & _ & HK).
  assert (HA : forall k z, covered k z (ids_in k l) c -> forall i, i < z -> i ∈ kfree k (c_dp c)).
  { intros k z HC i Hi. destruct (cv_all _ _ _ _ HC i Hi) as [?|(a & n & s & _ & Hs & _)]; [done|]. by destruct (Hno a n s). }
  assert (HM : forall k, dp_find (c_dp c) k = None).
  { intros k. destruct (dp_find (c_dp c) k) as [ep|] eqn:E; [|done]. destruct (kd_only _ _ HK _ _ E) as (a & n & s & Hs & _). by destruct (Hno a n s). }
  split_and!.
  - exact (HA KFar f (covered_run KFar _ _ _ _ _ _ _ _ _ Hfair Hrun Hb F1)).
  - exact (HA KQer qn (covered_run KQer _ _ _ _ _ _ _ _ _ Hfair Hrun Hb F2)).
  - exact (HA KUrr u (covered_run KUrr _ _ _ _ _ _ _ _ _ Hfair Hrun Hb F3)).
  - apply map_eq. intros i. rewrite lookup_empty. exact (HM (Up i)).
  - apply map_eq. intros i. rewrite lookup_empty. exact (HM (Dn4 i)).
  - apply map_eq. intros i. rewrite lookup_empty. exact (HM (Dn6 i)).
Qed.

(** ** Concrete cases *)
Definition ex_pool (t : text) : option (N * N) := None.
Definition ex_boot (max : N) : option conn := match boot ex_checks ex_pool ex_cfg (ex_config max 8 5) with Serving c => Some c | _ => None end.
Definition ex_full (teid ip : N) (urrs : list (option N)) : est_req :=
  EstReq (Good 5) (Good 100) [FarIe (Some 1) (Some [2]) None None; FarIe (Some 2) (Some [2]) (Some (Good (OhcIe 256 85 (Some 167772169) false))) None]
    [QerIe (Some 1) (Some 0) (Some 0) (Some 10) (Some 20) (Some 9)] urrs [ex_upg 1 teid 1; ex_dl 2 ip 2 1].
Definition within_b (z : shape) (s : session) : bool :=
  (size (s_pdrs s) <=? sp_pdr z)%nat && (size (s_fars s) <=? sp_far z)%nat && (size (s_qers s) <=? sp_qer z)%nat && (size (s_urrs s) <=? sp_urr z)%nat.
Lemma within_all z c : forallb (within_b z) (all_sessions c) = true -> forall a n s, session_of c a n = Some s -> session_within z s.
Proof.
  rewrite forallb_forall. intros H a n s Hs. assert (Hin : s ∈ all_sessions c) by (apply elem_of_all_sessions; eauto). apply elem_of_list_In, H in Hin.
  unfold within_b in Hin. rewrite !andb_true_iff, !Nat.leb_le in Hin. unfold session_within. tauto.
Qed.
Definition suffice_b (c : conn) (q : est_req) : bool :=
  (count wants_teid (eq_pdrs q) <=? teids_left (c_rm c))%nat && (count (wants_ip (g_ueip (c_cfg c))) (eq_pdrs q) <=? ips_left (c_rm c))%nat.
Definition kept_b (l : log) : bool := tidy l && frugal KFar l && frugal KQer l && frugal KUrr l.
(** The situation of [configured_sessions_fit_partial] but for the history being well kept: what the request is answered. *)
Definition answered (conf : config) (es : list event) (z : shape) (q : est_req) (cause : N) (l : log) : Prop :=
  exists c0 c c' r, boot ex_checks ex_pool ex_cfg conf = Serving c0 /\ run c0 es = Some (c, l) /\
    N.of_nat (session_count c) < k_max conf /\ (forall a n s, session_of c a n = Some s -> session_within z s) /\ is_Some (c_assocs c !! 7) /\
    sound_est (g_ueip (c_cfg c)) q = true /\ pools_suffice c q /\ step c (Recv id_shuffle 7 99 (SessEstReq q)) = Done c' (Some r) /\ r_cause r = Some cause.
Definition ex_answered (max : N) (es : list event) (z : shape) (q : est_req) (cause : N) (P : log -> bool) : bool :=
  match ex_boot max with
  | None => false
  | Some c0 => match run c0 es with
      | None => false
      | Some (c, l) =>
          P l && (N.of_nat (session_count c) <? max) && forallb (within_b z) (all_sessions c) &&
          match c_assocs c !! 7 with Some _ => true | None => false end && sound_est (g_ueip (c_cfg c)) q && suffice_b c q &&
          match step c (Recv id_shuffle 7 99 (SessEstReq q)) with Done _ (Some r) => bool_decide (r_cause r = Some cause) | _ => false end
      end
  end.
Lemma ex_answered_inv max es z q cause P : ex_answered max es z q cause P = true -> exists l, P l = true /\ answered (ex_config max 8 5) es z q cause l.
Proof.
  unfold ex_answered, ex_boot. intros H. destruct (boot ex_checks ex_pool ex_cfg (ex_config max 8 5)) as [c0| | |] eqn:E0; [|done..].
  destruct (run c0 es) as [[c l]|] eqn:E1; [|done]. rewrite !andb_true_iff in H. destruct H as [[[[[[H1 H2] H3] H4] H5] H6] H7].
  destruct (step c _) as [c' [r|]|] eqn:E2; [|done..]. apply bool_decide_eq_true in H7. apply N.ltb_lt in H2. unfold suffice_b in H6. rewrite andb_true_iff, !Nat.leb_le in H6.
  exists l. split; [exact H1|]. exists c0, c, c', r. split; [exact E0|]. split; [exact E1|]. split; [exact H2|]. split; [by apply within_all|].
  split; [destruct (c_assocs c !! 7); [eauto|discriminate]|]. split; [exact H5|]. split; [exact H6|]. split; [exact E2|exact H7].
Qed.
Lemma kept_b_inv l : kept_b l = true -> well_kept l.
Proof. unfold kept_b, well_kept. rewrite !andb_true_iff. tauto. Qed.

(** Two sessions configured, one is live after sessions came and went: the second fits (the hypotheses are met). *)
Definition ex_comings : list event :=
  [ex_setup; ex_recv 2 (SessEstReq (ex_full 300 171704321 [Some 1; Some 2])); ex_recv 3 (SessEstReq (ex_full 301 171704322 [Some 1; Some 2])); Traffic {[ 0 := (77, 88) ]} {[ 1 := (5, 6) ]};
   ex_recv 4 (SessModReq (ModReq 2 Absent [] [] [FarIe (Some 2) None None None] [] [] [] [] [] [Some 1] [] [] [PdrIe (Some 2) None None None [] None None]));
   ex_recv 5 (SessDelReq 3); ex_recv 6 (SessEstReq (ex_full 302 171704323 [Some 1; Some 2])); ex_recv 7 (SessDelReq 4)].
Example ex_second_fits : exists l, well_kept l /\ answered (ex_config 2 8 5) ex_comings per_session (ex_full 303 171704324 [Some 1; Some 2]) 1 l /\
  Forall event_fair ex_comings /\ request_within per_session (ex_full 303 171704324 [Some 1; Some 2]).
Proof.
  assert (H : ex_answered 2 ex_comings per_session (ex_full 303 171704324 [Some 1; Some 2]) 1 kept_b = true) by by vm_compute.
  apply ex_answered_inv in H as (l & H1 & H2). exists l. split; [by apply kept_b_inv|]. split; [exact H2|]. split; [repeat constructor; apply id_shuffle_fair|].
  unfold request_within, ex_full, per_session. simpl. lia.
Qed.

(** Three failures of "the configured number of sessions fits".  The documentation promises three URRs per session (docs/Configuration.md:25) but the
    map has two; the ids of usage rules stay taken when an association is lost; and those of every rule do when a request fails half way. *)
Definition documented : shape := Shape 2 2 1 3.
Definition ex_halfway : event := ex_recv 2 (SessEstReq (EstReq (Good 5) (Good 100) [FarIe (Some 1) (Some [2]) None None] [] [] [PdrIe (Some 1) None (Some 1) None [] None None])).
Theorem configured_sessions_fit_refuted :
  (** one session configured, none live, a documented request: refused *)
  (exists l q, well_kept l /\ request_within documented q /\ answered (ex_config 1 8 5) [ex_setup] documented q RuleFailure l) /\
  (** one session configured, established, lost with its association: no other fits *)
  (exists l q, tidy l = true /\ request_within per_session q /\
     answered (ex_config 1 8 5) [ex_setup; ex_recv 2 (SessEstReq q); HeartbeatFailed id_shuffle 7; ex_setup] per_session q RuleFailure l) /\
  (** one session configured, one bad request: no other fits *)
  (exists l q, request_within per_session q /\ answered (ex_config 1 8 5) [ex_setup; ex_halfway] per_session q RuleFailure l).
Proof.
  split_and!.
  - assert (H : ex_answered 1 [ex_setup] documented (ex_full 300 171704321 [Some 1; Some 2; Some 3]) 73 kept_b = true) by by vm_compute.
    apply ex_answered_inv in H as (l & H1 & H2). exists l, (ex_full 300 171704321 [Some 1; Some 2; Some 3]). split; [by apply kept_b_inv|].
    split; [unfold request_within, ex_full, documented; simpl; lia|exact H2].
  - pose (q := ex_full 300 171704321 [Some 1; Some 2]).
    assert (H : ex_answered 1 [ex_setup; ex_recv 2 (SessEstReq q); HeartbeatFailed id_shuffle 7; ex_setup] per_session q 73 tidy = true) by by vm_compute.
    apply ex_answered_inv in H as (l & H1 & H2). exists l, q. split; [exact H1|]. split; [unfold request_within, q, ex_full, per_session; simpl; lia|exact H2].
  - pose (q := ex_full 300 171704321 [Some 1; Some 2]).
    assert (H : ex_answered 1 [ex_setup; ex_halfway] per_session q 73 (fun _ => true) = true) by by vm_compute.
    apply ex_answered_inv in H as (l & H1 & H2). exists l, q. split; [unfold request_within, q, ex_full, per_session; simpl; lia|exact H2].
Qed.

(** ... the hypotheses of [capacity_returns_partial] are met by sessions that came, were changed and went. *)
Example ex_capacity_returns : exists c l, run (init ex_cfg ex_small_rm (dp_init 4 4 2 4)) (ex_comings ++ [ex_recv 8 (SessDelReq 2)]) = Some (c, l) /\
  well_kept l /\ session_count c = 0%nat /\ Forall event_fair (ex_comings ++ [ex_recv 8 (SessDelReq 2)]).
Proof.
  assert (H : match run (init ex_cfg ex_small_rm (dp_init 4 4 2 4)) (ex_comings ++ [ex_recv 8 (SessDelReq 2)]) with
    Some (c, l) => kept_b l && (session_count c =? 0)%nat | None => false end = true) by by vm_compute.
  destruct (run _ _) as [[c l]|]; [|discriminate]. exists c, l. split; [reflexivity|]. apply andb_true_iff in H as [H1 H2]. split; [by apply kept_b_inv|].
  split; [by apply Nat.eqb_eq|]. repeat constructor; apply id_shuffle_fair.
Qed.
