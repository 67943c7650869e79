(** What deleting and pruning sessions removes (C15, C20, C52), and what a rejected or
    key-changing request leaves behind (C16, C17, C57). *)
From Verif Require Import Base IdTracker ResourceManager SdfParser MapOps Pfcp PfcpProps PfcpHistory PfcpReach PfcpRules PfcpCreate.

(** ** Deleting PDRs *)

(** No two of the TEIDs of these PDRs agree in their low octet unless they are equal. *)
Definition low_octets_differ (l : list spdr) : Prop :=
  forall p p' t t', p ∈ l -> p' ∈ l -> spdr_key p = Up t -> spdr_key p' = Up t' -> u8 t = u8 t' -> t = t'.

Definition pdr_deleted (s : spdr) (w w' : work) : Prop :=
  (forall k, k <> spdr_key s -> dp_find (w_dp w') k = dp_find (w_dp w) k) /\
  (forall k, dp_find (w_dp w) k = None -> dp_find (w_dp w') k = None) /\
  ((w_cache w' = w_cache w /\ dp_find (w_dp w') (spdr_key s) = None) \/
   exists t, spdr_key s = Up t /\
     ((is_Some (w_cache w !! u8 t) /\ w_cache w' = w_cache w) \/
      (dp_find (w_dp w') (Up t) = None /\ w_cache w' = <[u8 t := 0]> (w_cache w)))).

Lemma hash_delete_some k m m' : hash_delete k m = Some m' -> m' = delete k m.
Proof. unfold hash_delete. intros. case_match; by simplify_eq. Qed.
Lemma hash_delete_none k m : hash_delete k m = None -> m !! k = None.
Proof. unfold hash_delete. intros. case_match; by simplify_eq. Qed.

Lemma delete_pdr_effect sh s w : match delete_pdr sh s w with ROk w' | RErr w' => pdr_deleted s w w' | RCrash => True end.
Proof.
  unfold delete_pdr. cbn zeta.
  match goal with |- match match ?x with _ => _ end with _ => _ end => destruct x as [ok w1] eqn:E end.
  assert (Hd : pdr_deleted s w w1).
  { unfold pdr_deleted, spdr_key. destruct (sd_v4 s) as [a|]; [|destruct (sd_v6 s) as [a|]].
    - unfold delete_pdr_downlink in E. destruct (hash_delete a _) as [m|] eqn:Eh; simplify_eq.
      + apply hash_delete_some in Eh as ->. simpl. split_and!.
        * intros [k|k|k] Hk; simpl; try done. rewrite lookup_delete_ne; congruence.
        * intros [k|k|k]; simpl; try done. rewrite lookup_delete_None. by right.
        * left. split; [done|]. apply lookup_delete.
      + apply hash_delete_none in Eh. split_and!; try done. by left.
    - unfold delete_pdr_ip6 in E. destruct (hash_delete a _) as [m|] eqn:Eh; simplify_eq.
      + apply hash_delete_some in Eh as ->. simpl. split_and!.
        * intros [k|k|k] Hk; simpl; try done. rewrite lookup_delete_ne; congruence.
        * intros [k|k|k]; simpl; try done. rewrite lookup_delete_None. by right.
        * left. split; [done|]. apply lookup_delete.
      + apply hash_delete_none in Eh. split_and!; try done. by left.
    - destruct (w_cache w !! u8 (sd_teid s)) eqn:Ec; simplify_eq.
      + split_and!; try done. right. exists (sd_teid s). split; [done|]. left. split; [|done]. by rewrite Ec.
      + unfold delete_pdr_uplink in E. destruct (hash_delete _ _) as [m|] eqn:Eh; simplify_eq.
        * apply hash_delete_some in Eh as ->. simpl. split_and!.
          -- intros [k|k|k] Hk; simpl; try done. rewrite lookup_delete_ne; congruence.
          -- intros [k|k|k]; simpl; try done. rewrite lookup_delete_None. by right.
          -- right. exists (sd_teid s). split; [done|]. right. split; [|done]. apply lookup_delete.
        * apply hash_delete_none in Eh. split_and!; try done. by left. }
  destruct ok; [|done]. destruct (_ =? 0); [done|]. destruct (w_rm w1); [|done]. exact Hd.
Qed.

Lemma delete_pdrs_effect {A} (f : A -> work -> res) (g : A -> spdr) (K : list spdr) l :
  (forall x w w', f x w = ROk w' -> pdr_deleted (g x) w w') ->
  low_octets_differ K -> forall w w', (forall x, x ∈ l -> g x ∈ K) ->
  (forall c, is_Some (w_cache w !! c) -> exists p t, p ∈ K /\ spdr_key p = Up t /\ c = u8 t /\ dp_find (w_dp w) (Up t) = None) ->
  each f l w = ROk w' ->
  (forall x, x ∈ l -> dp_find (w_dp w') (spdr_key (g x)) = None) /\
  (forall k, dp_find (w_dp w) k = None -> dp_find (w_dp w') k = None) /\
  (forall k, k ∉ (spdr_key ∘ g <$> l) -> dp_find (w_dp w') k = dp_find (w_dp w) k).
Proof.
  intros Hf HK. induction l as [|x l IH]; intros w w' Hin Hc H; simpl in H; simplify_eq.
  { split_and!; try done. intros x Hx. by apply elem_of_nil in Hx. }
  apply rbind_ok in H as (w1 & H1 & H2). apply Hf in H1 as (Hother & Hmono & Hcase).
  assert (Hx : dp_find (w_dp w1) (spdr_key (g x)) = None /\
    forall c, is_Some (w_cache w1 !! c) -> exists p t, p ∈ K /\ spdr_key p = Up t /\ c = u8 t /\ dp_find (w_dp w1) (Up t) = None).
  { assert (Hgx : g x ∈ K) by (apply Hin; left).
    destruct Hcase as [[Hc1 Hn]|(t & Hk & [[Hs Hc1]|[Hn Hc1]])].
    - split; [done|]. rewrite Hc1. intros c Hcc. destruct (Hc c Hcc) as (p & t & ? & ? & ? & ?). exists p, t. eauto.
    - destruct (Hc _ Hs) as (p & t' & Hp & Hkp & Heq & Hn). assert (t = t') as <- by exact (HK (g x) p t t' Hgx Hp Hk Hkp Heq).
      split; [rewrite Hk; by apply Hmono|]. rewrite Hc1. intros c Hcc.
      destruct (Hc c Hcc) as (p' & t' & ? & ? & ? & ?). exists p', t'. eauto.
    - split; [by rewrite Hk|]. intros c. rewrite Hc1. intros [v Hv]. apply lookup_insert_Some in Hv as [[<- _]|[Hne Hv]].
      + exists (g x), t. done.
      + destruct (Hc c) as (p & t' & ? & ? & ? & ?); [by rewrite Hv|]. exists p, t'. eauto. }
  destruct Hx as [Hx Hc1].
  destruct (IH w1 w' (fun y Hy => Hin y (elem_of_list_further _ _ _ Hy)) Hc1 H2) as (Hall & Hm & Ho). split_and!.
  - intros y Hy. apply elem_of_cons in Hy as [->|Hy]; [by apply Hm|by apply Hall].
  - intros k Hk. apply Hm, Hmono, Hk.
  - intros k Hk. rewrite fmap_cons, not_elem_of_cons in Hk. destruct Hk as [Hk1 Hk2]. rewrite Ho by done. by apply Hother.
Qed.

(** The TEID, if [k] is one, differs in its low octet from the other TEIDs of [l]. *)
Definition key_alone (l : list spdr) (k : key) : Prop :=
  forall t p t', k = Up t -> p ∈ l -> spdr_key p = Up t' -> u8 t' = u8 t -> t' = t.
Lemma low_octets_alone l p : low_octets_differ l -> p ∈ l -> key_alone l (spdr_key p).
Proof. intros H Hp t p' t' Hk Hp' Hk' E. by apply (H p' p). Qed.
Lemma delete_pdrs_key {A} (f : A -> work -> res) (g : A -> spdr) (K : list spdr) l k :
  (forall x w w', f x w = ROk w' -> pdr_deleted (g x) w w') ->
  key_alone K k -> forall w w', (forall x, x ∈ l -> g x ∈ K) ->
  (forall t, k = Up t -> is_Some (w_cache w !! u8 t) -> dp_find (w_dp w) k = None) ->
  each f l w = ROk w' ->
  ((exists x, x ∈ l /\ spdr_key (g x) = k) \/ dp_find (w_dp w) k = None) -> dp_find (w_dp w') k = None.
Proof.
  intros Hf HK. induction l as [|x l IH]; intros w w' Hin Hc H Hor; simpl in H; simplify_eq.
  { destruct Hor as [(x & Hx & _)|?]; [by apply elem_of_nil in Hx|done]. }
  apply rbind_ok in H as (w1 & H1 & H2). apply Hf in H1 as (Hother & Hmono & Hcase).
  assert (Hgx : g x ∈ K) by (apply Hin; left).
  apply (IH w1 w'); [intros y Hy; apply Hin; by right| |done|].
  - intros t Hk Hs. destruct Hcase as [[Hc1 Hn]|(t1 & Hk1 & [[Hs1 Hc1]|[Hn Hc1]])].
    + rewrite Hc1 in Hs. apply Hmono, (Hc t); done.
    + rewrite Hc1 in Hs. apply Hmono, (Hc t); done.
    + rewrite Hc1 in Hs. destruct Hs as [v Hv]. apply lookup_insert_Some in Hv as [[E _]|[_ Hv]].
      * rewrite (HK t (g x) t1 Hk Hgx Hk1 E) in Hn. by rewrite Hk.
      * apply Hmono, (Hc t); [done|]. by rewrite Hv.
  - destruct Hor as [(y & Hy & Hky)|Hn]; [|right; by apply Hmono].
    apply elem_of_cons in Hy as [->|Hy]; [|left; eauto]. right.
    destruct Hcase as [[Hc1 Hn]|(t1 & Hk1 & [[Hs1 Hc1]|[Hn Hc1]])].
    + by rewrite <- Hky.
    + apply Hmono. apply (Hc t1); [congruence|done].
    + by rewrite <- Hky, Hk1.
Qed.

(** ** Deleting FARs, QERs and URRs *)

Definition far_free (d : dp) (g : N) : Prop := g ∈ t_free (d_fart d).
Definition qer_free (d : dp) (g : N) : Prop := g ∈ t_free (d_qert d).
Definition urr_free (d : dp) (g : N) : Prop := g ∈ t_free (d_urrt d).

(** The id [g] (if it is one of the map) is available again and its entry is zero. *)
Definition far_gone (d : dp) (g : N) : Prop := g < d_far_size d -> far_free d g /\ far_get d g = Some far0.
Definition qer_gone (d : dp) (g : N) : Prop := g < d_qer_size d -> qer_free d g /\ qer_get d g = Some qer0.
Definition urr_gone (d : dp) (g : N) : Prop := g < d_urr_size d -> urr_free d g /\ urr_get d g = Some urr0.

Lemma far_get_insert d g v j : g < d_far_size d ->
  arr_get far0 (<[g := v]> (d_far d)) (d_far_size d) j = if decide (j = g) then Some v else far_get d j.
Proof.
  intros Hg. unfold far_get, arr_get. case_decide as E; [subst|].
  - destruct (N.ltb_spec g (d_far_size d)); [|lia]. by rewrite lookup_insert.
  - by rewrite lookup_insert_ne.
Qed.
Lemma qer_get_insert d g v j : g < d_qer_size d ->
  arr_get qer0 (<[g := v]> (d_qer d)) (d_qer_size d) j = if decide (j = g) then Some v else qer_get d j.
Proof.
  intros Hg. unfold qer_get, arr_get. case_decide as E; [subst|].
  - destruct (N.ltb_spec g (d_qer_size d)); [|lia]. by rewrite lookup_insert.
  - by rewrite lookup_insert_ne.
Qed.
Lemma urr_get_insert d g v j : g < d_urr_size d ->
  arr_get urr0 (<[g := v]> (d_urr d)) (d_urr_size d) j = if decide (j = g) then Some v else urr_get d j.
Proof.
  intros Hg. unfold urr_get, arr_get. case_decide as E; [subst|].
  - destruct (N.ltb_spec g (d_urr_size d)); [|lia]. by rewrite lookup_insert.
  - by rewrite lookup_insert_ne.
Qed.

Lemma delete_far_effect g d : dp_ok d ->
  let '(ok, d') := delete_far g d in
  d_far_size d' = d_far_size d /\ (ok = true <-> g < d_far_size d) /\
  (forall j, far_free d' j <-> (j = g /\ g < d_far_size d) \/ far_free d j) /\
  (forall j, far_get d' j = if decide (j = g /\ g < d_far_size d) then Some far0 else far_get d j).
Proof.
  intros Hok. unfold delete_far, update_far, far_free. simpl.
  destruct (N.ltb_spec g (d_far_size d)) as [Hlt|Hge]; simpl; split_and!; try done.
  - intros j. by rewrite (release_free _ _ _ _ (dk_far _ Hok)).
  - intros j. unfold far_get at 1. simpl. rewrite far_get_insert by done. repeat case_decide; naive_solver.
  - split; [done|lia].
  - intros j. by rewrite (release_free _ _ _ _ (dk_far _ Hok)).
  - intros j. case_decide; [lia|]. done.
Qed.
Lemma delete_qer_effect g d : dp_ok d ->
  let '(ok, d') := delete_qer g d in
  d_qer_size d' = d_qer_size d /\ (ok = true <-> g < d_qer_size d) /\
  (forall j, qer_free d' j <-> (j = g /\ g < d_qer_size d) \/ qer_free d j) /\
  (forall j, qer_get d' j = if decide (j = g /\ g < d_qer_size d) then Some qer0 else qer_get d j).
Proof.
  intros Hok. unfold delete_qer, update_qer, qer_free. simpl.
  destruct (N.ltb_spec g (d_qer_size d)) as [Hlt|Hge]; simpl; split_and!; try done.
  - intros j. by rewrite (release_free _ _ _ _ (dk_qer _ Hok)).
  - intros j. unfold qer_get at 1. simpl. rewrite qer_get_insert by done. repeat case_decide; naive_solver.
  - split; [done|lia].
  - intros j. by rewrite (release_free _ _ _ _ (dk_qer _ Hok)).
  - intros j. case_decide; [lia|]. done.
Qed.
Lemma delete_urr_effect g d : dp_ok d ->
  let '(o, d') := delete_urr g d in
  o = urr_get d g /\ d_urr_size d' = d_urr_size d /\
  (forall j, urr_free d' j <-> (j = g /\ g < d_urr_size d) \/ urr_free d j) /\
  (forall j, urr_get d' j = if decide (j = g /\ g < d_urr_size d) then Some urr0 else urr_get d j).
Proof.
  intros Hok. unfold delete_urr. destruct (urr_get d g) as [u|] eqn:Eg.
  - assert (Hlt : g < d_urr_size d). { unfold urr_get, arr_get in Eg. by destruct (N.ltb_spec g (d_urr_size d)). }
    cbn zeta. unfold update_urr, urr_free. simpl. destruct (N.ltb_spec g (d_urr_size d)); [|lia]. simpl. split_and!; try done.
    + intros j. by rewrite (release_free _ _ _ _ (dk_urr _ Hok)).
    + intros j. unfold urr_get at 1. simpl. rewrite urr_get_insert by done. repeat case_decide; naive_solver.
  - assert (~ g < d_urr_size d). { unfold urr_get, arr_get in Eg. destruct (N.ltb_spec g (d_urr_size d)); [done|lia]. }
    split_and!; try done; intros j; [|case_decide; [|done]]; naive_solver.
Qed.

Definition far_del_step (e : N * sfar) (w w' : work) : Prop := w_dp w' = snd (delete_far (sf_gid (snd e)) (w_dp w)).
Definition qer_del_step (e : N * sqer) (w w' : work) : Prop := w_dp w' = snd (delete_qer (sq_gid (snd e)) (w_dp w)).

Lemma delete_far_ok g d : dp_ok d -> dp_ok (snd (delete_far g d)).
Proof. apply (pstep_dp_ok (d, None) (snd (delete_far g d), None)). constructor. Qed.
Lemma delete_qer_ok g d : dp_ok d -> dp_ok (snd (delete_qer g d)).
Proof. apply (pstep_dp_ok (d, None) (snd (delete_qer g d), None)). constructor. Qed.
Lemma delete_urr_ok g d : dp_ok d -> dp_ok (snd (delete_urr g d)).
Proof. apply (pstep_dp_ok (d, None) (snd (delete_urr g d), None)). constructor. Qed.

Lemma del_fars_effect (f : N * sfar -> work -> res) l :
  (forall e w w', f e w = ROk w' -> far_del_step e w w') ->
  forall w w', dp_ok (w_dp w) -> each f l w = ROk w' ->
  d_far_size (w_dp w') = d_far_size (w_dp w) /\
  (forall e, e ∈ l -> far_gone (w_dp w') (sf_gid (snd e))) /\
  (forall g, far_free (w_dp w) g -> far_free (w_dp w') g) /\
  (forall g, far_get (w_dp w) g = Some far0 -> far_get (w_dp w') g = Some far0) /\
  (forall g, g ∉ ((fun e => sf_gid (snd e)) <$> l) ->
     far_get (w_dp w') g = far_get (w_dp w) g /\ (far_free (w_dp w') g <-> far_free (w_dp w) g)).
Proof.
  intros Hf. induction l as [|e l IH]; intros w w' Hok H; simpl in H; simplify_eq.
  { split_and!; try done. intros e He. by apply elem_of_nil in He. }
  apply rbind_ok in H as (w1 & H1 & H2). apply Hf in H1. unfold far_del_step in H1.
  pose proof (delete_far_effect (sf_gid (snd e)) (w_dp w) Hok) as He.
  pose proof (delete_far_ok (sf_gid (snd e)) (w_dp w) Hok) as Hok1. rewrite <- H1 in Hok1.
  destruct (delete_far (sf_gid (snd e)) (w_dp w)) as [ok d'] eqn:Ed. simpl in H1. subst d'.
  destruct He as (Hsz & _ & Hfree & Hget).
  destruct (IH w1 w' Hok1 H2) as (Hsz' & Hall & Hmf & Hmg & Ho). split_and!.
  - congruence.
  - intros e' He'. apply elem_of_cons in He' as [->|He']; [|by apply Hall].
    intros Hlt. rewrite Hsz', Hsz in Hlt. split; [apply Hmf, Hfree; by left|].
    apply Hmg. rewrite Hget. by rewrite decide_True.
  - intros g Hg. apply Hmf, Hfree. by right.
  - intros g Hg. apply Hmg. rewrite Hget. by destruct (decide _).
  - intros g Hg. rewrite fmap_cons, not_elem_of_cons in Hg. destruct Hg as [Hg1 Hg2].
    destruct (Ho g Hg2) as [-> ->]. rewrite Hget, Hfree. rewrite decide_False by naive_solver. split; [done|naive_solver].
Qed.
Lemma del_qers_effect (f : N * sqer -> work -> res) l :
  (forall e w w', f e w = ROk w' -> qer_del_step e w w') ->
  forall w w', dp_ok (w_dp w) -> each f l w = ROk w' ->
  d_qer_size (w_dp w') = d_qer_size (w_dp w) /\
  (forall e, e ∈ l -> qer_gone (w_dp w') (sq_gid (snd e))) /\
  (forall g, qer_free (w_dp w) g -> qer_free (w_dp w') g) /\
  (forall g, qer_get (w_dp w) g = Some qer0 -> qer_get (w_dp w') g = Some qer0) /\
  (forall g, g ∉ ((fun e => sq_gid (snd e)) <$> l) ->
     qer_get (w_dp w') g = qer_get (w_dp w) g /\ (qer_free (w_dp w') g <-> qer_free (w_dp w) g)).
Proof.
  intros Hf. induction l as [|e l IH]; intros w w' Hok H; simpl in H; simplify_eq.
  { split_and!; try done. intros e He. by apply elem_of_nil in He. }
  apply rbind_ok in H as (w1 & H1 & H2). apply Hf in H1. unfold qer_del_step in H1.
  pose proof (delete_qer_effect (sq_gid (snd e)) (w_dp w) Hok) as He.
  pose proof (delete_qer_ok (sq_gid (snd e)) (w_dp w) Hok) as Hok1. rewrite <- H1 in Hok1.
  destruct (delete_qer (sq_gid (snd e)) (w_dp w)) as [ok d'] eqn:Ed. simpl in H1. subst d'.
  destruct He as (Hsz & _ & Hfree & Hget).
  destruct (IH w1 w' Hok1 H2) as (Hsz' & Hall & Hmf & Hmg & Ho). split_and!.
  - congruence.
  - intros e' He'. apply elem_of_cons in He' as [->|He']; [|by apply Hall].
    intros Hlt. rewrite Hsz', Hsz in Hlt. split; [apply Hmf, Hfree; by left|].
    apply Hmg. rewrite Hget. by rewrite decide_True.
  - intros g Hg. apply Hmf, Hfree. by right.
  - intros g Hg. apply Hmg. rewrite Hget. by destruct (decide _).
  - intros g Hg. rewrite fmap_cons, not_elem_of_cons in Hg. destruct Hg as [Hg1 Hg2].
    destruct (Ho g Hg2) as [-> ->]. rewrite Hget, Hfree. rewrite decide_False by naive_solver. split; [done|naive_solver].
Qed.

(** The report of one URR of a deleted session, given the data plane before the deletion. *)
Definition final_report (d : dp) (e : N * surr) : option report :=
  (fun v => Report (fst e) (u32 (su_seq (snd e) + 1)) (u64 (ui_ul v + ui_dl v)) (ui_ul v) (ui_dl v))
    <$> urr_get d (su_gid (snd e)).

Lemma del_urrs_effect l : forall w w', dp_ok (w_dp w) -> each del_urr l w = ROk w' ->
  d_urr_size (w_dp w') = d_urr_size (w_dp w) /\
  (forall e, e ∈ l -> urr_gone (w_dp w') (su_gid (snd e))) /\
  (forall g, urr_free (w_dp w) g -> urr_free (w_dp w') g) /\
  (forall g, urr_get (w_dp w) g = Some urr0 -> urr_get (w_dp w') g = Some urr0) /\
  (forall g, g ∉ ((fun e => su_gid (snd e)) <$> l) ->
     urr_get (w_dp w') g = urr_get (w_dp w) g /\ (urr_free (w_dp w') g <-> urr_free (w_dp w) g)) /\
  (NoDup ((fun e => su_gid (snd e)) <$> l) -> w_reports w' = w_reports w ++ omap (final_report (w_dp w)) l).
Proof.
  induction l as [|e l IH]; intros w w' Hok H; simpl in H; simplify_eq.
  { split_and!; try done. { intros e He. by apply elem_of_nil in He. } intros _. by rewrite app_nil_r. }
  apply rbind_ok in H as (w1 & H1 & H2). unfold del_urr in H1.
  pose proof (delete_urr_effect (su_gid (snd e)) (w_dp w) Hok) as He.
  pose proof (delete_urr_ok (su_gid (snd e)) (w_dp w) Hok) as Hok1.
  destruct (delete_urr (su_gid (snd e)) (w_dp w)) as [o d'] eqn:Ed. destruct He as (Ho & Hsz & Hfree & Hget).
  assert (Hw1 : w_dp w1 = d' /\ w_reports w1 = w_reports w ++ match o with Some v => [make_report (fst e) (snd e) v] | None => [] end).
  { destruct o; simplify_eq; simpl; [done|]. by rewrite app_nil_r. }
  destruct Hw1 as [Hd1 Hr1]. rewrite <- Hd1 in *. clear H1. simpl in Hok1.
  destruct (IH w1 w' Hok1 H2) as (Hsz' & Hall & Hmf & Hmg & Hoth & Hrep). split_and!.
  - congruence.
  - intros e' He'. apply elem_of_cons in He' as [->|He']; [|by apply Hall].
    intros Hlt. rewrite Hsz', Hsz in Hlt. split; [apply Hmf, Hfree; by left|].
    apply Hmg. rewrite Hget. by rewrite decide_True.
  - intros g Hg. apply Hmf, Hfree. by right.
  - intros g Hg. apply Hmg. rewrite Hget. by destruct (decide _).
  - intros g Hg. rewrite fmap_cons, not_elem_of_cons in Hg. destruct Hg as [Hg1 Hg2].
    destruct (Hoth g Hg2) as [-> ->]. rewrite Hget, Hfree. rewrite decide_False by naive_solver. split; [done|naive_solver].
  - intros Hnd. rewrite fmap_cons in Hnd. apply NoDup_cons in Hnd as [Hni Hnd]. rewrite (Hrep Hnd), Hr1, <- app_assoc.
    f_equal. assert (omap (final_report (w_dp w1)) l = omap (final_report (w_dp w)) l) as ->.
    { clear -Hni Hget. induction l as [|x l IHl]; [done|]. rewrite fmap_cons, not_elem_of_cons in Hni. destruct Hni as [Hn1 Hn2].
      csimpl. rewrite IHl by done. unfold final_report at 1 3. rewrite Hget. rewrite decide_False by naive_solver. done. }
    csimpl. unfold final_report at 2. rewrite <- Ho. destruct o; done.
Qed.

(** ** Invariants of single sessions, for all reachable states *)

Definition ends (r : res) (Q : work -> Prop) : Prop := match r with ROk w | RErr w => Q w | RCrash => True end.
Lemma each_ends {A} (Q : work -> Prop) (f : A -> work -> res) l w :
  (forall x w, Q w -> ends (f x w) Q) -> Q w -> ends (each f l w) Q.
Proof.
  intros Hf. revert w. induction l as [|x l IH]; intros w Hw; simpl; [done|].
  pose proof (Hf x w Hw) as Hx. destruct (f x w) as [w1|w1|]; simpl in *; try done. by apply IH.
Qed.
Lemma bind_ends (Q : work -> Prop) r k : ends r Q -> (forall w, Q w -> ends (k w) Q) -> ends (rbind r k) Q.
Proof. intros H Hk. destruct r as [w1|w1|]; simpl in *; try done. by apply Hk. Qed.
Lemma keep_ends {B} (proj : work -> B) (Q : B -> Prop) w r :
  keepsP proj w r -> Q (proj w) -> ends r (fun w => Q (proj w)).
Proof. intros H HQ. destruct r; simpl in *; try done; by rewrite H. Qed.

Lemma reachable_sessions (P : session -> Prop) :
  (forall l r, P (new_session l r)) -> (forall r s, P s -> P (set_remote r s)) ->
  (forall ueip q w, P (w_ses w) -> ends (est_rules ueip q w) (fun w => P (w_ses w))) ->
  (forall ueip sh q w, P (w_ses w) -> ends (mod_rules ueip sh q w) (fun w => P (w_ses w))) ->
  forall c addr seid s, reachable c -> session_of c addr seid = Some s -> P s.
Proof.
  intros Hnew Hrem Hest Hmod.
  assert (Hstep : forall c e c' r, step c e = Done c' r ->
    (forall addr seid s, session_of c addr seid = Some s -> P s) ->
    forall addr seid s, session_of c' addr seid = Some s -> P s).
  { intros c e c' r H HI.
    assert (Hput : forall addr a seid s0, c_assocs c !! addr = Some a -> P s0 -> forall n x d rm,
      forall addr' seid' s', session_of (set_dp_rm d rm (set_assocs (<[addr := Assoc n x (<[seid := s0]> (a_sessions a))]> (c_assocs c)) c)) addr' seid' = Some s' -> P s').
    { intros addr a seid s0 Ha Hs0 n x d rm addr' seid' s'. unfold session_of. simpl.
      destruct (decide (addr' = addr)) as [->|Hne].
      - rewrite lookup_insert. simpl. rewrite lookup_insert_Some. intros [[_ <-]|[_ Hl]]; [done|].
        eapply (HI addr seid'). unfold session_of. by rewrite Ha.
      - rewrite lookup_insert_ne by done. apply HI. }
    assert (Hsub : forall addr a n x (M : gmap N session) d rm, c_assocs c !! addr = Some a -> (forall k v, M !! k = Some v -> a_sessions a !! k = Some v) ->
      forall addr' seid' s', session_of (set_dp_rm d rm (set_assocs (<[addr := Assoc n x M]> (c_assocs c)) c)) addr' seid' = Some s' -> P s').
    { intros addr a n x M d rm Ha HM addr' seid' s'. unfold session_of. simpl.
      destruct (decide (addr' = addr)) as [->|Hne].
      - rewrite lookup_insert. simpl. intros Hl. apply HM in Hl. eapply (HI addr seid'). unfold session_of. by rewrite Ha.
      - rewrite lookup_insert_ne by done. apply HI. }
    destruct e as [sh addr seq m|sh addr|marks vols]; simpl in H.
    - destruct m as [t|t|n t|n k f|n|q|q|seid|ty]; simpl in H.
      + unfold handle_hb_req in H. destruct t; simplify_eq; done.
      + unfold handle_hb_resp in H. destruct t; simplify_eq; done.
      + unfold handle_setup, ensure_assoc in H. destruct n as [| |n]; [by simplify_eq..|].
        destruct t as [| |t]; [by simplify_eq..|]. destruct (c_assocs c !! addr) eqn:Ea; simplify_eq; [done|].
        intros addr' seid' s'. unfold session_of. simpl. destruct (decide (addr' = addr)) as [->|Hne].
        * rewrite lookup_insert. simpl. by rewrite lookup_empty.
        * rewrite lookup_insert_ne by done. apply HI.
      + unfold handle_setup_resp, ensure_assoc in H. destruct n as [| |n], k as [| |k], f as [| |f]; simplify_eq; try done.
        destruct (k =? Accepted); simplify_eq; [|done]. destruct (c_assocs c !! addr) eqn:Ea; simplify_eq; [done|].
        intros addr' seid' s'. unfold session_of. simpl. destruct (decide (addr' = addr)) as [->|Hne].
        * rewrite lookup_insert. simpl. by rewrite lookup_empty.
        * rewrite lookup_insert_ne by done. apply HI.
      + unfold handle_update in H. repeat (case_match; simplify_eq); simplify_eq; done.
      + unfold handle_est in H. destruct (validate_request _ _) as [remote|]; simplify_eq; [|done].
        destruct (c_assocs c !! addr) as [a|] eqn:Ha; simplify_eq; [|done]. destruct (existsb _ _); [done|].
        pose proof (Hest (g_ueip (c_cfg c)) q (new_work (c_dp c) (new_session (next_seid a) remote) (c_rm c)) (Hnew _ _)) as Hl.
        destruct (est_rules _ _ _) as [w|w|]; simplify_eq; simpl in Hl.
        * unfold put_session. simpl. rewrite insert_insert.
          change (Conn (<[addr:=Assoc (a_node a) (next_seid a) (<[next_seid a:=w_ses w]> (a_sessions a))]> (c_assocs c))
             (c_dp c) (c_rm c) (c_cfg c)) with
            (set_assocs (<[addr:=Assoc (a_node a) (next_seid a) (<[next_seid a:=w_ses w]> (a_sessions a))]> (c_assocs c)) c).
          intros addr' seid' s'.
          exact (Hput addr a (next_seid a) (w_ses w) Ha Hl (a_node a) (next_seid a) (w_dp w) (w_rm w) addr' seid' s').
        * by eapply Hsub.
      + unfold handle_mod in H. destruct (c_assocs c !! addr) as [a|] eqn:Ha; simplify_eq; [|done].
        destruct (a_sessions a !! mq_seid q) as [s|] eqn:Hs; simplify_eq; [|done].
        destruct (_ || _); [done|].
        assert (Ps : P s). { eapply (HI addr (mq_seid q)). unfold session_of. by rewrite Ha. }
        match type of H with context [mod_rules ?x ?y ?z ?t] => pose proof (Hmod x y z t) as Hl end.
        feed specialize Hl. { simpl. destruct (mq_fseid q); auto. }
        destruct (mod_rules _ _ _ _) as [w|w|]; simplify_eq; simpl in Hl; by eapply Hput.
      + unfold handle_del in H. destruct (c_assocs c !! addr) as [a|] eqn:Ha; simplify_eq; [|done].
        destruct (a_sessions a !! seid) as [s|] eqn:Hs; simplify_eq; [|done].
        destruct (del_rules _ _ _) as [w|w|]; simplify_eq; [|done].
        eapply Hsub; [done|]. intros k v Hk. apply lookup_delete_Some in Hk. tauto.
      + by simplify_eq.
    - unfold prune in H. destruct (c_assocs c !! addr) as [a|] eqn:Ha; [|done].
      destruct (prune_sessions _ _ _ _) as [[d rm]|] eqn:E; simplify_eq.
      intros addr' seid' s'. unfold session_of. simpl. destruct (delete addr (c_assocs c) !! addr') as [a'|] eqn:El; [|done].
      apply lookup_delete_Some in El as [_ El]. intros Hl. eapply (HI addr' seid'). unfold session_of. by rewrite El.
    - by simplify_eq. }
  intros c addr seid s (g & rm & p & f & q & u & es & l & _ & _ & Hrun). revert addr seid s.
  assert (forall c0, (forall addr seid s, session_of c0 addr seid = Some s -> P s) -> forall l, run c0 es = Some (c, l) ->
    forall addr seid s, session_of c addr seid = Some s -> P s) as Hgo.
  { clear Hrun l. induction es as [|e es IH]; intros c0 H0 l H; simpl in H; [by simplify_eq|].
    destruct (step c0 e) as [c1 r|] eqn:E; [|done]. destruct (run c1 es) as [[c3 l3]|] eqn:E'; [|done]. simplify_eq.
    eapply IH; [|done]. by eapply Hstep. }
  apply (Hgo (init g rm (dp_init p f q u))) with (l := l); [|done].
  intros addr seid s. unfold session_of, init. simpl. by rewrite lookup_empty.
Qed.

(** Every stored URR has report number 0, so the next report is number 1. *)
Definition urrs_fresh (s : session) : Prop := forall i u, s_urrs s !! i = Some u -> su_seq u = 0.

Lemma urr_ends_fresh : 
  (forall u w, urrs_fresh (w_ses w) -> ends (create_urr u w) (fun w => urrs_fresh (w_ses w))) /\
  (forall u w, urrs_fresh (w_ses w) -> ends (update_urr_ie u w) (fun w => urrs_fresh (w_ses w))) /\
  (forall u w, urrs_fresh (w_ses w) -> ends (remove_urr_ie u w) (fun w => urrs_fresh (w_ses w))).
Proof.
  unfold urrs_fresh. split_and!; intros [id|] w Hw; simpl; try done.
  - destruct (new_urr _ _) as [[g|] d]; simpl; [|done]. intros i u. rewrite lookup_insert_Some.
    intros [[_ <-]|[_ Hu]]; [done|eauto].
  - cbn zeta. simpl. assert (forall i u, <[id:=Surr (su_info (get_urr (w_ses w) id)) (su_gid (get_urr (w_ses w) id)) (su_seq (get_urr (w_ses w) id))]>
      (s_urrs (w_ses w)) !! i = Some u -> su_seq u = 0) as Hx.
    { intros i u. rewrite lookup_insert_Some. intros [[_ <-]|[_ Hu]]; [|eauto]. simpl. unfold get_urr.
      destruct (s_urrs (w_ses w) !! id) eqn:E; simpl; eauto. }
    destruct (update_urr _ _ _) as [[] d]; exact Hx.
  - cbn zeta. simpl. destruct (delete_urr _ _) as [[v|] d]; simpl; intros i u Hu; apply lookup_delete_Some in Hu; naive_solver.
Qed.

Lemma urrs_fresh_part w r : keepsP urr_part w r -> urrs_fresh (w_ses w) -> ends r (fun w => urrs_fresh (w_ses w)).
Proof.
  intros H Hw. destruct r as [w'|w'|]; simpl in *; try done;
  unfold urr_part in H; injection H as _ _ _ H; unfold urrs_fresh; by rewrite H.
Qed.

Lemma reachable_urrs_fresh c addr seid s : reachable c -> session_of c addr seid = Some s -> urrs_fresh s.
Proof.
  destruct far_frame_urr as (F1 & F2 & F3 & _). destruct qer_frame_urr as (Q1 & Q2 & Q3 & _).
  destruct pdr_frame_urr as (P1 & P2 & P3 & _). destruct urr_ends_fresh as (U1 & U2 & U3).
  apply reachable_sessions.
  - intros l r i u. simpl. by rewrite lookup_empty.
  - intros r s0 H. exact H.
  - intros ueip q w Hw. unfold est_rules.
    repeat (apply bind_ends; [apply each_ends; [intros|done]|intros; simpl in *]); [..|apply each_ends; [intros|done]];
      eauto using urrs_fresh_part.
  - intros ueip sh q w Hw. unfold mod_rules.
    repeat (apply bind_ends; [apply each_ends; [intros|done]|intros; simpl in *]); [..|apply each_ends; [intros|done]];
      eauto using urrs_fresh_part.
Qed.

(** ** C15, C20: an accepted deletion *)

Lemma handle_del_inv sh addr seq seid c c' r :
  handle sh addr seq (SessDelReq seid) c = Done c' (Some r) -> r_cause r = Some 1 ->
  exists a s w, c_assocs c !! addr = Some a /\ a_sessions a !! seid = Some s /\
    del_rules sh s (new_work (c_dp c) s (c_rm c)) = ROk w /\
    c_dp c' = w_dp w /\ c_rm c' = release_resources sh seid (w_rm w) /\ r_reports r = w_reports w /\
    r_seid r = s_remote s /\
    c_assocs c' = <[addr := Assoc (a_node a) (a_next a) (delete seid (a_sessions a))]> (c_assocs c).
Proof.
  simpl. unfold handle_del. intros H Hr.
  destruct (c_assocs c !! addr) as [a|] eqn:Ea; simplify_eq; try done.
  destruct (a_sessions a !! seid) as [s|] eqn:Es; simplify_eq; try done.
  destruct (del_rules _ _ _) as [w|w|] eqn:Ew; simplify_eq; try done.
  exists a, s, w. by split_and!.
Qed.

Lemma delete_pdrs_other {A} (f : A -> work -> res) (g : A -> spdr) l :
  (forall x w w', f x w = ROk w' -> pdr_deleted (g x) w w') ->
  forall w w', each f l w = ROk w' ->
  (forall k, dp_find (w_dp w) k = None -> dp_find (w_dp w') k = None) /\
  (forall k, k ∉ (spdr_key ∘ g <$> l) -> dp_find (w_dp w') k = dp_find (w_dp w) k).
Proof.
  intros Hf. induction l as [|x l IH]; intros w w' H; simpl in H; simplify_eq; [done|].
  apply rbind_ok in H as (w1 & H1 & H2). apply Hf in H1 as (Hother & Hmono & _).
  destruct (IH w1 w' H2) as (Hm & Ho). split.
  - intros k Hk. apply Hm, Hmono, Hk.
  - intros k Hk. rewrite fmap_cons, not_elem_of_cons in Hk. destruct Hk as [Hk1 Hk2]. rewrite Ho by done. by apply Hother.
Qed.

Lemma each_member {A} (f : A -> work -> res) l w w' x : each f l w = ROk w' -> x ∈ l ->
  exists l1 w1 w2, each f l1 w = ROk w1 /\ f x w1 = ROk w2.
Proof.
  revert w. induction l as [|y l IH]; intros w H Hx; [by apply elem_of_nil in Hx|]. simpl in H.
  apply rbind_ok in H as (w1 & H1 & H2). apply elem_of_cons in Hx as [->|Hx].
  - exists [], w, w1. done.
  - destruct (IH w1 H2 Hx) as (l1 & w2 & w3 & ? & ?). exists (y :: l1), w2, w3. simpl. by rewrite H1.
Qed.

(** The PDRs of a session. *)
Definition pdrs_of (s : session) : list spdr := snd <$> map_to_list (s_pdrs s).
Lemma elem_of_pdrs s p : p ∈ pdrs_of s <-> exists i, s_pdrs s !! i = Some p.
Proof.
  unfold pdrs_of. rewrite elem_of_list_fmap. split.
  - intros ([i p'] & -> & H). apply elem_of_map_to_list in H. eauto.
  - intros [i H]. exists (i, p). split; [done|]. by apply elem_of_map_to_list.
Qed.

Lemma del_far_ok_step e w w' : del_far e w = ROk w' -> far_del_step e w w'.
Proof. unfold del_far, far_del_step. destruct (delete_far _ _) as [[] d]; intros; by simplify_eq. Qed.
Lemma del_qer_ok_step e w w' : del_qer e w = ROk w' -> qer_del_step e w w'.
Proof. unfold del_qer, qer_del_step. destruct (delete_qer _ _) as [[] d]; intros; by simplify_eq. Qed.
Lemma delete_pdr_ok_step sh (e : N * spdr) w w' : delete_pdr sh (snd e) w = ROk w' -> pdr_deleted (snd e) w w'.
Proof. intros H. pose proof (delete_pdr_effect sh (snd e) w) as He. by rewrite H in He. Qed.

(** Decomposition of a successful deletion. *)
Lemma del_rules_inv sh s d rm w : del_rules sh s (new_work d s rm) = ROk w ->
  exists w1 w2 w3,
    each (fun e => delete_pdr sh (snd e)) (entries sh 0 (s_pdrs s)) (new_work d s rm) = ROk w1 /\
    each del_far (entries sh 1 (s_fars s)) w1 = ROk w2 /\
    each del_qer (entries sh 2 (s_qers s)) w2 = ROk w3 /\
    each del_urr (entries sh 3 (s_urrs s)) w3 = ROk w /\
    (forall k, dp_find (w_dp w) k = dp_find (w_dp w1) k) /\
    far_part w = far_part w2 /\ far_part w1 = far_part (new_work d s rm) /\
    qer_part w = qer_part w3 /\ qer_part w2 = qer_part (new_work d s rm) /\
    urr_part w3 = urr_part (new_work d s rm) /\ w_reports w3 = [] /\
    w_rm w = w_rm w1.
Proof.
  unfold del_rules. intros H.
  apply rbind_ok in H as (w1 & H1 & H). apply rbind_ok in H as (w2 & H2 & H). apply rbind_ok in H as (w3 & H3 & H4).
  destruct far_frame_qer as (_ & _ & _ & Fq). destruct far_frame_urr as (_ & _ & _ & Fu).
  destruct far_frame_pdr as (_ & _ & _ & Fp). destruct far_frame_rep as (_ & _ & _ & Fr). destruct far_frame_pool as (_ & _ & _ & Fo).
  destruct qer_frame_far as (_ & _ & _ & Qf). destruct qer_frame_urr as (_ & _ & _ & Qu).
  destruct qer_frame_pdr as (_ & _ & _ & Qp). destruct qer_frame_rep as (_ & _ & _ & Qr). destruct qer_frame_pool as (_ & _ & _ & Qo).
  destruct urr_frame_far as (_ & _ & _ & Uf). destruct urr_frame_qer as (_ & _ & _ & Uq).
  destruct urr_frame_pdr as (_ & _ & _ & Up). destruct urr_frame_pool as (_ & _ & _ & Uo).
  destruct pdr_frame_far as (_ & _ & _ & Pf). destruct pdr_frame_qer as (_ & _ & _ & Pq).
  destruct pdr_frame_urr as (_ & _ & _ & Pu). destruct pdr_frame_rep as (_ & _ & _ & Pr).
  set (fp := fun e : N * spdr => delete_pdr sh (snd e)) in *.
  assert (forall {B} (proj : work -> B), (forall sh s w, keepsP proj w (delete_pdr sh s w)) -> proj w1 = proj (new_work d s rm)) as K1.
  { intros B proj Hp. use_keep H1 (each_keep proj fp (entries sh 0 (s_pdrs s)) (new_work d s rm) (fun e w => Hp sh (snd e) w)). done. }
  assert (forall {B} (proj : work -> B), (forall e w, keepsP proj w (del_far e w)) -> proj w2 = proj w1) as K2.
  { intros B proj Hp. use_keep H2 (each_keep proj del_far (entries sh 1 (s_fars s)) w1 Hp). done. }
  assert (forall {B} (proj : work -> B), (forall e w, keepsP proj w (del_qer e w)) -> proj w3 = proj w2) as K3.
  { intros B proj Hp. use_keep H3 (each_keep proj del_qer (entries sh 2 (s_qers s)) w2 Hp). done. }
  assert (forall {B} (proj : work -> B), (forall e w, keepsP proj w (del_urr e w)) -> proj w = proj w3) as K4.
  { intros B proj Hp. use_keep H4 (each_keep proj del_urr (entries sh 3 (s_urrs s)) w3 Hp). done. }
  exists w1, w2, w3. split_and!; try done.
  - intros k. pose proof (K2 _ _ Fp) as E2. pose proof (K3 _ _ Qp) as E3. pose proof (K4 _ _ Up) as E4.
    unfold pdr_part in *. destruct k; simpl; congruence.
  - rewrite (K4 _ _ Uf). apply (K3 _ _ Qf).
  - apply (K1 _ _ Pf).
  - apply (K4 _ _ Uq).
  - rewrite (K2 _ _ Fq). apply (K1 _ _ Pq).
  - rewrite (K3 _ _ Qu), (K2 _ _ Fu). apply (K1 _ _ Pu).
  - change (rep_part w3 = []). rewrite (K3 _ _ Qr), (K2 _ _ Fr). apply (K1 _ _ Pr).
  - pose proof (K2 _ _ Fo) as E2. pose proof (K3 _ _ Qo) as E3. pose proof (K4 _ _ Uo) as E4.
    unfold pool_part in *. congruence.
Qed.

Lemma far_part_get w w' g : far_part w = far_part w' ->
  far_get (w_dp w) g = far_get (w_dp w') g /\ (far_free (w_dp w) g <-> far_free (w_dp w') g) /\ d_far_size (w_dp w) = d_far_size (w_dp w').
Proof. unfold far_part, far_get, far_free. intros H. injection H as -> -> -> _. done. Qed.
Lemma qer_part_get w w' g : qer_part w = qer_part w' ->
  qer_get (w_dp w) g = qer_get (w_dp w') g /\ (qer_free (w_dp w) g <-> qer_free (w_dp w') g) /\ d_qer_size (w_dp w) = d_qer_size (w_dp w').
Proof. unfold qer_part, qer_get, qer_free. intros H. injection H as -> -> -> _. done. Qed.
Lemma urr_part_get w w' g : urr_part w = urr_part w' ->
  urr_get (w_dp w) g = urr_get (w_dp w') g /\ (urr_free (w_dp w) g <-> urr_free (w_dp w') g) /\ d_urr_size (w_dp w) = d_urr_size (w_dp w').
Proof. unfold urr_part, urr_get, urr_free. intros H. injection H as -> -> -> _. done. Qed.

Theorem session_deletion_partial :
  forall sh addr seq seid c c' r s,
    reachable c -> fair sh -> session_of c addr seid = Some s ->
    handle sh addr seq (SessDelReq seid) c = Done c' (Some r) -> r_cause r = Some 1 ->
    session_of c' addr seid = None /\
    (* detection keys *)
    (forall p, p ∈ pdrs_of s -> key_alone (pdrs_of s) (spdr_key p) -> dp_find (c_dp c') (spdr_key p) = None) /\
    (forall k, (forall p, p ∈ pdrs_of s -> spdr_key p <> k) -> dp_find (c_dp c') k = dp_find (c_dp c) k) /\
    (* rule ids *)
    (forall i f, s_fars s !! i = Some f -> far_free (c_dp c') (sf_gid f) /\ far_get (c_dp c') (sf_gid f) = Some far0) /\
    (forall i q, s_qers s !! i = Some q -> qer_free (c_dp c') (sq_gid q) /\ qer_get (c_dp c') (sq_gid q) = Some qer0) /\
    (forall i u, s_urrs s !! i = Some u -> urr_gone (c_dp c') (su_gid u)) /\
    (* nothing else *)
    (forall g, (forall i f, s_fars s !! i = Some f -> sf_gid f <> g) ->
       far_get (c_dp c') g = far_get (c_dp c) g /\ (far_free (c_dp c') g <-> far_free (c_dp c) g)) /\
    (forall g, (forall i q, s_qers s !! i = Some q -> sq_gid q <> g) ->
       qer_get (c_dp c') g = qer_get (c_dp c) g /\ (qer_free (c_dp c') g <-> qer_free (c_dp c) g)) /\
    (forall g, (forall i u, s_urrs s !! i = Some u -> su_gid u <> g) ->
       urr_get (c_dp c') g = urr_get (c_dp c) g /\ (urr_free (c_dp c') g <-> urr_free (c_dp c) g)).
Proof.
  intros sh addr seq seid c c' r s Hreach Hf Hs0 H Hr.
  pose proof (reachable_ok _ Hreach) as [Hok _].
  apply handle_del_inv in H as (a & s' & w & Ha & Hs & Hw & Hd & _ & _ & _ & Ht); [|done].
  assert (s' = s) as ->. { unfold session_of in Hs0. rewrite Ha in Hs0. congruence. }
  split. { unfold session_of. rewrite Ht, lookup_insert. simpl. apply lookup_delete. }
  apply del_rules_inv in Hw as (w1 & w2 & w3 & H1 & H2 & H3 & H4 & Hk & Hfp & Hfp1 & Hqp & Hqp1 & Hup & _ & _).
  pose proof (by_prims_ok _ _ (each_prims (fun e => delete_pdr sh (snd e)) (entries sh 0 (s_pdrs s)) (new_work (c_dp c) s (c_rm c)) (fun e w => delete_pdr_prims sh (snd e) w Hf)) Hok) as Hok1.
  rewrite H1 in Hok1.
  pose proof (by_prims_ok _ _ (each_prims _ (entries sh 1 (s_fars s)) w1 del_far_prims) Hok1) as Hok2. rewrite H2 in Hok2.
  pose proof (by_prims_ok _ _ (each_prims _ (entries sh 2 (s_qers s)) w2 del_qer_prims) Hok2) as Hok3. rewrite H3 in Hok3.
  destruct (del_fars_effect del_far _ del_far_ok_step _ _ Hok1 H2) as (Fsz & Fgone & _ & _ & Fo).
  destruct (del_qers_effect del_qer _ del_qer_ok_step _ _ Hok2 H3) as (Qsz & Qgone & _ & _ & Qo).
  destruct (del_urrs_effect _ _ _ Hok3 H4) as (Usz & Ugone & _ & _ & Uo & _).
  rewrite Hd. split_and!.
  - intros p Hp Hlow. rewrite Hk. apply elem_of_pdrs in Hp as [i Hp].
    eapply (delete_pdrs_key (fun e : N * spdr => delete_pdr sh (snd e)) snd (pdrs_of s) (entries sh 0 (s_pdrs s)));
      [exact (delete_pdr_ok_step sh)|exact Hlow| | |exact H1|].
    + intros [j x] Hx. apply elem_of_entries in Hx; [|done]. apply elem_of_pdrs; eauto.
    + intros t _ [v Hx]. simpl in Hx. by rewrite lookup_empty in Hx.
    + left. exists (i, p). split; [by apply elem_of_entries|done].
  - intros k Hne. rewrite Hk.
    destruct (delete_pdrs_other (fun e : N * spdr => delete_pdr sh (snd e)) snd (entries sh 0 (s_pdrs s))
       (delete_pdr_ok_step sh) _ _ H1) as (_ & Hall). apply Hall. intros Hx. apply elem_of_list_fmap in Hx as ([i p] & -> & Hx).
    apply elem_of_entries in Hx; [|done]. eapply Hne; [|done]. apply elem_of_pdrs. eauto.
  - intros i f Hi. destruct (far_part_get _ _ (sf_gid f) Hfp) as (-> & -> & Hsz).
    apply (Fgone (i, f)); [by apply elem_of_entries|]. simpl.
    destruct (each_member del_far _ _ _ (i, f) H2) as (l1 & w4 & w5 & E1 & E2); [by apply elem_of_entries|].
    unfold del_far in E2. simpl in E2.
    pose proof (by_prims_ok _ _ (each_prims _ l1 w1 del_far_prims) Hok1) as Hok4. rewrite E1 in Hok4.
    destruct (del_fars_effect del_far _ del_far_ok_step _ _ Hok1 E1) as (Esz & _).
    pose proof (delete_far_effect (sf_gid f) (w_dp w4) Hok4) as He.
    destruct (delete_far (sf_gid f) (w_dp w4)) as [[] d4]; [|done]. destruct He as (_ & [Hx _] & _). rewrite Fsz, <- Esz. by apply Hx.
  - intros i f Hi. destruct (qer_part_get _ _ (sq_gid f) Hqp) as (-> & -> & Hsz).
    apply (Qgone (i, f)); [by apply elem_of_entries|]. simpl.
    destruct (each_member del_qer _ _ _ (i, f) H3) as (l1 & w4 & w5 & E1 & E2); [by apply elem_of_entries|].
    unfold del_qer in E2. simpl in E2.
    pose proof (by_prims_ok _ _ (each_prims _ l1 w2 del_qer_prims) Hok2) as Hok4. rewrite E1 in Hok4.
    destruct (del_qers_effect del_qer _ del_qer_ok_step _ _ Hok2 E1) as (Esz & _).
    pose proof (delete_qer_effect (sq_gid f) (w_dp w4) Hok4) as He.
    destruct (delete_qer (sq_gid f) (w_dp w4)) as [[] d4]; [|done]. destruct He as (_ & [Hx _] & _). rewrite Qsz, <- Esz. by apply Hx.
  - intros i u Hi. apply (Ugone (i, u)). by apply elem_of_entries.
  - intros g Hg. destruct (far_part_get _ _ g Hfp) as (-> & -> & _).
    destruct (Fo g) as [-> ->].
    { intros Hx. apply elem_of_list_fmap in Hx as ([i f] & -> & Hx). apply elem_of_entries in Hx; [|done]. by eapply Hg. }
    destruct (far_part_get _ _ g Hfp1) as (-> & -> & _). done.
  - intros g Hg. destruct (qer_part_get _ _ g Hqp) as (-> & -> & _).
    destruct (Qo g) as [-> ->].
    { intros Hx. apply elem_of_list_fmap in Hx as ([i f] & -> & Hx). apply elem_of_entries in Hx; [|done]. by eapply Hg. }
    destruct (qer_part_get _ _ g Hqp1) as (-> & -> & _). done.
  - intros g Hg.
    destruct (Uo g) as [-> ->].
    { intros Hx. apply elem_of_list_fmap in Hx as ([i f] & -> & Hx). apply elem_of_entries in Hx; [|done]. by eapply Hg. }
    destruct (urr_part_get _ _ g Hup) as (-> & -> & _). done.
Qed.

(** C20 for deletions: one report per URR, number 1, with the volumes counted for its id. *)
Theorem deletion_reports_partial :
  forall sh addr seq seid c c' r s,
    reachable c -> fair sh -> session_of c addr seid = Some s ->
    handle sh addr seq (SessDelReq seid) c = Done c' (Some r) -> r_cause r = Some 1 ->
    (* the URRs of the session have different data-plane ids, all within the map *)
    (forall i j u v, s_urrs s !! i = Some u -> s_urrs s !! j = Some v -> su_gid u = su_gid v -> i = j) ->
    (forall i u, s_urrs s !! i = Some u -> su_gid u < d_urr_size (c_dp c)) ->
    NoDup (rp_urr <$> r_reports r) /\
    forall x, x ∈ r_reports r <->
      exists i u v, s_urrs s !! i = Some u /\ urr_get (c_dp c) (su_gid u) = Some v /\
        x = Report i 1 (u64 (ui_ul v + ui_dl v)) (ui_ul v) (ui_dl v).
Proof.
  intros sh addr seq seid c c' r s Hreach Hf Hs0 H Hr Hinj Hin.
  pose proof (reachable_ok _ Hreach) as [Hok _].
  pose proof (reachable_urrs_fresh _ _ _ _ Hreach Hs0) as Hfresh.
  apply handle_del_inv in H as (a & s' & w & Ha & Hs & Hw & Hd & _ & Hrep & _ & Ht); [|done].
  assert (s' = s) as ->. { unfold session_of in Hs0. rewrite Ha in Hs0. congruence. }
  apply del_rules_inv in Hw as (w1 & w2 & w3 & H1 & H2 & H3 & H4 & Hk & Hfp & Hfp1 & Hqp & Hqp1 & Hup & Hr3 & _).
  pose proof (by_prims_ok _ _ (each_prims (fun e => delete_pdr sh (snd e)) (entries sh 0 (s_pdrs s)) (new_work (c_dp c) s (c_rm c)) (fun e w => delete_pdr_prims sh (snd e) w Hf)) Hok) as Hok1.
  rewrite H1 in Hok1.
  pose proof (by_prims_ok _ _ (each_prims _ (entries sh 1 (s_fars s)) w1 del_far_prims) Hok1) as Hok2. rewrite H2 in Hok2.
  pose proof (by_prims_ok _ _ (each_prims _ (entries sh 2 (s_qers s)) w2 del_qer_prims) Hok2) as Hok3. rewrite H3 in Hok3.
  destruct (del_urrs_effect _ _ _ Hok3 H4) as (_ & _ & _ & _ & _ & Hreps).
  assert (Hnd : NoDup ((fun e => su_gid (snd e)) <$> entries sh 3 (s_urrs s))).
  { pose proof (NoDup_entries_fst sh 3 (s_urrs s) Hf) as Hn.
    assert (Hall : forall e, e ∈ entries sh 3 (s_urrs s) -> s_urrs s !! (fst e) = Some (snd e)).
    { intros [i u] He. by apply elem_of_entries in He. }
    revert Hn Hall. generalize (entries sh 3 (s_urrs s)). intros l. induction l as [|e l IH]; intros Hn Hall; [constructor|].
    rewrite fmap_cons in Hn. apply NoDup_cons in Hn as [Hni Hn]. rewrite fmap_cons. constructor.
    - intros Hx. apply elem_of_list_fmap in Hx as (e' & Heq & He'). apply Hni. apply elem_of_list_fmap. exists e'. split; [|done].
      eapply Hinj; [apply Hall; left|apply Hall; by right|done].
    - apply IH; [done|]. intros e' He'. apply Hall. by right. }
  rewrite Hrep, (Hreps Hnd), Hr3. simpl.
  assert (Hfin : forall e, e ∈ entries sh 3 (s_urrs s) -> exists v, urr_get (c_dp c) (su_gid (snd e)) = Some v /\
     final_report (w_dp w3) e = Some (Report (fst e) 1 (u64 (ui_ul v + ui_dl v)) (ui_ul v) (ui_dl v))).
  { intros [i u] He. apply elem_of_entries in He; [|done]. simpl.
    destruct (urr_part_get _ _ (su_gid u) Hup) as (Hg & _ & _). simpl in Hg.
    pose proof (Hin _ _ He) as Hlt. unfold final_report. simpl. rewrite Hg. unfold urr_get, arr_get.
    destruct (N.ltb_spec (su_gid u) (d_urr_size (c_dp c))); [|lia]. simpl. rewrite (Hfresh _ _ He). eauto. }
  split.
  - pose proof (NoDup_entries_fst sh 3 (s_urrs s) Hf) as Hn. revert Hn Hfin. generalize (entries sh 3 (s_urrs s)). clear. 
    intros l. induction l as [|e l IH]; intros Hn Hfin; [constructor|]. rewrite fmap_cons in Hn. apply NoDup_cons in Hn as [Hni Hn].
    csimpl. destruct (Hfin e) as (v & _ & ->); [left|]. csimpl. constructor.
    + intros Hx. apply Hni. apply elem_of_list_fmap in Hx as (x & Hx1 & Hx2). apply elem_of_list_omap in Hx2 as (e' & He' & Hx2).
      destruct (Hfin e') as (v' & _ & Hv'); [by right|]. rewrite Hx2 in Hv'. simplify_eq. simpl in Hx1. apply elem_of_list_fmap. by exists e'.
    + apply IH; [done|]. intros e' He'. apply Hfin. by right.
  - intros x. rewrite elem_of_list_omap. split.
    + intros (e & He & Hx). destruct (Hfin e He) as (v & Hv & Hv'). rewrite Hx in Hv'. simplify_eq.
      destruct e as [i u]. apply elem_of_entries in He; [|done]. exists i, u, v. done.
    + intros (i & u & v & Hi & Hv & ->). exists (i, u). assert (He : (i, u) ∈ entries sh 3 (s_urrs s)) by by apply elem_of_entries.
      split; [done|]. destruct (Hfin _ He) as (v' & Hv1 & ->). simpl in *. by simplify_eq.
Qed.

(** ** C52: pruning an association *)

(** Nothing is installed, allocated or rewritten (except to zero). *)
Record only_freed (d d' : dp) : Prop := {
  of_keys : forall k, dp_find d k = None -> dp_find d' k = None;
  of_fsz : d_far_size d' = d_far_size d;
  of_qsz : d_qer_size d' = d_qer_size d;
  of_ffree : forall g, far_free d g -> far_free d' g;
  of_qfree : forall g, qer_free d g -> qer_free d' g;
  of_fget : forall g, far_get d g = Some far0 -> far_get d' g = Some far0;
  of_qget : forall g, qer_get d g = Some qer0 -> qer_get d' g = Some qer0 }.
Lemma only_freed_refl d : only_freed d d.
Proof. split; auto. Qed.
Lemma only_freed_trans d1 d2 d3 : only_freed d1 d2 -> only_freed d2 d3 -> only_freed d1 d3.
Proof. intros [] []. split; auto; congruence. Qed.
Lemma far_gone_mono d d' g : only_freed d d' -> far_gone d g -> far_gone d' g.
Proof. intros [] H. unfold far_gone in *. rewrite of_fsz0. naive_solver. Qed.
Lemma qer_gone_mono d d' g : only_freed d d' -> qer_gone d g -> qer_gone d' g.
Proof. intros [] H. unfold qer_gone in *. rewrite of_qsz0. naive_solver. Qed.

Lemma ign_far_step e w w' : ign del_far e w = ROk w' -> far_del_step e w w'.
Proof. unfold ign, del_far, far_del_step. destruct (delete_far _ _) as [[] d]; intros; by simplify_eq. Qed.
Lemma ign_qer_step e w w' : ign del_qer e w = ROk w' -> qer_del_step e w w'.
Proof. unfold ign, del_qer, qer_del_step. destruct (delete_qer _ _) as [[] d]; intros; by simplify_eq. Qed.
Lemma ign_pdr_step sh (e : N * spdr) w w' : ign (fun e : N * spdr => delete_pdr sh (snd e)) e w = ROk w' -> pdr_deleted (snd e) w w'.
Proof.
  unfold ign. intros H. pose proof (delete_pdr_effect sh (snd e) w) as He. destruct (delete_pdr _ _ _); by simplify_eq.
Qed.
Lemma ign_keep {A B} (proj : work -> B) (f : A -> work -> res) x w : keepsP proj w (f x w) -> keepsP proj w (ign f x w).
Proof. unfold ign. by destruct (f x w). Qed.
Lemma each_ign_noerr {A} (f : A -> work -> res) l : forall w w', each (ign f) l w <> RErr w'.
Proof.
  induction l as [|x l IH]; intros w w'; simpl; [done|]. unfold ign at 1. destruct (f x w); simpl; auto.
Qed.

Definition owns_far (s : session) (g : N) : Prop := exists i f, s_fars s !! i = Some f /\ sf_gid f = g.
Definition owns_qer (s : session) (g : N) : Prop := exists i f, s_qers s !! i = Some f /\ sq_gid f = g.
Definition owns_urr (s : session) (g : N) : Prop := exists i f, s_urrs s !! i = Some f /\ su_gid f = g.
Definition owns_key (s : session) (k : key) : Prop := exists p, p ∈ pdrs_of s /\ spdr_key p = k.

Lemma prune_session_effect sh s d rm d' rm' : fair sh -> dp_ok d ->
  prune_session sh s d rm = Some (d', rm') ->
  dp_ok d' /\ only_freed d d' /\
  (forall g, owns_far s g -> far_gone d' g) /\ (forall g, owns_qer s g -> qer_gone d' g) /\
  (low_octets_differ (pdrs_of s) -> forall k, owns_key s k -> dp_find d' k = None) /\
  (forall g, ~ owns_far s g -> far_get d' g = far_get d g /\ (far_free d' g <-> far_free d g)) /\
  (forall g, ~ owns_qer s g -> qer_get d' g = qer_get d g /\ (qer_free d' g <-> qer_free d g)) /\
  (forall k, ~ owns_key s k -> dp_find d' k = dp_find d k).
Proof.
  intros Hf Hok H. pose proof (prune_session_prims _ _ _ _ _ _ Hf H) as Hp.
  assert (Hok' : dp_ok d') by exact (rtc_inv pstep (fun x => dp_ok (fst x)) _ _ pstep_dp_ok Hp Hok).
  unfold prune_session in H.
  destruct (each (ign del_far) _ _) as [w1|w1|] eqn:H1; [|by apply each_ign_noerr in H1|done]. simpl in H.
  destruct (each (ign del_qer) _ _) as [w2|w2|] eqn:H2; [|by apply each_ign_noerr in H2|done]. simpl in H.
  destruct (each (ign (fun e : N * spdr => delete_pdr sh (snd e))) _ _) as [w3|w3|] eqn:H3; [|by apply each_ign_noerr in H3|done].
  simplify_eq.
  pose proof (by_prims_ok _ _ (each_prims _ (entries sh 1 (s_fars s)) (new_work d s rm) (fun e w => ign_prims _ _ _ (del_far_prims e w))) Hok) as Hok1.
  rewrite H1 in Hok1.
  destruct (del_fars_effect _ _ ign_far_step (new_work d s rm) w1 Hok H1) as (Fsz & Fgone & Ff & Fz & Fo).
  destruct (del_qers_effect _ _ ign_qer_step _ _ Hok1 H2) as (Qsz & Qgone & Qf & Qz & Qo).
  destruct (delete_pdrs_other _ snd _ (ign_pdr_step sh) _ _ H3) as (Km & Ko).
  destruct far_frame_qer as (_ & _ & _ & FFq). destruct far_frame_pdr as (_ & _ & _ & FFp).  destruct far_frame_pool as (_ & _ & _ & FFo).
  destruct qer_frame_far as (_ & _ & _ & QFf). destruct qer_frame_pdr as (_ & _ & _ & QFp). destruct qer_frame_pool as (_ & _ & _ & QFo).
  destruct pdr_frame_far as (_ & _ & _ & PFf). destruct pdr_frame_qer as (_ & _ & _ & PFq).
  use_keep H1 (each_keep qer_part _ (entries sh 1 (s_fars s)) (new_work d s rm) (fun e w => ign_keep _ _ _ _ (FFq e w))).
  use_keep H1 (each_keep pdr_part _ (entries sh 1 (s_fars s)) (new_work d s rm) (fun e w => ign_keep _ _ _ _ (FFp e w))).
  use_keep H1 (each_keep pool_part _ (entries sh 1 (s_fars s)) (new_work d s rm) (fun e w => ign_keep _ _ _ _ (FFo e w))).
  use_keep H2 (each_keep far_part _ (entries sh 2 (s_qers s)) w1 (fun e w => ign_keep _ _ _ _ (QFf e w))).
  use_keep H2 (each_keep pdr_part _ (entries sh 2 (s_qers s)) w1 (fun e w => ign_keep _ _ _ _ (QFp e w))).
  use_keep H2 (each_keep pool_part _ (entries sh 2 (s_qers s)) w1 (fun e w => ign_keep _ _ _ _ (QFo e w))).
  use_keep H3 (each_keep far_part _ (entries sh 0 (s_pdrs s)) w2
    (fun e w => ign_keep far_part (fun e : N * spdr => delete_pdr sh (snd e)) e w (PFf sh (snd e) w))).
  use_keep H3 (each_keep qer_part _ (entries sh 0 (s_pdrs s)) w2
    (fun e w => ign_keep qer_part (fun e : N * spdr => delete_pdr sh (snd e)) e w (PFq sh (snd e) w))).
  assert (EF : far_part w3 = far_part w1) by congruence.
  assert (EQ : qer_part w3 = qer_part w2) by done.
  assert (EQ0 : qer_part w1 = qer_part (new_work d s rm)) by done.
  assert (EK : forall k, dp_find (w_dp w2) k = dp_find d k).
  { assert (pdr_part w2 = pdr_part (new_work d s rm)) as EP by congruence. unfold pdr_part in EP. simpl in EP.
    injection EP as E1 E2 E3 _ _ _. intros [k|k|k]; simpl; congruence. }
  assert (EC : w_cache w2 = ∅). { assert (pool_part w2 = pool_part (new_work d s rm)) as EP by congruence. unfold pool_part in EP. simpl in EP. congruence. }
  split_and!; [done|split|..].
  - intros k Hk. apply Km. by rewrite EK.
  - destruct (far_part_get _ _ 0 EF) as (_ & _ & ->). exact Fsz.
  - destruct (qer_part_get _ _ 0 EQ) as (_ & _ & ->). rewrite Qsz. apply (qer_part_get _ _ 0 EQ0).
  - intros g Hg. apply (far_part_get _ _ g EF). by apply Ff.
  - intros g Hg. apply (qer_part_get _ _ g EQ). apply Qf. by apply (qer_part_get _ _ g EQ0).
  - intros g Hg. destruct (far_part_get _ _ g EF) as (-> & _). by apply Fz.
  - intros g Hg. destruct (qer_part_get _ _ g EQ) as (-> & _). apply Qz. destruct (qer_part_get _ _ g EQ0) as (-> & _). done.
  - intros g (i & f & Hi & <-). unfold far_gone. destruct (far_part_get _ _ (sf_gid f) EF) as (-> & -> & ->).
    apply (Fgone (i, f)). by apply elem_of_entries.
  - intros g (i & f & Hi & <-). unfold qer_gone. destruct (qer_part_get _ _ (sq_gid f) EQ) as (-> & -> & ->).
    apply (Qgone (i, f)). by apply elem_of_entries.
  - intros Hlow k (p & Hp' & <-). apply elem_of_pdrs in Hp' as [i Hi].
    destruct (delete_pdrs_effect (ign (fun e : N * spdr => delete_pdr sh (snd e))) snd (pdrs_of s) (entries sh 0 (s_pdrs s))
       (ign_pdr_step sh) Hlow w2 w3 ltac:(intros [j x] Hx; apply elem_of_entries in Hx; [|done]; apply elem_of_pdrs; eauto)
       ltac:(intros x [v Hx]; rewrite EC in Hx; by rewrite lookup_empty in Hx) H3) as (Hall & _).
    apply (Hall (i, p)). by apply elem_of_entries.
  - intros g Hg. destruct (far_part_get _ _ g EF) as (-> & -> & _). apply (Fo g).
    intros Hx. apply elem_of_list_fmap in Hx as ([i f] & -> & Hx). apply elem_of_entries in Hx; [|done]. apply Hg. by exists i, f.
  - intros g Hg. destruct (qer_part_get _ _ g EQ) as (-> & -> & _). destruct (Qo g) as [-> ->].
    { intros Hx. apply elem_of_list_fmap in Hx as ([i f] & -> & Hx). apply elem_of_entries in Hx; [|done]. apply Hg. by exists i, f. }
    destruct (qer_part_get _ _ g EQ0) as (-> & -> & _). done.
  - intros k Hk. rewrite Ko, EK; [done|]. intros Hx. apply elem_of_list_fmap in Hx as ([i p] & -> & Hx).
    apply elem_of_entries in Hx; [|done]. apply Hk. exists p. split; [|done]. apply elem_of_pdrs. eauto.
Qed.

Lemma prune_sessions_effect sh l : fair sh -> forall d rm d' rm', dp_ok d ->
  prune_sessions sh l d rm = Some (d', rm') ->
  only_freed d d' /\
  (forall k s, (k, s) ∈ l ->
    (forall g, owns_far s g -> far_gone d' g) /\ (forall g, owns_qer s g -> qer_gone d' g) /\
    (low_octets_differ (pdrs_of s) -> forall k, owns_key s k -> dp_find d' k = None)) /\
  (forall g, (forall k s, (k, s) ∈ l -> ~ owns_far s g) -> far_get d' g = far_get d g /\ (far_free d' g <-> far_free d g)) /\
  (forall g, (forall k s, (k, s) ∈ l -> ~ owns_qer s g) -> qer_get d' g = qer_get d g /\ (qer_free d' g <-> qer_free d g)) /\
  (forall x, (forall k s, (k, s) ∈ l -> ~ owns_key s x) -> dp_find d' x = dp_find d x).
Proof.
  intros Hf. induction l as [|[k0 s0] l IH]; intros d rm d' rm' Hok H; simpl in H; simplify_eq.
  { split; [apply only_freed_refl|]. split; [|done]. intros k s Hx. by apply elem_of_nil in Hx. }
  destruct (prune_session sh s0 d rm) as [[d1 rm1]|] eqn:E; [|done].
  apply prune_session_effect in E as (Hok1 & Hof & HF & HQ & HK & OF & OQ & OK); [|done..].
  destruct (IH _ _ _ _ Hok1 H) as (Hof' & Hall & OF' & OQ' & OK'). split; [by eapply only_freed_trans|]. split_and!.
  - intros k s Hs. apply elem_of_cons in Hs as [[= -> ->]|Hs]; [|by eapply Hall]. split_and!.
    + intros g Hg. eapply far_gone_mono; [done|]. by apply HF.
    + intros g Hg. eapply qer_gone_mono; [done|]. by apply HQ.
    + intros Hlow x Hx. apply (of_keys _ _ Hof'). by apply HK.
  - intros g Hg. destruct (OF' g) as [-> ->]; [intros k s Hs; eapply (Hg k); by right|]. apply OF. apply (Hg k0). left.
  - intros g Hg. destruct (OQ' g) as [-> ->]; [intros k s Hs; eapply (Hg k); by right|]. apply OQ. apply (Hg k0). left.
  - intros x Hg. rewrite OK'; [|intros k s Hs; eapply (Hg k); by right]. apply OK. apply (Hg k0). left.
Qed.

Theorem association_pruned_partial :
  forall sh addr c c' r,
    reachable c -> fair sh -> step c (HeartbeatFailed sh addr) = Done c' r ->
    (* the association and its sessions are gone, the others are as before *)
    (forall seid, session_of c' addr seid = None) /\
    (forall other seid, other <> addr -> session_of c' other seid = session_of c other seid) /\
    (* FARs, QERs and detection keys of the removed sessions *)
    (forall seid s, session_of c addr seid = Some s ->
       (forall g, owns_far s g -> far_gone (c_dp c') g) /\
       (forall g, owns_qer s g -> qer_gone (c_dp c') g) /\
       (low_octets_differ (pdrs_of s) -> forall k, owns_key s k -> dp_find (c_dp c') k = None)) /\
    (* nothing else *)
    (forall g, (forall seid s, session_of c addr seid = Some s -> ~ owns_far s g) ->
       far_get (c_dp c') g = far_get (c_dp c) g /\ (far_free (c_dp c') g <-> far_free (c_dp c) g)) /\
    (forall g, (forall seid s, session_of c addr seid = Some s -> ~ owns_qer s g) ->
       qer_get (c_dp c') g = qer_get (c_dp c) g /\ (qer_free (c_dp c') g <-> qer_free (c_dp c) g)) /\
    (forall k, (forall seid s, session_of c addr seid = Some s -> ~ owns_key s k) ->
       dp_find (c_dp c') k = dp_find (c_dp c) k).
Proof.
  intros sh addr c c' r Hreach Hf H. pose proof (reachable_ok _ Hreach) as [Hok _].
  simpl in H. unfold prune in H. destruct (c_assocs c !! addr) as [a|] eqn:Ha; [|done].
  destruct (prune_sessions _ _ _ _) as [[d rm]|] eqn:E; simplify_eq.
  apply prune_sessions_effect in E as (Hof & Hall & OF & OQ & OK); [|done..].
  assert (Hses : forall seid s, session_of c addr seid = Some s <-> (seid, s) ∈ entries sh 4 (a_sessions a)).
  { intros seid s. unfold session_of. rewrite Ha. by rewrite elem_of_entries. }
  split_and!; simpl.
  - intros seid. unfold session_of. simpl. by rewrite lookup_delete.
  - intros other seid Hne. unfold session_of. simpl. by rewrite lookup_delete_ne.
  - intros seid s Hs. eapply Hall. by apply Hses.
  - intros g Hg. apply OF. intros k s Hs. eapply (Hg k). by apply Hses.
  - intros g Hg. apply OQ. intros k s Hs. eapply (Hg k). by apply Hses.
  - intros k Hk. apply OK. intros k' s Hs. eapply (Hk k'). by apply Hses.
Qed.

(** ** Refutations and concrete cases *)

Definition ex_small_rm : option rman := Some (Rman (new_fteidm 8) (new_ipam 167837696 29)).
Definition ex_start (es : list event) : option (conn * log) := run (init ex_cfg ex_small_rm (dp_init 8 8 8 8)) es.
Lemma ex_start_reachable es c l : Forall event_fair es -> ex_start es = Some (c, l) -> reachable c.
Proof.
  intros Hf H. eapply reachable_run; [|exact Hf|exact H]. apply reachable_init. right. by exists 8, 167837696, 29.
Qed.
Definition ex_recv (seq : N) (m : msg) : event := Recv id_shuffle 7 seq m.
Definition ex_setup : event := ex_recv 1 (AssocSetupReq (Good 5) (Good 1)).
Definition ex_est_of (pdrs : list pdr_ie) (urrs : list (option N)) : msg :=
  SessEstReq (EstReq (Good 5) (Good 100) [FarIe (Some 1) (Some [2]) None None] [] urrs pdrs).

(** Concrete executions are checked by evaluating a boolean. *)
Global Instance report_eq_dec : EqDecision report. Proof. solve_decision. Defined.
Global Instance far_info_eq_dec : EqDecision far_info. Proof. solve_decision. Defined.
Global Instance qer_info_eq_dec : EqDecision qer_info. Proof. solve_decision. Defined.
Global Instance urr_info_eq_dec : EqDecision urr_info. Proof. solve_decision. Defined.
Global Instance created_eq_dec : EqDecision created. Proof. solve_decision. Defined.
Definition installed (d : dp) (k : key) : bool := match dp_find d k with Some _ => true | None => false end.
Definition ex_runs (es : list event) (f : conn -> bool) : bool :=
  match ex_start es with Some (c, _) => f c | None => false end.
Lemma ex_runs_inv es f : ex_runs es f = true -> exists c l, ex_start es = Some (c, l) /\ f c = true.
Proof. unfold ex_runs. destruct (ex_start es) as [[c l]|]; [|done]. eauto. Qed.
Definition ex_accepts (cause : N) (o : outcome) (f : conn -> response -> bool) : bool :=
  match o with Done c (Some r) => bool_decide (r_cause r = Some cause) && f c r | _ => false end.
Lemma ex_accepts_inv k o f : ex_accepts k o f = true -> exists c r, o = Done c (Some r) /\ r_cause r = Some k /\ f c r = true.
Proof.
  unfold ex_accepts. destruct o as [c [r|]|]; try done. intros H. apply andb_true_iff in H as [H1 H2].
  apply bool_decide_eq_true in H1. eauto.
Qed.
Definition ex_has_session (c : conn) (addr seid : N) (f : session -> bool) : bool :=
  match session_of c addr seid with Some s => f s | None => false end.
Lemma ex_has_session_inv c addr seid f : ex_has_session c addr seid f = true -> exists s, session_of c addr seid = Some s /\ f s = true.
Proof. unfold ex_has_session. destruct (session_of c addr seid); [eauto|done]. Qed.
Definition ex_pdr_key (s : session) (i : N) (k : key) : bool :=
  match s_pdrs s !! i with Some p => bool_decide (spdr_key p = k) | None => false end.
Lemma ex_pdr_key_inv s i k : ex_pdr_key s i k = true -> owns_key s k.
Proof.
  unfold ex_pdr_key. destruct (s_pdrs s !! i) as [p|] eqn:E; [|done]. intros H. apply bool_decide_eq_true in H.
  exists p. split; [|done]. apply elem_of_pdrs. eauto.
Qed.
Ltac band H := apply andb_true_iff in H as [? H].

(** TEIDs 1 and 257: the deletion of the second is skipped. *)
Theorem deletion_leaves_key_refuted :
  exists c l, ex_start [ex_setup; ex_recv 2 (ex_est_of [ex_pdr 1 1; ex_pdr 2 257] [])] = Some (c, l) /\
    exists s c' r, session_of c 7 2 = Some s /\ owns_key s (Up 257) /\
    handle id_shuffle 7 3 (SessDelReq 2) c = Done c' (Some r) /\ r_cause r = Some 1 /\
    dp_find (c_dp c') (Up 257) <> None.
Proof.
  destruct (ex_runs_inv [ex_setup; ex_recv 2 (ex_est_of [ex_pdr 1 1; ex_pdr 2 257] [])] (fun c =>
    ex_has_session c 7 2 (fun s => ex_pdr_key s 2 (Up 257)) &&
    ex_accepts 1 (handle id_shuffle 7 3 (SessDelReq 2) c) (fun c' r => installed (c_dp c') (Up 257)))) as (c & l & Hc & H);
    [by vm_compute|].
  apply andb_true_iff in H as [H1 H2]. apply ex_has_session_inv in H1 as (s & Hs & H1). apply ex_pdr_key_inv in H1.
  apply ex_accepts_inv in H2 as (c' & r & Hh & Hk & H2). exists c, l. split; [done|]. exists s, c', r. split_and!; try done.
  unfold installed in H2. by destruct (dp_find _ _).
Qed.
Theorem pruning_leaves_key_refuted :
  exists c l, ex_start [ex_setup; ex_recv 2 (ex_est_of [ex_pdr 1 1; ex_pdr 2 257] [])] = Some (c, l) /\
    exists s c' r, session_of c 7 2 = Some s /\ owns_key s (Up 257) /\
    step c (HeartbeatFailed id_shuffle 7) = Done c' r /\ dp_find (c_dp c') (Up 257) <> None.
Proof.
  destruct (ex_runs_inv [ex_setup; ex_recv 2 (ex_est_of [ex_pdr 1 1; ex_pdr 2 257] [])] (fun c =>
    ex_has_session c 7 2 (fun s => ex_pdr_key s 2 (Up 257)) &&
    match step c (HeartbeatFailed id_shuffle 7) with Done c' _ => installed (c_dp c') (Up 257) | Crash => false end)) as (c & l & Hc & H);
    [by vm_compute|].
  apply andb_true_iff in H as [H1 H2]. apply ex_has_session_inv in H1 as (s & Hs & H1). apply ex_pdr_key_inv in H1.
  exists c, l. split; [done|]. destruct (step c _) as [c' r|]; [|done]. exists s, c', r. split_and!; try done.
  unfold installed in H2. by destruct (dp_find _ _).
Qed.

(** 30 bytes uplink and 40 downlink are counted for the only URR; after an Update URR the
    deletion reports 0. *)
Definition ex_mod_uurr (urr : N) : msg :=
  SessModReq (ModReq 2 Absent [] [] [] [] [] [] [] [Some urr] [] [] [] []).
Theorem update_urr_loses_volume_refuted :
  exists c l, ex_start [ex_setup; ex_recv 2 (ex_est_of [] [Some 3]); Traffic ∅ {[0 := (30, 40)]}; ex_recv 3 (ex_mod_uurr 3)] = Some (c, l) /\
    exists s u c' r, session_of c 7 2 = Some s /\ s_urrs s !! 3 = Some u /\ su_gid u = 0 /\
    handle id_shuffle 7 4 (SessDelReq 2) c = Done c' (Some r) /\ r_cause r = Some 1 /\
    r_reports r = [Report 3 1 0 0 0].
Proof.
  destruct (ex_runs_inv [ex_setup; ex_recv 2 (ex_est_of [] [Some 3]); Traffic ∅ {[0 := (30, 40)]}; ex_recv 3 (ex_mod_uurr 3)] (fun c =>
    ex_has_session c 7 2 (fun s => match s_urrs s !! 3 with Some u => su_gid u =? 0 | None => false end) &&
    ex_accepts 1 (handle id_shuffle 7 4 (SessDelReq 2) c) (fun c' r => bool_decide (r_reports r = [Report 3 1 0 0 0])))) as (c & l & Hc & H);
    [by vm_compute|].
  apply andb_true_iff in H as [H1 H2]. apply ex_has_session_inv in H1 as (s & Hs & H1).
  destruct (s_urrs s !! 3) as [u|] eqn:Eu; [|done]. apply N.eqb_eq in H1.
  apply ex_accepts_inv in H2 as (c' & r & Hh & Hk & H2). apply bool_decide_eq_true in H2.
  exists c, l. split; [done|]. exists s, u, c', r. by split_and!.
Qed.

(** The theorems above apply: a session with FAR, URR and two PDRs is deleted; the volumes
    counted before are reported. *)
Definition low_octets_ok (s : session) : bool :=
  forallb (fun p => forallb (fun p' => match spdr_key p, spdr_key p' with
     | Up t, Up t' => negb (u8 t =? u8 t') || (t =? t') | _, _ => true end) (pdrs_of s)) (pdrs_of s).
Lemma low_octets_ok_spec s : low_octets_ok s = true -> low_octets_differ (pdrs_of s).
Proof.
  unfold low_octets_ok. intros H p p' t t' Hp Hp' Hk Hk' Heq. rewrite forallb_forall in H.
  apply elem_of_list_In in Hp, Hp'. apply H in Hp. rewrite forallb_forall in Hp. apply Hp in Hp'. rewrite Hk, Hk' in Hp'.
  apply orb_true_iff in Hp' as [Hx|Hx]; [|by apply N.eqb_eq in Hx]. apply negb_true_iff, N.eqb_neq in Hx. done.
Qed.
Example ex_deletion_applies :
  exists c l, ex_start [ex_setup; ex_recv 2 (ex_est_of [ex_pdr 1 1; ex_pdr 2 5] [Some 3]); Traffic ∅ {[0 := (30, 40)]}] = Some (c, l) /\
    reachable c /\
    exists s c' r, session_of c 7 2 = Some s /\ low_octets_differ (pdrs_of s) /\
    handle id_shuffle 7 3 (SessDelReq 2) c = Done c' (Some r) /\ r_cause r = Some 1 /\
    r_reports r = [Report 3 1 70 30 40] /\ dp_find (c_dp c) (Up 5) <> None /\ dp_find (c_dp c') (Up 5) = None.
Proof.
  destruct (ex_runs_inv [ex_setup; ex_recv 2 (ex_est_of [ex_pdr 1 1; ex_pdr 2 5] [Some 3]); Traffic ∅ {[0 := (30, 40)]}] (fun c =>
    installed (c_dp c) (Up 5) && ex_has_session c 7 2 low_octets_ok &&
    ex_accepts 1 (handle id_shuffle 7 3 (SessDelReq 2) c) (fun c' r =>
      negb (installed (c_dp c') (Up 5)) && bool_decide (r_reports r = [Report 3 1 70 30 40])))) as (c & l & Hc & H);
    [by vm_compute|].
  apply andb_true_iff in H as [H H3]. apply andb_true_iff in H as [H1 H2]. apply ex_has_session_inv in H2 as (s & Hs & H2).
  apply low_octets_ok_spec in H2. apply ex_accepts_inv in H3 as (c' & r & Hh & Hk & H3). apply andb_true_iff in H3 as [H3 H4].
  apply bool_decide_eq_true in H4.
  exists c, l. split; [done|]. split. { eapply ex_start_reachable; [|exact Hc]. repeat constructor; apply id_shuffle_fair. }
  exists s, c', r. unfold installed in *. split_and!; try done; [by destruct (dp_find (c_dp c) _)|by destruct (dp_find (c_dp c') _)].
Qed.
