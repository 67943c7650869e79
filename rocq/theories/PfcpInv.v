(** C11, C12: the FARs and QERs in the data plane mirror the sessions' rules, over whole histories. *)
From Verif Require Import Base IdTracker ResourceManager SdfParser MapOps Pfcp PfcpProps PfcpHistory PfcpReach PfcpRules PfcpRemove
  PfcpReject.

(** ** Careful histories *)

(** A FAR with id [i] exists in the session, or is created by the request. *)
Definition far_known (s : session) (created : list far_ie) (i : N) : Prop :=
  is_Some (s_fars s !! i) \/ i ∈ ((fun f => default 0 (fa_id f)) <$> created).
Definition qer_known (s : session) (created : list qer_ie) (i : N) : Prop :=
  is_Some (s_qers s !! i) \/ Some i ∈ (qe_id <$> created).

(** A modification of session [s] that updates and removes only FARs and QERs that exist, and removes none twice.
    (An unreadable FAR ID of a Remove FAR counts as 0; one of an Update FAR, or an unreadable QER ID, is an error.) *)
Record careful_mod (s : session) (q : mod_req) : Prop := {
  cm_ufar : forall f i, f ∈ mq_ufar q -> fa_id f = Some i -> far_known s (mq_cfar q) i;
  cm_rfar : forall f, f ∈ mq_rfar q -> far_known s (mq_cfar q) (default 0 (fa_id f));
  cm_rfar_once : NoDup ((fun f => default 0 (fa_id f)) <$> mq_rfar q);
  cm_uqer : forall f i, f ∈ mq_uqer q -> qe_id f = Some i -> qer_known s (mq_cqer q) i;
  cm_rqer : forall f i, f ∈ mq_rqer q -> qe_id f = Some i -> qer_known s (mq_cqer q) i;
  cm_rqer_once : NoDup (omap qe_id (mq_rqer q)) }.

Definition careful (c : conn) (e : event) : Prop :=
  match e with
  | Recv sh addr seq (SessModReq q) => forall s, session_of c addr (mq_seid q) = Some s -> careful_mod s q
  | _ => True
  end.

(** States after a history in which every modification was careful when it came. *)
Inductive careful_history : conn -> Prop :=
| ch_init g rm p f q u : start_pools rm -> careful_history (init g rm (dp_init p f q u))
| ch_step c e c' r : careful_history c -> event_fair e -> careful c e -> step c e = Done c' r -> careful_history c'.

Lemma careful_reachable c : careful_history c -> reachable c.
Proof. induction 1; [by apply reachable_init|by eapply reachable_step]. Qed.

(** ** One kind of rule, abstractly *)

(** What a session's rules of one kind are (id, data-plane id and value), what the data plane has, which data-plane ids are
    free. *)
Record view (V : Type) := View { vw_tab : gmap N (N * V); vw_get : N -> option V; vw_free : N -> Prop }.
Arguments View {_}. Arguments vw_tab {_}. Arguments vw_get {_}. Arguments vw_free {_}.

Inductive vstep {V} (a b : view V) : Prop :=
| vs_keep : vw_tab b = vw_tab a -> (forall g, vw_get b g = vw_get a g) -> (forall g, vw_free b g -> vw_free a g) -> vstep a b
| vs_new i g v : vw_free a g -> vw_tab b = <[i := (g, v)]> (vw_tab a) -> vw_get b g = Some v -> ~ vw_free b g ->
    (forall g', g' <> g -> vw_get b g' = vw_get a g' /\ (vw_free b g' -> vw_free a g')) -> vstep a b
| vs_upd i g v0 v : vw_tab a !! i = Some (g, v0) -> vw_tab b = <[i := (g, v)]> (vw_tab a) -> vw_get b g = Some v ->
    (vw_free b g -> vw_free a g) ->
    (forall g', g' <> g -> vw_get b g' = vw_get a g' /\ (vw_free b g' -> vw_free a g')) -> vstep a b
| vs_rem i g v0 : vw_tab a !! i = Some (g, v0) -> vw_tab b = delete i (vw_tab a) ->
    (forall g', g' <> g -> vw_get b g' = vw_get a g' /\ (vw_free b g' -> vw_free a g')) -> vstep a b.

(** [O]: rules of other sessions. *)
Record vok {V} (O : N -> V -> Prop) (a : view V) : Prop := {
  vk_own : forall i g v, vw_tab a !! i = Some (g, v) -> vw_get a g = Some v /\ ~ vw_free a g;
  vk_inj : forall i j g v v', vw_tab a !! i = Some (g, v) -> vw_tab a !! j = Some (g, v') -> i = j;
  vk_apart : forall i g v v', vw_tab a !! i = Some (g, v) -> ~ O g v';
  vk_other : forall g v, O g v -> vw_get a g = Some v /\ ~ vw_free a g }.

Lemma vstep_ok {V} (O : N -> V -> Prop) a b : vstep a b -> vok O a -> vok O b.
Proof.
  intros H [Ho Hi Ha Ht]. destruct H as [Et Eg Ef|i g v Fg Et Eg Ef Eo|i g v0 v Hl Et Eg Ef Eo|i g v0 Hl Et Eo].
  - split.
    + intros i g v. rewrite Et, Eg. intros H. destruct (Ho _ _ _ H). naive_solver.
    + intros i j g v v'. rewrite Et. apply Hi.
    + intros i g v v'. rewrite Et. apply Ha.
    + intros g v H. rewrite Eg. destruct (Ht _ _ H). naive_solver.
  - assert (Hown : forall j g' v', vw_tab a !! j = Some (g', v') -> g' <> g).
    { intros j g' v' Hj ->. by destruct (Ho _ _ _ Hj) as [_ ?]. }
    split.
    + intros j g' v'. rewrite Et. intros [[<- [= <- <-]]|[Hne Hj]]%lookup_insert_Some; [done|].
      destruct (Eo g') as [-> E]; [by eapply Hown|]. destruct (Ho _ _ _ Hj). naive_solver.
    + intros j k g' v1 v2. rewrite Et.
      intros [[<- E1]|[Hne Hj]]%lookup_insert_Some [[<- E2]|[Hne' Hk]]%lookup_insert_Some; simplify_eq; try done.
      * by apply Hown in Hk.
      * by apply Hown in Hj.
      * by eapply Hi.
    + intros j g' v1 v2. rewrite Et. intros [[<- [= <- <-]]|[Hne Hj]]%lookup_insert_Some HO; [|by eapply Ha].
      by destruct (Ht _ _ HO).
    + intros g' v' HO. destruct (Ht _ _ HO) as [E1 E2]. assert (g' <> g) by (by intros ->).
      destruct (Eo g') as [-> E]; [done|]. naive_solver.
  - destruct (Ho _ _ _ Hl) as [Hg Hf]. split.
    + intros j g' v'. rewrite Et. intros [[<- [= <- <-]]|[Hne Hj]]%lookup_insert_Some; [naive_solver|].
      assert (g' <> g) by (intros ->; by destruct (Hi _ _ _ _ _ Hl Hj)).
      destruct (Eo g') as [-> E]; [done|]. destruct (Ho _ _ _ Hj). naive_solver.
    + intros j k g' v1 v2. rewrite Et.
      intros [[<- E1]|[Hne Hj]]%lookup_insert_Some [[<- E2]|[Hne' Hk]]%lookup_insert_Some; simplify_eq; try done; by eapply Hi.
    + intros j g' v1 v2. rewrite Et. intros [[<- [= <- <-]]|[Hne Hj]]%lookup_insert_Some HO; by eapply Ha.
    + intros g' v' HO. destruct (Ht _ _ HO) as [E1 E2]. assert (g' <> g) by (intros ->; by eapply Ha).
      destruct (Eo g') as [-> E]; [done|]. naive_solver.
  - destruct (Ho _ _ _ Hl) as [Hg Hf]. split.
    + intros j g' v'. rewrite Et. intros [Hne Hj]%lookup_delete_Some.
      assert (g' <> g) by (intros ->; by destruct (Hi _ _ _ _ _ Hl Hj)).
      destruct (Eo g') as [-> E]; [done|]. destruct (Ho _ _ _ Hj). naive_solver.
    + intros j k g' v1 v2. rewrite Et. intros [_ Hj]%lookup_delete_Some [_ Hk]%lookup_delete_Some. by eapply Hi.
    + intros j g' v1 v2. rewrite Et. intros [_ Hj]%lookup_delete_Some. by eapply Ha.
    + intros g' v' HO. destruct (Ht _ _ HO) as [E1 E2]. assert (g' <> g) by (intros ->; by eapply Ha).
      destruct (Eo g') as [-> E]; [done|]. naive_solver.
Qed.
Lemma vsteps_ok {V} (O : N -> V -> Prop) a b : rtc vstep a b -> vok O a -> vok O b.
Proof. induction 1; eauto using vstep_ok. Qed.

(** The two kinds. *)
Record kind := Kind { kv : Type; ktab : session -> gmap N (N * kv); kget : dp -> N -> option kv; kfree : dp -> N -> Prop }.
Definition far_kind : kind := Kind far_info (fun s => (fun f => (sf_gid f, sf_info f)) <$> s_fars s) far_get far_free.
(** A QER without the rate limiter's marks, which the data plane moves. *)
Record qer_rule := QerRule { ql_ul_gate : N; ql_dl_gate : N; ql_qfi : N; ql_ul_rate : N; ql_dl_rate : N }.
Definition rule_of_qer (q : qer_info) : qer_rule :=
  QerRule (qi_ul_gate q) (qi_dl_gate q) (qi_qfi q) (qi_ul_rate q) (qi_dl_rate q).
Definition qer_kind : kind :=
  Kind qer_rule (fun s => (fun f => (sq_gid f, rule_of_qer (sq_info f))) <$> s_qers s)
    (fun d g => rule_of_qer <$> qer_get d g) qer_free.
Definition kview (K : kind) (w : work) : view (kv K) := View (ktab K (w_ses w)) (kget K (w_dp w)) (kfree K (w_dp w)).

(** [r] keeps the invariant of the session at work. *)
Definition moves (K : kind) (O : N -> kv K -> Prop) (w : work) (r : res) : Prop :=
  vok O (kview K w) -> dp_ok (w_dp w) -> ends r (fun w' => vok O (kview K w') /\ dp_ok (w_dp w')).

Lemma moves_bind K O w r k : moves K O w r -> (forall w', r = ROk w' -> moves K O w' (k w')) -> moves K O w (rbind r k).
Proof.
  intros H Hk Hv Hw. specialize (H Hv Hw). destruct r as [w1|w1|]; simpl in *; try done.
  destruct H as [H1 H2]. exact (Hk w1 eq_refl H1 H2).
Qed.
Lemma moves_each {A} K O (f : A -> work -> res) l w : (forall x w, moves K O w (f x w)) -> moves K O w (each f l w).
Proof.
  intros Hf. revert w. induction l as [|x l IH]; intros w; simpl; [by intros ? ?|].
  apply moves_bind; [by apply Hf|]. intros w' _. apply IH.
Qed.
(** Every element needs something that the work on the others keeps. *)
Lemma moves_each_pre {A} K O (f : A -> work -> res) (P : A -> work -> Prop) l w :
  (forall x w, P x w -> moves K O w (f x w)) ->
  (forall x l1 l2 w w', l = l1 ++ x :: l2 -> f x w = ROk w' -> Forall (fun y => P y w) l2 -> Forall (fun y => P y w') l2) ->
  Forall (fun y => P y w) l -> moves K O w (each f l w).
Proof.
  intros Hf. revert w. induction l as [|x l IH]; intros w Hp Hl; simpl; [by intros ? ?|].
  inversion Hl as [|? ? Hx Hr]; subst. apply moves_bind; [by apply Hf|]. intros w' Ew. apply IH.
  - intros y l1 l2 w1 w2 ->. apply (Hp y (x :: l1) l2). done.
  - by apply (Hp x [] l w w').
Qed.
(** An operation that touches nothing of the kind. *)
Lemma moves_keep {B} K O (proj : work -> B) w r :
  (forall w w', proj w' = proj w -> vstep (kview K w) (kview K w')) ->
  keepsP proj w r -> by_prims w r -> moves K O w r.
Proof.
  intros Hp Hk Hb Hv Hw. pose proof (by_prims_ok _ _ Hb Hw) as Hok.
  destruct r as [w'|w'|]; simpl in *; try done; (split; [|done]); (eapply vstep_ok; [by apply Hp|done]).
Qed.
Lemma far_part_step w w' : far_part w' = far_part w -> vstep (kview far_kind w) (kview far_kind w').
Proof.
  intros H. apply vs_keep; simpl.
  - unfold far_part in H. injection H as _ _ _ ->. done.
  - intros g. apply (far_part_get _ _ g H).
  - intros g. apply (far_part_get _ _ g H).
Qed.
Lemma qer_part_step w w' : qer_part w' = qer_part w -> vstep (kview qer_kind w) (kview qer_kind w').
Proof.
  intros H. apply vs_keep; simpl.
  - unfold qer_part in H. injection H as _ _ _ ->. done.
  - intros g. by destruct (qer_part_get _ _ g H) as (-> & _).
  - intros g. apply (qer_part_get _ _ g H).
Qed.

(** *** FARs *)
Lemma create_far_moves O f w : moves far_kind O w (create_far f w).
Proof.
  intros Hv Hw. pose proof (by_prims_ok _ _ (create_far_prims f w) Hw) as Hok.
  assert (Hx : ends (create_far f w) (fun w' => vstep (kview far_kind w) (kview far_kind w'))).
  { unfold create_far in *. destruct (far_crash f); [done|]. destruct (compose_far f far0) as [i|]; [|by apply vs_keep].
    pose proof (new_far_taken i (w_dp w) Hw) as Ht. unfold new_far in *.
    destruct (get_next (d_fart (w_dp w))) as [[g|] t] eqn:E; [|by apply vs_keep].
    apply (get_granted _ _ _ _ (dk_far _ Hw)) in E as (Hlt & Hin & Hnin & Hfree). simpl in Ht, Hok |- *.
    destruct (N.ltb_spec g (d_far_size (w_dp w))); [|lia]. simpl in *.
    apply (vs_new _ _ (default 0 (fa_id f)) g i); simpl; try done.
    - by rewrite fmap_insert.
    - unfold far_get. simpl. rewrite far_get_insert by done. by rewrite decide_True.
    - intros g' Hne. unfold far_get, far_free. simpl. rewrite far_get_insert by done. rewrite decide_False by done. split; [done|].
      intros Hg. apply Hfree. by right. }
  destruct (create_far f w) as [w'|w'|]; simpl in *; try done; (split; [by eapply vstep_ok|done]).
Qed.
Lemma own_far_lt O w i sf : vok O (kview far_kind w) -> s_fars (w_ses w) !! i = Some sf ->
  sf_gid sf < d_far_size (w_dp w).
Proof.
  intros Hv Hs. destruct (vk_own _ _ Hv i (sf_gid sf) (sf_info sf)) as [H _]; [by simpl; rewrite lookup_fmap, Hs|].
  simpl in H. unfold far_get, arr_get in H. destruct (N.ltb_spec (sf_gid sf) (d_far_size (w_dp w))); done.
Qed.
Lemma update_far_moves O f w : (forall i, fa_id f = Some i -> is_Some (s_fars (w_ses w) !! i)) -> moves far_kind O w (update_far_ie f w).
Proof.
  intros Hd Hv Hw. pose proof (by_prims_ok _ _ (update_far_prims f w) Hw) as Hok.
  assert (Hx : ends (update_far_ie f w) (fun w' => vstep (kview far_kind w) (kview far_kind w'))).
  { unfold update_far_ie in *. destruct (fa_id f) as [i|]; [|by apply vs_keep]. destruct (Hd i eq_refl) as [sf Hs].
    destruct (far_crash f); [done|]. unfold get_far in *. rewrite Hs in *. cbn [default from_option id] in *.
    destruct (compose_far f (sf_info sf)) as [v|]; [|by apply vs_keep].
    pose proof (own_far_lt _ _ _ _ Hv Hs) as Hlt. unfold update_far in *. cbn [w_dp w_set_ses] in *.
    destruct (N.ltb_spec (sf_gid sf) (d_far_size (w_dp w))); [|lia]. cbn [ends].
    apply (vs_upd _ _ i (sf_gid sf) (sf_info sf) v); simpl; try done.
    - by rewrite lookup_fmap, Hs.
    - unfold ses_update_far, get_far. rewrite Hs. simpl. by rewrite fmap_insert.
    - unfold far_get. simpl. rewrite far_get_insert by done. by rewrite decide_True.
    - intros g' Hne. unfold far_get, far_free. simpl. rewrite far_get_insert by done. by rewrite decide_False. }
  destruct (update_far_ie f w) as [w'|w'|]; simpl in *; try done; (split; [by eapply vstep_ok|done]).
Qed.
Lemma remove_far_moves O f w : is_Some (s_fars (w_ses w) !! default 0 (fa_id f)) -> moves far_kind O w (remove_far_ie f w).
Proof.
  intros [sf Hs] Hv Hw. pose proof (by_prims_ok _ _ (remove_far_prims f w) Hw) as Hok.
  assert (Hx : ends (remove_far_ie f w) (fun w' => vstep (kview far_kind w) (kview far_kind w'))).
  { unfold remove_far_ie in *. unfold get_far in *. rewrite Hs in *. cbn [default from_option id] in *. cbn [w_dp w_set_ses] in *.
    pose proof (delete_far_effect (sf_gid sf) (w_dp w) Hw) as He. destruct (delete_far _ _) as [ok d'].
    destruct He as (_ & _ & Hfr & Hget).
    assert (vstep (kview far_kind w) (kview far_kind (w_set_dp d' (w_set_ses (ses_remove_far (default 0 (fa_id f)) (w_ses w)) w)))).
    { apply (vs_rem _ _ (default 0 (fa_id f)) (sf_gid sf) (sf_info sf)); simpl.
      - by rewrite lookup_fmap, Hs.
      - by rewrite fmap_delete.
      - intros g' Hne. rewrite Hget, Hfr. rewrite decide_False by naive_solver. naive_solver. }
    by destruct ok. }
  destruct (remove_far_ie f w) as [w'|w'|]; simpl in *; try done; (split; [by eapply vstep_ok|done]).
Qed.

Lemma create_far_ids f w w' : create_far f w = ROk w' ->
  forall i, is_Some (s_fars (w_ses w) !! i) \/ i = default 0 (fa_id f) -> is_Some (s_fars (w_ses w') !! i).
Proof.
  unfold create_far. intros H i Hi. repeat (case_match; simplify_eq). simpl.
  destruct (decide (i = default 0 (fa_id f))) as [->|Hne]; [rewrite lookup_insert; eauto|].
  rewrite lookup_insert_ne by done. naive_solver.
Qed.
Lemma create_fars_ids l : forall w w', each create_far l w = ROk w' ->
  forall i, is_Some (s_fars (w_ses w) !! i) \/ i ∈ ((fun f => default 0 (fa_id f)) <$> l) -> is_Some (s_fars (w_ses w') !! i).
Proof.
  induction l as [|f l IH]; intros w w' H i Hi; simpl in H.
  { simplify_eq. destruct Hi as [|Hi]; [done|]. by apply elem_of_nil in Hi. }
  apply rbind_ok in H as (w1 & H1 & H2). apply (IH _ _ H2).
  rewrite fmap_cons, elem_of_cons in Hi. destruct Hi as [Hi|[Hi|Hi]]; [left..|by right]; eapply create_far_ids; eauto.
Qed.
Lemma update_far_ids f w w' i : update_far_ie f w = ROk w' -> is_Some (s_fars (w_ses w) !! i) -> is_Some (s_fars (w_ses w') !! i).
Proof.
  unfold update_far_ie. intros H Hi. repeat (case_match; simplify_eq). simpl.
  match goal with |- context [<[?k := _]> _ !! i] => destruct (decide (i = k)) as [->|Hne] end; [rewrite lookup_insert; eauto|].
  by rewrite lookup_insert_ne.
Qed.
Lemma remove_far_ids f w w' i : remove_far_ie f w = ROk w' -> i <> default 0 (fa_id f) ->
  is_Some (s_fars (w_ses w) !! i) -> is_Some (s_fars (w_ses w') !! i).
Proof.
  unfold remove_far_ie. intros H Hne Hi. repeat (case_match; simplify_eq). simpl. by rewrite lookup_delete_ne.
Qed.
Lemma each_inv {A} (Q : work -> Prop) (f : A -> work -> res) l : (forall x w w', f x w = ROk w' -> Q w -> Q w') ->
  forall w w', each f l w = ROk w' -> Q w -> Q w'.
Proof.
  intros Hf. induction l as [|x l IH]; intros w w' H HQ; simpl in H; [by simplify_eq|].
  apply rbind_ok in H as (w1 & H1 & H2). eapply IH; [done|]. by eapply Hf.
Qed.

(** *** QERs *)
Lemma create_qer_moves O f w : moves qer_kind O w (create_qer f w).
Proof.
  intros Hv Hw. pose proof (by_prims_ok _ _ (create_qer_prims f w) Hw) as Hok.
  assert (Hx : ends (create_qer f w) (fun w' => vstep (kview qer_kind w) (kview qer_kind w'))).
  { unfold create_qer in *. destruct (qe_id f) as [id|]; [|by apply vs_keep]. set (i := compose_qer f qer0) in *. cbn zeta in *.
    pose proof (new_qer_taken i (w_dp w) Hw) as Ht. unfold new_qer in *.
    destruct (get_next (d_qert (w_dp w))) as [[g|] t] eqn:E; [|by apply vs_keep].
    apply (get_granted _ _ _ _ (dk_qer _ Hw)) in E as (Hlt & Hin & Hnin & Hfree). cbn zeta in Ht, Hok |- *.
    destruct (N.ltb_spec g (d_qer_size (w_dp w))); [|lia]. cbn [ends].
    apply (vs_new _ _ id g (rule_of_qer i)); simpl; try done.
    - by rewrite fmap_insert.
    - unfold qer_get. simpl. rewrite qer_get_insert by done. by rewrite decide_True.
    - intros g' Hne. unfold qer_get, qer_free. simpl. rewrite qer_get_insert by done. rewrite decide_False by done. split; [done|].
      intros Hg. apply Hfree. by right. }
  destruct (create_qer f w) as [w'|w'|]; simpl in *; try done; (split; [by eapply vstep_ok|done]).
Qed.
Lemma own_qer_lt O w i sq : vok O (kview qer_kind w) -> s_qers (w_ses w) !! i = Some sq ->
  sq_gid sq < d_qer_size (w_dp w).
Proof.
  intros Hv Hs. destruct (vk_own _ _ Hv i (sq_gid sq) (rule_of_qer (sq_info sq))) as [H _]; [by simpl; rewrite lookup_fmap, Hs|].
  simpl in H. unfold qer_get, arr_get in H. destruct (N.ltb_spec (sq_gid sq) (d_qer_size (w_dp w))); done.
Qed.
Lemma update_qer_moves O f w : (forall i, qe_id f = Some i -> is_Some (s_qers (w_ses w) !! i)) -> moves qer_kind O w (update_qer_ie f w).
Proof.
  intros Hd Hv Hw. pose proof (by_prims_ok _ _ (update_qer_prims f w) Hw) as Hok.
  assert (Hx : ends (update_qer_ie f w) (fun w' => vstep (kview qer_kind w) (kview qer_kind w'))).
  { unfold update_qer_ie in *. destruct (qe_id f) as [i|]; [|by apply vs_keep]. destruct (Hd i eq_refl) as [sf Hs].
    unfold get_qer in *. rewrite Hs in *. cbn [default from_option id] in *. set (v := compose_qer f (sq_info sf)) in *. cbn zeta in *.
    pose proof (own_qer_lt _ _ _ _ Hv Hs) as Hlt. unfold update_qer in *. cbn [w_dp w_set_ses] in *.
    destruct (N.ltb_spec (sq_gid sf) (d_qer_size (w_dp w))); [|lia]. cbn [ends].
    apply (vs_upd _ _ i (sq_gid sf) (rule_of_qer (sq_info sf)) (rule_of_qer v)); simpl; try done.
    - by rewrite lookup_fmap, Hs.
    - unfold ses_update_qer, get_qer. rewrite Hs. simpl. by rewrite fmap_insert.
    - unfold qer_get. simpl. rewrite qer_get_insert by done. by rewrite decide_True.
    - intros g' Hne. unfold qer_get, qer_free. simpl. rewrite qer_get_insert by done. by rewrite decide_False. }
  destruct (update_qer_ie f w) as [w'|w'|]; simpl in *; try done; (split; [by eapply vstep_ok|done]).
Qed.
Lemma remove_qer_moves O f w : (forall i, qe_id f = Some i -> is_Some (s_qers (w_ses w) !! i)) -> moves qer_kind O w (remove_qer_ie f w).
Proof.
  intros Hd Hv Hw. pose proof (by_prims_ok _ _ (remove_qer_prims f w) Hw) as Hok.
  assert (Hx : ends (remove_qer_ie f w) (fun w' => vstep (kview qer_kind w) (kview qer_kind w'))).
  { unfold remove_qer_ie in *. destruct (qe_id f) as [i|]; [|by apply vs_keep]. destruct (Hd i eq_refl) as [sf Hs].
    unfold get_qer in *. rewrite Hs in *. cbn [default from_option id] in *. cbn [w_dp w_set_ses] in *.
    pose proof (delete_qer_effect (sq_gid sf) (w_dp w) Hw) as He. destruct (delete_qer _ _) as [ok d'].
    destruct He as (_ & _ & Hfr & Hget).
    assert (vstep (kview qer_kind w) (kview qer_kind (w_set_dp d' (w_set_ses (ses_remove_qer i (w_ses w)) w)))).
    { apply (vs_rem _ _ i (sq_gid sf) (rule_of_qer (sq_info sf))); simpl.
      - by rewrite lookup_fmap, Hs.
      - by rewrite fmap_delete.
      - intros g' Hne. rewrite Hget, Hfr. rewrite decide_False by naive_solver. naive_solver. }
    by destruct ok. }
  destruct (remove_qer_ie f w) as [w'|w'|]; simpl in *; try done; (split; [by eapply vstep_ok|done]).
Qed.
Lemma create_qer_ids f w w' : create_qer f w = ROk w' ->
  forall i, is_Some (s_qers (w_ses w) !! i) \/ qe_id f = Some i -> is_Some (s_qers (w_ses w') !! i).
Proof.
  unfold create_qer. intros H i Hi. destruct (qe_id f) as [k|]; [|done]. repeat (case_match; simplify_eq). simpl.
  destruct (decide (i = k)) as [->|Hne]; [rewrite lookup_insert; eauto|].
  rewrite lookup_insert_ne by done. naive_solver.
Qed.
Lemma create_qers_ids l : forall w w', each create_qer l w = ROk w' ->
  forall i, is_Some (s_qers (w_ses w) !! i) \/ Some i ∈ (qe_id <$> l) -> is_Some (s_qers (w_ses w') !! i).
Proof.
  induction l as [|f l IH]; intros w w' H i Hi; simpl in H.
  { simplify_eq. destruct Hi as [|Hi]; [done|]. by apply elem_of_nil in Hi. }
  apply rbind_ok in H as (w1 & H1 & H2). apply (IH _ _ H2).
  rewrite fmap_cons, elem_of_cons in Hi. destruct Hi as [Hi|[Hi|Hi]]; [left..|by right]; eapply create_qer_ids; eauto.
Qed.
Lemma update_qer_ids f w w' i : update_qer_ie f w = ROk w' -> is_Some (s_qers (w_ses w) !! i) -> is_Some (s_qers (w_ses w') !! i).
Proof.
  unfold update_qer_ie. intros H Hi. destruct (qe_id f) as [k|]; [|done]. repeat (case_match; simplify_eq). simpl.
  destruct (decide (i = k)) as [->|Hne]; [rewrite lookup_insert; eauto|].
  by rewrite lookup_insert_ne.
Qed.
Lemma remove_qer_ids f w w' i : remove_qer_ie f w = ROk w' -> qe_id f <> Some i ->
  is_Some (s_qers (w_ses w) !! i) -> is_Some (s_qers (w_ses w') !! i).
Proof.
  unfold remove_qer_ie. intros H Hne Hi. destruct (qe_id f) as [k|]; [|done]. repeat (case_match; simplify_eq). simpl.
  rewrite lookup_delete_ne; [done|congruence].
Qed.

(** *** Whole requests *)
Lemma est_far_moves O ueip q w : moves far_kind O w (est_rules ueip q w).
Proof.
  unfold est_rules. apply moves_bind; [by apply moves_each; intros; apply create_far_moves|intros w1 _].
  apply moves_bind; [|intros w2 _; apply moves_bind; [|intros w3 _]].
  - apply moves_each. intros x w'. eapply moves_keep; [apply far_part_step|apply (proj1 qer_frame_far)|apply create_qer_prims].
  - apply moves_each. intros x w'. eapply moves_keep; [apply far_part_step|apply (proj1 urr_frame_far)|apply create_urr_prims].
  - apply moves_each. intros x w'. eapply moves_keep; [apply far_part_step|apply (proj1 pdr_frame_far)|apply create_pdr_prims].
Qed.
Lemma est_qer_moves O ueip q w : moves qer_kind O w (est_rules ueip q w).
Proof.
  unfold est_rules. apply moves_bind; [|intros w1 _; apply moves_bind; [by apply moves_each; intros; apply create_qer_moves|intros w2 _; apply moves_bind; [|intros w3 _]]].
  - apply moves_each. intros x w'. eapply moves_keep; [apply qer_part_step|apply (proj1 far_frame_qer)|apply create_far_prims].
  - apply moves_each. intros x w'. eapply moves_keep; [apply qer_part_step|apply (proj1 urr_frame_qer)|apply create_urr_prims].
  - apply moves_each. intros x w'. eapply moves_keep; [apply qer_part_step|apply (proj1 pdr_frame_qer)|apply create_pdr_prims].
Qed.
Ltac keep_far H P := apply moves_each; intros; eapply moves_keep; [apply far_part_step|apply H|apply P].
Ltac keep_qer H P := apply moves_each; intros; eapply moves_keep; [apply qer_part_step|apply H|apply P].

Lemma mod_far_moves O ueip sh q w : fair sh -> careful_mod (w_ses w) q -> moves far_kind O w (mod_rules ueip sh q w).
Proof.
  intros Hf Hc. unfold mod_rules. destruct qer_frame_far as (Q1 & Q2 & Q3 & _). destruct urr_frame_far as (U1 & U2 & U3 & _).
  destruct pdr_frame_far as (P1 & P2 & P3 & _).
  apply moves_bind; [by apply moves_each; intros; apply create_far_moves|intros w1 E1].
  assert (K1 : forall i, far_known (w_ses w) (mq_cfar q) i -> is_Some (s_fars (w_ses w1) !! i)) by (intros i Hi; by eapply create_fars_ids).
  apply moves_bind; [|intros w2 E2].
  { eapply (moves_each_pre _ _ _ (fun f w => forall i, fa_id f = Some i -> is_Some (s_fars (w_ses w) !! i))).
    - intros f w0 Hi. by apply update_far_moves.
    - intros f l1 l2 w0 w0' _ Hw. intros Hall; eapply Forall_impl; [exact Hall|]. intros y Hy i Hi. eapply update_far_ids; eauto.
    - apply Forall_forall. intros f Hin i Hi. apply K1. by eapply (cm_ufar _ _ Hc). }
  assert (K2 : forall i, far_known (w_ses w) (mq_cfar q) i -> is_Some (s_fars (w_ses w2) !! i)).
  { intros i Hi. eapply (each_inv (fun w => is_Some (s_fars (w_ses w) !! i))); [|exact E2|by apply K1]. intros. by eapply update_far_ids. }
  apply moves_bind; [|intros w3 E3].
  { eapply (moves_each_pre _ _ _ (fun f w => is_Some (s_fars (w_ses w) !! default 0 (fa_id f)))).
    - intros f w0 Hi. by apply remove_far_moves.
    - intros f l1 l2 w0 w0' El Hw Hall. pose proof (cm_rfar_once _ _ Hc) as Hnd. rewrite El, fmap_app, fmap_cons in Hnd.
      apply NoDup_app in Hnd as (_ & _ & Hnd). apply NoDup_cons in Hnd as [Hnd _].
      apply Forall_forall. intros y Hy. eapply remove_far_ids; [done| |by apply (Forall_forall (fun y => is_Some (s_fars (w_ses w0) !! default 0 (fa_id y))) l2)].
      intros Heq. apply Hnd. rewrite <- Heq. by apply (elem_of_list_fmap_1 (fun f => default 0 (fa_id f))).
    - apply Forall_forall. intros f Hin. apply K2. by apply (cm_rfar _ _ Hc). }
  apply moves_bind; [keep_far Q1 create_qer_prims|intros ? _]. apply moves_bind; [keep_far Q2 update_qer_prims|intros ? _].
  apply moves_bind; [keep_far Q3 remove_qer_prims|intros ? _]. apply moves_bind; [keep_far U1 create_urr_prims|intros ? _].
  apply moves_bind; [keep_far U2 update_urr_prims|intros ? _]. apply moves_bind; [keep_far U3 remove_urr_prims|intros ? _].
  apply moves_bind; [keep_far P1 create_pdr_prims|intros ? _]. apply moves_bind; [keep_far P2 update_pdr_prims|intros ? _].
  apply moves_each; intros; eapply moves_keep; [apply far_part_step|apply P3|by apply remove_pdr_prims].
Qed.

Lemma mod_qer_moves O ueip sh q w : fair sh -> careful_mod (w_ses w) q -> moves qer_kind O w (mod_rules ueip sh q w).
Proof.
  intros Hf Hc. unfold mod_rules. destruct far_frame_qer as (Q1 & Q2 & Q3 & _). destruct urr_frame_qer as (U1 & U2 & U3 & _).
  destruct pdr_frame_qer as (P1 & P2 & P3 & _).
  apply moves_bind; [keep_qer Q1 create_far_prims|intros wa Ea]. apply moves_bind; [keep_qer Q2 update_far_prims|intros wb Eb].
  apply moves_bind; [keep_qer Q3 remove_far_prims|intros w0 Ec].
  assert (E0 : s_qers (w_ses w0) = s_qers (w_ses w)).
  { assert (qer_part w0 = qer_part w) as E.
    { use_keep Ec (each_keep qer_part _ (mq_rfar q) wb Q3). use_keep Eb (each_keep qer_part _ (mq_ufar q) wa Q2).
      use_keep Ea (each_keep qer_part _ (mq_cfar q) w Q1). congruence. }
    unfold qer_part in E. congruence. }
  apply moves_bind; [by apply moves_each; intros; apply create_qer_moves|intros w1 E1].
  assert (K1 : forall i, qer_known (w_ses w) (mq_cqer q) i -> is_Some (s_qers (w_ses w1) !! i)).
  { intros i Hi. eapply create_qers_ids; [exact E1|]. by rewrite E0. }
  apply moves_bind; [|intros w2 E2].
  { eapply (moves_each_pre _ _ _ (fun f w => forall i, qe_id f = Some i -> is_Some (s_qers (w_ses w) !! i))).
    - intros f w' Hi. by apply update_qer_moves.
    - intros f l1 l2 w' w'' _ Hw. intros Hall; eapply Forall_impl; [exact Hall|]. intros y Hy i Hi. eapply update_qer_ids; eauto.
    - apply Forall_forall. intros f Hin i Hi. apply K1. by eapply (cm_uqer _ _ Hc). }
  assert (K2 : forall i, qer_known (w_ses w) (mq_cqer q) i -> is_Some (s_qers (w_ses w2) !! i)).
  { intros i Hi. eapply (each_inv (fun w => is_Some (s_qers (w_ses w) !! i))); [|exact E2|by apply K1]. intros. by eapply update_qer_ids. }
  apply moves_bind; [|intros w3 E3].
  { eapply (moves_each_pre _ _ _ (fun f w => forall i, qe_id f = Some i -> is_Some (s_qers (w_ses w) !! i))).
    - intros f w' Hi. by apply remove_qer_moves.
    - intros f l1 l2 w' w'' El Hw Hall. pose proof (cm_rqer_once _ _ Hc) as Hnd. rewrite El, omap_app in Hnd.
      apply Forall_forall. intros y Hy i Hi.
      eapply remove_qer_ids; [done| |by apply (proj1 (Forall_forall _ l2) Hall y Hy)].
      intros Heq. apply NoDup_app in Hnd as (_ & _ & Hnd). simpl in Hnd. rewrite Heq in Hnd. apply NoDup_cons in Hnd as [Hnd _].
      apply Hnd. apply elem_of_list_omap. eauto.
    - apply Forall_forall. intros f Hin i Hi. apply K2. by eapply (cm_rqer _ _ Hc). }
  apply moves_bind; [keep_qer U1 create_urr_prims|intros ? _].
  apply moves_bind; [keep_qer U2 update_urr_prims|intros ? _]. apply moves_bind; [keep_qer U3 remove_urr_prims|intros ? _].
  apply moves_bind; [keep_qer P1 create_pdr_prims|intros ? _]. apply moves_bind; [keep_qer P2 update_pdr_prims|intros ? _].
  apply moves_each; intros; eapply moves_keep; [apply qer_part_step|apply P3|by apply remove_pdr_prims].
Qed.

(** ** The invariant of a state *)

(** The data plane has what the sessions have, and no two rules of sessions share an id. *)
Record mirror (K : kind) (c : conn) : Prop := {
  mi_get : forall addr seid s i g v, session_of c addr seid = Some s -> ktab K s !! i = Some (g, v) ->
    kget K (c_dp c) g = Some v /\ ~ kfree K (c_dp c) g;
  mi_inj : forall addr seid s i g v addr' seid' s' i' v', session_of c addr seid = Some s -> session_of c addr' seid' = Some s' ->
    ktab K s !! i = Some (g, v) -> ktab K s' !! i' = Some (g, v') -> addr = addr' /\ seid = seid' /\ i = i' }.

(** Rules of the sessions other than [seid] of [addr]. *)
Definition others (K : kind) (c : conn) (addr seid : N) (g : N) (v : kv K) : Prop :=
  exists addr' seid' s i, session_of c addr' seid' = Some s /\ ~ (addr' = addr /\ seid' = seid) /\ ktab K s !! i = Some (g, v).

Lemma mirror_vok K c addr seid s s1 rm : mirror K c -> session_of c addr seid = Some s -> ktab K s1 = ktab K s ->
  vok (others K c addr seid) (kview K (new_work (c_dp c) s1 rm)).
Proof.
  intros [Hg Hi] Hs Ht. split; simpl; rewrite ?Ht.
  - intros i g v H. by eapply Hg.
  - intros i j g v v' H1 H2. destruct (Hi _ _ _ _ _ _ _ _ _ _ _ Hs Hs H1 H2) as (_ & _ & ?). done.
  - intros i g v v' H1 (addr' & seid' & s' & j & Hs' & Hne & H2).
    destruct (Hi _ _ _ _ _ _ _ _ _ _ _ Hs Hs' H1 H2) as (-> & -> & _). by apply Hne.
  - intros g v (addr' & seid' & s' & j & Hs' & Hne & H2). by eapply Hg.
Qed.
Definition all_rules (K : kind) (c : conn) (g : N) (v : kv K) : Prop :=
  exists addr seid s i, session_of c addr seid = Some s /\ ktab K s !! i = Some (g, v).
Lemma mirror_fresh_vok K (O : N -> kv K -> Prop) c s1 rm : mirror K c -> ktab K s1 = ∅ -> (forall g v, O g v -> all_rules K c g v) ->
  vok O (kview K (new_work (c_dp c) s1 rm)).
Proof.
  intros [Hg Hi] Ht HO. split; simpl; rewrite ?Ht.
  - intros i g v H. by rewrite lookup_empty in H.
  - intros i j g v v' H1 H2. by rewrite lookup_empty in H1.
  - intros i g v v' H1. by rewrite lookup_empty in H1.
  - intros g v H. apply HO in H as (addr' & seid' & s' & j & Hs' & H2). by eapply Hg.
Qed.
(** Back: the session replaced (or dropped), the others as they were. *)
Lemma vok_mirror K c c' addr seid w : mirror K c -> vok (others K c addr seid) (kview K w) -> c_dp c' = w_dp w ->
  (forall addr' seid' s', session_of c' addr' seid' = Some s' ->
     (addr' = addr /\ seid' = seid /\ s' = w_ses w) \/ (~ (addr' = addr /\ seid' = seid) /\ session_of c addr' seid' = Some s')) ->
  mirror K c'.
Proof.
  intros [Hg Hi] [Vo Vi Va Vt] Hd Hs. split.
  - intros addr' seid' s' i g v Hs' Hk. rewrite Hd. destruct (Hs _ _ _ Hs') as [(-> & -> & ->)|[Hne Hs0]]; [by eapply Vo|].
    apply Vt. exists addr', seid', s', i. done.
  - intros a1 n1 s1 i1 g v1 a2 n2 s2 i2 v2 H1 H2 K1 K2.
    destruct (Hs _ _ _ H1) as [(-> & -> & ->)|[Hne1 H1']], (Hs _ _ _ H2) as [(-> & -> & ->)|[Hne2 H2']].
    + split_and!; try done. by eapply Vi.
    + exfalso. eapply Va; [exact K1|]. exists a2, n2, s2, i2. done.
    + exfalso. eapply Va; [exact K2|]. exists a1, n1, s1, i1. done.
    + by eapply Hi.
Qed.

Definition same_rules (K : kind) (d d' : dp) (g : N) : Prop := kget K d' g = kget K d g /\ (kfree K d' g -> kfree K d g).

Lemma mirror_sub K c c' : mirror K c ->
  (forall addr seid s, session_of c' addr seid = Some s -> session_of c addr seid = Some s /\
     forall i g v, ktab K s !! i = Some (g, v) -> same_rules K (c_dp c) (c_dp c') g) -> mirror K c'.
Proof.
  intros [Hg Hi] H. split.
  - intros addr seid s i g v Hs Hk. destruct (H _ _ _ Hs) as [Hs0 Hx]. destruct (Hx _ _ _ Hk) as [-> Hf].
    destruct (Hg _ _ _ _ _ _ Hs0 Hk) as [? Hn]. split; [done|]. intros Hy. by apply Hn, Hf.
  - intros a1 n1 s1 i1 g v1 a2 n2 s2 i2 v2 H1 H2. apply H in H1 as [H1 _]. apply H in H2 as [H2 _]. by eapply Hi.
Qed.

Definition owns (K : kind) (s : session) (g : N) : Prop := exists i v, ktab K s !! i = Some (g, v).

(** What is needed of a kind. *)
Record kind_ok (K : kind) : Prop := {
  ko_est : forall O ueip q w, moves K O w (est_rules ueip q w);
  ko_mod : forall O ueip sh q w, fair sh -> careful_mod (w_ses w) q -> moves K O w (mod_rules ueip sh q w);
  ko_new : forall l r, ktab K (new_session l r) = ∅;
  ko_rem : forall r s, ktab K (set_remote r s) = ktab K s;
  ko_del : forall sh addr seq seid c c' r s, reachable c -> fair sh -> session_of c addr seid = Some s ->
    handle sh addr seq (SessDelReq seid) c = Done c' (Some r) -> r_cause r = Some 1 ->
    forall g, ~ owns K s g -> same_rules K (c_dp c) (c_dp c') g;
  ko_err : forall sh s d rm w, dp_ok d -> fair sh ->
    (forall i f, s_fars s !! i = Some f -> sf_gid f < d_far_size d) -> (forall i f, s_qers s !! i = Some f -> sq_gid f < d_qer_size d) ->
    del_rules sh s (new_work d s rm) = RErr w -> forall g, same_rules K d (w_dp w) g;
  ko_prune : forall sh addr c c' r, reachable c -> fair sh -> step c (HeartbeatFailed sh addr) = Done c' r ->
    forall g, (forall seid s, session_of c addr seid = Some s -> ~ owns K s g) -> same_rules K (c_dp c) (c_dp c') g;
  ko_traffic : forall m u d g, same_rules K d (traffic m u d) g }.

Lemma careful_mod_remote r s q : careful_mod s q -> careful_mod (set_remote r s) q.
Proof. intros []. by split. Qed.

Lemma mirror_far_lt c addr seid s i f : mirror far_kind c -> session_of c addr seid = Some s -> s_fars s !! i = Some f ->
  sf_gid f < d_far_size (c_dp c).
Proof.
  intros Hm Hs Hi. destruct (mi_get _ _ Hm addr seid s i (sf_gid f) (sf_info f) Hs) as [H _]; [by simpl; rewrite lookup_fmap, Hi|].
  simpl in H. unfold far_get, arr_get in H. destruct (N.ltb_spec (sf_gid f) (d_far_size (c_dp c))); done.
Qed.
Lemma mirror_qer_lt c addr seid s i f : mirror qer_kind c -> session_of c addr seid = Some s -> s_qers s !! i = Some f ->
  sq_gid f < d_qer_size (c_dp c).
Proof.
  intros Hm Hs Hi. destruct (mi_get _ _ Hm addr seid s i (sq_gid f) (rule_of_qer (sq_info f)) Hs) as [H _]; [by simpl; rewrite lookup_fmap, Hi|].
  simpl in H. unfold qer_get, arr_get in H. destruct (N.ltb_spec (sq_gid f) (d_qer_size (c_dp c))); done.
Qed.

Lemma session_put c addr a seid s0 n x d rm addr' seid' s' : c_assocs c !! addr = Some a ->
  session_of (set_dp_rm d rm (set_assocs (<[addr := Assoc n x (<[seid := s0]> (a_sessions a))]> (c_assocs c)) c)) addr' seid' = Some s' ->
  (addr' = addr /\ seid' = seid /\ s' = s0) \/ (~ (addr' = addr /\ seid' = seid) /\ session_of c addr' seid' = Some s').
Proof.
  intros Ha. unfold session_of. simpl. destruct (decide (addr' = addr)) as [->|Hne].
  - rewrite lookup_insert. simpl. rewrite lookup_insert_Some. intros [[-> ->]|[Hne Hl]]; [by left|]. right. rewrite Ha. naive_solver.
  - rewrite lookup_insert_ne by done. intros H. right. naive_solver.
Qed.
Lemma session_put_sub c addr a n x (M : gmap N session) d rm addr' seid' s' : c_assocs c !! addr = Some a ->
  (forall k v, M !! k = Some v -> a_sessions a !! k = Some v) ->
  session_of (set_dp_rm d rm (set_assocs (<[addr := Assoc n x M]> (c_assocs c)) c)) addr' seid' = Some s' -> session_of c addr' seid' = Some s'.
Proof.
  intros Ha HM. unfold session_of. simpl. destruct (decide (addr' = addr)) as [->|Hne].
  - rewrite lookup_insert. simpl. rewrite Ha. apply HM.
  - by rewrite lookup_insert_ne.
Qed.
Lemma session_ensure addr n c addr' seid' s' : session_of (ensure_assoc addr n c) addr' seid' = Some s' -> session_of c addr' seid' = Some s'.
Proof.
  unfold ensure_assoc. destruct (c_assocs c !! addr) as [a|] eqn:Ha; [done|]. unfold session_of. simpl.
  destruct (decide (addr' = addr)) as [->|Hne]; [rewrite lookup_insert; simpl; by rewrite lookup_empty|by rewrite lookup_insert_ne].
Qed.

Lemma mirror_step K c e c' r : kind_ok K -> mirror far_kind c -> mirror qer_kind c -> reachable c -> event_fair e -> careful c e ->
  step c e = Done c' r -> mirror K c -> mirror K c'.
Proof.
  intros HK Hfm Hqm Hreach Hfair Hcare H HM.
  pose proof (reachable_ok _ Hreach) as [Hok _].
  assert (Hsame : forall c1, c_dp c1 = c_dp c -> (forall addr seid s, session_of c1 addr seid = Some s -> session_of c addr seid = Some s) -> mirror K c1).
  { intros c1 Hd Hs. eapply mirror_sub; [exact HM|]. intros addr seid s Hx. split; [by apply Hs|]. intros i g v _. rewrite Hd. by split. }
  destruct e as [sh addr seq m|sh addr|marks vols].
  - destruct m as [t|t|n t|n k f|n|q|q|seid|ty]; simpl in H.
    + unfold handle_hb_req in H. destruct t; simplify_eq; done.
    + unfold handle_hb_resp in H. destruct t; simplify_eq; done.
    + unfold handle_setup in H. destruct n as [| |n]; [by simplify_eq..|]. destruct t as [| |t]; [by simplify_eq..|]. simplify_eq.
      apply Hsame; [unfold ensure_assoc; by case_match|apply session_ensure].
    + unfold handle_setup_resp in H. destruct n as [| |n], k as [| |k], f as [| |f]; simplify_eq; try done.
      destruct (k =? Accepted); simplify_eq; [|done]. apply Hsame; [unfold ensure_assoc; by case_match|apply session_ensure].
    + unfold handle_update in H. repeat (case_match; simplify_eq); simplify_eq; done.
    + unfold handle_est in H. destruct (validate_request _ _) as [remote|]; simplify_eq; [|done].
      destruct (c_assocs c !! addr) as [a|] eqn:Ha; simplify_eq; [|done]. destruct (existsb _ _); [done|].
      assert (Hl : forall O : N -> kv K -> Prop, (forall g v, O g v -> all_rules K c g v) -> ends (est_rules (g_ueip (c_cfg c)) q (new_work (c_dp c) (new_session (next_seid a) remote) (c_rm c)))
        (fun w' => vok O (kview K w') /\ dp_ok (w_dp w'))).
      { intros O HO. apply (ko_est _ HK O); [|done]. apply mirror_fresh_vok; [done|by apply ko_new|done]. }
      destruct (est_rules _ _ _) as [w|w|]; simplify_eq; simpl in Hl.
      * destruct (Hl (others K c addr (next_seid a))) as [Hv _]; [intros g v (a' & n' & s' & i' & Hx & _ & Hy); by exists a', n', s', i'|].
        eapply (vok_mirror K c _ addr (next_seid a) w HM Hv); [done|]. intros addr' seid' s'. unfold put_session. simpl. rewrite insert_insert.
        change (Conn (<[addr:=Assoc (a_node a) (next_seid a) (<[next_seid a:=w_ses w]> (a_sessions a))]> (c_assocs c))
             (c_dp c) (c_rm c) (c_cfg c)) with
            (set_assocs (<[addr:=Assoc (a_node a) (next_seid a) (<[next_seid a:=w_ses w]> (a_sessions a))]> (c_assocs c)) c).
        by apply (session_put c addr a).
      * destruct (Hl (all_rules K c)) as [Hv _]; [done|].
        eapply mirror_sub; [exact HM|]. intros addr' seid' s' Hs'. apply (session_put_sub c addr a) in Hs' as Hs0; [|done..]. split; [done|].
        intros i g v Hk. destruct (vk_other _ _ Hv g v) as [Hg Hf]; [by exists addr', seid', s', i|]. simpl in Hg, Hf |- *.
        destruct (mi_get _ _ HM _ _ _ _ _ _ Hs0 Hk) as [Hg0 _]. split; [congruence|done].
    + unfold handle_mod in H. destruct (c_assocs c !! addr) as [a|] eqn:Ha; simplify_eq; [|done].
      destruct (a_sessions a !! mq_seid q) as [s|] eqn:Hs; simplify_eq; [|done].
      destruct (_ || _); [done|].
      assert (Hs0 : session_of c addr (mq_seid q) = Some s) by (unfold session_of; by rewrite Ha).
      set (s1 := match mq_fseid q with Good r => set_remote r s | _ => s end) in *.
      assert (Hc1 : careful_mod s1 q).
      { specialize (Hcare s Hs0). unfold s1. destruct (mq_fseid q); [done..|]. by apply careful_mod_remote. }
      assert (Ht1 : ktab K s1 = ktab K s). { unfold s1. destruct (mq_fseid q); [done..|]. by apply ko_rem. }
      pose proof (ko_mod _ HK (others K c addr (mq_seid q)) (g_ueip (c_cfg c)) sh q (new_work (c_dp c) s1 (c_rm c)) Hfair Hc1
        (mirror_vok _ _ _ _ _ _ _ HM Hs0 Ht1) Hok) as Hl.
      destruct (mod_rules _ _ _ _) as [w|w|]; simplify_eq; simpl in Hl; destruct Hl as [Hl _];
        (eapply (vok_mirror K c _ addr (mq_seid q) w HM Hl); [done|]; intros addr' seid' s'; by apply (session_put c addr a)).
    + assert (Hdel : forall a s, c_assocs c !! addr = Some a -> a_sessions a !! seid = Some s -> forall n x d rm, (forall g, ~ owns K s g -> same_rules K (c_dp c) d g) ->
        mirror K (set_dp_rm d rm (set_assocs (<[addr := Assoc n x (delete seid (a_sessions a))]> (c_assocs c)) c))).
      { intros a s Ha Hs n x d rm Hg. assert (Hs0 : session_of c addr seid = Some s) by (unfold session_of; by rewrite Ha).
        eapply mirror_sub; [exact HM|]. intros addr' seid' s' Hs'.
        apply (session_put_sub c addr a) in Hs' as Hs1; [|done|intros k v Hk; apply lookup_delete_Some in Hk; tauto]. split; [done|].
        intros i g v Hk. apply Hg. intros (j & v' & Hj). destruct (mi_inj _ _ HM _ _ _ _ _ _ _ _ _ _ _ Hs1 Hs0 Hk Hj) as (-> & -> & _).
        unfold session_of in Hs'. simpl in Hs'. rewrite lookup_insert in Hs'. simpl in Hs'. by rewrite lookup_delete in Hs'. }
      pose proof (ko_del _ HK sh addr seq seid c c') as Hacc. simpl in Hacc.
      unfold handle_del in H, Hacc. destruct (c_assocs c !! addr) as [a|] eqn:Ha; simplify_eq; [|done].
      destruct (a_sessions a !! seid) as [s|] eqn:Hs; simplify_eq; [|done].
      assert (Hs0 : session_of c addr seid = Some s) by (unfold session_of; by rewrite Ha).
      destruct (del_rules _ _ _) as [w|w|] eqn:Ew; simplify_eq.
      * eapply Hdel; [done..|]. by eapply (Hacc _ s Hreach Hfair Hs0 eq_refl eq_refl).
      * eapply mirror_sub; [exact HM|]. intros addr' seid' s' Hs'. split; [done|]. intros i g v _.
        eapply (ko_err _ HK sh s); [exact Hok|exact Hfair| | |exact Ew]; intros j f Hj; [exact (mirror_far_lt c addr seid s j f Hfm Hs0 Hj)|exact (mirror_qer_lt c addr seid s j f Hqm Hs0 Hj)].
    + by simplify_eq.
  - pose proof (ko_prune _ HK sh addr c c' r Hreach Hfair H) as Hp. simpl in H.
    unfold prune in H. destruct (c_assocs c !! addr) as [a|] eqn:Ha; [|done].
    destruct (prune_sessions _ _ _ _) as [[d rm]|] eqn:E; simplify_eq.
    eapply mirror_sub; [exact HM|]. intros addr' seid' s' Hs'.
    assert (addr' <> addr /\ session_of c addr' seid' = Some s') as [Hne Hs0].
    { unfold session_of in *. simpl in Hs'. destruct (delete addr (c_assocs c) !! addr') as [a'|] eqn:El; [|done].
      apply lookup_delete_Some in El as [? El]. rewrite El. done. }
    split; [done|]. intros i g v Hk. apply Hp. intros seid s Hs (j & v' & Hj).
    by destruct (mi_inj _ _ HM _ _ _ _ _ _ _ _ _ _ _ Hs0 Hs Hk Hj) as (-> & _).
  - simpl in H. simplify_eq. eapply mirror_sub; [exact HM|]. intros addr seid s Hs. split; [done|]. intros i g v _. apply (ko_traffic _ HK).
Qed.

(** *** Deletions that fail do so before any FAR or QER is touched. *)
Lemma del_fars_noerr l : forall w w', (forall i f, (i, f) ∈ l -> sf_gid f < d_far_size (w_dp w)) -> dp_ok (w_dp w) -> each del_far l w <> RErr w'.
Proof.
  induction l as [|[i f] l IH]; intros w w' Hl Hw; simpl; [done|]. unfold del_far at 1. simpl.
  pose proof (delete_far_effect (sf_gid f) (w_dp w) Hw) as He. pose proof (delete_far_ok (sf_gid f) (w_dp w) Hw) as Hw'.
  destruct (delete_far (sf_gid f) (w_dp w)) as [ok d]. destruct He as (Hsz & Hok & _).
  rewrite (proj2 Hok) by (apply (Hl i f); left). simpl. apply IH; [|done]. intros j f' Hj. simpl. rewrite Hsz. apply (Hl j). by right.
Qed.
Lemma del_qers_noerr l : forall w w', (forall i f, (i, f) ∈ l -> sq_gid f < d_qer_size (w_dp w)) -> dp_ok (w_dp w) -> each del_qer l w <> RErr w'.
Proof.
  induction l as [|[i f] l IH]; intros w w' Hl Hw; simpl; [done|]. unfold del_qer at 1. simpl.
  pose proof (delete_qer_effect (sq_gid f) (w_dp w) Hw) as He. pose proof (delete_qer_ok (sq_gid f) (w_dp w) Hw) as Hw'.
  destruct (delete_qer (sq_gid f) (w_dp w)) as [ok d]. destruct He as (Hsz & Hok & _).
  rewrite (proj2 Hok) by (apply (Hl i f); left). simpl. apply IH; [|done]. intros j f' Hj. simpl. rewrite Hsz. apply (Hl j). by right.
Qed.
Lemma del_urrs_noerr l : forall w w', each del_urr l w <> RErr w'.
Proof.
  induction l as [|u l IH]; intros w w'; simpl; [done|]. unfold del_urr at 1. destruct (delete_urr _ _) as [[v|] d]; simpl; apply IH.
Qed.
Lemma rbind_err r k w : rbind r k = RErr w -> r = RErr w \/ exists w1, r = ROk w1 /\ k w1 = RErr w.
Proof. destruct r; simpl; intros H; simplify_eq; eauto. Qed.

Lemma del_rules_err sh s d rm w : dp_ok d -> fair sh ->
  (forall i f, s_fars s !! i = Some f -> sf_gid f < d_far_size d) -> (forall i f, s_qers s !! i = Some f -> sq_gid f < d_qer_size d) ->
  del_rules sh s (new_work d s rm) = RErr w ->
  far_part w = far_part (new_work d s rm) /\ qer_part w = qer_part (new_work d s rm).
Proof.
  intros Hok Hf HF HQ H. unfold del_rules in H.
  destruct pdr_frame_far as (_ & _ & _ & Pf). destruct pdr_frame_qer as (_ & _ & _ & Pq).
  pose proof (each_keep far_part (fun e : N * spdr => delete_pdr sh (snd e)) (entries sh 0 (s_pdrs s)) (new_work d s rm) (fun e w => Pf sh (snd e) w)) as E1.
  pose proof (each_keep qer_part (fun e : N * spdr => delete_pdr sh (snd e)) (entries sh 0 (s_pdrs s)) (new_work d s rm) (fun e w => Pq sh (snd e) w)) as E2.
  pose proof (by_prims_ok _ _ (each_prims (fun e => delete_pdr sh (snd e)) (entries sh 0 (s_pdrs s)) (new_work d s rm) (fun e w => delete_pdr_prims sh (snd e) w Hf)) Hok) as Hok1.
  apply rbind_err in H as [H|(w1 & H1 & H)]; [rewrite H in E1, E2; done|]. exfalso. rewrite H1 in *. simpl in E1, E2.
  pose proof (by_prims_ok _ _ (each_prims _ (entries sh 1 (s_fars s)) w1 del_far_prims) Hok1) as Hok2.
  apply rbind_err in H as [H|(w2 & H2 & H)].
  { eapply del_fars_noerr; [|exact Hok1|exact H]. intros i f Hi. apply elem_of_entries in Hi; [|done].
    destruct (far_part_get _ _ 0 E1) as (_ & _ & ->). by eapply HF. }
  rewrite H2 in Hok2.
  apply rbind_err in H as [H|(w3 & H3 & H)].
  { eapply del_qers_noerr; [|exact Hok2|exact H]. intros i f Hi. apply elem_of_entries in Hi; [|done].
    use_keep H2 (each_keep qer_part _ (entries sh 1 (s_fars s)) w1 (proj2 (proj2 (proj2 far_frame_qer)))).
    assert (qer_part w2 = qer_part (new_work d s rm)) as E by congruence.
    destruct (qer_part_get _ _ 0 E) as (_ & _ & ->). by eapply HQ. }
  by apply del_urrs_noerr in H.
Qed.

Lemma traffic_qer_rule m q : rule_of_qer (traffic_qer m q) = rule_of_qer q.
Proof. done. Qed.
Lemma touch_at {A} (z : A) f n (m : gmap N A) k :
  touch z f n m !! k = match n !! k with Some v => Some (f v (default z (m !! k))) | None => m !! k end.
Proof. unfold touch. rewrite lookup_merge. destruct (n !! k), (m !! k); done. Qed.

Lemma far_kind_ok : kind_ok far_kind.
Proof.
  split.
  - intros. apply est_far_moves.
  - intros. by apply mod_far_moves.
  - intros. simpl. by rewrite fmap_empty.
  - done.
  - intros sh addr seq seid c c' r s Hreach Hf Hs H Hr g Hg.
    destruct (session_deletion_partial _ _ _ _ _ _ _ _ Hreach Hf Hs H Hr) as (_ & _ & _ & _ & _ & _ & Ho & _).
    destruct (Ho g) as [E1 E2]; [|split; [done|by apply E2]].
    intros i f Hi <-. apply Hg. exists i, (sf_info f). simpl. by rewrite lookup_fmap, Hi.
  - intros sh s d rm w Hok Hf HF HQ H g. destruct (del_rules_err _ _ _ _ _ Hok Hf HF HQ H) as [E _].
    destruct (far_part_get _ _ g E) as (E1 & E2 & _). split; [done|by apply E2].
  - intros sh addr c c' r Hreach Hf H g Hg.
    destruct (association_pruned_partial _ _ _ _ _ Hreach Hf H) as (_ & _ & _ & Ho & _).
    destruct (Ho g) as [E1 E2]; [|split; [done|by apply E2]].
    intros seid s Hs (i & f & Hi & <-). apply (Hg _ _ Hs). exists i, (sf_info f). simpl. by rewrite lookup_fmap, Hi.
  - done.
Qed.
Lemma qer_kind_ok : kind_ok qer_kind.
Proof.
  split.
  - intros. apply est_qer_moves.
  - intros. by apply mod_qer_moves.
  - intros. simpl. by rewrite fmap_empty.
  - done.
  - intros sh addr seq seid c c' r s Hreach Hf Hs H Hr g Hg.
    destruct (session_deletion_partial _ _ _ _ _ _ _ _ Hreach Hf Hs H Hr) as (_ & _ & _ & _ & _ & _ & _ & Ho & _).
    destruct (Ho g) as [E1 E2]; [|split; [by simpl; rewrite E1|by apply E2]].
    intros i f Hi <-. apply Hg. exists i, (rule_of_qer (sq_info f)). simpl. by rewrite lookup_fmap, Hi.
  - intros sh s d rm w Hok Hf HF HQ H g. destruct (del_rules_err _ _ _ _ _ Hok Hf HF HQ H) as [_ E].
    destruct (qer_part_get _ _ g E) as (E1 & E2 & _). split; [by simpl; rewrite E1|by apply E2].
  - intros sh addr c c' r Hreach Hf H g Hg.
    destruct (association_pruned_partial _ _ _ _ _ Hreach Hf H) as (_ & _ & _ & _ & Ho & _).
    destruct (Ho g) as [E1 E2]; [|split; [by simpl; rewrite E1|by apply E2]].
    intros seid s Hs (i & f & Hi & <-). apply (Hg _ _ Hs). exists i, (rule_of_qer (sq_info f)). simpl. by rewrite lookup_fmap, Hi.
  - intros m u d g. split; [|done]. simpl. unfold qer_get, arr_get, traffic. simpl. case_match; [|done]. simpl. rewrite touch_at.
    destruct (m !! g); [|done]. done.
Qed.

Lemma careful_mirror c : careful_history c -> mirror far_kind c /\ mirror qer_kind c.
Proof.
  induction 1 as [g rm p f q u Hrm|c e c' r Hc IH Hf Hca Hs].
  - split; split; intros *; unfold session_of, init; simpl; by rewrite lookup_empty.
  - destruct IH as [HF HQ]. pose proof (careful_reachable _ Hc) as Hr.
    split; eapply mirror_step; eauto using far_kind_ok, qer_kind_ok.
Qed.

(** ** C12, on states *)
Theorem dataplane_mirrors_sessions :
  forall c, careful_history c ->
    (* every FAR of a session is in the data plane under its id, which is taken *)
    (forall addr seid s i f, session_of c addr seid = Some s -> s_fars s !! i = Some f ->
       far_get (c_dp c) (sf_gid f) = Some (sf_info f) /\ ~ far_free (c_dp c) (sf_gid f)) /\
    (* likewise every QER, up to the rate limiter's marks *)
    (forall addr seid s i f, session_of c addr seid = Some s -> s_qers s !! i = Some f ->
       (exists m, qer_get (c_dp c) (sq_gid f) = Some (traffic_qer m (sq_info f))) /\ ~ qer_free (c_dp c) (sq_gid f)) /\
    (* and no two rules share an id *)
    (forall addr seid s i f addr' seid' s' i' f', session_of c addr seid = Some s -> session_of c addr' seid' = Some s' ->
       s_fars s !! i = Some f -> s_fars s' !! i' = Some f' -> sf_gid f = sf_gid f' -> addr = addr' /\ seid = seid' /\ i = i') /\
    (forall addr seid s i f addr' seid' s' i' f', session_of c addr seid = Some s -> session_of c addr' seid' = Some s' ->
       s_qers s !! i = Some f -> s_qers s' !! i' = Some f' -> sq_gid f = sq_gid f' -> addr = addr' /\ seid = seid' /\ i = i').
Proof.
  intros c Hc. apply careful_mirror in Hc as [[FG FI] [QG QI]]. split_and!.
  - intros addr seid s i f Hs Hi. apply (FG addr seid s i (sf_gid f) (sf_info f) Hs). simpl. by rewrite lookup_fmap, Hi.
  - intros addr seid s i f Hs Hi. destruct (QG addr seid s i (sq_gid f) (rule_of_qer (sq_info f)) Hs) as [H1 H2]; [by simpl; rewrite lookup_fmap, Hi|].
    split; [|done]. simpl in H1. destruct (qer_get (c_dp c) (sq_gid f)) as [v|]; [|done]. exists (qi_ul_start v, qi_dl_start v).
    simpl in H1. unfold rule_of_qer in H1. destruct v, f as [[] ?]; simpl in *. unfold traffic_qer. simpl. congruence.
  - intros addr seid s i f addr' seid' s' i' f' Hs Hs' Hi Hi' E.
    eapply (FI _ _ _ i (sf_gid f) (sf_info f) _ _ _ i' (sf_info f') Hs Hs'); simpl; rewrite lookup_fmap; [by rewrite Hi|by rewrite Hi', E].
  - intros addr seid s i f addr' seid' s' i' f' Hs Hs' Hi Hi' E.
    eapply (QI _ _ _ i (sq_gid f) (rule_of_qer (sq_info f)) _ _ _ i' (rule_of_qer (sq_info f')) Hs Hs'); simpl; rewrite lookup_fmap; [by rewrite Hi|by rewrite Hi', E].
Qed.

(** ** C11: a request leaves the FARs and QERs of other sessions alone, if all modifications are careful. *)
Definition qer_value (d : dp) (g : N) : option qer_rule := rule_of_qer <$> qer_get d g.
Theorem isolation_partial :
  forall g rm d es c l sh addr seq m c' r, careful_history c ->
    run (init g rm d) es = Some (c, l) -> N.of_nat (length es) < bound ->
    fair sh -> careful c (Recv sh addr seq m) -> step c (Recv sh addr seq m) = Done c' r ->
    forall addr' seid' s, session_of c addr' seid' = Some s -> ~ (addr' = addr /\ names_seid m = Some seid') ->
      session_of c' addr' seid' = Some s /\
      (forall i f, s_fars s !! i = Some f -> far_get (c_dp c') (sf_gid f) = far_get (c_dp c) (sf_gid f) /\ ~ far_free (c_dp c') (sf_gid f)) /\
      (forall i f, s_qers s !! i = Some f -> qer_value (c_dp c') (sq_gid f) = qer_value (c_dp c) (sq_gid f) /\ ~ qer_free (c_dp c') (sq_gid f)).
Proof.
  intros g rm d es c l sh addr seq m c' r Hc Hrun Hb Hf Hca Hs addr' seid' s Hs0 Hne.
  pose proof (other_sessions_untouched _ _ _ _ _ _ _ _ _ _ _ _ Hrun Hb Hs _ _ _ Hs0 Hne) as Hs'. split; [done|].
  pose proof (careful_mirror _ Hc) as [HF HQ].
  assert (Hc' : careful_history c') by (eapply ch_step; [exact Hc| |exact Hca|exact Hs]; exact Hf).
  apply careful_mirror in Hc' as [HF' HQ'].
  split; intros i f Hi.
  - destruct (mi_get _ _ HF addr' seid' s i (sf_gid f) (sf_info f) Hs0) as [E1 _]; [by simpl; rewrite lookup_fmap, Hi|].
    destruct (mi_get _ _ HF' addr' seid' s i (sf_gid f) (sf_info f) Hs') as [E2 E3]; [by simpl; rewrite lookup_fmap, Hi|].
    simpl in *. by rewrite E1, E2.
  - destruct (mi_get _ _ HQ addr' seid' s i (sq_gid f) (rule_of_qer (sq_info f)) Hs0) as [E1 _]; [by simpl; rewrite lookup_fmap, Hi|].
    destruct (mi_get _ _ HQ' addr' seid' s i (sq_gid f) (rule_of_qer (sq_info f)) Hs') as [E2 E3]; [by simpl; rewrite lookup_fmap, Hi|].
    simpl in *. unfold qer_value. by rewrite E1, E2.
Qed.

(** Without care: two sessions of one peer; the second updates FAR 99, which it does not have, and so changes the FAR 1 of the
    first from forwarding to dropping. *)
Definition ex_mod_ufar (seid far : N) : msg :=
  SessModReq (ModReq seid Absent [] [FarIe (Some far) (Some [1]) None None] [] [] [] [] [] [] [] [] [] []).
Definition ex_far_is (d : dp) (s : session) (i : N) (v : far_info) : bool :=
  match s_fars s !! i with Some f => bool_decide (far_get d (sf_gid f) = Some v) | None => false end.
Theorem isolation_refuted :
  exists c l, ex_start [ex_setup; ex_recv 2 (ex_est_of [ex_pdr 1 1] []); ex_recv 3 (ex_est_of [ex_pdr 1 2] [])] = Some (c, l) /\
    exists s c' r, session_of c 7 2 = Some s /\
      handle id_shuffle 7 4 (ex_mod_ufar 3 99) c = Done c' (Some r) /\ r_cause r = Some 1 /\ session_of c' 7 2 = Some s /\
      exists f, s_fars s !! 1 = Some f /\ far_get (c_dp c) (sf_gid f) = Some (Far 2 0 0 0 0) /\
        far_get (c_dp c') (sf_gid f) = Some (Far 1 0 0 0 0).
Proof.
  destruct (ex_runs_inv [ex_setup; ex_recv 2 (ex_est_of [ex_pdr 1 1] []); ex_recv 3 (ex_est_of [ex_pdr 1 2] [])] (fun c =>
    ex_has_session c 7 2 (fun s => ex_far_is (c_dp c) s 1 (Far 2 0 0 0 0) &&
    ex_accepts 1 (handle id_shuffle 7 4 (ex_mod_ufar 3 99) c) (fun c' r => ex_far_is (c_dp c') s 1 (Far 1 0 0 0 0))))) as (c & l & Hc & H);
    [by vm_compute|].
  apply ex_has_session_inv in H as (s & Hs & H). apply andb_true_iff in H as [H1 H].
  apply ex_accepts_inv in H as (c' & r & Hh & Hk & H). exists c, l. split; [done|]. exists s, c', r. split_and!; try done.
  - eapply (other_sessions_untouched _ _ _ _ _ _ id_shuffle 7 4 (ex_mod_ufar 3 99)); [exact Hc|done|exact Hh|done|by intros [_ [=]]].
  - unfold ex_far_is in H, H1. destruct (s_fars s !! 1) as [f|]; [|done]. exists f. apply bool_decide_eq_true in H, H1. done.
Qed.
