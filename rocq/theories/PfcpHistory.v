(** Properties of whole histories: identifiers, the session table, isolation of
    session records, counts. *)
From Verif Require Import Base IdTracker ResourceManager SdfParser MapOps Pfcp PfcpProps.

(** ** What an observer reads off the log *)

(** An accepted establishment for [addr] returning F-SEID [seid]. *)
Definition accepted_est (x : event * option response) : option (N * N) :=
  match x with
  | (Recv _ addr _ (SessEstReq _), Some r) =>
      match r_cause r, r_fseid r with Some 1, Some (seid, _) => Some (addr, seid) | _, _ => None end
  | _ => None
  end.
(** An accepted deletion. *)
Definition accepted_del (x : event * option response) : option (N * N) :=
  match x with
  | (Recv _ addr _ (SessDelReq seid), Some r) =>
      match r_cause r with Some 1 => Some (addr, seid) | _ => None end
  | _ => None
  end.
(** Peers declared dead. *)
Definition pruned (x : event * option response) : option N :=
  match x with (HeartbeatFailed _ addr, _) => Some addr | _ => None end.

(** The sessions an observer of the log considers live, as (peer, F-SEID). *)
Definition live_step (s : gset (N * N)) (x : event * option response) : gset (N * N) :=
  match accepted_est x with
  | Some k => {[k]} ∪ s
  | None => match accepted_del x with
            | Some k => s ∖ {[k]}
            | None => match pruned x with
                      | Some addr => filter (fun k => fst k <> addr) s
                      | None => s
                      end
            end
  end.
Definition live (l : log) : gset (N * N) := foldl live_step ∅ l.

(** The peers an observer considers associated: an accepted setup (either direction) adds
    one, a prune removes it. *)
Definition accepted_setup (x : event * option response) : option N :=
  match x with
  | (Recv _ addr _ (AssocSetupReq _ _), Some r) => match r_cause r with Some 1 => Some addr | _ => None end
  | (Recv _ addr _ (AssocSetupResp (Good _) (Good 1) (Good _)), None) => Some addr
  | _ => None
  end.
Definition peers_step (s : gset N) (x : event * option response) : gset N :=
  match accepted_setup x with
  | Some a => {[a]} ∪ s
  | None => match pruned x with Some a => s ∖ {[a]} | None => s end
  end.
Definition peers (l : log) : gset N := foldl peers_step ∅ l.

(** pfcp_connection.go:206-212 [GetSessionCount], 214-216 [GetAssiciationCount]. *)
Definition session_count (c : conn) : nat :=
  foldr (fun p n => (size (a_sessions (snd p)) + n)%nat) 0%nat (map_to_list (c_assocs c)).
Definition association_count (c : conn) : nat := size (c_assocs c).

(** ** Local SEIDs never change *)

Definition keeps_local (w : work) (r : res) : Prop :=
  match r with ROk w' | RErr w' => s_local (w_ses w') = s_local (w_ses w) | RCrash => True end.

Lemma each_local {A} (f : A -> work -> res) l w :
  (forall x w, keeps_local w (f x w)) -> keeps_local w (each f l w).
Proof.
  intros Hf. revert w. induction l as [|x l IH]; intros w; simpl; [done|].
  pose proof (Hf x w) as Hx. destruct (f x w) as [w1|w1|]; simpl in *; try done.
  specialize (IH w1). destruct (each f l w1); simpl in *; congruence.
Qed.
Lemma bind_local w r k : keeps_local w r -> (forall w', keeps_local w' (k w')) -> keeps_local w (rbind r k).
Proof.
  intros H Hk. destruct r as [w1|w1|]; simpl in *; try done. specialize (Hk w1).
  destruct (k w1); simpl in *; congruence.
Qed.

Lemma extract_pdr_ses ueip p s w o w' : extract_pdr ueip p s w = (o, w') -> w_ses w' = w_ses w.
Proof.
  unfold extract_pdr. intros H. repeat (case_match; simplify_eq); simpl in *; simplify_eq; done.
Qed.

Ltac local_tac := intros; repeat (case_match; simplify_eq); simpl in *; done.

Lemma create_far_local f w : keeps_local w (create_far f w).
Proof. unfold create_far. local_tac. Qed.
Lemma update_far_local f w : keeps_local w (update_far_ie f w).
Proof. unfold update_far_ie. local_tac. Qed.
Lemma remove_far_local f w : keeps_local w (remove_far_ie f w).
Proof. unfold remove_far_ie. local_tac. Qed.
Lemma create_qer_local f w : keeps_local w (create_qer f w).
Proof. unfold create_qer. local_tac. Qed.
Lemma update_qer_local f w : keeps_local w (update_qer_ie f w).
Proof. unfold update_qer_ie. local_tac. Qed.
Lemma remove_qer_local f w : keeps_local w (remove_qer_ie f w).
Proof. unfold remove_qer_ie. local_tac. Qed.
Lemma create_urr_local f w : keeps_local w (create_urr f w).
Proof. unfold create_urr. local_tac. Qed.
Lemma update_urr_local f w : keeps_local w (update_urr_ie f w).
Proof. unfold update_urr_ie. local_tac. Qed.
Lemma remove_urr_local f w : keeps_local w (remove_urr_ie f w).
Proof. unfold remove_urr_ie. local_tac. Qed.
Lemma create_pdr_local ueip p w : keeps_local w (create_pdr ueip p w).
Proof.
  unfold create_pdr. case_match; [|done]. destruct (extract_pdr _ _ _ w) as [o w1] eqn:E.
  apply extract_pdr_ses in E. repeat (case_match; simplify_eq); simpl in *; congruence.
Qed.
Lemma update_pdr_local ueip p w : keeps_local w (update_pdr_ie ueip p w).
Proof.
  unfold update_pdr_ie. case_match; [|done]. destruct (extract_pdr _ _ _ w) as [o w1] eqn:E.
  apply extract_pdr_ses in E. repeat (case_match; simplify_eq); simpl in *; congruence.
Qed.
Lemma delete_pdr_ses sh s w r : delete_pdr sh s w = r ->
  match r with ROk w' | RErr w' => w_ses w' = w_ses w | RCrash => True end.
Proof. unfold delete_pdr. intros <-. repeat (case_match; simplify_eq); simpl in *; simplify_eq; done. Qed.
Lemma remove_pdr_local sh p w : keeps_local w (remove_pdr_ie sh p w).
Proof.
  unfold remove_pdr_ie. case_match; [|done].
  match goal with |- keeps_local _ ?r => pose proof (delete_pdr_ses _ _ _ r eq_refl) as H1; destruct r end;
    simpl in *; try done; by rewrite H1.
Qed.

Lemma est_rules_local ueip q w : keeps_local w (est_rules ueip q w).
Proof.
  unfold est_rules.
  repeat (apply bind_local; [apply each_local; intros|intros]); [..|apply each_local; intros];
  auto using create_far_local, create_qer_local, create_urr_local, create_pdr_local.
Qed.
Lemma mod_rules_local ueip sh q w : keeps_local w (mod_rules ueip sh q w).
Proof.
  unfold mod_rules.
  repeat (apply bind_local; [apply each_local; intros|intros]); [..|apply each_local; intros];
  auto using create_far_local, update_far_local, remove_far_local, create_qer_local, update_qer_local,
    remove_qer_local, create_urr_local, update_urr_local, remove_urr_local, create_pdr_local,
    update_pdr_local, remove_pdr_local.
Qed.

(** ** Effect of one event on the table of associations *)

(** Everything that can happen to the table of associations in one step. *)
Definition tab_step (c : conn) (x : event * option response) (c' : conn) : Prop :=
  let t := c_assocs c in let t' := c_assocs c' in
  (* accepted establishment *)
  (exists addr a s, accepted_est x = Some (addr, next_seid a) /\ accepted_del x = None /\
     pruned x = None /\ accepted_setup x = None /\ t !! addr = Some a /\
     s_local s = next_seid a /\
     t' = <[addr := Assoc (a_node a) (next_seid a) (<[next_seid a := s]> (a_sessions a))]> t) \/
  (* rejected establishment: only the counter moves *)
  (exists addr a, accepted_est x = None /\ accepted_del x = None /\ pruned x = None /\
     accepted_setup x = None /\ t !! addr = Some a /\
     t' = <[addr := Assoc (a_node a) (next_seid a) (a_sessions a)]> t) \/
  (* modification *)
  (exists addr a seid s s', accepted_est x = None /\ accepted_del x = None /\ pruned x = None /\
     accepted_setup x = None /\ t !! addr = Some a /\
     a_sessions a !! seid = Some s /\ s_local s' = s_local s /\
     (exists sh seq q, x.1 = Recv sh addr seq (SessModReq q) /\ mq_seid q = seid) /\
     t' = <[addr := Assoc (a_node a) (a_next a) (<[seid := s']> (a_sessions a))]> t) \/
  (* accepted deletion *)
  (exists addr a seid s, accepted_est x = None /\ accepted_del x = Some (addr, seid) /\ pruned x = None /\
     accepted_setup x = None /\ t !! addr = Some a /\ a_sessions a !! seid = Some s /\
     t' = <[addr := Assoc (a_node a) (a_next a) (delete seid (a_sessions a))]> t) \/
  (* association set up *)
  (exists addr, accepted_est x = None /\ accepted_del x = None /\ pruned x = None /\
     accepted_setup x = Some addr /\
     match t !! addr with Some a => t' = t | None => exists n, t' = <[addr := new_assoc n]> t end) \/
  (* association pruned *)
  (exists addr a, accepted_est x = None /\ accepted_del x = None /\ pruned x = Some addr /\
     accepted_setup x = None /\ t !! addr = Some a /\ t' = delete addr t) \/
  (* nothing *)
  (accepted_est x = None /\ accepted_del x = None /\ pruned x = None /\ accepted_setup x = None /\ t' = t).

Lemma step_table c e c' r : step c e = Done c' r -> tab_step c (e, r) c'.
Proof.
  intros H. unfold tab_step.
  assert (Hnone : accepted_est (e, r) = None -> accepted_del (e, r) = None -> pruned (e, r) = None ->
    accepted_setup (e, r) = None -> c_assocs c' = c_assocs c -> tab_step c (e, r) c').
  { intros. unfold tab_step. do 6 right. done. }
  destruct e as [sh addr seq m|sh addr|marks vols]; simpl in H.
  - destruct m as [t|t|n t|n k f|n|q|q|seid|ty]; simpl in H.
    + unfold handle_hb_req in H. eapply Hnone; try reflexivity; destruct t; simplify_eq; done.
    + unfold handle_hb_resp in H. eapply Hnone; try reflexivity; destruct t; simplify_eq; done.
    + unfold handle_setup in H.
      destruct n as [| |n0]; simplify_eq; try (eapply Hnone; reflexivity).
      destruct t as [| |t0]; simplify_eq; try (eapply Hnone; reflexivity).
      right; right; right; right; left. exists addr. split_and!; try reflexivity.
      unfold ensure_assoc. destruct (c_assocs c !! addr); simpl; eauto.
    + unfold handle_setup_resp in H.
      destruct n as [| |n0]; simplify_eq; try (eapply Hnone; reflexivity).
      destruct k as [| |k0]; simplify_eq; try (eapply Hnone; reflexivity).
      destruct f as [| |f0]; simplify_eq; try (eapply Hnone; try reflexivity; simpl; by destruct k0 as [|[]]).
      unfold Accepted in H. destruct (N.eqb_spec k0 1) as [->|Hk]; simplify_eq.
      * right; right; right; right; left. exists addr. split_and!; try reflexivity.
        unfold ensure_assoc. destruct (c_assocs c !! addr); simpl; eauto.
      * eapply Hnone; try reflexivity. simpl. destruct k0 as [|[]]; done.
    + unfold handle_update in H. eapply Hnone; try reflexivity; destruct n; repeat case_match; simplify_eq; done.
    + unfold handle_est in H. destruct (validate_request _ _) as [remote|]; simplify_eq; [|eapply Hnone; reflexivity].
      destruct (c_assocs c !! addr) as [a|] eqn:Ha; simplify_eq; [|eapply Hnone; reflexivity].
      destruct (existsb _ _); [done|].
      pose proof (est_rules_local (g_ueip (c_cfg c)) q
        (new_work (c_dp c) (new_session (next_seid a) remote) (c_rm c))) as Hl.
      destruct (est_rules _ _ _) as [w|w|]; simplify_eq.
      * left. exists addr, a, (w_ses w). split_and!; try reflexivity; try done. simpl.
        rewrite insert_insert. done.
      * right; left. exists addr, a. split_and!; try reflexivity; try done.
    + unfold handle_mod in H. destruct (c_assocs c !! addr) as [a|] eqn:Ha; simplify_eq; [|eapply Hnone; reflexivity].
      destruct (a_sessions a !! mq_seid q) as [s|] eqn:Hs; simplify_eq; [|eapply Hnone; reflexivity].
      destruct (_ || _); [done|].
      match type of H with context [mod_rules ?x ?y ?z ?t] => pose proof (mod_rules_local x y z t) as Hl end.
      destruct (mod_rules _ _ _ _) as [w|w|]; simplify_eq;
      right; right; left; exists addr, a, (mq_seid q), s, (w_ses w); (split_and!; try reflexivity; try done);
      [|eauto 10| |eauto 10]; simpl in Hl; rewrite Hl; by destruct (mq_fseid q).
    + unfold handle_del in H. destruct (c_assocs c !! addr) as [a|] eqn:Ha; simplify_eq; [|eapply Hnone; reflexivity].
      destruct (a_sessions a !! seid) as [s|] eqn:Hs; simplify_eq; [|eapply Hnone; reflexivity].
      destruct (del_rules _ _ _) as [w|w|]; simplify_eq; [|eapply Hnone; reflexivity].
      right; right; right; left. exists addr, a, seid, s. split_and!; try reflexivity; done.
    + simplify_eq. eapply Hnone; reflexivity.
  - unfold prune in H. destruct (c_assocs c !! addr) as [a|] eqn:Ha; [|done].
    destruct (prune_sessions _ _ _ _) as [[d rm]|]; simplify_eq.
    right; right; right; right; right; left. exists addr, a. split_and!; try reflexivity; done.
  - simplify_eq. eapply Hnone; reflexivity.
Qed.

(** ** The invariant linking table and log *)

Definition bound : N := 18446744073709551614.

Record hinv (n : N) (l : log) (c : conn) : Prop := {
  hi_live : forall addr seid, (addr, seid) ∈ live l <-> is_Some (session_of c addr seid);
  hi_peers : forall addr, addr ∈ peers l <-> is_Some (c_assocs c !! addr);
  hi_next : forall addr a, c_assocs c !! addr = Some a -> 1 <= a_next a <= n + 1;
  hi_seid : forall addr a seid s, c_assocs c !! addr = Some a -> a_sessions a !! seid = Some s ->
              2 <= seid <= a_next a /\ s_local s = seid }.

Lemma next_seid_lt a n : a_next a <= n + 1 -> n < bound -> next_seid a = a_next a + 1.
Proof. unfold next_seid, u64, bound. intros. rewrite N.mod_small; lia. Qed.

Lemma hinv_init g rm d : hinv 0 [] (init g rm d).
Proof.
  split; unfold session_of; simpl.
  - intros. rewrite lookup_empty. unfold live. simpl. split; [set_solver|by intros []].
  - intros. rewrite lookup_empty. unfold peers. simpl. split; [set_solver|by intros []].
  - intros addr a. by rewrite lookup_empty.
  - intros addr a seid s. by rewrite lookup_empty.
Qed.

Lemma hinv_step n l c e r c' :
  hinv n l c -> n < bound -> step c e = Done c' r -> hinv (n + 1) (l ++ [(e, r)]) c'.
Proof.
  intros [Hlive Hpeers Hnext Hseid] Hn Hs. apply step_table in Hs.
  assert (Hl : live (l ++ [(e, r)]) = live_step (live l) (e, r)) by (unfold live; by rewrite foldl_app).
  assert (Hp : peers (l ++ [(e, r)]) = peers_step (peers l) (e, r)) by (unfold peers; by rewrite foldl_app).
  unfold live_step, peers_step, session_of in *.
  destruct Hs as [(addr & a & s & E1 & E2 & E3 & E4 & Ha & Hsl & Ht)
    |[(addr & a & E1 & E2 & E3 & E4 & Ha & Ht)
    |[(addr & a & seid & s & s' & E1 & E2 & E3 & E4 & Ha & Hss & Hsl & _ & Ht)
    |[(addr & a & seid & s & E1 & E2 & E3 & E4 & Ha & Hss & Ht)
    |[(addr & E1 & E2 & E3 & E4 & Ht)
    |[(addr & a & E1 & E2 & E3 & E4 & Ha & Ht)
    |(E1 & E2 & E3 & E4 & Ht)]]]]]];
    rewrite E1, ?E2, ?E3 in Hl; rewrite E4, ?E3 in Hp.
  - (* accepted establishment *)
    pose proof (Hnext _ _ Ha) as Hna. pose proof (next_seid_lt a n ltac:(lia) Hn) as Hx.
    assert (Hfresh : a_sessions a !! next_seid a = None).
    { destruct (a_sessions a !! next_seid a) as [s0|] eqn:E; [|done]. apply (Hseid _ _ _ _ Ha) in E. lia. }
    split; try unfold session_of.
    + intros addr' seid'. rewrite Hl, Ht, elem_of_union, elem_of_singleton, Hlive.
      destruct (decide (addr' = addr)) as [->|Hne].
      * rewrite Ha, lookup_insert. simpl. destruct (decide (seid' = next_seid a)) as [->|Hne'].
        -- rewrite lookup_insert. split; eauto.
        -- rewrite lookup_insert_ne by done. split; [intros [?|?]|]; [congruence|done|by right].
      * rewrite lookup_insert_ne by done. split; [intros [?|?]|]; [congruence|done|by right].
    + intros addr'. rewrite Hp, Ht, Hpeers. destruct (decide (addr' = addr)) as [->|Hne].
      * rewrite lookup_insert, Ha. split; eauto.
      * by rewrite lookup_insert_ne.
    + intros addr' a'. rewrite Ht. destruct (decide (addr' = addr)) as [->|Hne].
      * rewrite lookup_insert. intros [= <-]. simpl. lia.
      * rewrite lookup_insert_ne by done. intros Hy. apply Hnext in Hy. lia.
    + intros addr' a' seid' s'. rewrite Ht. destruct (decide (addr' = addr)) as [->|Hne].
      * rewrite lookup_insert. intros [= <-]. simpl. destruct (decide (seid' = next_seid a)) as [->|Hne'].
        -- rewrite lookup_insert. intros [= <-]. split; [lia|done].
        -- rewrite lookup_insert_ne by done. intros Hy. apply (Hseid _ _ _ _ Ha) in Hy as [??]. split; [lia|done].
      * rewrite lookup_insert_ne by done. apply Hseid.
  - (* rejected establishment *)
    pose proof (Hnext _ _ Ha) as Hna. pose proof (next_seid_lt a n ltac:(lia) Hn) as Hx.
    split; try unfold session_of.
    + intros addr' seid'. rewrite Hl, Ht, Hlive. destruct (decide (addr' = addr)) as [->|Hne].
      * by rewrite Ha, lookup_insert.
      * by rewrite lookup_insert_ne.
    + intros addr'. rewrite Hp, Ht, Hpeers. destruct (decide (addr' = addr)) as [->|Hne].
      * rewrite lookup_insert, Ha. split; eauto.
      * by rewrite lookup_insert_ne.
    + intros addr' a'. rewrite Ht. destruct (decide (addr' = addr)) as [->|Hne].
      * rewrite lookup_insert. intros [= <-]. simpl. lia.
      * rewrite lookup_insert_ne by done. intros Hy. apply Hnext in Hy. lia.
    + intros addr' a' seid' s'. rewrite Ht. destruct (decide (addr' = addr)) as [->|Hne].
      * rewrite lookup_insert. intros [= <-]. simpl. intros Hy. apply (Hseid _ _ _ _ Ha) in Hy as [??]. split; [lia|done].
      * rewrite lookup_insert_ne by done. apply Hseid.
  - (* modification *)
    split; try unfold session_of.
    + intros addr' seid'. rewrite Hl, Ht, Hlive. destruct (decide (addr' = addr)) as [->|Hne].
      * rewrite Ha, lookup_insert. simpl. destruct (decide (seid' = seid)) as [->|Hne'].
        -- rewrite lookup_insert, Hss. split; eauto.
        -- by rewrite lookup_insert_ne.
      * by rewrite lookup_insert_ne.
    + intros addr'. rewrite Hp, Ht, Hpeers. destruct (decide (addr' = addr)) as [->|Hne].
      * rewrite lookup_insert, Ha. split; eauto.
      * by rewrite lookup_insert_ne.
    + intros addr' a'. rewrite Ht. destruct (decide (addr' = addr)) as [->|Hne].
      * rewrite lookup_insert. intros [= <-]. simpl. apply Hnext in Ha. lia.
      * rewrite lookup_insert_ne by done. intros Hy. apply Hnext in Hy. lia.
    + intros addr' a' seid' s0. rewrite Ht. destruct (decide (addr' = addr)) as [->|Hne].
      * rewrite lookup_insert. intros [= <-]. simpl. destruct (decide (seid' = seid)) as [->|Hne'].
        -- rewrite lookup_insert. intros [= <-]. apply (Hseid _ _ _ _ Ha) in Hss as [??]. split; [lia|congruence].
        -- rewrite lookup_insert_ne by done. intros Hy. by apply (Hseid _ _ _ _ Ha) in Hy.
      * rewrite lookup_insert_ne by done. apply Hseid.
  - (* deletion *)
    split; try unfold session_of.
    + intros addr' seid'. rewrite Hl, Ht, elem_of_difference, elem_of_singleton, Hlive.
      destruct (decide (addr' = addr)) as [->|Hne].
      * rewrite Ha, lookup_insert. simpl. destruct (decide (seid' = seid)) as [->|Hne'].
        -- rewrite lookup_delete. split; [intros [_ []]; done|by intros []].
        -- rewrite lookup_delete_ne by done. split; [by intros []|]. intros. split; [done|congruence].
      * rewrite lookup_insert_ne by done. split; [by intros []|]. intros. split; [done|congruence].
    + intros addr'. rewrite Hp, Ht, Hpeers. destruct (decide (addr' = addr)) as [->|Hne].
      * rewrite lookup_insert, Ha. split; eauto.
      * by rewrite lookup_insert_ne.
    + intros addr' a'. rewrite Ht. destruct (decide (addr' = addr)) as [->|Hne].
      * rewrite lookup_insert. intros [= <-]. simpl. apply Hnext in Ha. lia.
      * rewrite lookup_insert_ne by done. intros Hy. apply Hnext in Hy. lia.
    + intros addr' a' seid' s0. rewrite Ht. destruct (decide (addr' = addr)) as [->|Hne].
      * rewrite lookup_insert. intros [= <-]. simpl. rewrite lookup_delete_Some. intros [_ Hy].
        by apply (Hseid _ _ _ _ Ha) in Hy.
      * rewrite lookup_insert_ne by done. apply Hseid.
  - (* setup *)
    assert (Hsame : forall addr', addr' <> addr -> c_assocs c' !! addr' = c_assocs c !! addr').
    { intros addr' Hne. destruct (c_assocs c !! addr); [by rewrite Ht|]. destruct Ht as [m ->].
      by rewrite lookup_insert_ne. }
    assert (Haddr : (exists a, c_assocs c !! addr = Some a /\ c_assocs c' !! addr = Some a) \/
      (c_assocs c !! addr = None /\ exists m, c_assocs c' !! addr = Some (new_assoc m))).
    { destruct (c_assocs c !! addr) eqn:E; [left; rewrite Ht; eauto|]. right. split; [done|].
      destruct Ht as [m ->]. exists m. by rewrite lookup_insert. }
    split; try unfold session_of.
    + intros addr' seid'. rewrite Hl, Hlive. destruct (decide (addr' = addr)) as [->|Hne].
      * destruct Haddr as [[a [E ->]]|[E [m ->]]]; rewrite E; [done|]. simpl. by rewrite lookup_empty.
      * by rewrite Hsame.
    + intros addr'. rewrite Hp, elem_of_union, elem_of_singleton, Hpeers. destruct (decide (addr' = addr)) as [->|Hne].
      * split; [|by left]. intros _. destruct Haddr as [[a [_ ->]]|[_ [m ->]]]; eauto.
      * rewrite Hsame by done. split; [intros [?|?]; done|by right].
    + intros addr' a'. destruct (decide (addr' = addr)) as [->|Hne].
      * destruct Haddr as [[a [E ->]]|[E [m ->]]]; intros [= <-]; simpl; [apply Hnext in E; lia|lia].
      * rewrite Hsame by done. intros Hy. apply Hnext in Hy. lia.
    + intros addr' a' seid' s'. destruct (decide (addr' = addr)) as [->|Hne].
      * destruct Haddr as [[a [E ->]]|[E [m ->]]]; intros [= <-]; simpl; [by apply (Hseid _ _ _ _ E)|by rewrite lookup_empty].
      * rewrite Hsame by done. apply Hseid.
  - (* prune *)
    split; try unfold session_of.
    + intros addr' seid'. rewrite Hl, Ht, elem_of_filter, Hlive. simpl.
      destruct (decide (addr' = addr)) as [->|Hne].
      * rewrite lookup_delete. split; [by intros []|by intros []].
      * rewrite lookup_delete_ne by done. split; [by intros []|done].
    + intros addr'. rewrite Hp, Ht, elem_of_difference, elem_of_singleton, Hpeers.
      destruct (decide (addr' = addr)) as [->|Hne].
      * rewrite lookup_delete. split; [by intros []|by intros []].
      * rewrite lookup_delete_ne by done. split; [by intros []|done].
    + intros addr' a'. rewrite Ht, lookup_delete_Some. intros [_ Hy]. apply Hnext in Hy. lia.
    + intros addr' a' seid' s'. rewrite Ht, lookup_delete_Some. intros [_ Hy]. by apply (Hseid _ _ _ _ Hy).
  - (* nothing *)
    split; try unfold session_of.
    + intros. by rewrite Hl, Ht, Hlive.
    + intros. by rewrite Hp, Ht, Hpeers.
    + intros addr' a'. rewrite Ht. intros Hy. apply Hnext in Hy. lia.
    + intros addr' a' seid' s'. rewrite Ht. apply Hseid.
Qed.

(** ** Runs *)

Lemma run_app c es1 es2 c2 l :
  run c (es1 ++ es2) = Some (c2, l) ->
  exists c1 l1 l2, run c es1 = Some (c1, l1) /\ run c1 es2 = Some (c2, l2) /\ l = l1 ++ l2.
Proof.
  revert c l. induction es1 as [|e es1 IH]; intros c l H; simpl in *; [eauto 10|].
  destruct (step c e) as [c1 r|]; [|done].
  destruct (run c1 (es1 ++ es2)) as [[c3 l3]|] eqn:E; [|done]. simplify_eq.
  destruct (IH _ _ E) as (c4 & l1 & l2 & -> & ? & ->). eauto 10.
Qed.

Lemma run_length c es c' l : run c es = Some (c', l) -> length l = length es /\ fst <$> l = es.
Proof.
  revert c l. induction es as [|e es IH]; intros c l H; simpl in *; simplify_eq; [done|].
  destruct (step c e) as [c1 r|]; [|done].
  destruct (run c1 es) as [[c3 l3]|] eqn:E; [|done]. simplify_eq. apply IH in E as [E1 E2]. csimpl. split; congruence.
Qed.

(** Any invariant of single steps (which may speak about the log so far) holds after runs. *)
Lemma run_inv (I : N -> log -> conn -> Prop) (ok : event -> Prop) B :
  (forall n l c e r c', I n l c -> n < B -> ok e -> step c e = Done c' r -> I (n + 1) (l ++ [(e, r)]) c') ->
  forall es n l0 c c' l, I n l0 c -> n + N.of_nat (length es) <= B -> Forall ok es ->
    run c es = Some (c', l) -> I (n + N.of_nat (length es)) (l0 ++ l) c'.
Proof.
  intros Hstep es. induction es as [|e es IH]; intros n l0 c c' l HI Hb Hok H; simpl in *; simplify_eq.
  - rewrite app_nil_r. by replace (n + N.of_nat 0) with n by lia.
  - destruct (step c e) as [c1 r|] eqn:E; [|done].
    destruct (run c1 es) as [[c3 l3]|] eqn:E'; [|done]. simplify_eq.
    inversion Hok; subst.
    eapply (IH (n + 1) (l0 ++ [(e, r)])) in E'; [|by eapply Hstep; eauto; lia|lia|done].
    rewrite <- app_assoc in E'. simpl in E'.
    by replace (n + N.of_nat (S (length es))) with (n + 1 + N.of_nat (length es)) by lia.
Qed.

Lemma run_hinv g rm d es c l :
  run (init g rm d) es = Some (c, l) -> N.of_nat (length es) <= bound -> hinv (N.of_nat (length es)) l c.
Proof.
  intros H Hb.
  pose proof (run_inv hinv (fun _ => True) bound) as Hi.
  specialize (Hi ltac:(intros; by eapply hinv_step) es 0 [] _ c l (hinv_init g rm d)).
  rewrite N.add_0_l in Hi. apply Hi; [lia| |done]. by apply Forall_true.
Qed.

(** ** C07: the session table follows the responses.
    [bound]: fewer than 2^64 - 2 events, so the 64-bit SEID counter does not wrap. *)
Theorem session_table_follows_log :
  forall g rm d es c l,
    run (init g rm d) es = Some (c, l) -> N.of_nat (length es) <= bound ->
    forall addr seid, is_Some (session_of c addr seid) <-> (addr, seid) ∈ live l.
Proof. intros. symmetry. by eapply hi_live, run_hinv. Qed.

Theorem association_table_follows_log :
  forall g rm d es c l,
    run (init g rm d) es = Some (c, l) -> N.of_nat (length es) <= bound ->
    forall addr, is_Some (c_assocs c !! addr) <-> addr ∈ peers l.
Proof. intros. symmetry. by eapply hi_peers, run_hinv. Qed.

Lemma accepted_est_inv c e r c' addr x :
  step c e = Done c' r -> accepted_est (e, r) = Some (addr, x) ->
  exists a, c_assocs c !! addr = Some a /\ x = next_seid a /\
            c_assocs c' !! addr = Some (Assoc (a_node a) (next_seid a) (default ∅ (a_sessions <$> c_assocs c' !! addr))).
Proof.
  intros H Hx. apply step_table in H. unfold tab_step in H.
  destruct H as [(addr' & a & s & E1 & _ & _ & _ & Ha & _ & Ht)|H].
  - rewrite E1 in Hx. simplify_eq. exists a. split_and!; try done. rewrite Ht, lookup_insert. done.
  - repeat (destruct H as [H|H]; [destruct_and?; naive_solver|]). naive_solver.
Qed.

(** ** C06: F-SEIDs are never reused. *)
Theorem fseid_never_replaces_live :
  forall g rm d es c l l1 x addr seid l2,
    run (init g rm d) es = Some (c, l) -> N.of_nat (length es) <= bound ->
    l = l1 ++ x :: l2 -> accepted_est x = Some (addr, seid) -> (addr, seid) ∉ live l1.
Proof.
  intros g rm d es c l l1 [e0 r0] addr seid l2 Hrun Hb -> Hx.
  pose proof (run_length _ _ _ _ Hrun) as [Hlen Hes]. rewrite fmap_app in Hes. simpl in Hes. subst es.
  apply run_app in Hrun as (c1 & k1 & k2 & H1 & H2 & Hk).
  pose proof (run_length _ _ _ _ H1) as [Hl1 _]. rewrite fmap_length in Hl1.
  apply app_inj_1 in Hk as [<- <-]; [|done].
  rewrite app_length in Hlen. simpl in Hlen. rewrite app_length in Hb. simpl in Hb.
  rewrite fmap_length in Hb. simpl in H2.
  destruct (step c1 e0) as [c2 r|] eqn:E; [|done].
  destruct (run c2 _) as [[c3 l3]|]; [|done]. simplify_eq.
  apply (accepted_est_inv _ _ _ _ _ _ E) in Hx as (a & Ha & -> & _).
  apply run_hinv in H1; [|rewrite fmap_length; lia]. rewrite fmap_length in H1.
  rewrite (hi_live _ _ _ H1). unfold session_of. rewrite Ha. intros [s Hs].
  pose proof (hi_next _ _ _ H1 _ _ Ha). pose proof (next_seid_lt a (N.of_nat (length l1)) ltac:(lia) ltac:(lia)).
  apply (hi_seid _ _ _ H1 _ _ _ _ Ha) in Hs. lia.
Qed.

(** While an association lives, its counter never goes back. *)
Lemma next_monotone :
  forall es n l0 c c' l addr a,
    hinv n l0 c -> n + N.of_nat (length es) <= bound -> run c es = Some (c', l) ->
    c_assocs c !! addr = Some a ->
    (forall x, x ∈ l -> pruned x <> Some addr) ->
    exists a', c_assocs c' !! addr = Some a' /\ a_next a <= a_next a'.
Proof.
  induction es as [|e es IH]; intros n l0 c c' l addr a HI Hb H Ha Hnp; simpl in *; simplify_eq.
  { exists a. split; [done|lia]. }
  destruct (step c e) as [c1 r|] eqn:E; [|done].
  destruct (run c1 es) as [[c3 l3]|] eqn:E'; [|done]. simplify_eq.
  assert (exists a1, c_assocs c1 !! addr = Some a1 /\ a_next a <= a_next a1) as (a1 & Ha1 & Hle).
  { pose proof (step_table _ _ _ _ E) as Ht.
    pose proof (hi_next _ _ _ HI _ _ Ha) as Hna.
    destruct Ht as [(addr' & a' & s & E1 & E2 & E3 & E4 & Ha' & Hsl & Ht)
    |[(addr' & a' & E1 & E2 & E3 & E4 & Ha' & Ht)
    |[(addr' & a' & seid & s & s' & E1 & E2 & E3 & E4 & Ha' & Hss & Hsl & _ & Ht)
    |[(addr' & a' & seid & s & E1 & E2 & E3 & E4 & Ha' & Hss & Ht)
    |[(addr' & E1 & E2 & E3 & E4 & Ht)
    |[(addr' & a' & E1 & E2 & E3 & E4 & Ha' & Ht)
    |(E1 & E2 & E3 & E4 & Ht)]]]]]].
    - rewrite Ht. destruct (decide (addr' = addr)) as [->|Hne]; [|rewrite lookup_insert_ne by done; exists a; split; [done|lia]].
      rewrite lookup_insert. simplify_eq. eexists; split; [done|]. simpl.
      rewrite (next_seid_lt a n); lia.
    - rewrite Ht. destruct (decide (addr' = addr)) as [->|Hne]; [|rewrite lookup_insert_ne by done; exists a; split; [done|lia]].
      rewrite lookup_insert. simplify_eq. eexists; split; [done|]. simpl.
      rewrite (next_seid_lt a n); lia.
    - rewrite Ht. destruct (decide (addr' = addr)) as [->|Hne]; [|rewrite lookup_insert_ne by done; exists a; split; [done|lia]].
      rewrite lookup_insert. simplify_eq. eexists; split; [done|]. simpl. lia.
    - rewrite Ht. destruct (decide (addr' = addr)) as [->|Hne]; [|rewrite lookup_insert_ne by done; exists a; split; [done|lia]].
      rewrite lookup_insert. simplify_eq. eexists; split; [done|]. simpl. lia.
    - destruct (c_assocs c !! addr') as [a'|] eqn:Ea'; [rewrite Ht; exists a; split; [done|lia]|].
      destruct Ht as [m ->]. rewrite lookup_insert_ne by congruence. exists a; split; [done|lia].
    - rewrite Ht. assert (addr' <> addr). { intros ->. apply (Hnp (e, r)); [left|done]. }
      rewrite lookup_delete_ne by done. exists a; split; [done|lia].
    - rewrite Ht. exists a; split; [done|lia]. }
  destruct (IH (n + 1) (l0 ++ [(e, r)]) c1 c' l3 addr a1) as (a2 & ? & ?); try done.
  - eapply hinv_step; eauto; lia.
  - lia.
  - intros x Hx. apply Hnp. by right.
  - exists a2. split; [done|lia].
Qed.

Theorem fseid_never_reused :
  forall g rm d es c l l1 x addr seid l2 y seid' l3,
    run (init g rm d) es = Some (c, l) -> N.of_nat (length es) <= bound ->
    l = l1 ++ x :: l2 ++ y :: l3 ->
    accepted_est x = Some (addr, seid) -> accepted_est y = Some (addr, seid') ->
    (forall z, z ∈ l2 -> pruned z <> Some addr) ->
    seid < seid'.
Proof.
  intros g rm d es c l l1 [e0 r0] addr seid l2 [e1 r1] seid' l3 Hrun Hb -> Hx Hy Hnp.
  pose proof (run_length _ _ _ _ Hrun) as [Hlen Hes].
  rewrite fmap_app in Hes. csimpl in Hes. rewrite fmap_app in Hes. csimpl in Hes. subst es.
  apply run_app in Hrun as (c1 & k1 & k2 & H1 & H2 & Hk).
  pose proof (run_length _ _ _ _ H1) as [Hl1 _]. rewrite fmap_length in Hl1.
  apply app_inj_1 in Hk as [<- <-]; [|done].
  rewrite app_length, fmap_length in Hb. csimpl in Hb. rewrite app_length, fmap_length in Hb. csimpl in Hb.
  simpl in H2. destruct (step c1 e0) as [c2 r|] eqn:E; [|done].
  destruct (run c2 _) as [[c3 k3]|] eqn:H3; [|done]. simplify_eq.
  apply run_app in H3 as (c4 & k4 & k5 & H4 & H5 & Hk).
  pose proof (run_length _ _ _ _ H4) as [Hl4 _]. rewrite fmap_length in Hl4.
  apply app_inj_1 in Hk as [<- <-]; [|done].
  simpl in H5. destruct (step c4 e1) as [c5 r'|] eqn:E'; [|done].
  destruct (run c5 _) as [[c6 k6]|]; [|done]. simplify_eq.
  pose proof (run_hinv _ _ _ _ _ _ H1 ltac:(rewrite fmap_length; lia)) as HI1. rewrite fmap_length in HI1.
  pose proof (hinv_step _ _ _ _ _ _ HI1 ltac:(lia) E) as HI2.
  apply (accepted_est_inv _ _ _ _ _ _ E) in Hx as (a & Ha & -> & Ha').
  apply (accepted_est_inv _ _ _ _ _ _ E') in Hy as (b & Hb' & -> & _).
  assert (Hlen2 : N.of_nat (length l1) + 1 + N.of_nat (length (fst <$> l2)) <= bound) by (rewrite fmap_length; lia).
  pose proof (next_monotone _ _ _ _ _ _ addr _ HI2 Hlen2 H4 Ha' Hnp) as (b' & Hb2 & Hle).
  simplify_eq. simpl in Hle.
  assert (HI4 : hinv (N.of_nat (length l1) + 1 + N.of_nat (length (fst <$> l2))) ((l1 ++ [(e0, r0)]) ++ l2) c4).
  { apply (run_inv hinv (fun _ => True) bound) with (c := c2); [|done|rewrite fmap_length; lia|by apply Forall_true|done].
    intros; by eapply hinv_step. }
  pose proof (hi_next _ _ _ HI4 _ _ Hb') as Hnb. rewrite fmap_length in Hnb.
  rewrite (next_seid_lt b (N.of_nat (length l1) + 1 + N.of_nat (length l2))); lia.
Qed.

(** ** C10: records of other sessions. *)
Theorem other_sessions_untouched :
  forall g rm d es c l sh addr seq m c' r,
    run (init g rm d) es = Some (c, l) -> N.of_nat (length es) < bound ->
    step c (Recv sh addr seq m) = Done c' r ->
    forall addr' seid' s,
      session_of c addr' seid' = Some s ->
      ~ (addr' = addr /\ names_seid m = Some seid') ->
      session_of c' addr' seid' = Some s.
Proof.
  intros g rm d es c l sh addr seq m c' r Hrun Hb Hs addr' seid' s0 Hs0 Hne.
  apply run_hinv in Hrun as HI; [|lia].
  pose proof (step_table _ _ _ _ Hs) as Ht. unfold session_of in *.
  destruct (c_assocs c !! addr') as [b|] eqn:Eb; [|done].
  destruct Ht as [(addr1 & a & s & E1 & E2 & E3 & E4 & Ha & Hsl & Ht)
    |[(addr1 & a & E1 & E2 & E3 & E4 & Ha & Ht)
    |[(addr1 & a & seid & s & s' & E1 & E2 & E3 & E4 & Ha & Hss & Hsl & (sh' & seq' & q & Eq & Eseid) & Ht)
    |[(addr1 & a & seid & s & E1 & E2 & E3 & E4 & Ha & Hss & Ht)
    |[(addr1 & E1 & E2 & E3 & E4 & Ht)
    |[(addr1 & a & E1 & E2 & E3 & E4 & Ha & Ht)
    |(E1 & E2 & E3 & E4 & Ht)]]]]]].
  - rewrite Ht. destruct (decide (addr1 = addr')) as [->|Hx]; [|by rewrite lookup_insert_ne, Eb].
    rewrite lookup_insert. simpl. simplify_eq.
    pose proof (hi_next _ _ _ HI _ _ Eb). pose proof (next_seid_lt b (N.of_nat (length es)) ltac:(lia) Hb).
    pose proof (hi_seid _ _ _ HI _ _ _ _ Eb Hs0). rewrite lookup_insert_ne by lia. done.
  - rewrite Ht. destruct (decide (addr1 = addr')) as [->|Hx]; [|by rewrite lookup_insert_ne, Eb].
    rewrite lookup_insert. simpl. by simplify_eq.
  - simpl in Eq. simplify_eq. rewrite Ht. destruct (decide (addr1 = addr')) as [->|Hx]; [|by rewrite lookup_insert_ne, Eb].
    rewrite lookup_insert. simpl. simplify_eq. rewrite lookup_insert_ne; [done|]. intros <-. by apply Hne.
  - rewrite Ht. destruct (decide (addr1 = addr')) as [->|Hx]; [|by rewrite lookup_insert_ne, Eb].
    rewrite lookup_insert. simpl. simplify_eq. rewrite lookup_delete_ne; [done|]. intros ->. apply Hne.
    simpl in E2. destruct m; try done. destruct r as [r|]; [|done]. destruct (r_cause r) as [[|[]]|]; simplify_eq. done.
  - destruct (c_assocs c !! addr1) as [a'|] eqn:Ea'; [by rewrite Ht, Eb|].
    destruct Ht as [m' ->]. by rewrite lookup_insert_ne, Eb by congruence.
  - done.
  - by rewrite Ht, Eb.
Qed.

(** ** C60: counts *)

Lemma sum_perm {A} (f : A -> nat) l l' : l ≡ₚ l' ->
  foldr (fun p n => (f p + n)%nat) 0%nat l = foldr (fun p n => (f p + n)%nat) 0%nat l'.
Proof. induction 1; simpl; lia. Qed.

Lemma session_count_size (c : conn) (X : gset (N * N)) :
  (forall addr seid, (addr, seid) ∈ X <-> is_Some (session_of c addr seid)) ->
  session_count c = size X.
Proof.
  unfold session_count, session_of. generalize (c_assocs c). clear c. intros m.
  revert X. induction m as [|i a m Hi IH] using map_ind; intros X HX.
  - rewrite map_to_list_empty. simpl. symmetry. apply size_empty_iff. intros [a s]. rewrite HX, lookup_empty.
    split; [by intros []|set_solver].
  - rewrite (sum_perm (fun p => size (a_sessions (snd p))) _ _ (map_to_list_insert m i a Hi)). simpl.
    rewrite (IH (filter (fun k => fst k <> i) X)).
    2: { intros addr seid. rewrite elem_of_filter, HX. simpl. destruct (decide (addr = i)) as [->|Hne].
         - rewrite Hi. split; [by intros []|by intros []].
         - rewrite lookup_insert_ne by done. split; [by intros []|done]. }
    set (Y := list_to_set (pair i <$> (fst <$> map_to_list (a_sessions a))) : gset (N * N)).
    assert (HY : size Y = size (a_sessions a)).
    { unfold Y. rewrite size_list_to_set.
      - by rewrite !fmap_length.
      - apply NoDup_fmap_2; [by intros ?? [=]|]. apply NoDup_fst_map_to_list. }
    rewrite <- HY, <- size_union.
    + f_equal. apply leibniz_equiv_iff. intros [addr seid]. rewrite elem_of_union, elem_of_filter, !HX. simpl.
      unfold Y. rewrite elem_of_list_to_set, elem_of_list_fmap.
      destruct (decide (addr = i)) as [->|Hne].
      * rewrite lookup_insert. split.
        -- intros [(y & [= ->] & Hy)|[? _]]; [|done]. apply elem_of_list_fmap in Hy as ([k v] & -> & Hy).
           apply elem_of_map_to_list in Hy. eauto.
        -- intros [v Hv]. left. exists seid. split; [done|]. apply elem_of_list_fmap. exists (seid, v).
           split; [done|]. by apply elem_of_map_to_list.
      * rewrite lookup_insert_ne by done. split; [intros [(y & [= ->] & _)|[_ ?]]; done|by right].
    + intros [addr seid]. unfold Y. rewrite elem_of_filter, elem_of_list_to_set, elem_of_list_fmap.
      intros (y & [= -> ->] & _) [? _]. done.
Qed.

Lemma association_count_size (c : conn) (X : gset N) :
  (forall addr, addr ∈ X <-> is_Some (c_assocs c !! addr)) -> association_count c = size X.
Proof.
  intros HX. unfold association_count. rewrite <- size_dom. f_equal. apply leibniz_equiv_iff.
  intros addr. by rewrite HX, elem_of_dom.
Qed.

(** The gauges equal the number of live sessions and associations. *)
Theorem counts_follow_log :
  forall g rm d es c l,
    run (init g rm d) es = Some (c, l) -> N.of_nat (length es) <= bound ->
    session_count c = size (live l) /\ association_count c = size (peers l).
Proof.
  intros g rm d es c l H Hb. apply run_hinv in H; [|done]. split.
  - apply session_count_size, H.
  - apply association_count_size, H.
Qed.

(** Each accepted establishment adds one, each accepted deletion takes one away, and no other
    message changes the number of sessions. *)
Theorem session_count_changes :
  forall g rm d es c l e c' r,
    run (init g rm d) es = Some (c, l) -> N.of_nat (length es) < bound ->
    step c e = Done c' r -> pruned (e, r) = None ->
    session_count c' =
      match accepted_est (e, r), accepted_del (e, r) with
      | Some _, _ => S (session_count c)
      | None, Some _ => pred (session_count c)
      | None, None => session_count c
      end /\
    (is_Some (accepted_del (e, r)) -> (0 < session_count c)%nat).
Proof.
  intros g rm d es c l e c' r Hrun Hb Hs Hp.
  apply run_hinv in Hrun as HI; [|lia].
  pose proof (hinv_step _ _ _ _ _ _ HI Hb Hs) as HI'.
  rewrite (session_count_size _ _ (hi_live _ _ _ HI')), (session_count_size _ _ (hi_live _ _ _ HI)).
  assert (live (l ++ [(e, r)]) = live_step (live l) (e, r)) as -> by (unfold live; by rewrite foldl_app).
  unfold live_step. rewrite Hp.
  destruct (accepted_est (e, r)) as [[addr seid]|] eqn:E1.
  - split.
    + rewrite size_union; [by rewrite size_singleton|]. rewrite disjoint_singleton_l, (hi_live _ _ _ HI).
      unfold session_of. apply (accepted_est_inv _ _ _ _ _ _ Hs) in E1 as (a & Ha & -> & _). rewrite Ha. intros [s Hx].
      pose proof (hi_next _ _ _ HI _ _ Ha). pose proof (next_seid_lt a (N.of_nat (length es)) ltac:(lia) Hb).
      apply (hi_seid _ _ _ HI _ _ _ _ Ha) in Hx. lia.
    + intros [k Hk]. destruct e as [sh' addr' seq' m'| |]; try done. by destruct m'.
  - destruct (accepted_del (e, r)) as [[addr seid]|] eqn:E2; [|split; [done|by intros []]].
    assert (Hin : (addr, seid) ∈ live l).
    { rewrite (hi_live _ _ _ HI). apply step_table in Hs. unfold tab_step in Hs. unfold session_of.
      destruct Hs as [H|[H|[H|[H|[H|[H|H]]]]]]; destruct_and?.
      1,2,3,5,6,7: exfalso; clear -H E2; naive_solver.
      destruct H as (addr' & a & seid' & s & _ & H & _ & _ & Ha & Hss & _). rewrite E2 in H. simplify_eq.
      rewrite Ha, Hss. eauto. }
    assert (Hsz : size (live l) = S (size (live l ∖ {[(addr, seid)]}))).
    { rewrite (union_difference_L {[(addr, seid)]} (live l)) at 1 by set_solver.
      rewrite size_union by set_solver. rewrite size_singleton. done. }
    rewrite Hsz. split; [done|]. lia.
Qed.

(** ** A concrete history meeting the hypotheses *)
Definition ex_history : list event :=
  [ Recv id_shuffle 7 1 (AssocSetupReq (Good 5) (Good 1));
    Recv id_shuffle 7 2 (SessEstReq ex_est);
    Recv id_shuffle 7 3 (SessEstReq ex_est);
    Recv id_shuffle 8 1 (AssocSetupReq (Good 6) (Good 1));
    Recv id_shuffle 8 2 (SessEstReq ex_est);
    Recv id_shuffle 7 4 (SessDelReq 2);
    Recv id_shuffle 7 5 (SessEstReq ex_est);
    HeartbeatFailed id_shuffle 8 ].
Example ex_history_runs :
  exists c l, run (init ex_cfg ex_rm ex_dp) ex_history = Some (c, l) /\
    N.of_nat (length ex_history) <= bound /\
    omap accepted_est l = [(7, 2); (7, 3); (8, 2); (7, 4)] /\
    omap accepted_del l = [(7, 2)] /\
    session_count c = 2%nat /\ association_count c = 1%nat.
Proof. eexists _, _. vm_compute. repeat split; discriminate. Qed.
