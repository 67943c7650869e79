(** C75: the rule tables behind the control plane are tables: each operation changes the entry it names and nothing else. *)
From Verif Require Import Base IdTracker SdfParser MapOps Pfcp PfcpRules.
Open Scope N_scope.

(** ** Specification *)

(** Everything but the PDR entry [k], the FARs, QERs and URRs [i] picked out is as before; [d_fart], [d_qert], [d_urrt] are the free ids. *)
Record only (P : key -> Prop) (F Q U : N -> Prop) (d d' : dp) : Prop := {
  on_pdr : forall k, ~ P k -> dp_find d' k = dp_find d k;
  on_far : forall i, ~ F i -> far_get d' i = far_get d i /\ (i ∈ t_free (d_fart d') <-> i ∈ t_free (d_fart d));
  on_qer : forall i, ~ Q i -> qer_get d' i = qer_get d i /\ (i ∈ t_free (d_qert d') <-> i ∈ t_free (d_qert d));
  on_urr : forall i, ~ U i -> urr_get d' i = urr_get d i /\ (i ∈ t_free (d_urrt d') <-> i ∈ t_free (d_urrt d));
  on_room : d_pdr_max d' = d_pdr_max d }.
Definition none {A} (_ : A) : Prop := False.

(** The three PDR tables by key. *)
Definition put_pdr (k : key) (p : pdr_req) (d : dp) : bool * dp :=
  match k with Up t => put_pdr_uplink t p d | Dn4 a => put_pdr_downlink a p d | Dn6 a => put_pdr_ip6 a p d end.
Definition update_pdr (k : key) (p : pdr_req) (d : dp) : bool * dp :=
  match k with Up t => update_pdr_uplink t p d | Dn4 a => update_pdr_downlink a p d | Dn6 a => update_pdr_ip6 a p d end.
Definition remove_pdr (k : key) (d : dp) : bool * dp :=
  match k with Up t => delete_pdr_uplink t d | Dn4 a => delete_pdr_downlink a d | Dn6 a => delete_pdr_ip6 a d end.
Definition entries_beside (k : key) (d : dp) : N :=
  N.of_nat match k with Up _ => size (d_up d) | Dn4 _ => size (d_dn4 d) | Dn6 _ => size (d_dn6 d) end.

(** [e] is what installing [p] over [old] should give: without a filter, the rule for every packet; with one, the rule for its
    packets, while the rest is left to the rule that was there (mode 2) or to nobody (mode 1, the other fields zero).  Usage rules are
    not stored (C21, C78). *)
Definition stores (p : pdr_req) (old : option ep_pdr) (e : ep_pdr) : Prop :=
  match pr_sdf p with
  | None => ep_far e = pr_far p /\ ep_qer e = pr_qer p /\ ep_ohr e = pr_ohr p /\ ep_mode e = 0 /\ ep_urr1 e = 0 /\ ep_urr2 e = 0
  | Some f => let r := ep_rules_ e in
      er_filter r = ep_filter_of f /\ er_far r = pr_far p /\ er_qer r = pr_qer p /\ er_ohr r = pr_ohr p /\ er_urr1 r = 0 /\ er_urr2 r = 0 /\ ep_urr1 e = 0 /\ ep_urr2 e = 0 /\
      match old with
      | Some o => ep_far e = ep_far o /\ ep_qer e = ep_qer o /\ ep_ohr e = ep_ohr o /\ ep_mode e = 2
      | None => ep_mode e = 1 /\ ep_far e = 0 /\ ep_qer e = 0 /\ ep_ohr e = 0
      end
  end.

(** ** Proofs *)
Lemma stores_ok m k p : stores p (m !! k) (pdr_to_store m k p).
Proof. unfold stores, pdr_to_store, combine_pdr_with_sdf. destruct (pr_sdf p); [|done]. by destruct (m !! k). Qed.
Ltac only_pdr := split; try done; intros [?|?|?] Hk; simpl; try done; try (rewrite lookup_insert_ne; [done|congruence]); try (rewrite lookup_delete_ne; [done|congruence]).

(** Installing a PDR: the entry is there, or the key is new and the table is full. *)
Theorem pdr_put :
  forall k p d, match put_pdr k p d with
    | (true, d') => only (eq k) none none none d d' /\ exists e, dp_find d' k = Some e /\ stores p (dp_find d k) e
    | (false, d') => d' = d /\ dp_find d k = None /\ d_pdr_max d <= entries_beside k d
    end.
Proof.
  intros k p d. destruct k as [t|a|a]; unfold put_pdr, put_pdr_uplink, put_pdr_downlink, put_pdr_ip6, hash_put; simpl;
    (destruct (_ !! _) eqn:E; [|match goal with |- context [N.of_nat ?n <? ?m] => destruct (N.ltb_spec (N.of_nat n) m) end]); try done;
    (split; [only_pdr|]); simpl; rewrite lookup_insert; eexists; (split; [done|]); rewrite <- E; apply stores_ok.
Qed.
(** Updating: the key must be there. *)
Theorem pdr_update :
  forall k p d, match update_pdr k p d with
    | (true, d') => only (eq k) none none none d d' /\ exists o e, dp_find d k = Some o /\ dp_find d' k = Some e /\ stores p (Some o) e
    | (false, d') => d' = d /\ dp_find d k = None
    end.
Proof.
  intros k p d. destruct k as [t|a|a]; unfold update_pdr, update_pdr_uplink, update_pdr_downlink, update_pdr_ip6, hash_update; simpl;
    (destruct (_ !! _) eqn:E); try done;
    (split; [only_pdr|]); simpl; rewrite lookup_insert; eexists _, _; (split; [done|]); (split; [done|]); rewrite <- E; apply stores_ok.
Qed.
(** Removing. *)
Theorem pdr_remove :
  forall k d, match remove_pdr k d with
    | (true, d') => only (eq k) none none none d d' /\ dp_find d k <> None /\ dp_find d' k = None
    | (false, d') => d' = d /\ dp_find d k = None
    end.
Proof.
  intros k d. destruct k as [t|a|a]; unfold remove_pdr, delete_pdr_uplink, delete_pdr_downlink, delete_pdr_ip6, hash_delete; simpl;
    (destruct (_ !! _) eqn:E); try done; (split; [only_pdr|]); simpl; by rewrite lookup_delete.
Qed.

Lemma arr_get_insert {A} (z v : A) m s i k : i < s -> arr_get z (<[i := v]> m) s k = if decide (k = i) then Some v else arr_get z m s k.
Proof.
  intros Hi. unfold arr_get. destruct (decide (k = i)) as [->|]; [|by rewrite lookup_insert_ne]. rewrite lookup_insert. by rewrite (proj2 (N.ltb_lt _ _) Hi).
Qed.
Ltac only_arr Hi := split; simpl; try done; unfold far_get, qer_get, urr_get; simpl; intros ? Hk; rewrite ?arr_get_insert by exact Hi; rewrite ?decide_False by congruence; try done.

(** A new FAR, QER or URR gets an id that was free and is free no longer. *)
Theorem far_new :
  forall f d, sorted (t_free (d_fart d)) -> match new_far f d with
    | (Some i, d') => only none (eq i) none none d d' /\ i ∈ t_free (d_fart d) /\ i ∉ t_free (d_fart d') /\ far_get d' i = Some f
    | (None, d') => (forall k, dp_find d' k = dp_find d k) /\ (forall i, far_get d' i = far_get d i) /\
        (t_free (d_fart d) = [] \/ exists i, i ∈ t_free (d_fart d) /\ far_get d i = None)
    end.
Proof.
  intros f d Hs. unfold new_far, get_next. destruct (t_free (d_fart d)) as [|i l] eqn:E; [split_and!; try done; by left|].
  apply StronglySorted_inv in Hs as [_ Hs].
  destruct (N.ltb_spec i (d_far_size d)) as [Hi|Hi].
  - split; [|split; [left|split]].
    + only_arr Hi. split; [done|]. rewrite E. rewrite elem_of_cons. naive_solver.
    + simpl. intros Hin. rewrite Forall_forall in Hs. specialize (Hs i Hin). lia.
    + unfold far_get; simpl. rewrite arr_get_insert by done. by rewrite decide_True.
  - split_and!; try done. right. exists i. split; [left|]. unfold far_get, arr_get. by rewrite (proj2 (N.ltb_ge _ _) Hi).
Qed.
Theorem qer_new :
  forall f d, sorted (t_free (d_qert d)) -> match new_qer f d with
    | (Some i, d') => only none none (eq i) none d d' /\ i ∈ t_free (d_qert d) /\ i ∉ t_free (d_qert d') /\ qer_get d' i = Some f
    | (None, d') => (forall k, dp_find d' k = dp_find d k) /\ (forall i, qer_get d' i = qer_get d i) /\
        (t_free (d_qert d) = [] \/ exists i, i ∈ t_free (d_qert d) /\ qer_get d i = None)
    end.
Proof.
  intros f d Hs. unfold new_qer, get_next. destruct (t_free (d_qert d)) as [|i l] eqn:E; [split_and!; try done; by left|].
  apply StronglySorted_inv in Hs as [_ Hs].
  destruct (N.ltb_spec i (d_qer_size d)) as [Hi|Hi].
  - split; [|split; [left|split]].
    + only_arr Hi. split; [done|]. rewrite E. rewrite elem_of_cons. naive_solver.
    + simpl. intros Hin. rewrite Forall_forall in Hs. specialize (Hs i Hin). lia.
    + unfold qer_get; simpl. rewrite arr_get_insert by done. by rewrite decide_True.
  - split_and!; try done. right. exists i. split; [left|]. unfold qer_get, arr_get. by rewrite (proj2 (N.ltb_ge _ _) Hi).
Qed.
Theorem urr_new :
  forall f d, sorted (t_free (d_urrt d)) -> match new_urr f d with
    | (Some i, d') => only none none none (eq i) d d' /\ i ∈ t_free (d_urrt d) /\ i ∉ t_free (d_urrt d') /\ urr_get d' i = Some f
    | (None, d') => (forall k, dp_find d' k = dp_find d k) /\ (forall i, urr_get d' i = urr_get d i) /\
        (t_free (d_urrt d) = [] \/ exists i, i ∈ t_free (d_urrt d) /\ urr_get d i = None)
    end.
Proof.
  intros f d Hs. unfold new_urr, get_next. destruct (t_free (d_urrt d)) as [|i l] eqn:E; [split_and!; try done; by left|].
  apply StronglySorted_inv in Hs as [_ Hs].
  destruct (N.ltb_spec i (d_urr_size d)) as [Hi|Hi].
  - split; [|split; [left|split]].
    + only_arr Hi. split; [done|]. rewrite E. rewrite elem_of_cons. naive_solver.
    + simpl. intros Hin. rewrite Forall_forall in Hs. specialize (Hs i Hin). lia.
    + unfold urr_get; simpl. rewrite arr_get_insert by done. by rewrite decide_True.
  - split_and!; try done. right. exists i. split; [left|]. unfold urr_get, arr_get. by rewrite (proj2 (N.ltb_ge _ _) Hi).
Qed.

(** Updating one: the slot has the new value and the id is as free as before; beyond the table it fails. *)
Theorem rule_update :
  (forall i f d, match update_far i f d with
     | (true, d') => only none (eq i) none none d d' /\ far_get d' i = Some f /\ d_fart d' = d_fart d
     | (false, d') => d' = d /\ far_get d i = None end) /\
  (forall i f d, match update_qer i f d with
     | (true, d') => only none none (eq i) none d d' /\ qer_get d' i = Some f /\ d_qert d' = d_qert d
     | (false, d') => d' = d /\ qer_get d i = None end) /\
  (forall i f d, match update_urr i f d with
     | (true, d') => only none none none (eq i) d d' /\ urr_get d' i = Some f /\ d_urrt d' = d_urrt d
     | (false, d') => d' = d /\ urr_get d i = None end).
Proof.
  split_and!; intros i f d; [unfold update_far|unfold update_qer|unfold update_urr].
  - destruct (N.ltb_spec i (d_far_size d)) as [Hi|Hi]; [|split; [done|]; unfold far_get, arr_get; by rewrite (proj2 (N.ltb_ge _ _) Hi)].
    split; [only_arr Hi|]. split; [|done]. unfold far_get; simpl. rewrite arr_get_insert by done. by rewrite decide_True.
  - destruct (N.ltb_spec i (d_qer_size d)) as [Hi|Hi]; [|split; [done|]; unfold qer_get, arr_get; by rewrite (proj2 (N.ltb_ge _ _) Hi)].
    split; [only_arr Hi|]. split; [|done]. unfold qer_get; simpl. rewrite arr_get_insert by done. by rewrite decide_True.
  - destruct (N.ltb_spec i (d_urr_size d)) as [Hi|Hi]; [|split; [done|]; unfold urr_get, arr_get; by rewrite (proj2 (N.ltb_ge _ _) Hi)].
    split; [only_arr Hi|]. split; [|done]. unfold urr_get; simpl. rewrite arr_get_insert by done. by rewrite decide_True.
Qed.

(** Removing one: the slot is cleared, the id is free again; a URR's volumes are handed out. *)
Lemma release_other i j t : j <> i -> j ∈ t_free (release i t) <-> j ∈ t_free t.
Proof. intros Hj. unfold release. case_match; [done|]. simpl. rewrite bitmap_add_elem. naive_solver. Qed.
Lemma release_this i t : i < t_max t -> i ∈ t_free (release i t).
Proof. intros Hi. unfold release. rewrite (proj2 (N.leb_gt _ _) Hi). simpl. rewrite bitmap_add_elem. by left. Qed.
Ltac only_rel Hi := split; simpl; try done; unfold far_get, qer_get, urr_get; simpl; intros ? Hk; rewrite ?arr_get_insert by exact Hi;
  rewrite ?decide_False by congruence; try done; (split; [done|apply release_other; congruence]).
Theorem rule_remove :
  (forall i d, match delete_far i d with
     | (true, d') => only none (eq i) none none d d' /\ far_get d' i = Some (Far 0 0 0 0 0) /\ (i < t_max (d_fart d) -> i ∈ t_free (d_fart d'))
     | (false, _) => far_get d i = None end) /\
  (forall i d, match delete_qer i d with
     | (true, d') => only none none (eq i) none d d' /\ qer_get d' i = Some (Qer 0 0 0 0 0 0 0) /\ (i < t_max (d_qert d) -> i ∈ t_free (d_qert d'))
     | (false, _) => qer_get d i = None end) /\
  (forall i d, match delete_urr i d with
     | (Some u, d') => only none none none (eq i) d d' /\ urr_get d i = Some u /\ urr_get d' i = Some (Urr 0 0) /\ (i < t_max (d_urrt d) -> i ∈ t_free (d_urrt d'))
     | (None, d') => d' = d /\ urr_get d i = None end).
Proof.
  split_and!; intros i d.
  - unfold delete_far, update_far. simpl. destruct (N.ltb_spec i (d_far_size d)) as [Hi|Hi]; [|unfold far_get, arr_get; by rewrite (proj2 (N.ltb_ge _ _) Hi)].
    split; [only_rel Hi|]. split; [|apply release_this]. unfold far_get; simpl. rewrite arr_get_insert by done. by rewrite decide_True.
  - unfold delete_qer, update_qer. simpl. destruct (N.ltb_spec i (d_qer_size d)) as [Hi|Hi]; [|unfold qer_get, arr_get; by rewrite (proj2 (N.ltb_ge _ _) Hi)].
    split; [only_rel Hi|]. split; [|apply release_this]. unfold qer_get; simpl. rewrite arr_get_insert by done. by rewrite decide_True.
  - unfold delete_urr, update_urr. destruct (urr_get d i) as [u|] eqn:E; [|done]. simpl. unfold urr_get, arr_get in E.
    destruct (N.ltb_spec i (d_urr_size d)) as [Hi|Hi]; [|done].
    split; [only_rel Hi|]. split; [done|]. split; [|apply release_this]. unfold urr_get; simpl. rewrite arr_get_insert by done. by rewrite decide_True.
Qed.

(** ** Cases *)
Definition ex_rule (far : N) (s : option sdf_filter) : pdr_req := PdrReq 0 far 3 0 0 s.
Definition ex_filter : sdf_filter := Sdf 17 (IpW 0 [] []) (0, 65535) (IpW 0 [] []) (80, 80).
Example ex_tables : exists d1 d2 d3, put_pdr (Up 5) (ex_rule 1 None) (dp_init 1 4 4 4) = (true, d1) /\
  update_pdr (Up 5) (ex_rule 2 (Some ex_filter)) d1 = (true, d2) /\ put_pdr (Up 6) (ex_rule 1 None) d2 = (false, d3) /\
  d_pdr_max d2 <= entries_beside (Up 6) d2 /\ fst (update_pdr (Up 6) (ex_rule 1 None) d2) = false /\ fst (remove_pdr (Up 5) d2) = true /\
  sorted (t_free (d_fart d2)) /\ fst (new_far (Far 2 0 0 0 0) d2) = Some 0 /\ fst (update_far 4 far0 d2) = false.
Proof.
  eexists _, _, _. split; [vm_compute; reflexivity|]. split; [vm_compute; reflexivity|]. split; [vm_compute; reflexivity|]. split; [by vm_compute|].
  split; [by vm_compute|]. split; [by vm_compute|]. split; [|split; by vm_compute]. change (sorted [0; 1; 2; 3]). repeat constructor.
Qed.
