(** C44, C45, C46: the REST interface (cmd/api/rest) to the forwarding rules and the PFCP sessions.
    A handler is modelled as atomic; requests are given decoded (path and query parameters as the Go int or
    address they parse to, JSON bodies as the numbers in them). *)
From Verif Require Import Base IdTracker SdfParser SdfProps SdfMatch MapOps Pfcp PfcpProps PfcpHistory PfcpReach PfcpRules PfcpCreate PfcpRemove
  Xdp XdpBase XdpProps XdpFrames Layout.
Open Scope N_scope.

(** ** Model *)

(** Go conversion int -> uint32. *)
Definition u32_of_int (z : Z) : N := Z.to_N (z mod 4294967296).

(** rest/far_map.go:13-20 [FarMapElement]. *)
Record far_elem := FarElem { fl_id : N; fl_action : N; fl_ohc : N; fl_teid : N; fl_ip : N; fl_tlm : N }.
(** encoding/json refuses numbers outside the range of the Go field. *)
Definition far_elem_binds (e : far_elem) : bool :=
  (fl_id e <? 4294967296) && (fl_action e <? 256) && (fl_ohc e <? 256) && (fl_teid e <? 4294967296) && (fl_ip e <? 4294967296) && (fl_tlm e <? 65536).

(** rest/far_map.go:47-70 [setFarValue]: the Go value is written to the slot, where the BPF program reads it.
    Result: HTTP status and state. *)
Definition rest_set_far (e : far_elem) (d : dp) : N * dp :=
  if far_elem_binds e then
    let value := go_far_mem (replicate c_far_size 0) (Far (fl_action e) (fl_ohc e) (fl_teid e) (fl_ip e) (fl_tlm e)) in
    match update_far (fl_id e) (c_far value) d with (true, d') => (201, d') | (false, _) => (500, d) end
  else (400, d).
(** rest/far_map.go:22-45 [getFarValue]; [pad]: the padding bytes of the slot.  [None]: 404. *)
Definition rest_get_far (pad : list N) (id : Z) (d : dp) : option far_elem :=
  match far_get d (u32_of_int id) with
  | None => None
  | Some f => let v := go_far (c_far_mem pad f) in
      Some (FarElem (u32_of_int id) (fi_action v) (fi_ohc v) (fi_teid v) (fi_remote v) (fi_tlm v))
  end.

(** ebpf/utils.go:63-70 [QerMapElement]. *)
Record qer_elem := QerElem { ql_id : N; ql_ul : N; ql_dl : N; ql_qfi : N; ql_mbr_ul : N; ql_mbr_dl : N }.
Definition qer_elem_binds (e : qer_elem) : bool :=
  (ql_id e <? 4294967296) && (ql_ul e <? 256) && (ql_dl e <? 256) && (ql_qfi e <? 256) && (ql_mbr_ul e <? 4294967296) && (ql_mbr_dl e <? 4294967296).
(** rest/qer_map.go:62-87 [setQerValue], 36-60 [getQerValue]. *)
Definition rest_set_qer (e : qer_elem) (d : dp) : N * dp :=
  if qer_elem_binds e then
    let value := go_qer_mem (replicate c_qer_size 0) (Qer (ql_ul e) (ql_dl e) (ql_qfi e) (ql_mbr_ul e) (ql_mbr_dl e) 0 0) in
    match update_qer (ql_id e) (c_qer value) d with (true, d') => (201, d') | (false, _) => (500, d) end
  else (400, d).
Definition qer_elem_of (id : N) (v : qer_info) : qer_elem :=
  QerElem id (qi_ul_gate v) (qi_dl_gate v) (qi_qfi v) (qi_ul_rate v) (qi_dl_rate v).
Definition rest_get_qer (pad : list N) (id : Z) (d : dp) : option qer_elem :=
  match qer_get d (u32_of_int id) with
  | None => None
  | Some q => Some (qer_elem_of (u32_of_int id) (go_qer (c_qer_mem pad q)))
  end.
(** rest/qer_map.go:19-26 [listQerMapContent], ebpf/utils.go:72-99 [ListQerMapContents]. *)
Definition rest_list_qer (pad : list N) (d : dp) : list qer_elem :=
  omap (fun i => (fun q => qer_elem_of i (go_qer (c_qer_mem pad q))) <$> qer_get d i) (Nseq (d_qer_size d)).

(** rest/uplink_pdr.go:13-18 [PdrElement]. *)
Record pdr_elem := PdrElem { pl_id : N; pl_ohr : N; pl_far : N; pl_qer : N }.
(** rest/uplink_pdr.go:20-41 [getUplinkPdrValue]: the map's value is copied to a Go PdrInfo.  (It is longer than
    the Go variable: the memory behind the variable is overwritten, which is not modelled.) *)
Definition rest_get_pdr (pad : list N) (id : Z) (d : dp) : option pdr_elem :=
  match d_up d !! u32_of_int id with
  | None => None
  | Some p => let mem := c_pdr_mem pad p in
      Some (PdrElem (u32_of_int id) (peek mem go_pdr_ohr) (peek mem go_pdr_far) (peek mem go_pdr_qer))
  end.
(** rest/uplink_pdr.go:44-65 [setUplinkPdrValue]: 208 bytes from the address of a 32-byte variable; [behind] is what the
    BPF program makes of the bytes behind it. *)
Definition rest_set_pdr (behind : ep_rules) (e : pdr_elem) (d : dp) : N * dp :=
  if (pl_id e <? 4294967296) && (pl_ohr e <? 256) && (pl_far e <? 4294967296) && (pl_qer e <? 4294967296) then
    let value := pokes (replicate pdr_head 0)
      [(go_pdr_ohr, pl_ohr e); (go_pdr_far, pl_far e); (go_pdr_qer, pl_qer e); (go_pdr_urr1, 0); (go_pdr_urr2, 0); (go_pdr_sdf, 0)] in
    match hash_put (pl_id e) (c_pdr value behind) (d_up d) (d_pdr_max d) with
    | Some m => (201, set_up m d) | None => (500, d) end
  else (400, d).

(** ** C44 *)

Lemma u32_of_int_id i : i < 4294967296 -> u32_of_int (Z.of_N i) = i.
Proof. intros H. unfold u32_of_int. rewrite Z.mod_small by lia. apply N2Z.id. Qed.
Lemma far_binds e : far_elem_binds e = true ->
  fl_id e < 4294967296 /\ far_fits (Far (fl_action e) (fl_ohc e) (fl_teid e) (fl_ip e) (fl_tlm e)).
Proof. unfold far_elem_binds, far_fits. rewrite !andb_true_iff, !N.ltb_lt. simpl. tauto. Qed.
Lemma qer_binds e : qer_elem_binds e = true ->
  ql_id e < 4294967296 /\ qer_fits (Qer (ql_ul e) (ql_dl e) (ql_qfi e) (ql_mbr_ul e) (ql_mbr_dl e) 0 0).
Proof. unfold qer_elem_binds, qer_fits. rewrite !andb_true_iff, !N.ltb_lt. simpl. intuition; done. Qed.

(** What packets do in between does not matter. *)
Inductive after_packets : dp -> dp -> Prop :=
| after_none d : after_packets d d
| after_packet d e f v s d' : env_ok e -> xdp e f d = Some (v, s) -> after_packets (x_dp s) d' -> after_packets d d'.
Lemma after_packets_rules d d' : after_packets d d' ->
  (forall i, far_get d' i = far_get d i) /\
  (forall i, (fun q => (qi_ul_gate q, qi_dl_gate q, qi_qfi q, qi_ul_rate q, qi_dl_rate q)) <$> qer_get d' i =
             (fun q => (qi_ul_gate q, qi_dl_gate q, qi_qfi q, qi_ul_rate q, qi_dl_rate q)) <$> qer_get d i).
Proof.
  induction 1 as [d|d e f v s d' He Hx _ [IH1 IH2]]; [done|].
  destruct (packet_is_traffic e f d v s He Hx) as (marks & vols & E).
  split; intros i; rewrite ?IH1, ?IH2, E; unfold far_get, qer_get, arr_get, traffic; cbn [d_far d_far_size d_qer d_qer_size set_urr set_qer]; [done|].
  destruct (i <? d_qer_size d); [|done]. simpl. f_equal. unfold touch. rewrite lookup_merge. unfold diag_None.
  destruct (marks !! i), (d_qer d !! i); done.
Qed.

(** The padding and, for QERs, the marks that a slot holds. *)
Definition slot_ok (pad : list N) (n : nat) : Prop := length pad = n.

Theorem rest_far_write_read :
  forall e d d', rest_set_far e d = (201, d') ->
    far_get d' (fl_id e) = Some (Far (fl_action e) (fl_ohc e) (fl_teid e) (fl_ip e) (fl_tlm e)) /\
    (forall i, i <> fl_id e -> far_get d' i = far_get d i) /\ (forall k, dp_find d' k = dp_find d k) /\
    (forall i, qer_get d' i = qer_get d i) /\ (forall i, urr_get d' i = urr_get d i) /\
    (forall d'' pad, after_packets d' d'' -> slot_ok pad c_far_size -> rest_get_far pad (Z.of_N (fl_id e)) d'' = Some e).
Proof.
  intros e d d' H. unfold rest_set_far in H. destruct (far_elem_binds e) eqn:Hb; [|done].
  apply far_binds in Hb as [Hi Hf].
  destruct (far_layouts_agree (replicate c_far_size 0) _ eq_refl Hf) as [Hc _]. rewrite Hc in H.
  unfold update_far in H. destruct (fl_id e <? d_far_size d) eqn:Hs; [|done]. injection H as <-.
  assert (Hg : far_get (set_far (<[fl_id e := Far (fl_action e) (fl_ohc e) (fl_teid e) (fl_ip e) (fl_tlm e)]> (d_far d)) d) (fl_id e) =
    Some (Far (fl_action e) (fl_ohc e) (fl_teid e) (fl_ip e) (fl_tlm e))).
  { unfold far_get, arr_get. cbn [d_far d_far_size set_far]. by rewrite Hs, lookup_insert. }
  split; [done|]. split_and!; try done.
  - intros i Hne. unfold far_get, arr_get. cbn [d_far d_far_size set_far]. by rewrite lookup_insert_ne.
  - intros d'' pad Ha Hp. unfold rest_get_far. rewrite u32_of_int_id by done.
    destruct (after_packets_rules _ _ Ha) as [-> _]. rewrite Hg.
    destruct (far_layouts_agree pad _ Hp Hf) as [_ ->]. by destruct e.
Qed.
Theorem rest_qer_write_read :
  forall e d d', rest_set_qer e d = (201, d') ->
    qer_get d' (ql_id e) = Some (Qer (ql_ul e) (ql_dl e) (ql_qfi e) (ql_mbr_ul e) (ql_mbr_dl e) 0 0) /\
    (forall i, i <> ql_id e -> qer_get d' i = qer_get d i) /\ (forall k, dp_find d' k = dp_find d k) /\
    (forall i, far_get d' i = far_get d i) /\ (forall i, urr_get d' i = urr_get d i) /\
    (forall d'' pad, after_packets d' d'' -> (forall q, qer_get d'' (ql_id e) = Some q -> qer_fits q) -> slot_ok pad c_qer_size ->
       rest_get_qer pad (Z.of_N (ql_id e)) d'' = Some e).
Proof.
  intros e d d' H. unfold rest_set_qer in H. destruct (qer_elem_binds e) eqn:Hb; [|done].
  apply qer_binds in Hb as [Hi Hf].
  destruct (qer_layouts_agree (replicate c_qer_size 0) _ eq_refl Hf) as [Hc _]. rewrite Hc in H.
  unfold update_qer in H. destruct (ql_id e <? d_qer_size d) eqn:Hs; [|done]. injection H as <-.
  assert (Hg : qer_get (set_qer (<[ql_id e := Qer (ql_ul e) (ql_dl e) (ql_qfi e) (ql_mbr_ul e) (ql_mbr_dl e) 0 0]> (d_qer d)) d) (ql_id e) =
    Some (Qer (ql_ul e) (ql_dl e) (ql_qfi e) (ql_mbr_ul e) (ql_mbr_dl e) 0 0)).
  { unfold qer_get, arr_get. cbn [d_qer d_qer_size set_qer]. by rewrite Hs, lookup_insert. }
  split; [done|]. split_and!; try done.
  - intros i Hne. unfold qer_get, arr_get. cbn [d_qer d_qer_size set_qer]. by rewrite lookup_insert_ne.
  - intros d'' pad Ha Hq Hp. unfold rest_get_qer. rewrite u32_of_int_id by done.
    destruct (after_packets_rules _ _ Ha) as [_ HA]. specialize (HA (ql_id e)). rewrite Hg in HA.
    destruct (qer_get d'' (ql_id e)) as [q|]; [|done]. specialize (Hq q eq_refl).
    destruct (qer_layouts_agree pad _ Hp Hq) as [_ ->]. simpl in HA. unfold qer_elem_of. injection HA as -> -> -> -> ->. by destruct e.
Qed.

(** Refusals change nothing, and everything but a number in range naming a slot of the map is refused. *)
Theorem rest_write_refused :
  (forall e d st d', rest_set_far e d = (st, d') -> st <> 201 -> d' = d) /\
  (forall e d st d', rest_set_qer e d = (st, d') -> st <> 201 -> d' = d) /\
  (forall e d, d_far_size d <= fl_id e -> fst (rest_set_far e d) <> 201) /\
  (forall e d, d_qer_size d <= ql_id e -> fst (rest_set_qer e d) <> 201).
Proof.
  split_and!; intros e d.
  - intros st d'. unfold rest_set_far. destruct (far_elem_binds e); [|intros [= <- <-]; done].
    destruct (update_far _ _ _) as [[] ?]; intros [= <- <-]; done.
  - intros st d'. unfold rest_set_qer. destruct (qer_elem_binds e); [|intros [= <- <-]; done].
    destruct (update_qer _ _ _) as [[] ?]; intros [= <- <-]; done.
  - intros H. unfold rest_set_far. destruct (far_elem_binds e); [|done]. unfold update_far.
    replace (fl_id e <? d_far_size d) with false; [done|]. symmetry. by apply N.ltb_ge.
  - intros H. unfold rest_set_qer. destruct (qer_elem_binds e); [|done]. unfold update_qer.
    replace (ql_id e <? d_qer_size d) with false; [done|]. symmetry. by apply N.ltb_ge.
Qed.
(** Reading: ids from 0 to 2^32-1 are refused exactly beyond the map. *)
Theorem rest_read_refused_partial :
  forall pad i d, i < 4294967296 ->
    (rest_get_far pad (Z.of_N i) d = None <-> d_far_size d <= i) /\ (rest_get_qer pad (Z.of_N i) d = None <-> d_qer_size d <= i).
Proof.
  intros pad i d Hi. unfold rest_get_far, rest_get_qer, far_get, qer_get, arr_get. rewrite u32_of_int_id by done.
  split.
  - destruct (N.ltb_spec i (d_far_size d)); split; intros; try done; lia.
  - destruct (N.ltb_spec i (d_qer_size d)); split; intros; try done; lia.
Qed.
(** Larger and negative ids are taken modulo 2^32. *)
Theorem rest_read_wraps_refuted :
  forall pad d, rest_get_far pad 4294967296 d = rest_get_far pad 0 d /\ rest_get_far pad (-4294967295) d = rest_get_far pad 1 d /\
    (0 < d_far_size d -> rest_get_far pad 4294967296 d <> None).
Proof.
  intros pad d. split_and!; try done. intros H. unfold rest_get_far, far_get, arr_get.
  change (u32_of_int 4294967296) with 0. replace (0 <? d_far_size d) with true; [done|]. symmetry. by apply N.ltb_lt.
Qed.
(** The list shows every slot once, in order, as reading them one by one does. *)
Theorem rest_list_complete :
  forall pad d i, d_qer_size d <= 4294967296 -> rest_list_qer pad d !! N.to_nat i = rest_get_qer pad (Z.of_N i) d \/ 4294967296 <= i.
Proof.
  intros pad d i Hs. destruct (N.lt_ge_cases i 4294967296) as [Hi|Hi]; [left|by right].
  unfold rest_get_qer. rewrite u32_of_int_id by done. unfold rest_list_qer.
  assert (E : forall l : list N, (forall k, k ∈ l -> is_Some (qer_get d k)) ->
    omap (fun i => (fun q => qer_elem_of i (go_qer (c_qer_mem pad q))) <$> qer_get d i) l =
    (fun i => qer_elem_of i (go_qer (c_qer_mem pad (default qer0 (qer_get d i))))) <$> l).
  { induction l as [|k l IH]; intros Hl; [done|]. simpl. destruct (Hl k ltac:(by left)) as [q ->]. simpl. f_equal. apply IH. intros. apply Hl. by right. }
  rewrite E.
  2:{ intros k Hk. apply elem_of_Nseq in Hk. unfold qer_get, arr_get. replace (k <? d_qer_size d) with true; [eauto|]. symmetry. by apply N.ltb_lt. }
  rewrite list_lookup_fmap. unfold Nseq. rewrite list_lookup_fmap.
  destruct (N.lt_ge_cases i (d_qer_size d)) as [Hlt|Hge].
  - rewrite lookup_seq_lt by lia. simpl. rewrite N2Nat.id. unfold qer_get, arr_get. apply N.ltb_lt in Hlt. by rewrite Hlt.
  - rewrite lookup_seq_ge by lia. simpl. unfold qer_get, arr_get. apply N.ltb_ge in Hge. by rewrite Hge.
Qed.
Example ex_rest_far : exists d', rest_set_far (FarElem 3 2 1 1025 134217738 0) (dp_init 8 8 8 8) = (201, d').
Proof. eexists. unfold rest_set_far. cbn. reflexivity. Qed.
Example ex_rest_qer : exists d', rest_set_qer (QerElem 3 0 1 9 1000 2000) (dp_init 8 8 8 8) = (201, d').
Proof. eexists. unfold rest_set_qer. cbn. reflexivity. Qed.

(** ** C45 *)

(** What reading an uplink PDR returns: the low byte of the FAR id as outer header removal, the QER id as FAR id and
    the first URR id as QER id. *)
Theorem rest_pdr_read_exact :
  forall pad i d p, i < 4294967296 -> length pad = pdr_head -> d_up d !! i = Some p -> ep_fits p ->
    rest_get_pdr pad (Z.of_N i) d = Some (PdrElem i (ep_far p mod 256) (ep_qer p) (ep_urr1 p)).
Proof.
  intros pad i d p Hi Hp Hl (H1 & H2 & H3 & H4 & H5 & H6). unfold rest_get_pdr. rewrite u32_of_int_id by done. rewrite Hl.
  f_equal. f_equal; unfold c_pdr_mem.
  - apply (peek_written pad _ go_pdr_far); [by rewrite Hp|do 1 apply elem_of_list_further; apply elem_of_list_here|done].
  - apply (peek_written pad _ go_pdr_qer); [by rewrite Hp|do 2 apply elem_of_list_further; apply elem_of_list_here|done].
Qed.

(** So an entry installed by a PFCP request (whose URR ids are 0) is shown without its QER, with the QER id in
    place of the FAR id. *)
Theorem rest_pdr_read_refuted :
  exists c l p e, ex_start [ex_setup; ex_recv 2 (SessEstReq (EstReq (Good 5) (Good 100) [FarIe (Some 1) (Some [2]) None None; FarIe (Some 2) (Some [2]) None None]
      [QerIe (Some 1) (Some 0) (Some 0) None None (Some 9)] []
      [PdrIe (Some 1) (Some 0) (Some 2) (Some 1) [] (Some (PdiIe true (Good (FteidIe 77 false None)) Absent)) None]))] = Some (c, l) /\
    dp_find (c_dp c) (Up 77) = Some p /\ ep_ohr p = 0 /\ ep_far p = 1 /\ ep_qer p = 0 /\
    rest_get_pdr (replicate pdr_head 0) 77 (c_dp c) = Some e /\ pl_ohr e = 1 /\ pl_far e = 0 /\ pl_qer e = 0.
Proof.
  match goal with |- exists c l p e, ex_start ?es = _ /\ _ =>
    destruct (ex_runs_inv es (fun c => match d_up (c_dp c) !! 77, rest_get_pdr (replicate pdr_head 0) 77 (c_dp c) with
      | Some p, Some e => (ep_ohr p =? 0) && (ep_far p =? 1) && (ep_qer p =? 0) && (pl_ohr e =? 1) && (pl_far e =? 0) && (pl_qer e =? 0)
      | _, _ => false end)) as (c & l & Hc & H); [by vm_compute|] end.
  unfold dp_find. destruct (d_up (c_dp c) !! 77) as [p|] eqn:Hp; [|discriminate H].
  destruct (rest_get_pdr _ 77 (c_dp c)) as [e|] eqn:He; [|discriminate H].
  rewrite !andb_true_iff, !N.eqb_eq in H. destruct H as (((((H1 & H2) & H3) & H4) & H5) & H6).
  exists c, l, p, e. rewrite Hp, He. split; [exact Hc|]. repeat (split; [done|]). done.
Qed.
(** Writing an uplink PDR: the data plane gets the header removal as FAR id, the FAR id as QER id and the QER id as first URR. *)
Theorem rest_pdr_write_exact :
  forall behind e d d', rest_set_pdr behind e d = (201, d') ->
    d_up d' !! pl_id e = Some (EpPdr (pl_ohr e) (pl_far e) (pl_qer e) 0 0 0 behind) /\
    (forall k, k <> Up (pl_id e) -> dp_find d' k = dp_find d k).
Proof.
  intros behind e d d' H. unfold rest_set_pdr in H.
  destruct ((pl_id e <? 4294967296) && (pl_ohr e <? 256) && (pl_far e <? 4294967296) && (pl_qer e <? 4294967296)) eqn:Hb; [|done].
  rewrite !andb_true_iff, !N.ltb_lt in Hb. destruct Hb as [[[H1 H2] H3] H4].
  destruct (hash_put _ _ _ _) as [m|] eqn:Hm; [|done]. injection H as <-.
  assert (m = <[pl_id e := c_pdr (pokes (replicate pdr_head 0)
      [(go_pdr_ohr, pl_ohr e); (go_pdr_far, pl_far e); (go_pdr_qer, pl_qer e); (go_pdr_urr1, 0); (go_pdr_urr2, 0); (go_pdr_sdf, 0)]) behind]> (d_up d)) as ->.
  { unfold hash_put in Hm. destruct (d_up d !! pl_id e); [by injection Hm|]. destruct (_ <? _); [by injection Hm|done]. }
  split.
  - cbn [d_up set_up]. rewrite lookup_insert. f_equal. unfold c_pdr.
    replace (peek _ c_pdr_far) with (pl_ohr e).
    2:{ unfold peek, pokes, poke, field, patch, le_value, be_value. simpl. rewrite N.mod_small by done. lia. }
    replace (peek _ c_pdr_qer) with (pl_far e).
    2:{ symmetry. apply (peek_written _ _ go_pdr_far); [done|repeat constructor|done]. }
    replace (peek _ c_pdr_urr1) with (pl_qer e).
    2:{ symmetry. apply (peek_written _ _ go_pdr_qer); [done|repeat constructor|done]. }
    done.
  - intros [t|a|a] Hk; cbn [dp_find d_up set_up d_dn4 d_dn6]; try done. rewrite lookup_insert_ne; [done|]. congruence.
Qed.
