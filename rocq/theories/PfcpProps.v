(** Properties of single PFCP messages: context checks, responses, association
    handling, crashes. *)
From Verif Require Import Base IdTracker ResourceManager SdfParser MapOps Pfcp.

(** ** Vocabulary *)

(** The live session with F-SEID [seid] given to peer [addr]. *)
Definition session_of (c : conn) (addr seid : N) : option session :=
  match c_assocs c !! addr with Some a => a_sessions a !! seid | None => None end.

(** The SEID in the header of a session request. *)
Definition names_seid (m : msg) : option N :=
  match m with SessModReq q => Some (mq_seid q) | SessDelReq s => Some s | _ => None end.

Definition is_good {A} (f : fld A) : bool := match f with Good _ => true | _ => false end.

Definition is_session_request (m : msg) : bool :=
  match m with SessEstReq _ | SessModReq _ | SessDelReq _ => true | _ => false end.

(** The response type prescribed for each request type (3GPP TS 29.244, 7.3). *)
Definition answer_type (m : msg) : option N :=
  match m with
  | HeartbeatReq _ => Some 2
  | AssocSetupReq _ _ => Some 6
  | AssocUpdateReq _ => Some 8
  | SessEstReq _ => Some 51
  | SessModReq _ => Some 53
  | SessDelReq _ => Some 55
  | _ => None
  end.

(** A small concrete connection for the examples: one peer 7 with an association. *)
Definition ex_cfg : cfg := Cfg true true 10 167772161 167772162 99.
Definition ex_rm : option rman := Some (Rman (new_fteidm 1000) (new_ipam 167837696 24)).
Definition ex_dp : dp := dp_init 100 100 100 100.
Definition ex_conn : conn := Conn {[7 := new_assoc 5]} ex_dp ex_rm ex_cfg.
Definition ex_est : est_req := EstReq (Good 5) (Good 100) [] [] [] [].

(** ** C08: requests out of context *)

Theorem est_missing_ids_no_effect :
  forall sh addr seq q c,
    is_good (eq_node q) = false \/ is_good (eq_fseid q) = false ->
    exists r, handle sh addr seq (SessEstReq q) c = Done c (Some r) /\ r_cause r = Some 66.
Proof.
  intros sh addr seq q c H. simpl. unfold handle_est, validate_request.
  destruct (eq_node q), (eq_fseid q); simpl in H; try (destruct H; discriminate); by eexists.
Qed.

Theorem no_association_no_effect :
  forall sh addr seq m c,
    is_session_request m = true ->
    (forall q, m = SessEstReq q -> is_good (eq_node q) = true /\ is_good (eq_fseid q) = true) ->
    c_assocs c !! addr = None ->
    exists r, handle sh addr seq m c = Done c (Some r) /\ r_cause r = Some 72.
Proof.
  intros sh addr seq m c Hm Hok Ha. destruct m; try discriminate; simpl.
  - destruct (Hok r eq_refl) as [H1 H2]. unfold handle_est, validate_request.
    destruct (eq_node r), (eq_fseid r); simpl in *; try discriminate. rewrite Ha. by eexists.
  - unfold handle_mod. rewrite Ha. by eexists.
  - unfold handle_del. rewrite Ha. by eexists.
Qed.

Theorem unknown_seid_no_effect :
  forall sh addr seq m c a seid,
    names_seid m = Some seid -> c_assocs c !! addr = Some a -> session_of c addr seid = None ->
    exists r, handle sh addr seq m c = Done c (Some r) /\ r_cause r = Some 65.
Proof.
  intros sh addr seq m c a seid Hm Ha Hs. unfold session_of in Hs. rewrite Ha in Hs.
  destruct m; try discriminate; simpl in *; injection Hm as <-.
  - unfold handle_mod. rewrite Ha, Hs. by eexists.
  - unfold handle_del. rewrite Ha, Hs. by eexists.
Qed.

Example out_of_context_examples :
  handle id_shuffle 7 3 (SessDelReq 2) ex_conn = Done ex_conn (Some (resp_cause 55 3 0 65 None)) /\
  handle id_shuffle 8 3 (SessDelReq 2) ex_conn = Done ex_conn (Some (resp_cause 55 3 0 72 None)) /\
  handle id_shuffle 7 3 (SessEstReq (EstReq (Good 5) Absent [] [] [] [])) ex_conn
    = Done ex_conn (Some (resp_cause 51 3 0 66 (Some 10))).
Proof. vm_compute. auto. Qed.

(** ** C09: responses answer their request *)

Definition known_causes : list N := [1; 64; 65; 66; 69; 72; 73].

Theorem response_answers_request :
  forall sh addr seq m c c' r,
    handle sh addr seq m c = Done c' (Some r) ->
    answer_type m = Some (r_type r) /\ r_seq r = seq /\
    match r_cause r with Some k => k ∈ known_causes | None => exists rts, m = HeartbeatReq rts end.
Proof.
  intros sh addr seq m c c' r H. unfold known_causes.
  destruct m; simpl in H;
    unfold handle_hb_req, handle_hb_resp, handle_setup, handle_setup_resp, handle_update, handle_est,
      handle_mod, handle_del in H;
    repeat (case_match; simplify_eq); simplify_eq; simpl in *;
    try (split; [done|split; [done|]]; first [by eexists | set_solver]).
Qed.

Theorem unknown_message_ignored :
  forall sh addr seq ty c, handle sh addr seq (OtherMsg ty) c = Done c None.
Proof. reflexivity. Qed.

Theorem request_without_reply :
  forall sh addr seq m c c',
    handle sh addr seq m c = Done c' None ->
    answer_type m <> None ->
    (exists rts, m = HeartbeatReq rts /\ is_good rts = false) \/ (exists seid, m = SessDelReq seid).
Proof.
  intros sh addr seq m c c' H Ht. destruct m; simpl in *; try done.
  - left. unfold handle_hb_req in H. destruct rts; try done; eauto.
  - unfold handle_setup in H. repeat case_match; done.
  - unfold handle_update in H. repeat case_match; done.
  - unfold handle_est in H. repeat case_match; done.
  - unfold handle_mod in H. repeat case_match; done.
  - right. eauto.
Qed.

Example response_example :
  exists c' r, handle id_shuffle 7 42 (SessEstReq ex_est) ex_conn = Done c' (Some r) /\
    r_type r = 51 /\ r_seq r = 42 /\ r_cause r = Some 1 /\ r_fseid r = Some (2, 167772161).
Proof. eexists _, _. vm_compute. repeat split. Qed.

(** ** C22, C23: association setup and update *)

Theorem setup_accepted :
  forall sh addr seq n t c,
    exists c' r,
      handle sh addr seq (AssocSetupReq (Good n) (Good t)) c = Done c' (Some r) /\
      r_cause r = Some 1 /\ r_node r = Some (g_node (c_cfg c)) /\
      r_features r = Some (feature_octets (c_cfg c)) /\ r_rts r = Some (g_rts (c_cfg c)) /\
      c_dp c' = c_dp c /\ c_rm c' = c_rm c /\ c_cfg c' = c_cfg c /\
      (forall addr', addr' <> addr -> c_assocs c' !! addr' = c_assocs c !! addr') /\
      match c_assocs c !! addr with
      | Some a => c_assocs c' !! addr = Some a
      | None => exists a, c_assocs c' !! addr = Some a /\ a_node a = n /\ a_sessions a = ∅
      end.
Proof.
  intros. simpl. eexists _, _. split; [reflexivity|]. unfold ensure_assoc.
  destruct (c_assocs c !! addr) eqn:E; simpl; repeat split; auto.
  - intros. by rewrite lookup_insert_ne.
  - rewrite lookup_insert. by eexists.
Qed.

(** The same for the UPF's own association setup, answered by the peer. *)
Theorem setup_response_effect :
  forall sh addr seq n k f c,
    exists c', handle sh addr seq (AssocSetupResp (Good n) (Good k) (Good f)) c = Done c' None /\
      c_dp c' = c_dp c /\ c_rm c' = c_rm c /\ c_cfg c' = c_cfg c /\
      (k <> 1 -> c' = c) /\
      (forall addr', addr' <> addr -> c_assocs c' !! addr' = c_assocs c !! addr') /\
      (k = 1 -> match c_assocs c !! addr with
      | Some a => c_assocs c' !! addr = Some a
      | None => exists a, c_assocs c' !! addr = Some a /\ a_node a = n /\ a_sessions a = ∅
      end).
Proof.
  intros. simpl. unfold Accepted, ensure_assoc. destruct (N.eqb_spec k 1) as [->|Hk].
  - eexists. split; [reflexivity|]. destruct (c_assocs c !! addr) eqn:E; simpl; repeat split; auto; try done.
    + intros. by rewrite lookup_insert_ne.
    + intros _. rewrite lookup_insert. by eexists.
  - eexists. split; [reflexivity|]. repeat split; auto. done.
Qed.

(** Cause 66 when the first unusable mandatory IE is missing, 69 when it is present but
    undecodable. *)
Definition first_fault {A B} (x : fld A) (y : fld B) : option N :=
  match x with
  | Absent => Some 66 | Bad => Some 69
  | Good _ => match y with Absent => Some 66 | Bad => Some 69 | Good _ => None end
  end.

Theorem setup_rejected :
  forall sh addr seq node rts c k,
    first_fault node rts = Some k ->
    exists r, handle sh addr seq (AssocSetupReq node rts) c = Done c (Some r) /\ r_cause r = Some k.
Proof.
  intros sh addr seq node rts c k H. simpl. unfold handle_setup.
  destruct node, rts; simpl in H; simplify_eq; by eexists.
Qed.

Theorem update_effect :
  forall sh addr seq node c,
    exists r, handle sh addr seq (AssocUpdateReq node) c = Done c (Some r) /\
      r_cause r = Some (match node with
                        | Absent => 66 | Bad => 69
                        | Good _ => if c_assocs c !! addr then 1 else 72 end).
Proof.
  intros. simpl. unfold handle_update. destruct node; try by eexists.
  destruct (c_assocs c !! addr); by eexists.
Qed.

(** ** C51: crashes *)

Definition no_crash_msg (m : msg) : Prop :=
  match m with
  | HeartbeatReq Absent | HeartbeatResp Absent => False
  | SessEstReq q => Forall (fun f => far_crash f = false) (eq_fars q) /\
                    Forall (fun p => display_crash p = false) (eq_pdrs q)
  | SessModReq q => Forall (fun f => far_crash f = false) (mq_cfar q ++ mq_ufar q) /\
                    Forall (fun p => display_crash p = false) (mq_cpdr q ++ mq_updr q)
  | _ => True
  end.

(** Each of the following decodable messages ends the process. *)
Definition ex_bad_est (fars : list far_ie) (pdrs : list pdr_ie) : msg :=
  SessEstReq (EstReq (Good 5) (Good 100) fars [] [] pdrs).

Theorem malformed_crash_refuted :
  handle id_shuffle 7 1 (HeartbeatReq Absent) ex_conn = Crash /\
  handle id_shuffle 7 1 (HeartbeatResp Absent) ex_conn = Crash /\
  handle id_shuffle 7 1 (ex_bad_est [FarIe (Some 1) (Some []) None None] []) ex_conn = Crash /\
  handle id_shuffle 7 1 (ex_bad_est [FarIe (Some 1) (Some [2]) (Some Bad) None] []) ex_conn = Crash /\
  handle id_shuffle 7 1 (ex_bad_est [] [PdrIe (Some 1) None None None []
                          (Some (PdiIe false (Good (FteidIe 9 false None)) Absent)) None]) ex_conn = Crash.
Proof. vm_compute. auto. Qed.

(** [each] never crashes if its body does not, under an invariant on the state. *)
Definition safe (P : work -> Prop) (r : res) : Prop :=
  match r with ROk w | RErr w => P w | RCrash => False end.

Lemma safe_each {A} (P : work -> Prop) (f : A -> work -> res) l w :
  P w -> (forall x w, x ∈ l -> P w -> safe P (f x w)) -> safe P (each f l w).
Proof.
  revert w. induction l as [|x l IH]; intros w Hw Hf; simpl; [done|].
  pose proof (Hf x w (elem_of_list_here _ _) Hw) as Hx.
  destruct (f x w); simpl in *; try done. apply IH; [done|].
  intros y w' Hy. apply Hf. by right.
Qed.

Lemma safe_bind (P : work -> Prop) r k : safe P r -> (forall w, P w -> safe P (k w)) -> safe P (rbind r k).
Proof. destruct r; simpl; auto. Qed.

(** The resource manager, once there, stays. *)
Definition has_rm (w : work) : Prop := is_Some (w_rm w).

Lemma create_far_safe f w : far_crash f = false -> has_rm w -> safe has_rm (create_far f w).
Proof. unfold create_far. intros ->. repeat (case_match; simplify_eq); done. Qed.
Lemma update_far_safe f w : far_crash f = false -> has_rm w -> safe has_rm (update_far_ie f w).
Proof. unfold update_far_ie. intros ->. repeat (case_match; simplify_eq); done. Qed.
Lemma remove_far_safe f w : has_rm w -> safe has_rm (remove_far_ie f w).
Proof. unfold remove_far_ie. repeat (case_match; simplify_eq); done. Qed.
Lemma create_qer_safe f w : has_rm w -> safe has_rm (create_qer f w).
Proof. unfold create_qer. repeat (case_match; simplify_eq); done. Qed.
Lemma update_qer_safe f w : has_rm w -> safe has_rm (update_qer_ie f w).
Proof. unfold update_qer_ie. repeat (case_match; simplify_eq); done. Qed.
Lemma remove_qer_safe f w : has_rm w -> safe has_rm (remove_qer_ie f w).
Proof. unfold remove_qer_ie. repeat (case_match; simplify_eq); done. Qed.
Lemma create_urr_safe f w : has_rm w -> safe has_rm (create_urr f w).
Proof. unfold create_urr. repeat (case_match; simplify_eq); done. Qed.
Lemma update_urr_safe f w : has_rm w -> safe has_rm (update_urr_ie f w).
Proof. unfold update_urr_ie. repeat (case_match; simplify_eq); done. Qed.
Lemma remove_urr_safe f w : has_rm w -> safe has_rm (remove_urr_ie f w).
Proof. unfold remove_urr_ie. repeat (case_match; simplify_eq); done. Qed.

Lemma extract_pdr_rm ueip p s w o w' : extract_pdr ueip p s w = (o, w') -> has_rm w -> has_rm w'.
Proof.
  unfold extract_pdr, get_fteid, get_ip, has_rm. intros H Hw.
  destruct (w_rm w) as [r|] eqn:Er; [|by destruct Hw].
  repeat (case_match; simplify_eq); simpl in *; simplify_eq; rewrite ?Er; eauto; simpl; eauto.
Qed.
Lemma create_pdr_safe ueip p w : has_rm w -> safe has_rm (create_pdr ueip p w).
Proof.
  intros Hw. unfold create_pdr. case_match; [|done].
  destruct (extract_pdr _ _ _ w) as [o w1] eqn:E. apply extract_pdr_rm in E; [|done].
  repeat (case_match; simplify_eq); done.
Qed.
Lemma update_pdr_safe ueip p w : has_rm w -> safe has_rm (update_pdr_ie ueip p w).
Proof.
  intros Hw. unfold update_pdr_ie. case_match; [|done].
  destruct (extract_pdr _ _ _ w) as [o w1] eqn:E. apply extract_pdr_rm in E; [|done].
  repeat (case_match; simplify_eq); done.
Qed.
Lemma delete_pdr_safe sh s w : has_rm w -> safe has_rm (delete_pdr sh s w).
Proof.
  unfold delete_pdr, has_rm. intros Hw. destruct (w_rm w) as [r|] eqn:Er; [|by destruct Hw].
  repeat (case_match; simplify_eq); simpl in *; simplify_eq; rewrite ?Er in *; try done; simpl; unfold has_rm; simpl; eauto;
  congruence.
Qed.
Lemma remove_pdr_safe sh p w : has_rm w -> safe has_rm (remove_pdr_ie sh p w).
Proof. intros Hw. unfold remove_pdr_ie. case_match; [|done]. by apply delete_pdr_safe. Qed.

(** Missing from the full property: the messages of [malformed_crash_refuted], and a UPF
    whose resource manager could not be created. *)
Theorem no_crash_partial :
  forall sh addr seq m c,
    no_crash_msg m -> is_Some (c_rm c) -> handle sh addr seq m c <> Crash.
Proof.
  intros sh addr seq m c Hm Hrm. destruct m as [t|t|n t|n k f|n|q|q|seid|ty]; simpl in *; try done.
  - by destruct t.
  - by destruct t.
  - unfold handle_setup. repeat case_match; done.
  - unfold handle_setup_resp. repeat case_match; done.
  - unfold handle_update. repeat case_match; done.
  - destruct Hm as [Hf Hd]. unfold handle_est. case_match; [|done]. case_match; [|done].
    assert (existsb display_crash (eq_pdrs q) = false) as ->.
    { apply not_true_is_false. rewrite existsb_exists. intros (x & Hx & Hx'). rewrite Forall_forall in Hd.
      rewrite (Hd x) in Hx'; [done|]. by apply elem_of_list_In. }
    assert (safe has_rm (est_rules (g_ueip (c_cfg c)) q (new_work (c_dp c) (new_session (next_seid a) n) (c_rm c)))) as Hs.
    { unfold est_rules. repeat (apply safe_bind; [apply safe_each|intros]).
      - done.
      - intros x w Hx. apply create_far_safe. rewrite Forall_forall in Hf. by apply Hf.
      - done.
      - intros. by apply create_qer_safe.
      - done.
      - intros. by apply create_urr_safe.
      - apply safe_each; [done|]. intros. by apply create_pdr_safe. }
    destruct (est_rules _ _ _); done.
  - destruct Hm as [Hf Hd]. unfold handle_mod. case_match; [|done]. case_match; [|done].
    apply Forall_app in Hf; apply Forall_app in Hd. destruct Hf as [Hf1 Hf2], Hd as [Hd1 Hd2].
    assert (H1 : existsb display_crash (mq_cpdr q) = false).
    { apply not_true_is_false. rewrite existsb_exists. intros (x & Hx & Hx'). rewrite Forall_forall in Hd1.
      rewrite (Hd1 x) in Hx'; [done|]. by apply elem_of_list_In. }
    assert (H2 : existsb display_crash (mq_updr q) = false).
    { apply not_true_is_false. rewrite existsb_exists. intros (x & Hx & Hx'). rewrite Forall_forall in Hd2.
      rewrite (Hd2 x) in Hx'; [done|]. by apply elem_of_list_In. }
    rewrite H1, H2. simpl.
    match goal with |- context [mod_rules ?a ?b ?c ?d] => assert (safe has_rm (mod_rules a b c d)) as Hs end.
    { rewrite Forall_forall in Hf1, Hf2.
      unfold mod_rules. repeat (apply safe_bind; [apply safe_each|intros]); try done; intros.
      - apply create_far_safe; auto.
      - apply update_far_safe; auto.
      - by apply remove_far_safe.
      - by apply create_qer_safe.
      - by apply update_qer_safe.
      - by apply remove_qer_safe.
      - by apply create_urr_safe.
      - by apply update_urr_safe.
      - by apply remove_urr_safe.
      - by apply create_pdr_safe.
      - by apply update_pdr_safe.
      - apply safe_each; [done|]. intros. by apply remove_pdr_safe. }
    destruct (mod_rules _ _ _ _); done.
  - unfold handle_del. case_match; [|done]. case_match; [|done].
    assert (safe has_rm (del_rules sh s (new_work (c_dp c) s (c_rm c)))) as Hs.
    { unfold del_rules. repeat (apply safe_bind; [apply safe_each|intros]); try done; intros.
      - by apply delete_pdr_safe.
      - unfold del_far. repeat (case_match; simplify_eq); done.
      - unfold del_qer. repeat (case_match; simplify_eq); done.
      - apply safe_each; [done|]. intros. unfold del_urr. repeat (case_match; simplify_eq); done. }
    destruct (del_rules _ _ _); done.
Qed.

Example no_crash_example :
  no_crash_msg (SessEstReq ex_est) /\ is_Some (c_rm ex_conn).
Proof. split; [split; constructor|eexists; reflexivity]. Qed.

(** Also the resource manager must be there: without it, deleting a PDR with a TEID panics. *)
Definition ex_pdr (id teid : N) : pdr_ie :=
  PdrIe (Some id) None None None [] (Some (PdiIe true (Good (FteidIe teid false None)) Absent)) None.
Theorem missing_manager_crash_refuted :
  exists c' r,
    handle id_shuffle 7 1 (SessEstReq (EstReq (Good 5) (Good 100) [] [] [] [ex_pdr 1 9]))
           (Conn {[7 := new_assoc 5]} ex_dp None ex_cfg) = Done c' (Some r) /\ r_cause r = Some 1 /\
    handle id_shuffle 7 2 (SessDelReq 2) c' = Crash.
Proof. eexists _, _. vm_compute. auto. Qed.
