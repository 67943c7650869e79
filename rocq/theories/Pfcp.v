(** Model of the PFCP control plane (cmd/core): associations, sessions, rule
    handling, dispatch.  Requests enter as decoded information elements. *)
From Verif Require Import Base IdTracker ResourceManager SdfParser MapOps.

(** ** Decoded information elements *)

(** An IE of a message: not present (nil pointer in go-pfcp), present but its accessor
    returns an error, or decoded. *)
Inductive fld (A : Type) := Absent | Bad | Good (a : A).
Arguments Absent {A}. Arguments Bad {A}. Arguments Good {A} _.

(** go-pfcp FTEIDFields as used in pdr_creation_context.go:103-134: TEID, the CH flag
    and the CHOOSE_ID when the CHID flag is set. *)
Record fteid_ie := FteidIe { fe_teid : N; fe_ch : bool; fe_chid : option N }.

(** go-pfcp UEIPAddressFields as used in pdr_creation_context.go:136-159. *)
Record ueip_ie := UeipIe { ue_chv4 : bool; ue_v4 : option N; ue_v6 : option N }.

(** The PDI: is there a Source Interface IE (display_utils.go:356-357), the first
    F-TEID IE and the first UE IP Address IE. *)
Record pdi_ie := PdiIe { pi_src : bool; pi_fteid : fld fteid_ie; pi_ueip : fld ueip_ie }.

(** Create PDR / Update PDR / Remove PDR.  [None] = the accessor returns an error.
    [pe_sdf]: flow description of the first SDF Filter. *)
Record pdr_ie := PdrIe { pe_id : option N; pe_ohr : option N; pe_far : option N; pe_qer : option N;
                         pe_urrs : list N; pe_pdi : option pdi_ie; pe_sdf : option (list N) }.

(** Outer Header Creation: description (16 bits), TEID, IPv4 address, has IPv6. *)
Record ohc_ie := OhcIe { oh_desc : N; oh_teid : N; oh_v4 : option N; oh_v6 : bool }.

(** Create FAR / Update FAR / Remove FAR.  [fa_apply]: payload of Apply Action;
    [fa_fwd]: (Update) Forwarding Parameters with their first Outer Header Creation. *)
Record far_ie := FarIe { fa_id : option N; fa_apply : option (list N); fa_fwd : option (fld ohc_ie);
                         fa_tlm : option N }.

Record qer_ie := QerIe { qe_id : option N; qe_gate_dl : option N; qe_gate_ul : option N;
                         qe_mbr_dl : option N; qe_mbr_ul : option N; qe_qfi : option N }.

(** Only the URR ID of a URR IE is used (pfcp_session_handlers.go:642-649). *)
Notation urr_ie := (option N) (only parsing).

Record est_req := EstReq { eq_node : fld N; eq_fseid : fld N; eq_fars : list far_ie; eq_qers : list qer_ie;
                           eq_urrs : list urr_ie; eq_pdrs : list pdr_ie }.
Record mod_req := ModReq { mq_seid : N; mq_fseid : fld N;
  mq_cfar : list far_ie; mq_ufar : list far_ie; mq_rfar : list far_ie;
  mq_cqer : list qer_ie; mq_uqer : list qer_ie; mq_rqer : list qer_ie;
  mq_curr : list urr_ie; mq_uurr : list urr_ie; mq_rurr : list urr_ie;
  mq_cpdr : list pdr_ie; mq_updr : list pdr_ie; mq_rpdr : list pdr_ie }.

Inductive msg :=
| HeartbeatReq (rts : fld N)
| HeartbeatResp (rts : fld N)
| AssocSetupReq (node : fld N) (rts : fld N)
| AssocSetupResp (node : fld N) (cause : fld N) (features : fld N)
| AssocUpdateReq (node : fld N)
| SessEstReq (r : est_req)
| SessModReq (r : mod_req)
| SessDelReq (seid : N)
| OtherMsg (ty : N).

(** ** State *)

(** session.go:29-36 [SPDRInfo] (with ebpf.PdrInfo inlined through [pdr_req]). *)
Record spdr := Spdr { sd_id : N; sd_info : pdr_req; sd_teid : N; sd_v4 : option N; sd_v6 : option N;
                      sd_alloc : bool }.
(** session.go:38-52 [SFarInfo], [SQerInfo], [SUrrInfo]: rule and id in the data plane. *)
Record sfar := Sfar { sf_info : far_info; sf_gid : N }.
Record sqer := Sqer { sq_info : qer_info; sq_gid : N }.
Record surr := Surr { su_info : urr_info; su_gid : N; su_seq : N }.

(** session.go:9-16 [Session]. *)
Record session := Session { s_local : N; s_remote : N; s_pdrs : gmap N spdr; s_fars : gmap N sfar;
                            s_qers : gmap N sqer; s_urrs : gmap N surr }.

(** node_association.go:13-23 [NodeAssociation] (heartbeat part: Heartbeat.v). *)
Record assoc := Assoc { a_node : N; a_next : N; a_sessions : gmap N session }.

(** resource_manager.go:11-14 [ResourceManager]; both pools are always allocated
    (resource_manager.go:67-70). *)
Record rman := Rman { rm_ft : fteidm; rm_ip : ipam }.

(** Configuration used by the handlers: config.Conf.FeatureFTUP / FeatureUEIP, node id,
    node address, N3 address, recovery time stamp. *)
Record cfg := Cfg { g_ftup : bool; g_ueip : bool; g_node : N; g_addr : N; g_n3 : N; g_rts : N }.

(** pfcp_connection.go:35-50 [PfcpConnection]; peers are identified by an encoding of their
    IP address string.  [c_rm = None]: nil resource manager (main.go:85-88 continues after a
    failed NewResourceManager). *)
Record conn := Conn { c_assocs : gmap N assoc; c_dp : dp; c_rm : option rman; c_cfg : cfg }.

(** ** Responses *)
Inductive created := CreatedTeid (pdr teid n3 : N) | CreatedIp (pdr ip : N).
(** Usage report: URR id, UR-SEQN, total, uplink and downlink volume. *)
Record report := Report { rp_urr : N; rp_seqn : N; rp_total : N; rp_ul : N; rp_dl : N }.

Record response := Resp {
  r_type : N; r_seq : N; r_seid : N; r_cause : option N; r_node : option N; r_fseid : option (N * N);
  r_created : list created; r_reports : list report; r_features : option (list N); r_rts : option N }.

(** Result of handling one message: the new state and the message sent back, if any,
    or a Go panic. *)
Inductive outcome := Done (c : conn) (r : option response) | Crash.

(** ** Session records (session.go) *)
Definition set_pdrs m s := Session (s_local s) (s_remote s) m (s_fars s) (s_qers s) (s_urrs s).
Definition set_fars m s := Session (s_local s) (s_remote s) (s_pdrs s) m (s_qers s) (s_urrs s).
Definition set_qers m s := Session (s_local s) (s_remote s) (s_pdrs s) (s_fars s) m (s_urrs s).
Definition set_urrs m s := Session (s_local s) (s_remote s) (s_pdrs s) (s_fars s) (s_qers s) m.
Definition set_remote v s := Session (s_local s) v (s_pdrs s) (s_fars s) (s_qers s) (s_urrs s).

(** session.go:18-27 [NewSession]. *)
Definition new_session (l r : N) : session := Session l r ∅ ∅ ∅ ∅.
(** session.go:67-69 [GetFar], 90-92 [GetQer], 113-115 [GetUrr], 127-129 [GetPDR]: Go map
    reads give the zero value for an unknown id. *)
Definition get_far (s : session) (i : N) : sfar := default (Sfar far0 0) (s_fars s !! i).
Definition get_qer (s : session) (i : N) : sqer := default (Sqer qer0 0) (s_qers s !! i).
Definition get_urr (s : session) (i : N) : surr := default (Surr urr0 0 0) (s_urrs s !! i).
Definition pdr_req0 : pdr_req := PdrReq 0 0 0 0 0 None.
Definition spdr0 : spdr := Spdr 0 pdr_req0 0 None None false.
Definition get_pdr (s : session) (i : N) : spdr := default spdr0 (s_pdrs s !! i).
(** session.go:54-59 [NewFar], 61-65 [UpdateFar], 71-75 [RemoveFar] and the QER, URR, PDR
    counterparts (77-135). *)
Definition ses_new_far i gid f s := set_fars (<[i := Sfar f gid]> (s_fars s)) s.
Definition ses_update_far i f s := set_fars (<[i := Sfar f (sf_gid (get_far s i))]> (s_fars s)) s.
Definition ses_remove_far i s := set_fars (delete i (s_fars s)) s.
Definition ses_new_qer i gid q s := set_qers (<[i := Sqer q gid]> (s_qers s)) s.
Definition ses_update_qer i q s := set_qers (<[i := Sqer q (sq_gid (get_qer s i))]> (s_qers s)) s.
Definition ses_remove_qer i s := set_qers (delete i (s_qers s)) s.
Definition ses_new_urr i gid u s := set_urrs (<[i := Surr u gid 0]> (s_urrs s)) s.
Definition ses_update_urr i u s :=
  set_urrs (<[i := Surr u (su_gid (get_urr s i)) (su_seq (get_urr s i))]> (s_urrs s)) s.
Definition ses_remove_urr i s := set_urrs (delete i (s_urrs s)) s.
Definition ses_put_pdr i p s := set_pdrs (<[i := p]> (s_pdrs s)) s.
Definition ses_remove_pdr i s := set_pdrs (delete i (s_pdrs s)) s.

(** ** The state threaded through rule processing *)
Record work := Work { w_dp : dp; w_ses : session; w_rm : option rman; w_cache : gmap N N;
                      w_created : list spdr; w_reports : list report }.
Definition w_set_dp d w := Work d (w_ses w) (w_rm w) (w_cache w) (w_created w) (w_reports w).
Definition w_set_ses s w := Work (w_dp w) s (w_rm w) (w_cache w) (w_created w) (w_reports w).
Definition w_set_rm r w := Work (w_dp w) (w_ses w) r (w_cache w) (w_created w) (w_reports w).
Definition w_set_cache c w := Work (w_dp w) (w_ses w) (w_rm w) c (w_created w) (w_reports w).
Definition w_add_created p w := Work (w_dp w) (w_ses w) (w_rm w) (w_cache w) (w_created w ++ [p]) (w_reports w).
Definition w_add_report r w := Work (w_dp w) (w_ses w) (w_rm w) (w_cache w) (w_created w) (w_reports w ++ [r]).

(** Go function results: success, error (effects so far remain), panic. *)
Inductive res := ROk (w : work) | RErr (w : work) | RCrash.

Definition rbind (r : res) (k : work -> res) : res :=
  match r with ROk w => k w | RErr w => RErr w | RCrash => RCrash end.

(** A Go [for _, x := range l { ... return err ... }]. *)
Fixpoint each {A} (f : A -> work -> res) (l : list A) (w : work) : res :=
  match l with [] => ROk w | x :: r => rbind (f x w) (each f r) end.

(** ** FARs, QERs, URRs *)

(** binary.LittleEndian.Uint32 of the four bytes of an address (given by its value). *)
Definition le32 (a : N) : N :=
  (a mod 256) * 16777216 + (a / 256 mod 256) * 65536 + (a / 65536 mod 256) * 256 + a / 16777216 mod 256.

(** pfcp_session_handlers.go:568-604 [composeFarInfo] and 632-639 [GetTransportLevelMarking].
    [None] = error ("IPv6 not supported yet"); crashes are [far_crash]. *)
Definition far_crash (f : far_ie) : bool :=
  match fa_apply f with Some [] => true | _ => false end ||
  match fa_fwd f with Some Bad => true | _ => false end.
Definition compose_far (f : far_ie) (i : far_info) : option far_info :=
  let action := match fa_apply f with Some (a :: _) => a | _ => fi_action i end in
  let tlm := default (fi_tlm i) (fa_tlm f) in
  match fa_fwd f with
  | Some (Good o) =>
      if oh_v6 o then None
      else Some (Far action (u8 (oh_desc o / 256)) (oh_teid o)
                     (match oh_v4 o with Some a => le32 a | None => fi_remote i end) tlm)
  | _ => Some (Far action (fi_ohc i) (fi_teid i) (fi_remote i) tlm)
  end.

(** pfcp_session_handlers.go:606-630 [updateQer]. *)
Definition compose_qer (q : qer_ie) (i : qer_info) : qer_info :=
  Qer (default (qi_ul_gate i) (qe_gate_ul q)) (default (qi_dl_gate i) (qe_gate_dl q))
      (default (qi_qfi i) (qe_qfi q))
      (match qe_mbr_ul q with Some v => u32 (u32 v * 1000) | None => qi_ul_rate i end)
      (match qe_mbr_dl q with Some v => u32 (u32 v * 1000) | None => qi_dl_rate i end) 0 0.

(** pfcp_session_handlers.go:48-63 (establishment) and 261-276 (modification):
    one Create FAR.  An unreadable FAR ID counts as 0. *)
Definition create_far (f : far_ie) (w : work) : res :=
  if far_crash f then RCrash else
  match compose_far f far0 with
  | None => RErr w
  | Some i =>
      match new_far i (w_dp w) with
      | (Some gid, d) => ROk (w_set_ses (ses_new_far (default 0 (fa_id f)) gid i (w_ses w)) (w_set_dp d w))
      | (None, d) => RErr (w_set_dp d w)
      end
  end.

(** pfcp_session_handlers.go:278-295: one Update FAR. *)
Definition update_far_ie (f : far_ie) (w : work) : res :=
  match fa_id f with
  | None => RErr w
  | Some id =>
      if far_crash f then RCrash else
      let cur := get_far (w_ses w) id in
      match compose_far f (sf_info cur) with
      | None => RErr w
      | Some i =>
          let w1 := w_set_ses (ses_update_far id i (w_ses w)) w in
          match update_far (sf_gid cur) i (w_dp w1) with
          | (true, d) => ROk (w_set_dp d w1)
          | (false, d) => RErr (w_set_dp d w1)
          end
      end
  end.

(** pfcp_session_handlers.go:297-305: one Remove FAR. *)
Definition remove_far_ie (f : far_ie) (w : work) : res :=
  let id := default 0 (fa_id f) in
  let cur := get_far (w_ses w) id in
  let w1 := w_set_ses (ses_remove_far id (w_ses w)) w in
  match delete_far (sf_gid cur) (w_dp w1) with
  | (true, d) => ROk (w_set_dp d w1)
  | (false, d) => RErr (w_set_dp d w1)
  end.

(** pfcp_session_handlers.go:65-79, 307-321: one Create QER. *)
Definition create_qer (q : qer_ie) (w : work) : res :=
  match qe_id q with
  | None => RErr w
  | Some id =>
      let i := compose_qer q qer0 in
      match new_qer i (w_dp w) with
      | (Some gid, d) => ROk (w_set_ses (ses_new_qer id gid i (w_ses w)) (w_set_dp d w))
      | (None, d) => RErr (w_set_dp d w)
      end
  end.
(** pfcp_session_handlers.go:323-336: one Update QER. *)
Definition update_qer_ie (q : qer_ie) (w : work) : res :=
  match qe_id q with
  | None => RErr w
  | Some id =>
      let cur := get_qer (w_ses w) id in
      let i := compose_qer q (sq_info cur) in
      let w1 := w_set_ses (ses_update_qer id i (w_ses w)) w in
      match update_qer (sq_gid cur) i (w_dp w1) with
      | (true, d) => ROk (w_set_dp d w1)
      | (false, d) => RErr (w_set_dp d w1)
      end
  end.
(** pfcp_session_handlers.go:338-349: one Remove QER. *)
Definition remove_qer_ie (q : qer_ie) (w : work) : res :=
  match qe_id q with
  | None => RErr w
  | Some id =>
      let cur := get_qer (w_ses w) id in
      let w1 := w_set_ses (ses_remove_qer id (w_ses w)) w in
      match delete_qer (sq_gid cur) (w_dp w1) with
      | (true, d) => ROk (w_set_dp d w1)
      | (false, d) => RErr (w_set_dp d w1)
      end
  end.

(** pfcp_session_handlers.go:81-95, 351-365: one Create URR. *)
Definition create_urr (u : urr_ie) (w : work) : res :=
  match u with
  | None => RErr w
  | Some id =>
      match new_urr urr0 (w_dp w) with
      | (Some gid, d) => ROk (w_set_ses (ses_new_urr id gid urr0 (w_ses w)) (w_set_dp d w))
      | (None, d) => RErr (w_set_dp d w)
      end
  end.
(** pfcp_session_handlers.go:367-380: one Update URR ([updateUrr] changes nothing). *)
Definition update_urr_ie (u : urr_ie) (w : work) : res :=
  match u with
  | None => RErr w
  | Some id =>
      let cur := get_urr (w_ses w) id in
      let w1 := w_set_ses (ses_update_urr id (su_info cur) (w_ses w)) w in
      match update_urr (su_gid cur) (su_info cur) (w_dp w1) with
      | (true, d) => ROk (w_set_dp d w1)
      | (false, d) => RErr (w_set_dp d w1)
      end
  end.
(** The usage report of 196-203 and 396-402. *)
Definition make_report (id : N) (u : surr) (v : urr_info) : report :=
  Report id (u32 (su_seq u + 1)) (u64 (ui_ul v + ui_dl v)) (ui_ul v) (ui_dl v).
(** pfcp_session_handlers.go:382-404: one Remove URR. *)
Definition remove_urr_ie (u : urr_ie) (w : work) : res :=
  match u with
  | None => RErr w
  | Some id =>
      let cur := get_urr (w_ses w) id in
      let w1 := w_set_ses (ses_remove_urr id (w_ses w)) w in
      match delete_urr (su_gid cur) (w_dp w1) with
      | (Some v, d) => ROk (w_add_report (make_report id cur v) (w_set_dp d w1))
      | (None, d) => RErr (w_set_dp d w1)
      end
  end.

(** ** PDRs (pdr_creation_context.go, pdr.go) *)

(** pdr_creation_context.go:200-211 [getFTEID]: [None] = error. *)
Definition get_fteid (seid pdr : N) (rm : option rman) : option N * option rman :=
  match rm with
  | None => (None, None)
  | Some r => let '(o, ft) := allocate_teid seid pdr (rm_ft r) in (o, Some (Rman ft (rm_ip r)))
  end.
(** pdr_creation_context.go:213-222 [getIP]. *)
Definition get_ip (seid : N) (rm : option rman) : option N * option rman :=
  match rm with
  | None => (None, None)
  | Some r => let '(o, ip) := allocate_ip seid (rm_ip r) in (o, Some (Rman (rm_ft r) ip))
  end.

(** pdr_creation_context.go:67-85: header removal and rule references; references go
    through the session's tables, an unknown id giving data-plane id 0. *)
Definition pdr_refs (s : session) (p : pdr_ie) (r : pdr_req) : pdr_req :=
  PdrReq (default (pr_ohr r) (pe_ohr p))
         (match pe_far p with Some i => sf_gid (get_far s i) | None => pr_far r end)
         (match pe_qer p with Some i => sq_gid (get_qer s i) | None => pr_qer r end)
         (match pe_urrs p with i :: _ => su_gid (get_urr s i) | [] => pr_urr1 r end)
         (match pe_urrs p with _ :: i :: _ => su_gid (get_urr s i) | _ => pr_urr2 r end)
         (pr_sdf r).

Definition set_sdf (f : option sdf_filter) (r : pdr_req) : pdr_req :=
  PdrReq (pr_ohr r) (pr_far r) (pr_qer r) (pr_urr1 r) (pr_urr2 r) f.

(** pdr_creation_context.go:92-101: [None] = unparsable flow description. *)
Definition pdr_sdf (p : pdr_ie) (r : pdr_req) : option pdr_req :=
  match pe_sdf p with
  | None => Some r
  | Some [] => Some r
  | Some t => match parse_sdf t with Some f => Some (set_sdf (Some f) r) | None => None end
  end.

(** pdr_creation_context.go:66-163 [extractPDR]: the updated PDR record, or [None] for an
    error; allocations and cache updates are in the returned state. *)
Definition extract_pdr (ueip : bool) (p : pdr_ie) (s : spdr) (w : work) : option spdr * work :=
  let info := pdr_refs (w_ses w) p (sd_info s) in
  match pe_pdi p with
  | None => (None, w)
  | Some pdi =>
    match pdr_sdf p info with
    | None => (None, w)
    | Some info =>
      match pi_fteid pdi with
      | Bad => (None, w)
      | Good fe =>
          if fe_ch fe then
            match (match fe_chid fe with Some c => w_cache w !! c | None => None end) with
            | Some t => (Some (Spdr (sd_id s) info t (sd_v4 s) (sd_v6 s) true), w)
            | None =>
                match get_fteid (s_remote (w_ses w)) (sd_id s) (w_rm w) with
                | (None, rm) => (None, w_set_rm rm w)
                | (Some t, rm) =>
                    let w1 := w_set_rm rm w in
                    let w2 := match fe_chid fe with
                              | Some c => w_set_cache (<[c := t]> (w_cache w1)) w1
                              | None => w1 end in
                    (Some (Spdr (sd_id s) info t (sd_v4 s) (sd_v6 s) true), w2)
                end
            end
          else (Some (Spdr (sd_id s) info (fe_teid fe) (sd_v4 s) (sd_v6 s) (sd_alloc s)), w)
      | Absent =>
          match pi_ueip pdi with
          | Bad => (None, w)
          | Good ue =>
              let '(v4, alloc, w1) :=
                if ueip && ue_chv4 ue then
                  match get_ip (s_remote (w_ses w)) (w_rm w) with
                  | (Some a, rm) => (Some a, true, w_set_rm rm w)
                  | (None, rm) => (ue_v4 ue, sd_alloc s, w_set_rm rm w)
                  end
                else (ue_v4 ue, sd_alloc s, w) in
              match v4, ue_v6 ue with
              | Some a, _ => (Some (Spdr (sd_id s) info (sd_teid s) (Some a) (sd_v6 s) alloc), w1)
              | None, Some a => (Some (Spdr (sd_id s) info (sd_teid s) (sd_v4 s) (Some a) alloc), w1)
              | None, None => (None, w1)
              end
          | Absent => (Some (Spdr (sd_id s) info (sd_teid s) (sd_v4 s) (sd_v6 s) (sd_alloc s)), w)
          end
      end
    end
  end.

(** core/pdr.go:13-31 [applyPDR]. *)
Definition apply_pdr (s : spdr) (d : dp) : bool * dp :=
  match sd_v4 s, sd_v6 s with
  | Some a, _ => put_pdr_downlink a (sd_info s) d
  | None, Some a => put_pdr_ip6 a (sd_info s) d
  | None, None => put_pdr_uplink (sd_teid s) (sd_info s) d
  end.

(** pfcp_session_handlers.go:97-117, 406-427: one Create PDR. *)
Definition create_pdr (ueip : bool) (p : pdr_ie) (w : work) : res :=
  match pe_id p with
  | None => RErr w
  | Some id =>
      match extract_pdr ueip p (Spdr id pdr_req0 0 None None false) w with
      | (None, w1) => RErr w1
      | (Some s, w1) =>
          let w2 := w_set_ses (ses_put_pdr (sd_id s) s (w_ses w1)) w1 in
          match apply_pdr s (w_dp w2) with
          | (true, d) => ROk (w_add_created s (w_set_dp d w2))
          | (false, d) => RErr (w_set_dp d w2)
          end
      end
  end.

(** pfcp_session_handlers.go:429-445: one Update PDR. *)
Definition update_pdr_ie (ueip : bool) (p : pdr_ie) (w : work) : res :=
  match pe_id p with
  | None => RErr w
  | Some id =>
      match extract_pdr ueip p (get_pdr (w_ses w) id) w with
      | (None, w1) => RErr w1
      | (Some s, w1) =>
          let w2 := w_set_ses (ses_put_pdr id s (w_ses w1)) w1 in
          match apply_pdr s (w_dp w2) with
          | (true, d) => ROk (w_set_dp d w2)
          | (false, d) => RErr (w_set_dp d w2)
          end
      end
  end.

(** pdr_creation_context.go:165-186 [deletePDR]. *)
Definition delete_pdr (sh : shuffle) (s : spdr) (w : work) : res :=
  let del :=
    match sd_v4 s, sd_v6 s with
    | Some a, _ => let '(ok, d) := delete_pdr_downlink a (w_dp w) in (ok, w_set_dp d w)
    | None, Some a => let '(ok, d) := delete_pdr_ip6 a (w_dp w) in (ok, w_set_dp d w)
    | None, None =>
        match w_cache w !! u8 (sd_teid s) with
        | Some _ => (true, w)
        | None =>
            let '(ok, d) := delete_pdr_uplink (sd_teid s) (w_dp w) in
            (ok, if ok then w_set_cache (<[u8 (sd_teid s) := 0]> (w_cache w)) (w_set_dp d w)
                 else w_set_dp d w)
        end
    end in
  match del with
  | (false, w1) => RErr w1
  | (true, w1) =>
      if sd_teid s =? 0 then ROk w1
      else match w_rm w1 with
           | None => RCrash
           | Some r => ROk (w_set_rm (Some (Rman (release_teid sh (s_remote (w_ses w1)) (rm_ft r)) (rm_ip r))) w1)
           end
  end.

(** pfcp_session_handlers.go:447-458: one Remove PDR (unknown ids are ignored). *)
Definition remove_pdr_ie (sh : shuffle) (p : pdr_ie) (w : work) : res :=
  let id := default 0 (pe_id p) in
  match s_pdrs (w_ses w) !! id with
  | None => ROk w
  | Some s => delete_pdr sh s (w_set_ses (ses_remove_pdr id (w_ses w)) w)
  end.

(** display_utils.go:325-387 [displayPdr], called while logging every Create/Update PDR:
    pdi[findIEindex(pdi, SourceInterface)] panics (index -1) when the PDI has no Source
    Interface.  (The other display functions only use checked accessors.) *)
Definition display_crash (p : pdr_ie) : bool :=
  match pe_pdi p with Some d => negb (pi_src d) | None => false end.

(** ** Session handlers *)
Definition new_work (d : dp) (s : session) (rm : option rman) : work := Work d s rm ∅ [] [].

(** pfcp_session_handlers.go:46-121: the rule-processing closure of establishment. *)
Definition est_rules (ueip : bool) (q : est_req) (w : work) : res :=
  rbind (each create_far (eq_fars q) w) (fun w =>
  rbind (each create_qer (eq_qers q) w) (fun w =>
  rbind (each create_urr (eq_urrs q) w) (fun w =>
  each (create_pdr ueip) (eq_pdrs q) w))).

(** pfcp_session_handlers.go:258-461: the closure of modification. *)
Definition mod_rules (ueip : bool) (sh : shuffle) (q : mod_req) (w : work) : res :=
  rbind (each create_far (mq_cfar q) w) (fun w =>
  rbind (each update_far_ie (mq_ufar q) w) (fun w =>
  rbind (each remove_far_ie (mq_rfar q) w) (fun w =>
  rbind (each create_qer (mq_cqer q) w) (fun w =>
  rbind (each update_qer_ie (mq_uqer q) w) (fun w =>
  rbind (each remove_qer_ie (mq_rqer q) w) (fun w =>
  rbind (each create_urr (mq_curr q) w) (fun w =>
  rbind (each update_urr_ie (mq_uurr q) w) (fun w =>
  rbind (each remove_urr_ie (mq_rurr q) w) (fun w =>
  rbind (each (create_pdr ueip) (mq_cpdr q) w) (fun w =>
  rbind (each (update_pdr_ie ueip) (mq_updr q) w) (fun w =>
  each (remove_pdr_ie sh) (mq_rpdr q) w))))))))))).

(** core/pdr.go:33-47 [processCreatedPDRs]. *)
Definition created_of (n3 : N) (p : spdr) : option created :=
  if sd_alloc p then
    match sd_v4 p, sd_v6 p with
    | Some a, _ => Some (CreatedIp (u16 (sd_id p)) a)
    | None, Some _ => None
    | None, None => Some (CreatedTeid (u16 (sd_id p)) (sd_teid p) n3)
    end
  else None.
Definition process_created (n3 : N) (l : list spdr) : list created := omap (created_of n3) l.

Definition set_assocs a c := Conn a (c_dp c) (c_rm c) (c_cfg c).
Definition set_dp_rm d r c := Conn (c_assocs c) d r (c_cfg c).
Definition put_session (addr seid : N) (a : assoc) (s : session) (c : conn) : conn :=
  set_assocs (<[addr := Assoc (a_node a) (a_next a) (<[seid := s]> (a_sessions a))]> (c_assocs c)) c.

(** Cause values (go-pfcp constants ie.Cause...). *)
Definition Accepted := 1. Definition Rejected := 64. Definition NotFound := 65.
Definition MandatoryMissing := 66. Definition MandatoryIncorrect := 69. Definition NoAssociation := 72.
Definition RuleFailure := 73.

Definition resp_cause (ty seq seid cause : N) (node : option N) : response :=
  Resp ty seq seid (Some cause) node None [] [] None None.

(** pfcp_session_handlers.go:498-514 [validateRequest] (486-496: the error becomes cause 66). *)
Definition validate_request (node fseid : fld N) : option N :=
  match node, fseid with Good _, Good s => Some s | _, _ => None end.

(** node_association.go:37-40 [NewLocalSEID] (uint64). *)
Definition next_seid (a : assoc) : N := u64 (a_next a + 1).

(** pfcp_session_handlers.go:20-146 [HandlePfcpSessionEstablishmentRequest]. *)
Definition handle_est (addr seq : N) (q : est_req) (c : conn) : outcome :=
  match validate_request (eq_node q) (eq_fseid q) with
  | None => Done c (Some (resp_cause 51 seq 0 MandatoryMissing (Some (g_node (c_cfg c)))))
  | Some remote =>
    match c_assocs c !! addr with
    | None => Done c (Some (resp_cause 51 seq 0 NoAssociation (Some (g_node (c_cfg c)))))
    | Some a =>
      let lseid := next_seid a in
      let a1 := Assoc (a_node a) lseid (a_sessions a) in
      let c1 := set_assocs (<[addr := a1]> (c_assocs c)) c in
      if existsb display_crash (eq_pdrs q) then Crash else
      match est_rules (g_ueip (c_cfg c)) q (new_work (c_dp c) (new_session lseid remote) (c_rm c)) with
      | RCrash => Crash
      | RErr w => Done (set_dp_rm (w_dp w) (w_rm w) c1)
                       (Some (resp_cause 51 seq remote RuleFailure (Some (g_node (c_cfg c)))))
      | ROk w =>
          Done (set_dp_rm (w_dp w) (w_rm w) (put_session addr lseid a1 (w_ses w) c1))
               (Some (Resp 51 seq remote (Some Accepted) (Some (g_node (c_cfg c)))
                           (Some (lseid, g_addr (c_cfg c)))
                           (process_created (g_n3 (c_cfg c)) (w_created w)) [] None None))
      end
    end
  end.

(** pfcp_connection.go:218-230 [ReleaseResources]. *)
Definition release_resources (sh : shuffle) (seid : N) (rm : option rman) : option rman :=
  match rm with
  | None => None
  | Some r => Some (Rman (release_teid sh seid (rm_ft r)) (release_ip seid (rm_ip r)))
  end.

(** pfcp_session_handlers.go:186-204: URRs of a deleted session; a failing one is skipped. *)
Definition del_urr (e : N * surr) (w : work) : res :=
  match delete_urr (su_gid (snd e)) (w_dp w) with
  | (Some v, d) => ROk (w_add_report (make_report (fst e) (snd e) v) (w_set_dp d w))
  | (None, d) => ROk (w_set_dp d w)
  end.
Definition del_far (e : N * sfar) (w : work) : res :=
  match delete_far (sf_gid (snd e)) (w_dp w) with
  | (true, d) => ROk (w_set_dp d w) | (false, d) => RErr (w_set_dp d w) end.
Definition del_qer (e : N * sqer) (w : work) : res :=
  match delete_qer (sq_gid (snd e)) (w_dp w) with
  | (true, d) => ROk (w_set_dp d w) | (false, d) => RErr (w_set_dp d w) end.

(** pfcp_session_handlers.go:166-204: the four loops over the session's maps, each in an
    arbitrary order. *)
Definition del_rules (sh : shuffle) (s : session) (w : work) : res :=
  rbind (each (fun e => delete_pdr sh (snd e)) (entries sh 0 (s_pdrs s)) w) (fun w =>
  rbind (each del_far (entries sh 1 (s_fars s)) w) (fun w =>
  rbind (each del_qer (entries sh 2 (s_qers s)) w) (fun w =>
  each del_urr (entries sh 3 (s_urrs s)) w))).

(** pfcp_session_handlers.go:148-217 [HandlePfcpSessionDeletionRequest].  On a failure the
    handler returns a response and an error, and Handle (pfcp_handlers.go:29-33) then sends
    nothing. *)
Definition handle_del (sh : shuffle) (addr seq seid : N) (c : conn) : outcome :=
  match c_assocs c !! addr with
  | None => Done c (Some (resp_cause 55 seq 0 NoAssociation None))
  | Some a =>
    match a_sessions a !! seid with
    | None => Done c (Some (resp_cause 55 seq 0 NotFound None))
    | Some s =>
      match del_rules sh s (new_work (c_dp c) s (c_rm c)) with
      | RCrash => Crash
      | RErr w => Done (set_dp_rm (w_dp w) (w_rm w) c) None
      | ROk w =>
          Done (set_dp_rm (w_dp w) (release_resources sh seid (w_rm w))
                  (set_assocs (<[addr := Assoc (a_node a) (a_next a) (delete seid (a_sessions a))]> (c_assocs c)) c))
               (Some (Resp 55 seq (s_remote s) (Some Accepted) None None [] (w_reports w) None None))
      end
    end
  end.

(** pfcp_session_handlers.go:219-484 [HandlePfcpSessionModificationRequest].  The session is
    modified in place, so a failure keeps the changes made so far. *)
Definition handle_mod (sh : shuffle) (addr seq : N) (q : mod_req) (c : conn) : outcome :=
  match c_assocs c !! addr with
  | None => Done c (Some (resp_cause 53 seq (mq_seid q) NoAssociation None))
  | Some a =>
    match a_sessions a !! mq_seid q with
    | None => Done c (Some (resp_cause 53 seq 0 NotFound None))
    | Some s =>
      let s1 := match mq_fseid q with Good r => set_remote r s | _ => s end in
      if existsb display_crash (mq_cpdr q) || existsb display_crash (mq_updr q) then Crash else
      match mod_rules (g_ueip (c_cfg c)) sh q (new_work (c_dp c) s1 (c_rm c)) with
      | RCrash => Crash
      | RErr w => Done (set_dp_rm (w_dp w) (w_rm w) (put_session addr (mq_seid q) a (w_ses w) c))
                       (Some (resp_cause 53 seq (s_remote (w_ses w)) RuleFailure None))
      | ROk w =>
          Done (set_dp_rm (w_dp w) (w_rm w) (put_session addr (mq_seid q) a (w_ses w) c))
               (Some (Resp 53 seq (s_remote (w_ses w)) (Some Accepted) None None
                           (process_created (g_n3 (c_cfg c)) (w_created w)) (w_reports w) None None))
      end
    end
  end.

(** ** Associations *)

(** pfcp_connection.go:82-89, pfcp_handlers.go:48-51: the UP Function Features octets. *)
Definition set_bit (n pos : N) : N := N.lor n (N.shiftl 1 pos).
Definition feature_octets (g : cfg) : list N :=
  [ (if g_ftup g then set_bit 0 4 else 0); set_bit 0 0; (if g_ueip g then set_bit 0 2 else 0) ].

(** node_association.go:25-35 [NewNodeAssociation]. *)
Definition new_assoc (node : N) : assoc := Assoc node 1 ∅.

(** pfcp_handlers.go:104-121, 243-259: an existing association is kept. *)
Definition ensure_assoc (addr node : N) (c : conn) : conn :=
  match c_assocs c !! addr with
  | Some _ => c
  | None => set_assocs (<[addr := new_assoc node]> (c_assocs c)) c
  end.

(** pfcp_handlers.go:54-133 [HandlePfcpAssociationSetupRequest]. *)
Definition handle_setup (addr seq : N) (node rts : fld N) (c : conn) : outcome :=
  match node with
  | Absent => Done c (Some (resp_cause 6 seq 0 MandatoryMissing None))
  | Bad => Done c (Some (resp_cause 6 seq 0 MandatoryIncorrect None))
  | Good n =>
    match rts with
    | Absent => Done c (Some (resp_cause 6 seq 0 MandatoryMissing None))
    | Bad => Done c (Some (resp_cause 6 seq 0 MandatoryIncorrect None))
    | Good _ =>
        Done (ensure_assoc addr n c)
             (Some (Resp 6 seq 0 (Some Accepted) (Some (g_node (c_cfg c))) None [] []
                         (Some (feature_octets (c_cfg c))) (Some (g_rts (c_cfg c)))))
    end
  end.

(** pfcp_handlers.go:135-180 [HandlePfcpAssociationUpdateRequest]. *)
Definition handle_update (addr seq : N) (node : fld N) (c : conn) : outcome :=
  match node with
  | Absent => Done c (Some (resp_cause 8 seq 0 MandatoryMissing None))
  | Bad => Done c (Some (resp_cause 8 seq 0 MandatoryIncorrect None))
  | Good _ =>
      match c_assocs c !! addr with
      | None => Done c (Some (resp_cause 8 seq 0 NoAssociation None))
      | Some _ => Done c (Some (resp_cause 8 seq 0 Accepted (Some (g_node (c_cfg c)))))
      end
  end.

(** pfcp_handlers.go:193-262 [HandlePfcpAssociationSetupResponse]: never answered. *)
Definition handle_setup_resp (addr : N) (node cause features : fld N) (c : conn) : outcome :=
  match node, cause, features with
  | Good n, Good k, Good _ => if k =? Accepted then Done (ensure_assoc addr n c) None else Done c None
  | _, _, _ => Done c None
  end.

(** pfcp_hearbeat.go:11-24 [HandlePfcpHeartbeatRequest]: a nil Recovery Time Stamp is
    dereferenced; an undecodable one is an error, so nothing is sent. *)
Definition handle_hb_req (seq : N) (rts : fld N) (c : conn) : outcome :=
  match rts with
  | Absent => Crash
  | Bad => Done c None
  | Good _ => Done c (Some (Resp 2 seq 0 None None None [] [] None (Some (g_rts (c_cfg c)))))
  end.
(** pfcp_hearbeat.go:26-40 [HandlePfcpHeartbeatResponse]; handing the sequence number to the
    heartbeat task (which may block) is in Heartbeat.v. *)
Definition handle_hb_resp (rts : fld N) (c : conn) : outcome :=
  match rts with Absent => Crash | _ => Done c None end.

(** pfcp_handlers.go:17-46 [Handle] with the table pfcp_connection.go:24-33. *)
Definition handle (sh : shuffle) (addr seq : N) (m : msg) (c : conn) : outcome :=
  match m with
  | HeartbeatReq rts => handle_hb_req seq rts c
  | HeartbeatResp rts => handle_hb_resp rts c
  | AssocSetupReq node rts => handle_setup addr seq node rts c
  | AssocSetupResp node cause features => handle_setup_resp addr node cause features c
  | AssocUpdateReq node => handle_update addr seq node c
  | SessEstReq q => handle_est addr seq q c
  | SessModReq q => handle_mod sh addr seq q c
  | SessDelReq seid => handle_del sh addr seq seid c
  | OtherMsg _ => Done c None
  end.

(** ** Pruning (pfcp_connection.go:182-204): errors are ignored, a panic is not. *)
Definition ign {A} (f : A -> work -> res) (x : A) (w : work) : res :=
  match f x w with ROk w' => ROk w' | RErr w' => ROk w' | RCrash => RCrash end.
(** pfcp_connection.go:193-204 [DeleteSession]. *)
Definition prune_session (sh : shuffle) (s : session) (d : dp) (rm : option rman) : option (dp * option rman) :=
  match
    rbind (each (ign del_far) (entries sh 1 (s_fars s)) (new_work d s rm)) (fun w =>
    rbind (each (ign del_qer) (entries sh 2 (s_qers s)) w) (fun w =>
    each (ign (fun e => delete_pdr sh (snd e))) (entries sh 0 (s_pdrs s)) w))
  with
  | ROk w | RErr w => Some (w_dp w, w_rm w)
  | RCrash => None
  end.
Fixpoint prune_sessions (sh : shuffle) (l : list (N * session)) (d : dp) (rm : option rman)
  : option (dp * option rman) :=
  match l with
  | [] => Some (d, rm)
  | (_, s) :: r => match prune_session sh s d rm with
                   | Some (d', rm') => prune_sessions sh r d' rm'
                   | None => None end
  end.
(** pfcp_connection.go:182-190 [DeleteAssociation]: a nil association is dereferenced. *)
Definition prune (sh : shuffle) (addr : N) (c : conn) : outcome :=
  match c_assocs c !! addr with
  | None => Crash
  | Some a =>
      match prune_sessions sh (entries sh 4 (a_sessions a)) (c_dp c) (c_rm c) with
      | None => Crash
      | Some (d, rm) => Done (set_dp_rm d rm (set_assocs (delete addr (c_assocs c)) c)) None
      end
  end.

(** ** Histories *)

(** Events seen by the PFCP loop: a decoded message from a peer, the failure report of a
    peer's heartbeat task, and traffic: the data plane moves the rate-limiter marks of QERs
    and the counters of URRs (and nothing else of the maps, see Xdp.v). *)
Inductive event :=
| Recv (sh : shuffle) (addr seq : N) (m : msg)
| HeartbeatFailed (sh : shuffle) (addr : N)
| Traffic (marks volumes : gmap N (N * N)).

Definition traffic_qer (m : N * N) (q : qer_info) : qer_info :=
  Qer (qi_ul_gate q) (qi_dl_gate q) (qi_qfi q) (qi_ul_rate q) (qi_dl_rate q) (fst m) (snd m).
Definition traffic_urr (v : N * N) (u : urr_info) : urr_info := Urr (fst v) (snd v).
(** Overwrite the slots named in [n], a slot never written before being zero. *)
Definition touch {A} (z : A) (f : N * N -> A -> A) (n : gmap N (N * N)) (m : gmap N A) : gmap N A :=
  merge (fun v x => match v with Some v => Some (f v (default z x)) | None => x end) n m.
Definition traffic (marks volumes : gmap N (N * N)) (d : dp) : dp :=
  set_urr (touch urr0 traffic_urr volumes (d_urr d)) (set_qer (touch qer0 traffic_qer marks (d_qer d)) d).

Definition step (c : conn) (e : event) : outcome :=
  match e with
  | Recv sh addr seq m => handle sh addr seq m c
  | HeartbeatFailed sh addr => prune sh addr c
  | Traffic marks volumes => Done (set_dp_rm (traffic marks volumes (c_dp c)) (c_rm c) c) None
  end.

Definition event_fair (e : event) : Prop :=
  match e with Recv sh _ _ _ | HeartbeatFailed sh _ => fair sh | Traffic _ _ => True end.

(** One entry of the visible log: the event and the message sent back. *)
Definition log := list (event * option response).

(** A run: [None] if the process crashed. *)
Fixpoint run (c : conn) (es : list event) : option (conn * log) :=
  match es with
  | [] => Some (c, [])
  | e :: r => match step c e with
              | Crash => None
              | Done c1 resp => match run c1 r with
                                | Some (c2, l) => Some (c2, (e, resp) :: l)
                                | None => None end
              end
  end.

Definition init (g : cfg) (rm : option rman) (d : dp) : conn := Conn ∅ d rm g.
