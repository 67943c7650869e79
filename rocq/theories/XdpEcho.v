(** GTP-U echo requests (C36). *)
From Verif Require Import Base IdTracker SdfParser SdfProps MapOps SdfMatch Pfcp Qer Csum Xdp XdpBase XdpProps XdpRules XdpFrames.
Open Scope nat_scope.

(** Where the Recovery IE is put: after the header and, if there are any, its optional 4 bytes. *)
Definition rec (f : list N) : nat := gtp f + 8 + (if gtp_opt f then 4 else 0).
Definition room (f : list N) : bool := rec f + 2 <=? length f.

(** The answer before a Recovery IE is added. *)
Definition echo_swap (f : list N) : list N :=
  let g1 := patch f (gtp f + 1) [2]%N in
  let g2 := patch g1 30 (field g1 26 4) in
  let g3 := patch g2 26 (field g1 30 4) in
  let g4 := patch g3 (l4 f + 2) (field g3 (l4 f) 2) in
  let g5 := patch g4 (l4 f) (field g3 (l4 f + 2) 2) in
  let g6 := patch g5 (l4 f + 6) [0; 0]%N in
  let g7 := patch g6 6 (field g6 0 6) in
  patch g7 0 (field g6 6 6).
Definition echo_recovery (e : env) (f g : list N) : list N :=
  let g1 := patch g (rec f) [14]%N in
  let g2 := patch g1 (rec f + 1) [0]%N in
  let g3 := patch g2 (gtp f + 2) (be16 (be_value (field g2 (gtp f + 2) 2) + 2)) in
  let g4 := patch g3 (l4 f + 4) (be16 (be_value (field g3 (l4 f + 4) 2) + 2)) in
  let g5 := patch g4 16 (be16 (be_value (field g4 16 2) + 2)) in
  let g6 := patch g5 24 [0; 0]%N in
  patch g6 24 (store16 (ipv4_csum (e_diff e) (field g6 14 20))).
Definition echo_frame (e : env) (f : list N) : list N :=
  if room f then echo_recovery e f (echo_swap f) else echo_swap f.

Ltac len := cbn [x_f length be16 be32 store16]; rewrite ?field_length; cbn [length]; lia.

Lemma bind_wr_set {B} o z (k : unit -> M B) g d l P :
  o + length z <= length g ->
  (forall g', g' = patch g o z -> length g' = length g -> k tt (Xst g' d l) = P g') ->
  bind (wr o z) k (Xst g d l) = P (patch g o z).
Proof. intros H1 H2. rewrite bind_wr by done. cbn [x_f x_dp x_log]. apply H2; [done|]. by apply patch_length. Qed.

Lemma echo_eq e f d l : gtp f + 8 <= length f -> 34 <= l4 f ->
  handle_echo_request e (gtp_ctx f) (Xst f d l) = Some (TX, Xst (echo_frame e f) d l).
Proof.
  intros H1 H2. assert (H3 : gtp f = l4 f + 8) by done.
  assert (Hr : gtp f + 8 <= rec f <= gtp f + 12) by (unfold rec; destruct (gtp_opt f); lia).
  unfold handle_echo_request, echo_frame, echo_swap. cbv zeta. cbn [gtp_ctx p_gtp p_ip4 p_udp p_eth].
  rewrite bind_ptr. rewrite bind_wr by len. cbn [x_f x_dp x_log].
  set (g1 := patch f _ _). assert (L1 : length g1 = length f) by (unfold g1; apply patch_length; len).
  rewrite bind_ptr. unfold swap_ip. rewrite bind_assoc, bind_rd by len. rewrite bind_assoc, bind_rd by len. cbn [x_f].
  change (14 + 16) with 30. change (14 + 12) with 26.
  rewrite bind_assoc, bind_wr by len. cbn [x_f x_dp x_log].
  set (g2 := patch g1 _ _). assert (L2 : length g2 = length f) by (unfold g2; rewrite patch_length; len).
  rewrite bind_wr by len. cbn [x_f x_dp x_log].
  set (g3 := patch g2 _ _). assert (L3 : length g3 = length f) by (unfold g3; rewrite patch_length; len).
  rewrite bind_ptr. unfold swap_port. rewrite bind_assoc, bind_rd by len. rewrite bind_assoc, bind_rd by len. cbn [x_f].
  rewrite bind_assoc, bind_wr by len. cbn [x_f x_dp x_log].
  set (g4 := patch g3 _ _). assert (L4 : length g4 = length f) by (unfold g4; rewrite patch_length; len).
  rewrite bind_assoc, bind_wr by len. cbn [x_f x_dp x_log].
  set (g5 := patch g4 _ _). assert (L5 : length g5 = length f) by (unfold g5; rewrite patch_length; len).
  rewrite bind_wr by len. cbn [x_f x_dp x_log].
  set (g6 := patch g5 _ _). assert (L6 : length g6 = length f) by (unfold g6; rewrite patch_length; len).
  rewrite bind_ptr. unfold swap_mac. rewrite bind_assoc, bind_rd by len. rewrite bind_assoc, bind_rd by len. cbn [x_f].
  change (0 + 6) with 6.
  rewrite bind_assoc, bind_wr by len. cbn [x_f x_dp x_log].
  set (g7 := patch g6 _ _). assert (L7 : length g7 = length f) by (unfold g7; rewrite patch_length; len).
  rewrite bind_wr by len. cbn [x_f x_dp x_log].
  set (g8 := patch g7 _ _). assert (L8 : length g8 = length f) by (unfold g8; rewrite patch_length; len).
  assert (Ef : byte g8 (gtp f) = byte f (gtp f)).
  { unfold g8. rewrite byte_patch_hi by len. unfold g7. rewrite byte_patch_hi by len. unfold g6. rewrite byte_patch_hi by len.
    unfold g5. rewrite byte_patch_hi by len. unfold g4. rewrite byte_patch_hi by len. unfold g3. rewrite byte_patch_hi by len.
    unfold g2. rewrite byte_patch_hi by len. unfold g1. by rewrite byte_patch_lo by len. }
  assert (Eo : has_opt (byte g8 (gtp f)) = gtp_opt f) by by rewrite Ef.
  clearbody g8. clear L1 L2 L3 L4 L5 L6 L7 Ef. clear g7 g6 g5 g4 g3 g2 g1.
  unfold insert_recovery. rewrite bind_assoc, bind_rd1 by len. cbn [x_f]. rewrite Eo. rewrite bind_assoc.
  assert (Er : forall b : bool, (gtp f + 8 + (if gtp_opt f then 4 else 0)) = rec f) by done.
  transitivity (bind (if room f then wr (rec f) [14];;; wr (rec f + 1) [0];;; ret 2 else ret 0)%N
    (fun n => (if n =? 0 then ret TX else
      add16 (gtp f + 2) n;;; add16 (l4 f + 4) n;;; add16 (14 + 2) n;;; wr (14 + 10) [0; 0];;; set_ip_csum e 14;;; ret TX)%N)
    (Xst g8 d l)).
  { unfold room, rec. destruct (gtp_opt f); rewrite ?bind_fits, ?bind_ret; cbn [x_f].
    - destruct (gtp f + 8 + 4 <=? length g8) eqn:E1; cbn match.
      + rewrite bind_assoc, bind_fits. cbn [x_f]. by rewrite L8.
      + rewrite (proj2 (Nat.leb_gt _ _)); [done|]. apply Nat.leb_gt in E1. lia.
    - rewrite bind_assoc, bind_fits. cbn [x_f]. by rewrite L8. }
  destruct (room f) eqn:Ero; [|done]. apply Nat.leb_le in Ero.
  rewrite bind_assoc, bind_wr by len. cbn [x_f x_dp x_log]. unfold echo_recovery. cbv zeta.
  set (a1 := patch g8 _ _). assert (A1 : length a1 = length f) by (unfold a1; rewrite patch_length; len).
  rewrite bind_assoc, bind_wr by len. cbn [x_f x_dp x_log].
  set (a2 := patch a1 _ _). assert (A2 : length a2 = length f) by (unfold a2; rewrite patch_length; len).
  rewrite bind_ret. replace (2 =? 0)%N with false by done. cbv iota. unfold add16.
  rewrite bind_assoc, bind_rd by len. rewrite bind_wr by len. cbn [x_f x_dp x_log].
  set (a3 := patch a2 _ _). assert (A3 : length a3 = length f) by (unfold a3; rewrite patch_length; len).
  rewrite bind_assoc, bind_rd by len. rewrite bind_wr by len. cbn [x_f x_dp x_log].
  set (a4 := patch a3 _ _). assert (A4 : length a4 = length f) by (unfold a4; rewrite patch_length; len).
  change (14 + 2) with 16. change (14 + 10) with 24.
  rewrite bind_assoc, bind_rd by len. rewrite bind_wr by len. cbn [x_f x_dp x_log].
  set (a5 := patch a4 _ _). assert (A5 : length a5 = length f) by (unfold a5; rewrite patch_length; len).
  rewrite bind_wr by len. cbn [x_f x_dp x_log].
  set (a6 := patch a5 _ _). assert (A6 : length a6 = length f) by (unfold a6; rewrite patch_length; len).
  unfold set_ip_csum. rewrite bind_assoc, bind_rd by len. cbn [x_f]. rewrite bind_wr by len. done.
Qed.

(** ** Specification *)
(** [g] is the Echo Response to the Echo Request [f]; the length fields of [g] exceed those of [f] by [n] bytes. *)
Record echo_response (f g : list N) (n : N) : Prop := EchoResponse {
  er_length : length g = length f;
  er_macs : field g 0 6 = field f 6 6 /\ field g 6 6 = field f 0 6;
  er_eth : field g 12 2 = field f 12 2;
  er_version : field g 14 2 = field f 14 2;
  er_ip_len : be_value (field g 16 2) = ((be_value (field f 16 2) + n) mod 65536)%N;
  er_ip : field g 18 6 = field f 18 6;
  er_addr : src4 g = dst4 f /\ dst4 g = src4 f;
  er_options : field g 34 (l4 f - 34) = field f 34 (l4 f - 34);
  er_ports : field g (l4 f) 2 = field f (l4 f + 2) 2 /\ field g (l4 f + 2) 2 = field f (l4 f) 2;
  er_udp_len : be_value (field g (l4 f + 4) 2) = ((be_value (field f (l4 f + 4) 2) + n) mod 65536)%N;
  er_udp_csum : field g (l4 f + 6) 2 = [0; 0]%N;
  er_flags : byte g (gtp f) = byte f (gtp f);
  er_type : byte g (gtp f + 1) = 2%N;
  er_gtp_len : be_value (field g (gtp f + 2) 2) = ((be_value (field f (gtp f + 2) 2) + n) mod 65536)%N;
  er_teid : field g (gtp f + 4) 4 = field f (gtp f + 4) 4;
  er_seq : gtp_opt f = true -> field g (gtp f + 8) 4 = field f (gtp f + 8) 4;
  er_rest : forall i, rec f + 2 <= i -> byte g i = byte f i }.

Ltac fpeel g := unfold g; first [rewrite field_patch_lo by len | rewrite field_patch_hi by len | rewrite field_patch_eq by len].
Ltac bpeel g := unfold g; first [rewrite byte_patch_lo by len | rewrite byte_patch_hi by len].

Lemma be16_mod v : be_value (be16 v) = (v mod 65536)%N.
Proof.
  unfold be16, be_value. simpl. change 65536%N with (256 * 256)%N. rewrite N.mod_mul_r by done. lia.
Qed.
Lemma field2_bound (f : list N) o : Forall (fun b => b < 256)%N f -> o + 2 <= length f -> (be_value (field f o 2) < 65536)%N.
Proof.
  intros Hf Hl. assert (Hb : Forall (fun b => b < 256)%N (field f o 2)) by (unfold field; by apply Forall_take, Forall_drop).
  pose proof (be_bound _ Hb) as H. rewrite field_length in H by done. done.
Qed.

Lemma echo_swap_response f : Forall (fun b => b < 256)%N f -> gtp f + 8 <= length f -> 34 <= l4 f -> echo_response f (echo_swap f) 0.
Proof.
  intros Hby H1 H2. assert (H3 : gtp f = l4 f + 8) by done.
  assert (Hr : gtp f + 8 <= rec f <= gtp f + 12) by (unfold rec; destruct (gtp_opt f); lia).
  unfold echo_swap. cbv zeta.
  set (g1 := patch f _ _). assert (L1 : length g1 = length f) by (unfold g1; apply patch_length; len).
  set (g2 := patch g1 _ _). assert (L2 : length g2 = length f) by (unfold g2; rewrite patch_length; len).
  set (g3 := patch g2 _ _). assert (L3 : length g3 = length f) by (unfold g3; rewrite patch_length; len).
  set (g4 := patch g3 _ _). assert (L4 : length g4 = length f) by (unfold g4; rewrite patch_length; len).
  set (g5 := patch g4 _ _). assert (L5 : length g5 = length f) by (unfold g5; rewrite patch_length; len).
  set (g6 := patch g5 _ _). assert (L6 : length g6 = length f) by (unfold g6; rewrite patch_length; len).
  set (g7 := patch g6 _ _). assert (L7 : length g7 = length f) by (unfold g7; rewrite patch_length; len).
  set (g8 := patch g7 _ _). assert (L8 : length g8 = length f) by (unfold g8; rewrite patch_length; len).
  assert (Hlow : forall o, o + 2 <= length f -> field g8 o 2 = field f o 2 -> be_value (field g8 o 2) = ((be_value (field f o 2) + 0) mod 65536)%N).
  { intros o Ho ->. rewrite N.add_0_r, N.mod_small; [done|]. by apply field2_bound. }
  constructor.
  - done.
  - split.
    + fpeel g8. fpeel g6. fpeel g5. fpeel g4. fpeel g3. fpeel g2. fpeel g1. done.
    + fpeel g8. fpeel g7. fpeel g6. fpeel g5. fpeel g4. fpeel g3. fpeel g2. fpeel g1. done.
  - fpeel g8. fpeel g7. fpeel g6. fpeel g5. fpeel g4. fpeel g3. fpeel g2. fpeel g1. done.
  - fpeel g8. fpeel g7. fpeel g6. fpeel g5. fpeel g4. fpeel g3. fpeel g2. fpeel g1. done.
  - apply Hlow; [len|]. fpeel g8. fpeel g7. fpeel g6. fpeel g5. fpeel g4. fpeel g3. fpeel g2. fpeel g1. done.
  - fpeel g8. fpeel g7. fpeel g6. fpeel g5. fpeel g4. fpeel g3. fpeel g2. fpeel g1. done.
  - unfold src4, dst4. split.
    + fpeel g8. fpeel g7. fpeel g6. fpeel g5. fpeel g4. fpeel g3. fpeel g1. done.
    + fpeel g8. fpeel g7. fpeel g6. fpeel g5. fpeel g4. fpeel g3. fpeel g2. fpeel g1. done.
  - fpeel g8. fpeel g7. fpeel g6. fpeel g5. fpeel g4. fpeel g3. fpeel g2. fpeel g1. done.
  - split.
    + fpeel g8. fpeel g7. fpeel g6. fpeel g5. fpeel g3. fpeel g2. fpeel g1. done.
    + fpeel g8. fpeel g7. fpeel g6. fpeel g5. fpeel g4. fpeel g3. fpeel g2. fpeel g1. done.
  - apply Hlow; [len|]. fpeel g8. fpeel g7. fpeel g6. fpeel g5. fpeel g4. fpeel g3. fpeel g2. fpeel g1. done.
  - fpeel g8. fpeel g7. fpeel g6. done.
  - bpeel g8. bpeel g7. bpeel g6. bpeel g5. bpeel g4. bpeel g3. bpeel g2. bpeel g1. done.
  - bpeel g8. bpeel g7. bpeel g6. bpeel g5. bpeel g4. bpeel g3. bpeel g2.
    assert (E : field g1 (gtp f + 1) 1 = [2]%N) by (unfold g1; apply field_patch_eq; len).
    rewrite byte_field in E by lia. congruence.
  - apply Hlow; [len|]. fpeel g8. fpeel g7. fpeel g6. fpeel g5. fpeel g4. fpeel g3. fpeel g2. fpeel g1. done.
  - fpeel g8. fpeel g7. fpeel g6. fpeel g5. fpeel g4. fpeel g3. fpeel g2. fpeel g1. done.
  - intros _. fpeel g8. fpeel g7. fpeel g6. fpeel g5. fpeel g4. fpeel g3. fpeel g2. fpeel g1. done.
  - intros i Hi. bpeel g8. bpeel g7. bpeel g6. bpeel g5. bpeel g4. bpeel g3. bpeel g2. bpeel g1. done.
Qed.

Lemma patch_bytes (f z : list N) o : Forall (fun b => b < 256)%N f -> Forall (fun b => b < 256)%N z -> Forall (fun b => b < 256)%N (patch f o z).
Proof. intros Hf Hz. unfold patch. apply Forall_app; split; [by apply Forall_take|]. apply Forall_app; split; [done|by apply Forall_drop]. Qed.
Lemma field_bytes (f : list N) o n : Forall (fun b => b < 256)%N f -> Forall (fun b => b < 256)%N (field f o n).
Proof. intros Hf. unfold field. by apply Forall_take, Forall_drop. Qed.
Lemma be16_bytes v : Forall (fun b => b < 256)%N (be16 v).
Proof. unfold be16. repeat constructor; by apply N.mod_lt. Qed.
Lemma echo_swap_bytes f : Forall (fun b => b < 256)%N f -> Forall (fun b => b < 256)%N (echo_swap f).
Proof.
  intros Hf. unfold echo_swap. cbv zeta.
  repeat first [apply patch_bytes | apply field_bytes | done | (repeat constructor; done)].
Qed.
Lemma split_header (g : list N) : field g 14 20 = field g 14 10 ++ field g 24 2 ++ field g 26 8.
Proof.
  unfold field. rewrite <- (take_drop 10 (take 20 (drop 14 g))). rewrite take_take. change (10 `min` 20) with 10. f_equal.
  rewrite <- (take_drop 2 (drop 10 (take 20 (drop 14 g)))). rewrite skipn_firstn_comm, drop_drop, take_take. change (2 `min` (20 - 10)) with 2. f_equal.
  rewrite skipn_firstn_comm, drop_drop. done.
Qed.

Lemma echo_recovery_response e f g : env_ok e -> Forall (fun b => b < 256)%N f -> Forall (fun b => b < 256)%N g ->
  gtp f + 8 <= length f -> 34 <= l4 f -> room f = true -> echo_response f g 0 ->
  echo_response f (echo_recovery e f g) 2 /\ field (echo_recovery e f g) (rec f) 2 = [14; 0]%N /\
  checksum_ok (field (echo_recovery e f g) 14 20).
Proof.
  intros He Hbf Hby H1 H2 Hro HR. assert (H3 : gtp f = l4 f + 8) by done.
  pose proof (er_length _ _ _ HR) as L0.
  assert (Hr : gtp f + 8 <= rec f <= gtp f + 12) by (unfold rec; destruct (gtp_opt f); lia).
  apply Nat.leb_le in Hro. unfold echo_recovery. cbv zeta.
  set (a1 := patch g _ _). assert (A1 : length a1 = length f) by (unfold a1; rewrite patch_length; len).
  set (a2 := patch a1 _ _). assert (A2 : length a2 = length f) by (unfold a2; rewrite patch_length; len).
  set (a3 := patch a2 _ _). assert (A3 : length a3 = length f) by (unfold a3; rewrite patch_length; len).
  set (a4 := patch a3 _ _). assert (A4 : length a4 = length f) by (unfold a4; rewrite patch_length; len).
  set (a5 := patch a4 _ _). assert (A5 : length a5 = length f) by (unfold a5; rewrite patch_length; len).
  set (a6 := patch a5 _ _). assert (A6 : length a6 = length f) by (unfold a6; rewrite patch_length; len).
  set (ck := store16 _). assert (Lck : length ck = 2) by done.
  set (a7 := patch a6 _ _). assert (A7 : length a7 = length f) by (unfold a7; rewrite patch_length; len).
  assert (Hlow : forall x, (x < 65536)%N -> ((((x + 0) mod 65536) + 2) mod 65536 = (x + 2) mod 65536)%N).
  { intros x Hx. by rewrite N.add_0_r, (N.mod_small x) by done. }
  assert (Hcs : field a6 24 2 = [0; 0]%N) by (unfold a6; apply field_patch_eq; len).
  assert (Hby6 : Forall (fun b => b < 256)%N a6).
  { unfold a6, a5, a4, a3, a2, a1. repeat first [apply patch_bytes | done | apply be16_bytes | (repeat constructor; done)]. }
  split_and!.
  - constructor.
    + done.
    + split; fpeel a7; fpeel a6; fpeel a5; fpeel a4; fpeel a3; fpeel a2; fpeel a1; apply HR.
    + fpeel a7; fpeel a6; fpeel a5; fpeel a4; fpeel a3; fpeel a2; fpeel a1; apply HR.
    + fpeel a7; fpeel a6; fpeel a5; fpeel a4; fpeel a3; fpeel a2; fpeel a1; apply HR.
    + fpeel a7; fpeel a6; fpeel a5. rewrite be16_mod. fpeel a4. fpeel a3. fpeel a2. fpeel a1. rewrite (er_ip_len _ _ _ HR).
      apply Hlow. apply field2_bound; [done|lia].
    + fpeel a7; fpeel a6; fpeel a5; fpeel a4; fpeel a3; fpeel a2; fpeel a1; apply HR.
    + unfold src4, dst4. split; fpeel a7; fpeel a6; fpeel a5; fpeel a4; fpeel a3; fpeel a2; fpeel a1; apply HR.
    + fpeel a7; fpeel a6; fpeel a5; fpeel a4; fpeel a3; fpeel a2; fpeel a1; apply HR.
    + split; fpeel a7; fpeel a6; fpeel a5; fpeel a4; fpeel a3; fpeel a2; fpeel a1; apply HR.
    + fpeel a7; fpeel a6; fpeel a5. fpeel a4. rewrite be16_mod. fpeel a3. fpeel a2. fpeel a1. rewrite (er_udp_len _ _ _ HR).
      apply Hlow. apply field2_bound; [done|lia].
    + fpeel a7; fpeel a6; fpeel a5; fpeel a4; fpeel a3; fpeel a2; fpeel a1; apply HR.
    + bpeel a7; bpeel a6; bpeel a5; bpeel a4; bpeel a3; bpeel a2; bpeel a1; apply HR.
    + bpeel a7; bpeel a6; bpeel a5; bpeel a4; bpeel a3; bpeel a2; bpeel a1; apply HR.
    + fpeel a7; fpeel a6; fpeel a5. fpeel a4. fpeel a3. rewrite be16_mod. fpeel a2. fpeel a1. rewrite (er_gtp_len _ _ _ HR).
      apply Hlow. apply field2_bound; [done|lia].
    + fpeel a7; fpeel a6; fpeel a5; fpeel a4; fpeel a3; fpeel a2; fpeel a1; apply HR.
    + intros Ho. assert (rec f = gtp f + 12) by (unfold rec; rewrite Ho; lia).
      fpeel a7; fpeel a6; fpeel a5; fpeel a4; fpeel a3; fpeel a2; fpeel a1. by apply HR.
    + intros i Hi. bpeel a7; bpeel a6; bpeel a5; bpeel a4; bpeel a3; bpeel a2; bpeel a1; by apply HR.
  - assert (E : forall x : list N, rec f + 2 <= length x -> field x (rec f) 2 = field x (rec f) 1 ++ field x (rec f + 1) 1).
    { intros x Hx. unfold field. rewrite <- (take_drop 1 (take 2 (drop (rec f) x))). rewrite take_take, skipn_firstn_comm, drop_drop. done. }
    fpeel a7; fpeel a6; fpeel a5; fpeel a4; fpeel a3. rewrite E by lia. change [14; 0]%N with ([14] ++ [0])%N. f_equal; fpeel a2; [|done].
    fpeel a1. done.
  - rewrite split_header. fpeel a7. rewrite (field_patch_eq a6 ck 24 2) by lia. rewrite (field_patch_hi a6 ck 24 26 8) by lia.
    unfold ck. rewrite (split_header a6), Hcs. apply ip_checksum_correct.
    + apply He.
    + apply Forall_app; split; by apply field_bytes.
    + rewrite field_length by lia. by exists 5.
Qed.

Lemma echo_swap_head f o n : gtp f + 8 <= length f -> 34 <= l4 f -> 12 <= o -> o + n <= 26 -> field (echo_swap f) o n = field f o n.
Proof.
  intros H1 H2 Ho Hn. assert (H3 : gtp f = l4 f + 8) by done. unfold echo_swap. cbv zeta.
  set (g1 := patch f _ _). assert (L1 : length g1 = length f) by (unfold g1; apply patch_length; len).
  set (g2 := patch g1 _ _). assert (L2 : length g2 = length f) by (unfold g2; rewrite patch_length; len).
  set (g3 := patch g2 _ _). assert (L3 : length g3 = length f) by (unfold g3; rewrite patch_length; len).
  set (g4 := patch g3 _ _). assert (L4 : length g4 = length f) by (unfold g4; rewrite patch_length; len).
  set (g5 := patch g4 _ _). assert (L5 : length g5 = length f) by (unfold g5; rewrite patch_length; len).
  set (g6 := patch g5 _ _). assert (L6 : length g6 = length f) by (unfold g6; rewrite patch_length; len).
  set (g7 := patch g6 _ _). assert (L7 : length g7 = length f) by (unfold g7; rewrite patch_length; len).
  set (g8 := patch g7 _ _).
  fpeel g8. fpeel g7. fpeel g6. fpeel g5. fpeel g4. fpeel g3. fpeel g2. fpeel g1. done.
Qed.

(** The IPv4 header of a frame, options included. *)
Definition ip_header (f : list N) : list N := field f 14 (l4 f - 14).

Lemma field_split (g : list N) o a b : field g o (a + b) = field g o a ++ field g (o + a) b.
Proof.
  unfold field. rewrite <- (take_drop a (take (a + b) (drop o g))). rewrite take_take, skipn_firstn_comm, drop_drop.
  rewrite Nat.min_l by lia. by replace (a + b - a) with b by lia.
Qed.

(** ** C36 *)
Theorem echo_answered_partial :
  forall e f d, env_ok e -> Forall (fun b => b < 256)%N f -> echo_request e f = true -> (5 <= byte f 14 mod 16)%N ->
    exists g l, xdp e f d = Some (TX, Xst g d l) /\
      (if rec f + 2 <=? length f
       then echo_response f g 2 /\ field g (rec f) 2 = [14; 0]%N /\ checksum_ok (field g 14 20)
       else echo_response f g 0 /\ (checksum_ok (ip_header g) <-> checksum_ok (ip_header f))).
Proof.
  intros e f d He Hby Hq Hihl.
  assert (Hl4 : 34 <= l4 f) by (unfold l4; lia).
  assert (Hg : gpdu e f = false).
  { unfold echo_request in Hq. unfold gpdu. destruct (gtpu e f); [|done]. simpl in *. apply bool_decide_eq_true in Hq. by rewrite Hq. }
  assert (Hl : gtp f + 8 <= length f).
  { unfold echo_request, gtp_type in Hq. destruct (Nat.leb_spec (gtp f + 8) (length f)); [done|]. by rewrite andb_false_r in Hq. }
  exists (echo_frame e f). eexists. rewrite xdp_dispatch. unfold dispatch. rewrite Hg, Hq, echo_eq by done. cbn [finish x_f x_dp x_log].
  split; [done|]. unfold echo_frame. change (rec f + 2 <=? length f) with (room f).
  pose proof (echo_swap_response f Hby Hl Hl4) as HR.
  destruct (room f) eqn:Hro.
  - apply echo_recovery_response; try done. by apply echo_swap_bytes.
  - split; [done|].
    assert (Ehd : forall x : list N, l4 x = l4 f -> ip_header x = field x 14 2 ++ field x 16 2 ++ field x 18 6 ++ field x 24 2 ++ src4 x ++ dst4 x ++ field x 34 (l4 f - 34)).
    { intros x Ex. unfold ip_header, src4, dst4. rewrite Ex. replace (l4 f - 14) with (2 + (2 + (6 + (2 + (4 + (4 + (l4 f - 34))))))) by lia.
      by rewrite !field_split. }
    assert (El : l4 (echo_swap f) = l4 f).
    { unfold l4. do 2 f_equal. pose proof (er_version _ _ _ HR) as E. pose proof (er_length _ _ _ HR) as L.
      assert (Ev : field (echo_swap f) 14 1 = field f 14 1).
      { unfold field in E |- *. apply (f_equal (take 1)) in E. rewrite !take_take in E. done. }
      rewrite !byte_field in Ev by (unfold gtp in *; lia). by injection Ev as ->. }
    rewrite (Ehd _ El), (Ehd f eq_refl).
    rewrite !echo_swap_head by lia. destruct (er_addr _ _ _ HR) as [-> ->]. rewrite (er_options _ _ _ HR).
    assert (L : forall o n, o + n <= l4 f -> length (field f o n) = n) by (intros o n Ho; apply field_length; unfold gtp in Hl; lia).
    assert (B : forall o n, Forall is_byte (field f o n)) by (intros; by apply field_bytes).
    unfold src4, dst4. rewrite !app_assoc. remember (field f 14 2 ++ field f 16 2 ++ field f 18 6 ++ field f 24 2) as A eqn:EA.
    assert (LA : length A = 12) by (rewrite EA, !app_length, !L by lia; done).
    assert (BA : Forall is_byte A) by (rewrite EA; by repeat (apply Forall_app; split)).
    rewrite <- !app_assoc, app_assoc, app_assoc, app_assoc in *. rewrite <- !app_assoc in EA. rewrite <- !app_assoc.
    assert (Ev : forall k, Nat.Even (2 * k)) by (intros k; by exists k).
    rewrite !checksum_ok_le by (repeat (apply Forall_app; split); done).
    enough (E : total le (A ++ field f 30 4 ++ field f 26 4 ++ field f 34 (l4 f - 34)) = total le (A ++ field f 26 4 ++ field f 30 4 ++ field f 34 (l4 f - 34))).
    { rewrite EA in E. rewrite <- !app_assoc in E. by rewrite E. }
    rewrite !total_app by (rewrite ?LA, ?L by lia; (by exists 6) || (by exists 2)). lia.
Qed.
