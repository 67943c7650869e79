(** Memory layout of the structures shared between Go and the BPF program.
    Little-endian fields at fixed offsets (bpf2go target "bpf" is compiled and run on a little-endian host). *)
From Verif Require Import Base SdfProps SdfMatch MapOps Xdp XdpBase XdpFrames.
Open Scope N_scope.

(** A field: offset and width in bytes. *)
Definition slot := (nat * nat)%type.

(** The [w] low bytes of [v], least significant first. *)
Fixpoint le_bytes (w : nat) (v : N) : list N :=
  match w with O => [] | S w => v mod 256 :: le_bytes w (v / 256) end.
(** Reading and writing a field. *)
Definition peek (mem : list N) (x : slot) : N := le_value (field mem (fst x) (snd x)).
Definition poke (mem : list N) (x : slot) (v : N) : list N := patch mem (fst x) (le_bytes (snd x) v).
Definition pokes (mem : list N) (l : list (slot * N)) : list N := foldl (fun m e => poke m (fst e) (snd e)) mem l.

Lemma le_bytes_length w : forall v, length (le_bytes w v) = w.
Proof. induction w as [|w IH]; intros v; simpl; [done|]. by rewrite IH. Qed.
Lemma be_value_snoc l x : be_value (l ++ [x]) = 256 * be_value l + x.
Proof. unfold be_value. by rewrite foldl_app. Qed.
Lemma le_value_cons x l : le_value (x :: l) = x + 256 * le_value l.
Proof. unfold le_value. simpl. rewrite be_value_snoc. lia. Qed.
Lemma le_value_bytes w : forall v, le_value (le_bytes w v) = v mod 256 ^ N.of_nat w.
Proof.
  induction w as [|w IH]; intros v.
  - simpl. change (256 ^ N.of_nat 0) with 1. by rewrite N.mod_1_r.
  - cbn [le_bytes]. rewrite le_value_cons, IH. rewrite Nat2N.inj_succ, N.pow_succ_r'.
    rewrite N.mod_mul_r by (try apply N.pow_nonzero; done). lia.
Qed.
Lemma poke_length mem x v : (fst x + snd x <= length mem)%nat -> length (poke mem x v) = length mem.
Proof. intros H. unfold poke. rewrite patch_length; [done|]. rewrite le_bytes_length. lia. Qed.
Lemma peek_poke mem x v : (fst x + snd x <= length mem)%nat -> peek (poke mem x v) x = v mod 256 ^ N.of_nat (snd x).
Proof.
  intros H. unfold peek, poke. rewrite <- (le_bytes_length (snd x) v) at 2. rewrite field_patch_same by (rewrite le_bytes_length; lia).
  apply le_value_bytes.
Qed.
Definition apart (x y : slot) : Prop := (fst x + snd x <= fst y \/ fst y + snd y <= fst x)%nat.
Lemma peek_poke_apart mem x y v : apart x y -> (fst x + snd x <= length mem)%nat -> peek (poke mem x v) y = peek mem y.
Proof.
  intros H1 H2. unfold peek, poke. f_equal. destruct H1 as [H1|H1].
  - apply field_patch_hi; rewrite le_bytes_length; lia.
  - apply field_patch_lo; lia.
Qed.
Lemma pokes_length mem l : Forall (fun e : slot * N => (fst (fst e) + snd (fst e) <= length mem)%nat) l -> length (pokes mem l) = length mem.
Proof.
  revert mem. induction l as [|e l IH]; intros mem H; [done|]. inversion H as [|? ? H1 H2]; subst.
  unfold pokes. simpl. fold (pokes (poke mem (fst e) (snd e)) l). rewrite IH; rewrite poke_length; done.
Qed.
Lemma peek_pokes_apart mem l y : Forall (fun e : slot * N => (fst (fst e) + snd (fst e) <= length mem)%nat /\ apart (fst e) y) l ->
  peek (pokes mem l) y = peek mem y.
Proof.
  revert mem. induction l as [|e l IH]; intros mem H; [done|]. inversion H as [|? ? [H1 H1'] H2]; subst.
  unfold pokes. simpl. fold (pokes (poke mem (fst e) (snd e)) l). rewrite IH; [by apply peek_poke_apart|].
  rewrite poke_length by done. done.
Qed.
(** Writing a list of non-overlapping fields and reading one of them. *)
Lemma peek_pokes mem l1 x v l2 : (fst x + snd x <= length mem)%nat -> v < 256 ^ N.of_nat (snd x) ->
  Forall (fun e : slot * N => (fst (fst e) + snd (fst e) <= length mem)%nat) l1 ->
  Forall (fun e : slot * N => (fst (fst e) + snd (fst e) <= length mem)%nat /\ apart (fst e) x) l2 ->
  peek (pokes mem (l1 ++ (x, v) :: l2)) x = v.
Proof.
  intros Hx Hv H1 H2. unfold pokes. rewrite foldl_app. fold (pokes mem l1). simpl.
  fold (pokes (poke (pokes mem l1) x v) l2).
  assert (L : length (pokes mem l1) = length mem) by by apply pokes_length.
  rewrite peek_pokes_apart; [|rewrite poke_length by (simpl; rewrite L; lia); by rewrite L].
  rewrite peek_poke by (rewrite L; lia). by apply N.mod_small.
Qed.

(** A list of fields that fit in [len] bytes and do not overlap. *)
Definition apart_b (x y : slot) : bool := (fst x + snd x <=? fst y)%nat || (fst y + snd y <=? fst x)%nat.
Fixpoint disjoint_b (len : nat) (l : list slot) : bool :=
  match l with [] => true | x :: l => (fst x + snd x <=? len)%nat && forallb (apart_b x) l && disjoint_b len l end.
Lemma apart_b_ok x y : apart_b x y = true -> apart x y /\ apart y x.
Proof. unfold apart_b, apart. rewrite orb_true_iff, !Nat.leb_le. lia. Qed.
Lemma disjoint_bound len l x : disjoint_b len l = true -> x ∈ l -> (fst x + snd x <= len)%nat.
Proof.
  induction l as [|y l IH]; intros H Hx; [by apply elem_of_nil in Hx|]. simpl in H. rewrite !andb_true_iff, Nat.leb_le in H.
  apply elem_of_cons in Hx as [->|Hx]; [lia|]. apply IH; tauto.
Qed.
Theorem peek_written mem l x v : disjoint_b (length mem) (fst <$> l) = true -> (x, v) ∈ l -> v < 256 ^ N.of_nat (snd x) ->
  peek (pokes mem l) x = v.
Proof.
  intros Hd Hin Hv. apply elem_of_list_split in Hin as (l1 & l2 & ->).
  assert (Hb : forall e, e ∈ l1 ++ (x, v) :: l2 -> (fst (fst e) + snd (fst e) <= length mem)%nat).
  { intros e He. apply (disjoint_bound _ _ _ Hd). by apply elem_of_list_fmap_1. }
  apply peek_pokes; [apply (Hb (x, v)); set_solver|done| |].
  - apply Forall_forall. intros e He. apply Hb. set_solver.
  - clear Hb Hv. assert (Hd2 : disjoint_b (length mem) (x :: (fst <$> l2)) = true).
    { clear -Hd. induction l1 as [|y r IH]; [exact Hd|]. apply IH. simpl in Hd. rewrite !andb_true_iff in Hd. apply Hd. }
    apply Forall_forall. intros e He. assert (Hm : e.1 ∈ fst <$> l2) by by apply elem_of_list_fmap_1. split.
    + apply (disjoint_bound _ _ _ Hd2). by right.
    + simpl in Hd2. rewrite !andb_true_iff, forallb_forall in Hd2. destruct Hd2 as [[_ Ha] _].
      apply apart_b_ok. apply Ha. by apply elem_of_list_In.
Qed.

(** ** The structures *)

(** xdp/pdr.h:110-117 [far_info]: offsets by the C ABI (4-byte alignment of __u32); size 16. *)
Definition c_far_action : slot := (0, 1)%nat.  Definition c_far_ohc : slot := (1, 1)%nat.
Definition c_far_teid : slot := (4, 4)%nat.    Definition c_far_ip : slot := (8, 4)%nat.
Definition c_far_tlm : slot := (12, 2)%nat.    Definition c_far_size : nat := 16.
(** ebpf/pdr.go:153-159 [FarInfo]: offsets by Go's alignment rules; size 16. *)
Definition go_far_action : slot := (0, 1)%nat. Definition go_far_ohc : slot := (1, 1)%nat.
Definition go_far_teid : slot := (4, 4)%nat.   Definition go_far_ip : slot := (8, 4)%nat.
Definition go_far_tlm : slot := (12, 2)%nat.
(** What the BPF program reads in a slot of far_map, and a slot with these fields ([mem]: the bytes in between). *)
Definition c_far (mem : list N) : far_info :=
  Far (peek mem c_far_action) (peek mem c_far_ohc) (peek mem c_far_teid) (peek mem c_far_ip) (peek mem c_far_tlm).
Definition c_far_mem (mem : list N) (f : far_info) : list N :=
  pokes mem [(c_far_action, fi_action f); (c_far_ohc, fi_ohc f); (c_far_teid, fi_teid f); (c_far_ip, fi_remote f); (c_far_tlm, fi_tlm f)].
Definition go_far (mem : list N) : far_info :=
  Far (peek mem go_far_action) (peek mem go_far_ohc) (peek mem go_far_teid) (peek mem go_far_ip) (peek mem go_far_tlm).
Definition go_far_mem (mem : list N) (f : far_info) : list N :=
  pokes mem [(go_far_action, fi_action f); (go_far_ohc, fi_ohc f); (go_far_teid, fi_teid f); (go_far_ip, fi_remote f); (go_far_tlm, fi_tlm f)].
(** Values that the fields can hold. *)
Definition far_fits (f : far_info) : Prop :=
  fi_action f < 256 /\ fi_ohc f < 256 /\ fi_teid f < 4294967296 /\ fi_remote f < 4294967296 /\ fi_tlm f < 65536.

(** xdp/qer.h:30-38 [qer_info]: size 32. *)
Definition c_qer_ul_gate : slot := (0, 1)%nat.  Definition c_qer_dl_gate : slot := (1, 1)%nat.
Definition c_qer_qfi : slot := (2, 1)%nat.      Definition c_qer_ul_rate : slot := (4, 4)%nat.
Definition c_qer_dl_rate : slot := (8, 4)%nat.  Definition c_qer_ul_start : slot := (16, 8)%nat.
Definition c_qer_dl_start : slot := (24, 8)%nat. Definition c_qer_size : nat := 32.
(** ebpf/pdr.go:194-202 [QerInfo]: size 32. *)
Definition go_qer_ul_gate : slot := (0, 1)%nat. Definition go_qer_dl_gate : slot := (1, 1)%nat.
Definition go_qer_qfi : slot := (2, 1)%nat.     Definition go_qer_ul_rate : slot := (4, 4)%nat.
Definition go_qer_dl_rate : slot := (8, 4)%nat. Definition go_qer_ul_start : slot := (16, 8)%nat.
Definition go_qer_dl_start : slot := (24, 8)%nat.
Definition c_qer (mem : list N) : qer_info :=
  Qer (peek mem c_qer_ul_gate) (peek mem c_qer_dl_gate) (peek mem c_qer_qfi) (peek mem c_qer_ul_rate) (peek mem c_qer_dl_rate)
    (peek mem c_qer_ul_start) (peek mem c_qer_dl_start).
Definition c_qer_mem (mem : list N) (q : qer_info) : list N :=
  pokes mem [(c_qer_ul_gate, qi_ul_gate q); (c_qer_dl_gate, qi_dl_gate q); (c_qer_qfi, qi_qfi q); (c_qer_ul_rate, qi_ul_rate q);
    (c_qer_dl_rate, qi_dl_rate q); (c_qer_ul_start, qi_ul_start q); (c_qer_dl_start, qi_dl_start q)].
Definition go_qer (mem : list N) : qer_info :=
  Qer (peek mem go_qer_ul_gate) (peek mem go_qer_dl_gate) (peek mem go_qer_qfi) (peek mem go_qer_ul_rate) (peek mem go_qer_dl_rate)
    (peek mem go_qer_ul_start) (peek mem go_qer_dl_start).
Definition go_qer_mem (mem : list N) (q : qer_info) : list N :=
  pokes mem [(go_qer_ul_gate, qi_ul_gate q); (go_qer_dl_gate, qi_dl_gate q); (go_qer_qfi, qi_qfi q); (go_qer_ul_rate, qi_ul_rate q);
    (go_qer_dl_rate, qi_dl_rate q); (go_qer_ul_start, qi_ul_start q); (go_qer_dl_start, qi_dl_start q)].
Definition qer_fits (q : qer_info) : Prop :=
  qi_ul_gate q < 256 /\ qi_dl_gate q < 256 /\ qi_qfi q < 256 /\ qi_ul_rate q < 4294967296 /\ qi_dl_rate q < 4294967296 /\
  qi_ul_start q < 18446744073709551616 /\ qi_dl_start q < 18446744073709551616.

(** xdp/urr.h:25-28 [urr_info] and ebpf/pdr.go:225-228 [UrrInfo]: size 16. *)
Definition c_urr_ul : slot := (0, 8)%nat. Definition c_urr_dl : slot := (8, 8)%nat. Definition c_urr_size : nat := 16.
Definition go_urr_ul : slot := (0, 8)%nat. Definition go_urr_dl : slot := (8, 8)%nat.
Definition c_urr (mem : list N) : urr_info := Urr (peek mem c_urr_ul) (peek mem c_urr_dl).
Definition c_urr_mem (mem : list N) (u : urr_info) : list N := pokes mem [(c_urr_ul, ui_ul u); (c_urr_dl, ui_dl u)].
Definition go_urr (mem : list N) : urr_info := Urr (peek mem go_urr_ul) (peek mem go_urr_dl).
Definition go_urr_mem (mem : list N) (u : urr_info) : list N := pokes mem [(go_urr_ul, ui_ul u); (go_urr_dl, ui_dl u)].
Definition urr_fits (u : urr_info) : Prop := ui_ul u < 18446744073709551616 /\ ui_dl u < 18446744073709551616.

(** Go and the BPF program agree on FARs, QERs and URRs: what one writes the other reads, whatever the padding. *)
Theorem far_layouts_agree :
  forall mem f, length mem = c_far_size -> far_fits f -> c_far (go_far_mem mem f) = f /\ go_far (c_far_mem mem f) = f.
Proof.
  intros mem f Hm (H1 & H2 & H3 & H4 & H5). destruct f as [a b c d e]; simpl in *.
  split; (unfold c_far, go_far, c_far_mem, go_far_mem; f_equal;
    (apply peek_written; [by rewrite Hm|repeat constructor|done])).
Qed.
Theorem qer_layouts_agree :
  forall mem q, length mem = c_qer_size -> qer_fits q -> c_qer (go_qer_mem mem q) = q /\ go_qer (c_qer_mem mem q) = q.
Proof.
  intros mem q Hm (H1 & H2 & H3 & H4 & H5 & H6 & H7). destruct q as [a b c d e f g]; simpl in *.
  split; (unfold c_qer, go_qer, c_qer_mem, go_qer_mem; f_equal;
    (apply peek_written; [by rewrite Hm|repeat constructor|done])).
Qed.
Theorem urr_layouts_agree :
  forall mem u, length mem = c_urr_size -> urr_fits u -> c_urr (go_urr_mem mem u) = u /\ go_urr (c_urr_mem mem u) = u.
Proof.
  intros mem q Hm (H1 & H2). destruct q as [a b]; simpl in *.
  split; (unfold c_urr, go_urr, c_urr_mem, go_urr_mem; f_equal;
    (apply peek_written; [by rewrite Hm|repeat constructor|done])).
Qed.
Example ex_far_layout : c_far (go_far_mem (replicate 16 0) (Far 2 1 1025 134217738 65532)) = Far 2 1 1025 134217738 65532 /\
  go_far_mem (replicate 16 0) (Far 2 1 1025 134217738 65532) = [2;1;0;0; 1;4;0;0; 10;0;0;8; 252;255;0;0].
Proof. by vm_compute. Qed.

(** xdp/pdr.h:54-62 [pdr_info]: the members before sdf_rules; sdf_rules is aligned to 16 (__u128 in
    xdp/sdf_filter.h:33-42), so the first 32 bytes are these and padding; the whole is 208 bytes. *)
Definition c_pdr_far : slot := (0, 4)%nat.   Definition c_pdr_qer : slot := (4, 4)%nat.  Definition c_pdr_urr1 : slot := (8, 4)%nat.
Definition c_pdr_urr2 : slot := (12, 4)%nat. Definition c_pdr_ohr : slot := (16, 1)%nat. Definition c_pdr_mode : slot := (17, 1)%nat.
(** ebpf/pdr.go:17-24 [PdrInfo]: uint8, four uint32, a pointer; size 32. *)
Definition go_pdr_ohr : slot := (0, 1)%nat. Definition go_pdr_far : slot := (4, 4)%nat. Definition go_pdr_qer : slot := (8, 4)%nat.
Definition go_pdr_urr1 : slot := (12, 4)%nat. Definition go_pdr_urr2 : slot := (16, 4)%nat. Definition go_pdr_sdf : slot := (24, 8)%nat.
Definition pdr_head : nat := 32.
(** The first 32 bytes of an entry of the data plane. *)
Definition c_pdr_mem (mem : list N) (p : ep_pdr) : list N :=
  pokes mem [(c_pdr_far, ep_far p); (c_pdr_qer, ep_qer p); (c_pdr_urr1, ep_urr1 p); (c_pdr_urr2, ep_urr2 p); (c_pdr_ohr, ep_ohr p); (c_pdr_mode, ep_mode p)].
(** The first members of the entry that the BPF program finds in the bytes. *)
Definition c_pdr (mem : list N) (rules : ep_rules) : ep_pdr :=
  EpPdr (peek mem c_pdr_far) (peek mem c_pdr_qer) (peek mem c_pdr_urr1) (peek mem c_pdr_urr2) (peek mem c_pdr_ohr) (peek mem c_pdr_mode) rules.
Definition ep_fits (p : ep_pdr) : Prop :=
  ep_far p < 4294967296 /\ ep_qer p < 4294967296 /\ ep_urr1 p < 4294967296 /\ ep_urr2 p < 4294967296 /\ ep_ohr p < 256 /\ ep_mode p < 256.
